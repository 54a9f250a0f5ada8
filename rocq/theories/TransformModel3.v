(** transform.Writer.Close of golang.org/x/text v0.14.0 (NOT code of /repo; as published in
    transform/transform.go, see TransformModel.v). *)
From Coq Require Import ZArith List.
From Verif Require Import Base Spec Cp949Model TransformModel.
Import ListNotations.
Local Open Scope Z_scope.
Local Open Scope go_scope.

Section Clients.
Variable T : list Z -> list Z -> bool -> res transform_result.
Variable WS : Type.
Variable wr : WS -> list Z -> option error * WS.

(* With the transformers of encoding.go (lines 28-53), which never return ErrShortSrc, no
   source bytes are kept between calls: Close transforms the empty slice and writes the
   result; it would loop on ErrShortDst only, which they do not return either. *)
Definition TClose (w : twriter WS) : res (option error * twriter WS) :=
  let! (d, nDst, nSrc, err) := T (tw_buf _ w) [] true in
  if nDst >? zlen d then Panic else
  let '(werr, dst) := wr (tw_dst _ w) (ztake nDst d) in
  match werr with
  | Some e => Ok (Some e, mkTW _ dst d)
  | None => Ok (err, mkTW _ dst d)
  end.
End Clients.
