(** golang.org/x/text/transform v0.14.0: Append (NOT code of /repo; from its published source, see
    TransformModel.v).  A Decoder or Encoder of encoding/cp949/encoding.go:15-23 may be given to it. *)
From Coq Require Import ZArith List Bool.
From Verif Require Import Base Cp949Model TransformModel.
Import ListNotations.
Local Open Scope Z_scope.
Local Open Scope go_scope.

Section Append.
Variable T : list Z -> list Z -> bool -> res transform_result.

(* transform.grow: the length of the new buffer *)
Definition grown_len (m : Z) : Z := if m <=? 32 then 64 else if m <=? 256 then m * 2 else m + Z.shiftr m 1.

(* transform.doAppend; [dst] is the destination with its whole capacity.  [old] is the array the
   caller gave, once the destination has moved to another one; it is returned with the result,
   the number of bytes consumed and the error. *)
Fixpoint append_loop (fuel : nat) (old : option (list Z)) (pDst : Z) (dst : list Z) (pSrc : Z) (src : list Z)
  : res (slice * Z * option error * list Z) :=
  match fuel with
  | O => Fuel
  | S fuel =>
    if (pDst >? zlen dst) || (pSrc >? zlen src) then Panic else
    let! (d, nDst, nSrc, err) := T (zdrop pDst dst) (zdrop pSrc src) true in
    let dst := ztake pDst dst ++ d in
    let pDst := pDst + nDst in
    let pSrc := pSrc + nSrc in
    let now := match old with Some a => a | None => dst end in
    if is_short_dst err then
      if nDst =? 0 then append_loop fuel (Some now) pDst (ztake pDst dst ++ zeros (grown_len (zlen dst) - pDst)) pSrc src
      else append_loop fuel old pDst dst pSrc src
    else if pDst >? zlen dst then Panic     (* dst[:pDst] *)
    else Ok (mkSlice dst pDst, pSrc, err, now)
  end.

(* transform.Append: a full destination is first copied to an array with room for len(src) bytes. *)
Definition Append (fuel : nat) (dst : slice) (src : list Z) : res (slice * Z * option error * list Z) :=
  if slen dst =? scap dst then append_loop fuel (Some (arr dst)) (slen dst) (arr dst ++ zeros (zlen src)) 0 src
  else append_loop fuel None (slen dst) (arr dst) 0 src.
End Append.
