(** The Read of public.go over a wrapped reader that also uses the rest of the buffer it is
    given as scratch space, which the contract of io.Reader allows ("Even if Read returns
    n < len(p), it may use all of p as scratch space during the call").  StreamModel.v
    leaves that part of the buffer untouched. *)
From Coq Require Import ZArith List Bool.
From Verif Require Import Base Utf8 SortSearch TableFrom TableTo Cp949Model StreamModel.
Import ListNotations.
Local Open Scope Z_scope.
Local Open Scope go_scope.

Section Reader.
Variable grow : Z -> Z -> Z.
Variable RS : Type.
(* [junk s k] is what Read on a buffer of length [k] leaves behind the bytes it reports;
   the runtime keeps it inside the buffer. *)
Variable rd : RS -> Z -> list Z * option error * RS.
Variable junk : RS -> Z -> list Z.
Notation reader := (reader RS).

(* encoding/cp949/public.go:66-74 *)
Definition fill2 (r : reader) (buflen : Z) : res reader :=
  let! rdata := ensureCap (r_rdata _ r) (slen (r_rdata _ r) + buflen) in
  let room := scap rdata - slen rdata in
  let '(bs, err, src) := rd (r_src _ r) room in
  let n := zlen bs in
  let err := match err with
             | None => if n =? 0 then Some EOF else None
             | Some e => Some e
             end in
  if slen rdata + n >? scap rdata then Panic else
  let stored := ztake room (bs ++ junk (r_src _ r) room) in
  let! rdata := reslice (mkSlice (zwrite (arr rdata) (slen rdata) stored) (slen rdata))
                        (slen rdata + n) in
  Ok (mkReader _ src (r_scratch _ r) (r_cdata_lo _ r) (r_cdata_hi _ r) rdata err).

(* encoding/cp949/public.go:59-94; only the call of the wrapped reader differs from
   StreamModel.Read. *)
Fixpoint Read2 (fuel : nat) (r : reader) (buflen : Z)
  : res (list Z * option error * reader) :=
  match fuel with
  | O => Fuel
  | S fuel =>
    if r_cdata_hi _ r - r_cdata_lo _ r >? 0 then
      let n := Z.min buflen (r_cdata_hi _ r - r_cdata_lo _ r) in
      Ok (ztake n (cdata _ r), None,
          mkReader _ (r_src _ r) (r_scratch _ r) (r_cdata_lo _ r + n) (r_cdata_hi _ r)
                   (r_rdata _ r) (r_err _ r))
    else
      match r_err _ r with
      | None =>
        let! r := fill2 r buflen in
        let! r := convert grow _ r in
        Read2 fuel r buflen
      | Some _ =>
        if slen (r_rdata _ r) =? 0 then Ok ([], r_err _ r, r)
        else
          let! r := convert grow _ r in
          Read2 fuel r buflen
      end
  end.

(* the client of StreamModel.read_seq *)
Fixpoint read_seq2 (fuel : nat) (r : reader) (sizes : list Z)
  : res (list Z * option error * reader) :=
  match sizes with
  | [] => Ok ([], None, r)
  | k :: sizes =>
    let! (bs, err, r) := Read2 fuel r k in
    match err with
    | Some e => Ok (bs, Some e, r)
    | None =>
      let! (bs', err, r) := read_seq2 fuel r sizes in
      Ok (bs ++ bs', err, r)
    end
  end.
End Reader.
