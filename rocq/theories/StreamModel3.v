(** The Read of public.go over a wrapped reader of any kind: it reports a count, which may be
    wrong, and stores bytes in the buffer it is given, as many as it likes. *)
From Coq Require Import ZArith List Bool.
From Verif Require Import Base Utf8 SortSearch TableFrom TableTo Cp949Model StreamModel.
Import ListNotations.
Local Open Scope Z_scope.
Local Open Scope go_scope.

Section Reader.
Variable grow : Z -> Z -> Z.
Variable RS : Type.
(* [rd s k] is Read on a buffer of length [k] in state [s]: the count reported, the bytes
   left at the start of the buffer (the runtime keeps them inside), the error and the new
   state. *)
Variable rd : RS -> Z -> Z * list Z * option error * RS.
Notation reader := (reader RS).

(* encoding/cp949/public.go:66-74.  Line 73 panics unless 0 <= len(r.rdata)+n <= cap(r.rdata). *)
Definition fill3 (r : reader) (buflen : Z) : res reader :=
  let! rdata := ensureCap (r_rdata _ r) (slen (r_rdata _ r) + buflen) in
  let room := scap rdata - slen rdata in
  let '(n, stored, err, src) := rd (r_src _ r) room in
  let err := match err with
             | None => if n =? 0 then Some EOF else None
             | Some e => Some e
             end in
  let! rdata := reslice (mkSlice (zwrite (arr rdata) (slen rdata) (ztake room stored)) (slen rdata))
                        (slen rdata + n) in
  Ok (mkReader _ src (r_scratch _ r) (r_cdata_lo _ r) (r_cdata_hi _ r) rdata err).

(* encoding/cp949/public.go:59-94; only the call of the wrapped reader differs from
   StreamModel.Read. *)
Fixpoint Read3 (fuel : nat) (r : reader) (buflen : Z)
  : res (list Z * option error * reader) :=
  match fuel with
  | O => Fuel
  | S fuel =>
    if r_cdata_hi _ r - r_cdata_lo _ r >? 0 then
      let n := Z.min buflen (r_cdata_hi _ r - r_cdata_lo _ r) in
      Ok (ztake n (cdata _ r), None,
          mkReader _ (r_src _ r) (r_scratch _ r) (r_cdata_lo _ r + n) (r_cdata_hi _ r)
                   (r_rdata _ r) (r_err _ r))
    else
      match r_err _ r with
      | None =>
        let! r := fill3 r buflen in
        let! r := convert grow _ r in
        Read3 fuel r buflen
      | Some _ =>
        if slen (r_rdata _ r) =? 0 then Ok ([], r_err _ r, r)
        else
          let! r := convert grow _ r in
          Read3 fuel r buflen
      end
  end.

(** A client that calls Read once per element of [sizes], as read_seq of StreamModel.v. *)
Fixpoint read_seq3 (fuel : nat) (r : reader) (sizes : list Z) : res (list Z * option error * reader) :=
  match sizes with
  | [] => Ok ([], None, r)
  | k :: sizes =>
    let! (bs, err, r) := Read3 fuel r k in
    match err with
    | Some e => Ok (bs, Some e, r)
    | None =>
      let! (bs', err, r) := read_seq3 fuel r sizes in
      Ok (bs ++ bs', err, r)
    end
  end.
End Reader.
