(** The work of a Reader: how much it hands to the conversion. *)
From Coq Require Import ZArith List.
From Verif Require Import Base Spec Utf8 SpecCp949 Cp949Model StreamModel.
Import ListNotations.
#[local] Open Scope Z_scope.
#[local] Open Scope go_scope.

(** Read (encoding/cp949/public.go:59-94, as in StreamModel.v) that also lists, in order, how
    many bytes were handed to each conversion (line 78). *)
Fixpoint Read_work (grow : Z -> Z -> Z) (RS : Type) (rd : RS -> Z -> list Z * option error * RS)
    (fuel : nat) (r : reader RS) (buflen : Z)
  : res (list Z * option error * reader RS * list Z) :=
  match fuel with
  | O => Fuel
  | S fuel =>
    if r_cdata_hi _ r - r_cdata_lo _ r >? 0 then
      let n := Z.min buflen (r_cdata_hi _ r - r_cdata_lo _ r) in
      Ok (ztake n (cdata _ r), None,
          mkReader _ (r_src _ r) (r_scratch _ r) (r_cdata_lo _ r + n) (r_cdata_hi _ r)
                   (r_rdata _ r) (r_err _ r), [])
    else
      match r_err _ r with
      | None =>
        let! r := fill RS rd r buflen in
        let w := slen (r_rdata _ r) in
        let! r := convert grow RS r in
        let! (p, e, r, ws) := Read_work grow RS rd fuel r buflen in
        Ok (p, e, r, w :: ws)
      | Some _ =>
        if slen (r_rdata _ r) =? 0 then Ok ([], r_err _ r, r, [])
        else
          let w := slen (r_rdata _ r) in
          let! r := convert grow RS r in
          let! (p, e, r, ws) := Read_work grow RS rd fuel r buflen in
          Ok (p, e, r, w :: ws)
      end
  end.

(** A client that calls Read once per element of [sizes], errors or not; the lists of all
    Reads. *)
Fixpoint reads_work (grow : Z -> Z -> Z) (RS : Type) (rd : RS -> Z -> list Z * option error * RS)
    (fuel : nat) (r : reader RS) (sizes : list Z) : res (reader RS * list (list Z)) :=
  match sizes with
  | [] => Ok (r, [])
  | k :: sizes =>
    let! (bs, err, r, ws) := Read_work grow RS rd fuel r k in
    let! (r, wss) := reads_work grow RS rd fuel r sizes in
    Ok (r, ws :: wss)
  end.

Fixpoint total (l : list Z) : Z := match l with [] => 0 | x :: l => x + total l end.
(** The lengths of the first chunk, of the first two, and so on. *)
Fixpoint sums (before : Z) (chunks : list (list Z)) : list Z :=
  match chunks with
  | [] => []
  | c :: chunks => (before + zlen c) :: sums (before + zlen c) chunks
  end.
