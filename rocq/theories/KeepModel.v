(** Read and Write of public.go over a wrapped reader or writer that keeps the slices it is given
    and writes into them later, against the contracts of io.Reader and io.Writer
    ("Implementations must not retain p", "Write must not modify the slice data, even
    temporarily"), and over a reader that uses the rest of its buffer during the call, as the
    contract allows ("it may use all of p as scratch space during the call").  Only the
    contents of arrays differ from StreamModel.v. *)
From Coq Require Import ZArith List Bool.
From Verif Require Import Base Utf8 SortSearch TableFrom TableTo Cp949Model StreamModel.
Import ListNotations.
Local Open Scope Z_scope.
Local Open Scope go_scope.

(** Someone stores the bytes [x], as far as there is room, into an array from index [lo] on. *)
Definition stored (lo : Z) (x a : list Z) : list Z :=
  ztake lo a ++ ztake (zlen a - lo) (x ++ zdrop (lo + zlen x) a).

(** * Reader *)
Section Reader.
Variable grow : Z -> Z -> Z.
Variable RS : Type.
(* The wrapped reader; [late s k] is what it stores, in the course of Read on a buffer of
   length [k] in state [s], before it stores what it reports: into the buffer if not [keeps],
   else into all it was ever given of the array of this buffer. *)
Variable keeps : bool.
Variable rd : RS -> Z -> list Z * option error * RS.
Variable late : RS -> Z -> list Z.
Notation reader := (reader RS).

(** [k_lo] is the lowest index of rdata's array that the wrapped reader was given. *)
Record keeper : Type := mkKeeper { k_reader : reader; k_lo : Z }.

(* encoding/cp949/public.go:66-74; ensureCap (cp949.go:121-144) makes a new array exactly if it
   changes the capacity *)
Definition k_fill (k : keeper) (buflen : Z) : res keeper :=
  let r := k_reader k in
  let! rdata := ensureCap (r_rdata _ r) (slen (r_rdata _ r) + buflen) in
  let room := scap rdata - slen rdata in
  let lo := if keeps && (scap rdata =? scap (r_rdata _ r)) then Z.min (k_lo k) (slen rdata) else slen rdata in
  let '(bs, err, src) := rd (r_src _ r) room in
  let n := zlen bs in
  let err := match err with
             | None => if n =? 0 then Some EOF else None
             | Some e => Some e
             end in
  if slen rdata + n >? scap rdata then Panic else
  let a := stored lo (late (r_src _ r) room) (arr rdata) in
  let! rdata := reslice (mkSlice (zwrite a (slen rdata) bs) (slen rdata)) (slen rdata + n) in
  Ok (mkKeeper (mkReader _ src (r_scratch _ r) (r_cdata_lo _ r) (r_cdata_hi _ r) rdata err) lo).
(* encoding/cp949/public.go:78-91 *)
Definition k_convert (k : keeper) : res keeper :=
  let! r := convert grow _ (k_reader k) in Ok (mkKeeper r (k_lo k)).

(* encoding/cp949/public.go:59-94 *)
Fixpoint k_Read (fuel : nat) (k : keeper) (buflen : Z) : res (list Z * option error * keeper) :=
  let r := k_reader k in
  match fuel with
  | O => Fuel
  | S fuel =>
    if r_cdata_hi _ r - r_cdata_lo _ r >? 0 then
      let n := Z.min buflen (r_cdata_hi _ r - r_cdata_lo _ r) in
      Ok (ztake n (cdata _ r), None,
          mkKeeper (mkReader _ (r_src _ r) (r_scratch _ r) (r_cdata_lo _ r + n) (r_cdata_hi _ r)
                   (r_rdata _ r) (r_err _ r)) (k_lo k))
    else
      match r_err _ r with
      | None =>
        let! k := k_fill k buflen in
        let! k := k_convert k in
        k_Read fuel k buflen
      | Some _ =>
        if slen (r_rdata _ r) =? 0 then Ok ([], r_err _ r, k)
        else
          let! k := k_convert k in
          k_Read fuel k buflen
      end
  end.

(** Between calls of Read, too, the wrapped reader may store something. *)
Definition k_store (x : list Z) (k : keeper) : keeper :=
  let r := k_reader k in
  mkKeeper (mkReader _ (r_src _ r) (r_scratch _ r) (r_cdata_lo _ r) (r_cdata_hi _ r)
             (mkSlice (stored (k_lo k) x (arr (r_rdata _ r))) (slen (r_rdata _ r))) (r_err _ r)) (k_lo k).
Inductive k_event : Type := KRead (n : Z) | KStore (x : list Z).
Definition sizes_of (evs : list k_event) : list Z := flat_map (fun e => match e with KRead n => [n] | KStore _ => [] end) evs.
Fixpoint k_reads (fuel : nat) (k : keeper) (evs : list k_event) : res (list (list Z * option error) * keeper) :=
  match evs with
  | [] => Ok ([], k)
  | KStore x :: evs => k_reads fuel (k_store x k) evs
  | KRead n :: evs =>
    let! (bs, err, k) := k_Read fuel k n in
    let! (rs, k) := k_reads fuel k evs in
    Ok ((bs, err) :: rs, k)
  end.
(* encoding/cp949/public.go:50-57 *)
Definition k_NewReader (s : RS) : keeper := mkKeeper (NewReader s) 0.
End Reader.

(** * Writer *)
Section Writer.
Variable grow : Z -> Z -> Z.
Variable WS : Type.
(* The wrapped writer; [late s bs] is what it stores into the array it is given with [bs]. *)
Variable wr : WS -> list Z -> option error * WS.
Variable late : WS -> list Z -> list Z.

Definition w_store (x : list Z) (w : writer WS) : writer WS :=
  mkWriter _ (w_dst _ w) (mkSlice (stored 0 x (arr (w_scratch _ w))) (slen (w_scratch _ w))) (w_buf _ w).
(* encoding/cp949/public.go:112-133; the slice passed to the wrapped writer (cdata) begins the
   translator's array (cp949.go:77) and is not used after the call *)
Definition k_Write (w : writer WS) (data : list Z) : res (Z * option error * writer WS) :=
  let buf := if zlen (w_buf _ w) >? 0 then w_buf _ w ++ data else w_buf _ w in
  let wdata := if zlen (w_buf _ w) >? 0 then buf else data in
  let! t := to_Translate grow toTable (w_scratch _ w) wdata in
  let '(n, cd, _, scratch) := t in
  let bytes := match cd with Some s => contents s | None => [] end in
  let '(err, dst, scratch) :=
    if n >? 0 then let '(err, dst) := wr (w_dst _ w) bytes in
      (err, dst, mkSlice (stored 0 (late (w_dst _ w) bytes) (arr scratch)) (slen scratch))
    else (None, w_dst _ w, scratch) in
  match err with
  | Some e => Ok (0, Some e, mkWriter _ dst scratch buf)
  | None =>
    let buf := if n <? zlen wdata then zdrop n wdata else [] in
    Ok (zlen data, None, mkWriter _ dst scratch buf)
  end.
Inductive kw_event : Type := KWrite (data : list Z) | KChange (x : list Z).
Definition data_of (evs : list kw_event) : list (list Z) := flat_map (fun e => match e with KWrite d => [d] | KChange _ => [] end) evs.
Fixpoint k_writes (w : writer WS) (evs : list kw_event) : res (list (Z * option error) * writer WS) :=
  match evs with
  | [] => Ok ([], w)
  | KChange x :: evs => k_writes (w_store x w) evs
  | KWrite data :: evs =>
    let! (n, err, w) := k_Write w data in
    let! (rs, w) := k_writes w evs in
    Ok ((n, err) :: rs, w)
  end.
End Writer.
