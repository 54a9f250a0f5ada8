(** Clients that wrap one reader or writer several times.  Not code of /repo: the calls they
    make are NewReader, Read, NewWriter and Write of StreamModel.v. *)
From Coq Require Import ZArith List Bool Arith.
From Verif Require Import Base Cp949Model StreamModel SpecIO.
Import ListNotations.
Local Open Scope Z_scope.
Local Open Scope go_scope.

Definition update {A : Type} (f : nat -> A) (i : nat) (x : A) (j : nat) : A := if Nat.eqb j i then x else f j.

(** The model of a Writer holds the state of the wrapped writer; here it is set to that of the
    common writer before a call, and read off after it.  The same for a Reader. *)
Definition with_dst {WS} (w : writer WS) (s : WS) : writer WS := mkWriter WS s (w_scratch _ w) (w_buf _ w).
Definition with_src {RS} (r : reader RS) (s : RS) : reader RS :=
  mkReader RS s (r_scratch _ r) (r_cdata_lo _ r) (r_cdata_hi _ r) (r_rdata _ r) (r_err _ r).

Section Clients.
Variable grow : Z -> Z -> Z.

(** Writers numbered by nat over one writer in state [s]: the Writes [ops] in order. *)
Fixpoint writes_in_turn {WS} (wr : WS -> list Z -> option error * WS) (ws : nat -> writer WS) (s : WS)
    (ops : list (nat * list Z)) : res (list (Z * option error) * WS) :=
  match ops with
  | [] => Ok ([], s)
  | (i, data) :: ops =>
    let! (n, err, w) := Write grow WS wr (with_dst (ws i) s) data in
    let! (results, s) := writes_in_turn wr (update ws i w) (w_dst _ w) ops in
    Ok ((n, err) :: results, s)
  end.

(** Readers numbered by nat over one reader in state [s]: the Reads [ops] in order. *)
Fixpoint reads_in_turn {RS} (rd : RS -> Z -> list Z * option error * RS) (fuel : nat) (rs : nat -> reader RS) (s : RS)
    (ops : list (nat * Z)) : res (list (list Z * option error) * RS) :=
  match ops with
  | [] => Ok ([], s)
  | (i, k) :: ops =>
    let! (bs, err, r) := Read grow RS rd fuel (with_src (rs i) s) k in
    let! (results, s) := reads_in_turn rd fuel (update rs i r) (r_src _ r) ops in
    Ok ((bs, err) :: results, s)
  end.

(** A Writer and a Reader over one bytes.Buffer. *)
Inductive pipe_op : Type := PWrite (data : list Z) | PRead (k : Z).
Inductive pipe_answer : Type := Wrote (n : Z) (err : option error) | Got (bs : list Z) (err : option error).

Fixpoint through_buffer (fuel : nat) (w : writer (list Z)) (r : reader (list Z)) (buf : list Z) (ops : list pipe_op)
  : res (list pipe_answer) :=
  match ops with
  | [] => Ok []
  | PWrite data :: ops =>
    let! (n, err, w) := Write grow _ buffer_wr (with_dst w buf) data in
    let! answers := through_buffer fuel w r (w_dst _ w) ops in
    Ok (Wrote n err :: answers)
  | PRead k :: ops =>
    let! (bs, err, r) := Read grow _ bytes_rd fuel (with_src r buf) k in
    let! answers := through_buffer fuel w r (r_src _ r) ops in
    Ok (Got bs err :: answers)
  end.
End Clients.
