(** Wrapped readers and writers that break their contract. *)
From Coq Require Import ZArith List.
From Verif Require Import Base Cp949Model.
Import ListNotations.
Local Open Scope Z_scope.

(** A reader that also keeps a record of the calls made to it: the length of the buffer it
    was given and the count it reported. *)
Definition counted {RS : Type} (rd : RS -> Z -> Z * list Z * option error * RS)
    (s : RS * list (Z * Z)) (k : Z) : Z * list Z * option error * (RS * list (Z * Z)) :=
  let '(n, stored, e, s') := rd (fst s) k in (n, stored, e, (s', snd s ++ [(k, n)])).

Definition total (calls : list (Z * Z)) : Z := fold_right (fun c t => snd c + t) 0 calls.

(** 0x41 0xB0, then a count of -1, then 0xA1, then EOF. *)
Definition minus_rd (s : nat) (_ : Z) : Z * list Z * option error * nat :=
  match s with
  | 0%nat => (2, [0x41; 0xB0], None, 1%nat)
  | 1%nat => (-1, [], None, 2%nat)
  | 2%nat => (1, [0xA1], None, 3%nat)
  | _ => (0, [], Some EOF, 3%nat)
  end.

(** A wrapped writer with its count ([wr s bs] is the count, the error and the new state), as
    the models that have no use for the count see it. *)
Definition uncounted {WS : Type} (wr : WS -> list Z -> Z * option error * WS) (s : WS) (bs : list Z) : option error * WS :=
  let '(_, e, s') := wr s bs in (e, s').

(** The contract of io.Writer, [taken] being what was written so far: the count says how
    much of [bs] was taken, and it is all of it unless there is an error. *)
Definition honest_writer {WS : Type} (taken : WS -> list Z) (wr : WS -> list Z -> Z * option error * WS) : Prop :=
  forall s bs, let '(n, e, s') := wr s bs in
    0 <= n <= zlen bs /\ taken s' = taken s ++ ztake n bs /\ (e = None -> n = zlen bs).

(** A Write: the data, its encoding, the part of it taken, the count and the error returned. *)
Record written : Type := mkWritten { w_data : list Z; w_enc : list Z; w_got : list Z; w_count : Z; w_error : option error }.

(** A writer to a device of limited size; and one that forgets to report that it is full. *)
Definition disk_wr (room : nat) (s bs : list Z) : Z * option error * list Z :=
  let n := Z.max 0 (Z.min (zlen bs) (Z.of_nat room - zlen s)) in
  (n, if n <? zlen bs then Some (ErrOther 28) else None, s ++ ztake n bs).
Definition forgetful_wr (room : nat) (s bs : list Z) : Z * option error * list Z :=
  let '(n, _, s') := disk_wr room s bs in (n, None, s').
