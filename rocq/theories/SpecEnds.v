(** The bytes of 0x80 and more at the end of a byte string. *)
From Coq Require Import ZArith List.
Import ListNotations.
Local Open Scope Z_scope.

Fixpoint high_run (s : list Z) : nat :=
  match s with
  | [] => 0
  | b :: s' => if 0x80 <=? b then S (high_run s') else 0
  end.
Definition high_end (s : list Z) : nat := high_run (rev s).
