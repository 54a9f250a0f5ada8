(** Vocabulary for the width of texts and the case of their letters. *)
From Coq Require Import ZArith List Bool.
Import ListNotations.
Local Open Scope Z_scope.

(** The columns that a text takes on a Korean terminal: one for an ASCII character, two for any other. *)
Fixpoint columns (rs : list Z) : Z :=
  match rs with
  | [] => 0
  | r :: rs' => (if r <? 0x80 then 1 else 2) + columns rs'
  end.

(** The other case of an ASCII letter. *)
Definition lower (c : Z) : Z := if (0x41 <=? c) && (c <=? 0x5A) then c + 0x20 else c.
Definition upper (c : Z) : Z := if (0x61 <=? c) && (c <=? 0x7A) then c - 0x20 else c.
Definition casing (f : Z -> Z) : Prop := f = lower \/ f = upper.
