(** Notions for the statements about how much memory the executed sources allocate. *)
From Coq Require Import ZArith List.
From Verif Require Import Base SourceSpec.
Import ListNotations.
Local Open Scope Z_scope.

(** All bytes allocated so far.  The storage of GoLang.v keeps every array for ever, so the
    difference between two moments is what was allocated between them, garbage included. *)
Fixpoint allocated (A : list (list Z)) : Z := match A with [] => 0 | a :: A => zlen a + allocated A end.

(** What a client of a Reader or Writer allocates itself. *)
Fixpoint own_bytes (evs : list event) : Z :=
  match evs with [] => 0 | Alloc a :: evs => zlen a + own_bytes evs | _ :: evs => own_bytes evs end.

(** append gives a slice of capacity [c] that must hold [n] > [c] bytes the capacity
    [Z.max n (grow c n)].  Go leaves that open, but every implementation goes up by a constant
    factor; here, by a fifth at least and to three times what is needed, plus 64 bytes, at most. *)
Definition amortised (grow : Z -> Z -> Z) : Prop :=
  forall c n, 0 <= c < n -> 6 * c <= 5 * Z.max n (grow c n) /\ grow c n <= 3 * n + 64.

(** For example, what the runtime of Go 1.18 and later does before it rounds the size up to
    what its allocator offers: double small slices, then go up by a quarter and 192 bytes. *)
Fixpoint quarters (fuel : nat) (c n : Z) : Z :=
  match fuel with O => n | S fuel => if n <=? c then c else quarters fuel (c + (c + 768) / 4) n end.
Definition runtime_grow (c n : Z) : Z :=
  if 2 * c <? n then n else if c <? 256 then 2 * c else quarters (Z.to_nat n) (c + (c + 768) / 4) n.
