(** Model of Go's sort.Search (standard library sort/search.go, not code of /repo):

      i, j := 0, n
      for i < j {
          h := int(uint(i+j) >> 1)
          if !f(h) { i = h + 1 } else { j = h }
      }
      return i

    The callback may panic (it indexes a table), hence [res bool]. *)
From Coq Require Import ZArith List Bool.
From Verif Require Import Base.
Import ListNotations.
Local Open Scope Z_scope.
Local Open Scope go_scope.

Fixpoint search_loop (fuel : nat) (f : Z -> res bool) (i j : Z) : res Z :=
  if i <? j then
    match fuel with
    | O => Fuel
    | S fuel =>
      let h := Z.shiftr (i + j) 1 in
      let! b := f h in
      if negb b then search_loop fuel f (h + 1) j
      else search_loop fuel f i h
    end
  else Ok i.

(** The interval halves at every step, so the bit length of n bounds the iterations. *)
Definition Search (n : Z) (f : Z -> res bool) : res Z :=
  search_loop (S (Z.to_nat (Z.log2_up n))) f 0 n.
