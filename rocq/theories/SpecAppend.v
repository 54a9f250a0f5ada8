(** The room for the result of transform.Append: the free capacity of the destination, or, if it
    has none, the length of the source. *)
From Coq Require Import ZArith List.
From Verif Require Import Base.
Local Open Scope Z_scope.

Definition room (dst : slice) (src : list Z) : Z := if slen dst =? scap dst then zlen src else scap dst - slen dst.
