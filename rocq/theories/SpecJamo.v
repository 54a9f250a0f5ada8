(** The letters of a syllable. *)
From Coq Require Import ZArith List Bool.
Import ListNotations.
Local Open Scope Z_scope.

(** Of a lead, a medial and a tail, those that are there (0: none). *)
Definition present (x : Z * Z * Z) : list Z := let '(l, m, t) := x in filter (fun r => negb (r =? 0)) [l; m; t].
