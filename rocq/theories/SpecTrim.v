(** Vocabulary for trimming: what bytes.Trim, strings.Trim and the TrimSpaces leave. *)
From Coq Require Import ZArith List Bool.
Import ListNotations.

(** [x] without the elements in [cut] at the beginning, and at both ends. *)
Fixpoint trim_left (cut : Z -> bool) (x : list Z) : list Z :=
  match x with
  | c :: y => if cut c then trim_left cut y else x
  | [] => []
  end.
Definition trim (cut : Z -> bool) (x : list Z) : list Z := rev (trim_left cut (rev (trim_left cut x))).
