(** The lines of a text. *)
From Coq Require Import ZArith List.
From Verif Require Import Base.
Import ListNotations.
Local Open Scope Z_scope.

(** Each line is ended by a newline, except that the last one need not be; a text that ends
    in a newline has no empty line after it. *)
Inductive is_lines : list Z -> list (list Z) -> Prop :=
| lines_none : is_lines [] []
| lines_last l : l <> [] -> ~ In 10 l -> is_lines l [l]
| lines_more l text ls : ~ In 10 l -> is_lines text ls -> is_lines (l ++ 10 :: text) (l :: ls).

(** A line without the carriage return at its end, if it has one. *)
Inductive without_cr : list Z -> list Z -> Prop :=
| with_cr l : without_cr (l ++ [13]) l
| no_cr l : (forall l', l <> l' ++ [13]) -> without_cr l l.
