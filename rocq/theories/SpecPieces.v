(** A text divided after each delimiter. *)
From Coq Require Import ZArith List.
Import ListNotations.
Local Open Scope Z_scope.

(** The pieces end with the delimiter and contain no other, except the last piece, which
    contains none (and may be empty). *)
Inductive is_pieces (d : Z) : list Z -> list (list Z) -> Prop :=
| pieces_last l : ~ In d l -> is_pieces d l [l]
| pieces_more l text ps : ~ In d l -> is_pieces d text ps -> is_pieces d (l ++ d :: text) ((l ++ [d]) :: ps).
