(** Ends of texts, and the characters of KS X 1001. *)
From Coq Require Import ZArith List.
From Verif Require Import Base Spec SpecCp949.
Import ListNotations.
Local Open Scope Z_scope.

(** strings.HasSuffix(s, p) *)
Definition is_suffix (p s : list Z) : Prop := exists q, s = q ++ p.
(** A character of KS X 1001: syllable, hanja or sign. *)
Definition ks_char (r : Z) : Prop := exists c, assigned c r /\ ks_code c.
