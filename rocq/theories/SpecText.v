(** Comparing and searching byte strings and texts, as Go's bytes and strings packages do. *)
From Coq Require Import ZArith List.
From Verif Require Import Base Spec SpecCp949.
Import ListNotations.
Local Open Scope Z_scope.

(** [bytes.Contains]: [p] occurs in [s]. *)
Definition occurs (p s : list Z) : Prop := exists before after, s = before ++ p ++ after.

(** [bytes.Compare] < 0: lexicographic order. *)
Inductive lex_lt : list Z -> list Z -> Prop :=
| lex_nil y t : lex_lt [] (y :: t)
| lex_less x y s t : x < y -> lex_lt (x :: s) (y :: t)
| lex_tail x s t : lex_lt s t -> lex_lt (x :: s) (x :: t).

(** ASCII and the 2350 syllables of KS X 1001. *)
Definition ks_text_char (r : Z) : Prop :=
  0 <= r < 0x80 \/ is_syllable r /\ exists c, assigned c r /\ ks_code c.

(** [in_blocks n s bs]: [bs] is [s] cut into blocks of [n] bytes, the last one possibly
    shorter. *)
Inductive in_blocks (n : Z) : list Z -> list (list Z) -> Prop :=
| blocks_nil : in_blocks n [] []
| blocks_last b : b <> [] -> zlen b <= n -> in_blocks n b [b]
| blocks_more b s bs : zlen b = n -> s <> [] -> in_blocks n s bs -> in_blocks n (b ++ s) (b :: bs).
