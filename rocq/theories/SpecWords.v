(** The words of a text. *)
From Coq Require Import ZArith List.
Import ListNotations.
Local Open Scope Z_scope.

(** The characters with the Unicode property White_Space; U+3000, the ideographic space, is
    the only one of CP949 beyond ASCII. *)
Definition white (r : Z) : Prop :=
  9 <= r <= 13 \/ r = 0x20 \/ r = 0x85 \/ r = 0xA0 \/ r = 0x1680 \/ 0x2000 <= r <= 0x200A \/
  r = 0x2028 \/ r = 0x2029 \/ r = 0x202F \/ r = 0x205F \/ r = 0x3000.

(** Words are the longest runs of other characters. *)
Inductive is_words : list Z -> list (list Z) -> Prop :=
| words_none sp : Forall white sp -> is_words sp []
| words_last sp w : Forall white sp -> w <> [] -> Forall (fun r => ~ white r) w -> is_words (sp ++ w) [w]
| words_more sp w c text ws : Forall white sp -> w <> [] -> Forall (fun r => ~ white r) w -> white c ->
    is_words text ws -> is_words (sp ++ w ++ c :: text) (w :: ws).
