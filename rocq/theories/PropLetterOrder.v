(** The order of texts that are taken apart into compatibility letters. *)
From Coq Require Import ZArith List Bool Lia.
From Verif Require Import Base Spec SpecText HangulModel SpecLetters LetterOrderFacts.
Import ListNotations.
Local Open Scope Z_scope.
Local Open Scope list_scope.

(** * C179 Order of compatibility letters *)
Theorem C179_letters :
  (forall a b, is_lead_jamo a -> is_lead_jamo b -> (a < b <-> CompatJamo a < CompatJamo b)) /\
  (forall a b, is_medial_jamo a -> is_medial_jamo b -> (a < b <-> CompatJamo a < CompatJamo b)) /\
  (forall a b, is_tail_jamo a -> is_tail_jamo b -> (a < b <-> CompatJamo a < CompatJamo b)).
Proof. exact compat_rising. Qed.
Print Assumptions C179_letters.
(** False of texts: the tail of one may be the letter that the next syllable of the other begins with. *)
Theorem C179_refuted : exists a b, Forall is_syllable a /\ Forall is_syllable b /\ lex_lt a b /\ lex_lt (letters b) (letters a).
Proof. exact letters_refuted. Qed.
Print Assumptions C179_refuted.
(** True unless the first syllables that differ do so only by a tail that one of them lacks; and
    then the rest decides. *)
Theorem C179_differ_partial : forall p x y a b, is_syllable x -> is_syllable y -> x < y ->
  (fst (Split x) <> fst (Split y) \/ snd (Split x) <> 0 -> lex_lt (letters (p ++ x :: a)) (letters (p ++ y :: b))) /\
  (fst (Split x) = fst (Split y) -> snd (Split x) = 0 ->
     (lex_lt (letters (p ++ x :: a)) (letters (p ++ y :: b)) <-> lex_lt (letters a) (CompatJamo (snd (Split y)) :: letters b))).
Proof. exact letters_differ. Qed.
Print Assumptions C179_differ_partial.
(** True if a missing tail is kept as the 0 that SplitCompat returns. *)
Theorem C179_filled_partial : forall a b, Forall is_syllable a -> Forall is_syllable b ->
  (lex_lt a b <-> lex_lt (flat_map (fun c => let '(l, m, t) := SplitCompat c in [l; m; t]) a)
                         (flat_map (fun c => let '(l, m, t) := SplitCompat c in [l; m; t]) b)).
Proof. exact parts3_order. Qed.
Print Assumptions C179_filled_partial.
(* the syllables of C179_refuted, and two that differ in the medial *)
Example C179_case : is_syllable 0xAC00 /\ is_syllable 0xAC04 /\ fst (Split 0xAC00) = fst (Split 0xAC04) /\ snd (Split 0xAC00) = 0 /\
  letters [0xAC00; 0xB098] = [0x3131; 0x314F; 0x3134; 0x314F] /\ letters [0xAC04] = [0x3131; 0x314F; 0x3134] /\
  is_syllable 0xAE00 /\ fst (Split 0xAC00) <> fst (Split 0xAE00) /\
  flat_map (fun c => let '(l, m, t) := SplitCompat c in [l; m; t]) [0xAC00; 0xB098] = [0x3131; 0x314F; 0; 0x3134; 0x314F; 0].
Proof.
  split; [unfold is_syllable; lia|]. split; [unfold is_syllable; lia|]. do 4 (split; [vm_compute; reflexivity|]).
  split; [unfold is_syllable; lia|]. split; [vm_compute; discriminate|]. vm_compute. reflexivity.
Qed.
