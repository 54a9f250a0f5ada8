(** Replacing parts of encoded texts. *)
From Coq Require Import ZArith List Bool Lia.
From Verif Require Import Base Spec SpecCp949 SpecReplace Cp949Model Cp949Facts2 TableFacts PMapFacts ReplaceFacts.
Import ListNotations.
Local Open Scope Z_scope.
Local Open Scope list_scope.

(** * C171 Replacing in an encoded text (refuted: a letter is found inside of a syllable, a
      syllable between two others, and what comes out is Korean text still) *)
Theorem C171_refuted : exists text text' x x', Forall is_syllable text /\ Forall is_syllable text' /\ text' <> text /\
  replaced (utf8 [0x41]) (utf8 [0x42]) (utf8 text) (utf8 text) /\ replaced [0x41] [0x42] x x' /\
  forall grow, To grow (utf8 text) = Ok (inl x) /\ From grow x' = Ok (inl (utf8 text')).
Proof. exact letter_refuted. Qed.
Print Assumptions C171_refuted.
Theorem C171_syllable_refuted : exists r text text' o x x', is_syllable r /\ Forall is_syllable text /\ Forall is_syllable text' /\ text' <> text /\
  replaced (utf8 [r]) [] (utf8 text) (utf8 text) /\ replaced o [] x x' /\
  forall grow, To grow (utf8 [r]) = Ok (inl o) /\ To grow (utf8 text) = Ok (inl x) /\ From grow x' = Ok (inl (utf8 text')).
Proof. exact syllable_refuted. Qed.
Print Assumptions C171_syllable_refuted.
(** True if what is replaced begins with an ASCII character that is not a letter. *)
Theorem C171_partial : forall grow p old new rs o n x, ascii_nonletter p = true ->
  encodes (p :: old) o -> encodes new n -> encodes rs x ->
  exists t x', replaced (utf8 (p :: old)) (utf8 new) (utf8 rs) t /\ replaced o n x x' /\
    To grow t = Ok (inl x') /\ From grow x' = Ok (inl t).
Proof. exact replace_lemma. Qed.
Print Assumptions C171_partial.
Theorem C171_every_partial : forall grow p old new rs o n x t x', ascii_nonletter p = true ->
  encodes (p :: old) o -> encodes new n -> encodes rs x ->
  replaced (utf8 (p :: old)) (utf8 new) (utf8 rs) t -> replaced o n x x' ->
  To grow t = Ok (inl x') /\ From grow x' = Ok (inl t).
Proof. exact replace_exact. Qed.
Print Assumptions C171_every_partial.
(* "-A" is replaced by a syllable; the byte 0x41 inside of the syllable U+AC02 is left alone *)
Example C171_case : ascii_nonletter 0x2D = true /\ encodes [0x2D; 0x41] [0x2D; 0x41] /\ encodes [0xAC00] [0xB0; 0xA1] /\
  encodes [0xAC02; 0x2D; 0x41; 0x41] [0x81; 0x41; 0x2D; 0x41; 0x41] /\
  replaced (utf8 [0x2D; 0x41]) (utf8 [0xAC00]) (utf8 [0xAC02; 0x2D; 0x41; 0x41]) (utf8 [0xAC02; 0xAC00; 0x41]) /\
  replaced [0x2D; 0x41] [0xB0; 0xA1] [0x81; 0x41; 0x2D; 0x41; 0x41] [0x81; 0x41; 0xB0; 0xA1; 0x41].
Proof.
  split; [reflexivity|]. split; [apply enc_ascii; [lia|]; apply enc_ascii; [lia|constructor]|].
  split; [apply (enc_code 0xB0A1 0xAC00 [] []); [apply assigned_by; vm_compute; reflexivity|constructor]|].
  split. { apply (enc_code 0x8141 0xAC02 [0x2D; 0x41; 0x41] [0x2D; 0x41; 0x41]); [apply assigned_by; vm_compute; reflexivity|].
    apply enc_ascii; [lia|]. apply enc_ascii; [lia|]. apply enc_ascii; [lia|constructor]. }
  split.
  - change (utf8 [0x2D; 0x41]) with [0x2D; 0x41]. change (utf8 [0xAC00]) with [0xEA; 0xB0; 0x80].
    change (utf8 [0xAC02; 0x2D; 0x41; 0x41]) with [0xEA; 0xB0; 0x82; 0x2D; 0x41; 0x41].
    change (utf8 [0xAC02; 0xAC00; 0x41]) with [0xEA; 0xB0; 0x82; 0xEA; 0xB0; 0x80; 0x41].
    do 3 (apply rp_miss; [intros (q & E); discriminate|]). apply (rp_hit [0x2D; 0x41] [0xEA; 0xB0; 0x80] [0x41] [0x41]).
    apply rp_miss; [intros (q & E); discriminate|]. constructor.
  - do 2 (apply rp_miss; [intros (q & E); discriminate|]). apply (rp_hit [0x2D; 0x41] [0xB0; 0xA1] [0x41] [0x41]).
    apply rp_miss; [intros (q & E); discriminate|]. constructor.
Qed.
