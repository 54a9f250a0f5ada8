(** Comparing the ends of encoded texts. *)
From Coq Require Import ZArith List Bool Lia.
From Verif Require Import Base Spec SpecText SpecCp949 SpecSuffix Cp949Model Cp949Facts2 TableFacts PMapFacts SuffixFacts.
Import ListNotations.
Local Open Scope Z_scope.
Local Open Scope list_scope.

(** * C181 Comparing the ends of encoded texts
    False: the letter A ends the bytes of a syllable; and the bytes of a syllable may end those of a
    text that ends with that letter. *)
Theorem C181_refuted :
  (exists a b x y, (forall grow, To grow (utf8 a) = Ok (inl x) /\ To grow (utf8 b) = Ok (inl y)) /\ Forall is_syllable b /\ is_suffix x y /\ ~ is_suffix a b) /\
  (exists a b x y, (forall grow, To grow (utf8 a) = Ok (inl x) /\ To grow (utf8 b) = Ok (inl y)) /\ Forall is_syllable a /\ is_suffix x y /\ ~ is_suffix a b).
Proof. exact suffix_refuted. Qed.
Print Assumptions C181_refuted.
(** The bytes of a suffix are a suffix. *)
Theorem C181_complete_partial : forall grow a b x y, Forall in_repertoire a -> Forall in_repertoire b ->
  To grow (utf8 a) = Ok (inl x) -> To grow (utf8 b) = Ok (inl y) -> is_suffix a b -> is_suffix x y.
Proof. exact suffix_complete. Qed.
Print Assumptions C181_complete_partial.
(** The test is exact if there are no letters A to Z or a to z in either text. *)
Theorem C181_letterless_partial : forall grow a b x y, Forall in_repertoire a -> Forall in_repertoire b ->
  Forall (fun r => is_letter_byte r = false) a -> Forall (fun r => is_letter_byte r = false) b ->
  To grow (utf8 a) = Ok (inl x) -> To grow (utf8 b) = Ok (inl y) -> (is_suffix x y <-> is_suffix a b).
Proof. exact letterless_To. Qed.
Print Assumptions C181_letterless_partial.
(** It is exact for a suffix made of characters of KS X 1001, in any text. *)
Theorem C181_ks_partial : forall grow k b x y, Forall ks_char k -> Forall in_repertoire b ->
  To grow (utf8 k) = Ok (inl x) -> To grow (utf8 b) = Ok (inl y) -> (is_suffix x y <-> is_suffix k b).
Proof. exact suffix_To. Qed.
Print Assumptions C181_ks_partial.

(** * C76 Searching encoded text
    Exact for a word of characters of KS X 1001 followed by an ASCII character that is no letter,
    and anything behind it. *)
Theorem C76_word_partial : forall grow k p a b x y, Forall ks_char k -> ascii_nonletter p = true ->
  Forall in_repertoire a -> Forall in_repertoire b ->
  To grow (utf8 (k ++ p :: a)) = Ok (inl x) -> To grow (utf8 b) = Ok (inl y) ->
  (occurs x y <-> occurs (k ++ p :: a) b).
Proof. exact search_To. Qed.
Print Assumptions C76_word_partial.

(** Given the syllable of U+AC00 and a full stop, in a text with a syllable in front. *)
Example C181_case : Forall ks_char [0xAC00] /\ ascii_nonletter 0x2E = true /\ is_suffix [0xAC00] [0xAC02; 0xAC00] /\
  (forall grow, To grow (utf8 [0xAC00]) = Ok (inl [0xB0; 0xA1]) /\ To grow (utf8 [0xAC02; 0xAC00]) = Ok (inl [0x81; 0x41; 0xB0; 0xA1])) /\
  Forall (fun r => is_letter_byte r = false) [0xAC02; 0xAC00].
Proof.
  assert (A : assigned 0xB0A1 0xAC00) by (apply assigned_by; vm_compute; reflexivity).
  assert (B : assigned 0x8141 0xAC02) by (apply assigned_by; vm_compute; reflexivity).
  split; [constructor; [exists 0xB0A1; split; [exact A|unfold ks_code; split; vm_compute; discriminate]|constructor]|].
  split; [reflexivity|]. split; [exists [0xAC02]; reflexivity|]. split.
  - intros grow. split; apply To_encodes.
    + apply (enc_code 0xB0A1 0xAC00 [] []); [exact A|constructor].
    + apply (enc_code 0x8141 0xAC02 [0xAC00] [0xB0; 0xA1]); [exact B|]. apply (enc_code 0xB0A1 0xAC00 [] []); [exact A|constructor].
  - repeat constructor.
Qed.
