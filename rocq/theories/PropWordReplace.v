(** Replacing words in encoded text. *)
From Coq Require Import ZArith List Bool Lia.
From Verif Require Import Base Spec SpecCp949 SpecReplace SpecSuffix Cp949Model Cp949Facts2 TableFacts PMapFacts WordReplaceFacts.
Import ListNotations.
Local Open Scope Z_scope.
Local Open Scope list_scope.

(** * C171 Replacing in encoded text
    Exact too if characters of KS X 1001 precede the ASCII character that is no letter. *)
Theorem C171_word_partial : forall grow k p old new rs o n x, Forall ks_char k -> ascii_nonletter p = true ->
  encodes (k ++ p :: old) o -> encodes new n -> encodes rs x ->
  exists t x', replaced (utf8 (k ++ p :: old)) (utf8 new) (utf8 rs) t /\ replaced o n x x' /\
    To grow t = Ok (inl x') /\ From grow x' = Ok (inl t).
Proof. exact word_replaced. Qed.
Print Assumptions C171_word_partial.
Theorem C171_word_every_partial : forall grow k p old new rs o n x t x', Forall ks_char k -> ascii_nonletter p = true ->
  encodes (k ++ p :: old) o -> encodes new n -> encodes rs x ->
  replaced (utf8 (k ++ p :: old)) (utf8 new) (utf8 rs) t -> replaced o n x x' ->
  To grow t = Ok (inl x') /\ From grow x' = Ok (inl t).
Proof. exact word_exact. Qed.
Print Assumptions C171_word_every_partial.

(** U+AC00 and a full stop, behind U+AC02, replaced by an exclamation mark. *)
Example C171_word_case : Forall ks_char [0xAC00] /\ ascii_nonletter 0x2E = true /\
  encodes ([0xAC00] ++ 0x2E :: []) [0xB0; 0xA1; 0x2E] /\ encodes [0x21] [0x21] /\
  encodes [0xAC02; 0xAC00; 0x2E] [0x81; 0x41; 0xB0; 0xA1; 0x2E] /\
  replaced [0xB0; 0xA1; 0x2E] [0x21] [0x81; 0x41; 0xB0; 0xA1; 0x2E] [0x81; 0x41; 0x21].
Proof.
  assert (A : assigned 0xB0A1 0xAC00) by (apply assigned_by; vm_compute; reflexivity).
  assert (B : assigned 0x8141 0xAC02) by (apply assigned_by; vm_compute; reflexivity).
  assert (E : encodes [0xAC00; 0x2E] [0xB0; 0xA1; 0x2E]) by (apply (enc_code 0xB0A1 0xAC00 [0x2E] [0x2E]); [exact A|]; apply enc_ascii; [lia|constructor]).
  split; [constructor; [exists 0xB0A1; split; [exact A|unfold ks_code; split; vm_compute; discriminate]|constructor]|].
  split; [reflexivity|]. split; [exact E|]. split; [apply enc_ascii; [lia|constructor]|].
  split; [apply (enc_code 0x8141 0xAC02 [0xAC00; 0x2E] [0xB0; 0xA1; 0x2E]); [exact B|exact E]|].
  apply rp_miss; [intros (q & K); discriminate|]. apply rp_miss; [intros (q & K); discriminate|].
  apply (rp_hit [0xB0; 0xA1; 0x2E] [0x21] [] []). constructor.
Qed.
