(** Which texts fit EUC-KR. *)
From Coq Require Import ZArith List Bool Lia.
From Verif Require Import Base Spec SpecCp949 SpecSuffix SpecInPlace SpecLetters Cp949Model Cp949Facts2 TableFacts PMapFacts EucKrFacts.
Import ListNotations.
Local Open Scope Z_scope.
Local Open Scope list_scope.

(** * C186 EUC-KR text *)
Theorem C186_To : forall grow rs s, Forall in_repertoire rs -> To grow (utf8 rs) = Ok (inl s) ->
  (euc_kr s <-> Forall (fun r => 0 <= r < 0x80 \/ ks_char r) rs).
Proof. exact euc_To. Qed.
Print Assumptions C186_To.
Theorem C186_From : forall grow s, euc_kr s ->
  exists rs, From grow s = Ok (inl (utf8 rs)) /\ Forall (fun r => (0 <= r < 0x80 \/ ks_char r) \/ r = 0xFFFD) rs.
Proof. exact euc_From. Qed.
Print Assumptions C186_From.
(** Any text of syllables, ASCII and other characters of KS X 1001 fits if it is taken apart. *)
Theorem C186_letters : forall grow rs, Forall (fun r => is_syllable r \/ (~ is_jamo r /\ (0 <= r < 0x80 \/ ks_char r))) rs ->
  exists s, To grow (utf8 (letters rs)) = Ok (inl s) /\ euc_kr s /\
    From grow s = Ok (inl (utf8 (letters rs))) /\ compose (letters rs) = rs.
Proof. exact euc_letters. Qed.
Print Assumptions C186_letters.

(** U+AC02 does not fit, its letters do; U+AC00 fits. *)
Example C186_case : in_repertoire 0xAC02 /\ is_syllable 0xAC02 /\ letters [0xAC02] = [0x3131; 0x314F; 0x3132] /\
  ~ euc_kr [0x81; 0x41] /\ (forall grow, To grow (utf8 [0xAC02]) = Ok (inl [0x81; 0x41])) /\
  euc_kr [0xB0; 0xA1] /\ (forall grow, To grow (utf8 [0xAC00]) = Ok (inl [0xB0; 0xA1])) /\ ks_char 0xAC00.
Proof.
  assert (A : assigned 0xB0A1 0xAC00) by (apply assigned_by; vm_compute; reflexivity).
  assert (B : assigned 0x8141 0xAC02) by (apply assigned_by; vm_compute; reflexivity).
  split; [right; exists 0x8141; exact B|]. split; [unfold is_syllable; lia|]. split; [vm_compute; reflexivity|].
  split; [intros K; inversion K; subst; lia|].
  split; [intros grow; apply To_encodes; apply (enc_code 0x8141 0xAC02 [] []); [exact B|constructor]|].
  split; [apply ek_pair; [lia|lia|constructor]|].
  split; [intros grow; apply To_encodes; apply (enc_code 0xB0A1 0xAC00 [] []); [exact A|constructor]|].
  exists 0xB0A1. split; [exact A|]. unfold ks_code. split; vm_compute; discriminate.
Qed.
