(** Hanja in CP949 text, and the syllables they are read as. *)
From Coq Require Import ZArith List Bool Lia.
From Verif Require Import Base Spec SpecCp949 SpecInPlace Cp949Model Cp949Facts2 TableFacts PMapFacts HanjaModel HanjaFacts InPlaceFacts.
Import ListNotations.
Local Open Scope Z_scope.
Local Open Scope list_scope.

(** * C182 Replacing the hanja of CP949 text *)
Theorem C182_in_place : forall grow s, (exists rs, encodes rs s) ->
  exists u t, From grow s = Ok (inl u) /\ To grow (Convert u) = Ok (inl t) /\
    hanja_replaced s t /\ zlen t = zlen s /\ (euc_kr s -> euc_kr t).
Proof. exact in_place. Qed.
Print Assumptions C182_in_place.

(** * C183 Hanja are read as syllables of KS X 1001
    False: U+5550 is read as U+CD40, which is in the extension. *)
Theorem C183_refuted : exists h, IsHanja h = true /\
  forall grow, exists d, To grow (Convert (utf8_char h)) = Ok (inl (code_bytes d)) /\ ~ ks_syllable_code d.
Proof. exact common_refuted. Qed.
Print Assumptions C183_refuted.
(** True of all but five. *)
Theorem C183_partial : forall grow h, IsHanja h = true -> ~ In h read_cd40 ->
  exists d, To grow (Convert (utf8_char h)) = Ok (inl (code_bytes d)) /\ ks_syllable_code d.
Proof. exact common_reading. Qed.
Print Assumptions C183_partial.
(** The five are read alike, and none of them is in CP949. *)
Theorem C183_five_partial : forall grow h, In h read_cd40 ->
  IsHanja h = true /\ To grow (Convert (utf8_char h)) = Ok (inl [0xAC; 0x82]) /\ (forall c, ~ assigned c h).
Proof. exact uncommon_reading. Qed.
Print Assumptions C183_five_partial.

(** The letter A, a hanja and a syllable. *)
Example C182_case : encodes [0x41; 0x5927; 0xAC00] [0x41; 0xD3; 0xDE; 0xB0; 0xA1] /\ euc_kr [0x41; 0xD3; 0xDE; 0xB0; 0xA1] /\
  (forall grow, To grow (Convert (utf8 [0x41; 0x5927; 0xAC00])) = Ok (inl [0x41; 0xB4; 0xEB; 0xB0; 0xA1])) /\
  IsHanja 0x5927 = true /\ ~ In 0x5927 read_cd40.
Proof.
  assert (A : assigned 0xB0A1 0xAC00) by (apply assigned_by; vm_compute; reflexivity).
  assert (B : assigned 0xD3DE 0x5927) by (apply assigned_by; vm_compute; reflexivity).
  assert (C : assigned 0xB4EB 0xB300) by (apply assigned_by; vm_compute; reflexivity).
  assert (D : encodes [0xAC00] [0xB0; 0xA1]) by (apply (enc_code 0xB0A1 0xAC00 [] []); [exact A|constructor]).
  split; [apply enc_ascii; [lia|]; apply (enc_code 0xD3DE 0x5927 [0xAC00] [0xB0; 0xA1]); assumption|].
  split; [apply ek_ascii; [lia|]; apply ek_pair; [lia|lia|]; apply ek_pair; [lia|lia|constructor]|]. split.
  - intros grow. replace (Convert (utf8 [0x41; 0x5927; 0xAC00])) with (utf8 [0x41; 0xB300; 0xAC00]) by (vm_compute; reflexivity).
    apply To_encodes, enc_ascii; [lia|]. apply (enc_code 0xB4EB 0xB300 [0xAC00] [0xB0; 0xA1]); assumption.
  - split; [vm_compute; reflexivity|]. cbn. lia.
Qed.
