(** Properties of converting normalised text. *)
From Coq Require Import ZArith List Bool Lia.
From Verif Require Import Base Spec SpecCp949 SpecIO SpecTable SpecNfc TableReadings HanjaModel Cp949Model Cp949Facts2 TableFacts NfcFacts NfcFacts2.
Import ListNotations.
Local Open Scope Z_scope.
Local Open Scope list_scope.

(** * C166 Normalising an encodable text before converting it leaves no Chinese characters and an
      encodable text (the latter refuted by the angstrom sign; NFC alone loses U+F92C as well) *)
Theorem C166_refuted : (exists r r', in_repertoire r /\ Convert (utf8 (nfc [r])) = utf8 [r'] /\ ~ in_repertoire r') /\
  (exists r, in_repertoire r /\ chinese r /\ ~ in_repertoire (nfc_char r)).
Proof. exact nfc_lost_ex. Qed.
Print Assumptions C166_refuted.
Theorem C166_converted : forall rs, Forall in_repertoire rs -> exists rs', Convert (utf8 (nfc rs)) = utf8 rs' /\
  Forall2 (fun r r' => (chinese r -> is_hanja (nfc_char r) /\ is_syllable r') /\ (~ chinese r -> r' = nfc_char r)) rs rs' /\
  Forall (fun r' => ~ chinese r') rs'.
Proof. exact nfc_convert. Qed.
Print Assumptions C166_converted.
Theorem C166_exceptions_partial : forall r, in_repertoire r -> (in_repertoire (nfc_char r) <-> ~ In r [0x212B; 0xF92C; 0xF9B8]).
Proof. exact nfc_repertoire. Qed.
Print Assumptions C166_exceptions_partial.
Theorem C166_encodable_partial : forall grow rs, Forall in_repertoire rs -> ~ In 0x212B rs ->
  exists rs' bs, Convert (utf8 (nfc rs)) = utf8 rs' /\ encodes rs' bs /\ To grow (utf8 rs') = Ok (inl bs) /\ From grow bs = Ok (inl (utf8 rs')).
Proof. exact nfc_encodable. Qed.
Print Assumptions C166_encodable_partial.
(** U+F900, whose equivalent is U+8C48, is left alone by Convert and converted once normalised. *)
Example C166_case : Forall in_repertoire [0x41; 0xF900] /\ chinese 0xF900 /\ ~ In 0x212B [0x41; 0xF900] /\
  Convert (utf8 [0x41; 0xF900]) = utf8 [0x41; 0xF900] /\ Convert (utf8 (nfc [0x41; 0xF900])) = utf8 [0x41; 0xAE30].
Proof.
  split; [constructor; [left; lia|constructor; [right; exists 0xCBD0; apply assigned_by; vm_compute; reflexivity|constructor]]|].
  split; [unfold chinese; lia|]. split; [cbn; lia|]. vm_compute. split; reflexivity.
Qed.

(** * C167 Normalised, the Chinese characters of KS X 1001 are filed by the readings of Convert
      (refuted by 256 of the 268 compatibility ideographs) *)
Theorem C167_refuted : exists c u h c' u' h', assigned c u /\ assigned c' u' /\ chinese u /\ is_hanja u' /\ ~ In u' filed_elsewhere /\
  is_scalar h /\ is_scalar h' /\ Convert (utf8 (nfc [u])) = utf8_char h /\ Convert (utf8 (nfc [u'])) = utf8_char h' /\
  c < c' /\ h' < h.
Proof. exact nfc_order_refuted. Qed.
Print Assumptions C167_refuted.
(** Each of the 256 is on the wrong side of a hanja that C67 does not except. *)
Theorem C167_needed_partial : forall u v, In (u, v) wrongly_filed -> exists c c' h h',
  assigned c u /\ assigned c' v /\ is_hanja v /\ ~ In v filed_elsewhere /\
  is_scalar h /\ is_scalar h' /\ Convert (utf8 (nfc [u])) = utf8_char h /\ Convert (utf8_char v) = utf8_char h' /\
  (c < c' /\ h' < h \/ c' < c /\ h < h').
Proof. exact nfc_wrong. Qed.
Print Assumptions C167_needed_partial.
Theorem C167_exceptions_partial : (forall u, In u well_filed \/ In u (map fst wrongly_filed) <-> 0xF900 <= u <= 0xFA0B) /\
  length well_filed = 12%nat /\ length wrongly_filed = 256%nat /\ (forall u, In u well_filed -> In (nfc_char u) filed_elsewhere).
Proof. exact filed_cases. Qed.
Print Assumptions C167_exceptions_partial.
(** The order holds for the others, which are the hanja of C67 and the second copies of twelve of
    the thirteen hanja excepted there. *)
Theorem C167_partial : forall c u h c' u' h', assigned c u -> assigned c' u' ->
  (is_hanja u /\ ~ In u filed_elsewhere) \/ In u well_filed -> (is_hanja u' /\ ~ In u' filed_elsewhere) \/ In u' well_filed ->
  is_scalar h -> is_scalar h' -> Convert (utf8 (nfc [u])) = utf8_char h -> Convert (utf8 (nfc [u'])) = utf8_char h' ->
  c < c' -> h <= h'.
Proof. exact nfc_order. Qed.
Print Assumptions C167_partial.
Example C167_case : assigned 0xCAA1 0x4F3D /\ is_hanja 0x4F3D /\ ~ In 0x4F3D filed_elsewhere /\ Convert (utf8 (nfc [0x4F3D])) = utf8_char 0xAC00 /\
  assigned 0xCEAD 0xF905 /\ In 0xF905 well_filed /\ Convert (utf8 (nfc [0xF905])) = utf8_char 0xAD00 /\ In (0xF900, 0x93A7) wrongly_filed.
Proof.
  split; [apply assigned_by; vm_compute; reflexivity|]. split; [unfold is_hanja; lia|].
  split; [intros H; cbn in H; lia|]. split; [vm_compute; reflexivity|].
  split; [apply assigned_by; vm_compute; reflexivity|]. split; [left; reflexivity|].
  split; [vm_compute; reflexivity|]. left. reflexivity.
Qed.
