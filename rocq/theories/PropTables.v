(** Properties C66-C69: the data tables against independent descriptions. *)
From Coq Require Import ZArith List Bool Sorting.Sorted.
From Verif Require Import Base Spec SpecCp949 SpecTable TableRef Utf8 Cp949Model HanjaModel
  TableFacts TableFacts2.
Import ListNotations.
Local Open Scope Z_scope.

(** * C66 Layout of the extension
    [rest] is the list of the syllables that have no KS X 1001 code. *)
Theorem C66_extension_layout : exists rest,
  StronglySorted Z.lt rest /\ length rest = Z.to_nat 8822 /\
  (forall u, In u rest <-> is_syllable u /\ forall c, assigned c u -> ~ ks_code c) /\
  (forall c u, assigned c u /\ ~ ks_code c <->
     exists i, nth_error extension_codes i = Some c /\ nth_error rest i = Some u).
Proof. exact C66_lemma. Qed.
Print Assumptions C66_extension_layout.
(* 가 and 각 have KS X 1001 codes, so 갂 comes first; the last one is 힣 *)
Example C66_case : nth_error extension_codes 0 = Some 0x8141 /\
  nth_error extension_codes (Z.to_nat 8821) = Some 0xC652 /\
  From (fun _ n => n) [0x81; 0x41; 0xC6; 0x52] = Ok (inl (utf8 [0xAC02; 0xD7A3])).
Proof. vm_compute. repeat split. Qed.

(** * C67 Hanja are filed by reading
    False as stated. *)
Theorem C67_refuted : exists c u c' u',
  assigned c u /\ assigned c' u' /\ is_hanja u /\ is_hanja u' /\
  exists h h', is_scalar h /\ is_scalar h' /\
    Convert (utf8_char u) = utf8_char h /\ Convert (utf8_char u') = utf8_char h' /\
    (c < c' /\ h' < h \/ c' < c /\ h < h').
Proof. exact C67_refuted_lemma. Qed.
Print Assumptions C67_refuted.
(** It holds for all but thirteen of the 4620 hanja. *)
Theorem C67_reading_order_partial : forall c u h c' u' h',
  assigned c u -> assigned c' u' -> is_hanja u -> is_hanja u' ->
  ~ In u filed_elsewhere -> ~ In u' filed_elsewhere -> is_scalar h -> is_scalar h' ->
  Convert (utf8_char u) = utf8_char h -> Convert (utf8_char u') = utf8_char h' ->
  c < c' -> h <= h'.
Proof. exact C67_lemma. Qed.
Print Assumptions C67_reading_order_partial.
(** Each of the thirteen is out of order with one of the others. *)
Theorem C67_exceptions_partial : forall x, In x filed_elsewhere -> is_hanja x /\
  exists c c' u', assigned c x /\ assigned c' u' /\ is_hanja u' /\ ~ In u' filed_elsewhere /\
    exists h h', is_scalar h /\ is_scalar h' /\
      Convert (utf8_char x) = utf8_char h /\ Convert (utf8_char u') = utf8_char h' /\
      (c < c' /\ h' < h \/ c' < c /\ h < h').
Proof. exact C67_needed_lemma. Qed.
Print Assumptions C67_exceptions_partial.
(* 可 (code 0xCAA6) reads 가, 刊 (0xCACA) reads 간 *)
Example C67_case : From (fun _ n => n) [0xCA; 0xA6; 0xCA; 0xCA] = Ok (inl (utf8 [0x53EF; 0x520A])) /\
  Convert (utf8 [0x53EF; 0x520A]) = utf8 [0xAC00; 0xAC04].
Proof. vm_compute. split; reflexivity. Qed.

(** * C68 The code assignment is that of the reference *)
Theorem C68_reference : forall grow,
  (forall c u, reference c u ->
     From grow (code_bytes c) = Ok (inl (utf8_char u)) /\
     To grow (utf8_char u) = Ok (inl (code_bytes c))) /\
  (forall b0 b1, 0x80 <= b0 < 256 -> is_byte b1 -> (forall u, ~ reference (b0 * 256 + b1) u) ->
     From grow [b0; b1] = Ok (inl (utf8_char replacement))) /\
  (forall r, is_scalar r -> 0x80 <= r <= 0xFFFF -> (forall c, ~ reference c r) ->
     exists bs, To grow (utf8_char r) = Ok (inl bs) /\ bs <> [] /\ Forall (fun b => b = 0x3F) bs).
Proof. exact C68_lemma. Qed.
Print Assumptions C68_reference.
Theorem C68_assigned : forall c u, reference c u <-> assigned c u.
Proof. exact reference_assigned. Qed.
Print Assumptions C68_assigned.
Example C68_case : reference 0xB0A1 0xAC00.
Proof. exact C68_case_lemma. Qed.

(** * C69 Rows of KS X 1001 *)
Theorem C69_rows :
  (forall i, 0 <= i < 94 -> assigned (ks_at 0xA4 i) (0x3131 + i)) /\
  (forall i, 0 <= i < 94 -> i <> 59 -> i <> 93 -> assigned (ks_at 0xA3 i) (0xFF01 + i)) /\
  assigned (ks_at 0xA3 59) 0xFFE6 /\ assigned (ks_at 0xA3 93) 0xFFE3 /\
  (forall i, 0 <= i < 83 -> assigned (ks_at 0xAA i) (0x3041 + i)) /\
  (forall i, 0 <= i < 86 -> assigned (ks_at 0xAB i) (0x30A1 + i)) /\
  (forall lead i, 0xB0 <= lead <= 0xC8 \/ 0xCA <= lead <= 0xFD -> 0 <= i < 94 ->
     exists u, assigned (ks_at lead i) u) /\
  (forall c u, assigned c u -> ks_code c ->
     (0xB0 <= c / 256 <= 0xC8 <-> is_syllable u) /\
     (0xCA <= c / 256 <= 0xFD <-> 0x4E00 <= u <= 0x9FFF \/ 0xF900 <= u <= 0xFAFF)).
Proof. exact C69_lemma. Qed.
Print Assumptions C69_rows.
(* the jamo GIYEOK, the won sign *)
Example C69_case : From (fun _ n => n) [0xA4; 0xA1; 0xA3; 0xDC] = Ok (inl (utf8 [0x3131; 0xFFE6])).
Proof. vm_compute. reflexivity. Qed.
