(** Properties C27-C44, C59 and C60 of package cp949: whole-buffer conversion.
    [grow] is the capacity policy of the Go runtime; every theorem holds for all of them. *)
From Coq Require Import ZArith List Bool Sorting.Sorted.
From Verif Require Import Base Spec Utf8 SortSearch TableFrom TableTo SpecCp949 Cp949Model
  HangulModel HanjaModel TableFacts Cp949Facts Cp949Facts2.
Import ListNotations.
Local Open Scope Z_scope.

(* the policy used in the examples *)
Definition double (old need : Z) : Z := Z.max need (2 * old).

(** * C27 Every CP949 hanja can be converted
    False as stated: the 268 compatibility ideographs U+F900..FA0B have no reading. *)
Theorem C27_refuted : exists c u, From double (code_bytes c) = Ok (inl (utf8_char u)) /\
  0xF900 <= u <= 0xFAFF /\ IsHanja u = false.
Proof. exact C27_refuted_lemma. Qed.
Print Assumptions C27_refuted.
(** Exactly the unified ones can. *)
Theorem C27_unified_hanja_convert_partial : forall grow s out rs,
  Forall is_byte s -> From grow s = Ok (inl out) -> reads_as out rs ->
  Forall (fun r => (0x3400 <= r <= 0x9FFF -> IsHanja r = true) /\
                   (0xF900 <= r <= 0xFAFF -> IsHanja r = false)) rs.
Proof. exact C27_lemma. Qed.
Print Assumptions C27_unified_hanja_convert_partial.
Theorem C27_compatibility_count_partial : exists l, NoDup l /\ length l = Z.to_nat 268 /\
  forall u, In u l <-> 0xF900 <= u <= 0xFAFF /\ exists c, assigned c u.
Proof. exact C27_count_lemma. Qed.
Print Assumptions C27_compatibility_count_partial.
Example C27_case : From double [0xED; 0xC7] = Ok (inl (utf8 [0x707C])) /\ IsHanja 0x707C = true.
Proof. vm_compute. split; reflexivity. Qed.

(** * C28 Encoding then decoding is the identity on encodable text *)
Theorem C28_decode_encode : forall grow rs, Forall in_repertoire rs ->
  exists bs, encodes rs bs /\ To grow (utf8 rs) = Ok (inl bs) /\ From grow bs = Ok (inl (utf8 rs)).
Proof. exact C28_lemma. Qed.
Print Assumptions C28_decode_encode.
Example C28_case : Forall in_repertoire [0x41; 0xAC00; 0xD7A3] /\
  To double (utf8 [0x41; 0xAC00; 0xD7A3]) = Ok (inl [0x41; 0xB0; 0xA1; 0xC6; 0x52]).
Proof. exact C28_case_lemma. Qed.

(** * C29 Decoding then encoding is the identity on valid CP949 *)
Theorem C29_encode_decode : forall grow rs bs, encodes rs bs ->
  From grow bs = Ok (inl (utf8 rs)) /\ To grow (utf8 rs) = Ok (inl bs).
Proof. exact C29_lemma. Qed.
Print Assumptions C29_encode_decode.
Example C29_case : encodes [0x41; 0xAC00; 0xD7A3] [0x41; 0xB0; 0xA1; 0xC6; 0x52].
Proof. exact C29_case_lemma. Qed.

(** * C30 From decodes character by character *)
Theorem C30_From_decodes : forall grow s, Forall is_byte s ->
  ((exists rs, decodes s rs) /\ ~ truncated s \/ truncated s /\ ~ exists rs, decodes s rs) /\
  (forall rs, decodes s rs <-> From grow s = Ok (inl (utf8 rs)) /\ Forall is_scalar rs) /\
  (truncated s <-> From grow s = Ok (inr ErrCP949UnexpectedStream)).
Proof. exact C30_lemma. Qed.
Print Assumptions C30_From_decodes.
(* an unassigned code, and a string cut inside a code *)
Example C30_case : From double [0x41; 0x80; 0x41; 0xB0; 0xA1] = Ok (inl (utf8 [0x41; 0xFFFD; 0xAC00])) /\
  From double [0xB0; 0xA1; 0xB0] = Ok (inr ErrCP949UnexpectedStream).
Proof. vm_compute. split; reflexivity. Qed.

(** * C31 To encodes character by character *)
Theorem C31_To_encodes : forall grow, exists f : Z -> list Z,
  (forall r, 0 <= r < 0x80 -> f r = [r]) /\
  (forall c r, assigned c r -> f r = code_bytes c) /\
  (forall s rs, Forall is_byte s -> reads_as s rs -> To grow s = Ok (inl (flat_map f rs))).
Proof. exact C31_lemma. Qed.
Print Assumptions C31_To_encodes.
Example C31_case : To double (utf8 [0xAC00] ++ [0xFF; 0x7A]) = Ok (inl [0xB0; 0xA1; 0x3F; 0x3F; 0x7A]).
Proof. vm_compute. reflexivity. Qed.

(** * C32 To replaces an unencodable character by one question mark
    False as stated, in two ways: two question marks, and an unrelated character. *)
Theorem C32_double_mark_refuted : exists r, is_scalar r /\ ~ in_repertoire r /\
  To double (utf8_char r) = Ok (inl [0x3F; 0x3F]).
Proof. exact C32_refuted_double_lemma. Qed.
Print Assumptions C32_double_mark_refuted.
Theorem C32_wrong_character_refuted : exists r c, is_scalar r /\ ~ in_repertoire r /\
  assigned c 0xAC00 /\ To double (utf8_char r) = Ok (inl (code_bytes c)).
Proof. exact C32_refuted_wrong_lemma. Qed.
Print Assumptions C32_wrong_character_refuted.
(** What happens to every character outside the repertoire. *)
Theorem C32_unencodable_partial : forall grow, exists f : Z -> list Z,
  (forall r, is_scalar r -> ~ in_repertoire r -> r <= 0xFFE6 -> f r = [0x3F]) /\
  (forall r, is_scalar r -> ~ in_repertoire r -> 0xFFE6 < r <= 0xFFFF -> f r = [0x3F; 0x3F]) /\
  (forall r c, is_scalar r -> 0xFFFF < r -> assigned c (r mod 0x10000) -> f r = code_bytes c) /\
  (forall r, is_scalar r -> 0xFFFF < r -> (forall c, ~ assigned c (r mod 0x10000)) ->
     f r = if r mod 0x10000 <=? 0xFFE6 then [0x3F] else [0x3F; 0x3F]) /\
  (forall s rs, Forall is_byte s -> reads_as s rs -> To grow s = Ok (inl (flat_map f rs))).
Proof. exact C32_lemma. Qed.
Print Assumptions C32_unencodable_partial.
Example C32_case : To double (utf8 [0xC0; 0x1F600]) = Ok (inl [0x3F; 0x3F]) /\
  To double (utf8 [0x41; 0x10041]) = Ok (inl [0x41; 0x3F]).
Proof. vm_compute. split; reflexivity. Qed.

(** * C33 ASCII transparency *)
Theorem C33_ascii : forall grow s, Forall (fun b => 0 <= b < 0x80) s ->
  From grow s = Ok (inl s) /\ To grow s = Ok (inl s).
Proof. exact C33_lemma. Qed.
Print Assumptions C33_ascii.
Example C33_case : From double [0x48; 0x69; 0x21] = Ok (inl [0x48; 0x69; 0x21]).
Proof. vm_compute. reflexivity. Qed.

(** * C34 From yields valid UTF-8 *)
Theorem C34_From_valid : forall grow s out,
  Forall is_byte s -> From grow s = Ok (inl out) -> valid_utf8 out.
Proof. exact C34_lemma. Qed.
Print Assumptions C34_From_valid.
Example C34_case : From double [0xFF; 0xFF; 0xB0; 0xA1] = Ok (inl (utf8 [0xFFFD; 0xAC00])).
Proof. vm_compute. reflexivity. Qed.

(** * C35 To yields decodable CP949 *)
Theorem C35_To_decodable : forall grow s, Forall is_byte s ->
  exists bs rs, To grow s = Ok (inl bs) /\ encodes rs bs /\
    From grow bs = Ok (inl (utf8 rs)) /\ Forall is_scalar rs /\ ~ In replacement rs.
Proof. exact C35_lemma. Qed.
Print Assumptions C35_To_decodable.
Example C35_case : To double [0xEA; 0xB0; 0xEA; 0xB0; 0x80] = Ok (inl [0x3F; 0x3F; 0x3F; 0x3F; 0xB0; 0xA1]).
Proof. vm_compute. reflexivity. Qed.

(** * C36 From distributes over concatenation *)
Theorem C36_From_concat : forall grow a b x,
  Forall is_byte a -> Forall is_byte b -> From grow a = Ok (inl x) ->
  (forall y, From grow b = Ok (inl y) -> From grow (a ++ b) = Ok (inl (x ++ y))) /\
  (forall e, From grow b = Ok (inr e) -> From grow (a ++ b) = Ok (inr e)) /\
  (forall z, From grow (a ++ b) = Ok (inl z) -> exists y, From grow b = Ok (inl y) /\ z = x ++ y).
Proof. exact C36_lemma. Qed.
Print Assumptions C36_From_concat.
(* the hypothesis is needed: the cut must not fall inside a code *)
Example C36_case : From double [0x41; 0xB0] = Ok (inr ErrCP949UnexpectedStream) /\
  From double ([0x41; 0xB0] ++ [0xA1]) = Ok (inl (utf8 [0x41; 0xAC00])).
Proof. vm_compute. split; reflexivity. Qed.

(** * C37 To distributes over concatenation *)
Theorem C37_To_concat : forall grow a b,
  Forall is_byte a -> Forall is_byte b -> valid_utf8 a \/ boundary b ->
  exists x y, To grow a = Ok (inl x) /\ To grow b = Ok (inl y) /\ To grow (a ++ b) = Ok (inl (x ++ y)).
Proof. exact C37_lemma. Qed.
Print Assumptions C37_To_concat.
Example C37_case : valid_utf8 (utf8 [0xAC00]) /\ boundary [0x41].
Proof. exact C37_case_lemma. Qed.

(** * C38 The two tables are mutually inverse *)
Theorem C38_tables :
  length fromTable = Z.to_nat 17048 /\ length toTable = Z.to_nat 17048 /\
  (forall c u, In (It c u) fromTable <-> In (It c u) toTable) /\
  (forall c u u', In (It c u) fromTable -> In (It c u') fromTable -> u = u') /\
  (forall c c' u, In (It c u) fromTable -> In (It c' u) fromTable -> c = c') /\
  StronglySorted Z.lt (map cp949 fromTable) /\ StronglySorted Z.lt (map ucs2 toTable) /\
  (forall n, exists i, Search (zlen fromTable) (from_pred fromTable n) = Ok i /\
     forall u, In (It n u) fromTable <-> zget fromTable i = Some (It n u)) /\
  (forall u, exists i, Search (zlen toTable) (to_pred toTable u) = Ok i /\
     forall c, In (It c u) toTable <-> zget toTable i = Some (It c u)).
Proof. exact C38_lemma. Qed.
Print Assumptions C38_tables.
Example C38_case : Search (zlen fromTable) (from_pred fromTable 0xB0A1) = Ok 8028 /\
  zget fromTable 8028 = Some (It 0xB0A1 0xAC00).
Proof. vm_compute. split; reflexivity. Qed.

(** * C39 All Hangul syllables are encodable *)
Theorem C39_syllables :
  (forall u, is_syllable u -> exists c, assigned c u) /\
  (forall c u c' u', is_syllable u -> is_syllable u' -> assigned c u -> assigned c' u' ->
     (ks_code c <-> ks_code c') -> (c < c' <-> u < u')) /\
  (exists l, NoDup l /\ length l = Z.to_nat 2350 /\
     forall c u, In (It c u) l <-> assigned c u /\ is_syllable u /\ ks_code c) /\
  (exists l, NoDup l /\ length l = Z.to_nat 8822 /\
     forall c u, In (It c u) l <-> assigned c u /\ is_syllable u /\ ~ ks_code c).
Proof. exact C39_lemma. Qed.
Print Assumptions C39_syllables.
Example C39_case : is_syllable 0xAC02 /\ To double (utf8 [0xAC00; 0xAC02]) = Ok (inl [0xB0; 0xA1; 0x81; 0x41]).
Proof. vm_compute. repeat split; discriminate. Qed.

(** * C40 Trail bytes never collide with ASCII punctuation *)
Theorem C40_punctuation : forall grow rs bs, encodes rs bs ->
  To grow (utf8 rs) = Ok (inl bs) /\
  filter ascii_nonletter bs = filter ascii_nonletter rs.
Proof. exact C40_lemma. Qed.
Print Assumptions C40_punctuation.
Theorem C40_code_bytes : forall c u, assigned c u ->
  0x81 <= c / 256 <= 0xFE /\ (is_letter_byte (c mod 256) = true \/ 0x81 <= c mod 256 <= 0xFE).
Proof. exact code_trail. Qed.
Print Assumptions C40_code_bytes.
(* 갂 ends in the letter A, the quote stays a quote *)
Example C40_case : To double (utf8 [0xAC02; 0x22]) = Ok (inl [0x81; 0x41; 0x22]) /\
  ascii_nonletter 0x22 = true.
Proof. vm_compute. split; reflexivity. Qed.

(** * C41 Output size bounds *)
Theorem C41_From_size : forall grow s out,
  Forall is_byte s -> From grow s = Ok (inl out) -> 2 * zlen out <= 3 * zlen s.
Proof. exact C41_From_lemma. Qed.
Print Assumptions C41_From_size.
Theorem C41_To_size : forall grow s, Forall is_byte s ->
  exists out, To grow s = Ok (inl out) /\ zlen out <= 2 * zlen s /\ (valid_utf8 s -> zlen out <= zlen s).
Proof. exact C41_To_lemma. Qed.
Print Assumptions C41_To_size.
(* both bounds are attained *)
Example C41_case : From double [0xB0; 0xA1] = Ok (inl [0xEA; 0xB0; 0x80]) /\
  To double [0xFF] = Ok (inl [0x3F; 0x3F]).
Proof. vm_compute. split; reflexivity. Qed.

(** * C42 Conversions never panic or hang *)
Theorem C42_total : forall grow data, Forall is_byte data ->
  (exists r, From grow data = Ok r) /\ (exists out, To grow data = Ok (inl out)).
Proof. exact C42_lemma. Qed.
Print Assumptions C42_total.
(* the policy need not be sensible *)
Example C42_case : From (fun _ _ => -1) [0xB0; 0xA1; 0x41] = Ok (inl (utf8 [0xAC00; 0x41])).
Proof. vm_compute. reflexivity. Qed.

(** * C43 Buffer growth keeps content *)
Theorem C43_growth : forall s, slice_ok s ->
  (forall n, exists s', ensureCap s n = Ok s' /\ slice_ok s' /\ contents s' = contents s /\
     n <= scap s' /\ (n <= scap s -> s' = s) /\ (0 < scap s < n -> scap s' < 2 * n)) /\
  (forall r, exists s', appendRune s r = Ok s' /\ slice_ok s' /\
     (is_scalar r -> contents s' = contents s ++ utf8_char r) /\
     (is_int32 r -> ~ is_scalar r -> contents s' = contents s ++ utf8_char replacement)).
Proof. exact C43_lemma. Qed.
Print Assumptions C43_growth.
Example C43_case : slice_ok (mkSlice [1; 2; 3] 2) /\
  ensureCap (mkSlice [1; 2; 3] 2) 7 = Ok (mkSlice [1; 2; 0; 0; 0; 0; 0; 0; 0; 0; 0; 0] 2) /\
  bind (appendRune (mkSlice [1; 2; 3] 2) 0xAC00) (fun s => Ok (contents s)) = Ok [1; 2; 0xEA; 0xB0; 0x80].
Proof. vm_compute. repeat split; discriminate. Qed.

(** * C44 A reused translator leaks nothing between calls *)
Theorem C44_from_reuse : forall grow scratch inputs,
  slice_ok scratch -> Forall (Forall is_byte) inputs ->
  translate_all (from_Translate grow fromTable) scratch inputs =
  flat_map (fun d => translate_all (from_Translate grow fromTable) nil_slice [d]) inputs.
Proof. exact C44_from_lemma. Qed.
Print Assumptions C44_from_reuse.
Theorem C44_to_reuse : forall grow scratch inputs,
  slice_ok scratch -> Forall (Forall is_byte) inputs ->
  translate_all (to_Translate grow toTable) scratch inputs =
  flat_map (fun d => translate_all (to_Translate grow toTable) nil_slice [d]) inputs.
Proof. exact C44_to_lemma. Qed.
Print Assumptions C44_to_reuse.
Example C44_case :
  translate_all (from_Translate double fromTable) (mkSlice [9; 9; 9; 9; 9] 5) [[0xB0; 0xA1; 0x41]; [0x42]; [0xB0]]
  = [Ok (3, Some (utf8 [0xAC00; 0x41]), None); Ok (1, Some [0x42], None);
     Ok (0, None, Some ErrCP949UnexpectedStream)].
Proof. vm_compute. reflexivity. Qed.

(** * C59 Converted text stays encodable *)
Theorem C59_Convert_encodable : forall grow rs, Forall in_repertoire rs ->
  exists rs' bs, Convert (utf8 rs) = utf8 rs' /\ Forall in_repertoire rs' /\ encodes rs' bs /\
    To grow (Convert (utf8 rs)) = Ok (inl bs) /\ From grow bs = Ok (inl (Convert (utf8 rs))).
Proof. exact C59_lemma. Qed.
Print Assumptions C59_Convert_encodable.
Example C59_case : in_repertoire 0x5927 /\ To double (Convert (utf8 [0x5927])) = Ok (inl [0xB4; 0xEB]).
Proof. exact C59_case_lemma. Qed.

(** * C60 Every Join result survives CP949 *)
Theorem C60_Join_encodable : forall grow l m t, Join l m t <> 0xFFFD ->
  exists c, assigned c (Join l m t) /\
    To grow (utf8_char (Join l m t)) = Ok (inl (code_bytes c)) /\
    From grow (code_bytes c) = Ok (inl (utf8_char (Join l m t))).
Proof. exact C60_lemma. Qed.
Print Assumptions C60_Join_encodable.
Example C60_case : Join 0x3131 0x3150 0x3132 <> 0xFFFD /\
  To double (utf8_char (Join 0x3131 0x3150 0x3132)) = Ok (inl [0x81; 0x4B]).
Proof. vm_compute. split; [discriminate|reflexivity]. Qed.
