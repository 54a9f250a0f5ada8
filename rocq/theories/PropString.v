(** Property C78: the String methods of the Decoder and the Encoder. *)
From Coq Require Import ZArith List Bool.
From Verif Require Import Base Spec Utf8 SpecCp949 SpecText Cp949Model TransformModel TransformModel2
  TransformFacts4 SpecString StringFacts.
Import ListNotations.
Local Open Scope Z_scope.

(* the growth policy used in the examples *)
Local Definition double (old need : Z) : Z := Z.max need (2 * old).

(** * C78 Decoder.String agrees with From and Encoder.String with To
    False: 43 syllables in CP949 panic; 127 ASCII bytes and a syllable are reported as cut;
    44 syllables in UTF-8 are encoded wrongly, with a nil error. *)
Theorem C78_refuted :
  (exists s text, decodes s text /\ forall fuel, String (dec_Transform double) (S fuel) s = Panic) /\
  (exists s text, decodes s text /\
     forall fuel, String (dec_Transform double) (S fuel) s = Ok (inr ErrCP949UnexpectedStream)) /\
  (exists text right wrong, encodes text right /\ wrong <> right /\
     forall fuel, String (enc_Transform double) (S (S fuel)) (utf8 text) = Ok (inl wrong)).
Proof. exact C78_refuted_lemma. Qed.
Print Assumptions C78_refuted.

(** A successful Decoder.String is right, whatever the length. *)
Theorem C78_Decoder_sound_partial : forall grow fuel s t, Forall is_byte s ->
  String (dec_Transform grow) fuel s = Ok (inl t) -> From grow s = Ok (inl t).
Proof. exact C78_dec_sound_lemma. Qed.
Print Assumptions C78_Decoder_sound_partial.
(** A successful Encoder.String is what To makes of the blocks of 128 bytes. *)
Theorem C78_Encoder_blocks_partial : forall grow fuel s t, Forall is_byte s ->
  String (enc_Transform grow) fuel s = Ok (inl t) ->
  exists bs outs, in_blocks 128 s bs /\ Forall2 (fun b o => To grow b = Ok (inl o)) bs outs /\
    t = concat outs.
Proof. exact C78_enc_sound_lemma. Qed.
Print Assumptions C78_Encoder_blocks_partial.

(** Up to 128 bytes: the exact outcome. *)
Theorem C78_Decoder_short_partial : forall grow fuel s, Forall is_byte s -> zlen s <= 128 ->
  (forall e, From grow s = Ok (inr e) -> String (dec_Transform grow) (S fuel) s = Ok (inr e)) /\
  (forall c, From grow s = Ok (inl c) -> zlen c <= 128 -> String (dec_Transform grow) (S fuel) s = Ok (inl c)) /\
  (forall c, From grow s = Ok (inl c) -> 128 < zlen c -> String (dec_Transform grow) (S fuel) s = Panic).
Proof. exact C78_dec_short_lemma. Qed.
Print Assumptions C78_Decoder_short_partial.
Theorem C78_Encoder_short_partial : forall grow fuel s, Forall is_byte s -> zlen s <= 128 ->
  exists c, To grow s = Ok (inl c) /\
  (zlen c <= 128 -> String (enc_Transform grow) (S fuel) s = Ok (inl c)) /\
  (128 < zlen c -> String (enc_Transform grow) (S fuel) s = Panic) /\
  (valid_utf8 s -> zlen c <= 128).
Proof. exact C78_enc_short_lemma. Qed.
Print Assumptions C78_Encoder_short_partial.

(** ASCII of any length is returned unchanged. *)
Theorem C78_ascii_partial : forall grow fuel s, Forall (fun b => 0 <= b < 0x80) s -> zlen s <= Z.of_nat fuel ->
  String (dec_Transform grow) fuel s = Ok (inl s) /\ String (enc_Transform grow) fuel s = Ok (inl s).
Proof. exact C78_ascii_lemma. Qed.
Print Assumptions C78_ascii_partial.

(** Neither method runs for ever. *)
Theorem C78_ends_partial : forall grow fuel s, Forall is_byte s -> zlen s <= Z.of_nat fuel ->
  String (dec_Transform grow) fuel s <> Fuel /\ String (enc_Transform grow) fuel s <> Fuel.
Proof. exact C78_ends_lemma. Qed.
Print Assumptions C78_ends_partial.

(** If the first 128 bytes are changed by the conversion, no more than 128 bytes can be
    returned. *)
Theorem C78_Decoder_limit_partial : forall grow fuel s c t, Forall is_byte s ->
  From grow (ztake 128 s) = Ok (inl c) -> c <> ztake 128 s ->
  String (dec_Transform grow) fuel s = Ok (inl t) -> zlen t <= 128.
Proof. exact C78_dec_cap_lemma. Qed.
Print Assumptions C78_Decoder_limit_partial.
Theorem C78_Encoder_limit_partial : forall grow fuel s c t, Forall is_byte s ->
  To grow (ztake 128 s) = Ok (inl c) -> c <> ztake 128 s ->
  String (enc_Transform grow) fuel s = Ok (inl t) -> zlen t <= 128.
Proof. exact C78_enc_cap_lemma. Qed.
Print Assumptions C78_Encoder_limit_partial.

(** The outcome for every text: it is converted block by block; when a block is changed for the
    first time the room for the result is fixed, and a result that does not fit panics. *)
Theorem C78_Decoder_exact_partial : forall grow fuel s bs,
  Forall is_byte s -> zlen s <= Z.of_nat fuel -> in_blocks 128 s bs ->
  String (dec_Transform grow) fuel s = block_by_block (From grow) (zlen s) [] bs.
Proof. exact C78_dec_exact_lemma. Qed.
Print Assumptions C78_Decoder_exact_partial.
Theorem C78_Encoder_exact_partial : forall grow fuel s bs,
  Forall is_byte s -> zlen s <= Z.of_nat fuel -> in_blocks 128 s bs ->
  String (enc_Transform grow) fuel s = block_by_block (To grow) (zlen s) [] bs.
Proof. exact C78_enc_exact_lemma. Qed.
Print Assumptions C78_Encoder_exact_partial.
(* an ASCII block, a block that begins with a Greek letter and keeps its length, and one letter: there
   is room; and the same with a syllable instead of the Greek letter, which makes 129 bytes *)
Example C78_exact_case :
  let s1 := repeat 0x41 128 in
  let s2 := 0xA5 :: 0xC1 :: repeat 0x41 126 in
  let s2' := 0xB0 :: 0xA1 :: repeat 0x41 126 in
  let s3 := [0x42] in
  in_blocks 128 (s1 ++ s2 ++ s3) [s1; s2; s3] /\
  block_by_block (From double) 257 [] [s1; s2; s3] = Ok (inl (s1 ++ utf8 (0x391 :: repeat 0x41 126) ++ s3)) /\
  block_by_block (From double) 257 [] [s1; s2'; s3] = Panic.
Proof.
  cbn zeta. split; [|split].
  - apply blocks_more; [reflexivity|discriminate|]. apply blocks_more; [reflexivity|discriminate|].
    apply blocks_last; [discriminate|]. vm_compute. discriminate.
  - vm_compute. reflexivity.
  - vm_compute. reflexivity.
Qed.

(* two blocks, the first of them ASCII; and a first block that shrinks *)
Example C78_case :
  String (dec_Transform double) 9 (repeat 0x41 128 ++ [0xB0; 0xA1]) =
    Ok (inl (repeat 0x41 128 ++ utf8 [0xAC00])) /\
  String (enc_Transform double) 9 (utf8 (repeat 0xAC00 42 ++ [0x41; 0x42; 0xAC00])) =
    Ok (inl (concat (repeat [0xB0; 0xA1] 42) ++ [0x41; 0x42; 0xB0; 0xA1])) /\
  To double (ztake 128 (utf8 (repeat 0xAC00 42 ++ [0x41; 0x42; 0xAC00]))) <>
    Ok (inl (ztake 128 (utf8 (repeat 0xAC00 42 ++ [0x41; 0x42; 0xAC00])))).
Proof. vm_compute. split; [reflexivity|]. split; [reflexivity|discriminate]. Qed.
