(** Properties C55-C58, C64 and C65: the Transformers of encoding.go and the x/text clients
    (Bytes, Reader, Writer) through which they are used. *)
From Coq Require Import ZArith List Bool.
From Verif Require Import Base Spec Utf8 SpecCp949 SpecIO Cp949Model StreamModel TransformModel Cp949Facts2
  StreamFacts3 TransformFacts TransformFacts2 TransformFacts3.
Import ListNotations.
Local Open Scope Z_scope.

(* the growth policy used in the examples *)
Definition double (old need : Z) : Z := Z.max need (2 * old).

(** * C55 Transform converts when the destination is large enough *)
Theorem C55_Decoder : forall grow dst src out atEOF,
  From grow src = Ok (inl out) -> zlen out <= zlen dst ->
  dec_Transform grow dst src atEOF = Ok (out ++ zdrop (zlen out) dst, zlen out, zlen src, None).
Proof. exact C55_dec_lemma. Qed.
Print Assumptions C55_Decoder.
Theorem C55_Encoder : forall grow dst src out atEOF,
  To grow src = Ok (inl out) -> zlen out <= zlen dst ->
  enc_Transform grow dst src atEOF = Ok (out ++ zdrop (zlen out) dst, zlen out, zlen src, None).
Proof. exact C55_enc_lemma. Qed.
Print Assumptions C55_Encoder.
Example C55_case :
  dec_Transform double [1; 2; 3; 4] [0xB0; 0xA1] false = Ok ([0xEA; 0xB0; 0x80; 4], 3, 2, None) /\
  enc_Transform double [1; 2; 3; 4] [0xEA; 0xB0; 0x80] true = Ok ([0xB0; 0xA1; 3; 4], 2, 3, None).
Proof. vm_compute. split; reflexivity. Qed.

(** * C56 Transform honours the Transformer contract
    False in every clause: nDst > len(dst) with a nil error; a cut source is reported as
    ErrCP949UnexpectedStream although more may follow; a cut UTF-8 character is encoded as
    question marks although more may follow. *)
Theorem C56_refuted :
  (exists dst src n, dec_Transform double dst src true = Ok (ztake 2 (utf8 [0xAC00]), n, zlen src, None) /\ zlen dst < n) /\
  (exists dst src, truncated src /\
     dec_Transform double dst src false = Ok (dst, 0, 0, Some ErrCP949UnexpectedStream)) /\
  (exists dst a b d, valid_utf8 (a ++ b) /\ To double (a ++ b) = Ok (inl [0xB0; 0xA1]) /\
     enc_Transform double dst a false = Ok (d, 2, zlen a, None) /\ ztake 2 d = [0x3F; 0x3F]).
Proof. exact C56_refuted_lemma. Qed.
Print Assumptions C56_refuted.
(** What Transform does for every dst, src and atEOF. *)
Theorem C56_Decoder_partial : forall grow dst src atEOF, Forall is_byte src ->
  (exists a, cut_after a src /\
     dec_Transform grow dst src atEOF = Ok (dst, 0, 0, Some ErrCP949UnexpectedStream)) \/
  (exists rs d, decodes src rs /\
     dec_Transform grow dst src atEOF = Ok (d, zlen (utf8 rs), zlen src, None) /\
     zlen d = zlen dst /\
     (zlen (utf8 rs) <= zlen dst -> d = utf8 rs ++ zdrop (zlen (utf8 rs)) dst) /\
     (zlen dst < zlen (utf8 rs) -> is_prefix d (utf8 rs))).
Proof. exact C56_dec_lemma. Qed.
Print Assumptions C56_Decoder_partial.
Theorem C56_Encoder_partial : forall grow dst src atEOF, Forall is_byte src ->
  exists out d, To grow src = Ok (inl out) /\
    enc_Transform grow dst src atEOF = Ok (d, zlen out, zlen src, None) /\ zlen d = zlen dst /\
    (zlen out <= zlen dst -> d = out ++ zdrop (zlen out) dst) /\
    (zlen dst < zlen out -> is_prefix d out).
Proof. exact C56_enc_lemma. Qed.
Print Assumptions C56_Encoder_partial.
Example C56_case :
  dec_Transform double [1; 2] [0xB0; 0xA1] true = Ok ([0xEA; 0xB0], 3, 2, None) /\
  enc_Transform double [1] [0xFF] true = Ok ([0x3F], 2, 1, None).
Proof. vm_compute. split; reflexivity. Qed.

(** * C57 Decoder.Bytes and Encoder.Bytes
    False: both panic when the result is longer than the input. *)
Theorem C57_refuted :
  (exists b, From double b = Ok (inl (utf8 [0xAC00])) /\ Bytes (dec_Transform double) b = Panic) /\
  (exists x, To double x = Ok (inl [0x3F; 0x3F]) /\ Bytes (enc_Transform double) x = Panic).
Proof. exact C57_refuted_lemma. Qed.
Print Assumptions C57_refuted.
(** The outcome for every input. *)
Theorem C57_Decoder_partial : forall grow b, Forall is_byte b ->
  exists r, From grow b = Ok r /\
  (forall e, r = inr e -> Bytes (dec_Transform grow) b = Ok (inr e)) /\
  (forall out, r = inl out -> zlen out <= zlen b -> Bytes (dec_Transform grow) b = Ok (inl out)) /\
  (forall out, r = inl out -> zlen b < zlen out -> Bytes (dec_Transform grow) b = Panic).
Proof. exact C57_dec_lemma. Qed.
Print Assumptions C57_Decoder_partial.
Theorem C57_Encoder_partial : forall grow b, Forall is_byte b ->
  exists out, To grow b = Ok (inl out) /\
  (zlen out <= zlen b -> Bytes (enc_Transform grow) b = Ok (inl out)) /\
  (zlen b < zlen out -> Bytes (enc_Transform grow) b = Panic) /\
  (valid_utf8 b -> Bytes (enc_Transform grow) b = Ok (inl out)).
Proof. exact C57_enc_lemma. Qed.
Print Assumptions C57_Encoder_partial.
Example C57_case :
  Bytes (dec_Transform double) [0x41; 0x42] = Ok (inl [0x41; 0x42]) /\
  Bytes (dec_Transform double) [0x41; 0xB0] = Ok (inr ErrCP949UnexpectedStream) /\
  Bytes (enc_Transform double) (utf8 [0xAC00; 0x41]) = Ok (inl [0xB0; 0xA1; 0x41]).
Proof. vm_compute. split; [reflexivity|split; reflexivity]. Qed.

(** * C58 Decoder.Reader streams like From
    False in two ways.  Any stream whose decoding of one 4096-byte read is longer than 4096
    bytes makes it panic (1366 Korean characters suffice). *)
Theorem C58_panic_refuted : exists stream text, delivers bytes_rd stream stream EOF /\
  (forall grow, From grow stream = Ok (inl text)) /\
  forall grow fuel k, (3 <= fuel)%nat ->
    TRead (dec_Transform grow) (list Z) bytes_rd fuel (TNewReader stream) k = Panic.
Proof. exact C58_panic_refuted_lemma. Qed.
Print Assumptions C58_panic_refuted.
(** A read that ends inside a character makes it fail. *)
Theorem C58_split_refuted : exists stream text r, delivers one_rd stream stream EOF /\
  From double stream = Ok (inl text) /\
  tread_seq (dec_Transform double) (list Z) one_rd 9 (TNewReader stream) [16; 16] =
    Ok ([], Some ErrCP949UnexpectedStream, r).
Proof. exact C58_split_refuted_lemma. Qed.
Print Assumptions C58_split_refuted.
(** True when every read of the wrapped reader gives whole characters that decode to at
    most 4096 bytes. *)
Theorem C58_whole_chunks_partial :
  forall grow (RS : Type) (rd : RS -> Z -> list Z * option error * RS) s rs e fuel sizes,
  delivers_whole 4096 rd s rs e -> Forall (fun k => 0 < k) sizes -> (4 <= fuel)%nat ->
  exists out err r', tread_seq (dec_Transform grow) RS rd fuel (TNewReader s) sizes = Ok (out, err, r') /\
    is_prefix out (utf8 rs) /\ (err = None \/ err = Some e /\ out = utf8 rs) /\
    (zlen (utf8 rs) < zlen sizes -> err = Some e).
Proof. exact C58_lemma. Qed.
Print Assumptions C58_whole_chunks_partial.
(* a chunk with a Korean character and a letter, then the end *)
Example C58_case : delivers_whole 4096 bytes_rd [0xB0; 0xA1; 0x41] [0xAC00; 0x41] EOF.
Proof.
  apply (delivers_more 4096 bytes_rd _ [0xAC00; 0x41] [] EOF [0xB0; 0xA1; 0x41] []); try reflexivity; try discriminate.
  - apply dec_code; [split; [discriminate|reflexivity]|split; [discriminate|reflexivity]|
      apply Cp949Facts2.assigned_by; vm_compute; reflexivity|].
    apply dec_ascii; [split; [discriminate|reflexivity]|]. apply dec_nil.
  - apply (delivers_last 4096 bytes_rd [] [] EOF [] []); try reflexivity; try discriminate. apply dec_nil.
Qed.

(** * C64 Decoder.Reader reports the end of the stream only when everything was delivered.
    For every wrapped reader: what was delivered is the decoding of the chunks handed out,
    up to at most one, the last, which ended inside a character; in that case the error is
    not EOF. *)
Theorem C64_EOF_means_complete :
  forall grow (RS : Type) (rd : RS -> Z -> list Z * option error * RS),
  (forall s k, Forall is_byte (fst (fst (rd s k)))) ->
  forall s fuel sizes out e r', Forall (fun k => 0 <= k) sizes ->
  tread_seq (dec_Transform grow) (RS * list (list Z)) (logged rd) fuel (TNewReader (s, [])) sizes
    = Ok (out, Some e, r') ->
  exists done lost rs, snd (t_src _ r') = done ++ lost /\ decodes (concat done) rs /\ out = utf8 rs /\
    (lost = [] \/ e <> EOF /\ exists c, lost = [c] /\ truncated c).
Proof. exact C64_lemma. Qed.
Print Assumptions C64_EOF_means_complete.
(* a complete stream, and one cut inside its second character *)
Example C64_case :
  (exists r, tread_seq (dec_Transform double) _ (logged bytes_rd) 9 (TNewReader ([0xB0; 0xA1; 0x41], [])) [2; 2; 2; 2]
     = Ok ([0xEA; 0xB0; 0x80; 0x41], Some EOF, r)) /\
  (exists r, tread_seq (dec_Transform double) _ (logged bytes_rd) 9 (TNewReader ([0x41; 0xB0], [])) [2; 2; 2; 2]
     = Ok ([], Some ErrCP949UnexpectedStream, r)).
Proof. split; eexists; vm_compute; reflexivity. Qed.

(** * C65 Encoder.Writer writes To(text)
    False: a Write whose encoding is longer than 4096 bytes panics. *)
Theorem C65_refuted : exists data, valid_utf8 data /\
  forall grow, To grow data = Ok (inl data) /\
    TWrite (enc_Transform grow) (list Z) buffer_wr (TNewWriter []) data = Panic.
Proof. exact C65_refuted_lemma. Qed.
Print Assumptions C65_refuted.
(** True for writes of at most 4096 bytes of whole characters. *)
Theorem C65_small_writes_partial : forall grow chunks,
  Forall (Forall is_byte) chunks -> Forall valid_utf8 chunks -> Forall (fun d => zlen d <= 4096) chunks ->
  exists w bs, To grow (concat chunks) = Ok (inl bs) /\
    twrite_seq (enc_Transform grow) (list Z) buffer_wr (TNewWriter []) chunks =
      Ok (map (fun d => (zlen d, None)) chunks, w) /\ tw_dst _ w = bs.
Proof. exact C65_lemma. Qed.
Print Assumptions C65_small_writes_partial.
(** The outcome for all chunks. *)
Theorem C65_exact_partial : forall grow chunks, Forall (Forall is_byte) chunks ->
  exists parts, Forall2 (fun d p => To grow d = Ok (inl p)) chunks parts /\
    (Forall (fun p => zlen p <= 4096) parts -> exists w,
       twrite_seq (enc_Transform grow) (list Z) buffer_wr (TNewWriter []) chunks =
         Ok (map (fun d => (zlen d, None)) chunks, w) /\ tw_dst _ w = concat parts) /\
    (Exists (fun p => 4096 < zlen p) parts ->
       twrite_seq (enc_Transform grow) (list Z) buffer_wr (TNewWriter []) chunks = Panic).
Proof. exact C65_exact_lemma. Qed.
Print Assumptions C65_exact_partial.
Example C65_case : exists w,
  twrite_seq (enc_Transform double) _ buffer_wr (TNewWriter []) [utf8 [0xAC00]; utf8 [0x41]] =
    Ok ([(3, None); (1, None)], w) /\ tw_dst _ w = [0xB0; 0xA1; 0x41].
Proof. eexists. vm_compute. split; reflexivity. Qed.
