(** Properties C106 and C107, and the exact form of C58: transform.NewReader over the Encoder and transform.NewWriter
    over the Decoder. *)
From Coq Require Import ZArith List Bool.
From Verif Require Import Base Spec Utf8 SpecCp949 SpecIO SpecTrans Cp949Model StreamModel TransformModel TransformModel3
  Cp949Facts2 TransformFacts5 TransformFacts6.
Import ListNotations.
Local Open Scope Z_scope.

Definition double (old need : Z) : Z := Z.max need (2 * old).

(** * C106 transform.NewReader(r, NewEncoder()) delivers To(text)
    False: a chunk of 4096 bytes can end inside a character, whose bytes are then encoded
    as question marks ... *)
Theorem C106_cut_refuted : exists text right out r, encodes text right /\
  tread_seq (enc_Transform double) (list Z) bytes_rd 9 (TNewReader (utf8 text)) [4096; 4096; 4096] =
    Ok (out, Some EOF, r) /\ out <> right.
Proof. exact C106_cut_lemma. Qed.
Print Assumptions C106_cut_refuted.
(** ... and 2049 bytes of garbage make it panic. *)
Theorem C106_panic_refuted : exists stream, Forall is_byte stream /\ zlen stream = 2049 /\
  forall grow fuel k, 0 < k -> (4 <= fuel)%nat ->
  tread_seq (enc_Transform grow) (list Z) bytes_rd fuel (TNewReader stream) [k] = Panic.
Proof. exact C106_panic_lemma. Qed.
Print Assumptions C106_panic_refuted.
(** True when no chunk that the wrapped reader hands out cuts a character. *)
Theorem C106_whole_chunks_partial :
  forall grow (RS : Type) (rd : RS -> Z -> list Z * option error * RS) s chunks e fuel sizes,
  hands_out 4096 rd s chunks e -> Forall valid_utf8 chunks -> Forall (fun k => 0 < k) sizes -> (4 <= fuel)%nat ->
  exists bs out err r', To grow (concat chunks) = Ok (inl bs) /\
    tread_seq (enc_Transform grow) RS rd fuel (TNewReader s) sizes = Ok (out, err, r') /\
    is_prefix out bs /\ (err = None \/ err = Some e /\ out = bs) /\ (zlen bs < zlen sizes -> err = Some e).
Proof. exact C106_lemma. Qed.
Print Assumptions C106_whole_chunks_partial.
(** The outcome for all chunks: each is encoded for itself; the first whose encoding is longer
    than 4096 bytes makes it panic, once everything before it has been read. *)
Theorem C106_exact_partial :
  forall grow (RS : Type) (rd : RS -> Z -> list Z * option error * RS) s chunks e fuel sizes,
  hands_out 4096 rd s chunks e -> Forall (fun k => 0 < k) sizes -> (4 <= fuel)%nat ->
  exists parts, Forall2 (fun d p => To grow d = Ok (inl p)) chunks parts /\
    (Forall (fun p => zlen p <= 4096) parts ->
      exists out err r', tread_seq (enc_Transform grow) RS rd fuel (TNewReader s) sizes = Ok (out, err, r') /\
        is_prefix out (concat parts) /\ (err = None \/ err = Some e /\ out = concat parts) /\
        (zlen (concat parts) < zlen sizes -> err = Some e)) /\
    (forall good bad rest, parts = good ++ bad :: rest -> 4096 < zlen bad -> zlen (concat good) < zlen sizes ->
      tread_seq (enc_Transform grow) RS rd fuel (TNewReader s) sizes = Panic).
Proof. exact C106_exact_lemma. Qed.
Print Assumptions C106_exact_partial.
(* a chunk with 가 and a letter, then the end *)
Example C106_case : hands_out 4096 bytes_rd (utf8 [0xAC00; 0x41]) [utf8 [0xAC00; 0x41]; []] EOF /\
  Forall valid_utf8 [utf8 [0xAC00; 0x41]; []] /\
  exists r, tread_seq (enc_Transform double) _ bytes_rd 9 (TNewReader (utf8 [0xAC00; 0x41])) [2; 2; 2; 2] =
    Ok ([0xB0; 0xA1; 0x41], Some EOF, r).
Proof.
  split; [|split].
  - eapply hands_more; [reflexivity|discriminate| |discriminate|].
    + repeat constructor; discriminate.
    + eapply hands_last; [reflexivity|discriminate|constructor].
  - constructor; [exists [0xAC00; 0x41]|constructor; [exists []|constructor]]; (split; [|reflexivity]);
      repeat constructor; cbv; intuition discriminate.
  - eexists. vm_compute. reflexivity.
Qed.

(** * C107 transform.NewWriter(w, NewDecoder()) writes From(stream)
    False: of a character split between two Writes both halves are refused ... *)
Theorem C107_split_refuted : exists chunks text w, From double (concat chunks) = Ok (inl text) /\ text <> [] /\
  twrite_seq (dec_Transform double) (list Z) buffer_wr (TNewWriter []) chunks =
    Ok ([(0, Some ErrCP949UnexpectedStream); (0, Some ErrCP949UnexpectedStream)], w) /\ tw_dst _ w = [].
Proof. exact C107_split_lemma. Qed.
Print Assumptions C107_split_refuted.
(** ... and a Write of 1366 syllables panics. *)
Theorem C107_panic_refuted : exists data text, forall grow, From grow data = Ok (inl text) /\
  TWrite (dec_Transform grow) (list Z) buffer_wr (TNewWriter []) data = Panic.
Proof. exact C107_panic_lemma. Qed.
Print Assumptions C107_panic_refuted.
(** True for chunks of whole characters that decode to at most 4096 bytes each. *)
Theorem C107_whole_chunks_partial : forall grow chunks texts, Forall (Forall is_byte) chunks ->
  Forall2 (fun d t => From grow d = Ok (inl t)) chunks texts -> Forall (fun t => zlen t <= 4096) texts ->
  exists w w', From grow (concat chunks) = Ok (inl (concat texts)) /\
    twrite_seq (dec_Transform grow) (list Z) buffer_wr (TNewWriter []) chunks =
      Ok (map (fun d => (zlen d, None)) chunks, w) /\
    TClose (dec_Transform grow) (list Z) buffer_wr w = Ok (None, w') /\ tw_dst _ w' = concat texts.
Proof. exact C107_lemma. Qed.
Print Assumptions C107_whole_chunks_partial.
(** The outcome for all chunks: one that ends inside a character is refused with the error of
    From and leaves nothing behind, and Close reports nothing. *)
Theorem C107_exact_partial : forall grow chunks, Forall (Forall is_byte) chunks ->
  exists decs, Forall2 (fun d x => From grow d = Ok x) chunks decs /\
    (Forall (fun x => zlen (decode_part x) <= 4096) decs -> exists w w',
       twrite_seq (dec_Transform grow) (list Z) buffer_wr (TNewWriter []) chunks =
         Ok (map (fun p => decode_answer (fst p) (snd p)) (combine chunks decs), w) /\
       TClose (dec_Transform grow) (list Z) buffer_wr w = Ok (None, w') /\
       tw_dst _ w' = concat (map decode_part decs)) /\
    (Exists (fun x => 4096 < zlen (decode_part x)) decs ->
       twrite_seq (dec_Transform grow) (list Z) buffer_wr (TNewWriter []) chunks = Panic).
Proof. exact C107_exact_lemma. Qed.
Print Assumptions C107_exact_partial.
(* 가, half a character, A *)
Example C107_case : exists w w',
  twrite_seq (dec_Transform double) _ buffer_wr (TNewWriter []) [[0xB0; 0xA1]; [0x42; 0xB0]; [0x41]] =
    Ok ([(2, None); (0, Some ErrCP949UnexpectedStream); (1, None)], w) /\
  TClose (dec_Transform double) _ buffer_wr w = Ok (None, w') /\ tw_dst _ w' = utf8 [0xAC00; 0x41].
Proof. do 2 eexists. vm_compute. repeat split; reflexivity. Qed.
Example C107_whole_case : Forall2 (fun d t => From double d = Ok (inl t)) [[0xB0; 0xA1]; [0x41]] [utf8 [0xAC00]; [0x41]].
Proof. repeat constructor; vm_compute; reflexivity. Qed.

(** * C58 Decoder.Reader streams like From, exactly
    The outcome for all chunks (refuted as stated in PropTransform.v): each is decoded for
    itself; the first one that From refuses ends the stream after everything before it, with
    From's error or that of the wrapped reader; the first whose decoding is longer than 4096
    bytes makes it panic, once everything before it has been read. *)
Theorem C58_exact_partial :
  forall grow (RS : Type) (rd : RS -> Z -> list Z * option error * RS) s chunks e fuel sizes,
  hands_out 4096 rd s chunks e -> Forall (fun k => 0 < k) sizes -> (4 <= fuel)%nat ->
  exists parts e', decoded_until (From grow) e chunks parts e' /\
    (Forall (fun p => zlen p <= 4096) parts ->
      exists out err r', tread_seq (dec_Transform grow) RS rd fuel (TNewReader s) sizes = Ok (out, err, r') /\
        is_prefix out (concat parts) /\ (err = None \/ err = Some e' /\ out = concat parts) /\
        (zlen (concat parts) < zlen sizes -> err = Some e')) /\
    (forall good bad rest, parts = good ++ bad :: rest -> 4096 < zlen bad -> zlen (concat good) < zlen sizes ->
      tread_seq (dec_Transform grow) RS rd fuel (TNewReader s) sizes = Panic).
Proof. exact C58_exact_lemma. Qed.
Print Assumptions C58_exact_partial.
(* a letter, then the first byte of a character: one byte is delivered, then From's error *)
Example C58_exact_case : hands_out 4096 one_rd [0x41; 0xB0] [[0x41]; [0xB0]; []] EOF /\
  decoded_until (From double) EOF [[0x41]; [0xB0]; []] [[0x41]] ErrCP949UnexpectedStream /\
  exists r, tread_seq (dec_Transform double) _ one_rd 9 (TNewReader [0x41; 0xB0]) [2; 2; 2; 2] =
    Ok ([0x41], Some ErrCP949UnexpectedStream, r).
Proof.
  split; [|split].
  - do 2 (eapply hands_more; [reflexivity|discriminate| |discriminate|]; [repeat constructor; discriminate|]).
    eapply hands_last; [reflexivity|discriminate|constructor].
  - apply until_good; [vm_compute; reflexivity|].
    exact (until_bad (From double) EOF [0xB0] [[]] ErrCP949UnexpectedStream ltac:(vm_compute; reflexivity)).
  - eexists. vm_compute. reflexivity.
Qed.
