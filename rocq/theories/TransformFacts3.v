(** Witnesses about the Transformers, and the lemmas behind C65: Encoder.Writer. *)
From Coq Require Import ZArith List Bool Lia.
From Coq Require Import ZifyBool.
From Verif Require Import Base Spec Facts Utf8 Utf8Facts SortSearch TableFrom TableTo SpecCp949
  SpecIO PMapFacts Cp949Model StreamModel TransformModel SliceFacts TableFacts Cp949Facts Cp949Facts2
  StreamFacts StreamFacts2 StreamFacts3 TransformFacts TransformFacts2.
Import ListNotations.
Local Open Scope Z_scope.
Local Opaque fromTable toTable dec_tree enc_tree.

Lemma C56_refuted_lemma :
  (exists dst src n, dec_Transform wgrow dst src true = Ok (ztake 2 (utf8 [0xAC00]), n, zlen src, None) /\ zlen dst < n) /\
  (exists dst src, truncated src /\
     dec_Transform wgrow dst src false = Ok (dst, 0, 0, Some ErrCP949UnexpectedStream)) /\
  (exists dst a b d, valid_utf8 (a ++ b) /\ To wgrow (a ++ b) = Ok (inl [0xB0; 0xA1]) /\
     enc_Transform wgrow dst a false = Ok (d, 2, zlen a, None) /\ ztake 2 d = [0x3F; 0x3F]).
Proof.
  split; [|split].
  - exists [0; 0], [0xB0; 0xA1], 3. split; [vm_compute; reflexivity|reflexivity].
  - exists [0; 0; 0], [0xB0]. split.
    + exists [], 0xB0. split; [lia|]. split; [reflexivity|]. exists []. constructor.
    + vm_compute. reflexivity.
  - exists [0; 0; 0; 0], [0xEA], [0xB0; 0x80]. eexists. split.
    + exists [0xAC00]. split; [constructor; [unfold is_scalar; lia|constructor]|reflexivity].
    + split; [vm_compute; reflexivity|]. split; [vm_compute; reflexivity|reflexivity].
Qed.

Lemma C57_refuted_lemma :
  (exists b, From wgrow b = Ok (inl (utf8 [0xAC00])) /\ Bytes (dec_Transform wgrow) b = Panic) /\
  (exists x, To wgrow x = Ok (inl [0x3F; 0x3F]) /\ Bytes (enc_Transform wgrow) x = Panic).
Proof.
  split; [exists [0xB0; 0xA1]|exists [0xFF]]; (split; [vm_compute; reflexivity|vm_compute; reflexivity]).
Qed.

(** ** Decoder.Reader *)
Definition gas (n : nat) : list Z := concat (repeat [0xB0; 0xA1] n).
Lemma gas_decodes n : decodes (gas n) (repeat 0xAC00 n).
Proof.
  induction n as [|n IH]; [constructor|]. unfold gas. cbn [repeat concat app].
  apply dec_code; [lia|lia|apply assigned_by; vm_compute; reflexivity|exact IH].
Qed.
Lemma gas_len n : zlen (gas n) = 2 * Z.of_nat n.
Proof.
  induction n as [|n IH]; [reflexivity|]. unfold gas in *. cbn [repeat concat app].
  rewrite !zlen_cons, IH. lia.
Qed.
Lemma gas_utf8_len n : zlen (utf8 (repeat 0xAC00 n)) = 3 * Z.of_nat n.
Proof.
  induction n as [|n IH]; [reflexivity|]. cbn [repeat]. rewrite utf8_cons, zlen_app, IH.
  change (zlen (utf8_char 0xAC00)) with 3. lia.
Qed.

Lemma one_rd_delivers s : delivers one_rd s s EOF.
Proof.
  induction s as [|b s IH]; constructor; intros k chunk.
  - intros e' s' Hk E. cbn in E. injection E as <- <- <-. split; [reflexivity|]. split; [reflexivity|cbn; lia].
  - intros s' Hk E. discriminate.
  - intros s' Hk E. discriminate.
  - intros e' s' Hk E. cbn in E. destruct (0 <? k); discriminate.
  - intros s' Hk E. cbn in E. destruct (Z.ltb_spec 0 k); [|lia]. injection E as <- <-.
    split; [discriminate|]. split; [cbn; lia|]. exists s. reflexivity.
  - intros s' Hk E. cbn in E. destruct (Z.ltb_spec 0 k); [|lia]. injection E as <- <-. exact IH.
Qed.

Lemma C58_panic_refuted_lemma : exists stream text, delivers bytes_rd stream stream EOF /\
  (forall grow, From grow stream = Ok (inl text)) /\
  forall grow fuel k, (3 <= fuel)%nat ->
    TRead (dec_Transform grow) (list Z) bytes_rd fuel (TNewReader stream) k = Panic.
Proof.
  exists (gas 1366), (utf8 (repeat 0xAC00 1366)). split; [apply bytes_rd_delivers|].
  split; [intros grow; apply From_decodes, gas_decodes|].
  intros grow fuel k Hf.
  eapply (C58_panic_lemma grow (list Z) bytes_rd (gas 1366) (gas 1366) None []);
    [|rewrite gas_len; lia|apply gas_decodes|rewrite gas_utf8_len; lia|exact Hf].
  assert (zlen (gas 1366) <= 4096) as Hl by (rewrite gas_len; lia).
  transitivity (ztake 4096 (gas 1366), @None error, zdrop 4096 (gas 1366)); [reflexivity|].
  rewrite ztake_all, zdrop_all by exact Hl. reflexivity.
Qed.

Lemma C58_split_refuted_lemma : exists stream text r, delivers one_rd stream stream EOF /\
  From wgrow stream = Ok (inl text) /\
  tread_seq (dec_Transform wgrow) (list Z) one_rd 9 (TNewReader stream) [16; 16] =
    Ok ([], Some ErrCP949UnexpectedStream, r).
Proof.
  exists [0xB0; 0xA1], (utf8 [0xAC00]). eexists. split; [apply one_rd_delivers|].
  split; [vm_compute; reflexivity|vm_compute; reflexivity].
Qed.

(** ** Encoder.Writer *)
Lemma twrite_seq_enc grow chunks : Forall (Forall is_byte) chunks ->
  exists parts, Forall2 (fun d p => To grow d = Ok (inl p)) chunks parts /\
   forall w, zlen (tw_buf _ w) = 4096 ->
    (Forall (fun p => zlen p <= 4096) parts -> exists w',
       twrite_seq (enc_Transform grow) (list Z) buffer_wr w chunks =
         Ok (map (fun d => (zlen d, None)) chunks, w') /\ tw_dst _ w' = tw_dst _ w ++ concat parts) /\
    (Exists (fun p => 4096 < zlen p) parts ->
       twrite_seq (enc_Transform grow) (list Z) buffer_wr w chunks = Panic).
Proof.
  induction 1 as [|d chunks Hd Hds IH].
  - exists []. split; [constructor|]. intros w Hw. split; [|intros H; inversion H].
    intros _. exists w. split; [reflexivity|]. cbn. rewrite app_nil_r. reflexivity.
  - destruct IH as (parts & Hp & IH).
    destruct (C41_To_lemma grow d Hd) as (out & E & _).
    exists (out :: parts). split; [constructor; assumption|]. intros w Hw.
    destruct (TWrite_enc grow (list Z) buffer_wr w d Hd) as (out' & E' & Hpan & Hok).
    rewrite E in E'. injection E' as <-. rewrite Hw in Hpan, Hok. cbn [twrite_seq].
    destruct (Z_le_dec (zlen out) 4096) as [Hl|Hl].
    + destruct (Hok Hl) as (w1 & E1 & Hw1 & ->). cbn [buffer_wr fst snd] in E1. cbn [buffer_wr fst bind].
      destruct (IH w1 Hw1) as [IH1 IH2]. split; intros H.
      * apply Forall_cons_iff in H. destruct (IH1 (proj2 H)) as (w2 & -> & E2). cbn [bind].
        exists w2. split; [reflexivity|]. rewrite E2, E1. cbn [concat]. rewrite app_assoc. reflexivity.
      * apply Exists_cons in H. destruct H as [H|H]; [lia|]. rewrite (IH2 H). reflexivity.
    + split; intros H; [apply Forall_cons_iff in H; lia|].
      rewrite Hpan by lia. reflexivity.
Qed.

Lemma C65_exact_lemma grow chunks : Forall (Forall is_byte) chunks ->
  exists parts, Forall2 (fun d p => To grow d = Ok (inl p)) chunks parts /\
    (Forall (fun p => zlen p <= 4096) parts -> exists w,
       twrite_seq (enc_Transform grow) (list Z) buffer_wr (TNewWriter []) chunks =
         Ok (map (fun d => (zlen d, None)) chunks, w) /\ tw_dst _ w = concat parts) /\
    (Exists (fun p => 4096 < zlen p) parts ->
       twrite_seq (enc_Transform grow) (list Z) buffer_wr (TNewWriter []) chunks = Panic).
Proof.
  intros H. destruct (twrite_seq_enc grow chunks H) as (parts & Hp & Hw).
  exists parts. split; [exact Hp|]. apply (Hw (TNewWriter [])). reflexivity.
Qed.

Lemma C65_lemma grow chunks : Forall (Forall is_byte) chunks -> Forall valid_utf8 chunks ->
  Forall (fun d => zlen d <= 4096) chunks ->
  exists w bs, To grow (concat chunks) = Ok (inl bs) /\
    twrite_seq (enc_Transform grow) (list Z) buffer_wr (TNewWriter []) chunks =
      Ok (map (fun d => (zlen d, None)) chunks, w) /\ tw_dst _ w = bs.
Proof.
  intros Hb Hv Hl.
  destruct (C51_lemma grow chunks Hb (or_introl Hv)) as (w1 & bs & E1 & Ew1 & Hw1).
  destruct (C52_lemma grow chunks Hb) as (w2 & parts2 & Hp2 & Ew2 & Hw2).
  rewrite Ew1 in Ew2. injection Ew2 as <-.
  destruct (C65_exact_lemma grow chunks Hb) as (parts & Hp & Hok & _).
  assert (parts2 = parts) as ->.
  { clear - Hp Hp2. revert parts2 Hp2. induction Hp as [|d p ds ps Hd Hds IH]; intros parts2 H2; inversion H2; subst; [reflexivity|].
    f_equal; [congruence|auto]. }
  destruct Hok as (w & E & Hw).
  { clear - Hp Hb Hv Hl. induction Hp as [|d p ds ps Hd Hds IH]; constructor.
    - apply Forall_cons_iff in Hb, Hv, Hl.
      destruct (C41_To_lemma grow d (proj1 Hb)) as (out & E & _ & Hx). rewrite Hd in E. injection E as <-.
      specialize (Hx (proj1 Hv)). lia.
    - apply Forall_cons_iff in Hb, Hv, Hl. apply IH; tauto. }
  exists w, bs. split; [exact E1|]. split; [exact E|]. congruence.
Qed.

Lemma C65_refuted_lemma : exists data, valid_utf8 data /\
  forall grow, To grow data = Ok (inl data) /\
    TWrite (enc_Transform grow) (list Z) buffer_wr (TNewWriter []) data = Panic.
Proof.
  set (data := repeat 0x41 4097).
  assert (Forall (fun b => 0 <= b < 0x80) data) as Ha.
  { apply Forall_forall. intros x Hx. apply repeat_spec in Hx. lia. }
  assert (Forall is_byte data) as Hb.
  { eapply Forall_impl; [|exact Ha]. cbn. unfold is_byte. lia. }
  assert (utf8 data = data) as Hu.
  { clear Hb. induction Ha as [|x l Hx _ IH]; [reflexivity|]. rewrite utf8_cons, utf8_char_ascii, IH by exact Hx. reflexivity. }
  exists data. split.
  - exists data. split; [|auto]. eapply Forall_impl; [|exact Ha]. cbn. unfold is_scalar. lia.
  - intros grow.
    assert (encodes data data) as He.
    { clear Hb Hu. induction Ha as [|x l Hx _ IH]; [constructor|]. apply enc_ascii; assumption. }
    assert (To grow data = Ok (inl data)) as E by (rewrite <- Hu at 1; apply To_encodes; exact He).
    split; [exact E|].
    destruct (TWrite_enc grow (list Z) buffer_wr (TNewWriter []) data Hb) as (out & E' & Hpan & _).
    rewrite E in E'. injection E' as <-. apply Hpan.
    unfold data, zlen. rewrite repeat_length. reflexivity.
Qed.
