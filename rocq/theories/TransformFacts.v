(** The Transformers of encoding.go and their x/text clients: lemmas behind C55-C58, C64, C65. *)
From Coq Require Import ZArith List Bool Lia.
From Coq Require Import ZifyBool.
From Verif Require Import Base Spec Facts Utf8 Utf8Facts SortSearch TableFrom TableTo SpecCp949
  SpecIO PMapFacts Cp949Model TransformModel SliceFacts TableFacts Cp949Facts Cp949Facts2 StreamFacts.
Import ListNotations.
Local Open Scope Z_scope.
Local Opaque fromTable toTable dec_tree enc_tree.

Lemma go_copy_fits dst bs : zlen bs <= zlen dst -> go_copy dst bs = bs ++ zdrop (zlen bs) dst.
Proof.
  intros H. unfold go_copy, zwrite. rewrite ztake_0. cbn [app].
  rewrite ztake_all by lia. reflexivity.
Qed.
Lemma go_copy_short dst bs : zlen dst <= zlen bs -> go_copy dst bs = ztake (zlen dst) bs.
Proof.
  intros H. unfold go_copy, zwrite. rewrite ztake_0. cbn [app].
  replace (Z.min (zlen dst) (zlen bs)) with (zlen dst) by lia.
  pose proof (zlen_nonneg dst) as H0.
  rewrite (zdrop_all (0 + _)) by (rewrite zlen_ztake by lia; lia). apply app_nil_r.
Qed.
Lemma go_copy_len dst bs : zlen (go_copy dst bs) = zlen dst.
Proof.
  destruct (Z_le_dec (zlen bs) (zlen dst)) as [H|H].
  - rewrite go_copy_fits by exact H. pose proof (zlen_nonneg bs).
    rewrite zlen_app, zlen_zdrop by lia. lia.
  - rewrite go_copy_short by lia. pose proof (zlen_nonneg dst). rewrite zlen_ztake by lia. lia.
Qed.
Lemma go_copy_take dst bs : ztake (zlen bs) (go_copy dst bs) = ztake (zlen dst) bs.
Proof.
  destruct (Z_le_dec (zlen bs) (zlen dst)) as [H|H].
  - rewrite go_copy_fits by exact H. rewrite ztake_app_exact by reflexivity.
    symmetry. apply ztake_all. lia.
  - rewrite go_copy_short by lia. apply ztake_all. pose proof (zlen_nonneg dst). rewrite zlen_ztake by lia. lia.
Qed.

Section Grow.
Variable grow : Z -> Z -> Z.

(** ** C55, C56 *)
Lemma C55_dec_lemma dst src out atEOF : From grow src = Ok (inl out) -> zlen out <= zlen dst ->
  dec_Transform grow dst src atEOF = Ok (out ++ zdrop (zlen out) dst, zlen out, zlen src, None).
Proof. intros E H. unfold dec_Transform. rewrite E. cbn [bind]. rewrite go_copy_fits by exact H. reflexivity. Qed.
Lemma C55_enc_lemma dst src out atEOF : To grow src = Ok (inl out) -> zlen out <= zlen dst ->
  enc_Transform grow dst src atEOF = Ok (out ++ zdrop (zlen out) dst, zlen out, zlen src, None).
Proof. intros E H. unfold enc_Transform. rewrite E. cbn [bind]. rewrite go_copy_fits by exact H. reflexivity. Qed.

Lemma C56_dec_lemma dst src atEOF : Forall is_byte src ->
  (exists a, cut_after a src /\
     dec_Transform grow dst src atEOF = Ok (dst, 0, 0, Some ErrCP949UnexpectedStream)) \/
  (exists rs d, decodes src rs /\
     dec_Transform grow dst src atEOF = Ok (d, zlen (utf8 rs), zlen src, None) /\
     zlen d = zlen dst /\
     (zlen (utf8 rs) <= zlen dst -> d = utf8 rs ++ zdrop (zlen (utf8 rs)) dst) /\
     (zlen dst < zlen (utf8 rs) -> is_prefix d (utf8 rs))).
Proof.
  intros Hb. unfold dec_Transform. destruct (decodes_or_cut src Hb) as [(rs & H)|(a & H)]; [right|left].
  - exists rs, (go_copy dst (utf8 rs)). split; [exact H|]. rewrite (From_decodes grow src rs H). cbn [bind].
    split; [reflexivity|]. split; [apply go_copy_len|]. split; intros Hl.
    + apply go_copy_fits. exact Hl.
    + rewrite go_copy_short by lia. exists (zdrop (zlen dst) (utf8 rs)). symmetry. apply ztake_zdrop.
  - exists a. split; [exact H|]. rewrite (From_cut grow src a H). reflexivity.
Qed.
Lemma C56_enc_lemma dst src atEOF : Forall is_byte src ->
  exists out d, To grow src = Ok (inl out) /\
    enc_Transform grow dst src atEOF = Ok (d, zlen out, zlen src, None) /\ zlen d = zlen dst /\
    (zlen out <= zlen dst -> d = out ++ zdrop (zlen out) dst) /\
    (zlen dst < zlen out -> is_prefix d out).
Proof.
  intros Hb. destruct (C41_To_lemma grow src Hb) as (out & E & _). exists out, (go_copy dst out).
  split; [exact E|]. unfold enc_Transform. rewrite E. cbn [bind].
  split; [reflexivity|]. split; [apply go_copy_len|]. split; intros Hl.
  - apply go_copy_fits. exact Hl.
  - rewrite go_copy_short by lia. exists (zdrop (zlen dst) out). symmetry. apply ztake_zdrop.
Qed.

(** ** C57 *)
Lemma do_append_once T fuel b d nDst nSrc err :
  T (zeros (zlen b)) b true = Ok (d, nDst, nSrc, err) -> is_short_dst err = false ->
  do_append T (S fuel) 0 (zeros (zlen b)) 0 b =
    if nDst >? zlen d then Panic
    else match err with Some e => Ok (inr e) | None => Ok (inl (ztake nDst d)) end.
Proof.
  intros E Hs. pose proof (zlen_nonneg b) as Hb. cbn [do_append]. rewrite zlen_zeros by lia.
  destruct (Z.gtb_spec 0 (zlen b)) as [H|_]; [lia|]. cbn [orb]. rewrite !zdrop_0, E. cbn [bind].
  rewrite Hs, ztake_0. cbn [app]. rewrite Z.add_0_l. reflexivity.
Qed.

Lemma C57_dec_lemma b : Forall is_byte b ->
  exists r, From grow b = Ok r /\
  (forall e, r = inr e -> Bytes (dec_Transform grow) b = Ok (inr e)) /\
  (forall out, r = inl out -> zlen out <= zlen b -> Bytes (dec_Transform grow) b = Ok (inl out)) /\
  (forall out, r = inl out -> zlen b < zlen out -> Bytes (dec_Transform grow) b = Panic).
Proof.
  intros Hb. pose proof (zlen_nonneg b) as Hn. unfold Bytes.
  destruct (decodes_or_cut b Hb) as [(rs & H)|(a & H)].
  - exists (inl (utf8 rs)). pose proof (From_decodes grow b rs H) as E. split; [exact E|].
    split; [discriminate|].
    assert (dec_Transform grow (zeros (zlen b)) b true =
      Ok (go_copy (zeros (zlen b)) (utf8 rs), zlen (utf8 rs), zlen b, None)) as ET
      by (unfold dec_Transform; rewrite E; reflexivity).
    split; intros out [= <-] Hl; rewrite (do_append_once _ _ _ _ _ _ _ ET eq_refl);
      rewrite go_copy_len, zlen_zeros by lia.
    + destruct (Z.gtb_spec (zlen (utf8 rs)) (zlen b)); [lia|].
      rewrite go_copy_take, zlen_zeros by lia. rewrite ztake_all by lia. reflexivity.
    + destruct (Z.gtb_spec (zlen (utf8 rs)) (zlen b)); [reflexivity|lia].
  - exists (inr ErrCP949UnexpectedStream). pose proof (From_cut grow b a H) as E. split; [exact E|].
    split; [|split; discriminate]. intros e [= <-].
    assert (dec_Transform grow (zeros (zlen b)) b true =
      Ok (zeros (zlen b), 0, 0, Some ErrCP949UnexpectedStream)) as ET
      by (unfold dec_Transform; rewrite E; reflexivity).
    rewrite (do_append_once _ _ _ _ _ _ _ ET eq_refl). rewrite zlen_zeros by lia.
    destruct (Z.gtb_spec 0 (zlen b)); [lia|reflexivity].
Qed.
Lemma C57_enc_lemma b : Forall is_byte b ->
  exists out, To grow b = Ok (inl out) /\
  (zlen out <= zlen b -> Bytes (enc_Transform grow) b = Ok (inl out)) /\
  (zlen b < zlen out -> Bytes (enc_Transform grow) b = Panic) /\
  (valid_utf8 b -> Bytes (enc_Transform grow) b = Ok (inl out)).
Proof.
  intros Hb. pose proof (zlen_nonneg b) as Hn. unfold Bytes.
  destruct (C41_To_lemma grow b Hb) as (out & E & _ & Hv). exists out. split; [exact E|].
  assert (enc_Transform grow (zeros (zlen b)) b true =
      Ok (go_copy (zeros (zlen b)) out, zlen out, zlen b, None)) as ET
      by (unfold enc_Transform; rewrite E; reflexivity).
  rewrite (do_append_once _ _ _ _ _ _ _ ET eq_refl). rewrite go_copy_len, zlen_zeros by lia.
  assert (zlen out <= zlen b -> (if zlen out >? zlen b then Panic else
    Ok (inl (ztake (zlen out) (go_copy (zeros (zlen b)) out)))) = Ok (@inl _ error out)) as Hfit.
  { intros Hl. destruct (Z.gtb_spec (zlen out) (zlen b)); [lia|].
    rewrite go_copy_take, zlen_zeros by lia. rewrite ztake_all by lia. reflexivity. }
  split; [exact Hfit|]. split; [|intros V; apply Hfit, Hv, V].
  intros Hl. destruct (Z.gtb_spec (zlen out) (zlen b)); [reflexivity|lia].
Qed.

(** ** transform.Writer *)
Section Writer.
Variable WS : Type.
Variable wr : WS -> list Z -> option error * WS.

Lemma TWrite_enc w data : Forall is_byte data ->
  exists out, To grow data = Ok (inl out) /\
    (zlen (tw_buf _ w) < zlen out -> TWrite (enc_Transform grow) WS wr w data = Panic) /\
    (zlen out <= zlen (tw_buf _ w) ->
       exists w', tw_dst _ w' = snd (wr (tw_dst _ w) out) /\ zlen (tw_buf _ w') = zlen (tw_buf _ w) /\
         TWrite (enc_Transform grow) WS wr w data =
         Ok (match fst (wr (tw_dst _ w) out) with Some _ => 0 | None => zlen data end,
             fst (wr (tw_dst _ w) out), w')).
Proof.
  intros Hb. destruct (C41_To_lemma grow data Hb) as (out & E & _). exists out. split; [exact E|].
  unfold TWrite, enc_Transform. rewrite E. cbn [bind]. rewrite go_copy_len, go_copy_take.
  split; intros Hl.
  - destruct (Z.gtb_spec (zlen out) (zlen (tw_buf _ w))); [reflexivity|lia].
  - destruct (Z.gtb_spec (zlen out) (zlen (tw_buf _ w))); [lia|].
    rewrite ztake_all by lia.
    destruct (wr (tw_dst _ w) out) as [[e|] s']; cbn [fst snd]; eexists (mkTW _ _ _);
      cbn [tw_dst tw_buf]; (split; [reflexivity|split; [apply go_copy_len|reflexivity]]).
Qed.
End Writer.
End Grow.
