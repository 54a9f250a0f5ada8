(** Lemmas for PropAppend.v. *)
From Coq Require Import ZArith List Bool Lia ZifyBool.
From Verif Require Import Base Spec Facts SpecCp949 Cp949Model Cp949Facts Cp949Facts2 TableFacts PMapFacts TransformModel TransformFacts AppendModel SpecAppend.
Import ListNotations.
Local Open Scope Z_scope.
Local Open Scope list_scope.

Section T.
Variable T : list Z -> list Z -> bool -> res transform_result.
Lemma append_ok fuel dst src out : 0 <= slen dst <= scap dst ->
  (forall d, T d src true = Ok (go_copy d out, zlen out, zlen src, None)) ->
  (zlen out <= room dst src -> exists s mem, Append T (S fuel) dst src = Ok (s, zlen src, None, mem) /\
     contents s = contents dst ++ out /\
     (slen dst = scap dst -> mem = arr dst) /\
     (slen dst < scap dst -> arr s = mem /\ mem = contents dst ++ out ++ zdrop (slen dst + zlen out) (arr dst))) /\
  (room dst src < zlen out -> Append T (S fuel) dst src = Panic).
Proof.
  intros Hd HT. pose proof (zlen_nonneg src) as Hs. pose proof (zlen_nonneg out) as Ho.
  unfold Append, room, contents. destruct dst as [a n]. unfold scap in *. cbn [arr slen] in *.
  assert (Hloop : forall old A, n <= zlen A -> append_loop T (S fuel) old n A 0 src =
    if zlen out >? zlen A - n then Panic else
    Ok (mkSlice (ztake n A ++ go_copy (zdrop n A) out) (n + zlen out), zlen src, None,
        match old with Some x => x | None => ztake n A ++ go_copy (zdrop n A) out end)).
  { intros old A HA. cbn [append_loop]. destruct (Z.gtb_spec n (zlen A)) as [Hx|_]; [lia|]. destruct (Z.gtb_spec 0 (zlen src)) as [Hx|_]; [lia|].
    cbn [orb]. rewrite zdrop_0, HT. cbn [bind]. cbn [is_short_dst].
    assert (EL : zlen (ztake n A ++ go_copy (zdrop n A) out) = zlen A).
    { rewrite zlen_app, go_copy_len, zlen_ztake, zlen_zdrop by lia. lia. }
    rewrite EL. destruct (Z.gtb_spec (n + zlen out) (zlen A)), (Z.gtb_spec (zlen out) (zlen A - n)); try lia; reflexivity. }
  assert (Hcont : forall A, n <= zlen A -> zlen out <= zlen A - n ->
    ztake n A ++ go_copy (zdrop n A) out = ztake n A ++ out ++ zdrop (n + zlen out) A /\
    ztake (n + zlen out) (ztake n A ++ out ++ zdrop (n + zlen out) A) = ztake n A ++ out).
  { intros A HA Hl. assert (E1 : zlen (zdrop n A) = zlen A - n) by (rewrite zlen_zdrop; lia).
    rewrite go_copy_fits by lia. split.
    - rewrite zdrop_zdrop by lia. f_equal. f_equal. f_equal. lia.
    - rewrite app_assoc. apply ztake_app_exact. rewrite zlen_app, zlen_ztake by lia. lia. }
  destruct (Z.eqb_spec n (zlen a)) as [E|E].
  - rewrite Hloop by (rewrite zlen_app, zlen_zeros by lia; lia). rewrite zlen_app, zlen_zeros by lia. split; intros Hl.
    + destruct (Z.gtb_spec (zlen out) (zlen a + zlen src - n)) as [Hx|_]; [lia|].
      destruct (Hcont (a ++ zeros (zlen src))) as [H1 H2]; [rewrite zlen_app, zlen_zeros by lia; lia..|].
      eexists. eexists. split; [reflexivity|]. cbn [arr slen]. rewrite H1. split; [|split; [reflexivity|lia]].
      rewrite H2. rewrite E. rewrite ztake_app_exact by reflexivity. rewrite ztake_all by lia. reflexivity.
    + destruct (Z.gtb_spec (zlen out) (zlen a + zlen src - n)) as [_|Hx]; [reflexivity|lia].
  - rewrite Hloop by lia. split; intros Hl.
    + destruct (Z.gtb_spec (zlen out) (zlen a - n)) as [Hx|_]; [lia|]. destruct (Hcont a) as [H1 H2]; [lia..|].
      eexists. eexists. split; [reflexivity|]. cbn [arr slen]. rewrite H1. split; [exact H2|]. split; [lia|]. intros _. split; reflexivity.
    + destruct (Z.gtb_spec (zlen out) (zlen a - n)) as [_|Hx]; [reflexivity|lia].
Qed.
Lemma append_err fuel dst src e : 0 <= slen dst <= scap dst -> is_short_dst (Some e) = false ->
  (forall d, T d src true = Ok (d, 0, 0, Some e)) ->
  exists s, Append T (S fuel) dst src = Ok (s, 0, Some e, arr dst) /\ contents s = contents dst.
Proof.
  intros Hd He HT. pose proof (zlen_nonneg src) as Hs. unfold Append, contents. destruct dst as [a n]. unfold scap in *. cbn [arr slen] in *.
  assert (Hloop : forall old A, n <= zlen A -> append_loop T (S fuel) old n A 0 src =
    Ok (mkSlice A n, 0, Some e, match old with Some x => x | None => A end)).
  { intros old A HA. cbn [append_loop]. destruct (Z.gtb_spec n (zlen A)) as [Hx|_]; [lia|]. destruct (Z.gtb_spec 0 (zlen src)) as [Hx|_]; [lia|].
    cbn [orb]. rewrite zdrop_0, HT. cbn [bind]. rewrite He, !ztake_zdrop, !Z.add_0_r.
    destruct (Z.gtb_spec n (zlen A)) as [Hx|_]; [lia|]. reflexivity. }
  destruct (Z.eqb_spec n (zlen a)) as [E|E].
  - rewrite Hloop by (rewrite zlen_app, zlen_zeros by lia; lia). eexists. split; [reflexivity|]. cbn [arr slen].
    rewrite E. rewrite ztake_app_exact by reflexivity. rewrite ztake_all by lia. reflexivity.
  - rewrite Hloop by lia. eexists. split; reflexivity.
Qed.
End T.

Lemma append_dec grow fuel dst src : 0 <= slen dst <= scap dst -> Forall is_byte src ->
  exists r, From grow src = Ok r /\
  (forall e, r = inr e -> exists s, Append (dec_Transform grow) (S fuel) dst src = Ok (s, 0, Some e, arr dst) /\ contents s = contents dst) /\
  (forall out, r = inl out ->
    (zlen out <= room dst src -> exists s mem, Append (dec_Transform grow) (S fuel) dst src = Ok (s, zlen src, None, mem) /\
       contents s = contents dst ++ out /\ (slen dst = scap dst -> mem = arr dst) /\
       (slen dst < scap dst -> arr s = mem /\ mem = contents dst ++ out ++ zdrop (slen dst + zlen out) (arr dst))) /\
    (room dst src < zlen out -> Append (dec_Transform grow) (S fuel) dst src = Panic)).
Proof.
  intros Hd Hb. destruct (decodes_or_cut src Hb) as [(rs & H)|(a & H)].
  - pose proof (From_decodes grow src rs H) as E. exists (inl (utf8 rs)). split; [exact E|]. split; [discriminate|]. intros out [= <-].
    apply append_ok; [exact Hd|]. intros d. unfold dec_Transform. rewrite E. reflexivity.
  - pose proof (From_cut grow src a H) as E. exists (inr ErrCP949UnexpectedStream). split; [exact E|]. split; [|discriminate].
    intros e [= <-]. apply append_err; [exact Hd|reflexivity|]. intros d. unfold dec_Transform. rewrite E. reflexivity.
Qed.
Lemma append_enc grow fuel dst src : 0 <= slen dst <= scap dst -> Forall is_byte src ->
  exists out, To grow src = Ok (inl out) /\
  (zlen out <= room dst src \/ valid_utf8 src /\ slen dst = scap dst ->
     exists s mem, Append (enc_Transform grow) (S fuel) dst src = Ok (s, zlen src, None, mem) /\
       contents s = contents dst ++ out /\ (slen dst = scap dst -> mem = arr dst) /\
       (slen dst < scap dst -> arr s = mem /\ mem = contents dst ++ out ++ zdrop (slen dst + zlen out) (arr dst))) /\
  (room dst src < zlen out -> Append (enc_Transform grow) (S fuel) dst src = Panic).
Proof.
  intros Hd Hb. destruct (C41_To_lemma grow src Hb) as (out & E & _ & Hv). exists out. split; [exact E|].
  assert (HT : forall d, enc_Transform grow d src true = Ok (go_copy d out, zlen out, zlen src, None)) by (intros d; unfold enc_Transform; rewrite E; reflexivity).
  destruct (append_ok (enc_Transform grow) fuel dst src out Hd HT) as [H1 H2]. split; [|exact H2]. intros [Hr|[V Hf]]; apply H1; [exact Hr|].
  unfold room. rewrite Hf, Z.eqb_refl. apply Hv, V.
Qed.
Lemma append_refuted_dec : exists dst src text, 0 <= slen dst <= scap dst /\ Forall is_syllable text /\
  forall grow fuel, To grow (utf8 text) = Ok (inl src) /\ From grow src = Ok (inl (utf8 text)) /\ Append (dec_Transform grow) (S fuel) dst src = Panic.
Proof.
  exists (mkSlice [] 0), [0xB0; 0xA1], [0xAC00]. split; [cbn; lia|]. split; [constructor; [unfold is_syllable; lia|constructor]|]. intros grow fuel.
  assert (He : encodes [0xAC00] [0xB0; 0xA1]) by (apply (enc_code 0xB0A1 0xAC00 [] []); [apply assigned_by; vm_compute; reflexivity|constructor]).
  assert (EF := From_encodes grow _ _ He).
  split; [apply To_encodes; exact He|]. split; [exact EF|].
  destruct (append_dec grow fuel (mkSlice [] 0) [0xB0; 0xA1]) as (r & E & _ & H); [cbn; lia|repeat (constructor; [unfold is_byte; lia|]); constructor|].
  rewrite EF in E. injection E as <-. destruct (H _ eq_refl) as [_ H2]. apply H2. vm_compute. reflexivity.
Qed.
Lemma append_refuted_enc : exists dst src, 0 <= slen dst <= scap dst /\ Forall (fun b => 0 <= b < 0x80) src /\
  forall grow fuel, To grow src = Ok (inl src) /\ Append (enc_Transform grow) (S fuel) dst src = Panic.
Proof.
  exists (mkSlice [0] 0), [0x41; 0x42]. split; [cbn; lia|]. split; [repeat (constructor; [lia|]); constructor|]. intros grow fuel.
  assert (He : encodes [0x41; 0x42] [0x41; 0x42]) by (do 2 (apply enc_ascii; [lia|]); constructor).
  assert (ET : To grow [0x41; 0x42] = Ok (inl [0x41; 0x42])) by exact (To_encodes grow _ _ He).
  split; [exact ET|].
  destruct (append_enc grow fuel (mkSlice [0] 0) [0x41; 0x42]) as (out & E & _ & H); [cbn; lia|repeat (constructor; [unfold is_byte; lia|]); constructor|].
  rewrite ET in E. injection E as <-. apply H. vm_compute. reflexivity.
Qed.
