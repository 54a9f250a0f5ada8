(** Slices: append, ensureCap, appendRune. *)
From Coq Require Import ZArith List Bool Lia.
From Coq Require Import ZifyBool.
From Verif Require Import Base Spec Facts Utf8 Utf8Facts Cp949Model.
Import ListNotations.
Local Open Scope Z_scope.

Lemma contents_len s : slice_ok s -> zlen (contents s) = slen s.
Proof. unfold slice_ok, contents, scap. intros H. rewrite zlen_ztake by lia. lia. Qed.

Lemma nil_slice_ok : slice_ok nil_slice.
Proof. unfold slice_ok, scap, nil_slice. cbn. lia. Qed.

Lemma go_append_spec grow s bs : slice_ok s ->
  slice_ok (go_append grow s bs) /\ contents (go_append grow s bs) = contents s ++ bs /\
  slen (go_append grow s bs) = slen s + zlen bs.
Proof.
  unfold slice_ok, scap. intros H. pose proof (zlen_nonneg bs) as Hb. unfold go_append, scap.
  destruct (Z.leb_spec (slen s + zlen bs) (zlen (arr s))) as [Hle|Hgt]; cbn [arr slen].
  - split; [rewrite zlen_zwrite by lia; lia|]. split; [|reflexivity].
    unfold contents. cbn [arr slen]. apply ztake_zwrite. lia.
  - set (m := Z.max _ _).
    assert (zlen (contents s) = slen s) as Hc by (apply contents_len; exact H).
    split.
    + rewrite !zlen_app, zlen_zeros by lia. lia.
    + split; [|reflexivity]. unfold contents at 1. cbn [arr slen]. rewrite app_assoc.
      apply ztake_app_exact. rewrite zlen_app. lia.
Qed.

Lemma reslice_spec s n : 0 <= n <= scap s ->
  reslice s n = Ok (mkSlice (arr s) n).
Proof. intros H. unfold reslice. destruct (_ && _) eqn:E; [reflexivity|lia]. Qed.

Lemma grow_loop_spec fuel : forall m n, 1 <= m -> m < n -> n <= m + Z.of_nat fuel ->
  exists m', grow_loop fuel m n = Ok m' /\ n <= m' < 2 * n.
Proof.
  induction fuel as [|fuel IH]; intros m n Hm Hmn Hf; [lia|].
  cbn [grow_loop]. set (m1 := if m <? 1024 then m + m else m + go_div m 4).
  assert (m < m1 <= 2 * m) as Hm1.
  { subst m1. unfold go_div. destruct (Z.ltb_spec m 1024); [lia|].
    rewrite Z.quot_div_nonneg by lia. Z.div_mod_to_equations. lia. }
  destruct (Z.geb_spec m1 n) as [Hge|Hlt].
  - exists m1. split; [reflexivity|]. lia.
  - apply IH; lia.
Qed.

Lemma ensureCap_spec s n : slice_ok s ->
  exists s', ensureCap s n = Ok s' /\ slice_ok s' /\ contents s' = contents s /\
    slen s' = slen s /\ n <= scap s' /\
    (n <= scap s -> s' = s) /\ (scap s = 0 -> 0 < n -> scap s' = n) /\
    (0 < scap s < n -> scap s' < 2 * n).
Proof.
  intros H. unfold ensureCap.
  destruct (Z.leb_spec n (scap s)) as [Hle|Hgt].
  - exists s. split; [reflexivity|]. repeat split; try assumption; try lia; try apply H.
  - assert (exists m, (if scap s =? 0 then Ok n else grow_loop (Z.to_nat n) (scap s) n) = Ok m
            /\ n <= m /\ (scap s = 0 -> m = n) /\ (0 < scap s -> m < 2 * n)) as (m & Em & Hm & H0 & H1).
    { destruct H as [Hs1 Hs2]. destruct (Z.eqb_spec (scap s) 0) as [E|E].
      - exists n. split; [reflexivity|]. lia.
      - destruct (grow_loop_spec (Z.to_nat n) (scap s) n) as (m & Em & Hm); [lia..|].
        exists m. split; [exact Em|]. lia. }
    rewrite Em. cbn [bind]. cbn [arr slen].
    pose proof (contents_len s H) as Hc. unfold slice_ok in H.
    set (s' := mkSlice (zwrite (zeros m) 0 (contents s)) (slen s)).
    assert (scap s' = m) as Hlen.
    { unfold scap. subst s'. cbn [arr].
      rewrite zlen_zwrite; rewrite ?zlen_zeros by lia; lia. }
    exists s'. split; [reflexivity|]. unfold slice_ok. rewrite Hlen. change (slen s') with (slen s).
    split; [lia|]. split.
    { unfold contents at 1. subst s'. cbn [arr slen].
      rewrite <- Hc at 1. change (zlen (contents s)) with (0 + zlen (contents s)).
      rewrite ztake_zwrite by (rewrite zlen_zeros; lia). rewrite ztake_0. reflexivity. }
    split; [reflexivity|]. split; [lia|]. split; [lia|]. split; intros; [apply H0; assumption|].
    apply H1. lia.
Qed.

Lemma appendRune_spec s r : slice_ok s ->
  exists s', appendRune s r = Ok s' /\ slice_ok s' /\ contents s' = contents s ++ EncodeRune r.
Proof.
  intros H. unfold appendRune.
  destruct (ensureCap_spec s (slen s + UTFMax) H) as (b & Eb & Hb & Hc & Hl & Hcap & _).
  rewrite Eb. cbn [bind]. unfold UTFMax in *.
  destruct (Z.gtb_spec (slen s + 4) (scap b)) as [Hg|Hg]; [lia|].
  pose proof (EncodeRune_len r) as He. unfold slice_ok in *. rewrite Hl in *. unfold scap in *.
  assert (zlen (zwrite (arr b) (slen s) (EncodeRune r)) = zlen (arr b)) as Hz by (apply zlen_zwrite; lia).
  rewrite reslice_spec by (unfold scap; cbn [arr]; lia). cbn [arr].
  eexists. split; [reflexivity|]. cbn [arr slen]. split; [lia|].
  unfold contents at 1. cbn [arr slen]. rewrite ztake_zwrite by lia.
  f_equal. rewrite <- Hc. unfold contents. rewrite Hl. reflexivity.
Qed.
