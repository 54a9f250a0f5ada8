(** The lemmas behind C143: letters of syllables in CP949. *)
From Coq Require Import ZArith List Bool Lia.
From Verif Require Import Base Spec Facts Utf8 Utf8Facts TableFrom TableTo SpecCp949 PMapFacts HangulModel HangulFacts HangulFacts2
  HangulFacts3 SpecJamo Cp949Model TableFacts Cp949Facts Cp949Facts2.
Import ListNotations.
Local Open Scope Z_scope.
Local Opaque fromTable toTable enc_tree dec_tree.

Lemma conjoining_marks r : 0x1100 <= r <= 0x11FF -> to_char r = [0x3F].
Proof.
  intros H. rewrite to_char_high by lia. rewrite Z.mod_small by lia. unfold enc16.
  assert (forallb (fun u => match tget enc_tree u with None => true | Some _ => false end) (zseq 0x1100 256) = true) as E
    by (vm_compute; reflexivity).
  rewrite forallb_forall in E. specialize (E r). rewrite in_zseq in E. specialize (E ltac:(lia)).
  destruct (tget enc_tree r); [discriminate|]. destruct (Z.ltb_spec 0xFFE6 r); [lia|reflexivity].
Qed.
Lemma compat_encodable r : 0x3131 <= r <= 0x318E -> in_repertoire r.
Proof.
  intros H. right.
  assert (forallb (fun u => match tget enc_tree u with None => false | Some _ => true end) (zseq 0x3131 94) = true) as E
    by (vm_compute; reflexivity).
  rewrite forallb_forall in E. specialize (E r). rewrite in_zseq in E. specialize (E ltac:(lia)).
  destruct (tget enc_tree r) eqn:G; [|discriminate]. exists z. apply assigned_enc. exact G.
Qed.

Lemma C143_marks_lemma grow rs : Forall (fun r => 0x1100 <= r <= 0x11FF) rs ->
  To grow (utf8 rs) = Ok (inl (repeat 0x3F (length rs))).
Proof.
  intros H. rewrite To_utf8 by (eapply Forall_impl; [|exact H]; unfold is_scalar; cbn; lia).
  do 2 f_equal. induction H as [|r rs Hr _ IH]; [reflexivity|]. rewrite to_chars_cons, conjoining_marks, IH by exact Hr. reflexivity.
Qed.
Lemma present_Split c : is_syllable c -> Forall (fun r => 0x1100 <= r <= 0x11FF) (present (Split c)) /\ (2 <= length (present (Split c)))%nat.
Proof.
  intros Hc. pose proof (proj2 (Split_wf c (syllable_int32 c Hc)) Hc) as Hwf.
  destruct (Split c) as [[l m] t]. destruct Hwf as (Hl & Hm & Ht).
  unfold is_lead_jamo, is_medial_jamo, is_tail_jamo in *. unfold present. cbn [filter].
  destruct (Z.eqb_spec l 0); [lia|]. destruct (Z.eqb_spec m 0); [lia|].
  destruct (Z.eqb_spec t 0); cbn [negb length]; (split; [repeat (constructor; [lia|]); constructor|lia]).
Qed.
Lemma C143_Split_lemma grow cs : Forall is_syllable cs ->
  let parts := flat_map (fun c => present (Split c)) cs in
  To grow (utf8 parts) = Ok (inl (repeat 0x3F (length parts))).
Proof.
  intros H. apply C143_marks_lemma. induction H as [|c cs Hc _ IH]; [constructor|]. cbn [flat_map].
  apply Forall_app. split; [apply present_Split; exact Hc|exact IH].
Qed.
Lemma compat_form_range x : 0x3131 <= compat_form x <= 0x3163.
Proof. destruct x; cbn; lia. Qed.
Lemma present_SplitCompat c : is_syllable c -> Forall (fun r => 0x3131 <= r <= 0x318E) (present (SplitCompat c)).
Proof.
  intros Hc. destruct (SplitCompat_value c Hc) as (xl & xm & H). destruct (Split c) as [[l m] t].
  destruct H as (_ & _ & H). pose proof (compat_form_range xl). pose proof (compat_form_range xm).
  assert (forall z, z = 0 \/ 0x3131 <= z <= 0x3163 -> Forall (fun r => 0x3131 <= r <= 0x318E) (present (compat_form xl, compat_form xm, z))) as G.
  { intros z Hz. unfold present. cbn [filter]. destruct (Z.eqb_spec (compat_form xl) 0); [lia|].
    destruct (Z.eqb_spec (compat_form xm) 0); [lia|]. destruct (Z.eqb_spec z 0); cbn [negb]; repeat (constructor; [lia|]); constructor. }
  destruct H as [[_ ->]|(xt & _ & ->)]; apply G; [auto|]. right. apply compat_form_range.
Qed.
Lemma C143_SplitCompat_lemma grow cs : Forall is_syllable cs ->
  let parts := flat_map (fun c => present (SplitCompat c)) cs in
  exists bs, encodes parts bs /\ To grow (utf8 parts) = Ok (inl bs) /\ From grow bs = Ok (inl (utf8 parts)).
Proof.
  intros H. apply C28_lemma. induction H as [|c cs Hc _ IH]; [constructor|]. cbn [flat_map].
  apply Forall_app. split; [|exact IH]. eapply Forall_impl; [|apply present_SplitCompat; exact Hc]. apply compat_encodable.
Qed.
Lemma C143_refuted_lemma : exists c, is_syllable c /\ forall grow,
  To grow (utf8 (present (Split c))) = Ok (inl [0x3F; 0x3F]) /\ From grow [0x3F; 0x3F] = Ok (inl [0x3F; 0x3F]).
Proof.
  exists 0xAC00. split; [unfold is_syllable; lia|]. intros grow. split.
  - pose proof (C143_Split_lemma grow [0xAC00]) as H. cbn [flat_map] in H. rewrite app_nil_r in H.
    rewrite H by (constructor; [unfold is_syllable; lia|constructor]). reflexivity.
  - apply (From_encodes grow [0x3F; 0x3F]). repeat (apply enc_ascii; [lia|]). constructor.
Qed.
