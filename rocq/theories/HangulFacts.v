(** Proofs about package hangul (runes). *)
From Coq Require Import ZArith List Bool Lia.
From Coq Require Import ZifyBool.
From Verif Require Import Base Spec Facts Utf8 HangulModel.
Import ListNotations.
Local Open Scope Z_scope.

(** ** Sweep over the jamo blocks *)
Definition jamo_lo : Z := 0x1100.
Definition jamo_n : Z := 8292.   (* 0x1100 .. 0x3163 *)

Lemma jamo_sweep (P : Z -> bool) :
  forallb P (zseq jamo_lo (Z.to_nat jamo_n)) = true ->
  (forall x, x < 0x1100 \/ 0x3163 < x -> P x = true) ->
  forall x, P x = true.
Proof.
  intros Hin Hout x.
  destruct (Z_lt_dec x 0x1100); [apply Hout; lia|].
  destruct (Z_lt_dec 0x3163 x); [apply Hout; lia|].
  apply (sweep P jamo_lo jamo_n Hin). unfold jamo_lo, jamo_n. lia.
Qed.

Ltac unfold_consts :=
  unfold maxLeadIdx, maxMedialIdx, maxTailIdx in *;
  unfold J_G, J_H, J_A, J_I, LeadG, LeadH, MedialA, MedialI, TailG, TailH in *;
  unfold leadBase, medialBase, tailBase in *.

Section Outside.
  Variable r : Z.
  Hypothesis Hr : r < 0x1100 \/ 0x3163 < r.
  Lemma out_IsLead : IsLead r = false.
  Proof using Hr. unfold IsLead. unfold_consts. lia. Qed.
  Lemma out_IsMedial : IsMedial r = false.
  Proof using Hr. unfold IsMedial. unfold_consts. lia. Qed.
  Lemma out_IsTail : IsTail r = false.
  Proof using Hr. unfold IsTail. unfold_consts. lia. Qed.
  Lemma out_IsJaeum : IsJaeum r = false.
  Proof using Hr. unfold IsJaeum. rewrite out_IsLead, out_IsTail. unfold_consts.
    destruct (_ && _) eqn:E; [lia|reflexivity]. Qed.
  Lemma out_IsMoeum : IsMoeum r = false.
  Proof using Hr. unfold IsMoeum. rewrite out_IsMedial. unfold_consts.
    destruct (_ && _) eqn:E; [lia|reflexivity]. Qed.
  Lemma out_toCompatJamo : map_get toCompatJamo r = None.
  Proof using Hr. apply (map_get_out _ 0x1100 0x3163); [vm_compute; reflexivity|exact Hr]. Qed.
  Lemma out_toLead : map_get toLead r = None.
  Proof using Hr. apply (map_get_out _ 0x1100 0x3163); [vm_compute; reflexivity|exact Hr]. Qed.
  Lemma out_toTail : map_get toTail r = None.
  Proof using Hr. apply (map_get_out _ 0x1100 0x3163); [vm_compute; reflexivity|exact Hr]. Qed.
  Lemma out_multi : map_get multiElements r = None.
  Proof using Hr. apply (map_get_out _ 0x1100 0x3163); [vm_compute; reflexivity|exact Hr]. Qed.
  Lemma out_strokes : map_get strokes r = None.
  Proof using Hr. apply (map_get_out _ 0x1100 0x3163); [vm_compute; reflexivity|exact Hr]. Qed.
  Lemma out_CompatJamo : CompatJamo r = 0.
  Proof using Hr.
    unfold CompatJamo. rewrite out_toCompatJamo. unfold_consts.
    destruct (_ && _) eqn:E1; [lia|]. destruct (_ && _) eqn:E2 in |- *; [lia|].
    destruct (_ && _) eqn:E3 in |- *; [lia|]. reflexivity.
  Qed.
  Lemma out_Lead : Lead r = 0.
  Proof using Hr. unfold Lead. rewrite out_toLead. unfold_consts.
    destruct (_ && _) eqn:E; [lia|reflexivity]. Qed.
  Lemma out_Medial : Medial r = 0.
  Proof using Hr. unfold Medial. unfold_consts.
    destruct (_ && _) eqn:E; [lia|]. destruct (_ && _) eqn:E2 in |- *; [lia|reflexivity]. Qed.
  Lemma out_Tail : Tail r = 0.
  Proof using Hr. unfold Tail. rewrite out_toTail. unfold_consts.
    destruct (_ && _) eqn:E; [lia|reflexivity]. Qed.
End Outside.

Lemma zero_out : 0 < 0x1100 \/ 0x3163 < 0.
Proof. lia. Qed.

(** ** Letters *)
Definition all_letters : list letter := [
  L_KIYEOK; L_SSANGKIYEOK; L_KIYEOK_SIOS; L_NIEUN; L_NIEUN_CIEUC; L_NIEUN_HIEUH;
  L_TIKEUT; L_SSANGTIKEUT; L_RIEUL; L_RIEUL_KIYEOK; L_RIEUL_MIEUM; L_RIEUL_PIEUP;
  L_RIEUL_SIOS; L_RIEUL_THIEUTH; L_RIEUL_PHIEUPH; L_RIEUL_HIEUH; L_MIEUM; L_PIEUP;
  L_SSANGPIEUP; L_PIEUP_SIOS; L_SIOS; L_SSANGSIOS; L_IEUNG; L_CIEUC; L_SSANGCIEUC;
  L_CHIEUCH; L_KHIEUKH; L_THIEUTH; L_PHIEUPH; L_HIEUH;
  L_A; L_AE; L_YA; L_YAE; L_EO; L_E; L_YEO; L_YE; L_O; L_WA; L_WAE; L_OE; L_YO; L_U;
  L_WEO; L_WE; L_WI; L_YU; L_EU; L_YI; L_I].

Definition oeqb (o : option Z) (r : Z) : bool :=
  match o with Some f => f =? r | None => false end.
Lemma oeqb_true o r : oeqb o r = true <-> o = Some r.
Proof. destruct o; cbn; [rewrite Z.eqb_eq; split; congruence|split; discriminate]. Qed.

Definition form_ofb (x : letter) (r : Z) : bool :=
  (r =? compat_form x) || oeqb (lead_form x) r || oeqb (medial_form x) r
  || oeqb (tail_form x) r.
Lemma form_ofb_true x r : form_ofb x r = true <-> form_of x r.
Proof.
  unfold form_ofb, form_of. rewrite !orb_true_iff, !oeqb_true, Z.eqb_eq. tauto.
Qed.

(** The letter of a code point, if any. *)
Definition letter_at (r : Z) : option letter := find (fun x => form_ofb x r) all_letters.

Lemma letter_at_form r x : letter_at r = Some x -> form_of x r.
Proof. intros H. apply find_some in H as [_ H]. apply form_ofb_true. exact H. Qed.

Lemma form_of_letter_at x r : form_of x r -> letter_at r = Some x.
Proof.
  intros [->|[H|[H|H]]]; destruct x; try discriminate H;
    try (injection H as <-); vm_compute; reflexivity.
Qed.

Lemma form_of_unique x y r : form_of x r -> form_of y r -> x = y.
Proof. intros Hx Hy. apply form_of_letter_at in Hx, Hy. congruence. Qed.

(** ** Classification *)
Lemma IsLead_iff r : IsLead r = true <-> is_lead_jamo r.
Proof. unfold IsLead, is_lead_jamo. unfold_consts. lia. Qed.
Lemma IsMedial_iff r : IsMedial r = true <-> is_medial_jamo r.
Proof. unfold IsMedial, is_medial_jamo. unfold_consts. lia. Qed.
Lemma IsTail_iff r : IsTail r = true <-> is_tail_jamo r.
Proof. unfold IsTail, is_tail_jamo. unfold_consts. lia. Qed.
Lemma IsJaeum_iff r :
  IsJaeum r = true <-> is_compat_jaeum r \/ is_lead_jamo r \/ is_tail_jamo r.
Proof.
  unfold IsJaeum. rewrite <- IsLead_iff, <- IsTail_iff.
  unfold is_compat_jaeum. unfold_consts.
  destruct (_ && _) eqn:E; [split; [left; lia|reflexivity]|].
  destruct (IsLead r); [tauto|]. destruct (IsTail r); [tauto|].
  split; [discriminate|]. intros [H|[H|H]]; [lia|discriminate..].
Qed.
Lemma IsMoeum_iff r : IsMoeum r = true <-> is_compat_moeum r \/ is_medial_jamo r.
Proof.
  unfold IsMoeum. rewrite <- IsMedial_iff. unfold is_compat_moeum. unfold_consts.
  destruct (_ && _) eqn:E; [split; [left; lia|reflexivity]|].
  destruct (IsMedial r); [tauto|].
  split; [discriminate|]. intros [H|H]; [lia|discriminate].
Qed.
Lemma IsHangul_iff r :
  IsHangul r = true <->
  is_syllable r \/ is_lead_jamo r \/ is_medial_jamo r \/ is_tail_jamo r
  \/ is_compat_jaeum r \/ is_compat_moeum r.
Proof.
  unfold IsHangul, is_syllable.
  destruct (_ && _) eqn:E; [split; [left; lia|reflexivity]|].
  destruct (IsJaeum r) eqn:EJ.
  { rewrite IsJaeum_iff in EJ. tauto. }
  destruct (IsMoeum r) eqn:EM.
  { rewrite IsMoeum_iff in EM. tauto. }
  split; [discriminate|]. intros H.
  assert (IsJaeum r = true \/ IsMoeum r = true) as [?|?]; [|congruence|congruence].
  rewrite IsJaeum_iff, IsMoeum_iff. destruct H as [H|H]; [lia|tauto].
Qed.

(** ** CompatJamo, Lead, Medial, Tail *)
Definition compat_of_letter (r : Z) : Z :=
  match letter_at r with Some x => compat_form x | None => 0 end.

Lemma letter_at_range r : letter_at r <> None -> 0x1100 <= r <= 0x3163.
Proof.
  destruct (letter_at r) as [x|] eqn:E; [intros _|congruence].
  apply letter_at_form in E. destruct E as [->|[H|[H|H]]]; destruct x; cbn in *;
    try discriminate H; try (injection H as <-); lia.
Qed.
Lemma letter_at_out r : r < 0x1100 \/ 0x3163 < r -> letter_at r = None.
Proof.
  intros H. destruct (letter_at r) eqn:E; [|reflexivity].
  assert (letter_at r <> None) by congruence. apply letter_at_range in H0. lia.
Qed.

Lemma CompatJamo_letter r : CompatJamo r = compat_of_letter r.
Proof.
  apply Z.eqb_eq. revert r. apply jamo_sweep; [vm_compute; reflexivity|].
  intros r Hr. rewrite out_CompatJamo by exact Hr. unfold compat_of_letter.
  rewrite letter_at_out by exact Hr. reflexivity.
Qed.

Definition role_of_letter (form : letter -> option Z) (r : Z) : Z :=
  match letter_at r with
  | Some x =>
    match form x with
    | Some f => if (r =? f) || (r =? compat_form x) then f else 0
    | None => 0
    end
  | None => 0
  end.

Lemma Lead_letter r : Lead r = role_of_letter lead_form r.
Proof.
  apply Z.eqb_eq. revert r. apply jamo_sweep; [vm_compute; reflexivity|].
  intros r Hr. rewrite out_Lead by exact Hr. unfold role_of_letter.
  rewrite letter_at_out by exact Hr. reflexivity.
Qed.
Lemma Medial_letter r : Medial r = role_of_letter medial_form r.
Proof.
  apply Z.eqb_eq. revert r. apply jamo_sweep; [vm_compute; reflexivity|].
  intros r Hr. rewrite out_Medial by exact Hr. unfold role_of_letter.
  rewrite letter_at_out by exact Hr. reflexivity.
Qed.
Lemma Tail_letter r : Tail r = role_of_letter tail_form r.
Proof.
  apply Z.eqb_eq. revert r. apply jamo_sweep; [vm_compute; reflexivity|].
  intros r Hr. rewrite out_Tail by exact Hr. unfold role_of_letter.
  rewrite letter_at_out by exact Hr. reflexivity.
Qed.

Lemma CompatJamo_form x r : form_of x r -> CompatJamo r = compat_form x.
Proof.
  intros H. rewrite CompatJamo_letter. unfold compat_of_letter.
  rewrite (form_of_letter_at x r H). reflexivity.
Qed.
Lemma CompatJamo_none r : (forall x, ~ form_of x r) -> CompatJamo r = 0.
Proof.
  intros H. rewrite CompatJamo_letter. unfold compat_of_letter.
  destruct (letter_at r) eqn:E; [|reflexivity].
  apply letter_at_form in E. destruct (H _ E).
Qed.

Section Role.
  Variable form : letter -> option Z.
  Hypothesis Hform : forall x f, form x = Some f -> form_of x f.
  Lemma role_form x f r : form x = Some f -> r = f \/ r = compat_form x ->
    role_of_letter form r = f.
  Proof using Hform.
    intros Hf Hr. unfold role_of_letter.
    assert (form_of x r) as Hx.
    { destruct Hr as [->| ->]; [auto|left; reflexivity]. }
    rewrite (form_of_letter_at _ _ Hx), Hf.
    destruct Hr as [->| ->]; rewrite Z.eqb_refl, ?orb_true_r; reflexivity.
  Qed.
  Lemma role_nonzero r : role_of_letter form r <> 0 ->
    exists x, form x = Some (role_of_letter form r)
              /\ (r = role_of_letter form r \/ r = compat_form x).
  Proof using Type.
    unfold role_of_letter. destruct (letter_at r) as [x|] eqn:E; [|congruence].
    destruct (form x) as [f|] eqn:Ef; [|congruence].
    destruct (_ || _) eqn:Eb; [|congruence]. intros _. exists x. split; [exact Ef|].
    lia.
  Qed.
End Role.

Lemma lead_form_form x f : lead_form x = Some f -> form_of x f.
Proof. unfold form_of. tauto. Qed.
Lemma medial_form_form x f : medial_form x = Some f -> form_of x f.
Proof. unfold form_of. tauto. Qed.
Lemma tail_form_form x f : tail_form x = Some f -> form_of x f.
Proof. unfold form_of. tauto. Qed.

Lemma lead_form_range x f : lead_form x = Some f -> is_lead_jamo f.
Proof. destruct x; cbn; intros H; try discriminate H; injection H as <-; unfold is_lead_jamo; lia. Qed.
Lemma medial_form_range x f : medial_form x = Some f -> is_medial_jamo f.
Proof. destruct x; cbn; intros H; try discriminate H; injection H as <-; unfold is_medial_jamo; lia. Qed.
Lemma tail_form_range x f : tail_form x = Some f -> is_tail_jamo f.
Proof. destruct x; cbn; intros H; try discriminate H; injection H as <-; unfold is_tail_jamo; lia. Qed.

Lemma Lead_as r f : as_lead r f -> Lead r = f.
Proof. intros (x & Hf & Hr). rewrite Lead_letter. apply (role_form _ lead_form_form x); auto. Qed.
Lemma Medial_as r f : as_medial r f -> Medial r = f.
Proof. intros (x & Hf & Hr). rewrite Medial_letter. apply (role_form _ medial_form_form x); auto. Qed.
Lemma Tail_as r f : as_tail r f -> Tail r = f.
Proof. intros (x & Hf & Hr). rewrite Tail_letter. apply (role_form _ tail_form_form x); auto. Qed.
Lemma Lead_nonzero r : Lead r <> 0 -> as_lead r (Lead r).
Proof. rewrite Lead_letter. apply role_nonzero. Qed.
Lemma Medial_nonzero r : Medial r <> 0 -> as_medial r (Medial r).
Proof. rewrite Medial_letter. apply role_nonzero. Qed.
Lemma Tail_nonzero r : Tail r <> 0 -> as_tail r (Tail r).
Proof. rewrite Tail_letter. apply role_nonzero. Qed.

Lemma as_lead_range r f : as_lead r f -> is_lead_jamo f.
Proof. intros (x & H & _). eapply lead_form_range; eauto. Qed.
Lemma as_medial_range r f : as_medial r f -> is_medial_jamo f.
Proof. intros (x & H & _). eapply medial_form_range; eauto. Qed.
Lemma as_tail_range r f : as_tail r f -> is_tail_jamo f.
Proof. intros (x & H & _). eapply tail_form_range; eauto. Qed.

Lemma Lead_range r : Lead r = 0 \/ is_lead_jamo (Lead r).
Proof. destruct (Z.eq_dec (Lead r) 0) as [|H]; [tauto|]. right. eapply as_lead_range, Lead_nonzero, H. Qed.
Lemma Medial_range r : Medial r = 0 \/ is_medial_jamo (Medial r).
Proof. destruct (Z.eq_dec (Medial r) 0) as [|H]; [tauto|]. right. eapply as_medial_range, Medial_nonzero, H. Qed.
Lemma Tail_range r : Tail r = 0 \/ is_tail_jamo (Tail r).
Proof. destruct (Z.eq_dec (Tail r) 0) as [|H]; [tauto|]. right. eapply as_tail_range, Tail_nonzero, H. Qed.

Lemma Lead_self r : is_lead_jamo r -> Lead r = r.
Proof. intros H. apply IsLead_iff in H. unfold Lead, IsLead in *. rewrite H. reflexivity. Qed.
Lemma Medial_self r : is_medial_jamo r -> Medial r = r.
Proof. intros H. apply IsMedial_iff in H. unfold Medial, IsMedial in *. rewrite H. reflexivity. Qed.
Lemma Tail_self r : is_tail_jamo r -> Tail r = r.
Proof. intros H. apply IsTail_iff in H. unfold Tail, IsTail in *. rewrite H. reflexivity. Qed.

Lemma Lead_zero : Lead 0 = 0. Proof. reflexivity. Qed.
Lemma Medial_zero : Medial 0 = 0. Proof. reflexivity. Qed.
Lemma Tail_zero : Tail 0 = 0. Proof. reflexivity. Qed.

(** ** Join and Split *)
Lemma wrap32_small x : is_int32 x -> wrap32 x = x.
Proof. unfold is_int32, wrap32. intros. rewrite Z.mod_small by lia. lia. Qed.

Lemma leadIdx_ok l : is_lead_jamo l -> leadIdx l = (l - 0x1100, true).
Proof. unfold is_lead_jamo, leadIdx. unfold_consts. intros. destruct (_ || _) eqn:E; [lia|]. reflexivity. Qed.
Lemma medialIdx_ok l : is_medial_jamo l -> medialIdx l = (l - 0x1161, true).
Proof. unfold is_medial_jamo, medialIdx. unfold_consts. intros. destruct (_ || _) eqn:E; [lia|]. reflexivity. Qed.
Lemma tailIdx_ok t : is_tail_jamo t -> tailIdx t = (t - 0x11A7, true).
Proof.
  unfold is_tail_jamo, tailIdx. unfold_consts. intros.
  destruct (Z.eqb_spec t 0); [lia|]. destruct (_ || _) eqn:E; [lia|]. f_equal; lia.
Qed.

Definition tail_index (t : Z) : Z := if t =? 0 then 0 else t - 0x11A7.

Lemma Join_value l m t :
  is_lead_jamo (Lead l) -> is_medial_jamo (Medial m) ->
  Join l m t =
    0xAC00 + ((Lead l - 0x1100) * 21 + (Medial m - 0x1161)) * 28 + tail_index (Tail t).
Proof.
  intros Hl Hm. unfold Join. rewrite leadIdx_ok, medialIdx_ok by assumption. cbn [negb].
  assert (tailIdx (Tail t) = (tail_index (Tail t), true)) as ->.
  { unfold tail_index. destruct (Tail_range t) as [->|H]; [reflexivity|].
    rewrite (tailIdx_ok _ H). unfold is_tail_jamo in H.
    destruct (Z.eqb_spec (Tail t) 0); [lia|reflexivity]. }
  cbn [negb]. apply wrap32_small. unfold is_int32, tail_index, is_lead_jamo, is_medial_jamo in *.
  pose proof (Tail_range t) as H. unfold is_tail_jamo in H.
  destruct (Z.eqb_spec (Tail t) 0); lia.
Qed.

Lemma Join_bad l m t :
  Lead l = 0 \/ Medial m = 0 -> Join l m t = 0xFFFD.
Proof.
  intros H. unfold Join. destruct (Lead_range l) as [E|E].
  - rewrite E. reflexivity.
  - rewrite leadIdx_ok by exact E. cbn [negb].
    destruct H as [H|H].
    + unfold is_lead_jamo in E. lia.
    + rewrite H. reflexivity.
Qed.

Lemma Join_syllable l m t :
  Lead l <> 0 -> Medial m <> 0 -> is_syllable (Join l m t).
Proof.
  intros Hl Hm. destruct (Lead_range l) as [|Hl']; [contradiction|].
  destruct (Medial_range m) as [|Hm']; [contradiction|].
  rewrite Join_value by assumption.
  unfold is_syllable, tail_index, is_lead_jamo, is_medial_jamo in *.
  pose proof (Tail_range t) as H. unfold is_tail_jamo in H.
  destruct (Z.eqb_spec (Tail t) 0); lia.
Qed.

Ltac split_arith :=
  Z.quot_rem_to_equations; lia.

Lemma Split_spec c : is_int32 c ->
  exists d, (d = c - 0xAC00 /\ -0x80000000 <= c - 0xAC00
             \/ d = c - 0xAC00 + 0x100000000 /\ c - 0xAC00 < -0x80000000) /\
  Split c = (Z.quot d 588 + 0x1100,
             Z.quot (Z.rem (d - Z.rem d 28) 588) 28 + 0x1161,
             if Z.rem d 28 =? 0 then 0 else Z.rem d 28 + 0x11A7).
Proof.
  intros Hc. unfold is_int32 in Hc. exists (wrap32 (c - 0xAC00)).
  assert (-0x80000000 <= wrap32 (c - 0xAC00) < 0x80000000) as Hd.
  { unfold wrap32. pose proof (Z.mod_pos_bound (c - 0xAC00 + 0x80000000) 0x100000000). lia. }
  split.
  - unfold wrap32. destruct (Z_lt_dec (c - 0xAC00) (-0x80000000)).
    + right. split; [|lia].
      replace (c - 0xAC00 + 0x80000000) with ((c - 0xAC00 + 0x80000000 + 0x100000000) + (-1) * 0x100000000) by lia.
      rewrite Z.mod_add by lia. rewrite Z.mod_small by lia. lia.
    + left. split; [|lia]. rewrite Z.mod_small by lia. lia.
  - set (d := wrap32 (c - 0xAC00)) in *. unfold Split, go_mod, go_div. fold d.
    unfold leadBase, medialBase, tailBase.
    rewrite (wrap32_small (d - _)) by (unfold is_int32; split_arith).
    rewrite (wrap32_small (Z.quot d 588 + _)) by (unfold is_int32; split_arith).
    rewrite (wrap32_small (Z.quot (Z.rem _ _) _ + _)) by (unfold is_int32; split_arith).
    rewrite (wrap32_small (Z.rem d 28 + _)) by (unfold is_int32; split_arith).
    destruct (Z.eqb_spec (Z.rem d 28) 0) as [E|E]; cbn [negb]; [rewrite E|]; reflexivity.
Qed.

Lemma Split_syllable c : is_syllable c ->
  Split c = ((c - 0xAC00) / 588 + 0x1100,
             (c - 0xAC00) mod 588 / 28 + 0x1161,
             if (c - 0xAC00) mod 28 =? 0 then 0 else (c - 0xAC00) mod 28 + 0x11A7).
Proof.
  intros Hc. unfold is_syllable in Hc.
  destruct (Split_spec c) as (d & [[-> _]|[_ ?]] & ->); [unfold is_int32; lia| |lia].
  rewrite (Z.rem_mod_nonneg (c - 0xAC00) 28) by lia.
  rewrite (Z.quot_div_nonneg (c - 0xAC00) 588) by lia.
  replace (Z.quot (Z.rem (c - 0xAC00 - (c - 0xAC00) mod 28) 588) 28)
    with ((c - 0xAC00) mod 588 / 28); [reflexivity|].
  rewrite Z.rem_mod_nonneg, Z.quot_div_nonneg; Z.div_mod_to_equations; lia.
Qed.

Lemma Split_wf c : is_int32 c -> (wf_triple (Split c) <-> is_syllable c).
Proof.
  intros Hc. destruct (Split_spec c Hc) as (d & Hd & ->).
  unfold is_int32 in Hc.
  unfold wf_triple, is_lead_jamo, is_medial_jamo, is_tail_jamo, is_syllable.
  destruct (Z.eqb_spec (Z.rem d 28) 0); split; intros; split_arith.
Qed.

Lemma Join_Split c : is_syllable c -> let '(l, m, t) := Split c in Join l m t = c.
Proof.
  intros Hc.
  assert (is_int32 c) as Hi by (unfold is_syllable, is_int32 in *; lia).
  pose proof (proj2 (Split_wf c Hi) Hc) as Hwf.
  pose proof (Split_syllable c Hc) as E.
  destruct (Split c) as [[l m] t]. destruct Hwf as (Hl & Hm & Ht).
  rewrite Join_value by (rewrite ?Lead_self, ?Medial_self; assumption).
  rewrite Lead_self, Medial_self by assumption.
  assert (Tail t = t) as -> by (destruct Ht as [->|Ht]; [reflexivity|apply Tail_self; exact Ht]).
  injection E as -> -> ->. unfold is_syllable, tail_index in *.
  destruct (Z.eqb_spec ((c - 0xAC00) mod 28) 0) as [E|E].
  - cbn [Z.eqb]. Z.div_mod_to_equations; lia.
  - destruct (Z.eqb_spec ((c - 0xAC00) mod 28 + 0x11A7) 0); Z.div_mod_to_equations; lia.
Qed.

Lemma Split_Join_gen l m t :
  Lead l <> 0 -> Medial m <> 0 -> Split (Join l m t) = (Lead l, Medial m, Tail t).
Proof.
  intros Hl Hm. pose proof (Join_syllable l m t Hl Hm) as Hs.
  rewrite (Split_syllable _ Hs).
  destruct (Lead_range l) as [|Hl']; [contradiction|].
  destruct (Medial_range m) as [|Hm']; [contradiction|].
  rewrite Join_value by assumption. clear Hs.
  unfold is_lead_jamo, is_medial_jamo in *.
  set (a := Lead l) in *. set (b := Medial m) in *.
  assert (0 <= tail_index (Tail t) < 28 /\
          (if tail_index (Tail t) =? 0 then 0 else tail_index (Tail t) + 0x11A7) = Tail t) as [Hb Ht].
  { unfold tail_index. destruct (Tail_range t) as [->|H]; [cbn; lia|]. unfold is_tail_jamo in H.
    destruct (Z.eqb_spec (Tail t) 0); [lia|].
    destruct (Z.eqb_spec (Tail t - 0x11A7) 0); lia. }
  set (k := tail_index (Tail t)) in *. rewrite <- Ht. clearbody k a b. clear Ht.
  replace (0xAC00 + ((a - 0x1100) * 21 + (b - 0x1161)) * 28 + k - 0xAC00)
    with (((a - 0x1100) * 21 + (b - 0x1161)) * 28 + k) by lia.
  assert ((((a - 0x1100) * 21 + (b - 0x1161)) * 28 + k) mod 28 = k) as -> by (Z.div_mod_to_equations; lia).
  f_equal. f_equal; Z.div_mod_to_equations; lia.
Qed.

Lemma Split_Join l m t : wf_triple (l, m, t) ->
  is_syllable (Join l m t) /\ Split (Join l m t) = (l, m, t).
Proof.
  intros (Hl & Hm & Ht).
  assert (Tail t = t) as Et by (destruct Ht as [->|Ht]; [reflexivity|apply Tail_self; exact Ht]).
  pose proof (Lead_self l Hl) as El. pose proof (Medial_self m Hm) as Em.
  unfold is_lead_jamo, is_medial_jamo in *.
  split.
  - apply Join_syllable; lia.
  - rewrite Split_Join_gen by lia. congruence.
Qed.

Lemma Split_enumerates : map Split (zseq 0xAC00 (Z.to_nat 11172)) = all_triples.
Proof. vm_compute. reflexivity. Qed.

Lemma zseq_NoDup n : forall lo, NoDup (zseq lo n).
Proof.
  induction n as [|n IH]; intros lo; cbn [zseq]; constructor; [|apply IH].
  rewrite in_zseq. lia.
Qed.

Lemma NoDup_map_inv_on {A B} (f : A -> B) (g : B -> A) (l : list A) :
  NoDup l -> (forall x, In x l -> g (f x) = x) -> NoDup (map f l).
Proof.
  induction l as [|x l IH]; cbn [map]; intros Hnd Hinj; constructor.
  - inversion Hnd as [|? ? Hni Hnd']; subst. intros Hin. apply in_map_iff in Hin as (y & E & Hy).
    assert (x = y); [|congruence].
    rewrite <- (Hinj x), <- (Hinj y) by (cbn; auto). congruence.
  - inversion Hnd; subst. apply IH; auto. intros; apply Hinj; cbn; auto.
Qed.

Lemma all_triples_NoDup : NoDup all_triples.
Proof.
  rewrite <- Split_enumerates.
  apply (NoDup_map_inv_on _ (fun x => let '(l, m, t) := x in Join l m t)); [apply zseq_NoDup|].
  intros x Hx. apply in_zseq in Hx. apply Join_Split. unfold is_syllable. lia.
Qed.

Lemma all_triples_wf x : In x all_triples <-> wf_triple x.
Proof.
  destruct x as [[l m] t]. unfold all_triples. rewrite in_flat_map. split.
  - intros (l' & Hl & H). apply in_flat_map in H as (m' & Hm & H).
    apply in_map_iff in H as (t' & E & Ht). injection E as <- <- <-.
    apply in_zseq in Hl, Hm. destruct Ht as [<-|Ht].
    + unfold wf_triple, is_lead_jamo, is_medial_jamo. lia.
    + apply in_zseq in Ht. unfold wf_triple, is_lead_jamo, is_medial_jamo, is_tail_jamo. lia.
  - unfold wf_triple, is_lead_jamo, is_medial_jamo, is_tail_jamo. intros (Hl & Hm & Ht).
    exists l. split; [apply in_zseq; lia|]. apply in_flat_map. exists m.
    split; [apply in_zseq; lia|]. apply in_map. destruct Ht as [->|Ht]; [left; reflexivity|].
    right. apply in_zseq. lia.
Qed.
