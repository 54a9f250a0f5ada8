(** Proofs about package hangul: composite letters, stroke counts, shared state. *)
From Coq Require Import ZArith List Bool Lia.
From Coq Require Import ZifyBool.
From Verif Require Import Base Spec Facts Utf8 HangulModel HangulFacts.
Import ListNotations.
Local Open Scope Z_scope.

(** ** SplitMultiElement *)
Definition compositeb (x : letter) : bool :=
  match elements x with [_] => false | _ => true end.
Lemma compositeb_true x : compositeb x = true <-> composite x.
Proof. unfold composite. destruct x; cbn; split; congruence. Qed.

(** What the code returns for the letter x. *)
Definition model_elements (x : letter) : list Z :=
  match x with
  | L_WE => [compat_form L_U; compat_form L_E]
  | _ => map compat_form (elements x)
  end.
Definition split_of_letter (r : Z) : list Z * bool :=
  match letter_at r with
  | Some x => if compositeb x then (model_elements x, true) else ([], false)
  | None => ([], false)
  end.

Fixpoint zlist_eqb (a b : list Z) : bool :=
  match a, b with
  | [], [] => true
  | x :: a', y :: b' => (x =? y) && zlist_eqb a' b'
  | _, _ => false
  end.
Lemma zlist_eqb_eq a : forall b, zlist_eqb a b = true <-> a = b.
Proof.
  induction a as [|x a IH]; intros [|y b]; cbn; try (split; congruence).
  rewrite andb_true_iff, Z.eqb_eq, IH. split; [intros [-> ->]; reflexivity|].
  intros E; injection E; auto.
Qed.
Definition split_eqb (a b : list Z * bool) : bool :=
  zlist_eqb (fst a) (fst b) && Bool.eqb (snd a) (snd b).
Lemma split_eqb_eq a b : split_eqb a b = true -> a = b.
Proof.
  destruct a as [a1 a2], b as [b1 b2]. unfold split_eqb. cbn.
  rewrite andb_true_iff, zlist_eqb_eq, Bool.eqb_true_iff. intros [-> ->]. reflexivity.
Qed.

Lemma SplitMulti_letter r : SplitMultiElement r = split_of_letter r.
Proof.
  apply split_eqb_eq. revert r. apply jamo_sweep; [vm_compute; reflexivity|].
  intros r Hr. unfold SplitMultiElement, SplitMultiElement_in, split_of_letter.
  rewrite out_CompatJamo, letter_at_out by exact Hr. reflexivity.
Qed.

Lemma SplitMulti_form x r : form_of x r ->
  SplitMultiElement r = if compositeb x then (model_elements x, true) else ([], false).
Proof.
  intros H. rewrite SplitMulti_letter. unfold split_of_letter.
  rewrite (form_of_letter_at _ _ H). reflexivity.
Qed.

Lemma SplitMulti_ok_iff r :
  snd (SplitMultiElement r) = true <-> exists x, composite x /\ form_of x r.
Proof.
  split.
  - rewrite SplitMulti_letter. unfold split_of_letter.
    destruct (letter_at r) as [x|] eqn:E; [|discriminate].
    destruct (compositeb x) eqn:Ec; [|discriminate]. intros _.
    exists x. split; [apply compositeb_true; exact Ec|apply letter_at_form; exact E].
  - intros (x & Hc & Hf). rewrite (SplitMulti_form x r Hf).
    apply compositeb_true in Hc. rewrite Hc. reflexivity.
Qed.

Lemma SplitMulti_fail r : snd (SplitMultiElement r) = false -> fst (SplitMultiElement r) = [].
Proof.
  rewrite SplitMulti_letter. unfold split_of_letter.
  destruct (letter_at r); [destruct (compositeb _)|]; cbn; congruence.
Qed.

Lemma SplitMulti_elements x r : form_of x r -> composite x ->
  (2 <= length (fst (SplitMultiElement r)))%nat /\
  (consonant x -> Forall is_compat_jaeum (fst (SplitMultiElement r))) /\
  (vowel x -> Forall is_compat_moeum (fst (SplitMultiElement r))).
Proof.
  intros Hf Hc. rewrite (SplitMulti_form x r Hf). apply compositeb_true in Hc. rewrite Hc.
  cbn [fst]. unfold consonant, vowel, is_compat_jaeum, is_compat_moeum.
  destruct x; try discriminate Hc; cbn;
    (split; [lia|]); split; intros H; try lia; repeat constructor; cbn; lia.
Qed.

Lemma SplitMulti_basic x r : form_of x r -> composite x -> x <> L_WE ->
  SplitMultiElement r = (map compat_form (elements x), true).
Proof.
  intros Hf Hc Hx. rewrite (SplitMulti_form x r Hf). apply compositeb_true in Hc. rewrite Hc.
  destruct x; try reflexivity. congruence.
Qed.

Lemma elements_basic x e : In e (elements x) -> ~ composite e.
Proof.
  intros H. rewrite <- compositeb_true.
  destruct x; cbn in H; repeat (destruct H as [<-|H]; [cbn; congruence|]); destruct H.
Qed.

(** ** Stroke *)
Definition model_strokes (x : letter) : Z :=
  match x with L_WE => 2 | _ => letter_strokes x end.
Definition stroke_at (r : Z) : Z :=
  match letter_at r with Some x => model_strokes x | None => 0 end.

Definition res_is (m : res Z) (n : Z) : bool := match m with Ok k => k =? n | _ => false end.
Lemma res_is_true m n : res_is m n = true -> m = Ok n.
Proof. destruct m; cbn; try discriminate. rewrite Z.eqb_eq. congruence. Qed.

(** The non-syllable branch of Stroke. *)
Definition stroke_leaf (h : list (Z * list Z)) (r : Z) : res Z :=
  let jm := CompatJamo r in
  let '(es, ok) := SplitMultiElement_in h jm in
  if ok then Ok (fold_left (fun c e => c + strokes_at e) es 0) else Ok (strokes_at jm).

Lemma stroke_leaf_value r : stroke_leaf multiElements r = Ok (stroke_at r).
Proof.
  apply res_is_true. revert r. apply jamo_sweep; [vm_compute; reflexivity|].
  intros r Hr. unfold stroke_leaf, stroke_at.
  rewrite out_CompatJamo, letter_at_out by exact Hr. reflexivity.
Qed.

Lemma Stroke_in_leaf h n r : ~ is_syllable r -> Stroke_in h (S n) r = stroke_leaf h r.
Proof.
  intros Hr. unfold is_syllable in Hr. cbn [Stroke_in].
  destruct (_ && _) eqn:E; [lia|]. reflexivity.
Qed.

Lemma Stroke_leaf n r : ~ is_syllable r -> Stroke_in multiElements (S n) r = Ok (stroke_at r).
Proof. intros Hr. rewrite Stroke_in_leaf by exact Hr. apply stroke_leaf_value. Qed.

Lemma jamo_not_syllable r :
  r = 0 \/ is_lead_jamo r \/ is_medial_jamo r \/ is_tail_jamo r -> ~ is_syllable r.
Proof. unfold is_lead_jamo, is_medial_jamo, is_tail_jamo, is_syllable. lia. Qed.

Lemma syllable_int32 c : is_syllable c -> is_int32 c.
Proof. unfold is_syllable, is_int32. lia. Qed.

Lemma Stroke_syllable n c : is_syllable c ->
  let '(l, m, t) := Split c in
  Stroke_in multiElements (S (S n)) c = Ok (stroke_at l + stroke_at m + stroke_at t).
Proof.
  intros Hc. pose proof (proj2 (Split_wf c (syllable_int32 c Hc)) Hc) as Hwf.
  remember (S n) as k eqn:Ek. cbn [Stroke_in]. subst k.
  destruct (Split c) as [[l m] t]. destruct Hwf as (Hl & Hm & Ht).
  unfold is_syllable in Hc. destruct (_ && _) eqn:E; [|lia].
  rewrite !Stroke_leaf by (apply jamo_not_syllable; tauto). reflexivity.
Qed.

Definition stroke_value (r : Z) : Z :=
  if (0xAC00 <=? r) && (r <=? 0xD7A3) then
    let '(l, m, t) := Split r in stroke_at l + stroke_at m + stroke_at t
  else stroke_at r.

Lemma Stroke_value n r : Stroke_in multiElements (S (S n)) r = Ok (stroke_value r).
Proof.
  unfold stroke_value. destruct (_ && _) eqn:E.
  - assert (is_syllable r) as Hr by (unfold is_syllable; lia).
    pose proof (Stroke_syllable n r Hr) as H. destruct (Split r) as [[l m] t]. exact H.
  - apply Stroke_leaf. unfold is_syllable. lia.
Qed.

Lemma stroke_value_leaf r : ~ is_syllable r -> stroke_value r = stroke_at r.
Proof. unfold stroke_value, is_syllable. intros. destruct (_ && _) eqn:E; [lia|reflexivity]. Qed.

Lemma Stroke_any_fuel n r : (2 <= n)%nat -> Stroke_in multiElements n r = Stroke r.
Proof.
  intros Hn. destruct n as [|[|n]]; [lia|lia|].
  unfold Stroke. rewrite !Stroke_value. reflexivity.
Qed.

Lemma Stroke_split c : is_syllable c ->
  let '(l, m, t) := Split c in
  exists a b d, Stroke l = Ok a /\ Stroke m = Ok b /\ Stroke t = Ok d /\ Stroke c = Ok (a + b + d).
Proof.
  intros Hc. pose proof (Stroke_syllable 0 c Hc) as H.
  pose proof (proj2 (Split_wf c (syllable_int32 c Hc)) Hc) as Hwf.
  destruct (Split c) as [[l m] t]. destruct Hwf as (Hl & Hm & Ht).
  exists (stroke_at l), (stroke_at m), (stroke_at t).
  unfold Stroke. rewrite !Stroke_leaf by (apply jamo_not_syllable; tauto). auto.
Qed.

Lemma stroke_at_CompatJamo r : CompatJamo r <> 0 -> stroke_at (CompatJamo r) = stroke_at r.
Proof.
  rewrite CompatJamo_letter. unfold compat_of_letter, stroke_at.
  destruct (letter_at r) as [x|] eqn:E; [|congruence]. intros _.
  rewrite (form_of_letter_at x (compat_form x)) by (left; reflexivity). reflexivity.
Qed.

Lemma stroke_at_same x r r' : form_of x r -> form_of x r' -> stroke_at r = stroke_at r'.
Proof.
  intros H H'. unfold stroke_at. rewrite (form_of_letter_at _ _ H), (form_of_letter_at _ _ H').
  reflexivity.
Qed.

Lemma form_not_syllable x r : form_of x r -> ~ is_syllable r.
Proof.
  intros H. assert (letter_at r <> None) as H' by (rewrite (form_of_letter_at _ _ H); congruence).
  apply letter_at_range in H'. unfold is_syllable. lia.
Qed.

Lemma Stroke_Join l m t l' m' t' :
  as_lead l l' -> as_medial m m' -> (t = 0 /\ t' = 0 \/ as_tail t t') ->
  exists a b d, Stroke l = Ok a /\ Stroke m = Ok b /\ Stroke t = Ok d
                /\ Stroke (Join l m t) = Ok (a + b + d).
Proof.
  intros Hl Hm Ht.
  assert (exists t'', Tail t = t'' /\ stroke_at t = stroke_at t'' /\ ~ is_syllable t) as (t'' & Et & Es & Hn).
  { destruct Ht as [[-> ->]|Ht].
    - exists 0. repeat split. unfold is_syllable; lia.
    - exists t'. rewrite (Tail_as _ _ Ht). destruct Ht as (x & Hx & Hr).
      assert (form_of x t) by (destruct Hr as [->| ->]; [apply tail_form_form; exact Hx|left; reflexivity]).
      repeat split; [|eapply form_not_syllable; eauto].
      eapply stroke_at_same; eauto. apply tail_form_form; exact Hx. }
  pose proof (Lead_as _ _ Hl) as El. pose proof (Medial_as _ _ Hm) as Em.
  pose proof (as_lead_range _ _ Hl) as Rl. pose proof (as_medial_range _ _ Hm) as Rm.
  assert (Lead l <> 0) as Nl by (rewrite El; unfold is_lead_jamo in Rl; lia).
  assert (Medial m <> 0) as Nm by (rewrite Em; unfold is_medial_jamo in Rm; lia).
  pose proof (Join_syllable l m t Nl Nm) as Hs.
  pose proof (Stroke_syllable 0 _ Hs) as HS.
  rewrite (Split_Join_gen l m t Nl Nm), El, Em, Et in HS.
  assert (form_of_l : exists x, form_of x l /\ form_of x l').
  { destruct Hl as (x & Hx & Hr). exists x. split; [|apply lead_form_form; exact Hx].
    destruct Hr as [->| ->]; [apply lead_form_form; exact Hx|left; reflexivity]. }
  assert (form_of_m : exists x, form_of x m /\ form_of x m').
  { destruct Hm as (x & Hx & Hr). exists x. split; [|apply medial_form_form; exact Hx].
    destruct Hr as [->| ->]; [apply medial_form_form; exact Hx|left; reflexivity]. }
  destruct form_of_l as (x & Hxl & Hxl'). destruct form_of_m as (y & Hym & Hym').
  exists (stroke_at l), (stroke_at m), (stroke_at t).
  unfold Stroke.
  rewrite (Stroke_leaf _ l), (Stroke_leaf _ m), (Stroke_leaf _ t)
    by (try assumption; eapply form_not_syllable; eassumption).
  rewrite HS, Es, (stroke_at_same x l l'), (stroke_at_same y m m') by assumption. auto.
Qed.

Lemma Stroke_letter x r : form_of x r -> Stroke r = Ok (model_strokes x).
Proof.
  intros H. unfold Stroke. rewrite Stroke_leaf by (eapply form_not_syllable; exact H).
  unfold stroke_at. rewrite (form_of_letter_at _ _ H). reflexivity.
Qed.

Lemma stroke_at_pos r : 0 <= stroke_at r /\ (0 < stroke_at r <-> exists x, form_of x r).
Proof.
  unfold stroke_at. destruct (letter_at r) as [x|] eqn:E.
  - apply letter_at_form in E.
    assert (0 < model_strokes x) by (destruct x; vm_compute; reflexivity).
    split; [lia|]. split; [intros _; eauto|auto].
  - split; [lia|]. split; [lia|]. intros (x & Hx). apply form_of_letter_at in Hx. congruence.
Qed.

Lemma form_iff_jamo r :
  (exists x, form_of x r) <-> IsJaeum r = true \/ IsMoeum r = true.
Proof.
  split.
  - intros (x & H). rewrite IsJaeum_iff, IsMoeum_iff.
    unfold is_compat_jaeum, is_compat_moeum, is_lead_jamo, is_medial_jamo, is_tail_jamo.
    destruct H as [->|[H|[H|H]]]; destruct x; cbn in *; try discriminate H;
      try (injection H as <-); lia.
  - intros H.
    assert (negb (IsJaeum r || IsMoeum r) ||
            match letter_at r with Some _ => true | None => false end = true) as Hs.
    { clear H. revert r. apply jamo_sweep; [vm_compute; reflexivity|].
      intros r Hr. rewrite out_IsJaeum, out_IsMoeum by exact Hr. reflexivity. }
    destruct (letter_at r) as [x|] eqn:E.
    + exists x. apply letter_at_form; exact E.
    + destruct H as [H|H]; rewrite H in Hs; rewrite ?orb_true_r in Hs; discriminate Hs.
Qed.

Lemma Stroke_pos r :
  exists n, Stroke r = Ok n /\ 0 <= n /\ (0 < n <-> IsHangul r = true).
Proof.
  exists (stroke_value r). split; [apply (Stroke_value 0)|].
  unfold stroke_value, IsHangul. destruct (_ && _) eqn:E.
  - assert (is_syllable r) as Hr by (unfold is_syllable; lia).
    pose proof (proj2 (Split_wf r (syllable_int32 r Hr)) Hr) as Hwf.
    destruct (Split r) as [[l m] t]. destruct Hwf as (Hl & _ & _).
    pose proof (stroke_at_pos l) as [_ Pl]. pose proof (stroke_at_pos m) as [Pm _].
    pose proof (stroke_at_pos t) as [Pt _].
    assert (0 < stroke_at l).
    { apply Pl, form_iff_jamo. left. apply IsJaeum_iff. tauto. }
    split; [lia|]. split; [reflexivity|lia].
  - pose proof (stroke_at_pos r) as [P0 P]. split; [exact P0|].
    rewrite P, form_iff_jamo. destruct (IsJaeum r), (IsMoeum r); tauto.
Qed.

Lemma CompatJamo_zero_iff r :
  CompatJamo r = 0 <-> IsJaeum r = false /\ IsMoeum r = false.
Proof.
  rewrite CompatJamo_letter. unfold compat_of_letter.
  pose proof (form_iff_jamo r) as F.
  destruct (letter_at r) as [x|] eqn:E.
  - apply letter_at_form in E.
    assert (compat_form x <> 0) by (destruct x; discriminate).
    assert (IsJaeum r = true \/ IsMoeum r = true) as H' by (apply F; eauto).
    split; [contradiction|]. intros [? ?]. destruct H'; congruence.
  - split; [intros _|reflexivity].
    assert (~ (IsJaeum r = true \/ IsMoeum r = true)) as H'.
    { rewrite <- F. intros (x & Hx). apply form_of_letter_at in Hx. congruence. }
    destruct (IsJaeum r), (IsMoeum r); tauto.
Qed.

Lemma CompatJamo_idem r : CompatJamo (CompatJamo r) = CompatJamo r.
Proof.
  rewrite (CompatJamo_letter r). unfold compat_of_letter.
  destruct (letter_at r) as [x|]; [|reflexivity].
  apply CompatJamo_form. left. reflexivity.
Qed.

Lemma CompatJamo_class r :
  (IsJaeum r = true -> is_compat_jaeum (CompatJamo r)) /\
  (IsMoeum r = true -> is_compat_moeum (CompatJamo r)).
Proof.
  assert ((negb (IsJaeum r) || ((0x3131 <=? CompatJamo r) && (CompatJamo r <=? 0x314E))) &&
          (negb (IsMoeum r) || ((0x314F <=? CompatJamo r) && (CompatJamo r <=? 0x3163))) = true) as H.
  { revert r. apply jamo_sweep; [vm_compute; reflexivity|].
    intros r Hr. rewrite out_IsJaeum, out_IsMoeum by exact Hr. reflexivity. }
  unfold is_compat_jaeum, is_compat_moeum. lia.
Qed.

(** ** Inverses *)
Lemma lead_jamo_letter r : is_lead_jamo r -> exists x, lead_form x = Some r.
Proof.
  intros H. assert (Lead r <> 0) as N by (rewrite Lead_self by exact H; unfold is_lead_jamo in H; lia).
  apply Lead_nonzero in N as (x & Hx & _). rewrite Lead_self in Hx by exact H. eauto.
Qed.
Lemma medial_jamo_letter r : is_medial_jamo r -> exists x, medial_form x = Some r.
Proof.
  intros H. assert (Medial r <> 0) as N by (rewrite Medial_self by exact H; unfold is_medial_jamo in H; lia).
  apply Medial_nonzero in N as (x & Hx & _). rewrite Medial_self in Hx by exact H. eauto.
Qed.
Lemma tail_jamo_letter r : is_tail_jamo r -> exists x, tail_form x = Some r.
Proof.
  intros H. assert (Tail r <> 0) as N by (rewrite Tail_self by exact H; unfold is_tail_jamo in H; lia).
  apply Tail_nonzero in N as (x & Hx & _). rewrite Tail_self in Hx by exact H. eauto.
Qed.

Lemma Lead_CompatJamo r : is_lead_jamo r -> Lead (CompatJamo r) = r.
Proof.
  intros H. destruct (lead_jamo_letter r H) as (x & Hx).
  rewrite (CompatJamo_form x) by (apply lead_form_form; exact Hx).
  apply Lead_as. exists x. auto.
Qed.
Lemma Medial_CompatJamo r : is_medial_jamo r -> Medial (CompatJamo r) = r.
Proof.
  intros H. destruct (medial_jamo_letter r H) as (x & Hx).
  rewrite (CompatJamo_form x) by (apply medial_form_form; exact Hx).
  apply Medial_as. exists x. auto.
Qed.
Lemma Tail_CompatJamo r : is_tail_jamo r -> Tail (CompatJamo r) = r.
Proof.
  intros H. destruct (tail_jamo_letter r H) as (x & Hx).
  rewrite (CompatJamo_form x) by (apply tail_form_form; exact Hx).
  apply Tail_as. exists x. auto.
Qed.

Lemma CompatJamo_Lead r : Lead r <> 0 -> CompatJamo (Lead r) = CompatJamo r.
Proof.
  intros H. apply Lead_nonzero in H as (x & Hx & Hr).
  rewrite (CompatJamo_form x (Lead r)) by (apply lead_form_form; exact Hx).
  symmetry. apply CompatJamo_form. destruct Hr as [-> | Hr].
  - apply lead_form_form; exact Hx.
  - left; exact Hr.
Qed.
Lemma CompatJamo_Medial r : Medial r <> 0 -> CompatJamo (Medial r) = CompatJamo r.
Proof.
  intros H. apply Medial_nonzero in H as (x & Hx & Hr).
  rewrite (CompatJamo_form x (Medial r)) by (apply medial_form_form; exact Hx).
  symmetry. apply CompatJamo_form. destruct Hr as [-> | Hr].
  - apply medial_form_form; exact Hx.
  - left; exact Hr.
Qed.
Lemma CompatJamo_Tail r : Tail r <> 0 -> CompatJamo (Tail r) = CompatJamo r.
Proof.
  intros H. apply Tail_nonzero in H as (x & Hx & Hr).
  rewrite (CompatJamo_form x (Tail r)) by (apply tail_form_form; exact Hx).
  symmetry. apply CompatJamo_form. destruct Hr as [-> | Hr].
  - apply tail_form_form; exact Hx.
  - left; exact Hr.
Qed.
Lemma CompatJamo_self c : is_compat_jaeum c \/ is_compat_moeum c -> CompatJamo c = c.
Proof.
  unfold is_compat_jaeum, is_compat_moeum, CompatJamo. unfold_consts. intros H.
  destruct (_ && _) eqn:E1; [reflexivity|]. destruct (_ && _) eqn:E2 in |- *; [reflexivity|]. lia.
Qed.

Lemma SplitCompat_Join c : is_syllable c -> let '(l, m, t) := SplitCompat c in Join l m t = c.
Proof.
  intros Hc. pose proof (Join_Split c Hc) as HJ.
  pose proof (proj2 (Split_wf c (syllable_int32 c Hc)) Hc) as Hwf.
  unfold SplitCompat. destruct (Split c) as [[l m] t]. destruct Hwf as (Hl & Hm & Ht).
  rewrite <- HJ at 1.
  assert (Tail (CompatJamo t) = Tail t) as Et.
  { destruct Ht as [->|Ht]; [reflexivity|]. rewrite Tail_CompatJamo, Tail_self; auto. }
  assert (forall a b c a' b' c', Lead a = Lead a' -> Medial b = Medial b' -> Tail c = Tail c' ->
            Join a b c = Join a' b' c') as Hcong.
  { intros a b d a' b' d' E1 E2 E3. unfold Join. rewrite E1, E2, E3. reflexivity. }
  apply Hcong; [| |exact Et].
  - rewrite Lead_CompatJamo, Lead_self; auto.
  - rewrite Medial_CompatJamo, Medial_self; auto.
Qed.

Lemma SplitCompat_value c : is_syllable c ->
  exists xl xm, let '(l, m, t) := Split c in
  lead_form xl = Some l /\ medial_form xm = Some m /\
  ((t = 0 /\ SplitCompat c = (compat_form xl, compat_form xm, 0)) \/
   exists xt, tail_form xt = Some t /\
              SplitCompat c = (compat_form xl, compat_form xm, compat_form xt)).
Proof.
  intros Hc. pose proof (proj2 (Split_wf c (syllable_int32 c Hc)) Hc) as Hwf.
  unfold SplitCompat. destruct (Split c) as [[l m] t]. destruct Hwf as (Hl & Hm & Ht).
  destruct (lead_jamo_letter l Hl) as (xl & Exl). destruct (medial_jamo_letter m Hm) as (xm & Exm).
  exists xl, xm. split; [exact Exl|]. split; [exact Exm|].
  rewrite (CompatJamo_form xl l) by (apply lead_form_form; exact Exl).
  rewrite (CompatJamo_form xm m) by (apply medial_form_form; exact Exm).
  destruct Ht as [->|Ht].
  - left. split; reflexivity.
  - right. destruct (tail_jamo_letter t Ht) as (xt & Ext). exists xt. split; [exact Ext|].
    rewrite (CompatJamo_form xt t) by (apply tail_form_form; exact Ext). reflexivity.
Qed.

(** ** Shared state *)
Definition is_store (o : hangul_op) : bool := match o with OpStore _ _ _ => true | _ => false end.

Definition pure_out (o : hangul_op) : hangul_out :=
  match o with
  | OpSplitMulti r => let '(es, ok) := SplitMultiElement r in OutSplitMulti es ok
  | OpStroke r => OutStroke (Stroke r)
  | OpStore _ _ _ => OutIndexPanic
  end.

Lemma run_no_store os :
  (forall o, In o os -> is_store o = false) -> hangul_run hangul_init os = map pure_out os.
Proof.
  induction os as [|o os IH]; intros H; [reflexivity|].
  cbn [hangul_run map]. pose proof (H o (or_introl eq_refl)) as Ho.
  specialize (IH (fun o' Ho' => H o' (or_intror Ho'))).
  destruct o as [r|r|r i v]; cbn [hangul_step pure_out]; [| |discriminate Ho].
  - unfold SplitMultiElement, hangul_init. destruct (SplitMultiElement_in multiElements r). f_equal. exact IH.
  - f_equal. exact IH.
Qed.
