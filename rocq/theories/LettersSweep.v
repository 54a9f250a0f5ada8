(** Facts about all syllables and letters: proofs for PropLetters.v. *)
From Coq Require Import ZArith List Bool Lia Relations Arith Wf_nat.
From Verif Require Import Base Spec SpecJamo HangulModel HangulFacts HangulFacts2 Facts SpecLetters.
Import ListNotations.
Local Open Scope Z_scope.

Definition cons (r : Z) : bool := (0x3131 <=? r) && (r <=? 0x314E).
Definition vow (r : Z) : bool := (0x314F <=? r) && (r <=? 0x3163).
Definition span (a : Z) (n : nat) : list Z := map (fun i => a + Z.of_nat i) (seq 0 n).
Lemma in_span a n r : a <= r < a + Z.of_nat n -> In r (span a n).
Proof. intros H. unfold span. apply in_map_iff. exists (Z.to_nat (r - a)). split; [lia|]. apply in_seq. lia. Qed.
Fixpoint leqb (a b : list Z) : bool := match a, b with [], [] => true | x :: a, y :: b => (x =? y) && leqb a b | _, _ => false end.
Lemma leqb_eq a b : leqb a b = true -> a = b.
Proof. revert b. induction a as [|x a IH]; intros [|y b] H; try discriminate; [reflexivity|]. apply andb_prop in H. destruct H as [H1 H2]. apply Z.eqb_eq in H1. f_equal; auto. Qed.

Definition lead_ok (l : Z) : bool := negb (Lead l =? 0) && cons l &&
  match keys_of l with [a] => cons a && (a =? l) && negb (Lead a =? 0) | [a; b] => cons a && (a =? b) && negb (Lead a =? 0) | _ => false end.
Definition medial_ok (m : Z) : bool := vow m && match keys_of m with [] => false | _ => true end && forallb vow (keys_of m).
Definition tail_ok (t : Z) : bool := (t =? 0) || (cons t && negb (Tail t =? 0) && forallb cons (keys_of t) && match keys_of t with [] => false | _ => true end).
Lemma lead_sweep : forallb (fun l => lead_ok (CompatJamo l)) (span 0x1100 19) = true.
Proof. vm_compute. reflexivity. Qed.
Lemma medial_sweep : forallb (fun m => medial_ok (CompatJamo m)) (span 0x1161 21) = true.
Proof. vm_compute. reflexivity. Qed.
Lemma tail_sweep : forallb (fun t => tail_ok (CompatJamo t)) (0 :: span 0x11A8 27) = true.
Proof. vm_compute. reflexivity. Qed.
Lemma back_sweep : forallb (fun l => (negb (lead_ok l) || (CompatJamo (Lead l) =? l)) && (negb (tail_ok l) || (CompatJamo (Tail l) =? l))) (0 :: span 0x3131 30) = true.
Proof. vm_compute. reflexivity. Qed.
Lemma back_medial : forallb (fun m => negb (Medial m =? 0) && (CompatJamo (Medial m) =? m)) (span 0x314F 21) = true.
Proof. vm_compute. reflexivity. Qed.
Lemma keys_sweep : forallb (fun r => forallb (fun r' => negb (leqb (keys_of r) (keys_of r')) || (r =? r')) (span 0x3131 51)) (span 0x3131 51) = true.
Proof. vm_compute. reflexivity. Qed.

Lemma cons_iff r : cons r = true <-> is_compat_jaeum r.
Proof. unfold cons, is_compat_jaeum. rewrite andb_true_iff, !Z.leb_le. tauto. Qed.
Lemma vow_iff r : vow r = true <-> is_compat_moeum r.
Proof. unfold vow, is_compat_moeum. rewrite andb_true_iff, !Z.leb_le. tauto. Qed.
Lemma cons_vow r : cons r = true -> vow r = false.
Proof. unfold cons, vow. rewrite andb_true_iff, !Z.leb_le. intros H. apply andb_false_iff. left. apply Z.leb_gt. lia. Qed.
Lemma syl c : is_syllable c -> exists l m t, SplitCompat c = (l, m, t) /\ lead_ok l = true /\ medial_ok m = true /\ tail_ok t = true /\ Join l m t = c.
Proof.
  intros H. pose proof (SplitCompat_Join c H) as HJ. pose proof (proj2 (Split_wf c (syllable_int32 c H)) H) as Hwf.
  unfold SplitCompat in *. destruct (Split c) as [[l m] t]. destruct Hwf as (Hl & Hm & Ht). do 3 eexists. split; [reflexivity|].
  unfold is_lead_jamo, is_medial_jamo, is_tail_jamo in *.
  split; [exact (proj1 (forallb_forall _ _) lead_sweep l (in_span 0x1100 19 l ltac:(lia)))|].
  split; [exact (proj1 (forallb_forall _ _) medial_sweep m (in_span 0x1161 21 m ltac:(lia)))|].
  split; [|exact HJ]. apply (proj1 (forallb_forall _ _) tail_sweep t). destruct Ht as [->|Ht]; [now left|right; apply in_span; lia].
Qed.
Lemma lead_ok_cons l : lead_ok l = true -> cons l = true.
Proof. unfold lead_ok. rewrite !andb_true_iff. tauto. Qed.
Lemma medial_ok_vow l : medial_ok l = true -> vow l = true.
Proof. unfold medial_ok. rewrite !andb_true_iff. tauto. Qed.
Lemma join_syl l m t : lead_ok l = true -> medial_ok m = true -> tail_ok t = true -> is_syllable (Join l m t) /\ SplitCompat (Join l m t) = (l, m, t).
Proof.
  intros Hl Hm Ht. pose proof (proj1 (cons_iff l) (lead_ok_cons _ Hl)) as Hl'. pose proof (proj1 (vow_iff m) (medial_ok_vow _ Hm)) as Hm'.
  unfold is_compat_jaeum, is_compat_moeum in *.
  assert (Hin : In t (0 :: span 0x3131 30)).
  { unfold tail_ok in Ht. rewrite orb_true_iff, !andb_true_iff, Z.eqb_eq in Ht. destruct Ht as [->|Ht]; [left; reflexivity|right].
    apply in_span. destruct Ht as (((Ht & _) & _) & _). apply cons_iff in Ht. unfold is_compat_jaeum in Ht. lia. }
  pose proof (proj1 (forallb_forall _ _) back_sweep l (or_intror (in_span 0x3131 30 l ltac:(lia)))) as H1. cbv beta in H1.
  pose proof (proj1 (forallb_forall _ _) back_medial m (in_span 0x314F 21 m ltac:(lia))) as H2. cbv beta in H2.
  pose proof (proj1 (forallb_forall _ _) back_sweep t Hin) as H3. cbv beta in H3.
  rewrite Hl in H1. rewrite Ht in H3. cbn [negb orb] in H1, H3. rewrite !andb_true_iff, ?negb_true_iff, ?Z.eqb_eq, ?Z.eqb_neq in H1, H2, H3.
  rewrite negb_true_iff, Z.eqb_neq in H2.
  assert (HL : Lead l <> 0). { unfold lead_ok in Hl. rewrite !andb_true_iff, negb_true_iff, Z.eqb_neq in Hl. tauto. }
  split; [apply Join_syllable; [exact HL|apply H2]|]. unfold SplitCompat. rewrite Split_Join_gen by (exact HL || apply H2).
  f_equal; [f_equal|]; [apply H1|apply H2|apply H3].
Qed.
Lemma keys_inj r r' : 0x3131 <= r <= 0x3163 -> 0x3131 <= r' <= 0x3163 -> keys_of r = keys_of r' -> r = r'.
Proof.
  intros H H' He. pose proof (proj1 (forallb_forall _ _) keys_sweep r (in_span 0x3131 51 r ltac:(lia))) as H1. cbv beta in H1.
  pose proof (proj1 (forallb_forall _ _) H1 r' (in_span 0x3131 51 r' ltac:(lia))) as H2. cbv beta in H2. rewrite He in H2.
  assert (leqb (keys_of r') (keys_of r') = true) as E. { generalize (keys_of r'). induction l; cbn; [reflexivity|]. now rewrite Z.eqb_refl. }
  rewrite E in H2. now apply Z.eqb_eq in H2.
Qed.
Lemma jaeum_cons r : cons r = true -> IsJaeum r = true /\ IsMoeum r = false.
Proof.
  intros H. apply cons_iff in H. split; [apply IsJaeum_iff; auto|]. destruct (IsMoeum r) eqn:E; [|reflexivity]. apply IsMoeum_iff in E.
  unfold is_compat_jaeum, is_compat_moeum, is_medial_jamo in *. lia.
Qed.
Lemma moeum_vow r : vow r = true -> IsMoeum r = true.
Proof. intros H. apply vow_iff in H. apply IsMoeum_iff. auto. Qed.
Lemma other_not r : ~ is_jamo r -> IsJaeum r = false /\ IsMoeum r = false.
Proof.
  intros H. unfold is_jamo in H. split.
  - destruct (IsJaeum r) eqn:E; [|reflexivity]. apply IsJaeum_iff in E. tauto.
  - destruct (IsMoeum r) eqn:E; [|reflexivity]. apply IsMoeum_iff in E. tauto.
Qed.

Lemma half_sweep : forallb (fun l => if lead_ok l then match keys_of l with [x; _] => lead_ok x && leqb (keys_of x) [x] | _ => true end else true) (span 0x3131 30) = true.
Proof. vm_compute. reflexivity. Qed.
