(** Which runes SplitCompat takes for syllables. *)
From Coq Require Import ZArith List Bool Lia.
From Coq Require Import ZifyBool.
From Verif Require Import Base Spec HangulModel HangulFacts HangulFacts2 HangulFacts3.
Import ListNotations.
Local Open Scope Z_scope.

Lemma compat_jaeum_iff r : is_compat_jaeum (CompatJamo r) <-> is_compat_jaeum r \/ is_lead_jamo r \/ is_tail_jamo r.
Proof.
  rewrite <- IsJaeum_iff. destruct (CompatJamo_class r) as [Hj Hm].
  destruct (IsJaeum r) eqn:E; [split; auto|]. split; [|discriminate].
  intros H. exfalso. destruct (IsMoeum r) eqn:Em.
  - specialize (Hm eq_refl). unfold is_compat_jaeum, is_compat_moeum in *. lia.
  - assert (CompatJamo r = 0) as E0 by (apply CompatJamo_zero_iff; auto).
    rewrite E0 in H. unfold is_compat_jaeum in H. lia.
Qed.
Lemma compat_moeum_iff r : is_compat_moeum (CompatJamo r) <-> is_compat_moeum r \/ is_medial_jamo r.
Proof.
  rewrite <- IsMoeum_iff. destruct (CompatJamo_class r) as [Hj Hm].
  destruct (IsMoeum r) eqn:E; [split; auto|]. split; [|discriminate].
  intros H. exfalso. destruct (IsJaeum r) eqn:Em.
  - specialize (Hj eq_refl). unfold is_compat_jaeum, is_compat_moeum in *. lia.
  - assert (CompatJamo r = 0) as E0 by (apply CompatJamo_zero_iff; auto).
    rewrite E0 in H. unfold is_compat_moeum in H. lia.
Qed.

Definition splits_like_syllable (c : Z) : Prop :=
  let '(l, m, t) := SplitCompat c in
  is_compat_jaeum l /\ is_compat_moeum m /\ (t = 0 \/ is_compat_jaeum t).

Lemma compat_tail_or t : is_tail_jamo t \/ t = 0 \/ (0x1176 <= t < 0x11A8) ->
  CompatJamo t = 0 \/ is_compat_jaeum (CompatJamo t).
Proof.
  intros [H|H].
  - right. apply compat_jaeum_iff. auto.
  - left. apply CompatJamo_zero_iff.
    pose proof (IsJaeum_iff t) as Hj. pose proof (IsMoeum_iff t) as Hm.
    unfold is_compat_jaeum, is_lead_jamo, is_tail_jamo, is_compat_moeum, is_medial_jamo in *.
    destruct (IsJaeum t), (IsMoeum t); split; try reflexivity; exfalso; lia.
Qed.

Lemma C70_lemma c : is_int32 c ->
  (splits_like_syllable c <->
   is_syllable c \/ 0xABE5 <= c <= 0xABFF \/
   0xAC00 + 588 * (0x11A8 - 0x1100) <= c < 0xAC00 + 588 * (0x11C3 - 0x1100) \/
   0xAC00 + 588 * (0x3131 - 0x1100) <= c < 0xAC00 + 588 * (0x314F - 0x1100)).
Proof.
  intros Hc. unfold splits_like_syllable, SplitCompat.
  destruct (Split_spec c Hc) as (d & Hd & ->). unfold is_int32 in Hc.
  rewrite compat_jaeum_iff, compat_moeum_iff.
  assert (CompatJamo (if Z.rem d 28 =? 0 then 0 else Z.rem d 28 + 0x11A7) = 0 \/
          is_compat_jaeum (CompatJamo (if Z.rem d 28 =? 0 then 0 else Z.rem d 28 + 0x11A7))) as Ht.
  { apply compat_tail_or. unfold is_tail_jamo. destruct (Z.eqb_spec (Z.rem d 28) 0); split_arith. }
  unfold is_syllable, is_compat_jaeum at 1, is_lead_jamo, is_tail_jamo, is_compat_moeum, is_medial_jamo.
  split.
  - intros (H1 & H2 & _). clear Ht. split_arith.
  - intros H. split; [|split; [|exact Ht]]; clear Ht; split_arith.
Qed.

(** The runes just below the syllable block all split like the first syllable. *)
Lemma C70_refuted_lemma : exists c, is_scalar c /\ ~ is_syllable c /\ SplitCompat c = SplitCompat 0xAC00.
Proof.
  exists 0xABFF. split; [unfold is_scalar; lia|]. split; [unfold is_syllable; lia|]. reflexivity.
Qed.
Lemma SplitCompat_injective c c' : is_syllable c -> is_syllable c' -> SplitCompat c = SplitCompat c' -> c = c'.
Proof.
  intros H H' E. pose proof (SplitCompat_Join c H) as J. pose proof (SplitCompat_Join c' H') as J'.
  rewrite E in J. destruct (SplitCompat c') as [[l m] t]. congruence.
Qed.

(* a tail that is not usable contributes nothing *)
Lemma Stroke_dropped l m t l' m' : as_lead l l' -> as_medial m m' -> (forall f, ~ as_tail t f) ->
  exists a b, Stroke l = Ok a /\ Stroke m = Ok b /\ Stroke (Join l m t) = Ok (a + b).
Proof.
  intros Hl Hm Ht. destruct (C06_lemma l m t) as (_ & _ & _ & Hd & _). rewrite (Hd Ht).
  destruct (Stroke_Join l m 0 l' m' 0 Hl Hm (or_introl (conj eq_refl eq_refl))) as (a & b & d & Ha & Hb & H0 & H).
  exists a, b. repeat split; try assumption. replace (a + b) with (a + b + d); [exact H|].
  vm_compute in H0. injection H0 as <-. apply Z.add_0_r.
Qed.
