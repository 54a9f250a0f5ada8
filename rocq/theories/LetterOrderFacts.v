(** Lemmas for PropLetterOrder.v. *)
From Coq Require Import ZArith List Bool Lia ZifyBool.
From Verif Require Import Base Spec SpecText Facts SpecJamo HangulModel HangulFacts HangulFacts2 SpecLetters Cp949Facts3 LookupFacts.
Import ListNotations.
Local Open Scope Z_scope.
Local Open Scope list_scope.

(** A function that rises from each of [n] numbers to the next keeps their order. *)
Lemma rising (f : Z -> Z) lo n : forallb (fun k => f k <? f (k + 1)) (zseq lo n) = true ->
  forall a b, lo <= a <= lo + Z.of_nat n -> lo <= b <= lo + Z.of_nat n -> (a < b <-> f a < f b).
Proof.
  intros H. rewrite forallb_forall in H.
  assert (Hs : forall k, lo <= k < lo + Z.of_nat n -> f k < f (k + 1)).
  { intros k Hk. apply Z.ltb_lt. apply (H k). apply in_zseq. exact Hk. }
  assert (Hd : forall d a, 0 < Z.of_nat d -> lo <= a -> a + Z.of_nat d <= lo + Z.of_nat n -> f a < f (a + Z.of_nat d)).
  { induction d as [|d IH]; intros a Hd Ha Hb; [lia|]. destruct d as [|d].
    - apply Hs. lia.
    - specialize (IH a ltac:(lia) Ha ltac:(lia)). specialize (Hs (a + Z.of_nat (S d)) ltac:(lia)).
      replace (a + Z.of_nat (S (S d))) with (a + Z.of_nat (S d) + 1) by lia. lia. }
  assert (Hlt : forall a b, lo <= a -> a < b -> b <= lo + Z.of_nat n -> f a < f b).
  { intros a b Ha Hab Hb. specialize (Hd (Z.to_nat (b - a)) a). rewrite Z2Nat.id in Hd by lia. replace (a + (b - a)) with b in Hd by lia. apply Hd; lia. }
  intros a b Ha Hb. split; [intros Hab; apply Hlt; lia|]. intros Hf. destruct (Z.lt_trichotomy a b) as [E|[->|E]]; [exact E|lia|].
  specialize (Hlt b a). lia.
Qed.
Lemma compat_rising :
  (forall a b, is_lead_jamo a -> is_lead_jamo b -> (a < b <-> CompatJamo a < CompatJamo b)) /\
  (forall a b, is_medial_jamo a -> is_medial_jamo b -> (a < b <-> CompatJamo a < CompatJamo b)) /\
  (forall a b, is_tail_jamo a -> is_tail_jamo b -> (a < b <-> CompatJamo a < CompatJamo b)).
Proof.
  assert (H1 := rising CompatJamo 0x1100 18 ltac:(vm_compute; reflexivity)).
  assert (H2 := rising CompatJamo 0x1161 20 ltac:(vm_compute; reflexivity)).
  assert (H3 := rising CompatJamo 0x11A8 26 ltac:(vm_compute; reflexivity)).
  unfold is_lead_jamo, is_medial_jamo, is_tail_jamo.
  split; [intros a b Ha Hb; apply H1; lia|]. split; [intros a b Ha Hb; apply H2; lia|]. intros a b Ha Hb; apply H3; lia.
Qed.

Definition parts3 (c : Z) : list Z := let '(l, m, t) := SplitCompat c in [l; m; t].

Lemma split_facts c : is_syllable c -> exists l m t, Split c = (l, m, t) /\ is_lead_jamo l /\ is_medial_jamo m /\ (t = 0 \/ is_tail_jamo t) /\
  c = 0xAC00 + (l - 0x1100) * 588 + (m - 0x1161) * 28 + (if t =? 0 then 0 else t - 0x11A7) /\
  SplitCompat c = (CompatJamo l, CompatJamo m, CompatJamo t).
Proof.
  intros Hc. unfold SplitCompat. rewrite (Split_syllable c Hc). unfold is_syllable, is_lead_jamo, is_medial_jamo, is_tail_jamo in *.
  do 3 eexists. split; [reflexivity|]. repeat split; try (Z.div_mod_to_equations; lia);
  destruct (Z.eqb_spec ((c - 0xAC00) mod 28) 0) as [E|E].
  - left. reflexivity.
  - right. Z.div_mod_to_equations. lia.
  - cbn [Z.eqb]. Z.div_mod_to_equations. lia.
  - destruct (Z.eqb_spec ((c - 0xAC00) mod 28 + 0x11A7) 0); Z.div_mod_to_equations; lia.
Qed.
Lemma CompatJamo_0 : CompatJamo 0 = 0. Proof. vm_compute. reflexivity. Qed.
Lemma CompatJamo_tail_pos t : is_tail_jamo t -> 0 < CompatJamo t.
Proof.
  intros H. assert (E : forallb (fun k => 0 <? CompatJamo k) (zseq 0x11A8 27) = true) by (vm_compute; reflexivity).
  rewrite forallb_forall in E. apply Z.ltb_lt. apply (E t). apply in_zseq. unfold is_tail_jamo in H. lia.
Qed.
Lemma tails_rising t t' : (t = 0 \/ is_tail_jamo t) -> (t' = 0 \/ is_tail_jamo t') -> t < t' -> CompatJamo t < CompatJamo t'.
Proof.
  destruct compat_rising as (_ & _ & H3). intros [->|H] [->|H'] Hl; rewrite ?CompatJamo_0; [lia| |unfold is_tail_jamo in H; lia|].
  - apply CompatJamo_tail_pos. exact H'.
  - apply (H3 t t' H H'). exact Hl.
Qed.
Lemma letters_app a b : letters (a ++ b) = letters a ++ letters b.
Proof. unfold letters. apply flat_map_app. Qed.
Lemma letters_syllable c l m t : is_syllable c -> SplitCompat c = (CompatJamo l, CompatJamo m, CompatJamo t) -> is_lead_jamo l -> is_medial_jamo m -> (t = 0 \/ is_tail_jamo t) ->
  letters_of c = CompatJamo l :: CompatJamo m :: (if t =? 0 then [] else [CompatJamo t]).
Proof.
  intros Hc E Hl Hm Ht. unfold letters_of. assert ((0xAC00 <=? c) && (c <=? 0xD7A3) = true) as -> by (unfold is_syllable in Hc; lia).
  rewrite E. unfold present. cbn [filter].
  assert (Pl : 0 < CompatJamo l).
  { assert (F : forallb (fun k => 0 <? CompatJamo k) (zseq 0x1100 19) = true) by (vm_compute; reflexivity).
    rewrite forallb_forall in F. apply Z.ltb_lt. apply (F l). apply in_zseq. unfold is_lead_jamo in Hl. lia. }
  assert (Pm : 0 < CompatJamo m).
  { assert (F : forallb (fun k => 0 <? CompatJamo k) (zseq 0x1161 21) = true) by (vm_compute; reflexivity).
    rewrite forallb_forall in F. apply Z.ltb_lt. apply (F m). apply in_zseq. unfold is_medial_jamo in Hm. lia. }
  destruct (Z.eqb_spec (CompatJamo l) 0); [lia|]. destruct (Z.eqb_spec (CompatJamo m) 0); [lia|]. cbn [negb].
  destruct Ht as [->|Ht]; [rewrite CompatJamo_0; reflexivity|].
  pose proof (CompatJamo_tail_pos t Ht). destruct (Z.eqb_spec (CompatJamo t) 0); [lia|]. destruct (Z.eqb_spec t 0); [unfold is_tail_jamo in Ht; lia|reflexivity].
Qed.
(** The first syllables that differ. *)
Lemma letters_differ p x y a b : is_syllable x -> is_syllable y -> x < y ->
  (fst (Split x) <> fst (Split y) \/ snd (Split x) <> 0 -> lex_lt (letters (p ++ x :: a)) (letters (p ++ y :: b))) /\
  (fst (Split x) = fst (Split y) -> snd (Split x) = 0 ->
     (lex_lt (letters (p ++ x :: a)) (letters (p ++ y :: b)) <-> lex_lt (letters a) (CompatJamo (snd (Split y)) :: letters b))).
Proof.
  intros Hx Hy Hlt.
  destruct (split_facts x Hx) as (l & m & t & Ex & Hl & Hm & Ht & Vx & Cx). destruct (split_facts y Hy) as (l' & m' & t' & Ey & Hl' & Hm' & Ht' & Vy & Cy).
  rewrite Ex, Ey. cbn [fst snd]. rewrite !letters_app, lex_app.
  change (letters (x :: a)) with (letters_of x ++ letters a). change (letters (y :: b)) with (letters_of y ++ letters b).
  rewrite (letters_syllable x l m t Hx Cx Hl Hm Ht), (letters_syllable y l' m' t' Hy Cy Hl' Hm' Ht'). cbn [app].
  destruct compat_rising as (R1 & R2 & _).
  assert (Hcase : l < l' \/ l = l' /\ (m < m' \/ m = m' /\ t < t')).
  { clear - Vx Vy Hlt Hl Hl' Hm Hm' Ht Ht'. unfold is_lead_jamo, is_medial_jamo, is_tail_jamo in *.
    destruct (Z.eqb_spec t 0), (Z.eqb_spec t' 0); lia. }
  destruct Hcase as [Hc|[-> [Hc|[-> Hc]]]].
  - split; [intros _|intros E; injection E; lia]. apply lex_less. apply (R1 l l' Hl Hl'). exact Hc.
  - split; [intros _|intros E; injection E; lia]. apply lex_tail, lex_less. apply (R2 m m' Hm Hm'). exact Hc.
  - rewrite !lex_same. split.
    + intros [Hn|Hn]; [congruence|]. destruct (Z.eqb_spec t 0); [contradiction|].
      destruct (Z.eqb_spec t' 0); [unfold is_tail_jamo in Ht; lia|]. cbn [app]. apply lex_less. apply tails_rising; assumption.
    + intros _ ->. cbn [Z.eqb app]. destruct (Z.eqb_spec t' 0); [lia|]. reflexivity.
Qed.
Lemma letters_refuted : exists a b, Forall is_syllable a /\ Forall is_syllable b /\ lex_lt a b /\ lex_lt (letters b) (letters a).
Proof.
  exists [0xAC00; 0xB098], [0xAC04]. assert (forall c, 0xAC00 <= c <= 0xD7A3 -> is_syllable c) as Hs by (unfold is_syllable; lia).
  split; [constructor; [apply Hs; lia|constructor; [apply Hs; lia|constructor]]|]. split; [constructor; [apply Hs; lia|constructor]|].
  split; [apply lex_less; lia|].
  assert (letters [0xAC00; 0xB098] = [0x3131; 0x314F; 0x3134; 0x314F]) as -> by (vm_compute; reflexivity).
  assert (letters [0xAC04] = [0x3131; 0x314F; 0x3134]) as -> by (vm_compute; reflexivity).
  do 3 apply lex_tail. constructor.
Qed.
(** With all three parts of each syllable the order is kept. *)
Lemma parts3_less x y s t : is_syllable x -> is_syllable y -> x < y -> lex_lt (parts3 x ++ s) (parts3 y ++ t).
Proof.
  intros Hx Hy Hlt. unfold parts3.
  destruct (split_facts x Hx) as (l & m & u & Ex & Hl & Hm & Ht & Vx & Cx). destruct (split_facts y Hy) as (l' & m' & u' & Ey & Hl' & Hm' & Ht' & Vy & Cy).
  rewrite Cx, Cy. cbn [app]. destruct compat_rising as (R1 & R2 & _).
  assert (Hcase : l < l' \/ l = l' /\ (m < m' \/ m = m' /\ u < u')).
  { clear - Vx Vy Hlt Hl Hl' Hm Hm' Ht Ht'. unfold is_lead_jamo, is_medial_jamo, is_tail_jamo in *.
    destruct (Z.eqb_spec u 0), (Z.eqb_spec u' 0); lia. }
  destruct Hcase as [Hc|[-> [Hc|[-> Hc]]]].
  - apply lex_less. apply (R1 l l' Hl Hl'). exact Hc.
  - apply lex_tail, lex_less. apply (R2 m m' Hm Hm'). exact Hc.
  - do 2 apply lex_tail. apply lex_less. apply tails_rising; assumption.
Qed.
Lemma parts3_fw a b : lex_lt a b -> Forall is_syllable a -> Forall is_syllable b -> lex_lt (flat_map parts3 a) (flat_map parts3 b).
Proof.
  induction 1 as [y t|x y s t Hxy|x s t H IH]; intros Ha Hb.
  - cbn [flat_map]. unfold parts3. destruct (SplitCompat y) as [[l m] u]. constructor.
  - cbn [flat_map]. apply parts3_less; [exact (Forall_inv Ha)|exact (Forall_inv Hb)|exact Hxy].
  - cbn [flat_map]. rewrite lex_app. apply IH; [exact (Forall_inv_tail Ha)|exact (Forall_inv_tail Hb)].
Qed.
Lemma parts3_order a b : Forall is_syllable a -> Forall is_syllable b -> (lex_lt a b <-> lex_lt (flat_map parts3 a) (flat_map parts3 b)).
Proof.
  intros Ha Hb. split; [intros H; apply parts3_fw; assumption|]. intros H.
  destruct (lex_trichotomy a b) as [L|[->|L]]; [exact L|destruct (lex_irrefl _ H)|].
  destruct (lex_asym _ _ H). apply parts3_fw; assumption.
Qed.
