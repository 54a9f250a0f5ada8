(** Texts taken apart and put together: proofs for PropLetters.v. *)
From Coq Require Import ZArith List Bool Lia Relations Arith Wf_nat.
From Verif Require Import Base Spec SpecJamo HangulModel HangulFacts Facts SpecLetters LettersSweep.
Import ListNotations.
Local Open Scope Z_scope.

(** ** Letters *)
Definition tail_letters (t : Z) : list Z := if t =? 0 then [] else [t].
Lemma letters_syl c l m t rest : is_syllable c -> SplitCompat c = (l, m, t) -> lead_ok l = true -> medial_ok m = true -> tail_ok t = true ->
  letters (c :: rest) = l :: m :: tail_letters t ++ letters rest.
Proof.
  intros H Hs Hl Hm Ht. unfold letters. cbn [flat_map]. unfold letters_of at 1.
  replace ((0xAC00 <=? c) && (c <=? 0xD7A3)) with true by (symmetry; apply andb_true_iff; rewrite !Z.leb_le; exact H).
  rewrite Hs. unfold present. cbn [filter].
  apply lead_ok_cons in Hl. apply medial_ok_vow in Hm. apply cons_iff in Hl. apply vow_iff in Hm. unfold is_compat_jaeum, is_compat_moeum in *.
  replace (l =? 0) with false by (symmetry; apply Z.eqb_neq; lia). replace (m =? 0) with false by (symmetry; apply Z.eqb_neq; lia).
  cbn [negb]. unfold tail_letters. now destruct (t =? 0).
Qed.
Lemma letters_other r rest : ~ is_jamo r -> ~ is_syllable r -> letters (r :: rest) = r :: letters rest.
Proof.
  intros _ H. unfold letters. cbn [flat_map]. unfold letters_of at 1.
  replace ((0xAC00 <=? r) && (r <=? 0xD7A3)) with false; [reflexivity|]. symmetry. apply andb_false_iff. rewrite !Z.leb_gt. unfold is_syllable in H. lia.
Qed.
Lemma plain_cases r : is_syllable r \/ ~ is_jamo r -> is_syllable r \/ (~ is_syllable r /\ ~ is_jamo r).
Proof. intros [H|H]; [now left|]. destruct (Z_le_dec 0xAC00 r), (Z_le_dec r 0xD7A3); unfold is_syllable; (left; lia) || (right; split; [lia|exact H]). Qed.
(* the letters of a text do not begin with a vowel; if they begin with a consonant, a vowel comes next *)
Lemma letters_head rs : plain rs -> vowel_next (letters rs) = false /\
  match letters rs with r :: rest => IsJaeum r = true -> vowel_next rest = true | [] => True end.
Proof.
  intros [|r rest Hr Hp]; [cbn; auto|]. apply plain_cases in Hr. destruct Hr as [Hr|[Hr Hj]].
  - destruct (syl r Hr) as (l & m & t & Hs & Hl & Hm & Ht & _). rewrite (letters_syl _ _ _ _ _ Hr Hs Hl Hm Ht). cbn [vowel_next].
    split; [apply jaeum_cons, lead_ok_cons, Hl|]. intros _. now apply moeum_vow, medial_ok_vow.
  - rewrite letters_other by assumption. cbn [vowel_next]. destruct (other_not _ Hj) as [H1 H2]. split; [exact H2|congruence].
Qed.
Theorem compose_letters rs : plain rs -> compose (letters rs) = rs.
Proof.
  intros H. induction H as [|r rest Hr Hp IH]; [reflexivity|]. pose proof (letters_head rest Hp) as [Hv Hn].
  apply plain_cases in Hr. destruct Hr as [Hr|[Hr Hj]].
  - destruct (syl r Hr) as (l & m & t & Hs & Hl & Hm & Ht & HJ). rewrite (letters_syl _ _ _ _ _ Hr Hs Hl Hm Ht).
    pose proof (jaeum_cons _ (lead_ok_cons _ Hl)) as [H1 _]. pose proof (moeum_vow _ (medial_ok_vow _ Hm)) as H2.
    unfold tail_letters. destruct (Z.eqb_spec t 0) as [->|Hne].
    + cbn [app compose]. rewrite H1, H2. cbn [andb]. rewrite HJ. destruct (letters rest) as [|x more] eqn:E.
      * cbn in IH. now rewrite <- IH.
      * replace (IsJaeum x && negb (vowel_next more)) with false; [now rewrite IH|]. destruct (IsJaeum x); [|reflexivity]. now rewrite Hn.
    + cbn [app compose]. rewrite H1, H2. cbn [andb].
      assert (Hc : cons t = true). { unfold tail_ok in Ht. rewrite orb_true_iff, Z.eqb_eq, !andb_true_iff in Ht. tauto. }
      apply jaeum_cons in Hc. destruct Hc as [H3 _]. rewrite H3, Hv. cbn [andb negb]. now rewrite HJ, IH.
  - rewrite letters_other by assumption. destruct (other_not _ Hj) as [H1 H2]. destruct (letters rest) as [|x more] eqn:E.
    + cbn in IH. cbn. now rewrite <- IH.
    + transitivity (r :: compose (x :: more)); [|now rewrite IH]. cbn [compose]. rewrite H1. reflexivity.
Qed.
Theorem letters_unique a b : plain a -> plain b -> letters a = letters b -> a = b.
Proof. intros Ha Hb H. rewrite <- (compose_letters a Ha), <- (compose_letters b Hb). now rewrite H. Qed.

(** ** Keys *)
Lemma keys_other r : ~ is_jamo r -> keys_of r = [r].
Proof.
  intros H. unfold keys_of, SplitMultiElement, SplitMultiElement_in.
  assert (Hn : forall x, ~ form_of x r).
  { intros x Hx. apply H. unfold is_jamo. destruct Hx as [->|[Hx|[Hx|Hx]]].
    - assert (0x3131 <= compat_form x <= 0x3163) by (destruct x; vm_compute; split; discriminate). unfold is_compat_jaeum, is_compat_moeum. lia.
    - left. now apply lead_form_range in Hx.
    - right. left. now apply medial_form_range in Hx.
    - right. right. left. now apply tail_form_range in Hx. }
  rewrite (CompatJamo_none _ Hn). reflexivity.
Qed.
Lemma keys_app a b : keys (a ++ b) = keys a ++ keys b.
Proof. unfold keys, letters. now rewrite !flat_map_app. Qed.
Lemma keys_syl c l m t rest : is_syllable c -> SplitCompat c = (l, m, t) -> lead_ok l = true -> medial_ok m = true -> tail_ok t = true ->
  keys (c :: rest) = keys_of l ++ keys_of m ++ tail_keys t ++ keys rest.
Proof.
  intros H Hs Hl Hm Ht. unfold keys. rewrite (letters_syl _ _ _ _ _ H Hs Hl Hm Ht). cbn [flat_map]. rewrite flat_map_app. do 2 f_equal.
  unfold tail_letters, tail_keys. destruct (t =? 0); cbn [flat_map]; now rewrite ?app_nil_r.
Qed.
Lemma keys_char r rest : ~ is_jamo r -> ~ is_syllable r -> keys (r :: rest) = r :: keys rest.
Proof. intros H H'. unfold keys. rewrite letters_other by assumption. cbn [flat_map]. now rewrite keys_other. Qed.

Definition vnext (l : list Z) : bool := match l with r :: _ => vow r | [] => false end.
(* a lead as typed *)
Inductive led : list Z -> Prop := led1 a : cons a = true -> led [a] | led2 a : cons a = true -> led [a; a].
Lemma lead_led l : lead_ok l = true -> led (keys_of l).
Proof.
  unfold lead_ok. rewrite !andb_true_iff. intros [_ H]. destruct (keys_of l) as [|a [|b [|]]]; try discriminate; rewrite !andb_true_iff, ?Z.eqb_eq in H.
  - constructor. tauto.
  - destruct H as [[H ->] _]. now constructor.
Qed.
Lemma medial_keys m : medial_ok m = true -> forallb vow (keys_of m) = true /\ vnext (keys_of m) = true.
Proof.
  unfold medial_ok. rewrite !andb_true_iff. intros [[_ H] H']. split; [exact H'|]. destruct (keys_of m); [discriminate|]. cbn in *. now apply andb_prop in H'.
Qed.
Lemma tail_cons t : tail_ok t = true -> forallb cons (tail_keys t) = true.
Proof. unfold tail_ok, tail_keys. destruct (t =? 0); [reflexivity|]. cbn [orb]. rewrite !andb_true_iff. tauto. Qed.
Lemma other_cv r : ~ is_jamo r -> cons r = false /\ vow r = false.
Proof.
  intros H. unfold is_jamo in H. split.
  - destruct (cons r) eqn:E; [|reflexivity]. apply cons_iff in E. tauto.
  - destruct (vow r) eqn:E; [|reflexivity]. apply vow_iff in E. tauto.
Qed.
Lemma vnext_app a b : vnext a = true -> vnext (a ++ b) = true.
Proof. now destruct a. Qed.

(** The keys of a text: nothing; a character that is no letter; or a lead, vowels, and the rest. *)
Inductive shape : list Z -> list Z -> Prop :=
| shape_nil : shape [] []
| shape_char r rest : ~ is_jamo r -> ~ is_syllable r -> plain rest -> shape (r :: rest) (r :: keys rest)
| shape_syl c rest l m t : is_syllable c -> plain rest -> SplitCompat c = (l, m, t) -> lead_ok l = true -> medial_ok m = true -> tail_ok t = true ->
    Join l m t = c -> shape (c :: rest) (keys_of l ++ keys_of m ++ tail_keys t ++ keys rest).
Lemma shape_of rs : plain rs -> shape rs (keys rs).
Proof.
  intros [|r rest Hr Hp]; [constructor|]. apply plain_cases in Hr. destruct Hr as [Hr|[Hr Hj]].
  - destruct (syl r Hr) as (l & m & t & Hs & Hl & Hm & Ht & HJ). rewrite (keys_syl _ _ _ _ _ Hr Hs Hl Hm Ht). now constructor.
  - rewrite keys_char by assumption. now constructor.
Qed.
Lemma keys_not_vow rs : plain rs -> vnext (keys rs) = false.
Proof.
  intros H. destruct (shape_of rs H); [reflexivity|cbn; now apply other_cv|].
  destruct (lead_led _ H3); cbn; now apply cons_vow.
Qed.
Lemma tail_not_vow t rest : tail_ok t = true -> vnext rest = false -> vnext (tail_keys t ++ rest) = false.
Proof. intros H Hr. apply tail_cons in H. destruct (tail_keys t); [exact Hr|]. cbn in *. apply andb_prop in H. now apply cons_vow. Qed.

(* a run of vowels ends where something else comes *)
Lemma run_vow v v' r r' : forallb vow v = true -> forallb vow v' = true -> vnext r = false -> vnext r' = false -> v ++ r = v' ++ r' -> v = v' /\ r = r'.
Proof.
  revert v'. induction v as [|x v IH]; intros [|x' v'] Hv Hv' Hr Hr' E; cbn [app forallb] in *.
  - auto.
  - rewrite E in Hr. cbn in Hr. apply andb_prop in Hv'. destruct Hv'. congruence.
  - rewrite <- E in Hr'. cbn in Hr'. apply andb_prop in Hv. destruct Hv. congruence.
  - injection E as <- E. apply andb_prop in Hv, Hv'. destruct (IH v') as [-> ->]; tauto.
Qed.
(* a run of consonants ends where a vowel comes *)
Lemma run_cons v v' r r' : forallb cons v = true -> forallb cons v' = true -> vnext r = true -> vnext r' = true -> v ++ r = v' ++ r' -> v = v' /\ r = r'.
Proof.
  revert v'. induction v as [|x v IH]; intros [|x' v'] Hv Hv' Hr Hr' E; cbn [app forallb] in *.
  - auto.
  - rewrite E in Hr. cbn in Hr. apply andb_prop in Hv'. destruct Hv' as [H _]. apply cons_vow in H. congruence.
  - rewrite <- E in Hr'. cbn in Hr'. apply andb_prop in Hv. destruct Hv as [H _]. apply cons_vow in H. congruence.
  - injection E as <- E. apply andb_prop in Hv, Hv'. destruct (IH v') as [-> ->]; tauto.
Qed.
Lemma led_cons l : led l -> forallb cons l = true.
Proof. intros [a H|a H]; cbn; now rewrite H. Qed.
Lemma tail_same t t' : tail_ok t = true -> tail_ok t' = true -> tail_keys t = tail_keys t' -> t = t'.
Proof.
  unfold tail_ok, tail_keys. rewrite !orb_true_iff, !andb_true_iff, !Z.eqb_eq. destruct (Z.eqb_spec t 0), (Z.eqb_spec t' 0); try congruence.
  - intros _ [H|H] E; [congruence|]. rewrite <- E in H. destruct H as [_ H]. discriminate.
  - intros [H|H] _ E; [congruence|]. rewrite E in H. destruct H as [_ H]. discriminate.
  - intros [H|[[[H _] _] _]] [H'|[[[H' _] _] _]] E; try congruence. apply cons_iff in H, H'. unfold is_compat_jaeum in *. apply keys_inj; [lia|lia|exact E].
Qed.
Lemma lead_same l l' : lead_ok l = true -> lead_ok l' = true -> keys_of l = keys_of l' -> l = l'.
Proof. intros H H' E. apply lead_ok_cons in H, H'. apply cons_iff in H, H'. unfold is_compat_jaeum in *. apply keys_inj; [lia|lia|exact E]. Qed.
Lemma medial_same l l' : medial_ok l = true -> medial_ok l' = true -> keys_of l = keys_of l' -> l = l'.
Proof. intros H H' E. apply medial_ok_vow in H, H'. apply vow_iff in H, H'. unfold is_compat_moeum in *. apply keys_inj; [lia|lia|exact E]. Qed.

(** Tails and what follows: the same tail, or half of a doubled lead is in one of them. *)
Definition split_lead (rest rest' : list Z) (T T' : list Z) : Prop :=
  exists c l m t r x, rest = c :: r /\ is_syllable c /\ plain r /\ SplitCompat c = (l, m, t) /\ lead_ok l = true /\ medial_ok m = true /\ tail_ok t = true /\
    keys_of l = [x; x] /\ T' = T ++ [x] /\ keys rest' = x :: keys_of m ++ tail_keys t ++ keys r.
Lemma led_split L L' D : led L -> led L' -> D <> [] -> L = D ++ L' -> exists x, L = [x; x] /\ D = [x] /\ L' = [x].
Proof.
  intros [a _|a _] [b _|b _] HD E; destruct D as [|d [|d' [|d'' D]]]; try (now destruct HD); try discriminate E.
  injection E as <- <-. exists a. auto.
Qed.
Lemma run_longer T T' rest rest' : forallb cons T' = true -> plain rest -> plain rest' -> (length T < length T')%nat ->
  T ++ keys rest = T' ++ keys rest' -> split_lead rest rest' T T'.
Proof.
  unfold split_lead. intros HT Hp Hp' Hlen E. assert (exists D, T' = T ++ D /\ D <> []) as (D & -> & HD).
  { clear HT. revert T' Hlen E. induction T as [|x T IH]; intros [|x' T'] Hlen E; cbn in Hlen; try lia.
    - exists (x' :: T'). split; [reflexivity|discriminate].
    - cbn in E. injection E as <- E. destruct (IH T') as (D & -> & HD); [lia|exact E|]. exists D. auto. }
  rewrite <- app_assoc in E. apply app_inv_head in E. rewrite forallb_app in HT. apply andb_prop in HT. destruct HT as [_ HT].
  destruct (shape_of rest Hp) as [|r rest Hj Hs Hr|c rest l m t Hc Hr Hs Hl Hm Ht HJ].
  - destruct D; [now destruct HD|discriminate].
  - exfalso. destruct D as [|d D]; [now destruct HD|]. injection E as -> _. cbn in HT. apply andb_prop in HT. destruct HT as [HT _]. destruct (other_cv _ Hj). congruence.
  - pose proof (medial_keys _ Hm) as [Hv Hv1]. pose proof (lead_led _ Hl) as HL.
    destruct (shape_of rest' Hp') as [|r' rest' Hj Hs' Hr'|c' rest' l' m' t' Hc' Hr' Hs' Hl' Hm' Ht' HJ'].
    + exfalso. rewrite app_nil_r in E. rewrite <- E in HT. rewrite !forallb_app, !andb_true_iff in HT. destruct HT as (_ & HT & _).
      destruct (keys_of m) as [|v vs]; [discriminate|]. cbn in *. apply andb_prop in HT. destruct HT as [HT _]. apply cons_vow in HT. congruence.
    + exfalso. destruct (other_cv _ Hj) as [H1 H2].
      assert (Hno : forall l V R, led l -> vnext V = true -> forall D, forallb cons D = true -> l ++ V ++ R = D ++ r' :: keys rest' -> False).
      { clear -H1 H2. intros l V R Hl HV D HD E. destruct V as [|v V]; [discriminate|]. cbn in HV.
        apply led_cons in Hl. revert D HD E. induction l as [|a l IH]; intros [|d D] HD E; cbn in *.
        - injection E as -> _. congruence.
        - injection E as -> _. apply andb_prop in HD. destruct HD as [HD _]. apply cons_vow in HD. congruence.
        - injection E as -> _. apply andb_prop in Hl. destruct Hl. congruence.
        - injection E as _ E. apply andb_prop in HD, Hl. destruct HD, Hl. eauto. }
      exact (Hno _ _ _ HL Hv1 _ HT E).
    + pose proof (medial_keys _ Hm') as [Hv' Hv1']. pose proof (lead_led _ Hl') as HL'.
      rewrite (app_assoc D) in E. apply run_cons in E; [|now apply led_cons|rewrite forallb_app, HT; now apply led_cons|now apply vnext_app|now apply vnext_app].
      destruct E as [E1 E2]. exists c, l, m, t, rest.
      assert (exists x, keys_of l = [x; x] /\ D = [x] /\ keys_of l' = [x]) as (x & Hx & -> & Hx').
      { exact (led_split _ _ _ HL HL' HD E1). }
      exists x. do 8 (split; [assumption||reflexivity|]). split; [reflexivity|]. rewrite Hx', E2. reflexivity.
Qed.

Lemma app_inj_len {A} (a a' b b' : list A) : length a = length a' -> a ++ b = a' ++ b' -> a = a' /\ b = b'.
Proof.
  revert a'. induction a as [|x a IH]; intros [|x' a'] Hl E; try discriminate; [auto|]. cbn in *. injection E as <- E. destruct (IH a') as [-> ->]; auto.
Qed.
(* half of a doubled lead is a lead by itself *)
Lemma single_lead x l : lead_ok l = true -> keys_of l = [x; x] -> lead_ok x = true /\ keys_of x = [x].
Proof.
  intros Hl E. pose proof (proj1 (cons_iff l) (lead_ok_cons _ Hl)) as Hc. unfold is_compat_jaeum in Hc.
  pose proof (proj1 (forallb_forall _ _) half_sweep l (in_span 0x3131 30 l ltac:(lia))) as H. cbv beta in H. rewrite Hl, E in H.
  rewrite !andb_true_iff in H. destruct H as [H1 H2]. split; [exact H1|now apply leqb_eq].
Qed.
Lemma respelt_cons c a b : respelt a b -> respelt (c :: a) (c :: b).
Proof.
  unfold respelt. intros H. induction H as [a b H|a|a b _ IH|a b d _ IH1 _ IH2]; [|apply rst_refl|now apply rst_sym|now apply rst_trans with (c :: b)].
  apply rst_step. destruct H. change (c :: before ++ c1 :: c2 :: after) with ((c :: before) ++ c1 :: c2 :: after).
  change (c :: before ++ d1 :: d2 :: after) with ((c :: before) ++ d1 :: d2 :: after). econstructor; eassumption.
Qed.
(* moving half of the lead of the second syllable *)
Lemma move_half c c' rest rest' l m t t' : is_syllable c -> is_syllable c' -> SplitCompat c = (l, m, t) -> SplitCompat c' = (l, m, t') ->
  split_lead rest rest' (tail_keys t) (tail_keys t') ->
  exists d r, rest = d :: r /\ exists d', is_syllable d' /\ plain r /\ keys rest' = keys (d' :: r) /\ half_moved (c :: rest) (c' :: d' :: r).
Proof.
  intros Hc Hc' Hs Hs' (c2 & l2 & m2 & t2 & r & x & -> & Hc2 & Hr & Hs2 & Hl2 & Hm2 & Ht2 & Hx & HT & HK).
  exists c2, r. split; [reflexivity|].
  destruct (single_lead x l2 Hl2 Hx) as [Hlx Hkx].
  destruct (join_syl x m2 t2 Hlx Hm2 Ht2) as [Hd Hsd]. exists (Join x m2 t2). split; [exact Hd|]. split; [exact Hr|]. split.
  - rewrite (keys_syl _ _ _ _ _ Hd Hsd Hlx Hm2 Ht2), HK, Hkx. reflexivity.
  - change (half_moved ([] ++ c :: c2 :: r) ([] ++ c' :: Join x m2 t2 :: r)). econstructor; eassumption.
Qed.
Lemma plain_tl c r : plain (c :: r) -> plain r.
Proof. now inversion 1. Qed.
Theorem keys_respelt n : forall a b, (length a <= n)%nat -> plain a -> plain b -> keys a = keys b -> respelt a b.
Proof.
  induction n as [|n IH]; intros a b Hn Ha Hb E.
  { destruct a; [|cbn in Hn; lia]. cbn in E. destruct (shape_of b Hb); [apply rst_refl|discriminate|]. destruct (lead_led _ H2); discriminate. }
  destruct (shape_of a Ha) as [|r rest Hj Hs Hr|c rest l m t Hc Hr Hs Hl Hm Ht HJ]; destruct (shape_of b Hb) as [|r' rest' Hj' Hs' Hr'|c' rest' l' m' t' Hc' Hr' Hs' Hl' Hm' Ht' HJ'];
    try discriminate E; try (exfalso; destruct (lead_led _ Hl); discriminate); try (exfalso; destruct (lead_led _ Hl'); discriminate).
  - apply rst_refl.
  - injection E as <- E. apply respelt_cons. cbn in Hn. apply IH; [lia|assumption|assumption|exact E].
  - exfalso. destruct (lead_led _ Hl') as [x Hx|x Hx]; injection E as -> _; destruct (other_cv _ Hj); congruence.
  - exfalso. destruct (lead_led _ Hl) as [x Hx|x Hx]; injection E as <- _; destruct (other_cv _ Hj'); congruence.
  - cbn in Hn. pose proof (medial_keys _ Hm) as [Hv Hv1]. pose proof (medial_keys _ Hm') as [Hv' Hv1'].
    apply run_cons in E; [|now apply led_cons, lead_led|now apply led_cons, lead_led|now apply vnext_app|now apply vnext_app]. destruct E as [E1 E].
    apply run_vow in E; [|assumption|assumption|apply tail_not_vow; [assumption|now apply keys_not_vow]|apply tail_not_vow; [assumption|now apply keys_not_vow]].
    destruct E as [E2 E]. apply lead_same in E1; [|assumption|assumption]. apply medial_same in E2; [|assumption|assumption]. subst l' m'.
    destruct (Nat.lt_trichotomy (length (tail_keys t)) (length (tail_keys t'))) as [Hlt|[Heq|Hlt]].
    + apply run_longer in E; [|now apply tail_cons|assumption|assumption|exact Hlt].
      destruct (move_half c c' rest rest' l m t t' Hc Hc' Hs Hs' E) as (d & r & -> & d' & Hd' & Hpr & HK & Hmv).
      apply rst_trans with (c' :: d' :: r); [apply rst_step; exact Hmv|]. apply respelt_cons. cbn in Hn. apply IH; [cbn; lia|constructor; [now left|exact Hpr]|assumption|now symmetry].
    + apply app_inj_len in E; [|exact Heq]. destruct E as [E3 E4]. apply tail_same in E3; [|assumption|assumption]. subst t'.
      replace c' with c by congruence. apply respelt_cons. apply IH; [lia|assumption|assumption|exact E4].
    + symmetry in E. apply run_longer in E; [|now apply tail_cons|assumption|assumption|exact Hlt].
      destruct (move_half c' c rest' rest l m t' t Hc' Hc Hs' Hs E) as (d & r & -> & d' & Hd' & Hpr & HK & Hmv).
      apply rst_trans with (c :: d' :: r); [|apply rst_sym, rst_step; exact Hmv]. apply respelt_cons. apply IH; [lia|assumption|constructor; [now left|exact Hpr]|exact HK].
Qed.
Lemma half_keys a b : half_moved a b -> keys a = keys b.
Proof.
  intros H. destruct H as [before after c1 c2 d1 d2 l1 m1 t1 u1 l2 x m2 t2 Hc1 Hc2 Hd1 Hd2 Sc1 Sc2 Sd1 Sd2 Hx Ht].
  rewrite !keys_app. f_equal.
  destruct (syl c1 Hc1) as (a1 & a2 & a3 & E1 & A1 & A2 & A3 & _). rewrite Sc1 in E1. injection E1 as <- <- <-.
  destruct (syl c2 Hc2) as (a1 & a2 & a3 & E1 & B1 & B2 & B3 & _). rewrite Sc2 in E1. injection E1 as <- <- <-.
  destruct (syl d1 Hd1) as (a1 & a2 & a3 & E1 & C1 & C2 & C3 & _). rewrite Sd1 in E1. injection E1 as <- <- <-.
  destruct (syl d2 Hd2) as (a1 & a2 & a3 & E1 & D1 & D2 & D3 & _). rewrite Sd2 in E1. injection E1 as <- <- <-.
  rewrite (keys_syl c1 l1 m1 t1), (keys_syl c2 l2 m2 t2), (keys_syl d1 l1 m1 u1), (keys_syl d2 x m2 t2) by assumption.
  destruct (single_lead x l2 B1 Hx) as [_ Hkx]. rewrite Hx, Ht, Hkx. rewrite <- !app_assoc. reflexivity.
Qed.
Theorem keys_exact a b : plain a -> plain b -> (keys a = keys b <-> respelt a b).
Proof.
  intros Ha Hb. split; [now apply (keys_respelt (length a))|]. clear Ha Hb. intros H. induction H as [a b H|a|a b _ IH|a b d _ IH1 _ IH2]; [now apply half_keys|reflexivity|congruence|congruence].
Qed.
Theorem keys_simple a b : plain a -> plain b -> Forall (fun c => is_syllable c -> ~ tense c) a -> Forall (fun c => is_syllable c -> ~ tense c) b -> keys a = keys b -> a = b.
Proof.
  intros Ha. revert b. induction Ha as [|r rest Hr Hp IH]; intros b Hb Ta Tb E.
  - cbn in E. destruct (shape_of b Hb); [reflexivity|discriminate|]. destruct (lead_led _ H2); discriminate.
  - assert (Ha : plain (r :: rest)) by (constructor; assumption). inversion Ta as [|? ? T1 T2]; subst.
    remember (r :: rest) as a eqn:Ea. destruct (shape_of a Ha) as [|r0 rest0 Hj Hs Hr0|c rest0 l m t Hc Hr0 Hs Hl Hm Ht HJ]; [discriminate| |];
      injection Ea as -> ->; destruct (shape_of b Hb) as [|r' rest' Hj' Hs' Hr'|c' rest' l' m' t' Hc' Hr' Hs' Hl' Hm' Ht' HJ']; try discriminate E.
    + injection E as <- E. f_equal. inversion Tb; subst. now apply IH.
    + exfalso. destruct (lead_led _ Hl') as [x Hx|x Hx]; injection E as -> _; destruct (other_cv _ Hj); congruence.
    + exfalso. destruct (lead_led _ Hl); discriminate.
    + exfalso. destruct (lead_led _ Hl) as [x Hx|x Hx]; injection E as <- _; destruct (other_cv _ Hj'); congruence.
    + pose proof (medial_keys _ Hm) as [Hv Hv1]. pose proof (medial_keys _ Hm') as [Hv' Hv1']. inversion Tb as [|? ? U1 U2]; subst.
      apply run_cons in E; [|now apply led_cons, lead_led|now apply led_cons, lead_led|now apply vnext_app|now apply vnext_app]. destruct E as [E1 E].
      apply run_vow in E; [|assumption|assumption|apply tail_not_vow; [assumption|now apply keys_not_vow]|apply tail_not_vow; [assumption|now apply keys_not_vow]].
      destruct E as [E2 E]. apply lead_same in E1; [|assumption|assumption]. apply medial_same in E2; [|assumption|assumption]. subst l' m'.
      destruct (Nat.lt_trichotomy (length (tail_keys t)) (length (tail_keys t'))) as [Hlt|[Heq|Hlt]].
      * exfalso. apply run_longer in E; [|now apply tail_cons|assumption|assumption|exact Hlt].
        destruct E as (c2 & l2 & m2 & t2 & r2 & x & -> & Hc2 & _ & Hs2 & _ & _ & _ & Hx & _). inversion T2 as [|? ? T3 _]; subst. apply (T3 Hc2). exists l2, m2, t2, x. auto.
      * apply app_inj_len in E; [|exact Heq]. destruct E as [E3 E4]. apply tail_same in E3; [|assumption|assumption]. subst t'. rewrite ?HJ in *. f_equal. now apply IH.
      * exfalso. symmetry in E. apply run_longer in E; [|now apply tail_cons|assumption|assumption|exact Hlt].
        destruct E as (c2 & l2 & m2 & t2 & r2 & x & -> & Hc2 & _ & Hs2 & _ & _ & _ & Hx & _). inversion U2 as [|? ? T3 _]; subst. apply (T3 Hc2). exists l2, m2, t2, x. auto.
Qed.
Lemma plain_syl rs : Forall is_syllable rs -> plain rs.
Proof. intros H. eapply Forall_impl; [|exact H]. intros a Ha. now left. Qed.
Theorem keys_ambiguous : exists rs rs', plain rs /\ plain rs' /\ keys rs = keys rs' /\ rs <> rs'.
Proof.
  exists [0xAC01; 0xAC00], [0xAC00; 0xAE4C].
  split; [apply plain_syl; repeat constructor; vm_compute; discriminate|]. split; [apply plain_syl; repeat constructor; vm_compute; discriminate|].
  split; [vm_compute; reflexivity|discriminate].
Qed.
