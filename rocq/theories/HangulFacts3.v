(** Proofs about package hangul: words, particles, histories, and the statements of
    PropHangul.v that combine several lemmas. *)
From Coq Require Import ZArith List Bool Lia.
From Coq Require Import ZifyBool.
From Verif Require Import Base Spec Facts Utf8 Utf8Facts HangulModel HangulFacts HangulFacts2.
Import ListNotations.
Local Open Scope Z_scope.

(** ** Character boundaries *)
Lemma utf8_char_conts r : is_scalar r ->
  exists h tl, utf8_char r = h :: tl /\ Forall (fun b => 0x80 <= b <= 0xBF) tl.
Proof.
  intros Hr. destruct (utf8_char_cases r Hr) as [[H ->]|[[H ->]|[[H [_ ->]]|[H ->]]]];
    eexists _, _; (split; [reflexivity|]); repeat constructor; Z.div_mod_to_equations; lia.
Qed.

Lemma utf8_char_head r p q : is_scalar r -> utf8_char r = p ++ q -> p <> [] ->
  match q with [] => True | b :: _ => 0x80 <= b <= 0xBF end.
Proof.
  intros Hr E Hp. destruct q as [|b q]; [exact I|].
  destruct (utf8_char_conts r Hr) as (h & tl & E' & Hf). rewrite E' in E.
  destruct p as [|p0 p]; [congruence|]. cbn [app] in E. injection E as _ ->.
  apply Forall_app in Hf as [_ Hf]. inversion Hf; assumption.
Qed.

Lemma boundary_char r s : is_scalar r -> boundary (utf8_char r ++ s).
Proof.
  intros Hr. destruct (utf8_char_cases r Hr) as [[H ->]|[[H ->]|[[H [_ ->]]|[H ->]]]];
    cbn [app boundary]; Z.div_mod_to_equations; lia.
Qed.

Lemma reads_as_boundary pre rs t rs' :
  reads_as pre rs -> boundary t -> reads_as t rs' -> reads_as (pre ++ t) (rs ++ rs').
Proof.
  intros H Hb Ht. induction H as [|r s rs Hr H IH|b s rs Hbad H IH].
  - exact Ht.
  - rewrite <- app_assoc. constructor; assumption.
  - cbn [app]. apply reads_bad; [|exact IH].
    intros r Hr [q E]. change (b :: s ++ t) with ((b :: s) ++ t) in E.
    destruct (app_prefix_eq _ _ _ _ E) as [[q' Eq]|[q' Eq]].
    + rewrite Eq in E. rewrite <- app_assoc in E. apply app_inv_head in E.
      pose proof (utf8_char_head r (b :: s) q' Hr Eq) as Hh.
      destruct q' as [|c q'].
      * apply (Hbad r Hr). exists []. rewrite app_nil_r in Eq |- *. congruence.
      * rewrite E in Hb. cbn in Hb. apply Hb. apply Hh. discriminate.
    + apply (Hbad r Hr). exists q'. exact Eq.
Qed.

Lemma string_to_runes_boundary a b : Forall is_byte a -> Forall is_byte b -> boundary b ->
  string_to_runes (a ++ b) = string_to_runes a ++ string_to_runes b.
Proof.
  intros Ha Hb Hbd. apply string_to_runes_eq; [apply Forall_app; auto|].
  apply reads_as_boundary; auto using string_to_runes_reads.
Qed.

Lemma string_to_runes_last pre r : Forall is_byte pre -> is_scalar r ->
  string_to_runes (pre ++ utf8_char r) = string_to_runes pre ++ [r].
Proof.
  intros Hp Hr. rewrite string_to_runes_boundary.
  - f_equal. rewrite <- (string_to_runes_utf8 [r]) by (constructor; auto).
    cbn [utf8 flat_map]. rewrite app_nil_r. reflexivity.
  - exact Hp.
  - apply utf8_char_bytes; exact Hr.
  - rewrite <- (app_nil_r (utf8_char r)). apply boundary_char; exact Hr.
Qed.

Lemma zget_last {A} (l : list A) x : zget (l ++ [x]) (zlen (l ++ [x]) - 1) = Some x.
Proof.
  pose proof (zlen_nonneg l). rewrite zlen_app. change (zlen [x]) with 1.
  rewrite zget_nth by lia. unfold zlen.
  replace (Z.to_nat (Z.of_nat (length l) + 1 - 1)) with (length l) by lia.
  rewrite nth_error_app2 by lia. rewrite Nat.sub_diag. reflexivity.
Qed.

(** ** LastConsonant *)
Lemma scalar_int32 r : is_scalar r -> is_int32 r.
Proof. unfold is_scalar, is_int32. lia. Qed.

Lemma LastConsonant_last pre r : Forall is_byte pre -> is_scalar r ->
  LastConsonant (pre ++ utf8_char r) = Ok (snd (Split r)).
Proof.
  intros Hp Hr. unfold LastConsonant.
  destruct (pre ++ utf8_char r) as [|b w] eqn:E.
  { apply app_eq_nil in E as [_ E]. destruct (utf8_char_nonempty r E). }
  rewrite <- E. rewrite string_to_runes_last by assumption.
  rewrite zget_last. cbn [get_or_panic bind].
  destruct (Split r) as [[l m] t]. reflexivity.
Qed.

Lemma LastConsonant_runes word : Forall is_byte word -> word <> [] ->
  exists rs r, string_to_runes word = rs ++ [r] /\ is_scalar r /\
               LastConsonant word = Ok (snd (Split r)).
Proof.
  intros Hw Hn. pose proof (string_to_runes_nonempty word Hw Hn) as Hne.
  pose proof (string_to_runes_scalar word Hw) as Hs.
  destruct (exists_last Hne) as (rs & r & E). exists rs, r.
  rewrite E in Hs. apply Forall_app in Hs as [_ Hs]. inversion Hs; subst.
  split; [exact E|]. split; [assumption|].
  unfold LastConsonant. destruct word as [|b w]; [congruence|].
  rewrite E, zget_last. cbn [get_or_panic bind].
  destruct (Split r) as [[l m] t]. reflexivity.
Qed.

Lemma LastConsonant_total word : Forall is_byte word -> exists t, LastConsonant word = Ok t.
Proof.
  intros Hw. destruct word as [|b w]; [exists 0; reflexivity|].
  destruct (LastConsonant_runes (b :: w) Hw ltac:(discriminate)) as (rs & r & _ & _ & ->).
  eauto.
Qed.

Lemma EndsWithConsonant_of word t : LastConsonant word = Ok t ->
  EndsWithConsonant word = Ok (negb (t =? 0)).
Proof. intros E. unfold EndsWithConsonant. rewrite E. cbn [bind]. destruct (t =? 0); reflexivity. Qed.

(** The third component of Split, on any scalar. *)
Lemma Split_tail r : is_scalar r ->
  snd (Split r) = (let k := Z.rem (r - 0xAC00) 28 in if k =? 0 then 0 else k + 0x11A7).
Proof.
  intros Hr. destruct (Split_spec r (scalar_int32 r Hr)) as (d & Hd & ->).
  assert (d = r - 0xAC00) as -> by (unfold is_scalar in Hr; lia). reflexivity.
Qed.

Lemma C17_lemma :
  LastConsonant [] = Ok 0 /\ EndsWithConsonant [] = Ok false /\
  (forall word, Forall is_byte word ->
     exists t, LastConsonant word = Ok t /\ EndsWithConsonant word = Ok (negb (t =? 0))) /\
  (forall pre c, Forall is_byte pre -> is_syllable c ->
     exists l m t, Split c = (l, m, t) /\ (t = 0 \/ is_tail_jamo t) /\
       LastConsonant (pre ++ utf8_char c) = Ok t /\
       (EndsWithConsonant (pre ++ utf8_char c) = Ok true <-> is_tail_jamo t) /\
       (EndsWithConsonant (pre ++ utf8_char c) = Ok false <-> t = 0)).
Proof.
  split; [reflexivity|]. split; [reflexivity|]. split.
  - intros word Hw. destruct (LastConsonant_total word Hw) as (t & E). exists t.
    split; [exact E|]. apply EndsWithConsonant_of; exact E.
  - intros pre c Hp Hc.
    assert (is_scalar c) as Hs by (unfold is_syllable, is_scalar in *; lia).
    pose proof (proj2 (Split_wf c (syllable_int32 c Hc)) Hc) as Hwf.
    pose proof (LastConsonant_last pre c Hp Hs) as E.
    destruct (Split c) as [[l m] t] eqn:ES. cbn [snd] in E.
    destruct Hwf as (_ & _ & Ht). exists l, m, t.
    split; [reflexivity|]. split; [exact Ht|]. split; [exact E|].
    rewrite (EndsWithConsonant_of _ _ E). unfold is_tail_jamo in *.
    destruct (Z.eqb_spec t 0); cbn [negb]; split; split; intros; try reflexivity; try discriminate; lia.
Qed.

Lemma C18_lemma pre r : Forall is_byte pre -> is_scalar r ->
  exists t, LastConsonant (pre ++ utf8_char r) = Ok t /\
    ((r - 0xAC00) mod 28 = 0 -> t = 0) /\
    ((r - 0xAC00) mod 28 <> 0 -> 0xAC00 <= r -> is_tail_jamo t) /\
    ((r - 0xAC00) mod 28 <> 0 -> r < 0xAC00 -> 0x118C <= t <= 0x11A6).
Proof.
  intros Hp Hr. exists (snd (Split r)). split; [apply LastConsonant_last; assumption|].
  rewrite Split_tail by exact Hr. cbv zeta. unfold is_tail_jamo.
  destruct (Z_le_dec 0xAC00 r).
  - rewrite Z.rem_mod_nonneg by lia. pose proof (Z.mod_pos_bound (r - 0xAC00) 28).
    destruct (Z.eqb_spec ((r - 0xAC00) mod 28) 0); lia.
  - replace (r - 0xAC00) with (- (0xAC00 - r)) by lia.
    rewrite Z.rem_opp_l by lia. rewrite Z.rem_mod_nonneg by lia.
    pose proof (Z.mod_pos_bound (0xAC00 - r) 28).
    assert ((- (0xAC00 - r)) mod 28 = 0 <-> (0xAC00 - r) mod 28 = 0) as Hm.
    { split; intros E.
      - apply Z.mod_opp_l_z in E; [|lia]. rewrite Z.opp_involutive in E. exact E.
      - apply Z.mod_opp_l_z; [lia|exact E]. }
    destruct (Z.eqb_spec (- ((0xAC00 - r) mod 28)) 0); lia.
Qed.

(** ** AppendPostposition *)
Lemma str_eqb_eq a : forall b, str_eqb a b = true <-> a = b.
Proof.
  induction a as [|x a IH]; intros [|y b]; cbn; try (split; congruence).
  rewrite andb_true_iff, Z.eqb_eq, IH. split; [intros [-> ->]; reflexivity|].
  intros E; injection E; auto.
Qed.

Lemma str_euro_utf8 : str_euro = utf8 [0xC73C; 0xB85C].
Proof. reflexivity. Qed.

Lemma Append_value word with_ without t : LastConsonant word = Ok t ->
  AppendPostposition word with_ without =
  Ok (word ++ if (t =? 0) || (str_eqb with_ str_euro && (t =? 0x11AF)) then without else with_).
Proof.
  intros E. unfold AppendPostposition. rewrite E. cbn [bind].
  change TailL with 0x11AF.
  destruct (str_eqb with_ str_euro), (Z.eqb_spec t 0x11AF), (Z.eqb_spec t 0);
    cbn [andb negb orb]; try reflexivity; lia.
Qed.

Lemma C19_lemma :
  (forall word with_ without, Forall is_byte word ->
     AppendPostposition word with_ without = Ok (word ++ with_) \/
     AppendPostposition word with_ without = Ok (word ++ without)) /\
  (forall with_ without, AppendPostposition [] with_ without = Ok without) /\
  (forall pre c with_ without, Forall is_byte pre -> is_syllable c ->
     let word := pre ++ utf8_char c in
     let '(_, _, t) := Split c in
     (t = 0 -> AppendPostposition word with_ without = Ok (word ++ without)) /\
     (t <> 0 -> t <> 0x11AF -> AppendPostposition word with_ without = Ok (word ++ with_)) /\
     (t = 0x11AF -> with_ = utf8 [0xC73C; 0xB85C] ->
        AppendPostposition word with_ without = Ok (word ++ without)) /\
     (t = 0x11AF -> with_ <> utf8 [0xC73C; 0xB85C] ->
        AppendPostposition word with_ without = Ok (word ++ with_))).
Proof.
  split; [|split].
  - intros word with_ without Hw. destruct (LastConsonant_total word Hw) as (t & E).
    rewrite (Append_value _ _ _ _ E). destruct (_ || _); auto.
  - intros with_ without. rewrite (Append_value [] with_ without 0) by reflexivity. reflexivity.
  - intros pre c with_ without Hp Hc.
    assert (is_scalar c) as Hs by (unfold is_syllable, is_scalar in *; lia).
    pose proof (LastConsonant_last pre c Hp Hs) as E. cbv zeta.
    destruct (Split c) as [[l m] t]. cbn [snd] in E.
    rewrite (Append_value _ _ _ _ E). rewrite <- str_euro_utf8.
    split; [intros ->; reflexivity|]. split; [|split].
    + intros H0 H1. destruct (Z.eqb_spec t 0); [lia|]. destruct (Z.eqb_spec t 0x11AF); [lia|].
      rewrite andb_false_r. reflexivity.
    + intros -> ->. reflexivity.
    + intros -> Hn. destruct (str_eqb with_ str_euro) eqn:Es; [apply str_eqb_eq in Es; congruence|].
      reflexivity.
Qed.

(** ** Join *)
Lemma as_lead_nonzero r f : as_lead r f -> Lead r <> 0.
Proof. intros H. rewrite (Lead_as r f H). apply as_lead_range in H. unfold is_lead_jamo in H. lia. Qed.
Lemma as_medial_nonzero r f : as_medial r f -> Medial r <> 0.
Proof. intros H. rewrite (Medial_as r f H). apply as_medial_range in H. unfold is_medial_jamo in H. lia. Qed.

Lemma no_lead_zero r : (forall f, ~ as_lead r f) -> Lead r = 0.
Proof.
  intros H. destruct (Z.eq_dec (Lead r) 0) as [E|E]; [exact E|].
  destruct (H _ (Lead_nonzero r E)).
Qed.
Lemma no_medial_zero r : (forall f, ~ as_medial r f) -> Medial r = 0.
Proof.
  intros H. destruct (Z.eq_dec (Medial r) 0) as [E|E]; [exact E|].
  destruct (H _ (Medial_nonzero r E)).
Qed.
Lemma no_tail_zero r : (forall f, ~ as_tail r f) -> Tail r = 0.
Proof.
  intros H. destruct (Z.eq_dec (Tail r) 0) as [E|E]; [exact E|].
  destruct (H _ (Tail_nonzero r E)).
Qed.

Lemma Join_depends l l' m m' t t' :
  Lead l = Lead l' -> Medial m = Medial m' -> Tail t = Tail t' -> Join l m t = Join l' m' t'.
Proof. intros E1 E2 E3. unfold Join. rewrite E1, E2, E3. reflexivity. Qed.

Lemma C05_lemma l l' m m' t t' :
  (l = l' \/ exists f, as_lead l f /\ as_lead l' f) ->
  (m = m' \/ exists f, as_medial m f /\ as_medial m' f) ->
  (t = t' \/ exists f, as_tail t f /\ as_tail t' f) ->
  Join l m t = Join l' m' t'.
Proof.
  intros Hl Hm Ht. apply Join_depends.
  - destruct Hl as [-> | (f & H & H')]; [reflexivity|]. rewrite (Lead_as _ _ H), (Lead_as _ _ H'). reflexivity.
  - destruct Hm as [-> | (f & H & H')]; [reflexivity|]. rewrite (Medial_as _ _ H), (Medial_as _ _ H'). reflexivity.
  - destruct Ht as [-> | (f & H & H')]; [reflexivity|]. rewrite (Tail_as _ _ H), (Tail_as _ _ H'). reflexivity.
Qed.

Lemma C06_lemma l m t :
  ((exists f, as_lead l f) -> (exists f, as_medial m f) -> is_syllable (Join l m t)) /\
  ((forall f, ~ as_lead l f) -> Join l m t = 0xFFFD) /\
  ((forall f, ~ as_medial m f) -> Join l m t = 0xFFFD) /\
  ((forall f, ~ as_tail t f) -> Join l m t = Join l m 0) /\
  (forall fl fm ft, as_lead l fl -> as_medial m fm -> as_tail t ft ->
     Split (Join l m t) = (fl, fm, ft)) /\
  (forall fl fm, as_lead l fl -> as_medial m fm -> Split (Join l m 0) = (fl, fm, 0)).
Proof.
  split; [|split; [|split; [|split; [|split]]]].
  - intros (f & Hf) (g & Hg). apply Join_syllable.
    + eapply as_lead_nonzero; exact Hf.
    + eapply as_medial_nonzero; exact Hg.
  - intros H. apply Join_bad. left. apply no_lead_zero; exact H.
  - intros H. apply Join_bad. right. apply no_medial_zero; exact H.
  - intros H. apply Join_depends; [reflexivity..|]. rewrite no_tail_zero by exact H. reflexivity.
  - intros fl fm ft Hl Hm Ht. rewrite Split_Join_gen by eauto using as_lead_nonzero, as_medial_nonzero.
    rewrite (Lead_as _ _ Hl), (Medial_as _ _ Hm), (Tail_as _ _ Ht). reflexivity.
  - intros fl fm Hl Hm. rewrite Split_Join_gen by eauto using as_lead_nonzero, as_medial_nonzero.
    rewrite (Lead_as _ _ Hl), (Medial_as _ _ Hm). reflexivity.
Qed.

Lemma no_tail_form_DD f : ~ as_tail 0x3138 f.
Proof.
  intros (x & Hx & H).
  destruct x; cbn [tail_form compat_form] in *; try discriminate Hx; injection Hx as <-;
    destruct H as [H|H]; discriminate H.
Qed.

Lemma C06_refuted_lemma : exists l m t,
  (exists f, as_lead l f) /\ (exists f, as_medial m f) /\ t <> 0 /\ (forall f, ~ as_tail t f) /\
  Join l m t <> 0xFFFD.
Proof.
  exists 0x1100, 0x1161, 0x3138. split; [|split; [|split; [|split]]].
  - exists 0x1100, L_KIYEOK. split; [reflexivity|left; reflexivity].
  - exists 0x1161, L_A. split; [reflexivity|left; reflexivity].
  - discriminate.
  - apply no_tail_form_DD.
  - vm_compute. discriminate.
Qed.

Lemma C07_disjoint r :
  ~ (IsLead r = true /\ IsMedial r = true) /\ ~ (IsLead r = true /\ IsTail r = true) /\
  ~ (IsMedial r = true /\ IsTail r = true) /\ ~ (IsJaeum r = true /\ IsMoeum r = true).
Proof.
  rewrite IsLead_iff, IsMedial_iff, IsTail_iff, IsJaeum_iff, IsMoeum_iff.
  unfold is_lead_jamo, is_medial_jamo, is_tail_jamo, is_compat_jaeum, is_compat_moeum. lia.
Qed.

Lemma C09_lemma r :
  (forall x, form_of x r -> CompatJamo r = compat_form x) /\
  ((forall x, ~ form_of x r) -> CompatJamo r = 0) /\
  (forall f, as_lead r f -> Lead r = f) /\ ((forall f, ~ as_lead r f) -> Lead r = 0) /\
  (forall f, as_medial r f -> Medial r = f) /\ ((forall f, ~ as_medial r f) -> Medial r = 0) /\
  (forall f, as_tail r f -> Tail r = f) /\ ((forall f, ~ as_tail r f) -> Tail r = 0).
Proof.
  repeat split; intros;
    eauto using CompatJamo_form, CompatJamo_none, Lead_as, Medial_as, Tail_as,
      no_lead_zero, no_medial_zero, no_tail_zero.
Qed.

Lemma C10_lemma r :
  (IsLead r = true -> Lead (CompatJamo r) = r) /\
  (IsMedial r = true -> Medial (CompatJamo r) = r) /\
  (IsTail r = true -> Tail (CompatJamo r) = r) /\
  (is_compat_jaeum r \/ is_compat_moeum r ->
     (Lead r <> 0 -> CompatJamo (Lead r) = r) /\
     (Medial r <> 0 -> CompatJamo (Medial r) = r) /\
     (Tail r <> 0 -> CompatJamo (Tail r) = r)).
Proof.
  rewrite IsLead_iff, IsMedial_iff, IsTail_iff.
  split; [apply Lead_CompatJamo|]. split; [apply Medial_CompatJamo|].
  split; [apply Tail_CompatJamo|]. intros H. pose proof (CompatJamo_self r H) as E.
  split; [|split]; intros Hn.
  - rewrite CompatJamo_Lead by exact Hn. exact E.
  - rewrite CompatJamo_Medial by exact Hn. exact E.
  - rewrite CompatJamo_Tail by exact Hn. exact E.
Qed.

Lemma C11_lemma r :
  (Lead r = 0 \/ IsLead (Lead r) = true) /\ (Medial r = 0 \/ IsMedial (Medial r) = true) /\
  (Tail r = 0 \/ IsTail (Tail r) = true) /\
  Lead (Lead r) = Lead r /\ Medial (Medial r) = Medial r /\ Tail (Tail r) = Tail r.
Proof.
  rewrite IsLead_iff, IsMedial_iff, IsTail_iff.
  pose proof (Lead_range r) as Hl. pose proof (Medial_range r) as Hm. pose proof (Tail_range r) as Ht.
  repeat split; auto.
  - destruct Hl as [-> | Hl]; [reflexivity|]. apply Lead_self; exact Hl.
  - destruct Hm as [-> | Hm]; [reflexivity|]. apply Medial_self; exact Hm.
  - destruct Ht as [-> | Ht]; [reflexivity|]. apply Tail_self; exact Ht.
Qed.

Lemma C12_same x r r' : form_of x r -> form_of x r' -> SplitMultiElement r = SplitMultiElement r'.
Proof. intros H H'. rewrite (SplitMulti_form _ _ H), (SplitMulti_form _ _ H'). reflexivity. Qed.

Lemma C12_lemma :
  (forall r, snd (SplitMultiElement r) = true <-> exists x, composite x /\ form_of x r) /\
  (forall x r r', form_of x r -> form_of x r' -> SplitMultiElement r = SplitMultiElement r') /\
  (forall x r, form_of x r -> composite x ->
     (2 <= length (fst (SplitMultiElement r)))%nat /\
     (consonant x -> Forall is_compat_jaeum (fst (SplitMultiElement r))) /\
     (vowel x -> Forall is_compat_moeum (fst (SplitMultiElement r)))) /\
  (forall r, snd (SplitMultiElement r) = false -> fst (SplitMultiElement r) = []).
Proof.
  split; [exact SplitMulti_ok_iff|]. split; [exact C12_same|].
  split; [exact SplitMulti_elements|exact SplitMulti_fail].
Qed.

Lemma C13_refuted_lemma : exists x r e,
  form_of x r /\ composite x /\ In e (fst (SplitMultiElement r)) /\
  snd (SplitMultiElement e) = true /\
  fst (SplitMultiElement r) <> map compat_form (elements x).
Proof.
  exists L_WE, 0x315E, 0x3154. split; [left; reflexivity|]. split; [discriminate|].
  split; [vm_compute; auto|]. split; [reflexivity|]. vm_compute. discriminate.
Qed.

Lemma SplitMulti_basic_elem x r e : form_of x r -> composite x -> x <> L_WE ->
  In e (fst (SplitMultiElement r)) -> SplitMultiElement e = ([], false).
Proof.
  intros Hf Hc Hx. rewrite (SplitMulti_basic x r Hf Hc Hx). cbn [fst].
  intros He. apply in_map_iff in He as (y & <- & Hy).
  assert (form_of y (compat_form y)) as Hfy by (left; reflexivity).
  rewrite (SplitMulti_form _ _ Hfy).
  destruct (compositeb y) eqn:E; [|reflexivity].
  apply compositeb_true in E. destruct (elements_basic _ _ Hy E).
Qed.

Lemma C13_lemma x r : form_of x r -> composite x -> x <> L_WE ->
  SplitMultiElement r = (map compat_form (elements x), true) /\
  forall e, In e (fst (SplitMultiElement r)) -> SplitMultiElement e = ([], false).
Proof.
  intros Hf Hc Hx. split; [apply SplitMulti_basic; assumption|].
  intros e. eapply SplitMulti_basic_elem; eassumption.
Qed.

Lemma model_strokes_letter x : x <> L_WE -> model_strokes x = letter_strokes x.
Proof. destruct x; intros H; try (destruct H; reflexivity); reflexivity. Qed.

Lemma C15_letter x r : form_of x r -> x <> L_WE -> Stroke r = Ok (letter_strokes x).
Proof. intros H Hx. rewrite (Stroke_letter x r H), model_strokes_letter by exact Hx. reflexivity. Qed.

Lemma C15_WE r : form_of L_WE r -> Stroke r = Ok 2 /\ letter_strokes L_WE = 5.
Proof. intros H. rewrite (Stroke_letter _ _ H). split; reflexivity. Qed.

Lemma C15_refuted_lemma : exists x r, form_of x r /\ Stroke r <> Ok (letter_strokes x).
Proof. exists L_WE, 0x315E. split; [left; reflexivity|]. vm_compute. discriminate. Qed.

(** Strokes of a whole syllable, from its letters. *)
Lemma C15_syllable c xl xm : is_syllable c ->
  let '(l, m, t) := Split c in
  lead_form xl = Some l -> medial_form xm = Some m -> xm <> L_WE ->
  (t = 0 -> Stroke c = Ok (letter_strokes xl + letter_strokes xm)) /\
  (forall xt, tail_form xt = Some t ->
     Stroke c = Ok (letter_strokes xl + letter_strokes xm + letter_strokes xt)).
Proof.
  intros Hc. pose proof (Stroke_split c Hc) as H.
  destruct (Split c) as [[l m] t]. intros Hl Hm Hx.
  destruct H as (a & b & d & Ea & Eb & Ed & E).
  assert (xl <> L_WE) as Hxl by (intros ->; discriminate Hl).
  rewrite (C15_letter xl l (lead_form_form _ _ Hl) Hxl) in Ea. injection Ea as <-.
  rewrite (C15_letter xm m (medial_form_form _ _ Hm) Hx) in Eb. injection Eb as <-.
  split.
  - intros ->. vm_compute in Ed. injection Ed as <-. rewrite E. f_equal. lia.
  - intros xt Ht. assert (xt <> L_WE) as Hxt by (intros ->; discriminate Ht).
    rewrite (C15_letter xt t (tail_form_form _ _ Ht) Hxt) in Ed. injection Ed as <-. exact E.
Qed.

Lemma C16_lemma r :
  exists n, Stroke r = Ok n /\ 0 <= n /\ (0 < n <-> IsHangul r = true) /\
            forall fuel, (2 <= fuel)%nat -> Stroke_in multiElements fuel r = Ok n.
Proof.
  destruct (Stroke_pos r) as (n & E & H0 & H1). exists n. repeat split; try assumption; try (apply H1).
  intros fuel Hf. rewrite Stroke_any_fuel by exact Hf. exact E.
Qed.

(** ** Histories *)
Lemma C20_lemma os o :
  (forall o', In o' (os ++ [o]) -> forall r i v, o' <> OpStore r i v) ->
  hangul_run hangul_init (os ++ [o]) = hangul_run hangul_init os ++ hangul_run hangul_init [o].
Proof.
  intros H.
  assert (forall l, incl l (os ++ [o]) -> hangul_run hangul_init l = map pure_out l) as E.
  { intros l Hl. apply run_no_store. intros o' Ho'. specialize (H o' (Hl o' Ho')).
    destruct o'; [reflexivity..|]. destruct (H r i v); reflexivity. }
  rewrite (E (os ++ [o])) by apply incl_refl. rewrite (E os) by apply incl_appl, incl_refl.
  rewrite (E [o]) by apply incl_appr, incl_refl. apply map_app.
Qed.

Lemma C21_refuted_lemma : exists os o,
  hangul_run hangul_init (os ++ [o]) <> hangul_run hangul_init os ++ hangul_run hangul_init [o].
Proof.
  (* es, _ := SplitMultiElement(GG); es[0] = H; then SplitMultiElement(GG) again *)
  exists [OpStore 0x3132 0 0x314E], (OpSplitMulti 0x3132). vm_compute. discriminate.
Qed.

(** The table after a history. *)
Definition hangul_state (h : list (Z * list Z)) (os : list hangul_op) : list (Z * list Z) :=
  fold_left (fun h o => fst (hangul_step h o)) os h.

Lemma hangul_run_app os : forall h os',
  hangul_run h (os ++ os') = hangul_run h os ++ hangul_run (hangul_state h os) os'.
Proof.
  induction os as [|o os IH]; intros h os'; [reflexivity|].
  cbn [app hangul_run hangul_state fold_left].
  destruct (hangul_step h o) as [h' out] eqn:E. cbn [fst]. rewrite IH. reflexivity.
Qed.

Lemma map_get_update h k es k' :
  map_get (map_update h k es) k' =
  match map_get h k' with
  | Some v => Some (if k' =? k then es else v)
  | None => None
  end.
Proof.
  induction h as [|[a v] h IH]; [reflexivity|]. cbn [map_update map_get].
  destruct (Z.eqb_spec a k) as [->|Hak]; cbn [map_get].
  - destruct (Z.eqb_spec k k') as [->|Hk]; [rewrite Z.eqb_refl; reflexivity|].
    destruct (map_get h k'); [|reflexivity]. destruct (Z.eqb_spec k' k); [congruence|reflexivity].
  - destruct (Z.eqb_spec a k') as [->|Hk'].
    + destruct (Z.eqb_spec k' k); [congruence|reflexivity].
    + exact IH.
Qed.

(** Every reachable table has the same keys and element counts as the initial one, and the
    initial elements for every letter that was not stored to. *)
Definition same_shape (h h' : list (Z * list Z)) : Prop :=
  forall k, match map_get h k, map_get h' k with
            | Some a, Some b => zlen a = zlen b
            | None, None => True
            | _, _ => False
            end.
Lemma same_shape_refl h : same_shape h h.
Proof. intros k. destruct (map_get h k); auto. Qed.
Lemma same_shape_trans a b c : same_shape a b -> same_shape b c -> same_shape a c.
Proof.
  intros H1 H2 k. specialize (H1 k). specialize (H2 k).
  destruct (map_get a k), (map_get b k), (map_get c k); try tauto; congruence.
Qed.

Lemma step_shape h o : same_shape h (fst (hangul_step h o)).
Proof.
  destruct o as [r|r|r i v]; cbn [hangul_step].
  - destruct (SplitMultiElement_in h r). apply same_shape_refl.
  - apply same_shape_refl.
  - unfold SplitMultiElement_in. destruct (map_get h (CompatJamo r)) as [es|] eqn:E.
    + destruct (_ && _) eqn:Ei; [|apply same_shape_refl]. cbn [fst].
      intros k. rewrite map_get_update. destruct (map_get h k) as [a|] eqn:Ek; [|exact I].
      destruct (Z.eqb_spec k (CompatJamo r)) as [->|]; [|reflexivity].
      assert (a = es) as -> by congruence. rewrite zlen_zwrite; [reflexivity|lia|].
      change (zlen [v]) with 1. lia.
    + destruct (_ && _) eqn:Ei; [|apply same_shape_refl]. change (zlen (@nil Z)) with 0 in Ei. lia.
Qed.

Lemma state_shape os : forall h, same_shape h (hangul_state h os).
Proof.
  induction os as [|o os IH]; intros h; [apply same_shape_refl|].
  cbn [hangul_state fold_left]. eapply same_shape_trans; [apply step_shape|apply IH].
Qed.

Definition stores_to (k : Z) (o : hangul_op) : Prop :=
  exists r i v, o = OpStore r i v /\ CompatJamo r = k.

Lemma step_other h o k : ~ stores_to k o -> map_get (fst (hangul_step h o)) k = map_get h k.
Proof.
  intros Hn. destruct o as [r|r|r i v]; cbn [hangul_step].
  - destruct (SplitMultiElement_in h r). reflexivity.
  - reflexivity.
  - destruct (SplitMultiElement_in h r) as [es ok]. destruct (_ && _); [|reflexivity].
    cbn [fst]. rewrite map_get_update. destruct (map_get h k); [|reflexivity].
    destruct (Z.eqb_spec k (CompatJamo r)) as [->|]; [|reflexivity].
    destruct Hn. exists r, i, v. split; reflexivity.
Qed.

Lemma state_other os : forall h k, (forall o, In o os -> ~ stores_to k o) ->
  map_get (hangul_state h os) k = map_get h k.
Proof.
  induction os as [|o os IH]; intros h k H; [reflexivity|].
  change (hangul_state h (o :: os)) with (hangul_state (fst (hangul_step h o)) os).
  rewrite IH by (intros; apply H; right; assumption).
  apply step_other. apply H. left. reflexivity.
Qed.

Lemma run_one h o : hangul_run h [o] = [snd (hangul_step h o)].
Proof. cbn [hangul_run]. destruct (hangul_step h o). reflexivity. Qed.

Lemma stroke_leaf_same h r :
  map_get h (CompatJamo (CompatJamo r)) = map_get multiElements (CompatJamo (CompatJamo r)) ->
  stroke_leaf h r = stroke_leaf multiElements r.
Proof. intros E. unfold stroke_leaf, SplitMultiElement_in. rewrite E. reflexivity. Qed.

(** Whether SplitMultiElement succeeds, and how many elements it returns, survives every
    history; and the results for a letter survive every history that does not assign into
    the slice of that very letter. *)
Lemma C21_lemma os :
  (forall r, exists es, hangul_run hangul_init (os ++ [OpSplitMulti r]) =
     hangul_run hangul_init os ++ [OutSplitMulti es (snd (SplitMultiElement r))] /\
     length es = length (fst (SplitMultiElement r))) /\
  (forall r, exists n, hangul_run hangul_init (os ++ [OpStroke r]) =
     hangul_run hangul_init os ++ [OutStroke (Ok n)]) /\
  (forall r, (forall r' i v, In (OpStore r' i v) os -> CompatJamo r' <> CompatJamo r) ->
     hangul_run hangul_init (os ++ [OpSplitMulti r]) =
       hangul_run hangul_init os ++ hangul_run hangul_init [OpSplitMulti r] /\
     (~ is_syllable r ->
      hangul_run hangul_init (os ++ [OpStroke r]) =
        hangul_run hangul_init os ++ hangul_run hangul_init [OpStroke r])).
Proof.
  split; [|split].
  - intros r. rewrite hangul_run_app, run_one. cbn [hangul_step].
    pose proof (state_shape os hangul_init (CompatJamo r)) as Hs.
    unfold SplitMultiElement. unfold SplitMultiElement_in.
    change hangul_init with multiElements in *.
    destruct (map_get multiElements (CompatJamo r)) as [a|],
      (map_get (hangul_state multiElements os) (CompatJamo r)) as [b|]; try tauto; cbn [snd fst].
    + exists b. split; [reflexivity|]. unfold zlen in Hs. lia.
    + exists []. split; reflexivity.
  - intros r. rewrite hangul_run_app, run_one. cbn [hangul_step snd].
    set (h := hangul_state hangul_init os).
    assert (forall r, ~ is_syllable r -> exists n, Stroke_in h 1 r = Ok n) as Hleaf.
    { intros r' Hr'. rewrite Stroke_in_leaf by exact Hr'. unfold stroke_leaf.
      destruct (SplitMultiElement_in h (CompatJamo r')) as [es ok]. destruct ok; eauto. }
    assert (exists n, Stroke_in h 2 r = Ok n) as (n & ->); [|eauto].
    destruct (Z_le_dec 0xAC00 r) as [Hlo|Hlo]; [destruct (Z_le_dec r 0xD7A3) as [Hhi|Hhi]|].
    + assert (is_syllable r) as Hr by (unfold is_syllable; lia).
      pose proof (proj2 (Split_wf r (syllable_int32 r Hr)) Hr) as Hwf.
      remember 1%nat as k. cbn [Stroke_in].
      destruct (_ && _) eqn:E; [|lia]. clear E.
      destruct (Split r) as [[l m] t]. destruct Hwf as (Hl & Hm & Ht).
      destruct (Hleaf l) as (a & Ea); [apply jamo_not_syllable; tauto|].
      destruct (Hleaf m) as (b & Eb); [apply jamo_not_syllable; tauto|].
      destruct (Hleaf t) as (d & Ed); [apply jamo_not_syllable; tauto|].
      rewrite Ea, Eb, Ed. cbn [bind]. eauto.
    + rewrite Stroke_in_leaf by (unfold is_syllable; lia). unfold stroke_leaf.
      destruct (SplitMultiElement_in h (CompatJamo r)) as [es ok]. destruct ok; eauto.
    + rewrite Stroke_in_leaf by (unfold is_syllable; lia). unfold stroke_leaf.
      destruct (SplitMultiElement_in h (CompatJamo r)) as [es ok]. destruct ok; eauto.
  - intros r H.
    assert (map_get (hangul_state hangul_init os) (CompatJamo r) = map_get hangul_init (CompatJamo r)) as E.
    { apply state_other. intros o Ho (r' & i & v & -> & Hr'). exact (H r' i v Ho Hr'). }
    split.
    + rewrite hangul_run_app, !run_one. cbn [hangul_step]. unfold SplitMultiElement_in. rewrite E.
      destruct (map_get hangul_init (CompatJamo r)); reflexivity.
    + intros Hr. rewrite hangul_run_app, !run_one. cbn [hangul_step snd].
      do 3 f_equal. rewrite !Stroke_in_leaf by exact Hr. apply stroke_leaf_same.
      rewrite CompatJamo_idem. exact E.
Qed.

Lemma Join_injective l m t l' m' t' :
  wf_triple (l, m, t) -> wf_triple (l', m', t') ->
  Join l m t = Join l' m' t' -> (l, m, t) = (l', m', t').
Proof.
  intros H H' E. rewrite <- (proj2 (Split_Join _ _ _ H)), <- (proj2 (Split_Join _ _ _ H')).
  rewrite E. reflexivity.
Qed.

Lemma C18_refuted_lemma :
  (exists word t, Forall is_byte word /\ LastConsonant word = Ok t /\ t <> 0 /\ ~ is_tail_jamo t) /\
  (exists r, is_scalar r /\ ~ is_syllable r /\ EndsWithConsonant (utf8_char r) = Ok true).
Proof.
  split.
  - exists [0x61], 0x11A4. split; [repeat constructor; discriminate|].
    split; [vm_compute; reflexivity|]. unfold is_tail_jamo. lia.
  - exists 0x61. unfold is_scalar, is_syllable. split; [lia|]. split; [lia|].
    vm_compute. reflexivity.
Qed.
