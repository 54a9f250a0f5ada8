(** LastConsonant on every word: the lemma behind C18_exact_partial. *)
From Coq Require Import ZArith List Bool Lia.
From Verif Require Import Base Spec Facts Utf8 Utf8Facts HangulModel HangulFacts3.
Import ListNotations.
Local Open Scope Z_scope.

Lemma reads_as_end s rs : reads_as s rs -> forall rs0 r, rs = rs0 ++ [r] -> (exists pre, s = pre ++ utf8_char r) \/ r = replacement.
Proof.
  induction 1 as [|c s rs Hc H IH|b s rs Hbad H IH]; intros rs0 r E.
  - destruct rs0; discriminate.
  - destruct rs0 as [|x rs0]; cbn in E; injection E as -> ->.
    + inversion H; subst. left. exists []. rewrite app_nil_r. reflexivity.
    + destruct (IH rs0 r eq_refl) as [[pre ->]|?]; [|auto]. left. exists (utf8_char x ++ pre). apply app_assoc.
  - destruct rs0 as [|x rs0]; cbn in E; injection E as <- ->; [auto|].
    destruct (IH rs0 r eq_refl) as [[pre ->]|?]; [|auto]. left. exists (b :: pre). reflexivity.
Qed.

Lemma ends_dec (s t : list Z) : {pre | s = pre ++ t} + {forall pre, s <> pre ++ t}.
Proof.
  induction s as [|b s IH].
  - destruct t; [left; exists []; reflexivity|right; intros pre E; destruct pre; discriminate].
  - destruct (list_eq_dec Z.eq_dec (b :: s) t) as [<-|N]; [left; exists []; reflexivity|].
    destruct IH as [[pre ->]|IH]; [left; exists (b :: pre); reflexivity|].
    right. intros [|x pre] E; cbn in E; [congruence|]. injection E as -> E. exact (IH pre E).
Qed.

Lemma Split_tail_exact r : is_scalar r -> let t := snd (Split r) in
  ((r - 0xAC00) mod 28 = 0 -> t = 0) /\
  ((r - 0xAC00) mod 28 <> 0 -> 0xAC00 <= r -> t = 0x11A7 + (r - 0xAC00) mod 28) /\
  ((r - 0xAC00) mod 28 <> 0 -> r < 0xAC00 -> t = 0x11A7 - (0xAC00 - r) mod 28).
Proof.
  intros Hr. cbv zeta. rewrite Split_tail by exact Hr. cbv zeta.
  destruct (Z_le_dec 0xAC00 r).
  - rewrite Z.rem_mod_nonneg by lia. destruct (Z.eqb_spec ((r - 0xAC00) mod 28) 0); lia.
  - replace (r - 0xAC00) with (- (0xAC00 - r)) by lia.
    rewrite Z.rem_opp_l by lia. rewrite Z.rem_mod_nonneg by lia.
    assert ((- (0xAC00 - r)) mod 28 = 0 <-> (0xAC00 - r) mod 28 = 0) as Hm.
    { split; intros E.
      - apply Z.mod_opp_l_z in E; [|lia]. rewrite Z.opp_involutive in E. exact E.
      - apply Z.mod_opp_l_z; [lia|exact E]. }
    destruct (Z.eqb_spec (- ((0xAC00 - r) mod 28)) 0); lia.
Qed.

Lemma C18_exact_lemma word : Forall is_byte word -> word <> [] ->
  exists r t, is_scalar r /\ LastConsonant word = Ok t /\
    ((exists pre, word = pre ++ utf8_char r) \/
     r = 0xFFFD /\ forall pre r', is_scalar r' -> word <> pre ++ utf8_char r') /\
    ((r - 0xAC00) mod 28 = 0 -> t = 0) /\
    ((r - 0xAC00) mod 28 <> 0 -> 0xAC00 <= r -> t = 0x11A7 + (r - 0xAC00) mod 28) /\
    ((r - 0xAC00) mod 28 <> 0 -> r < 0xAC00 -> t = 0x11A7 - (0xAC00 - r) mod 28).
Proof.
  intros Hw Hn. destruct (LastConsonant_runes word Hw Hn) as (rs & r & E & Hr & HL).
  exists r, (snd (Split r)). split; [exact Hr|]. split; [exact HL|]. split; [|apply Split_tail_exact; exact Hr].
  destruct (ends_dec word (utf8_char r)) as [[pre Ep]|N]; [eauto|]. right.
  destruct (reads_as_end word _ (string_to_runes_reads word Hw) rs r E) as [[pre Ep]|Er]; [destruct (N pre Ep)|].
  split; [exact Er|]. intros pre r' Hr' Ew.
  assert (Forall is_byte pre) as Hp by (subst word; apply Forall_app in Hw; tauto).
  rewrite Ew, string_to_runes_last in E by assumption. apply app_inj_tail in E as [_ <-]. exact (N pre Ew).
Qed.

(** ** AppendPostposition *)
Lemma C141_exact_lemma word with_ without : Forall is_byte word -> word <> [] ->
  exists r, is_scalar r /\
    ((exists pre, word = pre ++ utf8_char r) \/
     r = 0xFFFD /\ forall pre r', is_scalar r' -> word <> pre ++ utf8_char r') /\
    let k := (r - 0xAC00) mod 28 in
    let open := k = 0 \/ with_ = utf8 [0xC73C; 0xB85C] /\ 0xAC00 <= r /\ k = 8 in
    (open -> AppendPostposition word with_ without = Ok (word ++ without)) /\
    (~ open -> AppendPostposition word with_ without = Ok (word ++ with_)).
Proof.
  intros Hw Hn. destruct (C18_exact_lemma word Hw Hn) as (r & t & Hr & E & He & H0 & H1 & H2).
  exists r. split; [exact Hr|]. split; [exact He|]. cbv zeta. rewrite (Append_value _ _ _ _ E), <- str_euro_utf8.
  pose proof (Z.mod_pos_bound (r - 0xAC00) 28 ltac:(lia)) as B1. pose proof (Z.mod_pos_bound (0xAC00 - r) 28 ltac:(lia)) as B2.
  assert (t = 0 <-> (r - 0xAC00) mod 28 = 0) as T0.
  { split; [|exact H0]. intros ->. destruct (Z.eq_dec ((r - 0xAC00) mod 28) 0) as [?|N]; [assumption|].
    destruct (Z_le_dec 0xAC00 r); [specialize (H1 N ltac:(lia))|specialize (H2 N ltac:(lia))]; lia. }
  assert (t = 0x11AF <-> 0xAC00 <= r /\ (r - 0xAC00) mod 28 = 8) as T1.
  { split.
    - intros ->. destruct (Z.eq_dec ((r - 0xAC00) mod 28) 0) as [e|N]; [specialize (H0 e); discriminate|].
      destruct (Z_le_dec 0xAC00 r); [specialize (H1 N ltac:(lia))|specialize (H2 N ltac:(lia))]; lia.
    - intros [? e]. rewrite H1 by lia. lia. }
  destruct (Z.eqb_spec t 0) as [Et|Nt].
  - split; [reflexivity|]. intros N. destruct N. left. apply T0, Et.
  - destruct (str_eqb with_ str_euro) eqn:Es, (Z.eqb_spec t 0x11AF) as [El|Nl]; cbn [orb andb].
    + apply str_eqb_eq in Es. apply T1 in El. split; [reflexivity|]. intros N. destruct N. auto.
    + split; [|reflexivity]. intros [O|(_ & O)]; [apply T0 in O; lia|apply T1 in O; lia].
    + split; [|reflexivity]. intros [O|(O & _)]; [apply T0 in O; lia|apply str_eqb_eq in O; congruence].
    + split; [|reflexivity]. intros [O|(O & _)]; [apply T0 in O; lia|apply str_eqb_eq in O; congruence].
Qed.

Lemma C141_refuted_lemma : exists r, is_scalar r /\ ~ is_syllable r /\ forall pre with_ without, Forall is_byte pre ->
  with_ <> utf8 [0xC73C; 0xB85C] -> AppendPostposition (pre ++ utf8_char r) with_ without = Ok (pre ++ utf8_char r ++ with_).
Proof.
  exists 0x41. split; [unfold is_scalar; lia|]. split; [unfold is_syllable; lia|]. intros pre with_ without Hp N.
  assert (is_scalar 0x41) as Hs by (unfold is_scalar; lia).
  rewrite (Append_value _ _ _ _ (LastConsonant_last pre 0x41 Hp Hs)), <- app_assoc. rewrite <- str_euro_utf8 in N.
  destruct (str_eqb with_ str_euro) eqn:Es; [apply str_eqb_eq in Es; congruence|reflexivity].
Qed.

(** A syllable decomposed into jamo. *)
Lemma last_char_Append pre a r with_ without : Forall is_byte pre -> Forall is_scalar a -> is_scalar r -> r < 0xAC00 ->
  AppendPostposition (pre ++ utf8 (a ++ [r])) with_ without =
  Ok (pre ++ utf8 (a ++ [r]) ++ if (0xAC00 - r) mod 28 =? 0 then without else with_).
Proof.
  intros Hp Ha Hr Hl. rewrite utf8_app. cbn [utf8 flat_map]. rewrite app_nil_r. fold (utf8 a). rewrite !app_assoc.
  assert (Forall is_byte (pre ++ utf8 a)) as Hb by (apply Forall_app; auto using utf8_bytes).
  rewrite (Append_value _ _ _ _ (LastConsonant_last _ r Hb Hr)), Split_tail by exact Hr. cbv zeta. f_equal. f_equal.
  replace (r - 0xAC00) with (- (0xAC00 - r)) by lia.
  rewrite Z.rem_opp_l by lia. rewrite Z.rem_mod_nonneg by lia. pose proof (Z.mod_pos_bound (0xAC00 - r) 28 ltac:(lia)).
  destruct (Z.eqb_spec ((0xAC00 - r) mod 28) 0) as [->|N]; [reflexivity|].
  destruct (Z.eqb_spec (- ((0xAC00 - r) mod 28)) 0); [lia|].
  destruct (Z.eqb_spec (- ((0xAC00 - r) mod 28) + 0x11A7) 0); [lia|].
  destruct (Z.eqb_spec (- ((0xAC00 - r) mod 28) + 0x11A7) 0x11AF); [lia|]. rewrite andb_false_r. reflexivity.
Qed.

Lemma C142_exact_lemma pre l m t with_ without : Forall is_byte pre -> wf_triple (l, m, t) ->
  let word := pre ++ utf8 (if t =? 0 then [l; m] else [l; m; t]) in
  let last := if t =? 0 then m else t in
  (last = 0x1174 \/ last = 0x11AC -> AppendPostposition word with_ without = Ok (word ++ without)) /\
  (last <> 0x1174 -> last <> 0x11AC -> AppendPostposition word with_ without = Ok (word ++ with_)).
Proof.
  intros Hp (Hl & Hm & Ht). cbv zeta.
  unfold is_lead_jamo, is_medial_jamo, is_tail_jamo in *.
  assert (is_scalar l /\ is_scalar m /\ (t <> 0 -> is_scalar t)) as (Sl & Sm & St) by (unfold is_scalar; lia).
  destruct (Z.eqb_spec t 0) as [E|N].
  - change [l; m] with ([l] ++ [m]). rewrite last_char_Append by (auto; lia). rewrite app_assoc.
    destruct (Z.eqb_spec ((0xAC00 - m) mod 28) 0) as [e|n].
    + assert (m = 0x1174) as -> by (Z.div_mod_to_equations; lia). split; [reflexivity|lia].
    + split; [|reflexivity]. intros [->| ->]; [destruct (n eq_refl)|lia].
  - change [l; m; t] with ([l; m] ++ [t]). rewrite last_char_Append by (auto; lia). rewrite app_assoc.
    destruct (Z.eqb_spec ((0xAC00 - t) mod 28) 0) as [e|n].
    + assert (t = 0x11AC) as -> by (Z.div_mod_to_equations; lia). split; [reflexivity|lia].
    + split; [|reflexivity]. intros [->| ->]; [lia|destruct (n eq_refl)].
Qed.

Lemma C142_refuted_lemma : exists c l m, is_syllable c /\ Split c = (l, m, 0) /\ forall pre with_ without, Forall is_byte pre ->
  AppendPostposition (pre ++ utf8_char c) with_ without = Ok ((pre ++ utf8_char c) ++ without) /\
  AppendPostposition (pre ++ utf8 [l; m]) with_ without = Ok ((pre ++ utf8 [l; m]) ++ with_).
Proof.
  exists 0xB098, 0x1102, 0x1161. split; [unfold is_syllable; lia|]. split; [reflexivity|].
  intros pre with_ without Hp. split.
  - pose proof (proj2 (proj2 C19_lemma) pre 0xB098 with_ without Hp ltac:(unfold is_syllable; lia)) as H. cbv zeta in H.
    assert (Split 0xB098 = (0x1102, 0x1161, 0)) as E by (vm_compute; reflexivity). rewrite E in H. exact (proj1 H eq_refl).
  - apply (C142_exact_lemma pre 0x1102 0x1161 0 with_ without Hp); [|discriminate..].
    split; [unfold is_lead_jamo; lia|]. split; [unfold is_medial_jamo; lia|]. left. reflexivity.
Qed.
