(** Lemmas for PropGuess.v: encoded texts that are valid UTF-8. *)
From Coq Require Import ZArith List Bool Lia.
From Verif Require Import Base Spec SpecCp949 SpecIO SpecGuess Cp949Model Utf8Facts Cp949Facts Cp949Facts2 Cp949Facts3 TableFacts PMapFacts.
Import ListNotations.
Local Open Scope Z_scope.
Local Open Scope list_scope.

Lemma low_lead c u : assigned c u -> ~ ideograph u -> 0x81 <= c / 256 <= 0xC8.
Proof.
  intros H Hn. pose proof (assigned_ranges c u H) as [[Hr _] _].
  assert (E : (c / 256 <=? 0xC8) || (0x4E00 <=? u) && (u <=? 0x9FFF) || (0xF900 <=? u) && (u <=? 0xFAFF) = true).
  { clear Hn Hr. revert c u H. apply assigned_forall. vm_compute. reflexivity. }
  rewrite !orb_true_iff, !andb_true_iff, !Z.leb_le in E. unfold ideograph in Hn. lia.
Qed.

Lemma cons_eq (a b : Z) l m : a :: l = b :: m -> a = b /\ l = m.
Proof. intros E. split; [exact (f_equal (hd 0) E)|exact (f_equal (@tl Z) E)]. Qed.
Lemma valid_cons b s : 0 <= b < 0x80 -> (valid_utf8 (b :: s) <-> valid_utf8 s).
Proof.
  intros Hb. split.
  - intros (rs & Hs & E). destruct rs as [|r rs]; [discriminate|]. inversion Hs as [|? ? Hr Hs']; subst. rewrite utf8_cons in E.
    exists rs. split; [exact Hs'|]. unfold utf8_char in E. unfold is_scalar in Hr.
    destruct (r <? 0x80); [apply cons_eq in E as [_ E]; exact E|].
    assert (0 <= r / 64 /\ 0 <= r / 4096 /\ 0 <= r / 262144) by (repeat split; apply Z.div_pos; lia).
    destruct (r <? 0x800); [|destruct (r <? 0x10000)]; cbn [app] in E; apply cons_eq in E as [E _]; lia.
  - intros (rs & Hs & ->). exists (b :: rs). split; [constructor; [unfold is_scalar; lia|exact Hs]|].
    rewrite utf8_cons, utf8_char_ascii by exact Hb. reflexivity.
Qed.
Lemma valid_pair b0 b1 s : 0x80 <= b0 <= 0xDF -> (valid_utf8 (b0 :: b1 :: s) <-> 0xC2 <= b0 /\ 0x80 <= b1 <= 0xBF /\ valid_utf8 s).
Proof.
  intros Hb. split.
  - intros (rs & Hs & E). destruct rs as [|r rs]; [discriminate|]. inversion Hs as [|? ? Hr Hs']; subst. rewrite utf8_cons in E.
    unfold utf8_char in E. unfold is_scalar in Hr.
    destruct (Z.ltb_spec r 0x80); [apply cons_eq in E as [E _]; lia|].
    assert (0 <= r / 4096 /\ 0 <= r / 262144) by (split; apply Z.div_pos; lia).
    destruct (Z.ltb_spec r 0x800); [|destruct (r <? 0x10000); cbn [app] in E; apply cons_eq in E as [E _]; lia].
    cbn [app] in E. apply cons_eq in E as [-> E]. apply cons_eq in E as [-> ->]. pose proof (Z.mod_pos_bound r 64 ltac:(lia)).
    split; [|split; [lia|exists rs; auto]]. assert (2 <= r / 64) by (apply Z.div_le_lower_bound; lia). lia.
  - intros (H0 & H1 & rs & Hs & ->). set (r := (b0 - 0xC0) * 64 + (b1 - 0x80)).
    assert (Hd : r / 64 = b0 - 0xC0) by (unfold r; rewrite Z.div_add_l, Z.div_small by lia; lia).
    assert (Hm : r mod 64 = b1 - 0x80) by (unfold r; rewrite Z.add_comm, Z.mod_add, Z.mod_small by lia; lia).
    exists (r :: rs). split; [constructor; [unfold is_scalar, r; lia|exact Hs]|]. rewrite utf8_cons. unfold utf8_char.
    destruct (Z.ltb_spec r 0x80); [unfold r in *; lia|]. destruct (Z.ltb_spec r 0x800); [|unfold r in *; lia].
    rewrite Hd, Hm. cbn [app]. replace (0xC0 + (b0 - 0xC0)) with b0 by lia. replace (0x80 + (b1 - 0x80)) with b1 by lia. reflexivity.
Qed.

Lemma valid_encoded rs bs : encodes rs bs -> Forall (fun r => ~ ideograph r) rs -> (valid_utf8 bs <-> Forall two_bytes rs).
Proof.
  induction 1 as [|r rs bs Hr H IH|c r rs bs Ha H IH]; intros Hn.
  - split; [constructor|]. intros _. exists []. split; [constructor|reflexivity].
  - inversion Hn; subst. rewrite (valid_cons r bs Hr), (IH ltac:(assumption)). split.
    + intros Hf. constructor; [left; exact Hr|exact Hf].
    + intros Hf. inversion Hf; assumption.
  - inversion Hn as [|? ? Hi Hn']; subst. pose proof (low_lead c r Ha Hi) as Hl. unfold code_bytes. cbn [app].
    rewrite (valid_pair (c / 256) (c mod 256) bs ltac:(lia)), (IH Hn'). split.
    + intros (H0 & H1 & Hf). constructor; [right; exists c; repeat split; auto; lia|exact Hf].
    + intros Hf. inversion Hf as [|? ? Ht Hf']; subst. split; [|split; [|exact Hf']]; destruct Ht as [Ht|(c' & Hc' & H1 & H2)].
      * pose proof (assigned_ranges c r Ha). lia.
      * replace c with c' by (apply assigned_enc in Ha, Hc'; congruence). lia.
      * pose proof (assigned_ranges c r Ha). lia.
      * replace c with c' by (apply assigned_enc in Ha, Hc'; congruence). lia.
Qed.
Lemma valid_To grow rs : Forall in_repertoire rs -> Forall (fun r => ~ ideograph r) rs ->
  exists x, To grow (utf8 rs) = Ok (inl x) /\ (valid_utf8 x <-> Forall two_bytes rs).
Proof.
  intros Hr Hn. destruct (C28_lemma grow rs Hr) as (x & He & E & _). exists x. split; [exact E|]. apply valid_encoded; assumption.
Qed.
(** In particular, the syllables up to the code C1FE. *)
Lemma guess_right grow rs r c : Forall in_repertoire rs -> Forall (fun r => ~ ideograph r) rs -> In r rs -> assigned c r -> c < 0xC200 ->
  exists x, To grow (utf8 rs) = Ok (inl x) /\ ~ valid_utf8 x.
Proof.
  intros Hr Hn Hin Hc Hlt. destruct (valid_To grow rs Hr Hn) as (x & E & Hv). exists x. split; [exact E|]. rewrite Hv, Forall_forall.
  intros H. destruct (H r Hin) as [H1|(c' & Hc' & H1 & _)].
  - pose proof (assigned_ranges c r Hc). lia.
  - replace c' with c in H1 by (apply assigned_enc in Hc, Hc'; congruence).
    assert (c / 256 < 0xC2) by (apply Z.div_lt_upper_bound; lia). lia.
Qed.
Lemma guess_wrong n : exists text u, Forall is_syllable text /\ length text = S n /\ Forall is_scalar u /\
  forall grow, To grow (utf8 text) = Ok (inl (utf8 u)).
Proof.
  assert (H : exists r, tget dec_tree 0xC2A1 = Some r /\ is_syllable r).
  { eexists. split; [vm_compute; reflexivity|]. unfold is_syllable; lia. }
  destruct H as (r & Hr & Hs). apply assigned_by in Hr.
  exists (repeat r (S n)), (repeat 0xA1 (S n)). split; [apply Forall_forall; intros z Hz; apply repeat_spec in Hz; subst z; exact Hs|].
  split; [apply repeat_length|]. split; [apply Forall_forall; intros z Hz; apply repeat_spec in Hz; subst z; unfold is_scalar; lia|].
  intros grow. apply To_encodes. generalize (S n) as m. induction m as [|m IH]; [constructor|].
  cbn [repeat]. rewrite utf8_cons. change (utf8_char 0xA1) with (code_bytes 0xC2A1). apply enc_code; assumption.
Qed.
(** With ideographs as well, the first character beyond ASCII decides if its code is below C200. *)
Lemma first_wrong grow a r c rest : Forall (fun r => 0 <= r < 0x80) a -> assigned c r -> c < 0xC200 -> Forall in_repertoire rest ->
  exists x, To grow (utf8 (a ++ r :: rest)) = Ok (inl x) /\ ~ valid_utf8 x.
Proof.
  intros Ha Hc Hlt Hr. destruct (repertoire_encodes rest Hr) as [y Hy].
  exists (a ++ code_bytes c ++ y). split.
  { apply To_encodes. apply encodes_app; [|apply enc_code; assumption].
    induction Ha as [|b a Hb _ IH]; constructor; assumption. }
  pose proof (assigned_ranges c r Hc) as [[H1 _] _]. assert (c / 256 < 0xC2) by (apply Z.div_lt_upper_bound; lia).
  induction Ha as [|b a Hb _ IH].
  - unfold code_bytes. cbn [app]. rewrite valid_pair by lia. lia.
  - cbn [app]. rewrite valid_cons by exact Hb. exact IH.
Qed.
