(** Lemmas for PropLookup.v: words that begin with given letters are neighbours. *)
From Coq Require Import ZArith List Bool Lia ZifyBool.
From Verif Require Import Base Spec SpecText HangulModel HangulFacts HangulFacts3 SpecCp949 Cp949Model Cp949Facts Cp949Facts2 Cp949Facts3 TableFacts PMapFacts SpecGuess GuessFacts.
Import ListNotations.
Local Open Scope Z_scope.
Local Open Scope list_scope.

Lemma lex_same x s t : lex_lt (x :: s) (x :: t) <-> lex_lt s t.
Proof. split; [|apply lex_tail]. intros H. inversion H; subst; [lia|assumption]. Qed.
Lemma lex_range p lo hi w : lo <= hi ->
  ((~ lex_lt w (p ++ [lo]) /\ lex_lt w (p ++ [hi])) <-> exists c rest, w = p ++ c :: rest /\ lo <= c < hi).
Proof.
  intros Hlh. revert w. induction p as [|y p IH]; intros w; cbn [app].
  - destruct w as [|c r].
    + split; [intros [H _]; destruct H; constructor|]. intros (c & rest & E & _). discriminate.
    + split.
      * intros [H1 H2]. exists c, r. split; [reflexivity|]. split.
        -- destruct (Z.lt_ge_cases c lo) as [Hc|Hc]; [|lia]. destruct H1. apply lex_less. exact Hc.
        -- inversion H2 as [|? ? ? ? Hc|? ? ? Hc]; subst; [exact Hc|inversion Hc].
      * intros (c' & rest & E & Hc). injection E as <- <-. split; [|apply lex_less; lia].
        intros H. inversion H as [|? ? ? ? Hl|? ? ? Hl]; subst; [lia|inversion Hl].
  - destruct w as [|c r].
    + split; [intros [H _]; destruct H; constructor|]. intros (c & rest & E & _). discriminate.
    + destruct (Z.lt_trichotomy c y) as [Hc|[->|Hc]].
      * split; [intros [H _]; destruct H; apply lex_less; exact Hc|]. intros (c' & rest & E & _). injection E as E _. lia.
      * rewrite !lex_same, IH. split; intros (c' & rest & E & Hc); exists c', rest; (split; [|exact Hc]).
        -- rewrite E. reflexivity.
        -- injection E as E. exact E.
      * split; [|intros (c' & rest & E & _); injection E as E _; lia].
        intros [_ H]. inversion H; subst; lia.
Qed.

Lemma lead_value x l : as_lead x l -> is_lead_jamo (Lead x) /\ Lead x = l.
Proof.
  intros H. pose proof (Lead_as _ _ H) as E. split; [|exact E]. destruct (Lead_range x) as [E0|H0]; [|exact H0]. exfalso.
  destruct H as (y & Hy & _). destruct y; cbn in Hy; try discriminate; injection Hy as Hy; lia.
Qed.
Lemma medial_value x l : as_medial x l -> is_medial_jamo (Medial x) /\ Medial x = l.
Proof.
  intros H. pose proof (Medial_as _ _ H) as E. split; [|exact E]. destruct (Medial_range x) as [E0|H0]; [|exact H0]. exfalso.
  destruct H as (y & Hy & _). destruct y; cbn in Hy; try discriminate; injection Hy as Hy; lia.
Qed.
Lemma first_of x l : as_lead x l -> Join x 0x1161 0 = 0xAC00 + (l - 0x1100) * 588 /\ Join x 0x1175 0x11C2 = 0xAC00 + (l - 0x1100) * 588 + 587 /\ is_lead_jamo l.
Proof.
  intros H. destruct (lead_value x l H) as [H1 E]. rewrite <- E.
  assert (M1 : Medial 0x1161 = 0x1161) by (vm_compute; reflexivity). assert (M2 : Medial 0x1175 = 0x1175) by (vm_compute; reflexivity).
  assert (T1 : Tail 0 = 0) by (vm_compute; reflexivity). assert (T2 : Tail 0x11C2 = 0x11C2) by (vm_compute; reflexivity).
  rewrite !Join_value, M1, M2, T1, T2 by (try exact H1; rewrite ?M1, ?M2; unfold is_medial_jamo; lia).
  unfold tail_index. cbn [Z.eqb]. split; [lia|]. split; [lia|exact H1].
Qed.
Lemma first_two x l y m : as_lead x l -> as_medial y m ->
  Join x y 0 = 0xAC00 + (l - 0x1100) * 588 + (m - 0x1161) * 28 /\
  Join x y 0x11C2 = 0xAC00 + (l - 0x1100) * 588 + (m - 0x1161) * 28 + 27 /\ is_lead_jamo l /\ is_medial_jamo m.
Proof.
  intros H Hm. destruct (lead_value x l H) as [H1 E]. destruct (medial_value y m Hm) as [H2 E2]. rewrite <- E, <- E2.
  assert (T1 : Tail 0 = 0) by (vm_compute; reflexivity). assert (T2 : Tail 0x11C2 = 0x11C2) by (vm_compute; reflexivity).
  rewrite !Join_value, T1, T2 by assumption.
  unfold tail_index. cbn [Z.eqb]. split; [lia|]. split; [lia|]. split; assumption.
Qed.

Lemma lookup_lead p x l w : Forall is_scalar p -> Forall is_scalar w -> as_lead x l ->
  ((~ lex_lt (utf8 w) (utf8 (p ++ [Join x 0x1161 0])) /\ lex_lt (utf8 w) (utf8 (p ++ [Join x 0x1175 0x11C2 + 1]))) <->
   exists c rest, w = p ++ c :: rest /\ is_syllable c /\ fst (fst (Split c)) = l).
Proof.
  intros Hp Hw Hx. destruct (first_of x l Hx) as (E1 & E2 & Hl). rewrite E1, E2. clear E1 E2. unfold is_lead_jamo in Hl.
  assert (S1 : Forall is_scalar (p ++ [0xAC00 + (l - 0x1100) * 588])) by (apply Forall_app; split; [exact Hp|]; constructor; [unfold is_scalar; lia|constructor]).
  assert (S2 : Forall is_scalar (p ++ [0xAC00 + (l - 0x1100) * 588 + 587 + 1])) by (apply Forall_app; split; [exact Hp|]; constructor; [unfold is_scalar; lia|constructor]).
  rewrite <- (utf8_lex w _ Hw S1), <- (utf8_lex w _ Hw S2), lex_range by lia.
  split; intros (c & rest & E & H); exists c, rest; (split; [exact E|]).
  - assert (Hc : is_syllable c) by (unfold is_syllable; lia). split; [exact Hc|]. rewrite (Split_syllable c Hc). cbn [fst].
    Z.div_mod_to_equations. lia.
  - destruct H as [Hc H]. rewrite (Split_syllable c Hc) in H. cbn [fst] in H. unfold is_syllable in Hc. Z.div_mod_to_equations. lia.
Qed.
Lemma lookup_medial p x l y m w : Forall is_scalar p -> Forall is_scalar w -> as_lead x l -> as_medial y m ->
  ((~ lex_lt (utf8 w) (utf8 (p ++ [Join x y 0])) /\ lex_lt (utf8 w) (utf8 (p ++ [Join x y 0x11C2 + 1]))) <->
   exists c rest t, w = p ++ c :: rest /\ is_syllable c /\ Split c = (l, m, t)).
Proof.
  intros Hp Hw Hx Hy. destruct (first_two x l y m Hx Hy) as (E1 & E2 & Hl & Hm). rewrite E1, E2. clear E1 E2. unfold is_lead_jamo, is_medial_jamo in *.
  assert (S1 : Forall is_scalar (p ++ [0xAC00 + (l - 0x1100) * 588 + (m - 0x1161) * 28])) by (apply Forall_app; split; [exact Hp|]; constructor; [unfold is_scalar; lia|constructor]).
  assert (S2 : Forall is_scalar (p ++ [0xAC00 + (l - 0x1100) * 588 + (m - 0x1161) * 28 + 27 + 1])) by (apply Forall_app; split; [exact Hp|]; constructor; [unfold is_scalar; lia|constructor]).
  rewrite <- (utf8_lex w _ Hw S1), <- (utf8_lex w _ Hw S2), lex_range by lia. split.
  - intros (c & rest & E & H). assert (Hc : is_syllable c) by (unfold is_syllable; lia).
    exists c, rest. rewrite (Split_syllable c Hc). eexists. split; [exact E|]. split; [exact Hc|].
    apply f_equal2; [|reflexivity]. apply f_equal2; Z.div_mod_to_equations; lia.
  - intros (c & rest & t & E & Hc & H). exists c, rest. split; [exact E|]. rewrite (Split_syllable c Hc) in H.
    assert (H1 := f_equal (fun z => fst (fst z)) H). assert (H2 := f_equal (fun z => snd (fst z)) H). cbn [fst snd] in H1, H2. clear H.
    unfold is_syllable in Hc. Z.div_mod_to_equations. lia.
Qed.

(** ** Encoded words *)
(** For every lead: the code of its first syllable, and the code of another syllable with this
    lead (which follows) before it. *)
Definition lead_codes : list (Z * Z * Z) :=
  [(0xB0A1, 0x8141, 0xAC02); (0xB1EE, 0x838A, 0xAE4F); (0xB3AA, 0x85FA, 0xB09B); (0xB4D9, 0x88A3, 0xB2E7); (0xB5FB, 0x8B4D, 0xB532); (0xB6F3, 0x8DEB, 0xB77E); (0xB8B6, 0x90A2, 0xB9CA); (0xB9D9, 0x934B, 0xBC19); (0xBAFC, 0x95BE, 0xBE62); (0xBBE7, 0x98AB, 0xC0AE); (0xBDCE, 0x9AF0, 0xC2FA); (0xBEC6, 0x9DD0, 0xC546); (0xC0DA, 0x9FE8, 0xC792); (0xC2A5, 0xA441, 0xC9DE); (0xC2F7, 0xAA43, 0xCC2A); (0xC4AB, 0xAF87, 0xCE76); (0xC5B8, 0xB56A, 0xD0C2); (0xC6C4, 0xBB4E, 0xD30F); (0xC7CF, 0xC099, 0xD55A)].
Definition lead_code_ok (k : Z) (x : Z * Z * Z) : bool :=
  let '(c, d, v) := x in
  match tget dec_tree c, tget dec_tree d with
  | Some u, Some w => (u =? 0xAC00 + k * 588) && (w =? v) && (v - 0xAC00 <? (k + 1) * 588) && (k * 588 <=? v - 0xAC00) &&
      (d / 256 <? c / 256) && (0xA1 <=? c / 256) && (0xA1 <=? c mod 256)
  | _, _ => false
  end.
Lemma lead_codes_ok : forallb (fun k => lead_code_ok k (nth (Z.to_nat k) lead_codes (0, 0, 0))) (zseq 0 19) = true.
Proof. vm_compute. reflexivity. Qed.
Lemma lead_code_facts l : is_lead_jamo l -> exists c d v, assigned c (0xAC00 + (l - 0x1100) * 588) /\ ks_code c /\ assigned d v /\
  is_syllable v /\ fst (fst (Split v)) = l /\ d / 256 < c / 256.
Proof.
  intros Hl. unfold is_lead_jamo in Hl. pose proof lead_codes_ok as H. rewrite forallb_forall in H.
  specialize (H (l - 0x1100)).
  assert (Hin : In (l - 0x1100) (zseq 0 19)).
  { assert (Hz : forall n lo z, lo <= z < lo + Z.of_nat n -> In z (zseq lo n)).
    { induction n as [|n IH]; intros lo z Hz; [lia|]. cbn [zseq]. destruct (Z.eq_dec lo z); [left; assumption|right; apply IH; lia]. }
    apply Hz. lia. }
  specialize (H Hin). clear Hin. destruct (nth _ lead_codes _) as [[c d] v]. unfold lead_code_ok in H.
  destruct (tget dec_tree c) as [u|] eqn:Hc; [|discriminate]. destruct (tget dec_tree d) as [w|] eqn:Hd; [|discriminate].
  apply assigned_by in Hc, Hd. exists c, d, v.
  assert (E1 : u = 0xAC00 + (l - 0x1100) * 588) by lia. assert (E2 : w = v) by lia. subst u w.
  assert (Sv : is_syllable v) by (unfold is_syllable; lia).
  split; [exact Hc|]. split; [unfold ks_code; lia|]. split; [exact Hd|]. split; [exact Sv|]. split; [|lia].
  rewrite (Split_syllable v Sv). cbn [fst]. Z.div_mod_to_equations. lia.
Qed.
Lemma encoded_refuted l : is_lead_jamo l -> exists w a b, is_syllable w /\ fst (fst (Split w)) = l /\
  (forall grow, To grow (utf8 [w]) = Ok (inl a) /\ To grow (utf8 [Join l 0x1161 0]) = Ok (inl b)) /\ lex_lt a b.
Proof.
  intros Hl. destruct (lead_code_facts l Hl) as (c & d & v & Hc & _ & Hd & Sv & Ev & Hlt).
  assert (Hx : as_lead l l). { rewrite <- (Lead_self l Hl) at 2. apply Lead_nonzero. rewrite (Lead_self l Hl). unfold is_lead_jamo in Hl. lia. }
  destruct (first_of l l Hx) as (E1 & _). rewrite E1.
  exists v, (code_bytes d ++ []), (code_bytes c ++ []). split; [exact Sv|]. split; [exact Ev|]. split.
  - intros grow. split; apply To_encodes; apply enc_code; try assumption; constructor.
  - unfold code_bytes. cbn [app]. apply lex_less. exact Hlt.
Qed.
Lemma encoded_ks grow p l w a b c : Forall ks_text_char p -> Forall ks_text_char w -> is_lead_jamo l -> is_lead_jamo (l + 1) ->
  To grow (utf8 (p ++ [Join l 0x1161 0])) = Ok (inl a) -> To grow (utf8 (p ++ [Join (l + 1) 0x1161 0])) = Ok (inl b) ->
  To grow (utf8 w) = Ok (inl c) ->
  ((~ lex_lt c a /\ lex_lt c b) <-> exists s rest, w = p ++ s :: rest /\ is_syllable s /\ fst (fst (Split s)) = l).
Proof.
  intros Hp Hw Hl Hl' Ha Hb Hc.
  assert (Hx : forall l, is_lead_jamo l -> Join l 0x1161 0 = 0xAC00 + (l - 0x1100) * 588 /\ ks_text_char (0xAC00 + (l - 0x1100) * 588)).
  { clear. intros l Hl.
    assert (Hx : as_lead l l). { rewrite <- (Lead_self l Hl) at 2. apply Lead_nonzero. rewrite (Lead_self l Hl). unfold is_lead_jamo in Hl. lia. }
    destruct (first_of l l Hx) as (E1 & _). split; [exact E1|]. right. split; [unfold is_syllable, is_lead_jamo in *; lia|].
    destruct (lead_code_facts l Hl) as (c & _ & _ & Hc & Hk & _). exists c. split; assumption. }
  destruct (Hx l Hl) as [E1 K1]. destruct (Hx (l + 1) Hl') as [E2 K2]. clear Hx. rewrite E1 in Ha. rewrite E2 in Hb.
  assert (P1 : Forall ks_text_char (p ++ [0xAC00 + (l - 0x1100) * 588])) by (apply Forall_app; auto).
  assert (P2 : Forall ks_text_char (p ++ [0xAC00 + (l + 1 - 0x1100) * 588])) by (apply Forall_app; auto).
  destruct (C77_To_lemma grow w _ c a Hw P1 Hc Ha) as [_ H1]. destruct (C77_To_lemma grow w _ c b Hw P2 Hc Hb) as [_ H2].
  rewrite H1, H2, lex_range by lia. unfold is_lead_jamo in *.
  split; intros (s & rest & E & H); exists s, rest; (split; [exact E|]).
  - assert (Hs : is_syllable s) by (unfold is_syllable; lia). split; [exact Hs|]. rewrite (Split_syllable s Hs). cbn [fst].
    Z.div_mod_to_equations. lia.
  - destruct H as [Hs H]. rewrite (Split_syllable s Hs) in H. cbn [fst] in H. unfold is_syllable in Hs. Z.div_mod_to_equations. lia.
Qed.
(** The last lead has no next one; no syllable of KS X 1001 has a code from 0xC900 on. *)
Lemma lex_app p s t : lex_lt (p ++ s) (p ++ t) <-> lex_lt s t.
Proof. induction p as [|x p IH]; [reflexivity|]. cbn [app]. rewrite lex_same. exact IH. Qed.
Lemma lex_between p lo lo' hi w : ~ lex_lt w (p ++ lo :: lo') -> lex_lt w (p ++ [hi]) -> exists c rest, w = p ++ c :: rest /\ c < hi.
Proof.
  revert w. induction p as [|y p IH]; intros w H1 H2; cbn [app] in *; (destruct w as [|c r]; [destruct H1; constructor|]).
  - exists c, r. split; [reflexivity|]. inversion H2 as [|? ? ? ? Hc|? ? ? Hc]; subst; [exact Hc|inversion Hc].
  - destruct (Z.lt_trichotomy c y) as [Hc|[->|Hc]].
    + destruct H1. apply lex_less. exact Hc.
    + rewrite lex_same in H1, H2. destruct (IH r H1 H2) as (c & rest & -> & Hc). exists c, rest. split; [reflexivity|exact Hc].
    + inversion H2; subst; lia.
Qed.
Lemma encoded_ks_last grow p w a b c : Forall ks_text_char p -> Forall ks_text_char w ->
  To grow (utf8 (p ++ [Join 0x1112 0x1161 0])) = Ok (inl a) -> To grow (utf8 p) = Ok (inl b) -> To grow (utf8 w) = Ok (inl c) ->
  ((~ lex_lt c a /\ lex_lt c (b ++ [0xC9])) <-> exists s rest, w = p ++ s :: rest /\ is_syllable s /\ fst (fst (Split s)) = 0x1112).
Proof.
  intros Hp Hw Ha Hb Hc.
  assert (E1 : Join 0x1112 0x1161 0 = 0xD558) by (vm_compute; reflexivity). rewrite E1 in Ha. clear E1.
  assert (K1 : ks_text_char 0xD558).
  { right. split; [unfold is_syllable; lia|]. exists 0xC7CF. split; [apply assigned_by; vm_compute; reflexivity|split; vm_compute; discriminate]. }
  assert (P1 : Forall ks_text_char (p ++ [0xD558])) by (apply Forall_app; auto).
  pose proof (C77_To_lemma grow w _ c a Hw P1 Hc Ha) as [_ H1].
  assert (Rp : Forall in_repertoire p) by (eapply Forall_impl; [exact ks_char_repertoire|exact Hp]).
  assert (Rw : Forall in_repertoire w) by (eapply Forall_impl; [exact ks_char_repertoire|exact Hw]).
  assert (Ea : a = b ++ to_char 0xD558).
  { apply To_inv in Ha; [|eapply Forall_impl; [exact ks_char_repertoire|exact P1]]. apply To_inv in Hb; [|exact Rp].
    apply encodes_to_char in Ha, Hb. rewrite <- Ha, <- Hb, flat_map_app. cbn [flat_map]. rewrite app_nil_r. reflexivity. }
  assert (Ec : flat_map to_char w = c) by (apply encodes_to_char; eapply To_inv; eassumption).
  assert (Eb : flat_map to_char p = b) by (apply encodes_to_char; eapply To_inv; eassumption).
  split.
  - intros [L1 L2]. assert (Hpre : is_prefix b c).
    { rewrite Ea in L1. assert (Et : exists k0 k', to_char 0xD558 = k0 :: k') by (eexists; eexists; vm_compute; reflexivity).
      destruct Et as (k0 & k' & Et). rewrite Et in L1. destruct (lex_between b k0 k' 0xC9 c L1 L2) as (z & rest & -> & _). exists (z :: rest). reflexivity. }
    rewrite (C75_To_lemma grow p w b c Rp Rw Hb Hc) in Hpre. destruct Hpre as [v ->].
    rewrite H1, lex_app in L1. destruct v as [|s rest]; [destruct L1; constructor|]. exists s, rest. split; [reflexivity|].
    assert (Hs : 0xD558 <= s). { destruct (Z.lt_ge_cases s 0xD558) as [Hs|Hs]; [|lia]. destruct L1. apply lex_less. exact Hs. }
    apply Forall_app in Hw as [_ Hw]. apply Forall_inv in Hw. destruct Hw as [Hw|[Sy _]]; [lia|]. split; [exact Sy|].
    rewrite (Split_syllable s Sy). cbn [fst]. unfold is_syllable in Sy. clear - Sy Hs. Z.div_mod_to_equations. lia.
  - intros (s & rest & -> & Sy & Hl). rewrite (Split_syllable s Sy) in Hl. cbn [fst] in Hl.
    assert (Hs : 0xD558 <= s) by (unfold is_syllable in Sy; clear - Sy Hl; Z.div_mod_to_equations; lia). split.
    + rewrite H1, lex_app. intros L. inversion L as [|? ? ? ? L'|? ? ? L']; subst; [lia|inversion L'].
    + rewrite <- Ec, <- Eb, flat_map_app, lex_app. cbn [flat_map].
      apply Forall_app in Hw as [_ Hw]. apply Forall_inv in Hw. destruct Hw as [Hw|[_ (k & Hk & _)]]; [unfold is_syllable in Sy; lia|].
      rewrite (to_char_assigned k s Hk). unfold code_bytes. cbn [app]. apply lex_less.
      apply low_lead in Hk; [lia|]. unfold ideograph, is_syllable in *. lia.
Qed.
