(** The lemmas behind properties C73-C77: cutting, telling apart, searching and sorting
    encoded text. *)
From Coq Require Import ZArith List Bool Lia.
From Coq Require Import ZifyBool.
From Verif Require Import Base Spec Facts Utf8 Utf8Facts TableFrom TableTo SpecCp949 SpecText
  PMapFacts Cp949Model TableFacts Cp949Facts Cp949Facts2.
Import ListNotations.
Local Open Scope Z_scope.
Local Opaque fromTable toTable dec_tree enc_tree.

(** ** Cutting *)
Lemma cut_not_self s a rs : cut_after a s -> decodes s rs -> False.
Proof. intros Hc Hd. exact (cut_not_complete a s Hc rs Hd). Qed.

Lemma C73_From_lemma grow s out k : Forall is_byte s -> From grow s = Ok (inl out) ->
  (exists out', From grow (ztake k s) = Ok (inl out') /\ is_prefix out' out) \/
  (From grow (ztake k s) = Ok (inr ErrCP949UnexpectedStream) /\ 0 < k /\
   exists out', From grow (ztake (k - 1) s) = Ok (inl out') /\ is_prefix out' out).
Proof.
  intros Hs E. destruct (From_ok_inv grow s out Hs E) as (rs & Hd & ->).
  assert (forall a ra q, decodes a ra -> s = a ++ q -> is_prefix (utf8 ra) (utf8 rs)) as Hpre.
  { intros a ra q Ha ->. destruct (decodes_app_inv a ra Ha q rs Hd) as (rb & _ & ->).
    exists (utf8 rb). apply utf8_app. }
  destruct (decodes_or_cut (ztake k s)) as [(ra & Ha)|(a & Ha)].
  - rewrite <- (ztake_zdrop k s) in Hs. apply Forall_app in Hs. tauto.
  - left. exists (utf8 ra). split; [apply From_decodes; exact Ha|].
    apply (Hpre _ _ (zdrop k s) Ha). symmetry. apply ztake_zdrop.
  - right. split; [eapply From_cut; exact Ha|].
    destruct Ha as (b & Hb & Eb & ra & Ha).
    assert (0 < k) as Hk.
    { destruct (Z_lt_le_dec 0 k); [assumption|]. exfalso.
      unfold ztake in Eb. replace (Z.to_nat k) with 0%nat in Eb by lia. cbn in Eb.
      destruct a; discriminate. }
    split; [exact Hk|]. exists (utf8 ra).
    assert (ztake (k - 1) s = a) as Ea.
    { assert (zlen (ztake k s) = zlen a + 1) as Hl by (rewrite Eb, zlen_app; reflexivity).
      rewrite zlen_ztake in Hl by lia.
      assert (k <= zlen s) as Hks.
      { destruct (Z_le_gt_dec k (zlen s)); [assumption|]. exfalso.
        rewrite ztake_all in Eb by lia. apply (cut_not_self s a rs); [|exact Hd].
        exists b. eauto. }
      assert (ztake (k - 1) s = ztake (k - 1) (ztake k s)) as ->.
      { unfold ztake. rewrite firstn_firstn. f_equal. lia. }
      rewrite Eb, ztake_app_exact by lia. reflexivity. }
    rewrite Ea. split; [apply From_decodes; exact Ha|].
    apply (Hpre a ra (b :: zdrop k s) Ha).
    rewrite <- (ztake_zdrop k s) at 1. rewrite Eb, <- app_assoc. reflexivity.
Qed.

(** A character cut short reads as one replacement character per byte. *)
Lemma utf8_char_shape r : is_scalar r -> exists c0 conts, utf8_char r = c0 :: conts /\
  ~ (0x80 <= c0 <= 0xBF) /\ Forall (fun b => 0x80 <= b <= 0xBF) conts.
Proof.
  intros H. destruct (utf8_char_cases r H) as [[? ->]|[[? ->]|[[? [? ->]]|[? ->]]]];
    do 2 eexists; (split; [reflexivity|]); split; try (repeat constructor); Z.div_mod_to_equations; lia.
Qed.
Lemma conts_read conts : Forall (fun b => 0x80 <= b <= 0xBF) conts ->
  reads_as conts (repeat replacement (length conts)).
Proof.
  induction 1 as [|b conts Hb H IH]; [constructor|]. cbn [length repeat]. apply reads_bad; [|exact IH].
  intros r Hr [q E]. destruct (utf8_char_shape r Hr) as (c0 & cs & Ec & Hc & _).
  rewrite Ec in E. cbn in E. injection E as -> _. lia.
Qed.
Lemma cut_char_reads r p q : is_scalar r -> utf8_char r = p ++ q -> q <> [] ->
  reads_as p (repeat replacement (length p)).
Proof.
  intros Hr E Hq. destruct p as [|c0 conts]; [constructor|].
  destruct (utf8_char_shape r Hr) as (c & cs & Ec & Hc & Hcs).
  pose proof E as E'. rewrite Ec in E'. cbn in E'. injection E' as -> Ecs.
  cbn [length repeat]. apply reads_bad.
  - intros r' Hr' [t Et].
    assert (utf8_char r' ++ (t ++ q) = utf8_char r ++ []) as E2
      by (rewrite app_nil_r, E, Et, app_assoc; reflexivity).
    apply utf8_char_unique in E2 as [_ E2]; [|assumption..].
    apply app_eq_nil in E2. tauto.
  - apply conts_read. rewrite Ecs in Hcs. apply Forall_app in Hcs. tauto.
Qed.

(** Where a cut falls. *)
Lemma utf8_cut rs : Forall is_scalar rs -> forall k, 0 <= k <= zlen (utf8 rs) ->
  exists whole rest p, rs = whole ++ rest /\ ztake k (utf8 rs) = utf8 whole ++ p /\
    (p = [] \/ exists r rest' q, rest = r :: rest' /\ utf8_char r = p ++ q /\ q <> []).
Proof.
  induction 1 as [|r rs Hr H IH]; intros k Hk.
  - exists [], [], []. split; [reflexivity|]. split; [|left; reflexivity].
    cbn in Hk. replace k with 0 by lia. reflexivity.
  - rewrite utf8_cons in *. rewrite zlen_app in Hk.
    destruct (Z_lt_le_dec k (zlen (utf8_char r))) as [Hlt|Hge].
    + exists [], (r :: rs), (ztake k (utf8_char r)). split; [reflexivity|].
      split; [rewrite ztake_app_l by lia; reflexivity|]. right.
      exists r, rs, (zdrop k (utf8_char r)). split; [reflexivity|].
      split; [symmetry; apply ztake_zdrop|]. intros E.
      assert (zlen (zdrop k (utf8_char r)) = 0) as El by (rewrite E; reflexivity).
      rewrite zlen_zdrop in El by lia. lia.
    + destruct (IH (k - zlen (utf8_char r))) as (whole & rest & p & E & Ek & Hp); [lia|].
      exists (r :: whole), rest, p. split; [rewrite E; reflexivity|]. split; [|exact Hp].
      rewrite ztake_app_r by lia. rewrite Ek, utf8_cons, app_assoc. reflexivity.
Qed.

Lemma to_char_replacement : to_char replacement = [0x3F; 0x3F].
Proof. vm_compute. reflexivity. Qed.
Lemma to_replacements n : flat_map to_char (repeat replacement n) = repeat 0x3F (2 * n).
Proof.
  induction n as [|n IH]; [reflexivity|]. cbn [repeat flat_map]. rewrite to_char_replacement, IH.
  replace (2 * S n)%nat with (S (S (2 * n))) by lia. reflexivity.
Qed.

Lemma C73_To_lemma grow rs k : Forall is_scalar rs -> 0 <= k <= zlen (utf8 rs) ->
  exists whole rest x j, rs = whole ++ rest /\ To grow (utf8 whole) = Ok (inl x) /\
    To grow (ztake k (utf8 rs)) = Ok (inl (x ++ repeat 0x3F (2 * j))) /\
    zlen (utf8 whole) + Z.of_nat j = k /\
    (j = 0%nat \/ exists r rest', rest = r :: rest' /\ Z.of_nat j < zlen (utf8_char r)).
Proof.
  intros Hrs Hk. destruct (utf8_cut rs Hrs k Hk) as (whole & rest & p & E & Ek & Hp).
  assert (Forall is_scalar whole) as Hw by (rewrite E in Hrs; apply Forall_app in Hrs; tauto).
  exists whole, rest, (flat_map to_char whole), (length p).
  split; [exact E|]. split; [apply To_utf8; exact Hw|].
  assert (reads_as p (repeat replacement (length p))) as Hread.
  { destruct Hp as [->|(r & rest' & q & Er & Eq & Hq)]; [constructor|].
    apply (cut_char_reads r p q); [|exact Eq|exact Hq].
    rewrite E, Er in Hrs. apply Forall_app in Hrs as [_ Hrs]. inversion Hrs. assumption. }
  split.
  - rewrite (To_reads grow (ztake k (utf8 rs)) (whole ++ repeat replacement (length p))).
    + rewrite flat_map_app, to_replacements. reflexivity.
    + apply Forall_ztake, utf8_bytes, Hrs.
    + rewrite Ek. apply reads_as_utf8_app; assumption.
  - split.
    + assert (zlen (ztake k (utf8 rs)) = k) as El by (rewrite zlen_ztake by lia; lia).
      rewrite Ek, zlen_app in El. exact El.
    + destruct Hp as [->|(r & rest' & q & Er & Eq & Hq)]; [left; reflexivity|]. right.
      exists r, rest'. split; [exact Er|]. rewrite Eq, zlen_app. fold (zlen p).
      assert (0 < zlen q) by (destruct q; [congruence|rewrite zlen_cons; pose proof (zlen_nonneg q); lia]).
      lia.
Qed.

(** ** Telling apart *)
Lemma decodes_length s rs : decodes s rs -> forall s', decodes s' rs -> length s = length s'.
Proof.
  assert (forall c u, assigned c u -> 0x80 <= u) as Hu
    by (intros c u H; pose proof (assigned_ranges c u H); lia).
  induction 1 as [|b s rs Hb H IH|b0 b1 u s rs H0 H1 Ha H IH|b0 b1 s rs H0 H1 Hn H IH]; intros s' H'.
  - inversion H'. reflexivity.
  - inversion H' as [|x s2 rs2 Hx Hd|x0 x1 v s2 rs2 Hx0 Hx1 Hv Hd|x0 x1 s2 rs2 Hx0 Hx1 Hv Hd]; subst.
    + cbn. f_equal. apply IH. assumption.
    + apply Hu in Hv. lia.
    + unfold replacement in Hb. lia.
  - inversion H' as [|x s2 rs2 Hx Hd|x0 x1 v s2 rs2 Hx0 Hx1 Hv Hd|x0 x1 s2 rs2 Hx0 Hx1 Hv Hd]; subst.
    + apply Hu in Ha. lia.
    + cbn. do 2 f_equal. apply IH. assumption.
    + cbn. do 2 f_equal. apply IH. assumption.
  - inversion H' as [|x s2 rs2 Hx Hd|x0 x1 v s2 rs2 Hx0 Hx1 Hv Hd|x0 x1 s2 rs2 Hx0 Hx1 Hv Hd]; subst.
    + unfold replacement in Hx. lia.
    + cbn. do 2 f_equal. apply IH. assumption.
    + cbn. do 2 f_equal. apply IH. assumption.
Qed.
Lemma decodes_inj s rs : decodes s rs -> ~ In replacement rs -> forall s', decodes s' rs -> s = s'.
Proof.
  assert (forall c u, assigned c u -> 0x80 <= u) as Hu
    by (intros c u H; pose proof (assigned_ranges c u H); lia).
  induction 1 as [|b s rs Hb H IH|b0 b1 u s rs H0 H1 Ha H IH|b0 b1 s rs H0 H1 Hn H IH]; intros Hno s' H'.
  - inversion H'. reflexivity.
  - inversion H' as [|x s2 rs2 Hx Hd|x0 x1 v s2 rs2 Hx0 Hx1 Hv Hd|x0 x1 s2 rs2 Hx0 Hx1 Hv Hd]; subst.
    + f_equal. apply IH; [|assumption]. intros Hi. apply Hno. right. exact Hi.
    + apply Hu in Hv. lia.
    + unfold replacement in Hb. lia.
  - inversion H' as [|x s2 rs2 Hx Hd|x0 x1 v s2 rs2 Hx0 Hx1 Hv Hd|x0 x1 s2 rs2 Hx0 Hx1 Hv Hd]; subst.
    + apply Hu in Ha. lia.
    + pose proof (assigned_inj _ _ _ Ha Hv) as Ec.
      assert (b0 = x0 /\ b1 = x1) as [-> ->] by lia.
      do 2 f_equal. apply IH; [|assumption]. intros Hi. apply Hno. right. exact Hi.
    + exfalso. apply Hno. left. reflexivity.
  - exfalso. apply Hno. left. reflexivity.
Qed.

Lemma C74_From_lemma grow s s' out : Forall is_byte s -> Forall is_byte s' ->
  From grow s = Ok (inl out) -> From grow s' = Ok (inl out) ->
  length s = length s' /\ (~ occurs (utf8_char replacement) out -> s = s').
Proof.
  intros Hs Hs' E E'. destruct (From_ok_inv grow s out Hs E) as (rs & Hd & ->).
  destruct (From_ok_inv grow s' _ Hs' E') as (rs' & Hd' & Eu).
  apply utf8_inj in Eu; [|eapply decodes_scalar; eassumption..]. subst rs'.
  split; [eapply decodes_length; eassumption|].
  intros Hno. apply (decodes_inj s rs Hd); [|exact Hd'].
  intros Hi. apply Hno. apply in_split in Hi as (l1 & l2 & ->).
  exists (utf8 l1), (utf8 l2). rewrite utf8_app, utf8_cons. reflexivity.
Qed.
Lemma C74_To_lemma grow rs rs' x : Forall in_repertoire rs -> Forall in_repertoire rs' ->
  To grow (utf8 rs) = Ok (inl x) -> To grow (utf8 rs') = Ok (inl x) -> rs = rs'.
Proof.
  intros H H' E E'. destruct (repertoire_encodes rs H) as (bs & Hb).
  destruct (repertoire_encodes rs' H') as (bs' & Hb').
  rewrite (To_encodes grow rs bs Hb) in E. rewrite (To_encodes grow rs' bs' Hb') in E'.
  injection E as ->. injection E' as ->.
  eapply decodes_fun; apply encodes_decodes; eassumption.
Qed.

(** ** Searching *)
Lemma encodes_split a b x : encodes (a ++ b) x -> exists xa xb, x = xa ++ xb /\ encodes a xa /\ encodes b xb.
Proof.
  revert x. induction a as [|r a IH]; intros x H.
  - exists [], x. split; [reflexivity|]. split; [constructor|exact H].
  - cbn [app] in H. inversion H as [|r' rs bs Hr He|c r' rs bs Ha He]; subst.
    + destruct (IH _ He) as (xa & xb & -> & Ha & Hb).
      exists (r :: xa), xb. split; [reflexivity|]. split; [constructor; assumption|exact Hb].
    + destruct (IH _ He) as (xa & xb & -> & Hxa & Hb).
      exists (code_bytes c ++ xa), xb. split; [apply app_assoc|]. split; [constructor; assumption|exact Hb].
Qed.
Lemma encodes_fun a x y : encodes a x -> encodes a y -> x = y.
Proof. intros Hx Hy. rewrite <- (encodes_to_char a x Hx). apply encodes_to_char. exact Hy. Qed.

Lemma C75_lemma a b x y : encodes a x -> encodes b y -> (is_prefix x y <-> is_prefix a b).
Proof.
  intros Ha Hb. split.
  - intros (q & ->). destruct (decodes_app_inv x a (encodes_decodes a x Ha) q b (encodes_decodes b _ Hb))
      as (rb & _ & ->). exists rb. reflexivity.
  - intros (q & ->). destruct (encodes_split a q y Hb) as (xa & xb & -> & Hxa & _).
    rewrite (encodes_fun a x xa Ha Hxa). exists xb. reflexivity.
Qed.

Lemma C76_occurs_lemma a b x y : encodes a x -> encodes b y -> occurs a b -> occurs x y.
Proof.
  intros Ha Hb (u & v & ->). destruct (encodes_split u _ y Hb) as (xu & xr & -> & _ & Hr).
  destruct (encodes_split a v xr Hr) as (xa & xv & -> & Hxa & _).
  rewrite (encodes_fun a x xa Ha Hxa). exists xu, xv. reflexivity.
Qed.
Lemma C76_aligned_lemma a b x u v : encodes a x -> encodes b (u ++ x ++ v) ->
  (exists ru, decodes u ru) -> occurs a b.
Proof.
  intros Ha Hb (ru & Hu).
  destruct (decodes_app_inv u ru Hu _ b (encodes_decodes b _ Hb)) as (r1 & H1 & ->).
  destruct (decodes_app_inv x a (encodes_decodes a x Ha) _ r1 H1) as (r2 & _ & ->).
  exists ru, r2. reflexivity.
Qed.

(** What precedes an ASCII byte that is no letter is made of whole characters. *)
Lemma nonletter_aligned b y : encodes b y -> forall u p v, y = u ++ p :: v -> ascii_nonletter p = true ->
  exists ru, decodes u ru.
Proof.
  induction 1 as [|r rs bs Hr H IH|c r rs bs Ha H IH]; intros u p v E Hp.
  - destruct u; discriminate.
  - destruct u as [|b0 u]; [exists []; constructor|].
    cbn in E. injection E as -> E. destruct (IH u p v E Hp) as (ru & Hu).
    exists (b0 :: ru). constructor; assumption.
  - pose proof (code_trail c r Ha) as (H1 & H2).
    unfold ascii_nonletter in Hp.
    destruct u as [|b0 u]; [exists []; constructor|].
    unfold code_bytes in E. cbn in E. injection E as E0 E.
    destruct u as [|b1 u].
    + cbn in E. injection E as E1 _. subst p. exfalso.
      apply andb_true_iff in Hp as [Hp Hl]. rewrite negb_true_iff in Hl.
      destruct H2 as [H2|H2]; [congruence|]. lia.
    + cbn in E. injection E as E1 E. destruct (IH u p v E Hp) as (ru & Hu).
      exists (r :: ru). subst. apply dec_code; try assumption.
      * lia.
      * apply Z.mod_pos_bound. lia.
      * replace (c / 256 * 256 + c mod 256) with c by (rewrite (Z.div_mod c 256) at 1; lia). exact Ha.
Qed.

Lemma C76_nonletter_lemma p a b x y : ascii_nonletter p = true -> encodes (p :: a) x -> encodes b y ->
  (occurs x y <-> occurs (p :: a) b).
Proof.
  intros Hp Ha Hb. split; [|apply C76_occurs_lemma; assumption].
  intros (u & v & ->).
  assert (exists x', x = p :: x') as (x' & ->).
  { inversion Ha as [|r' rs bs Hr He|c r' rs bs Hc He]; subst; [eauto|].
    pose proof (assigned_ranges c p Hc). unfold ascii_nonletter in Hp. lia. }
  eapply C76_aligned_lemma; [exact Ha|exact Hb|].
  cbn [app] in Hb. eapply nonletter_aligned; [exact Hb|reflexivity|exact Hp].
Qed.

(** ** Sorting *)
Definition below (x y : list Z) : Prop := exists c p q s t, x = c ++ p :: s /\ y = c ++ q :: t /\ p < q.
Lemma lex_app_head c s t : lex_lt s t -> lex_lt (c ++ s) (c ++ t).
Proof. intros H. induction c; cbn; [exact H|apply lex_tail; assumption]. Qed.
Lemma below_lex x y s t : below x y -> lex_lt (x ++ s) (y ++ t).
Proof.
  intros (c & p & q & s' & t' & -> & -> & H). rewrite <- !app_assoc. apply lex_app_head.
  cbn. apply lex_less. exact H.
Qed.
Lemma lex_trichotomy s : forall t, lex_lt s t \/ s = t \/ lex_lt t s.
Proof.
  induction s as [|x s IH]; intros [|y t].
  - auto.
  - left. constructor.
  - right. right. constructor.
  - destruct (Ztrichotomy x y) as [H|[->|H]].
    + left. apply lex_less. exact H.
    + destruct (IH t) as [H|[->|H]]; [left; apply lex_tail; exact H|auto|right; right; apply lex_tail; exact H].
    + right. right. apply lex_less. lia.
Qed.
Lemma lex_asym s t : lex_lt s t -> lex_lt t s -> False.
Proof.
  intros H. induction H as [y t|x y s t Hxy|x s t H IH]; intros H'; inversion H'; subst; try lia; auto.
Qed.
Lemma lex_irrefl s : ~ lex_lt s s.
Proof. intros H. exact (lex_asym s s H H). Qed.

Lemma lex_flat_map (P : Z -> Prop) (f : Z -> list Z) :
  (forall r, P r -> f r <> []) ->
  (forall r r', P r -> P r' -> r < r' -> below (f r) (f r')) ->
  forall a b, Forall P a -> Forall P b -> (lex_lt a b <-> lex_lt (flat_map f a) (flat_map f b)).
Proof.
  intros Hne Hmono.
  assert (forall a b, lex_lt a b -> Forall P a -> Forall P b -> lex_lt (flat_map f a) (flat_map f b)) as Hfw.
  { induction 1 as [y t|x y s t Hxy|x s t H IH]; intros Ha Hb.
    - cbn. inversion Hb; subst. specialize (Hne y ltac:(assumption)).
      destruct (f y); [congruence|]. cbn. constructor.
    - cbn. inversion Ha; inversion Hb; subst. apply below_lex, Hmono; assumption.
    - cbn. inversion Ha; inversion Hb; subst. apply lex_app_head, IH; assumption. }
  intros a b Ha Hb. split; [intros H; apply Hfw; assumption|].
  intros H. destruct (lex_trichotomy a b) as [H1|[->|H1]]; [exact H1|..]; exfalso.
  - exact (lex_irrefl _ H).
  - apply (lex_asym _ _ H). apply Hfw; assumption.
Qed.

Lemma below_head p q s t : p < q -> below (p :: s) (q :: t).
Proof. intros H. exists [], p, q, s, t. auto. Qed.
Lemma below_cons x s t : below s t -> below (x :: s) (x :: t).
Proof. intros (c & p & q & s' & t' & -> & -> & H). exists (x :: c), p, q, s', t'. auto. Qed.

Ltac below_step := match goal with
  |- below (?p :: _) (?q :: _) =>
    destruct (Z_lt_le_dec p q) as [?|?]; [apply below_head; assumption|];
    let E := fresh in assert (p = q) as E by (Z.div_mod_to_equations; lia); rewrite E; apply below_cons
  end.
Lemma utf8_char_below r r' : is_scalar r -> is_scalar r' -> r < r' -> below (utf8_char r) (utf8_char r').
Proof.
  intros H H' Hlt.
  destruct (utf8_char_cases r H) as [[Hr ->]|[[Hr ->]|[[Hr [_ ->]]|[Hr ->]]]];
  destruct (utf8_char_cases r' H') as [[Hr' ->]|[[Hr' ->]|[[Hr' [_ ->]]|[Hr' ->]]]]; try lia;
  try (apply below_head; Z.div_mod_to_equations; lia).
  - below_step. apply below_head. Z.div_mod_to_equations; lia.
  - below_step. below_step. apply below_head. Z.div_mod_to_equations; lia.
  - below_step. below_step. below_step. apply below_head. Z.div_mod_to_equations; lia.
Qed.
Lemma utf8_lex a b : Forall is_scalar a -> Forall is_scalar b -> (lex_lt a b <-> lex_lt (utf8 a) (utf8 b)).
Proof.
  apply lex_flat_map; [intros; apply utf8_char_nonempty|exact utf8_char_below].
Qed.

Lemma ks_char_repertoire r : ks_text_char r -> in_repertoire r.
Proof. intros [H|(_ & c & H & _)]; [left; exact H|right; exists c; exact H]. Qed.
Lemma ks_to_char_below r r' : ks_text_char r -> ks_text_char r' -> r < r' -> below (to_char r) (to_char r').
Proof.
  intros [H|(Hs & c & Hc & Hk)] [H'|(Hs' & c' & Hc' & Hk')] Hlt.
  - rewrite !to_char_ascii by assumption. apply below_head. exact Hlt.
  - rewrite (to_char_ascii r H), (to_char_assigned c' r' Hc'). unfold code_bytes.
    pose proof (code_trail c' r' Hc'). apply below_head. lia.
  - unfold is_syllable in Hs. lia.
  - rewrite (to_char_assigned c r Hc), (to_char_assigned c' r' Hc').
    assert (c < c') as Hcc.
    { destruct C39_lemma as (_ & H39 & _). apply (H39 c r c' r' Hs Hs' Hc Hc'); tauto. }
    unfold code_bytes. below_step. apply below_head. Z.div_mod_to_equations; lia.
Qed.
Lemma C77_lemma a b x y : Forall ks_text_char a -> Forall ks_text_char b ->
  encodes a x -> encodes b y ->
  (lex_lt x y <-> lex_lt a b) /\ (lex_lt (utf8 a) (utf8 b) <-> lex_lt a b).
Proof.
  intros Ha Hb Hx Hy. split.
  - rewrite <- (encodes_to_char a x Hx), <- (encodes_to_char b y Hy). symmetry.
    apply (lex_flat_map ks_text_char to_char); [|exact ks_to_char_below|exact Ha|exact Hb].
    intros r [H|(_ & c & Hc & _)].
    + rewrite to_char_ascii by exact H. discriminate.
    + rewrite (to_char_assigned c r Hc). discriminate.
  - symmetry. apply utf8_lex; eapply Forall_repertoire_scalar, encodes_repertoire; eassumption.
Qed.

(** ** In terms of To *)
Section ViaTo.
Variable grow : Z -> Z -> Z.
Lemma To_inv rs x : Forall in_repertoire rs -> To grow (utf8 rs) = Ok (inl x) -> encodes rs x.
Proof.
  intros H E. destruct (repertoire_encodes rs H) as (bs & Hb).
  rewrite (To_encodes grow rs bs Hb) in E. injection E as ->. exact Hb.
Qed.
Lemma C75_To_lemma a b x y : Forall in_repertoire a -> Forall in_repertoire b ->
  To grow (utf8 a) = Ok (inl x) -> To grow (utf8 b) = Ok (inl y) -> (is_prefix x y <-> is_prefix a b).
Proof. intros Ha Hb Ex Ey. apply C75_lemma; apply To_inv; assumption. Qed.
Lemma C76_To_occurs_lemma a b x y : Forall in_repertoire a -> Forall in_repertoire b ->
  To grow (utf8 a) = Ok (inl x) -> To grow (utf8 b) = Ok (inl y) -> occurs a b -> occurs x y.
Proof. intros Ha Hb Ex Ey. apply C76_occurs_lemma; apply To_inv; assumption. Qed.
Lemma C76_To_aligned_lemma a b x y u v d : Forall in_repertoire a -> Forall in_repertoire b ->
  To grow (utf8 a) = Ok (inl x) -> To grow (utf8 b) = Ok (inl y) ->
  y = u ++ x ++ v -> From grow u = Ok (inl d) -> occurs a b.
Proof.
  intros Ha Hb Ex Ey E Hd. apply To_inv in Ex, Ey; try assumption.
  subst y. eapply C76_aligned_lemma; [exact Ex|exact Ey|].
  pose proof (encodes_decodes _ _ Ey) as Hdec. apply decodes_bytes in Hdec. apply Forall_app in Hdec as [Hu _].
  destruct (From_ok_inv grow u d Hu Hd) as (ru & H & _). exists ru. exact H.
Qed.
Lemma C76_To_nonletter_lemma p a b x y : ascii_nonletter p = true ->
  Forall in_repertoire (p :: a) -> Forall in_repertoire b ->
  To grow (utf8 (p :: a)) = Ok (inl x) -> To grow (utf8 b) = Ok (inl y) ->
  (occurs x y <-> occurs (p :: a) b).
Proof. intros Hp Ha Hb Ex Ey. apply C76_nonletter_lemma; [exact Hp|apply To_inv; assumption..]. Qed.
Lemma C77_To_lemma a b x y : Forall ks_text_char a -> Forall ks_text_char b ->
  To grow (utf8 a) = Ok (inl x) -> To grow (utf8 b) = Ok (inl y) ->
  (lex_lt x y <-> lex_lt (utf8 a) (utf8 b)) /\ (lex_lt x y <-> lex_lt a b).
Proof.
  intros Ha Hb Ex Ey.
  assert (forall l, Forall ks_text_char l -> Forall in_repertoire l) as Hr
    by (intros l H; eapply Forall_impl; [|exact H]; exact ks_char_repertoire).
  apply To_inv in Ex; [|auto]. apply To_inv in Ey; [|auto].
  destruct (C77_lemma a b x y Ha Hb Ex Ey) as [H1 H2]. split; [|exact H1].
  rewrite H1. symmetry. exact H2.
Qed.
End ViaTo.

Lemma syllable_repertoire u : is_syllable u -> in_repertoire u.
Proof. intros H. right. exact (syllable_assigned u H). Qed.

Definition wgrow (old need : Z) : Z := Z.max need (2 * old).
Lemma C76_refuted_lemma : exists a b x y, Forall is_syllable a /\ Forall is_syllable b /\
  To wgrow (utf8 a) = Ok (inl x) /\ To wgrow (utf8 b) = Ok (inl y) /\ occurs x y /\ ~ occurs a b.
Proof.
  exists [0xD65C], [0xAC77; 0xAC00], [0xC8; 0xB0], [0xB0; 0xC8; 0xB0; 0xA1].
  split; [repeat constructor; unfold is_syllable; lia|].
  split; [repeat constructor; unfold is_syllable; lia|].
  split; [vm_compute; reflexivity|]. split; [vm_compute; reflexivity|].
  split; [exists [0xB0], [0xA1]; reflexivity|].
  intros (u & v & E). destruct u as [|p u]; [discriminate|]. destruct u as [|q u]; [discriminate|].
  destruct u as [|r u]; discriminate.
Qed.
Lemma C77_refuted_lemma : exists a b x y, Forall is_syllable a /\ Forall is_syllable b /\
  To wgrow (utf8 a) = Ok (inl x) /\ To wgrow (utf8 b) = Ok (inl y) /\
  lex_lt (utf8 a) (utf8 b) /\ lex_lt y x.
Proof.
  exists [0xAC00], [0xAC02], [0xB0; 0xA1], [0x81; 0x41].
  split; [repeat constructor; unfold is_syllable; lia|].
  split; [repeat constructor; unfold is_syllable; lia|].
  split; [vm_compute; reflexivity|]. split; [vm_compute; reflexivity|]. split.
  - change (utf8 [0xAC00]) with [0xEA; 0xB0; 0x80]. change (utf8 [0xAC02]) with [0xEA; 0xB0; 0x82].
    apply lex_tail, lex_tail, lex_less. lia.
  - apply lex_less. lia.
Qed.
Lemma C77_case_lemma : Forall ks_text_char [0xAC00; 0x41] /\ Forall ks_text_char [0xD558] /\
  lex_lt (utf8 [0xAC00; 0x41]) (utf8 [0xD558]) /\
  To wgrow (utf8 [0xAC00; 0x41]) = Ok (inl [0xB0; 0xA1; 0x41]) /\ To wgrow (utf8 [0xD558]) = Ok (inl [0xC7; 0xCF]).
Proof.
  assert (forall c u, tget dec_tree c = Some u -> is_syllable u -> ks_code c -> ks_text_char u) as Hc.
  { intros c u E Hu Hk. right. split; [exact Hu|]. exists c. split; [apply assigned_by; exact E|exact Hk]. }
  split; [constructor; [|constructor; [|constructor]]|split; [constructor; [|constructor]|]].
  - apply (Hc 0xB0A1 0xAC00); [vm_compute; reflexivity|unfold is_syllable; lia|].
    split; vm_compute; discriminate.
  - left. lia.
  - apply (Hc 0xC7CF 0xD558); [vm_compute; reflexivity|unfold is_syllable; lia|].
    split; vm_compute; discriminate.
  - split; [|split; vm_compute; reflexivity].
    change (utf8 [0xAC00; 0x41]) with [0xEA; 0xB0; 0x80; 0x41]. change (utf8 [0xD558]) with [0xED; 0x95; 0x98].
    apply lex_less. lia.
Qed.
Lemma C74_case_lemma : ~ occurs (utf8_char replacement) (utf8 [0xAC00]).
Proof.
  change (utf8_char replacement) with [0xEF; 0xBF; 0xBD]. change (utf8 [0xAC00]) with [0xEA; 0xB0; 0x80].
  intros (u & v & E). destruct u as [|p u]; [discriminate|].
  destruct u as [|q u]; [discriminate|]. destruct u as [|r u]; [discriminate|]. destruct u; discriminate.
Qed.
