(** The exact behaviour of sequences of Reads. *)
From Coq Require Import ZArith List Bool Lia.
From Coq Require Import ZifyBool.
From Verif Require Import Base Spec Facts Utf8 Utf8Facts SortSearch TableFrom TableTo SpecCp949
  SpecIO SpecReads PMapFacts Cp949Model StreamModel SliceFacts TableFacts Cp949Facts Cp949Facts2 Cp949Facts3 StreamFacts
  TransformFacts2.
Import ListNotations.
#[local] Open Scope Z_scope.
#[local] Opaque fromTable toTable dec_tree enc_tree.

Section Reads.
Variable grow : Z -> Z -> Z.
Variable RS : Type.
Variable rd : RS -> Z -> list Z * option error * RS.
Hypothesis Hfit : fits_buffer rd.
Notation reader := (reader RS).
Notation cdata := (cdata RS).
Notation Read := (Read grow RS rd).

(** Between two Reads. *)
Definition between (r : reader) (st : RS * list Z * option error) : Prop :=
  reader_ok RS r /\ contents (r_rdata _ r) = [] /\ st = (r_src _ r, cdata r, r_err _ r).

(** Inside a Read that has collected [u]. *)
Lemma read_collect k : 0 <= k -> forall fuel r s n, reader_ok RS r -> cdata r = [] -> r_err _ r = None ->
  starves rd k n s (r_src _ r) (contents (r_rdata _ r)) ->
  (Read fuel r k = Fuel /\ exists n' s' u, starves rd k n' s s' u /\ (fuel + n <= n' + 1)%nat) \/
  exists bs e r' st, Read fuel r k = Ok (bs, e, r') /\ one_read rd k (s, [], None) bs e st /\ between r' st.
Proof.
  intros Hk. induction fuel as [|fuel IH]; intros r s n Hok Ec Ee Hst.
  { left. split; [reflexivity|]. do 3 eexists. split; [exact Hst|]. lia. }
  cbn [StreamModel.Read]. rewrite (cdata_nil RS r Hok Ec), Ee. change (0 >? 0) with false. cbn [bind].
  destruct (fill_spec RS rd r k Hok Hk) as (sp & c & err & s' & r1 & Hsp & Hsp' & Erd & Ef & Hok1 & Es1 & Ec1 & Elo & Ehi & Er1 & Ee1).
  { intros sp Hsp _. apply Hfit. lia. }
  rewrite Ef. cbn [bind].
  assert (r_err _ r1 = final c err) as Hfin.
  { rewrite Ee1. destruct err; [reflexivity|]. destruct c; [reflexivity|]. cbn [final].
    destruct (Z.eqb_spec (zlen (z :: c)) 0) as [H|H]; [apply zlen_0 in H; discriminate|reflexivity]. }
  assert (Forall is_byte (contents (r_rdata _ r1))) as Hb.
  { rewrite Er1. apply Forall_app. split.
    - clear -Hst Hfit Hk. induction Hst as [|n s s1 u sp c s2 _ IH Hsp E _ _]; [constructor|]. apply Forall_app. split; [exact IH|].
      destruct (Hfit s1 sp ltac:(lia)) as [_ H]. rewrite E in H. exact H.
    - destruct (Hfit (r_src _ r) sp ltac:(lia)) as [_ H]. rewrite Erd in H. exact H. }
  destruct (decodes_or_cut _ Hb) as [(rs & Hd)|(a & Hcut)].
  - destruct (convert_complete grow RS r1 rs Hok1 Hd) as (r2 & E2 & Hok2 & Es2 & Ee2 & Ec2 & Er2 & El2 & _ & _).
    rewrite E2. cbn [bind]. destruct rs as [|x rs'] eqn:Ers.
    + assert (contents (r_rdata _ r) ++ c = []) as Hnil by (rewrite <- Er1; inversion Hd; reflexivity).
      apply app_eq_nil in Hnil. destruct Hnil as [Hu ->].
      assert (exists e, final [] err = Some e) as (e & He) by (destruct err; eexists; reflexivity).
      destruct fuel as [|fuel].
      { left. split; [reflexivity|]. exists n, (r_src _ r), (contents (r_rdata _ r)). split; [exact Hst|lia]. }
      right. exists [], (Some e), r2, (s', [], Some e). split.
      * cbn [StreamModel.Read]. rewrite (cdata_nil RS r2 Hok2 Ec2), Ee2, Hfin, He, El2. reflexivity.
      * split.
        -- eapply read_end; [exact Hst|exact Hsp|exact Erd| |exact He]. left. rewrite Hu. reflexivity.
        -- split; [exact Hok2|]. split; [exact Er2|]. rewrite Es2, Es1, Ec2, Ee2, Hfin, He. reflexivity.
    + destruct fuel as [|fuel].
      { left. split; [reflexivity|]. exists n, (r_src _ r), (contents (r_rdata _ r)). split; [exact Hst|lia]. }
      right. rewrite <- Ers in *. assert (rs <> []) as Hne by (rewrite Ers; discriminate).
      assert (0 < zlen (utf8 rs)) as Hpos by (apply utf8_nonempty; [exact Hne|eapply decodes_scalar; exact Hd]).
      assert (cdata r2 <> []) as Hc2 by (rewrite Ec2; intros H; rewrite H in Hpos; discriminate).
      pose proof (cdata_len RS r2 Hok2) as Hlen.
      set (m := Z.min k (r_cdata_hi _ r2 - r_cdata_lo _ r2)).
      set (r3 := mkReader RS (r_src _ r2) (r_scratch _ r2) (r_cdata_lo _ r2 + m) (r_cdata_hi _ r2) (r_rdata _ r2) (r_err _ r2)).
      assert (0 <= m <= r_cdata_hi _ r2 - r_cdata_lo _ r2) by (unfold m; pose proof (zlen_nonneg (cdata r2)); lia).
      assert (ztake m (cdata r2) = ztake k (cdata r2)) as Ht.
      { unfold m. destruct (Z_le_dec k (zlen (cdata r2))); [f_equal; lia|].
        rewrite Z.min_r by lia. rewrite (ztake_all k) by lia. apply ztake_all. lia. }
      assert (cdata r3 = zdrop k (cdata r2)) as Hd3.
      { change (cdata r3) with (zdrop (r_cdata_lo _ r2 + m) (ztake (r_cdata_hi _ r2) (arr (r_scratch _ r2)))).
        rewrite Z.add_comm, <- zdrop_zdrop by (destruct Hok2 as (_ & _ & ? & _); lia). change (zdrop (r_cdata_lo _ r2) (ztake (r_cdata_hi _ r2) (arr (r_scratch _ r2)))) with (cdata r2).
        unfold m. destruct (Z_le_dec k (zlen (cdata r2))); [f_equal; lia|].
        rewrite Z.min_r by lia. rewrite (zdrop_all k) by lia. apply zdrop_all. lia. }
      exists (ztake k (utf8 rs)), None, r3, (s', zdrop k (utf8 rs), final c err). split.
      * cbn [StreamModel.Read]. destruct (Z.gtb_spec (r_cdata_hi _ r2 - r_cdata_lo _ r2) 0) as [H0|H0]; [|rewrite <- Ec2 in Hpos; lia].
        fold m. fold r3. rewrite Ht, Ec2. reflexivity.
      * split.
        -- eapply read_text; [exact Hst|exact Hsp|exact Erd| |exact Hne]. rewrite <- Er1. exact Hd.
        -- split; [|split].
           ++ destruct Hok2 as (Ha & Hb2 & Hc & Hd2). unfold reader_ok, r3. cbn [r_scratch r_rdata r_cdata_lo r_cdata_hi].
              split; [exact Ha|]. split; [exact Hb2|]. lia.
           ++ exact Er2.
           ++ unfold r3. cbn [r_src r_err]. fold r3. rewrite Hd3, Es2, Es1, Ec2, Ee2, Hfin. reflexivity.
  - destruct (convert_cut grow RS r1 a Hok1 Hcut) as (r2 & E2 & Hok2 & Es2 & Ee2 & Ec2 & _ & _ & _ & Er2).
    rewrite E2. cbn [bind]. rewrite Hfin in Ee2, Er2.
    assert (truncated (contents (r_rdata _ r) ++ c)) as Htr by (rewrite <- Er1; exists a; exact Hcut).
    destruct (final c err) as [e|] eqn:Efin.
    + destruct fuel as [|fuel].
      { left. split; [reflexivity|]. exists n, (r_src _ r), (contents (r_rdata _ r)). split; [exact Hst|lia]. }
      right. exists [], (Some e), r2, (s', [], Some e). split.
      * cbn [StreamModel.Read]. rewrite (cdata_nil RS r2 Hok2 Ec2), Ee2.
        rewrite (contents_nil_len _ (proj1 (proj2 Hok2)) Er2). reflexivity.
      * split; [eapply read_end; [exact Hst|exact Hsp|exact Erd|right; exact Htr|exact Efin]|].
        split; [exact Hok2|]. split; [exact Er2|]. rewrite Es2, Es1, Ec2, Ee2. reflexivity.
    + assert (err = None /\ c <> []) as [-> Hc] by (destruct err; [discriminate|destruct c; [discriminate|split; [reflexivity|discriminate]]]).
      destruct (IH r2 s (S n) Hok2 Ec2 Ee2) as [[Hf (n' & s'' & u & Hs' & Hle)]|H].
      * rewrite Es2, Es1, Er2, Er1. eapply starves_S; eassumption.
      * left. split; [exact Hf|]. exists n', s'', u. split; [exact Hs'|lia].
      * right. exact H.
Qed.

Lemma read_between k fuel r st : 0 <= k -> between r st ->
  (Read fuel r k = Fuel /\ (fuel = O \/ exists s n s' u, st = (s, [], None) /\ starves rd k n s s' u /\ (fuel <= n + 1)%nat)) \/
  exists bs e r' st', Read fuel r k = Ok (bs, e, r') /\ one_read rd k st bs e st' /\ between r' st'.
Proof.
  intros Hk (Hok & Er & ->). destruct fuel as [|fuel]; [left; auto|].
  destruct (list_eq_dec Z.eq_dec (cdata r) []) as [Ec|Ec].
  - rewrite Ec. destruct (r_err _ r) as [e|] eqn:Ee.
    + right. exists [], (Some e), r, (r_src _ r, [], Some e). split; [|split; [constructor|]].
      * cbn [StreamModel.Read]. rewrite (cdata_nil RS r Hok Ec), Ee.
        rewrite (contents_nil_len _ (proj1 (proj2 Hok)) Er). reflexivity.
      * split; [exact Hok|]. split; [exact Er|]. rewrite Ec, Ee. reflexivity.
    + destruct (read_collect k Hk (S fuel) r (r_src _ r) 0 Hok Ec Ee) as [[Hf (n & s' & u & Hs & Hle)]|H].
      * rewrite Er. constructor.
      * left. split; [exact Hf|]. right. exists (r_src _ r), n, s', u. split; [reflexivity|]. split; [exact Hs|lia].
      * right. exact H.
  - right. pose proof (cdata_len RS r Hok) as Hlen.
    set (m := Z.min k (r_cdata_hi _ r - r_cdata_lo _ r)).
    set (r3 := mkReader RS (r_src _ r) (r_scratch _ r) (r_cdata_lo _ r + m) (r_cdata_hi _ r) (r_rdata _ r) (r_err _ r)).
    assert (0 < zlen (cdata r)) as Hpos.
    { pose proof (zlen_nonneg (cdata r)). destruct (Z.eq_dec (zlen (cdata r)) 0) as [H0|H0]; [|lia]. apply zlen_0 in H0. congruence. }
    assert (0 <= m <= r_cdata_hi _ r - r_cdata_lo _ r) by (unfold m; pose proof (zlen_nonneg (cdata r)); lia).
    assert (ztake m (cdata r) = ztake k (cdata r)) as Ht.
    { unfold m. destruct (Z_le_dec k (zlen (cdata r))); [f_equal; lia|].
      rewrite Z.min_r by lia. rewrite (ztake_all k) by lia. apply ztake_all. lia. }
    assert (cdata r3 = zdrop k (cdata r)) as Hd3.
    { change (cdata r3) with (zdrop (r_cdata_lo _ r + m) (ztake (r_cdata_hi _ r) (arr (r_scratch _ r)))).
      rewrite Z.add_comm, <- zdrop_zdrop by (destruct Hok as (_ & _ & ? & _); lia). change (zdrop (r_cdata_lo _ r) (ztake (r_cdata_hi _ r) (arr (r_scratch _ r)))) with (cdata r).
      unfold m. destruct (Z_le_dec k (zlen (cdata r))); [f_equal; lia|].
      rewrite Z.min_r by lia. rewrite (zdrop_all k) by lia. apply zdrop_all. lia. }
    exists (ztake k (cdata r)), None, r3, (r_src _ r, zdrop k (cdata r), r_err _ r).
    split; [|split; [constructor; exact Ec|]].
    + cbn [StreamModel.Read]. destruct (Z.gtb_spec (r_cdata_hi _ r - r_cdata_lo _ r) 0) as [H0|H0]; [|lia].
      fold m. fold r3. rewrite Ht. reflexivity.
    + split; [|split; [exact Er|]].
      * destruct Hok as (Ha & Hb2 & Hc & Hd2). unfold reader_ok, r3. cbn [r_scratch r_rdata r_cdata_lo r_cdata_hi].
        split; [exact Ha|]. split; [exact Hb2|]. lia.
      * rewrite <- Hd3. reflexivity.
Qed.

Lemma reads_between fuel sizes : Forall (fun k => 0 <= k) sizes -> (0 < fuel)%nat -> forall r st, between r st ->
  (exists results r' st', reads grow RS rd fuel r sizes = Ok (results, r') /\ many_reads rd st sizes results st' /\ between r' st') \/
  (reads grow RS rd fuel r sizes = Fuel /\ exists before k after results s n s' u, sizes = before ++ k :: after /\
     many_reads rd st before results (s, [], None) /\ starves rd k n s s' u /\ (fuel <= n + 1)%nat).
Proof.
  intros Hs Hf. induction Hs as [|k sizes Hk _ IH]; intros r st Hb.
  - left. exists [], r, st. split; [reflexivity|]. split; [constructor|exact Hb].
  - cbn [reads]. destruct (read_between k fuel r st Hk Hb) as [[E [Hx|(s & n & s' & u & -> & Hst & Hle)]]|(bs & e & r' & st' & E & H1 & Hb')].
    + lia.
    + right. rewrite E. split; [reflexivity|]. exists [], k, sizes, [], s, n, s', u.
      split; [reflexivity|]. split; [constructor|]. auto.
    + rewrite E. cbn [bind]. destruct (IH r' st' Hb') as [(results & r2 & st2 & E2 & H2 & Hb2)|(E2 & before & k' & after & results & s & n & s' & u & -> & H2 & Hst & Hle)].
      * left. exists ((bs, e) :: results), r2, st2. rewrite E2. split; [reflexivity|]. split; [econstructor; eassumption|exact Hb2].
      * right. rewrite E2. split; [reflexivity|]. exists (k :: before), k', after, ((bs, e) :: results), s, n, s', u.
        split; [reflexivity|]. split; [econstructor; eassumption|]. auto.
Qed.

Lemma C126_lemma s fuel sizes : Forall (fun k => 0 <= k) sizes -> (0 < fuel)%nat ->
  (exists results r' s' text err, reads grow RS rd fuel (NewReader s) sizes = Ok (results, r') /\
     r_src _ r' = s' /\ many_reads rd (s, [], None) sizes results (s', text, err)) \/
  (reads grow RS rd fuel (NewReader s) sizes = Fuel /\ exists before k after results s1 n s2 u, sizes = before ++ k :: after /\
     many_reads rd (s, [], None) before results (s1, [], None) /\ starves rd k n s1 s2 u /\ (fuel <= n + 1)%nat).
Proof.
  intros Hs Hf. destruct (reads_between fuel sizes Hs Hf (NewReader s) (s, [], None)) as [(results & r' & [[s' text] err] & E & Hm & Hb)|H].
  - split; [|split; reflexivity]. unfold reader_ok, NewReader, slice_ok, scap. cbn. repeat split; lia.
  - left. exists results, r', s', text, err. split; [exact E|]. split; [|exact Hm]. destruct Hb as (_ & _ & Hb). congruence.
  - right. exact H.
Qed.
End Reads.

(** When the answers of the wrapped reader do not depend on the size of its buffer, the
    specification leaves no choice. *)
Section Determined.
Variable RS : Type.
Variable rd : RS -> Z -> list Z * option error * RS.
Hypothesis Hsame : forall s sp sp', 0 < sp -> 0 < sp' -> rd s sp = rd s sp'.

Lemma starves_fun k n : 0 < k -> forall s s1 u s2 v, starves rd k n s s1 u -> starves rd k n s s2 v -> s2 = s1 /\ v = u.
Proof.
  intros Hk. induction n as [|n IH]; intros s s1 u s2 v H H'; inversion H; inversion H'; subst; [auto|].
  match goal with Ha : starves rd k n s ?a ?x, Hb : starves rd k n s ?b ?y |- _ => destruct (IH _ _ _ _ _ Ha Hb) as [-> ->] end.
  match goal with Ea : rd ?a ?x = _, Eb : rd ?a ?y = _ |- _ => rewrite (Hsame a x y) in Ea by lia; rewrite Ea in Eb; injection Eb as <- <- end.
  auto.
Qed.
Lemma starves_prefix k s n s1 u : 0 < k -> starves rd k n s s1 u -> forall m s2 v, starves rd k m s s2 v -> (m < n)%nat ->
  exists c s3, (forall sp, 0 < sp -> rd s2 sp = (c, None, s3)) /\ c <> [] /\ truncated (v ++ c).
Proof.
  intros Hk H. induction H as [s|n s s1 u sp c s3 H IH Hsp E Hc Ht]; intros m s2 v Hm Hle; [lia|].
  destruct (Nat.eq_dec m n) as [->|Hne]; [|apply (IH m s2 v Hm); lia].
  destruct (starves_fun k n Hk _ _ _ _ _ H Hm) as [-> ->].
  exists c, s3. split; [|split; [exact Hc|exact Ht]]. intros sp0 Hs. rewrite (Hsame s1 sp0 sp) by lia. exact E.
Qed.

Lemma trunc_not s rs : truncated s -> decodes s rs -> False.
Proof. intros (a & H) Hd. exact (cut_not_self s a rs H Hd). Qed.

(** The call that ends a Read. *)
Definition stops (u c : list Z) (err : option error) : Prop :=
  (exists rs, decodes (u ++ c) rs) \/ exists e, final c err = Some e.
Lemma stops_last k s n s1 u m t1 v sp d err t' : 0 < k -> starves rd k n s s1 u -> starves rd k m s t1 v ->
  k <= sp -> rd t1 sp = (d, err, t') -> stops v d err -> (m < n)%nat -> False.
Proof.
  intros Hk H1 H2 Hsp E Hs Hlt. destruct (starves_prefix k s n s1 u Hk H1 m t1 v H2 Hlt) as (c & s3 & E2 & Hc & Ht).
  rewrite (E2 sp) in E by lia. injection E as <- <- <-. destruct Hs as [(rs & Hd)|(e & He)].
  - exact (trunc_not _ _ Ht Hd).
  - destruct c; [congruence|discriminate].
Qed.
Lemma stops_fun k s n s1 u sp c err s' m t1 v sp' d err' t' : 0 < k ->
  starves rd k n s s1 u -> k <= sp -> rd s1 sp = (c, err, s') -> stops u c err ->
  starves rd k m s t1 v -> k <= sp' -> rd t1 sp' = (d, err', t') -> stops v d err' ->
  v ++ d = u ++ c /\ final d err' = final c err /\ t' = s'.
Proof.
  intros Hk H1 Hsp E Hs H2 Hsp' E' Hs'.
  destruct (Nat.lt_trichotomy m n) as [Hl|[->|Hl]].
  - destruct (stops_last k s n s1 u m t1 v sp' d err' t'); assumption.
  - destruct (starves_fun k n Hk _ _ _ _ _ H1 H2) as [-> ->]. rewrite (Hsame s1 sp' sp) in E' by lia.
    rewrite E in E'. injection E' as <- <- <-. auto.
  - destruct (stops_last k s m t1 v n s1 u sp c err s'); assumption.
Qed.

Lemma one_read_fun k st bs e st1 bs' e' st1' : 0 < k -> one_read rd k st bs e st1 -> one_read rd k st bs' e' st1' ->
  bs' = bs /\ e' = e /\ st1' = st1.
Proof.
  intros Hk H H'.
  inversion H as [s text err Ht|s x|s n s1 u sp c err s2 rs Hst Hsp E Hd Hne|s n s1 u sp c err s2 x Hst Hsp E Hor Hfin]; subst;
  inversion H' as [s0 text0 err0 Ht0|s0 x0|s0 m t1 v sp0 d err0 t2 rs0 Hst0 Hsp0 E0 Hd0 Hne0|s0 m t1 v sp0 d err0 t2 x0 Hst0 Hsp0 E0 Hor0 Hfin0]; subst;
  try congruence; auto.
  - destruct (stops_fun k s n s1 u sp c err s2 m t1 v sp0 d err0 t2) as (Eb & Ef & ->); try assumption.
    { left. eauto. } { left. eauto. }
    rewrite Eb in Hd0. rewrite (decodes_fun _ _ Hd0 _ Hd), Ef. auto.
  - destruct (stops_fun k s n s1 u sp c err s2 m t1 v sp0 d err0 t2) as (Eb & Ef & ->); try assumption.
    { left. eauto. } { right. eauto. }
    exfalso. rewrite Eb in Hor0. destruct Hor0 as [Hn|Htr]; [|exact (trunc_not _ _ Htr Hd)].
    rewrite Hn in Hd. inversion Hd. congruence.
  - destruct (stops_fun k s n s1 u sp c err s2 m t1 v sp0 d err0 t2) as (Eb & Ef & ->); try assumption.
    { right. eauto. } { left. eauto. }
    exfalso. rewrite <- Eb in Hor. destruct Hor as [Hn|Htr]; [|exact (trunc_not _ _ Htr Hd0)].
    rewrite Hn in Hd0. inversion Hd0. congruence.
  - destruct (stops_fun k s n s1 u sp c err s2 m t1 v sp0 d err0 t2) as (Eb & Ef & ->); try assumption.
    { right. eauto. } { right. eauto. }
    rewrite Ef, Hfin in Hfin0. injection Hfin0 as <-. auto.
Qed.
Lemma one_read_ends k st bs e st1 : 0 < k -> one_read rd k st bs e st1 ->
  exists m, forall s n s' u, st = (s, [], None) -> starves rd k n s s' u -> (n <= m)%nat.
Proof.
  intros Hk H.
  inversion H as [? ? ? Ht|? ?|s n0 t1 v sp c err s2 rs Hst0 Hsp E Hd Hne|s n0 t1 v sp c err s2 x Hst0 Hsp E Hor Hfin]; subst.
  - exists O. intros. congruence.
  - exists O. intros. congruence.
  - exists n0. intros s0 n' s' u' Es Hx. injection Es as <-. destruct (Nat.le_gt_cases n' n0) as [|Hgt]; [assumption|]. exfalso.
    eapply (stops_last k s n' s' u' n0 t1 v sp c err s2 Hk Hx Hst0 Hsp E); [|lia]. left. eauto.
  - exists n0. intros s0 n' s' u' Es Hx. injection Es as <-. destruct (Nat.le_gt_cases n' n0) as [|Hgt]; [assumption|]. exfalso.
    eapply (stops_last k s n' s' u' n0 t1 v sp c err s2 Hk Hx Hst0 Hsp E); [|lia]. right. eauto.
Qed.
Lemma C126_determined_lemma grow s sizes results st : fits_buffer rd -> Forall (fun k => 0 < k) sizes ->
  many_reads rd (s, [], None) sizes results st ->
  exists enough, forall fuel, (enough <= fuel)%nat -> exists r', reads grow RS rd fuel (NewReader s) sizes = Ok (results, r').
Proof.
  intros Hfit Hs H.
  assert (forall st0, many_reads rd st0 sizes results st -> exists enough, forall fuel, (enough <= fuel)%nat ->
    forall r, between RS r st0 -> exists r', reads grow RS rd fuel r sizes = Ok (results, r')) as Hgen.
  { clear s H. intros st0 H. induction H as [st|st k sizes bs e st1 results st2 H1 H IH].
    - exists O. intros. exists r. reflexivity.
    - apply Forall_cons_iff in Hs. destruct Hs as [Hk Hs]. destruct (IH Hs) as (N & HN).
      destruct (one_read_ends k st bs e st1 Hk H1) as (m & Hm).
      exists (Nat.max N (m + 2)). intros fuel Hf r Hb. cbn [reads].
      destruct (read_between grow RS rd Hfit k fuel r st ltac:(lia) Hb) as [[E [Hx|(s & n & s' & u & -> & Hst & Hle)]]|(bs' & e' & r' & st' & E & H1' & Hb')].
      + lia.
      + pose proof (Hm s n s' u eq_refl Hst). lia.
      + destruct (one_read_fun k st bs e st1 bs' e' st' Hk H1 H1') as (-> & -> & ->).
        rewrite E. cbn [bind]. destruct (HN fuel ltac:(lia) r' Hb') as (r2 & E2). rewrite E2. cbn [bind]. eauto. }
  destruct (Hgen _ H) as (N & HN). exists N. intros fuel Hf. apply HN; [exact Hf|].
  split; [|split; reflexivity]. unfold reader_ok, NewReader, slice_ok, scap. cbn. repeat split; lia.
Qed.
End Determined.
