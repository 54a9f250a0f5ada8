(** Goroutines that use separate parts of the memory do not disturb each other: proofs for
    PropCells.v.  Like PoolFacts.v, with parts of arrays in place of arrays. *)
From Coq Require Import String ZArith List Bool Lia.
From Verif Require Import Base Cp949Model GoLang GoHeap GoSource GoThreads SourceSpec ThreadFacts Facts SpecThreads PoolFacts SpecCells CellFacts.
Import ListNotations.
Local Open Scope Z_scope.
Local Open Scope list_scope.
Local Open Scope go_scope.

(** ** Cells *)
Lemma nth_error_skipn' {A} (l : list A) n i : nth_error (skipn n l) i = nth_error l (n + i).
Proof. revert l. induction n as [|n IH]; intros [|a l]; cbn; auto. now destruct i. Qed.
Lemma nth_error_firstn' {A} (l : list A) n i : nth_error (firstn n l) i = if (i <? n)%nat then nth_error l i else None.
Proof.
  revert l i. induction n as [|n IH]; intros l i; [destruct i; reflexivity|]. destruct l as [|a l]; cbn [firstn]; [replace (nth_error (@nil A) i) with (@None A) by (destruct i; reflexivity); now destruct (i <? S n)%nat|].
  destruct i as [|i]; [reflexivity|]. cbn [nth_error]. rewrite IH. reflexivity.
Qed.
Lemma nth_error_ext' {A} (l m : list A) : (forall i, nth_error l i = nth_error m i) -> l = m.
Proof.
  revert m. induction l as [|a l IH]; intros [|b m] H; [reflexivity|discriminate (H O)|discriminate (H O)|].
  pose proof (H O) as H0. injection H0 as ->. f_equal. apply IH. intros i. exact (H (S i)).
Qed.
Lemma zget_out {A} (l : list A) i : ~ 0 <= i < zlen l -> zget l i = None.
Proof. intros H. unfold zget, zlen in *. destruct (Z.ltb_spec i 0); [reflexivity|]. apply nth_error_None. lia. Qed.
Lemma zget_zwrite a o bs i : 0 <= o -> o + zlen bs <= zlen a ->
  zget (zwrite a o bs) i = if (o <=? i) && (i <? o + zlen bs) then zget bs (i - o) else zget a i.
Proof.
  intros Ho Hl. pose proof (zlen_nonneg bs) as Hb. destruct (Z.ltb_spec i 0) as [Hi|Hi].
  { destruct (Z.leb_spec o i); [lia|]. unfold zget. destruct (Z.ltb_spec i 0); [reflexivity|lia]. }
  unfold zwrite. rewrite (zget_nth _ i Hi). unfold ztake, zdrop, zlen in *.
  destruct (Z.leb_spec o i); cbn [andb].
  - rewrite nth_error_app2 by (rewrite firstn_length; lia). rewrite firstn_length.
    destruct (Z.ltb_spec i (o + Z.of_nat (length bs))).
    + rewrite nth_error_app1 by lia. rewrite zget_nth by lia. f_equal. lia.
    + rewrite nth_error_app2 by lia. rewrite nth_error_skipn'. rewrite zget_nth by lia. f_equal. lia.
  - rewrite nth_error_app1 by (rewrite firstn_length; lia). rewrite nth_error_firstn'.
    destruct (Nat.ltb_spec (Z.to_nat i) (Z.to_nat o)); [|lia]. now rewrite zget_nth by lia.
Qed.
Lemma cells_eq (a a' : list Z) o n : 0 <= o -> (forall i, o <= i < o + n -> zget a i = zget a' i) -> ztake n (zdrop o a) = ztake n (zdrop o a').
Proof.
  intros Ho H. apply nth_error_ext'. intros i. unfold ztake, zdrop. rewrite !nth_error_firstn', !nth_error_skipn'.
  destruct (Nat.ltb_spec i (Z.to_nat n)); [|reflexivity]. specialize (H (o + Z.of_nat i)). rewrite !zget_nth in H by lia.
  replace (Z.to_nat (o + Z.of_nat i)) with (Z.to_nat o + i)%nat in H by lia. apply H. lia.
Qed.
Lemma cells_len (a : list Z) o n : 0 <= o -> 0 <= n -> o + n <= zlen a -> zlen (ztake n (zdrop o a)) = n.
Proof. intros. unfold zlen, ztake, zdrop in *. rewrite firstn_length, skipn_length. lia. Qed.

Section Pool.
Variable E : Type.
Variable rd : nat -> E -> Z -> Z * list Z * option error * E.
Variable wr : nat -> E -> list Z -> Z * option error * E.
Notation state := (state E).
Notation one := (one E rd wr).
Notation finish := (finish E rd wr).
(** The execution of a process by itself, in [n] steps, up to its end. *)
Inductive solo {A} : nat -> proc A -> state -> res A -> state -> Prop :=
| solo_done r s : solo 0 (Done r) s r s
| solo_step n p s p1 s1 r t : is_done p = false -> one p s = Ok (p1, s1) -> solo n p1 s1 r t -> solo (S n) p s r t.
Lemma finish_ok {A} (p : proc A) s a t : finish p s = Ok (a, t) -> exists n, solo n p s (Ok a) t.
Proof.
  intros H. apply finish_solo in H. destruct H as [n H]. exists n. induction H; [constructor|]. eapply solo_step; eassumption.
Qed.
Lemma finish_panic {A} (p : proc A) : forall s, finish p s = Panic -> exists n t, solo n p s Panic t.
Proof.
  induction p; intros s Hf; cbn [GoThreads.finish] in Hf.
  - destruct r; try discriminate. exists O, s. constructor.
  - destruct (H _ _ Hf) as (m & t & Hm). exists (S m), t. eapply solo_step; [reflexivity|reflexivity|exact Hm].
  - destruct (IHp _ Hf) as (m & t & Hm). exists (S m), t. eapply solo_step; [reflexivity|reflexivity|exact Hm].
  - destruct (new_arr E s a) as [l s1] eqn:Hn. destruct (H _ _ Hf) as (m & t & Hm). exists (S m), t.
    eapply solo_step; [reflexivity|cbn [GoThreads.one]; rewrite Hn; reflexivity|exact Hm].
  - destruct (nth_error (objs E s) l) as [o|] eqn:Hn; [|discriminate Hf]. cbn [the bind] in Hf.
    destruct (H _ _ Hf) as (m & t & Hm). exists (S m), t.
    eapply solo_step; [reflexivity|cbn [GoThreads.one]; rewrite Hn; reflexivity|exact Hm].
  - destruct (set_field E s (VPtr l) f v) as [s1| |] eqn:Hn; cbn [bind] in Hf; [| |discriminate Hf].
    + destruct (IHp _ Hf) as (m & t & Hm). exists (S m), t.
      eapply solo_step; [reflexivity|cbn [GoThreads.one]; rewrite Hn; reflexivity|exact Hm].
    + exfalso. unfold set_field in Hn. destruct (nth_error (objs E s) l) as [[T fs]|]; [|discriminate Hn]. cbn [the bind] in Hn.
      destruct (get f fs); discriminate Hn.
  - destruct (H _ _ Hf) as (m & t & Hm). exists (S m), t. eapply solo_step; [reflexivity|reflexivity|exact Hm].
  - destruct (rd i (ext E s) n) as [[[c bs] e] x] eqn:Hn. destruct (H _ _ _ _ Hf) as (m & t & Hm). exists (S m), t.
    eapply solo_step; [reflexivity|cbn [GoThreads.one]; rewrite Hn; reflexivity|exact Hm].
  - destruct (wr i (ext E s) bs) as [[c e] x] eqn:Hn. destruct (H _ _ _ Hf) as (m & t & Hm). exists (S m), t.
    eapply solo_step; [reflexivity|cbn [GoThreads.one]; rewrite Hn; reflexivity|exact Hm].
Qed.

(** ** Memory alone and memory shared *)
Variable nb : nat.
Variable W : nat -> Z -> Prop.
(* structs without fields *)
Variable St : nat -> Prop.
Notation val_rel := (val_rel nb W).
Notation fields_rel := (fields_rel nb W).
Notation obj_rel := (obj_rel nb W).

Definition o2o := one_to_one.
Definition agree (P : Z -> Prop) (a a' : list Z) : Prop := zlen a = zlen a' /\ forall i, P i -> zget a i = zget a' i.
Record srel (w : world) (s : state) (A : list (list Z)) (O : list (string * list (string * val))) : Prop := mkSrel {
  sr_arr : forall l l' lo hi, In (l, l', (lo, hi)) (wa w) -> (l < length (arrs E s))%nat /\ (l' < length A)%nat /\ 0 <= lo /\ hi <= zlen (nth l (arrs E s) []) /\
    agree (fun i => lo <= i < hi) (nth l (arrs E s) []) (nth l' A []);
  sr_ro : forall l, (l < nb)%nat -> (l < length (arrs E s))%nat /\ (l < length A)%nat /\ agree (fun i => ~ W l i) (nth l (arrs E s) []) (nth l A []);
  sr_obj : forall l l', In (l, l') (wo w) -> exists o o', nth_error (objs E s) l = Some o /\ nth_error O l' = Some o' /\ obj_rel w o o';
  sr_ia : o2o (map fst (wa w));
  sr_io : o2o (wo w);
  sr_sep : forall l l' lo hi, In (l, l', (lo, hi)) (wa w) ->
    (l = l' /\ (l < nb)%nat /\ forall i, lo <= i < hi -> W l i) \/ ((nb <= l)%nat /\ (nb <= l')%nat /\ lo = 0 /\ hi = zlen (nth l (arrs E s) []));
  sr_st : forall l, St l -> exists T, nth_error O l = Some (T, [])
}.

(** What a step of one process does to the memory it shares with others. *)
Record frame (w w1 : world) (A A1 : list (list Z)) (O O1 : list (string * list (string * val))) : Prop := mkFrame {
  fr_w : wle w w1;
  fr_la : (length A <= length A1)%nat;
  fr_lo : (length O <= length O1)%nat;
  fr_l : forall l, (l < length A)%nat -> zlen (nth l A1 []) = zlen (nth l A []);
  fr_a : forall l i, (l < length A)%nat -> zget (nth l A1 []) i = zget (nth l A []) i \/ exists l0 lo hi, In (l0, l, (lo, hi)) (wa w) /\ lo <= i < hi;
  fr_o : forall l, (l < length O)%nat -> nth_error O1 l = nth_error O l \/ (~ St l /\ exists l0, In (l0, l) (wo w));
  fr_na : forall l l' p, In (l, l', p) (wa w1) -> In (l, l', p) (wa w) \/ (length A <= l')%nat;
  fr_no : forall l l', In (l, l') (wo w1) -> In (l, l') (wo w) \/ (length O <= l')%nat
}.
Lemma frame_id w A O : frame w w A A O O.
Proof. constructor; auto. apply wle_refl. Qed.
Lemma in_pair w l l' p : In (l, l', p) (wa w) -> In (l, l') (map fst (wa w)).
Proof. intros H. change (l, l') with (fst (l, l', p)). now apply in_map. Qed.
Lemma pair_in w l l' : In (l, l') (map fst (wa w)) -> exists lo hi, In (l, l', (lo, hi)) (wa w).
Proof. intros H. apply in_map_iff in H. destruct H as ([[x y] [lo hi]] & H1 & H2). cbn in H1. injection H1 as -> ->. eauto. Qed.

Lemma set_rel w f v v' fs fs' : fields_rel w fs fs' -> val_rel w Own v v' -> fields_rel w (set f v fs) (set f v' fs').
Proof.
  intros H Hv. revert fs' H. induction fs as [|[x u] fs IH]; intros [|[x' u'] fs'] H; try contradiction H; [exact I|].
  destruct H as [[Hx Hu] H]. cbn in Hx, Hu. subst x'. cbn [set]. destruct (String.eqb x f); (split; [split; [reflexivity|assumption]|first [exact H|apply IH; exact H]]).
Qed.

Section Thread.
Context {A : Type}.
Variable Q : world -> A -> A -> Prop.
Notation prel := (prel nb W Q).

Lemma step_thread n w p p' s M O a t : prel w p p' -> srel w s M O -> solo n p s a t -> is_done p' = false ->
  exists p1' s1' w1 p1 s1 m,
    one p' (mkState E M O (ext E s)) = Ok (p1', s1') /\
    n = S m /\ solo m p1 s1 a t /\ prel w1 p1 p1' /\ srel w1 s1 (arrs E s1') (objs E s1') /\ ext E s1 = ext E s1' /\
    frame w w1 M (arrs E s1') O (objs E s1').
Proof.
  intros Hp Hs Hn Hd. inversion Hp; subst; try discriminate Hd; inversion Hn; subst; clear Hn;
    match goal with H : GoThreads.one _ _ _ _ _ = Ok _ |- _ => cbn [GoThreads.one] in H end.
  - (* Load *)
    match goal with H : Ok _ = Ok _ |- _ => injection H as <- <- end. rename H into Ho, H0 into Hn0, H1 into Hh, H2 into Hk.
    destruct Hh as (lo & hi & Hin & Hlo & Hhi). destruct (sr_arr _ _ _ _ Hs _ _ _ _ Hin) as (Hl & Hl' & H0 & Hb & Heq & Hc).
    assert (Hcc : cells E s l o n0 = cells E (mkState E M O (ext E s)) l' o n0).
    { unfold cells, arr_at. cbn [arrs]. apply cells_eq; [lia|]. intros i Hi. apply Hc. lia. }
    do 6 eexists. split; [reflexivity|]. split; [reflexivity|]. split; [eassumption|]. cbn [arrs objs ext].
    split; [rewrite <- Hcc; apply Hk; unfold cells, arr_at; apply cells_len; lia|]. split; [exact Hs|]. split; [reflexivity|apply frame_id].
  - (* Load of what nobody writes *)
    match goal with H : Ok _ = Ok _ |- _ => injection H as <- <- end. rename H into Ho, H0 into Hn0, H1 into Hh, H2 into Hk.
    destruct Hh as [Hl HW]. destruct (sr_ro _ _ _ _ Hs _ Hl) as (Hl1 & Hl2 & Heq & Hc).
    assert (Hcc : cells E s l o n0 = cells E (mkState E M O (ext E s)) l o n0).
    { unfold cells, arr_at. cbn [arrs]. apply cells_eq; [lia|]. intros i Hi. apply Hc, HW. lia. }
    do 6 eexists. split; [reflexivity|]. split; [reflexivity|]. split; [eassumption|]. cbn [arrs objs ext].
    split; [rewrite <- Hcc; apply Hk; pose proof (zlen_ztake_le n0 (zdrop o (arr_at E s l))); unfold cells; lia|]. split; [exact Hs|]. split; [reflexivity|apply frame_id].
  - (* Save *)
    match goal with H : Ok _ = Ok _ |- _ => injection H as <- <- end. rename H into Ho, H0 into Hh.
    do 6 eexists. split; [reflexivity|]. split; [reflexivity|]. split; [eassumption|]. split; [eassumption|].
    unfold store, set_arr, arr_at. cbn [arrs objs ext]. pose proof (zlen_nonneg bs) as Hbs.
    destruct Hh as (lo & hi & Hin & Hlo & Hhi). destruct (sr_arr _ _ _ _ Hs _ _ _ _ Hin) as (Hl & Hl' & H0 & Hb & Heq & Hc).
    assert (Hz : zlen (zwrite (nth l (arrs E s) []) o bs) = zlen (nth l (arrs E s) [])) by (apply zlen_zwrite; lia).
    assert (Hz' : zlen (zwrite (nth l' M []) o bs) = zlen (nth l' M [])) by (apply zlen_zwrite; lia).
    assert (Hag : forall P, agree P (nth l (arrs E s) []) (nth l' M []) -> agree P (zwrite (nth l (arrs E s) []) o bs) (zwrite (nth l' M []) o bs)).
    { intros P [HP1 HP2]. split; [lia|]. intros i Hi. rewrite !zget_zwrite by lia. destruct (_ && _); auto. }
    split; [|split; [reflexivity|]].
    + constructor; cbn [arrs objs]; try apply Hs.
      * intros j j' jl jh Hk. rewrite !set_nth_len. destruct (sr_arr _ _ _ _ Hs _ _ _ _ Hk) as (Hk1 & Hk2 & Hk3 & Hk4 & Hk5).
        do 2 (split; [assumption|]). split; [assumption|]. destruct (Nat.eq_dec l j) as [->|Hne].
        -- assert (l' = j') by (apply (sr_ia _ _ _ _ Hs j l' j j' (in_pair _ _ _ _ Hin) (in_pair _ _ _ _ Hk)); reflexivity). subst j'.
           rewrite !nth_set_nth by assumption. split; [lia|]. now apply Hag.
        -- assert (l' <> j') by (intros ->; apply Hne; apply (sr_ia _ _ _ _ Hs _ _ _ _ (in_pair _ _ _ _ Hin) (in_pair _ _ _ _ Hk)); reflexivity).
           rewrite !nth_set_nth_ne by assumption. auto.
      * intros j Hk. rewrite !set_nth_len. destruct (sr_ro _ _ _ _ Hs _ Hk) as (Hk1 & Hk2 & Hk3).
        split; [assumption|split; [assumption|]].
        destruct (sr_sep _ _ _ _ Hs _ _ _ _ Hin) as [(-> & Hs1 & Hs2)|(Hs1 & Hs2 & _)]; [|rewrite !nth_set_nth_ne by lia; exact Hk3].
        destruct (Nat.eq_dec l' j) as [->|Hne]; [|rewrite !nth_set_nth_ne by assumption; exact Hk3].
        rewrite !nth_set_nth by assumption. now apply Hag.
      * intros j j' jl jh Hk. destruct (sr_sep _ _ _ _ Hs _ _ _ _ Hk) as [Hk1|(Hk1 & Hk2 & Hk3 & Hk4)]; [now left|right].
        do 3 (split; [assumption|]). destruct (Nat.eq_dec l j) as [->|Hne]; [rewrite nth_set_nth by assumption; lia|now rewrite nth_set_nth_ne by assumption].
    + constructor; rewrite ?set_nth_len; auto; [apply wle_refl| |].
      * intros j Hk. destruct (Nat.eq_dec l' j) as [->|Hne]; [now rewrite nth_set_nth by assumption|now rewrite nth_set_nth_ne by assumption].
      * intros j i Hk. destruct (Nat.eq_dec l' j) as [->|Hne]; [|left; now rewrite nth_set_nth_ne by assumption].
        rewrite nth_set_nth by assumption. rewrite zget_zwrite by lia. destruct (Z.leb_spec o i); [|now left]. destruct (Z.ltb_spec i (o + zlen bs)); [|now left].
        right. exists l, lo, hi. split; [exact Hin|lia].
  - (* Save of nothing *)
    match goal with H : Ok _ = Ok _ |- _ => injection H as <- <- end.
    do 6 eexists. split; [reflexivity|]. split; [reflexivity|]. split; [eassumption|]. split; [eassumption|].
    unfold store, set_arr, arr_at. cbn [arrs objs ext]. rewrite !set_nth_same. split; [destruct s; exact Hs|]. split; [reflexivity|apply frame_id].
  - (* NewArr *)
    unfold new_arr in *. match goal with H : Ok _ = Ok _ |- _ => injection H as <- <- end.
    do 6 eexists. split; [reflexivity|]. split; [reflexivity|]. split; [eassumption|]. split; [apply H|].
    cbn [arrs objs ext]. split; [|split; [reflexivity|]].
    + constructor; cbn [arrs objs wa wo add_arr]; rewrite ?app_length; cbn [length].
      * intros j j' jl jh [Hk|Hk].
        -- injection Hk as <- <- <- <-. rewrite !app_nth2 by lia. rewrite !Nat.sub_diag. cbn [nth].
           split; [lia|split; [lia|split; [lia|split; [lia|]]]]. split; reflexivity.
        -- destruct (sr_arr _ _ _ _ Hs _ _ _ _ Hk) as (Hk1 & Hk2 & Hk3). split; [lia|split; [lia|]]. rewrite !app_nth1 by assumption. exact Hk3.
      * intros j Hk. destruct (sr_ro _ _ _ _ Hs _ Hk) as (Hk1 & Hk2 & Hk3). split; [lia|split; [lia|]]. rewrite !app_nth1 by assumption. exact Hk3.
      * intros j j' Hk. destruct (sr_obj _ _ _ _ Hs _ _ Hk) as (o & o' & Ho & Ho' & Hoo). exists o, o'.
        split; [exact Ho|split; [exact Ho'|]]. eapply obj_rel_mono; [|exact Hoo]. apply wle_arr.
      * cbn [map fst]. intros x y x' y' [Hx|Hx] [Hy|Hy]; try injection Hx as <- <-; try injection Hy as <- <-; [tauto| | |].
        -- apply pair_in in Hy. destruct Hy as (? & ? & Hy). destruct (sr_arr _ _ _ _ Hs _ _ _ _ Hy) as (Hk1 & Hk2 & _). lia.
        -- apply pair_in in Hx. destruct Hx as (? & ? & Hx). destruct (sr_arr _ _ _ _ Hs _ _ _ _ Hx) as (Hk1 & Hk2 & _). lia.
        -- exact (sr_ia _ _ _ _ Hs _ _ _ _ Hx Hy).
      * apply Hs.
      * intros j j' jl jh [Hk|Hk].
        -- injection Hk as <- <- <- <-. right. rewrite app_nth2 by lia. rewrite Nat.sub_diag. cbn [nth].
           assert (Hnb : (nb <= length (arrs E s))%nat /\ (nb <= length M)%nat).
           { destruct nb as [|nb'] eqn:Hnb; [lia|]. destruct (sr_ro _ _ _ _ Hs nb') as (Hk1 & Hk2 & _); lia. }
           split; [lia|]. split; [lia|]. split; reflexivity.
        -- destruct (sr_arr _ _ _ _ Hs _ _ _ _ Hk) as (Hk1 & Hk2 & _). rewrite app_nth1 by assumption. exact (sr_sep _ _ _ _ Hs _ _ _ _ Hk).
      * apply Hs.
    + constructor; cbn [wa wo add_arr]; rewrite ?app_length; cbn [length]; auto; try lia; [apply wle_arr| | |].
      * intros j Hk. now rewrite app_nth1.
      * intros j i Hk. left. now rewrite app_nth1.
      * intros j j' p [Hk|Hk]; [|auto]. injection Hk as <- <- <-. right. lia.
  - (* GetObj *)
    destruct (sr_obj _ _ _ _ Hs _ _ H) as (o & o' & Ho & Ho' & Hoo). rewrite Ho in *. cbn [the bind] in *.
    match goal with H : Ok _ = Ok _ |- _ => injection H as <- <- end.
    do 6 eexists. split; [cbn [GoThreads.one objs]; rewrite Ho'; reflexivity|]. split; [reflexivity|]. split; [eassumption|].
    split; [apply H0; exact Hoo|]. split; [exact Hs|]. split; [reflexivity|apply frame_id].
  - (* SetField *)
    destruct (sr_obj _ _ _ _ Hs _ _ H) as ([T fs] & [T' fs'] & Ho & Ho' & [HT Hfs]). cbn [fst snd] in HT, Hfs. subst T'.
    unfold set_field in *. rewrite Ho in *. cbn [the bind] in *.
    pose proof (get_rel nb W _ _ _ f Hfs) as Hg. destruct (get f fs) as [u|] eqn:Hgf; [|discriminate]. cbn [the bind] in *.
    destruct (get f fs') as [u'|] eqn:Hgf'; [|contradiction].
    match goal with H : Ok _ = Ok _ |- _ => injection H as <- <- end.
    do 6 eexists. split; [cbn [GoThreads.one]; unfold set_field; cbn [objs]; rewrite Ho'; cbn [the bind]; rewrite Hgf'; reflexivity|].
    split; [reflexivity|]. split; [eassumption|]. split; [eassumption|]. cbn [arrs objs ext].
    assert (Hl : (l < length (objs E s))%nat) by (apply nth_error_Some; congruence).
    assert (Hl' : (l' < length O)%nat) by (apply nth_error_Some; congruence).
    split; [|split; [reflexivity|]].
    + assert (Hst : ~ St l').
      { intros H'. destruct (sr_st _ _ _ _ Hs _ H') as [T' HT']. rewrite Ho' in HT'. injection HT' as _ ->. discriminate Hgf'. }
      constructor; cbn [arrs objs]; try apply Hs;
        [|intros j Hk; rewrite nth_error_set_nth_ne by (intros <-; contradiction); exact (sr_st _ _ _ _ Hs _ Hk)].
      intros j j' Hk. destruct (Nat.eq_dec l j) as [->|Hne].
      * assert (l' = j') by (apply (sr_io _ _ _ _ Hs j l' j j' H Hk); reflexivity). subst j'.
        do 2 eexists. split; [apply nth_error_set_nth; assumption|]. split; [apply nth_error_set_nth; assumption|].
        split; [reflexivity|]. apply set_rel; assumption.
      * assert (l' <> j') by (intros ->; apply Hne; apply (sr_io _ _ _ _ Hs _ _ _ _ H Hk); reflexivity).
        rewrite !nth_error_set_nth_ne by assumption. exact (sr_obj _ _ _ _ Hs _ _ Hk).
    + constructor; rewrite ?set_nth_len; auto; [apply wle_refl|].
      intros j Hk. destruct (Nat.eq_dec l' j) as [->|Hne]; [right; split; [|eauto]|left; now apply nth_error_set_nth_ne].
      intros H'. destruct (sr_st _ _ _ _ Hs _ H') as [T' HT']. rewrite Ho' in HT'. injection HT' as _ ->. discriminate Hgf'.
  - (* NewObj *)
    match goal with H : Ok _ = Ok _ |- _ => injection H as <- <- end.
    do 6 eexists. split; [reflexivity|]. split; [reflexivity|]. split; [eassumption|]. split; [apply H0|].
    cbn [arrs objs ext]. split; [|split; [reflexivity|]].
    + constructor; cbn [arrs objs wa wo add_obj]; try apply Hs.
      * intros j j' [Hk|Hk].
        -- injection Hk as <- <-. do 2 eexists. rewrite !nth_error_app2 by lia. rewrite !Nat.sub_diag. cbn [nth_error].
           split; [reflexivity|]. split; [reflexivity|]. split; [reflexivity|]. cbn [snd]. eapply fields_rel_mono; [|eassumption]. apply wle_obj.
        -- destruct (sr_obj _ _ _ _ Hs _ _ Hk) as (o & o' & Ho & Ho' & Hoo). exists o, o'.
           rewrite !nth_error_app1 by (apply nth_error_Some; congruence). split; [exact Ho|split; [exact Ho'|]].
           eapply obj_rel_mono; [|exact Hoo]. apply wle_obj.
      * assert (Hb : forall j j', In (j, j') (wo w) -> (j < length (objs E s))%nat /\ (j' < length O)%nat).
        { intros j j' Hk. destruct (sr_obj _ _ _ _ Hs _ _ Hk) as (o & o' & Ho & Ho' & _). split; apply nth_error_Some; congruence. }
        intros x y x' y' [Hx|Hx] [Hy|Hy]; try injection Hx as <- <-; try injection Hy as <- <-; [tauto| | |].
        -- destruct (Hb _ _ Hy). lia.
        -- destruct (Hb _ _ Hx). lia.
        -- exact (sr_io _ _ _ _ Hs _ _ _ _ Hx Hy).
      * intros j Hk. destruct (sr_st _ _ _ _ Hs _ Hk) as [T' HT']. exists T'. rewrite nth_error_app1 by (apply nth_error_Some; congruence). exact HT'.
    + constructor; cbn [wa wo add_obj]; rewrite ?app_length; cbn [length]; auto; try lia; [apply wle_obj| |].
      * intros j Hk. left. now apply nth_error_app1.
      * intros j j' [Hk|Hk]; [|auto]. injection Hk as <- <-. right. lia.
  - (* ExtRead *)
    destruct (rd i (ext E s) n0) as [[[c bs] e] x] eqn:Hr.
    match goal with H : Ok _ = Ok _ |- _ => injection H as <- <- end.
    do 6 eexists. split; [cbn [GoThreads.one ext]; rewrite Hr; reflexivity|]. split; [reflexivity|]. split; [eassumption|].
    split; [apply H|]. cbn [set_ext arrs objs ext]. split; [constructor; cbn [set_ext arrs objs]; apply Hs|]. split; [reflexivity|apply frame_id].
  - (* ExtWrite *)
    destruct (wr i (ext E s) bs) as [[c e] x] eqn:Hr.
    match goal with H : Ok _ = Ok _ |- _ => injection H as <- <- end.
    do 6 eexists. split; [cbn [GoThreads.one ext]; rewrite Hr; reflexivity|]. split; [reflexivity|]. split; [eassumption|].
    split; [apply H|]. cbn [set_ext arrs objs ext]. split; [constructor; cbn [set_ext arrs objs]; apply Hs|]. split; [reflexivity|apply frame_id].
Qed.

(** What a process is about to access. *)
Lemma about_own n w p p' s M O a t : prel w p p' -> srel w s M O -> solo n p s a t -> forall pl b, touches p' pl b ->
  match pl with
  | Cell l' i => (exists l lo hi, In (l, l', (lo, hi)) (wa w) /\ lo <= i < hi) \/ ((l' < nb)%nat /\ ~ W l' i /\ b = false)
  | Struct l' => (exists l, In (l, l') (wo w)) /\ (b = true -> ~ St l')
  end.
Proof.
  intros H Hs Hn pl b Ha. inversion H; subst; inversion Ha; subst.
  - left. match goal with H : has _ _ _ _ _ |- _ => destruct H as (lo & hi & Hin & Hlo & Hhi) end. exists l, lo, hi. split; [exact Hin|lia].
  - right. match goal with H : R _ _ _ _ _ |- _ => destruct H as [HR1 HR2] end. split; [exact HR1|]. split; [apply HR2; lia|reflexivity].
  - left. match goal with H : has _ _ _ _ _ |- _ => destruct H as (lo & hi & Hin & Hlo & Hhi) end. exists l, lo, hi. split; [exact Hin|lia].
  - exfalso. match goal with H : _ <= _ < _ + zlen [] |- _ => unfold zlen in H; cbn [length] in H; lia end.
  - split; [eauto|discriminate].
  - split; [eauto|]. intros _ H'. destruct (sr_st _ _ _ _ Hs _ H') as [T' HT'].
    destruct (sr_obj _ _ _ _ Hs _ _ H0) as ([T fs] & o' & Ho & Ho' & [HT Hfs]). rewrite HT' in Ho'. injection Ho' as <-. cbn [fst snd] in *.
    destruct fs as [|x fs]; [|contradiction Hfs]. inversion Hn; subst.
    match goal with H : GoThreads.one _ _ _ _ _ = Ok _ |- _ => cbn [GoThreads.one] in H; unfold set_field in H; rewrite Ho in H; discriminate H end.
Qed.
Lemma done_rel w p p' n s a t : prel w p p' -> solo n p s a t -> is_done p' = true -> exists a', n = O /\ p' = Done a' /\ s = t /\ match a, a' with Ok v, Ok v' => Q w v v' | Panic, Panic | Fuel, Fuel => True | _, _ => False end.
Proof. intros H Hn Hd. inversion H; subst; try discriminate Hd; inversion Hn; subst; try discriminate; eexists; repeat (split; [reflexivity|]); cbn; auto. Qed.
End Thread.

(** ** Others are not disturbed *)
Definition apart (w w' : world) : Prop :=
  (forall l k m lo hi lo' hi' i, In (l, m, (lo, hi)) (wa w) -> In (k, m, (lo', hi')) (wa w') -> lo <= i < hi -> lo' <= i < hi' -> False) /\
  (forall l k m, In (l, m) (wo w) -> In (k, m) (wo w') -> St m).

Lemma srel_frame w w1 v s u M M1 O O1 : srel w s M O -> srel v u M O -> apart w v -> frame w w1 M M1 O O1 -> srel v u M1 O1.
Proof.
  intros Hs Hu [Haa Hao] F. constructor; try apply Hu.
  - intros l l' lo hi H. destruct (sr_arr _ _ _ _ Hu _ _ _ _ H) as (H1 & H2 & H3 & H4 & H5 & H6). split; [assumption|].
    split; [pose proof (fr_la _ _ _ _ _ _ F); lia|]. split; [assumption|]. split; [assumption|]. split; [now rewrite (fr_l _ _ _ _ _ _ F)|].
    intros i Hi. destruct (fr_a _ _ _ _ _ _ F l' i H2) as [->|(l0 & lo0 & hi0 & Hl & Hi0)]; [now apply H6|]. exfalso. eapply Haa; eassumption.
  - intros l H. destruct (sr_ro _ _ _ _ Hu _ H) as (H1 & H2 & H3 & H4). split; [assumption|].
    split; [pose proof (fr_la _ _ _ _ _ _ F); lia|]. split; [now rewrite (fr_l _ _ _ _ _ _ F)|].
    intros i Hi. destruct (fr_a _ _ _ _ _ _ F l i H2) as [->|(l0 & lo0 & hi0 & Hl & Hi0)]; [now apply H4|].
    exfalso. destruct (sr_sep _ _ _ _ Hs _ _ _ _ Hl) as [(-> & _ & Hs1)|(_ & Hs1 & _)]; [|lia]. now apply Hi, Hs1.
  - intros l l' H. destruct (sr_obj _ _ _ _ Hu _ _ H) as (o & o' & Ho & Ho' & Hoo). exists o, o'. split; [assumption|]. split; [|assumption].
    destruct (fr_o _ _ _ _ _ _ F l') as [->|[Hst [l0 Hl]]]; [apply nth_error_Some; congruence|assumption|]. exfalso. apply Hst. eapply Hao; eassumption.
  - intros l H. destruct (sr_st _ _ _ _ Hu _ H) as [T HT]. exists T. destruct (fr_o _ _ _ _ _ _ F l) as [->|[Hst _]]; [apply nth_error_Some; congruence|assumption|contradiction].
Qed.
Lemma apart_frame w w1 v s u M M1 O O1 : srel w s M O -> srel v u M O -> apart w v -> frame w w1 M M1 O O1 -> apart w1 v /\ apart v w1.
Proof.
  intros Hs Hu [Haa Hao] F. assert (apart w1 v).
  { split; [intros l k m lo hi lo' hi' i H1 H2 Hi Hi'|intros l k m H1 H2].
    - destruct (fr_na _ _ _ _ _ _ F _ _ _ H1) as [H|H]; [eapply Haa; eassumption|]. destruct (sr_arr _ _ _ _ Hu _ _ _ _ H2) as (_ & ? & _). lia.
    - destruct (fr_no _ _ _ _ _ _ F _ _ H1) as [H|H]; [eapply Hao; eassumption|]. destruct (sr_obj _ _ _ _ Hu _ _ H2) as (? & o' & _ & Ho & _).
      assert (m < length O)%nat by (apply nth_error_Some; congruence). lia. }
  split; [assumption|]. destruct H as [Ha Ho]. split; intros; eauto.
Qed.

(** ** The pool *)
Record ghost : Type := mkGhost { g_w : world; g_p : proc val; g_s : state; g_n : nat }.
(* what each process alone ends with *)
Variable goals : list (res val * state).
(* the memory each starts with *)
Variable bases : list world.
Definition Q (w : world) (v v' : val) : Prop := val_rel w Src v v'.

Definition good (M : list (list Z)) O (p' : proc val) (x : E) (v : res val) (t : state) (g : ghost) : Prop :=
  prel nb W Q (g_w g) (g_p g) p' /\ srel (g_w g) (g_s g) M O /\ ext E (g_s g) = x /\ solo (g_n g) (g_p g) (g_s g) v t.
Record inv (c : pool E) (gs : list ghost) : Prop := mkInv {
  i_len : length gs = length (p_procs E c);
  i_len' : length goals = length (p_procs E c);
  i_good : forall i p' x v t g, nth_error (p_procs E c) i = Some (p', x) -> nth_error goals i = Some (v, t) -> nth_error gs i = Some g ->
    good (p_arrs E c) (p_objs E c) p' x v t g;
  i_apart : forall i j g h, i <> j -> nth_error gs i = Some g -> nth_error gs j = Some h -> apart (g_w g) (g_w h);
  i_base : forall i g b, nth_error gs i = Some g -> nth_error bases i = Some b -> wle b (g_w g)
}.
Definition total (gs : list ghost) : nat := fold_right (fun g n => (g_n g + n)%nat) O gs.

Lemma total_set gs i g h m : nth_error gs i = Some g -> g_n g = S m -> g_n h = m -> total gs = S (total (set_nth i h gs)).
Proof.
  revert i. induction gs as [|g0 gs IH]; intros [|i] H Hg Hh; try discriminate; cbn in *.
  - injection H as ->. rewrite Hg, Hh. lia.
  - pose proof (IH i H Hg Hh) as Hi. unfold total in Hi. lia.
Qed.
Definition same_rest (M M1 : list (list Z)) : Prop :=
  (length M <= length M1)%nat /\ forall l, (l < nb)%nat -> agree (fun i => ~ W l i) (nth l M1 []) (nth l M []).
Lemma inv_step c gs i p' x : inv c gs -> nth_error (p_procs E c) i = Some (p', x) -> is_done p' = false ->
  exists p1' s1' gs1, one p' (mkState E (p_arrs E c) (p_objs E c) x) = Ok (p1', s1') /\
    total gs = S (total gs1) /\ inv (mkPool E (arrs E s1') (objs E s1') (set_nth i (p1', ext E s1') (p_procs E c))) gs1 /\
    same_rest (p_arrs E c) (arrs E s1').
Proof.
  intros [Hl Hl' Hg Ha Hb] Hi Hd. destruct (nth_same_len _ _ _ _ Hl Hi) as [g Hgi]. destruct (nth_same_len _ _ _ _ Hl' Hi) as [[v t] Hvi].
  destruct (Hg _ _ _ _ _ _ Hi Hvi Hgi) as (Hp & Hs & Hx & Hn).
  destruct (step_thread Q _ _ _ _ _ _ _ _ _ Hp Hs Hn Hd) as (p1' & s1' & w1 & p1 & s1 & m & H1 & Hm & Hn1 & Hp1 & Hs1 & Hx1 & F).
  rewrite Hx in H1. exists p1', s1', (set_nth i (mkGhost w1 p1 s1 m) gs). split; [exact H1|].
  split; [eapply total_set; [exact Hgi|exact Hm|reflexivity]|].
  assert (Hil : (i < length gs)%nat) by (apply nth_error_Some; congruence). split.
  - constructor; cbn [p_procs p_arrs p_objs]; rewrite ?set_nth_len; try assumption.
    + intros j q' y u r h Hj Huj Hhj. destruct (Nat.eq_dec i j) as [<-|Hne].
      * rewrite nth_error_set_nth in Hhj by exact Hil. rewrite Hl in Hil. rewrite nth_error_set_nth in Hj by exact Hil. injection Hj as <- <-. injection Hhj as <-.
        assert (Hut : (v, t) = (u, r)) by congruence. injection Hut as <- <-. unfold good. cbn. auto.
      * rewrite nth_error_set_nth_ne in Hj by assumption. rewrite nth_error_set_nth_ne in Hhj by assumption. destruct (Hg _ _ _ _ _ _ Hj Huj Hhj) as (Hp2 & Hs2 & Hx2 & Hn2).
        unfold good. split; [assumption|]. split; [|auto]. eapply srel_frame; [exact Hs|exact Hs2|exact (Ha _ _ _ _ Hne Hgi Hhj)|exact F].
    + assert (Hother : forall j h, i <> j -> nth_error gs j = Some h -> apart w1 (g_w h) /\ apart (g_w h) w1).
      { intros j h Hne Hj. destruct (nth_same_len _ (p_procs E c) _ _ (eq_sym Hl) Hj) as [[q' y] Hq]. destruct (nth_same_len _ goals _ _ (eq_trans Hl' (eq_sym Hl)) Hj) as [[u r] Hu].
        destruct (Hg _ _ _ _ _ _ Hq Hu Hj) as (_ & Hs2 & _). eapply apart_frame; [exact Hs|exact Hs2|exact (Ha _ _ _ _ Hne Hgi Hj)|exact F]. }
      intros j k h h' Hjk Hj Hk. destruct (Nat.eq_dec i j) as [<-|Hij].
      * rewrite nth_error_set_nth in Hj by assumption. injection Hj as <-. rewrite nth_error_set_nth_ne in Hk by assumption. cbn. exact (proj1 (Hother _ _ Hjk Hk)).
      * rewrite nth_error_set_nth_ne in Hj by assumption. destruct (Nat.eq_dec i k) as [<-|Hik].
        -- rewrite nth_error_set_nth in Hk by assumption. injection Hk as <-. cbn. exact (proj2 (Hother _ _ Hij Hj)).
        -- rewrite nth_error_set_nth_ne in Hk by assumption. exact (Ha _ _ _ _ Hjk Hj Hk).
    + intros j h b Hj Hbj. destruct (Nat.eq_dec i j) as [<-|Hij].
      * rewrite nth_error_set_nth in Hj by assumption. injection Hj as <-. cbn. eapply wle_trans; [exact (Hb _ _ _ Hgi Hbj)|apply F].
      * rewrite nth_error_set_nth_ne in Hj by assumption. exact (Hb _ _ _ Hj Hbj).
  - split; [apply F|]. intros l HR. destruct (sr_ro _ _ _ _ Hs _ HR) as (_ & Hlt & _). split; [now apply (fr_l _ _ _ _ _ _ F)|].
    intros z Hz. destruct (fr_a _ _ _ _ _ _ F l z Hlt) as [H|(l0 & lo & hi & H & Hi0)]; [exact H|].
    exfalso. destruct (sr_sep _ _ _ _ Hs _ _ _ _ H) as [(-> & _ & Hs3)|(_ & Hs3 & _)]; [|lia]. now apply Hz, Hs3.
Qed.

Lemma inv_steps k : forall c c' gs, inv c gs -> pool_steps E rd wr k c c' ->
  exists gs', inv c' gs' /\ (k + total gs' = total gs)%nat /\ same_rest (p_arrs E c) (p_arrs E c').
Proof.
  induction k as [|k IH]; intros c c' gs Hi Hk; inversion Hk; subst.
  - exists gs. split; [exact Hi|]. split; [reflexivity|]. split; [lia|]. intros l Hl. split; auto.
  - match goal with H : pool_step _ _ _ _ _ |- _ => inversion H; subst end.
    destruct (inv_step _ _ _ _ _ Hi H H2) as (p1' & s1' & gs1 & Ho & Ht & Hi1 & [Hll Hr]). cbn [p_arrs p_objs p_procs] in *.
    rewrite H3 in Ho. injection Ho as <- <-. destruct (IH _ _ _ Hi1 H1) as (gs' & Hi' & Ht' & [Hll' Hr']). exists gs'. split; [assumption|]. split; [lia|]. cbn [p_arrs] in *. split; [lia|].
    intros l Hl. destruct (Hr l Hl) as [Ha1 Ha2]. destruct (Hr' l Hl) as [Hb1 Hb2]. split; [congruence|]. intros z Hz. now rewrite Hb2, Ha2 by assumption.
Qed.
Lemma inv_live c gs : inv c gs -> finished c \/ exists c', pool_step E rd wr c c'.
Proof.
  intros Hi. destruct (forallb (fun t => is_done (fst t)) (p_procs E c)) eqn:Hf.
  - left. intros p x H. rewrite forallb_forall in Hf. exact (Hf _ H).
  - right. assert (exists i p x, nth_error (p_procs E c) i = Some (p, x) /\ is_done p = false) as (i & p & x & H & Hd).
    { clear Hi. induction (p_procs E c) as [|[p x] l IH]; [discriminate|]. cbn in Hf. destruct (is_done p) eqn:Hp.
      - destruct (IH Hf) as (i & q & y & H). exists (S i), q, y. exact H.
      - exists O, p, x. auto. }
    destruct (inv_step _ _ _ _ _ Hi H Hd) as (p1' & s1' & gs1 & Ho & _). destruct c as [M O ts]. cbn in *. eexists. econstructor; eassumption.
Qed.
Lemma inv_race c gs : inv c gs -> ~ cell_race c.
Proof.
  intros [Hl Hl' Hg Ha Hb] (i & j & p & q & x & y & a & b & pl & Hij & Hi & Hj & Hp & Hq & Hab).
  destruct (nth_same_len _ _ _ _ Hl Hi) as [g Hgi]. destruct (nth_same_len _ _ _ _ Hl' Hi) as [[v t] Hvi].
  destruct (nth_same_len _ _ _ _ Hl Hj) as [h Hhj]. destruct (nth_same_len _ _ _ _ Hl' Hj) as [[u r] Huj].
  destruct (Hg _ _ _ _ _ _ Hi Hvi Hgi) as (Hp1 & Hs1). destruct (Hg _ _ _ _ _ _ Hj Huj Hhj) as (Hp2 & Hs2).
  destruct (Ha _ _ _ _ Hij Hgi Hhj) as [Haa Hao].
  destruct Hs1 as [Hs1 [_ Hn1]]. destruct Hs2 as [Hs2 [_ Hn2]].
  pose proof (about_own _ _ _ _ _ _ _ _ _ _ Hp1 Hs1 Hn1 _ _ Hp) as H1. pose proof (about_own _ _ _ _ _ _ _ _ _ _ Hp2 Hs2 Hn2 _ _ Hq) as H2. destruct pl as [l z|l].
  - destruct H1 as [(l1 & lo1 & hi1 & H1 & Hz1)|(H1 & HW1 & ->)], H2 as [(l2 & lo2 & hi2 & H2 & Hz2)|(H2 & HW2 & ->)].
    + eapply Haa; eassumption.
    + destruct (sr_sep _ _ _ _ Hs1 _ _ _ _ H1) as [(-> & _ & Hs3)|(_ & Hs3 & _)]; [|lia]. now apply HW2, Hs3.
    + destruct (sr_sep _ _ _ _ Hs2 _ _ _ _ H2) as [(-> & _ & Hs3)|(_ & Hs3 & _)]; [|lia]. now apply HW1, Hs3.
    + discriminate Hab.
  - destruct H1 as [[l1 H1] Hw1], H2 as [[l2 H2] Hw2]. pose proof (Hao _ _ _ H1 H2) as Hst.
    destruct a; [now apply Hw1|]. destruct b; [now apply Hw2|]. discriminate Hab.
Qed.
End Pool.
