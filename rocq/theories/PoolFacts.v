(** Goroutines with separate memories do not disturb each other: proofs for PropThreads.v. *)
From Coq Require Import String ZArith List Bool Lia.
From Verif Require Import Base Cp949Model GoLang GoHeap GoSource GoThreads SourceSpec ThreadFacts OwnFacts SpecThreads.
Import ListNotations.
Local Open Scope Z_scope.
Local Open Scope list_scope.
Local Open Scope go_scope.

Section Pool.
Variable E : Type.
Variable rd : nat -> E -> Z -> Z * list Z * option error * E.
Variable wr : nat -> E -> list Z -> Z * option error * E.
Notation state := (state E).
Notation one := (one E rd wr).
Notation finish := (finish E rd wr).

(** ** A process alone, with the number of its accesses *)
Inductive solo {A} : nat -> proc A -> state -> A -> state -> Prop :=
| solo_done a s : solo 0 (Done (Ok a)) s a s
| solo_step n p s p1 s1 a t : is_done p = false -> one p s = Ok (p1, s1) -> solo n p1 s1 a t -> solo (S n) p s a t.

Lemma finish_solo {A} (p : proc A) : forall s a t, finish p s = Ok (a, t) -> exists n, solo n p s a t.
Proof.
  induction p; intros s a0 t Hf; cbn [GoThreads.finish] in Hf.
  - destruct r; try discriminate. injection Hf as -> ->. exists O. constructor.
  - destruct (H _ _ _ _ Hf) as [m Hm]. exists (S m). eapply solo_step; [reflexivity|reflexivity|exact Hm].
  - destruct (IHp _ _ _ Hf) as [m Hm]. exists (S m). eapply solo_step; [reflexivity|reflexivity|exact Hm].
  - destruct (new_arr E s a) as [l s1] eqn:Hn. destruct (H _ _ _ _ Hf) as [m Hm]. exists (S m).
    eapply solo_step; [reflexivity|cbn [GoThreads.one]; rewrite Hn; reflexivity|exact Hm].
  - destruct (the (nth_error (objs E s) l)) as [o| |] eqn:Hn; try discriminate Hf. cbn [bind] in Hf.
    destruct (H _ _ _ _ Hf) as [m Hm]. exists (S m).
    eapply solo_step; [reflexivity|cbn [GoThreads.one]; rewrite Hn; reflexivity|exact Hm].
  - destruct (set_field E s (VPtr l) f v) as [s1| |] eqn:Hn; try discriminate Hf. cbn [bind] in Hf.
    destruct (IHp _ _ _ Hf) as [m Hm]. exists (S m).
    eapply solo_step; [reflexivity|cbn [GoThreads.one]; rewrite Hn; reflexivity|exact Hm].
  - destruct (H _ _ _ _ Hf) as [m Hm]. exists (S m). eapply solo_step; [reflexivity|reflexivity|exact Hm].
  - destruct (rd i (ext E s) n) as [[[c bs] e] x] eqn:Hn. destruct (H _ _ _ _ _ _ Hf) as [m Hm]. exists (S m).
    eapply solo_step; [reflexivity|cbn [GoThreads.one]; rewrite Hn; reflexivity|exact Hm].
  - destruct (wr i (ext E s) bs) as [[c e] x] eqn:Hn. destruct (H _ _ _ _ _ Hf) as [m Hm]. exists (S m).
    eapply solo_step; [reflexivity|cbn [GoThreads.one]; rewrite Hn; reflexivity|exact Hm].
Qed.

(** ** Memory alone and memory shared *)
Variable R : nat -> Prop.
(* structs without fields *)
Variable St : nat -> Prop.

Definition o2o := one_to_one.
Record srel (w : world) (s : state) (A : list (list Z)) (O : list (string * list (string * val))) : Prop := mkSrel {
  sr_arr : forall l l', In (l, l') (wa w) -> (l < length (arrs E s))%nat /\ (l' < length A)%nat /\ nth l (arrs E s) [] = nth l' A [];
  sr_ro : forall l, R l -> (l < length (arrs E s))%nat /\ (l < length A)%nat /\ nth l (arrs E s) [] = nth l A [];
  sr_obj : forall l l', In (l, l') (wo w) -> exists o o', nth_error (objs E s) l = Some o /\ nth_error O l' = Some o' /\ obj_rel R w o o';
  sr_ia : o2o (wa w);
  sr_io : o2o (wo w);
  sr_sep : forall l l', In (l, l') (wa w) -> ~ R l /\ ~ R l';
  sr_st : forall l, St l -> exists T, nth_error O l = Some (T, [])
}.

(** What a step of one process does to the memory it shares with others. *)
Record frame (w w1 : world) (A A1 : list (list Z)) (O O1 : list (string * list (string * val))) : Prop := mkFrame {
  fr_w : wle w w1;
  fr_la : (length A <= length A1)%nat;
  fr_lo : (length O <= length O1)%nat;
  fr_a : forall l, (l < length A)%nat -> nth l A1 [] = nth l A [] \/ exists l0, In (l0, l) (wa w);
  fr_o : forall l, (l < length O)%nat -> nth_error O1 l = nth_error O l \/ (~ St l /\ exists l0, In (l0, l) (wo w));
  fr_na : forall l l', In (l, l') (wa w1) -> In (l, l') (wa w) \/ (length A <= l')%nat;
  fr_no : forall l l', In (l, l') (wo w1) -> In (l, l') (wo w) \/ (length O <= l')%nat
}.
Lemma frame_id w A O : frame w w A A O O.
Proof. constructor; auto. apply wle_refl. Qed.

Lemma zwrite_nil a o : zwrite a o [] = a.
Proof. unfold zwrite. cbn [app zlen length]. unfold zlen. cbn [length]. rewrite Z.add_0_r. apply firstn_skipn. Qed.
Lemma set_nth_same (A : list (list Z)) l o : set_nth l (zwrite (nth l A []) o []) A = A.
Proof.
  rewrite zwrite_nil. destruct (nth_error A l) as [a|] eqn:H.
  - rewrite (nth_error_nth _ _ [] H). now apply set_nth_id.
  - clear -H. revert l H. induction A as [|a A IH]; intros [|l] H; cbn in *; try reflexivity; try discriminate; f_equal; auto.
Qed.

Lemma get_rel' w fs fs' f : fields_rel R w fs fs' ->
  match get f fs, get f fs' with Some v, Some v' => val_rel R w true v v' | None, None => True | _, _ => False end.
Proof. apply get_rel. Qed.
Lemma set_rel w f v v' fs fs' : fields_rel R w fs fs' -> val_rel R w true v v' -> fields_rel R w (set f v fs) (set f v' fs').
Proof.
  intros H Hv. revert fs' H. induction fs as [|[x u] fs IH]; intros [|[x' u'] fs'] H; try contradiction H; [exact I|].
  destruct H as [[Hx Hu] H]. cbn in Hx, Hu. subst x'. cbn [set]. destruct (String.eqb x f); (split; [split; [reflexivity|assumption]|first [exact H|apply IH; exact H]]).
Qed.

Section Thread.
Context {A : Type}.
Variable Q : world -> A -> A -> Prop.
Notation prel := (prel R Q).

Lemma step_thread n w p p' s M O a t : prel w p p' -> srel w s M O -> solo n p s a t -> is_done p' = false ->
  exists p1' s1' w1 p1 s1 m,
    one p' (mkState E M O (ext E s)) = Ok (p1', s1') /\
    n = S m /\ solo m p1 s1 a t /\ prel w1 p1 p1' /\ srel w1 s1 (arrs E s1') (objs E s1') /\ ext E s1 = ext E s1' /\
    frame w w1 M (arrs E s1') O (objs E s1').
Proof.
  intros Hp Hs Hn Hd. inversion Hp; subst; try discriminate Hd; inversion Hn; subst; clear Hn;
    match goal with H : GoThreads.one _ _ _ _ _ = Ok _ |- _ => cbn [GoThreads.one] in H end.
  - (* Load *)
    match goal with H : Ok _ = Ok _ |- _ => injection H as <- <- end.
    assert (Hc : cells E s l o n0 = cells E (mkState E M O (ext E s)) l' o n0).
    { unfold cells, arr_at. cbn [arrs]. destruct H as [H|[<- H]]; [destruct (sr_arr _ _ _ _ Hs _ _ H) as (_ & _ & ->)|destruct (sr_ro _ _ _ _ Hs _ H) as (_ & _ & ->)]; reflexivity. }
    do 6 eexists. split; [reflexivity|]. split; [reflexivity|]. split; [eassumption|]. cbn [arrs objs ext].
    split; [rewrite <- Hc; apply H0; apply zlen_ztake_le|]. split; [exact Hs|]. split; [reflexivity|apply frame_id].
  - (* Save *)
    match goal with H : Ok _ = Ok _ |- _ => injection H as <- <- end.
    do 6 eexists. split; [reflexivity|]. split; [reflexivity|]. split; [eassumption|]. split; [eassumption|].
    unfold store, set_arr, arr_at. cbn [arrs objs ext].
    destruct H as [H|(<- & HR & ->)].
    + destruct (sr_arr _ _ _ _ Hs _ _ H) as (Hl & Hl' & Heq). split; [|split; [reflexivity|]].
      * constructor; cbn [arrs objs]; try apply Hs.
        -- intros j j' Hk. rewrite !set_nth_len. destruct (sr_arr _ _ _ _ Hs _ _ Hk) as (Hk1 & Hk2 & Hk3).
           split; [assumption|split; [assumption|]]. destruct (Nat.eq_dec l j) as [->|Hne].
           ++ assert (l' = j') by (apply (sr_ia _ _ _ _ Hs j l' j j' H Hk); reflexivity). subst j'.
              rewrite !nth_set_nth by assumption. now rewrite Heq.
           ++ assert (l' <> j') by (intros ->; apply Hne; apply (sr_ia _ _ _ _ Hs _ _ _ _ H Hk); reflexivity).
              rewrite !nth_set_nth_ne by assumption. exact Hk3.
        -- intros j Hk. rewrite !set_nth_len. destruct (sr_ro _ _ _ _ Hs _ Hk) as (Hk1 & Hk2 & Hk3).
           destruct (sr_sep _ _ _ _ Hs _ _ H) as [Hs1 Hs2].
           split; [assumption|split; [assumption|]]. rewrite !nth_set_nth_ne by (intros ->; contradiction). exact Hk3.
      * constructor; rewrite ?set_nth_len; auto; [apply wle_refl|].
        intros j Hk. destruct (Nat.eq_dec l' j) as [->|Hne]; [right; eauto|left; now apply nth_set_nth_ne].
    + rewrite !set_nth_same. split; [destruct s; exact Hs|]. split; [reflexivity|apply frame_id].
  - (* NewArr *)
    unfold new_arr in *. match goal with H : Ok _ = Ok _ |- _ => injection H as <- <- end.
    do 6 eexists. split; [reflexivity|]. split; [reflexivity|]. split; [eassumption|]. split; [apply H|].
    cbn [arrs objs ext]. split; [|split; [reflexivity|]].
    + constructor; cbn [arrs objs wa wo add_arr]; rewrite ?app_length; cbn [length].
      * intros j j' [Hk|Hk].
        -- injection Hk as <- <-. split; [lia|split; [lia|]]. rewrite !app_nth2 by lia. rewrite !Nat.sub_diag. reflexivity.
        -- destruct (sr_arr _ _ _ _ Hs _ _ Hk) as (Hk1 & Hk2 & Hk3). split; [lia|split; [lia|]]. rewrite !app_nth1 by assumption. exact Hk3.
      * intros j Hk. destruct (sr_ro _ _ _ _ Hs _ Hk) as (Hk1 & Hk2 & Hk3). split; [lia|split; [lia|]]. rewrite !app_nth1 by assumption. exact Hk3.
      * intros j j' Hk. destruct (sr_obj _ _ _ _ Hs _ _ Hk) as (o & o' & Ho & Ho' & Hoo). exists o, o'.
        split; [exact Ho|split; [exact Ho'|]]. eapply obj_rel_mono; [|exact Hoo]. apply wle_arr.
      * intros x y x' y' [Hx|Hx] [Hy|Hy]; try injection Hx as <- <-; try injection Hy as <- <-; [tauto| | |].
        -- destruct (sr_arr _ _ _ _ Hs _ _ Hy) as (Hk1 & Hk2 & _). lia.
        -- destruct (sr_arr _ _ _ _ Hs _ _ Hx) as (Hk1 & Hk2 & _). lia.
        -- exact (sr_ia _ _ _ _ Hs _ _ _ _ Hx Hy).
      * apply Hs.
      * intros j j' [Hk|Hk]; [|exact (sr_sep _ _ _ _ Hs _ _ Hk)]. injection Hk as <- <-.
        split; intros HR; destruct (sr_ro _ _ _ _ Hs _ HR) as (Hk1 & Hk2 & _); lia.
      * apply Hs.
    + constructor; cbn [wa wo add_arr]; rewrite ?app_length; cbn [length]; auto; try lia; [apply wle_arr| |].
      * intros j Hk. left. now apply app_nth1.
      * intros j j' [Hk|Hk]; [|auto]. injection Hk as <- <-. right. lia.
  - (* GetObj *)
    destruct (sr_obj _ _ _ _ Hs _ _ H) as (o & o' & Ho & Ho' & Hoo). rewrite Ho in *. cbn [the bind] in *.
    match goal with H : Ok _ = Ok _ |- _ => injection H as <- <- end.
    do 6 eexists. split; [cbn [GoThreads.one objs]; rewrite Ho'; reflexivity|]. split; [reflexivity|]. split; [eassumption|].
    split; [apply H0; exact Hoo|]. split; [exact Hs|]. split; [reflexivity|apply frame_id].
  - (* SetField *)
    destruct (sr_obj _ _ _ _ Hs _ _ H) as ([T fs] & [T' fs'] & Ho & Ho' & [HT Hfs]). cbn [fst snd] in HT, Hfs. subst T'.
    unfold set_field in *. rewrite Ho in *. cbn [the bind] in *.
    pose proof (get_rel' _ _ _ f Hfs) as Hg. destruct (get f fs) as [u|] eqn:Hgf; [|discriminate]. cbn [the bind] in *.
    destruct (get f fs') as [u'|] eqn:Hgf'; [|contradiction].
    match goal with H : Ok _ = Ok _ |- _ => injection H as <- <- end.
    do 6 eexists. split; [cbn [GoThreads.one]; unfold set_field; cbn [objs]; rewrite Ho'; cbn [the bind]; rewrite Hgf'; reflexivity|].
    split; [reflexivity|]. split; [eassumption|]. split; [eassumption|]. cbn [arrs objs ext].
    assert (Hl : (l < length (objs E s))%nat) by (apply nth_error_Some; congruence).
    assert (Hl' : (l' < length O)%nat) by (apply nth_error_Some; congruence).
    split; [|split; [reflexivity|]].
    + assert (Hst : ~ St l').
      { intros H'. destruct (sr_st _ _ _ _ Hs _ H') as [T' HT']. rewrite Ho' in HT'. injection HT' as _ ->. discriminate Hgf'. }
      constructor; cbn [arrs objs]; try apply Hs;
        [|intros j Hk; rewrite nth_error_set_nth_ne by (intros <-; contradiction); exact (sr_st _ _ _ _ Hs _ Hk)].
      intros j j' Hk. destruct (Nat.eq_dec l j) as [->|Hne].
      * assert (l' = j') by (apply (sr_io _ _ _ _ Hs j l' j j' H Hk); reflexivity). subst j'.
        do 2 eexists. split; [apply nth_error_set_nth; assumption|]. split; [apply nth_error_set_nth; assumption|].
        split; [reflexivity|]. apply set_rel; assumption.
      * assert (l' <> j') by (intros ->; apply Hne; apply (sr_io _ _ _ _ Hs _ _ _ _ H Hk); reflexivity).
        rewrite !nth_error_set_nth_ne by assumption. exact (sr_obj _ _ _ _ Hs _ _ Hk).
    + constructor; rewrite ?set_nth_len; auto; [apply wle_refl|].
      intros j Hk. destruct (Nat.eq_dec l' j) as [->|Hne]; [right; split; [|eauto]|left; now apply nth_error_set_nth_ne].
      intros H'. destruct (sr_st _ _ _ _ Hs _ H') as [T' HT']. rewrite Ho' in HT'. injection HT' as _ ->. discriminate Hgf'.
  - (* NewObj *)
    match goal with H : Ok _ = Ok _ |- _ => injection H as <- <- end.
    do 6 eexists. split; [reflexivity|]. split; [reflexivity|]. split; [eassumption|]. split; [apply H0|].
    cbn [arrs objs ext]. split; [|split; [reflexivity|]].
    + constructor; cbn [arrs objs wa wo add_obj]; try apply Hs.
      * intros j j' [Hk|Hk].
        -- injection Hk as <- <-. do 2 eexists. rewrite !nth_error_app2 by lia. rewrite !Nat.sub_diag. cbn [nth_error].
           split; [reflexivity|]. split; [reflexivity|]. split; [reflexivity|]. cbn [snd]. eapply fields_rel_mono; [|eassumption]. apply wle_obj.
        -- destruct (sr_obj _ _ _ _ Hs _ _ Hk) as (o & o' & Ho & Ho' & Hoo). exists o, o'.
           rewrite !nth_error_app1 by (apply nth_error_Some; congruence). split; [exact Ho|split; [exact Ho'|]].
           eapply obj_rel_mono; [|exact Hoo]. apply wle_obj.
      * assert (Hb : forall j j', In (j, j') (wo w) -> (j < length (objs E s))%nat /\ (j' < length O)%nat).
        { intros j j' Hk. destruct (sr_obj _ _ _ _ Hs _ _ Hk) as (o & o' & Ho & Ho' & _). split; apply nth_error_Some; congruence. }
        intros x y x' y' [Hx|Hx] [Hy|Hy]; try injection Hx as <- <-; try injection Hy as <- <-; [tauto| | |].
        -- destruct (Hb _ _ Hy). lia.
        -- destruct (Hb _ _ Hx). lia.
        -- exact (sr_io _ _ _ _ Hs _ _ _ _ Hx Hy).
      * intros j Hk. destruct (sr_st _ _ _ _ Hs _ Hk) as [T' HT']. exists T'. rewrite nth_error_app1 by (apply nth_error_Some; congruence). exact HT'.
    + constructor; cbn [wa wo add_obj]; rewrite ?app_length; cbn [length]; auto; try lia; [apply wle_obj| |].
      * intros j Hk. left. now apply nth_error_app1.
      * intros j j' [Hk|Hk]; [|auto]. injection Hk as <- <-. right. lia.
  - (* ExtRead *)
    destruct (rd i (ext E s) n0) as [[[c bs] e] x] eqn:Hr.
    match goal with H : Ok _ = Ok _ |- _ => injection H as <- <- end.
    do 6 eexists. split; [cbn [GoThreads.one ext]; rewrite Hr; reflexivity|]. split; [reflexivity|]. split; [eassumption|].
    split; [apply H|]. cbn [set_ext arrs objs ext]. split; [constructor; cbn [set_ext arrs objs]; apply Hs|]. split; [reflexivity|apply frame_id].
  - (* ExtWrite *)
    destruct (wr i (ext E s) bs) as [[c e] x] eqn:Hr.
    match goal with H : Ok _ = Ok _ |- _ => injection H as <- <- end.
    do 6 eexists. split; [cbn [GoThreads.one ext]; rewrite Hr; reflexivity|]. split; [reflexivity|]. split; [eassumption|].
    split; [apply H|]. cbn [set_ext arrs objs ext]. split; [constructor; cbn [set_ext arrs objs]; apply Hs|]. split; [reflexivity|apply frame_id].
Qed.

(** What a process is about to access. *)
Lemma about_own n w p p' s M O a t : prel w p p' -> srel w s M O -> solo n p s a t -> forall pl b, about_to p' pl b ->
  match pl with
  | PArr l' => (exists l, In (l, l') (wa w)) \/ (R l' /\ b = false)
  | PObj l' => (exists l, In (l, l') (wo w)) /\ (b = true -> ~ St l')
  end.
Proof.
  intros H Hs Hn pl b Ha. inversion H; subst; inversion Ha; subst.
  - match goal with H : _ \/ _ |- _ => destruct H as [H|[-> H]] end; eauto.
  - match goal with H : _ \/ _ |- _ => destruct H as [H|(-> & H & ->)] end; eauto. congruence.
  - split; [eauto|discriminate].
  - split; [eauto|]. intros _ H'. destruct (sr_st _ _ _ _ Hs _ H') as [T' HT'].
    destruct (sr_obj _ _ _ _ Hs _ _ H0) as ([T fs] & o' & Ho & Ho' & [HT Hfs]). rewrite HT' in Ho'. injection Ho' as <-. cbn [fst snd] in *.
    destruct fs as [|x fs]; [|contradiction Hfs]. inversion Hn; subst.
    match goal with H : GoThreads.one _ _ _ _ _ = Ok _ |- _ => cbn [GoThreads.one] in H; unfold set_field in H; rewrite Ho in H; discriminate H end.
Qed.
Lemma done_rel w p p' n s a t : prel w p p' -> solo n p s a t -> is_done p' = true -> exists a', n = O /\ p' = Done (Ok a') /\ Q w a a' /\ s = t.
Proof. intros H Hn Hd. inversion H; subst; try discriminate Hd; inversion Hn; subst; try discriminate. eauto. Qed.
End Thread.

(** ** Others are not disturbed *)
Definition apart (w w' : world) : Prop :=
  (forall l k m, In (l, m) (wa w) -> In (k, m) (wa w') -> False) /\
  (forall l k m, In (l, m) (wo w) -> In (k, m) (wo w') -> St m).

Lemma srel_frame w w1 v s u M M1 O O1 : srel w s M O -> srel v u M O -> apart w v -> frame w w1 M M1 O O1 -> srel v u M1 O1.
Proof.
  intros Hs Hu [Haa Hao] F. constructor; try apply Hu.
  - intros l l' H. destruct (sr_arr _ _ _ _ Hu _ _ H) as (H1 & H2 & H3). split; [assumption|].
    split; [pose proof (fr_la _ _ _ _ _ _ F); lia|]. destruct (fr_a _ _ _ _ _ _ F l' H2) as [->|[l0 Hl]]; [assumption|]. exfalso. eapply Haa; eassumption.
  - intros l H. destruct (sr_ro _ _ _ _ Hu _ H) as (H1 & H2 & H3). split; [assumption|].
    split; [pose proof (fr_la _ _ _ _ _ _ F); lia|]. destruct (fr_a _ _ _ _ _ _ F l H2) as [->|[l0 Hl]]; [assumption|].
    exfalso. exact (proj2 (sr_sep _ _ _ _ Hs _ _ Hl) H).
  - intros l l' H. destruct (sr_obj _ _ _ _ Hu _ _ H) as (o & o' & Ho & Ho' & Hoo). exists o, o'. split; [assumption|]. split; [|assumption].
    destruct (fr_o _ _ _ _ _ _ F l') as [->|[Hst [l0 Hl]]]; [apply nth_error_Some; congruence|assumption|]. exfalso. apply Hst. eapply Hao; eassumption.
  - intros l H. destruct (sr_st _ _ _ _ Hu _ H) as [T HT]. exists T. destruct (fr_o _ _ _ _ _ _ F l) as [->|[Hst _]]; [apply nth_error_Some; congruence|assumption|contradiction].
Qed.
Lemma apart_frame w w1 v s u M M1 O O1 : srel w s M O -> srel v u M O -> apart w v -> frame w w1 M M1 O O1 -> apart w1 v /\ apart v w1.
Proof.
  intros Hs Hu [Haa Hao] F. assert (apart w1 v).
  { split; intros l k m H1 H2.
    - destruct (fr_na _ _ _ _ _ _ F _ _ H1) as [H|H]; [eapply Haa; eassumption|]. destruct (sr_arr _ _ _ _ Hu _ _ H2) as (_ & ? & _). lia.
    - destruct (fr_no _ _ _ _ _ _ F _ _ H1) as [H|H]; [eapply Hao; eassumption|]. destruct (sr_obj _ _ _ _ Hu _ _ H2) as (? & o' & _ & Ho & _).
      assert (m < length O)%nat by (apply nth_error_Some; congruence). lia. }
  split; [assumption|]. destruct H as [Ha Ho]. split; intros; eauto.
Qed.

(** ** The pool *)
Record ghost : Type := mkGhost { g_w : world; g_p : proc val; g_s : state; g_n : nat }.
(* what each process alone ends with *)
Variable goals : list (val * state).
(* the memory each starts with *)
Variable bases : list world.
Definition Q (w : world) (v v' : val) : Prop := val_rel R w false v v'.

Definition good (M : list (list Z)) O (p' : proc val) (x : E) (v : val) (t : state) (g : ghost) : Prop :=
  prel R Q (g_w g) (g_p g) p' /\ srel (g_w g) (g_s g) M O /\ ext E (g_s g) = x /\ solo (g_n g) (g_p g) (g_s g) v t.
Record inv (c : pool E) (gs : list ghost) : Prop := mkInv {
  i_len : length gs = length (p_procs E c);
  i_len' : length goals = length (p_procs E c);
  i_good : forall i p' x v t g, nth_error (p_procs E c) i = Some (p', x) -> nth_error goals i = Some (v, t) -> nth_error gs i = Some g ->
    good (p_arrs E c) (p_objs E c) p' x v t g;
  i_apart : forall i j g h, i <> j -> nth_error gs i = Some g -> nth_error gs j = Some h -> apart (g_w g) (g_w h);
  i_base : forall i g b, nth_error gs i = Some g -> nth_error bases i = Some b -> wle b (g_w g)
}.
Definition total (gs : list ghost) : nat := fold_right (fun g n => (g_n g + n)%nat) O gs.

Lemma total_set gs i g h m : nth_error gs i = Some g -> g_n g = S m -> g_n h = m -> total gs = S (total (set_nth i h gs)).
Proof.
  revert i. induction gs as [|g0 gs IH]; intros [|i] H Hg Hh; try discriminate; cbn in *.
  - injection H as ->. rewrite Hg, Hh. lia.
  - pose proof (IH i H Hg Hh) as Hi. unfold total in Hi. lia.
Qed.
Lemma nth_same_len {A B} (l : list A) (m : list B) i a : length m = length l -> nth_error l i = Some a -> exists b, nth_error m i = Some b.
Proof.
  intros Hl H. destruct (nth_error m i) eqn:Hm; [eauto|]. apply nth_error_None in Hm. assert (i < length l)%nat by (apply nth_error_Some; congruence). lia.
Qed.

Lemma inv_step c gs i p' x : inv c gs -> nth_error (p_procs E c) i = Some (p', x) -> is_done p' = false ->
  exists p1' s1' gs1, one p' (mkState E (p_arrs E c) (p_objs E c) x) = Ok (p1', s1') /\
    total gs = S (total gs1) /\ inv (mkPool E (arrs E s1') (objs E s1') (set_nth i (p1', ext E s1') (p_procs E c))) gs1 /\
    (length (p_arrs E c) <= length (arrs E s1'))%nat /\ (forall l, R l -> nth l (arrs E s1') [] = nth l (p_arrs E c) []).
Proof.
  intros [Hl Hl' Hg Ha Hb] Hi Hd. destruct (nth_same_len _ _ _ _ Hl Hi) as [g Hgi]. destruct (nth_same_len _ _ _ _ Hl' Hi) as [[v t] Hvi].
  destruct (Hg _ _ _ _ _ _ Hi Hvi Hgi) as (Hp & Hs & Hx & Hn).
  destruct (step_thread Q _ _ _ _ _ _ _ _ _ Hp Hs Hn Hd) as (p1' & s1' & w1 & p1 & s1 & m & H1 & Hm & Hn1 & Hp1 & Hs1 & Hx1 & F).
  rewrite Hx in H1. exists p1', s1', (set_nth i (mkGhost w1 p1 s1 m) gs). split; [exact H1|].
  split; [eapply total_set; [exact Hgi|exact Hm|reflexivity]|].
  assert (Hil : (i < length gs)%nat) by (apply nth_error_Some; congruence). split.
  - constructor; cbn [p_procs p_arrs p_objs]; rewrite ?set_nth_len; try assumption.
    + intros j q' y u r h Hj Huj Hhj. destruct (Nat.eq_dec i j) as [<-|Hne].
      * rewrite nth_error_set_nth in Hhj by exact Hil. rewrite Hl in Hil. rewrite nth_error_set_nth in Hj by exact Hil. injection Hj as <- <-. injection Hhj as <-.
        assert (Hut : (v, t) = (u, r)) by congruence. injection Hut as <- <-. unfold good. cbn. auto.
      * rewrite nth_error_set_nth_ne in Hj by assumption. rewrite nth_error_set_nth_ne in Hhj by assumption. destruct (Hg _ _ _ _ _ _ Hj Huj Hhj) as (Hp2 & Hs2 & Hx2 & Hn2).
        unfold good. split; [assumption|]. split; [|auto]. eapply srel_frame; [exact Hs|exact Hs2|exact (Ha _ _ _ _ Hne Hgi Hhj)|exact F].
    + assert (Hother : forall j h, i <> j -> nth_error gs j = Some h -> apart w1 (g_w h) /\ apart (g_w h) w1).
      { intros j h Hne Hj. destruct (nth_same_len _ (p_procs E c) _ _ (eq_sym Hl) Hj) as [[q' y] Hq]. destruct (nth_same_len _ goals _ _ (eq_trans Hl' (eq_sym Hl)) Hj) as [[u r] Hu].
        destruct (Hg _ _ _ _ _ _ Hq Hu Hj) as (_ & Hs2 & _). eapply apart_frame; [exact Hs|exact Hs2|exact (Ha _ _ _ _ Hne Hgi Hj)|exact F]. }
      intros j k h h' Hjk Hj Hk. destruct (Nat.eq_dec i j) as [<-|Hij].
      * rewrite nth_error_set_nth in Hj by assumption. injection Hj as <-. rewrite nth_error_set_nth_ne in Hk by assumption. cbn. exact (proj1 (Hother _ _ Hjk Hk)).
      * rewrite nth_error_set_nth_ne in Hj by assumption. destruct (Nat.eq_dec i k) as [<-|Hik].
        -- rewrite nth_error_set_nth in Hk by assumption. injection Hk as <-. cbn. exact (proj2 (Hother _ _ Hij Hj)).
        -- rewrite nth_error_set_nth_ne in Hk by assumption. exact (Ha _ _ _ _ Hjk Hj Hk).
    + intros j h b Hj Hbj. destruct (Nat.eq_dec i j) as [<-|Hij].
      * rewrite nth_error_set_nth in Hj by assumption. injection Hj as <-. cbn. eapply wle_trans; [exact (Hb _ _ _ Hgi Hbj)|apply F].
      * rewrite nth_error_set_nth_ne in Hj by assumption. exact (Hb _ _ _ Hj Hbj).
  - split; [apply F|]. intros l HR. destruct (sr_ro _ _ _ _ Hs _ HR) as (_ & Hlt & _). destruct (fr_a _ _ _ _ _ _ F l Hlt) as [H|[l0 H]]; [exact H|].
    exfalso. exact (proj2 (sr_sep _ _ _ _ Hs _ _ H) HR).
Qed.

Lemma inv_steps k : forall c c' gs, inv c gs -> pool_steps E rd wr k c c' ->
  exists gs', inv c' gs' /\ (k + total gs' = total gs)%nat /\ (length (p_arrs E c) <= length (p_arrs E c'))%nat /\ forall l, R l -> nth l (p_arrs E c') [] = nth l (p_arrs E c) [].
Proof.
  induction k as [|k IH]; intros c c' gs Hi Hk; inversion Hk; subst.
  - exists gs. auto.
  - match goal with H : pool_step _ _ _ _ _ |- _ => inversion H; subst end.
    destruct (inv_step _ _ _ _ _ Hi H H2) as (p1' & s1' & gs1 & Ho & Ht & Hi1 & Hll & Hr). cbn [p_arrs p_objs p_procs] in *.
    rewrite H3 in Ho. injection Ho as <- <-. destruct (IH _ _ _ Hi1 H1) as (gs' & Hi' & Ht' & Hll' & Hr'). exists gs'. split; [assumption|]. split; [lia|]. cbn [p_arrs] in *. split; [lia|].
    intros l Hl. rewrite Hr' by assumption. cbn. auto.
Qed.
Lemma inv_live c gs : inv c gs -> finished c \/ exists c', pool_step E rd wr c c'.
Proof.
  intros Hi. destruct (forallb (fun t => is_done (fst t)) (p_procs E c)) eqn:Hf.
  - left. intros p x H. rewrite forallb_forall in Hf. exact (Hf _ H).
  - right. assert (exists i p x, nth_error (p_procs E c) i = Some (p, x) /\ is_done p = false) as (i & p & x & H & Hd).
    { clear Hi. induction (p_procs E c) as [|[p x] l IH]; [discriminate|]. cbn in Hf. destruct (is_done p) eqn:Hp.
      - destruct (IH Hf) as (i & q & y & H). exists (S i), q, y. exact H.
      - exists O, p, x. auto. }
    destruct (inv_step _ _ _ _ _ Hi H Hd) as (p1' & s1' & gs1 & Ho & _). destruct c as [M O ts]. cbn in *. eexists. econstructor; eassumption.
Qed.
Lemma inv_race c gs : inv c gs -> ~ race c.
Proof.
  intros [Hl Hl' Hg Ha Hb] (i & j & p & q & x & y & a & b & pl & Hij & Hi & Hj & Hp & Hq & Hab).
  destruct (nth_same_len _ _ _ _ Hl Hi) as [g Hgi]. destruct (nth_same_len _ _ _ _ Hl' Hi) as [[v t] Hvi].
  destruct (nth_same_len _ _ _ _ Hl Hj) as [h Hhj]. destruct (nth_same_len _ _ _ _ Hl' Hj) as [[u r] Huj].
  destruct (Hg _ _ _ _ _ _ Hi Hvi Hgi) as (Hp1 & Hs1). destruct (Hg _ _ _ _ _ _ Hj Huj Hhj) as (Hp2 & Hs2).
  destruct (Ha _ _ _ _ Hij Hgi Hhj) as [Haa Hao].
  destruct Hs1 as [Hs1 [_ Hn1]]. destruct Hs2 as [Hs2 [_ Hn2]].
  pose proof (about_own _ _ _ _ _ _ _ _ _ _ Hp1 Hs1 Hn1 _ _ Hp) as H1. pose proof (about_own _ _ _ _ _ _ _ _ _ _ Hp2 Hs2 Hn2 _ _ Hq) as H2. destruct pl as [l|l].
  - destruct H1 as [[l1 H1]|[H1 ->]], H2 as [[l2 H2]|[H2 ->]].
    + eapply Haa; eassumption.
    + exact (proj2 (sr_sep _ _ _ _ Hs1 _ _ H1) H2).
    + exact (proj2 (sr_sep _ _ _ _ Hs2 _ _ H2) H1).
    + discriminate Hab.
  - destruct H1 as [[l1 H1] Hw1], H2 as [[l2 H2] Hw2]. pose proof (Hao _ _ _ H1 H2) as Hst.
    destruct a; [now apply Hw1|]. destruct b; [now apply Hw2|]. discriminate Hab.
Qed.
End Pool.
