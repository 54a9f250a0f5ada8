(** Goroutines that share an object and take turns with a lock (SpecLock.v): whatever the
    interleaving, the outcome is that of doing all events one after the other.

    While a call is under way the other goroutines overwrite arrays of theirs.  That the call
    does not notice follows from the relation of processes in OwnFacts.v. *)
From Coq Require Import String ZArith List Bool Lia.
From Verif Require Import Base Cp949Model GoLang GoThreads SourceSpec SpecThreads SpecLock Facts SliceFacts GoHeap ThreadFacts OwnFacts.
Import ListNotations.
Local Open Scope list_scope.
Local Open Scope Z_scope.

Section Frame.
Variable E : Type.
Variable rd : nat -> E -> Z -> Z * list Z * option error * E.
Variable wr : nat -> E -> list Z -> Z * option error * E.
Notation state := (state E).
Variable R : nat -> Prop.

(** The relations of OwnFacts.v between a memory and itself. *)
Definition ident (w : world) : Prop :=
  (forall x y, In (x, y) (wa w) -> x = y) /\ (forall x y, In (x, y) (wo w) -> x = y).
Definition objs_ok (w : world) (s : state) : Prop :=
  forall x, In (x, x) (wo w) -> exists o, nth_error (objs E s) x = Some o /\ obj_rel R w o o.

Lemma val_rel_eq w v : ident w -> forall b v', val_rel R w b v v' -> v = v'.
Proof.
  intros [Ha Ho]. pattern v. apply val_all; clear v.
  - intros vs H b v' Hv. destruct v'; try contradiction Hv. rewrite val_rel_tuple in Hv. f_equal. revert vs0 Hv.
    induction H as [|v vs Hv _ IH]; intros [|v' vs'] H'; try contradiction H'; [reflexivity|]. destruct H'. f_equal; eauto.
  - intros v Hn b v' H. destruct v, v'; try contradiction H; cbn in H; try (now rewrite H); try reflexivity.
    + destruct H as (-> & -> & -> & [H|(-> & _)]); [|reflexivity]. apply Ha in H. now subst.
    + apply Ho in H. now subst.
    + now destruct (Hn vs).
Qed.
Lemma fields_rel_eq w fs : ident w -> forall fs', fields_rel R w fs fs' -> fs = fs'.
Proof.
  intros Hi. induction fs as [|[x v] fs IH]; intros [|[y v'] fs'] H; try contradiction H; [reflexivity|].
  destruct H as [[H1 H2] H3]. cbn in H1, H2. subst y. rewrite (val_rel_eq w v Hi true v' H2). f_equal. now apply IH.
Qed.
Lemma set_rel w fs f v : fields_rel R w fs fs -> val_rel R w true v v -> fields_rel R w (set f v fs) (set f v fs).
Proof.
  intros Hf Hv. induction fs as [|[x u] fs IH]; [exact I|]. destruct Hf as [H1 H2]. cbn [set].
  destruct (String.eqb x f); (split; [|auto]); [split; [reflexivity|exact Hv]|exact H1].
Qed.
Lemma objs_ok_mono w w' s s' : wle w w' -> wo w' = wo w -> objs E s' = objs E s -> objs_ok w s -> objs_ok w' s'.
Proof.
  intros Hw Ho Hs H x Hx. rewrite Ho in Hx. destruct (H x Hx) as (o & H1 & H2). exists o. rewrite Hs. split; [exact H1|].
  eapply obj_rel_mono; eassumption.
Qed.

Lemma zwrite_none (a : list Z) o : zwrite a o [] = a.
Proof.
  unfold zwrite. cbn [app]. replace (o + zlen (@nil Z)) with o by (cbn; lia). apply ztake_zdrop.
Qed.
Lemma array_set A l a j : l <> j -> array (set_nth l a A) j = array A j.
Proof. intros H. unfold array. now apply nth_set_nth_ne. Qed.
Lemma array_app A a j : (j < length A)%nat -> array (A ++ [a]) j = array A j.
Proof. intros H. unfold array. now apply app_nth1. Qed.
Lemma set_nth_app {X} n (v : X) l l' : (n < length l)%nat -> set_nth n v (l ++ l') = set_nth n v l ++ l'.
Proof. revert n. induction l as [|x l IH]; intros [|n] H; cbn in *; try lia; [reflexivity|]. f_equal. apply IH. lia. Qed.

(** One access of a call, and the same access when an array the call does not use has other
    contents. *)
Lemma step_frame {X} (Q : world -> X -> X -> Prop) w q q' s q1 s1 :
  prel R Q w q q' -> ident w -> objs_ok w s -> is_done q = false -> one E rd wr q s = Ok (q1, s1) ->
  (exists w1 q1', prel R Q w1 q1 q1' /\ ident w1 /\ objs_ok w1 s1 /\
     (forall x, In (x, x) (wa w1) -> In (x, x) (wa w) \/ (length (arrs E s) <= x)%nat)) /\
  (length (arrs E s) <= length (arrs E s1))%nat /\
  (forall l a, (l < length (arrs E s))%nat -> ~ In (l, l) (wa w) -> ~ R l ->
     one E rd wr q (set_arr E s l a) = Ok (q1, set_arr E s1 l a)) /\
  (forall l, (l < length (arrs E s))%nat -> ~ In (l, l) (wa w) -> array (arrs E s1) l = array (arrs E s) l).
Proof.
  intros Hp Hi Ho Hd H1. destruct Hp; try discriminate Hd; cbn [one] in H1.
  - injection H1 as <- <-. split; [|split; [lia|split; [|auto]]].
    + exists w, (k' (cells E s l o n)). repeat split; auto; try apply Hi. apply H0. apply zlen_ztake_le.
    + intros l0 a Hl Hn Hr. cbn [one]. unfold cells, arr_at. cbn [set_arr arrs]. rewrite nth_set_nth_ne; [reflexivity|].
      intros ->. destruct H as [H|[_ H]]; [|contradiction]. pose proof (proj1 Hi _ _ H). now subst.
  - injection H1 as <- <-. cbn [store set_arr arrs]. rewrite set_nth_len. split; [|split; [lia|split]].
    + exists w, k'. repeat split; auto; try apply Hi.
    + intros l0 a Hl Hn Hr. cbn [one]. unfold store, set_arr, arr_at. cbn [arrs objs ext].
      assert (l0 <> l). { intros ->. destruct H as [H|(_ & H & _)]; [|contradiction]. pose proof (proj1 Hi _ _ H). now subst. }
      rewrite nth_set_nth_ne by assumption. rewrite set_nth_comm by congruence. reflexivity.
    + intros l0 Hl Hn. destruct (Nat.eq_dec l l0) as [->|]; [|now apply array_set].
      destruct H as [H|(_ & _ & ->)]; [pose proof (proj1 Hi _ _ H); now subst|].
      unfold arr_at. rewrite zwrite_none. unfold array. rewrite nth_set_nth by assumption. reflexivity.
  - cbn [new_arr] in H1. injection H1 as <- <-. cbn [arrs]. rewrite app_length. cbn [length]. split; [|split; [lia|split]].
    + exists (add_arr w (length (arrs E s)) (length (arrs E s))), (k' (length (arrs E s))). split; [apply H|].
      split; [|split].
      * split; [|apply Hi]. intros x y [[= <- <-]|Hx]; [reflexivity|exact (proj1 Hi _ _ Hx)].
      * eapply objs_ok_mono; [apply wle_arr|reflexivity|reflexivity|exact Ho].
      * intros x [[= <-]|Hx]; [right; lia|auto].
    + intros l a0 Hl Hn Hr. cbn [one]. unfold new_arr, set_arr. cbn [arrs objs ext]. rewrite (set_nth_app l a0 (arrs E s) [a] Hl), set_nth_len. reflexivity.
    + intros l Hl Hn. now apply array_app.
  - pose proof (proj2 Hi _ _ H) as <-. destruct (Ho l H) as (o & Ho1 & Ho2). rewrite Ho1 in H1. cbn [the bind] in H1. injection H1 as <- <-.
    split; [|split; [lia|split; [|auto]]].
    + exists w, (k' o). repeat split; auto; try apply Hi.
    + intros l0 a Hl Hn Hr. cbn [one set_arr objs]. rewrite Ho1. reflexivity.
  - pose proof (proj2 Hi _ _ H) as <-. pose proof (val_rel_eq w v Hi true v' H0) as <-. destruct (Ho l H) as ([T fs] & Ho1 & Ho2 & Ho3).
    cbn [set_field] in H1. rewrite Ho1 in H1. cbn [the bind] in H1. destruct (get f fs) eqn:Hg; try discriminate. cbn [the bind] in H1.
    injection H1 as <- <-. cbn [arrs]. split; [|split; [lia|split; [|auto]]].
    + exists w, k'. split; [assumption|]. split; [assumption|]. split; [|auto]. intros x Hx. cbn [objs].
      destruct (Nat.eq_dec l x) as [->|].
      * exists (T, set f v fs). split; [apply nth_error_set_nth; apply nth_error_Some; congruence|].
        split; [reflexivity|]. cbn [snd] in Ho3 |- *. now apply set_rel.
      * rewrite nth_error_set_nth_ne by assumption. now apply Ho.
    + intros l0 a Hl Hn Hr. cbn [one set_field set_arr objs]. rewrite Ho1. cbn [the bind]. rewrite Hg. reflexivity.
  - pose proof (fields_rel_eq w fs Hi fs' H) as <-. injection H1 as <- <-. cbn [arrs]. split; [|split; [lia|split; [|auto]]].
    + exists (add_obj w (length (objs E s)) (length (objs E s))), (k' (length (objs E s))). split; [apply H0|].
      split; [|split; [|auto]].
      * split; [apply Hi|]. intros x y [[= <- <-]|Hx]; [reflexivity|exact (proj2 Hi _ _ Hx)].
      * intros x [[= <-]|Hx]; cbn [objs].
        -- exists (T, fs). rewrite nth_error_app2 by lia. rewrite Nat.sub_diag. split; [reflexivity|].
           eapply obj_rel_mono; [apply wle_obj|]. split; [reflexivity|exact H].
        -- destruct (Ho x Hx) as (o & H1 & H2). exists o. rewrite nth_error_app1 by (apply nth_error_Some; congruence).
           split; [exact H1|]. eapply obj_rel_mono; [apply wle_obj|exact H2].
    + intros l a Hl Hn Hr. reflexivity.
  - destruct (rd i (ext E s) n) as [[[c bs] e] x] eqn:Hrd. injection H1 as <- <-. cbn [set_ext arrs]. split; [|split; [lia|split; [|auto]]].
    + exists w, (k' c bs e). repeat split; auto; apply Hi.
    + intros l a Hl Hn Hr. cbn [one set_arr ext]. rewrite Hrd. reflexivity.
  - destruct (wr i (ext E s) bs) as [[c e] x] eqn:Hwr. injection H1 as <- <-. cbn [set_ext arrs]. split; [|split; [lia|split; [|auto]]].
    + exists w, (k' c e). repeat split; auto; apply Hi.
    + intros l a Hl Hn Hr. cbn [one set_arr ext]. rewrite Hwr. reflexivity.
Qed.

(** [k] accesses. *)
Inductive psteps {X} : nat -> proc X -> state -> proc X -> state -> Prop :=
| psteps_0 q s : psteps 0 q s q s
| psteps_S k q s q1 s1 q2 s2 : is_done q = false -> one E rd wr q s = Ok (q1, s1) -> psteps k q1 s1 q2 s2 -> psteps (Datatypes.S k) q s q2 s2.

Lemma finish_psteps {X} (q : proc X) : forall s v s', finish E rd wr q s = Ok (v, s') -> exists k, psteps k q s (Done (Ok v)) s'.
Proof.
  assert (Hs : forall (q : proc X) s q1 s1 v s', is_done q = false -> one E rd wr q s = Ok (q1, s1) ->
            (exists k, psteps k q1 s1 (Done (Ok v)) s') -> exists k, psteps k q s (Done (Ok v)) s').
  { intros q0 s q1 s1 v s' H1 H2 [k H3]. exists (Datatypes.S k). econstructor; eassumption. }
  induction q; intros s v0 s' H0; cbn [finish] in H0.
  - destruct r; cbn [bind] in H0; try discriminate. injection H0 as <- <-. exists 0%nat. constructor.
  - eapply Hs; [reflexivity|reflexivity|eauto].
  - eapply Hs; [reflexivity|reflexivity|eauto].
  - cbn [new_arr] in H0. eapply Hs; [reflexivity|reflexivity|eauto].
  - destruct (nth_error (objs E s) l) as [o|] eqn:Ho; try discriminate. cbn [the bind] in H0.
    eapply Hs; [reflexivity|cbn [one]; rewrite Ho; reflexivity|eauto].
  - destruct (set_field E s (VPtr l) f v) as [s1| |] eqn:Ho; try discriminate. cbn [bind] in H0.
    eapply Hs; [reflexivity|cbn [one]; rewrite Ho; reflexivity|eauto].
  - eapply Hs; [reflexivity|reflexivity|eauto].
  - destruct (rd i (ext E s) n) as [[[c bs] e] x] eqn:Hrd. eapply Hs; [reflexivity|cbn [one]; rewrite Hrd; reflexivity|eauto].
  - destruct (wr i (ext E s) bs) as [[c e] x] eqn:Hwr. eapply Hs; [reflexivity|cbn [one]; rewrite Hwr; reflexivity|eauto].
Qed.

Lemma psteps_frame {X} (Q : world -> X -> X -> Prop) k q s q2 s2 : psteps k q s q2 s2 -> forall w q', prel R Q w q q' -> ident w -> objs_ok w s ->
  forall l a, (l < length (arrs E s))%nat -> ~ In (l, l) (wa w) -> ~ R l -> psteps k q (set_arr E s l a) q2 (set_arr E s2 l a).
Proof.
  intros H. induction H as [q s|k q s q1 s1 q2 s2 Hd H1 _ IH]; intros w q' Hp Hi Ho l a Hl Hn Hr; [constructor|].
  destruct (step_frame Q w q q' s q1 s1 Hp Hi Ho Hd H1) as ((w1 & q1' & P1 & P2 & P3 & P4) & Hle & Hc & _).
  econstructor; [exact Hd|apply Hc; assumption|]. eapply IH; try eassumption; [lia|]. intros Hx. apply P4 in Hx. destruct Hx; [contradiction|lia].
Qed.
Lemma about_foot {X} (Q : world -> X -> X -> Prop) w q q' : prel R Q w q q' -> ident w -> forall l b, about_to q (PArr l) b ->
  In (l, l) (wa w) \/ (R l /\ b = false).
Proof.
  intros Hp Hi l b Ha. destruct Hp; inversion Ha; subst.
  - destruct H as [H|[_ H]]; [|auto]. pose proof (proj1 Hi _ _ H). subst. auto.
  - destruct H as [H|(_ & _ & H)]; [|contradiction]. pose proof (proj1 Hi _ _ H). subst. auto.
Qed.
End Frame.

(** ** Lists *)
Lemma upd {X} i (v : X) l j x : nth_error (set_nth i v l) j = Some x -> (j = i /\ x = v) \/ (j <> i /\ nth_error l j = Some x).
Proof.
  intros H. destruct (Nat.eq_dec j i) as [->|Hj]; [left|right; rewrite nth_error_set_nth_ne in H by congruence; auto].
  assert (i < length l)%nat by (rewrite <- (set_nth_len i v l); apply nth_error_Some; congruence).
  rewrite nth_error_set_nth in H by assumption. split; congruence.
Qed.
Lemma map_upd {X Y} (f : X -> Y) i v l : map f (set_nth i v l) = set_nth i (f v) (map f l).
Proof. revert i. induction l as [|x l IH]; intros [|i]; cbn; [reflexivity..|]. now rewrite IH. Qed.
Fixpoint sum (l : list nat) : nat := match l with [] => 0%nat | x :: l => (x + sum l)%nat end.
Lemma sum_upd i v l x : nth_error l i = Some x -> (sum (set_nth i v l) + x = sum l + v)%nat.
Proof. revert i. induction l as [|y l IH]; intros [|i] H; cbn in *; try discriminate; [injection H as ->; lia|]. specialize (IH i H). lia. Qed.
Lemma sum_in l x : In x l -> (x <= sum l)%nat.
Proof. induction l as [|y l IH]; cbn; [contradiction|]. intros [->|H]; [lia|]. specialize (IH H). lia. Qed.
Lemma finite_max (P : nat -> nat -> Prop) k : (forall i, (i < k)%nat -> exists N, forall n, (N <= n)%nat -> P i n) ->
  exists N, forall n, (N <= n)%nat -> forall i, (i < k)%nat -> P i n.
Proof.
  induction k as [|k IH]; intros H; [exists 0%nat; lia|]. destruct IH as [N1 H1]; [intros; apply H; lia|].
  destruct (H k) as [N2 H2]; [lia|]. exists (N1 + N2)%nat. intros n Hn i Hi. destruct (Nat.eq_dec i k) as [->|]; [apply H2; lia|apply H1; lia].
Qed.
Lemma doings_app {X} i (l l' : list (nat * X)) : doings i (l ++ l') = doings i l ++ doings i l'.
Proof. unfold doings. now rewrite filter_app, map_app. Qed.
Lemma doings_same {X} i (x : X) : doings i [(i, x)] = [x].
Proof. unfold doings. cbn. now rewrite Nat.eqb_refl. Qed.
Lemma doings_other {X} i j (x : X) : i <> j -> doings i [(j, x)] = [].
Proof. intros H. unfold doings. cbn. apply Nat.eqb_neq in H. rewrite Nat.eqb_sym, H. reflexivity. Qed.
Lemma callers_app l l' : callers (l ++ l') = callers l ++ callers l'.
Proof. unfold callers. now rewrite filter_app, map_app. Qed.

(** ** Goroutines *)
Section Team.
Variable grow : Z -> Z -> Z.
Variables E B : Type.
Variable rd : nat -> E -> Z -> Z * list Z * option error * E.
Variable wr : nat -> E -> list Z -> Z * option error * E.
Variable prog : list (string * func).
Variable f : string.
Variable p : nat.
Variable look : list Z -> Z -> val -> option B.
Variable fills : bool.
Variable L : nat.
Variable gs : list (list event).
Notation state := (state E).
Notation team := (team E B).
Notation psteps := (psteps E rd wr).
Notation calls := (calls grow E rd wr prog f).
Notation worker := (worker B).
Hypothesis Hcheck : check 0 prog = true.
Hypothesis Hsig : get f (map sig_of prog) = Some ([true; fills], true).
Hypothesis Hsearch : forallb (fun x => searches_func (snd x)) prog = true.
Hypothesis Hapart : apart fills gs.
Hypothesis Hrange : forall g h, In g gs -> In h (arrays_used g) -> (h < L)%nat.
Hypothesis HL : (0 < L)%nat.
Variable Sess : list event -> list B -> state -> Prop.
Hypothesis sess_store : forall evs outs s h a, Sess evs outs s -> (h < L)%nat -> Sess (evs ++ [Store h a]) outs (set_arr E s h a).
Hypothesis sess_use : forall evs outs s h o k c v s1 b, Sess evs outs s -> (h < L)%nat ->
  calls [VPtr p; VSlice h o k c] s v s1 -> look (array (arrs E s1) h) o v = Some b -> Sess (evs ++ [Use h o k c]) (outs ++ [b]) s1.

(** Arrays nobody changes. *)
Definition R (l : nat) : Prop := (l < L)%nat /\ forall g, In g gs -> ~ In l (arrays_changed fills g).
Notation prel := (prel R (fun w => val_rel R w true)).
Notation objs_ok := (objs_ok E R).

(** What the shared object uses is apart from the arrays of the goroutines. *)
Definition footing (s : state) : Prop :=
  exists w, ident w /\ objs_ok w s /\ In (p, p) (wo w) /\ forall x, In (x, x) (wa w) -> (L <= x)%nat.

Lemma R0 l : (l <= 0)%nat -> R l.
Proof.
  intros H. replace l with 0%nat by lia. split; [exact HL|]. intros g Hg. apply (proj2 Hapart g Hg).
Qed.
Lemma changed_used g h : In h (arrays_changed fills g) -> In h (arrays_used g).
Proof.
  unfold arrays_changed, arrays_used. rewrite !in_flat_map. intros (ev & H1 & H2). exists ev. split; [assumption|].
  destruct ev; auto. destruct fills; [assumption|contradiction].
Qed.

(** From [s] on every order of the remaining events works. *)
Inductive good (n M : nat) : state -> list (list event) -> Prop :=
| good_intro s todos :
    (forall i h a evs, nth_error todos i = Some (Store h a :: evs) -> good n M (set_arr E s h a) (set_nth i evs todos)) ->
    (forall i h o k c evs, nth_error todos i = Some (Use h o k c :: evs) ->
       exists v s1 b cnt, calls [VPtr p; VSlice h o k c] s v s1 /\ look (array (arrs E s1) h) o v = Some b /\ footing s /\
         psteps cnt (runT grow prog n f [VPtr p; VSlice h o k c]) s (Done (Ok v)) s1 /\ (cnt <= M)%nat /\ good n M s1 (set_nth i evs todos)) ->
    good n M s todos.

Lemma good_use n M s todos : good n M s todos -> forall i h o k c evs, nth_error todos i = Some (Use h o k c :: evs) ->
  exists v s1 b cnt, calls [VPtr p; VSlice h o k c] s v s1 /\ look (array (arrs E s1) h) o v = Some b /\ footing s /\
    psteps cnt (runT grow prog n f [VPtr p; VSlice h o k c]) s (Done (Ok v)) s1 /\ (cnt <= M)%nat /\ good n M s1 (set_nth i evs todos).
Proof. intros H. destruct H as [s todos _ H]. exact H. Qed.

Section Good.
Variable Safe : state -> list (list event) -> Prop.
Hypothesis safe_store : forall s todos i h a evs, Safe s todos -> nth_error todos i = Some (Store h a :: evs) ->
  Safe (set_arr E s h a) (set_nth i evs todos).
Hypothesis safe_use : forall s todos i h o k c evs, Safe s todos -> nth_error todos i = Some (Use h o k c :: evs) ->
  exists v s1 b, calls [VPtr p; VSlice h o k c] s v s1 /\ look (array (arrs E s1) h) o v = Some b /\ footing s /\
    Safe s1 (set_nth i evs todos).

Definition may (n M : nat) (s : state) (todos : list (list event)) (i : nat) : Prop :=
  match nth_error todos i with
  | Some (Store h a :: evs) => good n M (set_arr E s h a) (set_nth i evs todos)
  | Some (Use h o k c :: evs) =>
    exists v s1 b cnt, calls [VPtr p; VSlice h o k c] s v s1 /\ look (array (arrs E s1) h) o v = Some b /\ footing s /\
      psteps cnt (runT grow prog n f [VPtr p; VSlice h o k c]) s (Done (Ok v)) s1 /\ (cnt <= M)%nat /\ good n M s1 (set_nth i evs todos)
  | _ => True
  end.
Lemma good_may n M s todos : (forall i, (i < length todos)%nat -> may n M s todos i) -> good n M s todos.
Proof.
  intros H. constructor.
  - intros i h a evs Hi. assert (i < length todos)%nat as Hl by (apply nth_error_Some; congruence). specialize (H i Hl). unfold may in H.
    now rewrite Hi in H.
  - intros i h o k c evs Hi. assert (i < length todos)%nat as Hl by (apply nth_error_Some; congruence). specialize (H i Hl). unfold may in H.
    now rewrite Hi in H.
Qed.
Lemma good_exists m : forall s todos, (sum (map (@length _) todos) <= m)%nat -> Safe s todos ->
  exists N, forall n, (N <= n)%nat -> exists M0, forall M, (M0 <= M)%nat -> good n M s todos.
Proof.
  induction m as [|m IH]; intros s todos Hm Hs.
  - exists 0%nat. intros n _. exists 0%nat. intros M _. apply good_may. intros i Hi. unfold may.
    destruct (nth_error todos i) as [g|] eqn:Hg; [|exact I]. destruct g as [|ev g]; [exact I|].
    pose proof (sum_in _ _ (in_map (@length _) _ _ (nth_error_In _ _ Hg))). cbn [length] in H. lia.
  - assert (forall i, (i < length todos)%nat -> exists N, forall n, (N <= n)%nat -> exists M0, forall M, (M0 <= M)%nat -> may n M s todos i) as H.
    { intros i Hi. destruct (nth_error todos i) as [g|] eqn:Hg; [|exists 0%nat; intros; exists 0%nat; intros; unfold may; rewrite Hg; exact I].
      destruct g as [|[h a|a|h o k c] g]; try (exists 0%nat; intros; exists 0%nat; intros; unfold may; rewrite Hg; exact I).
      - destruct (IH (set_arr E s h a) (set_nth i g todos)) as [N HN].
        + rewrite map_upd. pose proof (sum_upd i (length g) (map (@length _) todos) (Datatypes.S (length g))) as Hu.
          rewrite nth_error_map, Hg in Hu. specialize (Hu eq_refl). lia.
        + eapply safe_store; eassumption.
        + exists N. intros n Hn. destruct (HN n Hn) as [M0 HM]. exists M0. intros M HMM. unfold may. rewrite Hg. auto.
      - destruct (safe_use _ _ _ _ _ _ _ _ Hs Hg) as (v & s1 & b & [N1 Hc] & Hlook & Hf & Hs1).
        destruct (IH s1 (set_nth i g todos)) as [N HN]; [|assumption|].
        + rewrite map_upd. pose proof (sum_upd i (length g) (map (@length _) todos) (Datatypes.S (length g))) as Hu.
          rewrite nth_error_map, Hg in Hu. specialize (Hu eq_refl). lia.
        + exists (N + N1)%nat. intros n Hn. destruct (HN n) as [M0 HM]; [lia|].
          specialize (Hc n) as Hcn. rewrite <- (finish_run grow E rd wr prog Hsearch) in Hcn.
          destruct (finish_psteps E rd wr _ _ _ _ (Hcn ltac:(lia))) as [cnt Hcnt].
          exists (M0 + cnt)%nat. intros M HMM. unfold may. rewrite Hg. exists v, s1, b, cnt.
          split; [exists N1; exact Hc|]. split; [assumption|]. split; [assumption|]. split; [assumption|]. split; [lia|]. apply HM. lia. }
    apply finite_max in H. destruct H as [N H]. exists N. intros n Hn. specialize (H n Hn).
    apply finite_max in H. destruct H as [M0 H]. exists M0. intros M HM. apply good_may. intros i Hi. now apply H.
Qed.
End Good.

Section Run.
Variables n M : nat.
Notation team_step := (team_step grow rd wr prog f p look n).

Definition phase (d : doing) : nat := match d with Between => 0 | Inside _ _ _ => 2 | Outside _ _ _ => 1 end.
Definition weight (w : worker) : nat := length (w_todo w) * (M + 4) + phase (w_doing w).
Definition inside (w : worker) : Prop := match w_doing w with Inside _ _ _ => True | _ => False end.

(** The goroutine with the events [g]; [pend] is the result it has not yet looked at. *)
Definition status (s s' : state) (held : bool) (kk : nat) (g : list event) (d : doing) (pend : list B) : Prop :=
  match d with
  | Between => pend = []
  | Inside l o q => held = true /\ In l (arrays_used g) /\ exists b v w q', pend = [b] /\ psteps kk q s (Done (Ok v)) s' /\
      look (array (arrs E s') l) o v = Some b /\ prel w q q' /\ ident w /\ objs_ok w s /\
      (forall x, In (x, x) (wa w) -> (L <= x)%nat \/ In x (arrays_changed fills g))
  | Outside l o v => In l (arrays_used g) /\ exists b, pend = [b] /\ look (array (arrs E s) l) o v = Some b
  end.
Definition Inv (t : team) (phi : nat) : Prop :=
  let s := m_state t in let ws := m_workers t in
  exists s' log souts kk,
    length ws = length gs /\ good n M s' (map w_todo ws) /\
    Sess (map snd log) (map snd souts) s' /\ callers log = map fst souts /\ (forall i ev, In (i, ev) log -> (i < length gs)%nat) /\
    (forall i w g, nth_error ws i = Some w -> nth_error gs i = Some g -> doings i log ++ w_todo w = g /\
       exists pend, doings i souts = w_outs w ++ pend /\ status s s' (m_held t) kk g (w_doing w) pend) /\
    (L <= length (arrs E s))%nat /\
    (forall i j w w', nth_error ws i = Some w -> nth_error ws j = Some w' -> inside w -> inside w' -> i = j) /\
    (m_held t = false -> s = s' /\ kk = 0%nat) /\
    (m_held t = true -> exists i w, nth_error ws i = Some w /\ inside w) /\
    phi = (kk + sum (map weight ws))%nat.

Lemma todo_used log evs g h ev : log ++ ev :: evs = g -> In h (event_array ev) -> In h (arrays_used g).
Proof. intros <- H. unfold arrays_used. apply in_flat_map. exists ev. split; [apply in_or_app; right; left; reflexivity|assumption]. Qed.
Lemma todo_store log evs g h a : log ++ Store h a :: evs = g -> In h (arrays_changed fills g).
Proof. intros <-. unfold arrays_changed. apply in_flat_map. exists (Store h a). split; [apply in_or_app; right; left; reflexivity|left; reflexivity]. Qed.
Lemma gs_at (ws : list worker) i w : length ws = length gs -> nth_error ws i = Some w -> exists g, nth_error gs i = Some g.
Proof.
  intros Hl H. assert (i < length gs)%nat as Hi by (rewrite <- Hl; apply nth_error_Some; congruence). apply nth_error_Some in Hi.
  destruct (nth_error gs i) as [g|]; [eauto|congruence].
Qed.
Lemma apart_ne i j g g' h h' : i <> j -> nth_error gs i = Some g -> nth_error gs j = Some g' ->
  In h (arrays_changed fills g) -> In h' (arrays_used g') -> h <> h'.
Proof. intros Hij Hg Hg' H H' <-. exact (proj1 Hapart i j g g' h Hij Hg Hg' H H'). Qed.
Lemma not_R g h : In g gs -> In h (arrays_changed fills g) -> ~ R h.
Proof. intros Hg Hh [_ H]. exact (H g Hg Hh). Qed.

Lemma status_store s s' held kk i j g g' h a d pend : i <> j -> nth_error gs i = Some g -> nth_error gs j = Some g' ->
  In h (arrays_changed fills g) -> (L <= length (arrs E s))%nat ->
  status s s' held kk g' d pend -> status (set_arr E s h a) (set_arr E s' h a) held kk g' d pend.
Proof.
  intros Hij Hg Hg' Hh HLs. assert (h < L)%nat as Hhl by (eapply Hrange; [eapply nth_error_In; exact Hg|now apply changed_used]).
  destruct d as [|l o q|l o v]; cbn [status]; [auto|..].
  - intros (H0 & Hl & b & v & w & q' & -> & Hp & Hlook & Hrel & Hi & Ho & Hx). split; [assumption|]. split; [assumption|].
    exists b, v, w, q'. split; [reflexivity|]. split.
    + eapply psteps_frame; try eassumption; [lia| |].
      * intros Hin. destruct (Hx h Hin) as [Hc|Hc]; [lia|]. exact (apart_ne i j g g' h h Hij Hg Hg' Hh (changed_used _ _ Hc) eq_refl).
      * eapply not_R; [eapply nth_error_In; exact Hg|assumption].
    + split; [|auto]. cbn [set_arr arrs]. rewrite array_set by (eapply apart_ne; eassumption). assumption.
  - intros (Hl & b & -> & Hlook). split; [assumption|]. exists b. split; [reflexivity|].
    cbn [set_arr arrs]. rewrite array_set by (eapply apart_ne; eassumption). assumption.
Qed.

Lemma inv_step t t' phi : team_step t t' -> Inv t phi -> exists phi', Inv t' phi' /\ (phi' < phi)%nat.
Proof.
  intros Hst (s' & log & souts & kk & Hlen & Hgood & Hsess & Hcl & Hids & Hws & HLs & Huniq & Hfree & Hheld & ->).
  destruct Hst as [s held ws i h a evs outs Hi|s ws i h o k c evs outs Hi|s held ws i l o q q1 s1 evs outs Hi Hd H1
                  |s held ws i l o v evs outs Hi|s held ws i l o v b evs outs Hi Hlook]; cbn [m_state m_held m_workers] in *;
  destruct (gs_at ws i _ Hlen Hi) as [g Hg]; destruct (Hws i _ g Hi Hg) as (Hlog & pend & Hpend & Hstat); cbn [w_todo w_doing w_outs] in *;
  assert (i < length gs)%nat as Hig by (apply nth_error_Some; congruence).
  - (* store *)
    pose proof (todo_store _ _ _ _ _ Hlog) as Hh. assert (h < L)%nat as Hhl by (eapply Hrange; [eapply nth_error_In; exact Hg|now apply changed_used]).
    pose proof (sum_upd i (weight (mkWorker evs Between outs)) (map weight ws) (weight (mkWorker (Store h a :: evs) Between outs))) as Hsum.
    rewrite nth_error_map, Hi in Hsum. specialize (Hsum eq_refl). rewrite <- map_upd in Hsum. unfold weight at 2 4 in Hsum. cbn [w_todo w_doing length] in Hsum.
    eexists. split.
    + exists (set_arr E s' h a), (log ++ [(i, Store h a)]), souts, kk. cbn [m_state m_held m_workers].
      split; [now rewrite set_nth_len|]. split.
      { rewrite map_upd. inversion Hgood as [? ? G1 _]; subst. apply G1. now rewrite nth_error_map, Hi. }
      split; [rewrite map_app; apply sess_store; assumption|].
      split; [rewrite callers_app; cbn; now rewrite app_nil_r|].
      split; [intros j ev Hj; apply in_app_or in Hj; destruct Hj as [Hj|[[= <- <-]|[]]]; [eauto|assumption]|].
      split.
      { intros j w g' Hj Hg'. apply upd in Hj. destruct Hj as [[-> ->]|[Hne Hj]].
        - replace g' with g by congruence. rewrite doings_app, doings_same, <- app_assoc. split; [assumption|].
          exists pend. split; [assumption|]. cbn [w_doing] in *. exact Hstat.
        - destruct (Hws j w g' Hj Hg') as (Q1 & pend' & Q2 & Q3). rewrite doings_app, doings_other by assumption. rewrite app_nil_r.
          split; [assumption|]. exists pend'. split; [assumption|]. eapply (status_store _ _ _ _ i j); try eassumption. congruence. }
      split; [cbn [set_arr arrs]; now rewrite set_nth_len|].
      split.
      { intros j j' w w' Hj Hj' W W'. apply upd in Hj. apply upd in Hj'. destruct Hj as [[-> ->]|[_ Hj]]; [contradiction W|].
        destruct Hj' as [[-> ->]|[_ Hj']]; [contradiction W'|]. eapply Huniq; eassumption. }
      split; [intros Hf; destruct (Hfree Hf) as [-> ->]; auto|].
      split; [|reflexivity].
      intros Hh'. destruct (Hheld Hh') as (j & w & Hj & W). exists j, w. split; [|assumption]. rewrite nth_error_set_nth_ne; [assumption|].
      intros ->. rewrite Hi in Hj. injection Hj as <-. contradiction W.
    + lia.
  - (* lock *)
    destruct (Hfree eq_refl) as [<- ->]. cbn [status] in Hstat. subst pend.
    pose proof (todo_used _ _ _ h _ Hlog (or_introl eq_refl)) as Hh.
    assert (h < L)%nat as Hhl by (eapply Hrange; [eapply nth_error_In; exact Hg|assumption]).
    destruct (good_use _ _ _ _ Hgood i h o k c evs) as (v & s1 & b & cnt & Hcall & Hlook & (w0 & I1 & I2 & I3 & I4) & Hps & Hcnt & Hg1);
      [now rewrite nth_error_map, Hi|].
    set (run0 := runT grow prog n f [VPtr p; VSlice h o k c]) in *.
    set (w1 := mkWorld (map (fun x => (x, x)) (arrays_changed fills g) ++ wa w0) (wo w0)).
    assert (Hw1 : wle w0 w1) by (split; [apply incl_appr, incl_refl|apply incl_refl]).
    assert (Hrel : prel w1 run0 run0).
    { eapply (run_related R 0 R0 grow prog Hcheck); [exact Hsig|]. split; [exact I3|]. split; [|exact I]. cbn.
      repeat split. destruct (in_dec Nat.eq_dec h (arrays_changed fills g)) as [Hin|Hin].
      - left. apply in_or_app. left. apply in_map_iff. exists h. auto.
      - right. split; [reflexivity|]. split.
        + split; [assumption|]. intros g' Hg' Hc. apply In_nth_error in Hg'. destruct Hg' as [j Hj].
          destruct (Nat.eq_dec i j) as [<-|Hne]; [replace g' with g in * by congruence; contradiction|].
          exact (apart_ne j i g' g h h (not_eq_sym Hne) Hj Hg Hc Hh eq_refl).
        + left. destruct fills eqn:Hfl; [|reflexivity]. exfalso. apply Hin. rewrite <- Hlog. unfold arrays_changed. apply in_flat_map.
          exists (Use h o k c). split; [apply in_or_app; right; left; reflexivity|left; reflexivity]. }
    pose proof (sum_upd i (weight (mkWorker evs (Inside h o run0) outs)) (map weight ws) (weight (mkWorker (Use h o k c :: evs) Between outs))) as Hsum.
    rewrite nth_error_map, Hi in Hsum. specialize (Hsum eq_refl). rewrite <- map_upd in Hsum. unfold weight at 2 4 in Hsum. cbn [w_todo w_doing length phase] in Hsum.
    eexists. split.
    + exists s1, (log ++ [(i, Use h o k c)]), (souts ++ [(i, b)]), cnt. cbn [m_state m_held m_workers].
      split; [now rewrite set_nth_len|]. split; [now rewrite map_upd|].
      split; [rewrite !map_app; eapply sess_use; eassumption|].
      split; [rewrite callers_app, map_app, Hcl; reflexivity|].
      split; [intros j ev Hj; apply in_app_or in Hj; destruct Hj as [Hj|[[= <- <-]|[]]]; [eauto|assumption]|].
      split.
      { intros j w g' Hj Hg'. apply upd in Hj. destruct Hj as [[-> ->]|[Hne Hj]].
        - replace g' with g by congruence. rewrite !doings_app, !doings_same, <- app_assoc. split; [assumption|].
          exists [b]. rewrite Hpend, app_nil_r. split; [reflexivity|]. cbn [w_doing status]. split; [reflexivity|]. split; [assumption|].
          exists b, v, w1, run0. split; [reflexivity|]. split; [assumption|]. split; [assumption|]. split; [assumption|].
          split; [|split].
          + split; [|apply I1]. cbn. intros x y Hxy. apply in_app_or in Hxy. destruct Hxy as [Hxy|Hxy]; [|exact (proj1 I1 _ _ Hxy)].
            apply in_map_iff in Hxy. destruct Hxy as (z & [= <- <-] & _). reflexivity.
          + eapply objs_ok_mono; [exact Hw1|reflexivity|reflexivity|exact I2].
          + cbn. intros x Hx. apply in_app_or in Hx. destruct Hx as [Hx|Hx]; [|auto]. apply in_map_iff in Hx. destruct Hx as (z & [= ->] & Hz). auto.
        - destruct (Hws j w g' Hj Hg') as (Q1 & pend' & Q2 & Q3). rewrite !doings_app, !doings_other by assumption. rewrite !app_nil_r.
          split; [assumption|]. exists pend'. split; [assumption|]. destruct (w_doing w) as [|l0 o0 q0|l0 o0 v0]; cbn [status] in Q3 |- *; [assumption| |assumption].
          destruct Q3 as [Q3 _]. discriminate Q3. }
      split; [assumption|].
      split.
      { assert (Hno : forall j w, nth_error ws j = Some w -> inside w -> False).
        { intros j w Hj W. destruct (gs_at ws j w Hlen Hj) as [g' Hg']. destruct (Hws j w g' Hj Hg') as (_ & pend' & _ & Q3). unfold inside in W.
          destruct (w_doing w); try contradiction W. destruct Q3 as [Q3 _]. discriminate Q3. }
        intros j j' w w' Hj Hj' W W'. apply upd in Hj. apply upd in Hj'. destruct Hj as [[-> ->]|[_ Hj]]; [|destruct (Hno j w Hj W)].
        destruct Hj' as [[-> _]|[_ Hj']]; [reflexivity|destruct (Hno j' w' Hj' W')]. }
      split; [discriminate|]. split; [|reflexivity].
      intros _. exists i, (mkWorker evs (Inside h o run0) outs). split; [|exact I]. apply nth_error_set_nth. apply nth_error_Some. congruence.
    + lia.
  - (* an access of the call *)
    destruct Hstat as (Hh & Hl & b & v & w & q' & -> & Hps & Hlook & Hrel & I1 & I2 & I3).
    destruct (step_frame E rd wr R _ w q q' s q1 s1 Hrel I1 I2 Hd H1) as ((w1 & q1' & P1 & P2 & P3 & P4) & Hle & _ & Hsame).
    inversion Hps as [? ? X1 X2 X3 X4|k0 ? ? q2 s2 ? ? X1 X2 X3 X4 X5 X6 X7]; subst; [discriminate Hd|].
    rewrite H1 in X2. injection X2 as <- <-.
    pose proof (sum_upd i (weight (mkWorker evs (Inside l o q1) outs)) (map weight ws) (weight (mkWorker evs (Inside l o q) outs))) as Hsum.
    rewrite nth_error_map, Hi in Hsum. specialize (Hsum eq_refl). rewrite <- map_upd in Hsum. unfold weight at 2 4 in Hsum. cbn [w_todo w_doing length phase] in Hsum.
    eexists. split.
    + exists s', log, souts, k0. cbn [m_state m_held m_workers].
      split; [now rewrite set_nth_len|].
      split; [rewrite map_upd; cbn [w_todo]; rewrite set_nth_id; [assumption|now rewrite nth_error_map, Hi]|].
      split; [assumption|]. split; [assumption|]. split; [assumption|]. split.
      { intros j w' g' Hj Hg'. apply upd in Hj. destruct Hj as [[-> ->]|[Hne Hj]].
        - replace g' with (doings i log ++ evs) by congruence. split; [reflexivity|].
          exists [b]. split; [assumption|]. cbn [w_doing status]. split; [reflexivity|]. split; [assumption|].
          exists b, v, w1, q1'. split; [reflexivity|]. split; [assumption|]. split; [assumption|]. split; [assumption|].
          split; [assumption|]. split; [assumption|]. intros x Hx. destruct (P4 x Hx); [auto|]. left. lia.
        - destruct (Hws j w' g' Hj Hg') as (Q1 & pend' & Q2 & Q3). split; [assumption|]. exists pend'. split; [assumption|].
          destruct (w_doing w') as [|l0 o0 q0|l0 o0 v0] eqn:Hdw; cbn [status] in Q3 |- *; [assumption| |].
          + exfalso. apply Hne. eapply Huniq; [exact Hj|exact Hi| |exact I]. unfold inside. now rewrite Hdw.
          + destruct Q3 as (Q3 & b' & -> & Q4). split; [assumption|]. exists b'. split; [reflexivity|].
            assert (l0 < L)%nat by (eapply Hrange; [eapply nth_error_In; exact Hg'|assumption]).
            rewrite Hsame; [assumption|lia|]. intros Hin. destruct (I3 l0 Hin) as [Hc|Hc]; [lia|].
            exact (apart_ne i j _ g' l0 l0 (not_eq_sym Hne) Hg Hg' Hc Q3 eq_refl). }
      split; [lia|].
      split.
      { intros j j' w0 w' Hj Hj' W W'. apply upd in Hj. apply upd in Hj'.
        destruct Hj as [[-> _]|[_ Hj]], Hj' as [[-> _]|[_ Hj']]; [reflexivity| | |].
        - eapply Huniq; [exact Hi|exact Hj'|exact I|assumption].
        - eapply Huniq; [exact Hj|exact Hi|assumption|exact I].
        - eapply Huniq; eassumption. }
      split; [discriminate|]. split; [|reflexivity].
      intros _. exists i, (mkWorker evs (Inside l o q1) outs). split; [|exact I]. apply nth_error_set_nth. apply nth_error_Some. congruence.
    + lia.
  - (* unlock *)
    destruct Hstat as (Hh & Hl & b & v' & w & q' & -> & Hps & Hlook & _).
    inversion Hps as [? ? X1 X2 X3 X4|k0 ? ? q2 s2 ? ? X1 X2 X3 X4 X5 X6 X7]; subst; [|discriminate X1].
    pose proof (sum_upd i (weight (mkWorker evs (Outside l o v') outs)) (map weight ws) (weight (mkWorker evs (Inside l o (Done (Ok v'))) outs))) as Hsum.
    rewrite nth_error_map, Hi in Hsum. specialize (Hsum eq_refl). rewrite <- map_upd in Hsum. unfold weight at 2 4 in Hsum. cbn [w_todo w_doing length phase] in Hsum.
    assert (Hno : forall j w', nth_error (set_nth i (mkWorker evs (Outside l o v') outs) ws) j = Some w' -> inside w' -> False).
    { intros j w' Hj W. apply upd in Hj. destruct Hj as [[-> ->]|[Hne Hj]]; [contradiction W|]. apply Hne.
      eapply Huniq; [exact Hj|exact Hi|assumption|exact I]. }
    eexists. split.
    + exists s', log, souts, 0%nat. cbn [m_state m_held m_workers].
      split; [now rewrite set_nth_len|].
      split; [rewrite map_upd; cbn [w_todo]; rewrite set_nth_id; [assumption|now rewrite nth_error_map, Hi]|].
      split; [assumption|]. split; [assumption|]. split; [assumption|]. split.
      { intros j w' g' Hj Hg'. pose proof Hj as Hj0. apply upd in Hj. destruct Hj as [[-> ->]|[Hne Hj]].
        - replace g' with (doings i log ++ evs) by congruence. split; [reflexivity|].
          exists [b]. split; [assumption|]. cbn [w_doing status]. split; [assumption|]. exists b. auto.
        - destruct (Hws j w' g' Hj Hg') as (Q1 & pend' & Q2 & Q3). split; [assumption|]. exists pend'. split; [assumption|].
          destruct (w_doing w') as [|l0 o0 q0|l0 o0 v0] eqn:Hdw; cbn [status] in Q3 |- *; [assumption| |assumption].
          exfalso. apply (Hno j w' Hj0). unfold inside. now rewrite Hdw. }
      split; [assumption|]. split; [intros j j' w0 w' Hj _ W _; destruct (Hno j w0 Hj W)|].
      split; [auto|]. split; [discriminate|reflexivity].
    + lia.
  - (* look *)
    destruct Hstat as (Hl & b' & -> & Hlook'). replace b' with b in * by congruence.
    pose proof (sum_upd i (weight (mkWorker evs Between (outs ++ [b]))) (map weight ws) (weight (mkWorker evs (Outside l o v) outs))) as Hsum.
    rewrite nth_error_map, Hi in Hsum. specialize (Hsum eq_refl). rewrite <- map_upd in Hsum. unfold weight at 2 4 in Hsum. cbn [w_todo w_doing length phase] in Hsum.
    eexists. split.
    + exists s', log, souts, kk. cbn [m_state m_held m_workers].
      split; [now rewrite set_nth_len|].
      split; [rewrite map_upd; cbn [w_todo]; rewrite set_nth_id; [assumption|now rewrite nth_error_map, Hi]|].
      split; [assumption|]. split; [assumption|]. split; [assumption|]. split.
      { intros j w' g' Hj Hg'. apply upd in Hj. destruct Hj as [[-> ->]|[Hne Hj]].
        - replace g' with (doings i log ++ evs) by congruence. split; [reflexivity|].
          exists []. rewrite app_nil_r. split; [assumption|reflexivity].
        - exact (Hws j w' g' Hj Hg'). }
      split; [assumption|].
      split.
      { intros j j' w w' Hj Hj' W W'. apply upd in Hj. apply upd in Hj'. destruct Hj as [[-> ->]|[_ Hj]]; [contradiction W|].
        destruct Hj' as [[-> ->]|[_ Hj']]; [contradiction W'|]. eapply Huniq; eassumption. }
      split; [assumption|]. split; [|reflexivity].
      intros Hh'. destruct (Hheld Hh') as (j & w & Hj & W). exists j, w. split; [|assumption]. rewrite nth_error_set_nth_ne; [assumption|].
      intros ->. rewrite Hi in Hj. injection Hj as <-. contradiction W.
    + lia.
Qed.
Lemma inv_steps m t t' : team_steps grow rd wr prog f p look n m t t' -> forall phi, Inv t phi -> exists phi', Inv t' phi' /\ (m + phi' <= phi)%nat.
Proof.
  intros H. induction H as [t|m t t1 t2 H1 _ IH]; intros phi Hi; [exists phi; split; [assumption|lia]|].
  destruct (inv_step _ _ _ H1 Hi) as (phi1 & Hi1 & Hlt). destruct (IH phi1 Hi1) as (phi2 & Hi2 & Hle). exists phi2. split; [assumption|lia].
Qed.
Lemma inv_start s : good n M s gs -> Sess [] [] s -> (L <= length (arrs E s))%nat -> exists phi, Inv (team_start s gs) phi.
Proof.
  intros Hg Hs Hl. eexists. exists s, [], [], 0%nat. cbn [team_start m_state m_held m_workers].
  split; [now rewrite map_length|]. split; [rewrite map_map; cbn [w_todo]; now rewrite map_id|]. split; [assumption|].
  split; [reflexivity|]. split; [contradiction|]. split.
  { intros i w g Hw Hgi. rewrite nth_error_map, Hgi in Hw. injection Hw as <-. cbn. split; [reflexivity|]. exists []. auto. }
  split; [assumption|]. split.
  { intros i j w w' Hw _ W _. apply nth_error_In, in_map_iff in Hw. destruct Hw as (g & <- & _). contradiction W. }
  split; [auto|]. split; [discriminate|reflexivity].
Qed.

Lemma inv_progress t phi : Inv t phi -> team_ended t \/ exists t', team_step t t'.
Proof.
  intros (s' & log & souts & kk & Hlen & Hgood & Hsess & Hcl & Hids & Hws & HLs & Huniq & Hfree & Hheld & _).
  destruct t as [s held ws]. cbn [m_state m_held m_workers] in *. destruct held.
  - right. destruct (Hheld eq_refl) as (i & [evs d outs] & Hi & W). destruct (gs_at ws i _ Hlen Hi) as [g Hg].
    destruct (Hws i _ g Hi Hg) as (_ & pend & _ & Hstat). cbn [w_doing] in Hstat. destruct d as [|l o q|l o v]; try contradiction W.
    destruct Hstat as (_ & _ & b & v & w & q' & _ & Hps & _).
    inversion Hps as [? ? X1 X2 X3 X4|k0 ? ? q2 s2 ? ? X1 X2 X3 X4 X5 X6 X7]; subst; eexists; [eapply step_unlock|eapply step_call]; eassumption.
  - assert (Hdec : (forall w, In w ws -> w_todo w = [] /\ w_doing w = Between) \/ exists w, In w ws /\ ~ (w_todo w = [] /\ w_doing w = Between)).
    { clear. induction ws as [|w ws IH]; [left; contradiction|].
      assert ((w_todo w = [] /\ w_doing w = Between) \/ ~ (w_todo w = [] /\ w_doing w = Between)) as [Hw|Hw].
      { destruct w as [[|ev evs] [| |] outs]; cbn; try (left; split; reflexivity); right; intros [X Y]; discriminate. }
      - destruct IH as [IH|(w' & H1 & H2)]; [left; intros w' [<-|Hi]; auto|right; exists w'; split; [right|]; assumption].
      - right. exists w. split; [left; reflexivity|assumption]. }
    destruct Hdec as [Hdec|(w & Hin & Hw)]; [left; exact Hdec|right].
    apply In_nth_error in Hin. destruct Hin as [i Hi]. destruct (gs_at ws i _ Hlen Hi) as [g Hg].
    destruct (Hws i _ g Hi Hg) as (Hlog & pend & _ & Hstat). destruct w as [evs d outs]. cbn [w_doing w_todo] in *. destruct d as [|l o q|l o v].
    + destruct evs as [|[h a|a|h o k c] evs]; [destruct Hw; auto| | |].
      * eexists. eapply step_store. eassumption.
      * exfalso. destruct (proj2 Hapart g (nth_error_In _ _ Hg)) as [_ Ha]. apply (Ha a). rewrite <- Hlog. apply in_or_app. right. left. reflexivity.
      * eexists. eapply step_lock. eassumption.
    + destruct Hstat as [X _]. discriminate X.
    + destruct Hstat as (_ & b & _ & Hlook). eexists. eapply step_look; eassumption.
Qed.

Lemma inv_race t phi : Inv t phi -> ~ team_race t.
Proof.
  intros (s' & log & souts & kk & Hlen & Hgood & Hsess & Hcl & Hids & Hws & HLs & Huniq & Hfree & Hheld & _).
  assert (Hall : forall i w pl a, nth_error (m_workers t) i = Some w -> next_access w pl a ->
     exists g, nth_error gs i = Some g /\
     (inside w \/ exists l, pl = PArr l /\ (l < L)%nat /\ if a then In l (arrays_changed fills g) else In l (arrays_used g)) /\
     (inside w -> forall l, pl = PArr l -> In l (arrays_changed fills g) \/ (L <= l)%nat \/ (R l /\ a = false))).
  { intros i w pl a Hi Ha. destruct (gs_at _ i _ Hlen Hi) as [g Hg]. destruct (Hws i _ g Hi Hg) as (Hlog & pend & _ & Hstat).
    exists g. split; [assumption|]. destruct Ha as [h b evs outs|evs l o q outs pl b Hab|evs l o v outs]; cbn [w_doing w_todo] in *.
    - split; [right|intros []]. pose proof (todo_store _ _ _ _ _ Hlog) as Hh. exists h. split; [reflexivity|]. split; [|assumption].
      eapply Hrange; [eapply nth_error_In; exact Hg|now apply changed_used].
    - split; [left; exact I|]. intros _ l' ->. destruct Hstat as (_ & _ & b' & v & w & q' & _ & _ & _ & Hrel & I1 & _ & I3).
      destruct (about_foot R _ w q q' Hrel I1 l' b Hab) as [Hx|Hx]; [|auto]. destruct (I3 _ Hx); auto.
    - split; [right|intros []]. destruct Hstat as (Hl & _). exists l. split; [reflexivity|]. split; [|assumption].
      eapply Hrange; [eapply nth_error_In; exact Hg|assumption]. }
  (* one of the two holds the lock and is about to write or read an array of the other *)
  assert (Hone : forall i j g g' l (a b : bool), i <> j -> nth_error gs i = Some g -> nth_error gs j = Some g' ->
     (l < L)%nat -> (if a then In l (arrays_changed fills g) else In l (arrays_used g)) ->
     (In l (arrays_changed fills g') \/ (L <= l)%nat \/ (R l /\ b = false)) -> (a || b = true) -> False).
  { intros i j g g' l a b Hij Hg Hg' Hl Ha [H|[H|[H ->]]] Hab; [|lia|].
    - assert (In l (arrays_used g)) by (destruct a; [now apply changed_used|assumption]).
      exact (apart_ne j i g' g l l (not_eq_sym Hij) Hg' Hg H H0 eq_refl).
    - rewrite orb_false_r in Hab. subst a. exact (not_R g l (nth_error_In _ _ Hg) Ha H). }
  intros (i & j & w & w' & pl & a & b & Hij & Hi & Hj & Ha & Hb & Hab).
  destruct (Hall i w pl a Hi Ha) as (g & Hg & X1 & X2). destruct (Hall j w' pl b Hj Hb) as (g' & Hg' & Y1 & Y2).
  destruct X1 as [X1|(l & -> & Hl & X1)], Y1 as [Y1|(l' & Hpl & Hl' & Y1)].
  - apply Hij. eapply Huniq; eassumption.
  - subst pl. rewrite orb_comm in Hab. eapply (Hone j i g' g l' b a); eauto.
  - eapply (Hone i j g g' l a b); eauto.
  - injection Hpl as <-. destruct a; [|destruct b; [|discriminate Hab]].
    + assert (In l (arrays_used g')) by (destruct b; [now apply changed_used|assumption]). exact (apart_ne i j g g' l l Hij Hg Hg' X1 H eq_refl).
    + exact (apart_ne j i g' g l l (not_eq_sym Hij) Hg' Hg Y1 X1 eq_refl).
Qed.

Lemma inv_ended t phi : Inv t phi -> team_ended t ->
  exists order outs, merges gs (m_workers t) order outs /\ Sess (map snd order) (map snd outs) (m_state t).
Proof.
  intros (s' & log & souts & kk & Hlen & Hgood & Hsess & Hcl & Hids & Hws & HLs & Huniq & Hfree & Hheld & _) Hend.
  assert (m_held t = false) as Hf.
  { destruct (m_held t); [|reflexivity]. destruct (Hheld eq_refl) as (i & w & Hi & W). destruct (Hend w (nth_error_In _ _ Hi)) as [_ Hb].
    unfold inside in W. now rewrite Hb in W. }
  destruct (Hfree Hf) as [-> _]. exists log, souts. split; [|assumption]. split; [assumption|]. split; [assumption|]. split; [assumption|].
  intros i g w Hg Hw. destruct (Hws i w g Hw Hg) as (Hlog & pend & Hpend & Hstat). destruct (Hend w (nth_error_In _ _ Hw)) as [H1 H2].
  rewrite H1, app_nil_r in Hlog. rewrite H2 in Hstat. cbn in Hstat. subst pend. rewrite app_nil_r in Hpend. auto.
Qed.
End Run.

Theorem team_sound (Safe : state -> list (list event) -> Prop) s :
  (forall s todos i h a evs, Safe s todos -> nth_error todos i = Some (Store h a :: evs) -> Safe (set_arr E s h a) (set_nth i evs todos)) ->
  (forall s todos i h o k c evs, Safe s todos -> nth_error todos i = Some (Use h o k c :: evs) ->
    exists v s1 b, calls [VPtr p; VSlice h o k c] s v s1 /\ look (array (arrs E s1) h) o v = Some b /\ footing s /\
      Safe s1 (set_nth i evs todos)) ->
  Safe s gs -> Sess [] [] s -> (L <= length (arrs E s))%nat ->
  exists N, forall n, (N <= n)%nat -> exists bound, forall m t, team_steps grow rd wr prog f p look n m (team_start s gs) t ->
    (m <= bound)%nat /\ ~ team_race t /\ (team_ended t \/ exists t', team_step grow rd wr prog f p look n t t') /\
    (team_ended t -> exists order outs, merges gs (m_workers t) order outs /\ Sess (map snd order) (map snd outs) (m_state t)).
Proof.
  intros H1 H2 Hs Hss Hl. destruct (good_exists Safe H1 H2 _ s gs (le_n _) Hs) as [N HN]. exists N. intros n Hn.
  destruct (HN n Hn) as [M HM]. specialize (HM M (le_n _)). destruct (inv_start n M s HM Hss Hl) as [phi Hphi].
  exists phi. intros m t Ht. destruct (inv_steps n M m _ _ Ht phi Hphi) as (phi' & Hinv & Hle).
  split; [lia|]. split; [eapply inv_race; exact Hinv|]. split; [eapply inv_progress; exact Hinv|]. eapply inv_ended; exact Hinv.
Qed.
End Team.
