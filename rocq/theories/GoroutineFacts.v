(** Whole goroutines: proofs for PropThreads.v. *)
From Coq Require Import String ZArith List Bool Lia.
From Verif Require Import Base Cp949Model GoLang GoHeap GoSource GoThreads SourceSpec ThreadFacts OwnFacts SpecThreads PoolFacts.
Import ListNotations.
Local Open Scope Z_scope.
Local Open Scope list_scope.
Local Open Scope go_scope.

Notation K := (length m_multiElements).

(** ** A goroutine alone is its process finished *)
Lemma searches_source p : forallb (fun x => searches_func (snd x)) (source p) = true.
Proof. destruct p; vm_compute; reflexivity. Qed.

Lemma finish_op grow E rd wr n rs o s : finish E rd wr (op_proc grow n rs o) s = op_alone grow E rd wr n rs o s.
Proof.
  destruct o; cbn [op_proc op_alone]; rewrite finish_pure.
  - destruct (arg_vals rs args); cbn [bind]; try reflexivity. apply finish_run, searches_source.
  - destruct (arg_val rs a) as [v| |]; cbn [bind]; try reflexivity. destruct v; reflexivity.
  - destruct (arg_val rs a) as [v| |]; cbn [bind]; try reflexivity. destruct v; reflexivity.
  - destruct (arg_val rs a) as [v| |]; cbn [bind]; try reflexivity.
Qed.
Lemma finish_goroutine grow E rd wr n ops : forall rs s, finish E rd wr (goroutine grow n ops rs) s = alone grow E rd wr n ops rs s.
Proof.
  induction ops as [|o ops IH]; intros rs s; cbn [goroutine alone]; [reflexivity|].
  rewrite finish_bind, finish_op. destruct (op_alone _ _ _ _ _ _ _ _) as [[v s1]| |]; cbn [bind fst snd]; auto.
Qed.

(** ** A goroutine only uses its own memory *)
Lemma check_source p : check K (source p) = true.
Proof.
  assert (H0 : check 0 prog_hanja = true) by (vm_compute; reflexivity). assert (H1 : check 0 prog_cp949 = true) by (vm_compute; reflexivity).
  destruct p; vm_compute; reflexivity.
Qed.

Lemma exported_sig p f x : get f (exported p) = Some x -> get f (map sig_of (source p)) = Some x.
Proof.
  intros H.
  assert (Hall : forallb (fun y => match get (fst y) (map sig_of (source p)) with
      Some z => if list_eq_dec Bool.bool_dec (fst z) (fst (snd y)) then Bool.eqb (snd z) (snd (snd y)) else false | None => false end) (exported p) = true)
    by (clear; destruct p; vm_compute; reflexivity).
  rewrite forallb_forall in Hall.
  assert (Hin : In (f, x) (exported p)).
  { clear Hall. revert H. generalize (exported p). intros l. induction l as [|[g y] l IH]; [discriminate|]. cbn [get].
    destruct (String.eqb_spec g f) as [->|]; [intros [= ->]; left; reflexivity|right; auto]. }
  specialize (Hall _ Hin). cbn [fst snd] in Hall. destruct (get f (map sig_of (source p))) as [z|]; [|discriminate].
  destruct (list_eq_dec Bool.bool_dec (fst z) (fst x)) as [Hz|]; [|discriminate]. apply eqb_prop in Hall. destruct z, x. cbn in *. congruence.
Qed.

Section Run.
Variable grow : Z -> Z -> Z.
Context {E : Type}.
Variable A : list (list Z).
Variable O : list (string * list (string * val)).
Variable ts : list (thread E).
Variable t : thread E.
Notation R := (read_only A ts).
Hypothesis HR : forall l, (l <= K)%nat -> R l.

Definition diag (l : list nat) : list (nat * nat) := map (fun x => (x, x)) l.
Lemma in_diag l x y : In (x, y) (diag l) <-> x = y /\ In x l.
Proof. unfold diag. rewrite in_map_iff. split; [intros (z & [= <- <-] & H); auto|intros [<- H]; eauto]. Qed.
Definition fieldless_list : list nat :=
  filter (fun l => match nth_error O l with Some (_, []) => true | _ => false end) (seq 0 (length O)).
Lemma in_fieldless l : In l fieldless_list <-> fieldless O l.
Proof.
  unfold fieldless_list, fieldless. rewrite filter_In, in_seq. split.
  - intros [_ H]. destruct (nth_error O l) as [[T [|]]|]; try discriminate. eauto.
  - intros [T H]. split; [|now rewrite H]. split; [lia|]. apply nth_error_Some. congruence.
Qed.
Definition base : world := mkWorld (diag (t_arrs t)) (diag (t_objs t ++ fieldless_list)).

Lemma usable_rel w own v : wle base w -> usable A O ts t own v -> val_rel R w own v v.
Proof.
  intros [Ha Ho]. pattern v. apply val_all; clear v.
  - intros vs H Hu. rewrite val_rel_tuple. cbn [usable] in Hu. induction H as [|v vs Hv _ IH]; [exact I|]. destruct Hu as [H1 H2]. split; [auto|apply IH; exact H2].
  - intros v Hn Hu. destruct v; cbn [usable val_rel] in *; auto.
    + repeat split; auto. destruct Hu as [Hu|[Hu1 Hu2]]; [left; apply Ha, in_diag; auto|right; auto].
    + apply Ho, in_diag. split; [reflexivity|]. apply in_app_iff. rewrite in_fieldless. exact Hu.
    + now destruct (Hn vs).
Qed.

Definition res_rel {B} (S : B -> B -> Prop) (r r' : res B) : Prop :=
  match r, r' with Ok a, Ok a' => S a a' | Panic, Panic => True | Fuel, Fuel => True | _, _ => False end.
Lemma args_nth w k : forall tys rs rs', args_rel R w tys rs rs' ->
  match nth_error tys k, nth_error rs k, nth_error rs' k with
  | Some b, Some v, Some v' => val_rel R w b v v' | None, None, None => True | _, _, _ => False end.
Proof.
  induction k as [|k IH]; intros [|b tys] [|v rs] [|v' rs'] H; try contradiction H; try exact I.
  - apply H.
  - destruct H. cbn [nth_error]. now apply IH.
Qed.
Lemma component_rel w b v v' j : val_rel R w b v v' ->
  match component v j, component v' j with Some u, Some u' => val_rel R w b u u' | None, None => True | _, _ => False end.
Proof.
  intros H. destruct v, v'; try contradiction H; try (destruct j; [exact H|exact I]).
  rewrite val_rel_tuple in H. cbn [component]. revert vs vs0 H. induction j as [|j IH]; intros [|u us] [|u' us'] H; try contradiction H; try exact I; [apply H|].
  destruct H. cbn [nth_error]. now apply IH.
Qed.
Lemma arg_rel w tys rs rs' own a : wle base w -> args_rel R w tys rs rs' -> usable_arg A O ts t tys own a ->
  res_rel (val_rel R w own) (arg_val rs a) (arg_val rs' a).
Proof.
  intros Hw Hrs Hu. destruct a as [v|k j]; cbn [usable_arg arg_val] in *; [now apply usable_rel|].
  destruct Hu as (b & Hb & Hob). pose proof (args_nth w k _ _ _ Hrs) as H. rewrite Hb in H.
  destruct (nth_error rs k) as [v|], (nth_error rs' k) as [v'|]; try contradiction H. cbn [the bind].
  pose proof (component_rel _ _ _ _ j H) as H'. destruct (component v j), (component v' j); try contradiction H'; [|exact I].
  cbn. eapply val_rel_mono; [apply wle_refl|exact Hob|exact H'].
Qed.
Lemma arg_vals_rel w tys rs rs' ps l : wle base w -> args_rel R w tys rs rs' -> Forall2 (usable_arg A O ts t tys) ps l ->
  res_rel (args_rel R w ps) (arg_vals rs l) (arg_vals rs' l).
Proof.
  intros Hw Hrs H. induction H as [|own a ps l Ha _ IH]; [exact I|]. cbn [arg_vals].
  pose proof (arg_rel _ _ _ _ _ _ Hw Hrs Ha) as H. destruct (arg_val rs a), (arg_val rs' a); try contradiction H; try exact I. cbn [bind].
  destruct (arg_vals rs l), (arg_vals rs' l); try contradiction IH; try exact I. split; assumption.
Qed.
Lemma pure_rel {B C} (S : world -> C -> C -> Prop) (T : B -> B -> Prop) w r r' f f' :
  res_rel T r r' -> (forall a a', T a a' -> prel R S w (f a) (f' a')) -> prel R S w (tbind (pure r) f) (tbind (pure r') f').
Proof. intros H Hf. destruct r, r'; try contradiction H; cbn; [now apply Hf|constructor|constructor]. Qed.

Lemma op_rel n w tys rs rs' o b : wle base w -> args_rel R w tys rs rs' -> op_allowed A O ts t tys o b ->
  prel R (fun w => val_rel R w b) w (op_proc grow n rs o) (op_proc grow n rs' o).
Proof.
  intros Hw Hrs Ho. destruct o; cbn [op_proc op_allowed] in *.
  - destruct Ho as (ps & Hf & Hps). eapply pure_rel; [eapply arg_vals_rel; eassumption|]. intros vs vs' Hvs.
    eapply run_related; [exact HR|apply check_source|apply exported_sig; exact Hf|exact Hvs].
  - destruct Ho as [Ha ->]. eapply pure_rel; [eapply arg_rel; eassumption|]. intros v v' Hv. cbv beta in Hv.
    destruct v, v'; try contradiction Hv; try (constructor; fail). destruct Hv as (-> & -> & -> & Hv).
    constructor; [|constructor; exact I]. destruct Hv as [Hv|(-> & Hv & [Hv'|[-> ->]])]; [auto|discriminate|right; auto].
  - destruct Ho as [Ha ->]. eapply pure_rel; [eapply arg_rel; eassumption|]. intros v v' Hv. cbv beta in Hv.
    destruct v, v'; try contradiction Hv; try (constructor; fail). destruct Hv as (-> & -> & -> & Hv).
    constructor; [|intros r _; constructor; reflexivity]. destruct Hv as [Hv|(-> & Hv & _)]; auto.
  - eapply pure_rel; [eapply arg_rel; eassumption|]. intros v v' Hv. cbv beta in Hv. now apply slice_rel.
Qed.
Lemma args_rel_app w tys rs rs' b v v' : args_rel R w tys rs rs' -> val_rel R w b v v' -> args_rel R w (tys ++ [b]) (rs ++ [v]) (rs' ++ [v']).
Proof.
  revert rs rs'. induction tys as [|c tys IH]; intros [|u rs] [|u' rs'] H Hv; try contradiction H; cbn; auto. destruct H. split; auto.
Qed.
Lemma args_rel_mono w w' : wle w w' -> forall tys rs rs', args_rel R w tys rs rs' -> args_rel R w' tys rs rs'.
Proof.
  intros Hw. induction tys as [|c tys IH]; intros [|u rs] [|u' rs'] H; try contradiction H; [exact I|]. destruct H. split; [|auto].
  eapply val_rel_mono; [exact Hw| |eassumption]. auto.
Qed.
Lemma args_rel_tuple w : forall tys rs rs', args_rel R w tys rs rs' -> vals_rel R w false rs rs'.
Proof.
  induction tys as [|c tys IH]; intros [|u rs] [|u' rs'] H; try contradiction H; [exact I|]. destruct H. split; [|apply IH; assumption].
  eapply val_rel_mono; [apply wle_refl| |eassumption]. discriminate.
Qed.
Lemma goroutine_rel n ops : forall tys w rs rs', wle base w -> args_rel R w tys rs rs' -> ops_allowed A O ts t tys ops ->
  prel R (Q R) w (goroutine grow n ops rs) (goroutine grow n ops rs').
Proof.
  induction ops as [|o ops IH]; intros tys w rs rs' Hw Hrs Ho; cbn [goroutine].
  - constructor. unfold Q. rewrite val_rel_tuple. eapply args_rel_tuple; eassumption.
  - inversion Ho; subst. eapply prel_bind; [eapply op_rel; eassumption|]. intros w' v v' Hw' Hv. cbv beta in Hv.
    eapply IH; [eapply wle_trans; eassumption|apply args_rel_app; [eapply args_rel_mono; eassumption|exact Hv]|assumption].
Qed.
End Run.

(** ** From related values to corresponding ones *)
Definition ro_list {E} (A : list (list Z)) (ts : list (thread E)) : list nat :=
  filter (fun l => negb (existsb (Nat.eqb l) (flat_map t_arrs ts))) (seq 0 (length A)).
Lemma in_ro {E} A (ts : list (thread E)) l : In l (ro_list A ts) <-> read_only A ts l.
Proof.
  unfold ro_list, read_only. rewrite filter_In, in_seq, negb_true_iff. split.
  - intros [H1 H2]. split; [lia|]. intros H. assert (existsb (Nat.eqb l) (flat_map t_arrs ts) = true); [|congruence].
    apply existsb_exists. exists l. split; [exact H|apply Nat.eqb_refl].
  - intros [H1 H2]. split; [lia|]. destruct (existsb _ _) eqn:He; [|reflexivity]. apply existsb_exists in He. destruct He as (m & Hm & Hlm).
    apply Nat.eqb_eq in Hlm. subst. contradiction.
Qed.

Section Final.
Context {E : Type}.
Variable St : nat -> Prop.
Variable A : list (list Z).
Variable ts : list (thread E).
Notation R := (read_only A ts).
Definition ca (w : world) : list (nat * nat) := wa w ++ diag (ro_list A ts).
Lemma corr w b v : forall v', val_rel R w b v v' -> corresponds (ca w) (wo w) v v'.
Proof.
  pattern v. apply val_all; clear v.
  - intros vs H v' Hv. destruct v'; try contradiction Hv. rewrite val_rel_tuple in Hv. cbn [corresponds]. revert vs0 Hv.
    induction H as [|v vs Hv _ IH]; intros [|v' vs'] H'; try contradiction H'; [exact I|]. destruct H'. split; [auto|apply IH; assumption].
  - intros v Hn v' Hv. destruct v, v'; try contradiction Hv; cbn [val_rel corresponds] in *; try (congruence); try exact Hv.
    + destruct Hv as (-> & -> & -> & Hv). repeat split. unfold ca. apply in_app_iff. destruct Hv as [Hv|(-> & Hv & _)]; [auto|].
      right. apply in_diag. split; [reflexivity|]. now apply in_ro.
    + now destruct (Hn vs).
Qed.
Lemma same_rel w v s M O (keepA keepO : nat -> Prop) v' : srel E R St w s M O -> val_rel R w false v v' ->
  (forall l, keepA l -> In (l, l) (wa w) \/ R l) -> (forall l, keepO l -> In (l, l) (wo w)) ->
  looks_same keepA keepO (arrs E s) (objs E s) v M O v'.
Proof.
  intros Hs Hv HA HO. exists (ca w), (wo w). split; [|split; [apply Hs|split; [|split; [assumption|split; [|split]]]]].
  - intros x y x' y' H H'. unfold ca in H, H'. rewrite in_app_iff, in_diag, in_ro in H, H'.
    destruct H as [H|[<- H]], H' as [H'|[<- H']]; try tauto.
    + exact (sr_ia _ _ _ _ _ _ _ Hs _ _ _ _ H H').
    + destruct (sr_sep _ _ _ _ _ _ _ Hs _ _ H). split; intros ->; contradiction.
    + destruct (sr_sep _ _ _ _ _ _ _ Hs _ _ H'). split; intros ->; contradiction.
  - intros l Hl. apply in_app_iff. rewrite in_diag, in_ro. destruct (HA l Hl); auto.
  - intros l l' H. unfold ca in H. rewrite in_app_iff, in_diag, in_ro in H. destruct H as [H|[<- H]].
    + exact (sr_arr _ _ _ _ _ _ _ Hs _ _ H).
    + exact (sr_ro _ _ _ _ _ _ _ Hs _ H).
  - intros l l' H. destruct (sr_obj _ _ _ _ _ _ _ Hs _ _ H) as ([T fs] & [T' fs'] & Ho & Ho' & HT & Hfs). cbn [fst snd] in *. subst T'.
    exists T, fs, fs'. split; [assumption|split; [assumption|]]. unfold same_fields. clear -Hfs. revert fs' Hfs.
    induction fs as [|x fs IH]; intros [|x' fs'] H; try contradiction H; constructor; destruct H as [[H1 H2] H3]; [|auto].
    split; [assumption|]. eapply corr; eassumption.
  - eapply corr; eassumption.
Qed.
End Final.

(** ** The theorem *)
Lemma nodup_app_disj {X} (a b : list X) : NoDup (a ++ b) -> forall x, In x a -> In x b -> False.
Proof.
  induction a as [|y a IH]; cbn; intros H x Hx Hb; [contradiction|]. inversion H; subst. destruct Hx as [->|Hx]; [|eauto].
  match goal with H : ~ In _ _ |- _ => apply H end. apply in_app_iff. auto.
Qed.
Lemma nodup_app_r {X} (a b : list X) : NoDup (a ++ b) -> NoDup b.
Proof. induction a; cbn; intros H; [assumption|]. inversion H; auto. Qed.
Lemma nodup_flat {X Y} (f : X -> list Y) (l : list X) : NoDup (flat_map f l) ->
  forall i j a b x, i <> j -> nth_error l i = Some a -> nth_error l j = Some b -> In x (f a) -> In x (f b) -> False.
Proof.
  induction l as [|c l IH]; intros Hn [|i] [|j] a b x Hij Ha Hb Hxa Hxb; try discriminate; try congruence; cbn in *.
  - injection Ha as ->. eapply nodup_app_disj; [exact Hn|exact Hxa|]. apply in_flat_map. exists b. split; [eapply nth_error_In; eassumption|assumption].
  - injection Hb as ->. eapply nodup_app_disj; [exact Hn|exact Hxb|]. apply in_flat_map. exists a. split; [eapply nth_error_In; eassumption|assumption].
  - eapply (IH (nodup_app_r _ _ Hn) i j a b x); auto.
Qed.

Section Main.
Variable E : Type.
Variable rd : nat -> E -> Z -> Z * list Z * option error * E.
Variable wr : nat -> E -> list Z -> Z * option error * E.
Variable grow : Z -> Z -> Z.
Variable n : nat.
Variable A : list (list Z).
Variable O : list (string * list (string * val)).
Variable ts : list (thread E).
Variable outs : list (val * state E).
Hypothesis Hsep : separate A O ts.
Hypothesis Hout : Forall2 (fun t out => alone grow E rd wr n (t_ops t) [] (mkState E A O (t_ext t)) = Ok out) ts outs.
Notation R := (read_only A ts).
Notation St := (fieldless O).

Lemma HR l : (l <= K)%nat -> R l.
Proof.
  intros Hl. destruct Hsep as ((rest & HA) & _ & _ & Ht). split.
  - rewrite HA, app_length. cbn [length]. rewrite map_length. lia.
  - intros Hin. apply in_flat_map in Hin. destruct Hin as (t & Hit & Hlt). destruct (Ht t Hit) as (Hb & _). specialize (Hb l Hlt). lia.
Qed.
Lemma base_srel t : In t ts -> srel E R St (base O t) (mkState E A O (t_ext t)) A O.
Proof.
  intros Hin. destruct Hsep as (_ & _ & _ & Ht). destruct (Ht t Hin) as (Ha & Ho & _). constructor; cbn [base wa wo arrs objs].
  - intros l l' H. apply in_diag in H. destruct H as [<- H]. specialize (Ha l H). repeat split; lia.
  - intros l [H _]. auto.
  - intros l l' H. apply in_diag in H. destruct H as [<- H].
    assert (exists T fs, nth_error O l = Some (T, fs) /\ Forall (fun x => usable A O ts t true (snd x)) fs) as (T & fs & Hn & Hfs).
    { apply in_app_iff in H. destruct H as [H|H]; [exact (Ho l H)|]. apply in_fieldless in H. destruct H as [T H]. exists T, []. auto. }
    exists (T, fs), (T, fs). split; [assumption|split; [assumption|]]. split; [reflexivity|]. cbn [snd]. clear Hn. induction Hfs as [|x fs' Hx _ IH]; [exact I|].
    split; [|exact IH]. split; [reflexivity|]. eapply usable_rel; [apply wle_refl|exact Hx].
  - intros x y x' y' H H'. apply in_diag in H, H'. destruct H as [<- _], H' as [<- _]. tauto.
  - intros x y x' y' H H'. apply in_diag in H, H'. destruct H as [<- _], H' as [<- _]. tauto.
  - intros l l' H. apply in_diag in H. destruct H as [<- H]. assert (~ R l); [|auto]. intros [_ Hr]. apply Hr. apply in_flat_map. eauto.
  - auto.
Qed.
Lemma goals_solo : exists gs, length gs = length ts /\
  forall i t out, nth_error ts i = Some t -> nth_error outs i = Some out ->
    exists m, nth_error gs i = Some (mkGhost E (base O t) (goroutine grow n (t_ops t) []) (mkState E A O (t_ext t)) m) /\
      solo E rd wr m (goroutine grow n (t_ops t) []) (mkState E A O (t_ext t)) (fst out) (snd out).
Proof.
  pose proof Hout as H0. clear Hsep Hout. induction H0 as [|t [v s] ts' outs' Ht _ IH].
  - exists []. split; [reflexivity|]. intros [|i]; discriminate.
  - rewrite <- finish_goroutine in Ht. apply finish_solo in Ht. destruct Ht as [m Hm]. destruct IH as (gs & Hl & Hgs).
    exists (mkGhost E (base O t) (goroutine grow n (t_ops t) []) (mkState E A O (t_ext t)) m :: gs). split; [cbn; lia|].
    intros [|i] t' out; cbn [nth_error]; [|apply Hgs]. intros [= <-] [= <-]. eauto.
Qed.
Lemma start_inv : exists gs, inv E rd wr R St outs (map (base O) ts) (start grow n A O ts) gs.
Proof.
  assert (Hlen : length ts = length outs) by (pose proof Hout as H0; clear -H0; induction H0; cbn; congruence).
  destruct goals_solo as (gs & Hl & Hgs). exists gs. constructor; cbn [start p_procs p_arrs p_objs]; rewrite ?map_length; auto.
  - intros i p' x v t' g Hi Hv Hg. rewrite nth_error_map in Hi. destruct (nth_error ts i) as [t|] eqn:Ht; [|discriminate]. injection Hi as <- <-.
    destruct (Hgs _ _ _ Ht Hv) as (m & Hm & Hsolo). rewrite Hm in Hg. injection Hg as <-. unfold good. cbn [g_w g_p g_s g_n].
    assert (Hin : In t ts) by (eapply nth_error_In; eassumption).
    split; [|split; [now apply base_srel|split; [reflexivity|exact Hsolo]]].
    destruct Hsep as (_ & _ & _ & Hall). destruct (Hall t Hin) as (_ & _ & Hops).
    eapply goroutine_rel; [exact HR|apply wle_refl| |exact Hops]. exact I.
  - intros i j g h Hij Hi Hj. destruct Hsep as (_ & Hna & Hno & _).
    destruct (nth_same_len _ ts _ _ (eq_sym Hl) Hi) as [t Ht]. destruct (nth_same_len _ outs _ _ (eq_sym Hlen) Ht) as [o Ho].
    destruct (nth_same_len _ ts _ _ (eq_sym Hl) Hj) as [u Hu]. destruct (nth_same_len _ outs _ _ (eq_sym Hlen) Hu) as [o' Ho'].
    destruct (Hgs _ _ _ Ht Ho) as (m & Hm & _). destruct (Hgs _ _ _ Hu Ho') as (m' & Hm' & _).
    rewrite Hm in Hi. injection Hi as <-. rewrite Hm' in Hj. injection Hj as <-. cbn [g_w base]. split; cbn [wa wo]; intros l k x H1 H2;
      apply in_diag in H1, H2; destruct H1 as [<- H1], H2 as [-> H2].
    + exact (nodup_flat _ _ Hna _ _ _ _ _ Hij Ht Hu H1 H2).
    + apply in_app_iff in H1, H2. rewrite in_fieldless in H1, H2. destruct H1 as [H1|H1]; [|assumption]. destruct H2 as [H2|H2]; [|assumption].
      destruct (nodup_flat _ _ Hno _ _ _ _ _ Hij Ht Hu H1 H2).
  - intros i g b Hi Hb. rewrite nth_error_map in Hb. destruct (nth_error ts i) as [t|] eqn:Ht; [|discriminate]. injection Hb as <-.
    destruct (nth_same_len _ outs _ _ (eq_sym Hlen) Ht) as [o Ho]. destruct (Hgs _ _ _ Ht Ho) as (m & Hm & _). rewrite Hm in Hi. injection Hi as <-. apply wle_refl.
Qed.

Theorem goroutines_independent : exists N, forall k c, pool_steps E rd wr k (start grow n A O ts) c ->
  (k <= N)%nat /\ (finished c \/ exists c', pool_step E rd wr c c') /\ ~ race c /\
  (length A <= length (p_arrs E c))%nat /\ (forall l, read_only A ts l -> array (p_arrs E c) l = array A l) /\
  (finished c -> forall i t v s, nth_error ts i = Some t -> nth_error outs i = Some (v, s) ->
     exists v', nth_error (p_procs E c) i = Some (Done (Ok v'), ext E s) /\
       looks_same (fun l => In l (t_arrs t) \/ read_only A ts l) (fun l => In l (t_objs t) \/ fieldless O l) (arrs E s) (objs E s) v (p_arrs E c) (p_objs E c) v').
Proof.
  destruct start_inv as [gs Hi]. exists (total E gs). intros k c Hk.
  destruct (inv_steps _ _ _ _ _ _ _ _ _ _ _ Hi Hk) as (gs' & Hi' & Ht & Hll & Hr). split; [lia|]. split; [eapply inv_live; exact Hi'|].
  split; [eapply inv_race; exact Hi'|]. split; [exact Hll|]. split; [exact Hr|]. intros Hf i t v s Hti Hoi.
  destruct Hi' as [Hl Hl' Hg _ Hb]. destruct (nth_same_len outs (p_procs E c) i _ (eq_sym Hl') Hoi) as [[p x] Hp].
  destruct (nth_same_len _ gs' _ _ Hl Hp) as [g Hgi]. destruct (Hg _ _ _ _ _ _ Hp Hoi Hgi) as (Hprel & Hs & Hx & Hsolo).
  destruct (done_rel _ _ _ _ _ _ _ _ _ _ _ _ Hprel Hsolo (Hf _ _ (nth_error_In _ _ Hp))) as (v' & _ & -> & Hv & Hst).
  exists v'. rewrite <- Hst, Hx. split; [exact Hp|].
  assert (Hw : wle (base O t) (g_w E g)) by (apply (Hb i g); [exact Hgi|rewrite nth_error_map, Hti; reflexivity]). destruct Hw as [Hw1 Hw2].
  eapply same_rel; [exact Hs|exact Hv| |]; intros l Hlin; [destruct Hlin as [Hlin|Hlin]; [left; apply Hw1; apply in_diag; auto|right; exact Hlin]|apply Hw2].
  apply in_diag. split; [reflexivity|]. apply in_app_iff. rewrite in_fieldless. exact Hlin.
Qed.
End Main.
