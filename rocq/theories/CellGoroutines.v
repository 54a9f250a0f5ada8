(** Whole goroutines that use parts of arrays: proofs for PropCells.v.  Like the first half of
    GoroutineFacts.v. *)
From Coq Require Import String ZArith List Bool Lia.
From Verif Require Import Base Cp949Model GoLang GoHeap GoSource GoThreads SourceSpec ThreadFacts Facts SpecThreads PoolFacts GoroutineFacts
  SpecCells CellFacts CellPool.
Import ListNotations.
Local Open Scope Z_scope.
Local Open Scope list_scope.
Local Open Scope go_scope.

Lemma check_source p : check K (source p) = true.
Proof. destruct p; vm_compute; reflexivity. Qed.
Definition use_eqb (a b : use) : bool := match a, b with Own, Own | Dst, Dst | Src, Src => true | _, _ => false end.
Lemma use_eqb_eq a b : use_eqb a b = true -> a = b.
Proof. destruct a, b; cbn; congruence. Qed.
Definition use_dec (a b : use) : {a = b} + {a <> b}.
Proof. decide equality. Defined.
Lemma exported_sig p f x : get f (exported_use p) = Some x -> get f (map sig_of (source p)) = Some x.
Proof.
  intros H.
  assert (Hall : forallb (fun y => match get (fst y) (map sig_of (source p)) with
      Some z => if list_eq_dec use_dec (fst z) (fst (snd y)) then use_eqb (snd z) (snd (snd y)) else false | None => false end) (exported_use p) = true)
    by (clear; destruct p; vm_compute; reflexivity).
  rewrite forallb_forall in Hall.
  assert (Hin : In (f, x) (exported_use p)).
  { clear Hall. revert H. generalize (exported_use p). intros l. induction l as [|[g y] l IH]; [discriminate|]. cbn [get].
    destruct (String.eqb_spec g f) as [->|]; [intros [= ->]; left; reflexivity|right; auto]. }
  specialize (Hall _ Hin). cbn [fst snd] in Hall. destruct (get f (map sig_of (source p))) as [z|]; [|discriminate].
  destruct (list_eq_dec use_dec (fst z) (fst x)) as [Hz|]; [|discriminate]. apply use_eqb_eq in Hall. destruct z, x. cbn in *. congruence.
Qed.

Section Run.
Variable grow : Z -> Z -> Z.
Context {E : Type}.
Variable A : list (list Z).
Variable O : list (string * list (string * val)).
Variable ts : list (worker E).
Variable t : worker E.
Notation nb := (length A).
Notation W := (owned ts).
Hypothesis HR : forall l, (l <= K)%nat -> (l < nb)%nat /\ forall i, ~ W l i.
Notation val_rel := (val_rel nb W).
Notation vals_rel := (vals_rel nb W).
Notation args_rel := (args_rel nb W).

Definition diag_part (x : nat * (Z * Z)) : part := (fst x, fst x, snd x).
Lemma in_parts l x y p : In (x, y, p) (map diag_part l) <-> x = y /\ In (x, p) l.
Proof. rewrite in_map_iff. split; [intros ([z q] & [= <- <- <-] & H); auto|intros [<- H]; exists (x, p); auto]. Qed.
Definition base : world := mkWorld (map diag_part (k_parts t)) (diag (k_objs t ++ fieldless_list O)).

Lemma usable_rel w own v : wle base w -> may_use A O ts t own v -> val_rel w own v v.
Proof.
  intros [Ha Ho]. pattern v. apply val_all; clear v.
  - intros vs H Hu. rewrite val_rel_tuple. cbn [may_use] in Hu. induction H as [|v vs Hv _ IH]; [exact I|]. destruct Hu as [H1 H2]. split; [auto|apply IH; exact H2].
  - intros v Hn Hu. destruct v; cbn [may_use CellFacts.val_rel] in *; auto.
    + do 3 (split; [reflexivity|]). destruct Hu as (Hl & H1 & H2 & Hu). split; [exact H1|]. split; [exact H2|].
      destruct Hu as [(lo & hi & Hu & Hlo & Hhi)|[Hu|[-> Hu]]].
      * left. exists lo, hi. split; [apply Ha, in_parts; auto|lia].
      * right. rewrite Hu. split; [reflexivity|]. split; [|now right]. split; [exact Hl|]. intros i Hi. lia.
      * right. split; [reflexivity|]. split; [|now left]. split; [exact Hl|exact Hu].
    + apply Ho, in_diag. split; [reflexivity|]. apply in_app_iff. rewrite in_fieldless. exact Hu.
    + now destruct (Hn vs).
Qed.

Lemma args_nth w k : forall tys rs rs', args_rel w tys rs rs' ->
  match nth_error tys k, nth_error rs k, nth_error rs' k with
  | Some b, Some v, Some v' => val_rel w b v v' | None, None, None => True | _, _, _ => False end.
Proof.
  induction k as [|k IH]; intros [|b tys] [|v rs] [|v' rs'] H; try contradiction H; try exact I.
  - apply H.
  - destruct H. cbn [nth_error]. now apply IH.
Qed.
Lemma component_rel w b v v' j : val_rel w b v v' ->
  match component v j, component v' j with Some u, Some u' => val_rel w b u u' | None, None => True | _, _ => False end.
Proof.
  intros H. destruct v, v'; try contradiction H; try (destruct j; [exact H|exact I]).
  rewrite val_rel_tuple in H. cbn [component]. revert vs vs0 H. induction j as [|j IH]; intros [|u us] [|u' us'] H; try contradiction H; try exact I; [apply H|].
  destruct H. cbn [nth_error]. now apply IH.
Qed.
Lemma arg_rel w tys rs rs' own a : wle base w -> args_rel w tys rs rs' -> arg_usable A O ts t tys own a ->
  res_rel (val_rel w own) (arg_val rs a) (arg_val rs' a).
Proof.
  intros Hw Hrs Hu. destruct a as [v|k j]; cbn [arg_usable arg_val] in *; [now apply usable_rel|].
  destruct Hu as (b & Hb & Hob). pose proof (args_nth w k _ _ _ Hrs) as H. rewrite Hb in H.
  destruct (nth_error rs k) as [v|], (nth_error rs' k) as [v'|]; try contradiction H. cbn [the bind].
  pose proof (component_rel _ _ _ _ j H) as H'. destruct (component v j), (component v' j); try contradiction H'; [|exact I].
  cbn. eapply val_rel_mono; [apply wle_refl| |exact H']. destruct b, own; cbn in *; tauto.
Qed.
Lemma arg_vals_rel w tys rs rs' ps l : wle base w -> args_rel w tys rs rs' -> Forall2 (arg_usable A O ts t tys) ps l ->
  res_rel (args_rel w ps) (arg_vals rs l) (arg_vals rs' l).
Proof.
  intros Hw Hrs H. induction H as [|own a ps l Ha _ IH]; [exact I|]. cbn [arg_vals].
  pose proof (arg_rel _ _ _ _ _ _ Hw Hrs Ha) as H. destruct (arg_val rs a), (arg_val rs' a); try contradiction H; try exact I. cbn [bind].
  destruct (arg_vals rs l), (arg_vals rs' l); try contradiction IH; try exact I. split; assumption.
Qed.
Lemma pure_rel {B C} (S : world -> C -> C -> Prop) (T : B -> B -> Prop) w r r' f f' :
  res_rel T r r' -> (forall a a', T a a' -> prel nb W S w (f a) (f' a')) -> prel nb W S w (tbind (pure r) f) (tbind (pure r') f').
Proof. intros H Hf. destruct r, r'; try contradiction H; cbn; [now apply Hf|constructor|constructor]. Qed.

Lemma op_rel n w tys rs rs' o b : wle base w -> args_rel w tys rs rs' -> op_usable A O ts t tys o b ->
  prel nb W (fun w => val_rel w b) w (op_proc grow n rs o) (op_proc grow n rs' o).
Proof.
  intros Hw Hrs Ho. destruct o; cbn [op_proc op_usable] in *.
  - destruct Ho as (ps & Hf & Hps). eapply pure_rel; [eapply arg_vals_rel; eassumption|]. intros vs vs' Hvs.
    eapply run_related; [exact HR|apply check_source|apply exported_sig; exact Hf|exact Hvs].
  - destruct Ho as [Ha ->]. eapply pure_rel; [eapply arg_rel; eassumption|]. intros v v' Hv. cbv beta in Hv.
    destruct v, v'; try contradiction Hv; try (constructor; fail). destruct Hv as (-> & -> & -> & Hv).
    pose proof Hv as (_ & Hn & _). pose proof (zlen_ztake_le len0 bs). eapply save_rel; [exact Hv|reflexivity|lia|cbn [extent]; lia|constructor; exact I].
  - destruct Ho as [Ha ->]. eapply pure_rel; [eapply arg_rel; eassumption|]. intros v v' Hv. cbv beta in Hv.
    destruct v, v'; try contradiction Hv; try (constructor; fail). destruct Hv as (-> & -> & -> & Hv).
    pose proof Hv as (_ & Hn & _). eapply load_rel; [exact Hv|lia|lia|lia|]. intros r _. constructor. reflexivity.
  - destruct Ho as [Ha ->]. eapply pure_rel; [eapply arg_rel; eassumption|]. intros v v' Hv. cbv beta in Hv. apply cut_rel; [exact Hv|now right].
Qed.
Lemma args_rel_app w tys rs rs' b v v' : args_rel w tys rs rs' -> val_rel w b v v' -> args_rel w (tys ++ [b]) (rs ++ [v]) (rs' ++ [v']).
Proof.
  revert rs rs'. induction tys as [|c tys IH]; intros [|u rs] [|u' rs'] H Hv; try contradiction H; cbn; auto. destruct H. split; auto.
Qed.
Lemma args_rel_mono w w' : wle w w' -> forall tys rs rs', args_rel w tys rs rs' -> args_rel w' tys rs rs'.
Proof.
  intros Hw. induction tys as [|c tys IH]; intros [|u rs] [|u' rs'] H; try contradiction H; [exact I|]. destruct H. split; [|auto].
  eapply val_rel_mono; [exact Hw| |eassumption]. apply sub_refl.
Qed.
Lemma args_rel_tuple w : forall tys rs rs', args_rel w tys rs rs' -> vals_rel w Src rs rs'.
Proof.
  induction tys as [|c tys IH]; intros [|u rs] [|u' rs'] H; try contradiction H; [exact I|]. destruct H. split; [|apply IH; assumption].
  eapply val_rel_mono; [apply wle_refl| |eassumption]. now destruct c.
Qed.
Lemma goroutine_rel n ops : forall tys w rs rs', wle base w -> args_rel w tys rs rs' -> ops_usable A O ts t tys ops ->
  prel nb W (Q nb W) w (goroutine grow n ops rs) (goroutine grow n ops rs').
Proof.
  induction ops as [|o ops IH]; intros tys w rs rs' Hw Hrs Ho; cbn [goroutine].
  - constructor. unfold Q. rewrite val_rel_tuple. eapply args_rel_tuple; eassumption.
  - inversion Ho; subst. eapply prel_bind; [eapply op_rel; eassumption|]. intros w' v v' Hw' Hv. cbv beta in Hv.
    eapply IH; [eapply wle_trans; eassumption|apply args_rel_app; [eapply args_rel_mono; eassumption|exact Hv]|assumption].
Qed.
End Run.

(** ** From related values to corresponding ones *)
Section Final.
Context {E : Type}.
Variable St : nat -> Prop.
Variable A : list (list Z).
Variable ts : list (worker E).
Notation nb := (length A).
Notation W := (owned ts).
Definition ca (w : world) : list (nat * nat) := map fst (wa w) ++ diag (seq 0 nb).
Lemma in_ca w l l' : In (l, l') (ca w) <-> (exists lo hi, In (l, l', (lo, hi)) (wa w)) \/ (l = l' /\ (l < nb)%nat).
Proof.
  unfold ca. rewrite in_app_iff, in_diag, in_seq. split.
  - intros [H|[<- H]]; [left; now apply pair_in|right; split; [reflexivity|lia]].
  - intros [(lo & hi & H)|[<- H]]; [left; eapply in_pair; exact H|right; split; [reflexivity|lia]].
Qed.
Lemma corr w b v : forall v', val_rel nb W w b v v' -> corresponds (ca w) (wo w) v v'.
Proof.
  pattern v. apply val_all; clear v.
  - intros vs H v' Hv. destruct v'; try contradiction Hv. rewrite val_rel_tuple in Hv. cbn [corresponds]. revert vs0 Hv.
    induction H as [|v vs Hv _ IH]; intros [|v' vs'] H'; try contradiction H'; [exact I|]. destruct H'. split; [auto|apply IH; assumption].
  - intros v Hn v' Hv. destruct v, v'; try contradiction Hv; cbn [val_rel corresponds] in *; try (congruence); try exact Hv.
    + destruct Hv as (-> & -> & -> & _ & _ & Hv). split; [|auto]. apply in_ca. destruct Hv as [(lo & hi & Hv & _)|(-> & [Hv _] & _)]; eauto.
    + now destruct (Hn vs).
Qed.
Lemma same_rel w v s M O (keep : nat -> Z -> Prop) (keepO : nat -> Prop) v' : srel E nb W St w s M O -> val_rel nb W w Src v v' ->
  (forall l i, keep l i -> (exists lo hi, In (l, l, (lo, hi)) (wa w) /\ lo <= i < hi) \/ ~ W l i) -> (forall l, keepO l -> In (l, l) (wo w)) ->
  looks_same_in nb keep keepO (arrs E s) (objs E s) v M O v'.
Proof.
  intros Hs Hv HA HO. exists (ca w), (wo w). split; [|split; [apply Hs|split; [|split; [assumption|split; [|split]]]]].
  - intros x y x' y' H H'. rewrite in_ca in H, H'.
    destruct H as [(lo & hi & H)|[<- H]], H' as [(lo' & hi' & H')|[<- H']]; try tauto.
    + exact (sr_ia _ _ _ _ _ _ _ _ Hs _ _ _ _ (in_pair _ _ _ _ H) (in_pair _ _ _ _ H')).
    + destruct (sr_sep _ _ _ _ _ _ _ _ Hs _ _ _ _ H) as [(-> & _)|(H1 & H2 & _)]; [tauto|]. split; lia.
    + destruct (sr_sep _ _ _ _ _ _ _ _ Hs _ _ _ _ H') as [(-> & _)|(H1 & H2 & _)]; [tauto|]. split; lia.
  - intros l Hl. apply in_ca. right. auto.
  - intros l l' H. apply in_ca in H. unfold array. destruct H as [(lo & hi & H)|[<- H]].
    + destruct (sr_arr _ _ _ _ _ _ _ _ Hs _ _ _ _ H) as (H1 & H2 & H3 & H4 & H5 & H6). split; [exact H1|]. split; [exact H2|]. split; [exact H5|].
      intros i Hk. destruct (sr_sep _ _ _ _ _ _ _ _ Hs _ _ _ _ H) as [(-> & Hb & _)|(_ & _ & -> & ->)].
      * destruct (HA l' i (Hk Hb)) as [(lo' & hi' & H' & Hi)|Hw].
        -- destruct (sr_arr _ _ _ _ _ _ _ _ Hs _ _ _ _ H') as (_ & _ & _ & _ & _ & H7). now apply H7.
        -- destruct (sr_ro _ _ _ _ _ _ _ _ Hs _ Hb) as (_ & _ & _ & H7). now apply H7.
      * destruct (Z_lt_dec i 0); [rewrite !zget_out by lia; reflexivity|]. destruct (Z_lt_dec i (zlen (nth l (arrs E s) []))); [apply H6; lia|rewrite !zget_out by lia; reflexivity].
    + destruct (sr_ro _ _ _ _ _ _ _ _ Hs _ H) as (H1 & H2 & H5 & H6). split; [exact H1|]. split; [exact H2|]. split; [exact H5|].
      intros i Hk. destruct (HA l i (Hk H)) as [(lo' & hi' & H' & Hi)|Hw]; [|now apply H6].
      destruct (sr_arr _ _ _ _ _ _ _ _ Hs _ _ _ _ H') as (_ & _ & _ & _ & _ & H7). now apply H7.
  - intros l l' H. destruct (sr_obj _ _ _ _ _ _ _ _ Hs _ _ H) as ([T fs] & [T' fs'] & Ho & Ho' & HT & Hfs). cbn [fst snd] in *. subst T'.
    exists T, fs, fs'. split; [assumption|split; [assumption|]]. unfold same_fields. clear -Hfs. revert fs' Hfs.
    induction fs as [|x fs IH]; intros [|x' fs'] H; try contradiction H; constructor; destruct H as [[H1 H2] H3]; [|auto].
    split; [assumption|]. eapply corr; eassumption.
  - eapply corr; eassumption.
Qed.
End Final.

(** ** The theorem *)
Section Main.
Variable E : Type.
Variable rd : nat -> E -> Z -> Z * list Z * option error * E.
Variable wr : nat -> E -> list Z -> Z * option error * E.
Variable grow : Z -> Z -> Z.
Variable n : nat.
Variable A : list (list Z).
Variable O : list (string * list (string * val)).
Variable ts : list (worker E).
Variable outs : list (val * state E).
Hypothesis Hsep : separate_parts A O ts.
Hypothesis Hout : Forall2 (fun t out => alone grow E rd wr n (k_ops t) [] (mkState E A O (k_ext t)) = Ok out) ts outs.
Notation nb := (length A).
Notation W := (owned ts).
Notation St := (fieldless O).

Lemma HR l : (l <= K)%nat -> (l < nb)%nat /\ forall i, ~ W l i.
Proof.
  intros Hl. destruct Hsep as ((rest & HA) & _ & _ & Ht). split.
  - rewrite HA, app_length. cbn [length]. rewrite map_length. lia.
  - intros i (t & Hit & lo & hi & Hlt & _). destruct (Ht t Hit) as (Hb & _). specialize (Hb l lo hi Hlt). lia.
Qed.
Lemma base_srel t : In t ts -> srel E nb W St (base O t) (mkState E A O (k_ext t)) A O.
Proof.
  intros Hin. destruct Hsep as (_ & _ & _ & Ht). destruct (Ht t Hin) as (Ha & Ho & _). constructor; cbn [base wa wo arrs objs].
  - intros l l' lo hi H. apply in_parts in H. destruct H as [<- H]. destruct (Ha l lo hi H) as (H1 & H2 & H3). unfold array in H3. split; [lia|]. split; [lia|].
    split; [lia|]. split; [lia|]. split; reflexivity.
  - intros l H. split; [exact H|]. split; [exact H|]. split; reflexivity.
  - intros l l' H. apply in_diag in H. destruct H as [<- H].
    assert (exists T fs, nth_error O l = Some (T, fs) /\ Forall (fun x => may_use A O ts t Own (snd x)) fs) as (T & fs & Hn & Hfs).
    { apply in_app_iff in H. destruct H as [H|H]; [exact (Ho l H)|]. apply in_fieldless in H. destruct H as [T H]. exists T, []. auto. }
    exists (T, fs), (T, fs). split; [assumption|split; [assumption|]]. split; [reflexivity|]. cbn [snd]. clear Hn. induction Hfs as [|x fs' Hx _ IH]; [exact I|].
    split; [|exact IH]. split; [reflexivity|]. eapply usable_rel; [apply wle_refl|exact Hx].
  - intros x y x' y' H H'. apply (pair_in (base O t)) in H, H'. cbn [base wa] in H, H'. destruct H as (? & ? & H), H' as (? & ? & H'). apply in_parts in H, H'. destruct H as [<- _], H' as [<- _]. tauto.
  - intros x y x' y' H H'. apply in_diag in H, H'. destruct H as [<- _], H' as [<- _]. tauto.
  - intros l l' lo hi H. apply in_parts in H. destruct H as [<- H]. left. destruct (Ha l lo hi H) as (H1 & _). split; [reflexivity|]. split; [lia|].
    intros i Hi. exists t. split; [exact Hin|]. exists lo, hi. auto.
  - auto.
Qed.
Definition goals : list (res val * state E) := map (fun o => (Ok (fst o), snd o)) outs.
Lemma goals_nth i v s : nth_error goals i = Some (v, s) -> exists o, nth_error outs i = Some o /\ v = Ok (fst o) /\ s = snd o.
Proof. unfold goals. rewrite nth_error_map. destruct (nth_error outs i) as [o|]; [|discriminate]. intros [= <- <-]. eauto. Qed.
Lemma goals_solo : exists gs, length gs = length ts /\
  forall i t out, nth_error ts i = Some t -> nth_error outs i = Some out ->
    exists m, nth_error gs i = Some (mkGhost E (base O t) (goroutine grow n (k_ops t) []) (mkState E A O (k_ext t)) m) /\
      solo E rd wr m (goroutine grow n (k_ops t) []) (mkState E A O (k_ext t)) (Ok (fst out)) (snd out).
Proof.
  pose proof Hout as H0. clear Hsep Hout. induction H0 as [|t [v s] ts' outs' Ht _ IH].
  - exists []. split; [reflexivity|]. intros [|i]; discriminate.
  - rewrite <- finish_goroutine in Ht. apply finish_ok in Ht. destruct Ht as [m Hm]. destruct IH as (gs & Hl & Hgs).
    exists (mkGhost E (base O t) (goroutine grow n (k_ops t) []) (mkState E A O (k_ext t)) m :: gs). split; [cbn; lia|].
    intros [|i] t' out; cbn [nth_error]; [|apply Hgs]. intros [= <-] [= <-]. eauto.
Qed.
Lemma start_inv : exists gs, inv E rd wr nb W St goals (map (base O) ts) (start_workers grow n A O ts) gs.
Proof.
  assert (Hlen : length ts = length outs) by (pose proof Hout as H0; clear -H0; induction H0; cbn; congruence).
  destruct goals_solo as (gs & Hl & Hgs). exists gs. constructor; cbn [start_workers p_procs p_arrs p_objs]; unfold goals; rewrite ?map_length; auto; fold goals.
  - intros i p' x v t' g Hi Hv Hg. rewrite nth_error_map in Hi. destruct (nth_error ts i) as [t|] eqn:Ht; [|discriminate]. injection Hi as <- <-.
    apply goals_nth in Hv. destruct Hv as (o & Hv & -> & ->). destruct (Hgs _ _ _ Ht Hv) as (m & Hm & Hsolo). rewrite Hm in Hg. injection Hg as <-. unfold good. cbn [g_w g_p g_s g_n].
    assert (Hin : In t ts) by (eapply nth_error_In; eassumption).
    split; [|split; [now apply base_srel|split; [reflexivity|exact Hsolo]]].
    destruct Hsep as (_ & _ & _ & Hall). destruct (Hall t Hin) as (_ & _ & Hops).
    eapply goroutine_rel; [exact HR|apply wle_refl| |exact Hops]. exact I.
  - intros i j g h Hij Hi Hj. destruct Hsep as (_ & Hna & Hno & _).
    destruct (nth_same_len _ ts _ _ (eq_sym Hl) Hi) as [t Ht]. destruct (nth_same_len _ outs _ _ (eq_sym Hlen) Ht) as [o Ho].
    destruct (nth_same_len _ ts _ _ (eq_sym Hl) Hj) as [u Hu]. destruct (nth_same_len _ outs _ _ (eq_sym Hlen) Hu) as [o' Ho'].
    destruct (Hgs _ _ _ Ht Ho) as (m & Hm & _). destruct (Hgs _ _ _ Hu Ho') as (m' & Hm' & _).
    rewrite Hm in Hi. injection Hi as <-. rewrite Hm' in Hj. injection Hj as <-. cbn [g_w base]. split; cbn [wa wo].
    + intros l k x lo hi lo' hi' z H1 H2 Hz Hz'. apply in_parts in H1, H2. destruct H1 as [<- H1], H2 as [-> H2].
      apply (Hna i j t u l z Hij Ht Hu); [exists lo, hi|exists lo', hi']; auto.
    + intros l k x H1 H2. apply in_diag in H1, H2; destruct H1 as [<- H1], H2 as [-> H2]. apply in_app_iff in H1, H2. rewrite in_fieldless in H1, H2. destruct H1 as [H1|H1]; [|assumption]. destruct H2 as [H2|H2]; [|assumption].
      destruct (nodup_flat _ _ Hno _ _ _ _ _ Hij Ht Hu H1 H2).
  - intros i g b Hi Hb. rewrite nth_error_map in Hb. destruct (nth_error ts i) as [t|] eqn:Ht; [|discriminate]. injection Hb as <-.
    destruct (nth_same_len _ outs _ _ (eq_sym Hlen) Ht) as [o Ho]. destruct (Hgs _ _ _ Ht Ho) as (m & Hm & _). rewrite Hm in Hi. injection Hi as <-. apply wle_refl.
Qed.

Theorem parts_independent : exists N, forall k c, pool_steps E rd wr k (start_workers grow n A O ts) c ->
  (k <= N)%nat /\ (finished c \/ exists c', pool_step E rd wr c c') /\ ~ cell_race c /\
  (length A <= length (p_arrs E c))%nat /\
  (forall l, (l < length A)%nat -> zlen (array (p_arrs E c) l) = zlen (array A l) /\
     forall z, ~ owned ts l z -> zget (array (p_arrs E c) l) z = zget (array A l) z) /\
  (finished c -> forall i t v s, nth_error ts i = Some t -> nth_error outs i = Some (v, s) ->
     exists v', nth_error (p_procs E c) i = Some (Done (Ok v'), ext E s) /\
       looks_same_in (length A) (fun l z => owns t l z \/ ~ owned ts l z) (fun l => In l (k_objs t) \/ fieldless O l)
         (arrs E s) (objs E s) v (p_arrs E c) (p_objs E c) v').
Proof.
  destruct start_inv as [gs Hi]. exists (total E gs). intros k c Hk.
  destruct (inv_steps _ _ _ _ _ _ _ _ _ _ _ _ Hi Hk) as (gs' & Hi' & Ht & [Hll Hr]). split; [lia|]. split; [eapply inv_live; exact Hi'|].
  split; [eapply inv_race; exact Hi'|]. split; [exact Hll|]. split; [exact Hr|]. intros Hf i t v s Hti Hoi.
  destruct Hi' as [Hl Hl' Hg _ Hb]. assert (Hgo : nth_error goals i = Some (Ok v, s)) by (unfold goals; rewrite nth_error_map, Hoi; reflexivity).
  destruct (nth_same_len goals (p_procs E c) i _ (eq_sym Hl') Hgo) as [[p x] Hp].
  destruct (nth_same_len _ gs' _ _ Hl Hp) as [g Hgi]. destruct (Hg _ _ _ _ _ _ Hp Hgo Hgi) as (Hprel & Hs & Hx & Hsolo).
  destruct (done_rel _ _ _ _ _ _ _ _ _ _ _ _ _ Hprel Hsolo (Hf _ _ (nth_error_In _ _ Hp))) as ([v'| |] & _ & -> & Hst & Hv); try contradiction Hv.
  exists v'. rewrite <- Hst, Hx. split; [exact Hp|].
  assert (Hw : wle (base O t) (g_w E g)) by (apply (Hb i g); [exact Hgi|rewrite nth_error_map, Hti; reflexivity]). destruct Hw as [Hw1 Hw2].
  eapply same_rel; [exact Hs|exact Hv| |].
  - intros l z [(lo & hi & Hin & Hz)|Hz]; [left|right; exact Hz]. exists lo, hi. split; [|exact Hz]. apply Hw1. apply in_parts. auto.
  - intros l Hlin. apply Hw2. apply in_diag. split; [reflexivity|]. apply in_app_iff. rewrite in_fieldless. exact Hlin.
Qed.
End Main.
