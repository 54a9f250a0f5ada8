(** Goroutines that decide by what they have seen: proofs for PropAgents.v. *)
From Coq Require Import String ZArith List Bool Lia.
From Verif Require Import Base Cp949Model GoLang GoHeap GoSource GoThreads SourceSpec ThreadFacts Facts SpecThreads PoolFacts GoroutineFacts
  SpecCells CellFacts CellPool CellGoroutines SpecAgents.
Import ListNotations.
Local Open Scope Z_scope.
Local Open Scope list_scope.
Local Open Scope go_scope.

Lemma finish_code grow E rd wr n c : forall rs s, finish E rd wr (code_proc grow n c rs) s = code_alone grow E rd wr n c rs s.
Proof.
  induction c as [|o k IH]; intros rs s; cbn [code_proc code_alone]; [reflexivity|].
  rewrite finish_bind, finish_op. destruct (op_alone _ _ _ _ _ _ _ _) as [[v s1]| |]; cbn [bind fst snd]; auto.
Qed.

(** Related values look the same. *)
Lemma rel_seen nb W w b v : forall v', val_rel nb W w b v v' -> seen v = seen v'.
Proof.
  pattern v. apply val_all; clear v.
  - intros vs H v' Hv. destruct v'; try contradiction Hv. rewrite val_rel_tuple in Hv. cbn [seen]. f_equal. revert vs0 Hv.
    induction H as [|v vs Hv _ IH]; intros [|v' vs'] H'; try contradiction H'; [reflexivity|]. destruct H'. cbn [map]. f_equal; [auto|apply IH; assumption].
  - intros v Hn v' Hv. destruct v, v'; try contradiction Hv; cbn [val_rel seen] in *; try congruence.
    destruct Hv as (-> & -> & -> & _). reflexivity.
Qed.

Section Run.
Variable grow : Z -> Z -> Z.
Context {E : Type}.
Variable A : list (list Z).
Variable O : list (string * list (string * val)).
Variable ts : list (worker E).
Variable t : worker E.
Notation nb := (length A).
Notation W := (owned ts).
Hypothesis HR : forall l, (l <= K)%nat -> (l < nb)%nat /\ forall i, ~ W l i.
Lemma code_rel n c : forall tys w rs rs', wle (base O t) w -> args_rel nb W w tys rs rs' -> code_usable A O ts t tys c ->
  prel nb W (Q nb W) w (code_proc grow n c rs) (code_proc grow n c rs').
Proof.
  induction c as [|o k IH]; intros tys w rs rs' Hw Hrs Ho; cbn [code_proc].
  - constructor. unfold Q. rewrite val_rel_tuple. eapply args_rel_tuple; eassumption.
  - inversion Ho; subst. eapply prel_bind; [eapply op_rel; eassumption|]. intros w' v v' Hw' Hv. cbv beta in Hv.
    rewrite <- (rel_seen _ _ _ _ _ _ Hv).
    eapply IH; [eapply wle_trans; eassumption|apply args_rel_app; [eapply args_rel_mono; eassumption|exact Hv]|auto].
Qed.
End Run.

(** ** The theorem *)
Section Main.
Variable E : Type.
Variable rd : nat -> E -> Z -> Z * list Z * option error * E.
Variable wr : nat -> E -> list Z -> Z * option error * E.
Variable grow : Z -> Z -> Z.
Variable n : nat.
Variable A : list (list Z).
Variable O : list (string * list (string * val)).
Variable cs : list (worker E * code).
Notation ts := (map fst cs).
Variable outs : list (res (val * state E)).
Hypothesis Hsep : separate_parts A O ts.
Hypothesis Huse : Forall (fun x => code_usable A O ts (fst x) [] (snd x)) cs.
Hypothesis Hout : Forall2 (fun x out => code_alone grow E rd wr n (snd x) [] (mkState E A O (k_ext (fst x))) = out /\ out <> Fuel) cs outs.
Notation nb := (length A).
Notation W := (owned ts).
Notation St := (fieldless O).

Lemma HR l : (l <= K)%nat -> (l < nb)%nat /\ forall i, ~ W l i.
Proof.
  intros Hl. destruct Hsep as ((rest & HA) & _ & _ & Ht). split.
  - rewrite HA, app_length. cbn [length]. rewrite map_length. lia.
  - intros i (t & Hit & lo & hi & Hlt & _). destruct (Ht t Hit) as (Hb & _). specialize (Hb l lo hi Hlt). lia.
Qed.
Lemma base_srel t : In t ts -> srel E nb W St (base O t) (mkState E A O (k_ext t)) A O.
Proof.
  intros Hin. destruct Hsep as (_ & _ & _ & Ht). destruct (Ht t Hin) as (Ha & Ho & _). constructor; cbn [base wa wo arrs objs].
  - intros l l' lo hi H. apply in_parts in H. destruct H as [<- H]. destruct (Ha l lo hi H) as (H1 & H2 & H3). unfold array in H3. split; [lia|]. split; [lia|].
    split; [lia|]. split; [lia|]. split; reflexivity.
  - intros l H. split; [exact H|]. split; [exact H|]. split; reflexivity.
  - intros l l' H. apply in_diag in H. destruct H as [<- H].
    assert (exists T fs, nth_error O l = Some (T, fs) /\ Forall (fun x => may_use A O ts t Own (snd x)) fs) as (T & fs & Hn & Hfs).
    { apply in_app_iff in H. destruct H as [H|H]; [exact (Ho l H)|]. apply in_fieldless in H. destruct H as [T H]. exists T, []. auto. }
    exists (T, fs), (T, fs). split; [assumption|split; [assumption|]]. split; [reflexivity|]. cbn [snd]. clear Hn. induction Hfs as [|x fs' Hx _ IH]; [exact I|].
    split; [|exact IH]. split; [reflexivity|]. eapply usable_rel; [apply wle_refl|exact Hx].
  - intros x y x' y' H H'. apply (pair_in (base O t)) in H, H'. cbn [base wa] in H, H'. destruct H as (? & ? & H), H' as (? & ? & H'). apply in_parts in H, H'. destruct H as [<- _], H' as [<- _]. tauto.
  - intros x y x' y' H H'. apply in_diag in H, H'. destruct H as [<- _], H' as [<- _]. tauto.
  - intros l l' lo hi H. apply in_parts in H. destruct H as [<- H]. left. destruct (Ha l lo hi H) as (H1 & _). split; [reflexivity|]. split; [lia|].
    intros i Hi. exists t. split; [exact Hin|]. exists lo, hi. auto.
  - auto.
Qed.
(* what is known of the end of an execution *)
Definition ends_as (out : res (val * state E)) (goal : res val * state E) : Prop :=
  match out with Ok (v, s) => goal = (Ok v, s) | Panic => fst goal = Panic | Fuel => False end.
Lemma goals_solo : exists gs goals, length gs = length cs /\ Forall2 ends_as outs goals /\
  forall i t goal, nth_error cs i = Some t -> nth_error goals i = Some goal ->
    exists m, nth_error gs i = Some (mkGhost E (base O (fst t)) (code_proc grow n (snd t) []) (mkState E A O (k_ext (fst t))) m) /\
      solo E rd wr m (code_proc grow n (snd t) []) (mkState E A O (k_ext (fst t))) (fst goal) (snd goal).
Proof.
  pose proof Hout as H0. clear Hsep Hout Huse. induction H0 as [|t out ts' outs' [Ht Hf] _ IH].
  - exists [], []. split; [reflexivity|]. split; [constructor|]. intros [|i]; discriminate.
  - rewrite <- finish_code in Ht.
    assert (exists m goal, ends_as out goal /\ solo E rd wr m (code_proc grow n (snd t) []) (mkState E A O (k_ext (fst t))) (fst goal) (snd goal)) as (m & goal & Hg & Hm).
    { destruct out as [[v s]| |]; [| |now destruct Hf].
      - apply finish_ok in Ht. destruct Ht as [m Hm]. exists m, (Ok v, s). split; [reflexivity|exact Hm].
      - apply finish_panic in Ht. destruct Ht as (m & s & Hm). exists m, (Panic, s). split; [reflexivity|exact Hm]. }
    destruct IH as (gs & goals & Hl & Hgo & Hgs).
    exists (mkGhost E (base O (fst t)) (code_proc grow n (snd t) []) (mkState E A O (k_ext (fst t))) m :: gs), (goal :: goals). split; [cbn; lia|].
    split; [now constructor|]. intros [|i] t' goal'; cbn [nth_error]; [|apply Hgs]. intros [= <-] [= <-]. eauto.
Qed.
Lemma start_inv : exists gs goals, Forall2 ends_as outs goals /\ inv E rd wr nb W St goals (map (base O) ts) (start_agents grow n A O cs) gs.
Proof.
  assert (Hlen : length cs = length outs) by (pose proof Hout as H0; clear -H0; induction H0; cbn; congruence).
  destruct goals_solo as (gs & goals & Hl & Hgo & Hgs). exists gs, goals. split; [exact Hgo|].
  assert (Hlen' : length outs = length goals) by (clear -Hgo; induction Hgo; cbn; congruence). rewrite Hlen' in Hlen. constructor; cbn [start_agents p_procs p_arrs p_objs]; rewrite ?map_length; auto.
  - intros i p' x v t' g Hi Hv Hg. rewrite nth_error_map in Hi. destruct (nth_error cs i) as [t|] eqn:Ht; [|discriminate]. injection Hi as <- <-.
    destruct (Hgs _ _ _ Ht Hv) as (m & Hm & Hsolo). rewrite Hm in Hg. injection Hg as <-. unfold good. cbn [g_w g_p g_s g_n].
    assert (Hin : In t cs) by (eapply nth_error_In; eassumption).
    split; [|split; [now apply base_srel, in_map|split; [reflexivity|exact Hsolo]]].
    rewrite Forall_forall in Huse. eapply code_rel; [exact HR|apply wle_refl| |exact (Huse t Hin)]. exact I.
  - intros i j g h Hij Hi Hj. destruct Hsep as (_ & Hna & Hno & _).
    destruct (nth_same_len _ cs _ _ (eq_sym Hl) Hi) as [t Ht]. destruct (nth_same_len _ goals _ _ (eq_sym Hlen) Ht) as [o Ho].
    destruct (nth_same_len _ cs _ _ (eq_sym Hl) Hj) as [u Hu]. destruct (nth_same_len _ goals _ _ (eq_sym Hlen) Hu) as [o' Ho'].
    destruct (Hgs _ _ _ Ht Ho) as (m & Hm & _). destruct (Hgs _ _ _ Hu Ho') as (m' & Hm' & _).
    pose proof (map_nth_error fst _ _ Ht) as Ht'. pose proof (map_nth_error fst _ _ Hu) as Hu'.
    rewrite Hm in Hi. injection Hi as <-. rewrite Hm' in Hj. injection Hj as <-. cbn [g_w base]. split; cbn [wa wo].
    + intros l k x lo hi lo' hi' z H1 H2 Hz Hz'. apply in_parts in H1, H2. destruct H1 as [<- H1], H2 as [-> H2].
      apply (Hna i j (fst t) (fst u) l z Hij Ht' Hu'); [exists lo, hi|exists lo', hi']; auto.
    + intros l k x H1 H2. apply in_diag in H1, H2; destruct H1 as [<- H1], H2 as [-> H2]. apply in_app_iff in H1, H2. rewrite in_fieldless in H1, H2. destruct H1 as [H1|H1]; [|assumption]. destruct H2 as [H2|H2]; [|assumption].
      destruct (nodup_flat _ _ Hno _ _ _ _ _ Hij Ht' Hu' H1 H2).
  - intros i g b Hi Hb. rewrite !nth_error_map in Hb. destruct (nth_error cs i) as [t|] eqn:Ht; [|discriminate]. injection Hb as <-.
    destruct (nth_same_len _ goals _ _ (eq_sym Hlen) Ht) as [o Ho]. destruct (Hgs _ _ _ Ht Ho) as (m & Hm & _). rewrite Hm in Hi. injection Hi as <-. apply wle_refl.
Qed.

Theorem agents_independent : exists N, forall k c, pool_steps E rd wr k (start_agents grow n A O cs) c ->
  (k <= N)%nat /\ (finished c \/ exists c', pool_step E rd wr c c') /\ ~ cell_race c /\
  (length A <= length (p_arrs E c))%nat /\
  (forall l, (l < length A)%nat -> zlen (array (p_arrs E c) l) = zlen (array A l) /\
     forall z, ~ owned ts l z -> zget (array (p_arrs E c) l) z = zget (array A l) z) /\
  (finished c -> forall i t out, nth_error cs i = Some t -> nth_error outs i = Some out ->
     match out with
     | Ok (v, s) => exists v', nth_error (p_procs E c) i = Some (Done (Ok v'), ext E s) /\
         looks_same_in (length A) (fun l z => owns (fst t) l z \/ ~ owned ts l z) (fun l => In l (k_objs (fst t)) \/ fieldless O l)
           (arrs E s) (objs E s) v (p_arrs E c) (p_objs E c) v'
     | _ => exists x, nth_error (p_procs E c) i = Some (Done Panic, x)
     end).
Proof.
  destruct start_inv as (gs & goals & Hgo & Hi). exists (total E gs). intros k c Hk.
  destruct (inv_steps _ _ _ _ _ _ _ _ _ _ _ _ Hi Hk) as (gs' & Hi' & Ht & [Hll Hr]). split; [lia|]. split; [eapply inv_live; exact Hi'|].
  split; [eapply inv_race; exact Hi'|]. split; [exact Hll|]. split; [exact Hr|]. intros Hf i t out Hti Hoi.
  assert (exists goal, nth_error goals i = Some goal /\ ends_as out goal) as ([r s] & Hgoi & He).
  { clear -Hgo Hoi. revert i Hoi. induction Hgo as [|o g os gs H _ IH]; intros [|i] H0; try discriminate; cbn in *; [injection H0 as <-; eauto|auto]. }
  destruct Hi' as [Hl Hl' Hg _ Hb]. destruct (nth_same_len goals (p_procs E c) i _ (eq_sym Hl') Hgoi) as [[p x] Hp].
  destruct (nth_same_len _ gs' _ _ Hl Hp) as [g Hgi]. destruct (Hg _ _ _ _ _ _ Hp Hgoi Hgi) as (Hprel & Hs & Hx & Hsolo).
  destruct (done_rel _ _ _ _ _ _ _ _ _ _ _ _ _ Hprel Hsolo (Hf _ _ (nth_error_In _ _ Hp))) as (r' & _ & -> & Hst & Hv).
  destruct out as [[v s']| |]; cbn [ends_as fst] in He; [|subst r; destruct r'; try contradiction Hv; exists x; exact Hp|contradiction He].
  injection He as -> <-. destruct r' as [v'| |]; try contradiction Hv.
  exists v'. rewrite <- Hst, Hx. split; [exact Hp|].
  assert (Hw : wle (base O (fst t)) (g_w E g)) by (apply (Hb i g); [exact Hgi|rewrite !nth_error_map, Hti; reflexivity]). destruct Hw as [Hw1 Hw2].
  eapply same_rel; [exact Hs|exact Hv| |].
  - intros l z [(lo & hi & Hin & Hz)|Hz]; [left|right; exact Hz]. exists lo, hi. split; [|exact Hz]. apply Hw1. apply in_parts. auto.
  - intros l Hlin. apply Hw2. apply in_diag. split; [reflexivity|]. apply in_app_iff. rewrite in_fieldless. exact Hlin.
Qed.
End Main.
