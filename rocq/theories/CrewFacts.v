(** Goroutines on top of the same readers and writers: proofs for PropCrew.v. *)
From Coq Require Import String ZArith List Bool Lia.
From Verif Require Import Base Cp949Model GoLang GoSource GoThreads SourceSpec SpecThreads SpecCells SpecAgents SpecCrew AgentFacts.
Import ListNotations.
Local Open Scope Z_scope.
Local Open Scope list_scope.
Local Open Scope go_scope.

(** ** Lists with numbers *)
Fixpoint mapi {A B} (f : nat -> A -> B) (i : nat) (l : list A) : list B :=
  match l with [] => [] | x :: l => f i x :: mapi f (S i) l end.
Lemma mapi_nth {A B} (f : nat -> A -> B) l : forall i0 i, nth_error (mapi f i0 l) i = option_map (f (i0 + i)%nat) (nth_error l i).
Proof.
  induction l as [|x l IH]; intros i0 [|i]; cbn [mapi nth_error option_map]; auto; [now rewrite Nat.add_0_r|]. rewrite IH. now replace (i0 + S i)%nat with (S i0 + i)%nat by lia.
Qed.
Lemma mapi_len {A B} (f : nat -> A -> B) l : forall i0, length (mapi f i0 l) = length l.
Proof. induction l; intros; cbn; auto. Qed.
Lemma nth_ext_opt {A} (l l' : list A) : (forall i, nth_error l i = nth_error l' i) -> l = l'.
Proof.
  revert l'. induction l as [|x l IH]; intros [|x' l'] H; [reflexivity|discriminate (H O)|discriminate (H O)|]. f_equal; [now injection (H O)|]. apply IH. intros i. exact (H (S i)).
Qed.
Lemma set_nth_nth {A} i (v : A) l j : nth_error (set_nth i v l) j = if Nat.eqb i j then option_map (fun _ => v) (nth_error l j) else nth_error l j.
Proof.
  revert i j. induction l as [|x l IH]; intros [|i] [|j]; cbn [set_nth nth_error Nat.eqb option_map]; auto. now destruct (Nat.eqb i j).
Qed.

(** ** Executions are finite *)
Section Bound.
Variable E : Type.
Variable rd : nat -> E -> Z -> Z * list Z * option error * E.
Variable wr : nat -> E -> list Z -> Z * option error * E.
Definition psub (q' q : proc val) : Prop := is_done q = false /\ exists s s', one E rd wr q s = Ok (q', s').
Lemma psub_wf q : Acc psub q.
Proof.
  induction q as [r|l o n k IH|l o bs k IH|a k IH|l k IH|l f v k IH|T fs k IH|i n k IH|i bs k IH]; constructor; intros q' [Hd (s & s' & H)]; cbn [one] in H; try discriminate Hd.
  - injection H as <- _. auto.
  - injection H as <- _. auto.
  - injection H as <- _. auto.
  - destruct (the (nth_error (objs E s) l)); try discriminate H. injection H as <- _. auto.
  - destruct (set_field E s (VPtr l) f v); try discriminate H. injection H as <- _. auto.
  - injection H as <- _. auto.
  - destruct (rd i (ext E s) n) as [[[c bs] e] x]. injection H as <- _. auto.
  - destruct (wr i (ext E s) bs) as [[c e] x]. injection H as <- _. auto.
Qed.
Inductive lsub : list (proc val) -> list (proc val) -> Prop :=
| lsub_here q' q qs : psub q' q -> lsub (q' :: qs) (q :: qs)
| lsub_next q qs' qs : lsub qs' qs -> lsub (q :: qs') (q :: qs).
Lemma lsub_wf qs : Acc lsub qs.
Proof.
  induction qs as [|q qs IH]; [constructor; inversion 1|].
  generalize (psub_wf q). intros Hq. revert qs IH. induction Hq as [q _ IHq]. intros qs Hqs. induction Hqs as [qs Hqs IHqs].
  constructor. intros y Hy. inversion Hy; subst; [|now apply IHqs]. apply IHq; [assumption|constructor; exact Hqs].
Qed.
Lemma lsub_set i q' q qs : nth_error qs i = Some q -> psub q' q -> lsub (set_nth i q' qs) qs.
Proof.
  revert i. induction qs as [|x qs IH]; intros [|i] Hi Hq; cbn [nth_error set_nth] in *; try discriminate; [injection Hi as ->; now constructor|constructor; auto].
Qed.
Lemma finite_sup (P : nat -> nat -> Prop) k : (forall i N N', (N <= N')%nat -> P i N -> P i N') -> (forall i, (i < k)%nat -> exists N, P i N) ->
  exists N, forall i, (i < k)%nat -> P i N.
Proof.
  intros Hm. induction k as [|k IH]; intros H; [exists 0%nat; intros; lia|]. destruct IH as [N HN]; [intros; apply H; lia|]. destruct (H k) as [M HM]; [lia|].
  exists (Nat.max N M). intros i Hi. destruct (Nat.eq_dec i k) as [->|]; [eapply Hm; [|exact HM]; lia|eapply Hm; [|apply HN; lia]; lia].
Qed.
Lemma crew_bound qs : forall A O x, exists N, forall k log c, crew_steps E rd wr k (mkCrew A O x qs) log c -> (k <= N)%nat.
Proof.
  induction (lsub_wf qs) as [qs _ IH]. intros A O x.
  destruct (finite_sup (fun i N => forall q q' s', nth_error qs i = Some q -> is_done q = false -> one E rd wr q (mkState E A O x) = Ok (q', s') ->
      forall k log c, crew_steps E rd wr k (mkCrew (arrs E s') (objs E s') (ext E s') (set_nth i q' qs)) log c -> (k <= N)%nat) (length qs)) as [N HN].
  - intros i N N' HN H q q' s' H1 H2 H3 k log c H4. specialize (H q q' s' H1 H2 H3 k log c H4). lia.
  - intros i Hi. destruct (nth_error qs i) as [q|] eqn:Hq; [|exists 0%nat; intros; discriminate].
    destruct (one E rd wr q (mkState E A O x)) as [[q' s']| |] eqn:Ho; try (exists 0%nat; intros q0 q' s' [= <-] _ H; congruence).
    destruct (is_done q) eqn:Hd; [exists 0%nat; intros q0 ? ? [= <-]; congruence|].
    destruct (IH (set_nth i q' qs)) with (A := arrs E s') (O := objs E s') (x := ext E s') as [N HN].
    { eapply lsub_set; [exact Hq|]. split; [exact Hd|]. eauto. }
    exists N. intros q0 q1 s1 [= <-] _ H. rewrite Ho in H. injection H as <- <-. exact HN.
  - exists (S N). intros k log c H. inversion H as [|m c0 l c1 l1 c2 Hs Hr]; subst; [lia|]. inversion Hs; subst.
    assert (Hi : (i < length qs)%nat) by (apply nth_error_Some; congruence). specialize (HN i Hi _ _ _ ltac:(eassumption) ltac:(eassumption) ltac:(eassumption) _ _ _ Hr). lia.
Qed.
End Bound.

Section Main.
Variable E : Type.
Variable rd : nat -> E -> Z -> Z * list Z * option error * E.
Variable wr : nat -> E -> list Z -> Z * option error * E.
Variable x0 : E.
Notation E' := (list E * list ask)%type.
Notation rd' := (found_rd E rd x0).
Notation wr' := (found_wr E wr x0).

Lemma one_found (q : proc val) A O x q' s' st as_ : one E rd wr q (mkState E A O x) = Ok (q', s') -> (asks q <> [] -> nth (length as_) st x0 = x) ->
  one E' rd' wr' q (mkState E' A O (st, as_)) = Ok (q', mkState E' (arrs E s') (objs E s') (st, as_ ++ asks q)).
Proof.
  intros H Hx. destruct q as [r|l o n k|l o bs k|a k|l k|l f v k|T fs k|i n k|i bs k]; cbn [one asks] in *; rewrite ?app_nil_r.
  - injection H as <- <-. reflexivity.
  - injection H as <- <-. reflexivity.
  - injection H as <- <-. reflexivity.
  - injection H as <- <-. reflexivity.
  - cbn [objs] in *. destruct (the (nth_error O l)); try discriminate H. injection H as <- <-. reflexivity.
  - unfold set_field in *. cbn [objs arrs ext] in *. destruct (the (nth_error O l)) as [o| |]; try discriminate H. cbn [bind] in *. destruct o as [T fs].
    destruct (the (get f fs)); try discriminate H. cbn [bind] in *. injection H as <- <-. reflexivity.
  - injection H as <- <-. reflexivity.
  - cbn [ext] in *. unfold found_rd. cbn [fst snd]. rewrite Hx by discriminate. destruct (rd i x n) as [[[c bs] e] y]. injection H as <- <-. reflexivity.
  - cbn [ext] in *. unfold found_wr. cbn [fst snd]. rewrite Hx by discriminate. destruct (wr i x bs) as [[c e] y]. injection H as <- <-. reflexivity.
Qed.
Lemma one_back (q : proc val) A O y q' s' x : one E' rd' wr' q (mkState E' A O y) = Ok (q', s') -> exists q1 s1, one E rd wr q (mkState E A O x) = Ok (q1, s1).
Proof.
  intros H. destruct q as [r|l o n k|l o bs k|a k|l k|l f v k|T fs k|i n k|i bs k]; cbn [one] in *; [eauto|eauto|eauto|destruct (new_arr E (mkState E A O x) a); eauto| | |eauto| |].
  - cbn [objs] in *. destruct (the (nth_error O l)); try discriminate H. cbn [bind]. eauto.
  - unfold set_field in *. cbn [objs arrs ext] in *. destruct (the (nth_error O l)) as [o| |]; try discriminate H. cbn [bind] in *. destruct o as [T fs].
    destruct (the (get f fs)); try discriminate H. cbn [bind] in *. eauto.
  - destruct (rd i (ext E (mkState E A O x)) n) as [[[c bs] e] z]. eauto.
  - destruct (wr i (ext E (mkState E A O x)) bs) as [[c e] z]. eauto.
Qed.
Lemma one_after (q : proc val) A O x q' s' : one E rd wr q (mkState E A O x) = Ok (q', s') -> ext E s' = fold_left (after E rd wr) (asks q) x.
Proof.
  intros H. destruct q as [r|l o n k|l o bs k|a k|l k|l f v k|T fs k|i n k|i bs k]; cbn [one asks fold_left] in *; try (injection H as <- <-; reflexivity).
  - destruct (the _); try discriminate H. injection H as <- <-. reflexivity.
  - destruct (set_field _ _ _ _ _) as [s1| |] eqn:Hs; try discriminate H. injection H as <- <-. unfold set_field in Hs. cbn [objs arrs ext] in Hs.
    destruct (the (nth_error O l)) as [o| |]; try discriminate Hs. cbn [bind] in *. destruct o as [T fs].
    destruct (the (get f fs)); try discriminate Hs. cbn [bind] in *. injection Hs as <-. reflexivity.
  - cbn [ext after] in *. destruct (rd i x n) as [[[c bs] e] y]. injection H as <- <-. reflexivity.
  - cbn [ext after] in *. destruct (wr i x bs) as [[c e] y]. injection H as <- <-. reflexivity.
Qed.

(** The same execution, every goroutine with its own readers and writers. *)
Variable L : list (entry E).
Definition privately (done : list (entry E)) (c : crew E) : pool E' :=
  mkPool E' (c_arrs c) (c_objs c) (mapi (fun i q => (q, (map n_at (calls_of i L), map n_ask (calls_of i done)))) 0 (c_procs c)).
Lemma calls_app i (l l' : list (entry E)) : calls_of i (l ++ l') = calls_of i l ++ calls_of i l'.
Proof. apply filter_app. Qed.
Lemma calls_self i x (l : list ask) : calls_of i (map (mkEntry (E:=E) i x) l) = map (mkEntry i x) l.
Proof. unfold calls_of. induction l as [|a l IH]; cbn [map filter n_who]; [reflexivity|]. now rewrite Nat.eqb_refl, IH. Qed.
Lemma calls_else i j x (l : list ask) : i <> j -> calls_of i (map (mkEntry (E:=E) j x) l) = [].
Proof. intros H. unfold calls_of. induction l as [|a l IH]; cbn [map filter n_who]; [reflexivity|]. now rewrite (proj2 (Nat.eqb_neq j i)) by congruence. Qed.
Lemma private_step done l rest c c' : L = done ++ l ++ rest -> crew_step E rd wr c l c' -> pool_step E' rd' wr' (privately done c) (privately (done ++ l) c').
Proof.
  intros HL Hs. inversion Hs as [A O x qs i q q' s' Hi Hd Ho]; subst c l c'. unfold privately. cbn [c_arrs c_objs c_procs].
  pose proof (one_found q A O x q' s' (map n_at (calls_of i L)) (map n_ask (calls_of i done)) Ho) as H1.
  assert (Hx : asks q <> [] -> nth (length (map n_ask (calls_of i done))) (map n_at (calls_of i L)) x0 = x).
  { intros Ha. rewrite HL, !calls_app, calls_self, !map_app, map_length, app_nth2 by (rewrite map_length; lia).
    rewrite map_length, Nat.sub_diag. destruct (asks q); [now destruct Ha|]. reflexivity. }
  specialize (H1 Hx).
  assert (HE : mapi (fun i0 q0 => (q0, (map n_at (calls_of i0 L), map n_ask (calls_of i0 (done ++ map (mkEntry i x) (asks q)))))) 0 (set_nth i q' qs) =
     set_nth i (q', (map n_at (calls_of i L), map n_ask (calls_of i done) ++ asks q)) (mapi (fun i0 q0 => (q0, (map n_at (calls_of i0 L), map n_ask (calls_of i0 done)))) 0 qs)).
  { apply nth_ext_opt. intros j. rewrite mapi_nth, !set_nth_nth, mapi_nth, calls_app, !Nat.add_0_l. destruct (Nat.eqb_spec i j) as [<-|Hij].
    - rewrite Hi. cbn [option_map]. rewrite calls_self, map_app. do 4 f_equal. clear. induction (asks q); cbn; congruence.
    - rewrite calls_else by congruence. now rewrite app_nil_r. }
  rewrite HE.
  refine (pool_step_intro E' rd' wr' A O _ i q (map n_at (calls_of i L), map n_ask (calls_of i done)) q'
    (mkState E' (arrs E s') (objs E s') (map n_at (calls_of i L), map n_ask (calls_of i done) ++ asks q)) _ Hd H1).
  rewrite mapi_nth, Hi. reflexivity.
Qed.
Lemma private_steps m c l c' : crew_steps E rd wr m c l c' -> forall done, L = done ++ l -> pool_steps E' rd' wr' m (privately done c) (privately (done ++ l) c').
Proof.
  induction 1 as [c|m c l c1 l1 c2 Hs _ IH]; intros done HL; [rewrite app_nil_r; constructor|].
  econstructor; [eapply private_step; [exact HL|exact Hs]|]. rewrite app_assoc. apply IH. now rewrite <- app_assoc.
Qed.
End Main.

(** ** Workers with other readers and writers *)
Section Retype.
Context {E1 E2 : Type}.
Definition alike (t : worker E1) (t' : worker E2) : Prop := k_ops t = k_ops t' /\ k_parts t = k_parts t' /\ k_objs t = k_objs t'.
Variable A : list (list Z).
Variable O : list (string * list (string * val)).
Variable ts : list (worker E1).
Variable ts' : list (worker E2).
Hypothesis Hts : Forall2 alike ts ts'.
Lemma alike_owns t t' l i : alike t t' -> (owns t l i <-> owns t' l i).
Proof. intros (_ & H & _). unfold owns. rewrite H. tauto. Qed.
Lemma alike_in t' : In t' ts' -> exists t, In t ts /\ alike t t'.
Proof. pose proof Hts as H0. clear Hts. induction H0 as [|t u ts1 us Htu _ IH]; [intros []|]. intros [<-|H]; [exists t; cbn; auto|]. destruct (IH H) as (v & Hv & Hv'). exists v. cbn. auto. Qed.
Lemma alike_nth i t' : nth_error ts' i = Some t' -> exists t, nth_error ts i = Some t /\ alike t t'.
Proof. revert i. pose proof Hts as H0. clear Hts. induction H0 as [|t u ts1 us Htu _ IH]; intros [|i] H; try discriminate; cbn in *; [injection H as <-; eauto|auto]. Qed.
Lemma alike_in' t : In t ts -> exists t', In t' ts' /\ alike t t'.
Proof. pose proof Hts as H0. clear Hts. induction H0 as [|t0 u ts1 us Htu _ IH]; [intros []|]. intros [<-|H]; [exists u; cbn; auto|]. destruct (IH H) as (v & Hv & Hv'). exists v. cbn. auto. Qed.
Lemma alike_owned l i : owned ts l i <-> owned ts' l i.
Proof.
  split; intros (t & Ht & Ho).
  - destruct (alike_in' t Ht) as (t' & Ht' & Ha). exists t'. split; [exact Ht'|]. now apply (alike_owns _ _ l i Ha).
  - destruct (alike_in t Ht) as (t' & Ht' & Ha). exists t'. split; [exact Ht'|]. now apply (alike_owns _ _ l i Ha).
Qed.
Lemma alike_use t t' u v : alike t t' -> may_use A O ts t u v -> may_use A O ts' t' u v.
Proof.
  intros Ha. assert (HS : forall l o n c, slice_usable A ts t u l o n c -> slice_usable A ts' t' u l o n c).
  { intros l o n c (H1 & H2 & H3 & H4). split; [exact H1|]. split; [exact H2|]. split; [exact H3|]. destruct Ha as (_ & Hp & _). rewrite <- Hp. destruct H4 as [H4|[H4|[H4 H5]]]; auto.
    right. right. split; [exact H4|]. intros i Hi Ho. apply (H5 i Hi). now apply alike_owned. }
  revert v. fix IH 1. intros v H. destruct v; cbn [may_use] in *; auto.
  - destruct Ha as (_ & _ & <-). exact H.
  - induction vs as [|v vs IHvs]; [exact I|]. destruct H as [H1 H2]. split; [now apply IH|now apply IHvs].
Qed.
Lemma alike_arg t t' us u a : alike t t' -> arg_usable A O ts t us u a -> arg_usable A O ts' t' us u a.
Proof. intros Ha. destruct a; cbn; [now apply alike_use|auto]. Qed.
Lemma alike_op t t' us o u : alike t t' -> op_usable A O ts t us o u -> op_usable A O ts' t' us o u.
Proof.
  intros Ha. destruct o; cbn.
  - intros (ps & H1 & H2). exists ps. split; [exact H1|]. clear H1. induction H2; constructor; [now apply (alike_arg t)|assumption].
  - intros [H1 H2]. split; [eapply alike_arg; eassumption|exact H2].
  - intros [H1 H2]. split; [eapply alike_arg; eassumption|exact H2].
  - intros [H1 H2]. split; [eapply alike_arg; eassumption|exact H2].
Qed.
Lemma alike_ops t t' us os : alike t t' -> ops_usable A O ts t us os -> ops_usable A O ts' t' us os.
Proof. intros Ha. induction 1; econstructor; [eapply alike_op; eassumption|assumption]. Qed.
Lemma alike_code t t' us c : alike t t' -> code_usable A O ts t us c -> code_usable A O ts' t' us c.
Proof. intros Ha. induction 1; econstructor; [eapply alike_op; eassumption|assumption]. Qed.
Lemma alike_flat : flat_map k_objs ts = flat_map k_objs ts'.
Proof. pose proof Hts as H0. clear Hts. induction H0 as [|t u ts1 us (_ & _ & H) _ IH]; [reflexivity|]. cbn. congruence. Qed.
Lemma alike_separate : separate_parts A O ts -> separate_parts A O ts'.
Proof.
  intros (H1 & H2 & H3 & H4). split; [exact H1|]. split; [|split; [now rewrite <- alike_flat|]].
  - intros i j t u l z Hij Hi Hj Ho Ho'. destruct (alike_nth _ _ Hi) as (t1 & Ht1 & Ha1). destruct (alike_nth _ _ Hj) as (u1 & Hu1 & Ha2).
    apply (H2 i j t1 u1 l z Hij Ht1 Hu1); [now apply (alike_owns _ _ l z Ha1)|now apply (alike_owns _ _ l z Ha2)].
  - intros t' Ht'. destruct (alike_in t' Ht') as (t & Ht & Ha). destruct (H4 t Ht) as (H5 & H6 & H7). pose proof Ha as (Ho & Hp & Hb).
    split; [rewrite <- Hp; exact H5|]. split.
    + rewrite <- Hb. intros l Hl. destruct (H6 l Hl) as (T & fs & Hn & Hf). exists T, fs. split; [exact Hn|]. eapply Forall_impl; [|exact Hf]. intros x. now apply alike_use.
    + rewrite <- Ho. now apply (alike_ops t).
Qed.
End Retype.

(** ** The theorem *)
Section Shared.
Variable E : Type.
Variable rd : nat -> E -> Z -> Z * list Z * option error * E.
Variable wr : nat -> E -> list Z -> Z * option error * E.
Variable grow : Z -> Z -> Z.
Variable n : nat.
Variable A : list (list Z).
Variable O : list (string * list (string * val)).
Variable x0 : E.
Variable xs : E.
Variable P : list E -> Prop.
Variable cs : list (worker unit * code).
Hypothesis HP : forall log x' i, conversation E rd wr xs log x' -> P (map n_at (calls_of i log)).
Hypothesis Hsep : separate_parts A O (map fst cs).
Hypothesis Huse : Forall (fun t => code_usable A O (map fst cs) (fst t) [] (snd t)) cs.
Hypothesis Hfuel : forall t states, In t cs -> P states -> with_others E rd wr x0 grow n A O (snd t) states <> Fuel.
Notation E' := (list E * list ask)%type.
Notation rd' := (found_rd E rd x0).
Notation wr' := (found_wr E wr x0).

Lemma conversation_step c l c' : crew_step E rd wr c l c' -> forall log x', conversation E rd wr (c_ext c') log x' -> conversation E rd wr (c_ext c) (l ++ log) x'.
Proof.
  intros Hs log x' H. inversion Hs as [A1 O1 x qs i q q' s' Hi Hd Ho]; subst. cbn [c_ext] in *. rewrite (one_after _ _ _ _ _ _ _ _ _ Ho) in H.
  destruct q; cbn [asks map app fold_left conversation n_at n_ask] in *; auto.
Qed.
Lemma conversation_steps m c l c' : crew_steps E rd wr m c l c' -> conversation E rd wr (c_ext c) l (c_ext c').
Proof. induction 1; [reflexivity|]. eapply conversation_step; eassumption. Qed.
Definition given (log : list (entry E)) : list (worker E' * code) :=
  mapi (fun i t => (mkWorker (k_ops (fst t)) (k_parts (fst t)) (k_objs (fst t)) (map n_at (calls_of i log), []), snd t)) 0 cs.
Lemma given_alike log : Forall2 alike (map fst cs) (map fst (given log)).
Proof.
  unfold given. generalize 0%nat. clear. induction cs as [|t ts IH]; intros i; cbn [mapi map]; constructor; [repeat split|apply IH].
Qed.
Lemma start_given log : start_agents grow n A O (given log) = privately E log [] (start_crew grow n A O xs cs).
Proof.
  unfold start_agents, privately, start_crew, given. cbn [c_arrs c_objs c_procs]. f_equal. generalize 0%nat. clear.
  induction cs as [|t ts IH]; intros i; cbn [mapi map]; [reflexivity|]. f_equal. apply IH.
Qed.
Lemma given_outs log : (forall i, P (map n_at (calls_of i log))) -> Forall2 (fun t out => code_alone grow E' rd' wr' n (snd t) [] (mkState E' A O (k_ext (fst t))) = out /\ out <> Fuel)
  (given log) (mapi (fun i t => with_others E rd wr x0 grow n A O (snd t) (map n_at (calls_of i log))) 0 cs).
Proof.
  intros Hl. unfold given. assert (H : forall t states, In t cs -> P states -> with_others E rd wr x0 grow n A O (snd t) states <> Fuel) by exact Hfuel.
  clear Hfuel Huse Hsep. revert H. generalize 0%nat. induction cs as [|t ts IH]; intros i H; cbn [mapi]; constructor.
  - cbn [snd fst k_ext]. split; [reflexivity|]. apply H; [now left|]. apply Hl.
  - apply IH. intros u st Hu. apply H. now right.
Qed.
Lemma looks_weaken nb (keep keep' : nat -> Z -> Prop) keepO A1 O1 v A2 O2 v' : (forall l z, keep' l z -> keep l z) ->
  looks_same_in nb keep keepO A1 O1 v A2 O2 v' -> looks_same_in nb keep' keepO A1 O1 v A2 O2 v'.
Proof.
  intros Hk (ca & co & H1 & H2 & H3 & H4 & H5 & H6 & H7). exists ca, co. do 4 (split; [assumption|]). split; [|auto].
  intros l l' Hl. destruct (H5 l l' Hl) as (G1 & G2 & G3 & G4). do 3 (split; [assumption|]). intros i Hi. apply G4. intros Hn. apply Hk. auto.
Qed.
Theorem shared_sequences : exists N, forall k log c, crew_steps E rd wr k (start_crew grow n A O xs cs) log c ->
  (k <= N)%nat /\ (crew_finished c \/ exists l c', crew_step E rd wr c l c') /\ ~ crew_race c /\
  conversation E rd wr xs log (c_ext c) /\
  (length A <= length (c_arrs c))%nat /\
  (forall l, (l < length A)%nat -> zlen (array (c_arrs c) l) = zlen (array A l) /\
     forall z, ~ owned (map fst cs) l z -> zget (array (c_arrs c) l) z = zget (array A l) z) /\
  (crew_finished c -> forall i t, nth_error cs i = Some t ->
     match with_others E rd wr x0 grow n A O (snd t) (map n_at (calls_of i log)) with
     | Ok (v, s) => snd (ext _ s) = map n_ask (calls_of i log) /\
         exists v', nth_error (c_procs c) i = Some (Done (Ok v')) /\
           looks_same_in (length A) (fun l z => owns (fst t) l z \/ ~ owned (map fst cs) l z) (fun l => In l (k_objs (fst t)) \/ fieldless O l)
             (arrs _ s) (objs _ s) v (c_arrs c) (c_objs c) v'
     | _ => nth_error (c_procs c) i = Some (Done Panic)
     end).
Proof.
  destruct (crew_bound E rd wr (map (fun t => code_proc grow n (snd t) []) cs) A O xs) as [N HN]. exists N. intros k log c Hk.
  split; [exact (HN k log c Hk)|]. pose proof (conversation_steps _ _ _ _ Hk) as Hcv. cbn [start_crew c_ext] in Hcv.
  pose proof (given_alike log) as Hal.
  pose proof (alike_separate A O _ _ Hal Hsep) as Hsep'.
  assert (Huse' : Forall (fun x => code_usable A O (map fst (given log)) (fst x) [] (snd x)) (given log)).
  { apply Forall_forall. intros x Hx. apply In_nth_error in Hx. destruct Hx as [i Hi]. unfold given in Hi. rewrite mapi_nth in Hi.
    destruct (nth_error cs i) as [t|] eqn:Ht; [|discriminate]. injection Hi as <-. cbn [fst snd]. rewrite Forall_forall in Huse.
    eapply alike_code; [exact Hal| |exact (Huse t (nth_error_In _ _ Ht))]. repeat split. }
  destruct (agents_independent E' rd' wr' grow n A O (given log) _ Hsep' Huse' (given_outs log (fun i => HP log _ i Hcv))) as [N' Hag].
  pose proof (private_steps E rd wr x0 log _ _ _ _ Hk [] eq_refl) as Hp. rewrite <- start_given in Hp. cbn [app] in Hp.
  destruct (Hag _ _ Hp) as (_ & Hlive & Hrace & Hlen & Hmem & Hend). clear Hag.
  split; [|split; [|split; [exact Hcv|split; [exact Hlen|split]]]].
  - destruct Hlive as [Hf|[c' Hs]].
    + left. intros q Hq. apply In_nth_error in Hq. destruct Hq as [i Hi]. apply (Hf q (map n_at (calls_of i log), map n_ask (calls_of i log))).
      unfold privately. cbn [p_procs]. apply nth_error_In with (n := i). now rewrite mapi_nth, Hi.
    + right. remember (privately E log log c) as P1 eqn:HP1 in Hs. destruct Hs as [A1 O1 ts i q x q' s' Hi Hd Ho]. unfold privately in HP1. injection HP1 as -> -> ->. rewrite mapi_nth in Hi.
      destruct (nth_error (c_procs c) i) as [q0|] eqn:Hq; [|discriminate]. injection Hi as <- _.
      destruct (one_back E rd wr x0 _ _ _ _ _ _ (c_ext c) Ho) as (q1 & s1 & H1). destruct c as [A1 O1 x1 qs]. cbn [c_arrs c_objs c_ext c_procs] in *.
      exists (map (mkEntry i x1) (asks q0)). eexists. econstructor; eassumption.
  - intros (i & j & p & q & a & b & sp & Hij & Hi & Hj & Hp1 & Hq1 & Hab). apply Hrace. exists i, j, p, q. do 2 eexists. exists a, b, sp.
    split; [exact Hij|]. unfold privately. cbn [p_procs]. rewrite !mapi_nth, Hi, Hj. cbn [option_map]. split; [reflexivity|]. split; [reflexivity|]. auto.
  - intros l Hl. destruct (Hmem l Hl) as [H1 H2]. split; [exact H1|]. intros z Hz. apply H2. intros H. apply Hz. now apply (alike_owned _ _ Hal).
  - intros Hf i t Ht. assert (Hf' : finished (privately E log log c)).
    { intros q x Hq. apply In_nth_error in Hq. destruct Hq as [j Hj]. unfold privately in Hj. cbn [p_procs] in Hj. rewrite mapi_nth in Hj.
      destruct (nth_error (c_procs c) j) as [q0|] eqn:Hq; [|discriminate]. injection Hj as <- _. apply Hf. now apply nth_error_In in Hq. }
    specialize (Hend Hf' i (mkWorker (k_ops (fst t)) (k_parts (fst t)) (k_objs (fst t)) (map n_at (calls_of i log), []), snd t)
      (with_others E rd wr x0 grow n A O (snd t) (map n_at (calls_of i log)))).
    unfold given in Hend at 1. rewrite !mapi_nth, Ht in Hend. specialize (Hend eq_refl eq_refl).
    destruct (with_others E rd wr x0 grow n A O (snd t) (map n_at (calls_of i log))) as [[v s]| |].
    + destruct Hend as (v' & Hv & Hsame). unfold privately in Hv. cbn [p_procs] in Hv. rewrite mapi_nth in Hv.
      destruct (nth_error (c_procs c) i) as [q|] eqn:Hq; [|discriminate]. injection Hv as -> Hx. rewrite <- Hx. split; [reflexivity|].
      exists v'. split; [reflexivity|]. eapply looks_weaken; [|exact Hsame]. intros l z [H|H]; [left; exact H|right]. intros Ho. apply H. now apply (alike_owned _ _ Hal).
    + destruct Hend as (x & Hx). unfold privately in Hx. cbn [p_procs] in Hx. rewrite mapi_nth in Hx. destruct (nth_error (c_procs c) i); [|discriminate]. now injection Hx as -> _.
    + destruct Hend as (x & Hx). unfold privately in Hx. cbn [p_procs] in Hx. rewrite mapi_nth in Hx. destruct (nth_error (c_procs c) i); [|discriminate]. now injection Hx as -> _.
Qed.
End Shared.
Lemma conversation_inv E rd wr (I : E -> Prop) : (forall x a, I x -> I (after E rd wr x a)) -> forall log x x', I x -> conversation E rd wr x log x' -> Forall I (map n_at log).
Proof.
  intros HI. induction log as [|e log IH]; intros x x' Hx H; [constructor|]. destruct H as [<- H]. constructor; [exact Hx|]. eapply IH; [|exact H]. now apply HI.
Qed.
Lemma calls_Forall {E} (I : E -> Prop) i log : Forall I (map n_at log) -> Forall I (map n_at (calls_of i log)).
Proof. rewrite !Forall_map. unfold calls_of. rewrite !Forall_forall. intros H e He. apply filter_In in He. now apply H. Qed.
Theorem shared_independent E rd wr grow n A O x0 (I : E -> Prop) (cs : list (worker unit * code)) :
  I x0 -> (forall x a, I x -> I (after E rd wr x a)) ->
  separate_parts A O (map fst cs) ->
  Forall (fun t => code_usable A O (map fst cs) (fst t) [] (snd t)) cs ->
  (forall t states, In t cs -> Forall I states -> with_others E rd wr x0 grow n A O (snd t) states <> Fuel) ->
  exists N, forall k log c, crew_steps E rd wr k (start_crew grow n A O x0 cs) log c ->
  (k <= N)%nat /\ (crew_finished c \/ exists l c', crew_step E rd wr c l c') /\ ~ crew_race c /\
  conversation E rd wr x0 log (c_ext c) /\
  (length A <= length (c_arrs c))%nat /\
  (forall l, (l < length A)%nat -> zlen (array (c_arrs c) l) = zlen (array A l) /\
     forall z, ~ owned (map fst cs) l z -> zget (array (c_arrs c) l) z = zget (array A l) z) /\
  (crew_finished c -> forall i t, nth_error cs i = Some t ->
     match with_others E rd wr x0 grow n A O (snd t) (map n_at (calls_of i log)) with
     | Ok (v, s) => snd (ext _ s) = map n_ask (calls_of i log) /\
         exists v', nth_error (c_procs c) i = Some (Done (Ok v')) /\
           looks_same_in (length A) (fun l z => owns (fst t) l z \/ ~ owned (map fst cs) l z) (fun l => In l (k_objs (fst t)) \/ fieldless O l)
             (arrs _ s) (objs _ s) v (c_arrs c) (c_objs c) v'
     | _ => nth_error (c_procs c) i = Some (Done Panic)
     end).
Proof.
  intros HI0 HI Hsep Huse Hfuel. apply (shared_sequences E rd wr grow n A O x0 x0 (Forall I) cs); [|assumption..].
  intros log x' i H. apply calls_Forall. eapply conversation_inv; eassumption.
Qed.
