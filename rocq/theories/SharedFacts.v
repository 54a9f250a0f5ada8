(** Goroutines that share a Transformer, and goroutines that share a Writer: proofs for PropShared.v. *)
From Coq Require Import String ZArith List Bool Lia.
From Verif Require Import Base Spec SpecCp949 SpecIO Utf8 Utf8Facts Facts Cp949Model Cp949Facts Cp949Facts2 GoLang GoSource GoThreads SourceSpec
  SourceFacts2 SpecThreads SpecShared PoolFacts GoroutineFacts ThreadCases ThreadWrong.
Import ListNotations.
Local Open Scope Z_scope.
Local Open Scope list_scope.
Local Open Scope go_scope.

Section Jobs.
Variable grow : Z -> Z -> Z.
Variable E : Type.
Variable rd : nat -> E -> Z -> Z * list Z * option error * E.
Variable wr : nat -> E -> list Z -> Z * option error * E.

Lemma job_runs A O (j : job E) : hangul_memory A -> job_ok A O j ->
  exists nDst nSrc err new s, runs_to grow E rd wr (t_ops (transforming j)) [] (mkState E A O (j_ext j)) (VTuple [VTuple [VInt nDst; VInt nSrc; VErr err]], s) /\
    kept_outside A (arrs E s) (j_dst j) /\ ext E s = j_ext j /\ slice_holds (arrs E s) (j_dst j) new /\ job_done to_char j nDst nSrc err new.
Proof.
  intros HA (_ & Hd & _ & Hs & Hb). pose proof (memory_nil A HA) as Hnil.
  assert (Hfin : forall r s1, runs_to grow E rd wr (ops_of []) [r] s1 (VTuple [r], s1)) by (intros r s1; exists 0%nat; reflexivity).
  destruct j as [[|] p dst old src data eof x]; unfold job_done; cbn [j_decoder j_receiver j_dst j_old j_src j_data j_eof j_ext transforming t_ops] in *.
  - destruct (source_dec_Transform grow E rd wr (mkState E A O x) p dst old src data eof Hnil Hd Hs Hb) as (nd & ns & err & new & s & o & Hc & Hk & _ & Hx & Hn & H).
    exists nd, ns, err, new, s. split; [eapply (alone_call grow E rd wr Cp949 "cp949Decoder.Transform" [VPtr p; dst; src; VBool eof] []); [exact Hc|apply Hfin]|].
    split; [exact Hk|]. split; [exact Hx|]. split; [exact Hn|]. destruct H as [(rs & H1 & H2 & H3 & H4 & H5)|H]; [left|right; auto].
    split; [exact H3|]. split; [exact H4|]. exists rs. auto.
  - pose proof (string_to_runes_reads data Hb) as Hr.
    destruct (source_enc_Transform grow E rd wr (mkState E A O x) p dst old src data _ eof Hnil Hd Hs Hb Hr) as (new & s & o & Hc & Hk & _ & Hx & Hn & H).
    do 3 eexists. exists new, s. split; [eapply (alone_call grow E rd wr Cp949 "cp949Encoder.Transform" [VPtr p; dst; src; VBool eof] []); [exact Hc|apply Hfin]|].
    split; [exact Hk|]. split; [exact Hx|]. split; [exact Hn|]. left. split; [reflexivity|]. split; [reflexivity|]. eexists. split; [exact Hr|]. auto.
Qed.

Lemma jobs_arrs (js : list (job E)) : flat_map t_arrs (map transforming js) = map (fun j => array_of (j_dst j)) js.
Proof. induction js; cbn; congruence. Qed.
Lemma jobs_objs (js : list (job E)) : flat_map t_objs (map transforming js) = [].
Proof. induction js; cbn; auto. Qed.
Lemma holds_array A v data : slice_holds A v data -> exists o n c, v = VSlice (array_of v) o n c /\ (array_of v < length A)%nat.
Proof. destruct v; try contradiction. intros [H _]. cbn. eauto. Qed.

Lemma jobs_separate A O (js : list (job E)) : hangul_memory A -> Forall (job_ok A O) js ->
  NoDup (map (fun j => array_of (j_dst j)) js) ->
  (forall j j', In j js -> In j' js -> array_of (j_src j) <> array_of (j_dst j')) ->
  separate A O (map transforming js).
Proof.
  intros HA Hok Hnd Hsd. split; [exact HA|]. rewrite jobs_arrs, jobs_objs. split; [exact Hnd|]. split; [constructor|].
  intros t Ht. apply in_map_iff in Ht. destruct Ht as (j & <- & Hin). rewrite Forall_forall in Hok. destruct (Hok _ Hin) as (Hf & Hd & Hk & Hs & _).
  destruct (holds_array _ _ _ Hd) as (o & n & c & Ed & Hdl). destruct (holds_array _ _ _ Hs) as (o' & n' & c' & Es & Hsl).
  split; [intros l [<-|[]]; auto|]. split; [intros l []|].
  apply ops_cons with (b := true); [|constructor]. exists [true; true; false; true].
  split; [destruct (j_decoder j); reflexivity|]. cbn [map].
  constructor; [right; exact Hf|]. constructor; [cbn [usable_arg]; rewrite Ed; left; left; reflexivity|].
  constructor; [|constructor; [exact I|constructor]]. cbn [usable_arg]. rewrite Es. right. split; [|auto]. split; [exact Hsl|].
  rewrite jobs_arrs. intros H. apply in_map_iff in H. destruct H as (j' & Hj' & Hin'). exact (Hsd _ _ Hin Hin' (eq_sym Hj')).
Qed.

Lemma shared_transformers A O (js : list (job E)) : hangul_memory A -> Forall (job_ok A O) js ->
  NoDup (map (fun j => array_of (j_dst j)) js) ->
  (forall j j', In j js -> In j' js -> array_of (j_src j) <> array_of (j_dst j')) ->
  exists N, forall n, (N <= n)%nat -> exists M, forall k c,
    pool_steps E rd wr k (start grow n A O (map transforming js)) c ->
    (k <= M)%nat /\ (finished c \/ exists c', pool_step E rd wr c c') /\ ~ race c /\
    (forall l, (l < length A)%nat -> (forall j, In j js -> l <> array_of (j_dst j)) -> array (p_arrs E c) l = array A l) /\
    (finished c -> forall i j, nth_error js i = Some j ->
      exists nDst nSrc err new,
        nth_error (p_procs E c) i = Some (Done (Ok (VTuple [VTuple [VInt nDst; VInt nSrc; VErr err]])), j_ext j) /\
        slice_holds (p_arrs E c) (j_dst j) new /\ outside_same A (p_arrs E c) (j_dst j) /\
        job_done to_char j nDst nSrc err new).
Proof.
  intros HA Hok Hnd Hsd. pose proof (jobs_separate A O js HA Hok Hnd Hsd) as Hsep. rewrite Forall_forall in Hok.
  destruct (all_runs grow E rd wr A O (map transforming js)) as (outs & Hl & Houts & N & HN).
  { intros t Ht. apply in_map_iff in Ht. destruct Ht as (j & <- & Hin). destruct (job_runs A O j HA (Hok _ Hin)) as (nd & ns & err & new & s & H & _). eauto. }
  exists N. intros n Hn. destruct (goroutines_independent E rd wr grow n A O _ outs Hsep (HN n Hn)) as [M HM].
  exists M. intros k c Hk. destruct (HM k c Hk) as (H1 & H2 & H3 & H4 & H5 & H6).
  split; [exact H1|]. split; [exact H2|]. split; [exact H3|]. split.
  { intros l Hlt Hne. apply H5. split; [exact Hlt|]. rewrite jobs_arrs. intros H. apply in_map_iff in H. destruct H as (j & Hj & Hin). exact (Hne j Hin (eq_sym Hj)). }
  intros Hf i j Hi. destruct (job_runs A O j HA (Hok _ (nth_error_In _ _ Hi))) as (nd & ns & err & new & s & Hrun & Hko & Hx & Hh & Hdone).
  assert (Hti : nth_error (map transforming js) i = Some (transforming j)) by (rewrite nth_error_map, Hi; reflexivity).
  destruct (nth_same_len _ outs i _ Hl Hti) as [out Hoi]. pose proof (runs_fun _ _ _ _ _ _ _ _ _ Hrun (Houts _ _ _ Hti Hoi)) as <-.
  destruct (H6 Hf i _ _ _ Hti Hoi) as (v' & Hp & ca & co & _ & _ & Hc & _ & Ha & _ & Hv). rewrite Hx in Hp.
  assert (Hv' : v' = VTuple [VTuple [VInt nd; VInt ns; VErr err]]).
  { clear -Hv. destruct v'; try contradiction Hv. destruct vs as [|w [|]]; try contradiction Hv; try (destruct Hv as [_ []]; fail). destruct Hv as [Hv _].
    destruct w; try contradiction Hv. destruct vs as [|a vs]; [contradiction Hv|]. destruct Hv as [<- Hv].
    destruct vs as [|b vs]; [contradiction Hv|]. destruct Hv as [<- Hv]. destruct vs as [|d vs]; [contradiction Hv|]. destruct Hv as [<- Hv].
    destruct vs; [reflexivity|contradiction Hv]. }
  subst v'. exists nd, ns, err, new. split; [exact Hp|].
  assert (Hdst : array (arrs E s) (array_of (j_dst j)) = array (p_arrs E c) (array_of (j_dst j)) /\ (array_of (j_dst j) < length (p_arrs E c))%nat).
  { destruct (Ha (array_of (j_dst j)) (array_of (j_dst j))) as (_ & Hlt & He); [|auto]. apply Hc. left. left. reflexivity. }
  destruct Hdst as [Hda Hdl]. destruct (j_dst j); try contradiction Hh. cbn [array_of] in *.
  split; [|split; [|exact Hdone]].
  - destruct Hh as (_ & Hh). split; [exact Hdl|]. rewrite <- Hda. exact Hh.
  - destruct Hko as (_ & _ & Hk1 & Hk2). cbn [outside_same]. rewrite <- Hda. auto.
Qed.
End Jobs.

Lemma shared_transformers_code : exists f, char_code f /\
  forall grow E rd wr A O (js : list (job E)), hangul_memory A -> Forall (job_ok A O) js ->
  NoDup (map (fun j => array_of (j_dst j)) js) ->
  (forall j j', In j js -> In j' js -> array_of (j_src j) <> array_of (j_dst j')) ->
  exists N, forall n, (N <= n)%nat -> exists M, forall k c,
    pool_steps E rd wr k (start grow n A O (map transforming js)) c ->
    (k <= M)%nat /\ (finished c \/ exists c', pool_step E rd wr c c') /\ ~ race c /\
    (forall l, (l < length A)%nat -> (forall j, In j js -> l <> array_of (j_dst j)) -> array (p_arrs E c) l = array A l) /\
    (finished c -> forall i j, nth_error js i = Some j ->
      exists nDst nSrc err new,
        nth_error (p_procs E c) i = Some (Done (Ok (VTuple [VTuple [VInt nDst; VInt nSrc; VErr err]])), j_ext j) /\
        slice_holds (p_arrs E c) (j_dst j) new /\ outside_same A (p_arrs E c) (j_dst j) /\
        job_done f j nDst nSrc err new).
Proof. exists to_char. split; [exact char_code_to_char|]. intros. apply shared_transformers; assumption. Qed.

(** ** One Writer, two goroutines *)
Notation after_write := (alone dbl (list Z) log_rd log_wr 40 open_and_write [] (mkState (list Z) writer_memory [] [])).
Definition wshown (x : option (nat * pool (list Z))) : option (nat * list (option val) * list (option (place * bool)) * list (list Z)) :=
  match x with
  | Some (n, c) => Some (n, map (fun y => result (fst y)) (p_procs _ c), map (fun y => next (fst y)) (p_procs _ c), map snd (p_procs _ c))
  | None => None
  end.
Lemma wshown_inv x n rs ns xs : wshown x = Some (n, rs, ns, xs) ->
  exists c, x = Some (n, c) /\ map (fun y => result (fst y)) (p_procs _ c) = rs /\ map (fun y => next (fst y)) (p_procs _ c) = ns /\ map snd (p_procs _ c) = xs.
Proof. destruct x as [[m c]|]; [|discriminate]. cbn. intros [= <- <- <- <-]. eauto. Qed.

Lemma shared_writer :
  exists s, after_write = Ok (VTuple [VTuple [VPtr 1; VErr None]; VTuple [VInt 2; VErr None]], s) /\ ext _ s = [0x41; 0x42] /\
  (exists s', alone dbl (list Z) log_rd log_wr 40 [write_from 1 1; write_from 1 2] [] s =
     Ok (VTuple [VTuple [VInt 1; VErr None]; VTuple [VInt 1; VErr None]], s') /\ ext _ s' = [0x41; 0x42] ++ [0x43] ++ [0x44]) /\
  (exists k c, pool_steps (list Z) log_rd log_wr k (start dbl 40 (arrs _ s) (objs _ s) (two_writers 1 (ext _ s))) c /\
     finished c /\ map fst (p_procs _ c) = [Done (Ok (VTuple [VTuple [VInt 1; VErr None]])); Done (Ok (VTuple [VTuple [VInt 1; VErr None]]))] /\
     map snd (p_procs _ c) = [ext _ s ++ [0x44]; ext _ s ++ [0x44]]) /\
  (exists k c, pool_steps (list Z) log_rd log_wr k (start dbl 40 (arrs _ s) (objs _ s) (two_writers 1 (ext _ s))) c /\ race c).
Proof.
  exists (s_of after_write d0). split; [apply ok_of; vm_compute; reflexivity|]. split; [vm_compute; reflexivity|]. split; [|split].
  - eexists. split; [apply (ok_of _ d0); vm_compute; reflexivity|]. vm_compute. reflexivity.
  - match goal with |- exists k c, pool_steps _ _ _ k ?p c /\ _ =>
      assert (H : wshown (sched log_rd log_wr (alternate 20) p) = Some (32%nat, map Some [VTuple [VTuple [VInt 1; VErr None]]; VTuple [VTuple [VInt 1; VErr None]]], [None; None],
        [ext _ (s_of after_write d0) ++ [0x44]; ext _ (s_of after_write d0) ++ [0x44]]))
        by (vm_compute; reflexivity) end.
    apply wshown_inv in H. destruct H as (c & Hc & Hr & _ & Hx). eexists _, c. split; [eapply sched_steps; exact Hc|].
    destruct (results_done _ _ Hr) as [Hf Hm]. split; [exact Hf|]. split; [exact Hm|exact Hx].
  - match goal with |- exists k c, pool_steps _ _ _ k ?p c /\ _ =>
      assert (H : wshown (sched log_rd log_wr (alternate 8) p) = Some (16%nat, [None; None], [Some (PArr 32, true); Some (PArr 32, true)], [[0x41; 0x42]; [0x41; 0x42]]))
        by (vm_compute; reflexivity) end.
    apply wshown_inv in H. destruct H as (c & Hc & _ & Hn & _). eexists _, c. split; [eapply sched_steps; exact Hc|].
    eapply next_race; [exact Hn|reflexivity].
Qed.
