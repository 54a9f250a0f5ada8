(** Calls of Transform with parts of the same arrays: proofs for PropCells.v. *)
From Coq Require Import String ZArith List Bool Lia.
From Verif Require Import Base Spec SpecCp949 Utf8 Utf8Facts SpecIO Cp949Model Cp949Facts Cp949Facts2 GoLang GoHeap GoSource GoThreads SourceSpec SourceFacts SourceFacts2
  ThreadFacts OwnFacts SpecThreads PoolFacts GoroutineFacts ThreadCases SpecCells CellFacts CellPool CellGoroutines.
Import ListNotations.
Local Open Scope Z_scope.
Local Open Scope list_scope.
Local Open Scope go_scope.

Section Cases.
Variable grow : Z -> Z -> Z.
Variable E : Type.
Variable rd : nat -> E -> Z -> Z * list Z * option error * E.
Variable wr : nat -> E -> list Z -> Z * option error * E.
Notation runs_to := (ThreadCases.runs_to grow E rd wr).

Lemma all_workers A O (ts : list (worker E)) :
  (forall t, In t ts -> exists out, runs_to (k_ops t) [] (mkState E A O (k_ext t)) out) ->
  exists outs, length outs = length ts /\
    (forall i t out, nth_error ts i = Some t -> nth_error outs i = Some out -> runs_to (k_ops t) [] (mkState E A O (k_ext t)) out) /\
    exists N, forall n, (N <= n)%nat -> Forall2 (fun t out => alone grow E rd wr n (k_ops t) [] (mkState E A O (k_ext t)) = Ok out) ts outs.
Proof.
  induction ts as [|t ts IH]; intros H.
  - exists []. split; [reflexivity|]. split; [intros [|i]; discriminate|]. exists 0%nat. constructor.
  - destruct (IH (fun u Hu => H u (or_intror Hu))) as (outs & Hl & Hr & N & HN). destruct (H t (or_introl eq_refl)) as (out & Hout).
    exists (out :: outs). split; [cbn; lia|]. split; [intros [|i] u o; cbn [nth_error]; [intros [= <-] [= <-]; exact Hout|apply Hr]|].
    destruct Hout as [M HM]. exists (N + M)%nat. intros n Hn. constructor; [apply HM|apply HN]; lia.
Qed.

Definition parts_of (v : val) : list (nat * (Z * Z)) :=
  match v with VSlice l o n _ => if 0 <? n then [(l, (o, o + n))] else [] | _ => [] end.
Definition worker_of (j : job E) : worker E := mkWorker [job_op j] (parts_of (j_dst j)) [] (j_ext j).
Lemma owns_job j l i : owns (worker_of j) l i <-> cell_of (j_dst j) l i.
Proof.
  unfold owns, worker_of, parts_of, cell_of. cbn [k_parts]. destruct (j_dst j); try (split; [intros (? & ? & [] & _)|intros []]).
  destruct (Z.ltb_spec 0 len).
  - split; [intros (lo & hi & [[= <- <- <-]|[]] & Hi); auto|]. intros [-> Hi]. exists off, (off + len). cbn. auto.
  - split; [intros (? & ? & [] & _)|lia].
Qed.
Lemma owned_job js l i : owned (map worker_of js) l i <-> exists j, In j js /\ cell_of (j_dst j) l i.
Proof.
  unfold owned. split.
  - intros (t & Ht & Ho). apply in_map_iff in Ht. destruct Ht as (j & <- & Hj). exists j. rewrite <- owns_job. auto.
  - intros (j & Hj & Hc). exists (worker_of j). rewrite owns_job. split; [now apply in_map|exact Hc].
Qed.
Lemma jobs_separate A O js : hangul_memory A -> Forall (job_ok A O) js -> jobs_apart js -> separate_parts A O (map worker_of js).
Proof.
  intros HA Hok Hap. split; [exact HA|]. split.
  { intros a b t u l z Hab Ha Hb Ht Hu. rewrite nth_error_map in Ha, Hb.
    destruct (nth_error js a) as [j|] eqn:Ej; [|discriminate]. destruct (nth_error js b) as [k|] eqn:Ek; [|discriminate].
    injection Ha as <-. injection Hb as <-. rewrite owns_job in Ht, Hu. destruct (Hap _ _ _ _ _ _ Hab Ej Ek Ht) as [H _]. auto. }
  assert (Ho : flat_map k_objs (map worker_of js) = []) by (clear; induction js; cbn; auto).
  rewrite Ho. split; [constructor|]. intros t Ht. apply in_map_iff in Ht. destruct Ht as (j & <- & Hin).
  rewrite Forall_forall in Hok. destruct (Hok j Hin) as (Hf & (dst & Hd) & (src & Hs & _) & Hl & Hcase).
  destruct (In_nth_error _ _ Hin) as [a Ha].
  split; [|split; [intros l []|]].
  - intros l lo hi Hp. cbn [worker_of k_parts] in Hp. unfold parts_of in Hp. destruct (j_dst j) eqn:Ed; try contradiction Hd; try contradiction Hp.
    destruct (Z.ltb_spec 0 len); [|contradiction Hp]. destruct Hp as [[= <- <- <-]|[]]. destruct Hd as (Hd1 & Hd2 & Hd3 & Hd4 & _).
    split; [split; [apply (Hl _ off); cbn; lia|exact Hd1]|lia].
  - cbn [worker_of k_ops]. apply usable_cons with (u := Own); [|constructor]. exists [Own; Dst; Src; Own].
    split; [destruct (j_encode j); reflexivity|].
    constructor; [right; exact Hf|]. constructor; [|constructor; [|constructor; [exact I|constructor]]]; cbn [arg_usable].
    + unfold may_use. destruct (j_dst j) eqn:Ed; try contradiction Hd. destruct Hd as (Hd1 & Hd2 & Hd3 & Hd4 & _).
      split; [exact Hd1|]. split; [exact Hd2|]. split; [exact Hd3|]. cbn [extent]. destruct (Z.ltb_spec 0 len) as [H|H]; [left|right; left; lia].
      exists off, (off + len). split; [|lia]. cbn [worker_of k_parts parts_of]. rewrite Ed. cbn [parts_of]. destruct (Z.ltb_spec 0 len); [left; reflexivity|lia].
    + unfold may_use. destruct (j_src j) as [| | | |l o n c| | | | | |] eqn:Es; try contradiction Hs. destruct Hs as (Hs1 & Hs2 & Hs3 & Hs4 & _).
      split; [exact Hs1|]. split; [exact Hs2|]. split; [exact Hs3|]. cbn [extent]. destruct (Z.ltb_spec 0 n) as [H|H]; [|right; left; lia].
      destruct Hcase as [Hc|Hc].
      * right. right. split; [reflexivity|]. intros i Hi Hown. apply owned_job in Hown. destruct Hown as (k & Hk & Hck).
        destruct (In_nth_error _ _ Hk) as [b Hb]. destruct (Nat.eq_dec b a) as [->|Hne].
        -- rewrite Ha in Hb. injection Hb as <-. apply (Hc _ _ Hck). cbn. auto.
        -- apply (Hap b a k j l i Hne Hb Ha Hck). rewrite Es. cbn. auto.
      * left. pose proof (Hc l o) as H1. pose proof (Hc l (o + n - 1)) as H2. cbn [cell_of] in H1, H2.
        specialize (H1 ltac:(lia)). specialize (H2 ltac:(lia)). unfold cell_of in H1, H2. destruct (j_dst j) eqn:Ed; try contradiction.
        destruct H1 as [-> H1], H2 as [_ H2]. exists off, (off + len). split; [|lia].
        cbn [worker_of k_parts]. rewrite Ed. cbn [parts_of]. destruct (Z.ltb_spec 0 len); [left; reflexivity|lia].
Qed.

Lemma job_runs A O j : hangul_memory A -> job_ok A O j -> forall dst src, slice_holds A (j_dst j) dst -> slice_holds A (j_src j) src ->
  exists nDst nSrc err dst' s,
    runs_to [job_op j] [] (mkState E A O (j_ext j)) (VTuple [VTuple [VInt nDst; VInt nSrc; VErr err]], s) /\ ext E s = j_ext j /\
    slice_holds (arrs E s) (j_dst j) dst' /\ transform_result to_char (j_encode j) dst src nDst nSrc err dst'.
Proof.
  intros HA (_ & _ & (src' & Hs' & Hb) & _) dst src Hd Hs.
  assert (src' = src) as -> by (destruct (j_src j); try contradiction Hs; destruct Hs as (_ & _ & _ & _ & ->), Hs' as (_ & _ & _ & _ & ->); reflexivity).
  assert (Hfin : forall r s1, runs_to (ops_of []) [r] s1 (VTuple [r], s1)) by (intros r s1; exists 0%nat; reflexivity).
  assert (Hop : [job_op j] = ops_of [(Cp949, ((if j_encode j then "cp949Encoder.Transform" else "cp949Decoder.Transform")%string,
    [VPtr (j_this j); j_dst j; j_src j; VBool (j_eof j)]))]) by reflexivity.
  rewrite Hop. unfold transform_result. destruct (j_encode j).
  - destruct (source_enc_Transform grow E rd wr (mkState E A O (j_ext j)) (j_this j) (j_dst j) dst (j_src j) src (string_to_runes src) (j_eof j)
      (memory_nil A HA) Hd Hs Hb (string_to_runes_reads _ Hb)) as (dst' & s' & o & Hcall & _ & _ & Hx & Hdst & Hres).
    do 5 eexists. split; [eapply alone_call; [exact Hcall|apply Hfin]|]. split; [exact Hx|]. split; [exact Hdst|].
    exists (string_to_runes src). split; [now apply string_to_runes_reads|]. auto.
  - destruct (source_dec_Transform grow E rd wr (mkState E A O (j_ext j)) (j_this j) (j_dst j) dst (j_src j) src (j_eof j)
      (memory_nil A HA) Hd Hs Hb) as (nDst & nSrc & err & dst' & s' & o & Hcall & _ & _ & Hx & Hdst & Hres).
    do 5 eexists. split; [eapply alone_call; [exact Hcall|apply Hfin]|]. split; [exact Hx|]. split; [exact Hdst|]. exact Hres.
Qed.

Lemma ints_same nb keep keepO A O A' O' v a b e :
  looks_same_in nb keep keepO A O (VTuple [VTuple [VInt a; VInt b; VErr e]]) A' O' v -> v = VTuple [VTuple [VInt a; VInt b; VErr e]].
Proof.
  intros (ca & co & _ & _ & _ & _ & _ & _ & Hv). destruct v as [| | | | | | | | | |vs]; try contradiction Hv.
  destruct vs as [|w [|]]; try contradiction Hv; try (destruct Hv as [_ []]; fail). cbn [corresponds] in Hv. destruct Hv as [Hv _].
  destruct w as [| | | | | | | | | |ws]; try contradiction Hv.
  destruct ws as [|x [|y [|z [|]]]]; try contradiction Hv; try (destruct Hv as [_ []]; fail); try (destruct Hv as (_ & _ & []); fail); try (destruct Hv as (_ & _ & _ & []); fail).
  destruct Hv as (<- & <- & <- & _). reflexivity.
Qed.

Lemma concurrent_transforms A O js : hangul_memory A -> Forall (job_ok A O) js -> jobs_apart js ->
  exists N, forall n, (N <= n)%nat -> exists M, forall k c, pool_steps E rd wr k (start_jobs grow n A O js) c ->
    (k <= M)%nat /\ (finished c \/ exists c', pool_step E rd wr c c') /\ ~ cell_race c /\
    (forall l, (l < length A)%nat -> zlen (array (p_arrs E c) l) = zlen (array A l) /\
       forall i, (forall j, In j js -> ~ cell_of (j_dst j) l i) -> zget (array (p_arrs E c) l) i = zget (array A l) i) /\
    (finished c -> forall a j dst src, nth_error js a = Some j -> slice_holds A (j_dst j) dst -> slice_holds A (j_src j) src ->
       exists nDst nSrc err dst',
         nth_error (p_procs E c) a = Some (Done (Ok (VTuple [VTuple [VInt nDst; VInt nSrc; VErr err]])), j_ext j) /\
         slice_holds (p_arrs E c) (j_dst j) dst' /\ transform_result to_char (j_encode j) dst src nDst nSrc err dst').
Proof.
  intros HA Hok Hap. set (ts := map worker_of js).
  destruct (all_workers A O ts) as (outs & Hl & Houts & N & HN).
  { intros t Ht. apply in_map_iff in Ht. destruct Ht as (j & <- & Hin). rewrite Forall_forall in Hok. pose proof (Hok j Hin) as Hj.
    destruct Hj as (Hf & (dst & Hd) & (src & Hs & Hb) & Hrest).
    destruct (job_runs A O j HA (Hok j Hin) dst src Hd Hs) as (nd & ns & e & d' & s & Hrun & _). eexists. exact Hrun. }
  exists N. intros n Hn.
  destruct (parts_independent E rd wr grow n A O ts outs (jobs_separate A O js HA Hok Hap) (HN n Hn)) as [M HM].
  exists M. intros k c Hk.
  assert (Hst : start_workers grow n A O ts = start_jobs grow n A O js) by (unfold start_workers, start_jobs, ts; rewrite map_map; reflexivity).
  rewrite <- Hst in Hk. destruct (HM k c Hk) as (H1 & H2 & H3 & H4 & H5 & H6).
  split; [exact H1|]. split; [exact H2|]. split; [exact H3|]. split.
  { intros l Hlt. destruct (H5 l Hlt) as [Ha Hb]. split; [exact Ha|]. intros i Hi. apply Hb. intros Ho. apply owned_job in Ho. destruct Ho as (j & Hj & Hc). exact (Hi j Hj Hc). }
  intros Hf a j dst src Hj Hd Hs. rewrite Forall_forall in Hok.
  destruct (job_runs A O j HA (Hok j (nth_error_In _ _ Hj)) dst src Hd Hs) as (nd & ns & e & d' & s & Hrun & Hx & Hd' & Hres).
  assert (Hti : nth_error ts a = Some (worker_of j)) by (unfold ts; rewrite nth_error_map, Hj; reflexivity).
  destruct (nth_same_len ts outs a _ Hl Hti) as [[v0 s0] Hoi]. pose proof (Houts _ _ _ Hti Hoi) as Hrun'.
  pose proof (runs_fun _ _ _ _ _ _ _ _ _ Hrun Hrun') as Heq. injection Heq as <- <-.
  destruct (H6 Hf a _ _ _ Hti Hoi) as (v' & Hp & Hsame). pose proof (ints_same _ _ _ _ _ _ _ _ _ _ _ Hsame) as ->.
  exists nd, ns, e, d'. split; [rewrite <- Hx; exact Hp|]. split; [|exact Hres].
  destruct Hsame as (ca & co & _ & _ & Hin & _ & Hcells & _). destruct (j_dst j) as [| | | |l o m cp| | | | | |] eqn:Ed; try contradiction Hd.
  destruct Hd as (Hd1 & _). destruct (Hcells l l (Hin l Hd1)) as (_ & Hl' & Hz & Hc). destruct Hd' as (_ & Hb & Hm & Hcp & ->).
  split; [exact Hl'|]. split; [exact Hb|]. split; [exact Hm|]. split; [unfold array in *; lia|]. apply cells_eq; [exact Hb|].
  intros i Hi. apply Hc. intros _. left. apply owns_job. rewrite Ed. cbn. auto.
Qed.
End Cases.

Lemma transforms_code : exists f, char_code f /\
  forall grow E rd wr A O (js : list (job E)), hangul_memory A -> Forall (job_ok A O) js -> jobs_apart js ->
  exists N, forall n, (N <= n)%nat -> exists M, forall k c, pool_steps E rd wr k (start_jobs grow n A O js) c ->
    (k <= M)%nat /\ (finished c \/ exists c', pool_step E rd wr c c') /\ ~ cell_race c /\
    (forall l, (l < length A)%nat -> zlen (array (p_arrs E c) l) = zlen (array A l) /\
       forall i, (forall j, In j js -> ~ cell_of (j_dst j) l i) -> zget (array (p_arrs E c) l) i = zget (array A l) i) /\
    (finished c -> forall a j dst src, nth_error js a = Some j -> slice_holds A (j_dst j) dst -> slice_holds A (j_src j) src ->
       exists nDst nSrc err dst',
         nth_error (p_procs E c) a = Some (Done (Ok (VTuple [VTuple [VInt nDst; VInt nSrc; VErr err]])), j_ext j) /\
         slice_holds (p_arrs E c) (j_dst j) dst' /\ transform_result f (j_encode j) dst src nDst nSrc err dst').
Proof. exists to_char. split; [exact char_code_to_char|exact concurrent_transforms]. Qed.
