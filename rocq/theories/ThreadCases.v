(** Goroutines that call functions of the packages: proofs for PropThreads.v. *)
From Coq Require Import String ZArith List Bool Lia.
From Verif Require Import Base Spec SpecCp949 Utf8 Utf8Facts SpecIO HangulModel HanjaModel Cp949Model Cp949Facts Cp949Facts2 GoLang GoHeap GoSource GoHangul GoThreads SourceSpec SourceFacts SourceFacts2
  ThreadFacts OwnFacts SpecThreads PoolFacts GoroutineFacts.
Import ListNotations.
Local Open Scope Z_scope.
Local Open Scope list_scope.
Local Open Scope go_scope.

Section Cases.
Variable grow : Z -> Z -> Z.
Variable E : Type.
Variable rd : nat -> E -> Z -> Z * list Z * option error * E.
Variable wr : nat -> E -> list Z -> Z * option error * E.

Definition ops_of (cs : list (package * (string * list val))) : list op :=
  map (fun c => CallOp (fst c) (fst (snd c)) (map Const (snd (snd c)))) cs.
Lemma arg_consts rs vs : arg_vals rs (map Const vs) = Ok vs.
Proof. induction vs as [|v vs IH]; [reflexivity|]. cbn [map arg_vals arg_val bind]. now rewrite IH. Qed.
Definition runs_to (ops : list op) rs s out : Prop := exists N, forall n, (N <= n)%nat -> alone grow E rd wr n ops rs s = Ok out.
Lemma alone_call p f args cs rs s v s1 out :
  calls grow E rd wr (source p) f args s v s1 -> runs_to (ops_of cs) (rs ++ [v]) s1 out -> runs_to (ops_of ((p, (f, args)) :: cs)) rs s out.
Proof.
  intros [N HN] [M HM]. exists (N + M)%nat. intros n Hn. cbn [ops_of map alone op_alone fst snd]. rewrite arg_consts. cbn [bind].
  rewrite HN by lia. cbn [bind]. apply HM. lia.
Qed.
Lemma all_runs A O (ts : list (thread E)) :
  (forall t, In t ts -> exists out, runs_to (t_ops t) [] (mkState E A O (t_ext t)) out) ->
  exists outs, length outs = length ts /\
    (forall i t out, nth_error ts i = Some t -> nth_error outs i = Some out -> runs_to (t_ops t) [] (mkState E A O (t_ext t)) out) /\
    exists N, forall n, (N <= n)%nat -> Forall2 (fun t out => alone grow E rd wr n (t_ops t) [] (mkState E A O (t_ext t)) = Ok out) ts outs.
Proof.
  induction ts as [|t ts IH]; intros H.
  - exists []. split; [reflexivity|]. split; [intros [|i]; discriminate|]. exists 0%nat. constructor.
  - destruct (IH (fun u Hu => H u (or_intror Hu))) as (outs & Hl & Hr & N & HN). destruct (H t (or_introl eq_refl)) as (out & Hout).
    exists (out :: outs). split; [cbn; lia|]. split; [intros [|i] u o; cbn [nth_error]; [intros [= <-] [= <-]; exact Hout|apply Hr]|].
    destruct Hout as [M HM]. exists (N + M)%nat. intros n Hn. constructor; [apply HM|apply HN]; lia.
Qed.
Lemma runs_fun ops rs s a b : runs_to ops rs s a -> runs_to ops rs s b -> a = b.
Proof. intros [N HN] [M HM]. specialize (HN (N + M)%nat ltac:(lia)). specialize (HM (N + M)%nat ltac:(lia)). congruence. Qed.

(** ** Goroutines without memory of their own *)
Definition harmless (A : list (list Z)) (c : package * (string * list val)) : Prop :=
  exists ps b, get (fst (snd c)) (exported (fst c)) = Some (ps, b) /\
    Forall2 (fun own v => match v with VSlice l _ _ _ => own = false /\ (l < length A)%nat | VInt _ | VStr _ => True | _ => False end) ps (snd (snd c)).
Lemma calling_ro A xs l : read_only A (map (fun y : E * list (package * (string * list val)) => calling (fst y) (snd y)) xs) l <-> (l < length A)%nat.
Proof. unfold read_only. split; [tauto|]. intros H. split; [exact H|]. induction xs as [|y xs IH]; cbn; auto. Qed.
Lemma calling_allowed A O ts t : (forall l, (l < length A)%nat -> read_only A ts l) ->
  forall cs tys, Forall (harmless A) cs -> @ops_allowed E A O ts t tys (ops_of cs).
Proof.
  intros Hro. induction cs as [|[p [f args]] cs IH]; intros tys H; cbn [ops_of map]; [constructor|].
  inversion H as [|? ? (ps & b & Hg & Hps) H2]; subst. cbn [fst snd] in *. econstructor; [|apply IH; exact H2].
  exists ps. split; [exact Hg|]. clear -Hps Hro. induction Hps as [|own v ps args Hv _ IHp]; cbn [map]; constructor; [|exact IHp].
  cbn [usable_arg]. destruct v; try contradiction; cbn [usable]; auto. destruct Hv as [-> Hl]. right. split; [apply Hro; exact Hl|auto].
Qed.
Lemma calling_separate A O xs : hangul_memory A -> Forall (fun y => Forall (harmless A) (snd y)) xs ->
  separate A O (map (fun y : E * list (package * (string * list val)) => calling (fst y) (snd y)) xs).
Proof.
  intros HA H.
  assert (Ha : flat_map t_arrs (map (fun y : E * list (package * (string * list val)) => calling (fst y) (snd y)) xs) = [])
    by (clear; induction xs; cbn; auto).
  assert (Ho : flat_map t_objs (map (fun y : E * list (package * (string * list val)) => calling (fst y) (snd y)) xs) = [])
    by (clear; induction xs; cbn; auto).
  split; [exact HA|]. rewrite Ha, Ho. split; [constructor|]. split; [constructor|]. intros t Ht. apply in_map_iff in Ht.
  destruct Ht as ([x cs] & <- & Hin). rewrite Forall_forall in H. split; [intros l []|]. split; [intros l []|].
  cbn [calling t_ops fst snd]. apply calling_allowed; [intros l Hl; now apply calling_ro|]. exact (H _ Hin).
Qed.

(** What all of them have in common. *)
Lemma calling_pool A O xs : hangul_memory A -> Forall (fun y => Forall (harmless A) (snd y)) xs ->
  (forall y, In y xs -> exists out, runs_to (ops_of (snd y)) [] (mkState E A O (fst y)) out) ->
  exists N, forall n, (N <= n)%nat -> exists M, forall k c,
    pool_steps E rd wr k (start grow n A O (map (fun y => calling (fst y) (snd y)) xs)) c ->
    (k <= M)%nat /\ (finished c \/ exists c', pool_step E rd wr c c') /\ ~ race c /\ kept A (p_arrs E c) /\
    (finished c -> forall i x cs v s, nth_error xs i = Some (x, cs) -> runs_to (ops_of cs) [] (mkState E A O x) (v, s) ->
      exists v', nth_error (p_procs E c) i = Some (Done (Ok v'), ext E s) /\
        looks_same (fun l => (l < length A)%nat) (fun _ => False) (arrs E s) (objs E s) v (p_arrs E c) (p_objs E c) v').
Proof.
  intros HA Hh Hr. set (ts := map (fun y => calling (fst y) (snd y)) xs).
  destruct (all_runs A O ts) as (outs & Hl & Houts & N & HN).
  { intros t Ht. apply in_map_iff in Ht. destruct Ht as ([x cs] & <- & Hin). destruct (Hr _ Hin) as [out Hout]. exists out. exact Hout. }
  exists N. intros n Hn.
  destruct (goroutines_independent E rd wr grow n A O ts outs (calling_separate A O xs HA Hh) (HN n Hn)) as [M HM].
  exists M. intros k c Hk. destruct (HM k c Hk) as (H1 & H2 & H3 & H4 & H5 & H6).
  split; [exact H1|]. split; [exact H2|]. split; [exact H3|].
  split; [split; [exact H4|intros l Hlt; apply H5; now apply calling_ro]|].
  intros Hf i x cs v s Hi Hrun.
  assert (Hti : nth_error ts i = Some (calling x cs)) by (unfold ts; rewrite nth_error_map, Hi; reflexivity).
  destruct (nth_same_len ts outs i _ Hl Hti) as [[v0 s0] Hoi]. pose proof (Houts _ _ _ Hti Hoi) as Hrun'.
  pose proof (runs_fun _ _ _ _ _ Hrun Hrun') as Heq. injection Heq as <- <-.
  destruct (H6 Hf i _ _ _ Hti Hoi) as (v' & Hp & Hs). exists v'. split; [exact Hp|].
  destruct Hs as (ca & co & Ha & Hb & Hc & Hd & He). exists ca, co. split; [exact Ha|]. split; [exact Hb|].
  split; [intros l Hlt; apply Hc; right; now apply calling_ro|]. split; [intros l []|exact He].
Qed.
(** ** From and To *)
Lemma out_moves (A B : list (list Z)) keepO O v err A' B' v' :
  looks_same (fun l => (l < length A)%nat) keepO B O (VTuple [VTuple [v; VErr err]]) A' B' v' ->
  exists u, v' = VTuple [VTuple [u; VErr err]] /\ (forall data, slice_holds B v data -> slice_holds A' u data) /\
    (v = VSlice 0 0 0 0 -> (0 < length A)%nat -> u = v).
Proof.
  intros (ca & co & H1 & _ & Hk & _ & Ha & _ & Hv). destruct v' as [| | | | | | | | | |vs]; try contradiction Hv.
  destruct vs as [|w [|]]; try (destruct Hv as [_ []]; fail); try contradiction Hv. cbn [corresponds] in Hv. destruct Hv as [Hv _].
  destruct w as [| | | | | | | | | |vs]; try contradiction Hv.
  destruct vs as [|u [|o' [|]]]; try contradiction Hv; try (destruct Hv as [_ []]; fail); try (destruct Hv as (_ & _ & []); fail).
  destruct Hv as (Hu & <- & _). exists u. split; [reflexivity|]. split.
  - intros data Hs. destruct v; try contradiction Hs. destruct u; try contradiction Hu.
    destruct Hu as (Hl & <- & <- & <-). destruct (Ha _ _ Hl) as (Hl1 & Hl2 & Hl3). destruct Hs as (Hs1 & Hs2 & Hs3 & Hs4 & Hs5).
    cbn. rewrite <- Hl3. auto.
  - intros -> H0. destruct u; try contradiction Hu. destruct Hu as (Hl & <- & <- & <-).
    rewrite (proj1 (H1 _ _ _ _ Hl (Hk 0%nat H0)) eq_refl). reflexivity.
Qed.
Lemma memory_nil A : hangul_memory A -> has_nil A.
Proof. intros [rest ->]. split; [cbn; lia|reflexivity]. Qed.

Definition conv_ok (A : list (list Z)) (c : string * val * list Z * E) : Prop :=
  let '(g, v, data, _) := c in (g = "From" \/ g = "To")%string /\ slice_holds A v data /\ Forall is_byte data.
Definition conv_of (c : string * val * list Z * E) : E * list (package * (string * list val)) :=
  let '(g, v, _, x) := c in (x, [(Cp949, (g, [v]))]).

Lemma concurrent_conversions A O cs : hangul_memory A -> Forall (conv_ok A) cs ->
  exists N, forall n, (N <= n)%nat -> exists M, forall k c,
    pool_steps E rd wr k (start grow n A O (map (fun y => let '(g, v, _, x) := y in calling x [(Cp949, (g, [v]))]) cs)) c ->
    (k <= M)%nat /\ (finished c \/ exists c', pool_step E rd wr c c') /\ ~ race c /\ kept A (p_arrs E c) /\
    (finished c -> forall i g v data x, nth_error cs i = Some (g, v, data, x) ->
      exists out err, nth_error (p_procs E c) i = Some (Done (Ok (VTuple [VTuple [out; VErr err]])), x) /\
        (g = "From"%string ->
          (exists rs, decodes data rs /\ err = None /\ slice_holds (p_arrs E c) out (utf8 rs)) \/
          (truncated data /\ err = Some ErrCP949UnexpectedStream /\ out = VSlice 0 0 0 0)) /\
        (g = "To"%string -> exists rs, reads_as data rs /\ err = None /\ slice_holds (p_arrs E c) out (flat_map to_char rs))).
Proof.
  intros HA Hc.
  assert (Hruns : forall g v data x, In (g, v, data, x) cs ->
    (exists out err s, runs_to (ops_of [(Cp949, (g, [v]))]) [] (mkState E A O x) (VTuple [VTuple [out; VErr err]], s) /\ ext E s = x /\
      (g = "From"%string ->
          (exists rs, decodes data rs /\ err = None /\ slice_holds (arrs E s) out (utf8 rs)) \/
          (truncated data /\ err = Some ErrCP949UnexpectedStream /\ out = VSlice 0 0 0 0)) /\
      (g = "To"%string -> exists rs, reads_as data rs /\ err = None /\ slice_holds (arrs E s) out (flat_map to_char rs)))).
  { intros g v data x Hin. rewrite Forall_forall in Hc. destruct (Hc _ Hin) as (Hg & Hs & Hb).
    assert (Hfin : forall r s1, runs_to (ops_of []) [r] s1 (VTuple [r], s1)) by (intros r s1; exists 0%nat; reflexivity).
    destruct Hg as [-> | ->].
    - destruct (source_From grow E rd wr (mkState E A O x) v data (memory_nil A HA) Hs Hb) as (out & err & s' & o & Hcall & _ & _ & Hx & H).
      exists out, err, s'. split; [eapply alone_call; [exact Hcall|apply Hfin]|]. split; [exact Hx|]. split; [|discriminate]. intros _.
      destruct H as [(rs & H1 & H2 & H3 & _)|H]; eauto.
    - destruct (source_To grow E rd wr (mkState E A O x) v data (string_to_runes data) (memory_nil A HA) Hs Hb (string_to_runes_reads _ Hb)) as (out & s' & o & Hcall & _ & _ & Hx & H & _).
      exists out, None, s'. split; [eapply alone_call; [exact Hcall|apply Hfin]|]. split; [exact Hx|]. split; [discriminate|]. intros _.
      exists (string_to_runes data). split; [now apply string_to_runes_reads|auto]. }
  assert (Hmap : map (fun y => let '(g, v, _, x) := y in calling x [(Cp949, (g, [v]))]) cs = map (fun y => calling (fst y) (snd y)) (map conv_of cs)).
  { rewrite map_map. apply map_ext. intros [[[g v] d] x]. reflexivity. }
  rewrite Hmap. destruct (calling_pool A O (map conv_of cs) HA) as [N HN].
  - rewrite Forall_forall in *. intros y Hy. apply in_map_iff in Hy. destruct Hy as ([[[g v] d] x] & <- & Hin).
    destruct (Hc _ Hin) as (Hg & Hs & _). cbn [conv_of snd]. constructor; [|constructor]. unfold harmless. cbn [fst snd].
    destruct v; try contradiction Hs. destruct Hs as [Hs _]. exists [false], true.
    split; [destruct Hg as [-> | ->]; reflexivity|]. constructor; [auto|constructor].
  - intros y Hy. apply in_map_iff in Hy. destruct Hy as ([[[g v] d] x] & <- & Hin). destruct (Hruns _ _ _ _ Hin) as (out & err & s & H & _). eauto.
  - exists N. intros n Hn. destruct (HN n Hn) as [M HM]. exists M. intros k c Hk. destruct (HM k c Hk) as (H1 & H2 & H3 & H4 & H5).
    split; [exact H1|]. split; [exact H2|]. split; [exact H3|]. split; [exact H4|]. intros Hf i g v data x Hi.
    destruct (Hruns _ _ _ _ (nth_error_In _ _ Hi)) as (out & err & s & Hrun & Hx & HF & HT).
    assert (Hi' : nth_error (map conv_of cs) i = Some (x, [(Cp949, (g, [v]))])) by (rewrite nth_error_map, Hi; reflexivity).
    destruct (H5 Hf i _ _ _ _ Hi' Hrun) as (v' & Hp & Hsame). destruct (out_moves _ _ _ _ _ _ _ _ _ Hsame) as (u & -> & Hmv & H0).
    exists u, err. rewrite Hx in Hp. split; [exact Hp|]. split.
    + intros Hg. destruct (HF Hg) as [(rs & Hd & He & Hs)|(Ht & He & Ho)]; [left; exists rs; auto|right]. split; [exact Ht|]. split; [exact He|].
      rewrite H0; [exact Ho|exact Ho|]. apply (memory_nil A HA).
    + intros Hg. destruct (HT Hg) as (rs & Hr & He & Hs). exists rs. auto.
Qed.

(** ** Packages hangul and hanja *)
Definition pure_val (c : package * (string * list val)) : val :=
  match fst c with Hanja => hanja_val (snd c) | _ => hangul_val (snd c) end.
Fixpoint fixed (v : val) : Prop :=
  match v with
  | VSlice l _ _ _ => (l <= K)%nat
  | VPtr _ => False
  | VTuple vs => (fix all (vs : list val) : Prop := match vs with [] => True | v :: vs => fixed v /\ all vs end) vs
  | _ => True
  end.
Lemma fixed_same ca co v : one_to_one ca -> (forall l, (l <= K)%nat -> In (l, l) ca) -> fixed v -> forall v', corresponds ca co v v' -> v' = v.
Proof.
  intros H1 Hk. pattern v. apply val_all; clear v.
  - intros vs H Hf v' Hv. destruct v'; try contradiction Hv. f_equal. cbn [fixed corresponds] in *. revert vs0 Hv.
    induction H as [|v vs Hv _ IH]; intros [|v' vs'] H'; try contradiction H'; [reflexivity|]. destruct H' as [Ha Hb], Hf as [Hf1 Hf2]. f_equal; auto.
  - intros v Hn Hf v' Hv. destruct v; cbn [corresponds] in Hv; try (symmetry; exact Hv); try contradiction Hf; [|now destruct (Hn vs)].
    destruct v'; try contradiction Hv. destruct Hv as (Hl & <- & <- & <-). now rewrite (proj1 (H1 _ _ _ _ Hl (Hk loc Hf)) eq_refl).
Qed.
Lemma pure_fixed c : pure_call c -> fixed (pure_val c).
Proof.
  intros [[f args] H|[f args] H].
  - unfold pure_val. cbn [fst snd]. inversion H as [f' r Hf|l m t|f' w Hf Hw|w p q Hw]; subst; cbn [hangul_val].
    + repeat (match goal with |- fixed (if ?b then _ else _) => destruct b end; try exact I).
      * unfold triple_val. destruct (Split r) as [[? ?] ?]. cbn. auto.
      * unfold triple_val. destruct (SplitCompat r) as [[? ?] ?]. cbn. auto.
      * destruct (Stroke r); exact I.
      * destruct (slice_at 1 multiElements (CompatJamo r)) as [[l k]|] eqn:Hs; cbn [fixed]; [|split; [lia|auto]].
        apply slice_at_le in Hs. assert (HK : length multiElements = K) by reflexivity. rewrite HK in Hs. split; [lia|auto].
    + exact I.
    + destruct (String.eqb f "LastConsonant"); [destruct (LastConsonant w)|destruct (EndsWithConsonant w)]; exact I.
    + destruct (AppendPostposition w p q); exact I.
  - unfold pure_val. cbn [fst snd]. inversion H; subst; exact I.
Qed.
Lemma pure_harmless A c : pure_call c -> harmless A c.
Proof.
  intros [[f args] H|[f args] H]; inversion H; subst; unfold harmless; cbn [fst snd];
    try (match goal with Hf : In _ _ |- _ => cbn [In] in Hf; repeat destruct Hf as [<-|Hf]; [..|destruct Hf] end);
    (do 2 eexists; split; [reflexivity|repeat constructor]).
Qed.
Lemma pure_runs cs : forall s rs, Forall pure_call cs -> hangul_memory (arrs E s) ->
  exists s', runs_to (ops_of cs) rs s (VTuple (rs ++ map pure_val cs), s') /\ ext E s' = ext E s.
Proof.
  induction cs as [|c cs IH]; intros s rs Hc Hm.
  - exists s. split; [|reflexivity]. exists 0%nat. intros n _. cbn. now rewrite app_nil_r.
  - inversion Hc as [|? ? H1 H2]; subst.
    assert (exists s1, calls grow E rd wr (source (fst c)) (fst (snd c)) (snd (snd c)) s (pure_val c) s1 /\ kept (arrs E s) (arrs E s1) /\ ext E s1 = ext E s)
      as (s1 & Hcall & Hk & Hx).
    { destruct H1 as [c H1|c H1].
      - destruct (source_hangul grow E rd wr c s H1 Hm) as (s1 & Hcall & Hk & _ & Hx). exists s1. auto.
      - destruct (source_hanja_seq grow E rd wr [c] s (Forall_cons _ H1 (Forall_nil _))) as (s1 & Hseq & Hk & _ & Hx).
        exists s1. inversion Hseq; subst. match goal with H : calls_seq _ _ _ _ _ [] _ _ _ |- _ => inversion H; subst end. auto. }
    destruct (IH s1 (rs ++ [pure_val c]) H2 (kept_memory _ _ Hm Hk)) as (s2 & Hr & Hx2). exists s2. split; [|congruence].
    rewrite <- app_assoc in Hr. destruct c as [p [f args]]. eapply alone_call; [exact Hcall|exact Hr].
Qed.
Lemma concurrent_pure A O (xs : list (E * list (package * (string * list val)))) :
  hangul_memory A -> Forall (fun y => Forall pure_call (snd y)) xs ->
  exists N, forall n, (N <= n)%nat -> exists M, forall k c,
    pool_steps E rd wr k (start grow n A O (map (fun y => calling (fst y) (snd y)) xs)) c ->
    (k <= M)%nat /\ (finished c \/ exists c', pool_step E rd wr c c') /\ ~ race c /\ kept A (p_arrs E c) /\
    (finished c -> forall i x cs, nth_error xs i = Some (x, cs) ->
      nth_error (p_procs E c) i = Some (Done (Ok (VTuple (map pure_val cs))), x)).
Proof.
  intros HA Hc. destruct (calling_pool A O xs HA) as [N HN].
  - eapply Forall_impl; [|exact Hc]. intros y Hy. eapply Forall_impl; [|exact Hy]. intros c. apply pure_harmless.
  - rewrite Forall_forall in Hc. intros [x cs] Hy. destruct (pure_runs cs (mkState E A O x) [] (Hc _ Hy) HA) as (s & Hr & _). eauto.
  - exists N. intros n Hn. destruct (HN n Hn) as [M HM]. exists M. intros k c Hk. destruct (HM k c Hk) as (H1 & H2 & H3 & H4 & H5).
    split; [exact H1|]. split; [exact H2|]. split; [exact H3|]. split; [exact H4|]. intros Hf i x cs Hi.
    rewrite Forall_forall in Hc. pose proof (Hc _ (nth_error_In _ _ Hi)) as Hcs. cbn [snd] in Hcs.
    destruct (pure_runs cs (mkState E A O x) [] Hcs HA) as (s & Hr & Hx). cbn [app ext] in *.
    destruct (H5 Hf i _ _ _ _ Hi Hr) as (v' & Hp & (ca & co & Ha & _ & Hb & _ & _ & _ & Hv)).
    rewrite (fixed_same ca co (VTuple (map pure_val cs)) Ha) with (v' := v') in Hp; [rewrite Hx in Hp; exact Hp| | |exact Hv].
    + intros l Hl. apply Hb. destruct HA as [rest ->]. rewrite app_length. cbn [length]. rewrite map_length. lia.
    + clear -Hcs. cbn [fixed]. induction Hcs as [|c cs H _ IH]; cbn [map]; [exact I|]. split; [now apply pure_fixed|exact IH].
Qed.
End Cases.

Lemma conversions_code : exists f, char_code f /\
  forall grow E rd wr A O (cs : list (string * val * list Z * E)), hangul_memory A ->
  Forall (fun y => let '(g, v, data, _) := y in (g = "From" \/ g = "To")%string /\ slice_holds A v data /\ Forall is_byte data) cs ->
  exists N, forall n, (N <= n)%nat -> exists M, forall k c,
    pool_steps E rd wr k (start grow n A O (map (fun y => let '(g, v, _, x) := y in calling x [(Cp949, (g, [v]))]) cs)) c ->
    (k <= M)%nat /\ (finished c \/ exists c', pool_step E rd wr c c') /\ ~ race c /\ kept A (p_arrs E c) /\
    (finished c -> forall i g v data x, nth_error cs i = Some (g, v, data, x) ->
      exists out err, nth_error (p_procs E c) i = Some (Done (Ok (VTuple [VTuple [out; VErr err]])), x) /\
        (g = "From"%string ->
          (exists rs, decodes data rs /\ err = None /\ slice_holds (p_arrs E c) out (utf8 rs)) \/
          (truncated data /\ err = Some ErrCP949UnexpectedStream /\ out = VSlice 0 0 0 0)) /\
        (g = "To"%string -> exists rs, reads_as data rs /\ err = None /\ slice_holds (p_arrs E c) out (flat_map f rs))).
Proof.
  exists to_char. split; [exact char_code_to_char|]. intros grow E rd wr A O cs HA Hc. apply concurrent_conversions; assumption.
Qed.
Lemma pure_one grow E rd wr c s : pure_call c -> hangul_memory (arrs E s) ->
  exists s', calls grow E rd wr (source (fst c)) (fst (snd c)) (snd (snd c)) s (pure_val c) s'.
Proof.
  intros [d H1|d H1] Hm.
  - destruct (source_hangul grow E rd wr d s H1 Hm) as (s1 & Hcall & _). exists s1. exact Hcall.
  - destruct (source_hanja_seq grow E rd wr [d] s (Forall_cons _ H1 (Forall_nil _))) as (s1 & Hseq & _). exists s1.
    inversion Hseq; subst. match goal with H : calls_seq _ _ _ _ _ [] _ _ _ |- _ => inversion H; subst end. assumption.
Qed.
Lemma concurrent_pure_calls : exists F : package * (string * list val) -> val,
  (forall grow E rd wr c s, pure_call c -> hangul_memory (arrs E s) ->
     exists s', calls grow E rd wr (source (fst c)) (fst (snd c)) (snd (snd c)) s (F c) s') /\
  forall grow E rd wr A O (xs : list (E * list (package * (string * list val)))),
  hangul_memory A -> Forall (fun y => Forall pure_call (snd y)) xs ->
  exists N, forall n, (N <= n)%nat -> exists M, forall k c,
    pool_steps E rd wr k (start grow n A O (map (fun y => calling (fst y) (snd y)) xs)) c ->
    (k <= M)%nat /\ (finished c \/ exists c', pool_step E rd wr c c') /\ ~ race c /\ kept A (p_arrs E c) /\
    (finished c -> forall i x cs, nth_error xs i = Some (x, cs) ->
      nth_error (p_procs E c) i = Some (Done (Ok (VTuple (map F cs))), x)).
Proof. exists pure_val. split; [exact pure_one|]. intros. apply concurrent_pure; assumption. Qed.
