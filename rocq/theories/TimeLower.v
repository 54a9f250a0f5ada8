(** How many steps a Read takes at least: its loop moves what a conversion leaves over. *)
From Coq Require Import String ZArith List Bool Lia.
From Verif Require Import Base Utf8 SortSearch TableFrom TableTo Cp949Model StreamModel StreamModel3 IoModel GoLang GoSource GoTime GoFacts GoHeap GoCp949 GoStream
  Facts Utf8Facts SliceFacts Spec SpecCp949 SpecIO TableFacts Cp949Facts Cp949Facts2 StreamFacts StreamFacts2 StreamFacts3 StreamFacts4 StreamFacts5 SourceSpec SourceFacts SourceFacts2
  MemorySpec MemoryFacts ThreadFacts TimeFacts TimeSpec TimeCp949 TimeStream TimeReader.
Import ListNotations.
Local Open Scope string_scope.
Local Open Scope list_scope.
Local Open Scope Z_scope.
Local Open Scope go_scope.
Local Opaque fromTable toTable.
Local Arguments Z.add : simpl never.
Local Arguments Z.sub : simpl never.
Local Arguments Z.mul : simpl never.
Local Arguments Z.min : simpl never.
Local Arguments Z.max : simpl never.
Local Arguments Z.leb : simpl never.
Local Arguments Z.ltb : simpl never.
Local Arguments Z.geb : simpl never.
Local Arguments Z.gtb : simpl never.
Local Arguments Z.eqb : simpl never.
Local Arguments cells : simpl never.
Local Arguments field_of : simpl never.
Local Arguments set_field : simpl never.
Local Arguments slice_of : simpl never.
Local Arguments GoLang.run : simpl never.
Local Arguments GoTime.run_steps : simpl never.

(** ** Nothing takes a negative number of steps *)
Section Some.
Variable grow : Z -> Z -> Z.
Variable E : Type.
Variable rd : nat -> E -> Z -> Z * list Z * option error * E.
Variable wr : nat -> E -> list Z -> Z * option error * E.
Notation state := (state E).

Lemma after_some {A} (r : res (A * state)) k : (forall a s, 0 <= k a s) -> 0 <= after E r k.
Proof. intros H. destruct r as [[a s]| |]; cbn; [apply H|lia|lia]. Qed.
Lemma probes_some f w fuel : (forall k, 0 <= w k) -> forall i j, 0 <= probes fuel f w i j.
Proof.
  intros Hw. induction fuel as [|fuel IH]; intros i j; cbn [probes]; destruct (i <? j); try lia.
  specialize (Hw (Z.shiftr (i + j) 1)). destruct (f _) as [[]| |]; cbn [negb]; try lia.
  - specialize (IH i (Z.shiftr (i + j) 1)). lia.
  - specialize (IH (Z.shiftr (i + j) 1 + 1) j). lia.
Qed.
Lemma append_some s a bs : 0 <= append_steps grow E s a bs.
Proof.
  destruct a; cbn [append_steps]; try lia. pose proof (zlen_nonneg bs). pose proof (zlen_nonneg (cells E s loc off len)).
  destruct (_ <=? _); [lia|]. pose proof (zlen_nonneg (zeros (Z.max (len + zlen bs) (grow cap (len + zlen bs)) - (len + zlen bs)))). lia.
Qed.

Section Body.
Variable call : string -> list val -> state -> res (val * state).
Variable call_steps : string -> list val -> state -> Z.
Variable loops : nat.
Hypothesis Hcall : forall f args s, 0 <= call_steps f args s.
Notation eval_steps := (eval_steps grow E rd wr call call_steps loops).
Notation exec_steps := (exec_steps grow E rd wr call call_steps loops).
Definition esome (e : expr) : Prop := forall env s, 0 <= eval_steps e env s.
Definition ssome (c : stmt) : Prop := forall env s, 0 <= exec_steps c env s.

Ltac parts := repeat match goal with
  | H : Forall _ (_ :: _) |- _ => inversion H; subst; clear H
  | H : Forall _ [] |- _ => clear H
  end.
Ltac some := repeat first
  [ match goal with
    | |- 0 <= after _ _ _ => apply after_some; intros
    | |- 0 <= 1 + _ => apply Z.add_nonneg_nonneg; [lia|]
    | |- 0 <= _ + _ => apply Z.add_nonneg_nonneg
    | |- 0 <= zlen _ => apply zlen_nonneg
    | |- 0 <= Z.min _ _ => apply Z.min_glb
    | |- 0 <= Z.max 0 _ => apply Z.le_max_l
    | |- 0 <= append_steps _ _ _ _ _ => apply append_some
    | H : esome ?e |- 0 <= GoTime.eval_steps _ _ _ _ _ _ _ ?e _ _ => apply H
    | H : ssome ?e |- 0 <= GoTime.exec_steps _ _ _ _ _ _ _ ?e _ _ => apply H
    | |- 0 <= match ?x with _ => _ end => destruct x
    end
  | apply Hcall | lia
  | match goal with H : esome _ |- _ => apply H | H : ssome _ |- _ => apply H end ].

Lemma all_some env es : Forall esome es -> forall s, 0 <= all_steps grow E rd wr call call_steps loops env es s.
Proof.
  induction 1 as [|e es He _ IH]; intros s; [apply Z.le_refl|].
  change (0 <= eval_steps e env s + after E (eval grow E rd wr call loops e env s) (fun _ s => all_steps grow E rd wr call call_steps loops env es s)).
  some. apply IH.
Qed.
Lemma expr_some e : Forall esome (kids e) -> Forall ssome (kid_stmts e) -> esome e.
Proof.
  intros He Hc env s. destruct e; cbn [kids kid_stmts] in He, Hc; cbn [GoTime.eval_steps];
    try fold (all_steps grow E rd wr call call_steps loops env); try (parts; some; fail).
  - (* Append *) inversion He as [|? ? Ha Hes]; subst. some. apply all_some. assumption.
  - (* New *) apply Z.add_nonneg_nonneg; [lia|]. clear Hc. revert s. induction fs as [|[f e] fs IH]; intros s; [lia|].
    inversion He; subst. some. apply IH. assumption.
  - (* Call *) some. apply all_some. assumption.
  - (* Method *) inversion He as [|? ? Ha Hes]; subst. some. apply all_some. assumption.
  - (* Search *) parts. some. apply probes_some. intros k. some.
Qed.
Lemma stmt_some c : Forall esome (stmt_exprs c) -> Forall ssome (stmt_stmts c) -> ssome c.
Proof.
  intros He Hc env s. destruct c; cbn [stmt_exprs stmt_stmts] in He, Hc; cbn [GoTime.exec_steps];
    try fold (all_steps grow E rd wr call call_steps loops env); try (parts; some; fail).
  - (* Assign *) inversion He as [|? ? Ha Hes]; subst. apply Z.add_nonneg_nonneg; [lia|]. apply Z.add_nonneg_nonneg; [apply Ha|].
    apply after_some. intros v s1. destruct (values _ v) as [vs| |]; try lia. clear He Ha Hc. revert vs env s1.
    induction ls as [|l ls IH]; intros vs env0 s1; [lia|]. destruct vs as [|w vs]; [lia|]. cbn [flat_map] in Hes. apply Forall_app in Hes. destruct Hes as [H1 H2].
    apply Z.add_nonneg_nonneg.
    + apply Z.add_nonneg_nonneg; [lia|]. destruct l; cbn [lhs_exprs] in H1; parts; some.
    + apply after_some. intros. apply IH. assumption.
  - (* Block *) apply Z.add_nonneg_nonneg; [lia|]. clear He. revert env s. induction Hc as [|c cs Hc _ IH]; intros env s; [lia|].
    some. apply IH.
  - (* While *) parts. apply Z.add_nonneg_nonneg; [lia|].
    assert (forall m env s, 0 <= while_steps grow E rd wr call call_steps loops c c0 m env s) as Hw; [|apply Hw].
    induction m as [|m IH]; intros env1 s1; cbn [while_steps]; [lia|].
    apply Z.add_nonneg_nonneg; [some|]. apply after_some. intros [] s2; try lia. destruct b; [|lia].
    apply Z.add_nonneg_nonneg; [some|]. apply after_some. intros [k e1] s3. cbn [fst snd]. destruct k; [apply IH|lia|apply IH|lia].
  - (* Range *) parts. apply Z.add_nonneg_nonneg; [lia|]. apply Z.add_nonneg_nonneg; [some|]. apply after_some. intros v s1.
    destruct v; try lia. match goal with |- 0 <= ?f _ _ _ _ => assert (forall m k env s, 0 <= f m k env s) as Hw; [|apply Hw] end.
    clear s s1 env. induction m as [|m IH]; intros k env s; [lia|]. cbv zeta.
    apply Z.add_nonneg_nonneg; [some|]. apply after_some. intros [q e1] s2. cbn [fst snd]. destruct q; [apply IH|lia|apply IH|lia].
  - (* Return *) apply Z.add_nonneg_nonneg; [lia|]. apply all_some. assumption.
Qed.
Lemma execs_some c : ssome c.
Proof. apply (stmt_all esome ssome); [apply expr_some|apply stmt_some]. Qed.
Lemma evals_some e : esome e.
Proof. apply (expr_all esome ssome); [apply expr_some|apply stmt_some]. Qed.
End Body.

Lemma run_some prog fuel : forall f args s, 0 <= run_steps grow E rd wr prog fuel f args s.
Proof.
  induction fuel as [|fuel IH]; intros f args s; [apply Z.le_refl|].
  change (run_steps grow E rd wr prog (S fuel) f args s) with (match get f prog with
    | Some fn => enter_steps grow E rd wr (run grow E rd wr prog fuel) (run_steps grow E rd wr prog fuel) fuel fn args s | None => 0 end).
  destruct (get f prog) as [fn|]; [|lia]. unfold enter_steps.
  pose proof (zlen_nonneg (f_params fn)). pose proof (zlen_nonneg (f_results fn)).
  destruct (zero_results _ _ _ _ _ _ _ _ _) as [env| |]; try lia.
  pose proof (execs_some (run grow E rd wr prog fuel) _ fuel IH (f_body fn) env s). lia.
Qed.
End Some.

Section Run.
Variable grow : Z -> Z -> Z.
Variable E : Type.
Variable rd : nat -> E -> Z -> Z * list Z * option error * E.
Variable wr : nat -> E -> list Z -> Z * option error * E.
Variable kx : nat.
Hypothesis Hrdb : forall x k, Forall is_byte (snd (fst (fst (rd kx x k)))).
Notation state := (state E).
Notation reader := (reader E).
Notation mk := (mkState E).
Notation run := (GoLang.run grow E rd wr prog_cp949).
Notation run_steps := (GoTime.run_steps grow E rd wr prog_cp949).
Notation rst := (rst E kx).
Notation rob := (rob kx).
Notation exec n := (exec grow E rd wr (run n) n).
Notation execs n := (execs grow E rd wr (run n) n).
Notation exec_steps n := (exec_steps grow E rd wr (run n) (run_steps n) n).
Notation execs_steps n := (execs_steps grow E rd wr (run n) (run_steps n) n).

Lemma exec_least n c env s : 0 <= exec_steps n c env s.
Proof. apply execs_some. intros. apply run_some. Qed.
Lemma list_least n c cs b env s env1 s1 : exec n c env s = Ok (Next, env1, s1) -> b <= execs_steps n cs env1 s1 ->
  b <= execs_steps n (c :: cs) env s.
Proof. intros H Hb. cbn [TimeFacts.execs_steps]. rewrite H. cbn [after fst snd]. pose proof (exec_least n c env s). lia. Qed.
Lemma list_least1 n c cs b env s : b <= exec_steps n c env s -> b <= execs_steps n (c :: cs) env s.
Proof.
  intros H. cbn [TimeFacts.execs_steps].
  assert (forall cs env s, 0 <= execs_steps n cs env s) as H0.
  { clear. induction cs as [|c cs IH]; intros env s; [apply Z.le_refl|]. cbn [TimeFacts.execs_steps]. pose proof (exec_least n c env s).
    destruct (exec n c env s) as [[[k env1] s1]| |]; cbn [after fst snd]; try lia. destruct k; try lia. specialize (IH env1 s1). lia. }
  destruct (exec n c env s) as [[[k env1] s1]| |]; cbn [after fst snd]; try lia. destruct k; try lia. specialize (H0 cs env1 s1). lia.
Qed.

Lemma conv_least O pr pt cd lb ob nb cb A X lr sl ls scr lo hi e r1 : (pr < length O)%nat -> (pt < length O)%nat -> pr <> pt ->
  ref A lr sl -> ref A ls scr -> sep A lr ls -> Forall is_byte (arr sl) ->
  convert grow E (mkReader E X scr lo hi sl e) = Ok r1 ->
  exists N, forall n, (N <= n)%nat ->
    slen (r_rdata _ r1) <=
      execs_steps n conv_stmts [("r", VPtr pr); ("buf", VSlice lb ob nb cb)] (rst A O X pr pt cd (sv lr sl) e (sv ls scr)).
Proof.
  intros Hpr Hpt Hne Hr Hs Hsep Hba H. unfold convert in H.
  assert (Hb : Forall is_byte (contents sl)) by (apply Forall_ztake; assumption). cbn [r_rdata r_src r_scratch r_cdata_lo r_cdata_hi r_err] in H.
  destruct (from_Translate grow fromTable scr (contents sl)) as [[[[nc out] ce] scr1]| |] eqn:Ht; try discriminate.
  cbn [bind] in H.
  set (nc1 := match e with Some _ => if nc =? 0 then slen sl else nc | None => nc end) in *.
  destruct (nc1 >? slen sl) eqn:Hgt; [discriminate|].
  pose proof Hr as (Hlr & Har & Hokr). unfold slice_ok in Hokr.
  assert (Hnc : 0 <= nc).
  { unfold from_Translate, reslice in Ht. destruct (_ && _); [|discriminate]. cbn [bind] in Ht.
    eapply from_loop_count in Ht; [exact Ht|lia]. }
  assert (Hnc1 : 0 <= nc1 <= slen sl) by (unfold nc1 in *; destruct e; [destruct (nc =? 0)|]; lia).
  assert (slen (r_rdata _ r1) = slen sl - nc1) as ->.
  { unfold reslice in H. destruct (_ && _); [|discriminate]. cbn [bind] in H. injection H as <-. cbn [r_rdata slen]. rewrite zlen_zdrop, (contents_len sl Hokr) by lia. lia. }
  clear H. pose proof (contents_len sl Hokr) as Hlen.
  set (O1 := set_nth pr (rob pt cd (sv lr sl) e) O).
  assert (Hpt1 : (pt < length O1)%nat) by (unfold O1; now rewrite set_nth_len).
  destruct (go_from_Translate grow E rd wr O1 X pt "translateFromCp949" fromTable lr A ls scr (contents sl) 0 (slen sl) (scap sl) nc out ce scr1
     Hpt1 u16_fromTable Hs (ref_input _ _ _ Hr) Hsep Hb Ht) as (A1 & ls1 & Hs1 & Hg1 & N & Hrun).
  exists N. intros n Hn. specialize (Hrun n ltac:(lia)).
  set (env := [("r", VPtr pr); ("buf", VSlice lb ob nb cb)]).
  set (s0 := rst A O X pr pt cd (sv lr sl) e (sv ls scr)) in *.
  set (v3 := fun c => combine ["nc"; "cdata"; "cvterr"] [VInt c; out_val ls1 out; VErr ce]).
  eapply list_least.
  { instantiate (1 := rst A1 O X pr pt cd (sv lr sl) e (sv ls1 scr1)). instantiate (1 := v3 nc ++ env). eapply exec_Define.
    - unfold s0. cbn. rewrite rf_tr by assumption. cbn. rewrite rf_rdata by assumption. cbn.
      rewrite nth_error_set_nth by (rewrite set_nth_len; assumption). cbn. exact Hrun.
    - reflexivity. }
  eapply list_least.
  { instantiate (1 := rst A1 O X pr pt cd (sv lr sl) e (sv ls1 scr1)). instantiate (1 := v3 nc ++ env).
    eapply exec_If; [reflexivity|]. destruct ce; reflexivity. }
  eapply list_least.
  { instantiate (1 := rst A1 O X pr pt (out_val ls1 out) (sv lr sl) e (sv ls1 scr1)). instantiate (1 := v3 nc ++ env).
    eapply exec_Field; [reflexivity|reflexivity|]. apply rs_cdata; assumption. }
  eapply list_least.
  { instantiate (1 := rst A1 O X pr pt (out_val ls1 out) (sv lr sl) e (sv ls1 scr1)). instantiate (1 := v3 nc1 ++ env).
    eapply exec_If.
    { instantiate (1 := rst A1 O X pr pt (out_val ls1 out) (sv lr sl) e (sv ls1 scr1)).
      instantiate (1 := (nc =? 0) && negb (is_nil e)). cbn.
      destruct (nc =? 0); cbn; [rewrite rf_err by assumption|]; reflexivity. }
    subst nc1. destruct (nc =? 0), e; cbn [andb negb is_nil]; eapply exec_Block';
      (eapply execs_cons; [eapply exec_Var; cbn; rewrite rf_rdata by assumption; reflexivity|reflexivity] || reflexivity). }
  apply list_least1.
  set (st := rst A1 O X pr pt (out_val ls1 out) (sv lr sl) e (sv ls1 scr1)) in *.
  assert (slice_of (sv lr sl) nc1 None = Ok (VSlice lr (0 + nc1) (slen sl - nc1) (scap sl - nc1))) as Hsf.
  { unfold slice_of. replace ((0 <=? nc1) && (nc1 <=? slen sl) && (slen sl <=? scap sl)) with true by lia. reflexivity. }
  cbn. unfold st. rewrite rf_rdata by assumption. cbn. rewrite rf_rdata by assumption. cbn. rewrite rf_rdata by assumption. cbn.
  rewrite Hsf. cbn.
  fold st. unfold copy_to. replace (Z.min (slen sl) (slen sl - nc1)) with (slen sl - nc1) by lia.
  cbn. rewrite slice_front by lia. cbn.
  match goal with |- context [set_field ?E ?a ?b ?c ?d] => destruct (set_field E a b c d) end; cbn; lia.
Qed.

(** What the conversions of a Read leave over. *)
Fixpoint kepts (fil : reader -> Z -> res reader) (fuel : nat) (r : reader) (nb : Z) : Z :=
  match fuel with
  | O => 0
  | S fuel =>
    if r_cdata_hi _ r - r_cdata_lo _ r >? 0 then 0
    else
      let conv r := match convert grow E r with Ok r => slen (r_rdata _ r) + kepts fil fuel r nb | _ => 0 end in
      match r_err _ r with
      | None => match fil r nb with Ok r => conv r | _ => 0 end
      | Some _ => if slen (r_rdata _ r) =? 0 then 0 else conv r
      end
  end.

Notation skip_if := (If (Cmp Gt (Len (Field (Var "r") "cdata")) (Lit 0))
  (Block [Define ["n"] (CopyE (Var "buf") (Field (Var "r") "cdata"));
   Assign [LField (Var "r") "cdata"] (SliceFrom (Field (Var "r") "cdata") (Var "n"));
   Return [(Var "n"); NilErr]]) (Block [])).
Notation err_if := (If (Cmp Eq (Field (Var "r") "err") NilErr)
  (Block fill_stmts)
  (Block [If (Cmp Eq (Len (Field (Var "r") "rdata")) (Lit 0))
  (Block [Break])
  (Block [])])).

Section Loop.
Variables (O : list (string * list (string * val))) (pr pt lb : nat) (ob nb cb : Z).
Hypothesis Hpr : (pr < length O)%nat.
Hypothesis Hpt : (pt < length O)%nat.
Hypothesis Hne : pr <> pt.
Notation env0 := [("r", VPtr pr); ("buf", VSlice lb ob nb cb)].
Notation while_steps n := (while_steps grow E rd wr (run n) (run_steps n) n (LitB true) read_body).

Lemma while_least n m env s : 0 <= while_steps n m env s.
Proof.
  revert env s. induction m as [|m IH]; intros env s; [apply Z.le_refl|]. cbn [TimeCp949.while_steps].
  change (eval grow E rd wr (run n) n (LitB true) env s) with (Ok (VBool true, s)).
  change (eval_steps grow E rd wr (run n) (run_steps n) n (LitB true) env s) with 1. cbn [after].
  pose proof (exec_least n read_body env s). destruct (exec n read_body env s) as [[[k env1] s1]| |]; cbn [after fst snd]; try lia.
  specialize (IH env1 s1). destruct k; lia.
Qed.
Lemma while_S_least n m s b1 b2 s1 : b1 <= exec_steps n read_body env0 s -> exec n read_body env0 s = Ok (Next, env0, s1) ->
  b2 <= while_steps n m env0 s1 -> b1 + b2 <= while_steps n (S m) env0 s.
Proof.
  intros H1 Hx H2. cbn [TimeCp949.while_steps].
  change (eval grow E rd wr (run n) n (LitB true) env0 s) with (Ok (VBool true, s)).
  change (eval_steps grow E rd wr (run n) (run_steps n) n (LitB true) env0 s) with 1. cbn [after]. rewrite Hx. cbn [after fst snd]. lia.
Qed.
Lemma body_least n s s1 b : exec n skip_if env0 s = Ok (Next, env0, s) -> exec n err_if env0 s = Ok (Next, env0, s1) ->
  b <= execs_steps n conv_stmts env0 s1 -> b <= exec_steps n read_body env0 s.
Proof.
  intros H1 H2 H3. unfold read_body. rewrite steps_Block. apply Z.le_trans with (1 + b); [lia|]. apply Z.add_le_mono_l.
  eapply list_least; [exact H1|]. eapply list_least; [exact H2|]. exact H3.
Qed.

Lemma Read_loop_least : forall fuel A ls lr cdv r bs err r',
  rinv E A ls lr cdv r -> (lb < length A)%nat -> 0 <= ob -> 0 <= nb <= cb -> ob + cb <= zlen (cell A lb) ->
  sep A lb ls -> sep A lb lr ->
  Read3 grow E (rd kx) fuel r nb = Ok (bs, err, r') ->
  exists N, forall n m, (N <= n)%nat -> (N <= m)%nat ->
    kepts (fill3 E (rd kx)) fuel r nb <=
      while_steps n m env0 (rst A O (r_src _ r) pr pt cdv (sv lr (r_rdata _ r)) (r_err _ r) (sv ls (r_scratch _ r))).
Proof.
  induction fuel as [|fuel IH]; intros A ls lr cdv r bs err r' Hinv Hlb Hob Hnb Hcb Hbs Hbr H; [discriminate|].
  cbn [Read3 kepts] in *.
  destruct r as [X scr lo hi sl e]. cbn [r_rdata r_src r_scratch r_cdata_lo r_cdata_hi r_err] in *.
  pose proof Hinv as (Hs & Hr & Hsep & Hby & Hlo & Hhi & lc & oc & cc & -> & Hcc & Hcd & Hlc).
  cbn [r_rdata r_src r_scratch r_cdata_lo r_cdata_hi r_err] in *.
  pose proof Hs as (Hls & Has & Hoks). unfold slice_ok in Hoks.
  set (st := rst A O X pr pt (VSlice lc oc (hi - lo) cc) (sv lr sl) e (sv ls scr)) in *.
  destruct (hi - lo >? 0) eqn:Hpend; [exists 0%nat; intros; apply while_least|].
  assert (Hconv : forall A0 X0 lr0 sl0 e0, ref A0 lr0 sl0 -> ref A0 ls scr -> sep A0 lr0 ls -> Forall is_byte (arr sl0) ->
     changes grow A ls lr A0 ls lr0 ->
     (let! r := convert grow E (mkReader E X0 scr lo hi sl0 e0) in Read3 grow E (rd kx) fuel r nb) = Ok (bs, err, r') ->
     exists N, forall n, (N <= n)%nat -> exists s1 env1,
       execs n conv_stmts env0 (rst A0 O X0 pr pt (VSlice lc oc (hi - lo) cc) (sv lr0 sl0) e0 (sv ls scr)) = Ok (Next, env1 ++ env0, s1) /\
       forall m, (N <= m)%nat ->
         match convert grow E (mkReader E X0 scr lo hi sl0 e0) with Ok r => slen (r_rdata _ r) + kepts (fill3 E (rd kx)) fuel r nb | _ => 0 end <=
         execs_steps n conv_stmts env0 (rst A0 O X0 pr pt (VSlice lc oc (hi - lo) cc) (sv lr0 sl0) e0 (sv ls scr)) + while_steps n m env0 s1).
  { intros A0 X0 lr0 sl0 e0 Hr0 Hs0 Hsep0 Hby0 Hch0 H0.
    destruct (convert grow E (mkReader E X0 scr lo hi sl0 e0)) as [r1| |] eqn:Hc; try discriminate. cbn [bind] in H0.
    destruct (go_convert grow E rd wr kx O pr pt (VSlice lc oc (hi - lo) cc) lb ob nb cb A0 X0 lr0 sl0 ls scr lo hi e0 r1 Hpr Hpt Hne Hr0 Hs0 Hsep0 Hby0 Hc)
      as (A1 & ls1 & Hr1 & Hs1 & Hsep1 & Hby1 & Hx1 & He1 & Hlo1 & Hhi1 & La & Sa & Ka & Ta & cd1 & env1 & N & Hcd1 & Hrun).
    destruct (conv_least O pr pt (VSlice lc oc (hi - lo) cc) lb ob nb cb A0 X0 lr0 sl0 ls scr lo hi e0 r1 Hpr Hpt Hne Hr0 Hs0 Hsep0 Hby0 Hc)
      as (N1 & Hst1).
    assert (Hch1 : changes grow A ls lr A1 ls1 lr0).
    { eapply changes_trans; [exact Hch0|]. split; [assumption|]. split; [assumption|]. split; [auto|]. split; assumption. }
    destruct (changes_sep _ _ _ _ _ _ _ lb Hch1 Hlb Hbs Hbr) as [Hbs1 Hbr1].
    assert (Hcell : cell A1 lb = cell A lb) by (apply Hch1; assumption).
    assert (Hlb1 : (lb < length A1)%nat) by (destruct Hch1; lia).
    destruct (IH A1 ls1 lr0 cd1 r1 bs err r') as (N2 & Hrun2);
      [|assumption|assumption|assumption|rewrite Hcell; assumption|assumption|assumption|assumption|].
    { pose proof Hs1 as (_ & _ & Hok1). unfold slice_ok in Hok1.
      split; [assumption|]. split; [assumption|]. split; [assumption|]. split; [assumption|].
      rewrite Hlo1. split; [lia|]. split; [lia|]. rewrite Z.sub_0_r.
      destruct Hcd1 as [->|[-> ->]].
      - exists ls1, 0, (scap (r_scratch _ r1)). split; [reflexivity|]. split; [lia|]. split; [auto|left; split; [reflexivity|lia]].
      - exists 0%nat, 0, 0. split; [reflexivity|]. split; [lia|]. split; [lia|auto]. }
    exists (N + N1 + N2)%nat. intros n Hn. eexists _, env1. split; [apply Hrun; lia|].
    intros m Hm. specialize (Hrun2 n m ltac:(lia) ltac:(lia)). specialize (Hst1 n ltac:(lia)).
    rewrite He1, Hx1 in Hrun2. lia. }
  assert (Hskip : forall n, exec n skip_if env0 st = Ok (Next, env0, st)) by (intros n; apply skip_exec; assumption).
  assert (Hfin : forall n s0 s1 env1, exec n err_if env0 st = Ok (Next, env0, s0) -> execs n conv_stmts env0 s0 = Ok (Next, env1 ++ env0, s1) ->
    exec n read_body env0 st = Ok (Next, env0, s1)).
  { intros n s0 s1 env1 Hei Hcv. unfold read_body. eapply exec_Block'.
    { eapply execs_cons; [apply Hskip|]. eapply execs_cons; [exact Hei|exact Hcv]. }
    unfold leave. rewrite app_length, Nat.add_sub. apply skipn_app_exact. }
  destruct e as [e|].
  + destruct (slen sl =? 0) eqn:Hsl; [exists 0%nat; intros; apply while_least|].
    destruct (Hconv A X lr sl (Some e) Hr Hs Hsep Hby) as (N & Hrun);
      [split; [lia|]; split; [auto|]; split; [auto|]; split; [auto|apply spend2_refl]|exact H|].
    exists (S N). intros n [|m] Hn Hm; [lia|].
    destruct (Hrun n ltac:(lia)) as (s1 & env1 & Hcv & Hloop).
    assert (Hei : exec n err_if env0 st = Ok (Next, env0, st)).
    { eapply exec_If.
      { unfold st. cbn. rewrite rf_err by assumption. reflexivity. }
      cbn [is_nil]. eapply exec_Block'.
      { eapply execs_cons; [|reflexivity]. eapply exec_If.
        { unfold st. cbn. rewrite rf_rdata by assumption. cbn. rewrite Hsl. reflexivity. }
        cbv iota. eapply exec_Block'. { reflexivity. } reflexivity. }
      reflexivity. }
    eapply Z.le_trans; [apply (Hloop m); lia|]. eapply while_S_least; [|eapply Hfin; eassumption|reflexivity].
    eapply body_least; [apply Hskip|exact Hei|reflexivity].
  + destruct (fill3 E (rd kx) (mkReader E X scr lo hi sl None) nb) as [r1| |] eqn:Hf; try discriminate. cbn [bind] in H.
    destruct (go_fill grow E rd wr kx Hrdb O pr pt (VSlice lc oc (hi - lo) cc) (sv ls scr) lb ob nb cb A X lr sl scr lo hi r1 Hpr Hpt Hne Hr Hf)
      as (A0 & lr0 & Hr0 & Hg0 & Hsc & Hl0 & Hh0 & Hby0 & N0 & Hrun0).
    destruct (ref_grows _ _ _ _ _ _ _ Hs Hg0 (GoStream.sep_sym E rd wr _ _ _ Hsep)) as [Hs0 Hsep0].
    destruct r1 as [X1 scr1 lo1 hi1 sl1 e1]. cbn [r_rdata r_src r_scratch r_cdata_lo r_cdata_hi r_err] in *.
    subst scr1 lo1 hi1.
    destruct (Hconv A0 X1 lr0 sl1 e1 Hr0 Hs0 (GoStream.sep_sym E rd wr _ _ _ Hsep0) (Hby0 Hby)) as (N & Hrun);
      [destruct Hg0 as (La & Na & Fa & _ & b & Hgb & Htb); split; [assumption|]; split; [auto|]; split; [assumption|];
         split; [intros j Hj _ Hjr; apply Fa; assumption|];
         exists 0, b; rewrite (Fa ls Hls (GoStream.sep_sym E rd wr _ _ _ Hsep)); split; [constructor|]; split; [exact Hgb|lia]
      |exact H|].
    exists (S (N + N0)). intros n [|m] Hn Hm; [lia|].
    destruct (Hrun n ltac:(lia)) as (s1 & env1 & Hcv & Hloop).
    specialize (Hrun0 n ltac:(lia)).
    assert (Hei : exec n err_if env0 st = Ok (Next, env0, rst A0 O X1 pr pt (VSlice lc oc (hi - lo) cc) (sv lr0 sl1) e1 (sv ls scr))).
    { eapply exec_If.
      { unfold st. cbn. rewrite rf_err by assumption. reflexivity. }
      cbn [is_nil]. exact Hrun0. }
    eapply Z.le_trans; [apply (Hloop m); lia|]. eapply while_S_least; [|eapply Hfin; eassumption|reflexivity].
    eapply body_least; [apply Hskip|exact Hei|reflexivity].
Qed.
End Loop.

Notation is_reader := (is_reader E kx).
Lemma Read_least fuel s p pt ls lr r lb ob nb cb old bs err r' :
  is_reader s p pt ls lr r -> ext E s = r_src _ r ->
  input (arrs _ s) lb ob nb cb old -> sep (arrs _ s) lb ls -> sep (arrs _ s) lb lr ->
  Read3 grow E (rd kx) fuel r nb = Ok (bs, err, r') ->
  exists N, forall n, (N <= n)%nat ->
    kepts (fill3 E (rd kx)) fuel r nb <= run_steps n "cp949Reader.Read" [VPtr p; VSlice lb ob nb cb] s.
Proof.
  intros (Hne & cdv & Hop & Hot & Hinv) Hx (Hlb & Hob & Hnb & Hcb & _) Hbs Hbr H.
  destruct s as [A O X]. cbn [arrs objs ext] in *. subst X.
  assert (Hp : (p < length O)%nat) by (apply nth_error_Some; congruence).
  assert (Hpt : (pt < length O)%nat) by (apply nth_error_Some; congruence).
  assert (Hst : mk A O (r_src _ r) = rst A O (r_src _ r) p pt cdv (sv lr (r_rdata _ r)) (r_err _ r) (sv ls (r_scratch _ r))).
  { unfold GoStream.rst, GoCp949.trs. rewrite (set_nth_id p) by assumption. rewrite set_nth_id by assumption. reflexivity. }
  rewrite Hst in *.
  destruct (Read_loop_least O p pt lb ob nb cb Hp Hpt Hne fuel A ls lr cdv r bs err r' Hinv Hlb Hob Hnb Hcb Hbs Hbr H) as (N & Hrun).
  exists (S N). intros [|n] Hn; [lia|]. specialize (Hrun n n ltac:(lia) ltac:(lia)).
  rewrite run_steps_S. cbn [the get bind prog_cp949 String.eqb Ascii.eqb Bool.eqb] in *.
  unfold enter_steps. cbn [f_results f_cp949Reader_Read zero_results f_params combine]. rewrite read_is, steps_Block.
  match goal with |- _ <= ?a + (1 + ?b) => assert (kepts (fill3 E (rd kx)) fuel r nb <= b); [|change a with 3; lia] end.
  apply list_least1. rewrite exec_steps_While. lia.
Qed.
End Run.
