(** How many steps a Reader takes. *)
From Coq Require Import String ZArith List Bool Lia.
From Verif Require Import Base Utf8 SortSearch TableFrom TableTo Cp949Model StreamModel StreamModel3 IoModel GoLang GoSource GoTime GoFacts GoHeap GoCp949 GoStream
  Facts Utf8Facts SliceFacts Spec SpecCp949 SpecIO TableFacts Cp949Facts Cp949Facts2 StreamFacts StreamFacts2 StreamFacts3 StreamFacts4 StreamFacts5 SourceSpec SourceFacts SourceFacts2
  MemorySpec MemoryFacts TimeFacts TimeSpec TimeCp949 TimeStream.
Import ListNotations.
Local Open Scope string_scope.
Local Open Scope list_scope.
Local Open Scope Z_scope.
Local Open Scope go_scope.
Local Opaque fromTable toTable.
Local Arguments Z.add : simpl never.
Local Arguments Z.sub : simpl never.
Local Arguments Z.mul : simpl never.
Local Arguments Z.min : simpl never.
Local Arguments Z.max : simpl never.
Local Arguments Z.leb : simpl never.
Local Arguments Z.ltb : simpl never.
Local Arguments Z.geb : simpl never.
Local Arguments Z.gtb : simpl never.
Local Arguments Z.eqb : simpl never.
Local Arguments cells : simpl never.
Local Arguments field_of : simpl never.
Local Arguments set_field : simpl never.
Local Arguments slice_of : simpl never.
Local Arguments GoLang.run : simpl never.
Local Arguments GoTime.run_steps : simpl never.

Section Run.
Variable grow : Z -> Z -> Z.
Variable E : Type.
Variable rd : nat -> E -> Z -> Z * list Z * option error * E.
Variable wr : nat -> E -> list Z -> Z * option error * E.
Variable kx : nat.
Hypothesis Hrdb : forall x k, Forall is_byte (snd (fst (fst (rd kx x k)))).
Notation state := (state E).
Notation reader := (reader E).
Notation mk := (mkState E).
Notation run := (GoLang.run grow E rd wr prog_cp949).
Notation run_steps := (GoTime.run_steps grow E rd wr prog_cp949).
Notation tables := (TimeFacts.tables E).
Notation within := (TimeFacts.within E).
Notation size s := (allocated (arrs E s)).
Notation rst := (rst E kx).
Notation rob := (rob kx).
Notation exec n := (exec grow E rd wr (run n) n).
Notation execs n := (execs grow E rd wr (run n) n).
Notation exec_steps n := (exec_steps grow E rd wr (run n) (run_steps n) n).
Notation execs_steps n := (execs_steps grow E rd wr (run n) (run_steps n) n).
Notation list_within := (list_within grow E rd wr).
Notation Block_within := (Block_within grow E rd wr).
Notation If_within := (If_within grow E rd wr).
Notation steps_fine := (steps_fine grow E rd wr).
Ltac fine := intros; eapply within_le; [eapply steps_fine; [reflexivity|assumption|eassumption]|vm_compute; discriminate].

Lemma fill_steps O pr pt cd sc lb ob nb cb A X lr sl scr lo hi r1 : (pr < length O)%nat -> (pt < length O)%nat -> pr <> pt ->
  ref A lr sl ->
  fill3 E (rd kx) (mkReader E X scr lo hi sl None) nb = Ok r1 ->
  tables (rst A O X pr pt cd (sv lr sl) None sc) ->
  exists N, forall n, (N <= n)%nat -> forall K env' s',
    exec n (Block fill_stmts) [("r", VPtr pr); ("buf", VSlice lb ob nb cb)] (rst A O X pr pt cd (sv lr sl) None sc) = Ok (K, env', s') ->
    within 201 (exec_steps n (Block fill_stmts) [("r", VPtr pr); ("buf", VSlice lb ob nb cb)] (rst A O X pr pt cd (sv lr sl) None sc))
      (rst A O X pr pt cd (sv lr sl) None sc) s'.
Proof.
  intros Hpr Hpt Hne Hr H Htab. unfold fill3 in H. cbn [r_rdata r_src r_scratch r_cdata_lo r_cdata_hi r_err] in H.
  destruct (ensureCap sl (slen sl + nb)) as [b| |] eqn:Hb; try discriminate. clear H.
  destruct (go_ensureCap grow E rd wr A (set_nth pt (tr "translateFromCp949" fromTable sc) (set_nth pr (rob pt cd (sv lr sl) None) O)) X lr sl _ b Hr Hb)
    as (A1 & l1 & Hr1 & Hg1 & Hrun).
  pose proof Hr1 as (Hl1 & Ha1 & Hok1). unfold slice_ok in Hok1.
  exists (S (Z.to_nat (slen sl + nb))). intros [|n] Hn; [lia|].
  replace 201 with (1 + (140 + (18 + (15 + (17 + 10))))) by ring.
  apply Block_within. apply list_within; [lia|fine|].
  intros env1 s1 Hx T1.
  assert (exec (S n) (Assign [LField (Var "r") "rdata"] (Call "ensureCap" [(Field (Var "r") "rdata"); (Arith Add Int (Len (Field (Var "r") "rdata")) (Len (Var "buf")))]))
     [("r", VPtr pr); ("buf", VSlice lb ob nb cb)] (rst A O X pr pt cd (sv lr sl) None sc) =
     Ok (Next, [("r", VPtr pr); ("buf", VSlice lb ob nb cb)], rst A1 O X pr pt cd (sv l1 b) None sc)) as H1.
  { eapply exec_Field.
    { cbn. rewrite rf_rdata by assumption. cbn. rewrite rf_rdata by assumption. cbn. apply Hrun. lia. }
    { reflexivity. }
    { apply (rs_rdata _ _ A1 O X pr pt cd (sv lr sl)); assumption. } }
  rewrite H1 in Hx. injection Hx as <- <-. clear H1.
  apply list_within; [lia| |].
  { intros K env2 s2 Hx. destruct (rd kx X (scap b - slen b)) as [[[k stored] e] X1] eqn:Hrd.
    assert (exec (S n) (Define ["n"; "err"] (Method (Field (Var "r") "r") "Read" [(Slice (Field (Var "r") "rdata") (Len (Field (Var "r") "rdata")) (Cap (Field (Var "r") "rdata")))]))
      [("r", VPtr pr); ("buf", VSlice lb ob nb cb)] (rst A1 O X pr pt cd (sv l1 b) None sc) =
      Ok (Next, combine ["n"; "err"] [VInt k; VErr e] ++ [("r", VPtr pr); ("buf", VSlice lb ob nb cb)],
        set_ext E (store E (rst A1 O X pr pt cd (sv l1 b) None sc) l1 (0 + slen b) (ztake (scap b - slen b) stored)) X1)) as H1.
    { eapply exec_Define.
      2: { instantiate (1 := VTuple [VInt k; VErr e]). reflexivity. }
      cbn. rewrite rf_r by assumption. cbn. rewrite rf_rdata by assumption. cbn. rewrite rf_rdata by assumption. cbn.
      rewrite rf_rdata by assumption. cbn.
      unfold slice_of. replace ((0 <=? slen b) && (slen b <=? scap b) && (scap b <=? scap b)) with true by lia. cbn.
      rewrite Hrd. reflexivity. }
    rewrite H1 in Hx. injection Hx as <- <- <-. split; [exact T1|]. split.
    { change (arrs E (set_ext E ?s _)) with (arrs E s). apply store_size. }
    cbn. rewrite rf_r by assumption. cbn. rewrite rf_rdata by assumption. cbn. rewrite rf_rdata by assumption. cbn. rewrite rf_rdata by assumption. cbn.
    pose proof (store_size E (rst A1 O X pr pt cd (sv l1 b) None sc) l1 (0 + slen b) (ztake (scap b - slen b) stored)) as Hsz.
    unfold slice_of. replace ((0 <=? slen b) && (slen b <=? scap b) && (scap b <=? scap b)) with true by lia. cbn.
    change (arrs E (set_ext E ?s _)) with (arrs E s) in *. cbn in Hsz. unfold zlen. cbn. lia. }
  intros env2 s2 _ T2. apply list_within; [lia|fine|].
  intros env3 s3 _ T3. apply list_within; [lia|fine|].
  intros env4 s4 _ T4. replace 10 with (10 + 0) by ring. apply list_within; [lia|fine|].
  intros env5 s5 _ T5 K env6 s6 Hx. injection Hx as <- <- <-. split; [assumption|]. split; cbn; lia.
Qed.

Lemma step_inj (k k' : ctl) (a a' : env) (b b' : state) : Ok (k, a, b) = Ok (k', a', b') -> k' = k /\ a' = a /\ b' = b.
Proof. intros [= -> -> ->]. auto. Qed.
Lemma tables_rst A O X pr pt cd rdv e sc A' X' cd' rdv' e' sc' : (pr < length O)%nat -> (pt < length O)%nat -> pr <> pt ->
  tables (rst A O X pr pt cd rdv e sc) -> tables (rst A' O X' pr pt cd' rdv' e' sc').
Proof.
  intros Hpr Hpt Hne H. unfold TimeFacts.tables in *. apply Forall_forall. intros o Ho. apply In_nth_error in Ho. destruct Ho as [q Hq].
  unfold GoStream.rst, GoCp949.trs in *. cbn [objs] in *. rewrite Forall_forall in H.
  destruct (Nat.eq_dec q pt) as [->|H1].
  - rewrite nth_error_set_nth in Hq by (rewrite set_nth_len; assumption). injection Hq as <-. intros v Hv.
    cbn in Hv. injection Hv as <-. exists fromTable. split; [reflexivity|apply zlen_fromTable].
  - rewrite nth_error_set_nth_ne in Hq by congruence. destruct (Nat.eq_dec q pr) as [->|H2].
    + rewrite nth_error_set_nth in Hq by assumption. injection Hq as <-. intros v Hv. discriminate.
    + apply H. apply (nth_error_In _ q). rewrite !nth_error_set_nth_ne in * by congruence. exact Hq.
Qed.
Lemma conv_steps O pr pt cd lb ob nb cb A X lr sl ls scr lo hi e r1 : (pr < length O)%nat -> (pt < length O)%nat -> pr <> pt ->
  ref A lr sl -> ref A ls scr -> sep A lr ls -> Forall is_byte (arr sl) ->
  convert grow E (mkReader E X scr lo hi sl e) = Ok r1 ->
  tables (rst A O X pr pt cd (sv lr sl) e (sv ls scr)) ->
  exists N, forall n, (N <= n)%nat -> forall K env' s',
    execs n conv_stmts [("r", VPtr pr); ("buf", VSlice lb ob nb cb)] (rst A O X pr pt cd (sv lr sl) e (sv ls scr)) = Ok (K, env', s') ->
    within (502 * slen sl + 700)
      (execs_steps n conv_stmts [("r", VPtr pr); ("buf", VSlice lb ob nb cb)] (rst A O X pr pt cd (sv lr sl) e (sv ls scr)))
      (rst A O X pr pt cd (sv lr sl) e (sv ls scr)) s'.
Proof.
  intros Hpr Hpt Hne Hr Hs Hsep Hba H Htab. unfold convert in H.
  assert (Hb : Forall is_byte (contents sl)) by (apply Forall_ztake; assumption). cbn [r_rdata r_src r_scratch r_cdata_lo r_cdata_hi r_err] in H.
  destruct (from_Translate grow fromTable scr (contents sl)) as [[[[nc out] ce] scr1]| |] eqn:Ht; try discriminate.
  cbn [bind] in H.
  set (nc1 := match e with Some _ => if nc =? 0 then slen sl else nc | None => nc end) in *.
  destruct (nc1 >? slen sl) eqn:Hgt; [discriminate|]. clear H.
  pose proof Hr as (Hlr & Har & Hokr). unfold slice_ok in Hokr.
  assert (Hnc : 0 <= nc).
  { unfold from_Translate, reslice in Ht. destruct (_ && _); [|discriminate]. cbn [bind] in Ht.
    eapply from_loop_count in Ht; [exact Ht|lia]. }
  assert (Hnc1 : 0 <= nc1 <= slen sl) by (unfold nc1 in *; destruct e; [destruct (nc =? 0)|]; lia).
  pose proof (contents_len sl Hokr) as Hlen.
  set (O1 := set_nth pr (rob pt cd (sv lr sl) e) O).
  assert (Hpt1 : (pt < length O1)%nat) by (unfold O1; now rewrite set_nth_len).
  destruct (go_from_Translate grow E rd wr O1 X pt "translateFromCp949" fromTable lr A ls scr (contents sl) 0 (slen sl) (scap sl) nc out ce scr1
     Hpt1 u16_fromTable Hs (ref_input _ _ _ Hr) Hsep Hb Ht) as (A1 & ls1 & Hs1 & Hg1 & N & Hrun).
  destruct (from_Translate_steps grow E rd wr O1 X pt "translateFromCp949" fromTable lr A ls scr (contents sl) 0 (slen sl) (scap sl) nc out ce scr1
     Hpt1 u16_fromTable Hs (ref_input _ _ _ Hr) Hsep Hb Ht Htab) as (N2 & Hsteps).
  exists (N + N2)%nat. intros n Hn. specialize (Hrun n ltac:(lia)). specialize (Hsteps n ltac:(lia) _ _ Hrun). rewrite Hlen in Hsteps.
  set (env := [("r", VPtr pr); ("buf", VSlice lb ob nb cb)]).
  set (s0 := rst A O X pr pt cd (sv lr sl) e (sv ls scr)) in *.
  set (v3 := fun c => combine ["nc"; "cdata"; "cvterr"] [VInt c; out_val ls1 out; VErr ce]).
  assert (exec n (Define ["nc"; "cdata"; "cvterr"] (Method (Field (Var "r") "tr") "Translate" [(Field (Var "r") "rdata")])) env s0 =
    Ok (Next, v3 nc ++ env, rst A1 O X pr pt cd (sv lr sl) e (sv ls1 scr1))) as H1.
  { eapply exec_Define.
    - unfold s0. cbn. rewrite rf_tr by assumption. cbn. rewrite rf_rdata by assumption. cbn.
      rewrite nth_error_set_nth by (rewrite set_nth_len; assumption). cbn. exact Hrun.
    - reflexivity. }
  replace (502 * slen sl + 700) with (501 * (slen sl + 1) + 60 + (10 + (10 + (30 + (slen sl + 89))))) by ring.
  apply list_within; [lia| |].
  { intros K env1 s1 Hx. rewrite H1 in Hx. apply step_inj in Hx as (-> & -> & ->).
    destruct Hsteps as (T1 & T2 & T3). split; [exact T1|]. split; [exact T2|].
    unfold s0. cbn. rewrite rf_tr by assumption. cbn. rewrite rf_rdata by assumption. cbn. rewrite nth_error_set_nth by (rewrite set_nth_len; assumption). cbn.
    change (GoTime.run_steps grow E rd wr prog_cp949 n "translateFromCp949.Translate" [VPtr pt; sv lr sl] (rst A O X pr pt cd (sv lr sl) e (sv ls scr)))
      with (run_steps n "translateFromCp949.Translate" [VPtr pt; VSlice lr 0 (slen sl) (scap sl)] (trs E A O1 X pt "translateFromCp949" fromTable (sv ls scr))).
    cbn [arrs GoCp949.trs] in T3. cbn. lia. }
  intros env1 s1 Hx T1. rewrite H1 in Hx. apply step_inj in Hx as (_ & -> & ->). clear H1 Hsteps.
  apply list_within; [lia|fine|].
  intros env1 s1 Hx _.
  assert (exec n (If (Cmp Ne (Var "cvterr") NilErr) (Block []) (Block [])) (v3 nc ++ env) (rst A1 O X pr pt cd (sv lr sl) e (sv ls1 scr1)) =
    Ok (Next, v3 nc ++ env, rst A1 O X pr pt cd (sv lr sl) e (sv ls1 scr1))) as H1.
  { eapply exec_If; [reflexivity|]. destruct ce; reflexivity. }
  rewrite H1 in Hx. apply step_inj in Hx as (_ & -> & ->). clear H1.
  apply list_within; [lia|fine|].
  intros env1 s1 Hx T2.
  assert (exec n (Assign [LField (Var "r") "cdata"] (Var "cdata")) (v3 nc ++ env) (rst A1 O X pr pt cd (sv lr sl) e (sv ls1 scr1)) =
    Ok (Next, v3 nc ++ env, rst A1 O X pr pt (out_val ls1 out) (sv lr sl) e (sv ls1 scr1))) as H1.
  { eapply exec_Field; [reflexivity|reflexivity|]. apply rs_cdata; assumption. }
  rewrite H1 in Hx. apply step_inj in Hx as (_ & -> & ->). clear H1.
  apply list_within; [lia|fine|].
  intros env1 s1 Hx T3.
  assert (exec n (If (And (Cmp Eq (Var "nc") (Lit 0)) (Cmp Ne (Field (Var "r") "err") NilErr))
      (Block [Assign [LVar "nc"] (Len (Field (Var "r") "rdata"))]) (Block []))
    (v3 nc ++ env) (rst A1 O X pr pt (out_val ls1 out) (sv lr sl) e (sv ls1 scr1)) =
    Ok (Next, v3 nc1 ++ env, rst A1 O X pr pt (out_val ls1 out) (sv lr sl) e (sv ls1 scr1))) as H1.
  { eapply exec_If.
    { instantiate (1 := rst A1 O X pr pt (out_val ls1 out) (sv lr sl) e (sv ls1 scr1)).
      instantiate (1 := (nc =? 0) && negb (is_nil e)). cbn.
      destruct (nc =? 0); cbn; [rewrite rf_err by assumption|]; reflexivity. }
    subst nc1. destruct (nc =? 0), e; cbn [andb negb is_nil]; eapply exec_Block';
      (eapply execs_cons; [eapply exec_Var; cbn; rewrite rf_rdata by assumption; reflexivity|reflexivity] || reflexivity). }
  rewrite H1 in Hx. apply step_inj in Hx as (_ & -> & ->). clear H1.
  replace (slen sl + 89) with (slen sl + 89 + 0) by ring.
  apply list_within; [lia| |].
  2: { intros env5 s5 _ T5 K env6 s6 Hx. injection Hx as <- <- <-. split; [assumption|]. split; cbn; lia. }
  intros K env1 s1 Hx.
  set (st := rst A1 O X pr pt (out_val ls1 out) (sv lr sl) e (sv ls1 scr1)) in *.
  assert (slice_of (sv lr sl) nc1 None = Ok (VSlice lr (0 + nc1) (slen sl - nc1) (scap sl - nc1))) as Hsf.
  { unfold slice_of. replace ((0 <=? nc1) && (nc1 <=? slen sl) && (slen sl <=? scap sl)) with true by lia. reflexivity. }
  assert (exists bs, exec n (Assign [LField (Var "r") "rdata"] (Slice (Field (Var "r") "rdata") (Lit 0) (CopyE (Field (Var "r") "rdata") (SliceFrom (Field (Var "r") "rdata") (Var "nc")))))
    (v3 nc1 ++ env) st = Ok (Next, v3 nc1 ++ env, rst (set_nth lr (zwrite (cell A1 lr) 0 bs) A1) O X pr pt (out_val ls1 out) (VSlice lr 0 (slen sl - nc1) (scap sl)) e (sv ls1 scr1))) as (bs & H1).
  { eexists. eapply exec_Field.
    { cbn. unfold st. rewrite rf_rdata by assumption. cbn. rewrite rf_rdata by assumption. cbn. rewrite rf_rdata by assumption. cbn.
      rewrite Hsf. cbn.
      unfold copy_to. replace (Z.min (slen sl) (slen sl - nc1)) with (slen sl - nc1) by lia.
      cbn. rewrite slice_front by lia. reflexivity. }
    { reflexivity. }
    { apply rs_rdata; assumption. } }
  rewrite H1 in Hx. apply step_inj in Hx as (-> & -> & ->). clear H1.
  split; [|split].
  - eapply tables_rst; [assumption..|exact T3].
  - change (arrs E (rst ?A _ _ _ _ _ _ _ _)) with A. unfold st. change (arrs E (rst ?A _ _ _ _ _ _ _ _)) with A.
    apply allocated_set, zwrite_longer.
  - assert (size st <= size (rst (set_nth lr (zwrite (cell A1 lr) 0 bs) A1) O X pr pt (out_val ls1 out) (VSlice lr 0 (slen sl - nc1) (scap sl)) e (sv ls1 scr1))) as Hsz.
    { change (arrs E (rst ?A _ _ _ _ _ _ _ _)) with A. unfold st. change (arrs E (rst ?A _ _ _ _ _ _ _ _)) with A.
      apply allocated_set, zwrite_longer. }
    match goal with |- _ <= _ + _ * ?d => set (diff := d); assert (0 <= diff) by (unfold diff; lia); clearbody diff end.
    cbn. unfold st. rewrite rf_rdata by assumption. cbn. rewrite rf_rdata by assumption. cbn. rewrite rf_rdata by assumption. cbn.
    rewrite Hsf. cbn.
    fold st. unfold copy_to. replace (Z.min (slen sl) (slen sl - nc1)) with (slen sl - nc1) by lia.
    cbn. rewrite slice_front by lia. cbn. 
    match goal with |- context [set_field ?E ?a ?b ?c ?d] => destruct (set_field E a b c d) end; cbn; lia.
Qed.

(** What the Reads convert: the lengths of the inputs of the conversions. *)
Fixpoint convs (fil : reader -> Z -> res reader) (fuel : nat) (r : reader) (nb : Z) : list Z :=
  match fuel with
  | O => []
  | S fuel =>
    if r_cdata_hi _ r - r_cdata_lo _ r >? 0 then []
    else
      let conv r := slen (r_rdata _ r) :: match convert grow E r with Ok r => convs fil fuel r nb | _ => [] end in
      match r_err _ r with
      | None => match fil r nb with Ok r => conv r | _ => [] end
      | Some _ => if slen (r_rdata _ r) =? 0 then [] else conv r
      end
  end.
(** A conversion of [w] bytes, with what comes before and after it. *)
Fixpoint price (ws : list Z) : Z := match ws with [] => 0 | w :: ws => 502 * w + 1000 + price ws end.

Notation skip_if := (If (Cmp Gt (Len (Field (Var "r") "cdata")) (Lit 0))
  (Block [Define ["n"] (CopyE (Var "buf") (Field (Var "r") "cdata"));
   Assign [LField (Var "r") "cdata"] (SliceFrom (Field (Var "r") "cdata") (Var "n"));
   Return [(Var "n"); NilErr]]) (Block [])).
Notation err_if := (If (Cmp Eq (Field (Var "r") "err") NilErr)
  (Block fill_stmts)
  (Block [If (Cmp Eq (Len (Field (Var "r") "rdata")) (Lit 0))
  (Block [Break])
  (Block [])])).

Section Loop.
Variables (O : list (string * list (string * val))) (pr pt lb : nat) (ob nb cb : Z).
Hypothesis Hpr : (pr < length O)%nat.
Hypothesis Hpt : (pt < length O)%nat.
Hypothesis Hne : pr <> pt.
Notation env0 := [("r", VPtr pr); ("buf", VSlice lb ob nb cb)].
Notation while_steps n := (while_steps grow E rd wr (run n) (run_steps n) n (LitB true) read_body).
Notation while n := (while_loop grow E rd wr (run n) n (LitB true) read_body).

Lemma skip_exec n A X l o k c rdv e sc : (k >? 0) = false ->
  exec n skip_if env0 (rst A O X pr pt (VSlice l o k c) rdv e sc) = Ok (Next, env0, rst A O X pr pt (VSlice l o k c) rdv e sc).
Proof.
  intros Hk. eapply exec_If.
  { cbn. rewrite rf_cdata by assumption. cbn. rewrite Hk. reflexivity. }
  eapply exec_Block'; reflexivity.
Qed.
Lemma skip_steps n A X l o k c rdv e sc : (k >? 0) = false -> tables (rst A O X pr pt (VSlice l o k c) rdv e sc) ->
  forall K env1 s1, exec n skip_if env0 (rst A O X pr pt (VSlice l o k c) rdv e sc) = Ok (K, env1, s1) ->
  within 10 (exec_steps n skip_if env0 (rst A O X pr pt (VSlice l o k c) rdv e sc)) (rst A O X pr pt (VSlice l o k c) rdv e sc) s1.
Proof.
  intros Hk Ht K env1 s1 Hx. replace 10 with (1 + 5 + 4) by ring. eapply If_within; [reflexivity|assumption| |exact Hx].
  intros x s2 Hv T2. cbn in Hv. rewrite rf_cdata in Hv by assumption. cbn in Hv. rewrite Hk in Hv. injection Hv as <- <-. fine.
Qed.

Lemma while_S n m s K env' s' : forall b1 b2 s1, 
  (forall K env1 s2, exec n read_body env0 s = Ok (K, env1, s2) -> within b1 (exec_steps n read_body env0 s) s s2) ->
  exec n read_body env0 s = Ok (Next, env0, s1) ->
  (tables s1 -> forall K env' s', while n m env0 s1 = Ok (K, env', s') -> within b2 (while_steps n m env0 s1) s1 s') ->
  while n (S m) env0 s = Ok (K, env', s') -> within (2 + b1 + b2) (while_steps n (S m) env0 s) s s'.
Proof.
  intros b1 b2 s1 H1 Hx H2 Hw. cbn [while_loop] in Hw. cbn [TimeCp949.while_steps].
  change (eval grow E rd wr (run n) n (LitB true) env0 s) with (Ok (VBool true, s)) in *.
  change (eval_steps grow E rd wr (run n) (run_steps n) n (LitB true) env0 s) with 1.
  cbn [bind as_bool after] in *. rewrite Hx in *. cbn [bind after fst snd] in *.
  destruct (H1 _ _ _ eq_refl) as (T1 & T2 & T3). destruct (H2 T1 _ _ _ Hw) as (T4 & T5 & T6).
  split; [assumption|]. split; lia.
Qed.
Lemma while_stop n m s K env' s' : forall b1 K1 env1 s1, K1 <> Next -> K1 <> Cont ->
  (forall K env1 s2, exec n read_body env0 s = Ok (K, env1, s2) -> within b1 (exec_steps n read_body env0 s) s s2) ->
  exec n read_body env0 s = Ok (K1, env1, s1) ->
  while n (S m) env0 s = Ok (K, env', s') -> within (2 + b1) (while_steps n (S m) env0 s) s s'.
Proof.
  intros b1 K1 env1 s1 N1 N2 H1 Hx Hw. cbn [while_loop] in Hw. cbn [TimeCp949.while_steps].
  change (eval grow E rd wr (run n) n (LitB true) env0 s) with (Ok (VBool true, s)) in *.
  change (eval_steps grow E rd wr (run n) (run_steps n) n (LitB true) env0 s) with 1.
  cbn [bind as_bool after] in *. rewrite Hx in *. cbn [bind after fst snd] in *.
  destruct (H1 _ _ _ eq_refl) as (T1 & T2 & T3).
  assert (s' = s1) as -> by (destruct K1; congruence).
  split; [assumption|]. split; [assumption|]. destruct K1; try congruence; lia.
Qed.

Lemma Read_loop_steps : forall fuel A ls lr cdv r bs err r',
  rinv E A ls lr cdv r -> (lb < length A)%nat -> 0 <= ob -> 0 <= nb <= cb -> ob + cb <= zlen (cell A lb) ->
  sep A lb ls -> sep A lb lr ->
  Read3 grow E (rd kx) fuel r nb = Ok (bs, err, r') ->
  tables (rst A O (r_src _ r) pr pt cdv (sv lr (r_rdata _ r)) (r_err _ r) (sv ls (r_scratch _ r))) ->
  exists N, forall n m, (N <= n)%nat -> (N <= m)%nat -> forall K env' s',
    while n m env0 (rst A O (r_src _ r) pr pt cdv (sv lr (r_rdata _ r)) (r_err _ r) (sv ls (r_scratch _ r))) = Ok (K, env', s') ->
    within (price (convs (fill3 E (rd kx)) fuel r nb) + zlen bs + 60)
      (while_steps n m env0 (rst A O (r_src _ r) pr pt cdv (sv lr (r_rdata _ r)) (r_err _ r) (sv ls (r_scratch _ r))))
      (rst A O (r_src _ r) pr pt cdv (sv lr (r_rdata _ r)) (r_err _ r) (sv ls (r_scratch _ r))) s'.
Proof.
  induction fuel as [|fuel IH]; intros A ls lr cdv r bs err r' Hinv Hlb Hob Hnb Hcb Hbs Hbr H Htab; [discriminate|].
  cbn [Read3 convs] in *.
  destruct r as [X scr lo hi sl e]. cbn [r_rdata r_src r_scratch r_cdata_lo r_cdata_hi r_err] in *.
  pose proof Hinv as (Hs & Hr & Hsep & Hby & Hlo & Hhi & lc & oc & cc & -> & Hcc & Hcd & Hlc).
  cbn [r_rdata r_src r_scratch r_cdata_lo r_cdata_hi r_err] in *.
  pose proof Hs as (Hls & Has & Hoks). unfold slice_ok in Hoks.
  set (st := rst A O X pr pt (VSlice lc oc (hi - lo) cc) (sv lr sl) e (sv ls scr)) in *.
  destruct (hi - lo >? 0) eqn:Hpend.
  - (* pending output *)
    destruct (Hcd ltac:(lia)) as [-> ->].
    set (k := Z.min nb (hi - lo)) in *.
    assert (Hout : ztake k (cdata E (mkReader E X scr lo hi sl e)) = ztake k (zdrop lo (arr scr))).
    { unfold cdata. cbn [r_rdata r_src r_scratch r_cdata_lo r_cdata_hi r_err].
      rewrite (zdrop_ztake_len lo hi) by lia. apply ztake_ztake. lia. }
    rewrite Hout in H. injection H as <- <- <-.
    set (out := ztake k (zdrop lo (arr scr))) in *.
    assert (Hzo : zlen out = k).
    { unfold out. rewrite zlen_ztake, zlen_zdrop by lia. unfold scap in *. lia. }
    assert (Hk0 : 0 <= k <= hi - lo) by lia.
    set (st1 := rst (set_nth lb (zwrite (cell A lb) ob out) A) O X pr pt (VSlice ls lo (hi - lo) cc) (sv lr sl) e (sv ls scr)).
    set (st2 := rst (set_nth lb (zwrite (cell A lb) ob out) A) O X pr pt (VSlice ls (lo + k) (hi - (lo + k)) (cc - k)) (sv lr sl) e (sv ls scr)).
    assert (Hz : size st <= size st1) by (apply allocated_set, zwrite_longer).
    assert (Hd : forall n, exec n (Define ["n"] (CopyE (Var "buf") (Field (Var "r") "cdata"))) env0 st = Ok (Next, ("n", VInt k) :: env0, st1)).
    { intros n. eapply eq_trans; [eapply exec_Define; [|reflexivity]|].
      { unfold st. cbn. rewrite rf_cdata by assumption. cbn. unfold copy_to, store, set_arr, arr_at, cells, arr_at.
        change (arrs E (rst A O X pr pt (VSlice ls lo (hi - lo) cc) (sv lr sl) e (sv ls scr))) with A.
        fold k. fold (cell A ls). rewrite Has. fold out. fold (cell A lb). reflexivity. }
      reflexivity. }
    assert (Hif : forall n, exists v, exec n skip_if env0 st = Ok (Ret v, env0, st2)).
    { intros n. eexists. eapply exec_If.
      { unfold st. cbn. rewrite rf_cdata by assumption. cbn. rewrite Hpend. reflexivity. }
      eapply exec_Block'.
      { eapply execs_cons; [apply Hd|]. eapply execs_cons; [eapply exec_Field|].
        { unfold st1. cbn. rewrite rf_cdata by assumption. cbn. unfold slice_of.
          replace ((0 <=? k) && (k <=? hi - lo) && (hi - lo <=? cc)) with true by lia.
          replace (hi - lo - k) with (hi - (lo + k)) by lia. reflexivity. }
        { reflexivity. }
        { apply rs_cdata; assumption. }
        eapply execs_stop; [|discriminate]. reflexivity. }
      reflexivity. }
    exists 1%nat. intros n [|m] _ Hm K env' s' Hw; [lia|].
    destruct (Hif n) as [v Hv].
    assert (Hbody : exec n read_body env0 st = Ok (Ret v, env0, st2)).
    { unfold read_body. eapply exec_Block'; [eapply execs_stop; [exact Hv|discriminate]|reflexivity]. }
    cbn [price]. replace (0 + zlen out + 60) with (2 + (1 + ((1 + 5 + (1 + (k + 9 + (20 + 10)))) + 11))) by lia.
    eapply while_stop; [| | |exact Hbody|exact Hw]; [discriminate|discriminate|].
    unfold read_body. apply Block_within. apply list_within; [lia| |].
    2: { intros env1 s1 Hx. rewrite Hv in Hx. discriminate. }
    intros K1 env1 s1 Hx. eapply If_within; [reflexivity|assumption| |exact Hx].
    intros x s2 Hv2 T2. assert (x = true /\ s2 = st) as [-> ->].
    { unfold st in Hv2. cbn in Hv2. rewrite rf_cdata in Hv2 by assumption. cbn in Hv2. rewrite Hpend in Hv2. injection Hv2 as <- <-. auto. }
    apply Block_within. apply list_within; [lia| |].
    + intros K2 env2 s3 Hx2. rewrite Hd in Hx2. apply step_inj in Hx2 as (-> & -> & ->).
      split; [eapply tables_rst; eassumption|]. split; [assumption|].
      match goal with |- _ <= _ + _ * ?d => set (diff := d); assert (0 <= diff) by (unfold diff; lia); clearbody diff end.
      unfold st. cbn. rewrite rf_cdata by assumption. cbn. unfold zlen. cbn. fold k. lia.
    + intros env2 s3 Hx2 T3. apply list_within; [lia|fine|].
      intros env3 s4 Hx3 T4. replace 10 with (10 + 0) by ring. apply list_within; [lia|fine|].
      intros env5 s5 _ T5 K6 env6 s6 Hx6. injection Hx6 as <- <- <-. split; [assumption|]. split; cbn; lia.
  - (* convert, reading more input first unless the input has ended *)
    assert (Hconv : forall A0 X0 lr0 sl0 e0, ref A0 lr0 sl0 -> ref A0 ls scr -> sep A0 lr0 ls -> Forall is_byte (arr sl0) ->
       changes grow A ls lr A0 ls lr0 ->
       (let! r := convert grow E (mkReader E X0 scr lo hi sl0 e0) in Read3 grow E (rd kx) fuel r nb) = Ok (bs, err, r') ->
       tables (rst A0 O X0 pr pt (VSlice lc oc (hi - lo) cc) (sv lr0 sl0) e0 (sv ls scr)) ->
       exists N, forall n, (N <= n)%nat -> exists s1 env1,
         execs n conv_stmts env0 (rst A0 O X0 pr pt (VSlice lc oc (hi - lo) cc) (sv lr0 sl0) e0 (sv ls scr)) = Ok (Next, env1 ++ env0, s1) /\
         (forall K env' s', execs n conv_stmts env0 (rst A0 O X0 pr pt (VSlice lc oc (hi - lo) cc) (sv lr0 sl0) e0 (sv ls scr)) = Ok (K, env', s') ->
           within (502 * slen sl0 + 700) (execs_steps n conv_stmts env0 (rst A0 O X0 pr pt (VSlice lc oc (hi - lo) cc) (sv lr0 sl0) e0 (sv ls scr)))
             (rst A0 O X0 pr pt (VSlice lc oc (hi - lo) cc) (sv lr0 sl0) e0 (sv ls scr)) s') /\
         forall m, (N <= m)%nat -> forall K env' s', while n m env0 s1 = Ok (K, env', s') -> tables s1 ->
           within (price (match convert grow E (mkReader E X0 scr lo hi sl0 e0) with Ok r => convs (fill3 E (rd kx)) fuel r nb | _ => [] end) + zlen bs + 60)
             (while_steps n m env0 s1) s1 s').
    { intros A0 X0 lr0 sl0 e0 Hr0 Hs0 Hsep0 Hby0 Hch0 H0 Ht0.
      destruct (convert grow E (mkReader E X0 scr lo hi sl0 e0)) as [r1| |] eqn:Hc; try discriminate. cbn [bind] in H0.
      destruct (go_convert grow E rd wr kx O pr pt (VSlice lc oc (hi - lo) cc) lb ob nb cb A0 X0 lr0 sl0 ls scr lo hi e0 r1 Hpr Hpt Hne Hr0 Hs0 Hsep0 Hby0 Hc)
        as (A1 & ls1 & Hr1 & Hs1 & Hsep1 & Hby1 & Hx1 & He1 & Hlo1 & Hhi1 & La & Sa & Ka & Ta & cd1 & env1 & N & Hcd1 & Hrun).
      destruct (conv_steps O pr pt (VSlice lc oc (hi - lo) cc) lb ob nb cb A0 X0 lr0 sl0 ls scr lo hi e0 r1 Hpr Hpt Hne Hr0 Hs0 Hsep0 Hby0 Hc Ht0)
        as (N1 & Hst1).
      assert (Hch1 : changes grow A ls lr A1 ls1 lr0).
      { eapply changes_trans; [exact Hch0|]. split; [assumption|]. split; [assumption|]. split; [auto|]. split; assumption. }
      destruct (changes_sep _ _ _ _ _ _ _ lb Hch1 Hlb Hbs Hbr) as [Hbs1 Hbr1].
      assert (Hcell : cell A1 lb = cell A lb) by (apply Hch1; assumption).
      assert (Hlb1 : (lb < length A1)%nat) by (destruct Hch1; lia).
      assert (T1 : tables (rst A1 O (r_src _ r1) pr pt cd1 (sv lr0 (r_rdata _ r1)) (r_err _ r1) (sv ls1 (r_scratch _ r1)))) by (eapply tables_rst; eassumption).
      destruct (IH A1 ls1 lr0 cd1 r1 bs err r') as (N2 & Hrun2);
        [|assumption|assumption|assumption|rewrite Hcell; assumption|assumption|assumption|assumption|assumption|].
      { pose proof Hs1 as (_ & _ & Hok1). unfold slice_ok in Hok1.
        split; [assumption|]. split; [assumption|]. split; [assumption|]. split; [assumption|].
        rewrite Hlo1. split; [lia|]. split; [lia|]. rewrite Z.sub_0_r.
        destruct Hcd1 as [->|[-> ->]].
        - exists ls1, 0, (scap (r_scratch _ r1)). split; [reflexivity|]. split; [lia|]. split; [auto|left; split; [reflexivity|lia]].
        - exists 0%nat, 0, 0. split; [reflexivity|]. split; [lia|]. split; [lia|auto]. }
      exists (N + N1 + N2)%nat. intros n Hn. eexists _, env1. split; [apply Hrun; lia|]. split; [apply Hst1; lia|].
      intros m Hm K env' s' Hw _. specialize (Hrun2 n m ltac:(lia) ltac:(lia) K env' s').
      rewrite He1, Hx1 in Hrun2. apply Hrun2. exact Hw. }
    assert (Hfin : forall n env1 s1, exec n skip_if env0 st = Ok (Next, env1, s1) -> env1 = env0 /\ s1 = st).
    { intros n env1 s1 Hx. unfold st in Hx. rewrite skip_exec in Hx by assumption. apply step_inj in Hx as (_ & -> & ->). auto. }
    destruct e as [e|].
    + assert (Hrf : forall n x s2, eval grow E rd wr (run n) n (Cmp Eq (Field (Var "r") "err") NilErr) env0 st = Ok (VBool x, s2) -> x = false /\ s2 = st).
      { intros n x s2 Hv. unfold st in Hv. cbn in Hv. rewrite rf_err in Hv by assumption. cbn in Hv. injection Hv as <- <-. auto. }
      assert (Herr : forall n K env1 s1, exec n err_if env0 st = Ok (K, env1, s1) -> within 20 (exec_steps n err_if env0 st) st s1).
      { intros n K env1 s1 Hx. replace 20 with (1 + 4 + 15) by ring. eapply If_within; [reflexivity|assumption| |exact Hx].
        intros x s2 Hv T2. apply Hrf in Hv as [-> ->]. fine. }
      destruct (slen sl =? 0) eqn:Hsl.
      * injection H as <- <- <-. cbn [price]. change (zlen (@nil Z)) with 0.
        exists 1%nat. intros n [|m] _ Hm K env' s' Hw; [lia|].
        assert (Hei : exec n err_if env0 st = Ok (Brk, env0, st)).
        { eapply exec_If.
          { unfold st. cbn. rewrite rf_err by assumption. reflexivity. }
          cbn [is_nil]. eapply exec_Block'.
          { eapply execs_stop; [|discriminate]. eapply exec_If.
            { unfold st. cbn. rewrite rf_rdata by assumption. cbn. rewrite Hsl. reflexivity. }
            cbv iota. eapply exec_Block'. { eapply execs_stop; [reflexivity|discriminate]. } reflexivity. }
          reflexivity. }
        assert (Hbody : exec n read_body env0 st = Ok (Brk, env0, st)).
        { unfold read_body. eapply exec_Block'.
          { eapply execs_cons; [apply skip_exec; assumption|]. eapply execs_stop; [exact Hei|discriminate]. }
          reflexivity. }
        replace (0 + 0 + 60) with (2 + (1 + (10 + (20 + 27)))) by ring.
        eapply while_stop; [| | |exact Hbody|exact Hw]; [discriminate|discriminate|].
        unfold read_body. apply Block_within. apply list_within; [lia| |].
        { apply skip_steps; assumption. }
        intros env1 s1 Hx T1. apply Hfin in Hx as [-> ->]. apply list_within; [lia|apply Herr|].
        intros env1 s1 Hx. rewrite Hei in Hx. discriminate.
      * destruct (Hconv A X lr sl (Some e) Hr Hs Hsep Hby) as (N & Hrun);
          [split; [lia|]; split; [auto|]; split; [auto|]; split; [auto|apply spend2_refl]|exact H|exact Htab|].
        exists (S N). intros n [|m] Hn Hm K env' s' Hw; [lia|].
        destruct (Hrun n ltac:(lia)) as (s1 & env1 & Hcv & Hcs & Hloop).
        assert (Hei : exec n err_if env0 st = Ok (Next, env0, st)).
        { eapply exec_If.
          { unfold st. cbn. rewrite rf_err by assumption. reflexivity. }
          cbn [is_nil]. eapply exec_Block'.
          { eapply execs_cons; [|reflexivity]. eapply exec_If.
            { unfold st. cbn. rewrite rf_rdata by assumption. cbn. rewrite Hsl. reflexivity. }
            cbv iota. eapply exec_Block'. { reflexivity. } reflexivity. }
          reflexivity. }
        assert (Hbody : exec n read_body env0 st = Ok (Next, env0, s1)).
        { unfold read_body. eapply exec_Block'.
          { eapply execs_cons; [apply skip_exec; assumption|]. eapply execs_cons; [exact Hei|exact Hcv]. }
          unfold leave. rewrite app_length, Nat.add_sub. apply skipn_app_exact. }
        cbn [price].
        eapply within_le; [eapply (while_S n m _ _ _ _ (1 + (10 + (20 + (502 * slen sl + 700)))))|].
        { unfold slice_ok in *. pose proof Hr as (_ & _ & Hokr). unfold slice_ok in Hokr.
          unfold read_body. apply Block_within. apply list_within; [lia| |].
          { apply skip_steps; assumption. }
          intros env2 s2 Hx T1. apply Hfin in Hx as [-> ->]. apply list_within; [lia|apply Herr|].
          intros env3 s3 Hx T3. rewrite Hei in Hx. apply step_inj in Hx as (_ & -> & ->). exact Hcs. }
        { exact Hbody. }
        { intros T1 K2 env2 s2 Hw2. apply (Hloop m ltac:(lia) K2 env2 s2 Hw2 T1). }
        { exact Hw. }
        lia.
    + destruct (fill3 E (rd kx) (mkReader E X scr lo hi sl None) nb) as [r1| |] eqn:Hf; try discriminate. cbn [bind] in H.
      destruct (go_fill grow E rd wr kx Hrdb O pr pt (VSlice lc oc (hi - lo) cc) (sv ls scr) lb ob nb cb A X lr sl scr lo hi r1 Hpr Hpt Hne Hr Hf)
        as (A0 & lr0 & Hr0 & Hg0 & Hsc & Hl0 & Hh0 & Hby0 & N0 & Hrun0).
      destruct (fill_steps O pr pt (VSlice lc oc (hi - lo) cc) (sv ls scr) lb ob nb cb A X lr sl scr lo hi r1 Hpr Hpt Hne Hr Hf Htab) as (Nf & Hfs).
      destruct (ref_grows _ _ _ _ _ _ _ Hs Hg0 (GoStream.sep_sym E rd wr _ _ _ Hsep)) as [Hs0 Hsep0].
      destruct r1 as [X1 scr1 lo1 hi1 sl1 e1]. cbn [r_rdata r_src r_scratch r_cdata_lo r_cdata_hi r_err] in *.
      subst scr1 lo1 hi1.
      assert (T0 : tables (rst A0 O X1 pr pt (VSlice lc oc (hi - lo) cc) (sv lr0 sl1) e1 (sv ls scr))) by (eapply tables_rst; eassumption).
      destruct (Hconv A0 X1 lr0 sl1 e1 Hr0 Hs0 (GoStream.sep_sym E rd wr _ _ _ Hsep0) (Hby0 Hby)) as (N & Hrun);
        [destruct Hg0 as (La & Na & Fa & _ & b & Hgb & Htb); split; [assumption|]; split; [auto|]; split; [assumption|];
           split; [intros j Hj _ Hjr; apply Fa; assumption|];
           exists 0, b; rewrite (Fa ls Hls (GoStream.sep_sym E rd wr _ _ _ Hsep)); split; [constructor|]; split; [exact Hgb|lia]
        |exact H|exact T0|].
      exists (S (N + N0 + Nf)). intros n [|m] Hn Hm K env' s' Hw; [lia|].
      destruct (Hrun n ltac:(lia)) as (s1 & env1 & Hcv & Hcs & Hloop).
      specialize (Hrun0 n ltac:(lia)). specialize (Hfs n ltac:(lia)).
      assert (Hei : exec n err_if env0 st = Ok (Next, env0, rst A0 O X1 pr pt (VSlice lc oc (hi - lo) cc) (sv lr0 sl1) e1 (sv ls scr))).
      { eapply exec_If.
        { unfold st. cbn. rewrite rf_err by assumption. reflexivity. }
        cbn [is_nil]. exact Hrun0. }
      assert (Hbody : exec n read_body env0 st = Ok (Next, env0, s1)).
      { unfold read_body. eapply exec_Block'.
        { eapply execs_cons; [apply skip_exec; assumption|]. eapply execs_cons; [exact Hei|exact Hcv]. }
        unfold leave. rewrite app_length, Nat.add_sub. apply skipn_app_exact. }
      cbn [price]. pose proof Hr0 as (_ & _ & Hokr). unfold slice_ok in Hokr.
      eapply within_le; [eapply (while_S n m _ _ _ _ (1 + (10 + ((1 + 4 + 201) + (502 * slen sl1 + 700)))))|].
      { unfold read_body. apply Block_within. apply list_within; [lia| |].
        { apply skip_steps; assumption. }
        intros env2 s2 Hx T1. apply Hfin in Hx as [-> ->]. apply list_within; [lia| |].
        - intros K2 env2 s2 Hx. eapply If_within; [reflexivity|assumption| |exact Hx].
          intros x s3 Hv T3. assert (x = true /\ s3 = st) as [-> ->].
          { unfold st in Hv. cbn in Hv. rewrite rf_err in Hv by assumption. cbn in Hv. injection Hv as <- <-. auto. }
          apply Hfs.
        - intros env3 s3 Hx T3. rewrite Hei in Hx. apply step_inj in Hx as (_ & -> & ->). exact Hcs. }
      { exact Hbody. }
      { intros T1 K2 env2 s2 Hw2. apply (Hloop m ltac:(lia) K2 env2 s2 Hw2 T1). }
      { exact Hw. }
      lia.
Qed.
End Loop.

Notation is_reader := (is_reader E kx).
Lemma Read_steps fuel s p pt ls lr r lb ob nb cb old bs err r' :
  is_reader s p pt ls lr r -> ext E s = r_src _ r ->
  input (arrs _ s) lb ob nb cb old -> sep (arrs _ s) lb ls -> sep (arrs _ s) lb lr ->
  Read3 grow E (rd kx) fuel r nb = Ok (bs, err, r') -> tables s ->
  exists N, forall n, (N <= n)%nat -> forall v s',
    run n "cp949Reader.Read" [VPtr p; VSlice lb ob nb cb] s = Ok (v, s') ->
    within (price (convs (fill3 E (rd kx)) fuel r nb) + zlen bs + 80) (run_steps n "cp949Reader.Read" [VPtr p; VSlice lb ob nb cb] s) s s'.
Proof.
  intros (Hne & cdv & Hop & Hot & Hinv) Hx (Hlb & Hob & Hnb & Hcb & _) Hbs Hbr H Htab.
  destruct s as [A O X]. cbn [arrs objs ext] in *. subst X.
  assert (Hp : (p < length O)%nat) by (apply nth_error_Some; congruence).
  assert (Hpt : (pt < length O)%nat) by (apply nth_error_Some; congruence).
  assert (Hst : mk A O (r_src _ r) = rst A O (r_src _ r) p pt cdv (sv lr (r_rdata _ r)) (r_err _ r) (sv ls (r_scratch _ r))).
  { unfold GoStream.rst, GoCp949.trs. rewrite (set_nth_id p) by assumption. rewrite set_nth_id by assumption. reflexivity. }
  rewrite Hst in *.
  destruct (Read_loop_steps O p pt lb ob nb cb Hp Hpt Hne fuel A ls lr cdv r bs err r' Hinv Hlb Hob Hnb Hcb Hbs Hbr H Htab) as (N & Hrun).
  exists (S N). intros [|n] Hn v s' Hres; [lia|]. specialize (Hrun n n ltac:(lia) ltac:(lia)).
  rewrite run_S in Hres. rewrite run_steps_S. cbn [the get bind prog_cp949 String.eqb Ascii.eqb Bool.eqb] in *.
  set (c := price (convs (fill3 E (rd kx)) fuel r nb) + zlen bs) in *.
  apply (enter_within _ _ _ _ _ (run_steps n) _ _ (c + 77)) in Hres; [|reflexivity|].
  { destruct Hres as [_ (H1 & H2 & H3)]. split; [assumption|]. split; [assumption|]. change (zlen (f_params f_cp949Reader_Read)) with 2 in H3. lia. }
  clear Hres v s'. rewrite read_is. cbn [f_params f_cp949Reader_Read combine].
  replace (c + 77) with (1 + ((1 + (c + 60)) + (15 + 0))) by ring.
  apply Block_within. apply list_within; [lia| |].
  - intros K env1 s1 Hw. rewrite exec_While in Hw. rewrite exec_steps_While.
    destruct (Hrun _ _ _ Hw) as (T1 & T2 & T3). split; [assumption|]. split; lia.
  - intros env1 s1 Hw T1. apply list_within; [lia|fine|].
    intros env5 s5 _ T5 K6 env6 s6 Hx6. injection Hx6 as <- <- <-. split; [assumption|]. split; cbn; lia.
Qed.

(** What a sequence of Reads costs. *)
Inductive costs (fuel : nat) : reader -> list Z -> Z -> Prop :=
| costs_nil r : costs fuel r [] 0
| costs_cons r n ns bs err r1 c : Read3 grow E (rd kx) fuel r n = Ok (bs, err, r1) -> costs fuel r1 ns c ->
    costs fuel r (n :: ns) (price (convs (fill3 E (rd kx)) fuel r n) + zlen bs + c).

Lemma reads_time fuel p pt evs : forall own s ls lr r outs r' c,
  tables s -> is_reader s p pt ls lr r -> ext E s = r_src _ r -> NoDup own -> mine (arrs E s) own ls -> mine (arrs E s) own lr ->
  sensible 0 (map zlen (seen (arrs E s) own)) evs -> model_reads grow E rd kx fuel r (sizes evs) outs r' -> costs fuel r (sizes evs) c ->
  exists own' s' t, reads grow E rd wr prog_cp949 p own s evs outs own' s' /\ reads_take grow E rd wr prog_cp949 p own s evs t /\
    exists b b', regrows grow (scap (r_scratch _ r)) (scap (r_scratch _ r')) b /\
      regrows grow (scap (r_rdata _ r)) (scap (r_rdata _ r')) b' /\
      total (arrs E s') = total (arrs E s) + client_bytes evs + b + b' /\ t <= c + 80 * zlen (sizes evs) + 5 * (b + b').
Proof.
  induction evs as [|[h a|a|h o n c0] evs IH]; intros own s ls lr r outs r' c Htab Hr Hx Hnd Hms Hmr Hsens Hm Hc.
  - inversion Hm; subst. inversion Hc; subst. exists own, s, 0. split; [constructor|]. split; [constructor|].
    exists 0, 0. split; [constructor|]. split; [constructor|]. cbn [client_bytes sizes]. change (zlen (@nil Z)) with 0. lia.
  - destruct Hsens as [Hh Hsens]. unfold seen in Hh. rewrite map_map in Hh. apply nth_error_map_some in Hh.
    destruct Hh as (l & Hh & Hlen). apply length_zlen in Hlen.
    assert (Hin : In l own) by (eapply nth_error_In; eassumption).
    destruct (Hms l Hin) as [Hl Hsl]. destruct (Hmr l Hin) as [_ Hsr].
    assert (Hs : seen (arrs E (set_arr E s l a)) own = set_nth h a (seen (arrs E s) own)).
    { apply (seen_change _ _ own h l a); try assumption.
      - apply cell_set. assumption.
      - intros j _ Hj. apply cell_set_ne. congruence. }
    destruct (IH own (set_arr E s l a) ls lr r outs r' c) as (own' & s' & t & H1 & H2 & b & b' & Hb & Hb' & Htt & Ht); try assumption.
    + apply is_reader_store; auto.
    + apply mine_store; auto.
    + apply mine_store; auto.
    + rewrite Hs, map_set_nth. replace (set_nth h (zlen a) (map zlen (seen (arrs E s) own))) with (map zlen (seen (arrs E s) own));
        [assumption|]. symmetry. apply set_nth_id. unfold seen. rewrite map_map, nth_error_map, Hh. cbn. f_equal.
      unfold zlen. now rewrite Hlen.
    + exists own', s', t. split; [econstructor; eassumption|]. split; [econstructor; eassumption|].
      exists b, b'. split; [assumption|]. split; [assumption|]. split; [|assumption]. rewrite Htt. cbn [client_bytes set_arr arrs].
      rewrite total_set by congruence. reflexivity.
  - destruct (is_reader_locs _ _ _ _ _ _ _ _ Hr) as [L1 L2].
    assert (Hs : seen (arrs E (snd (new_arr E s a))) (own ++ [fst (new_arr E s a)]) = seen (arrs E s) own ++ [a]).
    { unfold seen. rewrite map_app. cbn [new_arr fst snd arrs map]. rewrite cell_new. f_equal. apply seen_new. apply Forall_forall. intros j Hj.
      apply Hms. assumption. }
    destruct (IH (own ++ [fst (new_arr E s a)]) (snd (new_arr E s a)) ls lr r outs r' c) as (own' & s' & t & H1 & H2 & b & b' & Hb & Hb' & Htt & Ht); try assumption.
    + apply is_reader_new. assumption.
    + apply NoDup_rev in Hnd. rewrite <- (rev_involutive (own ++ _)), rev_app_distr. apply NoDup_rev. cbn.
      constructor; [|assumption]. rewrite <- in_rev. intros Hi. destruct (Hms _ Hi). lia.
    + apply mine_new; assumption.
    + apply mine_new; assumption.
    + rewrite Hs, map_app. exact Hsens.
    + exists own', s', t. split; [constructor; assumption|]. split; [constructor; assumption|].
      exists b, b'. split; [assumption|]. split; [assumption|]. split; [|assumption]. rewrite Htt. cbn [client_bytes new_arr snd arrs]. rewrite total_app. cbn [total]. lia.
  - destruct Hsens as [(k & Hh & Ho & Hn & Hcc) Hsens]. unfold seen in Hh. rewrite map_map in Hh.
    apply nth_error_map_some in Hh. destruct Hh as (l & Hh & Hlen).
    assert (Hin : In l own) by (eapply nth_error_In; eassumption).
    destruct (Hms l Hin) as [Hl Hsl]. destruct (Hmr l Hin) as [_ Hsr].
    cbn [sizes] in Hm, Hc. inversion Hm as [|? ? ? bs err r1 outs' ? Hread Hm']; subst.
    inversion Hc as [|? ? ? bs2 err2 r2 c1 Hread2 Hc']; subst. rewrite Hread in Hread2. injection Hread2 as <- <- <-.
    assert (Hi : input (arrs E s) l o n c0 (ztake n (zdrop o (cell (arrs E s) l)))) by (repeat split; try assumption; lia).
    destruct (go_Read grow E rd wr kx Hrdb fuel s p pt ls lr r l o n c0 (ztake n (zdrop o (cell (arrs E s) l))) bs err r1)
      as (s1 & ls' & lr' & Hr1 & Hx1 & _ & Hbn & Hle & Hls & Hlr & Hcell & Hoth & (b1 & b1' & Hb1 & Hb1' & Ht1) & N & Hrun); try assumption.
    destruct (Read_steps fuel s p pt ls lr r l o n c0 (ztake n (zdrop o (cell (arrs E s) l))) bs err r1) as (N2 & Hsteps); try assumption.
    assert (Hs : seen (arrs E s1) own = set_nth h (zwrite (cell (arrs E s) l) o bs) (seen (arrs E s) own)).
    { apply (seen_change _ _ own h l); try assumption. intros j Hj Hjl. apply Hoth; try assumption; [apply Hms|apply Hms|apply Hmr]; assumption. }
    assert (Hw : zlen (zwrite (cell (arrs E s) l) o bs) = zlen (cell (arrs E s) l)) by (apply zlen_zwrite; lia).
    assert (Hnth : nth h (seen (arrs E s) own) [] = cell (arrs E s) l).
    { apply nth_error_nth. unfold seen. rewrite nth_error_map, Hh. reflexivity. }
    assert (Hmine : forall m m', mine (arrs E s) own m -> (m' = m \/ (length (arrs E s) <= m')%nat) -> mine (arrs E s1) own m').
    { intros m m' Hm0 Hy j Hj. destruct (Hm0 j Hj) as [Hj1 Hj2]. split; [lia|].
      destruct Hy as [->|Hy]; [|left; lia]. destruct Hj2 as [Hj2|Hj2]; [left; assumption|]. right.
      destruct (Nat.eq_dec j l) as [->|Hjl].
      - rewrite Hcell. rewrite Hj2 in Hw, Hcc |- *. change (zlen (@nil Z)) with 0 in Hw, Hcc.
        destruct (zwrite [] o bs) as [|x l']; [reflexivity|]. rewrite zlen_cons in Hw. pose proof (zlen_nonneg l'). lia.
      - rewrite Hoth by (first [assumption | apply Hms; assumption | apply Hmr; assumption]). assumption. }
    destruct (IH own s1 ls' lr' r1 outs' r' c1) as (own' & s' & t & H1 & H2 & b & b' & Hb & Hb' & Htt & Ht); try assumption.
    + destruct (Hsteps (N + N2)%nat ltac:(lia) _ _ (Hrun (N + N2)%nat ltac:(lia))) as (T1 & _). exact T1.
    + eapply Hmine; [|eassumption]; assumption.
    + eapply Hmine; [|eassumption]; assumption.
    + rewrite Hs, map_set_nth, Hw.
      replace (set_nth h (zlen (cell (arrs E s) l)) (map zlen (seen (arrs E s) own))) with (map zlen (seen (arrs E s) own)); [assumption|].
      symmetry. apply set_nth_id. unfold seen. now rewrite map_map, nth_error_map, Hh.
    + exists own', s', (price (convs (fill3 E (rd kx)) fuel r n) + zlen bs + 80 + 5 * (b1 + b1') + t). split; [|split].
      * assert (Hbs : ztake (zlen bs) (zdrop o (array (arrs E s1) l)) = bs).
        { change (array (arrs E s1) l) with (cell (arrs E s1) l). rewrite Hcell. apply zwrite_take; lia. }
        assert (Hxx : reads grow E rd wr prog_cp949 p own s (Use h o n c0 :: evs)
                       ((ztake (zlen bs) (zdrop o (array (arrs E s1) l)), err) :: outs') own' s')
          by (econstructor; [eassumption|exists N; exact Hrun|eassumption]).
        rewrite Hbs in Hxx. exact Hxx.
      * econstructor; [eassumption|exists N; exact Hrun| |eassumption].
        exists (N + N2)%nat. intros f Hf. destruct (Hsteps f ltac:(lia) _ _ (Hrun f ltac:(lia))) as (_ & _ & T3).
        change allocated with total in T3. lia.
      * destruct Hr as (_ & ? & _ & _ & (_ & C1 & _) & (_ & C2 & _) & _).
        destruct Hr1 as (_ & ? & _ & _ & (_ & C3 & _) & (_ & C4 & _) & _).
        rewrite C1, C3 in Hb1. rewrite C2, C4 in Hb1'.
        exists (b1 + b), (b1' + b'). split; [eapply regrows_trans; eassumption|]. split; [eapply regrows_trans; eassumption|].
        split; [rewrite Htt, Ht1; cbn [client_bytes]; lia|]. cbn [sizes]. rewrite zlen_cons. lia.
Qed.

Lemma reader_session_time A O X fuel evs outs r' c :
  nil_ok A -> sensible 0 (map zlen A) evs -> model_reads grow E rd kx fuel (NewReader X) (sizes evs) outs r' ->
  costs fuel (NewReader X) (sizes evs) c -> tables (mk A O X) ->
  exists p s0 own s t,
    calls grow E rd wr prog_cp949 "NewReader" [VExt kx] (mk A O X) (VTuple [VPtr p; VErr None]) s0 /\ arrs E s0 = A /\
    reads grow E rd wr prog_cp949 p (seq 0 (length A)) s0 evs outs own s /\
    reads_take grow E rd wr prog_cp949 p (seq 0 (length A)) s0 evs t /\
    exists b b', regrows grow 0 (scap (r_scratch _ r')) b /\ regrows grow 0 (scap (r_rdata _ r')) b' /\
      total (arrs E s) = total A + client_bytes evs + b + b' /\ t <= c + 80 * zlen (sizes evs) + 5 * (b + b').
Proof.
  intros Hn Hsens Hm Hc Htab.
  destruct (go_NewReader grow E rd wr kx A O X Hn) as (s0 & Hr & Hx & Ha & Hold & Hlen & Hrun).
  destruct (reads_time fuel (S (length O)) (length O) evs (seq 0 (length A)) s0 0%nat 0%nat (NewReader X) outs r' c)
    as (own & s & t & H1 & H2 & H3); try assumption.
  - destruct Hr as (_ & cdv & Hw1 & Hw2 & _). apply Forall_forall. intros o Ho v Hv.
    apply In_nth_error in Ho. destruct Ho as [q Hq].
    destruct (Nat.lt_ge_cases q (length O)) as [Hlt|Hge].
    + rewrite Hold in Hq by assumption. apply nth_error_In in Hq. unfold TimeFacts.tables in Htab. cbn [objs] in Htab. rewrite Forall_forall in Htab. eauto.
    + assert (q < length (objs E s0))%nat by (apply nth_error_Some; congruence).
      assert (q = length O \/ q = S (length O)) as [-> | ->] by lia.
      * rewrite Hw2 in Hq. injection Hq as <-. cbn in Hv. injection Hv as <-. exists fromTable. split; [reflexivity|apply zlen_fromTable].
      * rewrite Hw1 in Hq. injection Hq as <-. cbn in Hv. discriminate.
  - apply seq_NoDup.
  - rewrite Ha. now apply mine_all.
  - rewrite Ha. now apply mine_all.
  - rewrite Ha, own_all. assumption.
  - exists (S (length O)), s0, own, s, t.
    split; [exists 2%nat; intros n Hle; destruct n as [|[|n]]; [lia|lia|apply Hrun]|].
    split; [assumption|]. split; [assumption|]. split; [assumption|]. rewrite Ha in H3. exact H3.
Qed.
End Run.
