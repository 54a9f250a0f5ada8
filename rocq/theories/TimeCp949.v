(** How many steps the functions of package cp949 take. *)
From Coq Require Import String ZArith List Bool Lia.
From Verif Require Import Base Utf8 SortSearch TableFrom TableTo Cp949Model GoLang GoSource GoTime GoFacts GoHeap GoCp949
  Facts Utf8Facts SliceFacts SpecCp949 TableFacts SourceSpec SourceFacts SourceFacts2 Cp949Facts2 Cp949Facts MemorySpec MemoryFacts TimeFacts.
Import ListNotations.
Local Open Scope string_scope.
Local Open Scope list_scope.
Local Open Scope Z_scope.
Local Open Scope go_scope.
Local Opaque fromTable toTable.
Local Arguments Z.add : simpl never.
Local Arguments Z.sub : simpl never.
Local Arguments Z.mul : simpl never.
Local Arguments Z.leb : simpl never.
Local Arguments Z.ltb : simpl never.
Local Arguments Z.geb : simpl never.
Local Arguments Z.gtb : simpl never.
Local Arguments Z.eqb : simpl never.
Local Arguments Z.max : simpl never.
Local Arguments Z.min : simpl never.
Local Arguments Z.to_nat : simpl never.
Local Arguments go_div : simpl never.
Local Arguments store : simpl never.
Local Arguments cells : simpl never.
Local Arguments zeros : simpl never.
Local Arguments copy_to : simpl never.

Section Run.
Variable grow : Z -> Z -> Z.
Variable E : Type.
Variable rd : nat -> E -> Z -> Z * list Z * option error * E.
Variable wr : nat -> E -> list Z -> Z * option error * E.
Notation run := (run grow E rd wr prog_cp949).
Notation run_steps := (run_steps grow E rd wr prog_cp949).
Notation state := (state E).
Notation mk := (mkState E).
Notation size s := (allocated (arrs E s)).
Notation tables := (tables E).
Notation within := (within E).

(** ** Loops *)
Section Loops.
Variable call : string -> list val -> state -> res (val * state).
Variable call_steps : string -> list val -> state -> Z.
Variable loops : nat.
Notation eval := (eval grow E rd wr call loops).
Notation exec := (exec grow E rd wr call loops).
Notation eval_steps := (eval_steps grow E rd wr call call_steps loops).
Notation exec_steps := (exec_steps grow E rd wr call call_steps loops).
Section While.
Variable e : expr.
Variable body : stmt.
Fixpoint while_steps (n : nat) (env : env) (s : state) {struct n} : Z :=
  match n with
  | O => 0
  | S n =>
    1 + eval_steps e env s + after E (eval e env s) (fun v s =>
    match v with
    | VBool true =>
      exec_steps body env s + after E (exec body env s) (fun ke s =>
      match fst ke with Next | Cont => while_steps n (snd ke) s | _ => 0 end)
    | _ => 0
    end)
  end.
Lemma exec_steps_While env s : exec_steps (While e body) env s = 1 + while_steps loops env s.
Proof. reflexivity. Qed.

Variable known : string -> option Z.
Hypothesis Hcall : forall f b, known f = Some b -> 0 <= b /\
  forall args s v s', tables s -> call f args s = Ok (v, s') -> within b (call_steps f args s) s s'.
(** [m] rounds at most. *)
Lemma while_within be bb : ebound known e = Some be -> sbound known body = Some bb ->
  forall m n env s k env' s', (m <= n)%nat -> tables s -> while_loop grow E rd wr call loops e body m env s = Ok (k, env', s') ->
  within (Z.of_nat m * (1 + be + bb)) (while_steps n env s) s s'.
Proof.
  intros He Hb.
  destruct (exprs_fine grow E rd wr call call_steps loops known Hcall e be He) as [He0 He1].
  destruct (stmts_fine grow E rd wr call call_steps loops known Hcall body bb Hb) as [Hb0 Hb1].
  induction m as [|m IH]; intros n env s k env' s' Hn Ht H; [discriminate|].
  destruct n as [|n]; [lia|]. rewrite Nat2Z.inj_succ. cbn [while_loop] in H. cbn [while_steps].
  destruct (eval e env s) as [[v s1]| |] eqn:Hv; try discriminate. cbn [bind after] in *.
  destruct (He1 _ _ _ _ Ht Hv) as (Ht1 & Hs1 & Hc1).
  destruct v; try discriminate. cbn [as_bool bind] in H. destruct b.
  - destruct (exec body env s1) as [[[k1 env1] s2]| |] eqn:Hx; try discriminate. cbn [bind after fst snd] in *.
    destruct (Hb1 _ _ _ _ _ Ht1 Hx) as (Ht2 & Hs2 & Hc2).
    destruct k1.
    + destruct (IH n _ _ _ _ _ ltac:(lia) Ht2 H) as (Ht3 & Hs3 & Hc3). split; [assumption|]. lia.
    + injection H as <- <- <-. split; [assumption|]. lia.
    + destruct (IH n _ _ _ _ _ ltac:(lia) Ht2 H) as (Ht3 & Hs3 & Hc3). split; [assumption|]. lia.
    + injection H as <- <- <-. split; [assumption|]. lia.
  - injection H as <- <- <-. split; [assumption|]. lia.
Qed.
End While.

(** ** ensureCap *)
(* Rounds left before the buffer has eight bytes. *)
Definition small_rounds (m : Z) : Z := if m <? 2 then 3 else if m <? 4 then 2 else if m <? 8 then 1 else 0.

Lemma grow_steps v k s n : forall m K env' s', m <> 0 -> m < k ->
  while_loop grow E rd wr call loops (LitB true) grow_body n [("m", VInt m); ("s", v); ("n", VInt k)] s = Ok (K, env', s') ->
  exists m', K = Next /\ env' = [("m", VInt m'); ("s", v); ("n", VInt k)] /\ s' = s /\ 1 <= m < m' /\
    while_steps (LitB true) grow_body n [("m", VInt m); ("s", v); ("n", VInt k)] s <= 3 * (m' - m) + 24 * small_rounds m.
Proof.
  assert (Hdiv : forall z, (if 4 =? 0 then Panic else Ok (go_div z 4)) = Ok (go_div z 4)) by reflexivity.
  assert (Hbody : forall m, let m1 := if m <? 0x400 then m + m else m + go_div m 4 in
    exec grow_body [("m", VInt m); ("s", v); ("n", VInt k)] s =
      Ok (if m1 >=? k then Brk else Next, [("m", VInt m1); ("s", v); ("n", VInt k)], s) /\
    exec_steps grow_body [("m", VInt m); ("s", v); ("n", VInt k)] s <= 22).
  { intros m m1. unfold m1. cbn. destruct (m <? 0x400) eqn:Hm; cbn; rewrite ?Hdiv; cbn.
    - destruct (m + m >=? k); cbn; split; (reflexivity || lia).
    - destruct (m + go_div m 4 >=? k); cbn; split; (reflexivity || lia). }
  induction n as [|n IH]; intros m K env' s' H0 Hk H; [discriminate|].
  cbn [while_loop] in H. cbn [while_steps]. cbn [GoLang.eval bind as_bool after GoTime.eval_steps] in H |- *.
  destruct (Hbody m) as [Hx Hc]. 
  assert (Hm1 : m < 0 /\ 2 * m = (if m <? 0x400 then m + m else m + go_div m 4) \/
    1 <= m /\ 5 * m <= 4 * (if m <? 0x400 then m + m else m + go_div m 4) + 3 /\
    (m < 1024 -> 2 * m = (if m <? 0x400 then m + m else m + go_div m 4))).
  { unfold go_div. destruct (Z.ltb_spec m 0x400); [lia|]. rewrite Z.quot_div_nonneg by lia. Z.div_mod_to_equations. lia. }
  set (m1 := if m <? 0x400 then m + m else m + go_div m 4) in *. clearbody m1. rewrite Hx in *. cbn [bind after fst snd] in *.
  assert (Hr : 1 <= m -> m < m1 /\ 24 + 24 * small_rounds m1 <= 3 * (m1 - m) + 24 * small_rounds m /\ 0 <= small_rounds m1).
  { intros H1. unfold small_rounds.
    destruct (Z.ltb_spec m 2), (Z.ltb_spec m 4), (Z.ltb_spec m 8), (Z.ltb_spec m1 2), (Z.ltb_spec m1 4), (Z.ltb_spec m1 8); lia. }
  destruct (m1 >=? k) eqn:Hk1.
  - injection H as <- <- <-. exists m1. do 3 (split; [reflexivity|]). lia.
  - destruct (IH m1 K env' s' ltac:(lia) ltac:(lia) H) as (m' & -> & -> & -> & Hm' & Hc').
    exists m'. do 3 (split; [reflexivity|]). lia.
Qed.

(* cp949.go:121-144, with the loop left open *)
Definition ensure_body (W : stmt) : stmt :=
  Block [If (Cmp Le (Var "n") (Cap (Var "s")))
  (Block [Return [(Var "s")]])
  (Block []);
  Define ["m"] (Cap (Var "s"));
  If (Cmp Eq (Var "m") (Lit 0))
  (Block [Assign [LVar "m"] (Var "n")])
  (Block [W]);
  Define ["t"] (Make (Len (Var "s")) (Var "m"));
  ExprS (CopyE (Var "t") (Var "s"));
  Return [(Var "t")]].
Lemma ensure_args W a0 a1 s r : exec (ensure_body W) [("s", a0); ("n", a1)] s = Ok r ->
  exists l o n c k, a0 = VSlice l o n c /\ a1 = VInt k.
Proof. destruct a0; try discriminate; destruct a1; try discriminate; eauto 7. Qed.
Lemma ensure_steps W l o n c k s K env' s' : let env m := [("m", VInt m); ("s", VSlice l o n c); ("n", VInt k)] in
  (forall m K env' s', m <> 0 -> m < k -> exec W (env m) s = Ok (K, env', s') ->
    exists m', K = Next /\ env' = env m' /\ s' = s /\ 1 <= m < m' /\
    exec_steps W (env m) s <= 3 * (m' - m) + 73) ->
  tables s ->
  exec (ensure_body W) [("s", VSlice l o n c); ("n", VInt k)] s = Ok (K, env', s') ->
  within 115 (exec_steps (ensure_body W) [("s", VSlice l o n c); ("n", VInt k)] s) s s'.
Proof.
  intros env HW Ht H. unfold within. cbn in H. cbn.
  destruct (Z.leb_spec k c) as [Hk|Hk]; cbn in H |- *; [injection H as <- <- <-; split; [assumption|lia]|].
  destruct (Z.eqb_spec c 0) as [H0|H0]; cbn in H |- *.
  - destruct (Z.leb_spec 0 n); [|discriminate]. destruct (Z.leb_spec n k); [|discriminate]. cbn in H |- *.
    unfold copy_to in H |- *. cbn in H |- *. injection H as <- <- <-. split; [exact Ht|].
    match goal with |- _ <= size (store E ?s1 ?l ?o ?b) /\ _ => pose proof (store_size E s1 l o b) as Hs end.
    cbn [arrs] in Hs. rewrite allocated_app in Hs. cbn [allocated] in Hs. rewrite zlen_zeros in * by lia. lia.
  - destruct (exec W (env c) s) as [[[K1 env1] s1]| |] eqn:HW1; try discriminate.
    2:{ unfold env in *. rewrite HW1 in H. discriminate. }
    2:{ unfold env in *. rewrite HW1 in H. discriminate. }
    destruct (HW _ _ _ _ H0 Hk HW1) as (m' & -> & -> & -> & Hm & Hc). unfold env in *. rewrite HW1 in *. cbn in H |- *.
    destruct (Z.leb_spec 0 n); [|discriminate]. destruct (Z.leb_spec n m'); [|discriminate]. cbn in H |- *.
    unfold copy_to in H |- *. cbn in H |- *. injection H as <- <- <-. split; [exact Ht|].
    match goal with |- _ <= size (store E ?s1 ?l ?o ?b) /\ _ => pose proof (store_size E s1 l o b) as Hs end.
    cbn [arrs] in Hs. rewrite allocated_app in Hs. cbn [allocated] in Hs. rewrite zlen_zeros in * by lia. lia.
Qed.
End Loops.

Lemma run_steps_S n f args s : run_steps (S n) f args s =
  match get f prog_cp949 with Some fn => enter_steps grow E rd wr (run n) (run_steps n) n fn args s | None => 0 end.
Proof. reflexivity. Qed.

(** A function without named results that is entered. *)
Lemma enter_within call call_steps loops f b args s v s' : f_results f = [] ->
  (forall K env' s', exec grow E rd wr call loops (f_body f) (combine (f_params f) args) s = Ok (K, env', s') ->
    within b (exec_steps grow E rd wr call call_steps loops (f_body f) (combine (f_params f) args) s) s s') ->
  enter grow E rd wr call loops f args s = Ok (v, s') ->
  length args = length (f_params f) /\
  within (1 + zlen (f_params f) + b) (enter_steps grow E rd wr call call_steps loops f args s) s s'.
Proof.
  intros Hf Hb H. unfold enter, enter_steps in *. rewrite Hf in *. cbn [zero_results bind] in *.
  destruct (Nat.eqb_spec (length (f_params f)) (length args)) as [Hl|]; [|discriminate]. split; [congruence|]. cbn [negb] in H.
  destruct (exec _ _ _ _ _ _ _ _ _) as [[[K env'] s1]| |] eqn:Hx; try discriminate. cbn [bind] in H.
  assert (s1 = s') as -> by (destruct K; try discriminate; congruence).
  destruct (Hb _ _ _ eq_refl) as (H1 & H2 & H3). split; [assumption|]. change (zlen (@nil (string * expr))) with 0. lia.
Qed.

Lemma ensureCap_within n args s v s' : tables s -> run n "ensureCap" args s = Ok (v, s') ->
  within 118 (run_steps n "ensureCap" args s) s s'.
Proof.
  intros Ht H. destruct n as [|n]; [discriminate|]. rewrite run_S in H. rewrite run_steps_S.
  cbn [the get bind prog_cp949 String.eqb Ascii.eqb Bool.eqb] in *.
  apply (enter_within _ (run_steps n) _ _ 115) in H; [exact (proj2 H)|reflexivity|].
  intros K env' s1 Hx. destruct args as [|a0 [|a1 rest]]; try discriminate.
  change (f_body f_ensureCap) with (ensure_body (While (LitB true) grow_body)) in *.
  change (combine (f_params f_ensureCap) (a0 :: a1 :: rest)) with [("s", a0); ("n", a1)] in *.
  destruct (ensure_args _ _ _ _ _ _ _ Hx) as (l & o & len & cap & k & -> & ->).
  eapply ensure_steps; [|exact Ht|exact Hx].
  intros m K1 env1 s2 Hm0 Hm Hw. rewrite exec_While in Hw.
  destruct (grow_steps _ (run_steps n) _ _ _ _ _ _ _ _ _ Hm0 Hm Hw) as (m' & H1 & H2 & H3 & H4 & H5).
  exists m'. do 4 (split; [assumption|]). rewrite exec_steps_While. unfold small_rounds in H5.
  destruct (m <? 2), (m <? 4), (m <? 8); lia.
Qed.

Definition known1 (f : string) : option Z := if String.eqb f "ensureCap" then Some 118 else None.
Lemma known1_ok n f b : known1 f = Some b -> 0 <= b /\
  forall args s v s', tables s -> run n f args s = Ok (v, s') -> within b (run_steps n f args s) s s'.
Proof.
  unfold known1. destruct (String.eqb_spec f "ensureCap") as [->|]; [|discriminate]. intros [= <-]. split; [lia|].
  intros. eapply ensureCap_within; eassumption.
Qed.

(** A function without loops whose calls are known. *)
Lemma run_within known fn f b n args s v s' :
  (forall n f b, known f = Some b -> 0 <= b /\
    forall args s v s', tables s -> run n f args s = Ok (v, s') -> within b (run_steps n f args s) s s') ->
  get f prog_cp949 = Some fn -> f_results fn = [] -> sbound known (f_body fn) = Some b ->
  tables s -> run n f args s = Ok (v, s') -> within (1 + zlen (f_params fn) + b) (run_steps n f args s) s s'.
Proof.
  intros Hk Hf Hr Hb Ht H. destruct n as [|n]; [discriminate|]. rewrite run_S in H. rewrite run_steps_S. rewrite Hf in *. cbn [the bind] in H.
  apply (enter_within _ (run_steps n) _ _ b) in H; [exact (proj2 H)|assumption|].
  intros K env' s1 Hx. eapply stmts_fine; [apply Hk|exact Hb|exact Ht|exact Hx].
Qed.
Definition known2 (f : string) : option Z := if String.eqb f "appendRune" then Some 154 else known1 f.
Lemma known2_ok n f b : known2 f = Some b -> 0 <= b /\
  forall args s v s', tables s -> run n f args s = Ok (v, s') -> within b (run_steps n f args s) s s'.
Proof.
  unfold known2. destruct (String.eqb_spec f "appendRune") as [->|]; [|apply known1_ok]. intros [= <-]. split; [lia|].
  intros args s v s' Ht H. exact (run_within known1 f_appendRune "appendRune" 151 n args s v s' known1_ok eq_refl eq_refl eq_refl Ht H).
Qed.

(** ** Statement after statement *)
Local Arguments field_of : simpl never.
Local Arguments set_field : simpl never.
Local Arguments slice_of : simpl never.
Local Arguments GoLang.run : simpl never.
Local Arguments GoTime.run_steps : simpl never.
Lemma within_le b b' t s s' : within b t s s' -> b <= b' -> within b' t s s'.
Proof. intros (H1 & H2 & H3) H. split; [assumption|]. split; lia. Qed.
Lemma within_1 b t s s' : within b t s s' -> within (1 + b) (1 + t) s s'.
Proof. intros (H1 & H2 & H3). split; [assumption|]. split; lia. Qed.

Section Steps.
Variable n : nat.
Notation exec := (exec grow E rd wr (run n) n).
Notation execs := (GoFacts.execs grow E rd wr (run n) n).
Notation exec_steps := (exec_steps grow E rd wr (run n) (run_steps n) n).
Notation execs_steps := (execs_steps grow E rd wr (run n) (run_steps n) n).
Lemma steps_Block cs env s : exec_steps (Block cs) env s = 1 + execs_steps cs env s.
Proof. reflexivity. Qed.
Lemma list_within c cs b1 b2 env s : 0 <= b2 ->
  (forall K env1 s1, exec c env s = Ok (K, env1, s1) -> within b1 (exec_steps c env s) s s1) ->
  (forall env1 s1, exec c env s = Ok (Next, env1, s1) -> tables s1 -> forall K env2 s2,
    execs cs env1 s1 = Ok (K, env2, s2) -> within b2 (execs_steps cs env1 s1) s1 s2) ->
  forall K env2 s2, execs (c :: cs) env s = Ok (K, env2, s2) -> within (b1 + b2) (execs_steps (c :: cs) env s) s s2.
Proof.
  intros Hb H1 H2 K env2 s2 H. cbn [GoFacts.execs] in H. cbn [TimeFacts.execs_steps].
  destruct (exec c env s) as [[[k env1] s1]| |]; try discriminate. cbn [bind after fst snd] in *.
  destruct (H1 _ _ _ eq_refl) as (T1 & T2 & T3).
  destruct k; try (injection H as <- <- <-; split; [assumption|]; split; [assumption|]; lia).
  destruct (H2 _ _ eq_refl T1 _ _ _ H) as (T4 & T5 & T6). split; [assumption|]. split; lia.
Qed.
Lemma Block_within cs b env s :
  (forall K env2 s2, execs cs env s = Ok (K, env2, s2) -> within b (execs_steps cs env s) s s2) ->
  forall K env2 s2, exec (Block cs) env s = Ok (K, env2, s2) -> within (1 + b) (exec_steps (Block cs) env s) s s2.
Proof.
  intros H K env2 s2 Hx. change (exec (Block cs) env s) with
    (let! (k, env', s') := execs cs env s in Ok (k, leave env env', s')) in Hx. rewrite steps_Block.
  destruct (execs cs env s) as [[[k env1] s1]| |]; try discriminate. cbn [bind] in Hx. injection Hx as _ _ <-.
  destruct (H _ _ _ eq_refl) as (T1 & T2 & T3). split; [assumption|]. split; lia.
Qed.
Lemma steps_fine c b env s k env1 s1 : sbound known2 c = Some b -> tables s -> exec c env s = Ok (k, env1, s1) ->
  within b (exec_steps c env s) s s1.
Proof. intros Hb Ht H. destruct (stmts_fine grow E rd wr (run n) (run_steps n) n known2 (known2_ok n) c b Hb) as [_ Hc]. eauto. Qed.
End Steps.

Lemma tables_trs A A' O X p T t v v' : (p < length O)%nat -> tables (trs E A O X p T t v) -> tables (trs E A' O X p T t v').
Proof.
  unfold tables, TimeFacts.tables, trs. cbn [objs]. intros Hp H. revert p Hp H. induction O as [|o O IH]; intros [|p] Hp H; cbn in *; try lia.
  - inversion H as [|? ? H1 H2]; subst. constructor; [|assumption]. exact H1.
  - inversion H as [|? ? H1 H2]; subst. constructor; [assumption|]. apply IH; [lia|assumption].
Qed.

Lemma from_Translate_steps O X p T t ld A l sl data od nd cd c' out err sl' :
  (p < length O)%nat -> u16_table t ->
  ref A l sl -> input A ld od nd cd data -> ld <> l \/ cell A ld = [] -> Forall is_byte data ->
  from_Translate grow t sl data = Ok (c', out, err, sl') -> tables (trs E A O X p T t (sv l sl)) ->
  exists N, forall n, (N <= n)%nat -> forall v s',
    run n "translateFromCp949.Translate" [VPtr p; VSlice ld od nd cd] (trs E A O X p T t (sv l sl)) = Ok (v, s') ->
    within (501 * (zlen data + 1) + 40)
      (run_steps n "translateFromCp949.Translate" [VPtr p; VSlice ld od nd cd] (trs E A O X p T t (sv l sl)))
      (trs E A O X p T t (sv l sl)) s'.
Proof.
  intros Hp Ht Hr Hi Hs Hb H Htab. unfold from_Translate, reslice in H.
  destruct ((0 <=? 0) && (0 <=? scap sl)) eqn:Hc; try discriminate. cbn [bind] in H.
  destruct (slice_ref A l sl 0 Hr ltac:(lia)) as [Hsl Hr0].
  destruct (go_from_loop grow E rd wr O X p T t ld Hp Ht _ _ _ _ _ _ _ _ _ _ _ _ _ Hr0 Hi Hs Hb H)
    as (A' & l' & Hr' & Hg & env' & N & Henv & Hrun).
  exists (S (N + S (length data))). intros [|n] Hn v s' Hres; [lia|].
  rewrite run_S in Hres. rewrite run_steps_S. cbn [the get bind prog_cp949 String.eqb Ascii.eqb Bool.eqb] in *.
  apply (enter_within _ (run_steps n) _ _ (501 * (zlen data + 1) + 37)) in Hres; [|reflexivity|].
  { destruct Hres as [_ (H1 & H2 & H3)]. split; [assumption|]. split; [assumption|]. change (zlen (f_params f_translateFromCp949_Translate)) with 2 in H3. lia. }
  clear Hres v s'. cbn [f_body f_translateFromCp949_Translate f_params combine].
  replace (501 * (zlen data + 1) + 37) with (1 + (501 * (zlen data + 1) + 36)) by ring. pose proof (zlen_nonneg data).
  apply Block_within. replace (501 * (zlen data + 1) + 36) with (15 + (501 * (zlen data + 1) + 21)) by ring.
  apply list_within; [lia| |].
  { intros. eapply within_le; [eapply steps_fine; [reflexivity|assumption|eassumption]|]. vm_compute. discriminate. }
  intros env1 s1 H1 T1.
  assert (exec grow E rd wr (run n) n (Assign [LField (Var "p") "scratch"] (Slice (Field (Var "p") "scratch") (Lit 0) (Lit 0)))
    [("p", VPtr p); ("data", VSlice ld od nd cd)] (trs E A O X p T t (sv l sl)) =
    Ok (Next, [("p", VPtr p); ("data", VSlice ld od nd cd)], trs E A O X p T t (sv l (mkSlice (arr sl) 0)))) as H2.
  { eapply exec_Field.
    { cbn. rewrite field_scratch by assumption. cbn. rewrite Hsl. reflexivity. }
    { reflexivity. }
    { apply set_scratch. assumption. } }
  rewrite H2 in H1. injection H1 as <- <-. clear H2.
  replace (501 * (zlen data + 1) + 21) with (5 + (501 * (zlen data + 1) + 16)) by ring.
  apply list_within; [lia| |].
  { intros. eapply within_le; [eapply steps_fine; [reflexivity|assumption|eassumption]|]. vm_compute. discriminate. }
  intros env1 s1 H1 _. cbn [GoLang.exec GoLang.eval bind length Nat.eqb negb combine app] in H1. injection H1 as <- <-.
  replace (501 * (zlen data + 1) + 16) with ((501 * (zlen data + 1) + 1) + 15) by ring.
  apply list_within; [lia| |].
  { intros K env1 s1 Hw. rewrite exec_While in Hw. rewrite exec_steps_While.
    pose proof (eq_trans (Hrun n (S (length data)) ltac:(lia) ltac:(lia)) (eq_trans (eq_sym (Hrun n n ltac:(lia) ltac:(lia))) Hw)) as Hw'.
    eapply within_le; [apply within_1|].
    - eapply (while_within _ (run_steps n) _ (Cmp Gt (Len (Var "data")) (Lit 0)) from_body known2 (known2_ok n) 4 494 ltac:(reflexivity) ltac:(reflexivity) (S (length data)) n); [lia|exact T1|exact Hw'].
    - rewrite Nat2Z.inj_succ. fold (zlen data). lia. }
  intros env1 s1 Hw T2 K env2 s2 Hx. rewrite <- (Z.add_0_r 15). eapply list_within; [lia| | |exact Hx].
  { intros. eapply within_le; [eapply steps_fine; [reflexivity|assumption|eassumption]|]. vm_compute. discriminate. }
  intros env3 s3 H3 T3 K4 env4 s4 H4. injection H4 as <- <- <-. split; [assumption|]. split; cbn; lia.
Qed.
Lemma to_Translate_steps O X p T t ld A l sl data od nd cd c' out err sl' :
  (p < length O)%nat ->
  ref A l sl -> input A ld od nd cd data -> ld <> l \/ cell A ld = [] ->
  to_Translate grow t sl data = Ok (c', out, err, sl') -> tables (trs E A O X p T t (sv l sl)) ->
  exists N, forall n, (N <= n)%nat -> forall v s',
    run n "translateToCp949.Translate" [VPtr p; VSlice ld od nd cd] (trs E A O X p T t (sv l sl)) = Ok (v, s') ->
    within (361 * (zlen data + 1) + 40)
      (run_steps n "translateToCp949.Translate" [VPtr p; VSlice ld od nd cd] (trs E A O X p T t (sv l sl)))
      (trs E A O X p T t (sv l sl)) s'.
Proof.
  intros Hp Hr Hi Hs H Htab. unfold to_Translate, reslice in H.
  destruct ((0 <=? 0) && (0 <=? scap sl)) eqn:Hc; try discriminate. cbn [bind] in H.
  destruct (slice_ref A l sl 0 Hr ltac:(lia)) as [Hsl Hr0].
  destruct (go_to_loop grow E rd wr O X p T t ld Hp _ _ _ _ _ _ _ _ _ _ _ _ _ Hr0 Hi Hs H)
    as (-> & -> & A' & l' & Hr' & Hg & d & N & Hrun).
  exists (S (N + S (length data))). intros [|n] Hn v s' Hres; [lia|].
  rewrite run_S in Hres. rewrite run_steps_S. cbn [the get bind prog_cp949 String.eqb Ascii.eqb Bool.eqb] in *.
  apply (enter_within _ (run_steps n) _ _ (361 * (zlen data + 1) + 37)) in Hres; [|reflexivity|].
  { destruct Hres as [_ (H1 & H2 & H3)]. split; [assumption|]. split; [assumption|]. change (zlen (f_params f_translateToCp949_Translate)) with 2 in H3. lia. }
  clear Hres v s'. cbn [f_body f_translateToCp949_Translate f_params combine].
  replace (361 * (zlen data + 1) + 37) with (1 + (361 * (zlen data + 1) + 36)) by ring. pose proof (zlen_nonneg data).
  apply Block_within. replace (361 * (zlen data + 1) + 36) with (15 + (361 * (zlen data + 1) + 21)) by ring.
  apply list_within; [lia| |].
  { intros. eapply within_le; [eapply steps_fine; [reflexivity|assumption|eassumption]|]. vm_compute. discriminate. }
  intros env1 s1 H1 T1.
  assert (exec grow E rd wr (run n) n (Assign [LField (Var "p") "scratch"] (Slice (Field (Var "p") "scratch") (Lit 0) (Lit 0)))
    [("p", VPtr p); ("data", VSlice ld od nd cd)] (trs E A O X p T t (sv l sl)) =
    Ok (Next, [("p", VPtr p); ("data", VSlice ld od nd cd)], trs E A O X p T t (sv l (mkSlice (arr sl) 0)))) as H2.
  { eapply exec_Field.
    { cbn. rewrite field_scratch by assumption. cbn. rewrite Hsl. reflexivity. }
    { reflexivity. }
    { apply set_scratch. assumption. } }
  rewrite H2 in H1. injection H1 as <- <-. clear H2.
  replace (361 * (zlen data + 1) + 21) with (5 + (361 * (zlen data + 1) + 16)) by ring.
  apply list_within; [lia| |].
  { intros. eapply within_le; [eapply steps_fine; [reflexivity|assumption|eassumption]|]. vm_compute. discriminate. }
  intros env1 s1 H1 _. cbn [GoLang.exec GoLang.eval bind length Nat.eqb negb combine app] in H1. injection H1 as <- <-.
  replace (361 * (zlen data + 1) + 16) with ((361 * (zlen data + 1) + 1) + 15) by ring.
  apply list_within; [lia| |].
  { intros K env1 s1 Hw. rewrite exec_While in Hw. rewrite exec_steps_While.
    pose proof (eq_trans (Hrun n (S (length data)) ltac:(lia) ltac:(lia)) (eq_trans (eq_sym (Hrun n n ltac:(lia) ltac:(lia))) Hw)) as Hw'.
    eapply within_le; [apply within_1|].
    - eapply (while_within _ (run_steps n) _ (Cmp Gt (Len (Var "data")) (Lit 0)) to_body known2 (known2_ok n) 4 354 ltac:(reflexivity) ltac:(reflexivity) (S (length data)) n); [lia|exact T1|exact Hw'].
    - rewrite Nat2Z.inj_succ. fold (zlen data). lia. }
  intros env1 s1 Hw T2 K env2 s2 Hx. rewrite <- (Z.add_0_r 15). eapply list_within; [lia| | |exact Hx].
  { intros. eapply within_le; [eapply steps_fine; [reflexivity|assumption|eassumption]|]. vm_compute. discriminate. }
  intros env3 s3 H3 T3 K4 env4 s4 H4. injection H4 as <- <- <-. split; [assumption|]. split; cbn; lia.
Qed.

Lemma zlen_fromTable : zlen fromTable <= 32768.
Proof. Local Transparent fromTable. vm_compute. discriminate. Local Opaque fromTable. Qed.
Lemma zlen_toTable : zlen toTable <= 32768.
Proof. Local Transparent toTable. vm_compute. discriminate. Local Opaque toTable. Qed.
Lemma tables_new A O X A' T t v w : zlen t <= 32768 -> tables (mkState E A O X) ->
  tables (trs E A' (O ++ [tr T t v]) X (length O) T t w).
Proof.
  unfold tables, TimeFacts.tables, trs. cbn [objs]. intros Hl H. rewrite set_nth_last. apply Forall_app. split; [exact H|].
  constructor; [|constructor]. intros x Hx. cbn in Hx. injection Hx as <-. eauto.
Qed.

Lemma From_steps A O X ld od nd cd data c' out err sl' : nil_ok A -> input A ld od nd cd data -> Forall is_byte data ->
  from_Translate grow fromTable nil_slice data = Ok (c', out, err, sl') -> tables (mkState E A O X) ->
  exists N, forall n, (N <= n)%nat -> forall v s', run n "From" [VSlice ld od nd cd] (mkState E A O X) = Ok (v, s') ->
  within (501 * (zlen data + 1) + 140) (run_steps n "From" [VSlice ld od nd cd] (mkState E A O X)) (mkState E A O X) s'.
Proof.
  intros Hnil Hi Hb Ht Htab.
  set (O' := O ++ [tr "translateFromCp949" fromTable (VSlice 0 0 0 0)]).
  assert (Hp : (length O < length O')%nat) by (unfold O'; rewrite app_length; cbn; lia).
  assert (Hs : ld <> 0%nat \/ cell A ld = []) by (destruct (Nat.eq_dec ld 0) as [->|]; [right; apply Hnil|auto]).
  pose proof (tables_new A O X A "translateFromCp949" fromTable (VSlice 0 0 0 0) (sv 0 nil_slice) zlen_fromTable Htab) as Htab'. fold O' in Htab'.
  destruct (from_Translate_steps O' X (length O) "translateFromCp949" fromTable ld A 0 nil_slice data od nd cd c' out err sl'
     Hp u16_fromTable (nil_ref A Hnil) Hi Hs Hb Ht Htab') as (N & Hrun).
  exists (S (S N)). intros [|[|n]] Hn v s' Hres; [lia|lia|].
  rewrite run_S in Hres. rewrite run_steps_S. cbn [the get bind prog_cp949 String.eqb Ascii.eqb Bool.eqb] in *.
  apply (enter_within _ (run_steps (S n)) _ _ (501 * (zlen data + 1) + 138)) in Hres; [|reflexivity|].
  { destruct Hres as [_ (H1 & H2 & H3)]. split; [assumption|]. split; [assumption|]. change (zlen (f_params f_From)) with 1 in H3. lia. }
  clear Hres v s'. cbn [f_body f_From f_params combine]. pose proof (zlen_nonneg data).
  replace (501 * (zlen data + 1) + 138) with (1 + (501 * (zlen data + 1) + 137)) by ring.
  apply Block_within. replace (501 * (zlen data + 1) + 137) with (20 + (501 * (zlen data + 1) + 117)) by ring.
  assert (exec grow E rd wr (run (S n)) (S n) (Define ["tr"; "err"] (Call "fromCp949" [])) [("in", VSlice ld od nd cd)] (mkState E A O X) =
    Ok (Next, combine ["tr"; "err"] [VPtr (length O); VErr None] ++ [("in", VSlice ld od nd cd)],
     trs E A O' X (length O) "translateFromCp949" fromTable (sv 0 nil_slice))) as H1.
  { eapply exec_Define; [apply go_fromCp949|reflexivity]. }
  cbn [combine app] in H1. apply list_within; [lia| |].
  { intros K env1 s1 Hx. rewrite H1 in Hx. injection Hx as <- <- <-. split; [exact Htab'|]. split; [cbn; lia|].
    apply Z.le_trans with 13; [apply Z.eq_le_incl; reflexivity|cbn; lia]. }
  intros env1 s1 Hx _. rewrite H1 in Hx. injection Hx as <- <-. clear H1.
  replace (501 * (zlen data + 1) + 117) with (12 + (501 * (zlen data + 1) + 105)) by ring.
  apply list_within; [lia| |].
  { intros. eapply within_le; [eapply steps_fine; [reflexivity|assumption|eassumption]|]. vm_compute. discriminate. }
  intros env1 s1 Hx _.
  assert (env1 = [("tr", VPtr (length O)); ("err", VErr None); ("in", VSlice ld od nd cd)] /\
    s1 = trs E A O' X (length O) "translateFromCp949" fromTable (sv 0 nil_slice)) as [-> ->].
  { erewrite exec_If in Hx; [|reflexivity|eapply exec_Block; reflexivity]. injection Hx as <- <-. split; reflexivity. }
  clear Hx. replace (501 * (zlen data + 1) + 105) with (501 * (zlen data + 1) + 50 + (40 + (15 + 0))) by ring.
  apply list_within; [lia| |].
  { intros K env1 s1 Hx.
    assert (exists v, run (S n) "translateFromCp949.Translate" [VPtr (length O); VSlice ld od nd cd]
      (trs E A O' X (length O) "translateFromCp949" fromTable (sv 0 nil_slice)) = Ok (v, s1)) as [v Hv].
    { cbn in Hx. unfold trs in Hx at 1. cbn [objs] in Hx. rewrite nth_error_set_nth in Hx by assumption. cbn in Hx.
      destruct (GoLang.run _ _ _ _ _ _ _ _ _) as [[v s2]| |] eqn:Hv in Hx; try discriminate. cbn [bind] in Hx.
      exists v. refine (eq_trans Hv _). destruct v; try discriminate. destruct (_ =? 3)%nat; try discriminate. cbn [bind] in Hx. congruence. }
    destruct (Hrun (S n) ltac:(lia) _ _ Hv) as (T1 & T2 & T3). split; [assumption|]. split; [assumption|].
    cbn. unfold trs at 1. cbn [objs]. rewrite nth_error_set_nth by assumption. cbn. unfold trs in T3 at 1. cbn in T3. lia. }
  intros env1 s1 _ T1. apply list_within; [lia| |].
  { intros. eapply within_le; [eapply steps_fine; [reflexivity|assumption|eassumption]|]. vm_compute. discriminate. }
  intros env2 s2 _ T2. apply list_within; [lia| |].
  { intros. eapply within_le; [eapply steps_fine; [reflexivity|assumption|eassumption]|]. vm_compute. discriminate. }
  intros env3 s3 H3 T3 K4 env4 s4 H4. injection H4 as <- <- <-. split; [assumption|]. split; cbn; lia.
Qed.
Lemma To_steps A O X ld od nd cd data c' out err sl' : nil_ok A -> input A ld od nd cd data ->
  to_Translate grow toTable nil_slice data = Ok (c', out, err, sl') -> tables (mkState E A O X) ->
  exists N, forall n, (N <= n)%nat -> forall v s', run n "To" [VSlice ld od nd cd] (mkState E A O X) = Ok (v, s') ->
  within (361 * (zlen data + 1) + 140) (run_steps n "To" [VSlice ld od nd cd] (mkState E A O X)) (mkState E A O X) s'.
Proof.
  intros Hnil Hi Ht Htab.
  set (O' := O ++ [tr "translateToCp949" toTable (VSlice 0 0 0 0)]).
  assert (Hp : (length O < length O')%nat) by (unfold O'; rewrite app_length; cbn; lia).
  assert (Hs : ld <> 0%nat \/ cell A ld = []) by (destruct (Nat.eq_dec ld 0) as [->|]; [right; apply Hnil|auto]).
  pose proof (tables_new A O X A "translateToCp949" toTable (VSlice 0 0 0 0) (sv 0 nil_slice) zlen_toTable Htab) as Htab'. fold O' in Htab'.
  destruct (to_Translate_steps O' X (length O) "translateToCp949" toTable ld A 0 nil_slice data od nd cd c' out err sl'
     Hp (nil_ref A Hnil) Hi Hs Ht Htab') as (N & Hrun).
  exists (S (S N)). intros [|[|n]] Hn v s' Hres; [lia|lia|].
  rewrite run_S in Hres. rewrite run_steps_S. cbn [the get bind prog_cp949 String.eqb Ascii.eqb Bool.eqb] in *.
  apply (enter_within _ (run_steps (S n)) _ _ (361 * (zlen data + 1) + 138)) in Hres; [|reflexivity|].
  { destruct Hres as [_ (H1 & H2 & H3)]. split; [assumption|]. split; [assumption|]. change (zlen (f_params f_To)) with 1 in H3. lia. }
  clear Hres v s'. cbn [f_body f_To f_params combine]. pose proof (zlen_nonneg data).
  replace (361 * (zlen data + 1) + 138) with (1 + (361 * (zlen data + 1) + 137)) by ring.
  apply Block_within. replace (361 * (zlen data + 1) + 137) with (20 + (361 * (zlen data + 1) + 117)) by ring.
  assert (exec grow E rd wr (run (S n)) (S n) (Define ["tr"; "err"] (Call "toCp949" [])) [("in", VSlice ld od nd cd)] (mkState E A O X) =
    Ok (Next, combine ["tr"; "err"] [VPtr (length O); VErr None] ++ [("in", VSlice ld od nd cd)],
     trs E A O' X (length O) "translateToCp949" toTable (sv 0 nil_slice))) as H1.
  { eapply exec_Define; [apply go_toCp949|reflexivity]. }
  cbn [combine app] in H1. apply list_within; [lia| |].
  { intros K env1 s1 Hx. rewrite H1 in Hx. injection Hx as <- <- <-. split; [exact Htab'|]. split; [cbn; lia|].
    apply Z.le_trans with 13; [apply Z.eq_le_incl; reflexivity|cbn; lia]. }
  intros env1 s1 Hx _. rewrite H1 in Hx. injection Hx as <- <-. clear H1.
  replace (361 * (zlen data + 1) + 117) with (12 + (361 * (zlen data + 1) + 105)) by ring.
  apply list_within; [lia| |].
  { intros. eapply within_le; [eapply steps_fine; [reflexivity|assumption|eassumption]|]. vm_compute. discriminate. }
  intros env1 s1 Hx _.
  assert (env1 = [("tr", VPtr (length O)); ("err", VErr None); ("in", VSlice ld od nd cd)] /\
    s1 = trs E A O' X (length O) "translateToCp949" toTable (sv 0 nil_slice)) as [-> ->].
  { erewrite exec_If in Hx; [|reflexivity|eapply exec_Block; reflexivity]. injection Hx as <- <-. split; reflexivity. }
  clear Hx. replace (361 * (zlen data + 1) + 105) with (361 * (zlen data + 1) + 50 + (40 + (15 + 0))) by ring.
  apply list_within; [lia| |].
  { intros K env1 s1 Hx.
    assert (exists v, run (S n) "translateToCp949.Translate" [VPtr (length O); VSlice ld od nd cd]
      (trs E A O' X (length O) "translateToCp949" toTable (sv 0 nil_slice)) = Ok (v, s1)) as [v Hv].
    { cbn in Hx. unfold trs in Hx at 1. cbn [objs] in Hx. rewrite nth_error_set_nth in Hx by assumption. cbn in Hx.
      destruct (GoLang.run _ _ _ _ _ _ _ _ _) as [[v s2]| |] eqn:Hv in Hx; try discriminate. cbn [bind] in Hx.
      exists v. refine (eq_trans Hv _). destruct v; try discriminate. destruct (_ =? 3)%nat; try discriminate. cbn [bind] in Hx. congruence. }
    destruct (Hrun (S n) ltac:(lia) _ _ Hv) as (T1 & T2 & T3). split; [assumption|]. split; [assumption|].
    cbn. unfold trs at 1. cbn [objs]. rewrite nth_error_set_nth by assumption. cbn. unfold trs in T3 at 1. cbn in T3. lia. }
  intros env1 s1 _ T1. apply list_within; [lia| |].
  { intros. eapply within_le; [eapply steps_fine; [reflexivity|assumption|eassumption]|]. vm_compute. discriminate. }
  intros env2 s2 _ T2. apply list_within; [lia| |].
  { intros. eapply within_le; [eapply steps_fine; [reflexivity|assumption|eassumption]|]. vm_compute. discriminate. }
  intros env3 s3 H3 T3 K4 env4 s4 H4. injection H4 as <- <- <-. split; [assumption|]. split; cbn; lia.
Qed.
End Run.

Lemma package_tables_ok E s : package_tables E s -> TimeFacts.tables E s.
Proof.
  unfold package_tables, TimeFacts.tables. apply Forall_impl. intros o Ho v Hv.
  destruct (Ho v Hv) as [->| ->]; [exists fromTable|exists toTable]; split; try reflexivity; [apply zlen_fromTable|apply zlen_toTable].
Qed.

Section Amortised.
Variable grow : Z -> Z -> Z.
Hypothesis Hgrow : amortised grow.
Variable E : Type.
Variable rd : nat -> E -> Z -> Z * list Z * option error * E.
Variable wr : nat -> E -> list Z -> Z * option error * E.
Lemma C128_From_lemma s v data : has_nil (arrs E s) -> slice_holds (arrs E s) v data -> Forall is_byte data -> package_tables E s ->
  exists r s', calls grow E rd wr prog_cp949 "From" [v] s r s' /\
    takes grow E rd wr prog_cp949 "From" [v] s (681 * zlen data + 2561).
Proof.
  intros Hn Hi Hb Ht. destruct (C120_From_lemma grow Hgrow E rd wr s v data Hn Hi Hb) as (r & s' & (N1 & H1) & H2).
  exists r, s'. split; [exists N1; exact H1|]. destruct s as [A O X]. apply holds_input in Hi. destruct Hi as (l & o & n & c & -> & Hi). cbn [arrs] in *.
  assert (exists c' out err sl', from_Translate grow fromTable nil_slice data = Ok (c', out, err, sl')) as (c' & out & err & sl' & Hf).
  { destruct (decodes_or_cut data Hb) as [(rs & Hd)|(a & Hc)].
    - destruct (from_Translate_complete grow nil_slice data rs nil_slice_ok Hd) as (s1 & _ & _ & ->). eauto.
    - destruct (from_Translate_cut grow nil_slice data a nil_slice_ok Hc) as (s1 & _ & ->). eauto. }
  destruct (From_steps grow E rd wr A O X l o n c data c' out err sl' Hn Hi Hb Hf (package_tables_ok _ _ Ht)) as (N2 & H3).
  exists (N1 + N2)%nat. intros fuel Hfu. destruct (H3 fuel ltac:(lia) _ _ (H1 fuel ltac:(lia))) as (_ & _ & H4).
  cbn [arrs] in H4. lia.
Qed.
Lemma C128_To_lemma s v data : has_nil (arrs E s) -> slice_holds (arrs E s) v data -> Forall is_byte data -> package_tables E s ->
  exists r s', calls grow E rd wr prog_cp949 "To" [v] s r s' /\
    takes grow E rd wr prog_cp949 "To" [v] s (541 * zlen data + 2421).
Proof.
  intros Hn Hi Hb Ht. destruct (C120_To_lemma grow Hgrow E rd wr s v data Hn Hi Hb) as (r & s' & (N1 & H1) & H2).
  exists r, s'. split; [exists N1; exact H1|]. destruct s as [A O X]. apply holds_input in Hi. destruct Hi as (l & o & n & c & -> & Hi). cbn [arrs] in *.
  destruct (to_Translate_spec grow nil_slice data nil_slice_ok Hb) as (sl' & _ & _ & Hf).
  destruct (To_steps grow E rd wr A O X l o n c data _ _ _ _ Hn Hi Hf (package_tables_ok _ _ Ht)) as (N2 & H3).
  exists (N1 + N2)%nat. intros fuel Hfu. destruct (H3 fuel ltac:(lia) _ _ (H1 fuel ltac:(lia))) as (_ & _ & H4).
  cbn [arrs] in H4. lia.
Qed.
End Amortised.
