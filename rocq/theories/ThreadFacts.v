(** Finishing a process of GoThreads.v is running the call with GoLang.v. *)
From Coq Require Import String ZArith List Bool Lia.
From Verif Require Import Base Utf8 SortSearch Cp949Model GoLang GoThreads Facts SliceFacts.
Import ListNotations.
Local Open Scope list_scope.
Local Open Scope Z_scope.
Local Open Scope go_scope.

(** ** Induction on syntax *)
Definition lhs_exprs (l : lhs) : list expr :=
  match l with LBlank | LVar _ => [] | LField a _ => [a] | LIndex a i => [a; i] end.
Definition kids (e : expr) : list expr :=
  match e with
  | Lit _ | LitB _ | LitS _ | NilErr | NilSlice | NilPtr | ErrLit _ | TableLit _ | Var _ => []
  | Arith _ _ a b | Cmp _ a b | And a b | Or a b | Concat a b | Index a b | SliceFrom a b | AppendS a b
  | CopyE a b | Make a b | EncodeRuneE a b => [a; b]
  | Not a | Conv _ a | Runes a | Str a | Len a | Cap a | MapGet _ a | MapGet2 _ a | MapSlice2 _ a | Field a _
  | DecodeRuneE a | SearchE a _ _ => [a]
  | Slice a b c => [a; b; c]
  | Append a es => a :: es
  | New _ fs => map snd fs
  | Call _ es => es
  | Method a _ es => a :: es
  end.
Definition kid_stmts (e : expr) : list stmt := match e with SearchE _ _ c => [c] | _ => [] end.
Definition stmt_exprs (c : stmt) : list expr :=
  match c with
  | Define _ e | ExprS e => [e]
  | Assign ls e => e :: flat_map lhs_exprs ls
  | If e _ _ | While e _ | Range _ _ e _ => [e]
  | Return es => es
  | Block _ | Continue | Break => []
  end.
Definition stmt_stmts (c : stmt) : list stmt :=
  match c with
  | Block cs => cs
  | If _ a b => [a; b]
  | While _ a | Range _ _ _ a => [a]
  | _ => []
  end.

Section Ind.
Variable P : expr -> Prop.
Variable Q : stmt -> Prop.
Hypothesis HP : forall e, Forall P (kids e) -> Forall Q (kid_stmts e) -> P e.
Hypothesis HQ : forall c, Forall P (stmt_exprs c) -> Forall Q (stmt_stmts c) -> Q c.
Fixpoint expr_all (e : expr) : P e
with stmt_all (c : stmt) : Q c.
Proof.
  - apply HP; destruct e; cbn [kids kid_stmts];
      try solve [repeat (apply Forall_nil || (apply Forall_cons; [apply expr_all || apply stmt_all|]))].
    + apply Forall_cons; [apply expr_all|]. induction es as [|e0 es IH]; constructor; [apply expr_all|exact IH].
    + induction fs as [|[f e0] fs IH]; constructor; [apply expr_all|exact IH].
    + induction args as [|e0 es IH]; constructor; [apply expr_all|exact IH].
    + apply Forall_cons; [apply expr_all|]. induction args as [|e0 es IH]; constructor; [apply expr_all|exact IH].
  - apply HQ; destruct c; cbn [stmt_exprs stmt_stmts];
      try solve [repeat (apply Forall_nil || (apply Forall_cons; [apply expr_all || apply stmt_all|]))].
    + apply Forall_cons; [apply expr_all|].
      induction ls as [|l ls IH]; [constructor|].
      destruct l; cbn [flat_map lhs_exprs app]; [exact IH|exact IH| |];
        repeat (apply Forall_cons; [apply expr_all|]); exact IH.
    + induction es as [|e0 es IH]; constructor; [apply expr_all|exact IH].
    + induction ss as [|e0 es IH]; constructor; [apply stmt_all|exact IH].
Qed.
End Ind.

(** ** Functions passed to sort.Search that change nothing *)
Fixpoint no_effect (e : expr) : bool :=
  match e with
  | Lit _ | LitB _ | LitS _ | NilErr | NilSlice | NilPtr | ErrLit _ | TableLit _ | Var _ => true
  | Arith _ _ a b | Cmp _ a b | And a b | Or a b | Index a b => no_effect a && no_effect b
  | Not a | Conv _ a | Len a | Cap a | Field a _ => no_effect a
  | _ => false
  end.
Fixpoint no_effect_stmt (c : stmt) : bool :=
  match c with
  | If e a b => no_effect e && no_effect_stmt a && no_effect_stmt b
  | Block cs => forallb no_effect_stmt cs
  | Return es => forallb no_effect es
  | _ => false
  end.
(** All functions passed to sort.Search are of that kind. *)
Fixpoint searches (e : expr) : bool :=
  match e with
  | Lit _ | LitB _ | LitS _ | NilErr | NilSlice | NilPtr | ErrLit _ | TableLit _ | Var _ => true
  | Arith _ _ a b | Cmp _ a b | And a b | Or a b | Concat a b | Index a b | SliceFrom a b | AppendS a b
  | CopyE a b | Make a b | EncodeRuneE a b => searches a && searches b
  | Not a | Conv _ a | Runes a | Str a | Len a | Cap a | MapGet _ a | MapGet2 _ a | MapSlice2 _ a | Field a _
  | DecodeRuneE a => searches a
  | Slice a b c => searches a && searches b && searches c
  | Append a es => searches a && forallb searches es
  | New _ fs => forallb (fun x => searches (snd x)) fs
  | Call _ es => forallb searches es
  | Method a _ es => searches a && forallb searches es
  | SearchE a _ c => searches a && no_effect_stmt c && searches_stmt c
  end
with searches_stmt (c : stmt) : bool :=
  match c with
  | Define _ e | ExprS e => searches e
  | Assign ls e => searches e && forallb (fun l => match l with LBlank | LVar _ => true | LField a _ => searches a | LIndex a i => searches a && searches i end) ls
  | Block cs => forallb searches_stmt cs
  | If e a b => searches e && searches_stmt a && searches_stmt b
  | While e a | Range _ _ e a => searches e && searches_stmt a
  | Return es => forallb searches es
  | Continue | Break => true
  end.
Definition searches_func (f : func) : bool :=
  searches_stmt (f_body f) && forallb (fun x => no_effect (snd x) && searches (snd x)) (f_results f).

Lemma bind_assoc {A B C} (m : res A) (f : A -> res B) (g : B -> res C) : bind (bind m f) g = bind m (fun a => bind (f a) g).
Proof. destruct m; reflexivity. Qed.

Section EqsT.
Variable grow : Z -> Z -> Z.
Variable callT : string -> list val -> proc val.
Variable loops : nat.
Notation evT := (evalT grow callT loops).
Notation exT := (execT grow callT loops).

(** Unfolding statements. *)
Section Eqs.
Local Open Scope proc_scope.
Lemma exT_Define xs e env : exT (Define xs e) env =
  let* v := evT e env in let* vs := pure (values (length xs) v) in ret (Next, combine xs vs ++ env).
Proof. reflexivity. Qed.
Definition assign1T (l : lhs) (v : val) (env : env) : proc GoLang.env :=
  match l with
  | LBlank => ret env
  | LVar x => ret (set x v env)
  | LField a f => let* a := evT a env in let* _ := set_fieldT a f v in ret env
  | LIndex a i =>
    let* a := evT a env in let* i := evT i env in
    let* z := pure (as_int i) in let* x := pure (as_int v) in
    match a with
    | VSlice l o n _ =>
      if (0 <=? z) && (z <? n) then Save l (o + z) [x] (ret env) else Done Panic
    | _ => stuckT
    end
  end.
Fixpoint assignsT (ls : list lhs) (vs : list val) (env : env) : proc GoLang.env :=
  match ls, vs with
  | l :: ls, v :: vs => let* env := assign1T l v env in assignsT ls vs env
  | _, _ => ret env
  end.
Lemma exT_Assign ls e env : exT (Assign ls e) env =
  let* v := evT e env in let* vs := pure (values (length ls) v) in
  let* env := assignsT ls vs env in ret (Next, env).
Proof. reflexivity. Qed.
Lemma exT_ExprS e env : exT (ExprS e) env = let* _ := evT e env in ret (Next, env).
Proof. reflexivity. Qed.
Fixpoint execsT (cs : list stmt) (env : env) : proc (ctl * GoLang.env) :=
  match cs with
  | [] => ret (Next, env)
  | c :: cs =>
    let* (k, env) := exT c env in
    match k with Next => execsT cs env | _ => ret (k, env) end
  end.
Lemma exT_Block cs env : exT (Block cs) env = let* (k, env') := execsT cs env in ret (k, leave env env').
Proof. reflexivity. Qed.
Lemma exT_If e th el env : exT (If e th el) env =
  let* v := evT e env in let* b := pure (as_bool v) in if b then exT th env else exT el env.
Proof. reflexivity. Qed.
Definition whileT (e : expr) (body : stmt) := fix loop (n : nat) (env : env) {struct n} : proc (ctl * GoLang.env) :=
  match n with
  | O => Done Fuel
  | S n =>
    let* v := evT e env in let* b := pure (as_bool v) in
    if b then
      let* (k, env) := exT body env in
      match k with
      | Next | Cont => loop n env
      | Brk => ret (Next, env)
      | Ret v => ret (Ret v, env)
      end
    else ret (Next, env)
  end.
Lemma exT_While e body env : exT (While e body) env = whileT e body loops env.
Proof. reflexivity. Qed.
Definition rangeT (i x : string) (l : nat) (o : Z) (body : stmt) := fix loop (m : nat) (k : Z) (env : env) {struct m} : proc (ctl * GoLang.env) :=
  match m with
  | O => ret (Next, env)
  | S m =>
    Load l (o + k) 1 (fun bs =>
    let* (c, env') := exT body ((i, VInt k) :: (x, VInt (nth 0 bs 0)) :: env) in
    let env := leave env env' in
    match c with
    | Next | Cont => loop m (k + 1) env
    | Brk => ret (Next, env)
    | Ret v => ret (Ret v, env)
    end)
  end.
Lemma exT_Range i x e body env : exT (Range i x e body) env =
  let* v := evT e env in
  match v with VSlice l o n _ => rangeT i x l o body (Z.to_nat n) 0 env | _ => stuckT end.
Proof. reflexivity. Qed.
Definition evalsT (env : env) := fix evals (es : list expr) {struct es} : proc (list val) :=
  match es with
  | [] => ret []
  | e :: es => let* v := evT e env in let* vs := evals es in ret (v :: vs)
  end.
Lemma exT_Return es env : exT (Return es) env = let* vs := evalsT env es in ret (Ret (tuple vs), env).
Proof. reflexivity. Qed.
Definition fieldsT (env : env) := fix evals (fs : list (string * expr)) {struct fs} : proc (list (string * val)) :=
  match fs with
  | [] => ret []
  | (f, e) :: fs => let* v := evT e env in let* vs := evals fs in ret ((f, v) :: vs)
  end.
Lemma evT_New T fs env : evT (New T fs) env = let* vs := fieldsT env fs in NewObj T vs (fun l => ret (VPtr l)).
Proof. reflexivity. Qed.
Lemma evT_Append a es env : evT (Append a es) env =
  let* a := evT a env in let* vs := evalsT env es in let* bs := pure (as_ints vs) in append_toT grow a bs.
Proof. reflexivity. Qed.
Lemma evT_Call f es env : evT (Call f es) env = let* vs := evalsT env es in callT f vs.
Proof. reflexivity. Qed.
Lemma evT_Method a m es env : evT (Method a m es) env =
  let* a := evT a env in let* vs := evalsT env es in
  match a with
  | VPtr l => GetObj l (fun o => callT (fst o ++ "." ++ m)%string (a :: vs))
  | VExt i => ext_callT i m vs
  | _ => stuckT
  end.
Proof. reflexivity. Qed.
Lemma evT_SearchE n i body env : evT (SearchE n i body) env =
  let* n := evT n env in let* x := pure (as_int n) in
  let* z := SearchT x (fun k =>
    let* (c, _) := exT body ((i, VInt k) :: env) in
    match c with Ret v => pure (as_bool v) | _ => stuckT end) in
  ret (VInt z).
Proof. reflexivity. Qed.
End Eqs.
End EqsT.

Section Finish.
Variable grow : Z -> Z -> Z.
Variable E : Type.
Variable rd : nat -> E -> Z -> Z * list Z * option error * E.
Variable wr : nat -> E -> list Z -> Z * option error * E.
Notation state := (state E).
Notation fin := (finish E rd wr).

Lemma finish_bind {A B} (m : proc A) (f : A -> proc B) : forall s,
  fin (tbind m f) s = bind (fin m s) (fun x => fin (f (fst x)) (snd x)).
Proof.
  induction m as [r|l o n k IH|l o bs k IH|a k IH|l k IH|l g v k IH|T fs k IH|i n k IH|i bs k IH]; intros s; cbn [tbind finish].
  - destruct r; reflexivity.
  - apply IH.
  - apply IH.
  - apply IH.
  - destruct (the (nth_error (objs E s) l)); cbn [bind]; [apply IH|reflexivity|reflexivity].
  - destruct (set_field E s (VPtr l) g v); cbn [bind]; [apply IH|reflexivity|reflexivity].
  - apply IH.
  - destruct (rd i (ext E s) n) as [[[c bs] e] x]. apply IH.
  - destruct (wr i (ext E s) bs) as [[c e] x]. apply IH.
Qed.

Lemma bind_ext {A B} (m : res A) (f g : A -> res B) : (forall a, f a = g a) -> bind m f = bind m g.
Proof. intros H. destruct m; cbn; auto. Qed.

(** Running [m] from [s] does the same as the process [p]. *)
Lemma finish_pure {A B} (r : res A) (f : A -> proc B) s : fin (tbind (pure r) f) s = let! a := r in fin (f a) s.
Proof. destruct r; reflexivity. Qed.

Lemma hd_cells s l i : nth 0 (cells E s l i 1) 0 = nth (Z.to_nat i) (arr_at E s l) 0.
Proof.
  unfold cells, ztake, zdrop. change (Z.to_nat 1) with 1%nat. generalize (arr_at E s l) as a. generalize (Z.to_nat i) as n.
  induction n as [|n IH]; intros [|x a]; try reflexivity. apply IH.
Qed.

Lemma finish_search_loop (f : Z -> proc bool) (g : Z -> res bool) s :
  (forall k, fin (f k) s = let! b := g k in Ok (b, s)) ->
  forall n i j, fin (search_loopT n f i j) s = let! z := search_loop n g i j in Ok (z, s).
Proof.
  intros H. induction n as [|n IH]; intros i j; cbn [search_loopT search_loop]; destruct (i <? j); try reflexivity.
  rewrite finish_bind, H. destruct (g (Z.shiftr (i + j) 1)) as [b| |]; try reflexivity.
  cbn [bind fst snd]. destruct (negb b); apply IH.
Qed.

Section Body.
Variable call : string -> list val -> state -> res (val * state).
Variable callT : string -> list val -> proc val.
Variable loops : nat.
Hypothesis Hcall : forall f args s, fin (callT f args) s = call f args s.
Notation ev := (eval grow E rd wr call loops).
Notation ex := (exec grow E rd wr call loops).
Notation evT := (evalT grow callT loops).
Notation exT := (execT grow callT loops).


Lemma ex_Define xs e env s : ex (Define xs e) env s =
  let! (v, s) := ev e env s in let! vs := values (length xs) v in Ok (Next, combine xs vs ++ env, s).
Proof. reflexivity. Qed.
Definition assign1 (l : lhs) (v : val) (env : env) (s : state) : res (GoLang.env * state) :=
  match l with
  | LBlank => Ok (env, s)
  | LVar x => Ok (set x v env, s)
  | LField a f => let! (a, s) := ev a env s in let! s := set_field E s a f v in Ok (env, s)
  | LIndex a i =>
    let! (a, s) := ev a env s in let! (i, s) := ev i env s in
    let! z := as_int i in let! x := as_int v in
    match a with
    | VSlice l o n _ =>
      if (0 <=? z) && (z <? n) then Ok (env, store E s l (o + z) [x]) else Panic
    | _ => stuck
    end
  end.
Fixpoint assigns (ls : list lhs) (vs : list val) (env : env) (s : state) : res (GoLang.env * state) :=
  match ls, vs with
  | l :: ls, v :: vs => let! (env, s) := assign1 l v env s in assigns ls vs env s
  | _, _ => Ok (env, s)
  end.
Lemma ex_Assign ls e env s : ex (Assign ls e) env s =
  let! (v, s) := ev e env s in let! vs := values (length ls) v in
  let! (env, s) := assigns ls vs env s in Ok (Next, env, s).
Proof. reflexivity. Qed.
Lemma ex_ExprS e env s : ex (ExprS e) env s = let! (_, s) := ev e env s in Ok (Next, env, s).
Proof. reflexivity. Qed.
Fixpoint execs (cs : list stmt) (env : env) (s : state) : res (ctl * GoLang.env * state) :=
  match cs with
  | [] => Ok (Next, env, s)
  | c :: cs =>
    let! (k, env, s) := ex c env s in
    match k with Next => execs cs env s | _ => Ok (k, env, s) end
  end.
Lemma ex_Block cs env s : ex (Block cs) env s = let! (k, env', s) := execs cs env s in Ok (k, leave env env', s).
Proof. reflexivity. Qed.
Lemma ex_If e th el env s : ex (If e th el) env s =
  let! (v, s) := ev e env s in let! b := as_bool v in if b then ex th env s else ex el env s.
Proof. reflexivity. Qed.
Definition while (e : expr) (body : stmt) := fix loop (n : nat) (env : env) (s : state) {struct n} : res (ctl * GoLang.env * state) :=
  match n with
  | O => Fuel
  | S n =>
    let! (v, s) := ev e env s in let! b := as_bool v in
    if b then
      let! (k, env, s) := ex body env s in
      match k with
      | Next | Cont => loop n env s
      | Brk => Ok (Next, env, s)
      | Ret v => Ok (Ret v, env, s)
      end
    else Ok (Next, env, s)
  end.
Lemma ex_While e body env s : ex (While e body) env s = while e body loops env s.
Proof. reflexivity. Qed.
Definition range (i x : string) (l : nat) (o : Z) (body : stmt) := fix loop (m : nat) (k : Z) (env : env) (s : state) {struct m} : res (ctl * GoLang.env * state) :=
  match m with
  | O => Ok (Next, env, s)
  | S m =>
    let y := nth (Z.to_nat (o + k)) (arr_at E s l) 0 in
    let! (c, env', s) := ex body ((i, VInt k) :: (x, VInt y) :: env) s in
    let env := leave env env' in
    match c with
    | Next | Cont => loop m (k + 1) env s
    | Brk => Ok (Next, env, s)
    | Ret v => Ok (Ret v, env, s)
    end
  end.
Lemma ex_Range i x e body env s : ex (Range i x e body) env s =
  let! (v, s) := ev e env s in
  match v with VSlice l o n _ => range i x l o body (Z.to_nat n) 0 env s | _ => stuck end.
Proof. reflexivity. Qed.
Definition evals (env : env) := fix evals (es : list expr) (s : state) {struct es} : res (list val * state) :=
  match es with
  | [] => Ok ([], s)
  | e :: es => let! (v, s) := ev e env s in let! (vs, s) := evals es s in Ok (v :: vs, s)
  end.
Lemma ex_Return es env s : ex (Return es) env s = let! (vs, s) := evals env es s in Ok (Ret (tuple vs), env, s).
Proof. reflexivity. Qed.

(** What changes nothing leaves the state alone. *)
Lemma bind_Ok {A B} (m : res A) (f : A -> res B) b : bind m f = Ok b -> exists a, m = Ok a /\ f a = Ok b.
Proof. destruct m; cbn; [eauto|discriminate|discriminate]. Qed.

Ltac un := repeat match goal with
  | H : bind _ _ = Ok _ |- _ => apply bind_Ok in H; destruct H as [?x [? H]]
  | H : _ && _ = true |- _ => apply andb_prop in H; destruct H
  | H : Ok _ = Ok _ |- _ => injection H as; subst
  | x : (_ * _)%type |- _ => destruct x
  end.

Lemma no_effect_eval e : no_effect e = true -> forall env s v s', ev e env s = Ok (v, s') -> s' = s.
Proof.
  pattern e. revert e. apply (expr_all _ (fun _ => True)); [|trivial].
  intros e He _ Hn env s v s' H.
  destruct e; cbn in Hn; try discriminate; cbn [eval] in H; cbn [kids] in He;
    repeat match goal with H : Forall _ (_ :: _) |- _ => inversion H; subst; clear H end; un; try reflexivity;
    repeat match goal with
    | IH : no_effect ?a = true -> _, H : no_effect ?a = true |- _ => specialize (IH H)
    | IH : forall env s v s', ev ?a env s = Ok (v, s') -> s' = s, H : ev ?a _ _ = Ok _ |- _ => apply IH in H; subst
    | H : (if ?b then _ else _) = Ok _ |- _ => destruct b; un
    end; try reflexivity.
  all: try (destruct v0; try discriminate; un; reflexivity).
Qed.
Lemma no_effect_exec c : no_effect_stmt c = true -> forall env s k env' s', ex c env s = Ok (k, env', s') -> s' = s.
Proof.
  pattern c. revert c. apply (stmt_all (fun _ => True)); [trivial|].
  intros c _ Hc Hn env s k env' s' H.
  destruct c; cbn in Hn; try discriminate; cbn [stmt_stmts] in Hc.
  - cbn [exec eval] in H. apply bind_Ok in H. destruct H as [[[k1 env1] s1] [H H']]. un.
    revert H. generalize env as e0. revert s. induction ss as [|c ss IH]; intros s e0 H; [un; reflexivity|].
    cbn in Hn. apply andb_prop in Hn. destruct Hn as [Hn1 Hn2]. inversion Hc as [|? ? Hc1 Hc2]; subst.
    apply bind_Ok in H. destruct H as [[[k2 e2] s2] [H1 H]]. apply Hc1 in H1; [|assumption]. subst.
    destruct k2; un; try reflexivity. eapply IH; eassumption.
  - cbn [exec eval] in H. apply andb_prop in Hn. destruct Hn as [Hn Hn3]. apply andb_prop in Hn. destruct Hn as [Hn1 Hn2].
    inversion Hc as [|? ? Hc1 Hc']; subst. inversion Hc' as [|? ? Hc2 _]; subst.
    apply bind_Ok in H. destruct H as [[v1 s1] [H1 H]]. apply no_effect_eval in H1; [|assumption]. subst.
    apply bind_Ok in H. destruct H as [b [_ H]]. destruct b; [eapply Hc1|eapply Hc2]; eassumption.
  - cbn [exec eval] in H. apply bind_Ok in H. destruct H as [[vs s1] [H H']]. un.
    revert vs H. induction es as [|e es IH]; intros vs H; [un; reflexivity|].
    cbn in Hn. apply andb_prop in Hn. destruct Hn as [Hn1 Hn2].
    apply bind_Ok in H. destruct H as [[v1 s2] [H1 H]]. apply no_effect_eval in H1; [|assumption]. subst.
    apply bind_Ok in H. destruct H as [[vs' s2] [H1 H]]. un. eapply IH; eauto.
Qed.


Lemma finish_append a bs s : fin (append_toT grow a bs) s = append_to grow E s a bs.
Proof. destruct a; try reflexivity. cbn. destruct (_ <=? _); reflexivity. Qed.
Lemma finish_index a i s : fin (index_ofT a i) s = let! v := index_of E s a i in Ok (v, s).
Proof.
  destruct a; try reflexivity; cbn [index_ofT index_of].
  - destruct (_ && _); [|reflexivity]. cbn [finish ret bind]. now rewrite hd_cells.
  - rewrite finish_pure. destruct (get_or_panic _); reflexivity.
Qed.
Lemma finish_copy a b s : fin (copy_toT a b) s = copy_to E s a b.
Proof. destruct a, b; reflexivity. Qed.
Lemma finish_field a f s : fin (field_ofT a f) s = let! v := field_of E s a f in Ok (v, s).
Proof.
  destruct a; try reflexivity. cbn. destruct (the (nth_error (objs E s) loc)); reflexivity.
Qed.
Lemma finish_set_field a f v s : fin (set_fieldT a f v) s = let! s := set_field E s a f v in Ok (tt, s).
Proof. destruct a; try reflexivity. Qed.
Lemma finish_ext i m args s : fin (ext_callT i m args) s = ext_call E rd wr i m args s.
Proof.
  destruct args as [|a [|b args]]; try reflexivity; destruct a; try reflexivity.
  unfold ext_callT, ext_call. destruct (String.eqb m "Read"); [|destruct (String.eqb m "Write"); [|reflexivity]].
  - cbn [finish]. destruct (rd i (ext E s) len) as [[[c bs] e] x]. reflexivity.
  - cbn [finish]. destruct (wr i (ext E s) _) as [[c e] x]. reflexivity.
Qed.

Local Open Scope proc_scope.
Lemma finish_evals env es : Forall (fun e => searches e = true -> forall env s, fin (evT e env) s = ev e env s) es ->
  forallb searches es = true -> forall s, fin (evalsT grow callT loops env es) s = evals env es s.
Proof.
  induction 1 as [|e es He _ IH]; [reflexivity|]. cbn [forallb]. intros H s. apply andb_prop in H. destruct H as [H1 H2].
  cbn [evalsT evals]. rewrite finish_bind, He by assumption. apply bind_ext. intros [v s1]. cbn [fst snd].
  rewrite finish_bind, IH by assumption. apply bind_ext. intros [vs s2]. reflexivity.
Qed.

Ltac step := first
  [ reflexivity
  | rewrite finish_bind;
    match goal with H : forall env s, fin (evT ?a env) s = ev ?a env s |- context [fin (evT ?a _) _] => rewrite H end;
    apply bind_ext; let a := fresh "a" in let s := fresh "s" in intros [a s]; cbn [fst snd]
  | rewrite finish_pure; apply bind_ext; let a := fresh "x" in intros a ].

Definition good e := searches e = true -> forall env s, fin (evT e env) s = ev e env s.
Definition good_stmt c := searches_stmt c = true -> forall env s,
  fin (exT c env) s = let! (k, env', s') := ex c env s in Ok ((k, env'), s').

Lemma finish_both : (forall e, good e) /\ (forall c, good_stmt c).
Proof.
  assert (Hexpr : forall e, Forall good (kids e) -> Forall good_stmt (kid_stmts e) -> good e).
  { intros e He Hs H env s.
    destruct e; cbn [kids kid_stmts] in He, Hs; cbn [searches] in H;
      repeat match goal with H : Forall _ (_ :: _) |- _ => inversion H; subst; clear H end;
      repeat match goal with H : _ && _ = true |- _ => apply andb_prop in H; destruct H end;
      repeat match goal with IH : good ?a, H : searches ?a = true |- _ => specialize (IH H) end;
      try (cbn [execT exec evalT eval]; repeat step).
    all: try solve [destruct x; [reflexivity| auto]]; try solve [destruct x; [auto|reflexivity]].
    all: try solve [destruct a; reflexivity | destruct a, a0; reflexivity | apply finish_index | destruct (slice_of _ _ _); reflexivity
      | apply finish_copy | destruct (_ && _); reflexivity | apply finish_field
      | destruct a0; try reflexivity; cbn [finish]; apply finish_append
      | destruct a; try reflexivity; cbn [finish]; destruct (DecodeRune _); reflexivity
      | destruct a; try reflexivity; destruct (_ >? _); reflexivity].
    - pose proof (finish_evals env es H3 H0 s0) as Hes. unfold evalsT, evals in Hes.
      rewrite finish_bind, Hes. apply bind_ext. intros [vs s1]. cbn [fst snd]. step. apply finish_append.
    - assert (Hfs : forall s,
        fin ((fix evals (fs : list (string * expr)) {struct fs} : proc (list (string * val)) :=
           match fs with
           | [] => ret []
           | (f, e) :: fs => let* v := evT e env in let* vs := evals fs in ret ((f, v) :: vs)
           end) fs) s =
        (fix evals (fs : list (string * expr)) (s : state) {struct fs} : res (list (string * val) * state) :=
           match fs with
           | [] => Ok ([], s)
           | (f, e) :: fs => let! (v, s) := ev e env s in let! (vs, s) := evals fs s in Ok ((f, v) :: vs, s)
           end) fs s).
      { revert H. clear s. induction fs as [|[f e] fs IH]; intros H s; [reflexivity|].
        cbn [forallb snd map] in H, He. apply andb_prop in H. destruct H as [H1 H2]. inversion He as [|? ? He1 He2]; subst.
        rewrite finish_bind, He1 by assumption. apply bind_ext. intros [v s1]. cbn [fst snd].
        rewrite finish_bind, IH by assumption. apply bind_ext. intros [vs s2]. reflexivity. }
      rewrite finish_bind, Hfs. apply bind_ext. intros [vs s1]. reflexivity.
    - pose proof (finish_evals env args He H s) as Hes. unfold evalsT, evals in Hes.
      rewrite finish_bind, Hes. apply bind_ext. intros [vs s1]. cbn [fst snd]. apply Hcall.
    - pose proof (finish_evals env args H3 H0 s0) as Hes. unfold evalsT, evals in Hes.
      rewrite finish_bind, Hes. apply bind_ext. intros [vs s1]. cbn [fst snd]. destruct a; try reflexivity.
      + cbn [finish]. apply bind_ext. intros o. apply Hcall.
      + apply finish_ext.
    - rewrite finish_bind. unfold SearchT.
      rewrite (finish_search_loop _ (fun k => let! (c, _, _) := ex body ((i, VInt k) :: env) s0 in
        match c with Ret v => as_bool v | _ => stuck end)).
      + unfold Search. now destruct (search_loop _ _ _ _).
      + intros k. rewrite finish_bind. match goal with H : good_stmt _ |- _ => unfold good_stmt in H; rewrite H by assumption end.
        destruct (ex body ((i, VInt k) :: env) s0) as [[[c env1] s1]| |] eqn:Hb; [|reflexivity|reflexivity].
        apply no_effect_exec in Hb; [|assumption]. subst s1. destruct c; reflexivity. }
  Ltac fe := match goal with H : forall env s, fin (evT ?a env) s = ev ?a env s |- context [fin (evT ?a _) _] => rewrite H end.
  Ltac fx := match goal with H : good_stmt ?a |- context [fin (exT ?a _) _] => unfold good_stmt in H; rewrite H by assumption end.
  Ltac fs := match goal with H : good_stmt ?a |- context [fin (exT ?a _) _] => apply H end.
  assert (Hstmt : forall c, Forall good (stmt_exprs c) -> Forall good_stmt (stmt_stmts c) -> good_stmt c).
  { intros c He Hs H env s.
    destruct c; cbn [stmt_exprs stmt_stmts] in He, Hs; cbn [searches_stmt] in H;
      repeat match goal with H : Forall _ (_ :: _) |- _ => inversion H; subst; clear H end;
      repeat match goal with H : _ && _ = true |- _ => apply andb_prop in H; destruct H end;
      repeat match goal with IH : good ?a, H : searches ?a = true |- _ => specialize (IH H) end.
    - rewrite exT_Define, ex_Define, bind_assoc. rewrite finish_bind; fe. apply bind_ext. intros [v s1]. cbn [fst snd].
      rewrite bind_assoc. rewrite finish_pure. apply bind_ext. reflexivity.
    - rewrite exT_Assign, ex_Assign, bind_assoc. rewrite finish_bind; fe. apply bind_ext. intros [v s1]. cbn [fst snd].
      rewrite bind_assoc. rewrite finish_pure. apply bind_ext. intros vs. rewrite bind_assoc, finish_bind.
      assert (Hls : forall vs env s, fin (assignsT grow callT loops ls vs env) s = assigns ls vs env s).
      { match goal with H : Forall good (flat_map _ _) |- _ => rename H into H3 end.
        match goal with H : forallb _ ls = true |- _ => rename H into H0 end.
        clear -H3 H0. induction ls as [|l ls IH]; intros vs env s; [reflexivity|].
        destruct vs as [|v vs]; [reflexivity|]. cbn [forallb] in H0. apply andb_prop in H0. destruct H0 as [Hl Hls].
        cbn [flat_map] in H3. apply Forall_app in H3. destruct H3 as [Hg Hg'].
        cbn [assignsT assigns]. rewrite finish_bind.
        assert (Hone : fin (assign1T grow callT loops l v env) s = assign1 l v env s).
        { destruct l; try reflexivity; cbn [lhs_exprs] in Hg; cbn [assign1T assign1].
          - inversion Hg as [|? ? Ha _]; subst. unfold good in Ha. rewrite finish_bind, Ha by assumption. apply bind_ext. intros [av s3]. cbn [fst snd].
            rewrite finish_bind, finish_set_field, bind_assoc. reflexivity.
          - inversion Hg as [|? ? Ha H4]; subst. inversion H4 as [|? ? Hi _]; subst. apply andb_prop in Hl. destruct Hl as [Hl1 Hl2].
            unfold good in Ha, Hi. rewrite finish_bind, Ha by assumption. apply bind_ext. intros [av s3]. cbn [fst snd].
            rewrite finish_bind, Hi by assumption. apply bind_ext. intros [x s4]. cbn [fst snd].
            rewrite finish_pure. apply bind_ext. intros z. rewrite finish_pure. apply bind_ext. intros y.
            destruct av; try reflexivity. destruct (_ && _); reflexivity. }
        rewrite Hone. apply bind_ext. intros [env1 s1]. cbn [fst snd]. apply IH; assumption. }
      rewrite Hls. apply bind_ext. intros [env1 s2]. reflexivity.
    - rewrite exT_ExprS, ex_ExprS, bind_assoc. rewrite finish_bind; fe. apply bind_ext. intros [v s1]. reflexivity.
    - rewrite exT_Block, ex_Block, bind_assoc, finish_bind.
      assert (Hss : forall env s, fin (execsT grow callT loops ss env) s = let! (k, env', s') := execs ss env s in Ok ((k, env'), s')).
      { clear s env. induction ss as [|c ss IH]; intros env s; [reflexivity|].
        cbn [forallb] in H. apply andb_prop in H. destruct H as [H1 H2]. inversion Hs as [|? ? Hs1 Hs2]; subst. cbn [execsT execs].
        unfold good_stmt in Hs1. rewrite finish_bind, Hs1, !bind_assoc by assumption. apply bind_ext. intros [[k env1] s1]. cbn [bind fst snd].
        destruct k; try reflexivity. apply IH; assumption. }
      rewrite Hss, bind_assoc. apply bind_ext. intros [[k env1] s1]. reflexivity.
    - rewrite exT_If, ex_If, bind_assoc. rewrite finish_bind; fe. apply bind_ext. intros [v s1]. cbn [fst snd].
      rewrite bind_assoc. rewrite finish_pure. apply bind_ext. intros b. destruct b; fs; assumption.
    - rewrite exT_While, ex_While.
      match goal with |- fin (whileT _ _ _ ?c ?body _ _) _ = _ =>
        assert (Hw : forall n env s, fin (whileT grow callT loops c body n env) s = let! (k, env', s') := while c body n env s in Ok ((k, env'), s')) end; [|apply Hw].
      clear env s. induction n as [|n IH]; intros env s; [reflexivity|].
      cbn [whileT while]. rewrite bind_assoc. rewrite finish_bind; fe. apply bind_ext. intros [v s1]. cbn [fst snd].
      rewrite bind_assoc. rewrite finish_pure. apply bind_ext. intros b. destruct b; [|reflexivity].
      rewrite finish_bind; fx. rewrite !bind_assoc. apply bind_ext. intros [[k env1] s2]. cbn [bind fst snd].
      destruct k; try reflexivity; apply IH.
    - rewrite exT_Range, ex_Range, bind_assoc. rewrite finish_bind; fe. apply bind_ext. intros [v s1]. cbn [fst snd].
      destruct v; try reflexivity.
      generalize (Z.to_nat len) as n, 0 as k. intros n. revert env s1. induction n as [|n IH]; intros env1 s2 k; [reflexivity|].
      cbn [rangeT range finish]. rewrite hd_cells. rewrite finish_bind; fx. rewrite !bind_assoc. apply bind_ext. intros [[c1 env2] s3]. cbn [bind fst snd].
      destruct c1; try reflexivity; apply IH.
    - rewrite exT_Return, ex_Return, finish_bind, bind_assoc, (finish_evals env es He H s). apply bind_ext. intros [vs s1]. reflexivity.
    - reflexivity.
    - reflexivity. }
  split; [apply (expr_all good good_stmt)|apply (stmt_all good good_stmt)]; assumption.
Qed.

Lemma finish_zero rs env s : forallb (fun x => no_effect (snd x) && searches (snd x)) rs = true ->
  fin (zero_resultsT grow callT loops rs env) s = let! e := zero_results grow E rd wr call loops rs env s in Ok (e, s).
Proof.
  induction rs as [|[x e] rs IH]; [reflexivity|]. cbn [forallb snd]. intros H. apply andb_prop in H. destruct H as [H1 H2].
  apply andb_prop in H1. destruct H1 as [H0 H1]. cbn [zero_resultsT zero_results].
  rewrite finish_bind, (proj1 finish_both e H1), bind_assoc.
  destruct (ev e [] s) as [[v s1]| |] eqn:He; try reflexivity. apply no_effect_eval in He; [|assumption]. subst.
  cbn [bind fst snd]. rewrite finish_bind, IH, !bind_assoc by assumption. reflexivity.
Qed.
Lemma finish_enter f args s : searches_func f = true -> fin (enterT grow callT loops f args) s = enter grow E rd wr call loops f args s.
Proof.
  intros H. apply andb_prop in H. destruct H as [H1 H2]. unfold enterT, enter. destruct (negb _); [reflexivity|].
  rewrite finish_bind, finish_zero, bind_assoc by assumption. apply bind_ext. intros e. cbn [bind fst snd].
  rewrite finish_bind, (proj2 finish_both (f_body f) H1), bind_assoc. apply bind_ext. intros [[c env1] s1]. destruct c; reflexivity.
Qed.
End Body.

Theorem finish_run prog : forallb (fun x => searches_func (snd x)) prog = true ->
  forall n f args s, fin (runT grow prog n f args) s = run grow E rd wr prog n f args s.
Proof.
  intros Hp. induction n as [|n IH]; intros f args s; [reflexivity|]. cbn [runT run].
  rewrite finish_pure. destruct (get f prog) as [fn|] eqn:Hf; [|reflexivity]. cbn [the bind].
  apply finish_enter; [assumption|].
  clear -Hp Hf. induction prog as [|[y v] p IHp]; [discriminate|]. cbn in Hp, Hf. apply andb_prop in Hp. destruct Hp.
  destruct (String.eqb y f); [now injection Hf as <-|auto].
Qed.
End Finish.
