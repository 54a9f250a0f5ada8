(** General facts about the meaning given to Go programs in GoLang.v: the loops as named
    functions, and the storage operations. *)
From Coq Require Import String ZArith List Bool Lia.
From Verif Require Import Base Utf8 SortSearch Cp949Model GoLang Facts.
Import ListNotations.
Local Open Scope Z_scope.
Local Open Scope go_scope.

Lemma skipn_nth {A} (l : list A) n d : (n < length l)%nat -> skipn n l = nth n l d :: skipn (S n) l.
Proof.
  revert n; induction l as [|a l IH]; intros [|n] H; cbn in *; try lia; [reflexivity|].
  apply (IH n). lia.
Qed.

Lemma Search_ext n f g : (forall k, f k = g k) -> Search n f = Search n g.
Proof.
  intros H. unfold Search. generalize 0 n (S (Z.to_nat (Z.log2_up n))). intros i j fuel. revert i j.
  induction fuel as [|fuel IH]; intros i j; cbn [search_loop]; [reflexivity|]. rewrite H.
  destruct (i <? j); [|reflexivity]. destruct (g (Z.shiftr (i + j) 1)) as [b| |]; cbn; [|reflexivity..].
  destruct (negb b); apply IH.
Qed.

Section Loops.
Variable grow : Z -> Z -> Z.
Variable E : Type.
Variable rd : nat -> E -> Z -> Z * list Z * option error * E.
Variable wr : nat -> E -> list Z -> Z * option error * E.
Variable call : string -> list val -> state E -> res (val * state E).
Variable loops : nat.
Notation eval := (eval grow E rd wr call loops).
Notation exec := (exec grow E rd wr call loops).
Notation state := (state E).


(** Statement sequences. *)
Fixpoint execs (cs : list stmt) (env : env) (s : state) {struct cs} : res (ctl * GoLang.env * state) :=
  match cs with
  | [] => Ok (Next, env, s)
  | c :: cs =>
    let! (k, env, s) := exec c env s in
    match k with Next => execs cs env s | _ => Ok (k, env, s) end
  end.
Lemma exec_Block cs env k env' s s' :
  execs cs env s = Ok (k, env', s') -> exec (Block cs) env s = Ok (k, leave env env', s').
Proof. intros H. change (exec (Block cs) env s) with (let! (k, env', s) := execs cs env s in Ok (k, leave env env', s)). now rewrite H. Qed.
Lemma exec_Block' cs env k env' env'' s s' :
  execs cs env s = Ok (k, env', s') -> leave env env' = env'' -> exec (Block cs) env s = Ok (k, env'', s').
Proof. intros H <-. now apply exec_Block. Qed.
Lemma execs_cons c cs env s env1 s1 R :
  exec c env s = Ok (Next, env1, s1) -> execs cs env1 s1 = R -> execs (c :: cs) env s = R.
Proof. intros H <-. cbn [execs]. now rewrite H. Qed.
Lemma execs_stop c cs env s k env1 s1 :
  exec c env s = Ok (k, env1, s1) -> k <> Next -> execs (c :: cs) env s = Ok (k, env1, s1).
Proof. intros H Hk. cbn [execs]. rewrite H. cbn. destruct k; congruence. Qed.
Lemma exec_If e th el env s b s1 R :
  eval e env s = Ok (VBool b, s1) -> exec (if b then th else el) env s1 = R -> exec (If e th el) env s = R.
Proof.
  intros H <-. change (exec (If e th el) env s) with
    (let! (v, s) := eval e env s in let! b := as_bool v in if b then exec th env s else exec el env s).
  rewrite H. cbn. now destruct b.
Qed.
Lemma exec_Define xs e env s v vs s1 :
  eval e env s = Ok (v, s1) -> values (length xs) v = Ok vs ->
  exec (Define xs e) env s = Ok (Next, combine xs vs ++ env, s1).
Proof.
  intros H Hv. change (exec (Define xs e) env s) with
    (let! (v, s) := eval e env s in let! vs := values (length xs) v in Ok (Next, combine xs vs ++ env, s)).
  rewrite H. cbn. now rewrite Hv.
Qed.
Lemma exec_Var x e env s v s1 :
  eval e env s = Ok (v, s1) -> exec (Assign [LVar x] e) env s = Ok (Next, set x v env, s1).
Proof.
  intros H. change (exec (Assign [LVar x] e) env s) with
    (let! (v, s) := eval e env s in Ok (Next, set x v env, s)). now rewrite H.
Qed.
Lemma exec_Field a f e env s v s1 p s2 s3 :
  eval e env s = Ok (v, s1) -> eval a env s1 = Ok (p, s2) -> set_field E s2 p f v = Ok s3 ->
  exec (Assign [LField a f] e) env s = Ok (Next, env, s3).
Proof.
  intros H Ha Hf. change (exec (Assign [LField a f] e) env s) with
    (let! (v, s) := eval e env s in
     let! (env, s) :=
       let! (env, s) := let! (a, s) := eval a env s in let! s := set_field E s a f v in Ok (env, s) in
       Ok (env, s) in
     Ok (Next, env, s)).
  rewrite H. cbn. rewrite Ha. cbn. rewrite Hf. reflexivity.
Qed.
Lemma exec_Return1 e env s v s1 :
  eval e env s = Ok (v, s1) -> exec (Return [e]) env s = Ok (Ret v, env, s1).
Proof.
  intros H. change (exec (Return [e]) env s) with
    (let! (vs, s) := let! (v, s) := eval e env s in Ok ([v], s) in Ok (Ret (tuple vs), env, s)).
  rewrite H. reflexivity.
Qed.
Lemma enter_ret f args s env v env' s' :
  length (f_params f) = length args ->
  zero_results grow E rd wr call loops (f_results f) (combine (f_params f) args) s = Ok env ->
  exec (f_body f) env s = Ok (Ret v, env', s') ->
  enter grow E rd wr call loops f args s = Ok (v, s').
Proof.
  intros Hl Hz H. unfold enter. rewrite Hl, Nat.eqb_refl. cbn. rewrite Hz. cbn. rewrite H. reflexivity.
Qed.

Lemma eval_Search n i body env s x s1 f z :
  eval n env s = Ok (VInt x, s1) ->
  (forall k, (let! (c, _, _) := exec body ((i, VInt k) :: env) s1 in
              match c with Ret v => as_bool v | _ => stuck end) = f k) ->
  Search x f = Ok z -> eval (SearchE n i body) env s = Ok (VInt z, s1).
Proof.
  intros Hn Hf Hz.
  change (eval (SearchE n i body) env s) with
    (let! (n, s) := eval n env s in let! x := as_int n in
     let! z := Search x (fun k =>
       let! (c, _, _) := exec body ((i, VInt k) :: env) s in
       match c with Ret v => as_bool v | _ => stuck end) in
     Ok (VInt z, s)).
  rewrite Hn. cbn [bind as_int]. rewrite (Search_ext _ _ f) by exact Hf. rewrite Hz. reflexivity.
Qed.

Section While.
Variable e : expr.
Variable body : stmt.
Fixpoint while_loop (n : nat) (env : env) (s : state) {struct n} : res (ctl * GoLang.env * state) :=
  match n with
  | O => Fuel
  | S n =>
    let! (v, s) := eval e env s in let! b := as_bool v in
    if b then
      let! (k, env, s) := exec body env s in
      match k with
      | Next | Cont => while_loop n env s
      | Brk => Ok (Next, env, s)
      | Ret v => Ok (Ret v, env, s)
      end
    else Ok (Next, env, s)
  end.
Lemma exec_While env s : exec (While e body) env s = while_loop loops env s.
Proof. reflexivity. Qed.
End While.

Section Range.
Variable i x : string.
Variable body : stmt.
Variable l : nat.
Variable o : Z.
Fixpoint range_loop (m : nat) (k : Z) (env : env) (s : state) {struct m} : res (ctl * GoLang.env * state) :=
  match m with
  | O => Ok (Next, env, s)
  | S m =>
    let y := nth (Z.to_nat (o + k)) (arr_at E s l) 0 in
    let! (c, env', s) := exec body ((i, VInt k) :: (x, VInt y) :: env) s in
    let env := leave env env' in
    match c with
    | Next | Cont => range_loop m (k + 1) env s
    | Brk => Ok (Next, env, s)
    | Ret v => Ok (Ret v, env, s)
    end
  end.
End Range.
Lemma exec_Range i x e body env s : exec (Range i x e body) env s =
  let! (v, s) := eval e env s in
  match v with
  | VSlice l o n _ => range_loop i x body l o (Z.to_nat n) 0 env s
  | _ => stuck
  end.
Proof. reflexivity. Qed.
End Loops.
