(** How many steps the programs of GoLang.v take.

    [run_steps] follows an execution by [run] and counts.  A step is the evaluation of one node
    of a syntax tree (an operator, a variable, a literal, a statement), one round of a loop, one
    parameter or result of a call, or one element of an array or string that is written or read
    by an operation on many of them: append, copy, make, comparison and concatenation of
    strings, the conversions between strings and slices.  Looking a key up in a map takes one
    step (Go's maps are hash tables), utf8.DecodeRune and utf8.EncodeRune take four more (a
    character has four bytes at most), sort.Search takes what the calls of its function take.
    What the readers and writers of the caller do takes no time.

    Compiled code takes a constant time per step, except for the garbage collector. *)
From Coq Require Import String ZArith List Bool.
From Verif Require Import Base Utf8 SortSearch TableFrom TableTo Cp949Model GoLang.
Import ListNotations.
Local Open Scope list_scope.
Local Open Scope Z_scope.
Local Open Scope go_scope.

Section Steps.
Variable grow : Z -> Z -> Z.
Variable E : Type.
Variable rd : nat -> E -> Z -> Z * list Z * option error * E.
Variable wr : nat -> E -> list Z -> Z * option error * E.
Notation state := (state E).

(** The steps after an operation whose result is [r]; none if it fails. *)
Definition after {A} (r : res (A * state)) (k : A -> state -> Z) : Z :=
  match r with Ok (a, s) => k a s | _ => 0 end.

(** The calls made by [search_loop] (sort.Search): [w h] steps for the call of [f h]. *)
Fixpoint probes (fuel : nat) (f : Z -> res bool) (w : Z -> Z) (i j : Z) : Z :=
  if i <? j then
    match fuel with
    | O => 0
    | S fuel =>
      let h := Z.shiftr (i + j) 1 in
      w h + match f h with
            | Ok b => if negb b then probes fuel f w (h + 1) j else probes fuel f w i h
            | _ => 0
            end
    end
  else 0.

(** append(a, bs...): the new elements, and all of the new array if there is one *)
Definition append_steps (s : state) (a : val) (bs : list Z) : Z :=
  match a with
  | VSlice l o n c =>
    let need := n + zlen bs in
    if need <=? c then zlen bs
    else zlen (cells E s l o n) + zlen bs + zlen (zeros (Z.max need (grow c need) - need))
  | _ => 0
  end.

Section Body.
Variable call : string -> list val -> state -> res (val * state).
Variable call_steps : string -> list val -> state -> Z.
Variable loops : nat.
Notation eval := (eval grow E rd wr call loops).
Notation exec := (exec grow E rd wr call loops).

(** The lists of expressions and the assignments, as in [eval] and [exec]. *)
Fixpoint evals (es : list expr) (env : env) (s : state) {struct es} : res (list val * state) :=
  match es with
  | [] => Ok ([], s)
  | e :: es => let! (v, s) := eval e env s in let! (vs, s) := evals es env s in Ok (v :: vs, s)
  end.
Definition assign (l : lhs) (v : val) (env : env) (s : state) : res (GoLang.env * state) :=
  match l with
  | LBlank => Ok (env, s)
  | LVar x => Ok (set x v env, s)
  | LField a f => let! (a, s) := eval a env s in let! s := set_field E s a f v in Ok (env, s)
  | LIndex a i =>
    let! (a, s) := eval a env s in let! (i, s) := eval i env s in
    let! z := as_int i in let! x := as_int v in
    match a with
    | VSlice l o n _ => if (0 <=? z) && (z <? n) then Ok (env, store E s l (o + z) [x]) else Panic
    | _ => stuck
    end
  end.

Fixpoint eval_steps (e : expr) (env : env) (s : state) {struct e} : Z :=
  1 +
  match e with
  | Lit _ | LitB _ | LitS _ | NilErr | NilSlice | NilPtr | ErrLit _ | TableLit _ | Var _ => 0
  | Not a | Conv _ a | Len a | Cap a | MapGet _ a | MapGet2 _ a | MapSlice2 _ a | Field a _ => eval_steps a env s
  | Arith _ _ a b | Index a b | SliceFrom a b =>
    eval_steps a env s + after (eval a env s) (fun _ s => eval_steps b env s)
  | Cmp _ a b =>
    eval_steps a env s + after (eval a env s) (fun x s =>
    eval_steps b env s + after (eval b env s) (fun y s =>
    match x, y with VStr x, VStr y => Z.min (zlen x) (zlen y) | _, _ => 0 end))
  | And a b =>
    eval_steps a env s + after (eval a env s) (fun x s =>
    match x with VBool true => eval_steps b env s | _ => 0 end)
  | Or a b =>
    eval_steps a env s + after (eval a env s) (fun x s =>
    match x with VBool false => eval_steps b env s | _ => 0 end)
  | Concat a b =>
    eval_steps a env s + after (eval a env s) (fun x s =>
    eval_steps b env s + after (eval b env s) (fun y s =>
    match x, y with VStr x, VStr y => zlen x + zlen y | _, _ => 0 end))
  | Runes a =>
    eval_steps a env s + after (eval a env s) (fun x s =>
    match x with VStr x => zlen x + zlen (string_to_runes x) | _ => 0 end)
  | Str a =>
    eval_steps a env s + after (eval a env s) (fun x s =>
    match x with
    | VSlice l o n _ => zlen (cells E s l o n) + zlen (runes_to_string (cells E s l o n))
    | _ => 0
    end)
  | Slice a lo hi =>
    eval_steps a env s + after (eval a env s) (fun _ s =>
    eval_steps lo env s + after (eval lo env s) (fun _ s => eval_steps hi env s))
  | Append a es =>
    eval_steps a env s + after (eval a env s) (fun a s =>
    (fix all (es : list expr) (s : state) {struct es} : Z :=
       match es with
       | [] => 0
       | e :: es => eval_steps e env s + after (eval e env s) (fun _ s => all es s)
       end) es s +
    after (evals es env s) (fun vs s =>
    match as_ints vs with Ok bs => append_steps s a bs | _ => 0 end))
  | AppendS a b =>
    eval_steps a env s + after (eval a env s) (fun a s =>
    eval_steps b env s + after (eval b env s) (fun b s =>
    match b with VSlice l o n _ => append_steps s a (cells E s l o n) | _ => 0 end))
  | CopyE a b =>
    eval_steps a env s + after (eval a env s) (fun a s =>
    eval_steps b env s + after (eval b env s) (fun b s =>
    match a, b with VSlice _ _ n _, VSlice _ _ n' _ => Z.max 0 (Z.min n n') | _, _ => 0 end))
  | Make n m =>
    eval_steps n env s + after (eval n env s) (fun _ s =>
    eval_steps m env s + after (eval m env s) (fun m s =>
    match m with VInt y => zlen (zeros y) | _ => 0 end))
  | New _ fs =>
    (fix all (fs : list (string * expr)) (s : state) {struct fs} : Z :=
       match fs with
       | [] => 0
       | (_, e) :: fs => 1 + eval_steps e env s + after (eval e env s) (fun _ s => all fs s)
       end) fs s
  | Call f args =>
    (fix all (es : list expr) (s : state) {struct es} : Z :=
       match es with
       | [] => 0
       | e :: es => eval_steps e env s + after (eval e env s) (fun _ s => all es s)
       end) args s +
    after (evals args env s) (fun vs s => call_steps f vs s)
  | Method a m args =>
    eval_steps a env s + after (eval a env s) (fun a s =>
    (fix all (es : list expr) (s : state) {struct es} : Z :=
       match es with
       | [] => 0
       | e :: es => eval_steps e env s + after (eval e env s) (fun _ s => all es s)
       end) args s +
    after (evals args env s) (fun vs s =>
    match a with
    | VPtr l =>
      match nth_error (objs E s) l with
      | Some o => call_steps (fst o ++ "." ++ m)%string (a :: vs) s
      | None => 0
      end
    | _ => 0
    end))
  | DecodeRuneE a => eval_steps a env s + 4
  | EncodeRuneE a r => eval_steps a env s + after (eval a env s) (fun _ s => eval_steps r env s) + 4
  | SearchE n i body =>
    eval_steps n env s + after (eval n env s) (fun n s =>
    match n with
    | VInt x =>
      probes (S (Z.to_nat (Z.log2_up x)))
        (fun k =>
           let! (c, _, _) := exec body ((i, VInt k) :: env) s in
           match c with Ret v => as_bool v | _ => stuck end)
        (fun k => 1 + exec_steps body ((i, VInt k) :: env) s) 0 x
    | _ => 0
    end)
  end
with exec_steps (c : stmt) (env : env) (s : state) {struct c} : Z :=
  1 +
  match c with
  | Define xs e => zlen xs + eval_steps e env s
  | Assign ls e =>
    eval_steps e env s + after (eval e env s) (fun v s =>
    match values (length ls) v with
    | Ok vs =>
      (fix all (ls : list lhs) (vs : list val) (env : GoLang.env) (s : state) {struct ls} : Z :=
         match ls, vs with
         | l :: ls, v :: vs =>
           1 +
           match l with
           | LBlank | LVar _ => 0
           | LField a _ => eval_steps a env s
           | LIndex a i => eval_steps a env s + after (eval a env s) (fun _ s => eval_steps i env s)
           end + after (assign l v env s) (fun env s => all ls vs env s)
         | _, _ => 0
         end) ls vs env s
    | _ => 0
    end)
  | ExprS e => eval_steps e env s
  | Block cs =>
    (fix all (cs : list stmt) (env : GoLang.env) (s : state) {struct cs} : Z :=
       match cs with
       | [] => 0
       | c :: cs =>
         exec_steps c env s + after (exec c env s) (fun ke s =>
         match fst ke with Next => all cs (snd ke) s | _ => 0 end)
       end) cs env s
  | If e th el =>
    eval_steps e env s + after (eval e env s) (fun v s =>
    match v with VBool b => if b then exec_steps th env s else exec_steps el env s | _ => 0 end)
  | While e body =>
    (fix loop (n : nat) (env : GoLang.env) (s : state) {struct n} : Z :=
       match n with
       | O => 0
       | S n =>
         1 + eval_steps e env s + after (eval e env s) (fun v s =>
         match v with
         | VBool true =>
           exec_steps body env s + after (exec body env s) (fun ke s =>
           match fst ke with Next | Cont => loop n (snd ke) s | _ => 0 end)
         | _ => 0
         end)
       end) loops env s
  | Range i x e body =>
    eval_steps e env s + after (eval e env s) (fun v s =>
    match v with
    | VSlice l o n _ =>
      (fix loop (m : nat) (k : Z) (env : GoLang.env) (s : state) {struct m} : Z :=
         match m with
         | O => 1
         | S m =>
           let y := nth (Z.to_nat (o + k)) (arr_at E s l) 0 in
           let inner := (i, VInt k) :: (x, VInt y) :: env in
           1 + exec_steps body inner s + after (exec body inner s) (fun ke s =>
           match fst ke with Next | Cont => loop m (k + 1) (leave env (snd ke)) s | _ => 0 end)
         end) (Z.to_nat n) 0 env s
    | _ => 0
    end)
  | Return es =>
    (fix all (es : list expr) (s : state) {struct es} : Z :=
       match es with
       | [] => 0
       | e :: es => eval_steps e env s + after (eval e env s) (fun _ s => all es s)
       end) es s
  | Continue | Break => 0
  end.

Definition enter_steps (f : func) (args : list val) (s : state) : Z :=
  1 + zlen (f_params f) + zlen (f_results f) +
  match zero_results grow E rd wr call loops (f_results f) (combine (f_params f) args) s with
  | Ok env => exec_steps (f_body f) env s
  | _ => 0
  end.
End Body.

(** The steps of [run fuel f args s]. *)
Variable prog : list (string * func).
Fixpoint run_steps (fuel : nat) (f : string) (args : list val) (s : state) : Z :=
  match fuel with
  | O => 0
  | S fuel =>
    match get f prog with
    | Some fn => enter_steps (run grow E rd wr prog fuel) (run_steps fuel) fuel fn args s
    | None => 0
    end
  end.

(** The call [f(args)] takes at most [t] steps, however much fuel it is given. *)
Definition takes (f : string) (args : list val) (s : state) (t : Z) : Prop :=
  exists N, forall fuel, (N <= fuel)%nat -> run_steps fuel f args s <= t.

(** The fields called table refer to the tables of package cp949, as those of all translators
    that fromCp949 and toCp949 make do (encoding/cp949/cp949.go:110-116). *)
Definition package_tables (s : state) : Prop :=
  Forall (fun o => forall v, get "table"%string (snd o) = Some v -> v = VTable fromTable \/ v = VTable toTable) (objs E s).
End Steps.
