(** Several calls at the same time: the interpreter of GoLang.v a second time, step by step.
    [evalT], [execT] and [runT] do what [eval], [exec] and [run] do, but instead of
    transforming a state they produce a process ([proc]): the tree of all accesses to memory,
    one step each, with what is done next for each answer.  [one] performs a single access and
    [finish] all of them; [pool_step] lets any of several processes that share a memory
    perform its next access.  Proved in ThreadFacts.v: finishing [runT] is [run]. *)
From Coq Require Import String ZArith List Bool.
From Verif Require Import Base Utf8 SortSearch Cp949Model GoLang.
Import ListNotations.
Local Open Scope Z_scope.
Local Open Scope go_scope.

Inductive proc (A : Type) : Type :=
| Done (r : res A)
| Load (l : nat) (o n : Z) (k : list Z -> proc A)         (* read cells of an array *)
| Save (l : nat) (o : Z) (bs : list Z) (k : proc A)       (* write cells *)
| NewArr (a : list Z) (k : nat -> proc A)
| GetObj (l : nat) (k : string * list (string * val) -> proc A)
| SetField (l : nat) (f : string) (v : val) (k : proc A)
| NewObj (T : string) (fs : list (string * val)) (k : nat -> proc A)
| ExtRead (i : nat) (n : Z) (k : Z -> list Z -> option error -> proc A)
| ExtWrite (i : nat) (bs : list Z) (k : Z -> option error -> proc A).
Arguments Done {A}. Arguments Load {A}. Arguments Save {A}. Arguments NewArr {A}. Arguments GetObj {A}.
Arguments SetField {A}. Arguments NewObj {A}. Arguments ExtRead {A}. Arguments ExtWrite {A}.

Fixpoint tbind {A B} (m : proc A) (f : A -> proc B) : proc B :=
  match m with
  | Done (Ok a) => f a
  | Done Panic => Done Panic
  | Done Fuel => Done Fuel
  | Load l o n k => Load l o n (fun r => tbind (k r) f)
  | Save l o bs k => Save l o bs (tbind k f)
  | NewArr a k => NewArr a (fun r => tbind (k r) f)
  | GetObj l k => GetObj l (fun r => tbind (k r) f)
  | SetField l g v k => SetField l g v (tbind k f)
  | NewObj T fs k => NewObj T fs (fun r => tbind (k r) f)
  | ExtRead i n k => ExtRead i n (fun c bs e => tbind (k c bs e) f)
  | ExtWrite i bs k => ExtWrite i bs (fun c e => tbind (k c e) f)
  end.
Declare Scope proc_scope.
Notation "'let*' x ':=' m 'in' k" := (tbind m (fun x => k))
  (at level 200, x pattern, m at level 100, k at level 200, right associativity) : proc_scope.
Local Open Scope proc_scope.

Definition ret {A} (a : A) : proc A := Done (Ok a).
(** A computation that does not access memory. *)
Definition pure {A} (r : res A) : proc A := Done r.
Definition stuckT {A} : proc A := Done Fuel.

Section Interp.
Variable grow : Z -> Z -> Z.

(** append(a, bs...) *)
Definition append_toT (a : val) (bs : list Z) : proc val :=
  match a with
  | VSlice l o n c =>
    let need := n + zlen bs in
    if need <=? c then Save l (o + n) bs (ret (VSlice l o need c))
    else
      let m := Z.max need (grow c need) in
      Load l o n (fun old => NewArr (old ++ bs ++ zeros (m - need)) (fun l' => ret (VSlice l' 0 need m)))
  | _ => stuckT
  end.
Definition index_ofT (a : val) (i : Z) : proc val :=
  match a with
  | VSlice l o n _ =>
    if (0 <=? i) && (i <? n) then Load l (o + i) 1 (fun bs => ret (VInt (nth 0 bs 0))) else Done Panic
  | VTable t => let* it := pure (get_or_panic (zget t i)) in ret (VItem it)
  | _ => stuckT
  end.
(** copy(a, b) *)
Definition copy_toT (a b : val) : proc val :=
  match a, b with
  | VSlice l o n _, VSlice l' o' n' _ =>
    let k := Z.min n n' in Load l' o' k (fun bs => Save l o bs (ret (VInt k)))
  | _, _ => stuckT
  end.
Definition field_ofT (a : val) (f : string) : proc val :=
  match a with
  | VPtr l => GetObj l (fun o => pure (the (get f (snd o))))
  | VItem i => pure (if String.eqb f "cp949" then Ok (VInt (cp949 i))
               else if String.eqb f "ucs2" then Ok (VInt (ucs2 i)) else stuck)
  | _ => stuckT
  end.
Definition set_fieldT (a : val) (f : string) (v : val) : proc unit :=
  match a with
  | VPtr l => SetField l f v (ret tt)
  | _ => stuckT
  end.
Definition ext_callT (i : nat) (m : string) (args : list val) : proc val :=
  match args with
  | [VSlice l o n _] =>
    if String.eqb m "Read" then
      ExtRead i n (fun k bs e => Save l o (ztake n bs) (ret (VTuple [VInt k; VErr e])))
    else if String.eqb m "Write" then
      Load l o n (fun bs => ExtWrite i bs (fun k e => ret (VTuple [VInt k; VErr e])))
    else stuckT
  | _ => stuckT
  end.

(** sort.Search *)
Fixpoint search_loopT (fuel : nat) (f : Z -> proc bool) (i j : Z) : proc Z :=
  if i <? j then
    match fuel with
    | O => Done Fuel
    | S fuel =>
      let h := Z.shiftr (i + j) 1 in
      let* b := f h in
      if negb b then search_loopT fuel f (h + 1) j
      else search_loopT fuel f i h
    end
  else ret i.
Definition SearchT (n : Z) (f : Z -> proc bool) : proc Z :=
  search_loopT (S (Z.to_nat (Z.log2_up n))) f 0 n.

Section Body.
Variable call : string -> list val -> proc val.
Variable loops : nat.

Fixpoint evalT (e : expr) (env : env) {struct e} : proc val :=
  match e with
  | Lit z => ret (VInt z)
  | LitB b => ret (VBool b)
  | LitS x => ret (VStr x)
  | NilErr => ret (VErr None)
  | NilSlice => ret (VSlice 0 0 0 0)
  | NilPtr => ret VNil
  | ErrLit x => ret (VErr (Some x))
  | TableLit t => ret (VTable t)
  | Var x => pure (the (get x env))
  | Arith o t a b =>
    let* a := evalT a env in let* b := evalT b env in
    let* x := pure (as_int a) in let* y := pure (as_int b) in
    let* z := pure (arith o t x y) in ret (VInt z)
  | Cmp o a b =>
    let* a := evalT a env in let* b := evalT b env in
    let* r := pure (compare o a b) in ret (VBool r)
  | And a b =>
    let* a := evalT a env in let* x := pure (as_bool a) in
    if x then evalT b env else ret (VBool false)
  | Or a b =>
    let* a := evalT a env in let* x := pure (as_bool a) in
    if x then ret (VBool true) else evalT b env
  | Not a => let* a := evalT a env in let* x := pure (as_bool a) in ret (VBool (negb x))
  | Concat a b =>
    let* a := evalT a env in let* b := evalT b env in
    match a, b with VStr x, VStr y => ret (VStr (x ++ y)) | _, _ => stuckT end
  | Conv t a => let* a := evalT a env in let* x := pure (as_int a) in ret (VInt (wrap t x))
  | Runes a =>
    let* a := evalT a env in
    match a with
    | VStr x =>
      let rs := string_to_runes x in
      NewArr rs (fun l => ret (VSlice l 0 (zlen rs) (zlen rs)))
    | _ => stuckT
    end
  | Str a =>
    let* a := evalT a env in
    match a with
    | VSlice l o n _ => Load l o n (fun rs => ret (VStr (runes_to_string rs)))
    | _ => stuckT
    end
  | Len a =>
    let* a := evalT a env in
    match a with
    | VSlice _ _ n _ => ret (VInt n) | VTable t => ret (VInt (zlen t)) | _ => stuckT
    end
  | Cap a =>
    let* a := evalT a env in
    match a with VSlice _ _ _ c => ret (VInt c) | _ => stuckT end
  | Index a i =>
    let* a := evalT a env in let* i := evalT i env in
    let* z := pure (as_int i) in index_ofT a z
  | Slice a lo hi =>
    let* a := evalT a env in let* lo := evalT lo env in
    let* hi := evalT hi env in
    let* x := pure (as_int lo) in let* y := pure (as_int hi) in
    pure (slice_of a x (Some y))
  | SliceFrom a lo =>
    let* a := evalT a env in let* lo := evalT lo env in
    let* x := pure (as_int lo) in pure (slice_of a x None)
  | Append a es =>
    let* a := evalT a env in
    let* vs :=
      (fix evals (es : list expr) {struct es} : proc (list val) :=
         match es with
         | [] => ret []
         | e :: es => let* v := evalT e env in let* vs := evals es in ret (v :: vs)
         end) es in
    let* bs := pure (as_ints vs) in append_toT a bs
  | AppendS a b =>
    let* a := evalT a env in let* b := evalT b env in
    match b with VSlice l o n _ => Load l o n (fun bs => append_toT a bs) | _ => stuckT end
  | CopyE a b =>
    let* a := evalT a env in let* b := evalT b env in copy_toT a b
  | Make n m =>
    let* n := evalT n env in let* m := evalT m env in
    let* x := pure (as_int n) in let* y := pure (as_int m) in
    if (0 <=? x) && (x <=? y) then NewArr (zeros y) (fun l => ret (VSlice l 0 x y))
    else Done Panic
  | MapGet m k =>
    let* k := evalT k env in let* x := pure (as_int k) in
    ret (VInt match map_get m x with Some v => v | None => 0 end)
  | MapGet2 m k =>
    let* k := evalT k env in let* x := pure (as_int k) in
    ret (match map_get m x with
         | Some v => VTuple [VInt v; VBool true]
         | None => VTuple [VInt 0; VBool false]
         end)
  | MapSlice2 m k =>
    let* k := evalT k env in let* x := pure (as_int k) in
    ret (match slice_at 1 m x with
         | Some (l, n) => VTuple [VSlice l 0 n n; VBool true]
         | None => VTuple [VSlice 0 0 0 0; VBool false]
         end)
  | Field a f => let* a := evalT a env in field_ofT a f
  | New T fs =>
    let* vs :=
      (fix evals (fs : list (string * expr)) {struct fs} : proc (list (string * val)) :=
         match fs with
         | [] => ret []
         | (f, e) :: fs => let* v := evalT e env in let* vs := evals fs in ret ((f, v) :: vs)
         end) fs in
    NewObj T vs (fun l => ret (VPtr l))
  | Call f args =>
    let* vs :=
      (fix evals (es : list expr) {struct es} : proc (list val) :=
         match es with
         | [] => ret []
         | e :: es => let* v := evalT e env in let* vs := evals es in ret (v :: vs)
         end) args in
    call f vs
  | Method a m args =>
    let* a := evalT a env in
    let* vs :=
      (fix evals (es : list expr) {struct es} : proc (list val) :=
         match es with
         | [] => ret []
         | e :: es => let* v := evalT e env in let* vs := evals es in ret (v :: vs)
         end) args in
    match a with
    | VPtr l => GetObj l (fun o => call (fst o ++ "." ++ m)%string (a :: vs))
    | VExt i => ext_callT i m vs
    | _ => stuckT
    end
  | DecodeRuneE a =>
    let* a := evalT a env in
    match a with
    | VSlice l o n _ =>
      Load l o n (fun bs => let '(r, k) := DecodeRune bs in ret (VTuple [VInt r; VInt k]))
    | _ => stuckT
    end
  | EncodeRuneE a r =>
    let* a := evalT a env in let* r := evalT r env in let* x := pure (as_int r) in
    match a with
    | VSlice l o n _ =>
      let bs := EncodeRune x in
      if zlen bs >? n then Done Panic else Save l o bs (ret (VInt (zlen bs)))
    | _ => stuckT
    end
  | SearchE n i body =>
    let* n := evalT n env in let* x := pure (as_int n) in
    let* z := SearchT x (fun k =>
      let* (c, _) := execT body ((i, VInt k) :: env) in
      match c with Ret v => pure (as_bool v) | _ => stuckT end) in
    ret (VInt z)
  end
with execT (c : stmt) (env : env) {struct c} : proc (ctl * GoLang.env) :=
  match c with
  | Define xs e =>
    let* v := evalT e env in let* vs := pure (values (length xs) v) in
    ret (Next, combine xs vs ++ env)
  | Assign ls e =>
    let* v := evalT e env in let* vs := pure (values (length ls) v) in
    let* env :=
      (fix assigns (ls : list lhs) (vs : list val) (env : GoLang.env) {struct ls}
         : proc GoLang.env :=
         match ls, vs with
         | l :: ls, v :: vs =>
           let* env :=
             match l with
             | LBlank => ret env
             | LVar x => ret (set x v env)
             | LField a f => let* a := evalT a env in let* _ := set_fieldT a f v in ret env
             | LIndex a i =>
               let* a := evalT a env in let* i := evalT i env in
               let* z := pure (as_int i) in let* x := pure (as_int v) in
               match a with
               | VSlice l o n _ =>
                 if (0 <=? z) && (z <? n) then Save l (o + z) [x] (ret env) else Done Panic
               | _ => stuckT
               end
             end in
           assigns ls vs env
         | _, _ => ret env
         end) ls vs env in
    ret (Next, env)
  | ExprS e => let* _ := evalT e env in ret (Next, env)
  | Block cs =>
    let* (k, env') :=
      (fix execs (cs : list stmt) (env : GoLang.env) {struct cs} : proc (ctl * GoLang.env) :=
         match cs with
         | [] => ret (Next, env)
         | c :: cs =>
           let* (k, env) := execT c env in
           match k with Next => execs cs env | _ => ret (k, env) end
         end) cs env in
    ret (k, leave env env')
  | If e th el =>
    let* v := evalT e env in let* b := pure (as_bool v) in
    if b then execT th env else execT el env
  | While e body =>
    (fix loop (n : nat) (env : GoLang.env) {struct n} : proc (ctl * GoLang.env) :=
       match n with
       | O => Done Fuel
       | S n =>
         let* v := evalT e env in let* b := pure (as_bool v) in
         if b then
           let* (k, env) := execT body env in
           match k with
           | Next | Cont => loop n env
           | Brk => ret (Next, env)
           | Ret v => ret (Ret v, env)
           end
         else ret (Next, env)
       end) loops env
  | Range i x e body =>
    let* v := evalT e env in
    match v with
    | VSlice l o n _ =>
      (fix loop (m : nat) (k : Z) (env : GoLang.env) {struct m} : proc (ctl * GoLang.env) :=
         match m with
         | O => ret (Next, env)
         | S m =>
           Load l (o + k) 1 (fun bs =>
           let* (c, env') := execT body ((i, VInt k) :: (x, VInt (nth 0 bs 0)) :: env) in
           let env := leave env env' in
           match c with
           | Next | Cont => loop m (k + 1) env
           | Brk => ret (Next, env)
           | Ret v => ret (Ret v, env)
           end)
         end) (Z.to_nat n) 0 env
    | _ => stuckT
    end
  | Return es =>
    let* vs :=
      (fix evals (es : list expr) {struct es} : proc (list val) :=
         match es with
         | [] => ret []
         | e :: es => let* v := evalT e env in let* vs := evals es in ret (v :: vs)
         end) es in
    ret (Ret (tuple vs), env)
  | Continue => ret (Cont, env)
  | Break => ret (Brk, env)
  end.

Fixpoint zero_resultsT (rs : list (string * expr)) (env : env) : proc GoLang.env :=
  match rs with
  | [] => ret env
  | (x, e) :: rs => let* v := evalT e [] in let* env := zero_resultsT rs env in ret ((x, v) :: env)
  end.
Definition enterT (f : func) (args : list val) : proc val :=
  if negb (Nat.eqb (length (f_params f)) (length args)) then stuckT else
  let* env := zero_resultsT (f_results f) (combine (f_params f) args) in
  let* (c, _) := execT (f_body f) env in
  match c with
  | Ret v => ret v
  | Next => ret (VTuple [])
  | _ => stuckT
  end.
End Body.

(** The process of a call f(args). *)
Variable prog : list (string * func).
Fixpoint runT (fuel : nat) (f : string) (args : list val) : proc val :=
  match fuel with
  | O => Done Fuel
  | S fuel => let* fn := pure (the (get f prog)) in enterT (runT fuel) fuel fn args
  end.
End Interp.

Section Steps.
Variable E : Type.
Variable rd : nat -> E -> Z -> Z * list Z * option error * E.
Variable wr : nat -> E -> list Z -> Z * option error * E.
Notation state := (state E).

(** One access to the memory. *)
Definition one {A} (p : proc A) (s : state) : res (proc A * state) :=
  match p with
  | Done r => Ok (Done r, s)
  | Load l o n k => Ok (k (cells E s l o n), s)
  | Save l o bs k => Ok (k, store E s l o bs)
  | NewArr a k => let '(l, s) := new_arr E s a in Ok (k l, s)
  | GetObj l k => let! o := the (nth_error (objs E s) l) in Ok (k o, s)
  | SetField l f v k => let! s := set_field E s (VPtr l) f v in Ok (k, s)
  | NewObj T fs k => Ok (k (length (objs E s)), mkState E (arrs E s) (objs E s ++ [(T, fs)]) (ext E s))
  | ExtRead i n k => let '(c, bs, e, x) := rd i (ext E s) n in Ok (k c bs e, set_ext E s x)
  | ExtWrite i bs k => let '(c, e, x) := wr i (ext E s) bs in Ok (k c e, set_ext E s x)
  end.

Fixpoint finish {A} (p : proc A) (s : state) : res (A * state) :=
  match p with
  | Done r => let! a := r in Ok (a, s)
  | Load l o n k => finish (k (cells E s l o n)) s
  | Save l o bs k => finish k (store E s l o bs)
  | NewArr a k => let '(l, s) := new_arr E s a in finish (k l) s
  | GetObj l k => let! o := the (nth_error (objs E s) l) in finish (k o) s
  | SetField l f v k => let! s := set_field E s (VPtr l) f v in finish k s
  | NewObj T fs k => finish (k (length (objs E s))) (mkState E (arrs E s) (objs E s ++ [(T, fs)]) (ext E s))
  | ExtRead i n k => let '(c, bs, e, x) := rd i (ext E s) n in finish (k c bs e) (set_ext E s x)
  | ExtWrite i bs k => let '(c, e, x) := wr i (ext E s) bs in finish (k c e) (set_ext E s x)
  end.

(** Processes that share arrays and objects; each has readers and writers of its own. *)
Record pool : Type := mkPool {
  p_arrs : list (list Z);
  p_objs : list (string * list (string * val));
  p_procs : list (proc val * E)
}.
Definition is_done {A} (p : proc A) : bool := match p with Done _ => true | _ => false end.
Inductive pool_step : pool -> pool -> Prop :=
| pool_step_intro A O ts i p x p' s' :
    nth_error ts i = Some (p, x) -> is_done p = false ->
    one p (mkState E A O x) = Ok (p', s') ->
    pool_step (mkPool A O ts) (mkPool (arrs E s') (objs E s') (set_nth i (p', ext E s') ts)).
Inductive pool_steps : nat -> pool -> pool -> Prop :=
| pool_steps_0 c : pool_steps 0 c c
| pool_steps_S n c c1 c2 : pool_step c c1 -> pool_steps n c1 c2 -> pool_steps (S n) c c2.
End Steps.
