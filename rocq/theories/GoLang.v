(** The part of Go that the sources use: abstract syntax and meaning.

    GoSource.v holds the syntax trees of all functions of /repo (generated from the sources by
    tools/gen_ast.py); [run] executes them.  Nothing here is specific to /repo, except that
    integer-keyed map literals and the lookup tables occur as constants in the syntax.

    Storage: [arrs] holds the backing arrays of []byte and []rune slices, addressed by their
    position, position 0 being the empty array that nil slices refer to; [objs] holds the
    structs to which there are pointers, with their type name and fields; [ext] is the state
    of the io.Readers and io.Writers supplied by the caller.

    A run-time panic is [Panic].  [Fuel] means that the given fuel did not suffice, or that
    an operation was applied to a value of the wrong type, which the Go compiler excludes. *)
From Coq Require Import String ZArith List Bool.
From Verif Require Import Base Utf8 SortSearch Cp949Model.
Import ListNotations.
Local Open Scope Z_scope.
Local Open Scope go_scope.

(** Integer types.  [Int] is unbounded, as everywhere in the model (see Base.v); the sources
    as compiled for a 32-bit or 64-bit machine have [Int32] or [Int64] in its place
    (GoPlatform.v). *)
Inductive ity : Type := Int | Int64 | Int32 | Uint16 | Uint8.
Definition wrap64 (x : Z) : Z := (x + 2 ^ 63) mod 2 ^ 64 - 2 ^ 63.
Definition wrap (t : ity) (x : Z) : Z :=
  match t with
  | Int => x | Int64 => wrap64 x | Int32 => wrap32 x | Uint16 => to_u16 x | Uint8 => to_u8 x
  end.

Inductive aop : Type := Add | Sub | Mul | Div | Mod | BOr | BAnd | Shl | Shr.
Inductive cop : Type := Eq | Ne | Lt | Le | Gt | Ge.

Inductive expr : Type :=
| Lit (z : Z) | LitB (b : bool) | LitS (s : list Z)     (* string literals as bytes *)
| NilErr | NilSlice | NilPtr
| ErrLit (e : error)                            (* a package-level error variable *)
| TableLit (t : list lookupItem)                (* fromTable, toTable *)
| Var (x : string)
| Arith (o : aop) (t : ity) (a b : expr)
| Cmp (o : cop) (a b : expr)
| And (a b : expr) | Or (a b : expr) | Not (a : expr)
| Concat (a b : expr)                           (* + on strings *)
| Conv (t : ity) (a : expr)                     (* conversion between integer types *)
| Runes (a : expr)                              (* []rune(string) *)
| Str (a : expr)                                (* string([]rune) *)
| Len (a : expr) | Cap (a : expr)
| Index (a i : expr)
| Slice (a lo hi : expr)                        (* a[lo:hi]; a[:hi] has lo = 0 *)
| SliceFrom (a lo : expr)                       (* a[lo:] *)
| Append (a : expr) (es : list expr)
| AppendS (a b : expr)                          (* append(a, b...) *)
| CopyE (a b : expr)
| Make (n m : expr)                             (* make([]byte, n, m) *)
| MapGet (m : list (Z * Z)) (k : expr)          (* m[k] *)
| MapGet2 (m : list (Z * Z)) (k : expr)         (* v, ok := m[k] *)
| MapSlice2 (m : list (Z * list Z)) (k : expr)  (* the same for a map of slices *)
| Field (a : expr) (f : string)
| New (T : string) (fs : list (string * expr))  (* &T{...}, all fields given *)
| Call (f : string) (args : list expr)
| Method (a : expr) (m : string) (args : list expr)
| DecodeRuneE (a : expr)                        (* utf8.DecodeRune *)
| EncodeRuneE (a r : expr)                      (* utf8.EncodeRune *)
| SearchE (n : expr) (i : string) (body : stmt) (* sort.Search(n, func(i int) bool body) *)
with lhs : Type :=
| LBlank | LVar (x : string) | LField (a : expr) (f : string) | LIndex (a i : expr)
with stmt : Type :=
| Define (xs : list string) (e : expr)          (* xs := e *)
| Assign (ls : list lhs) (e : expr)             (* ls = e *)
| ExprS (e : expr)
| Block (ss : list stmt)
| If (c : expr) (th el : stmt)
| While (c : expr) (body : stmt)                (* for c body *)
| Range (i x : string) (e : expr) (body : stmt) (* for i, x := range e body *)
| Return (es : list expr)
| Continue | Break.

(** Parameters (the receiver first), named results with their zero values, body. *)
Record func : Type := mkFunc { f_params : list string; f_results : list (string * expr); f_body : stmt }.

Inductive val : Type :=
| VInt (z : Z)
| VBool (b : bool)
| VStr (s : list Z)
| VErr (e : option error)
| VSlice (loc : nat) (off len cap : Z)  (* cells off .. off+len-1 of the array at loc *)
| VPtr (loc : nat)
| VNil                                  (* nil pointer or interface *)
| VExt (i : nat)                         (* an io.Reader or io.Writer of the caller *)
| VTable (t : list lookupItem)
| VItem (i : lookupItem)
| VTuple (vs : list val).

Definition env : Type := list (string * val).
Fixpoint get {A} (x : string) (l : list (string * A)) : option A :=
  match l with
  | [] => None
  | (y, v) :: l => if String.eqb y x then Some v else get x l
  end.
Fixpoint set {A} (x : string) (v : A) (l : list (string * A)) : list (string * A) :=
  match l with
  | [] => []
  | (y, w) :: l => if String.eqb y x then (y, v) :: l else (y, w) :: set x v l
  end.
Fixpoint set_nth {A} (n : nat) (v : A) (l : list A) : list A :=
  match l, n with
  | [], _ => []
  | _ :: l, O => v :: l
  | w :: l, S n => w :: set_nth n v l
  end.

(** How a statement ends. *)
Inductive ctl : Type := Next | Brk | Cont | Ret (v : val).

Definition stuck {A} : res A := Fuel.
Definition the {A} (o : option A) : res A := match o with Some a => Ok a | None => stuck end.

Definition arith (o : aop) (t : ity) (a b : Z) : res Z :=
  match o with
  | Add => Ok (wrap t (a + b))
  | Sub => Ok (wrap t (a - b))
  | Mul => Ok (wrap t (a * b))
  | Div => if b =? 0 then Panic else Ok (wrap t (go_div a b))
  | Mod => if b =? 0 then Panic else Ok (go_mod a b)
  | BOr => Ok (Z.lor a b)
  | BAnd => Ok (Z.land a b)
  | Shl => Ok (wrap t (Z.shiftl a b))
  | Shr => Ok (Z.shiftr a b)
  end.

Fixpoint bytes_eqb (a b : list Z) : bool :=
  match a, b with
  | [], [] => true
  | x :: a, y :: b => (x =? y) && bytes_eqb a b
  | _, _ => false
  end.
Definition is_nil (e : option error) : bool := match e with None => true | Some _ => false end.

(** Errors are only ever compared with nil, strings only with ==. *)
Definition compare (o : cop) (a b : val) : res bool :=
  match a, b, o with
  | VInt x, VInt y, Eq => Ok (x =? y)
  | VInt x, VInt y, Ne => Ok (negb (x =? y))
  | VInt x, VInt y, Lt => Ok (x <? y)
  | VInt x, VInt y, Le => Ok (x <=? y)
  | VInt x, VInt y, Gt => Ok (x >? y)
  | VInt x, VInt y, Ge => Ok (x >=? y)
  | VStr x, VStr y, Eq => Ok (bytes_eqb x y)
  | VErr x, VErr None, Eq => Ok (is_nil x)
  | VErr x, VErr None, Ne => Ok (negb (is_nil x))
  | _, _, _ => stuck
  end.

(** The position and length of a slice stored in a map literal whose slices were allocated in
    order from position [i] on. *)
Fixpoint slice_at (i : nat) (m : list (Z * list Z)) (k : Z) : option (nat * Z) :=
  match m with
  | [] => None
  | (k', es) :: m => if k' =? k then Some (i, zlen es) else slice_at (S i) m k
  end.

Section Semantics.
(* The runtime's choice of a new capacity in append, as in [go_append]. *)
Variable grow : Z -> Z -> Z.
(* The caller's readers, as in StreamModel3.v, and writers, which are numbered: Read of
   reader [i] on a buffer of a given length results in a count, the bytes found at the start
   of the buffer afterwards, and an error; Write(bs) in a count and an error. *)
Variable E : Type.
Variable rd : nat -> E -> Z -> Z * list Z * option error * E.
Variable wr : nat -> E -> list Z -> Z * option error * E.

Record state : Type := mkState {
  arrs : list (list Z);
  objs : list (string * list (string * val));
  ext : E
}.
Definition arr_at (s : state) (l : nat) : list Z := nth l (arrs s) [].
Definition set_arr (s : state) (l : nat) (a : list Z) : state :=
  mkState (set_nth l a (arrs s)) (objs s) (ext s).
Definition new_arr (s : state) (a : list Z) : nat * state :=
  (length (arrs s), mkState (arrs s ++ [a]) (objs s) (ext s)).
Definition set_ext (s : state) (e : E) : state := mkState (arrs s) (objs s) e.

(** The elements of the slice [VSlice l o n _]. *)
Definition cells (s : state) (l : nat) (o n : Z) : list Z := ztake n (zdrop o (arr_at s l)).
Definition store (s : state) (l : nat) (o : Z) (bs : list Z) : state :=
  set_arr s l (zwrite (arr_at s l) o bs).

(** append(a, bs...) *)
Definition append_to (s : state) (a : val) (bs : list Z) : res (val * state) :=
  match a with
  | VSlice l o n c =>
    let need := n + zlen bs in
    if need <=? c then Ok (VSlice l o need c, store s l (o + n) bs)
    else
      let m := Z.max need (grow c need) in
      let '(l', s') := new_arr s (cells s l o n ++ bs ++ zeros (m - need)) in
      Ok (VSlice l' 0 need m, s')
  | _ => stuck
  end.

(** a[lo:hi], or a[lo:] when [hi] is [None] *)
Definition slice_of (a : val) (lo : Z) (hi : option Z) : res val :=
  match a with
  | VSlice l o n c =>
    let hi := match hi with Some h => h | None => n end in
    if (0 <=? lo) && (lo <=? hi) && (hi <=? c) then Ok (VSlice l (o + lo) (hi - lo) (c - lo))
    else Panic
  | _ => stuck
  end.

Definition index_of (s : state) (a : val) (i : Z) : res val :=
  match a with
  | VSlice l o n _ =>
    if (0 <=? i) && (i <? n) then Ok (VInt (nth (Z.to_nat (o + i)) (arr_at s l) 0)) else Panic
  | VTable t => let! it := get_or_panic (zget t i) in Ok (VItem it)
  | _ => stuck
  end.

(** copy(a, b) *)
Definition copy_to (s : state) (a b : val) : res (val * state) :=
  match a, b with
  | VSlice l o n _, VSlice l' o' n' _ =>
    let k := Z.min n n' in Ok (VInt k, store s l o (cells s l' o' k))
  | _, _ => stuck
  end.

Definition field_of (s : state) (a : val) (f : string) : res val :=
  match a with
  | VPtr l => let! o := the (nth_error (objs s) l) in the (get f (snd o))
  | VItem i => if String.eqb f "cp949" then Ok (VInt (cp949 i))
               else if String.eqb f "ucs2" then Ok (VInt (ucs2 i)) else stuck
  | _ => stuck
  end.
Definition set_field (s : state) (a : val) (f : string) (v : val) : res state :=
  match a with
  | VPtr l =>
    let! (T, fs) := the (nth_error (objs s) l) in
    let! _ := the (get f fs) in
    Ok (mkState (arrs s) (set_nth l (T, set f v fs) (objs s)) (ext s))
  | _ => stuck
  end.

Definition as_int (v : val) : res Z := match v with VInt z => Ok z | _ => stuck end.
Definition as_bool (v : val) : res bool := match v with VBool b => Ok b | _ => stuck end.
Fixpoint as_ints (vs : list val) : res (list Z) :=
  match vs with
  | [] => Ok []
  | v :: vs => let! z := as_int v in let! zs := as_ints vs in Ok (z :: zs)
  end.

(** A call of a reader or writer of the caller.  What Read leaves in the slice it is given
    stays inside it. *)
Definition ext_call (i : nat) (m : string) (args : list val) (s : state) : res (val * state) :=
  match args with
  | [VSlice l o n _] =>
    if String.eqb m "Read" then
      let '(k, bs, e, x) := rd i (ext s) n in
      Ok (VTuple [VInt k; VErr e], set_ext (store s l o (ztake n bs)) x)
    else if String.eqb m "Write" then
      let '(k, e, x) := wr i (ext s) (cells s l o n) in
      Ok (VTuple [VInt k; VErr e], set_ext s x)
    else stuck
  | _ => stuck
  end.

(** Leaving a block drops the variables declared in it. *)
Definition leave (outer inner : env) : env := skipn (length inner - length outer) inner.

Definition tuple (vs : list val) : val := match vs with [v] => v | _ => VTuple vs end.
Definition values (n : nat) (v : val) : res (list val) :=
  match n, v with
  | 1%nat, _ => Ok [v]
  | _, VTuple vs => if Nat.eqb (length vs) n then Ok vs else stuck
  | _, _ => stuck
  end.

Section Body.
(* [call f args] executes the function [f]; [loops] bounds the iterations of each loop. *)
Variable call : string -> list val -> state -> res (val * state).
Variable loops : nat.

Fixpoint eval (e : expr) (env : env) (s : state) {struct e} : res (val * state) :=
  match e with
  | Lit z => Ok (VInt z, s)
  | LitB b => Ok (VBool b, s)
  | LitS x => Ok (VStr x, s)
  | NilErr => Ok (VErr None, s)
  | NilSlice => Ok (VSlice 0 0 0 0, s)
  | NilPtr => Ok (VNil, s)
  | ErrLit x => Ok (VErr (Some x), s)
  | TableLit t => Ok (VTable t, s)
  | Var x => let! v := the (get x env) in Ok (v, s)
  | Arith o t a b =>
    let! (a, s) := eval a env s in let! (b, s) := eval b env s in
    let! x := as_int a in let! y := as_int b in
    let! z := arith o t x y in Ok (VInt z, s)
  | Cmp o a b =>
    let! (a, s) := eval a env s in let! (b, s) := eval b env s in
    let! r := compare o a b in Ok (VBool r, s)
  | And a b =>
    let! (a, s) := eval a env s in let! x := as_bool a in
    if x then eval b env s else Ok (VBool false, s)
  | Or a b =>
    let! (a, s) := eval a env s in let! x := as_bool a in
    if x then Ok (VBool true, s) else eval b env s
  | Not a => let! (a, s) := eval a env s in let! x := as_bool a in Ok (VBool (negb x), s)
  | Concat a b =>
    let! (a, s) := eval a env s in let! (b, s) := eval b env s in
    match a, b with VStr x, VStr y => Ok (VStr (x ++ y), s) | _, _ => stuck end
  | Conv t a => let! (a, s) := eval a env s in let! x := as_int a in Ok (VInt (wrap t x), s)
  | Runes a =>
    let! (a, s) := eval a env s in
    match a with
    | VStr x =>
      let rs := string_to_runes x in
      let '(l, s) := new_arr s rs in Ok (VSlice l 0 (zlen rs) (zlen rs), s)
    | _ => stuck
    end
  | Str a =>
    let! (a, s) := eval a env s in
    match a with
    | VSlice l o n _ => Ok (VStr (runes_to_string (cells s l o n)), s)
    | _ => stuck
    end
  | Len a =>
    let! (a, s) := eval a env s in
    match a with
    | VSlice _ _ n _ => Ok (VInt n, s) | VTable t => Ok (VInt (zlen t), s) | _ => stuck
    end
  | Cap a =>
    let! (a, s) := eval a env s in
    match a with VSlice _ _ _ c => Ok (VInt c, s) | _ => stuck end
  | Index a i =>
    let! (a, s) := eval a env s in let! (i, s) := eval i env s in
    let! z := as_int i in let! v := index_of s a z in Ok (v, s)
  | Slice a lo hi =>
    let! (a, s) := eval a env s in let! (lo, s) := eval lo env s in
    let! (hi, s) := eval hi env s in
    let! x := as_int lo in let! y := as_int hi in
    let! v := slice_of a x (Some y) in Ok (v, s)
  | SliceFrom a lo =>
    let! (a, s) := eval a env s in let! (lo, s) := eval lo env s in
    let! x := as_int lo in let! v := slice_of a x None in Ok (v, s)
  | Append a es =>
    let! (a, s) := eval a env s in
    let! (vs, s) :=
      (fix evals (es : list expr) (s : state) {struct es} : res (list val * state) :=
         match es with
         | [] => Ok ([], s)
         | e :: es => let! (v, s) := eval e env s in let! (vs, s) := evals es s in Ok (v :: vs, s)
         end) es s in
    let! bs := as_ints vs in append_to s a bs
  | AppendS a b =>
    let! (a, s) := eval a env s in let! (b, s) := eval b env s in
    match b with VSlice l o n _ => append_to s a (cells s l o n) | _ => stuck end
  | CopyE a b =>
    let! (a, s) := eval a env s in let! (b, s) := eval b env s in copy_to s a b
  | Make n m =>
    let! (n, s) := eval n env s in let! (m, s) := eval m env s in
    let! x := as_int n in let! y := as_int m in
    if (0 <=? x) && (x <=? y) then
      let '(l, s) := new_arr s (zeros y) in Ok (VSlice l 0 x y, s)
    else Panic
  | MapGet m k =>
    let! (k, s) := eval k env s in let! x := as_int k in
    Ok (VInt match map_get m x with Some v => v | None => 0 end, s)
  | MapGet2 m k =>
    let! (k, s) := eval k env s in let! x := as_int k in
    Ok (match map_get m x with
        | Some v => VTuple [VInt v; VBool true]
        | None => VTuple [VInt 0; VBool false]
        end, s)
  | MapSlice2 m k =>
    let! (k, s) := eval k env s in let! x := as_int k in
    Ok (match slice_at 1 m x with
        | Some (l, n) => VTuple [VSlice l 0 n n; VBool true]
        | None => VTuple [VSlice 0 0 0 0; VBool false]
        end, s)
  | Field a f => let! (a, s) := eval a env s in let! v := field_of s a f in Ok (v, s)
  | New T fs =>
    let! (vs, s) :=
      (fix evals (fs : list (string * expr)) (s : state) {struct fs} : res (list (string * val) * state) :=
         match fs with
         | [] => Ok ([], s)
         | (f, e) :: fs => let! (v, s) := eval e env s in let! (vs, s) := evals fs s in Ok ((f, v) :: vs, s)
         end) fs s in
    Ok (VPtr (length (objs s)), mkState (arrs s) (objs s ++ [(T, vs)]) (ext s))
  | Call f args =>
    let! (vs, s) :=
      (fix evals (es : list expr) (s : state) {struct es} : res (list val * state) :=
         match es with
         | [] => Ok ([], s)
         | e :: es => let! (v, s) := eval e env s in let! (vs, s) := evals es s in Ok (v :: vs, s)
         end) args s in
    call f vs s
  | Method a m args =>
    let! (a, s) := eval a env s in
    let! (vs, s) :=
      (fix evals (es : list expr) (s : state) {struct es} : res (list val * state) :=
         match es with
         | [] => Ok ([], s)
         | e :: es => let! (v, s) := eval e env s in let! (vs, s) := evals es s in Ok (v :: vs, s)
         end) args s in
    match a with
    | VPtr l => let! o := the (nth_error (objs s) l) in call (fst o ++ "." ++ m)%string (a :: vs) s
    | VExt i => ext_call i m vs s
    | _ => stuck
    end
  | DecodeRuneE a =>
    let! (a, s) := eval a env s in
    match a with
    | VSlice l o n _ => let '(r, k) := DecodeRune (cells s l o n) in Ok (VTuple [VInt r; VInt k], s)
    | _ => stuck
    end
  | EncodeRuneE a r =>
    let! (a, s) := eval a env s in let! (r, s) := eval r env s in let! x := as_int r in
    match a with
    | VSlice l o n _ =>
      let bs := EncodeRune x in
      if zlen bs >? n then Panic else Ok (VInt (zlen bs), store s l o bs)
    | _ => stuck
    end
  | SearchE n i body =>
    (* the function literals of /repo change nothing, so their effect on [s] is dropped *)
    let! (n, s) := eval n env s in let! x := as_int n in
    let! z := Search x (fun k =>
      let! (c, _, _) := exec body ((i, VInt k) :: env) s in
      match c with Ret v => as_bool v | _ => stuck end) in
    Ok (VInt z, s)
  end
with exec (c : stmt) (env : env) (s : state) {struct c} : res (ctl * GoLang.env * state) :=
  match c with
  | Define xs e =>
    let! (v, s) := eval e env s in let! vs := values (length xs) v in
    Ok (Next, combine xs vs ++ env, s)
  | Assign ls e =>
    let! (v, s) := eval e env s in let! vs := values (length ls) v in
    let! (env, s) :=
      (fix assigns (ls : list lhs) (vs : list val) (env : GoLang.env) (s : state) {struct ls}
         : res (GoLang.env * state) :=
         match ls, vs with
         | l :: ls, v :: vs =>
           let! (env, s) :=
             match l with
             | LBlank => Ok (env, s)
             | LVar x => Ok (set x v env, s)
             | LField a f => let! (a, s) := eval a env s in let! s := set_field s a f v in Ok (env, s)
             | LIndex a i =>
               let! (a, s) := eval a env s in let! (i, s) := eval i env s in
               let! z := as_int i in let! x := as_int v in
               match a with
               | VSlice l o n _ =>
                 if (0 <=? z) && (z <? n) then Ok (env, store s l (o + z) [x]) else Panic
               | _ => stuck
               end
             end in
           assigns ls vs env s
         | _, _ => Ok (env, s)
         end) ls vs env s in
    Ok (Next, env, s)
  | ExprS e => let! (_, s) := eval e env s in Ok (Next, env, s)
  | Block cs =>
    let! (k, env', s) :=
      (fix execs (cs : list stmt) (env : GoLang.env) (s : state) {struct cs} : res (ctl * GoLang.env * state) :=
         match cs with
         | [] => Ok (Next, env, s)
         | c :: cs =>
           let! (k, env, s) := exec c env s in
           match k with Next => execs cs env s | _ => Ok (k, env, s) end
         end) cs env s in
    Ok (k, leave env env', s)
  | If e th el =>
    let! (v, s) := eval e env s in let! b := as_bool v in
    if b then exec th env s else exec el env s
  | While e body =>
    (fix loop (n : nat) (env : GoLang.env) (s : state) {struct n} : res (ctl * GoLang.env * state) :=
       match n with
       | O => Fuel
       | S n =>
         let! (v, s) := eval e env s in let! b := as_bool v in
         if b then
           let! (k, env, s) := exec body env s in
           match k with
           | Next | Cont => loop n env s
           | Brk => Ok (Next, env, s)
           | Ret v => Ok (Ret v, env, s)
           end
         else Ok (Next, env, s)
       end) loops env s
  | Range i x e body =>
    let! (v, s) := eval e env s in
    match v with
    | VSlice l o n _ =>
      (fix loop (m : nat) (k : Z) (env : GoLang.env) (s : state) {struct m} : res (ctl * GoLang.env * state) :=
         match m with
         | O => Ok (Next, env, s)
         | S m =>
           let y := nth (Z.to_nat (o + k)) (arr_at s l) 0 in
           let! (c, env', s) := exec body ((i, VInt k) :: (x, VInt y) :: env) s in
           let env := leave env env' in
           match c with
           | Next | Cont => loop m (k + 1) env s
           | Brk => Ok (Next, env, s)
           | Ret v => Ok (Ret v, env, s)
           end
         end) (Z.to_nat n) 0 env s
    | _ => stuck
    end
  | Return es =>
    let! (vs, s) :=
      (fix evals (es : list expr) (s : state) {struct es} : res (list val * state) :=
         match es with
         | [] => Ok ([], s)
         | e :: es => let! (v, s) := eval e env s in let! (vs, s) := evals es s in Ok (v :: vs, s)
         end) es s in
    Ok (Ret (tuple vs), env, s)
  | Continue => Ok (Cont, env, s)
  | Break => Ok (Brk, env, s)
  end.

(** A call: parameters and named results are the outermost variables. *)
Fixpoint zero_results (rs : list (string * expr)) (env : env) (s : state) : res GoLang.env :=
  match rs with
  | [] => Ok env
  | (x, e) :: rs => let! (v, _) := eval e [] s in let! env := zero_results rs env s in Ok ((x, v) :: env)
  end.
Definition enter (f : func) (args : list val) (s : state) : res (val * state) :=
  if negb (Nat.eqb (length (f_params f)) (length args)) then stuck else
  let! env := zero_results (f_results f) (combine (f_params f) args) s in
  let! (c, _, s) := exec (f_body f) env s in
  match c with
  | Ret v => Ok (v, s)
  | Next => Ok (VTuple [], s)
  | _ => stuck
  end.
End Body.

(** Running a function of a program. *)
Variable prog : list (string * func).
Fixpoint run (fuel : nat) (f : string) (args : list val) (s : state) : res (val * state) :=
  match fuel with
  | O => Fuel
  | S fuel => let! fn := the (get f prog) in enter (run fuel) fuel fn args s
  end.
End Semantics.
