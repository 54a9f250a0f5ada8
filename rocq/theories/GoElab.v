(** Reading Go source text, third step: from the syntax of the files of a package to the
    programs of GoLang.v.  Identifiers are resolved in their scopes, constants evaluated,
    every expression gets its type, so that arithmetic knows its width and nil its kind, and
    programs that are not well typed are rejected with [None].

    After the Go Specification, for the part of the language the files of /repo use; anything
    else is rejected.  What the files import is given by [ext_types], [ext_const], [ext_err]
    and the calls of package utf8 and sort in [elab_call]; nothing else is specific to /repo. *)
From Coq Require Import String ZArith List Bool FMapPositive.
From Verif Require Import Base Utf8 Cp949Model GoLexer GoParser GoLang.
Import ListNotations.
Local Open Scope list_scope.
Local Open Scope string_scope.

Notation "'let?' x := a 'in' b" := (match a with Some x => b | None => None end)
  (at level 200, x pattern, a at level 100, b at level 200).
Notation "'check' a 'in' b" := (if a then b else None) (at level 200, a at level 100, b at level 200).

Inductive ty : Type :=
| TyI (t : ity) | TyConst                       (* integer types; untyped integer constants *)
| TyBool | TyStr | TyErr
| TySl (t : ty) | TyMap (k v : ty)
| TyPtr (x : string) | TyNamed (x : string)     (* declared types, those of other packages as pkg.x *)
| TyTup (l : list ty).                          (* several results *)
Definition ity_eqb (a b : ity) : bool :=
  match a, b with
  | Int, Int | Int64, Int64 | Int32, Int32 | Uint16, Uint16 | Uint8, Uint8 => true
  | _, _ => false
  end.
Fixpoint ty_eqb (a b : ty) : bool :=
  match a, b with
  | TyI a, TyI b => ity_eqb a b
  | TyConst, TyConst | TyBool, TyBool | TyStr, TyStr | TyErr, TyErr => true
  | TySl a, TySl b => ty_eqb a b
  | TyMap a c, TyMap b d => ty_eqb a b && ty_eqb c d
  | TyPtr a, TyPtr b | TyNamed a, TyNamed b => String.eqb a b
  | _, _ => false
  end.
Fixpoint tys_eqb (a b : list ty) : bool :=
  match a, b with
  | [], [] => true
  | x :: a, y :: b => ty_eqb x y && tys_eqb a b
  | _, _ => false
  end.

Fixpoint mapM {A B} (f : A -> option B) (l : list A) : option (list B) :=
  match l with
  | [] => Some []
  | a :: l => let? b := f a in let? r := mapM f l in Some (b :: r)
  end.
Fixpoint zipM {A B C} (f : A -> B -> option C) (l : list A) (m : list B) : option (list C) :=
  match l, m with
  | [], [] => Some []
  | a :: l, b :: m => let? c := f a b in let? r := zipM f l m in Some (c :: r)
  | _, _ => None
  end.
Fixpoint distinct (l : list string) : bool :=
  match l with [] => true | x :: l => negb (among x l) && distinct l end.
(** No number twice; all must be natural numbers. *)
Fixpoint distinct_in (seen : PositiveMap.t unit) (l : list Z) : bool :=
  match l with
  | [] => true
  | x :: l =>
    let k := Z.to_pos (x + 1) in
    (0 <=? x)%Z && negb (PositiveMap.mem k seen) && distinct_in (PositiveMap.add k tt seen) l
  end.
Definition distinctZ (l : list Z) : bool := distinct_in (PositiveMap.empty unit) l.

(** ** Imported packages: io, golang.org/x/text/encoding and transform *)
Definition byte_slice : gty := GSlice (GName "" "byte").
Definition ext_types : list (string * gty) := [
  ("io.Reader", GIface [("Read", ([byte_slice], [GName "" "int"; GName "" "error"]))]);
  ("io.Writer", GIface [("Write", ([byte_slice], [GName "" "int"; GName "" "error"]))]);
  ("transform.Transformer", GIface [
     ("Transform", ([byte_slice; byte_slice; GName "" "bool"], [GName "" "int"; GName "" "int"; GName "" "error"]));
     ("Reset", ([], []))]);
  ("encoding.Decoder", GStruct [("Transformer", GName "transform" "Transformer")]);
  ("encoding.Encoder", GStruct [("Transformer", GName "transform" "Transformer")])].
Definition ext_const (p x : string) : option Z :=
  match p, x with
  | "utf8", "RuneError" => Some RuneError
  | "utf8", "UTFMax" => Some UTFMax
  | _, _ => None
  end.
Definition ext_err (p x : string) : option error :=
  match p, x with "io", "EOF" => Some EOF | _, _ => None end.

(** ** What a package declares *)
Inductive global : Type :=
| GConst (z : Z)
| GErr (e : error)                              (* var x = errors.New(...) *)
| GIntMap (m : list (Z * Z)) (v : ty)           (* a map[rune]v with integer values *)
| GSliceMap (m : list (Z * list Z))             (* a map[rune][]rune *)
| GTable (t : list lookupItem)                  (* a lookupTable *)
| GFunc (ps rs : list ty).
Record pkg : Type := mkPkg {
  g_types : list (string * gty);
  g_vals : list (string * global);
  g_methods : list (string * (string * (list ty * list ty)))   (* receiver type, name, signature *)
}.

Section Package.
Variable types : list (string * gty).           (* own and imported *)

Fixpoint resolve (t : gty) : option ty :=
  match t with
  | GName "" x =>
    match get x types with
    | Some _ => Some (TyNamed x)
    | None =>
      match x with
      | "int" => Some (TyI Int) | "rune" => Some (TyI Int32) | "int32" => Some (TyI Int32)
      | "uint16" => Some (TyI Uint16) | "byte" => Some (TyI Uint8) | "uint8" => Some (TyI Uint8)
      | "bool" => Some TyBool | "string" => Some TyStr | "error" => Some TyErr
      | _ => None
      end
    end
  | GName p x => let q := p ++ "." ++ x in let? _ := get q types in Some (TyNamed q)
  | GPtr t => let? u := resolve t in match u with TyNamed x => Some (TyPtr x) | _ => None end
  | GSlice t => let? u := resolve t in Some (TySl u)
  | GMap k v => let? k := resolve k in let? v := resolve v in Some (TyMap k v)
  | GStruct _ | GIface _ => None
  end.
(** The type a declared name stands for, through chains of declarations. *)
Fixpoint declared (n : nat) (x : string) : option gty :=
  match n with
  | O => None
  | S n => let? t := get x types in match t with GName "" y => declared n y | _ => Some t end
  end.
Definition under (x : string) : option gty := declared (length types) x.
(** The element type, if [t] is a slice type. *)
Definition elem (t : ty) : option ty :=
  match t with
  | TySl u => Some u
  | TyNamed x => let? u := under x in match u with GSlice v => resolve v | _ => None end
  | _ => None
  end.
Definition iface (t : ty) : option (list (string * (list gty * list gty))) :=
  match t with TyNamed x => let? u := under x in match u with GIface ms => Some ms | _ => None end | _ => None end.
Definition struct_fields (x : string) : option (list (string * gty)) :=
  let? u := under x in match u with GStruct fs => Some fs | _ => None end.

(** "Variable declarations and zero values" *)
Definition zero (t : ty) : option expr :=
  match t with
  | TyI _ => Some (Lit 0)
  | TyBool => Some (LitB false)
  | TyStr => Some (LitS [])
  | TyErr => Some NilErr
  | TySl _ => Some NilSlice
  | TyPtr _ => Some NilPtr
  | TyNamed _ => match elem t, iface t with Some _, _ => Some NilSlice | _, Some _ => Some NilPtr | _, _ => None end
  | _ => None
  end.
Definition nil_of (t : ty) : option expr :=
  match t with
  | TyErr => Some NilErr
  | TySl _ => Some NilSlice
  | TyPtr _ => Some NilPtr
  | TyNamed _ => match elem t, iface t with Some _, _ => Some NilSlice | _, Some _ => Some NilPtr | _, _ => None end
  | _ => None
  end.

(** ** Constants and package variables *)
Local Open Scope Z_scope.
Fixpoint const_expr (n : nat) (vals : list (string * global)) (iota : Z) (e : gexpr) : option Z :=
  match n with
  | O => None
  | S n =>
    match e with
    | XNum z => Some z
    | XId x =>
      match get x vals with
      | Some (GConst z) => Some z
      | Some _ => None
      | None => if String.eqb x "iota" then Some iota else None
      end
    | XBin o a b =>
      let? a := const_expr n vals iota a in let? b := const_expr n vals iota b in
      match o with "+" => Some (a + b) | "-" => Some (a - b) | "*" => Some (a * b) | _ => None end
    | XUn "-" a => let? a := const_expr n vals iota a in Some (- a)
    | _ => None
    end
  end.
Definition const_value (vals : list (string * global)) (e : gexpr) : option Z := const_expr 100 vals 0 e.
(** "the expression list may be omitted ... equivalent to repetition of the previous one";
    iota counts the lines of the group. *)
Fixpoint const_group (vals : list (string * global)) (iota : Z) (prev : option gexpr)
  (cs : list (string * option gexpr)) : option (list (string * global)) :=
  match cs with
  | [] => Some vals
  | (x, e) :: cs =>
    let e := match e with Some _ => e | None => prev end in
    let? e' := e in
    let? z := match get "iota" vals with Some _ => None | None => const_expr 100 vals iota e' end in
    const_group (if String.eqb x "_" then vals else vals ++ [(x, GConst z)])%list (iota + 1) e cs
  end.
Definition var_value (vals : list (string * global)) (errs : string -> option error) (x : string) (e : gexpr)
  : option global :=
  let key p := let '(k, _) := p : option gexpr * gexpr in let? k := k in const_value vals k in
  match e with
  | XLit (GMap k (GSlice v)) els =>
    let? kt := resolve k in let? vt := resolve v in
    check ty_eqb kt (TyI Int32) && ty_eqb vt (TyI Int32) in
    let? ks := mapM key els in
    let? vs := mapM (fun p : option gexpr * gexpr =>
                       match snd p with
                       | XLit (GSlice w) es =>
                         let? wt := resolve w in check ty_eqb wt vt in
                         mapM (fun p : option gexpr * gexpr =>
                                 match fst p with None => const_value vals (snd p) | Some _ => None end) es
                       | _ => None
                       end) els in
    check distinctZ ks in Some (GSliceMap (combine ks vs))
  | XLit (GMap k v) els =>
    let? kt := resolve k in let? vt := resolve v in
    check ty_eqb kt (TyI Int32) && match vt with TyI _ => true | _ => false end in
    let? ks := mapM key els in
    let? vs := mapM (fun p : option gexpr * gexpr => const_value vals (snd p)) els in
    check distinctZ ks in Some (GIntMap (combine ks vs) vt)
  | XLit (GName "" "lookupTable" as t) els =>
    let? lt := resolve t in let? et := elem lt in
    let? fs := match et with TyNamed i => struct_fields i | _ => None end in
    let? fts := mapM (fun f : string * gty => let? u := resolve (snd f) in Some (fst f, u)) fs in
    check match et, fts with
          | TyNamed "lookupItem", [("cp949", TyI Uint16); ("ucs2", TyI Uint16)] => true
          | _, _ => false
          end in
    let item p :=
      match p : option gexpr * gexpr with
      | (None, XLit (GName "" "lookupItem") [(Some (XId f), a); (Some (XId g), b)]) =>
        let? a := const_value vals a in let? b := const_value vals b in
        check (0 <=? a) && (a <? 0x10000) && (0 <=? b) && (b <? 0x10000) in
        match f, g with
        | "ucs2", "cp949" => Some (It b a)
        | "cp949", "ucs2" => Some (It a b)
        | _, _ => None
        end
      | _ => None
      end in
    let? l := mapM item els in Some (GTable l)
  | XCall (XSel (XId "errors") "New") [XStr _] false =>
    match get "errors" vals with Some _ => None | None => let? e := errs x in Some (GErr e) end
  | _ => None
  end.

(** ** Expressions and statements *)
Variable vals : list (string * global).
Variable methods : list (string * (string * (list ty * list ty))).
Variable imported : list string.                (* names of the packages the file imports *)

Definition scopes : Type := list (list (string * ty)).
Fixpoint local (x : string) (sc : scopes) : option ty :=
  match sc with
  | [] => None
  | s :: sc => match get x s with Some t => Some t | None => local x sc end
  end.
(** [x] names neither a local variable nor something of the package. *)
Definition predeclared (x : string) (sc : scopes) : bool :=
  match local x sc, get x vals, get x types with None, None, None => true | _, _, _ => false end.
Definition package_name (p : string) (sc : scopes) : bool := predeclared p sc && among p imported.
Definition global_of (x : string) (sc : scopes) : option global :=
  match local x sc with Some _ => None | None => get x vals end.

Definition sig_eqb (a b : list ty * list ty) : bool := tys_eqb (fst a) (fst b) && tys_eqb (snd a) (snd b).
(** The pointer type to [x] has the methods of the interface. *)
Definition implements (x : string) (ms : list (string * (list gty * list gty))) : bool :=
  forallb (fun m : string * (list gty * list gty) =>
    match mapM resolve (fst (snd m)), mapM resolve (snd (snd m)) with
    | Some ps, Some rs =>
      existsb (fun m' : string * (string * (list ty * list ty)) =>
                 String.eqb (fst m') x && String.eqb (fst (snd m')) (fst m) && sig_eqb (snd (snd m')) (ps, rs)) methods
    | _, _ => false
    end) ms.
(** "Assignability": identical types, constants to integer types, pointers to interfaces. *)
Definition assignable (t want : ty) : bool :=
  ty_eqb t want ||
  match t, want with
  | TyConst, TyI _ => true
  | TyPtr x, TyNamed _ => match iface want with Some ms => implements x ms | None => false end
  | _, _ => false
  end.
Definition as_type (want : ty) (r : option (expr * ty)) : option expr :=
  let? (a, t) := r in check assignable t want in Some a.

Definition aop_of (o : string) : option aop :=
  match o with
  | "+" => Some Add | "-" => Some Sub | "*" => Some Mul | "/" => Some Div | "%" => Some Mod
  | "|" => Some BOr | "&" => Some BAnd | "<<" => Some Shl | ">>" => Some Shr | _ => None
  end.
Definition cop_of (o : string) : option cop :=
  match o with
  | "==" => Some Eq | "!=" => Some Ne | "<" => Some Lt | "<=" => Some Le | ">" => Some Gt | ">=" => Some Ge
  | _ => None
  end.
(** "in any operation that is not a shift, the operand types must be identical unless the
    operation involves untyped constants" *)
Definition common (t u : ty) : option ty :=
  match t, u with
  | TyConst, TyConst => Some TyConst
  | TyConst, TyI i | TyI i, TyConst => Some (TyI i)
  | _, _ => check ty_eqb t u in Some t
  end.
Definition binary (o : string) (a : expr) (t : ty) (b : expr) (u : ty) : option (expr * ty) :=
  match o with
  | "&&" => check ty_eqb t TyBool && ty_eqb u TyBool in Some (And a b, TyBool)
  | "||" => check ty_eqb t TyBool && ty_eqb u TyBool in Some (Or a b, TyBool)
  | _ =>
    match cop_of o with
    | Some c =>
      let? v := common t u in
      let eq := match c with Eq | Ne => true | _ => false end in
      match v with
      | TyI _ | TyConst => Some (Cmp c a b, TyBool)
      | TyStr | TyErr | TyBool => check eq in Some (Cmp c a b, TyBool)
      | _ => None
      end
    | None =>
      let? p := aop_of o in
      let shift := match p with Shl | Shr => true | _ => false end in
      let? v := if shift then match u with TyI _ | TyConst => Some t | _ => None end else common t u in
      match v with
      | TyI i => Some (Arith p i a b, v)
      | TyConst => Some (Arith p Int a b, v)
      | TyStr => match p with Add => Some (Concat a b, v) | _ => None end
      | _ => None
      end
    end
  end.
Definition is_nil_id (e : gexpr) (sc : scopes) : bool :=
  match e with XId "nil" => predeclared "nil" sc | _ => false end.
Definition int_type (x : string) : option ity :=
  match resolve (GName "" x) with Some (TyI i) => Some i | _ => None end.
Definition is_int (t : ty) : bool := match t with TyI _ | TyConst => true | _ => false end.

(** Declares the new ones of [xs] in the innermost scope; "_" is not declared.  At least one
    must be new, and those that are not keep their types ("Short variable declarations"). *)
Definition declare (sc : scopes) (xs : list string) (ts : list ty) : option scopes :=
  match sc with
  | [] => None
  | s :: sc =>
    let old x := match get x s with Some _ => true | None => String.eqb x "_" end in
    check distinct (filter (fun x => negb (String.eqb x "_")) xs) && existsb (fun x => negb (old x)) xs in
    let? _ := zipM (fun x t => match get x s with Some u => check assignable t u in Some tt | None => Some tt end) xs ts in
    let typed t := match t with TyConst => TyI Int | _ => t end in
    Some ((filter (fun p : string * ty => negb (old (fst p))) (combine xs (map typed ts)) ++ s)%list :: sc)
  end.

Section Func.
(** Result types, and the names of the results if they have names. *)
Record ret_info : Type := mkRet { r_types : list ty; r_names : list string }.

(** [want]: the type a nil gets.  [lp], [bk]: inside a loop; inside a loop and not in a switch. *)
Fixpoint elab (n : nat) (sc : scopes) (want : option ty) (e : gexpr) {struct n} : option (expr * ty) :=
  match n with
  | O => None
  | S n =>
    match e with
    | XNum z => Some (Lit z, TyConst)
    | XStr s => Some (LitS s, TyStr)
    | XId x =>
      match local x sc with
      | Some t => Some (Var x, t)
      | None =>
        match get x vals with
        | Some (GConst z) => Some (Lit z, TyConst)
        | Some (GErr e) => Some (ErrLit e, TyErr)
        | Some (GTable t) => Some (TableLit t, TyNamed "lookupTable")
        | Some _ => None
        | None =>
          check predeclared x sc in
          match x with
          | "true" => Some (LitB true, TyBool)
          | "false" => Some (LitB false, TyBool)
          | "nil" => let? t := want in let? a := nil_of t in Some (a, t)
          | _ => None
          end
        end
      end
    | XUn "!" a => let? (a, t) := elab n sc None a in check ty_eqb t TyBool in Some (Not a, TyBool)
    | XUn "&" (XLit t els) => elab_new n sc t els
    | XBin o a b =>
      if is_nil_id b sc then
        let? (a', t) := elab n sc None a in let? (b', u) := elab n sc (Some t) b in binary o a' t b' u
      else
        let? (a', t) := elab n sc None a in let? (b', u) := elab n sc None b in binary o a' t b' u
    | XIndex (XId m as a) i =>
      match global_of m sc with
      | Some (GIntMap l v) => let? k := as_type (TyI Int32) (elab n sc None i) in Some (MapGet l k, v)
      | _ => elab_index n sc a i
      end
    | XIndex a i => elab_index n sc a i
    | XSlice a lo hi =>
      let? (a', t) := elab n sc None a in
      match t with
      | TySl _ =>
        let? l := match lo with Some e => as_type (TyI Int) (elab n sc None e) | None => Some (Lit 0) end in
        match hi with
        | Some e => let? h := as_type (TyI Int) (elab n sc None e) in Some (Slice a' l h, t)
        | None => Some (SliceFrom a' l, t)
        end
      | _ => None
      end
    | XSel (XId p as a) f =>
      if package_name p sc then
        match ext_const p f, ext_err p f with
        | Some z, _ => Some (Lit z, TyConst)
        | None, Some e => Some (ErrLit e, TyErr)
        | None, None => None
        end
      else elab_field n sc a f
    | XSel a f => elab_field n sc a f
    | XCall f args spread => elab_call n sc f args spread
    | _ => None
    end
  end
with elab_index (n : nat) (sc : scopes) (a i : gexpr) {struct n} : option (expr * ty) :=
  match n with
  | O => None
  | S n =>
    let? (a, t) := elab n sc None a in let? u := elem t in
    let? i := as_type (TyI Int) (elab n sc None i) in Some (Index a i, u)
  end
with elab_field (n : nat) (sc : scopes) (a : gexpr) (f : string) {struct n} : option (expr * ty) :=
  match n with
  | O => None
  | S n =>
    let? (a, t) := elab n sc None a in
    let? x := match t with TyPtr x | TyNamed x => Some x | _ => None end in
    let? fs := struct_fields x in let? g := get f fs in let? u := resolve g in Some (Field a f, u)
  end
with elab_new (n : nat) (sc : scopes) (t : gty) (els : list (option gexpr * gexpr)) {struct n} : option (expr * ty) :=
  match n with
  | O => None
  | S n =>
    let? u := resolve t in
    let? x := match u with TyNamed x => Some x | _ => None end in
    let? fs := struct_fields x in
    let? given := mapM (fun p : option gexpr * gexpr =>
                          match p with (Some (XId f), v) => Some (f, v) | _ => None end) els in
    check distinct (map fst given) && forallb (fun p : string * gexpr => among (fst p) (map fst fs)) given in
    let? vs := mapM (fun p : string * gty =>
                       let? ft := resolve (snd p) in
                       let? v := match get (fst p) given with
                                 | Some e => as_type ft (elab n sc (Some ft) e)
                                 | None => zero ft
                                 end in
                       Some (fst p, v)) fs in
    Some (New x vs, TyPtr x)
  end
with elab_args (n : nat) (sc : scopes) (args : list gexpr) (ts : list ty) {struct n} : option (list expr) :=
  match n with
  | O => None
  | S n => zipM (fun a t => as_type t (elab n sc (Some t) a)) args ts
  end
with elab_call (n : nat) (sc : scopes) (f : gexpr) (args : list gexpr) (spread : bool) {struct n} : option (expr * ty) :=
  match n with
  | O => None
  | S n =>
    let results rs := match rs with [t] => t | _ => TyTup rs end in
    let bytes := TySl (TyI Uint8) in
    match f with
    | XType t =>                                     (* []rune(s) *)
      let? u := resolve t in
      match u, args, spread with
      | TySl (TyI Int32), [a], false => let? s := as_type TyStr (elab n sc None a) in Some (Runes s, u)
      | _, _, _ => None
      end
    | XId x =>
      match global_of x sc with
      | Some (GFunc ps rs) =>
        check negb spread in let? l := elab_args n sc args ps in Some (Call x l, results rs)
      | Some _ => None
      | None =>
        check predeclared x sc in
        if spread then
          match x, args with
          | "append", [a; b] =>
            let? a := as_type bytes (elab n sc None a) in let? b := as_type bytes (elab n sc None b) in
            Some (AppendS a b, bytes)
          | _, _ => None
          end
        else
          match x, args with
          | "len", [a] => let? (a, t) := elab n sc None a in let? _ := elem t in Some (Len a, TyI Int)
          | "cap", [a] => let? (a, t) := elab n sc None a in let? _ := elem t in Some (Cap a, TyI Int)
          | "append", a :: es =>
            let? a := as_type bytes (elab n sc None a) in
            let? l := mapM (fun e => as_type (TyI Uint8) (elab n sc None e)) es in Some (Append a l, bytes)
          | "copy", [a; b] =>
            let? a := as_type bytes (elab n sc None a) in let? b := as_type bytes (elab n sc None b) in
            Some (CopyE a b, TyI Int)
          | "make", [XType t; a; b] =>
            let? u := resolve t in check ty_eqb u bytes in
            let? a := as_type (TyI Int) (elab n sc None a) in let? b := as_type (TyI Int) (elab n sc None b) in
            Some (Make a b, bytes)
          | "new", [XId t] => elab_new n sc (GName "" t) []
          | "string", [a] => let? s := as_type (TySl (TyI Int32)) (elab n sc None a) in Some (Str s, TyStr)
          | _, [a] =>                                (* conversion between integer types *)
            let? i := int_type x in let? (a, t) := elab n sc None a in check is_int t in Some (Conv i a, TyI i)
          | _, _ => None
          end
      end
    | XSel (XId p as a) m =>
      if package_name p sc then
        check negb spread in
        match p, m, args with
        | "utf8", "DecodeRune", [a] =>
          let? a := as_type bytes (elab n sc None a) in Some (DecodeRuneE a, TyTup [TyI Int32; TyI Int])
        | "utf8", "EncodeRune", [a; r] =>
          let? a := as_type bytes (elab n sc None a) in let? r := as_type (TyI Int32) (elab n sc None r) in
          Some (EncodeRuneE a r, TyI Int)
        | "sort", "Search", [k; XFunc [(i, it)] [(_, rt)] body] =>
          let? k := as_type (TyI Int) (elab n sc None k) in
          let? it := resolve it in let? rt := resolve rt in check ty_eqb it (TyI Int) && ty_eqb rt TyBool in
          let? (b, _) := elab_block n ([(i, it)] :: sc) (mkRet [TyBool] []) false false body in
          Some (SearchE k i (Block b), TyI Int)
        | _, _, _ => None
        end
      else elab_method n sc a m args spread
    | XSel a m => elab_method n sc a m args spread
    | _ => None
    end
  end
with elab_method (n : nat) (sc : scopes) (a : gexpr) (m : string) (args : list gexpr) (spread : bool) {struct n}
  : option (expr * ty) :=
  match n with
  | O => None
  | S n =>
    check negb spread in
    let? (a, t) := elab n sc None a in let? ms := iface t in let? (gps, grs) := get m ms in
    let? ps := mapM resolve gps in let? rs := mapM resolve grs in
    let? l := elab_args n sc args ps in Some (Method a m l, match rs with [t] => t | _ => TyTup rs end)
  end
with elab_stmt (n : nat) (sc : scopes) (r : ret_info) (lp bk : bool) (s : gstmt) {struct n} : option (stmt * scopes) :=
  match n with
  | O => None
  | S n =>
    match s with
    | SExpr a => let? (a, _) := match a with XCall _ _ _ => elab n sc None a | _ => None end in Some (ExprS a, sc)
    | SDefine ls [e] =>
      let? xs := mapM (fun l => match l with XId x => Some x | _ => None end) ls in
      let? (a, ts) := elab_values n sc (List.length xs) None e in
      let? sc := declare sc xs ts in Some (Define xs a, sc)
    | SAssign ls [e] =>
      let? lts := mapM (elab_lhs n sc) ls in
      let want := match lts with [(_, Some t)] => Some t | _ => None end in
      let? (a, ts) := elab_values n sc (List.length ls) want e in
      let? _ := zipM (fun (l : lhs * option ty) t =>
                        match snd l with Some u => check assignable t u in Some tt | None => Some tt end) lts ts in
      Some (Assign (map fst lts) a, sc)
    | SOp o (XId x as l) e =>
      let? (lv, lt) := elab_lhs n sc l in let? lt := lt in
      let? a := as_type lt (elab n sc None (XBin o l e)) in Some (Assign [lv] a, sc)
    | SBlock ss => let? (b, _) := elab_block n ([] :: sc) r lp bk ss in Some (Block b, sc)
    | SIf init c th el =>
      let? (pre, sc') := match init with
                         | Some s => let? (s, sc) := elab_stmt n ([] :: sc) r false false s in Some ([s], sc)
                         | None => Some ([], [] :: sc)
                         end in
      let? c := as_type TyBool (elab n sc' None c) in
      let? (b, _) := elab_block n ([] :: sc') r lp bk th in
      let? e := match el with
                | None => Some (Block [])
                | Some (SBlock ss) => let? (b, _) := elab_block n ([] :: sc') r lp bk ss in Some (Block b)
                | Some s => let? (s, _) := elab_stmt n ([] :: sc') r lp bk s in Some (Block [s])
                end in
      Some (match pre with [] => If c (Block b) e | _ => Block (pre ++ [If c (Block b) e])%list end, sc)
    | SWhile c ss =>
      let? c := match c with Some c => as_type TyBool (elab n sc None c) | None => Some (LitB true) end in
      let? (b, _) := elab_block n ([] :: sc) r true true ss in Some (While c (Block b), sc)
    | SRange [XId i; XId x] e ss =>
      let? (a, t) := elab n sc None e in
      match t with
      | TySl (TyI Int32) =>
        let? sc' := declare ([] :: sc) [i; x] [TyI Int; TyI Int32] in
        let? (b, _) := elab_block n ([] :: sc') r true true ss in Some (Range i x a (Block b), sc)
      | _ => None
      end
    | SSwitch cs => let? s := elab_cases n sc r lp cs in Some (s, sc)
    | SReturn [] =>
      match r_types r, r_names r with
      | [], _ => Some (Return [], sc)
      | ts, xs =>
        let? l := zipM (fun x t => as_type t (match local x sc with Some t => Some (Var x, t) | None => None end)) xs ts in
        Some (Return l, sc)
      end
    | SReturn es => let? l := elab_args n sc es (r_types r) in Some (Return l, sc)
    | SBreak => check bk in Some (Break, sc)
    | SContinue => check lp in Some (Continue, sc)
    | _ => None
    end
  end
(** The value of [e] for [k] variables, with their types: also v, ok := m[key]. *)
with elab_values (n : nat) (sc : scopes) (k : nat) (want : option ty) (e : gexpr) {struct n} : option (expr * list ty) :=
  match n with
  | O => None
  | S n =>
    let plain :=
      let? (a, t) := elab n sc want e in
      match t, k with
      | TyTup ts, _ => check (List.length ts =? k)%nat in Some (a, ts)
      | _, 1%nat => Some (a, [t])
      | _, _ => None
      end in
    match k, e with
    | 2%nat, XIndex (XId m) i =>
      match global_of m sc with
      | Some (GIntMap l v) => let? k := as_type (TyI Int32) (elab n sc None i) in Some (MapGet2 l k, [v; TyBool])
      | Some (GSliceMap l) =>
        let? k := as_type (TyI Int32) (elab n sc None i) in Some (MapSlice2 l k, [TySl (TyI Int32); TyBool])
      | _ => plain
      end
    | _, _ => plain
    end
  end
with elab_lhs (n : nat) (sc : scopes) (l : gexpr) {struct n} : option (lhs * option ty) :=
  match n with
  | O => None
  | S n =>
    match l with
    | XId "_" => Some (LBlank, None)
    | XId x => let? t := local x sc in Some (LVar x, Some t)
    | XSel _ _ =>
      let? (a, t) := elab n sc None l in match a with Field b f => Some (LField b f, Some t) | _ => None end
    | XIndex _ _ =>
      let? (a, t) := elab n sc None l in match a with Index b i => Some (LIndex b i, Some t) | _ => None end
    | _ => None
    end
  end
with elab_cases (n : nat) (sc : scopes) (r : ret_info) (lp : bool) (cs : list (gexpr * list gstmt)) {struct n} : option stmt :=
  match n with
  | O => None
  | S n =>
    match cs with
    | [] => Some (Block [])
    | (c, ss) :: cs =>
      let? c := as_type TyBool (elab n sc None c) in
      let? (b, _) := elab_block n ([] :: sc) r lp false ss in
      let? rest := elab_cases n sc r lp cs in Some (If c (Block b) rest)
    end
  end
with elab_block (n : nat) (sc : scopes) (r : ret_info) (lp bk : bool) (ss : list gstmt) {struct n} : option (list stmt * scopes) :=
  match n with
  | O => None
  | S n =>
    match ss with
    | [] => Some ([], sc)
    | s :: ss =>
      let? (s, sc) := elab_stmt n sc r lp bk s in
      let? (l, sc) := elab_block n sc r lp bk ss in Some (s :: l, sc)
    end
  end.
End Func.

(** Deep enough for 1000 nested or successive constructs. *)
Definition elab_fuel : nat := 1000.
Definition elab_func (recv : option (string * gty)) (x : string) (ps rs : gparams) (body : list gstmt)
  : option (string * func) :=
  let all := (match recv with Some p => [p] | None => [] end ++ ps)%list in
  let names := filter (fun p : string * gty => negb (String.eqb (fst p) "")) rs in
  check distinct (map fst (all ++ names)%list) && negb (among "" (map fst all)) in
  let? pts := mapM (fun p : string * gty => let? t := resolve (snd p) in Some (fst p, t)) all in
  let? rts := mapM (fun p : string * gty => resolve (snd p)) rs in
  let? zs := mapM (fun p : string * gty => let? t := resolve (snd p) in let? z := zero t in Some (fst p, z)) names in
  let rn := if (List.length names =? List.length rs)%nat then map fst rs else [] in
  let scope := (pts ++ filter (fun p : string * ty => negb (String.eqb (fst p) "")) (combine (map fst rs) rts))%list in
  let? (b, _) := elab_block elab_fuel [scope] (mkRet rts rn) false false body in
  let? q := match recv with
            | None => Some x
            | Some (_, GPtr (GName "" t)) => Some (t ++ "." ++ x)
            | Some _ => None
            end in
  Some (q, mkFunc (map fst pts) zs (Block b)).
End Package.

(** ** A whole package *)
(** The name of an imported package: what follows the last slash of its path. *)
Fixpoint after_slash (acc s : list Z) : list Z :=
  match s with
  | [] => rev acc
  | (c :: s)%list => if (c =? 47)%Z then after_slash [] s else after_slash (c :: acc)%list s
  end.
Fixpoint string_of (s : list Z) : string :=
  match s with [] => EmptyString | (c :: s)%list => String (Ascii.ascii_of_N (Z.to_N c)) (string_of s) end.
Definition import_names (f : gfile) : list string := map (fun i => string_of (after_slash [] i)) (imports f).

Definition type_decls (ds : list gdecl) : list (string * gty) :=
  flat_map (fun d => match d with DType x t => [(x, t)] | _ => [] end) ds.
Definition sig (types : list (string * gty)) (ps rs : gparams) : option (list ty * list ty) :=
  let? a := mapM (fun p : string * gty => resolve types (snd p)) ps in
  let? b := mapM (fun p : string * gty => resolve types (snd p)) rs in Some (a, b).
Fixpoint var_group (types : list (string * gty)) (errs : string -> option error)
  (vals : list (string * global)) (l : list (string * gexpr)) : option (list (string * global)) :=
  match l with
  | [] => Some vals
  | (x, e) :: l => let? g := var_value types vals errs x e in var_group types errs (vals ++ [(x, g)])%list l
  end.
(** Constants and variables in the order of the text. *)
Fixpoint value_decls (types : list (string * gty)) (errs : string -> option error)
  (vals : list (string * global)) (ds : list gdecl) : option (list (string * global)) :=
  match ds with
  | [] => Some vals
  | d :: ds =>
    let? vals := match d with
                 | DConst cs => const_group vals 0 None cs
                 | DVar l => var_group types errs vals l
                 | DFunc None x ps rs _ => let? (a, b) := sig types ps rs in Some (vals ++ [(x, GFunc a b)])%list
                 | _ => Some vals
                 end in
    value_decls types errs vals ds
  end.
Fixpoint method_decls (types : list (string * gty)) (ds : list gdecl)
  : option (list (string * (string * (list ty * list ty)))) :=
  match ds with
  | [] => Some []
  | DFunc (Some (_, GPtr (GName "" t))) x ps rs _ :: ds =>
    let? s := sig types ps rs in let? l := method_decls types ds in Some ((t, (x, s)) :: l)
  | DFunc (Some _) _ _ _ _ :: _ => None
  | _ :: ds => method_decls types ds
  end.

(** The program of a package given by the texts of its files, which must come in an order in
    which constants are declared before they are used.  [errs]: the values of its error
    variables. *)
Definition read_package (name : string) (errs : string -> option error) (texts : list string) : option (list (string * func)) :=
  let? fs := mapM read_file texts in
  check forallb (fun f => String.eqb (package f) name) fs in
  let ds := flat_map decls fs in
  let types := (type_decls ds ++ ext_types)%list in
  let? vals := value_decls types errs [] ds in
  let? methods := method_decls types ds in
  check distinct (map fst vals ++ map fst (type_decls ds))%list &&
        distinct (map (fun m : string * (string * (list ty * list ty)) => fst m ++ "." ++ fst (snd m)) methods) in
  let? progs := mapM (fun f =>
    let imported := import_names f in
    let? l := mapM (fun d => match d with
                             | DFunc recv x ps rs body =>
                               let? p := elab_func types vals methods imported recv x ps rs body in Some [p]
                             | _ => Some []
                             end) (decls f) in Some (concat l)) fs in
  Some (concat progs).
