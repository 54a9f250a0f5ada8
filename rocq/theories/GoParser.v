(** Reading Go source text, second step: from tokens to the syntax of a file.

    After the Go Specification, sections "Types", "Blocks", "Declarations and scope",
    "Expressions", "Statements" and "Source file organization", for the part of the language
    the files of /repo use; anything else is rejected with [None].  Nothing here is specific
    to /repo. *)
From Coq Require Import String ZArith List Bool.
From Verif Require Import GoLexer.
Import ListNotations.
Local Open Scope list_scope.
Local Open Scope string_scope.

Inductive gty : Type :=
| GName (pkg x : string)                        (* x or pkg.x *)
| GPtr (t : gty) | GSlice (t : gty) | GMap (k v : gty)
| GStruct (fs : list (string * gty))
| GIface (ms : list (string * (list gty * list gty))).  (* methods with parameter and result types *)

(** Names and types of parameters or results; the name of an unnamed one is empty. *)
Definition gparams : Type := list (string * gty).

Inductive gexpr : Type :=
| XId (x : string) | XNum (z : Z) | XStr (s : list Z)
| XUn (o : string) (a : gexpr) | XBin (o : string) (a b : gexpr)
| XSel (a : gexpr) (f : string)
| XIndex (a i : gexpr) | XSlice (a : gexpr) (lo hi : option gexpr)
| XCall (f : gexpr) (args : list gexpr) (spread : bool)   (* f(args) or f(args...); also conversions *)
| XLit (t : gty) (els : list (option gexpr * gexpr))      (* t{key: value, ...} *)
| XType (t : gty)                                         (* a type as operand, in make and conversions *)
| XFunc (ps rs : gparams) (body : list gstmt)
with gstmt : Type :=
| SExpr (a : gexpr)
| SDefine (ls rs : list gexpr)                  (* ls := rs *)
| SAssign (ls rs : list gexpr)                  (* ls = rs *)
| SOp (o : string) (l r : gexpr)                (* l o= r, l++, l-- *)
| SBlock (ss : list gstmt)
| SIf (init : option gstmt) (c : gexpr) (th : list gstmt) (el : option gstmt)
| SWhile (c : option gexpr) (body : list gstmt)
| SRange (ls : list gexpr) (e : gexpr) (body : list gstmt)
| SSwitch (cs : list (gexpr * list gstmt))      (* switch { case c: ... } *)
| SReturn (es : list gexpr)
| SBreak | SContinue.

Inductive gdecl : Type :=
| DConst (cs : list (string * option gexpr))    (* a const group, in order *)
| DVar (xs : list (string * gexpr))             (* var x = e, or a group of them *)
| DType (x : string) (t : gty)
| DFunc (recv : option (string * gty)) (x : string) (ps rs : gparams) (body : list gstmt).
Record gfile : Type := mkFile { package : string; imports : list (list Z); decls : list gdecl }.

Definition parser (A : Type) : Type := list tok -> option (A * list tok).
Definition ret {A} (a : A) : parser A := fun ts => Some (a, ts).
Definition fail {A} : parser A := fun _ => None.
Definition bind {A B} (p : parser A) (f : A -> parser B) : parser B := fun ts =>
  match p ts with Some (a, ts) => f a ts | None => None end.
Notation "x <- p ;; q" := (bind p (fun x => q)) (at level 61, p at next level, right associativity).
Notation "p ;;; q" := (bind p (fun _ => q)) (at level 61, right associativity).

Definition tok_is (t : tok) (x : string) : bool :=
  match t with TOp y | TKw y => String.eqb x y | _ => false end.
(** Is the next token the operator or keyword [x]? *)
Definition next_is (x : string) : parser bool := fun ts =>
  match ts with t :: _ => Some (tok_is t x, ts) | [] => Some (false, ts) end.
(** The same, and then it is consumed. *)
Definition accept (x : string) : parser bool := fun ts =>
  match ts with t :: r => if tok_is t x then Some (true, r) else Some (false, ts) | [] => Some (false, ts) end.
Definition expect (x : string) : parser unit :=
  b <- accept x ;; if b then ret tt else fail.
Definition ident : parser string := fun ts =>
  match ts with TId x :: r => Some (x, r) | _ => None end.
Definition at_ident : parser bool := fun ts =>
  match ts with TId _ :: _ => Some (true, ts) | _ => Some (false, ts) end.
Definition at_end : parser bool := fun ts => Some (match ts with [] => true | _ => false end, ts).

Section Types.
(** item, item, ... up to the closing token, which is consumed; a comma may precede it. *)
Fixpoint list_until {A} (n : nat) (item : parser A) (close : string) : parser (list A) :=
  match n with
  | O => fail
  | S n =>
    b <- accept close ;;
    if b then ret [] else
    a <- item ;;
    c <- accept "," ;;
    if c then r <- list_until n item close ;; ret (a :: r)
    else expect close ;;; ret [a]
  end.
(** item ; item ; ... } ; the last semicolon may be missing. *)
Fixpoint lines_until {A} (n : nat) (item : parser A) (close : string) : parser (list A) :=
  match n with
  | O => fail
  | S n =>
    b <- accept close ;;
    if b then ret [] else
    a <- item ;;
    c <- accept ";" ;;
    if c then r <- lines_until n item close ;; ret (a :: r)
    else expect close ;;; ret [a]
  end.
Fixpoint sep_by {A} (n : nat) (item : parser A) : parser (list A) :=
  match n with
  | O => fail
  | S n => a <- item ;; c <- accept "," ;; if c then r <- sep_by n item ;; ret (a :: r) else ret [a]
  end.

(** A parameter list mixes entries "name", "name type" and "type"; either all parameters are
    named, and a name without type has that of the next name with one, or none is. *)
Definition entry : Type := gty * option gty.
Fixpoint named (es : list entry) : option gparams :=
  match es with
  | [] => Some []
  | (GName "" x, Some t) :: es => match named es with Some l => Some ((x, t) :: l) | None => None end
  | (GName "" x, None) :: es =>
    match named es with Some ((y, t) :: l) => Some ((x, t) :: (y, t) :: l) | _ => None end
  | _ => None
  end.
Definition resolve_params (es : list entry) : option gparams :=
  if forallb (fun e => match snd e with None => true | Some _ => false end) es
  then Some (map (fun e => ("", fst e)) es) else named es.

Fixpoint type (n : nat) : parser gty :=
  match n with
  | O => fail
  | S n =>
    b <- accept "*" ;; if b then t <- type n ;; ret (GPtr t) else
    b <- accept "[" ;; if b then expect "]" ;;; t <- type n ;; ret (GSlice t) else
    b <- accept "map" ;; if b then expect "[" ;;; k <- type n ;; expect "]" ;;; v <- type n ;; ret (GMap k v) else
    b <- accept "struct" ;;
    if b then expect "{" ;;;
      fs <- lines_until n (xs <- sep_by n ident ;; t <- type n ;; ret (map (fun x => (x, t)) xs)) "}" ;;
      ret (GStruct (concat fs)) else
    b <- accept "interface" ;;
    if b then expect "{" ;;;
      ms <- lines_until n (x <- ident ;; ps <- params n ;; rs <- results n ;;
                           ret (x, (map snd ps, map snd rs))) "}" ;;
      ret (GIface ms) else
    x <- ident ;; b <- accept "." ;;
    if b then y <- ident ;; ret (GName x y) else ret (GName "" x)
  end
with params (n : nat) : parser gparams :=
  match n with
  | O => fail
  | S n =>
    expect "(" ;;;
    es <- list_until n (t <- type n ;; b <- next_is "," ;; c <- next_is ")" ;;
                        if b || c then ret (t, None) else u <- type n ;; ret (t, Some u)) ")" ;;
    match resolve_params es with Some ps => ret ps | None => fail end
  end
with results (n : nat) : parser gparams :=   (* none, one unnamed, or a list *)
  match n with
  | O => fail
  | S n =>
    b <- next_is "(" ;; if b then params n else
    b <- next_is "{" ;; c <- next_is ";" ;; d <- next_is "}" ;;
    if b || c || d then ret [] else t <- type n ;; ret [("", t)]
  end.
End Types.

(** "Binary operators of the same precedence associate from left to right" *)
Definition precedence (o : string) : nat :=
  match o with
  | "*" | "/" | "%" | "<<" | ">>" | "&" | "&^" => 5
  | "+" | "-" | "|" | "^" => 4
  | "==" | "!=" | "<" | "<=" | ">" | ">=" => 3
  | "&&" => 2
  | "||" => 1
  | _ => 0
  end.
(** The next token, if it is a binary operator of precedence at least [p]; consumed. *)
Definition binary_op (p : nat) : parser (option string) := fun ts =>
  match ts with
  | TOp o :: r => if (1 <=? precedence o)%nat && (p <=? precedence o)%nat then Some (Some o, r) else Some (None, ts)
  | _ => Some (None, ts)
  end.
Definition unary_op : parser (option string) := fun ts =>
  match ts with
  | TOp (("+" | "-" | "!" | "^" | "*" | "&") as o) :: r => Some (Some o, r)
  | _ => Some (None, ts)
  end.
Definition literal : parser (option gexpr) := fun ts =>
  match ts with
  | TNum z :: r => Some (Some (XNum z), r)
  | TStr s :: r => Some (Some (XStr s), r)
  | _ => Some (None, ts)
  end.
Definition type_name (a : gexpr) : option gty :=
  match a with
  | XId x => Some (GName "" x)
  | XSel (XId p) x => Some (GName p x)
  | _ => None
  end.
Definition op_assign : parser (option string) := fun ts =>
  match ts with
  | TOp o :: r =>
    match o with
    | "+=" => Some (Some "+", r) | "-=" => Some (Some "-", r) | "*=" => Some (Some "*", r)
    | "/=" => Some (Some "/", r) | "%=" => Some (Some "%", r) | "&=" => Some (Some "&", r)
    | "|=" => Some (Some "|", r) | "^=" => Some (Some "^", r)
    | "<<=" => Some (Some "<<", r) | ">>=" => Some (Some ">>", r)
    | _ => Some (None, ts)
    end
  | _ => Some (None, ts)
  end.

(** [h]: inside the header of if, for or switch, where "T {" does not begin a composite
    literal ("a parsing ambiguity arises when ..."). *)
Fixpoint expr (n : nat) (h : bool) (p : nat) : parser gexpr :=
  match n with O => fail | S n => a <- unary n h ;; rest n h p a end
with rest (n : nat) (h : bool) (p : nat) (a : gexpr) : parser gexpr :=
  match n with
  | O => fail
  | S n =>
    o <- binary_op p ;;
    match o with
    | Some o => b <- expr n h (S (precedence o)) ;; rest n h p (XBin o a b)
    | None => ret a
    end
  end
with unary (n : nat) (h : bool) : parser gexpr :=
  match n with
  | O => fail
  | S n =>
    o <- unary_op ;;
    match o with
    | Some o => a <- unary n h ;; ret (XUn o a)
    | None => a <- operand n ;; postfix n h a
    end
  end
with operand (n : nat) : parser gexpr :=
  match n with
  | O => fail
  | S n =>
    l <- literal ;;
    match l with
    | Some a => ret a
    | None =>
      b <- accept "(" ;; if b then a <- expr n false 1 ;; expect ")" ;;; ret a else
      b <- accept "func" ;; if b then ps <- params n ;; rs <- results n ;; ss <- block n ;; ret (XFunc ps rs ss) else
      b <- at_ident ;; if b then x <- ident ;; ret (XId x) else
      t <- type n ;;
      b <- accept "{" ;; if b then es <- list_until n (element n) "}" ;; ret (XLit t es) else ret (XType t)
    end
  end
with element (n : nat) : parser (option gexpr * gexpr) :=
  match n with
  | O => fail
  | S n => a <- expr n false 1 ;; b <- accept ":" ;; if b then v <- expr n false 1 ;; ret (Some a, v) else ret (None, a)
  end
with postfix (n : nat) (h : bool) (a : gexpr) : parser gexpr :=
  match n with
  | O => fail
  | S n =>
    b <- accept "." ;; if b then x <- ident ;; postfix n h (XSel a x) else
    b <- accept "[" ;;
    if b then
      b <- accept ":" ;;
      if b then
        b <- accept "]" ;; if b then postfix n h (XSlice a None None) else
        hi <- expr n false 1 ;; expect "]" ;;; postfix n h (XSlice a None (Some hi))
      else
        lo <- expr n false 1 ;;
        b <- accept "]" ;; if b then postfix n h (XIndex a lo) else
        expect ":" ;;;
        b <- accept "]" ;; if b then postfix n h (XSlice a (Some lo) None) else
        hi <- expr n false 1 ;; expect "]" ;;; postfix n h (XSlice a (Some lo) (Some hi))
    else
    b <- accept "(" ;;
    if b then
      args <- list_until n (x <- expr n false 1 ;; b <- accept "..." ;; ret (x, b)) ")" ;;
      let last := last (map snd args) false in
      if forallb negb (map snd (removelast args)) then postfix n h (XCall a (map fst args) last) else fail
    else
    match h, type_name a with
    | false, Some t =>
      b <- accept "{" ;; if b then es <- list_until n (element n) "}" ;; postfix n h (XLit t es) else ret a
    | _, _ => ret a
    end
  end
with block (n : nat) : parser (list gstmt) :=
  match n with O => fail | S n => expect "{" ;;; lines_until n (stmt n) "}" end
with simple (n : nat) (h : bool) : parser gstmt :=
  match n with
  | O => fail
  | S n =>
    es <- sep_by n (expr n h 1) ;;
    b <- accept ":=" ;; if b then rs <- sep_by n (expr n h 1) ;; ret (SDefine es rs) else
    b <- accept "=" ;; if b then rs <- sep_by n (expr n h 1) ;; ret (SAssign es rs) else
    match es with
    | [a] =>
      b <- accept "++" ;; if b then ret (SOp "+" a (XNum 1)) else
      b <- accept "--" ;; if b then ret (SOp "-" a (XNum 1)) else
      o <- op_assign ;;
      match o with Some o => r <- expr n h 1 ;; ret (SOp o a r) | None => ret (SExpr a) end
    | _ => fail
    end
  end
with stmt (n : nat) : parser gstmt :=
  match n with
  | O => fail
  | S n =>
    b <- accept "return" ;;
    if b then
      b <- next_is ";" ;; c <- next_is "}" ;;
      if b || c then ret (SReturn []) else es <- sep_by n (expr n false 1) ;; ret (SReturn es)
    else
    b <- next_is "if" ;; if b then if_stmt n else
    b <- accept "for" ;;
    if b then
      b <- next_is "{" ;; if b then ss <- block n ;; ret (SWhile None ss) else
      es <- sep_by n (expr n true 1) ;;
      b <- accept ":=" ;;
      if b then expect "range" ;;; e <- expr n true 1 ;; ss <- block n ;; ret (SRange es e ss) else
      match es with [c] => ss <- block n ;; ret (SWhile (Some c) ss) | _ => fail end
    else
    b <- accept "switch" ;;
    if b then expect "{" ;;; cs <- cases n ;; ret (SSwitch cs) else
    b <- accept "break" ;; if b then ret SBreak else
    b <- accept "continue" ;; if b then ret SContinue else
    b <- next_is "{" ;; if b then ss <- block n ;; ret (SBlock ss) else
    simple n false
  end
with if_stmt (n : nat) : parser gstmt :=
  match n with
  | O => fail
  | S n =>
    expect "if" ;;;
    x <- simple n true ;;
    b <- accept ";" ;;
    ic <- (if b then c <- expr n true 1 ;; ret (Some x, c)
           else match x with SExpr c => ret (None, c) | _ => fail end) ;;
    th <- block n ;;
    b <- accept "else" ;;
    if b then
      b <- next_is "if" ;;
      el <- (if b then if_stmt n else ss <- block n ;; ret (SBlock ss)) ;;
      ret (SIf (fst ic) (snd ic) th (Some el))
    else ret (SIf (fst ic) (snd ic) th None)
  end
with cases (n : nat) : parser (list (gexpr * list gstmt)) :=
  match n with
  | O => fail
  | S n =>
    b <- accept "}" ;; if b then ret [] else
    expect "case" ;;; c <- expr n false 1 ;; expect ":" ;;; ss <- case_body n ;; r <- cases n ;; ret ((c, ss) :: r)
  end
with case_body (n : nat) : parser (list gstmt) :=
  match n with
  | O => fail
  | S n =>
    b <- next_is "case" ;; c <- next_is "}" ;;
    if b || c then ret [] else
    s <- stmt n ;;
    b <- accept ";" ;;
    if b then r <- case_body n ;; ret (s :: r)
    else b <- next_is "}" ;; if b then ret [s] else fail
  end.

Definition string_lit : parser (list Z) := fun ts =>
  match ts with TStr s :: r => Some (s, r) | _ => None end.
Definition const_spec (n : nat) : parser (string * option gexpr) :=
  x <- ident ;; b <- accept "=" ;; if b then e <- expr n false 1 ;; ret (x, Some e) else ret (x, None).
Definition var_spec (n : nat) : parser (string * gexpr) :=
  x <- ident ;; expect "=" ;;; e <- expr n false 1 ;; ret (x, e).
Definition decl (n : nat) : parser gdecl :=
  b <- accept "const" ;;
  if b then
    b <- accept "(" ;;
    if b then cs <- lines_until n (const_spec n) ")" ;; ret (DConst cs)
    else c <- const_spec n ;; ret (DConst [c])
  else
  b <- accept "var" ;;
  if b then
    b <- accept "(" ;;
    if b then vs <- lines_until n (var_spec n) ")" ;; ret (DVar vs)
    else v <- var_spec n ;; ret (DVar [v])
  else
  b <- accept "type" ;; if b then x <- ident ;; t <- type n ;; ret (DType x t) else
  expect "func" ;;;
  b <- next_is "(" ;;
  recv <- (if b then ps <- params n ;; match ps with [p] => ret (Some p) | _ => fail end else ret None) ;;
  x <- ident ;; ps <- params n ;; rs <- results n ;; ss <- block n ;; ret (DFunc recv x ps rs ss).
Fixpoint import_decls (n : nat) : parser (list (list Z)) :=
  match n with
  | O => fail
  | S n =>
    b <- accept "import" ;;
    if b then
      b <- accept "(" ;;
      is <- (if b then lines_until n string_lit ")" else s <- string_lit ;; ret [s]) ;;
      expect ";" ;;; r <- import_decls n ;; ret (is ++ r)%list
    else ret []
  end.
Fixpoint top_decls (n : nat) (fuel : nat) : parser (list gdecl) :=
  match n with
  | O => fail
  | S n =>
    b <- at_end ;;
    if b then ret [] else d <- decl fuel ;; expect ";" ;;; r <- top_decls n fuel ;; ret (d :: r)
  end.
(** The parsers recurse at most a fixed number of times per token. *)
Definition source_file (ts : list tok) : option gfile :=
  let n := (20 * length ts + 20)%nat in
  match (expect "package" ;;; x <- ident ;; expect ";" ;;; is <- import_decls n ;; ds <- top_decls n n ;;
         ret (mkFile x is ds)) ts with
  | Some (f, []) => Some f
  | _ => None
  end.
Definition read_file (s : string) : option gfile :=
  match tokens s with Some ts => source_file ts | None => None end.

Example read_case : read_file "package p
func f(a, b int) (int, bool) {
	if x := a*2+b; x < 3 && !ok {
		return x, true
	}
	return T{n: []int{1, 2,
	}}, m[a : 2]
}
" = Some (mkFile "p" [] [DFunc None "f" [("a", GName "" "int"); ("b", GName "" "int")] [("", GName "" "int"); ("", GName "" "bool")]
  [SIf (Some (SDefine [XId "x"] [XBin "+" (XBin "*" (XId "a") (XNum 2)) (XId "b")]))
     (XBin "&&" (XBin "<" (XId "x") (XNum 3)) (XUn "!" (XId "ok")))
     [SReturn [XId "x"; XId "true"]] None;
   SReturn [XLit (GName "" "T") [(Some (XId "n"), XLit (GSlice (GName "" "int")) [(None, XNum 1); (None, XNum 2)])];
            XSlice (XId "m") (Some (XId "a")) (Some (XNum 2))]]]).
Proof. vm_compute. reflexivity. Qed.
