(** The sources as compiled for a machine whose type int has 32 or 64 bits: every operation
    on ints wraps around. *)
From Coq Require Import String ZArith List Lia.
From Verif Require Import Base Cp949Model GoLang.
Import ListNotations.
Local Open Scope Z_scope.

(** [Int32]: 32-bit machines; [Int64]: 64-bit machines. *)
Definition machine (t : ity) : Prop := t = Int32 \/ t = Int64.
(** One more than the largest int. *)
Definition int_limit (t : ity) : Z := match t with Int32 => 2 ^ 31 | _ => 2 ^ 63 end.

Section Retype.
Variable w : ity.
Definition int_as (t : ity) : ity := match t with Int => w | _ => t end.
Fixpoint expr_as (e : expr) : expr :=
  match e with
  | Lit _ | LitB _ | LitS _ | NilErr | NilSlice | NilPtr | ErrLit _ | TableLit _ | Var _ => e
  | Arith o t a b => Arith o (int_as t) (expr_as a) (expr_as b)
  | Cmp o a b => Cmp o (expr_as a) (expr_as b)
  | And a b => And (expr_as a) (expr_as b)
  | Or a b => Or (expr_as a) (expr_as b)
  | Not a => Not (expr_as a)
  | Concat a b => Concat (expr_as a) (expr_as b)
  | Conv t a => Conv (int_as t) (expr_as a)
  | Runes a => Runes (expr_as a)
  | Str a => Str (expr_as a)
  | Len a => Len (expr_as a)
  | Cap a => Cap (expr_as a)
  | Index a i => Index (expr_as a) (expr_as i)
  | Slice a lo hi => Slice (expr_as a) (expr_as lo) (expr_as hi)
  | SliceFrom a lo => SliceFrom (expr_as a) (expr_as lo)
  | Append a es => Append (expr_as a) (map expr_as es)
  | AppendS a b => AppendS (expr_as a) (expr_as b)
  | CopyE a b => CopyE (expr_as a) (expr_as b)
  | Make n m => Make (expr_as n) (expr_as m)
  | MapGet m k => MapGet m (expr_as k)
  | MapGet2 m k => MapGet2 m (expr_as k)
  | MapSlice2 m k => MapSlice2 m (expr_as k)
  | Field a f => Field (expr_as a) f
  | New T fs => New T (map (fun x => match x with (f, e) => (f, expr_as e) end) fs)
  | Call f args => Call f (map expr_as args)
  | Method a m args => Method (expr_as a) m (map expr_as args)
  | DecodeRuneE a => DecodeRuneE (expr_as a)
  | EncodeRuneE a r => EncodeRuneE (expr_as a) (expr_as r)
  | SearchE n i body => SearchE (expr_as n) i (stmt_as body)
  end
with lhs_as (l : lhs) : lhs :=
  match l with
  | LBlank | LVar _ => l
  | LField a f => LField (expr_as a) f
  | LIndex a i => LIndex (expr_as a) (expr_as i)
  end
with stmt_as (c : stmt) : stmt :=
  match c with
  | Define xs e => Define xs (expr_as e)
  | Assign ls e => Assign (map lhs_as ls) (expr_as e)
  | ExprS e => ExprS (expr_as e)
  | Block cs => Block (map stmt_as cs)
  | If e th el => If (expr_as e) (stmt_as th) (stmt_as el)
  | While e body => While (expr_as e) (stmt_as body)
  | Range i x e body => Range i x (expr_as e) (stmt_as body)
  | Return es => Return (map expr_as es)
  | Continue => Continue
  | Break => Break
  end.
Definition func_as (f : func) : func :=
  mkFunc (f_params f) (map (fun x => (fst x, expr_as (snd x))) (f_results f)) (stmt_as (f_body f)).
(** The program with [w] as the type int. *)
Definition compiled (p : list (string * func)) : list (string * func) :=
  map (fun x => (fst x, func_as (snd x))) p.
End Retype.

(** The numbers from 0 to [b] are ints. *)
Definition wide (w : ity) (b : Z) : Prop := forall x, 0 <= x <= b -> wrap w x = x.
Lemma wide_Int b : wide Int b.
Proof. intros x _. reflexivity. Qed.
Lemma wide_machine w b : machine w -> b < int_limit w -> wide w b.
Proof.
  intros [->| ->] Hb x Hx; cbn [wrap int_limit] in *.
  - unfold wrap32. rewrite Z.mod_small; lia.
  - unfold wrap64. rewrite Z.mod_small; lia.
Qed.
Lemma wide_le w b c : wide w b -> c <= b -> wide w c.
Proof. intros H Hc x Hx. apply H. lia. Qed.
Lemma get_compiled w f p : get f (compiled w p) = option_map (func_as w) (get f p).
Proof.
  induction p as [|[g b] p IH]; [reflexivity|]. cbn. destruct (String.eqb g f); [reflexivity|exact IH].
Qed.

(** A wrapped reader in state [x] that reports [d] bytes in total at most, however it is
    called and until it reports an error or nothing. *)
Definition supplies {E} (rd : E -> Z -> Z * list Z * option error * E) (x : E) (d : Z) : Prop :=
  exists P : E -> Z -> Prop, P x d /\
    forall x d k, P x d -> 0 <= k ->
      let '(n, _, err, x') := rd x k in n <= d /\ (err = None -> n <> 0 -> P x' (d - n)).
(** The strings among the arguments are shorter than [b]. *)
Definition strings_below (b : Z) (args : list val) : Prop :=
  Forall (fun v => match v with VStr x => zlen x < b | _ => True end) args.
