(** Go base: machine integers, maps, slices, control outcomes.

    Nothing in this file models a line of /repo directly; it fixes the meaning given to
    the Go constructs that the other model files use. *)
From Coq Require Import ZArith List Bool.
Import ListNotations.
Local Open Scope Z_scope.

(** ** Outcomes
    A Go statement sequence either completes ([Ok]), panics at run time ([Panic]: index or
    slice bound out of range), or has not finished within the fuel given to a loop
    ([Fuel]).  Theorems state which of the three happens; [Fuel] is never a normal-looking
    value. *)
Inductive res (A : Type) : Type :=
| Ok (a : A)
| Panic
| Fuel.
Arguments Ok {A} _.
Arguments Panic {A}.
Arguments Fuel {A}.

Definition bind {A B} (m : res A) (f : A -> res B) : res B :=
  match m with Ok a => f a | Panic => Panic | Fuel => Fuel end.

Declare Scope go_scope.
Notation "'let!' x ':=' m 'in' k" := (bind m (fun x => k))
  (at level 200, x pattern, m at level 100, k at level 200, right associativity) : go_scope.

(** ** Integers
    Go [int] values are unbounded [Z] here (lengths and capacities never approach 2^63);
    [rune] is int32 and [uint16]/[byte] conversions wrap explicitly. *)
Definition wrap32 (x : Z) : Z := (x + 0x80000000) mod 0x100000000 - 0x80000000.
Definition to_u16 (x : Z) : Z := x mod 0x10000.
Definition to_u8 (x : Z) : Z := x mod 0x100.
Definition to_u32 (x : Z) : Z := x mod 0x100000000.

(** The values of the Go types byte and rune (int32). *)
Definition is_byte (b : Z) : Prop := 0 <= b < 256.
Definition is_int32 (r : Z) : Prop := -0x80000000 <= r < 0x80000000.

(** Go's / and % truncate towards zero. *)
Definition go_div (a b : Z) : Z := Z.quot a b.
Definition go_mod (a b : Z) : Z := Z.rem a b.

(** ** Maps
    A Go map literal is the list of its entries; [v, ok := m[k]] is [map_get].  Keys of a
    Go map literal with constant keys are distinct (the compiler rejects duplicates), so
    the search order does not matter; distinctness is also proved for every table. *)
Fixpoint map_get {V} (m : list (Z * V)) (k : Z) : option V :=
  match m with
  | [] => None
  | (k', v) :: m' => if k' =? k then Some v else map_get m' k
  end.

(** ** Lists indexed by Go ints *)
Definition zlen {A} (l : list A) : Z := Z.of_nat (length l).
(** [l[i]]: [None] is an index-out-of-range panic. *)
Definition zget {A} (l : list A) (i : Z) : option A :=
  if i <? 0 then None else nth_error l (Z.to_nat i).
Definition ztake {A} (n : Z) (l : list A) : list A := firstn (Z.to_nat n) l.
Definition zdrop {A} (n : Z) (l : list A) : list A := skipn (Z.to_nat n) l.
Definition zeros (n : Z) : list Z := repeat 0 (Z.to_nat n).
(** Overwrite [bs] into [l] starting at [i] (as [copy(l[i:], bs)] when it fits). *)
Definition zwrite (l : list Z) (i : Z) (bs : list Z) : list Z :=
  ztake i l ++ bs ++ zdrop (i + zlen bs) l.

Definition get_or_panic {A} (o : option A) : res A :=
  match o with Some a => Ok a | None => Panic end.

(** ** Byte slices
    [arr] is the backing array from the slice's first element up to its capacity. *)
Record slice : Type := mkSlice { arr : list Z; slen : Z }.
Definition scap (s : slice) : Z := zlen (arr s).
Definition contents (s : slice) : list Z := ztake (slen s) (arr s).
Definition nil_slice : slice := mkSlice [] 0.
(** A slice value the Go runtime can hold. *)
Definition slice_ok (s : slice) : Prop := 0 <= slen s <= scap s.
(** [s[0:n]]: panics unless 0 <= n <= cap(s). *)
Definition reslice (s : slice) (n : Z) : res slice :=
  if (0 <=? n) && (n <=? scap s) then Ok (mkSlice (arr s) n) else Panic.
(** Go's built-in append.  When the result does not fit, the runtime picks a new capacity:
    [grow oldcap needed] is that unspecified choice (never below [needed]). *)
Definition go_append (grow : Z -> Z -> Z) (s : slice) (bs : list Z) : slice :=
  let need := slen s + zlen bs in
  if need <=? scap s then mkSlice (zwrite (arr s) (slen s) bs) need
  else
    let m := Z.max need (grow (scap s) need) in
    mkSlice (contents s ++ bs ++ zeros (m - need)) need.

(** One entry of the cp949 lookup tables: cp949.go:12-14. *)
Record lookupItem : Type := It { cp949 : Z; ucs2 : Z }.
