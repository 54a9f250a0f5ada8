(** Vocabulary for goroutines that decide what to do next by what they have seen so far. *)
From Coq Require Import String ZArith List Bool.
From Verif Require Import Base Spec Cp949Model GoLang GoSource GoThreads SourceSpec SpecThreads SpecCells.
Import ListNotations.
Local Open Scope Z_scope.
Local Open Scope list_scope.
Local Open Scope go_scope.

(** What a goroutine sees of a value: everything but where in memory it is.  (Of a slice: the
    length and the capacity; its elements are seen with [PeekOp].) *)
Fixpoint seen (v : val) : val :=
  match v with
  | VSlice _ _ n c => VSlice 0 0 n c
  | VPtr _ => VPtr 0
  | VTuple vs => VTuple (map seen vs)
  | _ => v
  end.

(** The code of a goroutine: the next operation, and how to go on after seeing its result.  The
    tree may branch over all values; every path in it is finite. *)
Inductive code : Type :=
| Stop
| Act (o : op) (k : val -> code).

Section Agents.
Variable grow : Z -> Z -> Z.

(** The code run by itself; [rs]: the results so far. *)
Section Alone.
Variable E : Type.
Variable rd : nat -> E -> Z -> Z * list Z * option error * E.
Variable wr : nat -> E -> list Z -> Z * option error * E.
Fixpoint code_alone (n : nat) (c : code) (rs : list val) (s : state E) : res (val * state E) :=
  match c with
  | Stop => Ok (VTuple rs, s)
  | Act o k => let! (v, s) := op_alone grow E rd wr n rs o s in code_alone n (k (seen v)) (rs ++ [v]) s
  end.
End Alone.

(** The same as a process. *)
Local Open Scope proc_scope.
Fixpoint code_proc (n : nat) (c : code) (rs : list val) : proc val :=
  match c with
  | Stop => ret (VTuple rs)
  | Act o k => let* v := op_proc grow n rs o in code_proc n (k (seen v)) (rs ++ [v])
  end.

(** Whatever it sees, the code only uses what it may use.  (What [t] may use is what counts of
    [t]; its list of operations is not used here.) *)
Inductive code_usable {E} (A : list (list Z)) (O : list (string * list (string * val))) (ts : list (worker E)) (t : worker E) : list use -> code -> Prop :=
| cu_stop us : code_usable A O ts t us Stop
| cu_act us o u k : op_usable A O ts t us o u -> (forall w, code_usable A O ts t (us ++ [u]) (k w)) -> code_usable A O ts t us (Act o k).

(** The goroutines at the start: each with what it may use, and its code. *)
Definition start_agents {E} (n : nat) A O (ts : list (worker E * code)) : pool E :=
  mkPool E A O (map (fun t => (code_proc n (snd t) [], k_ext (fst t))) ts).
End Agents.
