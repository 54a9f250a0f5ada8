(** Vocabulary for goroutines whose Readers and Writers are on top of the same readers and
    writers, which may be called by several goroutines at a time (each call takes effect at
    one moment, as with a file or a locked buffer). *)
From Coq Require Import String ZArith List Bool.
From Verif Require Import Base Spec SpecIO Cp949Model GoLang GoSource GoThreads SourceSpec SpecThreads SpecCells SpecAgents.
Import ListNotations.
Local Open Scope Z_scope.
Local Open Scope list_scope.

(** A call of a shared reader or writer: its number, and the size of the buffer or the data. *)
Inductive ask : Type := AskRead (i : nat) (n : Z) | AskWrite (i : nat) (bs : list Z).
(** A call in the course of an execution: who makes it, and in what state the readers and
    writers are. *)
Record entry (E : Type) : Type := mkEntry { n_who : nat; n_at : E; n_ask : ask }.
Arguments mkEntry {E}. Arguments n_who {E}. Arguments n_at {E}. Arguments n_ask {E}.
(** The calls made by goroutine [i]. *)
Definition calls_of {E} (i : nat) (log : list (entry E)) : list (entry E) := filter (fun e => Nat.eqb (n_who e) i) log.

Section Shared.
Variable E : Type.
Variable rd : nat -> E -> Z -> Z * list Z * option error * E.
Variable wr : nat -> E -> list Z -> Z * option error * E.

(** Goroutines that share everything: memory, readers and writers. *)
Record crew : Type := mkCrew {
  c_arrs : list (list Z);
  c_objs : list (string * list (string * val));
  c_ext : E;
  c_procs : list (proc val)
}.
Definition asks {A} (q : proc A) : list ask :=
  match q with ExtRead i n _ => [AskRead i n] | ExtWrite i bs _ => [AskWrite i bs] | _ => [] end.
(** One goroutine makes its next access to the memory or its next call of a reader or writer. *)
Inductive crew_step : crew -> list (entry E) -> crew -> Prop :=
| crew_step_intro A O x qs i q q' s' :
    nth_error qs i = Some q -> is_done q = false -> one E rd wr q (mkState E A O x) = Ok (q', s') ->
    crew_step (mkCrew A O x qs) (map (mkEntry i x) (asks q)) (mkCrew (arrs E s') (objs E s') (ext E s') (set_nth i q' qs)).
(** An execution of so many steps, with the calls made in it. *)
Inductive crew_steps : nat -> crew -> list (entry E) -> crew -> Prop :=
| crew_steps_0 c : crew_steps 0 c [] c
| crew_steps_S m c l c1 l1 c2 : crew_step c l c1 -> crew_steps m c1 l1 c2 -> crew_steps (S m) c (l ++ l1) c2.
Definition crew_finished (c : crew) : Prop := forall q, In q (c_procs c) -> is_done q = true.
Definition crew_race (c : crew) : Prop :=
  exists i j p q a b sp, i <> j /\ nth_error (c_procs c) i = Some p /\ nth_error (c_procs c) j = Some q /\
    touches p sp a /\ touches q sp b /\ a || b = true.

(** The calls, made one after the other from state [x] on, lead to the state [x']. *)
Definition after (x : E) (a : ask) : E :=
  match a with
  | AskRead i n => let '(_, _, _, x') := rd i x n in x'
  | AskWrite i bs => let '(_, _, x') := wr i x bs in x'
  end.
Fixpoint conversation (x : E) (log : list (entry E)) (x' : E) : Prop :=
  match log with
  | [] => x = x'
  | e :: log => n_at e = x /\ conversation (after x (n_ask e)) log x'
  end.

(** ** A goroutine by itself, with others using the readers and writers in between

    Its first call finds them in the first of the states given beforehand, its second call in
    the second one, and so on; [x0] is the state if there are not enough.  What is recorded is
    the calls it makes. *)
Variable x0 : E.
Definition found_rd (i : nat) (y : list E * list ask) (n : Z) : Z * list Z * option error * (list E * list ask) :=
  let '(k, bs, e, _) := rd i (nth (length (snd y)) (fst y) x0) n in (k, bs, e, (fst y, snd y ++ [AskRead i n])).
Definition found_wr (i : nat) (y : list E * list ask) (bs : list Z) : Z * option error * (list E * list ask) :=
  let '(k, e, _) := wr i (nth (length (snd y)) (fst y) x0) bs in (k, e, (fst y, snd y ++ [AskWrite i bs])).
Definition with_others (grow : Z -> Z -> Z) (n : nat) (A : list (list Z)) (O : list (string * list (string * val))) (c : code) (states : list E)
  : res (val * state (list E * list ask)) :=
  code_alone grow (list E * list ask) found_rd found_wr n c [] (mkState _ A O (states, [])).
End Shared.
Arguments mkCrew {E}. Arguments c_arrs {E}. Arguments c_objs {E}. Arguments c_ext {E}. Arguments c_procs {E}.
Arguments crew_finished {E}. Arguments crew_race {E}.

(** The goroutines at the start. *)
Definition start_crew {E} (grow : Z -> Z -> Z) (n : nat) A O (x : E) (cs : list (worker unit * code)) : crew E :=
  mkCrew A O x (map (fun t => code_proc grow n (snd t) []) cs).

(** ** Writers on top of shared writers *)

(** w, _ := NewWriter(writer k); w.Write(v) for each slice [v] *)
Fixpoint write_all (vs : list val) : code :=
  match vs with
  | [] => Stop
  | v :: vs => Act (CallOp Cp949 "cp949Writer.Write" [Prev 0 0; Const v]) (fun _ => write_all vs)
  end.
Definition writing (k : nat) (vs : list val) : code :=
  Act (CallOp Cp949 "NewWriter" [Const (VExt k)]) (fun _ => write_all vs).
(** What the Writes should return for [pairs] of a text and what it is encoded as, if the calls
    of the underlying writer are made in these states; and these calls. *)
Fixpoint write_results {E} (wr : nat -> E -> list Z -> Z * option error * E) (k : nat) (pairs : list (list Z * list Z)) (es : list (entry E))
  : list (Z * option error) :=
  match pairs with
  | [] => []
  | (data, bs) :: pairs =>
    if zlen data =? 0 then (0, None) :: write_results wr k pairs es
    else match es with
    | [] => []
    | e :: es =>
      let '(_, err, _) := wr k (n_at e) bs in
      (match err with None => zlen data | Some _ => 0 end, err) :: write_results wr k pairs es
    end
  end.
Definition write_calls (k : nat) (pairs : list (list Z * list Z)) : list ask :=
  flat_map (fun q => if zlen (fst q) =? 0 then [] else [AskWrite k (snd q)]) pairs.
