(** Vocabulary for goroutines that share one Reader or Writer and take turns with a lock.

    Every goroutine does its events (SourceSpec.v) in order.  To overwrite an array of its own
    it needs nothing.  To call Read or Write it locks a sync.Mutex, makes the call, which
    accesses memory step by step (GoThreads.v), unlocks the mutex, and then looks at the
    result.  Between any two of these steps the other goroutines may do steps of theirs. *)
From Coq Require Import String ZArith List Bool.
From Verif Require Import Base Cp949Model GoLang GoThreads SourceSpec SpecThreads.
Import ListNotations.
Local Open Scope list_scope.

(** What a goroutine is doing: nothing; or it holds the lock, and [q] remains to be done of the
    call with a slice that starts at cell [o] of array [l]; or it has released the lock, the
    call has returned [v], and it has not yet looked at the slice. *)
Inductive doing : Type :=
| Between
| Inside (l : nat) (o : Z) (q : proc val)
| Outside (l : nat) (o : Z) (v : val).

(** A goroutine: the events still to come, what it is doing, the results so far. *)
Record worker (B : Type) : Type := mkWorker { w_todo : list event; w_doing : doing; w_outs : list B }.
Arguments mkWorker {B}. Arguments w_todo {B}. Arguments w_doing {B}. Arguments w_outs {B}.

(** The goroutines, the memory they share, and whether the mutex is locked. *)
Record team (E B : Type) : Type := mkTeam { m_state : state E; m_held : bool; m_workers : list (worker B) }.
Arguments mkTeam {E B}. Arguments m_state {E B}. Arguments m_held {E B}. Arguments m_workers {E B}.

(** What the goroutine finds: from Read, the bytes at the start of the slice, as many as it
    returned, and the error; from Write the count and the error. *)
Definition look_read (a : list Z) (o : Z) (v : val) : option (list Z * option error) :=
  match v with VTuple [VInt k; VErr err] => Some (ztake k (zdrop o a), err) | _ => None end.
Definition look_write (a : list Z) (o : Z) (v : val) : option (Z * option error) :=
  match v with VTuple [VInt k; VErr err] => Some (k, err) | _ => None end.

Section Lock.
Variable grow : Z -> Z -> Z.
Context {E B : Type}.
Variable rd : nat -> E -> Z -> Z * list Z * option error * E.
Variable wr : nat -> E -> list Z -> Z * option error * E.
(* the method called: its source, name and receiver, and how to look at its result *)
Variable prog : list (string * func).
Variable f : string.
Variable p : nat.
Variable look : list Z -> Z -> val -> option B.
(* how deep calls and how long loops may be *)
Variable n : nat.

Inductive team_step : team E B -> team E B -> Prop :=
| step_store s held ws i h a evs outs :
    nth_error ws i = Some (mkWorker (Store h a :: evs) Between outs) ->
    team_step (mkTeam s held ws) (mkTeam (set_arr E s h a) held (set_nth i (mkWorker evs Between outs) ws))
| step_lock s ws i h o k c evs outs :
    nth_error ws i = Some (mkWorker (Use h o k c :: evs) Between outs) ->
    team_step (mkTeam s false ws)
      (mkTeam s true (set_nth i (mkWorker evs (Inside h o (runT grow prog n f [VPtr p; VSlice h o k c])) outs) ws))
| step_call s held ws i l o q q' s' evs outs :
    nth_error ws i = Some (mkWorker evs (Inside l o q) outs) -> is_done q = false -> one E rd wr q s = Ok (q', s') ->
    team_step (mkTeam s held ws) (mkTeam s' held (set_nth i (mkWorker evs (Inside l o q') outs) ws))
| step_unlock s held ws i l o v evs outs :
    nth_error ws i = Some (mkWorker evs (Inside l o (Done (Ok v))) outs) ->
    team_step (mkTeam s held ws) (mkTeam s false (set_nth i (mkWorker evs (Outside l o v) outs) ws))
| step_look s held ws i l o v b evs outs :
    nth_error ws i = Some (mkWorker evs (Outside l o v) outs) -> look (array (arrs E s) l) o v = Some b ->
    team_step (mkTeam s held ws) (mkTeam s held (set_nth i (mkWorker evs Between (outs ++ [b])) ws)).
Inductive team_steps : nat -> team E B -> team E B -> Prop :=
| team_steps_0 t : team_steps 0 t t
| team_steps_S m t t1 t2 : team_step t t1 -> team_steps m t1 t2 -> team_steps (S m) t t2.

Definition team_start (s : state E) (gs : list (list event)) : team E B :=
  mkTeam s false (map (fun g => mkWorker g Between []) gs).
(** All have finished. *)
Definition team_ended (t : team E B) : Prop :=
  forall w, In w (m_workers t) -> w_todo w = [] /\ w_doing w = Between.

(** The place the goroutine accesses next, and whether it writes. *)
Inductive next_access : worker B -> place -> bool -> Prop :=
| next_store h a evs outs : next_access (mkWorker (Store h a :: evs) Between outs) (PArr h) true
| next_call evs l o q outs pl b : about_to q pl b -> next_access (mkWorker evs (Inside l o q) outs) pl b
| next_look evs l o v outs : next_access (mkWorker evs (Outside l o v) outs) (PArr l) false.
(** A data race: two goroutines are about to access the same place, one of them writing. *)
Definition team_race (t : team E B) : Prop :=
  exists i j w w' pl a b, i <> j /\ nth_error (m_workers t) i = Some w /\ nth_error (m_workers t) j = Some w' /\
    next_access w pl a /\ next_access w' pl b /\ a || b = true.
End Lock.

(** ** Whose arrays are they? *)
Definition event_array (ev : event) : list nat :=
  match ev with Store h _ | Use h _ _ _ => [h] | Alloc _ => [] end.
(** The arrays a goroutine uses, and those it changes: the ones it overwrites and, if the method
    [fills] the slices passed to it, the ones it passes. *)
Definition arrays_used (evs : list event) : list nat := flat_map event_array evs.
Definition arrays_changed (fills : bool) (evs : list event) : list nat :=
  flat_map (fun ev => match ev with Use _ _ _ _ => if fills then event_array ev else [] | _ => event_array ev end) evs.
(** What one goroutine changes no other goroutine uses.  Array 0, the one of the nil slices,
    is changed by none; none allocates. *)
Definition apart (fills : bool) (gs : list (list event)) : Prop :=
  (forall i j g g' h, i <> j -> nth_error gs i = Some g -> nth_error gs j = Some g' ->
     In h (arrays_changed fills g) -> ~ In h (arrays_used g')) /\
  (forall g, In g gs -> ~ In 0%nat (arrays_changed fills g) /\ forall a, ~ In (Alloc a) g).

(** ** An order of all events: each with the number of its goroutine *)
Definition doings {A} (i : nat) (l : list (nat * A)) : list A :=
  map snd (filter (fun x => Nat.eqb (fst x) i) l).
(** The numbers of the goroutines that make the calls, in order. *)
Definition callers (order : list (nat * event)) : list nat :=
  map fst (filter (fun x => match snd x with Use _ _ _ _ => true | _ => false end) order).
(** [order] has the events of each goroutine in its order; [outs], the results in the order of
    the calls, has the results each goroutine got. *)
Definition merges {B} (gs : list (list event)) (ws : list (worker B)) (order : list (nat * event)) (outs : list (nat * B)) : Prop :=
  length ws = length gs /\ callers order = map fst outs /\
  (forall i ev, In (i, ev) order -> (i < length gs)%nat) /\
  forall i g w, nth_error gs i = Some g -> nth_error ws i = Some w -> doings i order = g /\ doings i outs = w_outs w.
