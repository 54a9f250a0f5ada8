(** Notions for the statements about how many steps the executed sources take. *)
From Coq Require Import String ZArith List.
From Verif Require Import Base Cp949Model GoLang GoTime SourceSpec.
Import ListNotations.
Local Open Scope list_scope.
Local Open Scope Z_scope.

Section Time.
Variable grow : Z -> Z -> Z.
Variable E : Type.
Variable rd : nat -> E -> Z -> Z * list Z * option error * E.
Variable wr : nat -> E -> list Z -> Z * option error * E.
Variable prog : list (string * func).
Notation state := (state E).

(** The call [f(args)] returns, after [t] steps at most. *)
Definition answers (f : string) (args : list val) (s : state) (t : Z) : Prop :=
  (exists r s', calls grow E rd wr prog f args s r s') /\ takes grow E rd wr prog f args s t.

(** The Writes that a client of the Writer [p] makes (see [writes] in SourceSpec.v) take [t]
    steps together at most. *)
Inductive writes_take (p : nat) : list nat -> state -> list event -> Z -> Prop :=
| writes_take_end own s : writes_take p own s [] 0
| writes_take_store own s h l a evs t : nth_error own h = Some l ->
    writes_take p own (set_arr E s l a) evs t -> writes_take p own s (Store h a :: evs) t
| writes_take_alloc own s a evs t :
    writes_take p (own ++ [fst (new_arr E s a)]) (snd (new_arr E s a)) evs t -> writes_take p own s (Alloc a :: evs) t
| writes_take_call own s h l o n c v s1 t1 evs t2 : nth_error own h = Some l ->
    calls grow E rd wr prog "cp949Writer.Write" [VPtr p; VSlice l o n c] s v s1 ->
    takes grow E rd wr prog "cp949Writer.Write" [VPtr p; VSlice l o n c] s t1 ->
    writes_take p own s1 evs t2 -> writes_take p own s (Use h o n c :: evs) (t1 + t2).

(** The same for a client of the Reader [p] (see [reads] in SourceSpec.v). *)
Inductive reads_take (p : nat) : list nat -> state -> list event -> Z -> Prop :=
| reads_take_end own s : reads_take p own s [] 0
| reads_take_store own s h l a evs t : nth_error own h = Some l ->
    reads_take p own (set_arr E s l a) evs t -> reads_take p own s (Store h a :: evs) t
| reads_take_alloc own s a evs t :
    reads_take p (own ++ [fst (new_arr E s a)]) (snd (new_arr E s a)) evs t -> reads_take p own s (Alloc a :: evs) t
| reads_take_call own s h l o n c v s1 t1 evs t2 : nth_error own h = Some l ->
    calls grow E rd wr prog "cp949Reader.Read" [VPtr p; VSlice l o n c] s v s1 ->
    takes grow E rd wr prog "cp949Reader.Read" [VPtr p; VSlice l o n c] s t1 ->
    reads_take p own s1 evs t2 -> reads_take p own s (Use h o n c :: evs) (t1 + t2).
End Time.

(** The bytes passed to all calls together. *)
Definition all_bytes (evs : list event) : Z := fold_right Z.add 0 (sizes evs).
