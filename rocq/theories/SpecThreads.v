(** Vocabulary for calls made at the same time by several goroutines. *)
From Coq Require Import String ZArith List Bool.
From Verif Require Import Base Cp949Model GoLang GoSource GoThreads SourceSpec.
Import ListNotations.
Local Open Scope Z_scope.
Local Open Scope list_scope.
Local Open Scope go_scope.

Inductive package : Type := Hangul | Hanja | Cp949.
Definition source (p : package) : list (string * func) :=
  match p with Hangul => prog_hangul | Hanja => prog_hanja | Cp949 => prog_cp949 end.

(** The exported functions and methods.  For each parameter: may the slice passed be in use by
    others at the same time ([false]), or does it have to be the caller's own ([true])?  For
    parameters that are no slices there is nothing to require.  Last, the same for the result. *)
Definition exported (p : package) : list (string * (list bool * bool)) :=
  match p with
  | Hangul =>
    [("IsLead", ([true], true)); ("IsMedial", ([true], true)); ("IsTail", ([true], true));
     ("IsJaeum", ([true], true)); ("IsMoeum", ([true], true)); ("SplitMultiElement", ([true], false));
     ("CompatJamo", ([true], true)); ("Lead", ([true], true)); ("Medial", ([true], true));
     ("Tail", ([true], true)); ("IsHangul", ([true], true)); ("Join", ([true; true; true], true));
     ("Split", ([true], true)); ("SplitCompat", ([true], true)); ("EndsWithConsonant", ([true], true));
     ("LastConsonant", ([true], true)); ("AppendPostposition", ([true; true; true], true));
     ("Stroke", ([true], true))]
  | Hanja => [("Convert", ([true], true)); ("IsHanja", ([true], true))]
  | Cp949 =>
    [("From", ([false], true)); ("To", ([false], true));
     ("NewReader", ([true], true)); ("cp949Reader.Read", ([true; true], true));
     ("NewWriter", ([true], true)); ("cp949Writer.Write", ([true; false], true));
     ("NewCP949Encoding", ([], true)); ("CP949Encoding.NewDecoder", ([true], true)); ("CP949Encoding.NewEncoder", ([true], true));
     ("cp949Decoder.Transform", ([true; true; false; true], true)); ("cp949Encoder.Transform", ([true; true; false; true], true));
     ("cp949Decoder.Reset", ([true], true)); ("cp949Encoder.Reset", ([true], true))]
  end%string.

(** ** What a goroutine does: a sequence of operations *)

(** An argument: a value known beforehand, or a result of an earlier operation. *)
Inductive arg : Type := Const (v : val) | Prev (k j : nat).
Inductive op : Type :=
| CallOp (p : package) (f : string) (args : list arg)
| PutOp (a : arg) (bs : list Z)       (* copy(a, bs) *)
| PeekOp (a : arg)                    (* string(a), with the elements as they are *)
| CutOp (a : arg) (lo hi : Z).        (* a[lo:hi] *)

Definition component (v : val) (j : nat) : option val :=
  match v with VTuple vs => nth_error vs j | _ => match j with O => Some v | S _ => None end end.
Definition arg_val (rs : list val) (a : arg) : res val :=
  match a with
  | Const v => Ok v
  | Prev k j => let! v := the (nth_error rs k) in the (component v j)
  end.
Fixpoint arg_vals (rs : list val) (l : list arg) : res (list val) :=
  match l with
  | [] => Ok []
  | a :: l => let! v := arg_val rs a in let! vs := arg_vals rs l in Ok (v :: vs)
  end.

Section Exec.
Variable grow : Z -> Z -> Z.

(** Alone, one operation after the other; [rs] are the results so far. *)
Section Alone.
Variable E : Type.
Variable rd : nat -> E -> Z -> Z * list Z * option error * E.
Variable wr : nat -> E -> list Z -> Z * option error * E.
Notation state := (state E).
Definition op_alone (n : nat) (rs : list val) (o : op) (s : state) : res (val * state) :=
  match o with
  | CallOp p f l => let! vs := arg_vals rs l in run grow E rd wr (source p) n f vs s
  | PutOp a bs =>
    let! v := arg_val rs a in
    match v with VSlice l o n _ => Ok (VNil, store E s l o (ztake n bs)) | _ => stuck end
  | PeekOp a =>
    let! v := arg_val rs a in
    match v with VSlice l o n _ => Ok (VStr (cells E s l o n), s) | _ => stuck end
  | CutOp a lo hi => let! v := arg_val rs a in let! v := slice_of v lo (Some hi) in Ok (v, s)
  end.
Fixpoint alone (n : nat) (ops : list op) (rs : list val) (s : state) : res (val * state) :=
  match ops with
  | [] => Ok (VTuple rs, s)
  | o :: ops => let! (v, s) := op_alone n rs o s in alone n ops (rs ++ [v]) s
  end.
End Alone.

(** The same as a process. *)
Local Open Scope proc_scope.
Definition op_proc (n : nat) (rs : list val) (o : op) : proc val :=
  match o with
  | CallOp p f l => let* vs := pure (arg_vals rs l) in runT grow (source p) n f vs
  | PutOp a bs =>
    let* v := pure (arg_val rs a) in
    match v with VSlice l o n _ => Save l o (ztake n bs) (ret VNil) | _ => stuckT end
  | PeekOp a =>
    let* v := pure (arg_val rs a) in
    match v with VSlice l o n _ => Load l o n (fun bs => ret (VStr bs)) | _ => stuckT end
  | CutOp a lo hi => let* v := pure (arg_val rs a) in pure (slice_of v lo (Some hi))
  end.
Fixpoint goroutine (n : nat) (ops : list op) (rs : list val) : proc val :=
  match ops with
  | [] => ret (VTuple rs)
  | o :: ops => let* v := op_proc n rs o in goroutine n ops (rs ++ [v])
  end.
End Exec.

(** ** Whose memory is it? *)

(** A goroutine, the arrays it may write and the structs it may use. *)
Record thread (E : Type) : Type := mkThread {
  t_ops : list op;
  t_arrs : list nat;
  t_objs : list nat;
  t_ext : E   (* the streams underlying its Readers and Writers *)
}.
Arguments mkThread {E}. Arguments t_ops {E}. Arguments t_arrs {E}. Arguments t_objs {E}. Arguments t_ext {E}.

Section Owned.
Context {E : Type}.
Variable A : list (list Z).
Variable O : list (string * list (string * val)).
Variable ts : list (thread E).

(** An array that nobody writes. *)
Definition read_only (l : nat) : Prop := (l < length A)%nat /\ ~ In l (flat_map t_arrs ts).

(** A struct without fields, for example one of type CP949Encoding, cp949Decoder or
    cp949Encoder (encoding.go:8, 25, 41): there is nothing in it to write. *)
Definition fieldless (l : nat) : Prop := exists T, nth_error O l = Some (T, []).

(** A value the goroutine [t] may use: its own slices, if [own] is [false] also slices that
    nobody writes, and in any case slices of capacity 0; its own structs and structs without
    fields. *)
Fixpoint usable (t : thread E) (own : bool) (v : val) : Prop :=
  match v with
  | VSlice l o n c => In l (t_arrs t) \/ (read_only l /\ (own = false \/ (n = 0 /\ c = 0)))
  | VPtr l => In l (t_objs t) \/ fieldless l
  | VTuple vs => (fix all (vs : list val) : Prop := match vs with [] => True | v :: vs => usable t own v /\ all vs end) vs
  | _ => True
  end.
Definition usable_arg (t : thread E) (tys : list bool) (own : bool) (a : arg) : Prop :=
  match a with
  | Const v => usable t own v
  | Prev k _ => exists b, nth_error tys k = Some b /\ (own = true -> b = true)
  end.
(** [tys]: which of the results so far may be written through *)
Definition op_allowed (t : thread E) (tys : list bool) (o : op) (b : bool) : Prop :=
  match o with
  | CallOp p f l => exists ps, get f (exported p) = Some (ps, b) /\ Forall2 (usable_arg t tys) ps l
  | PutOp a bs => usable_arg t tys true a /\ b = true
  | PeekOp a => usable_arg t tys false a /\ b = true
  | CutOp a _ _ => usable_arg t tys b a
  end.
Inductive ops_allowed (t : thread E) : list bool -> list op -> Prop :=
| ops_nil tys : ops_allowed t tys []
| ops_cons tys o b ops : op_allowed t tys o b -> ops_allowed t (tys ++ [b]) ops -> ops_allowed t tys (o :: ops).

(** No two goroutines share an array that one of them writes, or a struct with fields. *)
Definition separate : Prop :=
  hangul_memory A /\
  NoDup (flat_map t_arrs ts) /\ NoDup (flat_map t_objs ts) /\
  forall t, In t ts ->
    (forall l, In l (t_arrs t) -> (length m_multiElements < l < length A)%nat) /\
    (forall l, In l (t_objs t) -> exists T fs, nth_error O l = Some (T, fs) /\ Forall (fun x => usable t true (snd x)) fs) /\
    ops_allowed t [] (t_ops t).
End Owned.

(** ** Outcomes that cannot be told apart, since addresses cannot be observed *)
Fixpoint corresponds (ca co : list (nat * nat)) (v v' : val) : Prop :=
  match v, v' with
  | VSlice l o n c, VSlice l' o' n' c' => In (l, l') ca /\ o = o' /\ n = n' /\ c = c'
  | VPtr l, VPtr l' => In (l, l') co
  | VTuple vs, VTuple vs' =>
    (fix all (vs vs' : list val) : Prop :=
       match vs, vs' with
       | [], [] => True
       | v :: vs, v' :: vs' => corresponds ca co v v' /\ all vs vs'
       | _, _ => False
       end) vs vs'
  | VInt _, _ | VBool _, _ | VStr _, _ | VErr _, _ | VNil, _ | VExt _, _ | VTable _, _ | VItem _, _ => v = v'
  | _, _ => False
  end.
Definition one_to_one (c : list (nat * nat)) : Prop :=
  forall x y x' y', In (x, y) c -> In (x', y') c -> (x = x' <-> y = y').
Definition same_fields (ca co : list (nat * nat)) (fs fs' : list (string * val)) : Prop :=
  Forall2 (fun x x' => fst x = fst x' /\ corresponds ca co (snd x) (snd x')) fs fs'.
(** Arrays and structs in [keepA] and [keepO] are compared with the ones at the same place. *)
Definition looks_same (keepA keepO : nat -> Prop)
    (A : list (list Z)) (O : list (string * list (string * val))) (v : val)
    (A' : list (list Z)) (O' : list (string * list (string * val))) (v' : val) : Prop :=
  exists ca co,
    one_to_one ca /\ one_to_one co /\
    (forall l, keepA l -> In (l, l) ca) /\ (forall l, keepO l -> In (l, l) co) /\
    (forall l l', In (l, l') ca -> (l < length A)%nat /\ (l' < length A')%nat /\ array A l = array A' l') /\
    (forall l l', In (l, l') co -> exists T fs fs', nth_error O l = Some (T, fs) /\ nth_error O' l' = Some (T, fs') /\ same_fields ca co fs fs') /\
    corresponds ca co v v'.

(** ** Data races: two processes are about to access the same place, one of them writing *)
Inductive place : Type := PArr (l : nat) | PObj (l : nat).
Inductive about_to {A} : proc A -> place -> bool -> Prop :=
| at_load l o n k : 0 < n -> about_to (Load l o n k) (PArr l) false
| at_save l o bs k : bs <> [] -> about_to (Save l o bs k) (PArr l) true
| at_get l k : about_to (GetObj l k) (PObj l) false
| at_set l f v k : about_to (SetField l f v k) (PObj l) true.
Definition race {E} (c : pool E) : Prop :=
  exists i j p q x y a b pl, i <> j /\ nth_error (p_procs E c) i = Some (p, x) /\ nth_error (p_procs E c) j = Some (q, y) /\
    about_to p pl a /\ about_to q pl b /\ a || b = true.
Definition finished {E} (c : pool E) : Prop := forall p x, In (p, x) (p_procs E c) -> is_done p = true.

(** The goroutines at the start. *)
Definition start {E} (grow : Z -> Z -> Z) (n : nat) A O (ts : list (thread E)) : pool E :=
  mkPool E A O (map (fun t => (goroutine grow n (t_ops t) [], t_ext t)) ts).

(** A goroutine that only calls functions, with arguments known beforehand. *)
Definition calling {E} (x : E) (cs : list (package * (string * list val))) : thread E :=
  mkThread (map (fun c => CallOp (fst c) (fst (snd c)) (map Const (snd (snd c)))) cs) [] [] x.
(** A call of package hangul or hanja (SourceSpec.v). *)
Inductive pure_call : package * (string * list val) -> Prop :=
| pure_hangul c : hangul_call c -> pure_call (Hangul, c)
| pure_hanja c : hanja_call c -> pure_call (Hanja, c).

(** ** Scenarios in which goroutines share what they must not share *)
Definition dbl (old need : Z) : Z := Z.max need (2 * old).
(** A stream given by the bytes still to come. *)
Definition str_rd (_ : nat) (x : list Z) (n : Z) : Z * list Z * option error * list Z :=
  match x with [] => (0, [], Some EOF, []) | _ => (zlen (ztake n x), ztake n x, None, zdrop n x) end.
Definition str_wr (_ : nat) (x : list Z) (bs : list Z) : Z * option error * list Z := (zlen bs, None, x).
(** No streams. *)
Definition no_rd (_ : nat) (_ : unit) (_ : Z) : Z * list Z * option error * unit := (0, [], Some EOF, tt).
Definition no_wr (_ : nat) (_ : unit) (bs : list Z) : Z * option error * unit := (zlen bs, None, tt).
(** Buffers: number 0 of [m] bytes, numbers 1 and 2 of one byte. *)
Definition buffer (i : nat) : nat := (S (length m_multiElements) + i)%nat.
Definition reader_memory (m : Z) : list (list Z) := ([] :: map snd m_multiElements) ++ [zeros m; [0]; [0]].
(** r, _ := NewReader(stream); r.Read(buffer 0) *)
Definition open_and_read (m : Z) : list op :=
  [CallOp Cp949 "NewReader" [Const (VExt 0)]; CallOp Cp949 "cp949Reader.Read" [Prev 0 0; Const (VSlice (buffer 0) 0 m m)]].
(** r.Read(buffer i), where r is at [p] *)
Definition read_into (p i : nat) : op := CallOp Cp949 "cp949Reader.Read" [Const (VPtr p); Const (VSlice (buffer i) 0 1 1)].
Definition two_readers {E} (p : nat) (x : E) : list (thread E) :=
  [mkThread [read_into p 1] [] [] x; mkThread [read_into p 2] [] [] x].
(** es, _ := SplitMultiElement('ㄲ'); es[0] = 'ㅁ' *)
Definition split_and_write : list op := [CallOp Hangul "SplitMultiElement" [Const (VInt 0x3132)]; PutOp (Prev 0 0) [0x3141]].
Definition count_strokes : list op := [CallOp Hangul "Stroke" [Const (VInt 0x3132)]].
Definition split_beside_stroke {E} (x : E) : list (thread E) := [mkThread split_and_write [] [] x; mkThread count_strokes [] [] x].
