(** Notions for the statements about the executed sources (GoSource.v, GoLang.v): what it
    means that a call returns, that memory is left alone, and what a client does that keeps
    its own memory beside a Reader or Writer. *)
From Coq Require Import String ZArith List Bool.
From Verif Require Import Base Spec SpecCp949 Cp949Model SpecIO GoLang GoSource.
Import ListNotations.
Local Open Scope list_scope.
Local Open Scope Z_scope.

(** Memory is a list of arrays; a slice value [VSlice l o n c] of length [n] and capacity
    [c] starts at cell [o] of the array at position [l]. *)
Definition array (A : list (list Z)) (l : nat) : list Z := nth l A [].

(** [v] is a slice that lies inside memory [A] and holds [data]. *)
Definition slice_holds (A : list (list Z)) (v : val) (data : list Z) : Prop :=
  match v with
  | VSlice l o n c =>
    (l < length A)%nat /\ 0 <= o /\ 0 <= n <= c /\ o + c <= zlen (array A l) /\
    data = ztake n (zdrop o (array A l))
  | _ => False
  end.

(** No array of [A] is different in [A']; [A'] may have more arrays. *)
Definition kept (A A' : list (list Z)) : Prop :=
  (length A <= length A')%nat /\ forall l, (l < length A)%nat -> array A' l = array A l.

(** The slice shares no cell with the arrays of [A]. *)
Definition fresh (A : list (list Z)) (v : val) : Prop :=
  match v with VSlice l _ _ c => c = 0 \/ (length A <= l)%nat | _ => False end.

(** Of the cells of [A], none outside the slice is different in [A']. *)
Definition kept_outside (A A' : list (list Z)) (v : val) : Prop :=
  match v with
  | VSlice l o n _ =>
    (length A <= length A')%nat /\ (forall j, (j < length A)%nat -> j <> l -> array A' j = array A j) /\
    ztake o (array A' l) = ztake o (array A l) /\ zdrop (o + n) (array A' l) = zdrop (o + n) (array A l)
  | _ => False
  end.

(** Position 0 is the empty array, which nil slices refer to. *)
Definition has_nil (A : list (list Z)) : Prop := (0 < length A)%nat /\ array A 0 = [].

(** The memory of a program using package hangul: the slices of the map in lookup.go, as the
    package initialised them, are at positions 1, 2, ... *)
Definition hangul_memory (A : list (list Z)) : Prop :=
  exists rest, A = ([] :: map snd m_multiElements) ++ rest.

(** [f] gives the CP949 bytes that stand for each character: ASCII for itself, the assigned
    code, and what the package writes for characters outside the repertoire (see C32). *)
Definition char_code (f : Z -> list Z) : Prop :=
  (forall r, 0 <= r < 0x80 -> f r = [r]) /\
  (forall c r, assigned c r -> f r = code_bytes c) /\
  (forall r, is_scalar r -> ~ in_repertoire r -> r <= 0xFFE6 -> f r = [0x3F]) /\
  (forall r, is_scalar r -> ~ in_repertoire r -> 0xFFE6 < r <= 0xFFFF -> f r = [0x3F; 0x3F]) /\
  (forall r c, is_scalar r -> 0xFFFF < r -> assigned c (r mod 0x10000) -> f r = code_bytes c) /\
  (forall r, is_scalar r -> 0xFFFF < r -> (forall c, ~ assigned c (r mod 0x10000)) ->
     f r = if r mod 0x10000 <=? 0xFFE6 then [0x3F] else [0x3F; 0x3F]).

(** The calls the exported functions of packages hangul and hanja accept: runes are integers,
    strings are byte strings. *)
Inductive hangul_call : string * list val -> Prop :=
| hangul_rune f r :
    In f ["IsLead"; "IsMedial"; "IsTail"; "IsJaeum"; "IsMoeum"; "IsHangul"; "CompatJamo"; "Lead";
          "Medial"; "Tail"; "Split"; "SplitCompat"; "SplitMultiElement"; "Stroke"]%string ->
    hangul_call (f, [VInt r])
| hangul_join l m t : hangul_call ("Join"%string, [VInt l; VInt m; VInt t])
| hangul_word f w : In f ["LastConsonant"; "EndsWithConsonant"]%string -> Forall is_byte w ->
    hangul_call (f, [VStr w])
| hangul_append w p q : Forall is_byte w ->
    hangul_call ("AppendPostposition"%string, [VStr w; VStr p; VStr q]).
Inductive hanja_call : string * list val -> Prop :=
| hanja_rune r : hanja_call ("IsHanja"%string, [VInt r])
| hanja_text h : hanja_call ("Convert"%string, [VStr h]).

Section Run.
Variable grow : Z -> Z -> Z.
Variable E : Type.
Variable rd : nat -> E -> Z -> Z * list Z * option error * E.
Variable wr : nat -> E -> list Z -> Z * option error * E.
Notation state := (state E).

(** The call [f(args)] made in state [s] returns [v] and leaves the state [s']. *)
Definition calls (prog : list (string * func)) (f : string) (args : list val) (s : state)
    (v : val) (s' : state) : Prop :=
  exists N, forall n, (N <= n)%nat -> run grow E rd wr prog n f args s = Ok (v, s').

(** A sequence of calls whose results are [vs]. *)
Inductive calls_seq (prog : list (string * func)) :
    list (string * list val) -> state -> list val -> state -> Prop :=
| calls_none s : calls_seq prog [] s [] s
| calls_more f args cs s v s1 vs s2 :
    calls prog f args s v s1 -> calls_seq prog cs s1 vs s2 ->
    calls_seq prog ((f, args) :: cs) s (v :: vs) s2.

(** A client has arrays of its own, which it names by number: it overwrites one, allocates
    another, or calls Read or Write of the object [p] with the slice
    array[o : o+n : o+c] of one of them. *)
Inductive event : Type :=
| Store (h : nat) (a : list Z) | Alloc (a : list Z) | Use (h : nat) (o n c : Z).

(** The events make sense for a client whose arrays have the lengths [L]; every slice passed
    to a call has at least [min] bytes. *)
Fixpoint sensible (min : Z) (L : list Z) (evs : list event) : Prop :=
  match evs with
  | [] => True
  | Store h a :: evs => nth_error L h = Some (zlen a) /\ sensible min L evs
  | Alloc a :: evs => sensible min (L ++ [zlen a]) evs
  | Use h o n c :: evs =>
    (exists k, nth_error L h = Some k /\ 0 <= o /\ min <= n <= c /\ o + c <= k) /\ sensible min L evs
  end.

(** The lengths of the slices passed to calls. *)
Fixpoint sizes (evs : list event) : list Z :=
  match evs with
  | [] => []
  | Use _ _ n _ :: evs => n :: sizes evs
  | _ :: evs => sizes evs
  end.

(** The execution of a client of the Reader [p]: [own] says where the client's arrays are,
    the results are the bytes found at the start of the buffer after each Read, as many as
    it returned, and the error. *)
Inductive reads (prog : list (string * func)) (p : nat) : list nat -> state -> list event ->
    list (list Z * option error) -> list nat -> state -> Prop :=
| reads_end own s : reads prog p own s [] [] own s
| reads_store own s h l a evs outs own' s' : nth_error own h = Some l ->
    reads prog p own (set_arr E s l a) evs outs own' s' -> reads prog p own s (Store h a :: evs) outs own' s'
| reads_alloc own s a evs outs own' s' :
    reads prog p (own ++ [fst (new_arr E s a)]) (snd (new_arr E s a)) evs outs own' s' ->
    reads prog p own s (Alloc a :: evs) outs own' s'
| reads_call own s h l o n c k err s1 evs outs own' s' : nth_error own h = Some l ->
    calls prog "cp949Reader.Read" [VPtr p; VSlice l o n c] s (VTuple [VInt k; VErr err]) s1 ->
    reads prog p own s1 evs outs own' s' ->
    reads prog p own s (Use h o n c :: evs) ((ztake k (zdrop o (array (arrs E s1) l)), err) :: outs) own' s'.

(** What the client's arrays should contain after the events: a Read changes the first
    bytes of the buffer, as many as it delivers, and nothing else. *)
Fixpoint after_reads (C : list (list Z)) (evs : list event) (outs : list (list Z * option error))
  : list (list Z) :=
  match evs, outs with
  | [], _ => C
  | Store h a :: evs, _ => after_reads (set_nth h a C) evs outs
  | Alloc a :: evs, _ => after_reads (C ++ [a]) evs outs
  | Use h o _ _ :: evs, (bs, _) :: outs => after_reads (set_nth h (zwrite (nth h C []) o bs) C) evs outs
  | Use _ _ _ _ :: _, [] => C
  end.

(** Results of Reads with buffers of the given sizes when [text] remains to be delivered:
    non-empty pieces that fit the buffer and add up to [text], then the error [e], with no
    data, again and again. *)
Inductive served (e : error) : list Z -> list Z -> list (list Z * option error) -> Prop :=
| served_none text : served e text [] []
| served_piece bs text n ns outs : bs <> [] -> zlen bs <= n -> served e text ns outs ->
    served e (bs ++ text) (n :: ns) ((bs, None) :: outs)
| served_end n ns outs : served e [] ns outs -> served e [] (n :: ns) (([], Some e) :: outs).

(** The same for a client of the Writer [p]; the results are the count and the error. *)
Inductive writes (prog : list (string * func)) (p : nat) : list nat -> state -> list event ->
    list (Z * option error) -> list nat -> state -> Prop :=
| writes_end own s : writes prog p own s [] [] own s
| writes_store own s h l a evs outs own' s' : nth_error own h = Some l ->
    writes prog p own (set_arr E s l a) evs outs own' s' -> writes prog p own s (Store h a :: evs) outs own' s'
| writes_alloc own s a evs outs own' s' :
    writes prog p (own ++ [fst (new_arr E s a)]) (snd (new_arr E s a)) evs outs own' s' ->
    writes prog p own s (Alloc a :: evs) outs own' s'
| writes_call own s h l o n c k err s1 evs outs own' s' : nth_error own h = Some l ->
    calls prog "cp949Writer.Write" [VPtr p; VSlice l o n c] s (VTuple [VInt k; VErr err]) s1 ->
    writes prog p own s1 evs outs own' s' ->
    writes prog p own s (Use h o n c :: evs) ((k, err) :: outs) own' s'.

(** The client's arrays after its events, and the chunks it passed to Write, when Write
    leaves memory alone. *)
Fixpoint after_writes (C : list (list Z)) (evs : list event) : list (list Z) :=
  match evs with
  | [] => C
  | Store h a :: evs => after_writes (set_nth h a C) evs
  | Alloc a :: evs => after_writes (C ++ [a]) evs
  | Use _ _ _ _ :: evs => after_writes C evs
  end.
Fixpoint chunks (C : list (list Z)) (evs : list event) : list (list Z) :=
  match evs with
  | [] => []
  | Store h a :: evs => chunks (set_nth h a C) evs
  | Alloc a :: evs => chunks (C ++ [a]) evs
  | Use h o n _ :: evs => ztake n (zdrop o (nth h C [])) :: chunks C evs
  end.
End Run.

(** A wrapped reader that stores what it reports, and perhaps something after it: [rd1] gives
    the reported bytes. *)
Definition reports {E} (rd : E -> Z -> Z * list Z * option error * E) (rd1 : E -> Z -> list Z * option error * E) : Prop :=
  forall x n, let '(bs, err, x') := rd1 x n in exists junk, rd x n = (zlen bs, bs ++ junk, err, x').

(** The arrays hold bytes. *)
Definition event_bytes (ev : event) : Prop :=
  match ev with Store _ a | Alloc a => Forall is_byte a | Use _ _ _ _ => True end.

(** For the examples: a reader of the bytes [x] that also writes to the buffer after its data. *)
Definition wire_rd (x : list Z) (n : Z) : list Z * option error * list Z :=
  let '(bs, err, x') := bytes_rd x n in (map (fun b => b mod 256) bs, err, x').
Definition noisy_rd (_ : nat) (x : list Z) (n : Z) : Z * list Z * option error * list Z :=
  let '(bs, err, x') := wire_rd x n in (zlen bs, bs ++ [0xFF; 0x41; 0xFF], err, x').
(** A writer that keeps what it gets. *)
Definition keep_wr (_ : nat) (x bs : list Z) : Z * option error * list Z := (zlen bs, None, x ++ bs).
