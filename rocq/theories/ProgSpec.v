(** Client programs of package cp949 as a whole: a program keeps memory of its own, opens any
    number of Readers and Writers over readers and writers it brings along, and mixes calls of
    their methods with From, To and Transform in any order.  [effect] says what each request
    should do, without memory sharing, scratch space or objects; [does] is the execution of
    the sources by the interpreter of GoLang.v. *)
From Coq Require Import String ZArith List Bool.
From Verif Require Import Base Spec SpecCp949 Cp949Model GoLang GoSource SourceSpec.
Import ListNotations.
Local Open Scope list_scope.
Local Open Scope Z_scope.

(** The slice array[off : off+len : off+cap] of the client's array number [arr]. *)
Record window : Type := Window { w_arr : nat; w_off : Z; w_len : Z; w_cap : Z }.

(** What a client can ask for.  Arrays, streams (in the order they were opened) and the
    client's readers and writers are named by numbers.  The results of [QFrom] and [QTo]
    become further arrays of the client. *)
Inductive request : Type :=
| QStore (h : nat) (a : list Z)          (* overwrite an array *)
| QAlloc (a : list Z)                    (* allocate an array *)
| QOpenReader (k : nat)                  (* cp949.NewReader *)
| QOpenWriter (k : nat)                  (* cp949.NewWriter *)
| QRead (i : nat) (w : window)
| QWrite (i : nat) (w : window)
| QFrom (w : window)
| QTo (w : window)
| QDecode (dst src : window) (eof : bool)    (* Transform of a decoder *)
| QEncode (dst src : window) (eof : bool).   (* Transform of an encoder *)

(** What the client learns: bytes and an error, a count and an error, or two counts. *)
Inductive answer : Type :=
| Done
| Data (bs : list Z) (err : option error)
| Count (n : Z) (err : option error)
| Counts (nDst nSrc : Z) (err : option error).

(** A program chooses each request by the answers so far. *)
Inductive program : Type :=
| Stop
| Ask (q : request) (next : answer -> program).

Section What.
(** The states of the client's readers and writers. *)
Variable T : Type.

(** An open stream: a Reader that has [text] and then [e] left to deliver, over the client's
    reader number [k], or a Writer over the client's writer number [k] in state [x], or a
    Reader over a stream that ends inside a character: it delivers some beginning of [text]
    and then [e]. *)
Inductive stream : Type :=
| SReader (k : nat) (text : list Z) (e : error)
| SWriter (k : nat) (x : T)
| SBroken (k : nat) (text : list Z) (e : error).
Definition wraps (st : stream) : nat := match st with SReader k _ _ => k | SWriter k _ => k | SBroken k _ _ => k end.

(** The client's arrays and the open streams. *)
Record world : Type := World { mem : list (list Z); streams : list stream }.

Definition inside (C : list (list Z)) (w : window) : Prop :=
  exists a, nth_error C (w_arr w) = Some a /\ 0 <= w_off w /\ 0 <= w_len w <= w_cap w /\ w_off w + w_cap w <= zlen a.
Definition content (C : list (list Z)) (w : window) : list Z := ztake (w_len w) (zdrop (w_off w) (nth (w_arr w) C [])).
Definition put (C : list (list Z)) (w : window) (bs : list Z) : list (list Z) :=
  set_nth (w_arr w) (zwrite (nth (w_arr w) C []) (w_off w) bs) C.

(** [code] gives the CP949 bytes of a character, [source k] what the client's reader number
    [k] delivers, [start] the first states of the client's writers and [wr] what they do. *)
Variable code : Z -> list Z.
Variable source : nat -> option (list Z * error).
Variable start : nat -> T.
Variable wr : nat -> T -> list Z -> Z * option error * T.

Inductive effect : world -> request -> answer -> world -> Prop :=
| ef_store C H h old a : nth_error C h = Some old -> zlen a = zlen old -> Forall is_byte a ->
    effect (World C H) (QStore h a) Done (World (set_nth h a C) H)
| ef_alloc C H a : Forall is_byte a -> effect (World C H) (QAlloc a) Done (World (C ++ [a]) H)
| ef_open_reader C H k bytes e rs : source k = Some (bytes, e) -> decodes bytes rs -> ~ In k (map wraps H) ->
    effect (World C H) (QOpenReader k) Done (World C (H ++ [SReader k (utf8 rs) e]))
| ef_open_writer C H k : ~ In k (map wraps H) ->
    effect (World C H) (QOpenWriter k) Done (World C (H ++ [SWriter k (start k)]))
| ef_read C H i w k bs text e : nth_error H i = Some (SReader k (bs ++ text) e) -> inside C w ->
    bs <> [] -> zlen bs <= w_len w ->
    effect (World C H) (QRead i w) (Data bs None) (World (put C w bs) (set_nth i (SReader k text e) H))
| ef_read_end C H i w k e : nth_error H i = Some (SReader k [] e) -> inside C w -> 0 < w_len w ->
    effect (World C H) (QRead i w) (Data [] (Some e)) (World C H)
| ef_write C H i w k x rs n err x' : nth_error H i = Some (SWriter k x) -> inside C w -> content C w <> [] ->
    reads_as (content C w) rs -> wr k x (flat_map code rs) = (n, err, x') ->
    effect (World C H) (QWrite i w) (Count (match err with None => w_len w | Some _ => 0 end) err)
      (World C (set_nth i (SWriter k x') H))
| ef_write_nothing C H i w k x : nth_error H i = Some (SWriter k x) -> inside C w -> content C w = [] ->
    effect (World C H) (QWrite i w) (Count 0 None) (World C H)
| ef_from C H w rs : inside C w -> decodes (content C w) rs ->
    effect (World C H) (QFrom w) (Data (utf8 rs) None) (World (C ++ [utf8 rs]) H)
| ef_from_cut C H w : inside C w -> truncated (content C w) ->
    effect (World C H) (QFrom w) (Data [] (Some ErrCP949UnexpectedStream)) (World (C ++ [[]]) H)
| ef_to C H w rs : inside C w -> reads_as (content C w) rs ->
    effect (World C H) (QTo w) (Data (flat_map code rs) None) (World (C ++ [flat_map code rs]) H)
| ef_decode C H d w eof rs : inside C d -> inside C w -> decodes (content C w) rs ->
    effect (World C H) (QDecode d w eof) (Counts (zlen (utf8 rs)) (w_len w) None)
      (World (put C d (ztake (w_len d) (utf8 rs))) H)
| ef_decode_cut C H d w eof : inside C d -> inside C w -> truncated (content C w) ->
    effect (World C H) (QDecode d w eof) (Counts 0 0 (Some ErrCP949UnexpectedStream)) (World C H)
| ef_encode C H d w eof rs : inside C d -> inside C w -> reads_as (content C w) rs ->
    effect (World C H) (QEncode d w eof) (Counts (zlen (flat_map code rs)) (w_len w) None)
      (World (put C d (ztake (w_len d) (flat_map code rs))) H)
| ef_open_broken C H k bytes e a rs : source k = Some (bytes, e) -> cut_after a bytes -> decodes a rs -> ~ In k (map wraps H) ->
    effect (World C H) (QOpenReader k) Done (World C (H ++ [SBroken k (utf8 rs) e]))
| ef_read_broken C H i w k bs text text' e : nth_error H i = Some (SBroken k (bs ++ text) e) -> inside C w ->
    bs <> [] -> zlen bs <= w_len w -> is_prefix text' text ->
    effect (World C H) (QRead i w) (Data bs None) (World (put C w bs) (set_nth i (SBroken k text' e) H))
| ef_read_broken_end C H i w k text e : nth_error H i = Some (SBroken k text e) -> inside C w -> 0 < w_len w ->
    effect (World C H) (QRead i w) (Data [] (Some e)) (World C (set_nth i (SBroken k [] e) H)).

(** The answers [outs] to a program are as they should be, and it ends in the last world. *)
Inductive outcome : world -> program -> list answer -> world -> Prop :=
| oc_stop w : outcome w Stop [] w
| oc_ask w q next a w1 outs w2 : effect w q a w1 -> outcome w1 (next a) outs w2 ->
    outcome w (Ask q next) (a :: outs) w2.

(** Every request the program may come to make is one that [effect] speaks about: it uses
    arrays and streams that exist, windows inside them and non-empty buffers for Read, and it
    wraps each of its readers and writers at most once. *)
Fixpoint sensible (w : world) (p : program) : Prop :=
  match p with
  | Stop => True
  | Ask q next => (exists a w', effect w q a w') /\ forall a w', effect w q a w' -> sensible w' (next a)
  end.
End What.

Section How.
Variable grow : Z -> Z -> Z.
Variable E : Type.
Variable rd : nat -> E -> Z -> Z * list Z * option error * E.
Variable wr : nat -> E -> list Z -> Z * option error * E.
Notation state := (state E).

(** [own] says where the client's arrays are and how long they are (append may have made the
    array of a result longer than the result), [ps] which objects the open streams are. *)
Definition slice_at (own : list (nat * Z)) (w : window) (v : val) : Prop :=
  exists l m, nth_error own (w_arr w) = Some (l, m) /\ v = VSlice l (w_off w) (w_len w) (w_cap w).

Inductive does : list (nat * Z) -> list nat -> state -> request -> answer -> list (nat * Z) -> list nat -> state -> Prop :=
| do_store own ps s h l n a : nth_error own h = Some (l, n) ->
    does own ps s (QStore h a) Done own ps (set_arr E s l (a ++ zdrop n (array (arrs E s) l)))
| do_alloc own ps s a :
    does own ps s (QAlloc a) Done (own ++ [(fst (new_arr E s a), zlen a)]) ps (snd (new_arr E s a))
| do_open_reader own ps s k p s' :
    calls grow E rd wr prog_cp949 "NewReader" [VExt k] s (VTuple [VPtr p; VErr None]) s' ->
    does own ps s (QOpenReader k) Done own (ps ++ [p]) s'
| do_open_writer own ps s k p s' :
    calls grow E rd wr prog_cp949 "NewWriter" [VExt k] s (VTuple [VPtr p; VErr None]) s' ->
    does own ps s (QOpenWriter k) Done own (ps ++ [p]) s'
| do_read own ps s i w p l o n c k err s' : nth_error ps i = Some p -> slice_at own w (VSlice l o n c) ->
    calls grow E rd wr prog_cp949 "cp949Reader.Read" [VPtr p; VSlice l o n c] s (VTuple [VInt k; VErr err]) s' ->
    does own ps s (QRead i w) (Data (ztake k (zdrop o (array (arrs E s') l))) err) own ps s'
| do_write own ps s i w p v k err s' : nth_error ps i = Some p -> slice_at own w v ->
    calls grow E rd wr prog_cp949 "cp949Writer.Write" [VPtr p; v] s (VTuple [VInt k; VErr err]) s' ->
    does own ps s (QWrite i w) (Count k err) own ps s'
| do_from own ps s w v l n c err s' : slice_at own w v ->
    calls grow E rd wr prog_cp949 "From" [v] s (VTuple [VSlice l 0 n c; VErr err]) s' ->
    does own ps s (QFrom w) (Data (ztake n (array (arrs E s') l)) err) (own ++ [(l, n)]) ps s'
| do_to own ps s w v l n c err s' : slice_at own w v ->
    calls grow E rd wr prog_cp949 "To" [v] s (VTuple [VSlice l 0 n c; VErr err]) s' ->
    does own ps s (QTo w) (Data (ztake n (array (arrs E s') l)) err) (own ++ [(l, n)]) ps s'
| do_decode own ps s d w eof vd v k m err s' : slice_at own d vd -> slice_at own w v ->
    calls grow E rd wr prog_cp949 "cp949Decoder.Transform" [VPtr 0; vd; v; VBool eof] s (VTuple [VInt k; VInt m; VErr err]) s' ->
    does own ps s (QDecode d w eof) (Counts k m err) own ps s'
| do_encode own ps s d w eof vd v k m err s' : slice_at own d vd -> slice_at own w v ->
    calls grow E rd wr prog_cp949 "cp949Encoder.Transform" [VPtr 0; vd; v; VBool eof] s (VTuple [VInt k; VInt m; VErr err]) s' ->
    does own ps s (QEncode d w eof) (Counts k m err) own ps s'.

Inductive executes : list (nat * Z) -> list nat -> state -> program -> list answer -> list (nat * Z) -> state -> Prop :=
| ex_stop own ps s : executes own ps s Stop [] own s
| ex_ask own ps s q next a own1 ps1 s1 outs own2 s2 : does own ps s q a own1 ps1 s1 ->
    executes own1 ps1 s1 (next a) outs own2 s2 -> executes own ps s (Ask q next) (a :: outs) own2 s2.
End How.

(** The client's arrays as they are in memory. *)
Definition memory_of (A : list (list Z)) (own : list (nat * Z)) : list (list Z) :=
  map (fun x => ztake (snd x) (array A (fst x))) own.
(** A client that owns all of [A]. *)
Definition whole (A : list (list Z)) : list (nat * Z) := map (fun l => (l, zlen (array A l))) (seq 0 (length A)).

(** The client's readers and writers, each with a state of its own. *)
Definition update {T} (x : nat -> T) (k : nat) (y : T) : nat -> T := fun j => if Nat.eqb j k then y else x j.
Definition each_rd {T} (rd : nat -> T -> Z -> Z * list Z * option error * T)
    (k : nat) (x : nat -> T) (n : Z) : Z * list Z * option error * (nat -> T) :=
  let '(c, bs, err, y) := rd k (x k) n in (c, bs, err, update x k y).
Definition each_wr {T} (wr : nat -> T -> list Z -> Z * option error * T)
    (k : nat) (x : nat -> T) (bs : list Z) : Z * option error * (nat -> T) :=
  let '(c, err, y) := wr k (x k) bs in (c, err, update x k y).
