(** Vocabulary for goroutines that use different parts of the same arrays. *)
From Coq Require Import String ZArith List Bool.
From Verif Require Import Base Spec SpecCp949 SpecIO Utf8 Cp949Model GoLang GoSource GoThreads SourceSpec SpecThreads.
Import ListNotations.
Local Open Scope Z_scope.
Local Open Scope list_scope.

(** What a slice may be used for.  [Own]: its elements may be read and written up to its
    capacity, and it may be kept; [Dst]: its elements up to its length may be read and written;
    [Src]: its elements up to its length may be read. *)
Inductive use : Type := Own | Dst | Src.
(** The number of elements that may be used, if the slice has [n] and capacity [c]. *)
Definition extent (u : use) (n c : Z) : Z := match u with Own => c | _ => n end.

(** The exported functions and methods: what they use their arguments for (for arguments that
    are no slices this says nothing), and what their results may be used for. *)
Definition exported_use (p : package) : list (string * (list use * use)) :=
  match p with
  | Cp949 =>
    [("From", ([Src], Own)); ("To", ([Src], Own));
     ("NewReader", ([Own], Own)); ("cp949Reader.Read", ([Own; Dst], Own));
     ("NewWriter", ([Own], Own)); ("cp949Writer.Write", ([Own; Src], Own));
     ("NewCP949Encoding", ([], Own)); ("CP949Encoding.NewDecoder", ([Own], Own)); ("CP949Encoding.NewEncoder", ([Own], Own));
     ("cp949Decoder.Transform", ([Own; Dst; Src; Own], Own)); ("cp949Encoder.Transform", ([Own; Dst; Src; Own], Own));
     ("cp949Decoder.Reset", ([Own], Own)); ("cp949Encoder.Reset", ([Own], Own))]
  | _ => (* no parameter is a slice *)
    map (fun x : string * (list bool * bool) => (fst x, (map (fun _ => Own) (fst (snd x)), if snd (snd x) then Own else Src))) (exported p)
  end%string.

(** A goroutine, the parts of arrays it may write ((l, (lo, hi)): the cells lo to hi-1 of the
    array at l) and the structs it may use. *)
Record worker (E : Type) : Type := mkWorker {
  k_ops : list op;
  k_parts : list (nat * (Z * Z));
  k_objs : list nat;
  k_ext : E   (* the streams underlying its Readers and Writers *)
}.
Arguments mkWorker {E}. Arguments k_ops {E}. Arguments k_parts {E}. Arguments k_objs {E}. Arguments k_ext {E}.

(** The cell [i] of the array at [l] is the goroutine's own. *)
Definition owns {E} (t : worker E) (l : nat) (i : Z) : Prop :=
  exists lo hi, In (l, (lo, hi)) (k_parts t) /\ lo <= i < hi.
Definition owned {E} (ts : list (worker E)) (l : nat) (i : Z) : Prop := exists t, In t ts /\ owns t l i.

Section Parts.
Context {E : Type}.
Variable A : list (list Z).
Variable O : list (string * list (string * val)).
Variable ts : list (worker E).

(** A slice that [t] may use in the way [u]: within one of its parts, or empty, or only read
    and nobody's. *)
Definition slice_usable (t : worker E) (u : use) (l : nat) (o n c : Z) : Prop :=
  (l < length A)%nat /\ 0 <= o /\ 0 <= n <= c /\
  ((exists lo hi, In (l, (lo, hi)) (k_parts t) /\ lo <= o /\ o + extent u n c <= hi) \/
   extent u n c = 0 \/
   (u = Src /\ forall i, o <= i < o + n -> ~ owned ts l i)).
Fixpoint may_use (t : worker E) (u : use) (v : val) : Prop :=
  match v with
  | VSlice l o n c => slice_usable t u l o n c
  | VPtr l => In l (k_objs t) \/ fieldless O l
  | VTuple vs => (fix all (vs : list val) : Prop := match vs with [] => True | v :: vs => may_use t u v /\ all vs end) vs
  | _ => True
  end.
(** [u1] permits what [u2] permits. *)
Definition permits (u1 u2 : use) : Prop :=
  match u1, u2 with Own, _ => True | Dst, Dst | Dst, Src | Src, Src => True | _, _ => False end.
(** [us]: what the results so far may be used for *)
Definition arg_usable (t : worker E) (us : list use) (u : use) (a : arg) : Prop :=
  match a with
  | Const v => may_use t u v
  | Prev k _ => exists u', nth_error us k = Some u' /\ permits u' u
  end.
Definition op_usable (t : worker E) (us : list use) (o : op) (u : use) : Prop :=
  match o with
  | CallOp p f l => exists ps, get f (exported_use p) = Some (ps, u) /\ Forall2 (arg_usable t us) ps l
  | PutOp a _ => arg_usable t us Dst a /\ u = Own
  | PeekOp a => arg_usable t us Src a /\ u = Own
  | CutOp a _ _ => arg_usable t us Own a /\ u = Own
  end.
Inductive ops_usable (t : worker E) : list use -> list op -> Prop :=
| usable_nil us : ops_usable t us []
| usable_cons us o u ops : op_usable t us o u -> ops_usable t (us ++ [u]) ops -> ops_usable t us (o :: ops).

(** No cell is part of two goroutines' memory, and no struct with fields is either. *)
Definition separate_parts : Prop :=
  hangul_memory A /\
  (forall i j t u l z, i <> j -> nth_error ts i = Some t -> nth_error ts j = Some u -> owns t l z -> owns u l z -> False) /\
  NoDup (flat_map k_objs ts) /\
  forall t, In t ts ->
    (forall l lo hi, In (l, (lo, hi)) (k_parts t) -> (length m_multiElements < l < length A)%nat /\ 0 <= lo /\ hi <= zlen (array A l)) /\
    (forall l, In l (k_objs t) -> exists T fs, nth_error O l = Some (T, fs) /\ Forall (fun x => may_use t Own (snd x)) fs) /\
    ops_usable t [] (k_ops t).
End Parts.

(** ** Outcomes that cannot be told apart, as far as the goroutine may look *)

(** The first [nb] arrays are compared with the ones at the same place, in the cells in [keep]
    only; structs in [keepO] are compared with the ones at the same place; all others with the
    ones that correspond to them. *)
Definition looks_same_in (nb : nat) (keep : nat -> Z -> Prop) (keepO : nat -> Prop)
    (A : list (list Z)) (O : list (string * list (string * val))) (v : val)
    (A' : list (list Z)) (O' : list (string * list (string * val))) (v' : val) : Prop :=
  exists ca co,
    one_to_one ca /\ one_to_one co /\
    (forall l, (l < nb)%nat -> In (l, l) ca) /\ (forall l, keepO l -> In (l, l) co) /\
    (forall l l', In (l, l') ca -> (l < length A)%nat /\ (l' < length A')%nat /\ zlen (array A l) = zlen (array A' l') /\
       forall i, ((l < nb)%nat -> keep l i) -> zget (array A l) i = zget (array A' l') i) /\
    (forall l l', In (l, l') co -> exists T fs fs', nth_error O l = Some (T, fs) /\ nth_error O' l' = Some (T, fs') /\ same_fields ca co fs fs') /\
    corresponds ca co v v'.

(** ** Data races: two processes are about to access the same cell or struct, one of them writing *)
Inductive spot : Type := Cell (l : nat) (i : Z) | Struct (l : nat).
Inductive touches {A} : proc A -> spot -> bool -> Prop :=
| t_load l o n k i : o <= i < o + n -> touches (Load l o n k) (Cell l i) false
| t_save l o bs k i : o <= i < o + zlen bs -> touches (Save l o bs k) (Cell l i) true
| t_get l k : touches (GetObj l k) (Struct l) false
| t_set l f v k : touches (SetField l f v k) (Struct l) true.
Definition cell_race {E} (c : pool E) : Prop :=
  exists i j p q x y a b sp, i <> j /\ nth_error (p_procs E c) i = Some (p, x) /\ nth_error (p_procs E c) j = Some (q, y) /\
    touches p sp a /\ touches q sp b /\ a || b = true.

(** The goroutines at the start. *)
Definition start_workers {E} (grow : Z -> Z -> Z) (n : nat) A O (ts : list (worker E)) : pool E :=
  mkPool E A O (map (fun t => (goroutine grow n (k_ops t) [], k_ext t)) ts).

(** ** Calls of Transform at the same time *)

(** A call of Transform of an Encoder or a Decoder. *)
Record job (E : Type) : Type := mkJob {
  j_encode : bool;   (* an Encoder's method; otherwise a Decoder's *)
  j_this : nat;      (* where the Encoder or Decoder is *)
  j_dst : val;
  j_src : val;
  j_eof : bool;
  j_ext : E
}.
Arguments mkJob {E}. Arguments j_encode {E}. Arguments j_this {E}. Arguments j_dst {E}. Arguments j_src {E}. Arguments j_eof {E}. Arguments j_ext {E}.

(** The cells of a slice, up to its length. *)
Definition cell_of (v : val) (l : nat) (i : Z) : Prop := match v with VSlice l' o n _ => l = l' /\ o <= i < o + n | _ => False end.
(** The arguments are an Encoder or Decoder, and slices; the destination is no memory of the
    package itself; the source is apart from the destination or inside it. *)
Definition job_ok {E} (A : list (list Z)) (O : list (string * list (string * val))) (j : job E) : Prop :=
  fieldless O (j_this j) /\
  (exists dst, slice_holds A (j_dst j) dst) /\ (exists src, slice_holds A (j_src j) src /\ Forall is_byte src) /\
  (forall l i, cell_of (j_dst j) l i -> (length m_multiElements < l)%nat) /\
  ((forall l i, cell_of (j_dst j) l i -> ~ cell_of (j_src j) l i) \/ (forall l i, cell_of (j_src j) l i -> cell_of (j_dst j) l i)).
(** No call's destination has a cell in common with another call's destination or source. *)
Definition jobs_apart {E} (js : list (job E)) : Prop :=
  forall a b j k l i, a <> b -> nth_error js a = Some j -> nth_error js b = Some k ->
    cell_of (j_dst j) l i -> ~ cell_of (j_dst k) l i /\ ~ cell_of (j_src k) l i.
Definition job_op {E} (j : job E) : op :=
  CallOp Cp949 (if j_encode j then "cp949Encoder.Transform" else "cp949Decoder.Transform")%string
    [Const (VPtr (j_this j)); Const (j_dst j); Const (j_src j); Const (VBool (j_eof j))].
(** One goroutine for each call. *)
Definition start_jobs {E} (grow : Z -> Z -> Z) (n : nat) A O (js : list (job E)) : pool E :=
  mkPool E A O (map (fun j => (goroutine grow n [job_op j] [], j_ext j)) js).
(** What Transform returns, and what is in the destination afterwards; [f] encodes a character. *)
Definition transform_result (f : Z -> list Z) (encode : bool) (dst src : list Z) (nDst nSrc : Z) (err : option error) (dst' : list Z) : Prop :=
  let stored out := (zlen out <= zlen dst -> dst' = out ++ zdrop (zlen out) dst) /\ (zlen dst < zlen out -> is_prefix dst' out) in
  if encode then
    exists rs, reads_as src rs /\ nDst = zlen (flat_map f rs) /\ nSrc = zlen src /\ err = None /\ stored (flat_map f rs)
  else
    (exists rs, decodes src rs /\ nDst = zlen (utf8 rs) /\ nSrc = zlen src /\ err = None /\ stored (utf8 rs)) \/
    (truncated src /\ nDst = 0 /\ nSrc = 0 /\ err = Some ErrCP949UnexpectedStream /\ dst' = dst).
