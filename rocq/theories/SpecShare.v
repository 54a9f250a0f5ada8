(** What clients that wrap one reader or writer several times can expect. *)
From Coq Require Import ZArith List Bool Arith.
From Verif Require Import Base Spec Utf8 SpecCp949 Cp949Model StreamModel SpecIO SpecReads ShareModel.
Import ListNotations.
Local Open Scope Z_scope.

(** A Writer and a Reader over one buffer, when only whole encodable texts are written: [left] is
    what was written and not yet read, [ended] says that a Read has reported the end, after which
    the Reader is of no more use. *)
Fixpoint queue (left : list Z) (ended : bool) (ops : list pipe_op) (answers : list pipe_answer) : Prop :=
  match ops, answers with
  | [], [] => True
  | PWrite data :: ops, Wrote n err :: answers =>
    n = zlen data /\ err = None /\ queue (if ended then left else left ++ data) ended ops answers
  | PRead k :: ops, Got bs None :: answers =>
    bs <> [] /\ zlen bs <= k /\ exists left', left = bs ++ left' /\ queue left' ended ops answers
  | PRead k :: ops, Got bs (Some e) :: answers =>
    e = EOF /\ bs = [] /\ left = [] /\ queue [] true ops answers
  | _, _ => False
  end.

Definition written (ops : list pipe_op) : list Z :=
  concat (map (fun o => match o with PWrite d => d | PRead _ => [] end) ops).

(** Writes of encodable text, Reads with non-empty buffers. *)
Definition proper (o : pipe_op) : Prop :=
  match o with
  | PWrite data => exists text bs, data = utf8 text /\ encodes text bs
  | PRead k => 0 < k
  end.

(** Several Readers over one reader: each Read is as [one_read] (C126) says, from the state in which the
    Read before it, of whichever Reader, left the wrapped reader.  [own i] is what Reader [i]
    has left of the text decoded last, and the error it has seen. *)
Inductive shared_reads {RS : Type} (rd : RS -> Z -> list Z * option error * RS)
  : RS -> (nat -> list Z * option error) -> list (nat * Z) -> list (list Z * option error) -> RS -> Prop :=
| shared_none s own : shared_reads rd s own [] [] s
| shared_one s own i k ops bs e s1 text err results s2 :
    one_read rd k (s, fst (own i), snd (own i)) bs e (s1, text, err) ->
    shared_reads rd s1 (update own i (text, err)) ops results s2 ->
    shared_reads rd s own ((i, k) :: ops) ((bs, e) :: results) s2.

(** A reader that, asked with at least [room] bytes, hands out whole characters whose UTF-8 form
    takes at most [room] bytes, and at the end [e], alone, again and again: a connection
    that delivers line by line. *)
Inductive piecewise {RS : Type} (room : Z) (rd : RS -> Z -> list Z * option error * RS) : RS -> list Z -> error -> Prop :=
| piecewise_end s e : (forall k, room <= k -> rd s k = ([], Some e, s)) -> piecewise room rd s [] e
| piecewise_more s piece rest chunk s' e : (forall k, room <= k -> rd s k = (chunk, None, s')) ->
    decodes chunk piece -> piece <> [] -> zlen (utf8 piece) <= room -> piecewise room rd s' rest e ->
    piecewise room rd s (piece ++ rest) e.
