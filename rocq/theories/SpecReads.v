(** What a sequence of Reads on a Reader over an arbitrary wrapped reader amounts to. *)
From Coq Require Import ZArith List.
From Verif Require Import Base Spec Utf8 SpecCp949 Cp949Model StreamModel.
Import ListNotations.
#[local] Open Scope Z_scope.
#[local] Open Scope go_scope.

Section Reads.
Context {RS : Type}.
Variable rd : RS -> Z -> list Z * option error * RS.

(** The wrapped reader stores bytes, and no more of them than its buffer holds. *)
Definition fits_buffer : Prop := forall s sp, 0 <= sp ->
  zlen (fst (fst (rd s sp))) <= sp /\ Forall is_byte (fst (fst (rd s sp))).

(** A read that yields neither data nor an error counts as the end of the stream. *)
Definition final (chunk : list Z) (err : option error) : option error :=
  match err, chunk with
  | None, [] => Some EOF
  | _, _ => err
  end.

(** [starves k n s s' u]: [n] calls of the wrapped reader, with buffers of at least [k] bytes,
    lead from [s] to [s'] and yield the bytes [u]; after each of them the bytes so far end
    inside a character, and no error has been seen. *)
Inductive starves (k : Z) : nat -> RS -> RS -> list Z -> Prop :=
| starves_0 s : starves k 0 s s []
| starves_S n s s1 u sp c s2 : starves k n s s1 u -> k <= sp -> rd s1 sp = (c, None, s2) ->
    c <> [] -> truncated (u ++ c) -> starves k (S n) s s2 (u ++ c).

(** [one_read k (s, text, err) bs e (s', text', err')]: Read with a buffer of [k] bytes returns
    [bs] and [e].  [s] is the state of the wrapped reader, [text] what is left of the text
    decoded by an earlier Read, [err] an error seen earlier. *)
Inductive one_read (k : Z) : RS * list Z * option error -> list Z -> option error ->
    RS * list Z * option error -> Prop :=
| read_rest s text err : text <> [] ->
    one_read k (s, text, err) (ztake k text) None (s, zdrop k text, err)
| read_error s e : one_read k (s, [], Some e) [] (Some e) (s, [], Some e)
| read_text s n s1 u sp c err s2 rs : starves k n s s1 u -> k <= sp -> rd s1 sp = (c, err, s2) ->
    decodes (u ++ c) rs -> rs <> [] ->
    one_read k (s, [], None) (ztake k (utf8 rs)) None (s2, zdrop k (utf8 rs), final c err)
| read_end s n s1 u sp c err s2 e : starves k n s s1 u -> k <= sp -> rd s1 sp = (c, err, s2) ->
    u ++ c = [] \/ truncated (u ++ c) -> final c err = Some e ->
    one_read k (s, [], None) [] (Some e) (s2, [], Some e).

Inductive many_reads : RS * list Z * option error -> list Z -> list (list Z * option error) ->
    RS * list Z * option error -> Prop :=
| no_reads st : many_reads st [] [] st
| more_reads st k sizes bs e st1 results st2 : one_read k st bs e st1 ->
    many_reads st1 sizes results st2 -> many_reads st (k :: sizes) ((bs, e) :: results) st2.
End Reads.

(** A client that calls Read once per element of [sizes], errors or not. *)
Fixpoint reads (grow : Z -> Z -> Z) (RS : Type) (rd : RS -> Z -> list Z * option error * RS)
    (fuel : nat) (r : reader RS) (sizes : list Z) : res (list (list Z * option error) * reader RS) :=
  match sizes with
  | [] => Ok ([], r)
  | k :: sizes =>
    let! (bs, err, r) := Read grow RS rd fuel r k in
    let! (results, r) := reads grow RS rd fuel r sizes in
    Ok ((bs, err) :: results, r)
  end.
