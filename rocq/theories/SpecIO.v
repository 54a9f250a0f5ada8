(** The io.Reader contract, for the reader wrapped by the streaming API. *)
From Coq Require Import ZArith List.
From Verif Require Import Base Spec SpecCp949 Cp949Model.
Import ListNotations.
Local Open Scope Z_scope.

(** [delivers rd s bytes e]: from state [s] on, whatever buffer sizes it is called with, the
    reader hands out exactly [bytes], in non-empty chunks that fit the buffer, and then the
    error [e], either together with the last chunk or alone.  How the bytes are split may
    depend on the state and on the buffer sizes in any way. *)
Inductive delivers {RS : Type} (rd : RS -> Z -> list Z * option error * RS)
  : RS -> list Z -> error -> Prop :=
| delivers_intro s bytes e :
    (forall k chunk e' s', 0 < k -> rd s k = (chunk, Some e', s') ->
       e' = e /\ chunk = bytes /\ zlen chunk <= k) ->
    (forall k chunk s', 0 < k -> rd s k = (chunk, None, s') ->
       chunk <> [] /\ zlen chunk <= k /\ is_prefix chunk bytes) ->
    (forall k chunk s', 0 < k -> rd s k = (chunk, None, s') ->
       delivers rd s' (zdrop (zlen chunk) bytes) e) ->
    delivers rd s bytes e.

(** A reader that also keeps the list of the chunks it has handed out. *)
Definition logged {RS : Type} (rd : RS -> Z -> list Z * option error * RS)
    (s : RS * list (list Z)) (k : Z) : list Z * option error * (RS * list (list Z)) :=
  let '(chunk, e, s') := rd (fst s) k in (chunk, e, (s', snd s ++ [chunk])).

(** A reader that also keeps a record of the calls made to it: the length of the buffer it
    was given, the bytes it stored and the error it returned. *)
Definition witnessed {RS : Type} (rd : RS -> Z -> list Z * option error * RS)
    (s : RS * list (Z * list Z * option error)) (k : Z)
  : list Z * option error * (RS * list (Z * list Z * option error)) :=
  let '(chunk, e, s') := rd (fst s) k in (chunk, e, (s', snd s ++ [(k, chunk, e)])).

(** A reader over a fixed byte string, as bytes.Reader, that hands out as much as fits. *)
Definition bytes_rd (s : list Z) (k : Z) : list Z * option error * list Z :=
  match s with
  | [] => if 0 <? k then ([], Some EOF, []) else ([], None, [])
  | _ => (ztake k s, None, zdrop k s)
  end.

(** A writer that accepts everything and keeps it, as bytes.Buffer. *)
Definition buffer_wr (s bs : list Z) : option error * list Z := (None, s ++ bs).

(** What a sequence of Writes should amount to, given each chunk and its encoding: an empty
    chunk does not reach the wrapped writer, any other reaches it as one write of the
    encoding; the result is the chunk's length, or 0 and the wrapped writer's error. *)
Fixpoint writes_spec {WS : Type} (wr : WS -> list Z -> option error * WS) (dst : WS) (chunks : list (list Z * list Z)) : list (Z * option error) * WS :=
  match chunks with
  | [] => ([], dst)
  | (data, encoded) :: chunks =>
    let '(err, dst) := match data with [] => (None, dst) | _ => wr dst encoded end in
    let '(rs, dst) := writes_spec wr dst chunks in
    ((match err with Some _ => 0 | None => zlen data end, err) :: rs, dst)
  end.

(** [delivers_whole room rd s rs e]: asked with a buffer of [room] bytes, the reader hands
    out the encoding of the characters [rs] and then [e], in non-empty chunks of whole
    characters whose UTF-8 form takes at most [room] bytes. *)
Inductive delivers_whole {RS : Type} (room : Z) (rd : RS -> Z -> list Z * option error * RS)
  : RS -> list Z -> error -> Prop :=
| delivers_last s rs e chunk s' :
    rd s room = (chunk, Some e, s') -> zlen chunk <= room ->
    decodes chunk rs -> zlen (utf8 rs) <= room ->
    delivers_whole room rd s rs e
| delivers_more s rs1 rs2 e chunk s' :
    rd s room = (chunk, None, s') -> zlen chunk <= room ->
    chunk <> [] -> decodes chunk rs1 -> zlen (utf8 rs1) <= room ->
    delivers_whole room rd s' rs2 e -> delivers_whole room rd s (rs1 ++ rs2) e.

(** A reader over a byte string that hands out one byte at a time. *)
Definition one_rd (s : list Z) (k : Z) : list Z * option error * list Z :=
  match s with
  | [] => ([], Some EOF, [])
  | b :: s' => if 0 <? k then ([b], None, s') else ([], None, s)
  end.

(** A reader of a never-ending stream of two-byte characters whose chunks end inside a
    character whenever the buffer allows. *)
Definition odd_rd (s : bool) (k : Z) : list Z * option error * bool :=
  if s then (if 2 <=? k then [0xA1; 0xB0] else [0xA1], None, true)
  else (if 1 <=? k then [0xB0] else [], None, true).

(** A reader that answers once with no data and no error, then goes on. *)
Definition pause_rd (s : bool * list Z) (k : Z) : list Z * option error * (bool * list Z) :=
  if fst s then let '(c, e, s') := bytes_rd (snd s) k in (c, e, (true, s'))
  else ([], None, (true, snd s)).
