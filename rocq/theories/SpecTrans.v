(** The chunks a wrapped reader hands out. *)
From Coq Require Import ZArith List.
From Verif Require Import Base Spec Utf8 Cp949Model.
Import ListNotations.
Local Open Scope Z_scope.

(** [hands_out room rd s chunks e]: asked with a buffer of [room] bytes each time, the reader
    hands out [chunks], all non-empty but perhaps the last, and the error [e] with the last. *)
Inductive hands_out {RS : Type} (room : Z) (rd : RS -> Z -> list Z * option error * RS)
  : RS -> list (list Z) -> error -> Prop :=
| hands_last s e chunk s' :
    rd s room = (chunk, Some e, s') -> zlen chunk <= room -> Forall is_byte chunk ->
    hands_out room rd s [chunk] e
| hands_more s e chunk chunks s' :
    rd s room = (chunk, None, s') -> zlen chunk <= room -> Forall is_byte chunk -> chunk <> [] ->
    hands_out room rd s' chunks e -> hands_out room rd s (chunk :: chunks) e.

(** What a transform.Writer over the Decoder should answer to each chunk: the number of bytes
    consumed and no error when the chunk consists of whole characters; otherwise the error of
    From, and nothing is consumed. *)
Definition decode_answer (chunk : list Z) (decoded : list Z + error) : Z * option error :=
  match decoded with inl _ => (zlen chunk, None) | inr e => (0, Some e) end.
Definition decode_part (decoded : list Z + error) : list Z :=
  match decoded with inl d => d | inr _ => [] end.

(** What a transform.Reader over the Decoder should deliver: the decoded chunks, each decoded
    for itself by [conv], up to the first one that is refused, and then the error of the wrapped
    reader, or that of the refusal if the wrapped reader has reported none other than EOF. *)
Inductive decoded_until (conv : list Z -> res (list Z + error)) (e : error)
  : list (list Z) -> list (list Z) -> error -> Prop :=
| until_end : decoded_until conv e [] [] e
| until_good c cs p ps e' : conv c = Ok (inl p) -> decoded_until conv e cs ps e' -> decoded_until conv e (c :: cs) (p :: ps) e'
| until_bad c cs x : conv c = Ok (inr x) -> decoded_until conv e (c :: cs) []
    (match cs, e with [], EOF => x | [], _ => e | _, _ => x end).
