(** What decoding and encoding CP949 mean, relative to the code assignment, which is data:
    the pairs of lookup_from.go (TableFrom.v).  No model function is mentioned. *)
From Coq Require Import ZArith List.
From Verif Require Import Base Spec TableFrom.
Import ListNotations.
Local Open Scope Z_scope.

(** The 16-bit code [c] stands for the character [u]. *)
Definition assigned (c u : Z) : Prop := In (It c u) fromTable.

(** The characters of a byte string: ASCII bytes stand for themselves, a byte >= 0x80 forms
    a code with the byte after it, and a code that is not assigned counts as one
    replacement character. *)
Inductive decodes : list Z -> list Z -> Prop :=
| dec_nil : decodes [] []
| dec_ascii b s rs : 0 <= b < 0x80 -> decodes s rs -> decodes (b :: s) (b :: rs)
| dec_code b0 b1 u s rs :
    0x80 <= b0 < 256 -> 0 <= b1 < 256 -> assigned (b0 * 256 + b1) u ->
    decodes s rs -> decodes (b0 :: b1 :: s) (u :: rs)
| dec_unassigned b0 b1 s rs :
    0x80 <= b0 < 256 -> 0 <= b1 < 256 -> (forall u, ~ assigned (b0 * 256 + b1) u) ->
    decodes s rs -> decodes (b0 :: b1 :: s) (replacement :: rs).

(** The string ends in the middle of a code: [a] is its complete part. *)
Definition cut_after (a s : list Z) : Prop :=
  exists b, 0x80 <= b < 256 /\ s = a ++ [b] /\ exists rs, decodes a rs.
Definition truncated (s : list Z) : Prop := exists a, cut_after a s.

(** Characters CP949 can represent. *)
Definition in_repertoire (r : Z) : Prop := 0 <= r < 0x80 \/ exists c, assigned c r.

Definition code_bytes (c : Z) : list Z := [c / 256; c mod 256].

(** The CP949 encoding of a text in the repertoire. *)
Inductive encodes : list Z -> list Z -> Prop :=
| enc_nil : encodes [] []
| enc_ascii r rs bs : 0 <= r < 0x80 -> encodes rs bs -> encodes (r :: rs) (r :: bs)
| enc_code c r rs bs : assigned c r -> encodes rs bs -> encodes (r :: rs) (code_bytes c ++ bs).

(** Both bytes in the KS X 1001 (GR) area. *)
Definition ks_code (c : Z) : Prop := 0xA1 <= c / 256 /\ 0xA1 <= c mod 256.

Definition is_letter_byte (b : Z) : bool :=
  ((0x41 <=? b) && (b <=? 0x5A) || (0x61 <=? b) && (b <=? 0x7A))%bool.
(** ASCII bytes other than letters. *)
Definition ascii_nonletter (b : Z) : bool :=
  ((0 <=? b) && (b <? 0x80) && negb (is_letter_byte b))%bool.
