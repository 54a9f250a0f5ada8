(** Vocabulary for telling encoded texts from UTF-8. *)
From Coq Require Import ZArith List.
From Verif Require Import SpecCp949.
Local Open Scope Z_scope.

(** Chinese characters, as far as CP949 has them. *)
Definition ideograph (u : Z) : Prop := 0x4E00 <= u <= 0x9FFF \/ 0xF900 <= u <= 0xFAFF.
(** ASCII, or a code that reads as a character of two bytes in UTF-8. *)
Definition two_bytes (r : Z) : Prop := 0 <= r < 0x80 \/ exists c, assigned c r /\ 0xC2 <= c / 256 <= 0xDF /\ 0x80 <= c mod 256 <= 0xBF.
