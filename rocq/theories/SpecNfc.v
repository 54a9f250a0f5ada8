(** Unicode normalisation form NFC of texts of CP949 characters.  None of them is a combining
    character or a conjoining jamo, so that nothing is composed or reordered and each character
    is replaced by its canonical equivalent, if it has one (checked by tools/gen_nfc.py against
    the Unicode Character Database). *)
From Coq Require Import ZArith List Bool.
From Verif Require Import TableNfc.
Import ListNotations.
Local Open Scope Z_scope.

Definition nfc_char (r : Z) : Z :=
  if (0xF900 <=? r) && (r <=? 0xFA0B) then nth (Z.to_nat (r - 0xF900)) equivalents r
  else if r =? 0x212B then 0xC5   (* the angstrom sign *)
  else if r =? 0x2126 then 0x3A9  (* the ohm sign *)
  else r.
Definition nfc (rs : list Z) : list Z := map nfc_char rs.

(** The blocks of Chinese characters. *)
Definition chinese (r : Z) : Prop := 0x3400 <= r <= 0x9FFF \/ 0xF900 <= r <= 0xFAFF.
