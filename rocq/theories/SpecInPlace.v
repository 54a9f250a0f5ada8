(** CP949 text whose hanja are replaced. *)
From Coq Require Import ZArith List.
From Verif Require Import Base Spec SpecCp949 HanjaModel.
Import ListNotations.
Local Open Scope Z_scope.

(** The codes of the 2350 syllables of KS X 1001 (rows 16 to 40). *)
Definition ks_syllable_code (c : Z) : Prop := 0xB0 <= c / 256 <= 0xC8 /\ 0xA1 <= c mod 256 <= 0xFE.
(** [t] is [s] with the two bytes of each hanja replaced by those of its reading. *)
Inductive hanja_replaced : list Z -> list Z -> Prop :=
| hr_nil : hanja_replaced [] []
| hr_ascii b s t : 0 <= b < 0x80 -> hanja_replaced s t -> hanja_replaced (b :: s) (b :: t)
| hr_other c u s t : assigned c u -> IsHanja u = false -> hanja_replaced s t ->
    hanja_replaced (code_bytes c ++ s) (code_bytes c ++ t)
| hr_hanja c h d v s t : assigned c h -> IsHanja h = true -> Convert (utf8_char h) = utf8_char v -> is_syllable v ->
    assigned d v -> ks_syllable_code d -> hanja_replaced s t ->
    hanja_replaced (code_bytes c ++ s) (code_bytes d ++ t).
(** The form of EUC-KR text: ASCII and pairs of bytes of 0xA1 and more. *)
Inductive euc_kr : list Z -> Prop :=
| ek_nil : euc_kr []
| ek_ascii b s : 0 <= b < 0x80 -> euc_kr s -> euc_kr (b :: s)
| ek_pair a b s : 0xA1 <= a <= 0xFE -> 0xA1 <= b <= 0xFE -> euc_kr s -> euc_kr (a :: b :: s).
(** The hanja that are read U+CD40. *)
Definition read_cd40 : list Z := [0x49A4; 0x5550; 0x555B; 0x797D; 0x930A].
