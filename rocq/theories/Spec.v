(** Specification vocabulary, written from the Unicode standard and the prose
    documentation, independently of the model: nothing in this file refers to the code. *)
From Coq Require Import ZArith List.
Import ListNotations.
Local Open Scope Z_scope.

(** * Unicode Hangul ranges *)
Definition is_syllable (r : Z) : Prop := 0xAC00 <= r <= 0xD7A3.
Definition is_lead_jamo (r : Z) : Prop := 0x1100 <= r <= 0x1112.
Definition is_medial_jamo (r : Z) : Prop := 0x1161 <= r <= 0x1175.
Definition is_tail_jamo (r : Z) : Prop := 0x11A8 <= r <= 0x11C2.
Definition is_compat_jaeum (r : Z) : Prop := 0x3131 <= r <= 0x314E.
Definition is_compat_moeum (r : Z) : Prop := 0x314F <= r <= 0x3163.

(** A well-formed decomposition: lead, medial, and a tail or 0 for "no tail". *)
Definition wf_triple (x : Z * Z * Z) : Prop :=
  let '(l, m, t) := x in is_lead_jamo l /\ is_medial_jamo m /\ (t = 0 \/ is_tail_jamo t).

(** n consecutive integers from lo. *)
Fixpoint zseq (lo : Z) (n : nat) : list Z :=
  match n with O => [] | S n => lo :: zseq (lo + 1) n end.

(** All decompositions in dictionary order: lead major, then medial, then tail, with
    "no tail" first. *)
Definition all_triples : list (Z * Z * Z) :=
  flat_map (fun l =>
    flat_map (fun m => map (fun t => (l, m, t)) (0 :: zseq 0x11A8 27))
             (zseq 0x1161 21))
    (zseq 0x1100 19).

(** * Hangul letters, by their Unicode names *)
Inductive letter : Type :=
| L_KIYEOK
| L_SSANGKIYEOK
| L_KIYEOK_SIOS
| L_NIEUN
| L_NIEUN_CIEUC
| L_NIEUN_HIEUH
| L_TIKEUT
| L_SSANGTIKEUT
| L_RIEUL
| L_RIEUL_KIYEOK
| L_RIEUL_MIEUM
| L_RIEUL_PIEUP
| L_RIEUL_SIOS
| L_RIEUL_THIEUTH
| L_RIEUL_PHIEUPH
| L_RIEUL_HIEUH
| L_MIEUM
| L_PIEUP
| L_SSANGPIEUP
| L_PIEUP_SIOS
| L_SIOS
| L_SSANGSIOS
| L_IEUNG
| L_CIEUC
| L_SSANGCIEUC
| L_CHIEUCH
| L_KHIEUKH
| L_THIEUTH
| L_PHIEUPH
| L_HIEUH
| L_A
| L_AE
| L_YA
| L_YAE
| L_EO
| L_E
| L_YEO
| L_YE
| L_O
| L_WA
| L_WAE
| L_OE
| L_YO
| L_U
| L_WEO
| L_WE
| L_WI
| L_YU
| L_EU
| L_YI
| L_I.

(** U+3131..U+3163, HANGUL LETTER ... *)
Definition compat_form (x : letter) : Z :=
  match x with
  | L_KIYEOK => 0x3131
  | L_SSANGKIYEOK => 0x3132
  | L_KIYEOK_SIOS => 0x3133
  | L_NIEUN => 0x3134
  | L_NIEUN_CIEUC => 0x3135
  | L_NIEUN_HIEUH => 0x3136
  | L_TIKEUT => 0x3137
  | L_SSANGTIKEUT => 0x3138
  | L_RIEUL => 0x3139
  | L_RIEUL_KIYEOK => 0x313A
  | L_RIEUL_MIEUM => 0x313B
  | L_RIEUL_PIEUP => 0x313C
  | L_RIEUL_SIOS => 0x313D
  | L_RIEUL_THIEUTH => 0x313E
  | L_RIEUL_PHIEUPH => 0x313F
  | L_RIEUL_HIEUH => 0x3140
  | L_MIEUM => 0x3141
  | L_PIEUP => 0x3142
  | L_SSANGPIEUP => 0x3143
  | L_PIEUP_SIOS => 0x3144
  | L_SIOS => 0x3145
  | L_SSANGSIOS => 0x3146
  | L_IEUNG => 0x3147
  | L_CIEUC => 0x3148
  | L_SSANGCIEUC => 0x3149
  | L_CHIEUCH => 0x314A
  | L_KHIEUKH => 0x314B
  | L_THIEUTH => 0x314C
  | L_PHIEUPH => 0x314D
  | L_HIEUH => 0x314E
  | L_A => 0x314F
  | L_AE => 0x3150
  | L_YA => 0x3151
  | L_YAE => 0x3152
  | L_EO => 0x3153
  | L_E => 0x3154
  | L_YEO => 0x3155
  | L_YE => 0x3156
  | L_O => 0x3157
  | L_WA => 0x3158
  | L_WAE => 0x3159
  | L_OE => 0x315A
  | L_YO => 0x315B
  | L_U => 0x315C
  | L_WEO => 0x315D
  | L_WE => 0x315E
  | L_WI => 0x315F
  | L_YU => 0x3160
  | L_EU => 0x3161
  | L_YI => 0x3162
  | L_I => 0x3163
  end.

(** U+1100..U+1112, HANGUL CHOSEONG ... *)
Definition lead_form (x : letter) : option Z :=
  match x with
  | L_KIYEOK => Some 0x1100
  | L_SSANGKIYEOK => Some 0x1101
  | L_NIEUN => Some 0x1102
  | L_TIKEUT => Some 0x1103
  | L_SSANGTIKEUT => Some 0x1104
  | L_RIEUL => Some 0x1105
  | L_MIEUM => Some 0x1106
  | L_PIEUP => Some 0x1107
  | L_SSANGPIEUP => Some 0x1108
  | L_SIOS => Some 0x1109
  | L_SSANGSIOS => Some 0x110A
  | L_IEUNG => Some 0x110B
  | L_CIEUC => Some 0x110C
  | L_SSANGCIEUC => Some 0x110D
  | L_CHIEUCH => Some 0x110E
  | L_KHIEUKH => Some 0x110F
  | L_THIEUTH => Some 0x1110
  | L_PHIEUPH => Some 0x1111
  | L_HIEUH => Some 0x1112
  | _ => None
  end.

(** U+1161..U+1175, HANGUL JUNGSEONG ... *)
Definition medial_form (x : letter) : option Z :=
  match x with
  | L_A => Some 0x1161
  | L_AE => Some 0x1162
  | L_YA => Some 0x1163
  | L_YAE => Some 0x1164
  | L_EO => Some 0x1165
  | L_E => Some 0x1166
  | L_YEO => Some 0x1167
  | L_YE => Some 0x1168
  | L_O => Some 0x1169
  | L_WA => Some 0x116A
  | L_WAE => Some 0x116B
  | L_OE => Some 0x116C
  | L_YO => Some 0x116D
  | L_U => Some 0x116E
  | L_WEO => Some 0x116F
  | L_WE => Some 0x1170
  | L_WI => Some 0x1171
  | L_YU => Some 0x1172
  | L_EU => Some 0x1173
  | L_YI => Some 0x1174
  | L_I => Some 0x1175
  | _ => None
  end.

(** U+11A8..U+11C2, HANGUL JONGSEONG ... *)
Definition tail_form (x : letter) : option Z :=
  match x with
  | L_KIYEOK => Some 0x11A8
  | L_SSANGKIYEOK => Some 0x11A9
  | L_KIYEOK_SIOS => Some 0x11AA
  | L_NIEUN => Some 0x11AB
  | L_NIEUN_CIEUC => Some 0x11AC
  | L_NIEUN_HIEUH => Some 0x11AD
  | L_TIKEUT => Some 0x11AE
  | L_RIEUL => Some 0x11AF
  | L_RIEUL_KIYEOK => Some 0x11B0
  | L_RIEUL_MIEUM => Some 0x11B1
  | L_RIEUL_PIEUP => Some 0x11B2
  | L_RIEUL_SIOS => Some 0x11B3
  | L_RIEUL_THIEUTH => Some 0x11B4
  | L_RIEUL_PHIEUPH => Some 0x11B5
  | L_RIEUL_HIEUH => Some 0x11B6
  | L_MIEUM => Some 0x11B7
  | L_PIEUP => Some 0x11B8
  | L_PIEUP_SIOS => Some 0x11B9
  | L_SIOS => Some 0x11BA
  | L_SSANGSIOS => Some 0x11BB
  | L_IEUNG => Some 0x11BC
  | L_CIEUC => Some 0x11BD
  | L_CHIEUCH => Some 0x11BE
  | L_KHIEUKH => Some 0x11BF
  | L_THIEUTH => Some 0x11C0
  | L_PHIEUPH => Some 0x11C1
  | L_HIEUH => Some 0x11C2
  | _ => None
  end.

(** The basic letters a letter is written with; a basic letter is its own element. *)
Definition elements (x : letter) : list letter :=
  match x with
  | L_KIYEOK => [L_KIYEOK]
  | L_SSANGKIYEOK => [L_KIYEOK; L_KIYEOK]
  | L_KIYEOK_SIOS => [L_KIYEOK; L_SIOS]
  | L_NIEUN => [L_NIEUN]
  | L_NIEUN_CIEUC => [L_NIEUN; L_CIEUC]
  | L_NIEUN_HIEUH => [L_NIEUN; L_HIEUH]
  | L_TIKEUT => [L_TIKEUT]
  | L_SSANGTIKEUT => [L_TIKEUT; L_TIKEUT]
  | L_RIEUL => [L_RIEUL]
  | L_RIEUL_KIYEOK => [L_RIEUL; L_KIYEOK]
  | L_RIEUL_MIEUM => [L_RIEUL; L_MIEUM]
  | L_RIEUL_PIEUP => [L_RIEUL; L_PIEUP]
  | L_RIEUL_SIOS => [L_RIEUL; L_SIOS]
  | L_RIEUL_THIEUTH => [L_RIEUL; L_THIEUTH]
  | L_RIEUL_PHIEUPH => [L_RIEUL; L_PHIEUPH]
  | L_RIEUL_HIEUH => [L_RIEUL; L_HIEUH]
  | L_MIEUM => [L_MIEUM]
  | L_PIEUP => [L_PIEUP]
  | L_SSANGPIEUP => [L_PIEUP; L_PIEUP]
  | L_PIEUP_SIOS => [L_PIEUP; L_SIOS]
  | L_SIOS => [L_SIOS]
  | L_SSANGSIOS => [L_SIOS; L_SIOS]
  | L_IEUNG => [L_IEUNG]
  | L_CIEUC => [L_CIEUC]
  | L_SSANGCIEUC => [L_CIEUC; L_CIEUC]
  | L_CHIEUCH => [L_CHIEUCH]
  | L_KHIEUKH => [L_KHIEUKH]
  | L_THIEUTH => [L_THIEUTH]
  | L_PHIEUPH => [L_PHIEUPH]
  | L_HIEUH => [L_HIEUH]
  | L_A => [L_A]
  | L_AE => [L_A; L_I]
  | L_YA => [L_YA]
  | L_YAE => [L_YA; L_I]
  | L_EO => [L_EO]
  | L_E => [L_EO; L_I]
  | L_YEO => [L_YEO]
  | L_YE => [L_YEO; L_I]
  | L_O => [L_O]
  | L_WA => [L_O; L_A]
  | L_WAE => [L_O; L_A; L_I]
  | L_OE => [L_O; L_I]
  | L_YO => [L_YO]
  | L_U => [L_U]
  | L_WEO => [L_U; L_EO]
  | L_WE => [L_U; L_EO; L_I]
  | L_WI => [L_U; L_I]
  | L_YU => [L_YU]
  | L_EU => [L_EU]
  | L_YI => [L_EU; L_I]
  | L_I => [L_I]
  end.

(** Traditional stroke counts of the 24 basic letters (None for composites). *)
Definition basic_strokes (x : letter) : option Z :=
  match x with
  | L_KIYEOK => Some 1
  | L_NIEUN => Some 1
  | L_TIKEUT => Some 2
  | L_RIEUL => Some 3
  | L_MIEUM => Some 3
  | L_PIEUP => Some 4
  | L_SIOS => Some 2
  | L_IEUNG => Some 1
  | L_CIEUC => Some 3
  | L_CHIEUCH => Some 4
  | L_KHIEUKH => Some 2
  | L_THIEUTH => Some 3
  | L_PHIEUPH => Some 4
  | L_HIEUH => Some 3
  | L_A => Some 2
  | L_YA => Some 3
  | L_EO => Some 2
  | L_YEO => Some 3
  | L_O => Some 2
  | L_YO => Some 3
  | L_U => Some 2
  | L_YU => Some 3
  | L_EU => Some 1
  | L_I => Some 1
  | _ => None
  end.

(** [r] is a code point for the letter [x], in any role. *)
Definition form_of (x : letter) (r : Z) : Prop :=
  r = compat_form x \/ lead_form x = Some r \/ medial_form x = Some r \/ tail_form x = Some r.

(** [r] can stand for the lead (medial, tail) [f]: both are forms of one letter that has a
    form in that role. *)
Definition as_lead (r f : Z) : Prop :=
  exists x, lead_form x = Some f /\ (r = f \/ r = compat_form x).
Definition as_medial (r f : Z) : Prop :=
  exists x, medial_form x = Some f /\ (r = f \/ r = compat_form x).
Definition as_tail (r f : Z) : Prop :=
  exists x, tail_form x = Some f /\ (r = f \/ r = compat_form x).

Definition composite (x : letter) : Prop := elements x <> [x].
Definition consonant (x : letter) : Prop := is_compat_jaeum (compat_form x).
Definition vowel (x : letter) : Prop := is_compat_moeum (compat_form x).

(** Number of strokes of a letter: the sum over its basic letters. *)
Definition letter_strokes (x : letter) : Z :=
  fold_right (fun e n => match basic_strokes e with Some k => k + n | None => n end)
             0 (elements x).

(** * UTF-8 (Unicode 15, tables 3-6 and 3-7, in arithmetic form) *)
Definition is_scalar (r : Z) : Prop :=
  0 <= r <= 0x10FFFF /\ ~ (0xD800 <= r <= 0xDFFF).

Definition utf8_char (r : Z) : list Z :=
  if r <? 0x80 then [r]
  else if r <? 0x800 then [0xC0 + r / 64; 0x80 + r mod 64]
  else if r <? 0x10000 then
    [0xE0 + r / 4096; 0x80 + r / 64 mod 64; 0x80 + r mod 64]
  else
    [0xF0 + r / 262144; 0x80 + r / 4096 mod 64; 0x80 + r / 64 mod 64; 0x80 + r mod 64].

(** The UTF-8 encoding of a text. *)
Definition utf8 (rs : list Z) : list Z := flat_map utf8_char rs.

Definition valid_utf8 (s : list Z) : Prop := exists rs, Forall is_scalar rs /\ s = utf8 rs.

(** The Unicode replacement character. *)
Definition replacement : Z := 0xFFFD.

Definition is_prefix (p s : list Z) : Prop := exists q, s = p ++ q.

(** Reading an arbitrary byte string as characters, the way a Go program does ("range" over
    a string): whole characters are read as such; a byte at which no character starts
    counts as one replacement character. *)
Inductive reads_as : list Z -> list Z -> Prop :=
| reads_nil : reads_as [] []
| reads_char r s rs :
    is_scalar r -> reads_as s rs -> reads_as (utf8_char r ++ s) (r :: rs)
| reads_bad b s rs :
    (forall r, is_scalar r -> ~ is_prefix (utf8_char r) (b :: s)) ->
    reads_as s rs -> reads_as (b :: s) (replacement :: rs).

(** No character continues across the start of [t]: [t] does not begin with a UTF-8
    continuation byte. *)
Definition boundary (t : list Z) : Prop :=
  match t with [] => True | b :: _ => ~ (0x80 <= b <= 0xBF) end.

(** * Hanja: the ideographs of Unicode 4's URO and extension A, and the twelve unified
    ideographs encoded in the compatibility block. *)
Definition unified_in_compat_block : list Z :=
  [0xFA0E; 0xFA0F; 0xFA11; 0xFA13; 0xFA14; 0xFA1F; 0xFA21; 0xFA23; 0xFA24; 0xFA27; 0xFA28; 0xFA29].
Definition is_hanja (r : Z) : Prop :=
  0x3400 <= r <= 0x4DB5 \/ 0x4E00 <= r <= 0x9FA5 \/ In r unified_in_compat_block.
