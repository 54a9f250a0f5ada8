(** Model of the parts of Go's standard library that /repo calls on UTF-8 text:
    unicode/utf8.DecodeRune, unicode/utf8.EncodeRune, and the built-in conversions
    []rune(string) and string([]rune).

    This is NOT code of /repo: it is the documented and implemented behaviour of the Go
    standard library (unicode/utf8/utf8.go, runtime/string.go, runtime/utf8.go), part of
    the trusted base.  Utf8Facts.v proves that it meets the Unicode definition of UTF-8
    given in Spec.v. *)
From Coq Require Import ZArith List Bool.
From Verif Require Import Base.
Import ListNotations.
Local Open Scope Z_scope.

Definition RuneError : Z := 0xFFFD.       (* utf8.RuneError *)
Definition UTFMax : Z := 4.               (* utf8.UTFMax *)

(** utf8.go's tables [first] and [acceptRanges], by lead byte: the encoded length and the
    accepted range of the second byte; [None] for bytes that cannot start a multi-byte
    sequence (0x80-0xC1 and 0xF5-0xFF).  Only consulted for lead bytes >= 0x80. *)
Definition first_info (p0 : Z) : option (Z * (Z * Z)) :=
  if (0xC2 <=? p0) && (p0 <=? 0xDF) then Some (2, (0x80, 0xBF))
  else if p0 =? 0xE0 then Some (3, (0xA0, 0xBF))
  else if (0xE1 <=? p0) && (p0 <=? 0xEC) then Some (3, (0x80, 0xBF))
  else if p0 =? 0xED then Some (3, (0x80, 0x9F))
  else if (0xEE <=? p0) && (p0 <=? 0xEF) then Some (3, (0x80, 0xBF))
  else if p0 =? 0xF0 then Some (4, (0x90, 0xBF))
  else if (0xF1 <=? p0) && (p0 <=? 0xF3) then Some (4, (0x80, 0xBF))
  else if p0 =? 0xF4 then Some (4, (0x80, 0x8F))
  else None.

Definition in_range (lo hi b : Z) : bool := (lo <=? b) && (b <=? hi).

(** utf8.DecodeRune(p): the rune and the number of bytes it occupies. *)
Definition DecodeRune (p : list Z) : Z * Z :=
  match p with
  | [] => (RuneError, 0)
  | p0 :: p' =>
    if p0 <? 0x80 then (p0, 1) else
    match first_info p0 with
    | None => (RuneError, 1)
    | Some (sz, (lo, hi)) =>
      match p' with
      | [] => (RuneError, 1)
      | b1 :: p'' =>
        if zlen p <? sz then (RuneError, 1) else
        if negb (in_range lo hi b1) then (RuneError, 1) else
        if sz <=? 2 then
          (Z.lor (Z.shiftl (Z.land p0 0x1F) 6) (Z.land b1 0x3F), 2)
        else
        match p'' with
        | [] => (RuneError, 1)
        | b2 :: p3 =>
          if negb (in_range 0x80 0xBF b2) then (RuneError, 1) else
          if sz <=? 3 then
            (Z.lor (Z.lor (Z.shiftl (Z.land p0 0x0F) 12) (Z.shiftl (Z.land b1 0x3F) 6))
                   (Z.land b2 0x3F), 3)
          else
          match p3 with
          | [] => (RuneError, 1)
          | b3 :: _ =>
            if negb (in_range 0x80 0xBF b3) then (RuneError, 1) else
            (Z.lor (Z.lor (Z.lor (Z.shiftl (Z.land p0 0x07) 18)
                                 (Z.shiftl (Z.land b1 0x3F) 12))
                          (Z.shiftl (Z.land b2 0x3F) 6))
                   (Z.land b3 0x3F), 4)
          end
        end
      end
    end
  end.

(** The bytes utf8.EncodeRune writes for r. *)
Definition encode3 (r : Z) : list Z :=
  [Z.lor 0xE0 (to_u8 (Z.shiftr r 12));
   Z.lor 0x80 (Z.land (to_u8 (Z.shiftr r 6)) 0x3F);
   Z.lor 0x80 (Z.land (to_u8 r) 0x3F)].

Definition EncodeRune (r : Z) : list Z :=
  let i := to_u32 r in
  if i <=? 0x7F then [to_u8 r]
  else if i <=? 0x7FF then
    [Z.lor 0xC0 (to_u8 (Z.shiftr r 6)); Z.lor 0x80 (Z.land (to_u8 r) 0x3F)]
  else if (i >? 0x10FFFF) || ((0xD800 <=? i) && (i <=? 0xDFFF)) then encode3 RuneError
  else if i <=? 0xFFFF then encode3 r
  else
    [Z.lor 0xF0 (to_u8 (Z.shiftr r 18));
     Z.lor 0x80 (Z.land (to_u8 (Z.shiftr r 12)) 0x3F);
     Z.lor 0x80 (Z.land (to_u8 (Z.shiftr r 6)) 0x3F);
     Z.lor 0x80 (Z.land (to_u8 r) 0x3F)].

(** []rune(s): repeated DecodeRune.  Each step consumes at least one byte, so [length s]
    steps suffice; the fuel-exhausted branch is unreachable (Utf8Facts.v). *)
Fixpoint runes_fuel (fuel : nat) (s : list Z) : list Z :=
  match s with
  | [] => []
  | _ =>
    match fuel with
    | O => []
    | S fuel => let '(r, n) := DecodeRune s in r :: runes_fuel fuel (zdrop n s)
    end
  end.
Definition string_to_runes (s : list Z) : list Z := runes_fuel (length s) s.

(** string(rs) *)
Definition runes_to_string (rs : list Z) : list Z := flat_map EncodeRune rs.
