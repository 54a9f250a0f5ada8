(** Clients of the packages: small programs over their APIs and library functions they are
    used with (Go standard library and golang.org/x/text; NOT code of /repo). *)
From Coq Require Import ZArith List Bool.
From Verif Require Import Base Spec SpecText2 Utf8 HangulModel Cp949Model TransformModel.
Import ListNotations.
Local Open Scope Z_scope.
Local Open Scope go_scope.

(** A text with every syllable replaced by its parts, by means of hangul.Split
    (hangul.go:49-60). *)
Definition decomposed (c : Z) : list Z :=
  if (0xAC00 <=? c) && (c <=? 0xD7A3) then parts_of (Split c) else [c].
Definition decompose (rs : list Z) : list Z := flat_map decomposed rs.

(** * io.ReadAll and io.ReadFull *)
Section Read.
Variable S : Type.
Variable rd : S -> Z -> res (list Z * option error * S).

(* io.ErrUnexpectedEOF, which no reader of the package returns, and io.ErrShortBuffer. *)
Definition ErrUnexpectedEOF : error := ErrOther (-3).

(* io.ReadAll: b := make([]byte, 0, 512), then Read into b[len(b):cap(b)] until an error;
   when len(b) == cap(b) the capacity is raised by append, to [grow] of it, which the
   runtime makes larger than what append needs.  EOF counts as success. *)
Variable grow : Z -> Z -> Z.
Definition grown (cap : Z) : Z := Z.max (cap + 1) (grow cap (cap + 1)).
Fixpoint read_all (fuel : nat) (s : S) (b : list Z) (cap : Z) : res (list Z * option error) :=
  match fuel with
  | O => Fuel
  | Datatypes.S fuel =>
    let! (bs, err, s) := rd s (cap - zlen b) in
    let b := b ++ bs in
    match err with
    | Some EOF => Ok (b, None)
    | Some e => Ok (b, Some e)
    | None => read_all fuel s b (if zlen b =? cap then grown cap else cap)
    end
  end.
Definition ReadAll (fuel : nat) (s : S) : res (list Z * option error) := read_all fuel s [] 512.

(* io.ReadAtLeast(r, buf, min) with min = len(buf), which is io.ReadFull(r, buf): the bytes
   stored in buf, n being their number, and the error. *)
Fixpoint read_full (fuel : nat) (s : S) (b : list Z) (min : Z) : res (list Z * option error * S) :=
  match fuel with
  | O => Fuel
  | Datatypes.S fuel =>
    if zlen b <? min then
      let! (bs, err, s) := rd s (min - zlen b) in
      let b := b ++ bs in
      match err with
      | None => read_full fuel s b min
      | Some e =>
        Ok (b, if min <=? zlen b then None
               else match e with
                    | EOF => if 0 <? zlen b then Some ErrUnexpectedEOF else Some EOF
                    | _ => Some e
                    end, s)
      end
    else Ok (b, None, s)
  end.
Definition ReadFull (fuel : nat) (s : S) (len : Z) : res (list Z * option error * S) :=
  read_full fuel s [] len.
End Read.

(** * encoding.HTMLEscapeUnsupported and encoding.ReplaceUnsupported (x/text v0.14.0)
    Both wrap an Encoder's Transformer in an errorHandler, whose Transform calls the wrapped
    one and, as long as the error is a repertoireError, asks a handler for a substitute for
    the character at which it stopped. *)
Section Handler.
Variable T : list Z -> list Z -> bool -> res transform_result.
(* err.(repertoireError): the encoding's replacement byte. *)
Variable repertoire_error : error -> option Z.
(* handler(dst, r, err): the substitute for r.  Simplified: the model refuses it when it does
   not fit in dst; the library's HTML handler already refuses when it would just fill dst. *)
Variable handler : Z -> Z -> list Z.

Fixpoint handle (fuel : nat) (dst : list Z) (nDst : Z) (src : list Z) (nSrc : Z)
    (err : option error) (atEOF : bool) : res transform_result :=
  match err with
  | None => Ok (dst, nDst, nSrc, None)
  | Some e =>
    match fuel with
    | O => Fuel
    | S fuel =>
      match repertoire_error e with
      | None => Ok (dst, nDst, nSrc, Some e)
      | Some rep =>
        let '(r, sz) := DecodeRune (zdrop nSrc src) in
        let sub := handler r rep in
        if zlen dst <? nDst + zlen sub then Ok (dst, nDst, nSrc, Some ErrShortDst) else
        let dst := zwrite dst nDst sub in
        let nDst := nDst + zlen sub in
        let nSrc := nSrc + sz in
        if nSrc <? zlen src then
          let! (d, dn, sn, err) := T (zdrop nDst dst) (zdrop nSrc src) atEOF in
          handle fuel (ztake nDst dst ++ d) (nDst + dn) src (nSrc + sn) err atEOF
        else Ok (dst, nDst, nSrc, None)
      end
    end
  end.

Definition handled_Transform (fuel : nat) (dst src : list Z) (atEOF : bool) : res transform_result :=
  let! (d, nDst, nSrc, err) := T dst src atEOF in
  handle fuel d nDst src nSrc err atEOF.
End Handler.

(* encodeReplacement for HTMLEscapeUnsupported: "&#" decimal ";" *)
Fixpoint decimal_digits (fuel : nat) (n : Z) : list Z :=
  match fuel with
  | O => []
  | S fuel => (if n <? 10 then [] else decimal_digits fuel (n / 10)) ++ [0x30 + n mod 10]
  end.
Definition html_escape (r rep : Z) : list Z := [0x26; 0x23] ++ decimal_digits 8 r ++ [0x3B].
(* ReplaceUnsupported: the replacement byte that the error carries. *)
Definition replace_unsupported (r rep : Z) : list Z := [rep].
