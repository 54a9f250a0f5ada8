(** Model of bufio.ScanWords (Go standard library, NOT code of /repo), with which a
    bufio.Scanner (BufioModel.v) reads word by word. *)
From Coq Require Import ZArith List Bool.
From Verif Require Import Base Utf8 Cp949Model BufioModel.
Import ListNotations.
Local Open Scope Z_scope.

(* bufio/scan.go: isSpace *)
Definition isSpace (r : Z) : bool :=
  if r <=? 0xFF then existsb (Z.eqb r) [32; 9; 10; 11; 12; 13; 0x85; 0xA0]
  else if (0x2000 <=? r) && (r <=? 0x200A) then true
  else existsb (Z.eqb r) [0x1680; 0x2028; 0x2029; 0x202F; 0x205F; 0x3000].

(* bufio/scan.go, ScanWords: "for width := 0; start < len(data); start += width".  [fuel] is at
   least the number of bytes left, so it does not run out. *)
Fixpoint skip_spaces (fuel : nat) (data : list Z) (start : Z) : Z :=
  match fuel with
  | O => start
  | S fuel =>
    if start <? zlen data then
      let '(r, width) := DecodeRune (zdrop start data) in
      if isSpace r then skip_spaces fuel data (start + width) else start
    else start
  end.
(* bufio/scan.go, ScanWords: "for width, i := 0, start; i < len(data); i += width"; where the
   first space is, and its width. *)
Fixpoint find_space (fuel : nat) (data : list Z) (i : Z) : option (Z * Z) :=
  match fuel with
  | O => None
  | S fuel =>
    if i <? zlen data then
      let '(r, width) := DecodeRune (zdrop i data) in
      if isSpace r then Some (i, width) else find_space fuel data (i + width)
    else None
  end.
(* bufio/scan.go: ScanWords *)
Definition ScanWords : split_func := fun data atEOF =>
  let start := skip_spaces (length data) data 0 in
  match find_space (length data) data start with
  | Some (i, width) => Ok (i + width, Some (zdrop start (ztake i data)), None)
  | None =>
    if (atEOF && (start <? zlen data))%bool then Ok (zlen data, Some (zdrop start data), None)
    else Ok (start, None, None)
  end.
