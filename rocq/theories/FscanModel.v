(** fmt.Fscan(r, &s) with one operand of type string (Go standard library, fmt/scan.go; NOT
    code of /repo), over a reader that is no io.RuneScanner, such as a Reader of package cp949.
    Not modelled: the limit of 2^30 characters for one call. *)
From Coq Require Import ZArith List Bool.
From Verif Require Import Base Spec Utf8 Cp949Model ClientModel BufioModel WordModel.
Import ListNotations.
Local Open Scope Z_scope.
Local Open Scope list_scope.
Local Open Scope go_scope.

Section Fscan.
Variable S : Type.
Variable rd : S -> Z -> res (list Z * option error * S).
Variable rfuel : nat.   (* for the loop of io.ReadFull *)
(* The error when there is no word left; all that matters of it is that it is one. *)
Variable no_word : error.

(* fmt/scan.go: type readRune and the field atEOF of type ss.  [peek] is the character put back
   by UnreadRune, or ^r (that is -r-1) after r was read. *)
Record scan : Type := mkScan { src : S; pend : list Z; peek : Z; at_eof : bool }.
Definition new_scan (s : S) : scan := mkScan s [] (-1) false.

(* fmt/scan.go: readRune.readByte *)
Definition readByte (st : scan) : res (Z * option error * scan) :=
  match pend st with
  | b :: p => Ok (b, None, mkScan (src st) p (peek st) (at_eof st))
  | [] =>
    let! (bs, err, s) := ReadFull S rd rfuel (src st) 1 in
    Ok (match bs with b :: _ => b | [] => 0 end, err, mkScan s [] (peek st) (at_eof st))
  end.

(* fmt/scan.go: readRune.ReadRune, the loop that completes a character, of up to utf8.UTFMax
   bytes; the end of the input ends it without an error. *)
Fixpoint complete (k : nat) (buf : list Z) (st : scan) : res (list Z * option error * scan) :=
  match k with
  | O => Ok (buf, None, st)
  | Datatypes.S k =>
    if FullRune buf then Ok (buf, None, st) else
    let! (b, err, st) := readByte st in
    match err with
    | Some EOF => Ok (buf, None, st)
    | Some e => Ok (buf, Some e, st)
    | None => complete k (buf ++ [b]) st
    end
  end.

(* fmt/scan.go: readRune.ReadRune *)
Definition readRune (st : scan) : res (Z * option error * scan) :=
  if 0 <=? peek st then Ok (peek st, None, mkScan (src st) (pend st) (- peek st - 1) (at_eof st)) else
  let! (b, err, st) := readByte st in
  match err with
  | Some e => Ok (0, Some e, st)
  | None =>
    if b <? 0x80 then Ok (b, None, mkScan (src st) (pend st) (- b - 1) (at_eof st)) else
    let! (buf, err, st) := complete 3 [b] st in
    match err with
    | Some e => Ok (0, Some e, st)
    | None =>
      let '(r, size) := DecodeRune buf in
      Ok (r, None, mkScan (src st) (pend st ++ zdrop size buf) (- r - 1) (at_eof st))
    end
  end.

(* fmt/scan.go: ss.UnreadRune with readRune.UnreadRune; it is called after a character was read. *)
Definition unread (st : scan) : scan :=
  mkScan (src st) (pend st) (if 0 <=? peek st then peek st else - peek st - 1) false.

(* fmt/scan.go: ss.ReadRune and ss.getRune: a character, [None] for the end of the input, or the
   error that Fscan is going to return (the code panics with it, and Fscan recovers). *)
Definition getRune (st : scan) : res ((option Z + error) * scan) :=
  if at_eof st then Ok (inl None, st) else
  let! (r, err, st) := readRune st in
  match err with
  | None => Ok (inl (Some r), st)
  | Some EOF => Ok (inl None, mkScan (src st) (pend st) (peek st) true)
  | Some e => Ok (inr e, st)
  end.

(* fmt/scan.go: ss.SkipSpace with nlIsSpace, and ss.peek of a line feed after a carriage return *)
Fixpoint SkipSpace (fuel : nat) (st : scan) : res (option error * scan) :=
  match fuel with
  | O => Fuel
  | Datatypes.S fuel =>
    let! (x, st) := getRune st in
    match x with
    | inr e => Ok (Some e, st)
    | inl None => Ok (None, st)
    | inl (Some r) =>
      if r =? 13 then
        let! (y, st) := getRune st in
        match y with
        | inr e => Ok (Some e, st)
        | inl None => SkipSpace fuel st
        | inl (Some _) => SkipSpace fuel (unread st)
        end
      else if isSpace r then SkipSpace fuel st
      else Ok (None, unread st)
    end
  end.

(* fmt/scan.go: ss.token with notSpace, its loop *)
Fixpoint token (fuel : nat) (buf : list Z) (st : scan) : res ((list Z + error) * scan) :=
  match fuel with
  | O => Fuel
  | Datatypes.S fuel =>
    let! (x, st) := getRune st in
    match x with
    | inr e => Ok (inr e, st)
    | inl None => Ok (inl buf, st)
    | inl (Some r) => if isSpace r then Ok (inl buf, unread st) else token fuel (buf ++ EncodeRune r) st
    end
  end.

(* fmt/scan.go: Fscan, ss.doScan, ss.scanOne, ss.convertString and ss.notEOF.  The readRune is
   given up at the end, with the character that was put back last. *)
Definition Fscan (fuel : nat) (s : S) : res ((list Z + error) * S) :=
  let! (err, st) := SkipSpace fuel (new_scan s) in
  match err with
  | Some e => Ok (inr e, src st)
  | None =>
    let! (x, st) := getRune st in
    match x with
    | inr e => Ok (inr e, src st)
    | inl None => Ok (inr no_word, src st)
    | inl (Some _) =>
      let! (err, st) := SkipSpace fuel (unread st) in
      match err with
      | Some e => Ok (inr e, src st)
      | None => let! (t, st) := token fuel [] st in Ok (t, src st)
      end
    end
  end.

(** A client that calls Fscan until there is an error. *)
Fixpoint fscan_all (n fuel : nat) (s : S) : res (list (list Z) * error) :=
  match n with
  | O => Fuel
  | Datatypes.S n =>
    let! (t, s) := Fscan fuel s in
    match t with
    | inr e => Ok ([], e)
    | inl w => let! (ws, e) := fscan_all n fuel s in Ok (w :: ws, e)
    end
  end.
End Fscan.
