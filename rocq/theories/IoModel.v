(** Model of io.Copy and io.CopyBuffer (Go standard library, NOT code of /repo), the usual
    clients of the streaming API, and of the streaming API seen as an io.Reader. *)
From Coq Require Import ZArith List Bool.
From Verif Require Import Base Cp949Model StreamModel.
Import ListNotations.
Local Open Scope Z_scope.
Local Open Scope go_scope.

(* io.ErrShortWrite and io.errInvalidWrite, which no reader or writer of the package
   returns. *)
Definition ErrShortWrite : error := ErrOther (-1).
Definition errInvalidWrite : error := ErrOther (-2).

(* io.Copy's buffer: 32*1024 bytes. *)
Definition copyBufSize : Z := 32768.

Section Copy.
Variable S D : Type.
(* src.Read on a buffer of the given length, and dst.Write; both may panic. *)
Variable rd : S -> Z -> res (list Z * option error * S).
Variable wr : D -> list Z -> res (Z * option error * D).

(* io.copyBuffer, the loop; [size] is len(buf).  Neither cp949Reader nor cp949Writer has a
   WriteTo or ReadFrom method, so the loop is what runs when one of them is involved and
   the other side has none either.  The result is (written, err) and the state of dst. *)
Fixpoint Copy (fuel : nat) (size : Z) (src : S) (dst : D) (written : Z)
  : res (Z * option error * D) :=
  match fuel with
  | O => Fuel
  | Datatypes.S fuel =>
    let! (bs, er, src) := rd src size in
    let nr := zlen bs in
    let! (written, err, dst) :=
      (if nr >? 0 then
         let! (nw, ew, dst) := wr dst bs in
         let bad := (nw <? 0) || (nr <? nw) in
         let ew := if bad then match ew with None => Some errInvalidWrite | _ => ew end else ew in
         let nw := if bad then 0 else nw in
         let err := match ew with
                    | Some _ => ew
                    | None => if nr =? nw then None else Some ErrShortWrite
                    end in
         Ok (written + nw, err, dst)
       else Ok (written, None, dst)) in
    match err with
    | Some e => Ok (written, Some e, dst)
    | None =>
      match er with
      | None => Copy fuel size src dst written
      | Some EOF => Ok (written, None, dst)
      | Some e => Ok (written, Some e, dst)
      end
    end
  end.
End Copy.

(** A reader or writer that does not panic. *)
Definition plain_rd {S} (rd : S -> Z -> list Z * option error * S) (s : S) (k : Z)
  : res (list Z * option error * S) := Ok (rd s k).
Definition plain_wr {D} (wr : D -> list Z -> option error * D) (d : D) (bs : list Z)
  : res (Z * option error * D) :=
  let '(err, d') := wr d bs in Ok (match err with Some _ => 0 | None => zlen bs end, err, d').

(** The value returned by NewReader, as an io.Reader that can be wrapped in turn.  A panic or
    a Read that does not return is made to look like an answer without data, which breaks
    the contract [delivers]. *)
Definition as_reader {S} (rd : S -> Z -> res (list Z * option error * S)) (s : S) (k : Z)
  : list Z * option error * S :=
  match rd s k with Ok x => x | _ => ([], None, s) end.

(** What a client sees of a sequence of Reads. *)
Definition outcome {S} (x : res (list Z * option error * S)) : res (list Z * option error) :=
  match x with Ok (p, e, _) => Ok (p, e) | Panic => Panic | Fuel => Fuel end.

(** A reader of [n] times the syllable B0 A1 whose chunks end inside a character until the
    last one; [true] means that the first byte of the next character is already gone. *)
Definition half_rd (s : bool * nat) (k : Z) : list Z * option error * (bool * nat) :=
  match s with
  | (_, O) => ([], Some EOF, s)
  | (false, S n) => ([0xB0], None, (true, S n))
  | (true, S O) => ([0xA1], None, (true, O))
  | (true, S (S n)) => if 2 <=? k then ([0xA1; 0xB0], None, (true, S n)) else ([0xA1], None, (false, S n))
  end.

(** A reader that hands out one syllable at a time. *)
Definition syllables (n : nat) (k : Z) : list Z * option error * nat :=
  match n with O => ([], Some EOF, O) | S n => ([0xB0; 0xA1], None, n) end.
