(** Model of the methods ReadByte, ReadRune, ReadSlice and ReadString (ReadBytes) of
    bufio.Reader (Go standard library, NOT code of /repo), the other usual way to read a text
    from a Reader. *)
From Coq Require Import ZArith List Bool.
From Verif Require Import Base Utf8 Cp949Model StreamModel IoModel BufioModel.
Import ListNotations.
Local Open Scope Z_scope.
Local Open Scope go_scope.

(* bufio.ErrBufferFull: an error of the standard library *)
Definition ErrBufferFull : error := ErrOther (-8).

Section Reader.
Variable S : Type.
Variable rd : S -> Z -> list Z * option error * S.

(* bufio/bufio.go: Reader.  [br_size] is len(b.buf), [br_buf] is b.buf[b.r:b.w]: fill moves the
   unread bytes to the front, and nothing else depends on where they are.  What ReadByte and
   ReadRune keep for UnreadByte and UnreadRune is left out. *)
Record bufreader : Type := mkBufReader {
  br_src : S;
  br_size : Z;
  br_buf : list Z;
  br_err : option error
}.
(* NewReaderSize for a size of at least 16, the least it takes *)
Definition NewBufReader (size : Z) (s : S) : bufreader := mkBufReader s size [] None.

(* bufio/bufio.go: fill, the loop; [loop] is the number of reads without data that are still
   tolerated. *)
Fixpoint fill_reads (loop : nat) (b : bufreader) : res bufreader :=
  match loop with
  | O => Ok (mkBufReader (br_src b) (br_size b) (br_buf b) (Some ErrNoProgress))
  | Datatypes.S loop =>
    let room := br_size b - zlen (br_buf b) in
    let '(bs, err, src) := rd (br_src b) room in
    if room <? zlen bs then Panic else
    let b := mkBufReader src (br_size b) (br_buf b ++ bs) (br_err b) in
    match err with
    | Some e => Ok (mkBufReader src (br_size b) (br_buf b) (Some e))
    | None => if 0 <? zlen bs then Ok b else fill_reads loop b
    end
  end.
(* bufio/bufio.go: fill *)
Definition fill (b : bufreader) : res bufreader :=
  if br_size b <=? zlen (br_buf b) then Panic else fill_reads (Z.to_nat maxConsecutiveEmptyReads) b.

(* bufio/bufio.go: readErr *)
Definition readErr (b : bufreader) : option error * bufreader :=
  (br_err b, mkBufReader (br_src b) (br_size b) (br_buf b) None).
Definition advance (b : bufreader) (n : Z) : bufreader :=
  mkBufReader (br_src b) (br_size b) (zdrop n (br_buf b)) (br_err b).

(* bufio/bufio.go: ReadByte *)
Fixpoint ReadByte (fuel : nat) (b : bufreader) : res (Z * option error * bufreader) :=
  match fuel with
  | O => Fuel
  | Datatypes.S fuel =>
    match br_buf b with
    | c :: _ => Ok (c, None, advance b 1)
    | [] =>
      match br_err b with
      | Some _ => let '(err, b) := readErr b in Ok (0, err, b)
      | None => let! b := fill b in ReadByte fuel b
      end
    end
  end.

(* bufio/bufio.go: ReadRune *)
Fixpoint ReadRune (fuel : nat) (b : bufreader) : res (Z * Z * option error * bufreader) :=
  match fuel with
  | O => Fuel
  | Datatypes.S fuel =>
    if ((zlen (br_buf b) <? UTFMax) && negb (FullRune (br_buf b)) &&
        match br_err b with None => true | Some _ => false end && (zlen (br_buf b) <? br_size b))%bool
    then let! b := fill b in ReadRune fuel b
    else
      match br_buf b with
      | [] => let '(err, b) := readErr b in Ok (0, 0, err, b)
      | c :: _ =>
        let '(r, size) := if c <? 0x80 then (c, 1) else DecodeRune (br_buf b) in
        Ok (r, size, None, advance b size)
      end
  end.

(* bufio/bufio.go: ReadSlice.  The Go code does not look again at the bytes it has searched. *)
Fixpoint ReadSlice (fuel : nat) (delim : Z) (b : bufreader) : res (list Z * option error * bufreader) :=
  match fuel with
  | O => Fuel
  | Datatypes.S fuel =>
    let i := IndexByte (br_buf b) delim in
    if 0 <=? i then Ok (ztake (i + 1) (br_buf b), None, advance b (i + 1)) else
    match br_err b with
    | Some _ =>
      let line := br_buf b in
      let '(err, b) := readErr (advance b (zlen line)) in Ok (line, err, b)
    | None =>
      if br_size b <=? zlen (br_buf b) then Ok (br_buf b, Some ErrBufferFull, advance b (zlen (br_buf b)))
      else let! b := fill b in ReadSlice fuel delim b
    end
  end.

(* bufio/bufio.go: collectFragments, ReadString, ReadBytes: the fragments are joined *)
Definition is_full (err : option error) : bool :=
  match err with Some (ErrOther c) => c =? -8 | _ => false end.
Fixpoint ReadString (fuel : nat) (delim : Z) (b : bufreader) : res (list Z * option error * bufreader) :=
  match fuel with
  | O => Fuel
  | Datatypes.S fuel' =>
    let! (frag, err, b) := ReadSlice fuel delim b in
    if is_full err then
      let! (more, err, b) := ReadString fuel' delim b in Ok (frag ++ more, err, b)
    else Ok (frag, err, b)
  end.

(** A client that calls ReadString, ReadRune or ReadByte until there is an error; the strings
    (the last of them, which came with the error, included), or the characters with their
    sizes, and the error. *)
Fixpoint ReadStrings (n fuel : nat) (delim : Z) (b : bufreader) : res (list (list Z) * option error) :=
  match n with
  | O => Fuel
  | Datatypes.S n =>
    let! (s, err, b) := ReadString fuel delim b in
    match err with
    | Some _ => Ok ([s], err)
    | None => let! (ss, err) := ReadStrings n fuel delim b in Ok (s :: ss, err)
    end
  end.
Fixpoint ReadRunes (n fuel : nat) (b : bufreader) : res (list (Z * Z) * option error) :=
  match n with
  | O => Fuel
  | Datatypes.S n =>
    let! (r, size, err, b) := ReadRune fuel b in
    match err with
    | Some _ => Ok ([], err)
    | None => let! (rs, err) := ReadRunes n fuel b in Ok ((r, size) :: rs, err)
    end
  end.
Fixpoint ReadBytes1 (n fuel : nat) (b : bufreader) : res (list Z * option error) :=
  match n with
  | O => Fuel
  | Datatypes.S n =>
    let! (c, err, b) := ReadByte fuel b in
    match err with
    | Some _ => Ok ([], err)
    | None => let! (cs, err) := ReadBytes1 n fuel b in Ok (c :: cs, err)
    end
  end.
End Reader.
Arguments NewBufReader {S}.
