(** Model of bufio.Scanner with ScanLines and ScanRunes, and of bufio.Writer (Go standard
    library, NOT code of /repo), the usual ways to read a text line by line or character by
    character from a Reader, and to write it piece by piece into a Writer. *)
From Coq Require Import ZArith List Bool.
From Verif Require Import Base Utf8 Cp949Model StreamModel IoModel.
Import ListNotations.
Local Open Scope Z_scope.
Local Open Scope go_scope.

(* bufio.ErrTooLong, ErrNegativeAdvance, ErrAdvanceTooFar, ErrBadReadCount and
   io.ErrNoProgress: errors of the standard library. *)
Definition ErrTooLong : error := ErrOther (-3).
Definition ErrNegativeAdvance : error := ErrOther (-4).
Definition ErrAdvanceTooFar : error := ErrOther (-5).
Definition ErrBadReadCount : error := ErrOther (-6).
Definition ErrNoProgress : error := ErrOther (-7).

Definition MaxScanTokenSize : Z := 65536.          (* bufio/scan.go: 64 * 1024 *)
Definition startBufSize : Z := 4096.               (* bufio/scan.go *)
Definition maxConsecutiveEmptyReads : Z := 100.    (* bufio/bufio.go *)

(** ** Split functions: the unread part of the buffer and whether more can come give the
    number of bytes to advance, the token if there is one, and an error. *)
Definition split_func : Type := list Z -> bool -> res (Z * option (list Z) * option error).

(* bytes.IndexByte *)
Fixpoint IndexByte (s : list Z) (c : Z) : Z :=
  match s with
  | [] => -1
  | b :: s => if b =? c then 0 else let i := IndexByte s c in if i <? 0 then -1 else i + 1
  end.

(* bufio/scan.go: dropCR *)
Definition dropCR (data : list Z) : list Z :=
  match zget data (zlen data - 1) with
  | Some 13 => ztake (zlen data - 1) data
  | _ => data
  end.

(* bufio/scan.go: ScanLines *)
Definition ScanLines : split_func := fun data atEOF =>
  if (atEOF && (zlen data =? 0))%bool then Ok (0, None, None) else
  let i := IndexByte data 10 in
  if 0 <=? i then Ok (i + 1, Some (dropCR (ztake i data)), None) else
  if atEOF then Ok (zlen data, Some (dropCR data), None) else
  Ok (0, None, None).

(* unicode/utf8: FullRune.  A byte that cannot start a character counts as a full one. *)
Definition FullRune (p : list Z) : bool :=
  match p with
  | [] => false
  | p0 :: p' =>
    if p0 <? 0x80 then true else
    match first_info p0 with
    | None => true
    | Some (sz, (lo, hi)) =>
      if sz <=? zlen p then true else
      match p' with
      | b1 :: p'' =>
        if negb (in_range lo hi b1) then true else
        match p'' with
        | b2 :: _ => if negb (in_range 0x80 0xBF b2) then true else false
        | [] => false
        end
      | [] => false
      end
    end
  end.

(* bufio/scan.go: ScanRunes *)
Definition ScanRunes : split_func := fun data atEOF =>
  if (atEOF && (zlen data =? 0))%bool then Ok (0, None, None) else
  let! d0 := get_or_panic (zget data 0) in
  if d0 <? 0x80 then Ok (1, Some (ztake 1 data), None) else
  let width := snd (DecodeRune data) in
  if 1 <? width then Ok (width, Some (ztake width data), None) else
  if (negb atEOF && negb (FullRune data))%bool then Ok (0, None, None) else
  Ok (1, Some (EncodeRune RuneError), None).

Section Scanner.
Variable S : Type.
(* r.Read on a buffer of the given length; it may panic. *)
Variable rd : S -> Z -> res (list Z * option error * S).
Variable split : split_func.

(* bufio/scan.go: Scanner.  [sc_len] is len(s.buf), [sc_pend] is s.buf[s.start:s.end]; the
   other bytes of the buffer are never looked at.  The field done is only set by a split
   function that returns ErrFinalToken, which neither of the two does. *)
Record scanner : Type := mkScanner {
  sc_src : S;
  sc_len : Z;
  sc_start : Z;
  sc_pend : list Z;
  sc_err : option error;
  sc_empties : Z
}.
Definition NewScanner (s : S) : scanner := mkScanner s 0 0 [] None 0.

(* bufio/scan.go: setErr *)
Definition setErr (s : scanner) (e : error) : scanner :=
  mkScanner (sc_src s) (sc_len s) (sc_start s) (sc_pend s)
    (match sc_err s with None | Some EOF => Some e | old => old end) (sc_empties s).

(* bufio/scan.go: Err *)
Definition Err (s : scanner) : option error :=
  match sc_err s with Some EOF => None | e => e end.

(* bufio/scan.go, Scan: the loop that reads until something arrives; [loop] is the number of
   reads without data that are still tolerated. *)
Fixpoint read_more (loop : nat) (s : scanner) : res scanner :=
  match loop with
  | O => Ok (setErr s ErrNoProgress)
  | Datatypes.S loop =>
    let room := sc_len s - (sc_start s + zlen (sc_pend s)) in
    let! (bs, err, src) := rd (sc_src s) room in
    if room <? zlen bs then
      Ok (setErr (mkScanner src (sc_len s) (sc_start s) (sc_pend s) (sc_err s) (sc_empties s)) ErrBadReadCount)
    else
    let s' := mkScanner src (sc_len s) (sc_start s) (sc_pend s ++ bs) (sc_err s) (sc_empties s) in
    match err with
    | Some e => Ok (setErr s' e)
    | None =>
      if 0 <? zlen bs then Ok (mkScanner src (sc_len s) (sc_start s) (sc_pend s ++ bs) (sc_err s) 0)
      else read_more loop s'
    end
  end.

(* bufio/scan.go, Scan: shift the data to the front of the buffer, or enlarge the buffer, or
   give up. *)
Definition shift (s : scanner) : scanner :=
  if ((0 <? sc_start s) && ((sc_start s + zlen (sc_pend s) =? sc_len s) || (go_div (sc_len s) 2 <? sc_start s)))%bool
  then mkScanner (sc_src s) (sc_len s) 0 (sc_pend s) (sc_err s) (sc_empties s) else s.
Definition enlarge (s : scanner) : option scanner :=
  if sc_start s + zlen (sc_pend s) =? sc_len s then
    if MaxScanTokenSize <=? sc_len s then None else
    let n := sc_len s * 2 in
    let n := if n =? 0 then startBufSize else n in
    Some (mkScanner (sc_src s) (Z.min n MaxScanTokenSize) 0 (sc_pend s) (sc_err s) (sc_empties s))
  else Some s.

(* bufio/scan.go: Scan.  The result is the token, or none when Scan returns false. *)
Fixpoint Scan (fuel : nat) (s : scanner) : res (option (list Z) * scanner) :=
  match fuel with
  | O => Fuel
  | Datatypes.S fuel =>
    let more (s : scanner) :=
      match sc_err s with
      | Some _ => Ok (None, mkScanner (sc_src s) (sc_len s) 0 [] (sc_err s) (sc_empties s))
      | None =>
        match enlarge (shift s) with
        | None => Ok (None, setErr (shift s) ErrTooLong)
        | Some s => let! s := read_more (Z.to_nat (maxConsecutiveEmptyReads + 1)) s in Scan fuel s
        end
      end in
    let has_err := match sc_err s with Some _ => true | None => false end in
    if ((0 <? zlen (sc_pend s)) || has_err)%bool then
      let! (adv, token, err) := split (sc_pend s) has_err in
      match err with
      | Some e => Ok (None, setErr s e)
      | None =>
        if adv <? 0 then Ok (None, setErr s ErrNegativeAdvance) else
        if zlen (sc_pend s) <? adv then Ok (None, setErr s ErrAdvanceTooFar) else
        let after empties := mkScanner (sc_src s) (sc_len s) (sc_start s + adv) (zdrop adv (sc_pend s)) (sc_err s) empties in
        match token with
        | Some t =>
          if (negb has_err || (0 <? adv))%bool then Ok (Some t, after 0)
          else if maxConsecutiveEmptyReads <? sc_empties s + 1 then Panic
          else Ok (Some t, after (sc_empties s + 1))
        | None => more (after (sc_empties s))
        end
      end
    else more s
  end.

(** The idiom "for sc.Scan() { … sc.Text() … }; sc.Err()". *)
Fixpoint ScanAll (fuel : nat) (s : scanner) : res (list (list Z) * option error) :=
  match fuel with
  | O => Fuel
  | Datatypes.S fuel' =>
    let! (token, s) := Scan fuel s in
    match token with
    | None => Ok ([], Err s)
    | Some t => let! (ts, e) := ScanAll fuel' s in Ok (t :: ts, e)
    end
  end.
End Scanner.

Section BufWriter.
Variable D : Type.
(* wr.Write; it may panic. *)
Variable wr : D -> list Z -> res (Z * option error * D).

(* bufio/bufio.go: Writer; [bw_buf] is b.buf[:b.n], [bw_size] is len(b.buf). *)
Record bufwriter : Type := mkBufWriter {
  bw_dst : D;
  bw_size : Z;
  bw_buf : list Z;
  bw_err : option error
}.
Definition defaultBufSize : Z := 4096.
(* bufio/bufio.go: NewWriterSize *)
Definition NewBufWriter (size : Z) (d : D) : bufwriter :=
  mkBufWriter d (if size <=? 0 then defaultBufSize else size) [] None.

Definition Available (b : bufwriter) : Z := bw_size b - zlen (bw_buf b).

(* bufio/bufio.go: Flush *)
Definition Flush (b : bufwriter) : res (option error * bufwriter) :=
  match bw_err b with
  | Some e => Ok (Some e, b)
  | None =>
    if zlen (bw_buf b) =? 0 then Ok (None, b) else
    let! (n, err, d) := wr (bw_dst b) (bw_buf b) in
    let err := match err with
               | None => if n <? zlen (bw_buf b) then Some ErrShortWrite else None
               | Some e => Some e
               end in
    match err with
    | Some e =>
      let rest := if ((0 <? n) && (n <? zlen (bw_buf b)))%bool then zdrop n (bw_buf b)
                  else ztake (zlen (bw_buf b) - n) (bw_buf b) in
      Ok (Some e, mkBufWriter d (bw_size b) rest (Some e))
    | None => Ok (None, mkBufWriter d (bw_size b) [] None)
    end
  end.

(* bufio/bufio.go: Write *)
Fixpoint BufWrite (fuel : nat) (b : bufwriter) (p : list Z) (nn : Z) : res (Z * option error * bufwriter) :=
  match fuel with
  | O => Fuel
  | Datatypes.S fuel =>
    match bw_err b with
    | Some e => Ok (nn, Some e, b)
    | None =>
      if Available b <? zlen p then
        if zlen (bw_buf b) =? 0 then
          let! (n, err, d) := wr (bw_dst b) p in
          if (n <? 0) || (zlen p <? n) then Panic else
          BufWrite fuel (mkBufWriter d (bw_size b) [] err) (zdrop n p) (nn + n)
        else
          let n := Available b in
          let! (_, b) := Flush (mkBufWriter (bw_dst b) (bw_size b) (bw_buf b ++ ztake n p) None) in
          BufWrite fuel b (zdrop n p) (nn + n)
      else Ok (nn + zlen p, None, mkBufWriter (bw_dst b) (bw_size b) (bw_buf b ++ p) None)
    end
  end.

(* bufio/bufio.go: WriteString, over a writer without a WriteString method, as cp949Writer:
   unlike Write it never bypasses the buffer. *)
Fixpoint BufWriteString (fuel : nat) (b : bufwriter) (s : list Z) (nn : Z) : res (Z * option error * bufwriter) :=
  match fuel with
  | O => Fuel
  | Datatypes.S fuel =>
    match bw_err b with
    | Some e => Ok (nn, Some e, b)
    | None =>
      if Available b <? zlen s then
        let n := Available b in
        let! (_, b) := Flush (mkBufWriter (bw_dst b) (bw_size b) (bw_buf b ++ ztake n s) None) in
        BufWriteString fuel b (zdrop n s) (nn + n)
      else Ok (nn + zlen s, None, mkBufWriter (bw_dst b) (bw_size b) (bw_buf b ++ s) None)
    end
  end.

(* bufio/bufio.go: WriteByte *)
Definition WriteByte (b : bufwriter) (c : Z) : res (option error * bufwriter) :=
  match bw_err b with
  | Some e => Ok (Some e, b)
  | None =>
    let! (err, b) := (if Available b <=? 0 then Flush b else Ok (None, b)) in
    match err with
    | Some e => Ok (Some e, b)
    | None => Ok (None, mkBufWriter (bw_dst b) (bw_size b) (bw_buf b ++ [c]) None)
    end
  end.

(* bufio/bufio.go: WriteRune *)
Definition WriteRune (fuel : nat) (b : bufwriter) (r : Z) : res (Z * option error * bufwriter) :=
  if to_u32 r <? 0x80 then
    let! (err, b) := WriteByte b (to_u8 r) in
    Ok (match err with Some _ => 0 | None => 1 end, err, b)
  else
  match bw_err b with
  | Some e => Ok (0, Some e, b)
  | None =>
    let! (err, b) := (if Available b <? UTFMax then Flush b else Ok (None, b)) in
    match err with
    | Some e => Ok (0, Some e, b)
    | None =>
      if Available b <? UTFMax then BufWriteString fuel b (EncodeRune r) 0 else
      Ok (zlen (EncodeRune r), None, mkBufWriter (bw_dst b) (bw_size b) (bw_buf b ++ EncodeRune r) None)
    end
  end.

(** A text written in pieces, by Write or WriteString, or character by character, and flushed
    at the end; the results of single writes are ignored, as b keeps the first error and
    Flush returns it. *)
Inductive piece : Type := ByWrite (p : list Z) | ByWriteString (s : list Z).
Definition piece_bytes (p : piece) : list Z := match p with ByWrite p | ByWriteString p => p end.
Fixpoint BufWrites (fuel : nat) (b : bufwriter) (ps : list piece) : res (option error * bufwriter) :=
  match ps with
  | [] => Flush b
  | ByWrite p :: ps => let! (_, b) := BufWrite fuel b p 0 in BufWrites fuel b ps
  | ByWriteString s :: ps => let! (_, b) := BufWriteString fuel b s 0 in BufWrites fuel b ps
  end.
Fixpoint WriteRunes (fuel : nat) (b : bufwriter) (rs : list Z) : res (option error * bufwriter) :=
  match rs with
  | [] => Flush b
  | r :: rs => let! (_, b) := WriteRune fuel b r in WriteRunes fuel b rs
  end.
End BufWriter.
