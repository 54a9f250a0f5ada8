(** Model of the readers and writers of the Go standard library that are made of others
    (io.MultiReader, io.LimitReader, io.TeeReader, bufio.Reader, iotest.OneByteReader,
    iotest.HalfReader, io.MultiWriter; NOT code of /repo), as far as
    Read and Write are concerned. *)
From Coq Require Import ZArith List Bool.
From Verif Require Import Base Cp949Model StreamModel IoModel.
Import ListNotations.
Local Open Scope Z_scope.
Local Open Scope go_scope.

Section Compose.
Variable RS : Type.
(* the readers everything is made of: files, connections, and so on *)
Variable rd : RS -> Z -> list Z * option error * RS.

(** A reader with its state.  [Buffered]: b.buf[b.r:b.w], b.err and len(b.buf) (at least 16);
    [Tee]: what was written to its writer so far, a bytes.Buffer. *)
Inductive composed :=
| Plain (s : RS)
| Multi (readers : list composed)
| Limit (N : Z) (R : composed)
| Tee (R : composed) (w : list Z)
| Buffered (size : Z) (buf : list Z) (err : option error) (R : composed)
| OneByte (R : composed)
| Half (R : composed).

(* io/multi.go: multiReader.Read, the loop over the readers that are left; [read] reads from
   one of them.  That a MultiReader with one reader left which is a MultiReader itself takes
   over the readers of that one makes no difference to what is read. *)
Definition multi_read (read : composed -> list Z * option error * composed)
  : list composed -> list Z * option error * list composed :=
  fix go (readers : list composed) :=
  match readers with
  | [] => ([], Some EOF, [])
  | r :: rest =>
    let '(bs, err, r') := read r in
    match err with
    | Some EOF =>
      if 0 <? zlen bs
      then (bs, match rest with [] => Some EOF | _ => None end, rest)
      else go rest
    | _ => (bs, err, r' :: rest)
    end
  end.

(* the Read methods, called with a buffer of [k] bytes *)
Fixpoint read (c : composed) (k : Z) {struct c} : list Z * option error * composed :=
  match c with
  | Plain s => let '(bs, err, s') := rd s k in (bs, err, Plain s')
  | Multi readers =>
    let '(bs, err, readers') := multi_read (fun r => read r k) readers in
    (bs, err, Multi readers')
  | Limit N R =>                                     (* io/io.go: LimitedReader.Read *)
    if N <=? 0 then ([], Some EOF, c) else
    let '(bs, err, R') := read R (if N <? k then N else k) in
    (bs, err, Limit (N - zlen bs) R')
  | Tee R w =>                                       (* io/io.go: teeReader.Read *)
    let '(bs, err, R') := read R k in
    (bs, err, Tee R' (w ++ bs))
  | Buffered size buf err R =>                       (* bufio/bufio.go: Reader.Read *)
    if k =? 0 then
      if 0 <? zlen buf then ([], None, c) else ([], err, Buffered size buf None R)
    else
    match buf with
    | [] =>
      match err with
      | Some _ => ([], err, Buffered size [] None R)
      | None =>
        if size <=? k then
          let '(bs, err, R') := read R k in (bs, err, Buffered size [] None R')
        else
          let '(bs, err, R') := read R size in
          if zlen bs =? 0 then ([], err, Buffered size [] None R')
          else (ztake k bs, None, Buffered size (zdrop k bs) err R')
      end
    | _ => (ztake k buf, None, Buffered size (zdrop k buf) err R)
    end
  | OneByte R =>                                     (* testing/iotest: oneByteReader.Read *)
    if k =? 0 then ([], None, c) else
    let '(bs, err, R') := read R 1 in (bs, err, OneByte R')
  | Half R =>                                        (* testing/iotest: halfReader.Read *)
    let '(bs, err, R') := read R ((k + 1) / 2) in (bs, err, Half R')
  end.
End Compose.
Arguments Plain {RS}. Arguments Multi {RS}. Arguments Limit {RS}. Arguments Tee {RS}.
Arguments Buffered {RS}. Arguments OneByte {RS}. Arguments Half {RS}.

(* io/multi.go: multiWriter.Write; [write] writes to one of the writers.  The result, and the
   writers. *)
Fixpoint multi_write {W} (write : W -> list Z -> res (Z * option error * W)) (ws : list W) (p : list Z)
  : res (Z * option error * list W) :=
  match ws with
  | [] => Ok (zlen p, None, [])
  | w :: rest =>
    let! (n, err, w) := write w p in
    match err with
    | Some _ => Ok (n, err, w :: rest)
    | None =>
      if n =? zlen p then
        let! (n, err, rest) := multi_write write rest p in Ok (n, err, w :: rest)
      else Ok (n, Some ErrShortWrite, w :: rest)
    end
  end.

(* a client that Writes the chunks one after the other to a MultiWriter, whatever happens;
   the results of the Writes, and the writers *)
Fixpoint multi_writes {W} (write : W -> list Z -> res (Z * option error * W)) (ws : list W) (chunks : list (list Z))
  : res (list (Z * option error) * list W) :=
  match chunks with
  | [] => Ok ([], ws)
  | p :: chunks =>
    let! (n, err, ws) := multi_write write ws p in
    let! (results, ws) := multi_writes write ws chunks in
    Ok ((n, err) :: results, ws)
  end.

(** ** io.Pipe
    One goroutine writes to the pipe and closes it, another one reads.  Write hands its bytes
    over to Reads and returns when all have been taken, so the writing goroutine does not go
    on before, and a Read waits for the next Write; a Write without bytes is answered by one
    Read without bytes.  What the goroutines do apart from that concerns nobody else.  So a
    Read is: take of the current Write, or let the writing goroutine go on to its next one.

    [raw_pipe]: the goroutine Writes the given strings and closes the pipe with the error, EOF
    for Close (io/pipe.go: pipe.read, pipe.write, pipe.closeWrite). *)
Definition raw_pipe (e : error) (s : list (list Z)) (k : Z) : list Z * option error * list (list Z) :=
  match s with
  | [] => ([], Some e, [])
  | b :: rest => (ztake k b, None, if zlen b <=? k then rest else zdrop k b :: rest)
  end.

(** The goroutine makes the Writes [chunks] on a Writer [w] over the pipe, and closes it.
    [offered] is what is left of the current Write of the pipe.  Capturing what Write hands to
    the pipe is what the wrapped writer is for here. *)
Record encoding_goroutine : Type := mkGoroutine {
  g_offered : option (list Z);
  g_writer : writer (option (list Z));
  g_chunks : list (list Z)
}.
Definition offer (_ : option (list Z)) (bs : list Z) : option error * option (list Z) := (None, Some bs).
(* the goroutine until it Writes to the pipe or ends *)
Fixpoint go_on (grow : Z -> Z -> Z) (w : writer (option (list Z))) (chunks : list (list Z)) : res encoding_goroutine :=
  match chunks with
  | [] => Ok (mkGoroutine None w [])
  | data :: chunks =>
    let! (n, err, w) := Write grow _ offer (mkWriter _ None (w_scratch _ w) (w_buf _ w)) data in
    match w_dst _ w with
    | Some bs => Ok (mkGoroutine (Some bs) w chunks)
    | None => go_on grow w chunks
    end
  end.
Definition encoding_pipe (grow : Z -> Z -> Z) (e : error) (g : encoding_goroutine) (k : Z)
  : list Z * option error * encoding_goroutine :=
  match match g_offered g with Some _ => Ok g | None => go_on grow (g_writer g) (g_chunks g) end with
  | Ok (mkGoroutine (Some b) w chunks) =>
    (ztake k b, None, mkGoroutine (if zlen b <=? k then None else Some (zdrop k b)) w chunks)
  | Ok (mkGoroutine None w chunks) => ([], Some e, mkGoroutine None w chunks)
  | _ => ([], None, g)                              (* a panic in the writing goroutine *)
  end.
