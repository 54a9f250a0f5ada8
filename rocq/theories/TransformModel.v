(** Model of encoding.go: the golang.org/x/text/transform.Transformer implementations,
    and of the x/text clients through which a user reaches them. *)
From Coq Require Import ZArith List Bool.
From Verif Require Import Base Utf8 SortSearch TableFrom TableTo Cp949Model.
Import ListNotations.
Local Open Scope Z_scope.
Local Open Scope go_scope.

(** The results of Transform(dst, src, atEOF): the content of [dst] after the call, nDst,
    nSrc, err. *)
Definition transform_result : Type := list Z * Z * Z * option error.

(* Go's copy(dst, bs): the content of dst afterwards. *)
Definition go_copy (dst bs : list Z) : list Z :=
  let n := Z.min (zlen dst) (zlen bs) in zwrite dst 0 (ztake n bs).

Section Transform.
Variable grow : Z -> Z -> Z.

(* encoding/cp949/encoding.go:28-38; [atEOF] is not used by the Go code. *)
Definition dec_Transform (dst src : list Z) (atEOF : bool) : res transform_result :=
  let! out := From grow src in
  match out with
  | inr e => Ok (dst, 0, 0, Some e)
  | inl converted => Ok (go_copy dst converted, zlen converted, zlen src, None)
  end.

(* encoding/cp949/encoding.go:43-53 *)
Definition enc_Transform (dst src : list Z) (atEOF : bool) : res transform_result :=
  let! out := To grow src in
  match out with
  | inr e => Ok (dst, 0, 0, Some e)
  | inl converted => Ok (go_copy dst converted, zlen converted, zlen src, None)
  end.
End Transform.

(** * golang.org/x/text v0.14.0 clients (NOT code of /repo)
    encoding.go:15-23 wraps the two transformers in encoding.Decoder and encoding.Encoder;
    their Bytes, Reader and Writer methods delegate to the package
    golang.org/x/text/transform.  That package's source is not in the sandbox; the
    following is its behaviour as published (transform/transform.go), and the theorems
    about it rest on that reading.  Reset is a no-op (encoding.go:56-57). *)
Section Clients.
Variable T : list Z -> list Z -> bool -> res transform_result.

Definition is_short_dst (e : option error) : bool :=
  match e with Some ErrShortDst => true | _ => false end.

(* transform.Bytes(t, b) = doAppend(t, 0, make([]byte, len(b)), b) and
   encoding.Decoder.Bytes / Encoder.Bytes: (result, err), result nil when err is not.
   doAppend loops only on ErrShortDst, growing dst; that branch is kept as [Fuel]-bounded
   recursion with a doubled destination. *)
Fixpoint do_append (fuel : nat) (pDst : Z) (dst : list Z) (pSrc : Z) (src : list Z)
  : res (list Z + error) :=
  match fuel with
  | O => Fuel
  | S fuel =>
    if (pDst >? zlen dst) || (pSrc >? zlen src) then Panic else
    let! (d, nDst, nSrc, err) := T (zdrop pDst dst) (zdrop pSrc src) true in
    let dst := ztake pDst dst ++ d in
    let pDst := pDst + nDst in
    let pSrc := pSrc + nSrc in
    if is_short_dst err then
      do_append fuel pDst (ztake pDst dst ++ zeros (2 * zlen dst + 1 - pDst)) pSrc src
    else if pDst >? zlen dst then Panic     (* dst[:pDst], cap(dst) = len(dst) *)
    else match err with
         | Some e => Ok (inr e)
         | None => Ok (inl (ztake pDst dst))
         end
  end.
Definition Bytes (b : list Z) : res (list Z + error) := do_append 64 0 (zeros (zlen b)) 0 b.

(** transform.Reader *)
Variable RS : Type.
Variable rd : RS -> Z -> list Z * option error * RS.

Definition defaultBufSize : Z := 4096.

Record treader : Type := mkTR {
  t_src : RS;
  t_err : option error;
  t_dst : list Z; t_dst0 : Z; t_dst1 : Z;
  t_sbuf : list Z; t_src0 : Z; t_src1 : Z;
  t_complete : bool
}.

Definition TNewReader (s : RS) : treader :=
  mkTR s None (zeros defaultBufSize) 0 0 (zeros defaultBufSize) 0 0 false.

Definition is_eof (e : option error) : bool := match e with Some EOF => true | _ => false end.
Definition is_none {A} (e : option A) : bool := match e with None => true | _ => false end.
Definition is_short_src (e : option error) : bool :=
  match e with Some ErrShortSrc => true | _ => false end.

(* Move unread source bytes to the front and read more. *)
Definition t_fill (r : treader) : res treader :=
  let keep := zdrop (t_src0 r) (ztake (t_src1 r) (t_sbuf r)) in
  let '(sbuf, s0, s1) :=
    if t_src0 r =? 0 then (t_sbuf r, t_src0 r, t_src1 r)
    else (zwrite (t_sbuf r) 0 keep, 0, zlen keep) in
  let '(bs, err, src) := rd (t_src r) (zlen sbuf - s1) in
  if s1 + zlen bs >? zlen sbuf then Panic else
  Ok (mkTR src err (t_dst r) (t_dst0 r) (t_dst1 r)
           (zwrite sbuf s1 bs) s0 (s1 + zlen bs) (t_complete r)).

Fixpoint TRead (fuel : nat) (r : treader) (buflen : Z)
  : res (list Z * option error * treader) :=
  match fuel with
  | O => Fuel
  | S fuel =>
    if negb (t_dst0 r =? t_dst1 r) then
      (* r.dst[r.dst0:r.dst1] panics beyond the capacity *)
      if (t_dst1 r >? zlen (t_dst r)) || (t_dst0 r >? t_dst1 r) then Panic else
      let n := Z.min buflen (t_dst1 r - t_dst0 r) in
      let out := ztake n (zdrop (t_dst0 r) (t_dst r)) in
      let r' := mkTR (t_src r) (t_err r) (t_dst r) (t_dst0 r + n) (t_dst1 r)
                     (t_sbuf r) (t_src0 r) (t_src1 r) (t_complete r) in
      if (t_dst0 r + n =? t_dst1 r) && t_complete r
      then Ok (out, t_err r, r') else Ok (out, None, r')
    else if t_complete r then Ok ([], t_err r, r)
    else if negb (t_src0 r =? t_src1 r) || negb (is_none (t_err r)) then
      let! (d, nDst, n, err) :=
        T (t_dst r) (zdrop (t_src0 r) (ztake (t_src1 r) (t_sbuf r))) (is_eof (t_err r)) in
      let s0 := t_src0 r + n in
      let mk rerr compl :=
        mkTR (t_src r) rerr d 0 nDst (t_sbuf r) s0 (t_src1 r) compl in
      match err with
      | None =>
        let rerr := if negb (s0 =? t_src1 r) then Some ErrInconsistentByteCount
                    else t_err r in
        TRead fuel (mk rerr (negb (is_none rerr))) buflen
      | Some e =>
        if is_short_dst err && (negb (nDst =? 0) || negb (n =? 0)) then
          TRead fuel (mk (t_err r) (t_complete r)) buflen
        else if is_short_src err && negb (t_src1 r - s0 =? zlen (t_sbuf r))
                && is_none (t_err r) then
          let! r := t_fill (mk (t_err r) (t_complete r)) in TRead fuel r buflen
        else
          let rerr := if is_none (t_err r) || is_eof (t_err r) then Some e else t_err r in
          TRead fuel (mk rerr true) buflen
      end
    else
      let! r := t_fill r in TRead fuel r buflen
  end.

Fixpoint tread_seq (fuel : nat) (r : treader) (sizes : list Z)
  : res (list Z * option error * treader) :=
  match sizes with
  | [] => Ok ([], None, r)
  | k :: sizes =>
    let! (bs, err, r) := TRead fuel r k in
    match err with
    | Some e => Ok (bs, Some e, r)
    | None =>
      let! (bs', err, r) := tread_seq fuel r sizes in
      Ok (bs ++ bs', err, r)
    end
  end.

(** transform.Writer (Encoder.Writer).  Simplified to transformers that
    never return ErrShortSrc or ErrShortDst, as those of encoding.go (lines 28-53): then no
    remainder is ever kept between calls, and one Write is one Transform call followed by
    one write of w.dst[:nDst]; the slice expression panics beyond the 4096 bytes of the
    buffer.  The result is (n, err). *)
Variable WS : Type.
Variable wr : WS -> list Z -> option error * WS.

Record twriter : Type := mkTW { tw_dst : WS; tw_buf : list Z }.
Definition TNewWriter (w : WS) : twriter := mkTW w (zeros defaultBufSize).

Definition TWrite (w : twriter) (data : list Z) : res (Z * option error * twriter) :=
  let! (d, nDst, nSrc, err) := T (tw_buf w) data false in
  if nDst >? zlen d then Panic else
  let '(werr, dst) := wr (tw_dst w) (ztake nDst d) in
  match werr with
  | Some e => Ok (0, Some e, mkTW dst d)
  | None => Ok (nSrc, err, mkTW dst d)
  end.

Fixpoint twrite_seq (w : twriter) (chunks : list (list Z))
  : res (list (Z * option error) * twriter) :=
  match chunks with
  | [] => Ok ([], w)
  | data :: chunks =>
    let! (n, err, w) := TWrite w data in
    let! (rs, w) := twrite_seq w chunks in
    Ok ((n, err) :: rs, w)
  end.
End Clients.

Arguments TNewReader {RS} s.
Arguments TNewWriter {WS} w.
