(** Model of the streaming API of package cp949: NewReader/Read and NewWriter/Write of
    public.go. *)
From Coq Require Import ZArith List Bool.
From Verif Require Import Base Utf8 SortSearch TableFrom TableTo Cp949Model.
Import ListNotations.
Local Open Scope Z_scope.
Local Open Scope go_scope.

(** * Reader *)
Section Reader.
Variable grow : Z -> Z -> Z.

(** The wrapped io.Reader: an arbitrary state machine.  [rd s k] is Read on a buffer of
    length [k] in state [s]: the bytes stored at the start of the buffer (their number is
    Go's n), the error, and the new state. *)
Variable RS : Type.
Variable rd : RS -> Z -> list Z * option error * RS.

(* encoding/cp949/public.go:41-47.  [scratch] is the translator's output buffer
   (cp949.go:28); [cdata] is a slice OF that buffer, so it is represented by its bounds
   [cdata_lo, cdata_hi) in the scratch array, which keeps the aliasing of the Go code. *)
Record reader : Type := mkReader {
  r_src : RS;
  r_scratch : slice;
  r_cdata_lo : Z;
  r_cdata_hi : Z;
  r_rdata : slice;
  r_err : option error
}.

Definition cdata (r : reader) : list Z :=
  zdrop (r_cdata_lo r) (ztake (r_cdata_hi r) (arr (r_scratch r))).

(* encoding/cp949/public.go:50-57 *)
Definition NewReader (s : RS) : reader := mkReader s nil_slice 0 0 nil_slice None.

(* encoding/cp949/public.go:66-74: extend rdata's capacity by the caller's buffer length,
   read into the spare capacity, record the error.  Storing more bytes than the buffer
   holds is impossible for the wrapped reader; reporting more makes line 73 panic. *)
Definition fill (r : reader) (buflen : Z) : res reader :=
  let! rdata := ensureCap (r_rdata r) (slen (r_rdata r) + buflen) in
  let '(bs, err, src) := rd (r_src r) (scap rdata - slen rdata) in
  let n := zlen bs in
  let err := match err with
             | None => if n =? 0 then Some EOF else None
             | Some e => Some e
             end in
  if slen rdata + n >? scap rdata then Panic else
  let! rdata := reslice (mkSlice (zwrite (arr rdata) (slen rdata) bs) (slen rdata))
                        (slen rdata + n) in
  Ok (mkReader src (r_scratch r) (r_cdata_lo r) (r_cdata_hi r) rdata err).

(* encoding/cp949/public.go:78-91: translate rdata, keep the translated bytes as cdata,
   move the unconsumed bytes to the front of rdata. *)
Definition convert (r : reader) : res reader :=
  let rdata := r_rdata r in
  let! t := from_Translate grow fromTable (r_scratch r) (contents rdata) in
  let '(nc, cd, _, scratch) := t in
  let hi := match cd with Some s => slen s | None => 0 end in
  let nc := match r_err r with
            | Some _ => if nc =? 0 then slen rdata else nc
            | None => nc
            end in
  if nc >? slen rdata then Panic else
  let rest := zdrop nc (contents rdata) in
  let! rdata := reslice (mkSlice (zwrite (arr rdata) 0 rest) (slen rdata)) (zlen rest) in
  Ok (mkReader (r_src r) scratch 0 hi rdata (r_err r)).

(* encoding/cp949/public.go:59-94.  The result is the bytes copied to the front of the
   caller's buffer (Go's n is their number; the rest of the buffer is untouched), the
   error, and the new state of the reader. *)
Fixpoint Read (fuel : nat) (r : reader) (buflen : Z)
  : res (list Z * option error * reader) :=
  match fuel with
  | O => Fuel
  | S fuel =>
    if r_cdata_hi r - r_cdata_lo r >? 0 then
      let n := Z.min buflen (r_cdata_hi r - r_cdata_lo r) in
      Ok (ztake n (cdata r), None,
          mkReader (r_src r) (r_scratch r) (r_cdata_lo r + n) (r_cdata_hi r)
                   (r_rdata r) (r_err r))
    else
      match r_err r with
      | None =>
        let! r := fill r buflen in
        let! r := convert r in
        Read fuel r buflen
      | Some _ =>
        if slen (r_rdata r) =? 0 then Ok ([], r_err r, r)
        else
          let! r := convert r in
          Read fuel r buflen
      end
  end.

(** A client that calls Read once per element of [sizes], stopping at the first error.
    The result is the bytes received, the error (or [None] if [sizes] ran out first) and
    the reader's final state. *)
Fixpoint read_seq (fuel : nat) (r : reader) (sizes : list Z)
  : res (list Z * option error * reader) :=
  match sizes with
  | [] => Ok ([], None, r)
  | k :: sizes =>
    let! (bs, err, r) := Read fuel r k in
    match err with
    | Some e => Ok (bs, Some e, r)
    | None =>
      let! (bs', err, r) := read_seq fuel r sizes in
      Ok (bs ++ bs', err, r)
    end
  end.

End Reader.

Arguments NewReader {RS} s.

(** * Writer *)
Section Writer.
Variable grow : Z -> Z -> Z.

(** The wrapped io.Writer: [wr s bs] is Write(bs) in state [s]: its error and the new
    state.  The byte count it returns is ignored by the code (public.go:123). *)
Variable WS : Type.
Variable wr : WS -> list Z -> option error * WS.

(* encoding/cp949/public.go:96-100.  [w_buf] is the content of the unconsumed-data
   buffer; its capacity is not observable. *)
Record writer : Type := mkWriter {
  w_dst : WS;
  w_scratch : slice;
  w_buf : list Z
}.

(* encoding/cp949/public.go:103-110 *)
Definition NewWriter (s : WS) : writer := mkWriter s nil_slice [].

(* encoding/cp949/public.go:112-133 *)
Definition Write (w : writer) (data : list Z) : res (Z * option error * writer) :=
  let buf := if zlen (w_buf w) >? 0 then w_buf w ++ data else w_buf w in
  let wdata := if zlen (w_buf w) >? 0 then buf else data in
  let! t := to_Translate grow toTable (w_scratch w) wdata in
  let '(n, cd, _, scratch) := t in
  let bytes := match cd with Some s => contents s | None => [] end in
  let '(err, dst) := if n >? 0 then wr (w_dst w) bytes else (None, w_dst w) in
  match err with
  | Some e => Ok (0, Some e, mkWriter dst scratch buf)
  | None =>
    let buf := if n <? zlen wdata then zdrop n wdata else [] in
    Ok (zlen data, None, mkWriter dst scratch buf)
  end.

(** A client that writes the chunks in order, stopping at the first error; the result is
    the list of returned (n, err) pairs and the final state. *)
Fixpoint write_seq (w : writer) (chunks : list (list Z))
  : res (list (Z * option error) * writer) :=
  match chunks with
  | [] => Ok ([], w)
  | d :: chunks =>
    let! (n, err, w) := Write w d in
    match err with
    | Some e => Ok ([(n, Some e)], w)
    | None =>
      let! (rs, w) := write_seq w chunks in
      Ok ((n, None) :: rs, w)
    end
  end.

(** A client that goes on after errors. *)
Fixpoint write_all (w : writer) (chunks : list (list Z))
  : res (list (Z * option error) * writer) :=
  match chunks with
  | [] => Ok ([], w)
  | d :: chunks =>
    let! (n, err, w) := Write w d in
    let! (rs, w) := write_all w chunks in
    Ok ((n, err) :: rs, w)
  end.

End Writer.

Arguments NewWriter {WS} s.
