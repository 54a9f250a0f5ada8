(** Model of package cp949, whole-buffer conversion: cp949.go, err.go and the functions
    From and To of public.go.  lookup_from.go and lookup_to.go are transcribed in
    TableFrom.v and TableTo.v. *)
From Coq Require Import ZArith List Bool.
From Verif Require Import Base Utf8 SortSearch TableFrom TableTo.
Import ListNotations.
Local Open Scope Z_scope.
Local Open Scope go_scope.

(** The error values that occur: the package's own (encoding/cp949/err.go:9-10), io.EOF,
    the errors of golang.org/x/text/transform (used only by TransformModel.v), and errors
    of a caller-supplied reader or writer, told apart by a number. *)
Inductive error : Type :=
| ErrCP949UnexpectedStream
| EOF
| ErrShortDst
| ErrShortSrc
| ErrInconsistentByteCount
| ErrOther (code : Z).

Section Cp949.
(* The capacity chosen by the Go runtime when the built-in append must reallocate; see
   [go_append].  Every theorem holds for every choice. *)
Variable grow : Z -> Z -> Z.

(** * Buffers *)

(* encoding/cp949/cp949.go:130-139, the growth loop: [m] is the candidate capacity.
   [fuel] bounds the iterations. *)
Fixpoint grow_loop (fuel : nat) (m n : Z) : res Z :=
  match fuel with
  | O => Fuel
  | S fuel =>
    let m := if m <? 1024 then m + m else m + go_div m 4 in
    if m >=? n then Ok m else grow_loop fuel m n
  end.

(* encoding/cp949/cp949.go:121-144 *)
Definition ensureCap (s : slice) (n : Z) : res slice :=
  if n <=? scap s then Ok s
  else
    let m := scap s in
    let! m := if m =? 0 then Ok n else grow_loop (Z.to_nat n) m n in
    let t := mkSlice (zeros m) (slen s) in
    Ok (mkSlice (zwrite (arr t) 0 (contents s)) (slen t)).

(* encoding/cp949/cp949.go:147-152.  [buf[n:n+utf8.UTFMax]] panics when the capacity is
   too small; utf8.EncodeRune writes 1 to 4 bytes into that 4-byte window. *)
Definition appendRune (buf : slice) (r : Z) : res slice :=
  let n := slen buf in
  let! buf := ensureCap buf (n + UTFMax) in
  if n + UTFMax >? scap buf then Panic else
  let bs := EncodeRune r in
  let nu := zlen bs in
  reslice (mkSlice (zwrite (arr buf) n bs) (slen buf)) (n + nu).

(** * Translators
    [translateCp949] (encoding/cp949/cp949.go:26-29): the fields of the receiver are
    passed as [table] and [scratch].  A Translate method returns its three results and the
    new value of the receiver's [scratch]; [None] for the second result is a nil slice. *)

(* encoding/cp949/cp949.go:50-55: the predicate given to sort.Search. *)
Definition from_pred (table : list lookupItem) (n : Z) (i : Z) : res bool :=
  let! it := get_or_panic (zget table i) in
  Ok (if n <=? cp949 it then true else false).

(* encoding/cp949/cp949.go:37-65, the loop, and 66, the final return.  [data] is the
   remaining input, [c] the number of bytes consumed so far. *)
Fixpoint from_loop (fuel : nat) (table : list lookupItem) (scratch : slice)
    (data : list Z) (c : Z) : res (Z * option slice * option error * slice) :=
  match data with
  | [] => Ok (c, Some scratch, None, scratch)
  | d0 :: rest =>
    match fuel with
    | O => Fuel
    | S fuel =>
      if Z.land d0 0x80 =? 0 then
        from_loop fuel table (go_append grow scratch [d0]) rest (c + 1)
      else
        match rest with
        | [] => Ok (0, None, Some ErrCP949UnexpectedStream, scratch)
        | d1 :: rest =>
          let n := Z.lor (to_u16 (Z.shiftl d0 8)) d1 in
          let! fi := Search (zlen table) (from_pred table n) in
          let! hit :=
            (if fi <? zlen table then
               let! it := get_or_panic (zget table fi) in Ok (n =? cp949 it)
             else Ok false) in
          let! scratch :=
            (if hit : bool then
               let! f := get_or_panic (zget table fi) in
               appendRune scratch (ucs2 f)
             else appendRune scratch RuneError) in
          from_loop fuel table scratch rest (c + 2)
        end
    end
  end.

(* encoding/cp949/cp949.go:34-67 *)
Definition from_Translate (table : list lookupItem) (scratch : slice) (data : list Z)
    : res (Z * option slice * option error * slice) :=
  let! scratch := reslice scratch 0 in
  from_loop (length data) table scratch data 0.

(* encoding/cp949/cp949.go:85-90 *)
Definition to_pred (table : list lookupItem) (u : Z) (i : Z) : res bool :=
  let! it := get_or_panic (zget table i) in
  Ok (if u <=? ucs2 it then true else false).

(* encoding/cp949/cp949.go:75-106, the loop, and 107, the final return. *)
Fixpoint to_loop (fuel : nat) (table : list lookupItem) (scratch : slice)
    (data : list Z) (c : Z) : res (Z * option slice * option error * slice) :=
  match data with
  | [] => Ok (c, Some scratch, None, scratch)
  | d0 :: rest =>
    match fuel with
    | O => Fuel
    | S fuel =>
      if Z.land d0 0x80 =? 0 then
        to_loop fuel table (go_append grow scratch [d0]) rest (c + 1)
      else
        let '(r, s) := DecodeRune data in
        let rUcs2 := to_u16 r in
        let! fi := Search (zlen table) (to_pred table rUcs2) in
        let scratch :=
          if fi >=? zlen table then go_append grow scratch [0x3F] else scratch in
        let! hit :=
          (if fi <? zlen table then
             let! it := get_or_panic (zget table fi) in Ok (rUcs2 =? ucs2 it)
           else Ok false) in
        let! scratch :=
          (if hit : bool then
             let! f := get_or_panic (zget table fi) in
             Ok (go_append grow scratch
                   [to_u8 (Z.shiftr (cp949 f) 8); to_u8 (Z.land (cp949 f) 0xff)])
           else Ok (go_append grow scratch [0x3F])) in
        if s >? zlen data then Panic else   (* data[s:] *)
        to_loop fuel table scratch (zdrop s data) (c + s)
    end
  end.

(* encoding/cp949/cp949.go:72-108 *)
Definition to_Translate (table : list lookupItem) (scratch : slice) (data : list Z)
    : res (Z * option slice * option error * slice) :=
  let! scratch := reslice scratch 0 in
  to_loop (length data) table scratch data 0.

(** * Whole-buffer API
    The result of From/To is the returned pair: [inl bytes] for (bytes, nil) and [inr err]
    for (nil, err).  fromCp949 and toCp949 (cp949.go:110-116) build a fresh translator
    with a nil scratch buffer and never return an error, so the first error check of
    From/To is dead code and is not represented. *)
Definition of_translate (t : Z * option slice * option error * slice)
    : list Z + error :=
  let '(_, out, err, _) := t in
  match err with
  | Some e => inr e
  | None => match out with Some s => inl (contents s) | None => inl [] end
  end.

(* encoding/cp949/public.go:12-24 *)
Definition From (data : list Z) : res (list Z + error) :=
  let! t := from_Translate fromTable nil_slice data in
  Ok (of_translate t).

(* encoding/cp949/public.go:27-39 *)
Definition To (data : list Z) : res (list Z + error) :=
  let! t := to_Translate toTable nil_slice data in
  Ok (of_translate t).

End Cp949.

(** * Histories
    One translator used for several conversions, as Reader and Writer do
    (encoding/cp949/public.go:78, 118): each call starts from the scratch buffer the
    previous call left.  [outcome] is what the caller sees of one call. *)
Definition outcome (t : Z * option slice * option error * slice) : Z * option (list Z) * option error :=
  let '(n, out, e, _) := t in (n, option_map contents out, e).
Definition scratch_of (t : Z * option slice * option error * slice) : slice := let '(_, _, _, s) := t in s.

(** What a sequence of calls on one translator returns. *)
Fixpoint translate_all (tr : slice -> list Z -> res (Z * option slice * option error * slice))
    (scratch : slice) (inputs : list (list Z)) : list (res (Z * option (list Z) * option error)) :=
  match inputs with
  | [] => []
  | d :: inputs =>
    match tr scratch d with
    | Ok t => Ok (outcome t) :: translate_all tr (scratch_of t) inputs
    | Panic => [Panic]
    | Fuel => [Fuel]
    end
  end.
