(** Model of the String methods of the encoding.Decoder and encoding.Encoder built by
    encoding.go:15-23.

    As in TransformModel.v, section Clients, this is NOT code of /repo: it is
    golang.org/x/text v0.14.0, transform/transform.go, func String, and encoding/encoding.go,
    Decoder.String and Encoder.String, as published.  The theorems that mention [String]
    rest on this reading. *)
From Coq Require Import ZArith List Bool.
From Verif Require Import Base Cp949Model TransformModel.
Import ListNotations.
Local Open Scope Z_scope.
Local Open Scope go_scope.

Section StringClient.
Variable T : list Z -> list Z -> bool -> res transform_result.

Definition initialBufSize : Z := 128.

Definition bytes_eqb (a b : list Z) : bool := if list_eq_dec Z.eq_dec a b then true else false.

(* func grow(b []byte, n int) []byte *)
Definition x_grow (b : list Z) (n : Z) : list Z :=
  let m := zlen b in
  let m := if m <=? 32 then 64 else if m <=? 256 then 2 * m else m + go_div m 2 in
  go_copy (zeros m) (ztake n b).

(* What the first loop leaves behind when it is left by break: dst, src, nDst, nSrc,
   pPrefix, pDst, pSrc, err. *)
Record loop1_state : Type := mkL1 {
  l_dst : list Z; l_src : list Z; l_nDst : Z; l_nSrc : Z;
  l_prefix : Z; l_pDst : Z; l_pSrc : Z; l_err : option error
}.

(* The first loop: as long as the output equals the input, nothing is stored.  On entry of
   an iteration pDst = pSrc = pPrefix (the invariant stated in the Go code), here [p].
   Slice expressions beyond the capacity panic; dst and src have capacity 128. *)
Fixpoint string_loop1 (fuel : nat) (s : list Z) (dst src : list Z) (p : Z)
  : res (list Z * option error + loop1_state) :=
  match fuel with
  | O => Fuel
  | S fuel =>
    let n := Z.min (zlen src) (zlen (zdrop p s)) in
    let src := go_copy src (zdrop p s) in
    let! (dst, nDst, nSrc, err) := T dst (ztake n src) (p + n =? zlen s) in
    let pDst := p + nDst in
    let pSrc := p + nSrc in
    if (nDst >? zlen dst) || (nSrc >? zlen src) then Panic else
    if negb (bytes_eqb (ztake nDst dst) (ztake nSrc src)) then
      Ok (inr (mkL1 dst src nDst nSrc p pDst pSrc err))
    else if is_short_dst err then Ok (inr (mkL1 dst src nDst nSrc pSrc pDst pSrc err))
    else if is_short_src err then
      if nSrc =? 0 then Ok (inr (mkL1 dst src nDst nSrc pSrc pDst pSrc err))
      else string_loop1 fuel s dst src pSrc
    else if negb (is_none err) || (pSrc =? zlen s) then Ok (inl (ztake pSrc s, err))
    else string_loop1 fuel s dst src pSrc
  end.

(* The second loop: transform the remaining input. *)
Fixpoint string_loop2 (fuel : nat) (s : list Z) (dst src : list Z) (pDst pSrc : Z)
  : res (list Z * option error) :=
  match fuel with
  | O => Fuel
  | S fuel =>
    let n := Z.min (zlen src) (zlen (zdrop pSrc s)) in
    let src := go_copy src (zdrop pSrc s) in
    let atEOF := pSrc + n =? zlen s in
    if pDst >? zlen dst then Panic else                     (* dst[pDst:] *)
    let! (d, nDst, nSrc, err) := T (zdrop pDst dst) (ztake n src) atEOF in
    let dst := ztake pDst dst ++ d in
    let pDst := pDst + nDst in
    let pSrc := pSrc + nSrc in
    if is_short_dst err then
      string_loop2 fuel s (if nDst =? 0 then x_grow dst pDst else dst) src pDst pSrc
    else if is_short_src err then
      if atEOF then if pDst >? zlen dst then Panic else Ok (ztake pDst dst, err)
      else string_loop2 fuel s dst (if nSrc =? 0 then x_grow src 0 else src) pDst pSrc
    else if negb (is_none err) || (pSrc =? zlen s) then
      if pDst >? zlen dst then Panic else Ok (ztake pDst dst, err)
    else string_loop2 fuel s dst src pDst pSrc
  end.

(* func String(t Transformer, s string) (result string, n int, err error); the number n is
   not represented. *)
Definition string_transform (fuel : nat) (s : list Z) : res (list Z * option error) :=
  let! fast :=
    (match s with
     | [] => let! (_, _, _, err) := T [] [] true in Ok (is_none err)
     | _ => Ok false
     end) in
  if fast : bool then Ok ([], None) else
  let! l := string_loop1 fuel s (zeros initialBufSize) (zeros initialBufSize) 0 in
  match l with
  | inl r => Ok r
  | inr (mkL1 dst src nDst nSrc pPrefix pDst pSrc err) =>
    let! dst :=
      (if pPrefix =? 0 then Ok dst
       else
         let newDst := if pDst >? zlen dst then zeros (zlen s + nDst - nSrc) else dst in
         if pDst >? zlen newDst then Panic else             (* newDst[pPrefix:pDst] *)
         Ok (zwrite (zwrite newDst pPrefix (ztake (pDst - pPrefix) (ztake nDst dst)))
                    0 (ztake pPrefix s))) in
    if is_none err && (pSrc =? zlen s)
       || negb (is_none err) && negb (is_short_dst err) && negb (is_short_src err) then
      if pDst >? zlen dst then Panic else Ok (ztake pDst dst, err)
    else string_loop2 fuel s dst src pDst pSrc
  end.

(* encoding/encoding.go: func (d *Decoder) String(s string) (string, error), and the same
   of Encoder. *)
Definition String (fuel : nat) (s : list Z) : res (list Z + error) :=
  let! (r, err) := string_transform fuel s in
  match err with Some e => Ok (inr e) | None => Ok (inl r) end.
End StringClient.
