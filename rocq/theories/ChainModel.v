(** Model of transform.Chain of golang.org/x/text v0.14.0 (NOT code of /repo), for Transformers
    such as those of encoding.go.  The source of that package is not in the sandbox; this is its
    behaviour as published (transform/transform.go: link, chain, Chain, Transform, fatalError). *)
From Coq Require Import ZArith List Bool.
From Verif Require Import Base Cp949Model GoLang TransformModel.
Import ListNotations.
Local Open Scope Z_scope.
Local Open Scope go_scope.

Definition transformer : Type := list Z -> list Z -> bool -> res transform_result.

(** A buffer between two Transformers: the bytes [l_p] to [l_n] are waiting to be transformed.
    The Transformers have no state (encoding.go:25, 40), so they are not part of it. *)
Record link : Type := mkLink { l_b : list Z; l_p : Z; l_n : Z }.
(* l.b[l.p:l.n] and l.b[l.n:]; all buffers that are read from have capacity len(l.b) *)
Definition link_src (l : link) : res (list Z) :=
  if (l_p l >? l_n l) || (l_n l >? zlen (l_b l)) then Panic else Ok (zdrop (l_p l) (ztake (l_n l) (l_b l))).
Definition link_dst (l : link) : res (list Z) := if l_n l >? zlen (l_b l) then Panic else Ok (zdrop (l_n l) (l_b l)).

(** The buffers, the first Transformer that still works after an error, and the error. *)
Record chain : Type := mkChain { c_link : list link; c_errStart : nat; c_err : option error }.
Definition no_link : link := mkLink [] 0 0.
Definition errShortInternal : error := ErrOther 1.

(* Chain(t...); the first and the last link get their buffers in Transform *)
Definition Chain (m : nat) : chain :=
  mkChain (no_link :: repeat (mkLink (zeros defaultBufSize) 0 0) (m - 1) ++ [no_link]) 0 None.

(* c.fatalError(i, err) *)
Definition fatal (c : chain) (i : nat) (e : error) : chain :=
  if (c_errStart c <? S i)%nat then mkChain (c_link c) (S i) (Some e) else c.
Definition set_links (c : chain) (ls : list link) : chain := mkChain ls (c_errStart c) (c_err c).

Section Chain.
Variable ts : list transformer.

(** The loop of Transform.  The result: the chain, err, and whether the function returned from
    within the loop. *)
Fixpoint chain_loop (fuel : nat) (c : chain) (low i : nat) (err : option error) (lastFull atEOF : bool) : res (chain * option error * bool) :=
  match fuel with
  | O => Fuel
  | S fuel =>
    match nth_error ts i with
    | None => Ok (c, err, false)   (* i > high; low <= i always *)
    | Some t =>
      let inl := nth i (c_link c) no_link in
      let out := nth (S i) (c_link c) no_link in
      let! d := link_dst out in
      let! s := link_src inl in
      let! (d, nDst, nSrc, err0) := t d s (atEOF && (low =? i)%nat) in
      let out := mkLink (ztake (l_n out) (l_b out) ++ d) (l_p out) (l_n out + nDst) in
      let inl := mkLink (l_b inl) (l_p inl + nSrc) (l_n inl) in
      let inl := if negb (i =? 0)%nat && (l_p inl =? l_n inl) then mkLink (l_b inl) 0 0 else inl in
      let c := set_links c (set_nth (S i) out (set_nth i inl (c_link c))) in
      let needProgress := lastFull in
      let next c err := chain_loop fuel c (S i) (S i) err false atEOF in
      let back c := chain_loop fuel c low (i - 1) err false atEOF in
      match err0 with
      | Some ErrShortDst =>
        if (S i =? length ts)%nat then Ok (c, Some ErrShortDst, true)
        else if negb (l_n out =? 0) then chain_loop fuel c low (S i) err true atEOF
        else next (fatal c i errShortInternal) err
      | Some ErrShortSrc =>
        if (i =? 0)%nat then next c (Some ErrShortSrc)
        else if needProgress && (nSrc =? 0) || (l_n inl - l_p inl =? zlen (l_b inl)) then next (fatal c i errShortInternal) err
        else
          let! rest := link_src inl in
          let c := set_links c (set_nth i (mkLink (zwrite (l_b inl) 0 rest) 0 (zlen rest)) (c_link c)) in
          if (low <? i)%nat then back c else next c err
      | None => if (low <? i)%nat then back c else next c err
      | Some e => next (fatal c i e) err
      end
    end
  end.

(* c.Transform(dst, src, atEOF) *)
Definition chain_Transform (fuel : nat) (c : chain) (dst src : list Z) (atEOF : bool) : res (transform_result * chain) :=
  let last := length ts in
  let ls := set_nth last (mkLink dst (l_p (nth last (c_link c) no_link)) 0) (set_nth 0 (mkLink src 0 (zlen src)) (c_link c)) in
  let! (c, err, returned) := chain_loop fuel (set_links c ls) (c_errStart c) (c_errStart c) None false atEOF in
  let first := nth 0 (c_link c) no_link in
  let out := nth last (c_link c) no_link in
  if returned || (c_errStart c =? 0)%nat then Ok ((l_b out, l_n out, l_p first, err), c)
  else
    let clear k l := if ((1 <=? k) && (k <? c_errStart c))%nat then mkLink (l_b l) 0 0 else l in
    Ok ((l_b out, l_n out, l_p first, c_err c),
        mkChain (map (fun '(k, l) => clear k l) (combine (seq 0 (length (c_link c))) (c_link c))) 0 None).
End Chain.

(* several calls of Transform on one chain, each with its own dst and src *)
Fixpoint chain_calls (ts : list transformer) (fuel : nat) (c : chain) (calls : list (list Z * list Z * bool)) : res (list transform_result) :=
  match calls with
  | [] => Ok []
  | (dst, src, atEOF) :: calls =>
    let! (r, c) := chain_Transform ts fuel c dst src atEOF in
    let! rs := chain_calls ts fuel c calls in
    Ok (r :: rs)
  end.
