(** Programs that replace the hanja of a CP949 stream: they read from a Reader, convert each piece
    with Convert and write it to a Writer over a bytes.Buffer.  The pieces are collected here before
    they are written; the Reader and the Writer share nothing, so that it makes no difference. *)
From Coq Require Import ZArith List.
From Verif Require Import Base Spec SpecIO SpecReads Cp949Model StreamModel BufioModel HanjaModel.
Import ListNotations.
Local Open Scope Z_scope.
Local Open Scope go_scope.
Local Open Scope list_scope.

Section Filter.
Variable grow : Z -> Z -> Z.
Variable RS : Type.
Variable rd : RS -> Z -> list Z * option error * RS.

(** Piece by piece, with buffers of the given sizes. *)
Definition filter_reads (fuel : nat) (s : RS) (sizes : list Z) : res (list Z) :=
  let! (results, _) := reads grow RS rd fuel (NewReader s) sizes in
  let! (_, w) := write_seq grow (list Z) buffer_wr (NewWriter []) (map (fun x => Convert (fst x)) results) in
  Ok (w_dst _ w).
(** Character by character, with a bufio.Scanner and ScanRunes; the error is that of Scanner.Err. *)
Definition filter_runes (fuel fuel' : nat) (s : RS) : res (option error * list Z) :=
  let! (toks, err) := ScanAll (reader RS) (Read grow RS rd fuel) ScanRunes fuel' (NewScanner _ (NewReader s)) in
  let! (_, w) := write_seq grow (list Z) buffer_wr (NewWriter []) (map Convert toks) in
  Ok (err, w_dst _ w).
(** Line by line, with a bufio.Scanner and ScanLines; a newline is put after each line. *)
Definition filter_lines (fuel fuel' : nat) (s : RS) : res (option error * list Z) :=
  let! (toks, err) := ScanAll (reader RS) (Read grow RS rd fuel) ScanLines fuel' (NewScanner _ (NewReader s)) in
  let! (_, w) := write_seq grow (list Z) buffer_wr (NewWriter []) (map (fun t => Convert t ++ [10]) toks) in
  Ok (err, w_dst _ w).
End Filter.
