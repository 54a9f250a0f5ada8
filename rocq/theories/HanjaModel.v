(** Model of package hanja: hanja.go (table.go is transcribed in TableHanja.v). *)
From Coq Require Import ZArith List Bool.
From Verif Require Import Base Utf8 TableHanja.
Import ListNotations.
Local Open Scope Z_scope.

(* hanja/hanja.go:11-16, the loop body: the rune at one position after the iteration that
   visits it.  The loop ranges over rh and overwrites only the position it is visiting, so
   it is a pointwise map. *)
Definition convert_rune (c : Z) : Z :=
  match map_get table c with
  | Some h => h
  | None => c
  end.

(* hanja/hanja.go:8-19 *)
Definition Convert (h : list Z) : list Z :=
  let rh := string_to_runes h in
  let rh := map convert_rune rh in
  runes_to_string rh.

(* hanja/hanja.go:22-25 *)
Definition IsHanja (c : Z) : bool :=
  match map_get table c with
  | Some _ => true
  | None => false
  end.
