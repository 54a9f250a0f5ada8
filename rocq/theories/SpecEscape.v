(** Functions that escape characters, byte by byte. *)
From Coq Require Import ZArith List Bool.
From Verif Require Import Base Spec.
Import ListNotations.
Local Open Scope Z_scope.

(** [f] replaces at most the bytes that are [ok], each by ASCII characters. *)
Definition escapes (ok : Z -> bool) (f : Z -> list Z) : Prop :=
  forall b, f b = [b] \/ ok b = true /\ Forall (fun x => 0 <= x < 0x80) (f b).
Definition escaped (f : Z -> list Z) (s : list Z) : list Z := flat_map f s.

(** html.EscapeString (NOT code of /repo; from its documentation): < > & ' and the quotation mark *)
Definition html_escape (b : Z) : list Z :=
  if b =? 0x26 then [0x26; 0x61; 0x6D; 0x70; 0x3B] else
  if b =? 0x27 then [0x26; 0x23; 0x33; 0x39; 0x3B] else
  if b =? 0x3C then [0x26; 0x6C; 0x74; 0x3B] else
  if b =? 0x3E then [0x26; 0x67; 0x74; 0x3B] else
  if b =? 0x22 then [0x26; 0x23; 0x33; 0x34; 0x3B] else [b].
