(** Searching text whose hanja are converted. *)
From Coq Require Import ZArith List Bool Lia.
From Verif Require Import Base Spec HanjaModel Utf8Facts FindFacts.
Import ListNotations.
Local Open Scope Z_scope.
Local Open Scope list_scope.

(** * C190 Searching converted text: nothing is missed. *)
Theorem C190_kept : forall a w b, Forall is_byte (a ++ w ++ b) -> valid_utf8 w -> w <> [] ->
  Convert (a ++ w ++ b) = Convert a ++ Convert w ++ Convert b.
Proof. exact find_keeps. Qed.
Print Assumptions C190_kept.
(** And what is found was there, at the same offset if the text is valid. *)
Theorem C190_origin : forall s a w b, Forall is_byte s -> valid_utf8 w -> w <> [] -> Convert s = a ++ w ++ b ->
  exists a' w' b', s = a' ++ w' ++ b' /\ Convert a' = a /\ Convert w' = w /\ Convert b' = b /\
    (valid_utf8 s -> zlen a' = zlen a /\ zlen w' = zlen w).
Proof. exact find_origin. Qed.
Print Assumptions C190_origin.

(** U+B300 is found in place of the hanja U+5927, behind a letter and behind a byte that is no UTF-8. *)
Example C190_case : let w := utf8 [0xB300] in valid_utf8 w /\ w <> [] /\
  Forall is_byte ([0x41] ++ utf8 [0x5927] ++ []) /\ Forall is_byte ([0xFF] ++ utf8 [0x5927] ++ []) /\
  valid_utf8 (utf8 [0x5927]) /\ utf8 [0x5927] <> [] /\ valid_utf8 (utf8 [0x41; 0x5927]) /\
  Convert (utf8 [0x41; 0x5927]) = [0x41] ++ w ++ [] /\ Convert ([0xFF] ++ utf8 [0x5927]) = [0xEF; 0xBF; 0xBD] ++ w ++ [].
Proof.
  assert (S : forall r, is_scalar r -> valid_utf8 (utf8 [r])) by (intros r Hr; exists [r]; split; [constructor; [exact Hr|constructor]|reflexivity]).
  cbv zeta. split; [apply S; unfold is_scalar; lia|]. split; [discriminate|].
  split; [vm_compute; repeat (constructor; [split; [discriminate|reflexivity]|]); constructor|].
  split; [vm_compute; repeat (constructor; [split; [discriminate|reflexivity]|]); constructor|].
  split; [apply S; unfold is_scalar; lia|]. split; [discriminate|]. split.
  - exists [0x41; 0x5927]. split; [|reflexivity]. repeat (constructor; [unfold is_scalar; lia|]). constructor.
  - split; vm_compute; reflexivity.
Qed.
