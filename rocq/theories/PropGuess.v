(** Property of telling encoded texts from UTF-8. *)
From Coq Require Import ZArith List Bool Lia.
From Verif Require Import Base Spec SpecCp949 SpecIO SpecGuess Cp949Model Cp949Facts2 GuessFacts.
Import ListNotations.
Local Open Scope Z_scope.
Local Open Scope list_scope.

(** * C165 An encoded text that is not ASCII is not valid UTF-8 (refuted, by Korean texts of any
      length) *)
Theorem C165_refuted : forall n, exists text u, Forall is_syllable text /\ length text = S n /\ Forall is_scalar u /\
  forall grow, To grow (utf8 text) = Ok (inl (utf8 u)).
Proof. exact guess_wrong. Qed.
Print Assumptions C165_refuted.
Example C165_refuted_case : To wgrow (utf8 [0xC9C0]) = Ok (inl [0xC1; 0xF6]) /\ To wgrow (utf8 [0xC9D5]) = Ok (inl (utf8 [0xA1])).
Proof. vm_compute. split; reflexivity. Qed.

(** What holds: without ideographs, it is valid exactly if every character is ASCII or has a code
    that looks like a character of two bytes; never with a code below C200, which most of the
    syllables have. *)
Theorem C165_exact_partial : forall grow rs, Forall in_repertoire rs -> Forall (fun r => ~ ideograph r) rs ->
  exists x, To grow (utf8 rs) = Ok (inl x) /\ (valid_utf8 x <-> Forall two_bytes rs).
Proof. exact valid_To. Qed.
Print Assumptions C165_exact_partial.
Theorem C165_partial : forall grow rs r c, Forall in_repertoire rs -> Forall (fun r => ~ ideograph r) rs ->
  In r rs -> assigned c r -> c < 0xC200 ->
  exists x, To grow (utf8 rs) = Ok (inl x) /\ ~ valid_utf8 x.
Proof. exact guess_right. Qed.
Print Assumptions C165_partial.
Theorem C165_first_partial : forall grow a r c rest, Forall (fun r => 0 <= r < 0x80) a -> assigned c r -> c < 0xC200 -> Forall in_repertoire rest ->
  exists x, To grow (utf8 (a ++ r :: rest)) = Ok (inl x) /\ ~ valid_utf8 x.
Proof. exact first_wrong. Qed.
Print Assumptions C165_first_partial.
Example C165_case : Forall in_repertoire [0x41; 0xAC00] /\ Forall (fun r => ~ ideograph r) [0x41; 0xAC00] /\ assigned 0xB0A1 0xAC00.
Proof.
  assert (H : assigned 0xB0A1 0xAC00) by (apply assigned_by; vm_compute; reflexivity).
  split; [constructor; [left; lia|constructor; [right; eauto|constructor]]|]. split; [|exact H].
  constructor; [unfold ideograph; lia|constructor; [unfold ideograph; lia|constructor]].
Qed.
