(** Text that begins with a byte order mark. *)
From Coq Require Import ZArith List Bool Lia.
From Verif Require Import Base Spec SpecCp949 Cp949Model Cp949Facts Cp949Facts2 TableFacts PMapFacts HanjaModel BomFacts.
Import ListNotations.
Local Open Scope Z_scope.
Local Open Scope list_scope.

(** * C184 Byte order marks
    False of To and of From: neither drops the mark. *)
Theorem C184_refuted : (forall grow, exists t x y, To grow t = Ok (inl x) /\ To grow ([0xEF; 0xBB; 0xBF] ++ t) = Ok (inl y) /\ y <> x) /\
  (forall grow, exists s u v, From grow s = Ok (inl u) /\ From grow ([0xEF; 0xBB; 0xBF] ++ s) = Ok (inl v) /\ v <> u).
Proof. exact bom_refuted. Qed.
Print Assumptions C184_refuted.
(** To makes a question mark of it and leaves the rest alone. *)
Theorem C184_To_partial : forall grow t x, Forall is_byte t -> To grow t = Ok (inl x) ->
  To grow ([0xEF; 0xBB; 0xBF] ++ t) = Ok (inl (0x3F :: x)).
Proof. exact bom_To. Qed.
Print Assumptions C184_To_partial.
(** From makes U+7664 of its first two bytes, and its third takes the byte that follows, if any;
    only what is behind that byte is as without the mark. *)
Theorem C184_From_partial : forall grow c s w, Forall is_byte (c :: s) ->
  assigned (0xBF * 256 + c) w \/ w = 0xFFFD /\ (forall v, ~ assigned (0xBF * 256 + c) v) ->
  (forall y, From grow s = Ok (inl y) -> From grow ([0xEF; 0xBB; 0xBF] ++ c :: s) = Ok (inl (utf8_char 0x7664 ++ utf8_char w ++ y))) /\
  (forall e, From grow s = Ok (inr e) -> From grow ([0xEF; 0xBB; 0xBF] ++ c :: s) = Ok (inr e)).
Proof. exact bom_From. Qed.
Print Assumptions C184_From_partial.
Theorem C184_From_alone_partial : forall grow, From grow [0xEF; 0xBB; 0xBF] = Ok (inr ErrCP949UnexpectedStream).
Proof. exact bom_From_alone. Qed.
Print Assumptions C184_From_alone_partial.
(** From never makes one. *)
Theorem C184_From_none_partial : forall grow s out rs, Forall is_byte s -> From grow s = Ok (inl out) -> reads_as out rs -> ~ In 0xFEFF rs.
Proof. exact bom_never. Qed.
Print Assumptions C184_From_none_partial.
(** Convert keeps it. *)
Theorem C184_Convert_partial : forall t, Forall is_byte t -> Convert ([0xEF; 0xBB; 0xBF] ++ t) = [0xEF; 0xBB; 0xBF] ++ Convert t.
Proof. exact bom_Convert. Qed.
Print Assumptions C184_Convert_partial.

(** A mark before U+AC00, in UTF-8 and in CP949. *)
Example C184_case : (forall grow, To grow ([0xEF; 0xBB; 0xBF] ++ utf8 [0xAC00]) = Ok (inl [0x3F; 0xB0; 0xA1])) /\
  assigned (0xBF * 256 + 0xB0) 0xC5FC /\ Forall is_byte [0xB0; 0xA1] /\
  (forall grow, From grow [0xA1] = Ok (inr ErrCP949UnexpectedStream)) /\
  (forall grow, From grow ([0xEF; 0xBB; 0xBF] ++ [0xB0; 0xA1]) = Ok (inr ErrCP949UnexpectedStream)).
Proof.
  assert (B : Forall is_byte [0xB0; 0xA1]) by (repeat (constructor; [unfold is_byte; lia|]); constructor).
  assert (A : assigned (0xBF * 256 + 0xB0) 0xC5FC) by (apply assigned_by; vm_compute; reflexivity).
  assert (E : forall grow, From grow [0xA1] = Ok (inr ErrCP949UnexpectedStream)).
  { intros grow. apply (C30_lemma grow); [constructor; [unfold is_byte; lia|constructor]|].
    exists [], 0xA1. split; [lia|]. split; [reflexivity|exists []; constructor]. }
  split; [|split; [exact A|split; [exact B|split; [exact E|]]]].
  - intros grow. apply bom_To; [vm_compute; repeat (constructor; [split; [discriminate|reflexivity]|]); constructor|].
    apply To_encodes. apply (enc_code 0xB0A1 0xAC00 [] []); [apply assigned_by; vm_compute; reflexivity|constructor].
  - intros grow. apply (bom_From grow 0xB0 [0xA1] 0xC5FC B (or_introl A)). apply E.
Qed.
