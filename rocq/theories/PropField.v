(** Properties of the width of encoded texts and of the case of their letters. *)
From Coq Require Import ZArith List Bool Lia.
From Verif Require Import Base Spec SpecCp949 SpecIO SpecField Cp949Model Cp949Facts2 FieldFacts.
Import ListNotations.
Local Open Scope Z_scope.
Local Open Scope list_scope.

(** * C168 The bytes of an encoded text are its columns (refuted by unencodable characters) *)
Theorem C168_refuted : exists rs x, Forall is_scalar rs /\ (forall grow, To grow (utf8 rs) = Ok (inl x)) /\ zlen x < columns rs.
Proof. exact columns_refuted. Qed.
Print Assumptions C168_refuted.
Theorem C168_To_partial : forall grow rs, Forall is_scalar rs -> exists x, To grow (utf8 rs) = Ok (inl x) /\
  zlen rs <= zlen x <= columns rs /\ (Forall in_repertoire rs -> zlen x = columns rs).
Proof. exact To_columns. Qed.
Print Assumptions C168_To_partial.
Theorem C168_From : forall grow s rs, Forall is_byte s -> Forall is_scalar rs -> From grow s = Ok (inl (utf8 rs)) -> zlen s = columns rs.
Proof. exact From_columns. Qed.
Print Assumptions C168_From.
(* an unassigned code takes two columns as well *)
Example C168_case : To wgrow (utf8 [0x41; 0xAC00; 0xC0]) = Ok (inl [0x41; 0xB0; 0xA1; 0x3F]) /\ columns [0x41; 0xAC00; 0xC0] = 5 /\
  From wgrow [0x41; 0xB0; 0xA1; 0x80; 0x41] = Ok (inl (utf8 [0x41; 0xAC00; 0xFFFD])) /\ Forall is_scalar [0x41; 0xAC00; 0xFFFD].
Proof.
  split; [vm_compute; reflexivity|]. split; [reflexivity|]. split; [vm_compute; reflexivity|].
  repeat (constructor; [unfold is_scalar; lia|]). constructor.
Qed.

(** * C169 Changing the case of the letters of an encoded text (refuted: one syllable becomes
      another one) *)
Theorem C169_refuted : forall f, casing f -> exists text text' x, Forall is_syllable text /\ Forall is_syllable text' /\ text <> text' /\ map f text = text /\
  forall grow, To grow (utf8 text) = Ok (inl x) /\ From grow (map f x) = Ok (inl (utf8 text')).
Proof. exact casing_refuted. Qed.
Print Assumptions C169_refuted.
(** Exactly the texts for which it works: those without a code whose second byte is a letter of the
    other case; *)
Theorem C169_exact_partial : forall grow f rs x, casing f -> encodes rs x ->
  To grow (utf8 rs) = Ok (inl x) /\ exists y, To grow (map f (utf8 rs)) = Ok (inl y) /\
  From grow y = Ok (inl (map f (utf8 rs))) /\
  (y = map f x <-> Forall (fun r => forall c, assigned c r -> f (c mod 256) = c mod 256) rs).
Proof. exact casing_To. Qed.
Print Assumptions C169_exact_partial.
(** among them all texts of KS X 1001. *)
Theorem C169_partial : forall grow f rs x, casing f -> encodes rs x -> (forall r c, In r rs -> assigned c r -> ks_code c) ->
  To grow (utf8 rs) = Ok (inl x) /\ To grow (map f (utf8 rs)) = Ok (inl (map f x)).
Proof. exact casing_ks. Qed.
Print Assumptions C169_partial.
Example C169_case : casing lower /\ casing upper /\ encodes [0x41; 0xAC00] [0x41; 0xB0; 0xA1] /\ ks_code 0xB0A1 /\
  map lower [0x41; 0xB0; 0xA1] = [0x61; 0xB0; 0xA1] /\ To wgrow (utf8 [0x61; 0xAC00]) = Ok (inl [0x61; 0xB0; 0xA1]) /\
  To wgrow (utf8 [0xAC02]) = Ok (inl [0x81; 0x41]) /\ From wgrow (map lower [0x81; 0x41]) = Ok (inl (utf8 [0xAC35])).
Proof.
  split; [left; reflexivity|]. split; [right; reflexivity|].
  split; [apply enc_ascii; [lia|]; apply (enc_code 0xB0A1); [apply assigned_by; vm_compute; reflexivity|constructor]|].
  split; [unfold ks_code; cbn; lia|]. split; [reflexivity|]. repeat split; vm_compute; reflexivity.
Qed.
