(** Cutting texts into pieces before or after a conversion. *)
From Coq Require Import ZArith List Bool Lia.
From Verif Require Import Base Spec SpecText2 SpecCp949 SpecParse Cp949Model Cp949Facts2 TableFacts PMapFacts HanjaModel ParseFacts.
Import ListNotations.
Local Open Scope Z_scope.
Local Open Scope list_scope.

(** * C177 Parsing before or after a conversion *)
Theorem C177_From : forall Q (m : parser Q) grow rs x, uniform m -> (forall b, special m b = true -> ascii_nonletter b = true) ->
  encodes rs x -> same_pieces (fun p t => From grow p = Ok (inl t)) (parse m x) (parse m (utf8 rs)).
Proof. exact @parse_From. Qed.
Print Assumptions C177_From.
Theorem C177_To : forall Q (m : parser Q) grow rs y, uniform m -> (forall b, special m b = true -> ascii_mark b = true) ->
  Forall is_scalar rs -> To grow (utf8 rs) = Ok (inl y) ->
  same_pieces (fun t p => To grow t = Ok (inl p)) (parse m (utf8 rs)) (parse m y).
Proof. exact @parse_To. Qed.
Print Assumptions C177_To.
Theorem C177_Convert : forall Q (m : parser Q) rs, uniform m -> (forall b, special m b = true -> 0 <= b < 0x80) ->
  Forall is_scalar rs -> same_pieces (fun t p => Convert t = p) (parse m (utf8 rs)) (parse m (Convert (utf8 rs))).
Proof. exact @parse_Convert. Qed.
Print Assumptions C177_Convert.
(* comma separated values: a syllable, and in quotation marks a comma and a syllable the code of which ends in A *)
Example C177_case : uniform csv /\ (forall b, special csv b = true -> ascii_mark b = true) /\
  encodes [0xAC00; 0x2C; 0x22; 0x2C; 0xAC02; 0x22; 0x0A] [0xB0; 0xA1; 0x2C; 0x22; 0x2C; 0x81; 0x41; 0x22; 0x0A] /\
  parse csv [0xB0; 0xA1; 0x2C; 0x22; 0x2C; 0x81; 0x41; 0x22; 0x0A] = Some [([0xB0; 0xA1], 0x2C); ([0x2C; 0x81; 0x41], 0x0A)] /\
  parse csv (utf8 [0xAC00; 0x2C; 0x22; 0x2C; 0xAC02; 0x22; 0x0A]) = Some [(utf8 [0xAC00], 0x2C); (utf8 [0x2C; 0xAC02], 0x0A)] /\
  parse csv [0x22; 0x2C] = None.
Proof.
  split; [exact csv_uniform|]. split; [exact csv_special|]. split.
  { apply (enc_code 0xB0A1 0xAC00 _ [0x2C; 0x22; 0x2C; 0x81; 0x41; 0x22; 0x0A]); [apply assigned_by; vm_compute; reflexivity|].
    do 3 (apply enc_ascii; [lia|]). apply (enc_code 0x8141 0xAC02 _ [0x22; 0x0A]); [apply assigned_by; vm_compute; reflexivity|].
    do 2 (apply enc_ascii; [lia|]). constructor. }
  do 2 (split; [vm_compute; reflexivity|]). vm_compute. reflexivity.
Qed.
