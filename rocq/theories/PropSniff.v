(** Encoded text and the byte order marks of other encodings. *)
From Coq Require Import ZArith List Bool Lia.
From Verif Require Import Base Spec SpecCp949 Cp949Model Cp949Facts2 TableFacts PMapFacts SniffFacts.
Import ListNotations.
Local Open Scope Z_scope.
Local Open Scope list_scope.

(** * C191 Encoded text does not begin with a byte order mark
    False for that of UTF-8: its first two bytes are the code of U+7664, and its third begins others. *)
Theorem C191_refuted : exists r, forall grow, exists bs, encodes [0x7664; r] bs /\
  To grow (utf8 [0x7664; r]) = Ok (inl bs) /\ is_prefix [0xEF; 0xBB; 0xBF] bs.
Proof. exact sniff_refuted. Qed.
Print Assumptions C191_refuted.
(** Which texts begin with it. *)
Theorem C191_utf8_partial : forall rs x, encodes rs x ->
  (is_prefix [0xEF; 0xBB; 0xBF] x <-> exists c r rest, rs = 0x7664 :: r :: rest /\ assigned c r /\ c / 256 = 0xBF).
Proof. exact sniff_iff. Qed.
Print Assumptions C191_utf8_partial.
(** The marks of UTF-16 contain a byte that To never makes, whatever it is given. *)
Theorem C191_utf16_partial : forall grow s bs, Forall is_byte s -> To grow s = Ok (inl bs) -> ~ In 0xFF bs.
Proof. exact sniff_To. Qed.
Print Assumptions C191_utf16_partial.

(** U+7664 before U+C5FC and before a letter. *)
Example C191_case : encodes [0x7664; 0xC5FC] [0xEF; 0xBB; 0xBF; 0xB0] /\ encodes [0x7664; 0x41] [0xEF; 0xBB; 0x41] /\
  assigned 0xBFB0 0xC5FC /\ (forall grow, To grow (utf8 [0x7664; 0x41]) = Ok (inl [0xEF; 0xBB; 0x41])) /\
  Forall is_byte (utf8 [0x7664; 0x41]).
Proof.
  assert (A : assigned 0xBFB0 0xC5FC) by (apply assigned_by; vm_compute; reflexivity).
  assert (B : encodes [0x7664; 0x41] [0xEF; 0xBB; 0x41]).
  { apply (enc_code 0xEFBB 0x7664 [0x41] [0x41] hanja_efbb). apply enc_ascii; [lia|constructor]. }
  split; [apply (enc_code 0xEFBB 0x7664 [0xC5FC] [0xBF; 0xB0] hanja_efbb), (enc_code 0xBFB0 0xC5FC [] [] A); constructor|].
  split; [exact B|]. split; [exact A|]. split; [intros grow; apply To_encodes; exact B|].
  vm_compute. repeat (constructor; [split; [discriminate|reflexivity]|]). constructor.
Qed.
