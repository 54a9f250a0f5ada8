(** Particles after words that are still encoded. *)
From Coq Require Import ZArith List Bool Lia.
From Verif Require Import Base Spec SpecCp949 HangulModel Cp949Model Cp949Facts2 TableFacts PMapFacts RawWordFacts.
Import ListNotations.
Local Open Scope Z_scope.
Local Open Scope list_scope.

(** * C192 Particles after encoded words
    False: AppendPostposition reads the bytes as UTF-8, and U+B098 gets the particle for consonants. *)
Theorem C192_refuted : exists word with_ without x y t, encodes word x /\ forall grow,
  AppendPostposition (utf8 word) (utf8 with_) (utf8 without) = Ok (utf8 t) /\ To grow (utf8 t) = Ok (inl y) /\
  exists w1 w2, encodes with_ w1 /\ encodes without w2 /\ AppendPostposition x w1 w2 <> Ok y.
Proof. exact raw_refuted. Qed.
Print Assumptions C192_refuted.
(** Which particle is chosen, by the second byte of the last code, whatever the character. *)
Theorem C192_consonant_partial : forall rs x c r with_ without, encodes rs x -> assigned c r ->
  0xC0 <= c mod 256 \/ (is_letter_byte (c mod 256) = true /\ c mod 256 <> 0x48 /\ c mod 256 <> 0x64) ->
  AppendPostposition (x ++ code_bytes c) with_ without = Ok ((x ++ code_bytes c) ++ with_).
Proof. exact raw_consonant. Qed.
Print Assumptions C192_consonant_partial.
Theorem C192_vowel_partial : forall rs x c r with_ without, encodes rs x -> assigned c r ->
  c mod 256 = 0x48 \/ c mod 256 = 0x64 ->
  AppendPostposition (x ++ code_bytes c) with_ without = Ok ((x ++ code_bytes c) ++ without).
Proof. exact raw_vowel. Qed.
Print Assumptions C192_vowel_partial.

(** By its first byte, if the second is none of these. *)
Theorem C192_lead_partial : forall rs x c r with_ without, encodes rs x -> assigned c r ->
  0x80 <= c mod 256 -> 0xC0 <= c / 256 -> ~ (0xC2 <= c / 256 <= 0xDF) ->
  AppendPostposition (x ++ code_bytes c) with_ without = Ok ((x ++ code_bytes c) ++ with_).
Proof. exact raw_lead. Qed.
Print Assumptions C192_lead_partial.
(** A code that is UTF-8 by accident is taken for a character below U+0800. *)
Theorem C192_two_partial : forall rs x c r with_ without, encodes rs x -> assigned c r ->
  0x80 <= c mod 256 <= 0xBF -> 0xC2 <= c / 256 <= 0xDF ->
  AppendPostposition (x ++ code_bytes c) with_ without =
    Ok ((x ++ code_bytes c) ++ if (0xAC00 - ((c / 256 - 0xC0) * 64 + (c mod 256 - 0x80))) mod 28 =? 0 then without else with_).
Proof. exact raw_two. Qed.
Print Assumptions C192_two_partial.

(** The other codes, at the start of a text, behind ASCII, or behind a byte from C0 to DF. *)
Theorem C192_start_partial : forall rs x c r with_ without, encodes rs x -> assigned c r ->
  0x80 <= c mod 256 -> c / 256 <= 0xBF -> (forall y d, x = y ++ [d] -> d < 0x80 \/ 0xC0 <= d <= 0xDF) ->
  AppendPostposition (x ++ code_bytes c) with_ without = Ok ((x ++ code_bytes c) ++ with_).
Proof. exact raw_start. Qed.
Print Assumptions C192_start_partial.

(** Codes of each kind: U+B294 ends in C2, U+AC02 in 41 and U+AC0E in 48. *)
Example C192_case : assigned 0xB4C2 0xB294 /\ assigned 0x8141 0xAC02 /\ assigned 0x8148 0xAC0E /\
  0xC0 <= 0xB4C2 mod 256 /\ is_letter_byte (0x8141 mod 256) = true /\ 0x8148 mod 256 = 0x48 /\
  AppendPostposition [0xB4; 0xC2] [0x31] [0x32] = Ok [0xB4; 0xC2; 0x31] /\
  AppendPostposition [0x81; 0x41] [0x31] [0x32] = Ok [0x81; 0x41; 0x31] /\
  AppendPostposition [0x81; 0x48] [0x31] [0x32] = Ok [0x81; 0x48; 0x32].
Proof.
  split; [apply assigned_by; vm_compute; reflexivity|]. split; [apply assigned_by; vm_compute; reflexivity|].
  split; [apply assigned_by; vm_compute; reflexivity|]. split; [vm_compute; discriminate|].
  repeat split; vm_compute; reflexivity.
Qed.
(** U+C740 (C0BA), U+C9D5 (C2A1) and U+AC00 (B0A1), the last behind a letter. *)
Example C192_more_case : assigned 0xC0BA 0xC740 /\ assigned 0xC2A1 0xC9D5 /\
  AppendPostposition [0xC0; 0xBA] [0x31] [0x32] = Ok [0xC0; 0xBA; 0x31] /\
  AppendPostposition [0xC2; 0xA1] [0x31] [0x32] = Ok [0xC2; 0xA1; 0x31] /\
  assigned 0xB0A1 0xAC00 /\ encodes [0x41] [0x41] /\ (forall y d, [0x41] = y ++ [d] -> d < 0x80 \/ 0xC0 <= d <= 0xDF) /\
  AppendPostposition [0x41; 0xB0; 0xA1] [0x31] [0x32] = Ok [0x41; 0xB0; 0xA1; 0x31].
Proof.
  split; [apply assigned_by; vm_compute; reflexivity|]. split; [apply assigned_by; vm_compute; reflexivity|].
  split; [vm_compute; reflexivity|]. split; [vm_compute; reflexivity|]. split; [apply assigned_by; vm_compute; reflexivity|].
  split; [apply enc_ascii; [lia|constructor]|]. split; [|vm_compute; reflexivity].
  intros y d E. apply (app_inj_tail [] y 0x41 d) in E as [_ <-]. lia.
Qed.
