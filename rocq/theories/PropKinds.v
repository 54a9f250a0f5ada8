(** Kinds of characters. *)
From Coq Require Import ZArith List Bool Lia.
From Verif Require Import Base Spec SpecCp949 SpecTable Utf8Facts TableFacts HangulModel HanjaModel KindsFacts.
Import ListNotations.
Local Open Scope Z_scope.
Local Open Scope list_scope.

(** * C187 IsHangul and the Hangul of CP949
    False: the old letters are in CP949 too. *)
Theorem C187_refuted : exists c u, 0x3131 <= u <= 0x318E /\ assigned c u /\ IsHangul u = false.
Proof. exact kinds_refuted. Qed.
Print Assumptions C187_refuted.
(** What IsHangul holds of among the characters of CP949. *)
Theorem C187_partial : forall c u, assigned c u -> (IsHangul u = true <-> is_syllable u \/ 0x3131 <= u <= 0x3163).
Proof. exact hangul_cp949. Qed.
Print Assumptions C187_partial.
(** The old letters and the filler, all of them in CP949. *)
Theorem C187_old_partial : forall u, 0x3164 <= u <= 0x318E -> assigned (ks_at 0xA4 (u - 0x3131)) u /\ IsHangul u = false.
Proof. exact old_letters. Qed.
Print Assumptions C187_old_partial.

(** * C188 Hangul and hanja of a text *)
Theorem C188_disjoint : forall r, ~ (IsHangul r = true /\ IsHanja r = true).
Proof. exact kinds_disjoint. Qed.
Print Assumptions C188_disjoint.
Theorem C188_Convert : forall s rs rs', Forall is_byte s -> reads_as s rs -> reads_as (Convert s) rs' ->
  zlen (filter IsHangul rs') = zlen (filter IsHangul rs) + zlen (filter IsHanja rs) /\
  filter IsHanja rs' = [] /\
  filter (fun r => negb (IsHangul r)) rs' = filter (fun r => negb (IsHangul r) && negb (IsHanja r)) rs.
Proof. exact kinds_Convert. Qed.
Print Assumptions C188_Convert.

(** A letter, a hanja and a syllable. *)
Example C188_case : reads_as (utf8 [0x41; 0x5927; 0xAC00]) [0x41; 0x5927; 0xAC00] /\ Forall is_byte (utf8 [0x41; 0x5927; 0xAC00]) /\
  reads_as (Convert (utf8 [0x41; 0x5927; 0xAC00])) [0x41; 0xB300; 0xAC00] /\
  filter IsHangul [0x41; 0x5927; 0xAC00] = [0xAC00] /\ filter IsHanja [0x41; 0x5927; 0xAC00] = [0x5927] /\
  filter IsHangul [0x41; 0xB300; 0xAC00] = [0xB300; 0xAC00] /\ assigned (ks_at 0xA4 (0x3165 - 0x3131)) 0x3165.
Proof.
  assert (S : Forall is_scalar [0x41; 0x5927; 0xAC00]) by (repeat (constructor; [unfold is_scalar; lia|]); constructor).
  split; [apply reads_as_utf8; exact S|]. split; [apply utf8_bytes; exact S|].
  split. { replace (Convert (utf8 [0x41; 0x5927; 0xAC00])) with (utf8 [0x41; 0xB300; 0xAC00]) by (vm_compute; reflexivity).
    apply reads_as_utf8. repeat (constructor; [unfold is_scalar; lia|]). constructor. }
  do 3 (split; [vm_compute; reflexivity|]). apply old_letters. lia.
Qed.
