(** Property of trimming encoded texts. *)
From Coq Require Import ZArith List Bool Lia.
From Verif Require Import Base Spec SpecCp949 SpecIO SpecTrim SpecWords Cp949Model Cp949Facts2 TrimFacts.
Import ListNotations.
Local Open Scope Z_scope.
Local Open Scope list_scope.

(** * C164 Trimming an encoded text gives the encoding of the trimmed text (refuted for white
      space: the code of a syllable is the UTF-8 encoding of a no-break space) *)
Theorem C164_refuted : forall cut, (forall r, cut r = true <-> white r) -> exists text t, Forall is_syllable text /\
  (forall grow, To grow (utf8 text) = Ok (inl (utf8 t))) /\ trim cut text = text /\ text <> [] /\ trim cut t = [].
Proof. exact space_trim. Qed.
Print Assumptions C164_refuted.
Definition ex_white (r : Z) : bool :=
  (9 <=? r) && (r <=? 13) || (r =? 0x20) || (r =? 0x85) || (r =? 0xA0) || (r =? 0x1680) || (0x2000 <=? r) && (r <=? 0x200A) ||
  (r =? 0x2028) || (r =? 0x2029) || (r =? 0x202F) || (r =? 0x205F) || (r =? 0x3000).
Example C164_refuted_case : (forall r, ex_white r = true <-> white r) /\
  To wgrow (utf8 [0xD63B]) = Ok (inl (utf8 [0xA0])) /\ trim ex_white [0xA0] = [].
Proof.
  split; [|split; vm_compute; reflexivity]. intros r. unfold ex_white, white.
  rewrite ?orb_true_iff, ?andb_true_iff, ?Z.eqb_eq, ?Z.leb_le. lia.
Qed.

(** What holds: the claim for any set of ASCII characters that are no letters. *)
Theorem C164_partial : forall grow cut rs x, (forall c, cut c = true -> ascii_nonletter c = true) -> encodes rs x ->
  To grow (utf8 rs) = Ok (inl x) /\ To grow (trim cut (utf8 rs)) = Ok (inl (trim cut x)) /\
  From grow x = Ok (inl (utf8 rs)) /\ From grow (trim cut x) = Ok (inl (trim cut (utf8 rs))) /\
  trim cut (utf8 rs) = utf8 (trim cut rs).
Proof. exact trim_To. Qed.
Print Assumptions C164_partial.
(* spaces and full stops around two syllables, whose second code ends in the byte of a letter *)
Definition ex_cut (c : Z) : bool := (c =? 0x20) || (c =? 0x2E).
Example C164_case : (forall c, ex_cut c = true -> ascii_nonletter c = true) /\
  encodes [0x20; 0x2E; 0xAC00; 0x20; 0xD7A3; 0x2E] [0x20; 0x2E; 0xB0; 0xA1; 0x20; 0xC6; 0x52; 0x2E] /\
  trim ex_cut [0x20; 0x2E; 0xB0; 0xA1; 0x20; 0xC6; 0x52; 0x2E] = [0xB0; 0xA1; 0x20; 0xC6; 0x52].
Proof.
  split; [intros c H; unfold ex_cut in H; apply orb_true_iff in H as [H|H]; apply Z.eqb_eq in H; subst c; reflexivity|].
  split; [|reflexivity].
  apply enc_ascii; [lia|]. apply enc_ascii; [lia|].
  apply (enc_code 0xB0A1); [apply assigned_by; vm_compute; reflexivity|]. apply enc_ascii; [lia|].
  apply (enc_code 0xC652); [apply assigned_by; vm_compute; reflexivity|]. apply enc_ascii; [lia|constructor].
Qed.
