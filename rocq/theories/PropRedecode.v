(** UTF-8 text that is decoded as if it were CP949. *)
From Coq Require Import ZArith List Bool Lia Arith.
From Verif Require Import Base Spec SpecCp949 Cp949Model RedecodeFacts.
Import ListNotations.
Local Open Scope Z_scope.
Local Open Scope list_scope.

(** * C194 Decoding UTF-8
    False: three other characters come out of two syllables. *)
Theorem C194_refuted : exists text t, Forall is_syllable text /\ text <> [] /\
  (forall grow, From grow (utf8 text) = Ok (inl (utf8 t))) /\ Forall is_scalar t /\ ~ In replacement t.
Proof. exact redecode_refuted. Qed.
Print Assumptions C194_refuted.
(** From fails if the number of three-byte characters behind the last ASCII character is odd, and only then. *)
Theorem C194_exact_partial : forall grow p h, Forall is_scalar (p ++ h) -> p = [] \/ (exists q c, p = q ++ [c] /\ c < 0x80) ->
  Forall (fun r => 0x80 <= r) h ->
  (Nat.Odd (length (filter (fun r => (0x800 <=? r) && (r <? 0x10000)) h)) -> From grow (utf8 (p ++ h)) = Ok (inr ErrCP949UnexpectedStream)) /\
  (Nat.Even (length (filter (fun r => (0x800 <=? r) && (r <? 0x10000)) h)) -> exists t, From grow (utf8 (p ++ h)) = Ok (inl t)).
Proof. exact redecode. Qed.
Print Assumptions C194_exact_partial.

(** A syllable, a space, a no-break space and one or two syllables. *)
Example C194_case : let g := fun old need => Z.max need (2 * old) in
  Forall is_scalar ([0xAC00; 0x20] ++ [0xA0; 0xAC00; 0xAC01]) /\ (exists q c, [0xAC00; 0x20] = q ++ [c] /\ c < 0x80) /\
  Forall (fun r => 0x80 <= r) [0xA0; 0xAC00; 0xAC01] /\
  Nat.Even (length (filter (fun r => (0x800 <=? r) && (r <? 0x10000)) [0xA0; 0xAC00; 0xAC01])) /\
  Nat.Odd (length (filter (fun r => (0x800 <=? r) && (r <? 0x10000)) [0xA0; 0xAC00])) /\
  From g (utf8 [0xAC00; 0x20; 0xA0; 0xAC00]) = Ok (inr ErrCP949UnexpectedStream) /\
  exists t, From g (utf8 [0xAC00; 0x20; 0xA0; 0xAC00; 0xAC01]) = Ok (inl t).
Proof.
  cbv zeta. split; [repeat (constructor; [unfold is_scalar; lia|]); constructor|].
  split; [exists [0xAC00], 0x20; split; [reflexivity|lia]|].
  split; [repeat (constructor; [lia|]); constructor|].
  split; [exists 1%nat; reflexivity|]. split; [exists 0%nat; reflexivity|]. split; [vm_compute; reflexivity|].
  eexists. vm_compute. reflexivity.
Qed.
