(** Property of texts converted there and back again. *)
From Coq Require Import ZArith List Bool Lia.
From Verif Require Import Base Spec SpecCp949 SpecIO Cp949Model Cp949Facts2 RepairFacts.
Import ListNotations.
Local Open Scope Z_scope.
Local Open Scope list_scope.

(** * C163 Converting there and back a second time changes nothing, and the first time changes
      nothing exactly if the text is encodable, or all its codes are assigned *)
Theorem C163_utf8 : forall grow x, Forall is_byte x ->
  exists t rs, To grow x = Ok (inl t) /\ From grow t = Ok (inl (utf8 rs)) /\ Forall in_repertoire rs /\
    To grow (utf8 rs) = Ok (inl t) /\
    (utf8 rs = x <-> exists rs', Forall in_repertoire rs' /\ x = utf8 rs').
Proof. exact repair_utf8. Qed.
Print Assumptions C163_utf8.
Theorem C163_cp949 : forall grow s rs, decodes s rs ->
  exists t, From grow s = Ok (inl (utf8 rs)) /\ To grow (utf8 rs) = Ok (inl t) /\
    From grow t = Ok (inl (utf8 (flat_map (fun r => if r =? 0xFFFD then [0x3F; 0x3F] else [r]) rs))) /\
    To grow (utf8 (flat_map (fun r => if r =? 0xFFFD then [0x3F; 0x3F] else [r]) rs)) = Ok (inl t) /\
    (t = s <-> exists rs', encodes rs' s).
Proof. exact repair_cp949. Qed.
Print Assumptions C163_cp949.
(* a syllable, an invalid byte and a letter; a syllable, an unassigned code and a letter *)
Example C163_case : To wgrow [0xEA; 0xB0; 0x80; 0xFF; 0x7A] = Ok (inl [0xB0; 0xA1; 0x3F; 0x3F; 0x7A]) /\
  From wgrow [0xB0; 0xA1; 0x3F; 0x3F; 0x7A] = Ok (inl (utf8 [0xAC00; 0x3F; 0x3F; 0x7A])) /\
  From wgrow [0xB0; 0xA1; 0xFE; 0xFF; 0x7A] = Ok (inl (utf8 [0xAC00; 0xFFFD; 0x7A])) /\
  To wgrow (utf8 [0xAC00; 0xFFFD; 0x7A]) = Ok (inl [0xB0; 0xA1; 0x3F; 0x3F; 0x7A]) /\
  decodes [0xB0; 0xA1; 0xFE; 0xFF; 0x7A] [0xAC00; 0xFFFD; 0x7A].
Proof.
  assert (H : From wgrow [0xB0; 0xA1; 0xFE; 0xFF; 0x7A] = Ok (inl (utf8 [0xAC00; 0xFFFD; 0x7A]))) by (vm_compute; reflexivity).
  split; [vm_compute; reflexivity|]. split; [vm_compute; reflexivity|]. split; [exact H|]. split; [vm_compute; reflexivity|].
  apply (C30_lemma wgrow); [repeat constructor; unfold is_byte; lia|]. split; [exact H|]. repeat constructor; unfold is_scalar; lia.
Qed.
