(** Lemmas for PropRepair.v: there and back again. *)
From Coq Require Import ZArith List Bool Lia.
From Verif Require Import Base Spec SpecCp949 SpecIO Cp949Model Utf8Facts Cp949Facts Cp949Facts2 TableFacts.
Import ListNotations.
Local Open Scope Z_scope.
Local Open Scope list_scope.

Definition marked (r : Z) : list Z := if r =? 0xFFFD then [0x3F; 0x3F] else [r].

Lemma marked_encodes s rs : decodes s rs -> encodes (flat_map marked rs) (flat_map to_char rs).
Proof.
  induction 1 as [|b s rs Hb H IH|b0 b1 u s rs H0 H1 Hu H IH|b0 b1 s rs H0 H1 Hu H IH]; [constructor|..]; rewrite to_chars_cons; cbn [flat_map].
  - unfold marked at 1. rewrite (proj2 (Z.eqb_neq b 0xFFFD)) by lia. rewrite to_char_ascii by exact Hb. apply enc_ascii; assumption.
  - assert (Hn : u <> 0xFFFD) by (apply (repertoire_not_replacement u); right; eauto).
    unfold marked at 1. rewrite (proj2 (Z.eqb_neq u 0xFFFD) Hn). rewrite (to_char_assigned _ u Hu). apply (enc_code _ u); assumption.
  - replace (to_char replacement) with [0x3F; 0x3F] by (vm_compute; reflexivity).
    change (marked replacement) with [0x3F; 0x3F]. cbn [app]. apply enc_ascii; [lia|]. apply enc_ascii; [lia|exact IH].
Qed.

Section Repair.
Variable grow : Z -> Z -> Z.

Lemma repair_utf8 x : Forall is_byte x ->
  exists t rs, To grow x = Ok (inl t) /\ From grow t = Ok (inl (utf8 rs)) /\ Forall in_repertoire rs /\
    To grow (utf8 rs) = Ok (inl t) /\
    (utf8 rs = x <-> exists rs', Forall in_repertoire rs' /\ x = utf8 rs').
Proof.
  intros Hx. destruct (C35_lemma grow x Hx) as (t & rs & Et & He & Ef & Hs & _).
  exists t, rs. split; [exact Et|]. split; [exact Ef|]. split; [eapply encodes_repertoire; exact He|].
  split; [apply To_encodes; exact He|]. split.
  - intros <-. exists rs. split; [eapply encodes_repertoire; exact He|reflexivity].
  - intros (rs' & Hr & ->). destruct (C28_lemma grow rs' Hr) as (bs & _ & E1 & E2).
    rewrite Et in E1. injection E1 as <-. rewrite Ef in E2. injection E2 as E2. exact E2.
Qed.

Lemma repair_cp949 s rs : decodes s rs ->
  exists t, From grow s = Ok (inl (utf8 rs)) /\ To grow (utf8 rs) = Ok (inl t) /\ From grow t = Ok (inl (utf8 (flat_map marked rs))) /\
    To grow (utf8 (flat_map marked rs)) = Ok (inl t) /\
    (t = s <-> exists rs', encodes rs' s).
Proof.
  intros Hd. pose proof (marked_encodes s rs Hd) as He. exists (flat_map to_char rs).
  split; [apply From_decodes; exact Hd|].
  split; [apply To_utf8; eapply decodes_scalar; exact Hd|]. split; [apply From_encodes; exact He|]. split; [apply To_encodes; exact He|].
  split.
  - intros E. exists (flat_map marked rs). rewrite <- E at 1. exact He.
  - intros [rs' H']. rewrite (decodes_fun s rs Hd rs' (encodes_decodes _ _ H')). apply encodes_to_char. exact H'.
Qed.
End Repair.
