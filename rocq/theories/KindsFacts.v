(** Lemmas for PropKinds.v. *)
From Coq Require Import ZArith List Bool Lia ZifyBool.
From Verif Require Import Base Spec SpecCp949 SpecTable Facts Utf8 Utf8Facts Cp949Model Cp949Facts Cp949Facts2 TableFacts TableFacts2 PMapFacts
  HangulModel HangulFacts HanjaModel HanjaFacts.
Import ListNotations.
Local Open Scope Z_scope.
Local Open Scope list_scope.

Definition letter_code (u : Z) : Z := ks_at 0xA4 (u - 0x3131).
Lemma letter_assigned u : 0x3131 <= u <= 0x318E -> assigned (letter_code u) u.
Proof.
  intros H. pose proof (proj1 C69_lemma (u - 0x3131) ltac:(lia)) as A. replace (0x3131 + (u - 0x3131)) with u in A by lia. exact A.
Qed.
Lemma IsHangul_range r : IsHangul r = true <-> 0xAC00 <= r <= 0xD7A3 \/ 0x3131 <= r <= 0x3163 \/ 0x1100 <= r <= 0x1112 \/ 0x1161 <= r <= 0x1175 \/ 0x11A8 <= r <= 0x11C2.
Proof.
  rewrite (IsHangul_iff r).
  unfold is_syllable, is_lead_jamo, is_medial_jamo, is_tail_jamo, is_compat_jaeum, is_compat_moeum. lia.
Qed.
Lemma jamo_unassigned : forallb (fun u => match tget enc_tree u with None => true | _ => false end) (zseq 0x1100 256) = true.
Proof. vm_compute. reflexivity. Qed.
Lemma hangul_cp949 c u : assigned c u -> (IsHangul u = true <-> is_syllable u \/ 0x3131 <= u <= 0x3163).
Proof.
  intros H. rewrite IsHangul_range. assert (N : ~ 0x1100 <= u <= 0x11FF).
  { intros Hu. pose proof jamo_unassigned as F. rewrite forallb_forall in F. specialize (F u ltac:(apply in_zseq; lia)).
    apply assigned_enc in H. rewrite H in F. discriminate. }
  unfold is_syllable. lia.
Qed.
Lemma old_letters u : 0x3164 <= u <= 0x318E -> assigned (letter_code u) u /\ IsHangul u = false.
Proof.
  intros H. split; [apply letter_assigned; lia|]. destruct (IsHangul u) eqn:E; [|reflexivity]. apply IsHangul_range in E. lia.
Qed.
Lemma kinds_refuted : exists c u, 0x3131 <= u <= 0x318E /\ assigned c u /\ IsHangul u = false.
Proof. exists (letter_code 0x3165), 0x3165. split; [lia|]. apply old_letters. lia. Qed.

Lemma kinds_disjoint r : ~ (IsHangul r = true /\ IsHanja r = true).
Proof.
  intros [H K]. apply IsHangul_range in H. apply IsHanja_iff in K. unfold is_hanja, unified_in_compat_block in K. cbn [In] in K. lia.
Qed.
Lemma converted_hangul r : IsHanja r = true -> IsHangul (convert_rune r) = true.
Proof. intros H. apply IsHangul_range. pose proof (convert_rune_hanja r H) as S. unfold is_syllable in S. lia. Qed.
Lemma kinds_counts rs : zlen (filter IsHangul (map convert_rune rs)) = zlen (filter IsHangul rs) + zlen (filter IsHanja rs) /\
  filter IsHanja (map convert_rune rs) = [] /\
  filter (fun r => negb (IsHangul r)) (map convert_rune rs) = filter (fun r => negb (IsHangul r) && negb (IsHanja r)) rs.
Proof.
  induction rs as [|r rs (IH1 & IH2 & IH3)]; [repeat split|]. cbn [map filter]. rewrite convert_rune_not_hanja.
  destruct (IsHanja r) eqn:K.
  - pose proof (converted_hangul r K) as H. rewrite H. destruct (IsHangul r) eqn:H'; [exfalso; apply (kinds_disjoint r); auto|].
    cbn [negb andb]. rewrite !zlen_cons. split; [lia|]. split; [exact IH2|exact IH3].
  - rewrite (convert_rune_other r K). destruct (IsHangul r) eqn:H; cbn [negb andb].
    + rewrite !zlen_cons. split; [lia|]. split; [exact IH2|exact IH3].
    + split; [exact IH1|]. split; [exact IH2|]. rewrite IH3. reflexivity.
Qed.
Lemma kinds_Convert s rs rs' : Forall is_byte s -> reads_as s rs -> reads_as (Convert s) rs' ->
  zlen (filter IsHangul rs') = zlen (filter IsHangul rs) + zlen (filter IsHanja rs) /\
  filter IsHanja rs' = [] /\
  filter (fun r => negb (IsHangul r)) rs' = filter (fun r => negb (IsHangul r) && negb (IsHanja r)) rs.
Proof.
  intros Hb Hr Hr'. assert (rs' = map convert_rune rs) as ->; [|apply kinds_counts].
  rewrite (Convert_reads s rs Hb Hr) in Hr'. apply (reads_as_fun _ _ _ Hr'). apply reads_as_utf8.
  apply Forall_scalar_convert. eapply reads_as_scalar; eassumption.
Qed.
