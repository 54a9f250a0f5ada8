(** Lemmas for PropFind.v. *)
From Coq Require Import ZArith List Bool Lia.
From Verif Require Import Base Spec SpecText SpecCp949 Facts Utf8 Utf8Facts Cp949Facts HangulFacts3 HanjaModel HanjaFacts TextFacts2 ReplaceFacts.
Import ListNotations.
Local Open Scope Z_scope.
Local Open Scope list_scope.

Lemma reads_split r1 : forall s r2, reads_as s (r1 ++ r2) -> exists s1 s2, s = s1 ++ s2 /\ reads_as s1 r1 /\ reads_as s2 r2.
Proof.
  induction r1 as [|r r1 IH]; intros s r2 H; [exists [], s; repeat split; [constructor|exact H]|].
  cbn [app] in H. inversion H as [|r' s' rs' Hr H' E1 E2|b s' rs' Hbad H' E1 E2]; subst; destruct (IH _ _ H') as (s1 & s2 & -> & A & B).
  - exists (utf8_char r ++ s1), s2. split; [apply app_assoc|]. split; [constructor; assumption|exact B].
  - exists (b :: s1), s2. split; [reflexivity|]. split; [|exact B]. apply reads_bad; [|exact A].
    intros r Hr (q & E). apply (Hbad r Hr). exists (q ++ s2). rewrite app_assoc, <- E. reflexivity.
Qed.
Lemma run_split ws b rs : Forall is_scalar ws -> ws <> [] -> Forall is_scalar rs -> forall a, utf8 rs = a ++ utf8 ws ++ b ->
  exists r1 r3, rs = r1 ++ ws ++ r3 /\ a = utf8 r1 /\ b = utf8 r3.
Proof.
  intros Hw Hne Hs. induction Hs as [|r rs Hr Hs IH]; intros a E.
  - exfalso. destruct ws as [|w ws]; [congruence|]. rewrite utf8_cons in E. pose proof (utf8_char_nonempty w).
    symmetry in E. apply app_eq_nil in E as [_ E]. apply app_eq_nil in E as [E _]. apply app_eq_nil in E as [E _]. congruence.
  - destruct a as [|x a].
    + cbn [app] in E. destruct (utf8_prefix ws (r :: rs) Hw) as (r3 & E3); [constructor; assumption|exists b; exact E|].
      exists [], r3. split; [exact E3|]. split; [reflexivity|]. rewrite E3, utf8_app in E. apply app_inv_head in E. congruence.
    + rewrite utf8_cons in E. destruct (app_prefix_eq _ _ _ _ E) as [[u Eu]|[u Eu]].
      * rewrite Eu, <- app_assoc in E. apply app_inv_head in E. destruct (IH u E) as (r1 & r3 & -> & -> & ->).
        exists (r :: r1), r3. split; [reflexivity|]. split; [rewrite Eu, utf8_cons; reflexivity|reflexivity].
      * destruct u as [|y u].
        { rewrite app_nil_r in Eu. rewrite Eu in E. apply app_inv_head in E. destruct (IH [] E) as (r1 & r3 & -> & E1 & ->).
          exists (r :: r1), r3. split; [reflexivity|]. split; [rewrite utf8_cons, <- E1, app_nil_r; congruence|reflexivity]. }
        exfalso. rewrite Eu, <- app_assoc in E. apply app_inv_head in E. destruct ws as [|w ws]; [congruence|].
        rewrite utf8_cons, <- app_assoc in E. symmetry in E. revert E.
        apply (utf8_inner w r (x :: a) (y :: u)); try assumption; try discriminate. exact (Forall_inv Hw).
Qed.

Lemma find_keeps a w b : Forall is_byte (a ++ w ++ b) -> valid_utf8 w -> w <> [] ->
  Convert (a ++ w ++ b) = Convert a ++ Convert w ++ Convert b.
Proof.
  intros H Hw Hn. apply Forall_app in H as [Ha H]. assert (H' := H). apply Forall_app in H' as [Hwb Hb].
  rewrite (C25_lemma a (w ++ b) Ha H), (C25_lemma w b Hwb Hb); [reflexivity|left; exact Hw|]. right.
  destruct Hw as (rs & Hr & ->). destruct Hr as [|r rs Hr Hrs]; [contradiction|]. rewrite utf8_cons, <- app_assoc. apply boundary_char, Hr.
Qed.
Lemma find_origin s a w b : Forall is_byte s -> valid_utf8 w -> w <> [] -> Convert s = a ++ w ++ b ->
  exists a' w' b', s = a' ++ w' ++ b' /\ Convert a' = a /\ Convert w' = w /\ Convert b' = b /\
    (valid_utf8 s -> zlen a' = zlen a /\ zlen w' = zlen w).
Proof.
  intros Hs (ws & Hw & ->) Hn E. pose proof (string_to_runes_reads s Hs) as R. set (rs := string_to_runes s) in *.
  pose proof (Convert_reads s rs Hs R) as EC. rewrite EC in E.
  assert (S : Forall is_scalar (map convert_rune rs)).
  { apply Forall_map. eapply Forall_impl; [|exact (reads_as_scalar _ _ R)]. intros r Hr. apply convert_rune_scalar, Hr. }
  destruct (run_split ws b (map convert_rune rs) Hw (fun e => Hn (f_equal utf8 e)) S a E) as (r1 & r3 & Em & Ea & Eb).
  apply map_eq_app in Em as (q1 & q & Eq & M1 & M). apply map_eq_app in M as (q2 & q3 & Eq' & M2 & M3). subst q.
  rewrite Eq in R. destruct (reads_split q1 s _ R) as (s1 & s' & Es & R1 & R'). destruct (reads_split q2 s' _ R') as (s2 & s3 & Es' & R2 & R3). subst s'.
  assert (B : Forall is_byte s1 /\ Forall is_byte s2 /\ Forall is_byte s3).
  { rewrite Es in Hs. apply Forall_app in Hs as [B1 Hs]. apply Forall_app in Hs as [B2 B3]. auto. }
  destruct B as (B1 & B2 & B3). exists s1, s2, s3. split; [exact Es|].
  rewrite (Convert_reads s1 q1 B1 R1), (Convert_reads s2 q2 B2 R2), (Convert_reads s3 q3 B3 R3), M1, M2, M3.
  split; [congruence|]. split; [reflexivity|]. split; [congruence|]. intros V.
  destruct (C85_lemma s Hs) as [_ L]. apply proj2 in L. specialize (L V).
  destruct (C85_lemma s1 B1) as [L1 _], (C85_lemma s2 B2) as [L2 _], (C85_lemma s3 B3) as [L3 _].
  rewrite (Convert_reads s1 q1 B1 R1), M1, <- Ea in L1. rewrite (Convert_reads s2 q2 B2 R2), M2 in L2. rewrite (Convert_reads s3 q3 B3 R3), M3, <- Eb in L3.
  rewrite EC, E, !zlen_app in L. rewrite Es, !zlen_app in L. lia.
Qed.
