(** Lemmas for PropEucKr.v. *)
From Coq Require Import ZArith List Bool Lia ZifyBool.
From Verif Require Import Base Spec SpecJamo SpecText SpecCp949 SpecTable SpecSuffix SpecInPlace SpecLetters Facts Utf8 Utf8Facts
  Cp949Model Cp949Facts Cp949Facts2 Cp949Facts3 TableFacts TableFacts2 PMapFacts HangulModel LettersSweep LettersFacts.
Import ListNotations.
Local Open Scope Z_scope.
Local Open Scope list_scope.

Definition fits (r : Z) : Prop := 0 <= r < 0x80 \/ ks_char r.
Lemma ks_unique c r : assigned c r -> ks_char r -> ks_code c.
Proof. intros Ha (c' & Ha' & K). rewrite (assigned_inj c c' r Ha Ha'). exact K. Qed.
Lemma euc_fits rs s : encodes rs s -> (euc_kr s <-> Forall fits rs).
Proof.
  induction 1 as [|r rs bs Hr H IH|c r rs bs Ha H IH].
  - split; intros _; constructor.
  - split; intros K.
    + inversion K as [|b' s' Hb' K' E1|a' b' s' Ha' Hb' K' E1]; subst; [|lia]. constructor; [left; exact Hr|apply IH; exact K'].
    + inversion K; subst. apply ek_ascii; [exact Hr|apply IH; assumption].
  - pose proof (assigned_code c r Ha) as Hc. assert (0x81 <= c / 256) by (Z.div_mod_to_equations; lia).
    pose proof (code_trail c r Ha) as (H1 & H2).
    unfold code_bytes. cbn [app]. split; intros K.
    + inversion K as [|b' s' Hb' K' E1|a' b' s' Ha' Hb' K' E1]; subst; [lia|].
      constructor; [right; exists c; split; [exact Ha|unfold ks_code; lia]|apply IH; assumption].
    + inversion K as [|? ? K1 K2]; subst. destruct K1 as [K1|K1]; [apply assigned_ranges in Ha; lia|].
      apply (ks_unique c r Ha) in K1. destruct K1 as [K1 K3]. apply ek_pair; [lia| |apply IH; exact K2].
      destruct H2 as [H2|H2]; [unfold is_letter_byte in H2; lia|lia].
Qed.
Lemma euc_decodes s : euc_kr s -> exists rs, decodes s rs /\ Forall (fun r => fits r \/ r = 0xFFFD) rs.
Proof.
  induction 1 as [|b s Hb H (rs & IH1 & IH2)|a b s Ha Hb H (rs & IH1 & IH2)].
  - exists []. split; constructor.
  - exists (b :: rs). split; [apply dec_ascii; assumption|constructor; [left; left; exact Hb|exact IH2]].
  - destruct (tget dec_tree (a * 256 + b)) as [u|] eqn:E.
    + exists (u :: rs). pose proof (assigned_by _ _ E) as Hu. split; [apply dec_code; [lia|lia|exact Hu|exact IH1]|].
      constructor; [|exact IH2]. left. right. exists (a * 256 + b). split; [exact Hu|]. unfold ks_code. Z.div_mod_to_equations. lia.
    + exists (0xFFFD :: rs). split; [apply dec_unassigned; [lia|lia| |exact IH1]|constructor; [right; reflexivity|exact IH2]].
      intros u Hu. apply assigned_dec in Hu. congruence.
Qed.
Lemma letter_fits r : 0x3131 <= r <= 0x3163 -> fits r.
Proof.
  intros H. right. exists (ks_at 0xA4 (r - 0x3131)). split.
  - pose proof (proj1 C69_lemma (r - 0x3131) ltac:(lia)) as A. replace (0x3131 + (r - 0x3131)) with r in A by lia. exact A.
  - unfold ks_code, ks_at. Z.div_mod_to_equations. lia.
Qed.
Lemma cons_range r : cons r = true -> 0x3131 <= r <= 0x3163.
Proof. unfold cons. lia. Qed.
Lemma vow_range r : vow r = true -> 0x3131 <= r <= 0x3163.
Proof. unfold vow. lia. Qed.
Definition sendable (r : Z) : Prop := is_syllable r \/ (~ is_jamo r /\ (0 <= r < 0x80 \/ ks_char r)).
Lemma letters_fit rs : Forall sendable rs -> Forall fits (letters rs).
Proof.
  induction 1 as [|r rs Hr H IH]; [constructor|].
  assert (D : is_syllable r \/ ~ is_syllable r) by (unfold is_syllable; lia). destruct D as [D|D].
  - destruct (syl r D) as (l & m & t & E & Hl & Hm & Ht & _). rewrite (letters_syl r l m t rs D E Hl Hm Ht).
    apply lead_ok_cons in Hl. apply medial_ok_vow in Hm. constructor; [apply letter_fits, cons_range, Hl|]. constructor; [apply letter_fits, vow_range, Hm|].
    apply Forall_app. split; [|exact IH]. unfold tail_letters. destruct (Z.eqb_spec t 0) as [->|Hn]; [constructor|].
    unfold tail_ok in Ht. assert (cons t = true) as Hc by (destruct (cons t); [reflexivity|cbn in Ht; lia]).
    constructor; [apply letter_fits, cons_range, Hc|constructor].
  - destruct Hr as [Hr|[Hj Hr]]; [contradiction|]. rewrite (letters_other r rs Hj D). constructor; [exact Hr|exact IH].
Qed.
Lemma fits_repertoire rs : Forall fits rs -> Forall in_repertoire rs.
Proof. apply Forall_impl. intros r [H|(c & Hc & _)]; [left; exact H|right; exists c; exact Hc]. Qed.

Section Grow.
Variable grow : Z -> Z -> Z.
Lemma euc_To rs s : Forall in_repertoire rs -> To grow (utf8 rs) = Ok (inl s) -> (euc_kr s <-> Forall (fun r => 0 <= r < 0x80 \/ ks_char r) rs).
Proof. intros H E. apply To_inv in E; [|exact H]. exact (euc_fits rs s E). Qed.
Lemma euc_From s : euc_kr s -> exists rs, From grow s = Ok (inl (utf8 rs)) /\ Forall (fun r => (0 <= r < 0x80 \/ ks_char r) \/ r = 0xFFFD) rs.
Proof. intros H. destruct (euc_decodes s H) as (rs & H1 & H2). exists rs. split; [apply From_decodes; exact H1|exact H2]. Qed.
Lemma euc_letters rs : Forall sendable rs -> exists s, To grow (utf8 (letters rs)) = Ok (inl s) /\ euc_kr s /\
  From grow s = Ok (inl (utf8 (letters rs))) /\ compose (letters rs) = rs.
Proof.
  intros H. pose proof (letters_fit rs H) as F. destruct (repertoire_encodes _ (fits_repertoire _ F)) as (s & He). exists s.
  split; [apply To_encodes; exact He|]. split; [apply (euc_fits _ _ He); exact F|]. split; [apply C29_lemma; exact He|].
  apply compose_letters. unfold plain. eapply Forall_impl; [|exact H]. intros r [Hr|[Hr _]]; [left; exact Hr|right; exact Hr].
Qed.
End Grow.
