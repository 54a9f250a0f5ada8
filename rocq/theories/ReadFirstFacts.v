(** Further lemmas for PropReadOrder.v. *)
From Coq Require Import ZArith List Bool Lia.
From Verif Require Import Base Spec SpecText SpecCp949 SpecTable Facts Utf8 Utf8Facts Cp949Model Cp949Facts Cp949Facts2 Cp949Facts3 TableFacts TableFacts2
  HanjaModel HanjaFacts LookupFacts.
Import ListNotations.
Local Open Scope Z_scope.
Local Open Scope list_scope.

Lemma lex_codes c d s t : c < d -> lex_lt (code_bytes c ++ s) (code_bytes d ++ t).
Proof.
  intros H. unfold code_bytes. cbn [app]. pose proof (Z.div_mod c 256 ltac:(lia)). pose proof (Z.div_mod d 256 ltac:(lia)).
  pose proof (Z.mod_pos_bound c 256 ltac:(lia)). pose proof (Z.mod_pos_bound d 256 ltac:(lia)).
  destruct (Z.lt_ge_cases (c / 256) (d / 256)) as [L|L]; [apply lex_less, L|].
  assert (E : c / 256 = d / 256) by lia. rewrite E. apply lex_tail, lex_less. lia.
Qed.
Lemma encodes_hanja u a x : is_hanja u -> encodes (u :: a) x -> exists c t, assigned c u /\ x = code_bytes c ++ t.
Proof.
  intros Hu E. inversion E as [|r rs bs Hr E' e1 e2|c r rs bs A E' e1 e2]; subst; [|exists c, bs; split; [exact A|reflexivity]].
  exfalso. unfold is_hanja, unified_in_compat_block in Hu. cbn [In] in Hu. lia.
Qed.
Lemma filed_order c u d v : assigned c u -> assigned d v -> is_hanja u -> is_hanja v -> ~ In u filed_elsewhere -> ~ In v filed_elsewhere ->
  c < d -> convert_rune u <= convert_rune v.
Proof.
  intros A B Hu Hv Nu Nv H. pose proof (assigned_scalar _ _ A) as Su. pose proof (assigned_scalar _ _ B) as Sv.
  rewrite !convert_rune_reading.
  exact (C67_lemma c u (reading u) d v (reading v) A B Hu Hv Nu Nv (reading_scalar u Su) (reading_scalar v Sv) (Convert_reading u Su) (Convert_reading v Sv) H).
Qed.
Lemma read_first p u a v b x y : is_hanja u -> is_hanja v -> ~ In u filed_elsewhere -> ~ In v filed_elsewhere ->
  Convert (utf8 [u]) <> Convert (utf8 [v]) -> encodes (p ++ u :: a) x -> encodes (p ++ v :: b) y ->
  (lex_lt x y <-> lex_lt (Convert (utf8 (p ++ u :: a))) (Convert (utf8 (p ++ v :: b)))).
Proof.
  intros Hu Hv Nu Nv D Ex Ey.
  pose proof (Forall_repertoire_scalar _ (encodes_repertoire _ _ Ex)) as Sx. pose proof (Forall_repertoire_scalar _ (encodes_repertoire _ _ Ey)) as Sy.
  destruct (encodes_split _ _ _ Ex) as (x1 & x2 & -> & P1 & Q1). destruct (encodes_split _ _ _ Ey) as (y1 & y2 & -> & P2 & Q2).
  rewrite (encodes_fun _ _ _ P2 P1). clear Ex Ey P2 y1.
  destruct (encodes_hanja _ _ _ Hu Q1) as (c & s & A & ->). destruct (encodes_hanja _ _ _ Hv Q2) as (d & t & B & ->).
  pose proof (assigned_scalar _ _ A) as Su. pose proof (assigned_scalar _ _ B) as Sv.
  assert (N : convert_rune u <> convert_rune v).
  { intros E. apply D. rewrite !Convert_utf8 by (constructor; [assumption|constructor]). cbn [map]. rewrite E. reflexivity. }
  assert (M : forall l, Forall is_scalar l -> Forall is_scalar (map convert_rune l))
    by (intros l Hl; apply Forall_map; eapply Forall_impl; [exact convert_rune_scalar|exact Hl]).
  rewrite !Convert_utf8 by assumption.
  rewrite <- (utf8_lex _ _ (M _ Sx) (M _ Sy)). rewrite !map_app. cbn [map]. rewrite !lex_app.
  destruct (Z.lt_trichotomy c d) as [L|[L|L]].
  - pose proof (filed_order c u d v A B Hu Hv Nu Nv L). split; intros _; [apply lex_less; lia|apply lex_codes, L].
  - subst d. exfalso. apply N. f_equal. exact (assigned_fun _ _ _ A B).
  - pose proof (filed_order d v c u B A Hv Hu Nv Nu L). split; intros X; exfalso.
    + exact (lex_asym _ _ X (lex_codes d c t s L)).
    + refine (lex_asym _ _ X (lex_less _ _ _ _ _)). lia.
Qed.
