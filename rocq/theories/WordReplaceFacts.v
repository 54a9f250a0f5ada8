(** Lemmas for PropWordReplace.v. *)
From Coq Require Import ZArith List Bool Lia ZifyBool.
From Verif Require Import Base Spec Facts Utf8Facts SpecCp949 SpecIO SpecReplace SpecSuffix Cp949Model Cp949Facts Cp949Facts2 Cp949Facts3 TableFacts PMapFacts
  SuffixFacts ReplaceFacts.
Import ListNotations.
Local Open Scope Z_scope.
Local Open Scope list_scope.

(** As [replaced_codes], for patterns that are found inside of characters only where no text follows. *)
Section Code.
Variable f : Z -> list Z.
Variable good : Z -> Prop.
Variable old new : list Z.
Hypothesis Hne : forall c, good c -> f c <> [].
Hypothesis Hpre : forall rs, Forall good rs -> is_prefix (flat_map f old) (flat_map f rs) -> is_prefix old rs.
Hypothesis Hin : forall c a u rs, good c -> Forall good rs -> f c = a ++ u -> a <> [] -> u <> [] -> ~ is_prefix (flat_map f old) (u ++ flat_map f rs).

Lemma inner_misses' c s t : good c -> Forall good s -> replaced (flat_map f old) (flat_map f new) (flat_map f s) t ->
  forall u a, a <> [] -> f c = a ++ u -> replaced (flat_map f old) (flat_map f new) (u ++ flat_map f s) (u ++ t).
Proof.
  intros Hc Hg Hs. induction u as [|b u IH]; intros a Ha E; [exact Hs|]. cbn [app]. constructor.
  - apply (Hin c a (b :: u) s Hc Hg E Ha). discriminate.
  - apply (IH (a ++ [b])); [destruct a; discriminate|]. rewrite <- app_assoc. exact E.
Qed.
Lemma replaced_codes' rs rs' : replaced old new rs rs' -> Forall good rs ->
  replaced (flat_map f old) (flat_map f new) (flat_map f rs) (flat_map f rs').
Proof.
  induction 1 as [|s t _ IH|c s t Hn _ IH]; intros Hg.
  - constructor.
  - rewrite !flat_map_app. constructor. apply IH. apply Forall_app in Hg. apply Hg.
  - cbn [flat_map]. pose proof (Forall_inv Hg) as Hc. pose proof (Forall_inv_tail Hg) as Hs. specialize (IH Hs).
    pose proof (Hne c Hc) as H0. destruct (f c) as [|b u] eqn:E; [congruence|]. cbn [app]. constructor.
    + intros Hp. apply Hn. apply Hpre; [exact Hg|]. cbn [flat_map]. rewrite E. exact Hp.
    + apply (inner_misses' c s _ Hc Hs IH u [b]); [discriminate|exact E].
Qed.
End Code.

Lemma replaced_word k p old new rs rs' : Forall ks_char k -> ascii_nonletter p = true -> Forall in_repertoire (k ++ p :: old) -> Forall in_repertoire rs ->
  replaced (k ++ p :: old) new rs rs' ->
  replaced (flat_map to_char (k ++ p :: old)) (flat_map to_char new) (flat_map to_char rs) (flat_map to_char rs').
Proof.
  intros Hk Hp Ho Hs H. assert (Hpa : 0 <= p < 0x80) by (unfold ascii_nonletter in Hp; lia).
  apply (replaced_codes' to_char in_repertoire); try assumption.
  - intros c [Hc|(x & Hx)]; [rewrite to_char_ascii by exact Hc; discriminate|]. rewrite (to_char_code x c Hx). discriminate.
  - intros l Hl. destruct (repertoire_encodes _ Ho) as (x & Hx), (repertoire_encodes _ Hl) as (y & Hy).
    rewrite (encodes_to_char _ _ Hx), (encodes_to_char _ _ Hy). apply (C75_lemma _ _ _ _ Hx Hy).
  - intros c a u l Hc Hl E Ha Hu (q & Eq). destruct (repertoire_encodes _ Hl) as (y & Hy). rewrite (encodes_to_char _ _ Hy) in Eq.
    rewrite flat_map_app in Eq. cbn [flat_map] in Eq. rewrite (to_char_ascii p Hpa) in Eq.
    apply Forall_app in Ho as [Ho _]. destruct (repertoire_encodes _ Ho) as (xk & Hxk). rewrite (encodes_to_char _ _ Hxk), <- app_assoc in Eq.
    destruct (ks_run_bytes k xk Hk Hxk) as [B1 B2].
    destruct Hc as [Hc|(d & Hd)].
    + rewrite to_char_ascii in E by exact Hc. destruct a as [|h a]; [congruence|]. destruct a; [|discriminate]. destruct u; [congruence|discriminate].
    + rewrite (to_char_code d c Hd) in E. unfold code_bytes in E. pose proof (code_trail d c Hd) as (_ & Ht).
      destruct a as [|h a]; [congruence|]. cbn [app] in E. assert (E' := f_equal (@tl Z) E). cbn [tl] in E'. clear E.
      destruct a as [|h' a]; cbn [app] in E'; [|destruct a, u; try congruence; discriminate].
      subst u. cbn [app] in Eq.
      destruct (shifted_run (length k) xk _ (d mod 256) y l B2 B1 Eq Hy ltac:(destruct Ht as [Ht|Ht]; [left; exact Ht|right; lia])) as (z & w & Ez & Hz).
      cbn [app] in Ez. assert (z = p) by congruence. subst z. unfold ascii_nonletter in Hp. destruct Hz as [Hz|Hz]; [rewrite Hz in Hp; lia|lia].
Qed.
Lemma word_replaced grow k p old new rs o n x : Forall ks_char k -> ascii_nonletter p = true ->
  encodes (k ++ p :: old) o -> encodes new n -> encodes rs x ->
  exists t x', replaced (utf8 (k ++ p :: old)) (utf8 new) (utf8 rs) t /\ replaced o n x x' /\
    To grow t = Ok (inl x') /\ From grow x' = Ok (inl t).
Proof.
  intros Hk Hp Ho Hn Hx. assert (E0 : k ++ p :: old <> []) by (destruct k; discriminate).
  destruct (replaced_total (k ++ p :: old) new E0 (length rs) rs (le_n _)) as [rs' Hr].
  pose proof (encodes_repertoire _ _ Ho) as Ro. pose proof (encodes_repertoire _ _ Hn) as Rn. pose proof (encodes_repertoire _ _ Hx) as Rx.
  exists (utf8 rs'), (flat_map to_char rs').
  split.
  { pose proof (Forall_repertoire_scalar _ Ro) as So. destruct (k ++ p :: old) as [|r pat]; [congruence|].
    apply replaced_utf8; [exact So|apply Forall_repertoire_scalar; exact Rx|exact Hr]. }
  split.
  { rewrite <- (encodes_to_char _ _ Ho), <- (encodes_to_char _ _ Hn), <- (encodes_to_char _ _ Hx). apply replaced_word; assumption. }
  assert (R' : Forall in_repertoire rs') by (eapply Forall_replaced; eassumption).
  destruct (repertoire_encodes _ R') as (x' & Hx'). rewrite (encodes_to_char _ _ Hx').
  split; [apply To_encodes; exact Hx'|]. apply From_decodes, encodes_decodes. exact Hx'.
Qed.
Lemma word_exact grow k p old new rs o n x t x' : Forall ks_char k -> ascii_nonletter p = true ->
  encodes (k ++ p :: old) o -> encodes new n -> encodes rs x ->
  replaced (utf8 (k ++ p :: old)) (utf8 new) (utf8 rs) t -> replaced o n x x' ->
  To grow t = Ok (inl x') /\ From grow x' = Ok (inl t).
Proof.
  intros Hk Hp Ho Hn Hx Ht Hx'. destruct (word_replaced grow k p old new rs o n x Hk Hp Ho Hn Hx) as (t0 & x0 & H1 & H2 & H3 & H4).
  assert (Eo : o <> []) by (intros ->; inversion Ho as [E| |]; destruct k; discriminate).
  assert (Eu : utf8 (k ++ p :: old) <> []).
  { destruct (k ++ p :: old) as [|r pat] eqn:E; [destruct k; discriminate|]. rewrite utf8_cons. pose proof (utf8_char_nonempty r). destruct (utf8_char r); [congruence|discriminate]. }
  rewrite (replaced_fun _ _ _ _ Eu H1 _ Ht), (replaced_fun _ _ _ _ Eo H2 _ Hx'). split; assumption.
Qed.
