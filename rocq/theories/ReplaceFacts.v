(** Lemmas for PropReplace.v. *)
From Coq Require Import ZArith List Bool Lia ZifyBool.
From Verif Require Import Base Spec Facts Utf8Facts SpecCp949 SpecIO SpecReplace Cp949Model Cp949Facts Cp949Facts2 Cp949Facts3 TableFacts PMapFacts.
Import ListNotations.
Local Open Scope Z_scope.
Local Open Scope list_scope.

Lemma prefix_dec (p s : list Z) : is_prefix p s \/ ~ is_prefix p s.
Proof.
  revert s. induction p as [|x p IH]; intros s; [left; exists s; reflexivity|].
  destruct s as [|y s]; [right; intros (q & E); discriminate|].
  destruct (Z.eq_dec x y) as [->|Hn].
  - destruct (IH s) as [(q & ->)|H]; [left; exists q; reflexivity|]. right. intros (q & E). apply H. exists q. injection E as E. exact E.
  - right. intros (q & E). injection E as E1 _. congruence.
Qed.
Lemma replaced_total old new : old <> [] -> forall n s, (length s <= n)%nat -> exists t, replaced old new s t.
Proof.
  intros Ho. induction n as [|n IH]; intros s Hs.
  - destruct s; [|cbn in Hs; lia]. exists []. constructor.
  - destruct s as [|c s]; [exists []; constructor|]. destruct (prefix_dec old (c :: s)) as [(q & E)|H].
    + destruct (IH q) as [t Ht].
      { apply (f_equal (@length Z)) in E. rewrite app_length in E. destruct old; [congruence|]. cbn in E, Hs. lia. }
      exists (new ++ t). rewrite E. constructor. exact Ht.
    + destruct (IH s) as [t Ht]; [cbn in Hs; lia|]. exists (c :: t). constructor; assumption.
Qed.
Lemma replaced_fun old new s t : old <> [] -> replaced old new s t -> forall t', replaced old new s t' -> t' = t.
Proof.
  intros Ho. induction 1 as [|s t _ IH|c s t Hn _ IH]; intros t' H.
  - inversion H as [E|s' t'' H' E|]; [reflexivity|]. apply app_eq_nil in E. destruct E. congruence.
  - inversion H as [E|s' t'' H' E|c s' t'' Hn H' E]; subst.
    + symmetry in E. apply app_eq_nil in E. destruct E. congruence.
    + apply app_inv_head in E. subst s'. rewrite (IH _ H'). reflexivity.
    + exfalso. apply Hn. exists s. exact E.
  - inversion H as [|s' t'' H' E|c' s' t'' Hn' H' E]; subst.
    + exfalso. apply Hn. exists s'. symmetry. exact E.
    + rewrite (IH _ H'). reflexivity.
Qed.

(** From characters to their codes. *)
Section Code.
Variable f : Z -> list Z.
Variable good : Z -> Prop.
Variable old new : list Z.
Hypothesis Hne : forall c, good c -> f c <> [].
Hypothesis Hpre : forall rs, Forall good rs -> is_prefix (flat_map f old) (flat_map f rs) -> is_prefix old rs.
Hypothesis Hin : forall c a u z, good c -> f c = a ++ u -> a <> [] -> u <> [] -> ~ is_prefix (flat_map f old) (u ++ z).

Lemma inner_misses c s t : good c -> replaced (flat_map f old) (flat_map f new) s t ->
  forall u a, a <> [] -> f c = a ++ u -> replaced (flat_map f old) (flat_map f new) (u ++ s) (u ++ t).
Proof.
  intros Hc Hs. induction u as [|b u IH]; intros a Ha E; [exact Hs|]. cbn [app]. constructor.
  - apply (Hin c a (b :: u) s Hc E Ha). discriminate.
  - apply (IH (a ++ [b])); [destruct a; discriminate|]. rewrite <- app_assoc. exact E.
Qed.
Lemma replaced_codes rs rs' : replaced old new rs rs' -> Forall good rs ->
  replaced (flat_map f old) (flat_map f new) (flat_map f rs) (flat_map f rs').
Proof.
  induction 1 as [|s t _ IH|c s t Hn _ IH]; intros Hg.
  - constructor.
  - rewrite !flat_map_app. constructor. apply IH. apply Forall_app in Hg. apply Hg.
  - cbn [flat_map]. pose proof (Forall_inv Hg) as Hc. pose proof (Forall_inv_tail Hg) as Hs. specialize (IH Hs).
    pose proof (Hne c Hc) as H0. destruct (f c) as [|b u] eqn:E; [congruence|]. cbn [app]. constructor.
    + intros Hp. apply Hn. apply Hpre; [exact Hg|]. cbn [flat_map]. rewrite E. exact Hp.
    + apply (inner_misses c _ _ Hc IH u [b]); [discriminate|exact E].
Qed.
End Code.

(** In UTF-8. *)
Lemma utf8_prefix a b : Forall is_scalar a -> Forall is_scalar b -> is_prefix (utf8 a) (utf8 b) -> is_prefix a b.
Proof.
  intros Ha. revert b. induction Ha as [|r a Hr _ IH]; intros b Hb (q & E); [exists b; reflexivity|].
  destruct Hb as [|r' b Hr' Hb].
  - pose proof (utf8_char_nonempty r). rewrite utf8_cons, <- app_assoc in E. change (utf8 []) with (@nil Z) in E.
    symmetry in E. apply app_eq_nil in E. destruct E. congruence.
  - rewrite !utf8_cons, <- app_assoc in E. apply utf8_char_unique in E; [|assumption|assumption].
    destruct E as [-> E]. destruct (IH b Hb) as (q' & ->); [exists q; exact E|]. exists q'. reflexivity.
Qed.
Lemma utf8_inner r c a u : is_scalar c -> utf8_char c = a ++ u -> a <> [] -> u <> [] -> is_scalar r ->
  forall p z, utf8_char r ++ p <> u ++ z.
Proof.
  intros Hc E Ha Hu Hr p z H. destruct u as [|b u]; [congruence|].
  assert (Hb : 0x80 <= b < 0xC0).
  { assert (Hi : exists h tl, utf8_char c = h :: tl /\ In b tl).
    { destruct a as [|h a]; [congruence|]. exists h, (a ++ b :: u). split; [exact E|]. apply in_or_app. right. left. reflexivity. }
    destruct Hi as (h & tl & E' & Hi).
    destruct (utf8_char_cases c Hc) as [[? K]|[[? K]|[[? [? K]]|[? K]]]]; rewrite K in E'; apply (f_equal (skipn 1)) in E'; cbn [skipn] in E'; subst tl; cbn [In] in Hi;
      clear E K H; repeat (destruct Hi as [Hi|Hi]; [rewrite <- Hi; match goal with |- context [?m mod 64] => pose proof (Z.mod_pos_bound m 64 eq_refl) end; lia|]); contradiction. }
  destruct (utf8_char_cases r Hr) as [[? K]|[[? K]|[[? [? K]]|[? K]]]]; rewrite K in H; cbn [app] in H;
    apply (f_equal (hd 0)) in H; cbn [hd] in H; clear E K; Z.div_mod_to_equations; lia.
Qed.
Lemma replaced_utf8 r old new rs rs' : Forall is_scalar (r :: old) -> Forall is_scalar rs ->
  replaced (r :: old) new rs rs' -> replaced (utf8 (r :: old)) (utf8 new) (utf8 rs) (utf8 rs').
Proof.
  intros Ho Hs H. apply (replaced_codes utf8_char is_scalar); try assumption.
  - intros c _. apply utf8_char_nonempty.
  - intros l Hl. apply (utf8_prefix (r :: old) l); assumption.
  - intros c a u z Hc E Ha Hu (q & Eq). cbn [flat_map] in Eq. rewrite <- app_assoc in Eq. symmetry in Eq. revert Eq.
    apply (utf8_inner r c a u); try assumption. exact (Forall_inv Ho).
Qed.

(** In CP949. *)
Lemma to_char_code c r : assigned c r -> to_char r = code_bytes c.
Proof.
  intros H. assert (E : encodes [r] (code_bytes c ++ [])) by (apply enc_code; [exact H|constructor]).
  apply encodes_to_char in E. cbn [flat_map] in E. rewrite !app_nil_r in E. exact E.
Qed.
Lemma replaced_cp949 p old new rs rs' : ascii_nonletter p = true -> Forall in_repertoire (p :: old) -> Forall in_repertoire rs ->
  replaced (p :: old) new rs rs' ->
  replaced (flat_map to_char (p :: old)) (flat_map to_char new) (flat_map to_char rs) (flat_map to_char rs').
Proof.
  intros Hp Ho Hs H. assert (Hpa : 0 <= p < 0x80) by (unfold ascii_nonletter in Hp; lia).
  apply (replaced_codes to_char in_repertoire); try assumption.
  - intros c [Hc|(k & Hk)]; [rewrite to_char_ascii by exact Hc; discriminate|]. rewrite (to_char_code k c Hk). discriminate.
  - intros l Hl. destruct (repertoire_encodes _ Ho) as (x & Hx), (repertoire_encodes _ Hl) as (y & Hy).
    rewrite (encodes_to_char _ _ Hx), (encodes_to_char _ _ Hy). apply (C75_lemma _ _ _ _ Hx Hy).
  - intros c a u z Hc E Ha Hu (q & Eq). cbn [flat_map] in Eq. rewrite (to_char_ascii p Hpa) in Eq.
    destruct u as [|b u]; [congruence|]. cbn [app] in Eq. assert (b = p) by congruence. subst b. clear Eq.
    destruct a as [|h a]; [congruence|]. destruct Hc as [Hc|(k & Hk)].
    + rewrite to_char_ascii in E by exact Hc. destruct a; discriminate.
    + rewrite (to_char_code k c Hk) in E. unfold code_bytes in E. pose proof (code_trail k c Hk) as (_ & Ht).
      destruct a as [|h' a]; cbn [app] in E.
      * assert (E1 : k mod 256 = p) by congruence. rewrite E1 in Ht. unfold ascii_nonletter in Hp. destruct Ht as [Ht|Ht]; lia.
      * destruct a; discriminate.
Qed.

Lemma Forall_replaced (P : Z -> Prop) old new rs rs' : replaced old new rs rs' -> Forall P new -> Forall P rs -> Forall P rs'.
Proof.
  intros H Hn. induction H as [|s t _ IH|c s t _ _ IH]; intros Hs.
  - constructor.
  - apply Forall_app in Hs. apply Forall_app. split; [exact Hn|]. apply IH, Hs.
  - inversion Hs; subst. constructor; auto.
Qed.
Lemma replace_lemma grow p old new rs o n x : ascii_nonletter p = true ->
  encodes (p :: old) o -> encodes new n -> encodes rs x ->
  exists t x', replaced (utf8 (p :: old)) (utf8 new) (utf8 rs) t /\ replaced o n x x' /\
    To grow t = Ok (inl x') /\ From grow x' = Ok (inl t).
Proof.
  intros Hp Ho Hn Hx. destruct (replaced_total (p :: old) new (ltac:(discriminate)) (length rs) rs (le_n _)) as [rs' Hr].
  pose proof (encodes_repertoire _ _ Ho) as Ro. pose proof (encodes_repertoire _ _ Hn) as Rn. pose proof (encodes_repertoire _ _ Hx) as Rx.
  exists (utf8 rs'), (flat_map to_char rs').
  split; [apply replaced_utf8; [apply Forall_repertoire_scalar; exact Ro|apply Forall_repertoire_scalar; exact Rx|exact Hr]|].
  split.
  { rewrite <- (encodes_to_char _ _ Ho), <- (encodes_to_char _ _ Hn), <- (encodes_to_char _ _ Hx). apply replaced_cp949; assumption. }
  assert (R' : Forall in_repertoire rs') by (eapply Forall_replaced; eassumption).
  destruct (repertoire_encodes _ R') as (x' & Hx'). rewrite (encodes_to_char _ _ Hx').
  split; [apply To_encodes; exact Hx'|]. apply From_decodes, encodes_decodes. exact Hx'.
Qed.
(** Both sides have one result only, so it does not matter how the replacement is found. *)
Lemma replace_exact grow p old new rs o n x t x' : ascii_nonletter p = true ->
  encodes (p :: old) o -> encodes new n -> encodes rs x ->
  replaced (utf8 (p :: old)) (utf8 new) (utf8 rs) t -> replaced o n x x' ->
  To grow t = Ok (inl x') /\ From grow x' = Ok (inl t).
Proof.
  intros Hp Ho Hn Hx Ht Hx'. destruct (replace_lemma grow p old new rs o n x Hp Ho Hn Hx) as (t0 & x0 & H1 & H2 & H3 & H4).
  assert (Eo : o <> []).
  { rewrite <- (encodes_to_char _ _ Ho). cbn [flat_map]. rewrite to_char_ascii by (unfold ascii_nonletter in Hp; lia). discriminate. }
  assert (Eu : utf8 (p :: old) <> []).
  { rewrite utf8_cons. pose proof (utf8_char_nonempty p). destruct (utf8_char p); [congruence|discriminate]. }
  rewrite (replaced_fun _ _ _ _ Eu H1 _ Ht), (replaced_fun _ _ _ _ Eo H2 _ Hx'). split; assumption.
Qed.

(** Letters are found inside of syllables. *)
Lemma letter_refuted : exists text text' x x', Forall is_syllable text /\ Forall is_syllable text' /\ text' <> text /\
  replaced (utf8 [0x41]) (utf8 [0x42]) (utf8 text) (utf8 text) /\ replaced [0x41] [0x42] x x' /\
  forall grow, To grow (utf8 text) = Ok (inl x) /\ From grow x' = Ok (inl (utf8 text')).
Proof.
  assert (H1 : exists u v, tget dec_tree 0x8141 = Some u /\ tget dec_tree 0x8142 = Some v /\ is_syllable u /\ is_syllable v /\ u <> v).
  { eexists. eexists. split; [vm_compute; reflexivity|]. split; [vm_compute; reflexivity|]. unfold is_syllable. lia. }
  destruct H1 as (u & v & Hu & Hv & Su & Sv & Hn). apply assigned_by in Hu, Hv.
  assert (Eu : encodes [u] [0x81; 0x41]) by (apply (enc_code 0x8141 u [] []); [exact Hu|constructor]).
  assert (Ev : encodes [v] [0x81; 0x42]) by (apply (enc_code 0x8142 v [] []); [exact Hv|constructor]).
  exists [u], [v], [0x81; 0x41], [0x81; 0x42].
  split; [constructor; [exact Su|constructor]|]. split; [constructor; [exact Sv|constructor]|]. split; [congruence|].
  split.
  { apply (replaced_utf8 0x41 [] [0x42] [u] [u]); [repeat constructor; lia|constructor; [unfold is_syllable, is_scalar in *; lia|constructor]|].
    apply rp_miss; [|constructor]. intros (q & E). unfold is_syllable in Su. cbn [app] in E. assert (u = 0x41) by congruence. lia. }
  split. { apply rp_miss; [intros (q & E); discriminate|]. apply (rp_hit [0x41] [0x42] [] []). constructor. }
  intros grow. split; [apply To_encodes; exact Eu|]. apply From_decodes, encodes_decodes. exact Ev.
Qed.
(** A syllable is found between two others. *)
Lemma syllable_refuted : exists r text text' o x x', is_syllable r /\ Forall is_syllable text /\ Forall is_syllable text' /\ text' <> text /\
  replaced (utf8 [r]) [] (utf8 text) (utf8 text) /\ replaced o [] x x' /\
  forall grow, To grow (utf8 [r]) = Ok (inl o) /\ To grow (utf8 text) = Ok (inl x) /\ From grow x' = Ok (inl (utf8 text')).
Proof.
  assert (H1 : exists r u v w, tget dec_tree 0xB1B2 = Some r /\ tget dec_tree 0xB0B1 = Some u /\ tget dec_tree 0xB2B3 = Some v /\
    tget dec_tree 0xB0B3 = Some w /\ is_syllable r /\ is_syllable u /\ is_syllable v /\ is_syllable w /\ r <> u /\ r <> v).
  { do 4 eexists. split; [vm_compute; reflexivity|]. split; [vm_compute; reflexivity|]. split; [vm_compute; reflexivity|].
    split; [vm_compute; reflexivity|]. unfold is_syllable. lia. }
  destruct H1 as (r & u & v & w & Hr & Hu & Hv & Hw & Sr & Su & Sv & Sw & N1 & N2). apply assigned_by in Hr, Hu, Hv, Hw.
  assert (Er : encodes [r] [0xB1; 0xB2]) by (apply (enc_code 0xB1B2 r [] []); [exact Hr|constructor]).
  assert (Et : encodes [u; v] [0xB0; 0xB1; 0xB2; 0xB3])
    by (apply (enc_code 0xB0B1 u [v] [0xB2; 0xB3]); [exact Hu|apply (enc_code 0xB2B3 v [] []); [exact Hv|constructor]]).
  assert (Ew : encodes [w] [0xB0; 0xB3]) by (apply (enc_code 0xB0B3 w [] []); [exact Hw|constructor]).
  exists r, [u; v], [w], [0xB1; 0xB2], [0xB0; 0xB1; 0xB2; 0xB3], [0xB0; 0xB3].
  split; [exact Sr|]. split; [repeat (constructor; [assumption|]); constructor|]. split; [constructor; [exact Sw|constructor]|].
  split; [discriminate|]. split.
  { apply (replaced_utf8 r [] [] [u; v] [u; v]); [constructor; [unfold is_syllable, is_scalar in *; lia|constructor]| |].
    - repeat (constructor; [unfold is_syllable, is_scalar in *; lia|]). constructor.
    - apply rp_miss; [intros (q & E); cbn [app] in E; congruence|]. apply rp_miss; [intros (q & E); cbn [app] in E; congruence|]. constructor. }
  split.
  { apply rp_miss; [intros (q & E); discriminate|]. apply (rp_hit [0xB1; 0xB2] [] [0xB3] [0xB3]).
    apply rp_miss; [intros (q & E); discriminate|]. constructor. }
  intros grow. split; [apply To_encodes; exact Er|]. split; [apply To_encodes; exact Et|]. apply From_decodes, encodes_decodes. exact Ew.
Qed.
