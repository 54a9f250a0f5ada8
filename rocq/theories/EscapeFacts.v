(** Lemmas for PropEscape.v. *)
From Coq Require Import ZArith List Bool Lia ZifyBool.
From Verif Require Import Base Spec SpecText SpecCp949 SpecText2 SpecEscape Facts Utf8 Utf8Facts TextFacts2 Cp949Model Cp949Facts Cp949Facts2 Cp949Facts3 TableFacts PMapFacts
  HanjaModel HanjaFacts.
Import ListNotations.
Local Open Scope Z_scope.
Local Open Scope list_scope.

Section Escape.
Variable ok : Z -> bool.
Variable f : Z -> list Z.
Hypothesis Hf : escapes ok f.
Hypothesis Hok : forall b, ok b = true -> 0 <= b < 0x80.
Lemma escape_not b : ok b = false -> f b = [b].
Proof. intros H. destruct (Hf b) as [E|[E _]]; [exact E|congruence]. Qed.
Lemma escape_high b : 0x80 <= b -> f b = [b].
Proof. intros H. apply escape_not. destruct (ok b) eqn:E; [apply Hok in E; lia|reflexivity]. Qed.
Lemma escape_low b : 0 <= b < 0x80 -> Forall (fun x => 0 <= x < 0x80) (f b).
Proof. intros H. destruct (Hf b) as [->|[_ E]]; [constructor; [exact H|constructor]|exact E]. Qed.
Lemma escape_nots l : Forall (fun b => ok b = false) l -> flat_map f l = l.
Proof. induction 1 as [|b l Hb H IH]; cbn [flat_map]; [reflexivity|]. rewrite (escape_not b Hb), IH. reflexivity. Qed.
Lemma low_self g l : (forall r, 0 <= r < 0x80 -> g r = [r]) -> Forall (fun x => 0 <= x < 0x80) l -> flat_map g l = l.
Proof. intros Hg. induction 1 as [|b l Hb H IH]; cbn [flat_map]; [reflexivity|]. rewrite (Hg b Hb), IH. reflexivity. Qed.
Lemma escape_commutes g rs : (forall r, 0 <= r < 0x80 -> g r = [r]) ->
  Forall (fun r => 0 <= r /\ (0x80 <= r -> Forall (fun b => ok b = false) (g r))) rs -> escaped f (flat_map g rs) = flat_map g (escaped f rs).
Proof.
  intros Hg. unfold escaped. induction 1 as [|r rs [H0 Hr] H IH]; cbn [flat_map]; [reflexivity|]. rewrite !flat_map_app, IH. f_equal.
  destruct (Z.lt_ge_cases r 0x80) as [Hl|Hl].
  - rewrite (Hg r) by lia. cbn [flat_map]. rewrite app_nil_r. symmetry. apply low_self; [exact Hg|]. apply escape_low. lia.
  - rewrite (escape_high r Hl). cbn [flat_map]. rewrite app_nil_r. apply escape_nots, Hr, Hl.
Qed.
Lemma escaped_all (P : Z -> Prop) rs : (forall r, 0 <= r < 0x80 -> P r) -> (forall r, P r -> 0 <= r) -> Forall P rs -> Forall P (escaped f rs).
Proof.
  intros HP H0. unfold escaped. induction 1 as [|r rs Hr H IH]; cbn [flat_map]; [constructor|]. apply Forall_app. split; [|exact IH].
  destruct (Z.lt_ge_cases r 0x80) as [Hl|Hl].
  - eapply Forall_impl; [|apply escape_low; split; [apply H0, Hr|exact Hl]]. exact HP.
  - rewrite (escape_high r Hl). constructor; [exact Hr|constructor].
Qed.
Lemma scalar_low r : 0 <= r < 0x80 -> is_scalar r.
Proof. unfold is_scalar. lia. Qed.
Lemma scalar_0 r : is_scalar r -> 0 <= r.
Proof. unfold is_scalar. lia. Qed.
Lemma escaped_utf8 rs : Forall is_scalar rs -> escaped f (utf8 rs) = utf8 (escaped f rs).
Proof.
  intros H. unfold utf8. apply escape_commutes; [exact utf8_char_ascii|]. eapply Forall_impl; [|exact H]. intros r Hr. split; [apply scalar_0, Hr|].
  intros Hh. eapply Forall_impl; [|apply (utf8_char_no_ascii r Hr Hh)]. cbn. intros b Hb. destruct (ok b) eqn:E; [apply Hok in E; lia|reflexivity].
Qed.
Lemma escaped_to_char rs : (forall b, ok b = true -> ascii_nonletter b = true) -> Forall is_scalar rs -> ok 0x3F = false \/ Forall in_repertoire rs ->
  escaped f (flat_map to_char rs) = flat_map to_char (escaped f rs).
Proof.
  intros Hn H Hq. apply escape_commutes; [exact to_char_ascii|].
  assert (Hcode : forall c u, assigned c u -> Forall (fun b => ok b = false) (code_bytes c)).
  { assert (Hh : forall b, ascii_nonletter b = false -> ok b = false) by (intros b Hb; destruct (ok b) eqn:Eb; [apply Hn in Eb; congruence|reflexivity]).
    intros c u Hc. apply code_trail in Hc. unfold code_bytes. constructor; [|constructor; [|constructor]]; apply Hh; unfold ascii_nonletter.
    - lia.
    - destruct Hc as [_ [Hc|Hc]]; [rewrite Hc; lia|lia]. }
  destruct Hq as [Hq|Hq].
  - eapply Forall_impl; [|exact H]. intros r Hr. split; [apply scalar_0, Hr|]. intros Hh. rewrite to_char_high by exact Hh. unfold enc16.
    destruct (tget _ _) as [c|] eqn:Ec; [apply (Hcode c (r mod 0x10000)), assigned_enc, Ec|].
    destruct (0xFFE6 <? r mod 0x10000); repeat (constructor; [exact Hq|]); constructor.
  - eapply Forall_impl; [|exact Hq]. intros r Hr. split; [apply scalar_0, repertoire_scalar, Hr|]. intros Hh. destruct Hr as [Hr|[c Hc]]; [lia|].
    rewrite (to_char_assigned c r Hc). eapply Hcode. exact Hc.
Qed.
Lemma escaped_convert rs : Forall is_scalar rs -> map convert_rune (escaped f rs) = escaped f (map convert_rune rs).
Proof.
  unfold escaped. induction 1 as [|r rs Hr H IH]; cbn [flat_map map]; [reflexivity|]. rewrite map_app, IH. f_equal.
  assert (Hlow : forall x, 0 <= x < 0x80 -> convert_rune x = x).
  { intros x Hx. apply convert_rune_other. destruct (IsHanja x) eqn:E; [|reflexivity]. apply IsHanja_iff in E.
    unfold is_hanja, unified_in_compat_block in E. cbn [In] in E. lia. }
  destruct (Z.lt_ge_cases r 0x80) as [Hl|Hl].
  - pose proof (scalar_0 r Hr). rewrite (Hlow r) by lia. pose proof (escape_low r ltac:(lia)) as F.
    induction F as [|x l Hx F IHF]; cbn [map]; [reflexivity|]. rewrite (Hlow x Hx), IHF. reflexivity.
  - rewrite (escape_high r Hl). cbn [map]. symmetry. apply escape_high. destruct (IsHanja r) eqn:E.
    + pose proof (convert_rune_hanja r E) as Hs. unfold is_syllable in Hs. lia.
    + rewrite convert_rune_other by exact E. exact Hl.
Qed.
Lemma escape_Convert rs : Forall is_scalar rs -> Convert (escaped f (utf8 rs)) = escaped f (Convert (utf8 rs)).
Proof.
  intros H. rewrite (Convert_utf8 rs H), !escaped_utf8 by (try apply Forall_scalar_convert; exact H).
  rewrite Convert_utf8 by (apply escaped_all; [exact scalar_low|exact scalar_0|exact H]). rewrite escaped_convert by exact H. reflexivity.
Qed.
End Escape.
Lemma nonletter_low b : ascii_nonletter b = true -> 0 <= b < 0x80.
Proof. unfold ascii_nonletter. lia. Qed.
Lemma mark_low b : ascii_mark b = true -> 0 <= b < 0x80.
Proof. unfold ascii_mark, ascii_nonletter. lia. Qed.
Lemma escape_To f grow rs y : escapes ascii_mark f -> Forall is_scalar rs -> To grow (utf8 rs) = Ok (inl y) ->
  To grow (escaped f (utf8 rs)) = Ok (inl (escaped f y)).
Proof.
  intros Hf H E. rewrite To_utf8 in E by exact H. injection E as <-.
  rewrite (escaped_utf8 ascii_mark f Hf mark_low rs H), To_utf8 by (apply (escaped_all ascii_mark f Hf mark_low); [exact scalar_low|exact scalar_0|exact H]).
  rewrite (escaped_to_char ascii_mark f Hf mark_low rs); [reflexivity|unfold ascii_mark; lia|exact H|left; reflexivity].
Qed.
Lemma escape_From f grow rs s : escapes ascii_nonletter f -> encodes rs s -> exists u,
  From grow s = Ok (inl u) /\ From grow (escaped f s) = Ok (inl (escaped f u)) /\ To grow (escaped f u) = Ok (inl (escaped f s)).
Proof.
  intros Hf He. pose proof (encodes_repertoire rs s He) as R. assert (S : Forall is_scalar rs) by (apply Forall_repertoire_scalar; exact R).
  exists (utf8 rs). split; [apply C29_lemma; exact He|]. rewrite (escaped_utf8 ascii_nonletter f Hf nonletter_low rs S).
  assert (He' : encodes (escaped f rs) (escaped f s)).
  { rewrite <- (encodes_to_char rs s He), (escaped_to_char ascii_nonletter f Hf nonletter_low rs (fun b H => H) S (or_intror R)).
    assert (R' : Forall in_repertoire (escaped f rs)) by (apply (escaped_all ascii_nonletter f Hf nonletter_low); [intros r Hr; left; exact Hr|intros r Hr; apply scalar_0, repertoire_scalar, Hr|exact R]).
    destruct (repertoire_encodes _ R') as (bs & Hb). rewrite (encodes_to_char _ _ Hb). exact Hb. }
  apply C29_lemma. exact He'.
Qed.
Lemma escape_Convert_all f rs : escapes (fun b => (0 <=? b) && (b <? 0x80)) f -> Forall is_scalar rs -> Convert (escaped f (utf8 rs)) = escaped f (Convert (utf8 rs)).
Proof. intros Hf. apply (escape_Convert _ f Hf). lia. Qed.
Lemma html_escapes : escapes ascii_mark html_escape.
Proof.
  intros b. unfold html_escape.
  repeat match goal with |- context [b =? ?x] => destruct (Z.eqb_spec b x) as [->|]; [right; split; [reflexivity|repeat (constructor; [lia|]); constructor]|] end.
  left. reflexivity.
Qed.
Lemma mark_nonletter f : escapes ascii_mark f -> escapes ascii_nonletter f.
Proof. intros H b. destruct (H b) as [E|[E F]]; [left; exact E|right; split; [unfold ascii_mark in E; lia|exact F]]. Qed.
