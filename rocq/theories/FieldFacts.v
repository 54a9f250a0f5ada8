(** Lemmas for PropField.v. *)
From Coq Require Import ZArith List Bool Lia ZifyBool.
From Verif Require Import Base Spec Facts Utf8Facts SpecCp949 SpecIO SpecField Cp949Model Cp949Facts Cp949Facts2 Cp949Facts3 TableFacts PMapFacts.
Import ListNotations.
Local Open Scope Z_scope.
Local Open Scope list_scope.

Lemma replacement_high : replacement <? 0x80 = false.
Proof. reflexivity. Qed.
Lemma decodes_columns s rs : decodes s rs -> zlen s = columns rs.
Proof.
  induction 1 as [|b s rs Hb _ IH|b0 b1 u s rs H0 H1 Ha _ IH|b0 b1 s rs H0 H1 Hn _ IH].
  - reflexivity.
  - cbn [columns]. rewrite zlen_cons, IH. destruct (Z.ltb_spec b 0x80); lia.
  - cbn [columns]. rewrite !zlen_cons, IH. apply assigned_ranges in Ha as [_ [Ha _]]. destruct (Z.ltb_spec u 0x80); lia.
  - cbn [columns]. rewrite replacement_high, !zlen_cons, IH. lia.
Qed.
Lemma From_columns grow s rs : Forall is_byte s -> Forall is_scalar rs -> From grow s = Ok (inl (utf8 rs)) -> zlen s = columns rs.
Proof. intros Hs Hr E. apply decodes_columns. apply (C30_lemma grow s Hs). auto. Qed.

Lemma to_char_length r : is_scalar r -> zlen (to_char r) = (if r <? 0x80 then 1 else 2) \/
  zlen (to_char r) = 1 /\ 0x80 <= r /\ ~ in_repertoire r.
Proof.
  intros Hr. unfold to_char. destruct (Z.ltb_spec r 0x80); [left; reflexivity|].
  unfold enc16. destruct (tget enc_tree (r mod 0x10000)) as [c|] eqn:E; [left; reflexivity|].
  destruct (0xFFE6 <? r mod 0x10000); [left; reflexivity|]. right. split; [reflexivity|]. split; [lia|].
  intros [H'|[c Hc]]; [lia|]. pose proof (assigned_ranges c r Hc) as [_ [Hc' _]]. rewrite Z.mod_small in E by lia.
  apply assigned_enc in Hc. congruence.
Qed.
Lemma columns_nonneg rs : 0 <= columns rs.
Proof. induction rs as [|r rs IH]; [reflexivity|]. cbn [columns]. destruct (r <? 0x80); lia. Qed.
Lemma To_columns grow rs : Forall is_scalar rs -> exists x, To grow (utf8 rs) = Ok (inl x) /\
  zlen rs <= zlen x <= columns rs /\ (Forall in_repertoire rs -> zlen x = columns rs).
Proof.
  intros Hr. exists (flat_map to_char rs). split; [apply To_utf8; exact Hr|].
  induction Hr as [|r rs Hr _ [IH1 IH2]]; [split; [cbn; lia|reflexivity]|].
  cbn [flat_map columns]. rewrite zlen_app, zlen_cons. destruct (to_char_length r Hr) as [E|(E & Hh & Hn)].
  - rewrite E. split; [destruct (r <? 0x80); lia|]. intros H. inversion H; subst. rewrite IH2 by assumption. reflexivity.
  - rewrite E. split; [destruct (Z.ltb_spec r 0x80); lia|]. intros H. inversion H; subst. contradiction.
Qed.
Lemma columns_refuted : exists rs x, Forall is_scalar rs /\ (forall grow, To grow (utf8 rs) = Ok (inl x)) /\ zlen x < columns rs.
Proof.
  exists [0xC0], [0x3F]. assert (H : Forall is_scalar [0xC0]) by (constructor; [unfold is_scalar; lia|constructor]).
  split; [exact H|]. split; [|cbn; lia].
  intros grow. rewrite To_utf8 by exact H. replace (flat_map to_char [0xC0]) with [0x3F] by (vm_compute; reflexivity). reflexivity.
Qed.

(** * Case *)
Lemma casing_high f c : casing f -> 0x80 <= c -> f c = c.
Proof.
  intros [->| ->] H; unfold lower, upper.
  - replace ((0x41 <=? c) && (c <=? 0x5A)) with false by lia. reflexivity.
  - replace ((0x61 <=? c) && (c <=? 0x7A)) with false by lia. reflexivity.
Qed.
Lemma casing_ascii f c : casing f -> 0 <= c < 0x80 -> 0 <= f c < 0x80.
Proof.
  intros [->| ->] H; unfold lower, upper.
  - destruct ((0x41 <=? c) && (c <=? 0x5A)) eqn:E; lia.
  - destruct ((0x61 <=? c) && (c <=? 0x7A)) eqn:E; lia.
Qed.
Lemma casing_encodes f rs x : casing f -> encodes rs x -> exists y, encodes (map f rs) y /\
  (y = map f x <-> Forall (fun r => forall c, assigned c r -> f (c mod 256) = c mod 256) rs).
Proof.
  intros Hf. induction 1 as [|r rs bs Hr _ (y & He & IH)|c r rs bs Ha _ (y & He & IH)].
  - exists []. split; [constructor|]. split; [constructor|reflexivity].
  - exists (f r :: y). split; [constructor; [apply casing_ascii; assumption|exact He]|]. cbn [map]. split.
    + intros E. constructor; [|apply IH; congruence]. intros c Hc. apply assigned_ranges in Hc as [_ [Hc _]]. lia.
    + intros H. inversion H; subst. rewrite (proj2 IH) by assumption. reflexivity.
  - pose proof (assigned_ranges c r Ha) as [[Hl _] [Hr _]].
    exists (code_bytes c ++ y). cbn [map]. rewrite (casing_high f r Hf) by lia. split; [constructor; assumption|].
    rewrite map_app. unfold code_bytes. cbn [map app]. rewrite (casing_high f (c / 256) Hf) by lia. split.
    + intros E. assert (E1 : c mod 256 = f (c mod 256)) by congruence. assert (E2 : y = map f bs) by congruence.
      constructor; [|apply IH; exact E2]. intros c' Hc'. rewrite (assigned_inj c' c r Hc' Ha). symmetry. exact E1.
    + intros H. inversion H; subst. rewrite (proj2 IH) by assumption. rewrite (H2 c Ha). reflexivity.
Qed.
Lemma casing_utf8 f rs : casing f -> Forall is_scalar rs -> map f (utf8 rs) = utf8 (map f rs).
Proof.
  intros Hf. induction 1 as [|r rs Hr _ IH]; [reflexivity|]. cbn [map]. rewrite !utf8_cons, map_app, IH. apply (f_equal (fun l => l ++ utf8 (map f rs))).
  unfold is_scalar in Hr. assert (Hd : 0 <= r < 0x80 \/ 0x80 <= r) by lia. destruct Hd as [Hd|Hd].
  - rewrite !utf8_char_ascii by (try apply casing_ascii; assumption). reflexivity.
  - rewrite (casing_high f r Hf Hd). unfold utf8_char.
    replace (r <? 0x80) with false by lia.
    pose proof (Z.mod_pos_bound r 64 ltac:(lia)). pose proof (Z.mod_pos_bound (r / 64) 64 ltac:(lia)). pose proof (Z.mod_pos_bound (r / 4096) 64 ltac:(lia)).
    assert (0 <= r / 64) by (apply Z.div_pos; lia). assert (0 <= r / 4096) by (apply Z.div_pos; lia). assert (0 <= r / 262144) by (apply Z.div_pos; lia).
    destruct (r <? 0x800); [|destruct (r <? 0x10000)]; cbn [map]; rewrite !(casing_high f) by (assumption || lia); reflexivity.
Qed.
Lemma casing_To grow f rs x : casing f -> encodes rs x -> To grow (utf8 rs) = Ok (inl x) /\ exists y, To grow (map f (utf8 rs)) = Ok (inl y) /\
  From grow y = Ok (inl (map f (utf8 rs))) /\
  (y = map f x <-> Forall (fun r => forall c, assigned c r -> f (c mod 256) = c mod 256) rs).
Proof.
  intros Hf He. split; [apply To_encodes; exact He|]. destruct (casing_encodes f rs x Hf He) as (y & Hy & H). exists y.
  rewrite casing_utf8 by (try eapply Forall_repertoire_scalar, encodes_repertoire; eassumption).
  split; [apply To_encodes; exact Hy|]. split; [apply From_decodes, encodes_decodes; exact Hy|exact H].
Qed.
Lemma casing_refuted f : casing f -> exists text text' x, Forall is_syllable text /\ Forall is_syllable text' /\ text <> text' /\ map f text = text /\
  forall grow, To grow (utf8 text) = Ok (inl x) /\ From grow (map f x) = Ok (inl (utf8 text')).
Proof.
  assert (H1 : exists u v, tget dec_tree 0x8141 = Some u /\ tget dec_tree 0x8161 = Some v /\ is_syllable u /\ is_syllable v /\ u <> v).
  { eexists. eexists. split; [vm_compute; reflexivity|]. split; [vm_compute; reflexivity|]. unfold is_syllable. lia. }
  destruct H1 as (u & v & Hu & Hv & Su & Sv & Hn). apply assigned_by in Hu, Hv.
  assert (Eu : encodes [u] [0x81; 0x41]) by (apply (enc_code 0x8141 u [] []); [exact Hu|constructor]).
  assert (Ev : encodes [v] [0x81; 0x61]) by (apply (enc_code 0x8161 v [] []); [exact Hv|constructor]).
  intros [->| ->].
  - exists [u], [v], [0x81; 0x41]. split; [constructor; [exact Su|constructor]|]. split; [constructor; [exact Sv|constructor]|].
    split; [congruence|]. split. { cbn [map]. rewrite (casing_high lower u) by (try (left; reflexivity); unfold is_syllable in Su; lia). reflexivity. }
    intros grow. split; [apply To_encodes; exact Eu|]. apply From_decodes, encodes_decodes. exact Ev.
  - exists [v], [u], [0x81; 0x61]. split; [constructor; [exact Sv|constructor]|]. split; [constructor; [exact Su|constructor]|].
    split; [congruence|]. split. { cbn [map]. rewrite (casing_high upper v) by (try (right; reflexivity); unfold is_syllable in Sv; lia). reflexivity. }
    intros grow. split; [apply To_encodes; exact Ev|]. apply From_decodes, encodes_decodes. exact Eu.
Qed.
Lemma casing_ks grow f rs x : casing f -> encodes rs x -> (forall r c, In r rs -> assigned c r -> ks_code c) ->
  To grow (utf8 rs) = Ok (inl x) /\ To grow (map f (utf8 rs)) = Ok (inl (map f x)).
Proof.
  intros Hf He Hk. destruct (casing_To grow f rs x Hf He) as (H1 & y & H2 & _ & H3). split; [exact H1|].
  rewrite H2, (proj2 H3); [reflexivity|]. apply Forall_forall. intros r Hin c Hc. destruct (Hk r c Hin Hc) as [_ H].
  apply casing_high; [exact Hf|lia].
Qed.
