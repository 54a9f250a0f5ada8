(** Lemmas for PropTrim.v. *)
From Coq Require Import ZArith List Bool Lia.
From Verif Require Import Base Spec SpecCp949 SpecIO SpecTrim SpecWords Cp949Model Utf8Facts Cp949Facts Cp949Facts2 Cp949Facts3 TableFacts PMapFacts.
Import ListNotations.
Local Open Scope Z_scope.
Local Open Scope list_scope.

Section Trim.
Variable cut : Z -> bool.
Hypothesis Hcut : forall c, cut c = true -> ascii_nonletter c = true.

Lemma cut_ascii c : cut c = true -> 0 <= c < 0x80.
Proof. intros H. apply Hcut in H. unfold ascii_nonletter in H. apply andb_true_iff in H as [H _]. lia. Qed.
Lemma cut_high c : 0x80 <= c -> cut c = false.
Proof. intros H. destruct (cut c) eqn:E; [apply cut_ascii in E; lia|reflexivity]. Qed.
Lemma cut_letter c : is_letter_byte c = true -> cut c = false.
Proof. intros H. destruct (cut c) eqn:E; [apply Hcut in E; unfold ascii_nonletter in E; rewrite H in E; cbn in E; rewrite andb_false_r in E; discriminate|reflexivity]. Qed.

(** [y] is [x] without the elements in [cut] at both ends. *)
Definition trimmed (x y : list Z) : Prop :=
  exists a b, x = a ++ y ++ b /\ Forall (fun c => cut c = true) a /\ Forall (fun c => cut c = true) b /\
    (forall c l, y = c :: l -> cut c = false) /\ (forall c l, y = l ++ [c] -> cut c = false).

(** The ends of a text and of its encoding by blocks. *)
Definition blocks (f : Z -> list Z) (rs : list Z) : Prop :=
  Forall (fun r => f r = [r] \/ cut r = false /\ (exists c l, f r = c :: l /\ cut c = false) /\ exists c l, f r = l ++ [c] /\ cut c = false) rs.
Definition sound (x : list Z) : Prop := (forall c l, x = c :: l -> cut c = false) /\ (forall c l, x = l ++ [c] -> cut c = false).
Lemma blocks_sound f rs : blocks f rs -> (sound rs <-> sound (flat_map f rs)).
Proof.
  intros H. unfold sound.
  assert (H1 : (forall c l, rs = c :: l -> cut c = false) <-> (forall c l, flat_map f rs = c :: l -> cut c = false)).
  { destruct H as [|r rs H _]; [split; intros _ c l; discriminate|]. cbn [flat_map]. destruct H as [->|(Hr & (c0 & l0 & -> & Hc) & _)]; cbn [app].
    - split; intros H c l [= <- _]; apply (H r _ eq_refl).
    - split; intros _ c l [= <- _]; assumption. }
  assert (H2 : (forall c l, rs = l ++ [c] -> cut c = false) <-> (forall c l, flat_map f rs = l ++ [c] -> cut c = false)).
  { clear H1. destruct rs as [|r rs _] using rev_ind; [split; intros _ c l E; destruct l; discriminate|].
    apply Forall_app in H as [_ H]. inversion H as [|? ? Hr _]; subst. rewrite flat_map_app. cbn [flat_map]. rewrite app_nil_r.
    destruct Hr as [->|(Hr & _ & (c0 & l0 & -> & Hc))].
    - split; intros Hx c l E; apply app_inj_tail in E as [_ <-]; eapply Hx; reflexivity.
    - rewrite app_assoc. split; intros _ c l E; apply app_inj_tail in E as [_ <-]; assumption. }
  tauto.
Qed.

Lemma utf8_blocks rs : Forall is_scalar rs -> blocks utf8_char rs.
Proof.
  apply Forall_impl. intros r Hr. unfold is_scalar in Hr. unfold utf8_char.
  destruct (Z.ltb_spec r 0x80); [left; reflexivity|right]. split; [apply cut_high; lia|].
  pose proof (Z.mod_pos_bound r 64 ltac:(lia)) as Hm.
  destruct (r <? 0x800); [|destruct (r <? 0x10000)]; (split; [eexists; eexists; split; [reflexivity|apply cut_high]|]).
  1,3,5: pose proof (Z.div_pos r 64); pose proof (Z.div_pos r 4096); pose proof (Z.div_pos r 262144); lia.
  - exists (0x80 + r mod 64), [0xC0 + r / 64]. split; [reflexivity|apply cut_high; lia].
  - exists (0x80 + r mod 64), [0xE0 + r / 4096; 0x80 + r / 64 mod 64]. split; [reflexivity|apply cut_high; lia].
  - exists (0x80 + r mod 64), [0xF0 + r / 262144; 0x80 + r / 4096 mod 64; 0x80 + r / 64 mod 64]. split; [reflexivity|apply cut_high; lia].
Qed.
Lemma code_blocks rs : Forall in_repertoire rs -> blocks to_char rs.
Proof.
  apply Forall_impl. intros r [Hr|[c Hc]]; [left; apply to_char_ascii; exact Hr|right].
  pose proof (assigned_ranges c r Hc) as [_ [Hr _]]. destruct (code_trail c r Hc) as [H1 H2].
  rewrite (to_char_assigned c r Hc). split; [apply cut_high; lia|]. unfold code_bytes. split.
  - exists (c / 256), [c mod 256]. split; [reflexivity|apply cut_high; lia].
  - exists (c mod 256), [c / 256]. split; [reflexivity|]. destruct H2 as [H2|H2]; [apply cut_letter; exact H2|apply cut_high; lia].
Qed.

Lemma cuts_encode a : Forall (fun c => cut c = true) a -> encodes a a /\ utf8 a = a.
Proof.
  induction 1 as [|c a Hc _ [IH1 IH2]]; [split; [constructor|reflexivity]|]. apply cut_ascii in Hc.
  split; [constructor; assumption|]. rewrite utf8_cons, utf8_char_ascii, IH2 by exact Hc. reflexivity.
Qed.

(** The whole characters of [a ++ y ++ b]. *)
Lemma cuts_split rs a y b : encodes rs (a ++ y ++ b) -> Forall (fun c => cut c = true) a -> Forall (fun c => cut c = true) b ->
  exists rs', rs = a ++ rs' ++ b /\ encodes rs' y.
Proof.
  intros He Ha Hb. destruct (cuts_encode a Ha) as [Ea _]. destruct (cuts_encode b Hb) as [Eb _].
  destruct (decodes_app_inv a a (encodes_decodes _ _ Ea) (y ++ b) rs (encodes_decodes _ _ He)) as (r1 & Hd1 & ->).
  destruct (encodes_split a r1 _ He) as (xa & x1 & E & Hxa & He1). rewrite (encodes_fun a xa a Hxa Ea) in E. apply app_inv_head in E. subst x1.
  assert (Hy : exists ry, decodes y ry).
  { destruct b as [|c b]; [rewrite app_nil_r in Hd1; eauto|]. inversion Hb as [|? ? Hc _]; subst.
    exact (nonletter_aligned r1 (y ++ c :: b) He1 y c b eq_refl (Hcut c Hc)). }
  destruct Hy as [ry Hy]. destruct (decodes_app_inv y ry Hy b r1 Hd1) as (rb & Hd2 & ->).
  rewrite (decodes_fun b rb Hd2 b (encodes_decodes _ _ Eb)) in *.
  exists ry. split; [reflexivity|]. destruct (encodes_split ry b _ He1) as (xy & xb & E & Hxy & Hxb).
  rewrite (encodes_fun b xb b Hxb Eb) in E. apply app_inv_tail in E. subst xy. exact Hxy.
Qed.

Lemma trim_bytes rs x y : encodes rs x -> trimmed x y ->
  exists rs', trimmed rs rs' /\ encodes rs' y /\ trimmed (utf8 rs) (utf8 rs').
Proof.
  intros He (a & b & -> & Ha & Hb & Hy). destruct (cuts_split rs a y b He Ha Hb) as (rs' & -> & He').
  pose proof (encodes_repertoire _ _ He') as Hr.
  assert (Hs : sound rs').
  { apply (blocks_sound to_char rs' (code_blocks rs' Hr)). rewrite (encodes_to_char _ _ He'). exact Hy. }
  exists rs'. split; [exists a, b; repeat (split; [assumption || reflexivity|]); exact Hs|]. split; [exact He'|].
  exists a, b. rewrite !utf8_app, (proj2 (cuts_encode a Ha)), (proj2 (cuts_encode b Hb)). repeat (split; [assumption || reflexivity|]).
  apply (blocks_sound utf8_char rs' (utf8_blocks rs' (Forall_repertoire_scalar rs' Hr))). exact Hs.
Qed.

(** In terms of [trim]. *)
Lemma trim_left_cuts a z : Forall (fun c => cut c = true) a -> trim_left cut (a ++ z) = trim_left cut z.
Proof. induction 1 as [|c a Hc _ IH]; [reflexivity|]. cbn [app trim_left]. rewrite Hc. exact IH. Qed.
Lemma trim_left_split x : exists a, x = a ++ trim_left cut x /\ Forall (fun c => cut c = true) a /\
  forall c l, trim_left cut x = c :: l -> cut c = false.
Proof.
  induction x as [|c x (a & E & Ha & Hn)]; [exists []; repeat split; [constructor|discriminate]|]. cbn [trim_left].
  destruct (cut c) eqn:Hc.
  - exists (c :: a). split; [cbn [app]; f_equal; exact E|]. split; [constructor; assumption|exact Hn].
  - exists []. split; [reflexivity|]. split; [constructor|]. intros c' l [= <- _]. exact Hc.
Qed.
Lemma trimmed_trim x y : trimmed x y -> trim cut x = y.
Proof.
  intros (a & b & -> & Ha & Hb & H1 & H2). unfold trim. rewrite (trim_left_cuts a _ Ha).
  assert (Hb' : forall z, trim_left cut (rev b ++ z) = trim_left cut z) by (intros; apply trim_left_cuts, Forall_rev; exact Hb).
  destruct y as [|c y].
  - cbn [app]. rewrite <- (app_nil_r b), (trim_left_cuts b [] Hb). reflexivity.
  - cbn [app trim_left]. rewrite (H1 c y eq_refl). change (c :: y ++ b) with ((c :: y) ++ b). rewrite rev_app_distr, Hb'.
    destruct (rev (c :: y)) as [|d z] eqn:E; [apply (f_equal (@length Z)) in E; rewrite rev_length in E; discriminate|].
    assert (E' : c :: y = rev z ++ [d]) by (rewrite <- (rev_involutive (c :: y)), E; reflexivity).
    cbn [trim_left]. rewrite (H2 d (rev z) E'). rewrite E'. reflexivity.
Qed.
Lemma trim_trimmed x : trimmed x (trim cut x).
Proof.
  destruct (trim_left_split x) as (a & E & Ha & H1). set (x1 := trim_left cut x) in *.
  destruct (trim_left_split (rev x1)) as (b & E2 & Hb & H2).
  assert (E3 : x1 = trim cut x ++ rev b).
  { unfold trim. fold x1. rewrite <- rev_app_distr, <- E2. symmetry. apply rev_involutive. }
  exists a, (rev b). split; [rewrite <- E3; exact E|]. split; [exact Ha|]. split; [apply Forall_rev; exact Hb|]. split.
  - intros c l Ec. apply (H1 c (l ++ rev b)). rewrite E3, Ec. reflexivity.
  - intros c l Ec. apply (H2 c (rev l)). unfold trim in Ec. fold x1 in Ec.
    rewrite <- (rev_involutive (trim_left cut (rev x1))), Ec. rewrite rev_app_distr. reflexivity.
Qed.

Lemma trim_encoded rs x : encodes rs x ->
  encodes (trim cut rs) (trim cut x) /\ trim cut (utf8 rs) = utf8 (trim cut rs).
Proof.
  intros He. destruct (trim_bytes rs x _ He (trim_trimmed x)) as (rs' & H1 & H2 & H3).
  rewrite (trimmed_trim _ _ H1), (trimmed_trim _ _ H3). auto.
Qed.
End Trim.
Lemma trim_To grow cut rs x : (forall c, cut c = true -> ascii_nonletter c = true) -> encodes rs x ->
  To grow (utf8 rs) = Ok (inl x) /\ To grow (trim cut (utf8 rs)) = Ok (inl (trim cut x)) /\
  From grow x = Ok (inl (utf8 rs)) /\ From grow (trim cut x) = Ok (inl (trim cut (utf8 rs))) /\
  trim cut (utf8 rs) = utf8 (trim cut rs).
Proof.
  intros Hc He. destruct (trim_encoded cut Hc rs x He) as [H1 H2]. rewrite H2.
  repeat split; auto using To_encodes, From_encodes.
Qed.

(** A syllable whose code is the UTF-8 encoding of a space. *)
Lemma space_syllable : exists r sp, is_syllable r /\ white sp /\ ~ white r /\ forall grow, To grow (utf8 [r]) = Ok (inl (utf8 [sp])).
Proof.
  assert (H : exists r, tget dec_tree 0xC2A0 = Some r /\ is_syllable r /\ ~ white r).
  { eexists. split; [vm_compute; reflexivity|]. split; [unfold is_syllable|unfold white]; lia. }
  destruct H as (r & Hr & Hs & Hw). apply assigned_by in Hr.
  exists r, 0xA0. split; [exact Hs|]. split; [unfold white; lia|]. split; [exact Hw|].
  intros grow. change (utf8 [0xA0]) with (code_bytes 0xC2A0 ++ []). apply To_encodes. apply (enc_code _ r); [exact Hr|constructor].
Qed.
Lemma space_trim cut : (forall r, cut r = true <-> white r) -> exists text t, Forall is_syllable text /\
  (forall grow, To grow (utf8 text) = Ok (inl (utf8 t))) /\ trim cut text = text /\ text <> [] /\ trim cut t = [].
Proof.
  intros Hc. destruct space_syllable as (r & sp & Hs & Hw & Hn & H). exists [r], [sp].
  assert (E1 : cut r = false) by (destruct (cut r) eqn:E; [apply Hc in E; contradiction|reflexivity]).
  assert (E2 : cut sp = true) by (apply Hc; exact Hw).
  split; [constructor; [exact Hs|constructor]|]. split; [exact H|]. unfold trim. cbn [trim_left rev app]. rewrite E1, E2. cbn [rev app trim_left]. rewrite E1.
  repeat split. discriminate.
Qed.
