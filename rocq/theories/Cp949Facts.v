(** From and To, for every input and every growth policy. *)
From Coq Require Import ZArith List Bool Lia.
From Coq Require Import ZifyBool.
From Verif Require Import Base Spec Facts Utf8 Utf8Facts SortSearch TableFrom TableTo SpecCp949
  PMapFacts Cp949Model SliceFacts TableFacts.
Import ListNotations.
Local Open Scope Z_scope.
Local Opaque fromTable toTable dec_tree enc_tree.

(** ** Decoding relation *)
Lemma decodes_scalar s rs : decodes s rs -> Forall is_scalar rs.
Proof.
  induction 1; constructor; auto.
  - unfold is_scalar. lia.
  - eapply assigned_scalar; eassumption.
  - apply scalar_replacement.
Qed.

Lemma decodes_bytes s rs : decodes s rs -> Forall is_byte s.
Proof. induction 1; repeat constructor; auto; lia. Qed.

Lemma decodes_fun s rs : decodes s rs -> forall rs', decodes s rs' -> rs = rs'.
Proof.
  induction 1 as [|b s rs Hb H IH|b0 b1 u s rs H0 H1 Ha H IH|b0 b1 s rs H0 H1 Hn H IH]; intros rs' H'.
  - inversion H'. reflexivity.
  - inversion H'; subst; try lia. f_equal. auto.
  - inversion H'; subst; try lia.
    + f_equal; [eapply assigned_fun; eassumption|auto].
    + exfalso. match goal with Hx : forall u, ~ _ |- _ => exact (Hx _ Ha) end.
  - inversion H'; subst; try lia.
    + exfalso. match goal with Hx : assigned _ _ |- _ => exact (Hn _ Hx) end.
    + f_equal. auto.
Qed.

Lemma decodes_app a ra b rb : decodes a ra -> decodes b rb -> decodes (a ++ b) (ra ++ rb).
Proof.
  intros H Hb. induction H; cbn [app]; [exact Hb|apply dec_ascii|eapply dec_code|apply dec_unassigned]; eauto.
Qed.

Lemma decodes_app_inv a ra : decodes a ra -> forall b r, decodes (a ++ b) r ->
  exists rb, decodes b rb /\ r = ra ++ rb.
Proof.
  induction 1 as [|x s rs Hx H IH|b0 b1 u s rs H0 H1 Ha H IH|b0 b1 s rs H0 H1 Hn H IH];
    intros b r Hr; cbn [app] in Hr.
  - exists r. split; [exact Hr|reflexivity].
  - inversion Hr; subst; try lia.
    match goal with Hx : decodes (s ++ b) _ |- _ => destruct (IH _ _ Hx) as (rb & Hb & ->) end.
    exists rb. split; [exact Hb|reflexivity].
  - inversion Hr; subst; try lia.
    + match goal with Hx : decodes (s ++ b) _ |- _ => destruct (IH _ _ Hx) as (rb & Hb & ->) end.
      exists rb. split; [exact Hb|]. cbn [app]. f_equal. eapply assigned_fun; eassumption.
    + exfalso. match goal with Hx : forall u, ~ _ |- _ => exact (Hx _ Ha) end.
  - inversion Hr; subst; try lia.
    + exfalso. match goal with Hx : assigned _ _ |- _ => exact (Hn _ Hx) end.
    + match goal with Hx : decodes (s ++ b) _ |- _ => destruct (IH _ _ Hx) as (rb & Hb & ->) end.
      exists rb. split; [exact Hb|reflexivity].
Qed.

(** Every byte string is complete or cut inside a code. *)
Lemma decodes_or_cut s : Forall is_byte s ->
  (exists rs, decodes s rs) \/ (exists a, cut_after a s).
Proof.
  remember (length s) as n eqn:En. assert (length s <= n)%nat as Hn by lia. clear En.
  revert s Hn. induction n as [|n IH]; intros s Hn Hs.
  - destruct s; [|cbn in Hn; lia]. left. exists []. constructor.
  - destruct s as [|b0 s]; [left; exists []; constructor|].
    inversion Hs as [|? ? Hb Hs']; subst. unfold is_byte in Hb.
    destruct (Z_lt_dec b0 0x80) as [Hlt|Hge].
    + destruct (IH s) as [(rs & H)|(a & b & Hb' & E & ra & Ha)]; [cbn in Hn; lia|exact Hs'|..].
      * left. exists (b0 :: rs). constructor; [lia|exact H].
      * right. exists (b0 :: a), b. split; [exact Hb'|]. split; [rewrite E; reflexivity|].
        exists (b0 :: ra). constructor; [lia|exact Ha].
    + destruct s as [|b1 s].
      * right. exists [], b0. split; [lia|]. split; [reflexivity|]. exists []. constructor.
      * inversion Hs' as [|? ? Hb1 Hs'']; subst. unfold is_byte in Hb1.
        assert (forall rs, decodes s rs -> exists r, decodes (b0 :: b1 :: s) (r :: rs)) as Hstep.
        { intros rs H. destruct (assigned_cases (b0 * 256 + b1)) as [(u & Hu)|Hu].
          - exists u. apply dec_code; auto; lia.
          - exists replacement. apply dec_unassigned; auto; lia. }
        destruct (IH s) as [(rs & H)|(a & b & Hb' & E & ra & Ha)]; [cbn in Hn; lia|exact Hs''|..].
        -- left. destruct (Hstep rs H) as (r & Hr). eauto.
        -- right. exists (b0 :: b1 :: a), b. split; [exact Hb'|].
           split; [rewrite E; reflexivity|].
           destruct (assigned_cases (b0 * 256 + b1)) as [(u & Hu)|Hu].
           ++ exists (u :: ra). apply dec_code; auto; lia.
           ++ exists (replacement :: ra). apply dec_unassigned; auto; lia.
Qed.

Lemma cut_not_complete a s : cut_after a s -> forall rs, ~ decodes s rs.
Proof.
  intros (b & Hb & -> & ra & Ha) rs H.
  destruct (decodes_app_inv a ra Ha [b] rs H) as (rb & Hrb & _). inversion Hrb; lia.
Qed.

Lemma cut_fun a a' s : cut_after a s -> cut_after a' s -> a = a'.
Proof. intros (b & _ & -> & _) (b' & _ & E & _). apply app_inj_tail in E. tauto. Qed.

Lemma cut_bytes a s : cut_after a s -> Forall is_byte s.
Proof.
  intros (b & Hb & -> & ra & Ha). apply Forall_app. split; [eapply decodes_bytes; exact Ha|].
  repeat constructor; lia.
Qed.

Lemma utf8_cons r rs : utf8 (r :: rs) = utf8_char r ++ utf8 rs.
Proof. reflexivity. Qed.
Lemma utf8_char_ascii r : 0 <= r < 0x80 -> utf8_char r = [r].
Proof. intros H. unfold utf8_char. destruct (Z.ltb_spec r 0x80); [reflexivity|lia]. Qed.

(** ** The decoder *)
Lemma code_lor d0 d1 : is_byte d0 -> is_byte d1 ->
  Z.lor (to_u16 (Z.shiftl d0 8)) d1 = d0 * 256 + d1.
Proof.
  unfold is_byte, to_u16. intros H0 H1.
  rewrite Z.mod_small by (rewrite Z.shiftl_mul_pow2 by lia; change (2 ^ 8) with 256; lia).
  rewrite (lor_shift d0 d1 8) by lia. reflexivity.
Qed.

Section Grow.
Variable grow : Z -> Z -> Z.

Definition from_code_step (scratch : slice) (n : Z) : res slice :=
  bind (Search (zlen fromTable) (from_pred fromTable n)) (fun fi =>
  bind (if fi <? zlen fromTable then
          bind (get_or_panic (zget fromTable fi)) (fun it => Ok (n =? cp949 it))
        else Ok false) (fun hit : bool =>
  if hit then bind (get_or_panic (zget fromTable fi)) (fun f => appendRune scratch (ucs2 f))
  else appendRune scratch RuneError)).

Lemma from_code_hit scratch n u : assigned n u ->
  from_code_step scratch n = appendRune scratch u.
Proof.
  intros H. destruct (from_hit n u H) as (fi & E & Hr & Ei). unfold from_code_step.
  rewrite E. cbn [bind]. destruct (Z.ltb_spec fi (zlen fromTable)); [|lia].
  rewrite Ei. cbn [get_or_panic bind cp949 ucs2]. rewrite Z.eqb_refl. reflexivity.
Qed.
Lemma from_code_miss scratch n : (forall u, ~ assigned n u) ->
  from_code_step scratch n = appendRune scratch RuneError.
Proof.
  intros H. destruct (from_miss n H) as (fi & E & Hr & Ei). unfold from_code_step.
  rewrite E. cbn [bind]. destruct (Z.ltb_spec fi (zlen fromTable)); [|reflexivity].
  destruct (zget_some fromTable fi) as [it Eit]; [lia|]. rewrite Eit. cbn [get_or_panic bind].
  destruct (Z.eqb_spec n (cp949 it)) as [->|]; [|reflexivity]. destruct (Ei it Eit). reflexivity.
Qed.

Lemma from_loop_code fuel scratch d0 d1 rest c : is_byte d0 -> is_byte d1 -> 0x80 <= d0 ->
  from_loop grow (S fuel) fromTable scratch (d0 :: d1 :: rest) c =
  bind (from_code_step scratch (d0 * 256 + d1))
       (fun s => from_loop grow fuel fromTable s rest (c + 2)).
Proof.
  intros H0 H1 Hd. cbn [from_loop]. rewrite high_bit_byte by exact H0.
  destruct (Z.ltb_spec d0 0x80); [lia|]. rewrite code_lor by assumption.
  unfold from_code_step.
  destruct (Search (zlen fromTable) (from_pred fromTable (d0 * 256 + d1))) as [fi| |]; [|reflexivity..].
  cbn [bind].
  destruct (if fi <? zlen fromTable then _ else _) as [hit| |]; [|reflexivity..].
  cbn [bind]. destruct hit; [|reflexivity].
  destruct (zget fromTable fi); reflexivity.
Qed.

Lemma from_loop_ascii fuel scratch d0 rest c : 0 <= d0 < 0x80 ->
  from_loop grow (S fuel) fromTable scratch (d0 :: rest) c =
  from_loop grow fuel fromTable (go_append grow scratch [d0]) rest (c + 1).
Proof.
  intros H0. cbn [from_loop]. rewrite high_bit_byte by (unfold is_byte; lia).
  destruct (Z.ltb_spec d0 0x80); [reflexivity|lia].
Qed.

Lemma from_loop_prefix a ra : decodes a ra -> forall fuel scratch tl c,
  slice_ok scratch -> (length (a ++ tl) <= fuel)%nat ->
  exists fuel' s', (length tl <= fuel')%nat /\ slice_ok s' /\
    contents s' = contents scratch ++ utf8 ra /\
    from_loop grow fuel fromTable scratch (a ++ tl) c =
    from_loop grow fuel' fromTable s' tl (c + zlen a).
Proof.
  induction 1 as [|x s rs Hx H IH|b0 b1 u s rs H0 H1 Ha H IH|b0 b1 s rs H0 H1 Hn H IH];
    intros fuel scratch tl c Hok Hf.
  - exists fuel, scratch. cbn [app utf8 flat_map] in *. rewrite app_nil_r.
    repeat split; try assumption; try apply Hok. f_equal. rewrite zlen_nil. lia.
  - destruct fuel as [|fuel]; [cbn in Hf; lia|]. cbn [app]. rewrite from_loop_ascii by exact Hx.
    destruct (go_append_spec grow scratch [x] Hok) as (Hok' & Hc' & _).
    destruct (IH fuel (go_append grow scratch [x]) tl (c + 1) Hok') as (f' & s' & Hf' & Hs' & Hc & E);
      [cbn in Hf; lia|].
    exists f', s'. split; [exact Hf'|]. split; [exact Hs'|]. split.
    + rewrite Hc, Hc', <- app_assoc. rewrite utf8_cons.
      rewrite utf8_char_ascii by exact Hx. reflexivity.
    + rewrite E. f_equal. rewrite zlen_cons. lia.
  - destruct fuel as [|fuel]; [cbn in Hf; lia|]. cbn [app].
    rewrite from_loop_code by (unfold is_byte; lia). rewrite (from_code_hit scratch _ _ Ha).
    destruct (appendRune_spec scratch u Hok) as (s1 & E1 & Hok1 & Hc1). rewrite E1. cbn [bind].
    destruct (IH fuel s1 tl (c + 2) Hok1) as (f' & s' & Hf' & Hs' & Hc & E); [cbn in Hf; lia|].
    exists f', s'. split; [exact Hf'|]. split; [exact Hs'|]. split.
    + rewrite Hc, Hc1, <- app_assoc, utf8_cons.
      rewrite EncodeRune_scalar by (eapply assigned_scalar; exact Ha). reflexivity.
    + rewrite E. f_equal. rewrite !zlen_cons. lia.
  - destruct fuel as [|fuel]; [cbn in Hf; lia|]. cbn [app].
    rewrite from_loop_code by (unfold is_byte; lia). rewrite (from_code_miss scratch _ Hn).
    destruct (appendRune_spec scratch RuneError Hok) as (s1 & E1 & Hok1 & Hc1). rewrite E1. cbn [bind].
    destruct (IH fuel s1 tl (c + 2) Hok1) as (f' & s' & Hf' & Hs' & Hc & E); [cbn in Hf; lia|].
    exists f', s'. split; [exact Hf'|]. split; [exact Hs'|]. split.
    + rewrite Hc, Hc1, <- app_assoc, utf8_cons.
      rewrite EncodeRune_scalar by apply scalar_replacement. reflexivity.
    + rewrite E. f_equal. rewrite !zlen_cons. lia.
Qed.

Lemma reslice_0 s : slice_ok s -> reslice s 0 = Ok (mkSlice (arr s) 0).
Proof. unfold slice_ok. intros H. apply reslice_spec. lia. Qed.
Lemma reslice_0_ok s : slice_ok s -> slice_ok (mkSlice (arr s) 0).
Proof. unfold slice_ok, scap. cbn. lia. Qed.
Lemma reslice_0_contents s : contents (mkSlice (arr s) 0) = [].
Proof. reflexivity. Qed.

(** Translate, with an arbitrary reused scratch buffer. *)
Lemma from_Translate_complete scratch data rs : slice_ok scratch -> decodes data rs ->
  exists s', slice_ok s' /\ contents s' = utf8 rs /\
    from_Translate grow fromTable scratch data = Ok (zlen data, Some s', None, s').
Proof.
  intros Hok H. unfold from_Translate. rewrite reslice_0 by exact Hok. cbn [bind].
  destruct (from_loop_prefix data rs H (length data) (mkSlice (arr scratch) 0) [] 0) as
    (f' & s' & _ & Hs' & Hc & E).
  - apply reslice_0_ok, Hok.
  - rewrite app_nil_r. lia.
  - rewrite app_nil_r in E. exists s'. split; [exact Hs'|]. split; [rewrite Hc; reflexivity|].
    rewrite E. rewrite Z.add_0_l. destruct f'; reflexivity.
Qed.

Lemma from_Translate_cut scratch data a : slice_ok scratch -> cut_after a data ->
  exists s', slice_ok s' /\
    from_Translate grow fromTable scratch data = Ok (0, None, Some ErrCP949UnexpectedStream, s').
Proof.
  intros Hok (b & Hb & -> & ra & Ha). unfold from_Translate. rewrite reslice_0 by exact Hok.
  cbn [bind].
  destruct (from_loop_prefix a ra Ha (length (a ++ [b])) (mkSlice (arr scratch) 0) [b] 0) as
    (f' & s' & Hf' & Hs' & Hc & E).
  - apply reslice_0_ok, Hok.
  - lia.
  - exists s'. split; [exact Hs'|]. rewrite E. destruct f' as [|f']; [cbn in Hf'; lia|].
    cbn [from_loop]. rewrite high_bit_byte by (unfold is_byte; lia).
    destruct (Z.ltb_spec b 0x80); [lia|reflexivity].
Qed.

Lemma From_decodes data rs : decodes data rs -> From grow data = Ok (inl (utf8 rs)).
Proof.
  intros H. unfold From.
  destruct (from_Translate_complete nil_slice data rs nil_slice_ok H) as (s' & _ & Hc & ->).
  cbn [bind of_translate]. rewrite Hc. reflexivity.
Qed.
Lemma From_cut data a : cut_after a data -> From grow data = Ok (inr ErrCP949UnexpectedStream).
Proof.
  intros H. unfold From.
  destruct (from_Translate_cut nil_slice data a nil_slice_ok H) as (s' & _ & ->). reflexivity.
Qed.

Lemma From_ok_inv data out : Forall is_byte data -> From grow data = Ok (inl out) ->
  exists rs, decodes data rs /\ out = utf8 rs.
Proof.
  intros Hb E. destruct (decodes_or_cut data Hb) as [(rs & H)|(a & H)].
  - exists rs. split; [exact H|]. rewrite (From_decodes data rs H) in E. congruence.
  - rewrite (From_cut data a H) in E. discriminate.
Qed.

(** ** The encoder *)
Definition enc16 (u : Z) : list Z :=
  match tget enc_tree u with
  | Some c => code_bytes c
  | None => if 0xFFE6 <? u then [0x3F; 0x3F] else [0x3F]
  end.
(** What the code writes for one character. *)
Definition to_char (r : Z) : list Z := if r <? 0x80 then [r] else enc16 (r mod 0x10000).

Lemma to_chars_cons r rs : flat_map to_char (r :: rs) = to_char r ++ flat_map to_char rs.
Proof. reflexivity. Qed.
Lemma to_char_ascii r : 0 <= r < 0x80 -> to_char r = [r].
Proof. intros H. unfold to_char. destruct (Z.ltb_spec r 0x80); [reflexivity|lia]. Qed.
Lemma to_char_high r : 0x80 <= r -> to_char r = enc16 (r mod 0x10000).
Proof. intros H. unfold to_char. destruct (Z.ltb_spec r 0x80); [lia|reflexivity]. Qed.

Definition to_code_step (scratch : slice) (u : Z) : res slice :=
  bind (Search (zlen toTable) (to_pred toTable u)) (fun fi =>
  let scratch := if fi >=? zlen toTable then go_append grow scratch [0x3F] else scratch in
  bind (if fi <? zlen toTable then
          bind (get_or_panic (zget toTable fi)) (fun it => Ok (u =? ucs2 it))
        else Ok false) (fun hit : bool =>
  if hit then bind (get_or_panic (zget toTable fi)) (fun f =>
         Ok (go_append grow scratch [to_u8 (Z.shiftr (cp949 f) 8); to_u8 (Z.land (cp949 f) 0xff)]))
  else Ok (go_append grow scratch [0x3F]))).

Lemma code_bytes_eq c : 0 <= c < 0x10000 ->
  [to_u8 (Z.shiftr c 8); to_u8 (Z.land c 0xff)] = code_bytes c.
Proof.
  intros H. unfold code_bytes, to_u8. rewrite Z.shiftr_div_pow2 by lia.
  change 0xff with (2 ^ 8 - 1). rewrite (land_low c 8) by lia. change (2 ^ 8) with 256.
  rewrite (Z.mod_small (c / 256)) by (Z.div_mod_to_equations; lia).
  rewrite (Z.mod_small (c mod 256)) by (pose proof (Z.mod_pos_bound c 256); lia). reflexivity.
Qed.

Lemma to_code_spec scratch u : slice_ok scratch ->
  exists s', to_code_step scratch u = Ok s' /\ slice_ok s' /\ contents s' = contents scratch ++ enc16 u.
Proof.
  intros Hok. unfold enc16. destruct (tget enc_tree u) as [c|] eqn:Et.
  - apply assigned_enc in Et. destruct (to_hit c u Et) as (fi & E & Hr & Ei).
    unfold to_code_step. rewrite E. cbn [bind].
    destruct (Z.geb_spec fi (zlen toTable)); [lia|]. destruct (Z.ltb_spec fi (zlen toTable)); [|lia].
    cbv zeta. rewrite Ei. cbn [get_or_panic bind cp949 ucs2]. rewrite Z.eqb_refl.
    pose proof (assigned_code c u Et). rewrite code_bytes_eq by lia.
    destruct (go_append_spec grow scratch (code_bytes c) Hok) as (Ha & Hb & _). eauto.
  - assert (forall c, ~ assigned c u) as Hn by (intros c Hc; apply assigned_enc in Hc; congruence).
    destruct (to_miss u Hn) as (fi & E & Hr & Hl & Ei).
    unfold to_code_step. rewrite E. cbn [bind]. cbv zeta.
    destruct (go_append_spec grow scratch [0x3F] Hok) as (H1 & H2 & _).
    destruct (Z.ltb_spec 0xFFE6 u) as [Hu|Hu].
    + apply Hl in Hu. destruct (Z.geb_spec fi (zlen toTable)); [|lia].
      destruct (Z.ltb_spec fi (zlen toTable)); [lia|]. cbn [bind].
      destruct (go_append_spec grow _ [0x3F] H1) as (H3 & H4 & _).
      eexists. split; [reflexivity|]. split; [exact H3|]. rewrite H4, H2, <- app_assoc. reflexivity.
    + assert (fi <> zlen toTable) as Hne by (intros Hx; apply Hl in Hx; lia).
      destruct (Z.geb_spec fi (zlen toTable)); [lia|].
      destruct (Z.ltb_spec fi (zlen toTable)); [|lia].
      destruct (zget_some toTable fi) as [it Eit]; [lia|]. rewrite Eit. cbn [get_or_panic bind].
      destruct (Z.eqb_spec u (ucs2 it)) as [Hx|_]; [destruct (Ei it Eit); congruence|].
      eexists. split; [reflexivity|]. split; [exact H1|exact H2].
Qed.

Lemma to_loop_code fuel scratch d0 rest c r s : is_byte d0 -> 0x80 <= d0 ->
  DecodeRune (d0 :: rest) = (r, s) -> s <= zlen (d0 :: rest) ->
  to_loop grow (S fuel) toTable scratch (d0 :: rest) c =
  bind (to_code_step scratch (r mod 0x10000))
       (fun s' => to_loop grow fuel toTable s' (zdrop s (d0 :: rest)) (c + s)).
Proof.
  intros Hb Hd E Hs. cbn [to_loop]. rewrite high_bit_byte by exact Hb.
  destruct (Z.ltb_spec d0 0x80); [lia|]. rewrite E. cbv zeta. unfold to_u16, to_code_step.
  destruct (Search (zlen toTable) (to_pred toTable (r mod 0x10000))) as [fi| |]; [|reflexivity..].
  cbn [bind]. cbv zeta.
  destruct (if fi <? zlen toTable then _ else _) as [hit| |]; [|reflexivity..].
  cbn [bind]. destruct (Z.gtb_spec s (zlen (d0 :: rest))); [lia|].
  destruct hit; [|reflexivity]. destruct (zget toTable fi); reflexivity.
Qed.

Lemma to_loop_ascii fuel scratch d0 rest c : 0 <= d0 < 0x80 ->
  to_loop grow (S fuel) toTable scratch (d0 :: rest) c =
  to_loop grow fuel toTable (go_append grow scratch [d0]) rest (c + 1).
Proof.
  intros H0. cbn [to_loop]. rewrite high_bit_byte by (unfold is_byte; lia).
  destruct (Z.ltb_spec d0 0x80); [reflexivity|lia].
Qed.

Lemma to_loop_spec fuel : forall scratch data c, slice_ok scratch -> Forall is_byte data ->
  (length data <= fuel)%nat ->
  exists s', slice_ok s' /\ contents s' = contents scratch ++ flat_map to_char (string_to_runes data) /\
    to_loop grow fuel toTable scratch data c = Ok (c + zlen data, Some s', None, s').
Proof.
  induction fuel as [|fuel IH]; intros scratch data c Hok Hb Hf.
  - destruct data; [|cbn in Hf; lia]. exists scratch. split; [exact Hok|]. cbn [to_loop].
    split; [rewrite app_nil_r; reflexivity|]. rewrite zlen_nil, Z.add_0_r. reflexivity.
  - destruct data as [|d0 rest].
    { exists scratch. split; [exact Hok|]. cbn [to_loop].
      split; [rewrite app_nil_r; reflexivity|]. rewrite zlen_nil, Z.add_0_r. reflexivity. }
    inversion Hb as [|? ? Hd Hb']; subst.
    destruct (Z_lt_dec d0 0x80) as [Hlt|Hge].
    + assert (0 <= d0 < 0x80) as Hd0 by (unfold is_byte in Hd; lia).
      rewrite to_loop_ascii by exact Hd0.
      destruct (go_append_spec grow scratch [d0] Hok) as (H1 & H2 & _).
      destruct (IH _ rest (c + 1) H1 Hb') as (s' & Hs' & Hc & E); [cbn in Hf; lia|].
      exists s'. split; [exact Hs'|]. split.
      * rewrite Hc, H2, <- app_assoc. f_equal.
        assert (string_to_runes (d0 :: rest) = d0 :: string_to_runes rest) as ->.
        { assert (is_scalar d0) as Hsc by (unfold is_scalar; lia).
          assert (utf8_char d0 = [d0]) as E0.
          { unfold utf8_char. destruct (Z.ltb_spec d0 0x80); [reflexivity|lia]. }
          pose proof (string_to_runes_utf8_app [d0] rest) as Hx. cbn [utf8 flat_map] in Hx.
          rewrite E0 in Hx. apply Hx; [constructor; [exact Hsc|constructor]|exact Hb']. }
        rewrite to_chars_cons, to_char_ascii by exact Hd0. reflexivity.
      * rewrite E, zlen_cons. replace (c + (zlen rest + 1)) with (c + 1 + zlen rest) by lia.
        replace (c + (1 + zlen rest)) with (c + 1 + zlen rest) by lia. reflexivity.
    + destruct (DecodeRune_step d0 rest Hd) as (r & n & E & Hn & _ & Hr & Hstep).
      assert (0x80 <= r) as Hr80.
      { destruct (DecodeRune_cases d0 rest Hd) as [(r' & q & Hr' & Eq & Ed)|Ed].
        - rewrite Ed in E. injection E as -> _.
          destruct (utf8_char_cases r Hr') as [[H0 E0]|[[H0 _]|[[H0 _]|[H0 _]]]]; try lia.
          rewrite E0 in Eq. cbn [app] in Eq. injection Eq as -> _. lia.
        - rewrite Ed in E. injection E as <- _. unfold RuneError. lia. }
      rewrite (to_loop_code _ _ _ _ _ r n) by (try assumption; lia).
      destruct (to_code_spec scratch (r mod 0x10000) Hok) as (s1 & E1 & Hok1 & Hc1).
      rewrite E1. cbn [bind].
      assert (Forall is_byte (zdrop n (d0 :: rest))) as Hbd by (apply Forall_zdrop; exact Hb).
      destruct (IH s1 (zdrop n (d0 :: rest)) (c + n) Hok1 Hbd) as (s' & Hs' & Hc & E2).
      { pose proof (zlen_zdrop n (d0 :: rest)) as Hz. unfold zlen in *. cbn [length] in *. lia. }
      exists s'. split; [exact Hs'|]. split.
      * rewrite Hc, Hc1, <- app_assoc. f_equal.
        rewrite (string_to_runes_eq (d0 :: rest) (r :: string_to_runes (zdrop n (d0 :: rest)))).
        -- rewrite to_chars_cons, to_char_high by exact Hr80. reflexivity.
        -- exact Hb.
        -- apply Hstep, string_to_runes_reads, Hbd.
      * rewrite E2, zlen_zdrop by lia.
        replace (c + n + Z.max 0 (zlen (d0 :: rest) - n)) with (c + zlen (d0 :: rest)) by lia. reflexivity.
Qed.

Lemma to_Translate_spec scratch data : slice_ok scratch -> Forall is_byte data ->
  exists s', slice_ok s' /\ contents s' = flat_map to_char (string_to_runes data) /\
    to_Translate grow toTable scratch data = Ok (zlen data, Some s', None, s').
Proof.
  intros Hok Hb. unfold to_Translate. rewrite reslice_0 by exact Hok. cbn [bind].
  destruct (to_loop_spec (length data) (mkSlice (arr scratch) 0) data 0 (reslice_0_ok _ Hok) Hb (le_n _))
    as (s' & Hs' & Hc & E).
  exists s'. split; [exact Hs'|]. split; [rewrite Hc; reflexivity|exact E].
Qed.

Lemma To_runes data : Forall is_byte data ->
  To grow data = Ok (inl (flat_map to_char (string_to_runes data))).
Proof.
  intros Hb. unfold To.
  destruct (to_Translate_spec nil_slice data nil_slice_ok Hb) as (s' & _ & Hc & ->).
  cbn [bind of_translate]. rewrite Hc. reflexivity.
Qed.
Lemma To_reads data rs : Forall is_byte data -> reads_as data rs ->
  To grow data = Ok (inl (flat_map to_char rs)).
Proof. intros Hb H. rewrite To_runes by exact Hb. rewrite (string_to_runes_eq data rs Hb H). reflexivity. Qed.
Lemma To_utf8 rs : Forall is_scalar rs -> To grow (utf8 rs) = Ok (inl (flat_map to_char rs)).
Proof. intros H. apply To_reads; [apply utf8_bytes; exact H|apply reads_as_utf8; exact H]. Qed.
End Grow.
