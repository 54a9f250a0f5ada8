(** Lemmas for PropInPlace.v. *)
From Coq Require Import ZArith List Bool Lia ZifyBool.
From Verif Require Import Base Spec SpecText SpecCp949 SpecInPlace Facts Utf8 Utf8Facts Cp949Model Cp949Facts Cp949Facts2 Cp949Facts3 TableFacts PMapFacts
  TableHanja HanjaModel HanjaFacts.
Import ListNotations.
Local Open Scope Z_scope.
Local Open Scope list_scope.

Definition ks_syllableb (c : Z) : bool := (0xB0 <=? c / 256) && (c / 256 <=? 0xC8) && (0xA1 <=? c mod 256) && (c mod 256 <=? 0xFE).
Definition reading_ok (kv : Z * Z) : bool :=
  existsb (Z.eqb (fst kv)) read_cd40 || match tget enc_tree (snd kv) with Some d => ks_syllableb d | None => false end.
Lemma readings_ok : forallb reading_ok table = true.
Proof. vm_compute. reflexivity. Qed.
Lemma odd_uncoded : forallb (fun h => match tget enc_tree h with None => true | _ => false end) read_cd40 = true.
Proof. vm_compute. reflexivity. Qed.
Lemma odd_reading : forallb (fun h => match tget hanja_tree h with Some v => v =? 0xCD40 | None => false end) read_cd40 = true.
Proof. vm_compute. reflexivity. Qed.
Lemma code_cd40 : tget enc_tree 0xCD40 = Some 0xAC82.
Proof. vm_compute. reflexivity. Qed.
Local Opaque enc_tree hanja_tree table.

Lemma ks_syllableb_true c : ks_syllableb c = true -> ks_syllable_code c.
Proof. unfold ks_syllableb, ks_syllable_code. lia. Qed.
Lemma reading_ks h : IsHanja h = true -> ~ In h read_cd40 -> exists d, assigned d (convert_rune h) /\ ks_syllable_code d.
Proof.
  intros Hh Hn. apply IsHanja_get in Hh as (v & Hv). assert (Hi := map_get_In table h v Hv).
  rewrite (convert_rune_table h v Hi). pose proof readings_ok as F. rewrite forallb_forall in F. specialize (F _ Hi).
  unfold reading_ok in F. cbn [fst snd] in F. apply orb_true_iff in F as [F|F].
  - exfalso. apply existsb_exists in F as (x & Hx & E). apply Z.eqb_eq in E. subst x. exact (Hn Hx).
  - destruct (tget enc_tree v) as [d|] eqn:E; [|discriminate]. exists d. split; [apply assigned_enc; exact E|apply ks_syllableb_true; exact F].
Qed.
Lemma odd_not_assigned h c : In h read_cd40 -> ~ assigned c h.
Proof.
  intros Hi Ha. pose proof odd_uncoded as F. rewrite forallb_forall in F. specialize (F _ Hi). apply assigned_enc in Ha. rewrite Ha in F. discriminate.
Qed.
Lemma odd_read h : In h read_cd40 -> IsHanja h = true /\ convert_rune h = 0xCD40.
Proof.
  intros Hi. pose proof odd_reading as F. rewrite forallb_forall in F. specialize (F _ Hi).
  destruct (tget hanja_tree h) as [v|] eqn:E; [|discriminate]. apply Z.eqb_eq in F. subst v. rewrite <- hanja_get in E.
  split; [apply IsHanja_get; eauto|]. unfold convert_rune. rewrite E. reflexivity.
Qed.
Lemma Convert_char h : is_scalar h -> Convert (utf8_char h) = utf8_char (convert_rune h).
Proof.
  intros H. pose proof (Convert_utf8 [h] (Forall_cons _ H (Forall_nil _))) as E. cbn [map] in E. rewrite !utf8_cons in E.
  cbn [utf8 flat_map] in E. rewrite !app_nil_r in E. exact E.
Qed.

Lemma replaced_ex rs s : encodes rs s -> exists t, encodes (map convert_rune rs) t /\ hanja_replaced s t.
Proof.
  induction 1 as [|r rs bs Hr H (t & IH1 & IH2)|c r rs bs Ha H (t & IH1 & IH2)].
  - exists []. split; constructor.
  - exists (r :: t). split; [|apply hr_ascii; assumption]. cbn [map]. rewrite convert_rune_other.
    + apply enc_ascii; assumption.
    + destruct (IsHanja r) eqn:E; [|reflexivity]. apply IsHanja_iff in E. unfold is_hanja, unified_in_compat_block in E. cbn [In] in E. lia.
  - cbn [map]. destruct (IsHanja r) eqn:E.
    + destruct (reading_ks r E) as (d & Hd & Kd); [intros Hi; exact (odd_not_assigned r c Hi Ha)|].
      exists (code_bytes d ++ t). split; [apply enc_code; assumption|].
      apply (hr_hanja c r d (convert_rune r)); try assumption.
      * apply Convert_char, hanja_scalar, E.
      * apply convert_rune_hanja, E.
    + exists (code_bytes c ++ t). rewrite convert_rune_other by exact E. split; [apply enc_code; assumption|apply (hr_other c r); assumption].
Qed.
Lemma replaced_length s t : hanja_replaced s t -> length t = length s.
Proof. induction 1; cbn [length app code_bytes]; lia. Qed.
Lemma replaced_euc s t : hanja_replaced s t -> euc_kr s -> euc_kr t.
Proof.
  induction 1 as [|b s t Hb H IH|c u s t Ha Hu H IH|c h d v s t Ha Hh E Hv Hd Kd H IH]; intros K.
  - exact K.
  - inversion K as [|b' s' Hb' K' E1|a' b' s' Ha' Hb' K' E1]; subst; [|lia]. apply ek_ascii; [exact Hb|apply IH; exact K'].
  - pose proof (assigned_code c u Ha). unfold code_bytes in *. cbn [app] in *. assert (0x81 <= c / 256) by (Z.div_mod_to_equations; lia).
    inversion K as [|b' s' Hb' K' E1|a' b' s' Ha' Hb' K' E1]; subst; [lia|]. apply ek_pair; [assumption..|apply IH; exact K'].
  - pose proof (assigned_code c h Ha). unfold code_bytes in *. cbn [app] in *. assert (0x81 <= c / 256) by (Z.div_mod_to_equations; lia).
    inversion K as [|b' s' Hb' K' E1|a' b' s' Ha' Hb' K' E1]; subst; [lia|]. unfold ks_syllable_code in Kd.
    apply ek_pair; [lia|lia|apply IH; exact K'].
Qed.

Section Grow.
Variable grow : Z -> Z -> Z.
Lemma in_place s : (exists rs, encodes rs s) -> exists u t, From grow s = Ok (inl u) /\ To grow (Convert u) = Ok (inl t) /\
  hanja_replaced s t /\ zlen t = zlen s /\ (euc_kr s -> euc_kr t).
Proof.
  intros (rs & He). destruct (replaced_ex rs s He) as (t & H1 & H2). exists (utf8 rs), t.
  pose proof (C29_lemma grow rs s He) as [E1 _]. split; [exact E1|].
  rewrite Convert_utf8 by (apply Forall_repertoire_scalar; eapply encodes_repertoire; exact He).
  split; [apply To_encodes; exact H1|]. split; [exact H2|]. split; [unfold zlen; rewrite (replaced_length s t H2); reflexivity|apply replaced_euc; exact H2].
Qed.
Lemma common_reading h : IsHanja h = true -> ~ In h read_cd40 -> exists d,
  To grow (Convert (utf8_char h)) = Ok (inl (code_bytes d)) /\ ks_syllable_code d.
Proof.
  intros Hh Hn. destruct (reading_ks h Hh Hn) as (d & Hd & Kd). exists d. split; [|exact Kd].
  rewrite Convert_char by (apply hanja_scalar, Hh).
  assert (He : encodes [convert_rune h] (code_bytes d)) by (rewrite <- (app_nil_r (code_bytes d)); apply enc_code; [exact Hd|constructor]).
  pose proof (To_encodes grow _ _ He) as E. rewrite utf8_cons in E. cbn [utf8 flat_map] in E. rewrite app_nil_r in E. exact E.
Qed.
Lemma uncommon_reading h : In h read_cd40 -> IsHanja h = true /\ To grow (Convert (utf8_char h)) = Ok (inl [0xAC; 0x82]) /\ (forall c, ~ assigned c h).
Proof.
  intros Hi. destruct (odd_read h Hi) as [Hh E]. split; [exact Hh|]. split; [|intros c; apply odd_not_assigned, Hi].
  rewrite Convert_char, E by (apply hanja_scalar, Hh).
  assert (He : encodes [0xCD40] [0xAC; 0x82]) by (apply (enc_code 0xAC82 0xCD40 [] []); [apply assigned_enc, code_cd40|constructor]).
  pose proof (To_encodes grow _ _ He) as E'. rewrite utf8_cons in E'. cbn [utf8 flat_map] in E'. rewrite app_nil_r in E'. exact E'.
Qed.
End Grow.
Lemma common_refuted : exists h, IsHanja h = true /\ forall grow, exists d, To grow (Convert (utf8_char h)) = Ok (inl (code_bytes d)) /\ ~ ks_syllable_code d.
Proof.
  exists 0x5550. split; [apply odd_read; right; left; reflexivity|]. intros grow. exists 0xAC82.
  split; [apply uncommon_reading; right; left; reflexivity|]. unfold ks_syllable_code. intros [[H _] _]. vm_compute in H. exact (H eq_refl).
Qed.
