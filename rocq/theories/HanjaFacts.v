(** Proofs about package hanja. *)
From Coq Require Import ZArith List Bool Lia FMapPositive.
From Coq Require Import ZifyBool.
From Verif Require Import Base Spec Facts PMapFacts Utf8 Utf8Facts TableHanja HanjaModel
  HangulModel HangulFacts HangulFacts2 HangulFacts3.
Import ListNotations.
Local Open Scope Z_scope.

Definition hanja_tree : PositiveMap.t Z := Eval vm_compute in tree table.
Lemma hanja_tree_eq : tree table = hanja_tree.
Proof. vm_compute. reflexivity. Qed.
Lemma hanja_keys_pos : forallb (fun kv => 0 <? fst kv) table = true.
Proof. vm_compute. reflexivity. Qed.
Lemma hanja_get k : map_get table k = tget hanja_tree k.
Proof. rewrite <- hanja_tree_eq. symmetry. apply tree_get, hanja_keys_pos. Qed.

Lemma hanja_nodup : NoDup (map fst table).
Proof. apply nodup_by_check. vm_compute. reflexivity. Qed.

Lemma hanja_values k v : map_get table k = Some v -> is_syllable v.
Proof.
  intros H. apply map_get_In in H.
  assert (forallb (fun kv => (0xAC00 <=? snd kv) && (snd kv <=? 0xD7A3)) table = true) as E
    by (vm_compute; reflexivity).
  rewrite forallb_forall in E. apply E in H. cbn in H. unfold is_syllable. lia.
Qed.

Definition is_hanjab (r : Z) : bool :=
  ((0x3400 <=? r) && (r <=? 0x4DB5)) || ((0x4E00 <=? r) && (r <=? 0x9FA5))
  || existsb (Z.eqb r) unified_in_compat_block.
Lemma is_hanjab_true r : is_hanjab r = true <-> is_hanja r.
Proof.
  unfold is_hanjab, is_hanja. rewrite !orb_true_iff, existsb_exists, !andb_true_iff, !Z.leb_le.
  split.
  - intros [[H|H]|(x & Hx & E)]; [tauto..|]. right; right. apply Z.eqb_eq in E. subst. exact Hx.
  - intros [H|[H|H]]; [tauto..|]. right. exists r. split; [exact H|apply Z.eqb_refl].
Qed.

Lemma IsHanja_iff r : IsHanja r = true <-> is_hanja r.
Proof.
  rewrite <- is_hanjab_true. unfold IsHanja. rewrite hanja_get.
  destruct (Z_lt_dec r 0x3400) as [Hlo|Hlo]; [|destruct (Z_lt_dec 0xFA29 r) as [Hhi|Hhi]].
  - assert (is_hanjab r = false) as ->.
    { destruct (is_hanjab r) eqn:E; [|reflexivity]. apply is_hanjab_true in E.
      unfold is_hanja, unified_in_compat_block in E. cbn [In] in E. lia. }
    rewrite <- hanja_get, (map_get_out table 0x3400 0xFA29); [tauto| |lia]. vm_compute. reflexivity.
  - assert (is_hanjab r = false) as ->.
    { destruct (is_hanjab r) eqn:E; [|reflexivity]. apply is_hanjab_true in E.
      unfold is_hanja, unified_in_compat_block in E. cbn [In] in E. lia. }
    rewrite <- hanja_get, (map_get_out table 0x3400 0xFA29); [tauto| |lia]. vm_compute. reflexivity.
  - assert (Bool.eqb (match tget hanja_tree r with Some _ => true | None => false end) (is_hanjab r) = true) as E.
    { apply (sweep (fun r => Bool.eqb (match tget hanja_tree r with Some _ => true | None => false end) (is_hanjab r))
               0x3400 (0xFA2A - 0x3400)); [|lia]. vm_compute. reflexivity. }
    apply Bool.eqb_prop in E. rewrite E. tauto.
Qed.

Lemma IsHanja_get r : IsHanja r = true <-> exists v, map_get table r = Some v.
Proof. unfold IsHanja. destruct (map_get table r); split; eauto; try discriminate. intros [v H]; discriminate. Qed.

Lemma IsHanja_false_get r : IsHanja r = false <-> map_get table r = None.
Proof. unfold IsHanja. destruct (map_get table r); split; congruence. Qed.

Lemma syllable_scalar c : is_syllable c -> is_scalar c.
Proof. unfold is_syllable, is_scalar. lia. Qed.

Lemma syllable_not_hanja c : is_syllable c -> IsHanja c = false.
Proof.
  intros H. destruct (IsHanja c) eqn:E; [|reflexivity]. apply IsHanja_iff in E.
  unfold is_hanja, unified_in_compat_block, is_syllable in *. cbn [In] in E. lia.
Qed.

Lemma convert_rune_hanja r : IsHanja r = true -> is_syllable (convert_rune r).
Proof.
  intros H. apply IsHanja_get in H as [v E]. unfold convert_rune. rewrite E.
  eapply hanja_values; exact E.
Qed.
Lemma convert_rune_other r : IsHanja r = false -> convert_rune r = r.
Proof. intros H. apply IsHanja_false_get in H. unfold convert_rune. rewrite H. reflexivity. Qed.
Lemma convert_rune_table r v : In (r, v) table -> convert_rune r = v.
Proof.
  intros H. unfold convert_rune. rewrite (map_get_some table r v hanja_nodup H). reflexivity.
Qed.

Lemma convert_rune_scalar r : is_scalar r -> is_scalar (convert_rune r).
Proof.
  intros H. destruct (IsHanja r) eqn:E.
  - apply syllable_scalar, convert_rune_hanja, E.
  - rewrite convert_rune_other by exact E. exact H.
Qed.

Lemma convert_rune_not_hanja r : IsHanja (convert_rune r) = false.
Proof.
  destruct (IsHanja r) eqn:E.
  - apply syllable_not_hanja, convert_rune_hanja, E.
  - rewrite convert_rune_other by exact E. exact E.
Qed.

Lemma Forall_scalar_convert rs : Forall is_scalar rs -> Forall is_scalar (map convert_rune rs).
Proof. induction 1; cbn [map]; constructor; auto using convert_rune_scalar. Qed.

Lemma Convert_reads s rs : Forall is_byte s -> reads_as s rs -> Convert s = utf8 (map convert_rune rs).
Proof.
  intros Hs H. unfold Convert. rewrite (string_to_runes_eq s rs Hs H).
  apply runes_to_string_utf8. apply Forall_scalar_convert. eapply reads_as_scalar; exact H.
Qed.
Lemma Convert_bytes s : Forall is_byte s -> Convert s = utf8 (map convert_rune (string_to_runes s)).
Proof. intros Hs. apply Convert_reads; [exact Hs|apply string_to_runes_reads; exact Hs]. Qed.

Lemma Convert_is_bytes s : Forall is_byte s -> Forall is_byte (Convert s).
Proof.
  intros Hs. rewrite Convert_bytes by exact Hs.
  apply utf8_bytes, Forall_scalar_convert, string_to_runes_scalar, Hs.
Qed.

Lemma Convert_utf8 rs : Forall is_scalar rs -> Convert (utf8 rs) = utf8 (map convert_rune rs).
Proof.
  intros H. apply Convert_reads; [apply utf8_bytes; exact H|apply reads_as_utf8; exact H].
Qed.

Lemma C22_lemma : exists f : Z -> Z,
  (forall r, IsHanja r = true -> is_syllable (f r) /\ In (r, f r) table) /\
  (forall r, IsHanja r = false -> f r = r) /\
  (forall s rs, Forall is_byte s -> reads_as s rs ->
     Convert s = utf8 (map f rs) /\ reads_as (Convert s) (map f rs)).
Proof.
  exists convert_rune. split; [|split].
  - intros r H. split; [apply convert_rune_hanja; exact H|].
    apply IsHanja_get in H as [v E]. unfold convert_rune. rewrite E. apply map_get_In; exact E.
  - apply convert_rune_other.
  - intros s rs Hs H. rewrite (Convert_reads s rs Hs H). split; [reflexivity|].
    apply reads_as_utf8, Forall_scalar_convert. eapply reads_as_scalar; exact H.
Qed.

Lemma map_convert_id rs : Forall (fun r => IsHanja r = false) rs -> map convert_rune rs = rs.
Proof. induction 1; cbn [map]; [reflexivity|]. rewrite convert_rune_other by assumption. congruence. Qed.
Lemma map_convert_not_hanja rs : Forall (fun r => IsHanja r = false) (map convert_rune rs).
Proof. induction rs; cbn [map]; constructor; auto using convert_rune_not_hanja. Qed.

Lemma C23_lemma s : Forall is_byte s ->
  (forall rs, reads_as (Convert s) rs -> Forall (fun r => IsHanja r = false) rs) /\
  Convert (Convert s) = Convert s.
Proof.
  intros Hs. rewrite (Convert_bytes s Hs). set (rs0 := string_to_runes s).
  assert (Forall is_scalar (map convert_rune rs0)) as Hsc
    by (apply Forall_scalar_convert, string_to_runes_scalar, Hs).
  split.
  - intros rs H. rewrite (reads_as_fun _ _ _ H (reads_as_utf8 _ Hsc)). apply map_convert_not_hanja.
  - rewrite Convert_utf8 by exact Hsc. rewrite map_convert_id by apply map_convert_not_hanja. reflexivity.
Qed.

Lemma C24_lemma s : Forall is_byte s ->
  valid_utf8 (Convert s) /\
  (Convert s = s <->
   exists rs, Forall is_scalar rs /\ Forall (fun r => IsHanja r = false) rs /\ s = utf8 rs).
Proof.
  intros Hs. split.
  - rewrite (Convert_bytes s Hs). eexists. split; [|reflexivity].
    apply Forall_scalar_convert, string_to_runes_scalar, Hs.
  - split.
    + intros E. rewrite (Convert_bytes s Hs) in E. eexists. split; [|split; [|symmetry; exact E]].
      * apply Forall_scalar_convert, string_to_runes_scalar, Hs.
      * apply map_convert_not_hanja.
    + intros (rs & Hsc & Hh & ->). rewrite Convert_utf8 by exact Hsc.
      rewrite map_convert_id by exact Hh. reflexivity.
Qed.

Lemma Convert_boundary a b : Forall is_byte a -> Forall is_byte b -> boundary b ->
  Convert (a ++ b) = Convert a ++ Convert b.
Proof.
  intros Ha Hb Hbd. assert (Forall is_byte (a ++ b)) as Hab by (apply Forall_app; auto).
  rewrite !Convert_bytes by assumption. rewrite string_to_runes_boundary by assumption.
  rewrite map_app, utf8_app. reflexivity.
Qed.
Lemma Convert_valid_app a b : valid_utf8 a -> Forall is_byte b ->
  Convert (a ++ b) = Convert a ++ Convert b.
Proof.
  intros (rs & Hrs & ->) Hb. pose proof (utf8_bytes rs Hrs) as Ha.
  assert (Forall is_byte (utf8 rs ++ b)) as Hab by (apply Forall_app; auto).
  rewrite !Convert_bytes by assumption.
  rewrite string_to_runes_utf8_app by assumption. rewrite string_to_runes_utf8 by assumption.
  rewrite map_app, utf8_app. reflexivity.
Qed.
Lemma C25_lemma a b : Forall is_byte a -> Forall is_byte b -> (valid_utf8 a \/ boundary b) ->
  Convert (a ++ b) = Convert a ++ Convert b.
Proof. intros Ha Hb [H|H]; [apply Convert_valid_app|apply Convert_boundary]; assumption. Qed.

(** The last character after conversion. *)
Lemma Convert_last pre r : Forall is_byte pre -> is_scalar r ->
  Convert (pre ++ utf8_char r) = Convert pre ++ utf8_char (convert_rune r).
Proof.
  intros Hp Hr. rewrite Convert_boundary.
  - f_equal. rewrite <- (app_nil_r (utf8_char r)). change (utf8_char r ++ []) with (utf8 [r]).
    rewrite Convert_utf8 by (constructor; auto). cbn [map utf8 flat_map]. apply app_nil_r.
  - exact Hp.
  - apply utf8_char_bytes, Hr.
  - rewrite <- (app_nil_r (utf8_char r)). apply boundary_char, Hr.
Qed.

Lemma hanja_scalar r : IsHanja r = true -> is_scalar r.
Proof.
  intros H. apply IsHanja_iff in H. unfold is_hanja, unified_in_compat_block, is_scalar in *.
  cbn [In] in H. lia.
Qed.

Lemma C61_lemma pre r : Forall is_byte pre -> IsHanja r = true ->
  exists h t, In (r, h) table /\ is_syllable h /\
    Split h = (fst (fst (Split h)), snd (fst (Split h)), t) /\ (t = 0 \/ is_tail_jamo t) /\
    LastConsonant (Convert (pre ++ utf8_char r)) = Ok t.
Proof.
  intros Hp Hh. pose proof (convert_rune_hanja r Hh) as Hs.
  exists (convert_rune r), (snd (Split (convert_rune r))).
  split; [apply IsHanja_get in Hh as [v E]; unfold convert_rune; rewrite E; apply map_get_In; exact E|].
  split; [exact Hs|].
  pose proof (proj2 (Split_wf _ (syllable_int32 _ Hs)) Hs) as Hwf.
  rewrite Convert_last by auto using hanja_scalar.
  rewrite LastConsonant_last by (auto using Convert_is_bytes, syllable_scalar).
  destruct (Split (convert_rune r)) as [[l m] t]. cbn [fst snd].
  split; [reflexivity|]. split; [apply Hwf|reflexivity].
Qed.

Lemma C61_lemma' pre r : Forall is_byte pre -> IsHanja r = true ->
  exists h l m t, In (r, h) table /\ is_syllable h /\ Split h = (l, m, t) /\
    (t = 0 \/ is_tail_jamo t) /\
    LastConsonant (Convert (pre ++ utf8_char r)) = Ok t.
Proof.
  intros Hp Hr. destruct (C61_lemma pre r Hp Hr) as (h & t & H1 & H2 & H3 & H4 & H5).
  exists h, (fst (fst (Split h))), (snd (fst (Split h))), t. auto.
Qed.

Lemma C26_lemma :
  (forall r, IsHanja r = true <-> is_hanja r) /\
  (forall r h, In (r, h) table -> is_syllable h) /\
  NoDup (map fst table).
Proof.
  split; [exact IsHanja_iff|]. split; [|exact hanja_nodup].
  intros r h H. apply (hanja_values r). apply map_get_some; [exact hanja_nodup|exact H].
Qed.
