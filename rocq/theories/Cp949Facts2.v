(** The lemmas behind properties C27-C44, C59 and C60. *)
From Coq Require Import ZArith List Bool Lia Sorting.Sorted.
From Coq Require Import ZifyBool.
From Verif Require Import Base Spec Facts Utf8 Utf8Facts SortSearch TableFrom TableTo SpecCp949
  PMapFacts Cp949Model SliceFacts TableFacts Cp949Facts HangulModel HangulFacts HangulFacts3
  TableHanja HanjaModel HanjaFacts.
Import ListNotations.
Local Open Scope Z_scope.
Local Opaque fromTable toTable dec_tree enc_tree TableHanja.table.

(** ** Data *)
Lemma sortedb_StronglySorted l : sortedb l = true -> StronglySorted Z.lt l.
Proof.
  induction l as [|x l IH]; intros H; constructor.
  - apply IH. eapply sortedb_tail; exact H.
  - apply sortedb_head; exact H.
Qed.

(** Sorted by two keys at once: the keys order the entries alike. *)
Lemma two_keys (l : list lookupItem) :
  sortedb (map cp949 l) = true -> sortedb (map ucs2 l) = true ->
  forall x y, In x l -> In y l -> (cp949 x < cp949 y <-> ucs2 x < ucs2 y).
Proof.
  intros Hc Hu. induction l as [|a l IH]; intros x y Hx Hy; [destruct Hx|].
  cbn [map] in Hc, Hu.
  pose proof (sortedb_head _ _ Hc) as Fc. pose proof (sortedb_head _ _ Hu) as Fu.
  apply sortedb_tail in Hc, Hu. rewrite Forall_forall in Fc, Fu.
  destruct Hx as [<- |Hx], Hy as [<- |Hy].
  - lia.
  - specialize (Fc _ (in_map cp949 _ _ Hy)). specialize (Fu _ (in_map ucs2 _ _ Hy)). lia.
  - specialize (Fc _ (in_map cp949 _ _ Hx)). specialize (Fu _ (in_map ucs2 _ _ Hx)). lia.
  - apply IH; assumption.
Qed.

Definition syllable_b (u : Z) : bool := (0xAC00 <=? u) && (u <=? 0xD7A3).
Definition ks_b (c : Z) : bool := (0xA1 <=? c / 256) && (0xA1 <=? c mod 256).
Lemma syllable_b_iff u : syllable_b u = true <-> is_syllable u.
Proof. unfold syllable_b, is_syllable. lia. Qed.
Lemma ks_b_iff c : ks_b c = true <-> ks_code c.
Proof. unfold ks_b, ks_code. lia. Qed.

Definition ks_syllables := filter (fun it => syllable_b (ucs2 it) && ks_b (cp949 it)) fromTable.
Definition ext_syllables := filter (fun it => syllable_b (ucs2 it) && negb (ks_b (cp949 it))) fromTable.
Lemma ks_sorted : sortedb (map cp949 ks_syllables) && sortedb (map ucs2 ks_syllables) = true.
Proof. vm_compute. reflexivity. Qed.
Lemma ext_sorted : sortedb (map cp949 ext_syllables) && sortedb (map ucs2 ext_syllables) = true.
Proof. vm_compute. reflexivity. Qed.

Lemma ks_In c u : In (It c u) ks_syllables <-> assigned c u /\ is_syllable u /\ ks_code c.
Proof.
  unfold ks_syllables, assigned. rewrite filter_In. cbn [cp949 ucs2].
  rewrite andb_true_iff, syllable_b_iff, ks_b_iff. tauto.
Qed.
Lemma ext_In c u : In (It c u) ext_syllables <-> assigned c u /\ is_syllable u /\ ~ ks_code c.
Proof.
  unfold ext_syllables, assigned. rewrite filter_In. cbn [cp949 ucs2].
  rewrite andb_true_iff, syllable_b_iff, negb_true_iff, <- (ks_b_iff c).
  destruct (ks_b c); intuition congruence.
Qed.

Lemma syllable_assigned u : is_syllable u -> exists c, assigned c u.
Proof.
  intros H.
  assert (forallb (fun v => match tget enc_tree v with Some _ => true | None => false end)
            (zseq 0xAC00 (Z.to_nat 11172)) = true) as E by (vm_compute; reflexivity).
  rewrite forallb_forall in E. specialize (E u). rewrite in_zseq in E.
  destruct (tget enc_tree u) as [c|] eqn:Et; [exists c; apply assigned_enc; exact Et|].
  discriminate E. unfold is_syllable in H. lia.
Qed.

Definition syllable_codes (P : Z -> Prop) (l : list lookupItem) : Prop :=
  forall c u, In (It c u) l <-> assigned c u /\ is_syllable u /\ P c.

Lemma C39_lemma :
  (forall u, is_syllable u -> exists c, assigned c u) /\
  (forall c u c' u', is_syllable u -> is_syllable u' -> assigned c u -> assigned c' u' ->
     (ks_code c <-> ks_code c') -> (c < c' <-> u < u')) /\
  (exists l, NoDup l /\ length l = Z.to_nat 2350 /\
     forall c u, In (It c u) l <-> assigned c u /\ is_syllable u /\ ks_code c) /\
  (exists l, NoDup l /\ length l = Z.to_nat 8822 /\
     forall c u, In (It c u) l <-> assigned c u /\ is_syllable u /\ ~ ks_code c).
Proof.
  split; [exact syllable_assigned|]. split; [|split].
  - intros c u c' u' Hu Hu' Ha Ha' Hk.
    destruct (ks_b c) eqn:E.
    + apply ks_b_iff in E. pose proof (proj1 Hk E) as E'.
      pose proof ks_sorted as S. apply andb_true_iff in S as [S1 S2].
      exact (two_keys ks_syllables S1 S2 (It c u) (It c' u')
               (proj2 (ks_In c u) (conj Ha (conj Hu E))) (proj2 (ks_In c' u') (conj Ha' (conj Hu' E')))).
    + assert (~ ks_code c) as En by (intros H; apply ks_b_iff in H; congruence).
      assert (~ ks_code c') as En' by tauto.
      pose proof ext_sorted as S. apply andb_true_iff in S as [S1 S2].
      exact (two_keys ext_syllables S1 S2 (It c u) (It c' u')
               (proj2 (ext_In c u) (conj Ha (conj Hu En))) (proj2 (ext_In c' u') (conj Ha' (conj Hu' En')))).
  - exists ks_syllables. split; [|split; [vm_compute; reflexivity|exact ks_In]].
    pose proof ks_sorted as S. apply andb_true_iff in S as [S _].
    apply sortedb_NoDup in S. eapply NoDup_map_inv; exact S.
  - exists ext_syllables. split; [|split; [vm_compute; reflexivity|exact ext_In]].
    pose proof ext_sorted as S. apply andb_true_iff in S as [S _].
    apply sortedb_NoDup in S. eapply NoDup_map_inv; exact S.
Qed.

Lemma C38_lemma :
  length fromTable = Z.to_nat 17048 /\ length toTable = Z.to_nat 17048 /\
  (forall c u, In (It c u) fromTable <-> In (It c u) toTable) /\
  (forall c u u', In (It c u) fromTable -> In (It c u') fromTable -> u = u') /\
  (forall c c' u, In (It c u) fromTable -> In (It c' u) fromTable -> c = c') /\
  StronglySorted Z.lt (map cp949 fromTable) /\ StronglySorted Z.lt (map ucs2 toTable) /\
  (forall n, exists i, Search (zlen fromTable) (from_pred fromTable n) = Ok i /\
     forall u, In (It n u) fromTable <-> zget fromTable i = Some (It n u)) /\
  (forall u, exists i, Search (zlen toTable) (to_pred toTable u) = Ok i /\
     forall c, In (It c u) toTable <-> zget toTable i = Some (It c u)).
Proof.
  split; [vm_compute; reflexivity|]. split; [vm_compute; reflexivity|].
  split; [exact same_pairs|]. split; [exact assigned_fun|]. split; [exact assigned_inj|].
  split; [apply sortedb_StronglySorted, from_sorted|].
  split; [apply sortedb_StronglySorted, to_sorted|].
  split.
  - intros n. destruct (assigned_cases n) as [(u & Hu)|Hn].
    + destruct (from_hit n u Hu) as (i & E & _ & Ei). exists i. split; [exact E|].
      intros v. split; [|apply zget_In]. intros Hv. rewrite (assigned_fun n v u Hv Hu). exact Ei.
    + destruct (from_miss n Hn) as (i & E & _ & Ei). exists i. split; [exact E|].
      intros v. split; [|apply zget_In]. intros Hv. destruct (Hn v Hv).
  - intros u. destruct (assigned_cases_u u) as [(c & Hc)|Hn].
    + destruct (to_hit c u Hc) as (i & E & _ & Ei). exists i. split; [exact E|].
      intros v. split; [|apply zget_In]. intros Hv. apply assigned_to in Hv.
      rewrite (assigned_inj v c u Hv Hc). exact Ei.
    + destruct (to_miss u Hn) as (i & E & _ & _ & Ei). exists i. split; [exact E|].
      intros v. split; [|apply zget_In]. intros Hv. apply assigned_to in Hv. destruct (Hn v Hv).
Qed.

Definition unified_b (u : Z) : bool := (0x3400 <=? u) && (u <=? 0x9FFF).
Definition compat_b (u : Z) : bool := (0xF900 <=? u) && (u <=? 0xFAFF).
Lemma assigned_hanja c u : assigned c u ->
  (0x3400 <= u <= 0x9FFF -> is_hanja u) /\ (0xF900 <= u <= 0xFAFF -> u <= 0xFA0B).
Proof.
  intros H.
  assert (forallb (fun it => (fun _ u => (negb (unified_b u) || ((0x4E00 <=? u) && (u <=? 0x9FA5)))
                  && (negb (compat_b u) || (u <=? 0xFA0B))) (cp949 it) (ucs2 it)) fromTable = true) as E
    by (vm_compute; reflexivity).
  pose proof (assigned_forall _ E c u H) as Hx. unfold unified_b, compat_b, is_hanja in *. lia.
Qed.

Lemma compat_not_hanja u : 0xF900 <= u <= 0xFA0B -> IsHanja u = false.
Proof.
  intros H. destruct (IsHanja u) eqn:E; [|reflexivity]. apply IsHanja_iff in E.
  unfold is_hanja, unified_in_compat_block in E. cbn [In] in E. lia.
Qed.

(** ** Round trips *)
Lemma code_bytes_split c : 0x8000 <= c < 0x10000 ->
  exists b0 b1, code_bytes c = [b0; b1] /\ 0x80 <= b0 < 256 /\ 0 <= b1 < 256 /\ b0 * 256 + b1 = c.
Proof.
  intros H. exists (c / 256), (c mod 256). unfold code_bytes. repeat split; Z.div_mod_to_equations; lia.
Qed.

Lemma encodes_decodes rs bs : encodes rs bs -> decodes bs rs.
Proof.
  induction 1 as [|r rs bs Hr H IH|c r rs bs Ha H IH].
  - constructor.
  - constructor; assumption.
  - pose proof (assigned_code c r Ha).
    destruct (code_bytes_split c) as (b0 & b1 & -> & Hb0 & Hb1 & E); [lia|].
    cbn [app]. apply dec_code; auto. rewrite E. exact Ha.
Qed.

Lemma to_char_assigned c r : assigned c r -> to_char r = code_bytes c.
Proof.
  intros H. pose proof (assigned_ranges c r H) as [_ [Hr _]].
  rewrite to_char_high by lia. rewrite Z.mod_small by lia. unfold enc16.
  apply assigned_enc in H. rewrite H. reflexivity.
Qed.

Lemma encodes_to_char rs bs : encodes rs bs -> flat_map to_char rs = bs.
Proof.
  induction 1 as [|r rs bs Hr H IH|c r rs bs Ha H IH]; [reflexivity|..].
  - rewrite to_chars_cons, to_char_ascii, IH by exact Hr. reflexivity.
  - rewrite to_chars_cons, (to_char_assigned c r Ha), IH. reflexivity.
Qed.

Lemma repertoire_scalar r : in_repertoire r -> is_scalar r.
Proof. intros [H|[c H]]; [unfold is_scalar; lia|eapply assigned_scalar; exact H]. Qed.
Lemma Forall_repertoire_scalar rs : Forall in_repertoire rs -> Forall is_scalar rs.
Proof. apply Forall_impl, repertoire_scalar. Qed.

Lemma encodes_repertoire rs bs : encodes rs bs -> Forall in_repertoire rs.
Proof. induction 1; constructor; auto; [left|right]; eauto. Qed.
Lemma repertoire_encodes rs : Forall in_repertoire rs -> exists bs, encodes rs bs.
Proof.
  induction 1 as [|r rs [Hr|[c Hc]] H [bs IH]].
  - exists []. constructor.
  - exists (r :: bs). constructor; assumption.
  - exists (code_bytes c ++ bs). constructor; assumption.
Qed.

Section Grow.
Variable grow : Z -> Z -> Z.

Lemma To_encodes rs bs : encodes rs bs -> To grow (utf8 rs) = Ok (inl bs).
Proof.
  intros H. rewrite To_utf8 by (eapply Forall_repertoire_scalar, encodes_repertoire; exact H).
  rewrite (encodes_to_char rs bs H). reflexivity.
Qed.
Lemma From_encodes rs bs : encodes rs bs -> From grow bs = Ok (inl (utf8 rs)).
Proof. intros H. apply From_decodes, encodes_decodes, H. Qed.

Lemma C28_lemma rs : Forall in_repertoire rs ->
  exists bs, encodes rs bs /\ To grow (utf8 rs) = Ok (inl bs) /\ From grow bs = Ok (inl (utf8 rs)).
Proof.
  intros H. destruct (repertoire_encodes rs H) as [bs Hb]. exists bs.
  auto using To_encodes, From_encodes.
Qed.
Lemma C29_lemma rs bs : encodes rs bs ->
  From grow bs = Ok (inl (utf8 rs)) /\ To grow (utf8 rs) = Ok (inl bs).
Proof. auto using To_encodes, From_encodes. Qed.

Lemma C30_lemma s : Forall is_byte s ->
  ((exists rs, decodes s rs) /\ ~ truncated s \/ truncated s /\ ~ exists rs, decodes s rs) /\
  (forall rs, decodes s rs <-> From grow s = Ok (inl (utf8 rs)) /\ Forall is_scalar rs) /\
  (truncated s <-> From grow s = Ok (inr ErrCP949UnexpectedStream)).
Proof.
  intros Hb. pose proof (decodes_or_cut s Hb) as Hc.
  assert (truncated s -> ~ exists rs, decodes s rs) as Hx.
  { intros [a Ha] [rs H]. exact (cut_not_complete a s Ha rs H). }
  split; [|split].
  - destruct Hc as [H|H]; [left|right]; (split; [exact H|]); [intros Ht; exact (Hx Ht H)|apply Hx; exact H].
  - intros rs. split.
    + intros H. split; [apply From_decodes; exact H|eapply decodes_scalar; exact H].
    + intros [E Hs]. destruct (From_ok_inv grow s _ Hb E) as (rs' & H & Eq).
      apply utf8_inj in Eq; [subst; exact H|exact Hs|eapply decodes_scalar; exact H].
  - split.
    + intros [a Ha]. eapply From_cut; exact Ha.
    + intros E. destruct Hc as [(rs & H)|H]; [|exact H].
      rewrite (From_decodes grow s rs H) in E. discriminate.
Qed.

Lemma C31_lemma : exists f : Z -> list Z,
  (forall r, 0 <= r < 0x80 -> f r = [r]) /\
  (forall c r, assigned c r -> f r = code_bytes c) /\
  (forall s rs, Forall is_byte s -> reads_as s rs -> To grow s = Ok (inl (flat_map f rs))).
Proof.
  exists to_char. split; [exact to_char_ascii|]. split; [exact to_char_assigned|].
  intros s rs. apply To_reads.
Qed.

(** Exactly what is written for a character outside the repertoire. *)
Lemma to_char_unassigned r : is_scalar r -> ~ in_repertoire r ->
  (r <= 0xFFE6 -> to_char r = [0x3F]) /\
  (0xFFE6 < r <= 0xFFFF -> to_char r = [0x3F; 0x3F]) /\
  (0xFFFF < r -> forall c, assigned c (r mod 0x10000) -> to_char r = code_bytes c) /\
  (0xFFFF < r -> (forall c, ~ assigned c (r mod 0x10000)) ->
     to_char r = if r mod 0x10000 <=? 0xFFE6 then [0x3F] else [0x3F; 0x3F]).
Proof.
  intros Hs Hn.
  assert (0x80 <= r) as Hr.
  { destruct (Z_lt_dec r 0x80) as [H|H]; [|lia]. destruct Hn. left. unfold is_scalar in Hs. lia. }
  assert (forall c, ~ assigned c r) as Hn' by (intros c Hc; apply Hn; right; eauto).
  rewrite to_char_high by exact Hr. unfold enc16. split; [|split; [|split]].
  - intros H. rewrite Z.mod_small by lia.
    destruct (tget enc_tree r) as [c|] eqn:E; [apply assigned_enc in E; destruct (Hn' c E)|].
    destruct (Z.ltb_spec 0xFFE6 r); [lia|reflexivity].
  - intros H. rewrite Z.mod_small by lia.
    destruct (tget enc_tree r) as [c|] eqn:E; [apply assigned_enc in E; destruct (Hn' c E)|].
    destruct (Z.ltb_spec 0xFFE6 r); [reflexivity|lia].
  - intros H c Hc. apply assigned_enc in Hc. rewrite Hc. reflexivity.
  - intros H Hc. destruct (tget enc_tree (r mod 0x10000)) as [c|] eqn:E;
      [apply assigned_enc in E; destruct (Hc c E)|].
    destruct (Z.ltb_spec 0xFFE6 (r mod 0x10000)), (Z.leb_spec (r mod 0x10000) 0xFFE6);
      try reflexivity; lia.
Qed.

Lemma C32_lemma : exists f : Z -> list Z,
  (forall r, is_scalar r -> ~ in_repertoire r -> r <= 0xFFE6 -> f r = [0x3F]) /\
  (forall r, is_scalar r -> ~ in_repertoire r -> 0xFFE6 < r <= 0xFFFF -> f r = [0x3F; 0x3F]) /\
  (forall r c, is_scalar r -> 0xFFFF < r -> assigned c (r mod 0x10000) -> f r = code_bytes c) /\
  (forall r, is_scalar r -> 0xFFFF < r -> (forall c, ~ assigned c (r mod 0x10000)) ->
     f r = if r mod 0x10000 <=? 0xFFE6 then [0x3F] else [0x3F; 0x3F]) /\
  (forall s rs, Forall is_byte s -> reads_as s rs -> To grow s = Ok (inl (flat_map f rs))).
Proof.
  assert (forall r, 0xFFFF < r -> ~ in_repertoire r) as Hbig.
  { intros r H [Hr|[c Hc]]; [lia|]. apply assigned_ranges in Hc. lia. }
  exists to_char. split; [|split; [|split; [|split]]].
  - intros r Hs Hn. apply (to_char_unassigned r Hs Hn).
  - intros r Hs Hn. apply (to_char_unassigned r Hs Hn).
  - intros r c Hs Hr. apply (to_char_unassigned r Hs (Hbig r Hr)). exact Hr.
  - intros r Hs Hr. apply (to_char_unassigned r Hs (Hbig r Hr)). exact Hr.
  - intros s rs. apply To_reads.
Qed.

Lemma C33_lemma s : Forall (fun b => 0 <= b < 0x80) s ->
  From grow s = Ok (inl s) /\ To grow s = Ok (inl s).
Proof.
  intros H. assert (encodes s s) as He by (induction H; constructor; auto).
  assert (utf8 s = s) as Eu.
  { clear He. induction H as [|b s Hb H IH]; [reflexivity|].
    rewrite utf8_cons, utf8_char_ascii, IH by exact Hb. reflexivity. }
  pose proof (C29_lemma s s He) as H0. rewrite Eu in H0. exact H0.
Qed.

Lemma C34_lemma s out : Forall is_byte s -> From grow s = Ok (inl out) -> valid_utf8 out.
Proof.
  intros Hb E. destruct (From_ok_inv grow s out Hb E) as (rs & H & ->).
  exists rs. split; [eapply decodes_scalar; exact H|reflexivity].
Qed.

Lemma encodes_app a x b y : encodes a x -> encodes b y -> encodes (a ++ b) (x ++ y).
Proof.
  intros H Hb. induction H as [|r rs bs Hr H IH|c r rs bs Ha H IH]; cbn [app]; [exact Hb|..].
  - constructor; assumption.
  - rewrite <- app_assoc. constructor; assumption.
Qed.
Lemma enc16_encodes u : exists rs, encodes rs (enc16 u).
Proof.
  unfold enc16. destruct (tget enc_tree u) as [c|] eqn:E.
  - apply assigned_enc in E. exists [u]. rewrite <- (app_nil_r (code_bytes c)).
    apply enc_code; [exact E|apply enc_nil].
  - destruct (0xFFE6 <? u); [exists [0x3F; 0x3F]|exists [0x3F]];
      repeat (apply enc_ascii; [lia|]); apply enc_nil.
Qed.
Lemma to_char_encodes r : is_scalar r -> exists rs, encodes rs (to_char r).
Proof.
  intros Hr. unfold to_char. destruct (Z.ltb_spec r 0x80); [|apply enc16_encodes].
  exists [r]. apply enc_ascii; [unfold is_scalar in Hr; lia|apply enc_nil].
Qed.
Lemma to_chars_encodes rs : Forall is_scalar rs -> exists rs', encodes rs' (flat_map to_char rs).
Proof.
  induction 1 as [|r rs Hr H [x IH]]; [exists []; constructor|].
  destruct (to_char_encodes r Hr) as [y Hy]. exists (y ++ x).
  rewrite to_chars_cons. apply encodes_app; assumption.
Qed.
Lemma repertoire_not_replacement r : in_repertoire r -> r <> replacement.
Proof.
  unfold replacement. intros [H|[c H]] ->; [lia|]. apply assigned_ranges in H. lia.
Qed.

Lemma C35_lemma s : Forall is_byte s ->
  exists bs rs, To grow s = Ok (inl bs) /\ encodes rs bs /\
    From grow bs = Ok (inl (utf8 rs)) /\ Forall is_scalar rs /\ ~ In replacement rs.
Proof.
  intros Hb. rewrite To_runes by exact Hb.
  destruct (to_chars_encodes (string_to_runes s) (string_to_runes_scalar s Hb)) as [rs H].
  eexists. exists rs. split; [reflexivity|]. split; [exact H|]. split; [apply From_encodes; exact H|].
  pose proof (encodes_repertoire _ _ H) as Hr. split; [apply Forall_repertoire_scalar; exact Hr|].
  rewrite Forall_forall in Hr. intros Hin. exact (repertoire_not_replacement _ (Hr _ Hin) eq_refl).
Qed.

Lemma C36_lemma a b x : Forall is_byte a -> Forall is_byte b -> From grow a = Ok (inl x) ->
  (forall y, From grow b = Ok (inl y) -> From grow (a ++ b) = Ok (inl (x ++ y))) /\
  (forall e, From grow b = Ok (inr e) -> From grow (a ++ b) = Ok (inr e)) /\
  (forall z, From grow (a ++ b) = Ok (inl z) -> exists y, From grow b = Ok (inl y) /\ z = x ++ y).
Proof.
  intros Ha Hb E. destruct (From_ok_inv grow a x Ha E) as (ra & Hra & ->).
  assert (forall y, From grow b = Ok (inl y) -> From grow (a ++ b) = Ok (inl (utf8 ra ++ y))) as H1.
  { intros y Ey. destruct (From_ok_inv grow b y Hb Ey) as (rb & Hrb & ->).
    rewrite (From_decodes grow (a ++ b) (ra ++ rb)) by (apply decodes_app; assumption).
    rewrite utf8_app. reflexivity. }
  assert (forall e, From grow b = Ok (inr e) -> From grow (a ++ b) = Ok (inr e)) as H2.
  { intros e Ee. destruct (decodes_or_cut b Hb) as [(rb & H)|(p & q & Hq & -> & rp & Hp)].
    - rewrite (From_decodes grow b rb H) in Ee. discriminate.
    - assert (cut_after p (p ++ [q])) as Hc by (exists q; eauto).
      rewrite (From_cut grow _ _ Hc) in Ee. injection Ee as <-.
      rewrite app_assoc. apply (From_cut grow _ (a ++ p)). exists q. split; [exact Hq|].
      split; [reflexivity|]. exists (ra ++ rp). apply decodes_app; assumption. }
  split; [exact H1|]. split; [exact H2|].
  intros z Ez. destruct (decodes_or_cut b Hb) as [(rb & H)|(p & Hp)].
  - exists (utf8 rb). pose proof (From_decodes grow b rb H) as Eb. split; [exact Eb|].
    rewrite (H1 _ Eb) in Ez. congruence.
  - rewrite (H2 _ (From_cut grow b p Hp)) in Ez. discriminate.
Qed.

Lemma C37_lemma a b : Forall is_byte a -> Forall is_byte b -> valid_utf8 a \/ boundary b ->
  exists x y, To grow a = Ok (inl x) /\ To grow b = Ok (inl y) /\ To grow (a ++ b) = Ok (inl (x ++ y)).
Proof.
  intros Ha Hb H.
  assert (string_to_runes (a ++ b) = string_to_runes a ++ string_to_runes b) as E.
  { destruct H as [(rs & Hrs & ->)|H].
    - rewrite string_to_runes_utf8_app, string_to_runes_utf8 by assumption. reflexivity.
    - apply string_to_runes_boundary; assumption. }
  rewrite !To_runes by (try assumption; apply Forall_app; auto).
  rewrite E, flat_map_app. eauto.
Qed.

Lemma code_trail c u : assigned c u ->
  0x81 <= c / 256 <= 0xFE /\ (is_letter_byte (c mod 256) = true \/ 0x81 <= c mod 256 <= 0xFE).
Proof.
  intros H. apply assigned_ranges in H as [[H1 H2] _]. unfold is_letter_byte, trail_ok in *. lia.
Qed.

Lemma C40_lemma rs bs : encodes rs bs ->
  To grow (utf8 rs) = Ok (inl bs) /\
  filter ascii_nonletter bs = filter ascii_nonletter rs.
Proof.
  intros H. split; [apply To_encodes; exact H|].
  induction H as [|r rs bs Hr H IH|c r rs bs Ha H IH]; [reflexivity|..].
  - cbn [filter]. rewrite IH. reflexivity.
  - rewrite filter_app. unfold code_bytes.
    pose proof (assigned_ranges c r Ha) as [_ [Hr _]].
    destruct (code_trail c r Ha) as [H1 H2].
    cbn [filter].
    assert (ascii_nonletter (c / 256) = false) as -> by (unfold ascii_nonletter; lia).
    assert (ascii_nonletter (c mod 256) = false) as -> by (unfold ascii_nonletter; lia).
    assert (ascii_nonletter r = false) as -> by (unfold ascii_nonletter; lia).
    exact IH.
Qed.

Lemma C41_From_lemma s out : Forall is_byte s -> From grow s = Ok (inl out) -> 2 * zlen out <= 3 * zlen s.
Proof.
  intros Hb E. destruct (From_ok_inv grow s out Hb E) as (rs & H & ->). clear E Hb.
  induction H as [|b s rs Hb H IH|b0 b1 u s rs H0 H1 Ha H IH|b0 b1 s rs H0 H1 Hn H IH].
  - reflexivity.
  - rewrite utf8_cons, utf8_char_ascii by exact Hb. cbn [app]. rewrite !zlen_cons. lia.
  - rewrite utf8_cons, zlen_app, !zlen_cons.
    pose proof (assigned_scalar _ _ Ha) as Hsc. pose proof (assigned_ranges _ _ Ha) as [_ [Hr _]].
    destruct (utf8_char_cases u Hsc) as [[? ->]|[[? ->]|[[? [? ->]]|[? ->]]]]; rewrite ?zlen_cons, zlen_nil; lia.
  - rewrite utf8_cons, zlen_app, !zlen_cons.
    change (zlen (utf8_char replacement)) with 3. lia.
Qed.

Lemma to_char_len r : zlen (to_char r) <= 2.
Proof.
  unfold to_char, enc16, code_bytes. destruct (r <? 0x80); [cbn; lia|].
  destruct (tget _ _); [cbn; lia|]. destruct (_ <? _); cbn; lia.
Qed.
Lemma to_chars_len rs : zlen (flat_map to_char rs) <= 2 * zlen rs.
Proof.
  induction rs as [|r rs IH]; [reflexivity|]. rewrite to_chars_cons, zlen_app, zlen_cons.
  pose proof (to_char_len r). lia.
Qed.
Lemma C41_To_lemma s : Forall is_byte s ->
  exists out, To grow s = Ok (inl out) /\ zlen out <= 2 * zlen s /\ (valid_utf8 s -> zlen out <= zlen s).
Proof.
  intros Hb. rewrite To_runes by exact Hb. eexists. split; [reflexivity|]. split.
  - pose proof (to_chars_len (string_to_runes s)) as H1.
    pose proof (string_to_runes_length s Hb) as H2. unfold zlen in *. lia.
  - intros (rs & Hrs & ->). rewrite string_to_runes_utf8 by exact Hrs.
    clear Hb. induction Hrs as [|r rs Hr H IH]; [reflexivity|].
    rewrite to_chars_cons, utf8_cons, !zlen_app.
    pose proof (to_char_len r).
    destruct (utf8_char_cases r Hr) as [[Hc ->]|[[Hc ->]|[[Hc [_ ->]]|[Hc ->]]]].
    + rewrite to_char_ascii by exact Hc. rewrite !zlen_cons, zlen_nil. lia.
    + rewrite !zlen_cons, zlen_nil. lia.
    + rewrite !zlen_cons, zlen_nil. lia.
    + rewrite !zlen_cons, zlen_nil. lia.
Qed.

Lemma C42_lemma data : Forall is_byte data ->
  (exists r, From grow data = Ok r) /\ (exists out, To grow data = Ok (inl out)).
Proof.
  intros Hb. split.
  - destruct (decodes_or_cut data Hb) as [(rs & H)|(a & H)].
    + rewrite (From_decodes grow data rs H). eauto.
    + rewrite (From_cut grow data a H). eauto.
  - rewrite To_runes by exact Hb. eauto.
Qed.

Lemma C43_lemma s : slice_ok s ->
  (forall n, exists s', ensureCap s n = Ok s' /\ slice_ok s' /\ contents s' = contents s /\
     n <= scap s' /\ (n <= scap s -> s' = s) /\ (0 < scap s < n -> scap s' < 2 * n)) /\
  (forall r, exists s', appendRune s r = Ok s' /\ slice_ok s' /\
     (is_scalar r -> contents s' = contents s ++ utf8_char r) /\
     (is_int32 r -> ~ is_scalar r -> contents s' = contents s ++ utf8_char replacement)).
Proof.
  intros H. split.
  - intros n. destruct (ensureCap_spec s n H) as (s' & E & H1 & H2 & H3 & H4 & H5 & H6 & H7).
    exists s'. auto 10.
  - intros r. destruct (appendRune_spec s r H) as (s' & E & H1 & H2). exists s'.
    split; [exact E|]. split; [exact H1|]. split.
    + intros Hr. rewrite H2, EncodeRune_scalar by exact Hr. reflexivity.
    + intros Hi Hr. rewrite H2, EncodeRune_nonscalar by assumption. reflexivity.
Qed.
End Grow.

(** ** Reusing a translator *)
Lemma C44_from_lemma grow scratch inputs : slice_ok scratch -> Forall (Forall is_byte) inputs ->
  translate_all (from_Translate grow fromTable) scratch inputs =
  flat_map (fun d => translate_all (from_Translate grow fromTable) nil_slice [d]) inputs.
Proof.
  intros Hok H. revert scratch Hok. induction H as [|d inputs Hd H IH]; intros scratch Hok; [reflexivity|].
  cbn [translate_all flat_map].
  destruct (decodes_or_cut d Hd) as [(rs & Hrs)|(a & Ha)].
  - destruct (from_Translate_complete grow scratch d rs Hok Hrs) as (s1 & Hs1 & Hc1 & ->).
    destruct (from_Translate_complete grow nil_slice d rs nil_slice_ok Hrs) as (s2 & Hs2 & Hc2 & ->).
    cbn [outcome scratch_of option_map app]. rewrite Hc1, Hc2. f_equal. apply IH, Hs1.
  - destruct (from_Translate_cut grow scratch d a Hok Ha) as (s1 & Hs1 & ->).
    destruct (from_Translate_cut grow nil_slice d a nil_slice_ok Ha) as (s2 & Hs2 & ->).
    cbn [outcome scratch_of option_map app]. f_equal. apply IH, Hs1.
Qed.
Lemma C44_to_lemma grow scratch inputs : slice_ok scratch -> Forall (Forall is_byte) inputs ->
  translate_all (to_Translate grow toTable) scratch inputs =
  flat_map (fun d => translate_all (to_Translate grow toTable) nil_slice [d]) inputs.
Proof.
  intros Hok H. revert scratch Hok. induction H as [|d inputs Hd H IH]; intros scratch Hok; [reflexivity|].
  cbn [translate_all flat_map].
  destruct (to_Translate_spec grow scratch d Hok Hd) as (s1 & Hs1 & Hc1 & ->).
  destruct (to_Translate_spec grow nil_slice d nil_slice_ok Hd) as (s2 & Hs2 & Hc2 & ->).
  cbn [outcome scratch_of option_map app]. rewrite Hc1, Hc2. f_equal. apply IH, Hs1.
Qed.

(** ** Together with the other packages *)
Lemma convert_repertoire r : in_repertoire r -> in_repertoire (convert_rune r).
Proof.
  intros H. destruct (IsHanja r) eqn:E.
  - right. apply syllable_assigned, convert_rune_hanja, E.
  - rewrite convert_rune_other by exact E. exact H.
Qed.

Lemma C59_lemma grow rs : Forall in_repertoire rs ->
  exists rs' bs, Convert (utf8 rs) = utf8 rs' /\ Forall in_repertoire rs' /\ encodes rs' bs /\
    To grow (Convert (utf8 rs)) = Ok (inl bs) /\ From grow bs = Ok (inl (Convert (utf8 rs))).
Proof.
  intros H. rewrite Convert_utf8 by (apply Forall_repertoire_scalar; exact H).
  assert (Forall in_repertoire (map convert_rune rs)) as H'.
  { apply Forall_map. eapply Forall_impl; [|exact H]. exact convert_repertoire. }
  destruct (C28_lemma grow _ H') as (bs & H1 & H2 & H3). eauto 10.
Qed.

Lemma C60_lemma grow l m t : Join l m t <> 0xFFFD ->
  exists c, assigned c (Join l m t) /\
    To grow (utf8_char (Join l m t)) = Ok (inl (code_bytes c)) /\
    From grow (code_bytes c) = Ok (inl (utf8_char (Join l m t))).
Proof.
  intros H.
  assert (is_syllable (Join l m t)) as Hs.
  { apply Join_syllable; intros E; apply H, Join_bad; auto. }
  destruct (syllable_assigned _ Hs) as [c Hc]. exists c. split; [exact Hc|].
  assert (encodes [Join l m t] (code_bytes c)) as He.
  { rewrite <- (app_nil_r (code_bytes c)). apply enc_code; [exact Hc|apply enc_nil]. }
  pose proof (C29_lemma grow _ _ He) as [H1 H2].
  rewrite utf8_cons in H1, H2. cbn [utf8 flat_map] in H1, H2. rewrite app_nil_r in H1, H2. auto.
Qed.

Lemma C27_lemma grow s out rs : Forall is_byte s -> From grow s = Ok (inl out) -> reads_as out rs ->
  Forall (fun r => (0x3400 <= r <= 0x9FFF -> IsHanja r = true) /\
                   (0xF900 <= r <= 0xFAFF -> IsHanja r = false)) rs.
Proof.
  intros Hb E Hr. destruct (From_ok_inv grow s out Hb E) as (rs' & H & ->).
  rewrite (reads_as_fun _ _ _ Hr (reads_as_utf8 _ (decodes_scalar _ _ H))). clear - H.
  induction H as [|b s rs Hb H IH|b0 b1 u s rs H0 H1 Ha H IH|b0 b1 s rs H0 H1 Hn H IH];
    constructor; auto.
  - lia.
  - pose proof (assigned_hanja _ _ Ha) as [Hx Hy]. split; intros Hu.
    + apply IsHanja_iff, Hx, Hu.
    + apply compat_not_hanja. specialize (Hy Hu). lia.
  - unfold replacement. lia.
Qed.

Definition compat_hanja := filter (fun it => compat_b (ucs2 it)) fromTable.
Lemma C27_count_lemma : exists l, NoDup l /\ length l = Z.to_nat 268 /\
  forall u, In u l <-> 0xF900 <= u <= 0xFAFF /\ exists c, assigned c u.
Proof.
  exists (map ucs2 compat_hanja). split; [|split].
  - apply (nodup_by_check). vm_compute. reflexivity.
  - vm_compute. reflexivity.
  - intros u. rewrite in_map_iff. unfold compat_hanja. split.
    + intros ([c v] & <- & H). apply filter_In in H as [H1 H2]. cbn [ucs2] in *.
      split; [unfold compat_b in H2; lia|exists c; exact H1].
    + intros [Hu [c Hc]]. exists (It c u). split; [reflexivity|]. apply filter_In.
      split; [exact Hc|]. cbn [ucs2]. unfold compat_b. lia.
Qed.

(** ** Witnesses *)
Lemma assigned_by c u : tget dec_tree c = Some u -> assigned c u.
Proof. apply assigned_dec. Qed.
Lemma not_repertoire r : 0x80 <= r -> tget enc_tree r = None -> ~ in_repertoire r.
Proof. intros Hr E [H|[c H]]; [lia|]. apply assigned_enc in H. congruence. Qed.
Definition wgrow (old need : Z) : Z := Z.max need (2 * old).
Lemma C27_refuted_lemma : exists c u, From wgrow (code_bytes c) = Ok (inl (utf8_char u)) /\
  0xF900 <= u <= 0xFAFF /\ IsHanja u = false.
Proof. exists 0xCBD0, 0xF900. vm_compute. repeat split; discriminate. Qed.
Lemma C32_refuted_double_lemma : exists r, is_scalar r /\ ~ in_repertoire r /\
  To wgrow (utf8_char r) = Ok (inl [0x3F; 0x3F]).
Proof.
  exists 0xFFFD. split; [unfold is_scalar; lia|].
  split; [apply not_repertoire; [lia|vm_compute; reflexivity]|vm_compute; reflexivity].
Qed.
Lemma C32_refuted_wrong_lemma : exists r c, is_scalar r /\ ~ in_repertoire r /\
  assigned c 0xAC00 /\ To wgrow (utf8_char r) = Ok (inl (code_bytes c)).
Proof.
  exists 0x1AC00, 0xB0A1. split; [unfold is_scalar; lia|].
  split; [apply not_repertoire; [lia|vm_compute; reflexivity]|].
  split; [apply assigned_by; vm_compute; reflexivity|vm_compute; reflexivity].
Qed.
Lemma C29_case_lemma : encodes [0x41; 0xAC00; 0xD7A3] [0x41; 0xB0; 0xA1; 0xC6; 0x52].
Proof.
  apply enc_ascii; [lia|].
  apply (enc_code 0xB0A1 0xAC00 [0xD7A3] [0xC6; 0x52]); [apply assigned_by; vm_compute; reflexivity|].
  apply (enc_code 0xC652 0xD7A3 [] []); [apply assigned_by; vm_compute; reflexivity|]. apply enc_nil.
Qed.
Lemma C28_case_lemma : Forall in_repertoire [0x41; 0xAC00; 0xD7A3] /\
  To wgrow (utf8 [0x41; 0xAC00; 0xD7A3]) = Ok (inl [0x41; 0xB0; 0xA1; 0xC6; 0x52]).
Proof. split; [eapply encodes_repertoire, C29_case_lemma|vm_compute; reflexivity]. Qed.
Lemma C37_case_lemma : valid_utf8 (utf8 [0xAC00]) /\ boundary [0x41].
Proof.
  split; [exists [0xAC00]; split; [constructor; [unfold is_scalar; lia|constructor]|reflexivity]|].
  unfold boundary. lia.
Qed.
Lemma C59_case_lemma : in_repertoire 0x5927 /\ To wgrow (Convert (utf8 [0x5927])) = Ok (inl [0xB4; 0xEB]).
Proof.
  split; [|vm_compute; reflexivity].
  assert (tget enc_tree 0x5927 = Some 0xD3DE) as E by (vm_compute; reflexivity).
  right. exists 0xD3DE. apply assigned_enc. exact E.
Qed.
