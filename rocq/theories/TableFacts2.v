(** The code assignment against independent descriptions: the reference mapping, the layout
    of the extension and of the KS X 1001 rows, the order of the hanja readings. *)
From Coq Require Import ZArith List Bool Lia Sorting.Sorted FMapPositive.
From Coq Require Import ZifyBool.
From Verif Require Import Base Spec Facts PMapFacts Utf8 Utf8Facts TableFrom TableTo TableRef TableHanja
  SpecCp949 SpecTable Cp949Model HanjaModel HanjaFacts TableFacts Cp949Facts Cp949Facts2.
Import ListNotations.
Local Open Scope Z_scope.

(** ** The reference mapping *)
Fixpoint number (start : Z) (row : list Z) : list (Z * Z) :=
  match row with [] => [] | u :: row => (start, u) :: number (start + 1) row end.
Lemma number_In row : forall start c u, In (c, u) (number start row) <->
  exists i, nth_error row i = Some u /\ c = start + Z.of_nat i.
Proof.
  induction row as [|v row IH]; intros start c u; cbn [number In].
  - split; [tauto|]. intros ([|i] & E & _); discriminate.
  - rewrite IH. split.
    + intros [E|(i & Ei & ->)].
      * injection E as -> ->. exists 0%nat. split; [reflexivity|lia].
      * exists (S i). split; [exact Ei|lia].
    + intros ([|i] & Ei & ->).
      * left. cbn in Ei. injection Ei as ->. f_equal. lia.
      * right. exists i. split; [exact Ei|lia].
Qed.
Definition ref_pairs : list (Z * Z) := flat_map (fun sr => number (fst sr) (snd sr)) ref_rows.
Lemma ref_pairs_In c u : In (c, u) ref_pairs <-> reference c u.
Proof.
  unfold ref_pairs, reference. rewrite in_flat_map. split.
  - intros ([start row] & Hin & H). cbn [fst snd] in H. apply number_In in H as (i & Ei & Ec).
    exists start, row, i. auto.
  - intros (start & row & i & Hin & Ei & Ec). exists (start, row). split; [exact Hin|].
    cbn [fst snd]. apply number_In. exists i. auto.
Qed.
Lemma ref_pairs_eq : ref_pairs = from_map.
Proof. vm_compute. reflexivity. Qed.
Lemma reference_assigned c u : reference c u <-> assigned c u.
Proof. rewrite <- ref_pairs_In, ref_pairs_eq, from_map_In. reflexivity. Qed.

Local Opaque fromTable toTable dec_tree enc_tree ref_rows table hanja_tree.

Lemma encodes_one c u : assigned c u -> encodes [u] (code_bytes c).
Proof. intros H. pose proof (enc_code c u [] [] H enc_nil) as E. rewrite app_nil_r in E. exact E. Qed.
Lemma utf8_one r : utf8 [r] = utf8_char r.
Proof. rewrite utf8_cons. apply app_nil_r. Qed.

Lemma C68_lemma grow :
  (forall c u, reference c u ->
     From grow (code_bytes c) = Ok (inl (utf8_char u)) /\
     To grow (utf8_char u) = Ok (inl (code_bytes c))) /\
  (forall b0 b1, 0x80 <= b0 < 256 -> is_byte b1 -> (forall u, ~ reference (b0 * 256 + b1) u) ->
     From grow [b0; b1] = Ok (inl (utf8_char replacement))) /\
  (forall r, is_scalar r -> 0x80 <= r <= 0xFFFF -> (forall c, ~ reference c r) ->
     exists bs, To grow (utf8_char r) = Ok (inl bs) /\ bs <> [] /\ Forall (fun b => b = 0x3F) bs).
Proof.
  split; [|split].
  - intros c u H. apply reference_assigned in H. apply encodes_one in H. rewrite <- utf8_one.
    split; [apply From_encodes|apply To_encodes]; exact H.
  - intros b0 b1 H0 H1 Hn. rewrite <- utf8_one. apply From_decodes.
    apply dec_unassigned; [exact H0|exact H1| |apply dec_nil].
    intros u Hu. apply (Hn u), reference_assigned, Hu.
  - intros r Hr Hrange Hn. rewrite <- utf8_one, To_utf8 by (constructor; [exact Hr|constructor]).
    eexists. split; [reflexivity|]. cbn [flat_map]. rewrite app_nil_r.
    pose proof (to_char_unassigned r Hr) as Hu.
    assert (~ in_repertoire r) as Hrep.
    { intros [H|[c Hc]]; [lia|]. apply (Hn c), reference_assigned, Hc. }
    specialize (Hu Hrep). destruct Hu as (Ha & Hb & _).
    destruct (Z_le_gt_dec r 0xFFE6) as [Hle|Hgt].
    + rewrite (Ha Hle). split; [discriminate|repeat constructor].
    + rewrite Hb by lia. split; [discriminate|repeat constructor].
Qed.

(** ** The extension *)
Definition ext_items := filter (fun it => negb (ks_b (cp949 it))) fromTable.
Definition missing : list Z := map ucs2 ext_items.
Lemma ext_items_In c u : In (It c u) ext_items <-> assigned c u /\ ~ ks_code c.
Proof.
  unfold ext_items, assigned. rewrite filter_In. cbn [cp949].
  rewrite negb_true_iff, <- (ks_b_iff c). destruct (ks_b c); intuition congruence.
Qed.
Lemma ext_layout : map cp949 ext_items = firstn (length ext_items) extension_codes.
Proof. vm_compute. reflexivity. Qed.
Lemma missing_sorted : sortedb missing = true.
Proof. vm_compute. reflexivity. Qed.
Lemma missing_syllables : forallb syllable_b missing = true.
Proof. vm_compute. reflexivity. Qed.
Lemma missing_length : length missing = Z.to_nat 8822.
Proof. vm_compute. reflexivity. Qed.
Lemma extension_last : nth_error extension_codes (Z.to_nat 8821) = Some 0xC652.
Proof. vm_compute. reflexivity. Qed.

Local Opaque ext_items extension_codes.
Lemma nth_error_firstn {A} (l : list A) : forall n i, (i < n)%nat -> nth_error (firstn n l) i = nth_error l i.
Proof.
  induction l as [|a l IH]; intros n i H; [rewrite firstn_nil; reflexivity|].
  destruct n; [lia|]. destruct i; [reflexivity|]. cbn. apply IH. lia.
Qed.
Lemma ext_items_nth i : (i < length ext_items)%nat ->
  nth_error extension_codes i = option_map cp949 (nth_error ext_items i).
Proof.
  intros H. rewrite <- nth_error_map, ext_layout. symmetry. apply nth_error_firstn, H.
Qed.
Lemma C66_lemma : exists rest,
  StronglySorted Z.lt rest /\ length rest = Z.to_nat 8822 /\
  (forall u, In u rest <-> is_syllable u /\ forall c, assigned c u -> ~ ks_code c) /\
  (forall c u, assigned c u /\ ~ ks_code c <->
     exists i, nth_error extension_codes i = Some c /\ nth_error rest i = Some u).
Proof.
  exists missing. split; [apply sortedb_StronglySorted, missing_sorted|]. split; [exact missing_length|].
  assert (forall u, In u missing <-> exists c, assigned c u /\ ~ ks_code c) as Hm.
  { intros u. unfold missing. rewrite in_map_iff. split.
    - intros ([c v] & E & H). cbn in E. subst v. exists c. apply ext_items_In, H.
    - intros (c & H). exists (It c u). split; [reflexivity|]. apply ext_items_In, H. }
  split.
  - intros u. split.
    + intros H. pose proof missing_syllables as F. rewrite forallb_forall in F.
      split; [apply syllable_b_iff, F, H|]. apply Hm in H as (c & Hc & Hk).
      intros c' Hc'. rewrite (assigned_inj c' c u Hc' Hc). exact Hk.
    + intros [Hs Hk]. destruct (syllable_assigned u Hs) as [c Hc]. apply Hm. exists c.
      split; [exact Hc|apply Hk, Hc].
  - intros c u. rewrite <- ext_items_In. unfold missing. split.
    + intros H. apply In_nth_error in H as [i Ei]. exists i.
      assert (i < length ext_items)%nat as Hi by (apply nth_error_Some; congruence).
      rewrite ext_items_nth by exact Hi. rewrite nth_error_map, Ei. split; reflexivity.
    + intros (i & Ec & Eu). rewrite nth_error_map in Eu.
      destruct (nth_error ext_items i) as [[c' u']|] eqn:E; [|discriminate].
      assert (i < length ext_items)%nat as Hi by (apply nth_error_Some; congruence).
      rewrite ext_items_nth, E in Ec by exact Hi. cbn in Ec, Eu.
      injection Ec as ->. injection Eu as ->. apply nth_error_In with (n := i), E.
Qed.

(** ** Rows of KS X 1001 *)
Lemma row_check lead u0 n : 
  forallb (fun i => ois (tget dec_tree (ks_at lead i)) (u0 + i)) (zseq 0 (Z.to_nat n)) = true ->
  forall i, 0 <= i < n -> assigned (ks_at lead i) (u0 + i).
Proof.
  intros H i Hi. rewrite forallb_forall in H. specialize (H i). rewrite in_zseq in H.
  apply assigned_dec, ois_true, H. lia.
Qed.
Definition class_b (c u : Z) : bool :=
  Bool.eqb (ks_b c && (0xB0 <=? c / 256) && (c / 256 <=? 0xC8)) (syllable_b u && ks_b c) &&
  Bool.eqb (ks_b c && (0xCA <=? c / 256) && (c / 256 <=? 0xFD))
           ((0x4E00 <=? u) && (u <=? 0x9FFF) || (0xF900 <=? u) && (u <=? 0xFAFF)).
Lemma class_check : forallb (fun it => class_b (cp949 it) (ucs2 it)) fromTable = true.
Proof. vm_compute. reflexivity. Qed.
Lemma full_rows_check : forallb (fun lead => forallb (fun i =>
    match tget dec_tree (ks_at lead i) with Some _ => true | None => false end) (zseq 0 (Z.to_nat 94)))
  (zseq 0xB0 (Z.to_nat 25) ++ zseq 0xCA (Z.to_nat 52)) = true.
Proof. vm_compute. reflexivity. Qed.

Lemma C69_lemma :
  (forall i, 0 <= i < 94 -> assigned (ks_at 0xA4 i) (0x3131 + i)) /\
  (forall i, 0 <= i < 94 -> i <> 59 -> i <> 93 -> assigned (ks_at 0xA3 i) (0xFF01 + i)) /\
  assigned (ks_at 0xA3 59) 0xFFE6 /\ assigned (ks_at 0xA3 93) 0xFFE3 /\
  (forall i, 0 <= i < 83 -> assigned (ks_at 0xAA i) (0x3041 + i)) /\
  (forall i, 0 <= i < 86 -> assigned (ks_at 0xAB i) (0x30A1 + i)) /\
  (forall lead i, 0xB0 <= lead <= 0xC8 \/ 0xCA <= lead <= 0xFD -> 0 <= i < 94 ->
     exists u, assigned (ks_at lead i) u) /\
  (forall c u, assigned c u -> ks_code c ->
     (0xB0 <= c / 256 <= 0xC8 <-> is_syllable u) /\
     (0xCA <= c / 256 <= 0xFD <-> 0x4E00 <= u <= 0x9FFF \/ 0xF900 <= u <= 0xFAFF)).
Proof.
  split; [apply (row_check 0xA4 0x3131 94); vm_compute; reflexivity|].
  split.
  { assert (forallb (fun i => (i =? 59) || (i =? 93) || ois (tget dec_tree (ks_at 0xA3 i)) (0xFF01 + i))
              (zseq 0 (Z.to_nat 94)) = true) as H by (vm_compute; reflexivity).
    intros i Hi H1 H2. rewrite forallb_forall in H. specialize (H i). rewrite in_zseq in H.
    rewrite !orb_true_iff, ois_true in H. apply assigned_dec.
    destruct H as [[H|H]|H]; [lia|lia|lia|exact H]. }
  split; [apply assigned_dec; vm_compute; reflexivity|].
  split; [apply assigned_dec; vm_compute; reflexivity|].
  split; [apply (row_check 0xAA 0x3041 83); vm_compute; reflexivity|].
  split; [apply (row_check 0xAB 0x30A1 86); vm_compute; reflexivity|].
  split.
  - intros lead i Hl Hi. pose proof full_rows_check as H. rewrite forallb_forall in H.
    specialize (H lead). rewrite in_app_iff, !in_zseq in H.
    assert (forallb (fun i => match tget dec_tree (ks_at lead i) with Some _ => true | None => false end)
             (zseq 0 (Z.to_nat 94)) = true) as H' by (apply H; lia).
    rewrite forallb_forall in H'. specialize (H' i). rewrite in_zseq in H'.
    destruct (tget dec_tree (ks_at lead i)) as [u|] eqn:E.
    + exists u. apply assigned_dec, E.
    + discriminate H'. lia.
  - intros c u Ha Hk. pose proof (assigned_forall class_b class_check c u Ha) as H.
    apply ks_b_iff in Hk. unfold class_b in H. rewrite Hk in H. cbn [andb] in H.
    rewrite andb_true_r in H. apply andb_true_iff in H as [H1 H2].
    apply eqb_prop in H1, H2. unfold syllable_b in H1. unfold is_syllable. lia.
Qed.

(** ** Order of the readings *)
Definition reading (u : Z) : Z := match tget hanja_tree u with Some h => h | None => u end.
Lemma convert_rune_reading u : convert_rune u = reading u.
Proof.
  unfold reading. destruct (tget hanja_tree u) as [h|] eqn:E; rewrite <- hanja_get in E.
  - apply convert_rune_table, map_get_In, E.
  - apply convert_rune_other, IsHanja_false_get, E.
Qed.
Lemma Convert_one u h : is_scalar u -> is_scalar h ->
  Convert (utf8_char u) = utf8_char h -> h = reading u.
Proof.
  intros Hu Hh E. rewrite <- !utf8_one in E. rewrite Convert_utf8 in E by (constructor; [exact Hu|constructor]).
  apply utf8_inj in E.
  - cbn [map] in E. injection E as E. rewrite <- E. apply convert_rune_reading.
  - constructor; [|constructor]. apply convert_rune_scalar, Hu.
  - constructor; [exact Hh|constructor].
Qed.
Lemma Convert_reading u : is_scalar u -> Convert (utf8_char u) = utf8_char (reading u).
Proof.
  intros Hu. rewrite <- !utf8_one. rewrite Convert_utf8 by (constructor; [exact Hu|constructor]).
  cbn [map]. rewrite convert_rune_reading. reflexivity.
Qed.

Fixpoint le_sortedb (l : list Z) : bool :=
  match l with
  | [] => true
  | x :: l' => match l' with [] => true | y :: _ => (x <=? y) && le_sortedb l' end
  end.
Lemma le_sortedb_head x l : le_sortedb (x :: l) = true -> Forall (fun y => x <= y) l.
Proof.
  revert x. induction l as [|y l IH]; intros x H; [constructor|].
  cbn [le_sortedb] in H. apply andb_true_iff in H as [H1 H2].
  specialize (IH y H2). constructor; [lia|].
  eapply Forall_impl; [|exact IH]. cbn. intros; lia.
Qed.
Lemma le_sortedb_tail x l : le_sortedb (x :: l) = true -> le_sortedb l = true.
Proof. destruct l; [reflexivity|]. cbn [le_sortedb]. intros H. apply andb_true_iff in H. tauto. Qed.
Lemma key_order {A} (k v : A -> Z) (l : list A) :
  sortedb (map k l) = true -> le_sortedb (map v l) = true ->
  forall x y, In x l -> In y l -> k x < k y -> v x <= v y.
Proof.
  intros Hk Hv. induction l as [|a l IH]; intros x y Hx Hy Hlt; [destruct Hx|].
  cbn [map] in Hk, Hv.
  pose proof (sortedb_head _ _ Hk) as Fk. pose proof (le_sortedb_head _ _ Hv) as Fv.
  apply sortedb_tail in Hk. apply le_sortedb_tail in Hv. rewrite Forall_forall in Fk, Fv.
  destruct Hx as [<- |Hx], Hy as [<- |Hy].
  - lia.
  - exact (Fv _ (in_map v _ _ Hy)).
  - specialize (Fk _ (in_map k _ _ Hx)). lia.
  - apply IH; assumption.
Qed.

Definition has_reading (u : Z) : bool := match tget hanja_tree u with Some _ => true | None => false end.
Definition in_order (u : Z) : bool := has_reading u && negb (existsb (Z.eqb u) filed_elsewhere).
Definition read_items := filter (fun it => in_order (ucs2 it)) fromTable.
Lemma read_items_order :
  sortedb (map cp949 read_items) = true /\ le_sortedb (map (fun it => reading (ucs2 it)) read_items) = true.
Proof. split; vm_compute; reflexivity. Qed.
Lemma has_reading_hanja u : has_reading u = true <-> is_hanja u.
Proof.
  rewrite <- IsHanja_iff, IsHanja_get. unfold has_reading. rewrite hanja_get.
  destruct (tget hanja_tree u) as [h|]; split; intros H; try reflexivity; try discriminate; eauto.
  destruct H as [v Hv]. discriminate.
Qed.
Lemma existsb_In u l : existsb (Z.eqb u) l = true <-> In u l.
Proof.
  rewrite existsb_exists. split.
  - intros (x & Hx & E). apply Z.eqb_eq in E. subst. exact Hx.
  - intros H. exists u. split; [exact H|apply Z.eqb_refl].
Qed.
Lemma in_order_iff u : in_order u = true <-> is_hanja u /\ ~ In u filed_elsewhere.
Proof.
  unfold in_order. rewrite andb_true_iff, negb_true_iff, has_reading_hanja, <- existsb_In.
  destruct (existsb (Z.eqb u) filed_elsewhere); intuition congruence.
Qed.
Lemma read_items_In c u : In (It c u) read_items <-> assigned c u /\ is_hanja u /\ ~ In u filed_elsewhere.
Proof. unfold read_items, assigned. rewrite filter_In. cbn [ucs2]. rewrite in_order_iff. reflexivity. Qed.

Local Opaque read_items.
Definition conflict (c u c' u' : Z) : Prop :=
  exists h h', is_scalar h /\ is_scalar h' /\
    Convert (utf8_char u) = utf8_char h /\ Convert (utf8_char u') = utf8_char h' /\
    (c < c' /\ h' < h \/ c' < c /\ h < h').
Lemma reading_scalar u : is_scalar u -> is_scalar (reading u).
Proof. intros H. rewrite <- convert_rune_reading. apply convert_rune_scalar, H. Qed.
Lemma conflict_intro c u c' u' : assigned c u -> assigned c' u' ->
  c < c' /\ reading u' < reading u \/ c' < c /\ reading u < reading u' -> conflict c u c' u'.
Proof.
  intros H H' Hc. apply assigned_scalar in H, H'. exists (reading u), (reading u').
  split; [apply reading_scalar, H|]. split; [apply reading_scalar, H'|].
  split; [apply Convert_reading, H|]. split; [apply Convert_reading, H'|]. exact Hc.
Qed.

Lemma C67_lemma c u h c' u' h' :
  assigned c u -> assigned c' u' -> is_hanja u -> is_hanja u' ->
  ~ In u filed_elsewhere -> ~ In u' filed_elsewhere -> is_scalar h -> is_scalar h' ->
  Convert (utf8_char u) = utf8_char h -> Convert (utf8_char u') = utf8_char h' ->
  c < c' -> h <= h'.
Proof.
  intros Ha Ha' Hu Hu' Hn Hn' Hh Hh' E E' Hlt.
  apply Convert_one in E; [|eapply assigned_scalar, Ha|exact Hh].
  apply Convert_one in E'; [|eapply assigned_scalar, Ha'|exact Hh']. subst h h'.
  destruct read_items_order as [S1 S2].
  apply (key_order cp949 (fun it => reading (ucs2 it)) read_items S1 S2 (It c u) (It c' u')).
  - exact (proj2 (read_items_In c u) (conj Ha (conj Hu Hn))).
  - exact (proj2 (read_items_In c' u') (conj Ha' (conj Hu' Hn'))).
  - exact Hlt.
Qed.
Definition conflict_b (x : Z) : bool :=
  match tget enc_tree x with
  | None => false
  | Some c => existsb (fun it => (c <? cp949 it) && (reading (ucs2 it) <? reading x) ||
                                 (cp949 it <? c) && (reading x <? reading (ucs2 it))) read_items
  end.
Lemma conflicts_check : forallb conflict_b filed_elsewhere = true.
Proof. vm_compute. reflexivity. Qed.
Lemma C67_needed_lemma x : In x filed_elsewhere -> is_hanja x /\
  exists c c' u', assigned c x /\ assigned c' u' /\ is_hanja u' /\ ~ In u' filed_elsewhere /\
    conflict c x c' u'.
Proof.
  intros Hx. split.
  - assert (forallb has_reading filed_elsewhere = true) as H by (vm_compute; reflexivity).
    rewrite forallb_forall in H. apply has_reading_hanja, H, Hx.
  - pose proof conflicts_check as H. rewrite forallb_forall in H. specialize (H x Hx). unfold conflict_b in H.
    destruct (tget enc_tree x) as [c|] eqn:Ec; [|discriminate]. apply existsb_exists in H as ([c' u'] & Hin & H).
    cbn [cp949 ucs2] in H. destruct (proj1 (read_items_In c' u') Hin) as (Ha & Hh & Hn).
    exists c, c', u'. apply assigned_enc in Ec. repeat (split; [assumption|]).
    apply conflict_intro; [exact Ec|exact Ha|]. lia.
Qed.
Lemma C67_refuted_lemma : exists c u c' u', assigned c u /\ assigned c' u' /\ is_hanja u /\ is_hanja u' /\
  conflict c u c' u'.
Proof.
  destruct (C67_needed_lemma 0x91D1) as (Hx & c & c' & u' & H1 & H2 & H3 & _ & H4).
  - cbn. tauto.
  - exists c, 0x91D1, c', u'. auto.
Qed.
Lemma C68_case_lemma : reference 0xB0A1 0xAC00.
Proof. apply reference_assigned, assigned_dec. vm_compute. reflexivity. Qed.
