(** Facts about the CP949 tables, by kernel evaluation over all entries. *)
From Coq Require Import ZArith List Bool Lia FMapPositive.
From Coq Require Import ZifyBool.
From Verif Require Import Base Spec Facts PMapFacts SearchFacts SortSearch TableFrom TableTo SpecCp949
  Utf8 Cp949Model.
Import ListNotations.
Local Open Scope Z_scope.

Lemma from_sorted : sortedb (map cp949 fromTable) = true.
Proof. vm_compute. reflexivity. Qed.
Lemma to_sorted : sortedb (map ucs2 toTable) = true.
Proof. vm_compute. reflexivity. Qed.

Definition from_map : list (Z * Z) := map (fun it => (cp949 it, ucs2 it)) fromTable.
Definition to_map : list (Z * Z) := map (fun it => (ucs2 it, cp949 it)) toTable.
(** code -> character and character -> code *)
Definition dec_tree : PositiveMap.t Z := Eval vm_compute in tree from_map.
Definition enc_tree : PositiveMap.t Z := Eval vm_compute in tree to_map.
Lemma dec_tree_eq : tree from_map = dec_tree. Proof. vm_compute. reflexivity. Qed.
Lemma enc_tree_eq : tree to_map = enc_tree. Proof. vm_compute. reflexivity. Qed.

Lemma from_keys : map fst from_map = map cp949 fromTable.
Proof. unfold from_map. rewrite map_map. reflexivity. Qed.
Lemma to_keys : map fst to_map = map ucs2 toTable.
Proof. unfold to_map. rewrite map_map. reflexivity. Qed.

Lemma from_map_In c u : In (c, u) from_map <-> In (It c u) fromTable.
Proof.
  unfold from_map. rewrite in_map_iff. split.
  - intros ([c' u'] & E & H). cbn in E. injection E as -> ->. exact H.
  - intros H. exists (It c u). split; [reflexivity|exact H].
Qed.
Lemma to_map_In c u : In (u, c) to_map <-> In (It c u) toTable.
Proof.
  unfold to_map. rewrite in_map_iff. split.
  - intros ([c' u'] & E & H). cbn in E. injection E as -> ->. exact H.
  - intros H. exists (It c u). split; [reflexivity|exact H].
Qed.

Lemma dec_get c u : tget dec_tree c = Some u <-> In (It c u) fromTable.
Proof.
  rewrite <- dec_tree_eq, tree_get by (vm_compute; reflexivity). rewrite <- from_map_In. split.
  - apply map_get_In.
  - apply map_get_some. rewrite from_keys. apply sortedb_NoDup, from_sorted.
Qed.
Lemma enc_get c u : tget enc_tree u = Some c <-> In (It c u) toTable.
Proof.
  rewrite <- enc_tree_eq, tree_get by (vm_compute; reflexivity). rewrite <- to_map_In. split.
  - apply map_get_In.
  - apply map_get_some. rewrite to_keys. apply sortedb_NoDup, to_sorted.
Qed.

Definition ois (o : option Z) (v : Z) : bool := match o with Some x => x =? v | None => false end.
Lemma ois_true o v : ois o v = true <-> o = Some v.
Proof. destruct o; cbn; [rewrite Z.eqb_eq|]; split; congruence. Qed.

Lemma same_pairs c u : In (It c u) fromTable <-> In (It c u) toTable.
Proof.
  split; intros H.
  - apply enc_get.
    assert (forallb (fun it => ois (tget enc_tree (ucs2 it)) (cp949 it)) fromTable = true) as E
      by (vm_compute; reflexivity).
    rewrite forallb_forall in E. apply E in H. apply ois_true in H. exact H.
  - apply dec_get.
    assert (forallb (fun it => ois (tget dec_tree (cp949 it)) (ucs2 it)) toTable = true) as E
      by (vm_compute; reflexivity).
    rewrite forallb_forall in E. apply E in H. apply ois_true in H. exact H.
Qed.

Lemma assigned_dec c u : assigned c u <-> tget dec_tree c = Some u.
Proof. unfold assigned. symmetry. apply dec_get. Qed.
Lemma assigned_enc c u : assigned c u <-> tget enc_tree u = Some c.
Proof. unfold assigned. rewrite same_pairs. symmetry. apply enc_get. Qed.
Lemma assigned_to c u : assigned c u <-> In (It c u) toTable.
Proof. apply same_pairs. Qed.

Lemma assigned_fun c u u' : assigned c u -> assigned c u' -> u = u'.
Proof. rewrite !assigned_dec. congruence. Qed.
Lemma assigned_inj c c' u : assigned c u -> assigned c' u -> c = c'.
Proof. rewrite !assigned_enc. congruence. Qed.

Lemma assigned_cases c : (exists u, assigned c u) \/ (forall u, ~ assigned c u).
Proof.
  destruct (tget dec_tree c) as [u|] eqn:E.
  - left. exists u. apply assigned_dec. exact E.
  - right. intros u H. apply assigned_dec in H. congruence.
Qed.
Lemma assigned_cases_u u : (exists c, assigned c u) \/ (forall c, ~ assigned c u).
Proof.
  destruct (tget enc_tree u) as [c|] eqn:E.
  - left. exists c. apply assigned_enc. exact E.
  - right. intros c H. apply assigned_enc in H. congruence.
Qed.

(** Lifting a boolean check of every entry. *)
Lemma assigned_forall (P : Z -> Z -> bool) :
  forallb (fun it => P (cp949 it) (ucs2 it)) fromTable = true ->
  forall c u, assigned c u -> P c u = true.
Proof. intros H c u Ha. rewrite forallb_forall in H. apply H in Ha. exact Ha. Qed.

Definition trail_ok (b : Z) : bool :=
  ((0x41 <=? b) && (b <=? 0x5A)) || ((0x61 <=? b) && (b <=? 0x7A)) || ((0x81 <=? b) && (b <=? 0xFE)).

Lemma assigned_ranges c u : assigned c u ->
  (0x81 <= c / 256 <= 0xFD /\ trail_ok (c mod 256) = true) /\
  (0xA1 <= u <= 0xFFE6 /\ ~ (0xD800 <= u <= 0xDFFF)).
Proof.
  intros H.
  assert ((0x81 <=? c / 256) && (c / 256 <=? 0xFD) && trail_ok (c mod 256) &&
          (0xA1 <=? u) && (u <=? 0xFFE6) && negb ((0xD800 <=? u) && (u <=? 0xDFFF)) = true) as E.
  { revert c u H. apply assigned_forall. vm_compute. reflexivity. }
  rewrite !andb_true_iff in E. destruct E as (((((E1 & E2) & E3) & E4) & E5) & E6).
  split; [split; [lia|exact E3]|]. lia.
Qed.

Lemma assigned_scalar c u : assigned c u -> is_scalar u.
Proof. intros H. apply assigned_ranges in H. unfold is_scalar. lia. Qed.

Lemma trail_ok_range b : trail_ok b = true -> 0x41 <= b <= 0xFE.
Proof. unfold trail_ok. lia. Qed.

Lemma assigned_code c u : assigned c u -> 0x8141 <= c <= 0xFDFE.
Proof.
  intros H. apply assigned_ranges in H as [[H Ht] _]. apply trail_ok_range in Ht.
  Z.div_mod_to_equations. lia.
Qed.

(** ** The searches of the code *)
Lemma from_pred_spec table n i it : zget table i = Some it ->
  from_pred table n i = Ok (n <=? cp949 it).
Proof. intros E. unfold from_pred. rewrite E. cbn [get_or_panic bind]. destruct (n <=? cp949 it); reflexivity. Qed.
Lemma to_pred_spec table n i it : zget table i = Some it ->
  to_pred table n i = Ok (n <=? ucs2 it).
Proof. intros E. unfold to_pred. rewrite E. cbn [get_or_panic bind]. destruct (n <=? ucs2 it); reflexivity. Qed.

Lemma from_hit n u : assigned n u ->
  exists fi, Search (zlen fromTable) (from_pred fromTable n) = Ok fi /\
    0 <= fi < zlen fromTable /\ zget fromTable fi = Some (It n u).
Proof.
  intros H. apply (search_hit cp949 fromTable from_sorted n); [|exact H|reflexivity].
  intros i it E. apply from_pred_spec, E.
Qed.
Lemma from_miss n : (forall u, ~ assigned n u) ->
  exists fi, Search (zlen fromTable) (from_pred fromTable n) = Ok fi /\
    0 <= fi <= zlen fromTable /\
    (forall it, zget fromTable fi = Some it -> cp949 it <> n).
Proof.
  intros H. destruct (search_miss cp949 fromTable from_sorted n (from_pred fromTable n)) as (fi & E & Hr & _ & H1).
  - intros i it E. apply from_pred_spec, E.
  - intros [c u] Hin E. cbn in E. subst. exact (H u Hin).
  - eauto.
Qed.

Lemma to_hit c u : assigned c u ->
  exists fi, Search (zlen toTable) (to_pred toTable u) = Ok fi /\
    0 <= fi < zlen toTable /\ zget toTable fi = Some (It c u).
Proof.
  intros H. apply (search_hit ucs2 toTable to_sorted u); [|apply assigned_to; exact H|reflexivity].
  intros i it E. apply to_pred_spec, E.
Qed.
Lemma to_miss u : (forall c, ~ assigned c u) ->
  exists fi, Search (zlen toTable) (to_pred toTable u) = Ok fi /\
    0 <= fi <= zlen toTable /\ (fi = zlen toTable <-> 0xFFE6 < u) /\
    (forall it, zget toTable fi = Some it -> ucs2 it <> u).
Proof.
  intros H. destruct (search_miss ucs2 toTable to_sorted u (to_pred toTable u)) as (fi & E & Hr & Hl & H1).
  - intros i it E. apply to_pred_spec, E.
  - intros [c v] Hin E. cbn in E. subst. exact (H c (proj2 (assigned_to c u) Hin)).
  - exists fi. split; [exact E|]. split; [exact Hr|]. split; [|exact H1].
    rewrite Hl. split.
    + intros Hall. assert (exists c, In (It c 0xFFE6) toTable) as [c Hc].
      { exists 0xA3DC. apply assigned_to, assigned_enc. vm_compute. reflexivity. }
      exact (Hall _ Hc).
    + intros Hu [c v] Hin. cbn. assert (assigned c v) as Ha by (apply assigned_to; exact Hin).
      apply assigned_ranges in Ha. lia.
Qed.
