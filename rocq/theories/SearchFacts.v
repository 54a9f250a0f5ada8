(** sort.Search finds the first index at which a monotone predicate holds, and so binary
    search in a strictly sorted table is exact. *)
From Coq Require Import ZArith List Bool Lia.
From Coq Require Import ZifyBool.
From Verif Require Import Base Spec Facts SortSearch.
Import ListNotations.
Local Open Scope Z_scope.

Lemma search_loop_spec fuel : forall f g i j,
  (forall k, i <= k < j -> f k = Ok (g k)) ->
  (forall k k', i <= k -> k <= k' -> k' < j -> g k = true -> g k' = true) ->
  i <= j -> j - i < 2 ^ Z.of_nat fuel ->
  exists r, search_loop fuel f i j = Ok r /\ i <= r <= j /\
    (forall k, i <= k < r -> g k = false) /\ (forall k, r <= k < j -> g k = true).
Proof.
  induction fuel as [|fuel IH]; intros f g i j Hf Hm Hij Hfuel; cbn [search_loop].
  - destruct (Z.ltb_spec i j) as [H|H]; [cbn in Hfuel; lia|].
    exists i. split; [reflexivity|]. split; [lia|]. split; intros; lia.
  - destruct (Z.ltb_spec i j) as [H|H].
    2:{ exists i. split; [reflexivity|]. split; [lia|]. split; intros; lia. }
    rewrite Z.shiftr_div_pow2 by lia. change (2 ^ 1) with 2.
    set (h := (i + j) / 2).
    assert (i <= h < j) as Hh by (subst h; Z.div_mod_to_equations; lia).
    rewrite (Hf h Hh). cbn [bind].
    assert (2 ^ Z.of_nat (S fuel) = 2 * 2 ^ Z.of_nat fuel) as Ep.
    { replace (Z.of_nat (S fuel)) with (1 + Z.of_nat fuel) by lia.
      rewrite Z.pow_add_r by lia. reflexivity. }
    destruct (g h) eqn:Eg; cbn [negb].
    + destruct (IH f g i h) as (r & E & Hr & H1 & H2).
      * intros k Hk. apply Hf. lia.
      * intros k k' ? ? ?. apply Hm; lia.
      * lia.
      * subst h. Z.div_mod_to_equations. lia.
      * exists r. split; [exact E|]. split; [lia|]. split; [exact H1|].
        intros k Hk. destruct (Z_lt_dec k h); [apply H2; lia|].
        apply (Hm h k); (lia || exact Eg).
    + destruct (IH f g (h + 1) j) as (r & E & Hr & H1 & H2).
      * intros k Hk. apply Hf. lia.
      * intros k k' ? ? ?. apply Hm; lia.
      * lia.
      * subst h. Z.div_mod_to_equations. lia.
      * exists r. split; [exact E|]. split; [lia|]. split; [|exact H2].
        intros k Hk. destruct (Z_lt_dec h k); [apply H1; lia|].
        destruct (g k) eqn:Egk; [|reflexivity].
        rewrite (Hm k h) in Eg; (lia || exact Egk || discriminate).
Qed.

Lemma Search_spec n f g : 0 <= n ->
  (forall k, 0 <= k < n -> f k = Ok (g k)) ->
  (forall k k', 0 <= k -> k <= k' -> k' < n -> g k = true -> g k' = true) ->
  exists r, Search n f = Ok r /\ 0 <= r <= n /\
    (forall k, 0 <= k < r -> g k = false) /\ (forall k, r <= k < n -> g k = true).
Proof.
  intros Hn Hf Hm. unfold Search. apply search_loop_spec; auto.
  rewrite Z.sub_0_r. destruct (Z.eq_dec n 0) as [->|Hn0]; [cbn; lia|].
  pose proof (Z.log2_up_spec n) as Hl. pose proof (Z.log2_up_nonneg n) as Hl0.
  rewrite Nat2Z.inj_succ, Z2Nat.id, Z.pow_succ_r by lia.
  destruct (Z.eq_dec n 1) as [->|Hn1]; [cbn; lia|]. specialize (Hl ltac:(lia)). lia.
Qed.

(** Binary search by [key] in a table strictly sorted by [key]. *)
Section Keyed.
Variable key : lookupItem -> Z.
Variable table : list lookupItem.
Hypothesis sorted : sortedb (map key table) = true.

Lemma key_mono i j x y : zget table i = Some x -> zget table j = Some y -> i < j -> key x < key y.
Proof.
  unfold zget. destruct (Z.ltb_spec i 0); [discriminate|]. destruct (Z.ltb_spec j 0); [discriminate|].
  intros Hx Hy Hij. apply (sortedb_nth (map key table) sorted (Z.to_nat i) (Z.to_nat j)); [lia|..].
  - apply map_nth_error. exact Hx.
  - apply map_nth_error. exact Hy.
Qed.

Lemma key_inj x y : In x table -> In y table -> key x = key y -> x = y.
Proof.
  intros Hx Hy E. apply In_zget in Hx as (i & Hi & Ei). apply In_zget in Hy as (j & Hj & Ej).
  destruct (Z.lt_trichotomy i j) as [H|[H|H]].
  - pose proof (key_mono _ _ _ _ Ei Ej H). lia.
  - subst. congruence.
  - pose proof (key_mono _ _ _ _ Ej Ei H). lia.
Qed.

Lemma search_key n (f : Z -> res bool) :
  (forall i it, zget table i = Some it -> f i = Ok (n <=? key it)) ->
  exists fi, Search (zlen table) f = Ok fi /\ 0 <= fi <= zlen table /\
    (forall i it, zget table i = Some it -> (i < fi <-> key it < n)).
Proof.
  intros Hf.
  set (g := fun i => match zget table i with Some it => n <=? key it | None => false end).
  destruct (Search_spec (zlen table) f g) as (fi & E & Hr & H1 & H2).
  - apply zlen_nonneg.
  - intros k Hk. subst g. cbn beta. destruct (zget_some table k Hk) as [it Eit].
    rewrite Eit. apply Hf. exact Eit.
  - intros k k' Hk Hkk Hk' Hg. subst g. cbn beta in *.
    destruct (zget_some table k) as [x Ex]; [lia|]. destruct (zget_some table k') as [y Ey]; [lia|].
    rewrite Ex in Hg. rewrite Ey. destruct (Z.eq_dec k k') as [->|]; [congruence|].
    pose proof (key_mono _ _ _ _ Ex Ey). lia.
  - exists fi. split; [exact E|]. split; [exact Hr|]. intros i it Eit.
    assert (0 <= i < zlen table) as Hi.
    { unfold zget in Eit. destruct (Z.ltb_spec i 0); [discriminate|].
      assert (Z.to_nat i < length table)%nat by (apply nth_error_Some; congruence).
      unfold zlen. lia. }
    split; intros H.
    + specialize (H1 i). subst g. cbn beta in H1. rewrite Eit in H1. lia.
    + destruct (Z_lt_dec i fi); [assumption|]. specialize (H2 i). subst g. cbn beta in H2.
      rewrite Eit in H2. lia.
Qed.

(** The outcome as used by the code: index in range and key equal, or not present. *)
Lemma search_hit n (f : Z -> res bool) it :
  (forall i it, zget table i = Some it -> f i = Ok (n <=? key it)) ->
  In it table -> key it = n ->
  exists fi, Search (zlen table) f = Ok fi /\ 0 <= fi < zlen table /\ zget table fi = Some it.
Proof.
  intros Hf Hin Hk. destruct (search_key n f Hf) as (fi & E & Hr & H).
  apply In_zget in Hin as (i & Hi & Ei). exists fi. split; [exact E|].
  assert (fi = i) as ->; [|split; assumption].
  pose proof (H i it Ei) as Hi'.
  destruct (Z_lt_dec fi i) as [Hlt|]; [|lia].
  destruct (zget_some table fi) as [x Ex]; [lia|].
  pose proof (H fi x Ex) as Hx. pose proof (key_mono _ _ _ _ Ex Ei Hlt). lia.
Qed.

Lemma search_miss n (f : Z -> res bool) :
  (forall i it, zget table i = Some it -> f i = Ok (n <=? key it)) ->
  (forall it, In it table -> key it <> n) ->
  exists fi, Search (zlen table) f = Ok fi /\ 0 <= fi <= zlen table /\
    (fi = zlen table <-> forall it, In it table -> key it < n) /\
    (forall it, zget table fi = Some it -> key it <> n).
Proof.
  intros Hf Hno. destruct (search_key n f Hf) as (fi & E & Hr & H). exists fi.
  split; [exact E|]. split; [exact Hr|]. split.
  - split.
    + intros -> it Hin. apply In_zget in Hin as (i & Hi & Ei). apply (H i it Ei). lia.
    + intros Hall. destruct (Z.eq_dec fi (zlen table)) as [|Hne]; [assumption|].
      destruct (zget_some table fi) as [x Ex]; [lia|].
      pose proof (proj2 (H fi x Ex) (Hall x (zget_In _ _ _ Ex))). lia.
  - intros it Eit. apply Hno. eapply zget_In; exact Eit.
Qed.
End Keyed.
