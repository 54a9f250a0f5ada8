(** Generic lemmas: sweeps over integer ranges, map lookups, lists indexed by Z. *)
From Coq Require Import ZArith List Bool Lia.
From Coq Require Import ZifyBool.
From Verif Require Import Base Spec.
Import ListNotations.
Local Open Scope Z_scope.

Lemma in_zseq n : forall lo x, In x (zseq lo n) <-> lo <= x < lo + Z.of_nat n.
Proof.
  induction n as [|n IH]; intros lo x.
  - cbn. lia.
  - cbn [zseq In]. rewrite IH. lia.
Qed.

(** A boolean property evaluated on every element of a range holds on the range. *)
Lemma sweep (P : Z -> bool) lo n :
  forallb P (zseq lo (Z.to_nat n)) = true ->
  forall x, lo <= x < lo + n -> P x = true.
Proof.
  intros H x Hx. rewrite forallb_forall in H. apply H, in_zseq. lia.
Qed.

Lemma map_get_In {V} (m : list (Z * V)) k v : map_get m k = Some v -> In (k, v) m.
Proof.
  induction m as [|[k' v'] m IH]; cbn [map_get]; intros H; [discriminate|].
  destruct (Z.eqb_spec k' k) as [->|]; [injection H as ->; left; reflexivity|].
  right; auto.
Qed.

Lemma map_get_out {V} (m : list (Z * V)) lo hi k :
  forallb (fun kv => (lo <=? fst kv) && (fst kv <=? hi)) m = true ->
  k < lo \/ hi < k -> map_get m k = None.
Proof.
  intros H Hk. destruct (map_get m k) eqn:E; [|reflexivity].
  apply map_get_In in E. rewrite forallb_forall in H. apply H in E. cbn in E. lia.
Qed.

Lemma map_get_some {V} (m : list (Z * V)) k v :
  NoDup (map fst m) -> In (k, v) m -> map_get m k = Some v.
Proof.
  induction m as [|[k' v'] m IH]; cbn [map fst map_get]; intros Hnd Hin; [destruct Hin|].
  inversion Hnd as [|? ? Hni Hnd']; subst.
  destruct Hin as [E|Hin].
  - injection E as -> ->. rewrite Z.eqb_refl. reflexivity.
  - destruct (Z.eqb_spec k' k) as [->|]; [|auto].
    exfalso. apply Hni. apply (in_map fst) in Hin. exact Hin.
Qed.

(** ** Lists *)
Lemma zlen_nonneg {A} (l : list A) : 0 <= zlen l.
Proof. unfold zlen. lia. Qed.
Lemma zlen_app {A} (a b : list A) : zlen (a ++ b) = zlen a + zlen b.
Proof. unfold zlen. rewrite app_length. lia. Qed.
Lemma zlen_cons {A} (x : A) l : zlen (x :: l) = 1 + zlen l.
Proof. unfold zlen. cbn [length]. lia. Qed.
Lemma zlen_nil {A} : zlen (@nil A) = 0.
Proof. reflexivity. Qed.
Lemma zlen_0 {A} (l : list A) : zlen l = 0 -> l = [].
Proof. destruct l; [reflexivity|]. rewrite zlen_cons. pose proof (zlen_nonneg l). lia. Qed.
Lemma zlen_zeros n : 0 <= n -> zlen (zeros n) = n.
Proof. intros. unfold zlen, zeros. rewrite repeat_length. lia. Qed.
Lemma zlen_ztake {A} n (l : list A) : 0 <= n -> zlen (ztake n l) = Z.min n (zlen l).
Proof. intros. unfold zlen, ztake. rewrite firstn_length. lia. Qed.
Lemma zlen_zdrop {A} n (l : list A) : 0 <= n -> zlen (zdrop n l) = Z.max 0 (zlen l - n).
Proof. intros. unfold zlen, zdrop. rewrite skipn_length. lia. Qed.
Lemma ztake_all {A} n (l : list A) : zlen l <= n -> ztake n l = l.
Proof. intros. unfold ztake, zlen in *. apply firstn_all2. lia. Qed.
Lemma zdrop_all {A} n (l : list A) : zlen l <= n -> zdrop n l = [].
Proof. intros. unfold zdrop, zlen in *. apply skipn_all2. lia. Qed.
Lemma ztake_0 {A} (l : list A) : ztake 0 l = [].
Proof. reflexivity. Qed.
Lemma zdrop_0 {A} (l : list A) : zdrop 0 l = l.
Proof. reflexivity. Qed.
Lemma ztake_zdrop {A} n (l : list A) : ztake n l ++ zdrop n l = l.
Proof. apply firstn_skipn. Qed.
Lemma ztake_app_l {A} n (a b : list A) : n <= zlen a -> ztake n (a ++ b) = ztake n a.
Proof.
  intros. unfold ztake, zlen in *. rewrite firstn_app.
  replace (Z.to_nat n - length a)%nat with 0%nat by lia.
  cbn. apply app_nil_r.
Qed.
Lemma ztake_app_r {A} n (a b : list A) :
  zlen a <= n -> ztake n (a ++ b) = a ++ ztake (n - zlen a) b.
Proof.
  intros. unfold ztake, zlen in *. rewrite firstn_app, firstn_all2 by lia.
  f_equal. f_equal. lia.
Qed.
Lemma ztake_app_exact {A} n (a b : list A) : n = zlen a -> ztake n (a ++ b) = a.
Proof. intros ->. rewrite ztake_app_l by lia. apply ztake_all. lia. Qed.
Lemma zdrop_app_l {A} n (a b : list A) : n <= zlen a -> zdrop n (a ++ b) = zdrop n a ++ b.
Proof.
  intros. unfold zdrop, zlen in *. rewrite skipn_app.
  replace (Z.to_nat n - length a)%nat with 0%nat by lia. reflexivity.
Qed.
Lemma zdrop_app_r {A} n (a b : list A) :
  zlen a <= n -> zdrop n (a ++ b) = zdrop (n - zlen a) b.
Proof.
  intros. unfold zdrop, zlen in *. rewrite skipn_app, skipn_all2 by lia.
  cbn. f_equal. lia.
Qed.
Lemma zdrop_app_exact {A} n (a b : list A) : n = zlen a -> zdrop n (a ++ b) = b.
Proof. intros ->. rewrite zdrop_app_r by lia. rewrite Z.sub_diag. reflexivity. Qed.
Lemma zdrop_zdrop {A} a b (l : list A) :
  0 <= a -> 0 <= b -> zdrop a (zdrop b l) = zdrop (a + b) l.
Proof.
  intros. unfold zdrop.
  replace (Z.to_nat (a + b)) with (Z.to_nat b + Z.to_nat a)%nat by lia.
  generalize (Z.to_nat a) as m. generalize (Z.to_nat b) as n. clear.
  induction l as [|x l IH]; intros n m.
  - rewrite !skipn_nil. reflexivity.
  - destruct n as [|n]; [reflexivity|]. cbn. apply IH.
Qed.
Lemma zlen_zwrite l i bs :
  0 <= i -> i + zlen bs <= zlen l -> zlen (zwrite l i bs) = zlen l.
Proof.
  intros. unfold zwrite. pose proof (zlen_nonneg bs).
  rewrite !zlen_app, zlen_ztake, zlen_zdrop by lia. lia.
Qed.
Lemma ztake_zwrite l i bs :
  0 <= i <= zlen l -> ztake (i + zlen bs) (zwrite l i bs) = ztake i l ++ bs.
Proof.
  intros. unfold zwrite. rewrite app_assoc. apply ztake_app_exact.
  rewrite zlen_app, zlen_ztake by lia. lia.
Qed.

Lemma zget_nth {A} (l : list A) i : 0 <= i -> zget l i = nth_error l (Z.to_nat i).
Proof. intros. unfold zget. destruct (Z.ltb_spec i 0); [lia|reflexivity]. Qed.
Lemma zget_some {A} (l : list A) i : 0 <= i < zlen l -> exists x, zget l i = Some x.
Proof.
  intros H. rewrite zget_nth by lia. unfold zlen in H.
  destruct (nth_error l (Z.to_nat i)) eqn:E; [eauto|].
  apply nth_error_None in E. lia.
Qed.
Lemma zget_In {A} (l : list A) i x : zget l i = Some x -> In x l.
Proof. unfold zget. destruct (i <? 0); [discriminate|]. apply nth_error_In. Qed.
Lemma In_zget {A} (l : list A) x : In x l -> exists i, 0 <= i < zlen l /\ zget l i = Some x.
Proof.
  intros H. apply In_nth_error in H as [n Hn]. exists (Z.of_nat n).
  assert (n < length l)%nat by (apply nth_error_Some; congruence).
  unfold zlen. split; [lia|]. rewrite zget_nth by lia. rewrite Nat2Z.id. exact Hn.
Qed.

(** ** NoDup by evaluation of strict order *)
Fixpoint sortedb (l : list Z) : bool :=
  match l with
  | [] => true
  | x :: l' => match l' with [] => true | y :: _ => (x <? y) && sortedb l' end
  end.
Lemma sortedb_head x l : sortedb (x :: l) = true -> Forall (fun y => x < y) l.
Proof.
  revert x. induction l as [|y l IH]; intros x H; [constructor|].
  cbn [sortedb] in H. apply andb_true_iff in H as [H1 H2].
  specialize (IH y H2). constructor; [lia|].
  eapply Forall_impl; [|exact IH]. cbn. intros; lia.
Qed.
Lemma sortedb_tail x l : sortedb (x :: l) = true -> sortedb l = true.
Proof. destruct l; [reflexivity|]. cbn [sortedb]. intros H. apply andb_true_iff in H. tauto. Qed.
Lemma sortedb_NoDup l : sortedb l = true -> NoDup l.
Proof.
  induction l as [|x l IH]; intros H; constructor.
  - apply sortedb_head in H. rewrite Forall_forall in H. intros Hin. apply H in Hin. lia.
  - apply IH. eapply sortedb_tail; eauto.
Qed.
Lemma sortedb_nth l : sortedb l = true ->
  forall i j x y, (i < j)%nat -> nth_error l i = Some x -> nth_error l j = Some y -> x < y.
Proof.
  induction l as [|z l IH]; intros Hs i j x y Hij Hi Hj.
  - destruct i; discriminate.
  - destruct j as [|j]; [lia|]. destruct i as [|i].
    + cbn in Hi, Hj. injection Hi as ->. apply sortedb_head in Hs.
      rewrite Forall_forall in Hs. apply Hs. eapply nth_error_In; eauto.
    + cbn in Hi, Hj. eapply (IH (sortedb_tail _ _ Hs) i j); eauto; lia.
Qed.
