(** Slices in the storage of GoLang.v and the slices of the model: when a slice value refers
    to what a [slice] record describes, and how the storage changes. *)
From Coq Require Import String ZArith List Bool Lia.
From Verif Require Import Base Utf8 SortSearch Cp949Model GoLang GoFacts Facts SliceFacts.
Import ListNotations.
Local Open Scope list_scope.
Local Open Scope Z_scope.
Local Open Scope go_scope.

Definition heap : Type := list (list Z).
Definition cell (A : heap) (j : nat) : list Z := nth j A [].

(** The number of bytes allocated so far: no array is ever given back. *)
Fixpoint total (A : heap) : Z := match A with [] => 0 | a :: A => zlen a + total A end.

(** A buffer of capacity [c] is replaced by one of capacity [c']: by ensureCap, which starts with
    what is asked for and then goes up by a quarter at least, or by append. *)
Definition regrown (grow : Z -> Z -> Z) (c c' : Z) : Prop :=
  c < c' /\ (c = 0 \/ 6 * c <= 5 * c') \/
  exists need, c < need /\ c' = Z.max need (grow c need).
(** The same any number of times; [b] bytes are allocated on the way. *)
Inductive regrows (grow : Z -> Z -> Z) : Z -> Z -> Z -> Prop :=
| regrows_none c : regrows grow c c 0
| regrows_more c c1 c2 b : regrown grow c c1 -> regrows grow c1 c2 b -> regrows grow c c2 (c1 + b).

(** From [A] to [A'] arrays are only added and, of those present before, only the one at [l]
    is changed; [l'] is [l] or new.  The arrays added are the ones that replaced the one at [l]. *)
Definition grows (grow : Z -> Z -> Z) (A : heap) (l : nat) (A' : heap) (l' : nat) : Prop :=
  (length A <= length A')%nat /\ (l' = l \/ (length A <= l')%nat) /\
  (forall j, (j < length A)%nat -> j <> l \/ cell A j = [] -> cell A' j = cell A j) /\
  length (cell A' l) = length (cell A l) /\
  exists b, regrows grow (zlen (cell A l)) (zlen (cell A' l')) b /\ total A' = total A + b.

(** The value [sv l sl] is, in [A], the slice [sl]. *)
Definition ref (A : heap) (l : nat) (sl : slice) : Prop :=
  (l < length A)%nat /\ cell A l = arr sl /\ slice_ok sl.
Notation sv l sl := (VSlice l 0 (slen sl) (scap sl)).

Lemma regrows_trans grow c c1 c2 b b' : regrows grow c c1 b -> regrows grow c1 c2 b' -> regrows grow c c2 (b + b').
Proof.
  intros H. induction H as [c|c c0 c1 b H _ IH]; intros H'; [exact H'|].
  rewrite <- Z.add_assoc. econstructor; [exact H|auto].
Qed.
Lemma total_app A B : total (A ++ B) = total A + total B.
Proof. induction A as [|a A IH]; cbn [app total]; lia. Qed.
Lemma total_set A l a : length a = length (cell A l) -> total (set_nth l a A) = total A.
Proof.
  unfold cell. revert l; induction A as [|x A IH]; intros [|l] H; cbn in *; try reflexivity.
  - unfold zlen. lia.
  - rewrite IH by exact H. reflexivity.
Qed.

(** The loop of ensureCap goes up by a fifth at least. *)
Lemma grow_loop_regrown fuel m n m' : 1 <= m -> grow_loop fuel m n = Ok m' -> m < m' /\ 6 * m <= 5 * m'.
Proof.
  revert m; induction fuel as [|fuel IH]; intros m Hm H; [discriminate|]. cbn [grow_loop] in H.
  set (m1 := if m <? 1024 then m + m else m + go_div m 4) in H.
  assert (m < m1 /\ 6 * m <= 5 * m1) as H1.
  { subst m1. unfold go_div. destruct (Z.ltb_spec m 1024); [lia|].
    rewrite Z.quot_div_nonneg by lia. Z.div_mod_to_equations. lia. }
  destruct (m1 >=? n); [injection H as <-; exact H1|]. apply IH in H; lia.
Qed.

Lemma grows_refl grow A l : grows grow A l A l.
Proof. repeat split; auto. exists 0. split; [constructor|lia]. Qed.
Lemma grows_trans grow A l A1 l1 A2 l2 : (l < length A)%nat ->
  grows grow A l A1 l1 -> grows grow A1 l1 A2 l2 -> grows grow A l A2 l2.
Proof.
  intros Hl (La & Na & Fa & Ka & b & Ha & Ta) (Lb & Nb & Fb & Kb & b' & Hb & Tb). split; [lia|]. split; [lia|].
  split; [|split; [|exists (b + b'); split; [eapply regrows_trans; eassumption|lia]]].
  - intros j Hj Hs. rewrite <- (Fa j Hj Hs). apply Fb; [lia|].
    destruct Hs as [Hs|Hs]; [left; lia|right; rewrite (Fa j Hj); auto].
  - destruct (Nat.eq_dec l1 l) as [->|Hne]; [congruence|].
    rewrite (Fb l) by lia. exact Ka.
Qed.

Lemma set_nth_len {A} n (v : A) l : length (set_nth n v l) = length l.
Proof. revert n; induction l; intros [|n]; cbn; auto. Qed.
Lemma nth_set_nth {A} n (v : A) l d : (n < length l)%nat -> nth n (set_nth n v l) d = v.
Proof. revert n; induction l; intros [|n] H; cbn in *; try lia; auto. apply IHl. lia. Qed.
Lemma nth_set_nth_ne {A} n m (v : A) l d : n <> m -> nth m (set_nth n v l) d = nth m l d.
Proof. revert n m; induction l; intros [|n] [|m] H; cbn; auto; try congruence. Qed.
Lemma nth_error_set_nth {A} n (v : A) l : (n < length l)%nat -> nth_error (set_nth n v l) n = Some v.
Proof. revert n; induction l; intros [|n] H; cbn in *; try lia; auto. apply IHl. lia. Qed.
Lemma nth_error_set_nth_ne {A} n m (v : A) l : n <> m -> nth_error (set_nth n v l) m = nth_error l m.
Proof. revert n m; induction l; intros [|n] [|m] H; cbn; auto; try congruence. Qed.
Lemma set_nth_twice {A} n (v w : A) l : set_nth n v (set_nth n w l) = set_nth n v l.
Proof. revert n; induction l; intros [|n]; cbn; congruence. Qed.
Lemma set_nth_comm {A} n m (v w : A) l : n <> m -> set_nth n v (set_nth m w l) = set_nth m w (set_nth n v l).
Proof. revert n m; induction l; intros [|n] [|m] H; cbn; auto; try congruence. f_equal. apply IHl. congruence. Qed.
Lemma set_nth_id {A} n (v : A) l : nth_error l n = Some v -> set_nth n v l = l.
Proof. revert n; induction l; intros [|n]; cbn; try congruence. intros. f_equal. auto. Qed.

Lemma set_nth_last {A} (l : list A) a b : set_nth (length l) b (l ++ [a]) = l ++ [b].
Proof. induction l; cbn; congruence. Qed.
Lemma cell_set A l a : (l < length A)%nat -> cell (set_nth l a A) l = a.
Proof. apply nth_set_nth. Qed.
Lemma cell_set_ne A l j a : l <> j -> cell (set_nth l a A) j = cell A j.
Proof. apply nth_set_nth_ne. Qed.
Lemma cell_new (A : heap) a : cell (A ++ [a]) (length A) = a.
Proof. unfold cell. rewrite app_nth2, Nat.sub_diag; [reflexivity|lia]. Qed.
Lemma cell_old (A : heap) a j : (j < length A)%nat -> cell (A ++ [a]) j = cell A j.
Proof. intros. unfold cell. now rewrite app_nth1. Qed.

Lemma grows_write grow A l a : length a = length (cell A l) -> (l < length A)%nat -> grows grow A l (set_nth l a A) l.
Proof.
  intros Ha Hl. split; [rewrite set_nth_len; lia|]. split; [auto|]. split.
  - intros j Hj [Hs|Hs]; [apply cell_set_ne; congruence|].
    destruct (Nat.eq_dec l j) as [->|]; [|now apply cell_set_ne].
    rewrite cell_set by assumption. rewrite Hs in *. destruct a; [reflexivity|discriminate].
  - split; [rewrite cell_set by assumption; exact Ha|]. exists 0. split; [|rewrite total_set by assumption; lia].
    replace (zlen (cell (set_nth l a A) l)) with (zlen (cell A l)); [constructor|].
    rewrite cell_set by assumption. unfold zlen. lia.
Qed.
Lemma grows_new grow (A : heap) l a : (l < length A)%nat -> regrown grow (zlen (cell A l)) (zlen a) ->
  grows grow A l (A ++ [a]) (length A).
Proof.
  intros Hl Hre. split; [rewrite app_length; lia|]. split; [auto|]. split; [|split].
  - intros j Hj _. now apply cell_old.
  - now rewrite cell_old.
  - exists (zlen a). split; [|rewrite total_app; cbn [total]; lia].
    rewrite cell_new. pose proof (regrows_more grow _ _ _ _ Hre (regrows_none grow (zlen a))) as H.
    now rewrite Z.add_0_r in H.
Qed.

Section Heap.
Variable grow : Z -> Z -> Z.
Variable E : Type.
Notation mk := (mkState E).

Lemma length_zlen {T} (a b : list T) : zlen a = zlen b -> length a = length b.
Proof. unfold zlen. lia. Qed.

Lemma append_ref A O X l sl bs : ref A l sl ->
  exists A' l', append_to grow E (mk A O X) (sv l sl) bs = Ok (sv l' (go_append grow sl bs), mk A' O X) /\
    ref A' l' (go_append grow sl bs) /\ grows grow A l A' l'.
Proof.
  intros (Hl & Ha & Hok).
  pose proof (go_append_spec grow sl bs Hok) as Hsp.
  assert (Hok' : slice_ok (go_append grow sl bs)) by (decompose [and] Hsp; assumption).
  unfold append_to. unfold go_append in *.
  destruct (slen sl + zlen bs <=? scap sl) eqn:Hfit; cbn [arr slen] in *.
  - exists (set_nth l (zwrite (arr sl) (slen sl) bs) A), l. unfold slice_ok in Hok.
    assert (Hz : zlen (zwrite (arr sl) (slen sl) bs) = zlen (arr sl)).
    { apply zlen_zwrite; unfold scap in *; lia. }
    split; [|split].
    + unfold store, set_arr, arr_at. cbn [arrs objs ext]. fold (cell A l). rewrite Ha.
      unfold scap at 2. cbn [arr]. rewrite Hz. reflexivity.
    + split; [rewrite set_nth_len; lia|]. split; [|exact Hok']. cbn [arr]. now apply cell_set.
    + apply grows_write; [|assumption]. rewrite Ha. now apply length_zlen.
  - set (m := Z.max (slen sl + zlen bs) (grow (scap sl) (slen sl + zlen bs))) in *.
    exists (A ++ [contents sl ++ bs ++ zeros (m - (slen sl + zlen bs))]), (length A).
    pose proof (contents_len sl Hok). pose proof (zlen_nonneg bs).
    split; [|split].
    + unfold new_arr, cells, arr_at. cbn [arrs objs ext]. fold (cell A l). rewrite Ha.
      rewrite zdrop_0. fold (contents sl). unfold scap. cbn [arr].
      rewrite !zlen_app, zlen_zeros by lia. do 3 f_equal. lia.
    + split; [rewrite app_length; cbn; lia|]. split; [|exact Hok']. cbn [arr]. apply cell_new.
    + apply grows_new; [assumption|]. right. exists (slen sl + zlen bs). rewrite Ha.
      fold (scap sl). split; [lia|]. fold m. rewrite !zlen_app, zlen_zeros by lia. lia.
Qed.

(** Reslicing to the front keeps the array. *)
Lemma slice_ref A l sl n : ref A l sl -> 0 <= n <= scap sl ->
  slice_of (sv l sl) 0 (Some n) = Ok (sv l (mkSlice (arr sl) n)) /\ ref A l (mkSlice (arr sl) n).
Proof.
  intros (Hl & Ha & Hok) Hn. unfold slice_of.
  replace ((0 <=? 0) && (0 <=? n) && (n <=? scap sl)) with true by lia.
  split; [|split; [assumption|split; [assumption|unfold slice_ok, scap in *; cbn [arr slen]; lia]]].
  unfold scap. cbn [slen arr]. do 2 f_equal; lia.
Qed.
End Heap.

(** A byte slice handed in by the caller, described by its contents. *)
Definition input (A : heap) (l : nat) (o n c : Z) (data : list Z) : Prop :=
  (l < length A)%nat /\ 0 <= o /\ 0 <= n <= c /\ o + c <= zlen (cell A l) /\
  data = ztake n (zdrop o (cell A l)).

Lemma input_len A l o n c data : input A l o n c data -> zlen data = n.
Proof. intros (_ & Ho & Hn & Hc & ->). rewrite zlen_ztake, zlen_zdrop by lia. lia. Qed.
Lemma input_drop A l o n c data k : input A l o n c data -> 0 <= k <= n ->
  input A l (o + k) (n - k) (c - k) (zdrop k data).
Proof.
  intros (Hl & Ho & Hn & Hc & ->) Hk. repeat split; try lia; try assumption.
  assert (H : zdrop k (ztake n (zdrop o (cell A l))) = ztake (n - k) (zdrop k (zdrop o (cell A l)))).
  { unfold ztake. unfold zdrop at 1. rewrite skipn_firstn_comm.
    replace (Z.to_nat n - Z.to_nat k)%nat with (Z.to_nat (n - k)) by lia. reflexivity. }
  rewrite H, zdrop_zdrop by lia. now rewrite (Z.add_comm k o).
Qed.
Lemma input_nth A l o n c data i x : input A l o n c data -> nth_error data i = Some x ->
  nth (Z.to_nat (o + Z.of_nat i)) (cell A l) 0 = x.
Proof.
  intros (Hl & Ho & Hn & Hc & ->) Hx.
  assert (Hi : (i < length (ztake n (zdrop o (cell A l))))%nat) by (apply nth_error_Some; congruence).
  assert (Hin : Z.of_nat i < n) by (unfold ztake in Hi; rewrite firstn_length in Hi; lia).
  rewrite <- (firstn_skipn (Z.to_nat o) (cell A l)) at 1.
  rewrite app_nth2; rewrite firstn_length; unfold zlen in Hc; [|lia].
  replace (Z.to_nat (o + Z.of_nat i) - Nat.min (Z.to_nat o) (length (cell A l)))%nat with i by lia.
  unfold ztake, zdrop in Hx. rewrite <- (firstn_skipn (Z.to_nat n) (skipn _ _)).
  rewrite app_nth1 by (rewrite firstn_length, skipn_length; lia).
  now apply nth_error_nth.
Qed.
Lemma input_grows grow A l o n c data A' ls ls' : input A l o n c data ->
  grows grow A ls A' ls' -> l <> ls \/ cell A l = [] -> input A' l o n c data /\ (l <> ls' \/ cell A' l = []).
Proof.
  intros (Hl & Ho & Hn & Hc & ->) (La & Na & Fa & _) Hs. rewrite <- (Fa l Hl Hs) in Hc |- *.
  split; [repeat split; try assumption; try lia|].
  destruct Hs as [Hs|Hs]; [left; lia|right; rewrite (Fa l Hl); auto].
Qed.
