(** Goroutines that share a Reader or a Writer and take turns with a lock: LockFacts.v for
    Read and Write. *)
From Coq Require Import String ZArith List Bool Lia.
From Verif Require Import Base Utf8 TableFrom TableTo Cp949Model GoLang GoSource GoFacts GoThreads GoHeap GoCp949 GoStream
  StreamModel StreamModel3 IoModel Facts Utf8Facts SliceFacts Spec SpecCp949 SpecIO Cp949Facts Cp949Facts2 StreamFacts StreamFacts2 StreamFacts3 StreamFacts5
  PipeFacts SourceSpec SpecThreads SpecLock ThreadFacts OwnFacts GoroutineFacts LockFacts SourceFacts SourceFacts2.
Import ListNotations.
Local Open Scope string_scope.
Local Open Scope list_scope.
Local Open Scope Z_scope.
Local Opaque fromTable toTable.
Local Arguments ztake : simpl never.
Local Arguments zdrop : simpl never.

(** ** Events without allocation *)
Definition event_ok (m : Z) (LL : list Z) (ev : event) : Prop :=
  match ev with
  | Store h a => nth_error LL h = Some (zlen a)
  | Alloc _ => False
  | Use h o n c => exists k, nth_error LL h = Some k /\ 0 <= o /\ m <= n <= c /\ o + c <= k
  end.
Lemma sensible_ok m LL evs : (forall a, ~ In (Alloc a) evs) -> sensible m LL evs <-> Forall (event_ok m LL) evs.
Proof.
  induction evs as [|[h a|a|h o n c] evs IH]; intros Hn; cbn [sensible].
  - split; auto.
  - rewrite Forall_cons_iff, <- IH; [reflexivity|]. intros x Hx. apply (Hn x). now right.
  - destruct (Hn a). now left.
  - rewrite Forall_cons_iff, <- IH; [reflexivity|]. intros x Hx. apply (Hn x). now right.
Qed.
Lemma event_ok_range m LL ev h : event_ok m LL ev -> In h (event_array ev) -> (h < length LL)%nat.
Proof.
  destruct ev as [h' a|a|h' o n c]; cbn; [|contradiction|].
  - intros H [<-|[]]. apply nth_error_Some. congruence.
  - intros (k & H & _) [<-|[]]. apply nth_error_Some. congruence.
Qed.
Lemma event_ok_min m LL ev : 0 <= m -> event_ok m LL ev -> event_ok 0 LL ev.
Proof. destruct ev as [h' a|a|h' o n c]; cbn; auto. intros Hm (k & H1 & H2 & H3 & H4). exists k. repeat split; auto; lia. Qed.
Lemma merged_all {B} (P : event -> Prop) gs (ws : list (worker B)) order outs : merges gs ws order outs -> Forall (Forall P) gs -> Forall P (map snd order).
Proof.
  intros (Hl & _ & Hi & Hm) HP. apply Forall_forall. intros ev Hev. apply in_map_iff in Hev. destruct Hev as ([i ev'] & <- & Hin). cbn [snd].
  pose proof (Hi i ev' Hin) as Hig. assert (i < length ws)%nat as Hiw by lia. apply nth_error_Some in Hig, Hiw.
  destruct (nth_error gs i) as [g|] eqn:Hg; [|congruence]. destruct (nth_error ws i) as [w|] eqn:Hw; [|congruence].
  destruct (Hm i g w Hg Hw) as [Hd _]. rewrite Forall_forall in HP. specialize (HP g (nth_error_In _ _ Hg)). rewrite Forall_forall in HP. apply HP.
  rewrite <- Hd. unfold doings. apply in_map_iff. exists (i, ev'). split; [reflexivity|]. apply filter_In. split; [assumption|]. cbn. apply Nat.eqb_refl.
Qed.
Lemma Forall_upd {X} (P : X -> Prop) i v l : P v -> Forall P l -> Forall P (set_nth i v l).
Proof. intros Hv H. revert i. induction H as [|x l Hx H IH]; intros [|i]; cbn; constructor; auto. Qed.
Lemma nth_seq L h : (h < L)%nat -> nth_error (seq 0 L) h = Some h.
Proof. intros H. rewrite (nth_error_nth' _ 0%nat) by (now rewrite seq_length). now rewrite seq_nth. Qed.
Lemma seq_nth_error L h x : nth_error (seq 0 L) h = Some x -> x = h /\ (h < L)%nat.
Proof.
  intros H. assert (h < L)%nat by (rewrite <- (seq_length L 0); apply nth_error_Some; congruence). rewrite nth_seq in H by assumption. split; congruence.
Qed.

(** What goroutine [i] writes does not depend on what the others do. *)
Lemma nth_set_same {X} (d : X) h a C C' j : length C = length C' -> nth j C d = nth j C' d -> nth j (set_nth h a C) d = nth j (set_nth h a C') d.
Proof.
  revert h j C'. induction C as [|x C IH]; intros h j [|x' C'] Hl Hj; cbn in Hl; try discriminate; [reflexivity|].
  destruct h as [|h], j as [|j]; cbn in *; auto.
Qed.
Lemma nth_set_other {X} (d : X) h a C j : h <> j -> nth j (set_nth h a C) d = nth j C d.
Proof. revert h j. induction C as [|x C IH]; intros [|h] [|j] H; cbn; auto. congruence. Qed.
Lemma chunks_of i order : forall C C', length C = length C' ->
  (forall h, In h (arrays_used (doings i order)) -> nth h C [] = nth h C' []) ->
  (forall j h a, In (j, Store h a) order -> j <> i -> ~ In h (arrays_used (doings i order))) ->
  (forall j a, ~ In (j, Alloc a) order) ->
  doings i (combine (callers order) (chunks C (map snd order))) = chunks C' (doings i order).
Proof.
  induction order as [|[j ev] order IH]; intros C C' Hl Hc Hst Hal; [reflexivity|].
  assert (Hd : doings i ((j, ev) :: order) = if Nat.eqb j i then ev :: doings i order else doings i order)
    by (unfold doings; cbn; destruct (Nat.eqb j i); reflexivity).
  assert (Hal' : forall k a, ~ In (k, Alloc a) order) by (intros k a Hx; apply (Hal k a); now right).
  rewrite Hd in *. destruct (Nat.eqb j i) eqn:Hji.
  - apply Nat.eqb_eq in Hji. subst j.
    assert (Hst' : forall j h a, In (j, Store h a) order -> j <> i -> ~ In h (arrays_used (doings i order))).
    { intros k h a Hx Hk Hin. apply (Hst k h a); [now right|assumption|]. cbn. apply in_or_app. now right. }
    destruct ev as [h a|a|h o n c]; cbn [map snd chunks].
    + apply (IH (set_nth h a C) (set_nth h a C')); try assumption; [now rewrite !set_nth_len|]. intros k Hk. apply nth_set_same; [assumption|].
      apply Hc. cbn. now right.
    + destruct (Hal i a). now left.
    + change (callers ((i, Use h o n c) :: order)) with (i :: callers order). cbn [combine].
      change (doings i ((i, ztake n (zdrop o (nth h C []))) :: combine (callers order) (chunks C (map snd order))))
        with (map snd (if Nat.eqb i i then (i, ztake n (zdrop o (nth h C []))) :: filter (fun x => Nat.eqb (fst x) i) (combine (callers order) (chunks C (map snd order)))
              else filter (fun x => Nat.eqb (fst x) i) (combine (callers order) (chunks C (map snd order))))).
      rewrite Nat.eqb_refl. cbn [map snd]. rewrite (Hc h) by (cbn; now left). f_equal.
      apply IH; try assumption. intros k Hk. apply Hc. cbn. now right.
  - apply Nat.eqb_neq in Hji.
    assert (Hst' : forall j h a, In (j, Store h a) order -> j <> i -> ~ In h (arrays_used (doings i order)))
      by (intros k h a Hx Hk; apply (Hst k h a); [now right|assumption]).
    destruct ev as [h a|a|h o n c]; cbn [map snd chunks].
    + apply (IH (set_nth h a C) C'); try assumption; [now rewrite set_nth_len|]. intros k Hk. rewrite nth_set_other; [now apply Hc|].
      intros ->. apply (Hst j k a); [now left|assumption|assumption].
    + destruct (Hal j a). now left.
    + change (callers ((j, Use h o n c) :: order)) with (j :: callers order). cbn [combine].
      change (doings i ((j, ztake n (zdrop o (nth h C []))) :: combine (callers order) (chunks C (map snd order))))
        with (map snd (if Nat.eqb j i then (j, ztake n (zdrop o (nth h C []))) :: filter (fun x => Nat.eqb (fst x) i) (combine (callers order) (chunks C (map snd order)))
              else filter (fun x => Nat.eqb (fst x) i) (combine (callers order) (chunks C (map snd order))))).
      apply Nat.eqb_neq in Hji. rewrite Hji. apply IH; assumption.
Qed.

Section Stream.
Variable grow : Z -> Z -> Z.
Variable E : Type.
Variable rd : nat -> E -> Z -> Z * list Z * option error * E.
Variable wr : nat -> E -> list Z -> Z * option error * E.
Variable kx : nat.
Notation state := (state E).
Notation calls := (calls grow E rd wr prog_cp949).
Notation reads := (reads grow E rd wr prog_cp949).
Notation writes := (writes grow E rd wr prog_cp949).

Lemma reads_app p own s evs outs own1 s1 : reads p own s evs outs own1 s1 -> forall evs2 outs2 own2 s2,
  reads p own1 s1 evs2 outs2 own2 s2 -> reads p own s (evs ++ evs2) (outs ++ outs2) own2 s2.
Proof. induction 1; intros evs2 outs2 own2 s2 H2; cbn [app]; [exact H2|..]; econstructor; eauto. Qed.
Lemma writes_app p own s evs outs own1 s1 : writes p own s evs outs own1 s1 -> forall evs2 outs2 own2 s2,
  writes p own1 s1 evs2 outs2 own2 s2 -> writes p own s (evs ++ evs2) (outs ++ outs2) own2 s2.
Proof. induction 1; intros evs2 outs2 own2 s2 H2; cbn [app]; [exact H2|..]; econstructor; eauto. Qed.
Lemma reads_det p own s evs outs own1 s1 : reads p own s evs outs own1 s1 -> forall outs' own1' s1', reads p own s evs outs' own1' s1' ->
  outs = outs' /\ own1 = own1' /\ s1 = s1'.
Proof.
  induction 1 as [own s|own s h l a evs outs own' s' Hl _ IH|own s a evs outs own' s' _ IH|own s h l o n c k err s1 evs outs own' s' Hl Hc _ IH];
    intros outs2 own2 s2 H2; inversion H2; subst; auto.
  - replace l0 with l in * by congruence. eauto.
  - match goal with K : nth_error own h = Some ?x |- _ => replace x with l in * by congruence end.
    match goal with K : calls _ _ _ _ _ |- _ => destruct (calls_det _ _ _ _ _ _ _ _ _ _ _ _ Hc K) as [[= <- <-] <-] end.
    match goal with K : _ p own s1 evs _ _ _ |- _ => destruct (IH _ _ _ K) as (-> & -> & ->) end. auto.
Qed.
Lemma writes_det p own s evs outs own1 s1 : writes p own s evs outs own1 s1 -> forall outs' own1' s1', writes p own s evs outs' own1' s1' ->
  outs = outs' /\ own1 = own1' /\ s1 = s1'.
Proof.
  induction 1 as [own s|own s h l a evs outs own' s' Hl _ IH|own s a evs outs own' s' _ IH|own s h l o n c k err s1 evs outs own' s' Hl Hc _ IH];
    intros outs2 own2 s2 H2; inversion H2; subst; auto.
  - replace l0 with l in * by congruence. eauto.
  - match goal with K : nth_error own h = Some ?x |- _ => replace x with l in * by congruence end.
    match goal with K : calls _ _ _ _ _ |- _ => destruct (calls_det _ _ _ _ _ _ _ _ _ _ _ _ Hc K) as [[= <- <-] <-] end.
    match goal with K : _ p own s1 evs _ _ _ |- _ => destruct (IH _ _ _ K) as (-> & -> & ->) end. auto.
Qed.

Section Gs.
Variable A : list (list Z).
Variable gs : list (list event).
Hypothesis Hnil : has_nil A.
Notation L := (length A).
Notation LL := (map zlen A).
Notation own := (seq 0 (length A)).

Lemma zlen_empty (a : list Z) : zlen a = 0 -> a = [].
Proof. destruct a; [reflexivity|]. rewrite zlen_cons. pose proof (zlen_nonneg a). lia. Qed.
Lemma cell0 (s : state) : map zlen (seen (arrs E s) own) = LL -> cell (arrs E s) 0 = [].
Proof.
  intros H. apply zlen_empty. destruct Hnil as [H1 H2]. assert (nth 0 (map zlen (seen (arrs E s) own)) 0 = nth 0 LL 0) as Hx by now rewrite H.
  destruct A as [|a A']; [cbn in H1; lia|]. cbn in Hx, H2. rewrite Hx, H2. reflexivity.
Qed.
Lemma zlen_upd (C : list (list Z)) h a : nth_error C h <> None -> zlen a = zlen (nth h C []) -> map zlen (set_nth h a C) = map zlen C.
Proof.
  intros Hc H. rewrite map_upd, H. apply set_nth_id. rewrite nth_error_map. destruct (nth_error C h) as [x|] eqn:Hx; [|congruence].
  cbn. f_equal. f_equal. symmetry. now apply nth_error_nth.
Qed.
Lemma R_nil fills : apart fills gs -> R fills L gs 0.
Proof. intros H. split; [apply Hnil|]. intros g Hg. apply (proj2 H g Hg). Qed.
Lemma slice_rel_self fills w l sl (s : state) : map zlen (seen (arrs E s) own) = LL -> apart fills gs ->
  (l = 0%nat \/ (L <= l)%nat) -> ref (arrs E s) l sl -> ((L <= l)%nat -> In (l, l) (wa w)) ->
  forall o n c, 0 <= n <= c -> c <= scap sl -> val_rel (R fills L gs) w true (VSlice l o n c) (VSlice l o n c).
Proof.
  intros Hz Hap Hl (Hl1 & Hl2 & Hok) Hw o n c Hn Hc. cbn. repeat split. destruct Hl as [->|Hl]; [right|left; auto].
  split; [reflexivity|]. split; [apply R_nil; exact Hap|]. right. rewrite (cell0 s Hz) in Hl2.
  unfold scap in Hc. rewrite <- Hl2 in Hc. change (zlen (@nil Z)) with 0 in Hc. lia.
Qed.

(** ** The Reader *)
Section Reader.
Hypothesis Hrdb : forall x k, Forall is_byte (snd (fst (fst (rd kx x k)))).
Hypothesis Hok : Forall (Forall (event_ok 1 LL)) gs.
Hypothesis Hap : apart true gs.
Variable fuel : nat.
Variables p pt : nat.

Definition ready (r : reader E) : Prop := forall ns, Forall (fun n => 0 < n) ns -> exists outs r', model_reads grow E rd kx fuel r ns outs r'.
Definition rsafe (s : state) (todos : list (list event)) : Prop :=
  exists ls lr r, is_reader E kx s p pt ls lr r /\ ext E s = r_src _ r /\ (L <= length (arrs E s))%nat /\
    mine (arrs E s) own ls /\ mine (arrs E s) own lr /\ (ls = 0%nat \/ (L <= ls)%nat) /\ (lr = 0%nat \/ (L <= lr)%nat) /\
    map zlen (seen (arrs E s) own) = LL /\ Forall (Forall (event_ok 1 LL)) todos /\ ready r.

Lemma rsafe_footing s todos : rsafe s todos -> footing E p true L gs s.
Proof.
  intros (ls & lr & r & (Hne & cdv & Hp & Hpt & R1 & R2 & R3 & R4 & R5 & R6 & lc & oc & cc & -> & Hcc & Hcd & Hlc) & Hx & HL & _ & _ & Hls & Hlr & Hz & _ & _).
  set (w := mkWorld ((if (L <=? ls)%nat then [(ls, ls)] else []) ++ (if (L <=? lr)%nat then [(lr, lr)] else [])) [(p, p); (pt, pt)]).
  assert (W1 : (L <= ls)%nat -> In (ls, ls) (wa w)).
  { intros H. cbn. apply in_or_app. left. apply Nat.leb_le in H. rewrite H. left. reflexivity. }
  assert (W2 : (L <= lr)%nat -> In (lr, lr) (wa w)).
  { intros H. cbn. apply in_or_app. right. apply Nat.leb_le in H. rewrite H. left. reflexivity. }
  assert (W3 : forall x y, In (x, y) (wa w) -> x = y /\ (L <= x)%nat).
  { cbn. intros x y H. apply in_app_or in H. destruct H as [H|H].
    - destruct (L <=? ls)%nat eqn:Hc; [|contradiction]. destruct H as [[= <- <-]|[]]. apply Nat.leb_le in Hc. auto.
    - destruct (L <=? lr)%nat eqn:Hc; [|contradiction]. destruct H as [[= <- <-]|[]]. apply Nat.leb_le in Hc. auto. }
  pose proof (proj2 (proj2 R1)) as S1. pose proof (proj2 (proj2 R2)) as S2. unfold slice_ok in S1, S2.
  assert (Hscr : forall o n c, 0 <= n <= c -> c <= scap (r_scratch _ r) -> val_rel (R true L gs) w true (VSlice ls o n c) (VSlice ls o n c))
    by (eapply slice_rel_self; eassumption).
  assert (Hrdt : forall o n c, 0 <= n <= c -> c <= scap (r_rdata _ r) -> val_rel (R true L gs) w true (VSlice lr o n c) (VSlice lr o n c))
    by (eapply slice_rel_self; eassumption).
  exists w. split; [|split; [|split; [left; reflexivity|]]].
  - split; [intros x y H; now apply W3 in H|]. cbn. intros x y [[= <- <-]|[[= <- <-]|[]]]; reflexivity.
  - intros x Hx'. cbn in Hx'. destruct Hx' as [[= <-]|[[= <-]|[]]].
    + eexists. split; [exact Hp|]. split; [reflexivity|]. unfold rob. cbn [snd].
      split; [split; [reflexivity|reflexivity]|]. split; [split; [reflexivity|cbn; auto]|].
      split; [split; [reflexivity|]|split; [split; [reflexivity|]|split; [split; [reflexivity|reflexivity]|exact I]]]; cbn [snd].
      * destruct Hlc as [[-> Hc]|[-> ->]]; [apply Hscr; lia|]. cbn. repeat split. right. split; [reflexivity|].
        split; [apply R_nil; exact Hap|right; lia].
      * apply Hrdt; lia.
    + eexists. split; [exact Hpt|]. split; [reflexivity|]. unfold tr. cbn [snd].
      split; [split; [reflexivity|reflexivity]|]. split; [|exact I]. split; [reflexivity|]. cbn [snd]. apply Hscr; lia.
  - intros x H. now apply W3 in H.
Qed.

Lemma ready_step r n : ready r -> 0 < n -> exists bs err r1, Read3 grow E (rd kx) fuel r n = Ok (bs, err, r1) /\ ready r1.
Proof.
  intros Hr Hn. destruct (Hr [n]) as (outs & r' & H); [repeat constructor; assumption|].
  inversion H as [|? ? ? bs err r1 outs1 r2 Hread _]; subst. exists bs, err, r1. split; [assumption|].
  intros ns Hns. destruct (Hr (n :: ns)) as (outs2 & r3 & H2); [constructor; assumption|].
  inversion H2 as [|? ? ? bs2 err2 r12 outs3 r4 Hread2 H3]; subst. rewrite Hread in Hread2. injection Hread2 as <- <- <-. eauto.
Qed.

Lemma rsafe_store s todos i h a evs : rsafe s todos -> nth_error todos i = Some (Store h a :: evs) -> rsafe (set_arr E s h a) (set_nth i evs todos).
Proof.
  intros (ls & lr & r & Hr & Hx & HL & M1 & M2 & Hls & Hlr & Hz & Htd & Hrd) Hi.
  pose proof Htd as Htd'. rewrite Forall_forall in Htd. specialize (Htd _ (nth_error_In _ _ Hi)). inversion Htd as [|? ? He1 He2]; subst. cbn in He1.
  assert (h < L)%nat as Hh by (rewrite <- (map_length zlen); apply nth_error_Some; congruence).
  assert (Hin : In h own) by (apply in_seq; lia). destruct (M1 h Hin) as [Hhl S1]. destruct (M2 h Hin) as [_ S2].
  assert (Hlen : zlen a = zlen (cell (arrs E s) h)).
  { rewrite <- Hz in He1. unfold seen in He1. rewrite map_map, nth_error_map, nth_seq in He1 by assumption. cbn in He1. congruence. }
  apply length_zlen in Hlen.
  exists ls, lr, r. split; [now apply is_reader_store|]. split; [assumption|]. cbn [set_arr arrs]. rewrite set_nth_len.
  split; [assumption|]. split; [now apply mine_store|]. split; [now apply mine_store|]. split; [assumption|]. split; [assumption|].
  split; [|split; [apply Forall_upd; assumption|assumption]].
  rewrite <- Hz. unfold seen. rewrite !map_map. apply map_ext_in. intros j Hj. destruct (Nat.eq_dec h j) as [->|]; [|now rewrite cell_set_ne].
  rewrite cell_set by assumption. unfold zlen. now rewrite Hlen.
Qed.

Lemma rsafe_use s todos i h o k c evs : rsafe s todos -> nth_error todos i = Some (Use h o k c :: evs) ->
  exists v s1 b, calls "cp949Reader.Read" [VPtr p; VSlice h o k c] s v s1 /\ look_read (array (arrs E s1) h) o v = Some b /\ footing E p true L gs s /\
    rsafe s1 (set_nth i evs todos).
Proof.
  intros Hs Hi. pose proof (rsafe_footing s todos Hs) as Hfoot.
  destruct Hs as (ls & lr & r & Hr & Hx & HL & M1 & M2 & Hls & Hlr & Hz & Htd & Hrd).
  pose proof Htd as Htd'. rewrite Forall_forall in Htd. specialize (Htd _ (nth_error_In _ _ Hi)). inversion Htd as [|? ? He1 He2]; subst. cbn in He1.
  destruct He1 as (len & He1 & Ho & Hk & Hc).
  assert (h < L)%nat as Hh by (rewrite <- (map_length zlen); apply nth_error_Some; congruence).
  assert (Hin : In h own) by (apply in_seq; lia). destruct (M1 h Hin) as [Hhl S1]. destruct (M2 h Hin) as [_ S2].
  assert (Hlen : len = zlen (cell (arrs E s) h)).
  { rewrite <- Hz in He1. unfold seen in He1. rewrite map_map, nth_error_map, nth_seq in He1 by assumption. cbn in He1. congruence. }
  destruct (ready_step r k Hrd) as (bs & err & r1 & Hread & Hrd1); [lia|].
  destruct (go_Read grow E rd wr kx Hrdb fuel s p pt ls lr r h o k c (ztake k (zdrop o (cell (arrs E s) h))) bs err r1)
    as (s1 & ls' & lr' & Hr1 & Hx1 & _ & Hbn & Hle & Hls' & Hlr' & Hcell & Hoth & _ & N & Hrun); try assumption.
  { repeat split; try assumption; lia. }
  exists (VTuple [VInt (zlen bs); VErr err]), s1. eexists. split; [exists N; exact Hrun|]. split; [reflexivity|]. split; [exact Hfoot|].
  assert (Hw : zlen (zwrite (cell (arrs E s) h) o bs) = zlen (cell (arrs E s) h)) by (apply zlen_zwrite; lia).
  assert (Hzl : forall j, In j own -> zlen (cell (arrs E s1) j) = zlen (cell (arrs E s) j)).
  { intros j Hj. destruct (Nat.eq_dec j h) as [->|]; [now rewrite Hcell|]. rewrite Hoth; try assumption; [reflexivity|apply M1|apply M1|apply M2]; assumption. }
  assert (Hmine : forall m m', mine (arrs E s) own m -> (m' = m \/ (length (arrs E s) <= m')%nat) -> mine (arrs E s1) own m').
  { intros m m' Hm0 Hy j Hj. destruct (Hm0 j Hj) as [Hj1 Hj2]. split; [lia|].
    destruct Hy as [->|Hy]; [|left; lia]. destruct Hj2 as [Hj2|Hj2]; [left; assumption|]. right. apply zlen_empty.
    rewrite (Hzl j Hj), Hj2. reflexivity. }
  exists ls', lr', r1. split; [assumption|]. split; [assumption|]. split; [lia|].
  split; [eapply Hmine; [exact M1|assumption]|]. split; [eapply Hmine; [exact M2|assumption]|]. split; [lia|]. split; [lia|].
  split; [|split; [apply Forall_upd; assumption|assumption]].
  rewrite <- Hz. unfold seen. rewrite !map_map. apply map_ext_in. assumption.
Qed.

Lemma gs_range m h g : Forall (Forall (event_ok m LL)) gs -> In g gs -> In h (arrays_used g) -> (h < L)%nat.
Proof.
  intros Hg Hi Hh. rewrite Forall_forall in Hg. specialize (Hg g Hi). unfold arrays_used in Hh. apply in_flat_map in Hh. destruct Hh as (ev & H1 & H2).
  rewrite Forall_forall in Hg. rewrite <- (map_length zlen). eapply event_ok_range; [apply Hg; exact H1|exact H2].
Qed.

Lemma team_reads s : rsafe s gs -> arrs E s = A ->
  exists N, forall n, (N <= n)%nat -> exists bound, forall m t,
    team_steps grow rd wr prog_cp949 "cp949Reader.Read" p look_read n m (team_start s gs) t ->
    (m <= bound)%nat /\ ~ team_race t /\
    (team_ended t \/ exists t', team_step grow rd wr prog_cp949 "cp949Reader.Read" p look_read n t t') /\
    (team_ended t -> exists order outs, merges gs (m_workers t) order outs /\
       reads p own s (map snd order) (map snd outs) own (m_state t)).
Proof.
  intros Hs Ha.
  apply (team_sound grow E (list Z * option error) rd wr prog_cp949 "cp949Reader.Read" p look_read true L gs) with
    (Sess := fun evs outs s' => reads p own s evs outs own s') (Safe := rsafe).
  - vm_compute. reflexivity.
  - vm_compute. reflexivity.
  - exact (searches_source Cp949).
  - exact Hap.
  - intros g h. now apply gs_range with (m := 1).
  - apply Hnil.
  - intros evs outs s1 h a Hss Hh. rewrite <- (app_nil_r outs). eapply reads_app; [exact Hss|]. econstructor; [apply nth_seq; exact Hh|constructor].
  - intros evs outs s1 h o k c v s2 b Hss Hh Hc Hl. destruct v as [| | | | | | | | | |vs]; try discriminate Hl.
    destruct vs as [|v1 [|v2 [|]]]; try discriminate Hl; destruct v1; try discriminate Hl; destruct v2; try discriminate Hl. injection Hl as <-.
    eapply reads_app; [exact Hss|]. econstructor; [apply nth_seq; exact Hh|exact Hc|constructor].
  - apply rsafe_store.
  - apply rsafe_use.
  - exact Hs.
  - constructor.
  - rewrite Ha. reflexivity.
Qed.
End Reader.

(** ** The Writer *)
Section Writer.
Hypothesis Hok : Forall (Forall (event_ok 0 LL)) gs.
Hypothesis Hap : apart false gs.
Hypothesis Hby : Forall (Forall event_bytes) gs.
Variables p pt : nat.

Definition wsafe (s : state) (todos : list (list event)) : Prop :=
  exists ls w, is_writer E kx s p pt ls w /\ ext E s = w_dst _ w /\ (L <= length (arrs E s))%nat /\
    mine (arrs E s) own ls /\ (ls = 0%nat \/ (L <= ls)%nat) /\
    map zlen (seen (arrs E s) own) = LL /\ (forall j, In j own -> Forall is_byte (cell (arrs E s) j)) /\
    Forall (Forall (event_ok 0 LL)) todos /\ Forall (Forall event_bytes) todos.

Lemma wsafe_footing s todos : wsafe s todos -> footing E p false L gs s.
Proof.
  intros (ls & w0 & (Hne & Hp & Hpt & R1 & Hbuf) & Hx & HL & _ & Hls & Hz & _).
  set (w := mkWorld (if (L <=? ls)%nat then [(ls, ls)] else []) [(p, p); (pt, pt)]).
  assert (W1 : (L <= ls)%nat -> In (ls, ls) (wa w)).
  { intros H. cbn. apply Nat.leb_le in H. rewrite H. left. reflexivity. }
  assert (W3 : forall x y, In (x, y) (wa w) -> x = y /\ (L <= x)%nat).
  { cbn. intros x y H. destruct (L <=? ls)%nat eqn:Hc; [|contradiction]. destruct H as [[= <- <-]|[]]. apply Nat.leb_le in Hc. auto. }
  pose proof (proj2 (proj2 R1)) as S1. unfold slice_ok in S1.
  assert (Hscr : forall o n c, 0 <= n <= c -> c <= scap (w_scratch _ w0) -> val_rel (R false L gs) w true (VSlice ls o n c) (VSlice ls o n c))
    by (eapply slice_rel_self; eassumption).
  exists w. split; [|split; [|split; [left; reflexivity|]]].
  - split; [intros x y H; now apply W3 in H|]. cbn. intros x y [[= <- <-]|[[= <- <-]|[]]]; reflexivity.
  - intros x Hx'. cbn in Hx'. destruct Hx' as [[= <-]|[[= <-]|[]]].
    + eexists. split; [exact Hp|]. split; [reflexivity|]. unfold wob. cbn [snd].
      split; [split; [reflexivity|reflexivity]|]. split; [split; [reflexivity|cbn; auto]|].
      split; [split; [reflexivity|]|exact I]. cbn [snd]. cbn. repeat split. right. split; [reflexivity|].
      split; [apply R_nil; exact Hap|right; lia].
    + eexists. split; [exact Hpt|]. split; [reflexivity|]. unfold tr. cbn [snd].
      split; [split; [reflexivity|reflexivity]|]. split; [|exact I]. split; [reflexivity|]. cbn [snd]. apply Hscr; lia.
  - intros x H. now apply W3 in H.
Qed.

Lemma wsafe_store s todos i h a evs : wsafe s todos -> nth_error todos i = Some (Store h a :: evs) -> wsafe (set_arr E s h a) (set_nth i evs todos).
Proof.
  intros (ls & w & Hw & Hx & HL & M1 & Hls & Hz & Hb & Htd & Hte) Hi.
  pose proof Htd as Htd'. rewrite Forall_forall in Htd. specialize (Htd _ (nth_error_In _ _ Hi)). inversion Htd as [|? ? He1 He2]; subst. cbn in He1.
  pose proof Hte as Hte'. rewrite Forall_forall in Hte. specialize (Hte _ (nth_error_In _ _ Hi)). inversion Hte as [|? ? Hf1 Hf2]; subst. cbn in Hf1.
  assert (h < L)%nat as Hh by (rewrite <- (map_length zlen); apply nth_error_Some; congruence).
  assert (Hin : In h own) by (apply in_seq; lia). destruct (M1 h Hin) as [Hhl S1].
  assert (Hlen : zlen a = zlen (cell (arrs E s) h)).
  { rewrite <- Hz in He1. unfold seen in He1. rewrite map_map, nth_error_map, nth_seq in He1 by assumption. cbn in He1. congruence. }
  apply length_zlen in Hlen.
  exists ls, w. split; [now apply is_writer_store|]. split; [assumption|]. cbn [set_arr arrs]. rewrite set_nth_len.
  split; [assumption|]. split; [now apply mine_store|]. split; [assumption|]. split.
  { rewrite <- Hz. unfold seen. rewrite !map_map. apply map_ext_in. intros j Hj. destruct (Nat.eq_dec h j) as [->|]; [|now rewrite cell_set_ne].
    rewrite cell_set by assumption. unfold zlen. now rewrite Hlen. }
  split; [|split; apply Forall_upd; assumption].
  intros j Hj. destruct (Nat.eq_dec h j) as [->|]; [|rewrite cell_set_ne by assumption; auto]. now rewrite cell_set.
Qed.

Lemma wsafe_use s todos i h o k c evs : wsafe s todos -> nth_error todos i = Some (Use h o k c :: evs) ->
  exists v s1 b, calls "cp949Writer.Write" [VPtr p; VSlice h o k c] s v s1 /\ look_write (array (arrs E s1) h) o v = Some b /\ footing E p false L gs s /\
    wsafe s1 (set_nth i evs todos).
Proof.
  intros Hs Hi. pose proof (wsafe_footing s todos Hs) as Hfoot.
  destruct Hs as (ls & w & Hw & Hx & HL & M1 & Hls & Hz & Hb & Htd & Hte).
  pose proof Htd as Htd'. rewrite Forall_forall in Htd. specialize (Htd _ (nth_error_In _ _ Hi)). inversion Htd as [|? ? He1 He2]; subst. cbn in He1.
  pose proof Hte as Hte'. rewrite Forall_forall in Hte. specialize (Hte _ (nth_error_In _ _ Hi)). inversion Hte as [|? ? Hf1 Hf2]; subst.
  destruct He1 as (len & He1 & Ho & Hk & Hc).
  assert (h < L)%nat as Hh by (rewrite <- (map_length zlen); apply nth_error_Some; congruence).
  assert (Hin : In h own) by (apply in_seq; lia). destruct (M1 h Hin) as [Hhl S1].
  assert (Hlen : len = zlen (cell (arrs E s) h)).
  { rewrite <- Hz in He1. unfold seen in He1. rewrite map_map, nth_error_map, nth_seq in He1 by assumption. cbn in He1. congruence. }
  assert (Hwok : writer_ok E w) by (destruct Hw as (_ & _ & _ & (_ & _ & Hr) & Hbuf); split; assumption).
  assert (Hdb : Forall is_byte (ztake k (zdrop o (cell (arrs E s) h)))).
  { apply Forall_ztake, Forall_zdrop. auto. }
  assert (exists kk err w1, Write grow E (wr_model E wr kx) w (ztake k (zdrop o (cell (arrs E s) h))) = Ok (kk, err, w1)) as (kk & err & w1 & Hwr).
  { destruct (Write_spec grow E (wr_model E wr kx) w _ Hwok Hdb) as (w1 & _ & Hsp). destruct (ztake k (zdrop o (cell (arrs E s) h))) as [|x d].
    - destruct Hsp as [-> _]. eauto.
    - destruct (wr_model E wr kx (w_dst _ w) _) as [err dst]. destruct Hsp as [-> _]. eauto. }
  destruct (go_Write grow E rd wr kx s p pt ls w h o k c (ztake k (zdrop o (cell (arrs E s) h))) kk err w1)
    as (s1 & ls' & Hw1 & Hx1 & _ & (Hle & Hls' & Hoth & Hcl & _) & N & Hrun); try assumption.
  { repeat split; try assumption; lia. }
  exists (VTuple [VInt kk; VErr err]), s1. eexists. split; [exists N; exact Hrun|]. split; [reflexivity|]. split; [exact Hfoot|].
  assert (Hzl : forall j, In j own -> cell (arrs E s1) j = cell (arrs E s) j).
  { intros j Hj. destruct (M1 j Hj) as [Hj1 Hj2]. apply Hoth; assumption. }
  exists ls', w1. split; [assumption|]. split; [assumption|]. split; [lia|]. split.
  { intros j Hj. destruct (M1 j Hj) as [Hj1 Hj2]. split; [lia|]. unfold sep in *. rewrite (Hzl j Hj). destruct Hls' as [->|Hls']; [assumption|left; lia]. }
  split; [lia|]. split; [rewrite <- Hz; unfold seen; rewrite !map_map; apply map_ext_in; intros j Hj; now rewrite Hzl|].
  split; [intros j Hj; rewrite Hzl; auto|]. split; apply Forall_upd; assumption.
Qed.

Lemma team_writes s : wsafe s gs -> arrs E s = A ->
  exists N, forall n, (N <= n)%nat -> exists bound, forall m t,
    team_steps grow rd wr prog_cp949 "cp949Writer.Write" p look_write n m (team_start s gs) t ->
    (m <= bound)%nat /\ ~ team_race t /\
    (team_ended t \/ exists t', team_step grow rd wr prog_cp949 "cp949Writer.Write" p look_write n t t') /\
    (team_ended t -> exists order outs, merges gs (m_workers t) order outs /\
       writes p own s (map snd order) (map snd outs) own (m_state t)).
Proof.
  intros Hs Ha.
  apply (team_sound grow E (Z * option error) rd wr prog_cp949 "cp949Writer.Write" p look_write false L gs) with
    (Sess := fun evs outs s' => writes p own s evs outs own s') (Safe := wsafe).
  - vm_compute. reflexivity.
  - vm_compute. reflexivity.
  - exact (searches_source Cp949).
  - exact Hap.
  - intros g h. now apply gs_range with (m := 0).
  - apply Hnil.
  - intros evs outs s1 h a Hss Hh. rewrite <- (app_nil_r outs). eapply writes_app; [exact Hss|]. econstructor; [apply nth_seq; exact Hh|constructor].
  - intros evs outs s1 h o k c v s2 b Hss Hh Hc Hl. destruct v as [| | | | | | | | | |vs]; try discriminate Hl.
    destruct vs as [|v1 [|v2 [|]]]; try discriminate Hl; destruct v1; try discriminate Hl; destruct v2; try discriminate Hl. injection Hl as <-.
    eapply writes_app; [exact Hss|]. econstructor; [apply nth_seq; exact Hh|exact Hc|constructor].
  - apply wsafe_store.
  - apply wsafe_use.
  - exact Hs.
  - constructor.
  - rewrite Ha. reflexivity.
Qed.
End Writer.
End Gs.

Lemma gs_ok m fills (A : list (list Z)) gs : apart fills gs -> Forall (sensible m (map zlen A)) gs -> Forall (Forall (event_ok m (map zlen A))) gs.
Proof.
  intros [_ Hap] H. apply Forall_forall. intros g Hg. rewrite Forall_forall in H. apply sensible_ok; [apply (proj2 (Hap g Hg))|auto].
Qed.
Lemma order_sensible m fills (A : list (list Z)) gs {B} (ws : list (worker B)) order outs : apart fills gs -> Forall (sensible m (map zlen A)) gs -> merges gs ws order outs ->
  sensible m (map zlen A) (map snd order).
Proof.
  intros Hap H Hm. pose proof (merged_all _ _ _ _ _ Hm (gs_ok m fills A gs Hap H)) as Hall. apply sensible_ok; [|assumption].
  intros a Ha. rewrite Forall_forall in Hall. exact (Hall _ Ha).
Qed.
Lemma seen_init (A : list (list Z)) : map zlen (seen A (seq 0 (length A))) = map zlen A.
Proof. now rewrite own_all. Qed.

Lemma locked_reader (Hrdb : forall x k, Forall is_byte (snd (fst (fst (rd kx x k))))) rd1 A O X stream rs e gs :
  reports (rd kx) rd1 -> has_nil A -> delivers rd1 X stream e -> decodes stream rs ->
  Forall (sensible 1 (map zlen A)) gs -> apart true gs ->
  exists p s0, calls "NewReader" [VExt kx] (mkState E A O X) (VTuple [VPtr p; VErr None]) s0 /\ arrs E s0 = A /\
  exists N, forall n, (N <= n)%nat -> exists bound, forall m t,
    team_steps grow rd wr prog_cp949 "cp949Reader.Read" p look_read n m (team_start s0 gs) t ->
    (m <= bound)%nat /\ ~ team_race t /\
    (team_ended t \/ exists t', team_step grow rd wr prog_cp949 "cp949Reader.Read" p look_read n t t') /\
    (team_ended t -> exists order outs, merges gs (m_workers t) order outs /\
       reads p (seq 0 (length A)) s0 (map snd order) (map snd outs) (seq 0 (length A)) (m_state t) /\
       map (array (arrs E (m_state t))) (seq 0 (length A)) = after_reads A (map snd order) (map snd outs) /\
       served e (utf8 rs) (sizes (map snd order)) (map snd outs)).
Proof.
  intros Hrep Hnil Hd Hdec Hsens Hap.
  destruct (go_NewReader grow E rd wr kx A O X Hnil) as (s0 & Hr & Hx & Ha & _ & _ & Hrun).
  assert (Hcall : calls "NewReader" [VExt kx] (mkState E A O X) (VTuple [VPtr (Datatypes.S (length O)); VErr None]) s0)
    by (exists 2%nat; intros n Hle; destruct n as [|[|n]]; [lia|lia|apply Hrun]).
  exists (Datatypes.S (length O)), s0. split; [exact Hcall|]. split; [exact Ha|].
  assert (Hsafe : rsafe A (length stream + 4) (Datatypes.S (length O)) (length O) s0 gs).
  { exists 0%nat, 0%nat, (NewReader X). split; [assumption|]. split; [assumption|]. rewrite Ha. split; [lia|].
    split; [now apply mine_all|]. split; [now apply mine_all|]. split; [auto|]. split; [auto|]. split; [apply seen_init|].
    split; [eapply gs_ok; eassumption|]. intros ns Hns.
    assert (Hb : Forall is_byte stream) by (eapply decodes_bytes; eassumption).
    pose proof (C79_lemma grow E rd1 X stream (utf8 rs) e (length stream + 4) Hb Hd (From_decodes grow stream rs Hdec) ltac:(lia)) as Hdel.
    destruct (served_sim grow E rd1 (length stream + 4) e ltac:(lia) ns _ _ Hns Hdel) as (outs & r' & Hm & _).
    destruct (model_reads_alike grow E rd kx rd1 (length stream + 4) Hrep _ _ _ _ Hm (NewReader X)) as (q' & Hq & _); [now apply new_alike|]. eauto. }
  destruct (team_reads A gs Hnil Hrdb (gs_ok _ _ _ _ Hap Hsens) Hap _ _ _ s0 Hsafe Ha) as [N HN].
  exists N. intros n Hn. destruct (HN n Hn) as [bound Hb]. exists bound. intros m t Ht. destruct (Hb m t Ht) as (H1 & H2 & H3 & H4).
  split; [exact H1|]. split; [exact H2|]. split; [exact H3|]. intros Hend. destruct (H4 Hend) as (order & outs & Hm & Hreads). exists order, outs.
  split; [exact Hm|]. split; [exact Hreads|].
  destruct (reader_session grow E rd wr kx Hrdb rd1 A O X stream rs e (map snd order) Hrep Hnil Hd Hdec (order_sensible _ _ _ _ _ _ _ Hap Hsens Hm))
    as (p' & s0' & outs' & own' & s' & G1 & G2 & G3 & G4 & G5).
  destruct (calls_det _ _ _ _ _ _ _ _ _ _ _ _ Hcall G1) as [[= <-] <-].
  destruct (reads_det _ _ _ _ _ _ _ Hreads _ _ _ G3) as (-> & <- & <-). auto.
Qed.
End Stream.

Lemma locked_writer : exists f, char_code f /\
  forall grow E rd wr k A O X gs,
  has_nil A -> Forall (Forall is_byte) A -> Forall (Forall event_bytes) gs -> Forall (sensible 0 (map zlen A)) gs -> apart false gs ->
  exists p s0, calls grow E rd wr prog_cp949 "NewWriter" [VExt k] (mkState E A O X) (VTuple [VPtr p; VErr None]) s0 /\ arrs E s0 = A /\
  exists N, forall n, (N <= n)%nat -> exists bound, forall m t,
    team_steps grow rd wr prog_cp949 "cp949Writer.Write" p look_write n m (team_start s0 gs) t ->
    (m <= bound)%nat /\ ~ team_race t /\
    (team_ended t \/ exists t', team_step grow rd wr prog_cp949 "cp949Writer.Write" p look_write n t t') /\
    (team_ended t -> exists order outs pairs, merges gs (m_workers t) order outs /\
       writes grow E rd wr prog_cp949 p (seq 0 (length A)) s0 (map snd order) (map snd outs) (seq 0 (length A)) (m_state t) /\
       map (array (arrs E (m_state t))) (seq 0 (length A)) = after_writes A (map snd order) /\
       map fst pairs = chunks A (map snd order) /\
       (forall i g, nth_error gs i = Some g -> doings i (combine (callers order) (map fst pairs)) = chunks A g) /\
       Forall (fun q => exists rs, reads_as (fst q) rs /\ snd q = flat_map f rs) pairs /\
       let expected := writes_spec (fun x bs => let '(_, e, x') := wr k x bs in (e, x')) X pairs in
       map snd outs = fst expected /\ ext E (m_state t) = snd expected).
Proof.
  destruct source_writer as (f & Hf & Hsrc). exists f. split; [exact Hf|]. intros grow E rd wr k A O X gs Hnil HA Hby Hsens Hap.
  destruct (go_NewWriter grow E rd wr k A O X Hnil) as (s0 & Hw & Hx & Ha & _ & _ & Hrun).
  assert (Hcall : calls grow E rd wr prog_cp949 "NewWriter" [VExt k] (mkState E A O X) (VTuple [VPtr (Datatypes.S (length O)); VErr None]) s0)
    by (exists 2%nat; intros n Hle; destruct n as [|[|n]]; [lia|lia|apply Hrun]).
  exists (Datatypes.S (length O)), s0. split; [exact Hcall|]. split; [exact Ha|].
  pose proof (gs_ok 0 false A gs Hap Hsens) as Hok.
  assert (Hsafe : wsafe E k A (Datatypes.S (length O)) (length O) s0 gs).
  { exists 0%nat, (NewWriter X). split; [assumption|]. split; [assumption|]. rewrite Ha. split; [lia|].
    split; [now apply mine_all|]. split; [auto|]. split; [apply seen_init|]. split; [|auto].
    intros j Hj. apply in_seq in Hj. rewrite Forall_forall in HA. apply HA. apply nth_In. lia. }
  destruct (team_writes grow E rd wr k A gs Hnil Hok Hap _ _ s0 Hsafe Ha) as [N HN].
  exists N. intros n Hn. destruct (HN n Hn) as [bound Hb]. exists bound. intros m t Ht. destruct (Hb m t Ht) as (H1 & H2 & H3 & H4).
  split; [exact H1|]. split; [exact H2|]. split; [exact H3|]. intros Hend. destruct (H4 Hend) as (order & outs & Hm & Hwrites).
  destruct (Hsrc grow E rd wr k A O X (map snd order) Hnil HA (merged_all _ _ _ _ _ Hm Hby) (order_sensible _ _ _ _ _ _ _ Hap Hsens Hm))
    as (p' & s0' & pairs & own' & s' & G1 & G2 & G3 & G4 & G5 & G6 & G7).
  destruct (calls_det _ _ _ _ _ _ _ _ _ _ _ _ Hcall G1) as [[= <-] <-].
  destruct (writes_det _ _ _ _ _ _ _ _ _ _ _ Hwrites _ _ _ G5) as (Ho & <- & <-).
  exists order, outs, pairs. split; [exact Hm|]. split; [exact Hwrites|]. split; [exact G6|]. split; [exact G3|]. split; [|auto].
  intros i g Hg. destruct Hm as (Hlen & _ & Hids & Hmi).
  assert (Hds : forall j ev, In (j, ev) order -> exists g', nth_error gs j = Some g' /\ In ev g').
  { intros j ev Hin. pose proof (Hids j ev Hin) as Hj. assert (j < length (m_workers t))%nat as Hj' by lia. apply nth_error_Some in Hj, Hj'.
    destruct (nth_error gs j) as [g'|] eqn:Hg'; [|congruence]. destruct (nth_error (m_workers t) j) as [w|] eqn:Hw'; [|congruence].
    exists g'. split; [reflexivity|]. rewrite <- (proj1 (Hmi j g' w Hg' Hw')). unfold doings. apply in_map_iff. exists (j, ev). split; [reflexivity|].
    apply filter_In. split; [assumption|]. apply Nat.eqb_refl. }
  assert (Hgi : doings i order = g).
  { assert (i < length (m_workers t))%nat as Hi by (rewrite Hlen; apply nth_error_Some; congruence). apply nth_error_Some in Hi.
    destruct (nth_error (m_workers t) i) as [w|] eqn:Hw'; [|congruence]. exact (proj1 (Hmi i g w Hg Hw')). }
  rewrite G3. transitivity (chunks A (doings i order)); [|now rewrite Hgi]. apply chunks_of; [reflexivity|reflexivity| |].
  - intros j h a Hin Hji. destruct (Hds j _ Hin) as (g' & Hg' & Hin'). rewrite Hgi. apply (proj1 Hap j i g' g h Hji Hg' Hg).
    unfold arrays_changed. apply in_flat_map. exists (Store h a). split; [assumption|]. now left.
  - intros j a Hin. destruct (Hds j _ Hin) as (g' & Hg' & Hin'). exact (proj2 (proj2 Hap g' (nth_error_In _ _ Hg')) a Hin').
Qed.
