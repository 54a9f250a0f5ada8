(** From the refinement lemmas of GoHangul.v, GoHanja.v, GoCp949.v and GoStream.v to
    statements about the executed sources. *)
From Coq Require Import String ZArith List Bool Lia.
From Coq Require Import ZifyBool.
From Verif Require Import Base Utf8 SortSearch TableFrom TableTo HangulModel HanjaModel Cp949Model GoLang GoSource GoFacts
  GoHeap GoHangul GoHanja GoCp949 GoStream StreamModel StreamModel3 TransformModel IoModel Facts Utf8Facts SliceFacts
  Spec SpecCp949 SpecIO TableFacts Cp949Facts Cp949Facts2 StreamFacts StreamFacts2 StreamFacts3 StreamFacts5 PipeFacts PipeFacts2
  TransformFacts SourceSpec.
Import ListNotations.
Local Open Scope string_scope.
Local Open Scope list_scope.
Local Open Scope Z_scope.
Local Open Scope go_scope.
Local Opaque fromTable toTable.
Local Arguments run : simpl never.
Local Arguments zwrite : simpl never.
Local Arguments ztake : simpl never.
Local Arguments zdrop : simpl never.
Local Arguments cell : simpl never.

Lemma zwrite_take o (l bs : list Z) : 0 <= o -> o + zlen bs <= zlen l -> ztake (zlen bs) (zdrop o (zwrite l o bs)) = bs.
Proof.
  intros Ho Hl. unfold zwrite. pose proof (zlen_nonneg bs). rewrite zdrop_app_exact by (rewrite zlen_ztake by lia; lia).
  apply ztake_app_exact. reflexivity.
Qed.

Lemma map_set_nth {A B} (f : A -> B) h v l : map f (set_nth h v l) = set_nth h (f v) (map f l).
Proof. revert h; induction l as [|a l IH]; intros [|h]; cbn; congruence. Qed.

Lemma nth_error_map_some {A B} (f : A -> B) l h b : nth_error (map f l) h = Some b ->
  exists a, nth_error l h = Some a /\ f a = b.
Proof. rewrite nth_error_map. destruct (nth_error l h); cbn; [|discriminate]. intros [= <-]. eauto. Qed.

(** The arrays of a client, seen through [own]. *)
Definition seen (A : heap) (own : list nat) : list (list Z) := map (cell A) own.

Lemma seen_new (A : heap) own a : Forall (fun l => (l < length A)%nat) own -> seen (A ++ [a]) own = seen A own.
Proof.
  intros H. apply map_ext_in. intros l Hl. rewrite Forall_forall in H. apply cell_old, H, Hl.
Qed.

Lemma seen_change (A A' : heap) own h l a : NoDup own -> nth_error own h = Some l -> cell A' l = a ->
  (forall j, In j own -> j <> l -> cell A' j = cell A j) -> seen A' own = set_nth h a (seen A own).
Proof.
  intros Hn Hh Ha Hk. unfold seen. revert h Hh. induction own as [|x own IH]; intros h Hh; [destruct h; discriminate|].
  inversion Hn as [|? ? Hx Hn']; subst. destruct h as [|h]; cbn in Hh |- *.
  - injection Hh as ->. f_equal. apply map_ext_in. intros j Hj. apply Hk; [right; assumption|].
    intros ->. contradiction.
  - rewrite (IH Hn' (fun j Hj => Hk j (or_intror Hj)) h Hh). f_equal. apply Hk; [left; reflexivity|].
    intros ->. apply nth_error_In in Hh. contradiction.
Qed.

(** The bytes the client allocates itself. *)
Fixpoint client_bytes (evs : list event) : Z :=
  match evs with [] => 0 | Alloc a :: evs => zlen a + client_bytes evs | _ :: evs => client_bytes evs end.

Section Run.
Variable grow : Z -> Z -> Z.
Variable E : Type.
Variable rd : nat -> E -> Z -> Z * list Z * option error * E.
Variable wr : nat -> E -> list Z -> Z * option error * E.
Notation state := (state E).
Notation mk := (mkState E).
Notation calls := (calls grow E rd wr).

Lemma calls_det prog f args s v1 s1 v2 s2 : calls prog f args s v1 s1 -> calls prog f args s v2 s2 -> v1 = v2 /\ s1 = s2.
Proof.
  intros [N1 H1] [N2 H2]. specialize (H1 (max N1 N2) ltac:(lia)). specialize (H2 (max N1 N2) ltac:(lia)).
  rewrite H1 in H2. injection H2 as -> ->. auto.
Qed.

Section Numbered.
Variable kx : nat.
Section Reader.
Hypothesis Hrdb : forall x k, Forall is_byte (snd (fst (fst (rd kx x k)))).
Notation is_reader := (is_reader E kx).
Notation reader := (reader E).

(** The model's Reads, going on after errors. *)
Inductive model_reads (fuel : nat) : reader -> list Z -> list (list Z * option error) -> reader -> Prop :=
| mr_nil r : model_reads fuel r [] [] r
| mr_cons r n ns bs err r1 outs r2 : Read3 grow E (rd kx) fuel r n = Ok (bs, err, r1) ->
    model_reads fuel r1 ns outs r2 -> model_reads fuel r (n :: ns) ((bs, err) :: outs) r2.

Definition mine (A : heap) (own : list nat) (l : nat) : Prop := forall j, In j own -> (j < length A)%nat /\ sep A j l.

Lemma ref_store A l a sl j : ref A l sl -> sep A j l -> length a = length (cell A j) -> ref (set_nth j a A) l sl.
Proof.
  intros (Hl & Hc & Hok) Hs Ha. split; [rewrite set_nth_len; assumption|]. split; [|assumption].
  destruct (Nat.eq_dec j l) as [->|]; [|now rewrite cell_set_ne].
  destruct Hs as [Hs|Hs]; [congruence|]. rewrite Hs in Ha. rewrite cell_set by assumption.
  rewrite <- Hc, Hs. destruct a; [reflexivity|discriminate].
Qed.
Lemma sep_store A a j l1 l2 : (j < length A)%nat -> length a = length (cell A j) -> sep A l1 l2 -> sep (set_nth j a A) l1 l2.
Proof.
  intros Hj Ha [Hs|Hs]; [left; assumption|]. destruct (Nat.eq_dec j l1) as [->|]; [|right; now rewrite cell_set_ne].
  right. rewrite cell_set by assumption. rewrite Hs in Ha. destruct a; [reflexivity|discriminate].
Qed.
Lemma mine_store A own l j a : (j < length A)%nat -> length a = length (cell A j) -> mine A own l -> mine (set_nth j a A) own l.
Proof. intros Hj Ha H i Hi. destruct (H i Hi). rewrite set_nth_len. split; [assumption|]. now apply sep_store. Qed.
Lemma mine_new (A : heap) own l a : mine A own l -> (l < length A)%nat -> mine (A ++ [a]) (own ++ [length A]) l.
Proof.
  intros H Hl i Hi. rewrite app_length. cbn. apply in_app_or in Hi. destruct Hi as [Hi|[<-|[]]].
  - destruct (H i Hi) as [H1 [H2|H2]]; (split; [lia|]); [left; assumption|right; now rewrite cell_old].
  - split; [lia|]. left. lia.
Qed.

Lemma is_reader_store s p pt ls lr r j a : is_reader s p pt ls lr r -> (j < length (arrs E s))%nat ->
  sep (arrs E s) j ls -> sep (arrs E s) j lr -> length a = length (cell (arrs E s) j) ->
  is_reader (set_arr E s j a) p pt ls lr r.
Proof.
  intros (Hne & cdv & Hp & Hpt & R1 & R2 & R3 & R4) Hj H1 H2 Ha. split; [assumption|]. exists cdv.
  split; [assumption|]. split; [assumption|]. change (arrs E (set_arr E s j a)) with (set_nth j a (arrs E s)).
  split; [now apply ref_store|]. split; [now apply ref_store|]. split; [now apply sep_store|]. exact R4.
Qed.
Lemma is_reader_new s p pt ls lr r a : is_reader s p pt ls lr r -> is_reader (snd (new_arr E s a)) p pt ls lr r.
Proof.
  intros (Hne & cdv & Hp & Hpt & (A1 & A2 & A3) & (B1 & B2 & B3) & R3 & R4). split; [assumption|]. exists cdv.
  split; [assumption|]. split; [assumption|]. change (arrs E (snd (new_arr E s a))) with (arrs E s ++ [a]).
  split; [split; [rewrite app_length; cbn; lia|split; [now rewrite cell_old|assumption]]|].
  split; [split; [rewrite app_length; cbn; lia|split; [now rewrite cell_old|assumption]]|].
  split; [|exact R4]. destruct R3 as [R3|R3]; [left; assumption|right; now rewrite cell_old].
Qed.
Lemma is_reader_locs s p pt ls lr r : is_reader s p pt ls lr r -> (ls < length (arrs E s))%nat /\ (lr < length (arrs E s))%nat.
Proof. intros (_ & cdv & _ & _ & (H1 & _) & (H2 & _) & _). auto. Qed.

Lemma reads_sim fuel p pt evs : forall own s ls lr r outs r',
  is_reader s p pt ls lr r -> ext E s = r_src _ r -> NoDup own -> mine (arrs E s) own ls -> mine (arrs E s) own lr ->
  sensible 0 (map zlen (seen (arrs E s) own)) evs -> model_reads fuel r (sizes evs) outs r' ->
  exists own' s', reads grow E rd wr prog_cp949 p own s evs outs own' s' /\
    seen (arrs E s') own' = after_reads (seen (arrs E s) own) evs outs /\ ext E s' = r_src _ r' /\
    (exists ls' lr', is_reader s' p pt ls' lr' r' /\ NoDup own' /\ mine (arrs E s') own' ls' /\ mine (arrs E s') own' lr' /\
       (length (arrs E s) <= length (arrs E s'))%nat /\
       (ls' = ls \/ (length (arrs E s) <= ls')%nat) /\ (lr' = lr \/ (length (arrs E s) <= lr')%nat)) /\
    exists b b', regrows grow (scap (r_scratch _ r)) (scap (r_scratch _ r')) b /\
      regrows grow (scap (r_rdata _ r)) (scap (r_rdata _ r')) b' /\
      total (arrs E s') = total (arrs E s) + client_bytes evs + b + b'.
Proof.
  induction evs as [|[h a|a|h o n c] evs IH]; intros own s ls lr r outs r' Hr Hx Hnd Hms Hmr Hsens Hm.
  - inversion Hm; subst. exists own, s. split; [constructor|]. split; [reflexivity|]. split; [assumption|].
    split; [exists ls, lr; auto 8|]. exists 0, 0. split; [constructor|]. split; [constructor|]. cbn [client_bytes]. lia.
  - destruct Hsens as [Hh Hsens]. unfold seen in Hh. rewrite map_map in Hh. apply nth_error_map_some in Hh.
    destruct Hh as (l & Hh & Hlen). apply length_zlen in Hlen.
    assert (Hin : In l own) by (eapply nth_error_In; eassumption).
    destruct (Hms l Hin) as [Hl Hsl]. destruct (Hmr l Hin) as [_ Hsr].
    assert (Hs : seen (arrs E (set_arr E s l a)) own = set_nth h a (seen (arrs E s) own)).
    { apply (seen_change _ _ own h l a); try assumption.
      - apply cell_set. assumption.
      - intros j _ Hj. apply cell_set_ne. congruence. }
    destruct (IH own (set_arr E s l a) ls lr r outs r') as (own' & s' & H1 & H2 & H3 & H4 & b & b' & Hb & Hb' & Ht); try assumption.
    + apply is_reader_store; auto.
    + apply mine_store; auto.
    + apply mine_store; auto.
    + rewrite Hs, map_set_nth. replace (set_nth h (zlen a) (map zlen (seen (arrs E s) own))) with (map zlen (seen (arrs E s) own));
        [assumption|]. symmetry. apply set_nth_id. unfold seen. rewrite map_map, nth_error_map, Hh. cbn. f_equal.
      unfold zlen. now rewrite Hlen.
    + exists own', s'. split; [econstructor; eassumption|]. split; [cbn; now rewrite H2, Hs|]. split; [assumption|].
      split; [change (arrs E (set_arr E s l a)) with (set_nth l a (arrs E s)) in H4; rewrite set_nth_len in H4; exact H4|]. exists b, b'. split; [assumption|]. split; [assumption|]. rewrite Ht. cbn [client_bytes set_arr arrs].
      rewrite total_set by congruence. reflexivity.
  - destruct (is_reader_locs _ _ _ _ _ _ Hr) as [L1 L2].
    assert (Hs : seen (arrs E (snd (new_arr E s a))) (own ++ [fst (new_arr E s a)]) = seen (arrs E s) own ++ [a]).
    { unfold seen. rewrite map_app. cbn [new_arr fst snd arrs map]. rewrite cell_new. f_equal. apply seen_new. apply Forall_forall. intros j Hj.
      apply Hms. assumption. }
    destruct (IH (own ++ [fst (new_arr E s a)]) (snd (new_arr E s a)) ls lr r outs r') as (own' & s' & H1 & H2 & H3 & H4 & b & b' & Hb & Hb' & Ht); try assumption.
    + apply is_reader_new. assumption.
    + apply NoDup_rev in Hnd. rewrite <- (rev_involutive (own ++ _)), rev_app_distr. apply NoDup_rev. cbn.
      constructor; [|assumption]. rewrite <- in_rev. intros Hi. destruct (Hms _ Hi). lia.
    + apply mine_new; assumption.
    + apply mine_new; assumption.
    + rewrite Hs, map_app. exact Hsens.
    + exists own', s'. split; [constructor; assumption|]. split; [cbn in H2 |- *; rewrite H2; cbn in Hs; now rewrite Hs|].
      split; [assumption|]. split; [destruct H4 as (ls2 & lr2 & Q1 & Q2 & Q3 & Q4 & Q5 & Q6 & Q7); exists ls2, lr2; do 4 (split; [assumption|]); cbn [new_arr snd arrs] in Q5, Q6, Q7; rewrite app_length in Q5, Q6, Q7; cbn [length] in Q5, Q6, Q7; lia|].
      exists b, b'. split; [assumption|]. split; [assumption|]. rewrite Ht.
      cbn [client_bytes new_arr snd arrs]. rewrite total_app. cbn [total]. lia.
  - destruct Hsens as [(k & Hh & Ho & Hn & Hc) Hsens]. unfold seen in Hh. rewrite map_map in Hh.
    apply nth_error_map_some in Hh. destruct Hh as (l & Hh & Hlen).
    assert (Hin : In l own) by (eapply nth_error_In; eassumption).
    destruct (Hms l Hin) as [Hl Hsl]. destruct (Hmr l Hin) as [_ Hsr].
    cbn in Hm. inversion Hm as [|? ? ? bs err r1 outs' ? Hread Hm']; subst.
    destruct (go_Read grow E rd wr kx Hrdb fuel s p pt ls lr r l o n c (ztake n (zdrop o (cell (arrs E s) l))) bs err r1)
      as (s1 & ls' & lr' & Hr1 & Hx1 & _ & Hbn & Hle & Hls & Hlr & Hcell & Hoth & (b1 & b1' & Hb1 & Hb1' & Ht1) & N & Hrun); try assumption.
    { repeat split; try assumption; lia. }
    assert (Hs : seen (arrs E s1) own = set_nth h (zwrite (cell (arrs E s) l) o bs) (seen (arrs E s) own)).
    { apply (seen_change _ _ own h l); try assumption. intros j Hj Hjl. apply Hoth; try assumption; [apply Hms|apply Hms|apply Hmr]; assumption. }
    assert (Hw : zlen (zwrite (cell (arrs E s) l) o bs) = zlen (cell (arrs E s) l)) by (apply zlen_zwrite; lia).
    assert (Hnth : nth h (seen (arrs E s) own) [] = cell (arrs E s) l).
    { apply nth_error_nth. unfold seen. rewrite nth_error_map, Hh. reflexivity. }
    assert (Hmine : forall m m', mine (arrs E s) own m -> (m' = m \/ (length (arrs E s) <= m')%nat) -> mine (arrs E s1) own m').
    { intros m m' Hm0 Hy j Hj. destruct (Hm0 j Hj) as [Hj1 Hj2]. split; [lia|].
      destruct Hy as [->|Hy]; [|left; lia]. destruct Hj2 as [Hj2|Hj2]; [left; assumption|]. right.
      destruct (Nat.eq_dec j l) as [->|Hjl].
      - rewrite Hcell. rewrite Hj2 in Hw, Hc |- *. change (zlen (@nil Z)) with 0 in Hw, Hc.
        destruct (zwrite [] o bs) as [|x l']; [reflexivity|]. rewrite zlen_cons in Hw. pose proof (zlen_nonneg l'). lia.
      - rewrite Hoth by (first [assumption | apply Hms; assumption | apply Hmr; assumption]). assumption. }
    destruct (IH own s1 ls' lr' r1 outs' r') as (own' & s' & H1 & H2 & H3 & H4 & b & b' & Hb & Hb' & Ht); try assumption.
    + eapply Hmine; [|eassumption]; assumption.
    + eapply Hmine; [|eassumption]; assumption.
    + rewrite Hs, map_set_nth, Hw.
      replace (set_nth h (zlen (cell (arrs E s) l)) (map zlen (seen (arrs E s) own))) with (map zlen (seen (arrs E s) own)); [assumption|].
      symmetry. apply set_nth_id. unfold seen. now rewrite map_map, nth_error_map, Hh.
    + exists own', s'. split; [|split; [|split; [assumption|split; [destruct H4 as (ls2 & lr2 & Q1 & Q2 & Q3 & Q4 & Q5 & Q6 & Q7); exists ls2, lr2; do 4 (split; [assumption|]); lia|]]]].
      * assert (Hbs : ztake (zlen bs) (zdrop o (array (arrs E s1) l)) = bs).
        { change (array (arrs E s1) l) with (cell (arrs E s1) l). rewrite Hcell. apply zwrite_take; lia. }
        assert (Hxx : reads grow E rd wr prog_cp949 p own s (Use h o n c :: evs)
                       ((ztake (zlen bs) (zdrop o (array (arrs E s1) l)), err) :: outs') own' s')
          by (econstructor; [eassumption|exists N; exact Hrun|eassumption]).
        rewrite Hbs in Hxx. exact Hxx.
      * cbn [after_reads]. rewrite H2, Hs, Hnth. reflexivity.
      * destruct Hr as (_ & ? & _ & _ & (_ & C1 & _) & (_ & C2 & _) & _).
        destruct Hr1 as (_ & ? & _ & _ & (_ & C3 & _) & (_ & C4 & _) & _).
        rewrite C1, C3 in Hb1. rewrite C2, C4 in Hb1'.
        exists (b1 + b), (b1' + b'). split; [eapply regrows_trans; eassumption|]. split; [eapply regrows_trans; eassumption|].
        rewrite Ht, Ht1. cbn [client_bytes]. lia.
Qed.

(** What the model of StreamModel.v says of a reader that stores the bytes it reports. *)
Inductive model_reads1 (rd1 : E -> Z -> list Z * option error * E) (fuel : nat) :
    reader -> list Z -> list (list Z * option error) -> reader -> Prop :=
| mr1_nil r : model_reads1 rd1 fuel r [] [] r
| mr1_cons r n ns bs err r1 outs r2 : Read grow E rd1 fuel r n = Ok (bs, err, r1) ->
    model_reads1 rd1 fuel r1 ns outs r2 -> model_reads1 rd1 fuel r (n :: ns) ((bs, err) :: outs) r2.

Lemma model_reads_alike rd1 fuel : reports (rd kx) rd1 -> forall q ns outs q', model_reads1 rd1 fuel q ns outs q' ->
  forall r, alike E E eq r q -> exists r', model_reads fuel r ns outs r' /\ alike E E eq r' q'.
Proof.
  intros Hrep q ns outs q' H. induction H as [q|q n ns bs err q1 outs q2 Hr _ IH]; intros r Ha; [exists r; split; [constructor|assumption]|].
  assert (Hal : answers_alike E E (rd kx) rd1 eq).
  { intros x y k <-. pose proof (Hrep x k) as Hk. destruct (rd1 x k) as [[bs0 e0] x']. destruct Hk as [j Hj]. exists j, x'. auto. }
  pose proof (read_alike grow E E (rd kx) rd1 eq Hal fuel r q n Ha) as Hres. rewrite Hr in Hres.
  destruct (Read3 grow E (rd kx) fuel r n) as [[[bs' err'] r1]| |] eqn:Hr3; cbn in Hres; try contradiction.
  destruct Hres as [[= -> ->] Ha1]. destruct (IH r1 Ha1) as (r' & H1 & H2). exists r'. split; [|assumption].
  econstructor; eassumption.
Qed.

Lemma served_sim rd1 fuel e : (0 < fuel)%nat -> forall ns r rem, Forall (fun n => 0 < n) ns ->
  delivers (as_reader (Read grow E rd1 fuel)) r rem e ->
  exists outs r', model_reads1 rd1 fuel r ns outs r' /\ served e rem ns outs.
Proof.
  intros Hf. induction ns as [|n ns IH]; intros r rem Hns Hd; [exists [], r; split; constructor|].
  inversion Hns as [|? ? Hn Hns']; subst. inversion Hd as [? ? ? D1 D2 D3]; subst.
  destruct (Read grow E rd1 fuel r n) as [[[bs [e'|]] r1]| |] eqn:Hr.
  - pose proof (D1 n bs e' r1 Hn) as [-> [Hb _]]; [unfold as_reader; now rewrite Hr|].
    destruct (C49_lemma grow E rd1 fuel r n bs e r1 Hr) as [-> Hst]. subst rem.
    assert (Hrest : forall ns, exists outs r', model_reads1 rd1 fuel r1 ns outs r' /\ served e [] ns outs).
    { induction ns0 as [|k ks IHk]; [exists [], r1; split; constructor|]. destruct IHk as (outs & r' & I1 & I2).
      exists (([], Some e) :: outs), r'. split; [|now constructor]. econstructor; [|eassumption].
      destruct fuel as [|fuel']; [lia|]. apply Hst. }
    destruct (Hrest ns) as (outs & r' & I1 & I2). exists (([], Some e) :: outs), r'.
    split; [econstructor; eassumption|]. now constructor.
  - assert (Ha : as_reader (Read grow E rd1 fuel) r n = (bs, None, r1)) by (unfold as_reader; now rewrite Hr).
    destruct (D2 n bs r1 Hn Ha) as (Hb & Hl & rest & ->).
    pose proof (D3 n bs r1 Hn Ha) as Hd'. rewrite zdrop_app_exact in Hd' by reflexivity.
    destruct (IH r1 rest Hns' Hd') as (outs & r' & I1 & I2). exists ((bs, None) :: outs), r'.
    split; [econstructor; eassumption|]. now constructor.
  - destruct (D2 n [] r Hn) as (Hb & _); [unfold as_reader; now rewrite Hr|congruence].
  - destruct (D2 n [] r Hn) as (Hb & _); [unfold as_reader; now rewrite Hr|congruence].
Qed.

Lemma sensible_min m evs : forall L, 0 <= m -> sensible m L evs -> sensible 0 L evs.
Proof.
  induction evs as [|[h a|a|h o n c] evs IH]; intros L Hm; cbn; [auto|..].
  - intros [H1 H2]. auto.
  - auto.
  - intros [(k & H1 & H2 & H3 & H4) H5]. split; [exists k; repeat split; try assumption; lia|auto].
Qed.
Lemma sensible_sizes evs : forall L, sensible 1 L evs -> Forall (fun n => 0 < n) (sizes evs).
Proof.
  induction evs as [|[h a|a|h o n c] evs IH]; intros L; cbn; [constructor|..].
  - intros [_ H]. eauto.
  - eauto.
  - intros [(k & _ & _ & H & _) H5]. constructor; [lia|eauto].
Qed.

Lemma own_all (A : heap) : seen A (seq 0 (length A)) = A.
Proof.
  unfold seen. apply nth_ext with (d := []) (d' := []); rewrite map_length, seq_length; [reflexivity|].
  intros i Hi. rewrite (nth_indep _ [] (cell A 0)) by (rewrite map_length, seq_length; assumption).
  rewrite map_nth. now rewrite seq_nth.
Qed.
Lemma mine_all (A : heap) : nil_ok A -> mine A (seq 0 (length A)) 0.
Proof.
  intros [Hn He] j Hj. apply in_seq in Hj. split; [lia|]. destruct j as [|j]; [right; assumption|left; lia].
Qed.

(** Any client of a Reader, whatever the wrapped reader does. *)
Lemma reader_session3_spends A O X fuel evs outs r' :
  nil_ok A -> sensible 0 (map zlen A) evs -> model_reads fuel (NewReader X) (sizes evs) outs r' ->
  exists p s0 own s,
    calls prog_cp949 "NewReader" [VExt kx] (mk A O X) (VTuple [VPtr p; VErr None]) s0 /\ arrs E s0 = A /\
    reads grow E rd wr prog_cp949 p (seq 0 (length A)) s0 evs outs own s /\
    map (array (arrs E s)) own = after_reads A evs outs /\ ext E s = r_src _ r' /\
    exists b b', regrows grow 0 (scap (r_scratch _ r')) b /\ regrows grow 0 (scap (r_rdata _ r')) b' /\
      total (arrs E s) = total A + client_bytes evs + b + b'.
Proof.
  intros Hn Hsens Hm.
  destruct (go_NewReader grow E rd wr kx A O X Hn) as (s0 & Hr & Hx & Ha & _ & _ & Hrun).
  destruct (reads_sim fuel (S (length O)) (length O) evs (seq 0 (length A)) s0 0%nat 0%nat (NewReader X) outs r')
    as (own & s & H1 & H2 & H3 & _ & H4); try assumption.
  - apply seq_NoDup.
  - rewrite Ha. now apply mine_all.
  - rewrite Ha. now apply mine_all.
  - rewrite Ha, own_all. assumption.
  - exists (S (length O)), s0, own, s. split; [exists 2%nat; intros n Hle; destruct n as [|[|n]]; [lia|lia|apply Hrun]|].
    split; [assumption|]. split; [assumption|]. rewrite Ha, own_all in H2. split; [exact H2|].
    split; [assumption|]. rewrite Ha in H4. exact H4.
Qed.
Lemma reader_session3 A O X fuel evs outs r' :
  nil_ok A -> sensible 0 (map zlen A) evs -> model_reads fuel (NewReader X) (sizes evs) outs r' ->
  exists p s0 own s,
    calls prog_cp949 "NewReader" [VExt kx] (mk A O X) (VTuple [VPtr p; VErr None]) s0 /\ arrs E s0 = A /\
    reads grow E rd wr prog_cp949 p (seq 0 (length A)) s0 evs outs own s /\
    map (array (arrs E s)) own = after_reads A evs outs /\ ext E s = r_src _ r'.
Proof.
  intros Hn Hsens Hm.
  destruct (reader_session3_spends A O X fuel evs outs r' Hn Hsens Hm) as (p & s0 & own & s & H1 & H2 & H3 & H4 & H5 & _).
  exists p, s0, own, s. auto.
Qed.
Lemma reader_session_model rd1 A O X fuel evs outs r' : reports (rd kx) rd1 ->
  nil_ok A -> sensible 0 (map zlen A) evs -> model_reads1 rd1 fuel (NewReader X) (sizes evs) outs r' ->
  exists p s0 own s,
    calls prog_cp949 "NewReader" [VExt kx] (mk A O X) (VTuple [VPtr p; VErr None]) s0 /\ arrs E s0 = A /\
    reads grow E rd wr prog_cp949 p (seq 0 (length A)) s0 evs outs own s /\
    map (array (arrs E s)) own = after_reads A evs outs /\ ext E s = r_src _ r'.
Proof.
  intros Hrep Hn Hsens Hm.
  destruct (model_reads_alike rd1 fuel Hrep _ _ _ _ Hm (NewReader X)) as (q' & Hq & Hal); [now apply new_alike|].
  destruct Hal as (<- & _).
  destruct (reader_session3_spends A O X fuel evs outs q' Hn Hsens Hq) as (p & s0 & own & s & H1 & H2 & H3 & H4 & H5 & _).
  exists p, s0, own, s. auto.
Qed.
Lemma reader_session rd1 A O X stream rs e evs : reports (rd kx) rd1 ->
  nil_ok A -> delivers rd1 X stream e -> decodes stream rs -> sensible 1 (map zlen A) evs ->
  exists p s0 outs own s,
    calls prog_cp949 "NewReader" [VExt kx] (mk A O X) (VTuple [VPtr p; VErr None]) s0 /\ arrs E s0 = A /\
    reads grow E rd wr prog_cp949 p (seq 0 (length A)) s0 evs outs own s /\
    map (array (arrs E s)) own = after_reads A evs outs /\ served e (utf8 rs) (sizes evs) outs.
Proof.
  intros Hrep Hn Hd Hdec Hsens.
  assert (Hb : Forall is_byte stream) by (eapply decodes_bytes; eassumption).
  pose proof (C79_lemma grow E rd1 X stream (utf8 rs) e (length stream + 4) Hb Hd (From_decodes grow stream rs Hdec) ltac:(lia)) as Hdel.
  destruct (served_sim rd1 (length stream + 4) e ltac:(lia) (sizes evs) _ _ (sensible_sizes _ _ Hsens) Hdel) as (outs & r' & Hm & Hsv).
  destruct (reader_session_model rd1 A O X (length stream + 4) evs outs r' Hrep Hn) as (p & s0 & own & s & H1 & H2 & H3 & H4 & _); try assumption.
  - eapply sensible_min; [|eassumption]. lia.
  - exists p, s0, outs, own, s. auto.
Qed.
End Reader.

(** * Writer *)
Notation is_writer := (is_writer E kx).
Notation wr_model := (wr_model E wr kx).

Lemma is_writer_store s p pt ls w j a : is_writer s p pt ls w -> (j < length (arrs E s))%nat ->
  sep (arrs E s) j ls -> length a = length (cell (arrs E s) j) -> is_writer (set_arr E s j a) p pt ls w.
Proof.
  intros (Hne & Hp & Hpt & Hr & Hbuf) Hj H1 Ha. split; [assumption|]. split; [assumption|]. split; [assumption|].
  split; [now apply (ref_store (arrs E s) ls a (w_scratch E w) j)|]. assumption.
Qed.
Lemma is_writer_new s p pt ls w a : is_writer s p pt ls w -> is_writer (snd (new_arr E s a)) p pt ls w.
Proof.
  intros (Hne & Hp & Hpt & (A1 & A2 & A3) & Hbuf). split; [assumption|]. split; [assumption|]. split; [assumption|].
  split; [change (arrs E (snd (new_arr E s a))) with (arrs E s ++ [a]); split; [rewrite app_length; cbn; lia|split; [now rewrite cell_old|assumption]]|].
  assumption.
Qed.

Lemma writes_sim p pt evs : forall own s ls w outs w',
  is_writer s p pt ls w -> ext E s = w_dst _ w -> NoDup own -> mine (arrs E s) own ls ->
  sensible 0 (map zlen (seen (arrs E s) own)) evs -> Forall (Forall is_byte) (chunks (seen (arrs E s) own) evs) ->
  write_all grow E wr_model w (chunks (seen (arrs E s) own) evs) = Ok (outs, w') ->
  exists own' s', writes grow E rd wr prog_cp949 p own s evs outs own' s' /\
    seen (arrs E s') own' = after_writes (seen (arrs E s) own) evs /\ ext E s' = w_dst _ w' /\
    (exists ls', is_writer s' p pt ls' w' /\ NoDup own' /\ mine (arrs E s') own' ls' /\
       (length (arrs E s) <= length (arrs E s'))%nat /\ (ls' = ls \/ (length (arrs E s) <= ls')%nat)) /\
    exists b, regrows grow (scap (w_scratch _ w)) (scap (w_scratch _ w')) b /\
      total (arrs E s') = total (arrs E s) + client_bytes evs + b.
Proof.
  induction evs as [|[h a|a|h o n c] evs IH]; intros own s ls w outs w' Hw Hx Hnd Hms Hsens Hby Hm.
  - injection Hm as <- <-. exists own, s. split; [constructor|]. split; [reflexivity|]. split; [assumption|].
    split; [exists ls; auto 8|]. exists 0. split; [constructor|]. cbn [client_bytes]. lia.
  - destruct Hsens as [Hh Hsens]. unfold seen in Hh. rewrite map_map in Hh. apply nth_error_map_some in Hh.
    destruct Hh as (l & Hh & Hlen). apply length_zlen in Hlen.
    assert (Hin : In l own) by (eapply nth_error_In; eassumption).
    destruct (Hms l Hin) as [Hl Hsl].
    assert (Hs : seen (arrs E (set_arr E s l a)) own = set_nth h a (seen (arrs E s) own)).
    { apply (seen_change _ _ own h l a); try assumption.
      - apply cell_set. assumption.
      - intros j _ Hj. apply cell_set_ne. congruence. }
    cbn [chunks] in Hm, Hby. rewrite <- Hs in Hm, Hby.
    destruct (IH own (set_arr E s l a) ls w outs w') as (own' & s' & H1 & H2 & H3 & H4 & b & Hb & Ht); try assumption.
    + apply is_writer_store; auto.
    + apply mine_store; auto.
    + rewrite Hs, map_set_nth. replace (set_nth h (zlen a) (map zlen (seen (arrs E s) own))) with (map zlen (seen (arrs E s) own));
        [assumption|]. symmetry. apply set_nth_id. unfold seen. rewrite map_map, nth_error_map, Hh. cbn. f_equal.
      unfold zlen. now rewrite Hlen.
    + exists own', s'. split; [econstructor; eassumption|]. split; [cbn; now rewrite H2, Hs|]. split; [assumption|].
      split; [change (arrs E (set_arr E s l a)) with (set_nth l a (arrs E s)) in H4; rewrite set_nth_len in H4; exact H4|]. exists b. split; [assumption|]. rewrite Ht. cbn [client_bytes set_arr arrs].
      rewrite total_set by congruence. reflexivity.
  - assert (L1 : (ls < length (arrs E s))%nat) by (destruct Hw as (_ & _ & _ & (H1 & _) & _); exact H1).
    assert (Hs : seen (arrs E (snd (new_arr E s a))) (own ++ [fst (new_arr E s a)]) = seen (arrs E s) own ++ [a]).
    { unfold seen. rewrite map_app. cbn [new_arr fst snd arrs map]. rewrite cell_new. f_equal. apply seen_new. apply Forall_forall. intros j Hj.
      apply Hms. assumption. }
    cbn [chunks] in Hm, Hby. rewrite <- Hs in Hm, Hby.
    destruct (IH (own ++ [fst (new_arr E s a)]) (snd (new_arr E s a)) ls w outs w') as (own' & s' & H1 & H2 & H3 & H4 & b & Hb & Ht); try assumption.
    + apply is_writer_new. assumption.
    + apply NoDup_rev in Hnd. rewrite <- (rev_involutive (own ++ _)), rev_app_distr. apply NoDup_rev. cbn.
      constructor; [|assumption]. rewrite <- in_rev. intros Hi. destruct (Hms _ Hi). lia.
    + apply mine_new; assumption.
    + rewrite Hs, map_app. exact Hsens.
    + exists own', s'. split; [constructor; assumption|]. split; [cbn in H2 |- *; rewrite H2; cbn in Hs; now rewrite Hs|].
      split; [assumption|]. split; [destruct H4 as (ls2 & Q1 & Q2 & Q3 & Q5 & Q6); exists ls2; do 3 (split; [assumption|]); cbn [new_arr snd arrs] in Q5, Q6; rewrite app_length in Q5, Q6; cbn [length] in Q5, Q6; lia|].
      exists b. split; [assumption|]. rewrite Ht.
      cbn [client_bytes new_arr snd arrs]. rewrite total_app. cbn [total]. lia.
  - destruct Hsens as [(k & Hh & Ho & Hn & Hc) Hsens]. unfold seen in Hh. rewrite map_map in Hh.
    apply nth_error_map_some in Hh. destruct Hh as (l & Hh & Hlen).
    assert (Hin : In l own) by (eapply nth_error_In; eassumption).
    destruct (Hms l Hin) as [Hl Hsl].
    assert (Hnth : nth h (seen (arrs E s) own) [] = cell (arrs E s) l).
    { apply nth_error_nth. unfold seen. rewrite nth_error_map, Hh. reflexivity. }
    cbn [chunks] in Hm, Hby. inversion Hby as [|? ? Hby1 Hby2]; subst. rewrite Hnth in Hm, Hby1. cbn [write_all] in Hm.
    destruct (Write grow E wr_model w (ztake n (zdrop o (cell (arrs E s) l)))) as [[[k1 err] w1]| |] eqn:Hwr; try discriminate.
    cbn [bind] in Hm.
    destruct (write_all grow E wr_model w1 (chunks (seen (arrs E s) own) evs)) as [[rs w2]| |] eqn:Hrest; try discriminate.
    cbn [bind] in Hm. injection Hm as <- <-.
    destruct (go_Write grow E rd wr kx s p pt ls w l o n c (ztake n (zdrop o (cell (arrs E s) l))) k1 err w1)
      as (s1 & ls' & Hw1 & Hx1 & _ & (Hle & Hls & Hoth & _ & b1 & Hb1 & Ht1) & N & Hrun); try assumption.
    { repeat split; try assumption; lia. }
    assert (Hs : seen (arrs E s1) own = seen (arrs E s) own).
    { apply map_ext_in. intros j Hj. destruct (Hms j Hj) as [Hj1 Hj2]. now apply Hoth. }
    rewrite <- Hs in Hrest, Hby2.
    destruct (IH own s1 ls' w1 rs w2) as (own' & s' & H1 & H2 & H3 & H4 & b & Hb & Ht); try assumption.
    + intros j Hj. destruct (Hms j Hj) as [Hj1 Hj2]. split; [lia|]. unfold sep. rewrite Hoth by assumption.
      destruct Hls as [->|Hls]; [assumption|left; lia].
    + now rewrite Hs.
    + exists own', s'. split; [|split; [|split; [assumption|split; [destruct H4 as (ls2 & Q1 & Q2 & Q3 & Q5 & Q6); exists ls2; do 3 (split; [assumption|]); lia|]]]].
      * econstructor; [eassumption|exists N; exact Hrun|eassumption].
      * cbn [after_writes]. now rewrite H2, Hs.
      * destruct Hw as (_ & _ & _ & (_ & C1 & _) & _). destruct Hw1 as (_ & _ & _ & (_ & C2 & _) & _).
        rewrite C1, C2 in Hb1.
        exists (b1 + b). split; [eapply regrows_trans; eassumption|]. rewrite Ht, Ht1. cbn [client_bytes]. lia.
Qed.

Lemma chunks_bytes evs : forall C, Forall (Forall is_byte) C -> Forall event_bytes evs -> Forall (Forall is_byte) (chunks C evs).
Proof.
  assert (Hset : forall h a (C : list (list Z)), Forall is_byte a -> Forall (Forall is_byte) C -> Forall (Forall is_byte) (set_nth h a C)).
  { intros h a C Ha HC. revert h. induction HC as [|x C Hx HC IH]; intros [|h]; cbn; constructor; auto. }
  induction evs as [|[h a|a|h o n c] evs IH]; intros C HC He; [constructor|..]; inversion He as [|? ? He1 He2]; subst; cbn in *.
  - apply IH; [apply Hset; assumption|assumption].
  - apply IH; [apply Forall_app; auto|assumption].
  - constructor; [|auto]. apply Forall_ztake, Forall_zdrop.
    destruct (nth_in_or_default h C []) as [Hi| ->]; [|constructor]. rewrite Forall_forall in HC. auto.
Qed.

Lemma writer_session_spends A O X evs :
  nil_ok A -> Forall (Forall is_byte) A -> Forall event_bytes evs -> sensible 0 (map zlen A) evs ->
  exists p s0 pairs own s,
    calls prog_cp949 "NewWriter" [VExt kx] (mk A O X) (VTuple [VPtr p; VErr None]) s0 /\ arrs E s0 = A /\
    map fst pairs = chunks A evs /\ Forall (fun q => To grow (fst q) = Ok (inl (snd q))) pairs /\
    writes grow E rd wr prog_cp949 p (seq 0 (length A)) s0 evs (fst (writes_spec wr_model X pairs)) own s /\
    map (array (arrs E s)) own = after_writes A evs /\ ext E s = snd (writes_spec wr_model X pairs) /\
    exists w' b, write_all grow E wr_model (NewWriter X) (chunks A evs) = Ok (fst (writes_spec wr_model X pairs), w') /\
      regrows grow 0 (scap (w_scratch _ w')) b /\ total (arrs E s) = total A + client_bytes evs + b.
Proof.
  intros Hn HA He Hsens.
  destruct (go_NewWriter grow E rd wr kx A O X Hn) as (s0 & Hw & Hx & Ha & _ & _ & Hrun).
  pose proof (chunks_bytes evs A HA He) as Hch.
  destruct (C53_lemma grow E wr_model X (chunks A evs) Hch) as (pairs & w' & Hp & Hto & Hall & Hdst).
  destruct (writes_sim (S (length O)) (length O) evs (seq 0 (length A)) s0 0%nat (NewWriter X) (fst (writes_spec wr_model X pairs)) w')
    as (own & s & H1 & H2 & H3 & _ & b & Hb & Ht); try assumption.
  - apply seq_NoDup.
  - rewrite Ha. now apply mine_all.
  - rewrite Ha, own_all. assumption.
  - rewrite Ha, own_all. assumption.
  - rewrite Ha, own_all. assumption.
  - exists (S (length O)), s0, pairs, own, s.
    split; [exists 2%nat; intros n Hle; destruct n as [|[|n]]; [lia|lia|apply Hrun]|].
    split; [assumption|]. split; [assumption|]. split; [assumption|]. split; [assumption|].
    rewrite Ha, own_all in H2. split; [exact H2|]. split; [congruence|].
    exists w', b. rewrite Ha in Ht. auto.
Qed.
Lemma writer_session A O X evs :
  nil_ok A -> Forall (Forall is_byte) A -> Forall event_bytes evs -> sensible 0 (map zlen A) evs ->
  exists p s0 pairs own s,
    calls prog_cp949 "NewWriter" [VExt kx] (mk A O X) (VTuple [VPtr p; VErr None]) s0 /\ arrs E s0 = A /\
    map fst pairs = chunks A evs /\ Forall (fun q => To grow (fst q) = Ok (inl (snd q))) pairs /\
    writes grow E rd wr prog_cp949 p (seq 0 (length A)) s0 evs (fst (writes_spec wr_model X pairs)) own s /\
    map (array (arrs E s)) own = after_writes A evs /\ ext E s = snd (writes_spec wr_model X pairs).
Proof.
  intros Hn HA He Hsens.
  destruct (writer_session_spends A O X evs Hn HA He Hsens) as (p & s0 & pairs & own & s & H1 & H2 & H3 & H4 & H5 & H6 & H7 & _).
  exists p, s0, pairs, own, s. repeat (split; [assumption|]). assumption.
Qed.
End Numbered.
End Run.
