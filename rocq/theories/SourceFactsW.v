(** Clients of the sources compiled for machines with ints of limited width: the sessions of
    SourceFacts.v and the calls of SourceFacts2.v again. *)
From Coq Require Import String ZArith List Bool Lia.
From Coq Require Import ZifyBool.
From Verif Require Import Base Utf8 SortSearch TableFrom TableTo HangulModel HanjaModel Cp949Model GoLang GoSource GoFacts
  GoHeap GoHangul GoHanja GoCp949 GoStream StreamModel StreamModel3 TransformModel IoModel Facts Utf8Facts SliceFacts
  Spec SpecCp949 SpecIO TableFacts Cp949Facts Cp949Facts2 StreamFacts StreamFacts2 StreamFacts3 StreamFacts5 PipeFacts PipeFacts2
  TransformFacts SourceSpec SourceFacts SourceFacts2 HangulFacts3 GoPlatform GoCp949W GoStreamW GoHangulW.
Import ListNotations.
Local Open Scope string_scope.
Local Open Scope list_scope.
Local Open Scope Z_scope.
Local Open Scope go_scope.
Local Opaque fromTable toTable.
Local Arguments run : simpl never.
Local Arguments zwrite : simpl never.
Local Arguments ztake : simpl never.
Local Arguments zdrop : simpl never.
Local Arguments cell : simpl never.

Section Run.
Variable grow : Z -> Z -> Z.
Variable E : Type.
Variable rd : nat -> E -> Z -> Z * list Z * option error * E.
Variable wr : nat -> E -> list Z -> Z * option error * E.
Notation state := (state E).
Notation mk := (mkState E).
Notation calls := (calls grow E rd wr).
Notation calls_det := (calls_det grow E rd wr).

Section Numbered.
Variable kx : nat.
Section Reader.
Hypothesis Hrdb : forall x k, Forall is_byte (snd (fst (fst (rd kx x k)))).
Variable budget : E -> Z -> Prop.
Variable minb : Z.
Hypothesis Hbud : forall x d k, budget x d -> minb <= k ->
  let '(n, _, err, x') := rd kx x k in n <= d /\ (err = None -> n <> 0 -> budget x' (d - n)).
Notation is_reader := (is_reader E kx).
Notation reader := (reader E).
Notation within := (within E budget).
Notation model_reads := (model_reads grow E rd kx).
Notation is_reader_locs := (is_reader_locs E kx).

Lemma reads_sim fuel p pt evs : forall own s ls lr r outs r',
  is_reader s p pt ls lr r -> ext E s = r_src _ r -> NoDup own -> mine (arrs E s) own ls -> mine (arrs E s) own lr ->
  sensible 0 (map zlen (seen (arrs E s) own)) evs -> model_reads fuel r (sizes evs) outs r' ->
  exists own' s',
    (forall w b D, wide w b -> within r D ->
       Forall (fun n => minb <= n /\ 10 * D + 5 * n + 8212 <= 4 * b) (sizes evs) ->
       reads grow E rd wr (compiled w prog_cp949) p own s evs outs own' s') /\
    seen (arrs E s') own' = after_reads (seen (arrs E s) own) evs outs /\ ext E s' = r_src _ r'.
Proof.
  induction evs as [|[h a|a|h o n c] evs IH]; intros own s ls lr r outs r' Hr Hx Hnd Hms Hmr Hsens Hm.
  - inversion Hm; subst. exists own, s. split; [intros; constructor|]. split; [reflexivity|]. assumption.
  - destruct Hsens as [Hh Hsens]. unfold seen in Hh. rewrite map_map in Hh. apply nth_error_map_some in Hh.
    destruct Hh as (l & Hh & Hlen). apply length_zlen in Hlen.
    assert (Hin : In l own) by (eapply nth_error_In; eassumption).
    destruct (Hms l Hin) as [Hl Hsl]. destruct (Hmr l Hin) as [_ Hsr].
    assert (Hs : seen (arrs E (set_arr E s l a)) own = set_nth h a (seen (arrs E s) own)).
    { apply (seen_change _ _ own h l a); try assumption.
      - apply cell_set. assumption.
      - intros j _ Hj. apply cell_set_ne. congruence. }
    destruct (IH own (set_arr E s l a) ls lr r outs r') as (own' & s' & H1 & H2 & H3); try assumption.
    + apply is_reader_store; auto.
    + apply mine_store; auto.
    + apply mine_store; auto.
    + rewrite Hs, map_set_nth. replace (set_nth h (zlen a) (map zlen (seen (arrs E s) own))) with (map zlen (seen (arrs E s) own));
        [assumption|]. symmetry. apply set_nth_id. unfold seen. rewrite map_map, nth_error_map, Hh. cbn. f_equal.
      unfold zlen. now rewrite Hlen.
    + exists own', s'. split; [intros w b D W1 W2 W3; econstructor; eauto|]. split; [|assumption]. cbn. now rewrite H2, Hs.
  - destruct (is_reader_locs _ _ _ _ _ _ Hr) as [L1 L2].
    assert (Hs : seen (arrs E (snd (new_arr E s a))) (own ++ [fst (new_arr E s a)]) = seen (arrs E s) own ++ [a]).
    { unfold seen. rewrite map_app. cbn [new_arr fst snd arrs map]. rewrite cell_new. f_equal. apply seen_new. apply Forall_forall. intros j Hj.
      apply Hms. assumption. }
    destruct (IH (own ++ [fst (new_arr E s a)]) (snd (new_arr E s a)) ls lr r outs r') as (own' & s' & H1 & H2 & H3); try assumption.
    + apply is_reader_new. assumption.
    + apply NoDup_rev in Hnd. rewrite <- (rev_involutive (own ++ _)), rev_app_distr. apply NoDup_rev. cbn.
      constructor; [|assumption]. rewrite <- in_rev. intros Hi. destruct (Hms _ Hi). lia.
    + apply mine_new; assumption.
    + apply mine_new; assumption.
    + rewrite Hs, map_app. exact Hsens.
    + exists own', s'. split; [intros w b D W1 W2 W3; constructor; eauto|]. split; [|assumption]. cbn in H2 |- *. rewrite H2. cbn in Hs. now rewrite Hs.
  - destruct Hsens as [(k & Hh & Ho & Hn & Hc) Hsens]. unfold seen in Hh. rewrite map_map in Hh.
    apply nth_error_map_some in Hh. destruct Hh as (l & Hh & Hlen).
    assert (Hin : In l own) by (eapply nth_error_In; eassumption).
    destruct (Hms l Hin) as [Hl Hsl]. destruct (Hmr l Hin) as [_ Hsr].
    cbn in Hm. inversion Hm as [|? ? ? bs err r1 outs' ? Hread Hm']; subst.
    destruct (go_Read grow E rd wr kx Hrdb budget minb Hbud fuel s p pt ls lr r l o n c (ztake n (zdrop o (cell (arrs E s) l))) bs err r1)
      as (s1 & ls' & lr' & Hr1 & Hx1 & _ & Hbn & Hle & Hls & Hlr & Hcell & Hoth & Hin' & N & Hrun); try assumption.
    { repeat split; try assumption; lia. }
    assert (Hs : seen (arrs E s1) own = set_nth h (zwrite (cell (arrs E s) l) o bs) (seen (arrs E s) own)).
    { apply (seen_change _ _ own h l); try assumption. intros j Hj Hjl. apply Hoth; try assumption; [apply Hms|apply Hms|apply Hmr]; assumption. }
    assert (Hw : zlen (zwrite (cell (arrs E s) l) o bs) = zlen (cell (arrs E s) l)) by (apply zlen_zwrite; lia).
    assert (Hnth : nth h (seen (arrs E s) own) [] = cell (arrs E s) l).
    { apply nth_error_nth. unfold seen. rewrite nth_error_map, Hh. reflexivity. }
    assert (Hmine : forall m m', mine (arrs E s) own m -> (m' = m \/ (length (arrs E s) <= m')%nat) -> mine (arrs E s1) own m').
    { intros m m' Hm0 Hy j Hj. destruct (Hm0 j Hj) as [Hj1 Hj2]. split; [lia|].
      destruct Hy as [->|Hy]; [|left; lia]. destruct Hj2 as [Hj2|Hj2]; [left; assumption|]. right.
      destruct (Nat.eq_dec j l) as [->|Hjl].
      - rewrite Hcell. rewrite Hj2 in Hw, Hc |- *. change (zlen (@nil Z)) with 0 in Hw, Hc.
        destruct (zwrite [] o bs) as [|x l']; [reflexivity|]. rewrite zlen_cons in Hw. pose proof (zlen_nonneg l'). lia.
      - rewrite Hoth by (first [assumption | apply Hms; assumption | apply Hmr; assumption]). assumption. }
    destruct (IH own s1 ls' lr' r1 outs' r') as (own' & s' & H1 & H2 & H3); try assumption.
    + eapply Hmine; [|eassumption]; assumption.
    + eapply Hmine; [|eassumption]; assumption.
    + rewrite Hs, map_set_nth, Hw.
      replace (set_nth h (zlen (cell (arrs E s) l)) (map zlen (seen (arrs E s) own))) with (map zlen (seen (arrs E s) own)); [assumption|].
      symmetry. apply set_nth_id. unfold seen. now rewrite map_map, nth_error_map, Hh.
    + exists own', s'. split; [|split; [|assumption]].
      * intros w b D W1 W2 W3. inversion W3 as [|? ? [W4 W5] W6]; subst.
        assert (Hbs : ztake (zlen bs) (zdrop o (array (arrs E s1) l)) = bs).
        { change (array (arrs E s1) l) with (cell (arrs E s1) l). rewrite Hcell. apply zwrite_take; lia. }
        assert (Hxx : reads grow E rd wr (compiled w prog_cp949) p own s (Use h o n c :: evs)
                       ((ztake (zlen bs) (zdrop o (array (arrs E s1) l)), err) :: outs') own' s').
        { econstructor; [eassumption|exists N; intros n' Hn'; apply (Hrun w b D n' W1 W2 W4 W5 Hn')|].
          apply (H1 w b D W1 (Hin' D W2 W4)). assumption. }
        rewrite Hbs in Hxx. exact Hxx.
      * cbn [after_reads]. rewrite H2, Hs, Hnth. reflexivity.
Qed.

Lemma reader_session_w A O X fuel evs outs r' :
  nil_ok A -> sensible 0 (map zlen A) evs -> model_reads fuel (NewReader X) (sizes evs) outs r' ->
  exists p s0 own s,
    (forall w, calls (compiled w prog_cp949) "NewReader" [VExt kx] (mk A O X) (VTuple [VPtr p; VErr None]) s0) /\ arrs E s0 = A /\
    (forall w b D, wide w b -> 0 <= D -> budget X D ->
       Forall (fun n => minb <= n /\ 10 * D + 5 * n + 8212 <= 4 * b) (sizes evs) ->
       reads grow E rd wr (compiled w prog_cp949) p (seq 0 (length A)) s0 evs outs own s) /\
    map (array (arrs E s)) own = after_reads A evs outs /\ ext E s = r_src _ r'.
Proof.
  intros Hn Hsens Hm.
  destruct (go_NewReader grow E rd wr kx A O X Hn) as (s0 & Hr & Hx & Ha & _ & _ & Hrun).
  destruct (reads_sim fuel (S (length O)) (length O) evs (seq 0 (length A)) s0 0%nat 0%nat (NewReader X) outs r')
    as (own & s & H1 & H2 & H3); try assumption.
  - apply seq_NoDup.
  - rewrite Ha. now apply mine_all.
  - rewrite Ha. now apply mine_all.
  - rewrite Ha, own_all. assumption.
  - exists (S (length O)), s0, own, s.
    split; [intros w; exists 2%nat; intros n Hle; destruct n as [|[|n]]; [lia|lia|apply Hrun]|].
    split; [assumption|]. split; [|split; [rewrite Ha, own_all in H2; exact H2|assumption]].
    intros w b D W1 W2 W3 W4. apply (H1 w b D W1); [|assumption]. split; [exact W2|]. intros _. exists D. split; [exact W3|].
    cbn. lia.
Qed.
End Reader.

Notation is_writer := (is_writer E kx).
Notation wr_model := (wr_model E wr kx).

Lemma writes_sim p pt evs : forall own s ls w outs w',
  is_writer s p pt ls w -> ext E s = w_dst _ w -> NoDup own -> mine (arrs E s) own ls ->
  sensible 0 (map zlen (seen (arrs E s) own)) evs -> Forall (Forall is_byte) (chunks (seen (arrs E s) own) evs) ->
  write_all grow E wr_model w (chunks (seen (arrs E s) own) evs) = Ok (outs, w') ->
  exists own' s',
    (forall v b, wide v b -> Forall (fun n => n <= b) (sizes evs) ->
       writes grow E rd wr (compiled v prog_cp949) p own s evs outs own' s') /\
    seen (arrs E s') own' = after_writes (seen (arrs E s) own) evs /\ ext E s' = w_dst _ w'.
Proof.
  induction evs as [|[h a|a|h o n c] evs IH]; intros own s ls w outs w' Hw Hx Hnd Hms Hsens Hby Hm.
  - injection Hm as <- <-. exists own, s. split; [intros; constructor|]. split; [reflexivity|]. assumption.
  - destruct Hsens as [Hh Hsens]. unfold seen in Hh. rewrite map_map in Hh. apply nth_error_map_some in Hh.
    destruct Hh as (l & Hh & Hlen). apply length_zlen in Hlen.
    assert (Hin : In l own) by (eapply nth_error_In; eassumption).
    destruct (Hms l Hin) as [Hl Hsl].
    assert (Hs : seen (arrs E (set_arr E s l a)) own = set_nth h a (seen (arrs E s) own)).
    { apply (seen_change _ _ own h l a); try assumption.
      - apply cell_set. assumption.
      - intros j _ Hj. apply cell_set_ne. congruence. }
    cbn [chunks] in Hm, Hby. rewrite <- Hs in Hm, Hby.
    destruct (IH own (set_arr E s l a) ls w outs w') as (own' & s' & H1 & H2 & H3); try assumption.
    + apply is_writer_store; auto.
    + apply mine_store; auto.
    + rewrite Hs, map_set_nth. replace (set_nth h (zlen a) (map zlen (seen (arrs E s) own))) with (map zlen (seen (arrs E s) own));
        [assumption|]. symmetry. apply set_nth_id. unfold seen. rewrite map_map, nth_error_map, Hh. cbn. f_equal.
      unfold zlen. now rewrite Hlen.
    + exists own', s'. split; [intros v b W1 W2; econstructor; eauto|]. split; [|assumption]. cbn. now rewrite H2, Hs.
  - assert (L1 : (ls < length (arrs E s))%nat) by (destruct Hw as (_ & _ & _ & (H1 & _) & _); exact H1).
    assert (Hs : seen (arrs E (snd (new_arr E s a))) (own ++ [fst (new_arr E s a)]) = seen (arrs E s) own ++ [a]).
    { unfold seen. rewrite map_app. cbn [new_arr fst snd arrs map]. rewrite cell_new. f_equal. apply seen_new. apply Forall_forall. intros j Hj.
      apply Hms. assumption. }
    cbn [chunks] in Hm, Hby. rewrite <- Hs in Hm, Hby.
    destruct (IH (own ++ [fst (new_arr E s a)]) (snd (new_arr E s a)) ls w outs w') as (own' & s' & H1 & H2 & H3); try assumption.
    + apply is_writer_new. assumption.
    + apply NoDup_rev in Hnd. rewrite <- (rev_involutive (own ++ _)), rev_app_distr. apply NoDup_rev. cbn.
      constructor; [|assumption]. rewrite <- in_rev. intros Hi. destruct (Hms _ Hi). lia.
    + apply mine_new; assumption.
    + rewrite Hs, map_app. exact Hsens.
    + exists own', s'. split; [intros v b W1 W2; constructor; eauto|]. split; [|assumption]. cbn in H2 |- *. rewrite H2. cbn in Hs. now rewrite Hs.
  - destruct Hsens as [(k & Hh & Ho & Hn & Hc) Hsens]. unfold seen in Hh. rewrite map_map in Hh.
    apply nth_error_map_some in Hh. destruct Hh as (l & Hh & Hlen).
    assert (Hin : In l own) by (eapply nth_error_In; eassumption).
    destruct (Hms l Hin) as [Hl Hsl].
    assert (Hnth : nth h (seen (arrs E s) own) [] = cell (arrs E s) l).
    { apply nth_error_nth. unfold seen. rewrite nth_error_map, Hh. reflexivity. }
    cbn [chunks] in Hm, Hby. inversion Hby as [|? ? Hby1 Hby2]; subst. rewrite Hnth in Hm, Hby1. cbn [write_all] in Hm.
    destruct (Write grow E wr_model w (ztake n (zdrop o (cell (arrs E s) l)))) as [[[k1 err] w1]| |] eqn:Hwr; try discriminate.
    cbn [bind] in Hm.
    destruct (write_all grow E wr_model w1 (chunks (seen (arrs E s) own) evs)) as [[rs w2]| |] eqn:Hrest; try discriminate.
    cbn [bind] in Hm. injection Hm as <- <-.
    destruct (go_Write grow E rd wr kx s p pt ls w l o n c (ztake n (zdrop o (cell (arrs E s) l))) k1 err w1)
      as (s1 & ls' & Hw1 & Hx1 & _ & (Hle & Hls & Hoth & _) & N & Hrun); try assumption.
    { repeat split; try assumption; lia. }
    assert (Hs : seen (arrs E s1) own = seen (arrs E s) own).
    { apply map_ext_in. intros j Hj. destruct (Hms j Hj) as [Hj1 Hj2]. now apply Hoth. }
    rewrite <- Hs in Hrest, Hby2.
    destruct (IH own s1 ls' w1 rs w2) as (own' & s' & H1 & H2 & H3); try assumption.
    + intros j Hj. destruct (Hms j Hj) as [Hj1 Hj2]. split; [lia|]. unfold sep. rewrite Hoth by assumption.
      destruct Hls as [->|Hls]; [assumption|left; lia].
    + now rewrite Hs.
    + exists own', s'. split; [|split; [|assumption]].
      * intros v b W1 W2. inversion W2 as [|? ? W4 W6]; subst.
        econstructor; [eassumption|exists N; intros n' Hn'; apply (Hrun v b n' W1); [|assumption]|eapply H1; eassumption].
        rewrite zlen_ztake by lia. lia.
      * cbn [after_writes]. now rewrite H2, Hs.
Qed.

Lemma writer_session_w A O X evs :
  nil_ok A -> Forall (Forall is_byte) A -> Forall event_bytes evs -> sensible 0 (map zlen A) evs ->
  exists p s0 pairs own s,
    (forall w, calls (compiled w prog_cp949) "NewWriter" [VExt kx] (mk A O X) (VTuple [VPtr p; VErr None]) s0) /\ arrs E s0 = A /\
    map fst pairs = chunks A evs /\ Forall (fun q => To grow (fst q) = Ok (inl (snd q))) pairs /\
    (forall w b, wide w b -> Forall (fun n => n <= b) (sizes evs) ->
       writes grow E rd wr (compiled w prog_cp949) p (seq 0 (length A)) s0 evs (fst (writes_spec wr_model X pairs)) own s) /\
    map (array (arrs E s)) own = after_writes A evs /\ ext E s = snd (writes_spec wr_model X pairs).
Proof.
  intros Hn HA He Hsens.
  destruct (go_NewWriter grow E rd wr kx A O X Hn) as (s0 & Hw & Hx & Ha & _ & _ & Hrun).
  pose proof (chunks_bytes evs A HA He) as Hch.
  destruct (C53_lemma grow E wr_model X (chunks A evs) Hch) as (pairs & w' & Hp & Hto & Hall & Hdst).
  destruct (writes_sim (S (length O)) (length O) evs (seq 0 (length A)) s0 0%nat (NewWriter X) (fst (writes_spec wr_model X pairs)) w')
    as (own & s & H1 & H2 & H3); try assumption.
  - apply seq_NoDup.
  - rewrite Ha. now apply mine_all.
  - rewrite Ha, own_all. assumption.
  - rewrite Ha, own_all. assumption.
  - rewrite Ha, own_all. assumption.
  - exists (S (length O)), s0, pairs, own, s.
    split; [intros w; exists 2%nat; intros n Hle; destruct n as [|[|n]]; [lia|lia|apply Hrun]|].
    split; [assumption|]. split; [assumption|]. split; [assumption|]. split; [exact H1|].
    rewrite Ha, own_all in H2. split; [exact H2|]. congruence.
Qed.
End Numbered.

Lemma agree p1 p2 f args s : (exists v s', calls p1 f args s v s' /\ calls p2 f args s v s') ->
  forall v s', calls p1 f args s v s' <-> calls p2 f args s v s'.
Proof.
  intros (v0 & s0 & H1 & H2) v s'. split; intros H.
  - destruct (calls_det _ _ _ _ _ _ _ _ H H1) as [-> ->]. exact H2.
  - destruct (calls_det _ _ _ _ _ _ _ _ H H2) as [-> ->]. exact H1.
Qed.
Lemma compiled_Int : compiled Int prog_cp949 = prog_cp949.
Proof. reflexivity. Qed.
Lemma limit_big t : machine t -> 2 ^ 31 <= int_limit t.
Proof. intros [->| ->]; cbn; lia. Qed.

Lemma platform_From t s v data : machine t -> has_nil (arrs E s) -> slice_holds (arrs E s) v data -> Forall is_byte data ->
  4 * zlen data <= int_limit t -> forall r s',
  calls prog_cp949 "From" [v] s r s' <-> calls (compiled t prog_cp949) "From" [v] s r s'.
Proof.
  intros Ht Hn Hi Hb Hl. apply agree. destruct s as [A O X]. apply holds_input in Hi. destruct Hi as (l & o & n & c & -> & Hi). cbn [arrs] in *.
  assert (exists r, From grow data = Ok r) as [r Hr].
  { destruct (decodes_or_cut data Hb) as [(rs & Hd)|(a & Hc)].
    - eexists. apply (From_decodes grow data rs Hd).
    - eexists. apply (From_cut grow data a Hc). }
  destruct (go_From grow E rd wr A O X l o n c data r Hn Hi Hb Hr) as (A' & v & _ & _ & ob & N & Hrun).
  pose proof (limit_big t Ht) as Hbig.
  exists v, (mk A' (O ++ [ob]) X). split.
  - exists N. intros m Hm. rewrite <- compiled_Int. apply (Hrun Int (int_limit t)); [apply wide_Int|lia|assumption].
  - exists N. intros m Hm. apply (Hrun t (int_limit t - 1)); [apply wide_machine; [assumption|lia]|lia|assumption].
Qed.
Lemma platform_To t s v data : machine t -> has_nil (arrs E s) -> slice_holds (arrs E s) v data -> Forall is_byte data ->
  zlen data < int_limit t -> forall r s',
  calls prog_cp949 "To" [v] s r s' <-> calls (compiled t prog_cp949) "To" [v] s r s'.
Proof.
  intros Ht Hn Hi Hb Hl. apply agree. destruct s as [A O X]. apply holds_input in Hi. destruct Hi as (l & o & n & c & -> & Hi). cbn [arrs] in *.
  pose proof (To_reads grow data _ Hb (string_to_runes_reads data Hb)) as Hr.
  destruct (go_To grow E rd wr A O X l o n c data _ Hn Hi Hr) as (A' & v & _ & _ & ob & N & Hrun).
  exists v, (mk A' (O ++ [ob]) X). split.
  - exists N. intros m Hm. rewrite <- compiled_Int. apply (Hrun Int (int_limit t)); [apply wide_Int|lia|assumption].
  - exists N. intros m Hm. apply (Hrun t (int_limit t - 1)); [apply wide_machine; [assumption|lia]|lia|assumption].
Qed.
Lemma platform_Decoder t s p vdst dst vsrc src eof : machine t -> has_nil (arrs E s) -> slice_holds (arrs E s) vdst dst ->
  slice_holds (arrs E s) vsrc src -> Forall is_byte src -> 4 * zlen src <= int_limit t -> forall r s',
  calls prog_cp949 "cp949Decoder.Transform" [VPtr p; vdst; vsrc; VBool eof] s r s' <->
  calls (compiled t prog_cp949) "cp949Decoder.Transform" [VPtr p; vdst; vsrc; VBool eof] s r s'.
Proof.
  intros Ht Hn Hd Hs Hb Hl. apply agree. destruct s as [A O X]. cbn [arrs objs ext] in *.
  apply holds_input in Hd. destruct Hd as (l & o & n & c & -> & Hd).
  apply holds_input in Hs. destruct Hs as (l' & o' & n' & c' & -> & Hs).
  assert (exists d nD nS e, dec_Transform grow dst src eof = Ok (d, nD, nS, e)) as (d & nD & nS & e & Hr).
  { destruct (C56_dec_lemma grow dst src eof Hb) as [(a & Hc & Hr)|(rs & d & Hrs & Hr & _)]; eauto. }
  destruct (go_dec_Transform grow E rd wr A O X p l o n c dst l' o' n' c' src eof _ _ _ _ Hn Hd Hs Hb Hr)
    as (A' & _ & _ & _ & _ & _ & ob & N & Hrun).
  pose proof (limit_big t Ht) as Hbig.
  eexists _, (mk A' (O ++ [ob]) X). split.
  - exists N. intros m Hm. rewrite <- compiled_Int. apply (Hrun Int (int_limit t)); [apply wide_Int|lia|assumption].
  - exists N. intros m Hm. apply (Hrun t (int_limit t - 1)); [apply wide_machine; [assumption|lia]|lia|assumption].
Qed.
Lemma platform_Encoder t s p vdst dst vsrc src eof : machine t -> has_nil (arrs E s) -> slice_holds (arrs E s) vdst dst ->
  slice_holds (arrs E s) vsrc src -> Forall is_byte src -> zlen src < int_limit t -> forall r s',
  calls prog_cp949 "cp949Encoder.Transform" [VPtr p; vdst; vsrc; VBool eof] s r s' <->
  calls (compiled t prog_cp949) "cp949Encoder.Transform" [VPtr p; vdst; vsrc; VBool eof] s r s'.
Proof.
  intros Ht Hn Hd Hs Hb Hl. apply agree. destruct s as [A O X]. cbn [arrs objs ext] in *.
  apply holds_input in Hd. destruct Hd as (l & o & n & c & -> & Hd).
  apply holds_input in Hs. destruct Hs as (l' & o' & n' & c' & -> & Hs).
  destruct (C56_enc_lemma grow dst src eof Hb) as (out & d & _ & Hr & _).
  destruct (go_enc_Transform grow E rd wr A O X p l o n c dst l' o' n' c' src eof _ _ _ _ Hn Hd Hs Hr)
    as (A' & _ & _ & _ & _ & _ & ob & N & Hrun).
  eexists _, (mk A' (O ++ [ob]) X). split.
  - exists N. intros m Hm. rewrite <- compiled_Int. apply (Hrun Int (int_limit t)); [apply wide_Int|lia|assumption].
  - exists N. intros m Hm. apply (Hrun t (int_limit t - 1)); [apply wide_machine; [assumption|lia]|lia|assumption].
Qed.

Lemma platform_Reader_any t k : machine t -> (forall x n, Forall is_byte (snd (fst (fst (rd k x n))))) ->
  forall A O X D fuel evs outs r', supplies (rd k) X D -> 0 <= D -> 4 * D <= int_limit t ->
  Forall (fun n => 4 * n <= int_limit t) (sizes evs) ->
  has_nil A -> sensible 0 (map zlen A) evs -> model_reads grow E rd k fuel (NewReader X) (sizes evs) outs r' ->
  exists p s0 own s,
    calls (compiled t prog_cp949) "NewReader" [VExt k] (mk A O X) (VTuple [VPtr p; VErr None]) s0 /\ arrs E s0 = A /\
    reads grow E rd wr (compiled t prog_cp949) p (seq 0 (length A)) s0 evs outs own s /\
    map (array (arrs E s)) own = after_reads A evs outs /\ ext E s = r_src _ r'.
Proof.
  intros Ht Hrdb A O X D fuel evs outs r' (P & HP & Hbud) HD Hl Hsz Hn Hsens Hm.
  destruct (reader_session_w k Hrdb P 0 Hbud A O X fuel evs outs r' Hn Hsens Hm) as (p & s0 & own & s & H1 & H2 & H3 & H4 & H5).
  pose proof (limit_big t Ht) as Hbig.
  exists p, s0, own, s. split; [apply H1|]. split; [exact H2|]. split; [|auto].
  apply (H3 t (int_limit t - 1) D); [apply wide_machine; [assumption|lia]|assumption|assumption|].
  clear - Hsz Hl Hbig Hsens. revert Hsens. generalize (map zlen A) as L. induction evs as [|[h a|a|h o n c] evs IH]; intros L Hs; cbn [sizes sensible] in *.
  - constructor.
  - destruct Hs. eauto.
  - eauto.
  - destruct Hs as [(q & _ & _ & Hq & _) Hs]. inversion Hsz; subst. constructor; [lia|]. eauto.
Qed.
Lemma platform_Reader t k : machine t -> (forall x n, Forall is_byte (snd (fst (fst (rd k x n))))) ->
  forall rd1 A O X stream rs e evs, reports (rd k) rd1 ->
  has_nil A -> delivers rd1 X stream e -> decodes stream rs -> sensible 1 (map zlen A) evs ->
  4 * zlen stream <= int_limit t -> Forall (fun n => 4 * n <= int_limit t) (sizes evs) ->
  exists p s0 outs own s,
    calls (compiled t prog_cp949) "NewReader" [VExt k] (mk A O X) (VTuple [VPtr p; VErr None]) s0 /\ arrs E s0 = A /\
    reads grow E rd wr (compiled t prog_cp949) p (seq 0 (length A)) s0 evs outs own s /\
    map (array (arrs E s)) own = after_reads A evs outs /\ served e (utf8 rs) (sizes evs) outs.
Proof.
  intros Ht Hrdb rd1 A O X stream rs e evs Hrep Hn Hd Hdec Hsens Hl Hsz.
  assert (Hb : Forall is_byte stream) by (eapply decodes_bytes; eassumption).
  pose proof (C79_lemma grow E rd1 X stream (utf8 rs) e (length stream + 4) Hb Hd (From_decodes grow stream rs Hdec) ltac:(lia)) as Hdel.
  destruct (served_sim grow E rd1 (length stream + 4) e ltac:(lia) (sizes evs) _ _ (sensible_sizes _ _ Hsens) Hdel) as (outs & r' & Hm & Hsv).
  destruct (model_reads_alike grow E rd k rd1 (length stream + 4) Hrep _ _ _ _ Hm (NewReader X)) as (q' & Hq & Hal); [now apply new_alike|].
  set (budget := fun x d => exists rem, delivers rd1 x rem e /\ zlen rem <= d).
  assert (Hbud : forall x d n, budget x d -> 1 <= n ->
    let '(m, _, err, x') := rd k x n in m <= d /\ (err = None -> m <> 0 -> budget x' (d - m))).
  { intros x d n (rem & Hx & Hr) H1. pose proof (Hrep x n) as Hk. destruct (rd1 x n) as [[bs err] x'] eqn:Hb1.
    destruct Hk as [j Hj]. rewrite Hj. inversion Hx as [? ? ? D1 D2 D3]; subst. destruct err as [e'|].
    - destruct (D1 n bs e' x' ltac:(lia) Hb1) as (_ & -> & _). split; [lia|discriminate].
    - destruct (D2 n bs x' ltac:(lia) Hb1) as (_ & _ & rest & Hp). pose proof (D3 n bs x' ltac:(lia) Hb1) as Hx'.
      rewrite Hp in Hr. unfold zlen in Hr. rewrite app_length in Hr. split; [unfold zlen; lia|]. intros _ _.
      exists (zdrop (zlen bs) rem). split; [exact Hx'|]. rewrite Hp, zdrop_app_exact by reflexivity. unfold zlen. lia. }
  destruct (reader_session_w k Hrdb budget 1 Hbud A O X (length stream + 4) evs outs q' Hn) as (p & s0 & own & s & H1 & H2 & H3 & H4 & _); try assumption.
  { eapply sensible_min; [|eassumption]. lia. }
  pose proof (limit_big t Ht) as Hbig.
  exists p, s0, outs, own, s. split; [apply H1|]. split; [exact H2|]. split; [|auto].
  apply (H3 t (int_limit t - 1) (zlen stream)); [apply wide_machine; [assumption|lia]|apply zlen_nonneg|exists stream; split; [assumption|lia]|].
  pose proof (sensible_sizes _ _ Hsens) as Hpos. rewrite Forall_forall in Hpos, Hsz |- *. intros n Hi. specialize (Hpos n Hi). specialize (Hsz n Hi). lia.
Qed.

(** ** hangul *)
Lemma word_wide t (x : list Z) : machine t -> zlen x < int_limit t -> wide t (zlen x).
Proof. intros Ht H. now apply wide_machine. Qed.
Lemma small_wide t : machine t -> forall x, -0x80000000 <= x < 0x80000000 -> wrap t x = x.
Proof.
  intros [->| ->] x Hx; cbn [wrap].
  - unfold wrap32. rewrite Z.mod_small; lia.
  - unfold wrap64. rewrite Z.mod_small; lia.
Qed.
Lemma calls_eq p1 p2 f args s v s' N :
  (forall n, run grow E rd wr p2 (N + n) f args s = run grow E rd wr p1 (N + n) f args s) ->
  (exists v s', calls p1 f args s v s') -> (calls p1 f args s v s' <-> calls p2 f args s v s').
Proof.
  intros H (v0 & s0 & Hc). apply agree. exists v0, s0. split; [exact Hc|]. destruct Hc as [M Hc]. exists (N + M)%nat. intros n Hn.
  replace n with (N + (n - N))%nat by lia. rewrite H. apply Hc. lia.
Qed.
Lemma platform_hangul t f args s : machine t -> hangul_call (f, args) -> hangul_memory (arrs E s) ->
  strings_below (int_limit t) args -> forall v s',
  calls prog_hangul f args s v s' <-> calls (compiled t prog_hangul) f args s v s'.
Proof.
  intros Ht Hc Hm Hs v s'. pose proof (small_wide t Ht) as Hw.
  assert (Hex : exists v s', calls prog_hangul f args s v s').
  { destruct (source_hangul grow E rd wr (f, args) s Hc Hm) as (s1 & H1 & _). eauto. }
  inversion Hc as [g r Hf|l m u|g w Hf Hb|w p q Hb]; subst.
  - cbn [In] in Hf. repeat destruct Hf as [<-|Hf]; [..|destruct Hf].
    + apply (calls_eq _ _ _ _ _ _ _ 1); [|exact Hex]. intros n. cbn [Nat.add]. rewrite GoHangul.go_IsLead. apply GoHangulW.go_IsLead.
    + apply (calls_eq _ _ _ _ _ _ _ 1); [|exact Hex]. intros n. cbn [Nat.add]. rewrite GoHangul.go_IsMedial. apply GoHangulW.go_IsMedial.
    + apply (calls_eq _ _ _ _ _ _ _ 1); [|exact Hex]. intros n. cbn [Nat.add]. rewrite GoHangul.go_IsTail. apply GoHangulW.go_IsTail.
    + apply (calls_eq _ _ _ _ _ _ _ 2); [|exact Hex]. intros n. cbn [Nat.add]. rewrite GoHangul.go_IsJaeum. apply GoHangulW.go_IsJaeum.
    + apply (calls_eq _ _ _ _ _ _ _ 2); [|exact Hex]. intros n. cbn [Nat.add]. rewrite GoHangul.go_IsMoeum. apply GoHangulW.go_IsMoeum.
    + apply (calls_eq _ _ _ _ _ _ _ 3); [|exact Hex]. intros n. cbn [Nat.add]. rewrite GoHangul.go_IsHangul. apply GoHangulW.go_IsHangul.
    + apply (calls_eq _ _ _ _ _ _ _ 1); [|exact Hex]. intros n. cbn [Nat.add]. rewrite GoHangul.go_CompatJamo. apply GoHangulW.go_CompatJamo.
    + apply (calls_eq _ _ _ _ _ _ _ 1); [|exact Hex]. intros n. cbn [Nat.add]. rewrite GoHangul.go_Lead. apply GoHangulW.go_Lead.
    + apply (calls_eq _ _ _ _ _ _ _ 1); [|exact Hex]. intros n. cbn [Nat.add]. rewrite GoHangul.go_Medial. apply GoHangulW.go_Medial.
    + apply (calls_eq _ _ _ _ _ _ _ 1); [|exact Hex]. intros n. cbn [Nat.add]. rewrite GoHangul.go_Tail. apply GoHangulW.go_Tail.
    + apply (calls_eq _ _ _ _ _ _ _ 1); [|exact Hex]. intros n. cbn [Nat.add]. rewrite GoHangul.go_Split. now apply GoHangulW.go_Split.
    + apply (calls_eq _ _ _ _ _ _ _ 2); [|exact Hex]. intros n. cbn [Nat.add]. rewrite GoHangul.go_SplitCompat. now apply GoHangulW.go_SplitCompat.
    + apply (calls_eq _ _ _ _ _ _ _ 2); [|exact Hex]. intros n. cbn [Nat.add]. rewrite GoHangul.go_SplitMultiElement. apply GoHangulW.go_SplitMultiElement.
    + destruct (C16_lemma r) as (k & Hk & _ & _ & Hfuel).
      apply (calls_eq _ _ _ _ _ _ _ 4); [|exact Hex]. intros n. cbn [Nat.add].
      pose proof (GoHangul.go_Stroke grow E rd wr 2 n r multiElements s k (memory_holds E s Hm)) as G1. cbn [Nat.add] in G1. rewrite G1 by (apply Hfuel; lia).
      apply (GoHangulW.go_Stroke grow E rd wr t Hw 2 n r multiElements s k (memory_holds E s Hm)). apply Hfuel. lia.
  - apply (calls_eq _ _ _ _ _ _ _ 2); [|exact Hex]. intros n. cbn [Nat.add]. rewrite GoHangul.go_Join. now apply GoHangulW.go_Join.
  - inversion Hs as [|? ? Hl _]; subst. pose proof (word_wide t w Ht Hl) as Hwd.
    cbn [In] in Hf. repeat destruct Hf as [<-|Hf]; [..|destruct Hf].
    + apply (calls_eq _ _ _ _ _ _ _ 2); [|exact Hex]. intros n. cbn [Nat.add]. rewrite GoHangul.go_LastConsonant. now apply GoHangulW.go_LastConsonant.
    + apply (calls_eq _ _ _ _ _ _ _ 3); [|exact Hex]. intros n. cbn [Nat.add]. rewrite GoHangul.go_EndsWithConsonant. now apply GoHangulW.go_EndsWithConsonant.
  - inversion Hs as [|? ? Hl _]; subst. pose proof (word_wide t w Ht Hl) as Hwd.
    apply (calls_eq _ _ _ _ _ _ _ 3); [|exact Hex]. intros n. cbn [Nat.add]. rewrite GoHangul.go_AppendPostposition. now apply GoHangulW.go_AppendPostposition.
Qed.
Lemma platform_hanja t f args s v s' : calls prog_hanja f args s v s' <-> calls (compiled t prog_hanja) f args s v s'.
Proof. change (compiled t prog_hanja) with prog_hanja. tauto. Qed.
End Run.

Lemma platform_Writer : exists f, char_code f /\
  forall t grow E rd wr k A O X evs, machine t ->
  has_nil A -> Forall (Forall is_byte) A -> Forall event_bytes evs -> sensible 0 (map zlen A) evs ->
  Forall (fun n => n < int_limit t) (sizes evs) ->
  exists p s0 pairs own s,
    calls grow E rd wr (compiled t prog_cp949) "NewWriter" [VExt k] (mkState E A O X) (VTuple [VPtr p; VErr None]) s0 /\ arrs E s0 = A /\
    map fst pairs = chunks A evs /\
    Forall (fun q => exists rs, reads_as (fst q) rs /\ snd q = flat_map f rs) pairs /\
    let expected := writes_spec (fun x bs => let '(_, e, x') := wr k x bs in (e, x')) X pairs in
    writes grow E rd wr (compiled t prog_cp949) p (seq 0 (length A)) s0 evs (fst expected) own s /\
    map (array (arrs E s)) own = after_writes A evs /\ ext E s = snd expected.
Proof.
  exists to_char. split; [exact char_code_to_char|]. intros t grow E rd wr k A O X evs Ht Hn HA He Hs Hsz.
  destruct (writer_session_w grow E rd wr k A O X evs Hn HA He Hs) as (p & s0 & pairs & own & s & H1 & H2 & H3 & H4 & H5 & H6 & H7).
  exists p, s0, pairs, own, s. split; [apply H1|]. split; [exact H2|]. split; [exact H3|]. split.
  - pose proof (chunks_bytes evs A HA He) as Hb. rewrite <- H3 in Hb. clear - H4 Hb. induction H4 as [|q pairs Hq H4 IH]; constructor.
    + inversion Hb as [|? ? Hb1 Hb2]; subst. pose proof (string_to_runes_reads (fst q) Hb1) as Hr. exists (string_to_runes (fst q)).
      split; [exact Hr|]. rewrite (To_reads grow _ _ Hb1 Hr) in Hq. injection Hq as Hq. symmetry. exact Hq.
    + inversion Hb; subst. auto.
  - split; [|auto]. apply (H5 t (int_limit t - 1)); [apply wide_machine; [assumption|lia]|].
    eapply Forall_impl; [|exact Hsz]. cbn. intros n Hlt. lia.
Qed.
