(** The lemmas behind properties C45-C50, C62 and C63: the Reader. *)
From Coq Require Import ZArith List Bool Lia.
From Coq Require Import ZifyBool.
From Verif Require Import Base Spec Facts Utf8 Utf8Facts SortSearch TableFrom TableTo SpecCp949
  SpecIO PMapFacts Cp949Model StreamModel SliceFacts TableFacts Cp949Facts Cp949Facts2 StreamFacts.
Import ListNotations.
Local Open Scope Z_scope.
Local Opaque fromTable toTable dec_tree enc_tree.

Section Reader.
Variable grow : Z -> Z -> Z.
Variable RS : Type.
Variable rd : RS -> Z -> list Z * option error * RS.
Notation reader := (reader RS).
Notation cdata := (cdata RS).
Notation inv := (inv RS rd).

Lemma read_seq_spec cut e n sizes : Forall (fun k => 0 < k) sizes ->
  forall r rem fuel, inv cut e n r rem -> (n + 4 <= fuel)%nat ->
  exists out err r' rem', read_seq grow RS rd fuel r sizes = Ok (out, err, r') /\
    below cut (out ++ rem') rem /\ inv cut e n r' rem' /\
    (err = None /\ zlen sizes <= zlen out \/ err = Some e /\ rem' = []).
Proof.
  induction 1 as [|k sizes Hk Hs IH]; intros r rem fuel Hinv Hf; cbn [read_seq].
  - exists [], None, r, rem. split; [reflexivity|]. split; [apply below_refl|]. split; [exact Hinv|].
    left. split; [reflexivity|cbn; lia].
  - destruct (read_step grow RS rd cut e k Hk n r rem fuel Hinv Hf)
      as (p & err & r1 & rem1 & -> & Hlen & Hb & Hinv1 & Hres). cbn [bind].
    destruct err as [e'|].
    + destruct Hres as (-> & -> & -> & _). exists [], (Some e), r1, []. auto 6.
    + destruct (IH r1 rem1 fuel Hinv1 Hf) as (out & err & r2 & rem2 & -> & Hb2 & Hinv2 & Hres2).
      cbn [bind]. exists (p ++ out), err, r2, rem2. split; [reflexivity|]. split.
      * rewrite <- app_assoc. eapply below_trans; [apply below_app; exact Hb2|exact Hb].
      * split; [exact Hinv2|]. destruct Hres2 as [[-> H]|H]; [left|right; exact H].
        split; [reflexivity|]. rewrite zlen_app, zlen_cons.
        destruct Hres as [Hp|Hp]; [|lia]. destruct p as [|x p]; [congruence|].
        rewrite zlen_cons. pose proof (zlen_nonneg p). lia.
Qed.

Lemma new_reader_inv cut s stream e rs : delivers rd s stream e -> complete_part cut stream rs ->
  inv cut e (length stream) (NewReader s) (utf8 rs).
Proof.
  intros Hd Hp. split.
  - unfold reader_ok, NewReader. cbn. unfold slice_ok, scap. cbn. lia.
  - cbn [r_err NewReader]. exists stream, rs. split; [exact Hd|]. split; [lia|]. split; [exact Hp|reflexivity].
Qed.

Lemma C45_lemma s stream text e fuel sizes :
  Forall is_byte stream -> delivers rd s stream e -> From grow stream = Ok (inl text) ->
  Forall (fun k => 0 < k) sizes -> (length stream + 4 <= fuel)%nat ->
  exists out err r', read_seq grow RS rd fuel (NewReader s) sizes = Ok (out, err, r') /\
    is_prefix out text /\ (err = None \/ err = Some e /\ out = text) /\
    (zlen text < zlen sizes -> err = Some e).
Proof.
  intros Hb Hd HF Hs Hf. destruct (From_ok_inv grow stream text Hb HF) as (rs & Hrs & ->).
  destruct (read_seq_spec false e (length stream) sizes Hs (NewReader s) (utf8 rs) fuel)
    as (out & err & r' & rem' & E & Hbel & _ & Hres); [apply new_reader_inv; assumption|exact Hf|].
  cbn in Hbel. exists out, err, r'. split; [exact E|]. split; [exists rem'; auto|]. split.
  - destruct Hres as [[-> _]|[-> ->]]; [auto|right]. rewrite app_nil_r in Hbel. auto.
  - intros Hl. destruct Hres as [[-> H]|[-> _]]; [|reflexivity].
    rewrite <- Hbel, zlen_app in Hl. pose proof (zlen_nonneg rem'). lia.
Qed.

(** Any stream: what is delivered is part of the decoding of the complete characters. *)
Lemma C47_lemma s stream a rs e fuel sizes :
  delivers rd s stream e -> decodes a rs -> (stream = a \/ cut_after a stream) ->
  Forall (fun k => 0 < k) sizes -> (length stream + 4 <= fuel)%nat ->
  exists out err r', read_seq grow RS rd fuel (NewReader s) sizes = Ok (out, err, r') /\
    is_prefix out (utf8 rs) /\ (err = None \/ err = Some e) /\
    (zlen (utf8 rs) < zlen sizes -> err = Some e).
Proof.
  intros Hd Ha Hc Hs Hf.
  assert (exists cut, complete_part cut stream rs) as [cut Hp].
  { destruct Hc as [->|Hc]; [exists false; exact Ha|exists true; exists a; auto]. }
  destruct (read_seq_spec cut e (length stream) sizes Hs (NewReader s) (utf8 rs) fuel)
    as (out & err & r' & rem' & E & Hbel & _ & Hres); [apply new_reader_inv; assumption|exact Hf|].
  assert (is_prefix (out ++ rem') (utf8 rs)) as Hpre.
  { destruct cut; [exact Hbel|]. cbn in Hbel. rewrite Hbel. exists []. rewrite app_nil_r. reflexivity. }
  destruct Hpre as [q Hq].
  exists out, err, r'. split; [exact E|]. split; [exists (rem' ++ q); rewrite Hq, app_assoc; reflexivity|].
  split; [tauto|].
  intros Hl. destruct Hres as [[-> H]|[-> _]]; [|reflexivity].
  rewrite Hq, !zlen_app in Hl. pose proof (zlen_nonneg rem'). pose proof (zlen_nonneg q). lia.
Qed.

(** Progress of every single Read, in every state a client can bring the reader to. *)
Lemma C48_lemma s stream e sizes k fuel out r :
  Forall is_byte stream -> delivers rd s stream e ->
  Forall (fun k => 0 < k) sizes -> 0 < k -> (length stream + 4 <= fuel)%nat ->
  read_seq grow RS rd fuel (NewReader s) sizes = Ok (out, None, r) ->
  exists p err r', Read grow RS rd fuel r k = Ok (p, err, r') /\
    (err = None /\ 0 < zlen p <= k \/ err = Some e /\ p = []).
Proof.
  intros Hb Hd Hs Hk Hf E.
  assert (exists cut rs, complete_part cut stream rs) as (cut & rs & Hp).
  { destruct (decodes_or_cut stream Hb) as [(rs & H)|(a & Ha)]; [exists false, rs; exact H|].
    pose proof Ha as (b & Hb' & _ & rs & Hrs). exists true, rs, a. auto. }
  destruct (read_seq_spec cut e (length stream) sizes Hs (NewReader s) (utf8 rs) fuel)
    as (out' & err & r' & rem' & E' & _ & Hinv & _); [apply new_reader_inv; assumption|exact Hf|].
  rewrite E in E'. injection E' as <- <- <-.
  destruct (read_step grow RS rd cut e k Hk _ r rem' fuel Hinv Hf)
    as (p & err & r1 & rem1 & -> & Hlen & _ & _ & Hres).
  exists p, err, r1. split; [reflexivity|]. destruct err as [e'|].
  - destruct Hres as (-> & -> & _). right. auto.
  - left. split; [reflexivity|]. destruct Hres as [Hp'|]; [|lia]. destruct p as [|x p]; [congruence|].
    rewrite zlen_cons in *. pose proof (zlen_nonneg p). lia.
Qed.

(** Errors are final, whatever the wrapped reader is. *)
Lemma read_error fuel : forall r k bs e r',
  Read grow RS rd fuel r k = Ok (bs, Some e, r') ->
  bs = [] /\ r_cdata_hi _ r' - r_cdata_lo _ r' <= 0 /\ r_err _ r' = Some e /\ slen (r_rdata _ r') = 0.
Proof.
  induction fuel as [|fuel IH]; intros r k bs e r' H; [discriminate|]. cbn [Read] in H.
  destruct (Z.gtb_spec (r_cdata_hi _ r - r_cdata_lo _ r) 0) as [Hd|Hd]; [discriminate|].
  destruct (r_err _ r) as [e'|] eqn:Ee.
  - destruct (Z.eqb_spec (slen (r_rdata _ r)) 0) as [E0|E0].
    + injection H as <- <- <-. auto.
    + destruct (convert grow RS r) as [r1| |]; try discriminate. cbn [bind] in H. eapply IH; exact H.
  - destruct (fill RS rd r k) as [r1| |]; try discriminate. cbn [bind] in H.
    destruct (convert grow RS r1) as [r2| |]; try discriminate. cbn [bind] in H. eapply IH; exact H.
Qed.

Lemma C49_lemma fuel r k bs e r' : Read grow RS rd fuel r k = Ok (bs, Some e, r') ->
  bs = [] /\ forall fuel' k', Read grow RS rd (S fuel') r' k' = Ok ([], Some e, r').
Proof.
  intros H. apply read_error in H as (-> & H1 & H2 & H3). split; [reflexivity|].
  intros fuel' k'. cbn [Read].
  destruct (Z.gtb_spec (r_cdata_hi _ r' - r_cdata_lo _ r') 0); [lia|].
  rewrite H2, H3. reflexivity.
Qed.

(** An empty buffer, with converted data pending or after an error. *)
Lemma C50_lemma fuel r : (r_cdata_hi _ r - r_cdata_lo _ r > 0 \/
   r_err _ r <> None /\ slen (r_rdata _ r) = 0) ->
  exists err, Read grow RS rd (S fuel) r 0 = Ok ([], err, r).
Proof.
  intros H. cbn [Read]. destruct (Z.gtb_spec (r_cdata_hi _ r - r_cdata_lo _ r) 0) as [Hd|Hd].
  - exists None. rewrite Z.min_l by lia. rewrite ztake_0, Z.add_0_r. destruct r; reflexivity.
  - destruct H as [H|[H1 H2]]; [lia|]. destruct (r_err _ r) as [e|] eqn:Ee; [|congruence].
    rewrite H2. cbn [Z.eqb]. eauto.
Qed.
End Reader.

(** ** The exact result for every stream and every wrapped reader *)
Section Logged.
Variable grow : Z -> Z -> Z.
Variable RS : Type.
Variable rd : RS -> Z -> list Z * option error * RS.
Hypothesis rd_bytes : forall s k, Forall is_byte (fst (fst (rd s k))).
Notation reader := (reader (RS * list (list Z))).
Notation cdata := (cdata (RS * list (list Z))).
Notation Read := (Read grow (RS * list (list Z)) (logged rd)).
Notation fill := (fill (RS * list (list Z)) (logged rd)).
Notation convert := (convert grow (RS * list (list Z))).
Notation log r := (snd (r_src (RS * list (list Z)) r)).

Definition all_cut (done lost : list (list Z)) : Prop :=
  forall j, (0 < j <= length lost)%nat -> truncated (concat done ++ concat (firstn j lost)).

Definition linv (r : reader) (sent : list Z) : Prop :=
  reader_ok _ r /\ exists done lost rs,
    log r = done ++ lost /\ decodes (concat done) rs /\ sent ++ cdata r = utf8 rs /\
    all_cut done lost /\
    (contents (r_rdata _ r) = concat lost \/ r_err _ r <> None /\ contents (r_rdata _ r) = []).

Lemma cut_app d rs p x : decodes d rs -> cut_after p x -> cut_after (d ++ p) (d ++ x).
Proof.
  intros Hd (b & Hb & -> & ra & Ha). exists b. split; [exact Hb|].
  split; [rewrite app_assoc; reflexivity|]. exists (rs ++ ra). apply decodes_app; assumption.
Qed.

Lemma all_cut_snoc done lost c rs : decodes (concat done) rs -> all_cut done lost ->
  truncated (concat lost ++ c) -> all_cut done (lost ++ [c]).
Proof.
  intros Hd H [p Hc] j Hj. rewrite app_length in Hj. cbn [length] in Hj.
  destruct (Nat.eq_dec j (length lost + 1)) as [->|Hne].
  - rewrite firstn_all2 by (rewrite app_length; cbn; lia). rewrite concat_app. cbn [concat].
    rewrite app_nil_r. eexists. eapply cut_app; eassumption.
  - rewrite firstn_app. replace (j - length lost)%nat with 0%nat by lia. cbn [firstn].
    rewrite app_nil_r. apply H. lia.
Qed.

Lemma fill_log r k r1 : reader_ok _ r -> fill r k = Ok r1 ->
  exists chunk, Forall is_byte chunk /\ reader_ok _ r1 /\ log r1 = log r ++ [chunk] /\
    cdata r1 = cdata r /\ contents (r_rdata _ r1) = contents (r_rdata _ r) ++ chunk /\
    r_cdata_hi _ r1 = r_cdata_hi _ r /\ r_cdata_lo _ r1 = r_cdata_lo _ r.
Proof.
  intros (Hs & Hr & Hc) E. unfold StreamModel.fill in E.
  destruct (ensureCap_spec (r_rdata _ r) (slen (r_rdata _ r) + k) Hr)
    as (b & Eb & Hb & Hcont & Hl & Hcap & _). rewrite Eb in E. cbn [bind] in E.
  unfold logged in E.
  pose proof (rd_bytes (fst (r_src _ r)) (scap b - slen b)) as Hby.
  destruct (rd (fst (r_src _ r)) (scap b - slen b)) as [[chunk err] s'] eqn:Erd. cbn [fst] in Hby.
  pose proof (zlen_nonneg chunk) as Hn0.
  destruct (Z.gtb_spec (slen b + zlen chunk) (scap b)) as [Hx|Hx]; [discriminate|].
  unfold slice_ok in Hb.
  assert (zlen (zwrite (arr b) (slen b) chunk) = zlen (arr b)) as Hw
    by (apply zlen_zwrite; unfold scap in *; lia).
  rewrite reslice_spec in E by (unfold scap in *; cbn [arr]; lia).
  cbn [bind arr] in E. injection E as <-.
  exists chunk. split; [exact Hby|]. unfold reader_ok, StreamModel.cdata.
  cbn [r_src r_scratch r_cdata_lo r_cdata_hi r_rdata r_err snd fst].
  split; [|split; [reflexivity|split; [reflexivity|split; [|split; reflexivity]]]].
  - split; [exact Hs|]. split; [|exact Hc]. unfold slice_ok, scap in *. cbn [arr slen]. lia.
  - unfold contents at 1. cbn [arr slen].
    rewrite ztake_zwrite by (unfold scap in *; lia). rewrite <- Hcont. reflexivity.
Qed.

Lemma read_log fuel : forall r k sent p err r', linv r sent -> 0 <= k ->
  Read fuel r k = Ok (p, err, r') -> linv r' (sent ++ p) /\
  (err <> None -> cdata r' = []).
Proof.
  induction fuel as [|fuel IH]; intros r k sent p err r' Hinv Hk E; [discriminate|].
  cbn [StreamModel.Read] in E. pose proof Hinv as (Hok & done & lost & rs & Hlog & Hdone & Hsent & Hcut & Hrd).
  pose proof (cdata_len _ r Hok) as Hcl.
  destruct (Z.gtb_spec (r_cdata_hi _ r - r_cdata_lo _ r) 0) as [Hd|Hd].
  - injection E as <- <- <-. set (m := Z.min k (r_cdata_hi _ r - r_cdata_lo _ r)).
    split; [|congruence]. set (r' := mkReader _ _ _ _ _ _ _).
    assert (cdata r' = zdrop m (cdata r)) as Ec.
    { unfold r', StreamModel.cdata. cbn [r_scratch r_cdata_lo r_cdata_hi]. destruct Hok as (_ & _ & Hlo & _).
      rewrite zdrop_zdrop by (unfold m; lia). f_equal. lia. }
    split.
    + destruct Hok as (H1 & H2 & H3). unfold r', reader_ok. cbn [r_scratch r_cdata_lo r_cdata_hi r_rdata].
      split; [exact H1|]. split; [exact H2|]. unfold m. lia.
    + exists done, lost, rs. split; [exact Hlog|]. split; [exact Hdone|]. split; [|split; [exact Hcut|exact Hrd]].
      rewrite Ec, <- app_assoc, ztake_zdrop. exact Hsent.
  - assert (cdata r = []) as Ecd by (apply zlen_0; pose proof (zlen_nonneg (cdata r)); lia).
    rewrite Ecd, app_nil_r in Hsent.
    destruct (r_err _ r) as [e'|] eqn:Ee.
    + destruct (Z.eqb_spec (slen (r_rdata _ r)) 0) as [E0|E0].
      { injection E as <- <- <-. rewrite app_nil_r. split; [exact Hinv|auto]. }
      assert (contents (r_rdata _ r) <> []) as Hne
        by (intros En; apply contents_nil_len in En; [lia|apply Hok]).
      destruct Hrd as [Hrd|[_ Hrd]]; [|congruence].
      assert (lost <> []) as Hl by (intros ->; rewrite Hrd in Hne; cbn in Hne; congruence).
      assert (exists a, cut_after a (contents (r_rdata _ r))) as (a & Ha).
      { destruct (Hcut (length lost)) as [p' Hp'].
        { destruct lost; [congruence|cbn; lia]. }
        rewrite firstn_all, <- Hrd in Hp'.
        assert (Forall is_byte (contents (r_rdata _ r))) as Hby.
        { apply cut_bytes in Hp'. apply Forall_app in Hp'. tauto. }
        destruct (decodes_or_cut _ Hby) as [(rs' & Hrs')|H]; [|exact H].
        destruct (cut_not_complete _ _ Hp' (rs ++ rs')). apply decodes_app; assumption. }
      destruct (convert_cut grow _ r a Hok Ha) as (r1 & E1 & Hok1 & Es1 & Ee1 & Ec1 & _ & _ & _ & Er1).
      rewrite E1 in E. cbn [bind] in E. rewrite Ee in Ee1, Er1.
      apply (IH r1 k sent p err r'); [|exact Hk|exact E].
      split; [exact Hok1|]. exists done, lost, rs. rewrite Es1, Ec1, app_nil_r.
      split; [exact Hlog|]. split; [exact Hdone|]. split; [exact Hsent|]. split; [exact Hcut|].
      right. split; [congruence|exact Er1].
    + destruct Hrd as [Hrd|[Hrd _]]; [|congruence].
      destruct (fill r k) as [r1| |] eqn:Ef; try discriminate. cbn [bind] in E.
      destruct (fill_log r k r1 Hok Ef) as (chunk & Hcb & Hok1 & Hlog1 & Ec1 & Er1 & _ & _).
      rewrite Hrd in Er1.
      assert (Forall is_byte (contents (r_rdata _ r1))) as Hby1.
      { rewrite Er1. apply Forall_app. split; [|exact Hcb].
        destruct lost as [|l0 lost'] eqn:El; [constructor|].
        destruct (Hcut (length lost)) as [p' Hp']; [subst; cbn; lia|]. rewrite <- El in *.
        rewrite firstn_all in Hp'. apply cut_bytes in Hp'. apply Forall_app in Hp'. tauto. }
      destruct (decodes_or_cut _ Hby1) as [(ra & Hra)|(a & Ha)].
      * destruct (convert_complete grow _ r1 ra Hok1 Hra) as (r2 & E2 & Hok2 & Es2 & Ee2 & Ec2 & Er2 & _).
        rewrite E2 in E. cbn [bind] in E. apply (IH r2 k sent p err r'); [|exact Hk|exact E].
        split; [exact Hok2|]. exists (done ++ lost ++ [chunk]), [], (rs ++ ra).
        rewrite Es2, Hlog1, Hlog, Ec2, Er2, app_nil_r, app_assoc.
        split; [reflexivity|]. split.
        { rewrite !concat_app. cbn [concat]. rewrite app_nil_r, <- app_assoc.
          apply decodes_app; [exact Hdone|]. rewrite <- Er1. exact Hra. }
        split; [rewrite utf8_app; congruence|]. split; [|left; reflexivity].
        intros j Hj. cbn in Hj. lia.
      * destruct (convert_cut grow _ r1 a Hok1 Ha) as (r2 & E2 & Hok2 & Es2 & Ee2 & Ec2 & _ & _ & _ & Er2).
        rewrite E2 in E. cbn [bind] in E. apply (IH r2 k sent p err r'); [|exact Hk|exact E].
        split; [exact Hok2|]. exists done, (lost ++ [chunk]), rs.
        rewrite Es2, Hlog1, Hlog, Ec2, app_nil_r, app_assoc.
        split; [reflexivity|]. split; [exact Hdone|]. split; [exact Hsent|]. split.
        { eapply all_cut_snoc; [exact Hdone|exact Hcut|]. exists a. rewrite <- Er1. exact Ha. }
        rewrite Er2, Ee2. destruct (r_err _ r1) as [e1|].
        -- right. split; [congruence|reflexivity].
        -- left. rewrite concat_app. cbn [concat]. rewrite app_nil_r. exact Er1.
Qed.

Lemma read_seq_log fuel sizes : Forall (fun k => 0 <= k) sizes -> forall r sent out err r',
  linv r sent -> read_seq grow _ (logged rd) fuel r sizes = Ok (out, err, r') ->
  linv r' (sent ++ out) /\ (err <> None -> cdata r' = []).
Proof.
  induction 1 as [|k sizes Hk Hs IH]; intros r sent out err r' Hinv E; cbn [read_seq] in E.
  - injection E as <- <- <-. rewrite app_nil_r. split; [exact Hinv|congruence].
  - destruct (Read fuel r k) as [[[p e] r1]| |] eqn:E1; try discriminate. cbn [bind] in E.
    destruct (read_log fuel r k sent p e r1 Hinv Hk E1) as [Hinv1 Hc1].
    destruct e as [e|].
    + injection E as <- <- <-. split; [exact Hinv1|exact Hc1].
    + destruct (read_seq _ _ _ _ r1 sizes) as [[[p2 e2] r2]| |] eqn:E2; try discriminate.
      cbn [bind] in E. injection E as <- <- <-. rewrite app_assoc.
      apply (IH r1 (sent ++ p) p2 e2 r2 Hinv1 E2).
Qed.

Lemma C46_exact_lemma s fuel sizes out e r' :
  Forall (fun k => 0 <= k) sizes ->
  read_seq grow _ (logged rd) fuel (NewReader (s, [])) sizes = Ok (out, Some e, r') ->
  exists done lost rs, log r' = done ++ lost /\ decodes (concat done) rs /\ out = utf8 rs /\
    forall j, (0 < j <= length lost)%nat -> truncated (concat done ++ concat (firstn j lost)).
Proof.
  intros Hs E.
  assert (linv (NewReader (s, [])) []) as Hinv.
  { split.
    - unfold reader_ok, NewReader. cbn. unfold slice_ok, scap. cbn. lia.
    - exists [], [], []. cbn. split; [reflexivity|]. split; [constructor|]. split; [reflexivity|].
      split; [intros j Hj; cbn in Hj; lia|left; reflexivity]. }
  destruct (read_seq_log fuel sizes Hs _ _ _ _ _ Hinv E) as [(_ & done & lost & rs & H1 & H2 & H3 & H4 & _) Hc].
  rewrite Hc in H3 by congruence. rewrite app_nil_r in H3. exists done, lost, rs. auto.
Qed.
End Logged.
