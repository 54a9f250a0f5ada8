(** What the Reader holds back, and how it uses the wrapped reader. *)
From Coq Require Import ZArith List Bool Lia.
From Coq Require Import ZifyBool.
From Verif Require Import Base Spec Facts Utf8 Utf8Facts SortSearch TableFrom TableTo SpecCp949
  SpecIO PMapFacts Cp949Model StreamModel SliceFacts TableFacts Cp949Facts Cp949Facts2 StreamFacts StreamFacts2.
Import ListNotations.
Local Open Scope Z_scope.
Local Opaque fromTable toTable dec_tree enc_tree.

(** ** Nothing decoded is held back *)
Section Logged.
Variable grow : Z -> Z -> Z.
Variable RS : Type.
Variable rd : RS -> Z -> list Z * option error * RS.
Hypothesis rd_bytes : forall s k, Forall is_byte (fst (fst (rd s k))).
Notation reader := (reader (RS * list (list Z))).
Notation cdata := (cdata (RS * list (list Z))).
Notation Read := (Read grow (RS * list (list Z)) (logged rd)).
Notation fill := (fill (RS * list (list Z)) (logged rd)).
Notation convert := (convert grow (RS * list (list Z))).
Notation log r := (snd (r_src (RS * list (list Z)) r)).
Notation linv := (linv RS).

(** Everything read so far has been converted. *)
Definition settled (r : reader) (sent : list Z) : Prop :=
  exists rs, decodes (concat (log r)) rs /\ sent ++ cdata r = utf8 rs.

Lemma read_settled fuel : forall r k sent p r', linv r sent -> (cdata r <> [] -> settled r sent) -> 0 <= k ->
  Read fuel r k = Ok (p, None, r') -> settled r' (sent ++ p).
Proof.
  induction fuel as [|fuel IH]; intros r k sent p r' Hinv Hset Hk E; [discriminate|].
  cbn [StreamModel.Read] in E. pose proof Hinv as (Hok & done & lost & rs & Hlog & Hdone & Hsent & Hcut & Hrd).
  pose proof (cdata_len _ r Hok) as Hcl.
  destruct (Z.gtb_spec (r_cdata_hi _ r - r_cdata_lo _ r) 0) as [Hd|Hd].
  - injection E as <- <-. set (m := Z.min k (r_cdata_hi _ r - r_cdata_lo _ r)).
    destruct Hset as (rs0 & H1 & H2); [intros En; rewrite En, zlen_nil in Hcl; lia|].
    exists rs0. cbn [r_src]. split; [exact H1|]. rewrite <- app_assoc.
    replace (ztake m (cdata r) ++ _) with (cdata r); [exact H2|].
    unfold StreamModel.cdata at 3. cbn [r_scratch r_cdata_lo r_cdata_hi].
    rewrite <- (ztake_zdrop m (cdata r)) at 1. f_equal. unfold StreamModel.cdata.
    destruct Hok as (_ & _ & Hlo & _). rewrite zdrop_zdrop by (unfold m; lia). f_equal. lia.
  - assert (cdata r = []) as Ecd by (apply zlen_0; pose proof (zlen_nonneg (cdata r)); lia).
    destruct (r_err _ r) as [e'|] eqn:Ee.
    + destruct (Z.eqb_spec (slen (r_rdata _ r)) 0) as [E0|E0]; [discriminate|].
      destruct (convert r) as [r1| |] eqn:E1; try discriminate. cbn [bind] in E.
      assert (contents (r_rdata _ r) <> []) as Hne
        by (intros En; apply contents_nil_len in En; [lia|apply Hok]).
      destruct Hrd as [Hrd|[_ Hrd]]; [|congruence].
      assert (lost <> []) as Hl by (intros ->; rewrite Hrd in Hne; cbn in Hne; congruence).
      assert (exists a, cut_after a (contents (r_rdata _ r))) as (a & Ha).
      { destruct (Hcut (length lost)) as [p' Hp'].
        { destruct lost; [congruence|cbn; lia]. }
        rewrite firstn_all, <- Hrd in Hp'.
        assert (Forall is_byte (contents (r_rdata _ r))) as Hby.
        { apply cut_bytes in Hp'. apply Forall_app in Hp'. tauto. }
        destruct (decodes_or_cut _ Hby) as [(rs' & Hrs')|H]; [|exact H].
        destruct (cut_not_complete _ _ Hp' (rs ++ rs')). apply decodes_app; assumption. }
      destruct (convert_cut grow _ r a Hok Ha) as (r1' & E1' & Hok1 & Es1 & Ee1 & Ec1 & _ & _ & _ & Er1).
      rewrite E1 in E1'. injection E1' as <-. rewrite Ee in Ee1, Er1.
      apply (IH r1 k sent p r'); [|congruence|exact Hk|exact E].
      split; [exact Hok1|]. exists done, lost, rs. rewrite Es1, Ec1. rewrite Ecd in Hsent.
      split; [exact Hlog|]. split; [exact Hdone|]. split; [exact Hsent|]. split; [exact Hcut|].
      right. split; [congruence|exact Er1].
    + rewrite Ecd, app_nil_r in Hsent. destruct Hrd as [Hrd|[Hrd _]]; [|congruence].
      destruct (fill r k) as [r1| |] eqn:Ef; try discriminate. cbn [bind] in E.
      destruct (fill_log RS rd rd_bytes r k r1 Hok Ef) as (chunk & Hcb & Hok1 & Hlog1 & Ec1 & Er1 & _ & _).
      rewrite Hrd in Er1.
      assert (Forall is_byte (contents (r_rdata _ r1))) as Hby1.
      { rewrite Er1. apply Forall_app. split; [|exact Hcb].
        destruct lost as [|l0 lost'] eqn:El; [constructor|].
        destruct (Hcut (length lost)) as [p' Hp']; [subst; cbn; lia|]. rewrite <- El in *.
        rewrite firstn_all in Hp'. apply cut_bytes in Hp'. apply Forall_app in Hp'. tauto. }
      destruct (decodes_or_cut _ Hby1) as [(ra & Hra)|(a & Ha)].
      * destruct (convert_complete grow _ r1 ra Hok1 Hra) as (r2 & E2 & Hok2 & Es2 & Ee2 & Ec2 & Er2 & _).
        rewrite E2 in E. cbn [bind] in E.
        assert (decodes (concat (done ++ lost ++ [chunk])) (rs ++ ra)) as Hall.
        { rewrite !concat_app. cbn [concat]. rewrite app_nil_r.
          apply decodes_app; [exact Hdone|]. rewrite <- Er1. exact Hra. }
        assert (sent ++ cdata r2 = utf8 (rs ++ ra)) as Hs2 by (rewrite Ec2, utf8_app; congruence).
        assert (log r2 = done ++ lost ++ [chunk]) as Hl2
          by (rewrite Es2, Hlog1, Hlog, app_assoc; reflexivity).
        apply (IH r2 k sent p r'); [|intros _|exact Hk|exact E].
        -- split; [exact Hok2|]. exists (done ++ lost ++ [chunk]), [], (rs ++ ra).
           rewrite Hl2, Er2, app_nil_r. split; [reflexivity|]. split; [exact Hall|]. split; [exact Hs2|].
           split; [|left; reflexivity]. intros j Hj. cbn in Hj. lia.
        -- exists (rs ++ ra). rewrite Hl2. auto.
      * destruct (convert_cut grow _ r1 a Hok1 Ha) as (r2 & E2 & Hok2 & Es2 & Ee2 & Ec2 & _ & _ & _ & Er2).
        rewrite E2 in E. cbn [bind] in E. apply (IH r2 k sent p r'); [|congruence|exact Hk|exact E].
        split; [exact Hok2|]. exists done, (lost ++ [chunk]), rs.
        rewrite Es2, Hlog1, Hlog, Ec2, app_nil_r, app_assoc.
        split; [reflexivity|]. split; [exact Hdone|]. split; [exact Hsent|]. split.
        { eapply all_cut_snoc; [exact Hdone|exact Hcut|]. exists a. rewrite <- Er1. exact Ha. }
        rewrite Er2, Ee2. destruct (r_err _ r1) as [e1|].
        -- right. split; [congruence|reflexivity].
        -- left. rewrite concat_app. cbn [concat]. rewrite app_nil_r. exact Er1.
Qed.

Lemma read_seq_settled fuel sizes : Forall (fun k => 0 <= k) sizes -> forall r sent out r',
  linv r sent -> settled r sent ->
  read_seq grow _ (logged rd) fuel r sizes = Ok (out, None, r') ->
  settled r' (sent ++ out) /\ linv r' (sent ++ out).
Proof.
  induction 1 as [|k sizes Hk Hs IH]; intros r sent out r' Hinv Hset E; cbn [read_seq] in E.
  - injection E as <- <-. rewrite app_nil_r. auto.
  - destruct (Read fuel r k) as [[[p e] r1]| |] eqn:E1; try discriminate. cbn [bind] in E.
    destruct (read_log grow RS rd rd_bytes fuel r k sent p e r1 Hinv Hk E1) as [Hinv1 _].
    destruct e as [e|]; [discriminate|].
    pose proof (read_settled fuel r k sent p r1 Hinv (fun _ => Hset) Hk E1) as Hset1.
    destruct (read_seq _ _ _ _ r1 sizes) as [[[p2 e2] r2]| |] eqn:E2; try discriminate.
    cbn [bind] in E. injection E as <- -> <-. rewrite app_assoc.
    apply (IH r1 (sent ++ p) p2 r2 Hinv1 Hset1 E2).
Qed.

Lemma read_cdata fuel r k : reader_ok _ r -> cdata r <> [] -> 0 <= k ->
  exists r', Read (S fuel) r k = Ok (ztake k (cdata r), None, r') /\ r_src _ r' = r_src _ r.
Proof.
  intros Hok Hc Hk. cbn [StreamModel.Read]. pose proof (cdata_len _ r Hok) as Hcl.
  assert (0 < zlen (cdata r)) as Hpos.
  { destruct (cdata r) as [|x l] eqn:E; [congruence|]. rewrite zlen_cons. pose proof (zlen_nonneg l). lia. }
  destruct (Z.gtb_spec (r_cdata_hi _ r - r_cdata_lo _ r) 0) as [Hd|Hd]; [|lia].
  assert (ztake (Z.min k (r_cdata_hi _ r - r_cdata_lo _ r)) (cdata r) = ztake k (cdata r)) as Et.
  { rewrite <- Hcl. destruct (Z.min_spec k (zlen (cdata r))) as [[H ->]|[H ->]]; [reflexivity|].
    rewrite !ztake_all by lia. reflexivity. }
  rewrite Et. eexists. split; reflexivity.
Qed.

Lemma C71_lemma s fuel sizes out r : Forall (fun k => 0 <= k) sizes ->
  read_seq grow _ (logged rd) fuel (NewReader (s, [])) sizes = Ok (out, None, r) ->
  exists rs pending, decodes (concat (log r)) rs /\ utf8 rs = out ++ pending /\
    forall k fuel', 0 <= k -> pending <> [] ->
      exists r', Read (S fuel') r k = Ok (ztake k pending, None, r') /\ r_src _ r' = r_src _ r.
Proof.
  intros Hs E.
  assert (linv (NewReader (s, [])) []) as Hinv.
  { split.
    - unfold reader_ok, NewReader. cbn. unfold slice_ok, scap. cbn. lia.
    - exists [], [], []. cbn. split; [reflexivity|]. split; [constructor|]. split; [reflexivity|].
      split; [intros j Hj; cbn in Hj; lia|left; reflexivity]. }
  assert (settled (NewReader (s, [])) []) as Hset by (exists []; split; [constructor|reflexivity]).
  destruct (read_seq_settled fuel sizes Hs _ _ _ _ Hinv Hset E) as [(rs & H1 & H2) Hinv'].
  cbn [app] in H2. exists rs, (cdata r). split; [exact H1|]. split; [congruence|].
  intros k fuel' Hk Hne. apply read_cdata; [apply Hinv'|exact Hne|exact Hk].
Qed.
End Logged.

(** ** Calls of the wrapped reader *)
Section Witnessed.
Variable grow : Z -> Z -> Z.
Variable RS : Type.
Variable rd : RS -> Z -> list Z * option error * RS.
Notation WS := (RS * list (Z * list Z * option error))%type.
Notation reader := (reader WS).
Notation Read := (Read grow WS (witnessed rd)).
Notation fill := (fill WS (witnessed rd)).
Notation convert := (convert grow WS).
Notation calls r := (snd (r_src WS r)).

Definition useful (c : Z * list Z * option error) : Prop := snd c = None /\ snd (fst c) <> [].
Definition cinv (r : reader) : Prop :=
  slice_ok (r_rdata _ r) /\
  match r_err _ r with
  | None => Forall useful (calls r)
  | Some _ => exists xs x, calls r = xs ++ [x] /\ Forall useful xs
  end.

Lemma convert_calls r r' : convert r = Ok r' -> slice_ok (r_rdata _ r) ->
  r_src _ r' = r_src _ r /\ r_err _ r' = r_err _ r /\ slice_ok (r_rdata _ r').
Proof.
  unfold StreamModel.convert. intros E Hok.
  destruct (from_Translate _ _ _ _) as [[[[nc cd] er] scratch]| |]; try discriminate. cbn [bind] in E.
  set (n := match r_err _ r with Some _ => _ | None => _ end) in E.
  destruct (Z.gtb_spec n (slen (r_rdata _ r))); [discriminate|].
  set (w := zwrite (arr (r_rdata _ r)) 0 (zdrop n (contents (r_rdata _ r)))) in E.
  assert (zlen w = scap (r_rdata _ r)) as Hw.
  { unfold w. apply zlen_zwrite; [lia|]. unfold slice_ok, scap in *.
    pose proof (contents_len _ Hok). 
    assert (zlen (zdrop n (contents (r_rdata _ r))) <= zlen (contents (r_rdata _ r))).
    { rewrite <- (ztake_zdrop n (contents (r_rdata _ r))) at 2. rewrite zlen_app.
      pose proof (zlen_nonneg (ztake n (contents (r_rdata _ r)))). lia. }
    lia. }
  unfold reslice in E. cbn [slen arr] in E.
  destruct ((0 <=? _) && (_ <=? _)) eqn:Eb; [|discriminate].
  cbn [bind] in E. injection E as <-. cbn [r_src r_err r_rdata].
  split; [reflexivity|]. split; [reflexivity|]. unfold slice_ok, scap in *. cbn [arr slen] in *. lia.
Qed.

Lemma fill_calls r k r' : fill r k = Ok r' -> slice_ok (r_rdata _ r) -> r_err _ r = None -> cinv r ->
  exists room chunk err, calls r' = calls r ++ [(room, chunk, err)] /\ k <= room /\
    slice_ok (r_rdata _ r') /\ (r_err _ r' = None -> useful (room, chunk, err)).
Proof.
  intros E Hok He (_ & Hinv). unfold StreamModel.fill in E.
  destruct (ensureCap_spec (r_rdata _ r) (slen (r_rdata _ r) + k) Hok)
    as (b & Eb & Hb & Hcont & Hl & Hcap & _). rewrite Eb in E. cbn [bind] in E.
  unfold witnessed in E.
  destruct (rd (fst (r_src _ r)) (scap b - slen b)) as [[chunk err] s'] eqn:Erd.
  pose proof (zlen_nonneg chunk) as Hn0.
  destruct (Z.gtb_spec (slen b + zlen chunk) (scap b)) as [Hx|Hx]; [discriminate|].
  unfold slice_ok in Hb.
  assert (zlen (zwrite (arr b) (slen b) chunk) = zlen (arr b)) as Hw
    by (apply zlen_zwrite; unfold scap in *; lia).
  rewrite reslice_spec in E by (unfold scap in *; cbn [arr]; lia).
  cbn [bind arr] in E. injection E as <-. cbn [r_src r_err r_rdata snd fst].
  exists (scap b - slen b), chunk, err. split; [reflexivity|]. split; [lia|]. split.
  - unfold slice_ok, scap in *. cbn [arr slen]. lia.
  - unfold useful. cbn [fst snd]. destruct err as [e|]; [discriminate|].
    destruct (Z.eqb_spec (zlen chunk) 0) as [E0|E0]; [discriminate|]. intros _. split; [reflexivity|].
    intros ->. apply E0. reflexivity.
Qed.

Lemma read_calls fuel : forall r k p err r', cinv r -> Read fuel r k = Ok (p, err, r') ->
  cinv r' /\ exists new, calls r' = calls r ++ new /\ Forall (fun c => k <= fst (fst c)) new /\
  (r_cdata_hi _ r - r_cdata_lo _ r > 0 \/ r_err _ r <> None -> new = []).
Proof.
  induction fuel as [|fuel IH]; intros r k p err r' Hinv E; [discriminate|].
  cbn [StreamModel.Read] in E.
  destruct (Z.gtb_spec (r_cdata_hi _ r - r_cdata_lo _ r) 0) as [Hd|Hd].
  - injection E as <- <- <-. split; [exact Hinv|]. exists []. rewrite app_nil_r. auto.
  - destruct (r_err _ r) as [e'|] eqn:Ee.
    + destruct (Z.eqb_spec (slen (r_rdata _ r)) 0) as [E0|E0].
      { injection E as <- <- <-. split; [exact Hinv|]. exists []. rewrite app_nil_r. auto. }
      destruct (convert r) as [r1| |] eqn:E1; try discriminate. cbn [bind] in E.
      destruct (convert_calls r r1 E1) as (Es & Er & Hok1); [apply Hinv|].
      assert (cinv r1) as Hinv1.
      { split; [exact Hok1|]. destruct Hinv as (_ & Hinv). rewrite Er, Es. exact Hinv. }
      destruct (IH r1 k p err r' Hinv1 E) as (H1 & new & H2 & H3 & H4).
      split; [exact H1|]. exists new. rewrite Es in H2. split; [exact H2|]. split; [exact H3|].
      intros _. apply H4. right. rewrite Er, Ee. discriminate.
    + destruct (fill r k) as [r1| |] eqn:Ef; try discriminate. cbn [bind] in E.
      destruct (fill_calls r k r1 Ef) as (room & chunk & er & Hc & Hroom & Hok1 & Hu);
        [apply Hinv|exact Ee|exact Hinv|].
      destruct (convert r1) as [r2| |] eqn:E2; try discriminate. cbn [bind] in E.
      destruct (convert_calls r1 r2 E2 Hok1) as (Es & Er & Hok2).
      destruct Hinv as (_ & Hinv). rewrite Ee in Hinv.
      assert (cinv r2) as Hinv2.
      { split; [exact Hok2|]. rewrite Er, Es. destruct (r_err _ r1) as [e1|].
        - exists (calls r), (room, chunk, er). auto.
        - rewrite Hc. apply Forall_app. split; [exact Hinv|]. constructor; [apply Hu; reflexivity|constructor]. }
      destruct (IH r2 k p err r' Hinv2 E) as (H1 & new & H2 & H3 & _).
      split; [exact H1|]. exists ((room, chunk, er) :: new). split.
      * rewrite H2, Es, Hc, <- app_assoc. reflexivity.
      * split; [constructor; [exact Hroom|exact H3]|]. intros [H|H]; [lia|congruence].
Qed.

Lemma read_seq_calls fuel sizes : forall r out err r', cinv r ->
  read_seq grow WS (witnessed rd) fuel r sizes = Ok (out, err, r') -> cinv r'.
Proof.
  induction sizes as [|k sizes IH]; intros r out err r' Hinv E; cbn [read_seq] in E.
  - injection E as <- <- <-. exact Hinv.
  - destruct (Read fuel r k) as [[[p e] r1]| |] eqn:E1; try discriminate. cbn [bind] in E.
    destruct (read_calls fuel r k p e r1 Hinv E1) as [Hinv1 _].
    destruct e as [e|]; [injection E as <- <- <-; exact Hinv1|].
    destruct (read_seq _ _ _ _ r1 sizes) as [[[p2 e2] r2]| |] eqn:E2; try discriminate.
    cbn [bind] in E. injection E as <- <- <-. apply (IH r1 p2 e2 r2 Hinv1 E2).
Qed.

Lemma C72_lemma s fuel sizes k out err r p err' r' :
  read_seq grow WS (witnessed rd) fuel (NewReader (s, [])) sizes = Ok (out, err, r) ->
  Read fuel r k = Ok (p, err', r') ->
  exists new, calls r' = calls r ++ new /\ Forall (fun c => k <= fst (fst c)) new /\
    (forall before c after, calls r' = before ++ c :: after -> after <> [] ->
       snd c = None /\ snd (fst c) <> []).
Proof.
  intros E1 E2.
  assert (cinv (NewReader (s, []))) as Hinv0.
  { split; [unfold slice_ok, scap; cbn; lia|]. cbn. constructor. }
  pose proof (read_seq_calls fuel sizes _ _ _ _ Hinv0 E1) as Hinv.
  destruct (read_calls fuel r k p err' r' Hinv E2) as ((_ & Hinv') & new & H1 & H2 & _).
  exists new. split; [exact H1|]. split; [exact H2|].
  intros before c after Hc Ha.
  assert (exists xs ys, calls r' = xs ++ ys /\ Forall useful xs /\ (length ys <= 1)%nat) as (xs & ys & Hxy & Hu & Hl).
  { destruct (r_err _ r').
    - destruct Hinv' as (xs & x & Hx & Hu). exists xs, [x]. auto.
    - exists (calls r'), []. rewrite app_nil_r. auto. }
  assert (In c xs) as Hin.
  { assert (length before < length xs)%nat as Hlt.
    { assert (length (before ++ c :: after) = length (xs ++ ys)) as Hlen by congruence.
      rewrite !app_length in Hlen. cbn [length] in Hlen. destruct after; [congruence|]. cbn [length] in Hlen. lia. }
    assert (nth_error (xs ++ ys) (length before) = Some c) as Hn.
    { rewrite <- Hxy, Hc, nth_error_app2 by lia. rewrite Nat.sub_diag. reflexivity. }
    rewrite nth_error_app1 in Hn by exact Hlt. eapply nth_error_In, Hn. }
  rewrite Forall_forall in Hu. apply Hu, Hin.
Qed.
End Witnessed.
