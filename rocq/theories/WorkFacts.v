(** The work of a Reader. *)
From Coq Require Import ZArith List Bool Lia.
From Coq Require Import ZifyBool.
From Verif Require Import Base Spec Facts Utf8 Utf8Facts SortSearch TableFrom TableTo SpecCp949
  SpecIO SpecWork PMapFacts Cp949Model StreamModel IoModel SliceFacts TableFacts Cp949Facts Cp949Facts2 Cp949Facts3 TransformFacts2
  StreamFacts StreamFacts2 TransformFacts3 PipeFacts PipeFacts2.
Import ListNotations.
#[local] Open Scope Z_scope.
#[local] Open Scope go_scope.
#[local] Opaque fromTable toTable dec_tree enc_tree.

(** The annotation does not change the results. *)
Lemma read_work_same grow RS rd fuel : forall r k,
  Read grow RS rd fuel r k = let! (p, e, r', _) := Read_work grow RS rd fuel r k in Ok (p, e, r').
Proof.
  induction fuel as [|fuel IH]; intros r k; [reflexivity|]. cbn [Read Read_work].
  destruct (_ >? 0); [reflexivity|]. destruct (r_err _ r).
  - destruct (_ =? 0); [reflexivity|]. destruct (convert grow RS r) as [r1| |]; [|reflexivity|reflexivity]. cbn [bind].
    rewrite IH. destruct (Read_work grow RS rd fuel r1 k) as [[[[? ?] ?] ?]| |]; reflexivity.
  - destruct (fill RS rd r k) as [r1| |]; [|reflexivity|reflexivity]. cbn [bind].
    destruct (convert grow RS r1) as [r2| |]; [|reflexivity|reflexivity]. cbn [bind].
    rewrite IH. destruct (Read_work grow RS rd fuel r2 k) as [[[[? ?] ?] ?]| |]; reflexivity.
Qed.

Section Work.
Variable grow : Z -> Z -> Z.
Variable RS : Type.
Variable rd : RS -> Z -> list Z * option error * RS.
Hypothesis rd_bytes : forall s k, Forall is_byte (fst (fst (rd s k))).
(** The smallest buffer a client uses. *)
Variable least : Z.
Notation LS := (RS * list (list Z))%type.
Notation reader := (reader LS).
Notation log r := (snd (r_src LS r)).
Notation lrd := (logged rd).

(** Before each round of a Read. *)
Definition round (r : reader) : Prop :=
  reader_ok LS r /\ Forall is_byte (contents (r_rdata _ r)) /\ (contents (r_rdata _ r) = [] \/ r_err _ r = None /\ cdata LS r = []).
Definition handed (c : list Z) : Prop := exists s sp, least <= sp /\ c = fst (fst (rd s sp)).

Lemma fill_handed r k r1 : least <= k -> reader_ok _ r -> fill LS lrd r k = Ok r1 ->
  exists chunk, handed chunk /\ Forall is_byte chunk /\ reader_ok _ r1 /\ log r1 = log r ++ [chunk] /\
    cdata LS r1 = cdata LS r /\ contents (r_rdata _ r1) = contents (r_rdata _ r) ++ chunk /\
    (chunk = [] -> r_err _ r1 <> None).
Proof.
  intros Hk (Hs & Hr & Hc) E. unfold StreamModel.fill in E.
  destruct (ensureCap_spec (r_rdata _ r) (slen (r_rdata _ r) + k) Hr)
    as (b & Eb & Hb & Hcont & Hl & Hcap & _). rewrite Eb in E. cbn [bind] in E.
  unfold logged in E.
  pose proof (rd_bytes (fst (r_src _ r)) (scap b - slen b)) as Hby.
  assert (handed (fst (fst (rd (fst (r_src _ r)) (scap b - slen b))))) as Hh by (do 2 eexists; split; [|reflexivity]; lia).
  destruct (rd (fst (r_src _ r)) (scap b - slen b)) as [[chunk err] s'] eqn:Erd. cbn [fst] in Hby, Hh.
  pose proof (zlen_nonneg chunk) as Hn0.
  destruct (Z.gtb_spec (slen b + zlen chunk) (scap b)) as [Hx|Hx]; [discriminate|].
  unfold slice_ok in Hb.
  assert (zlen (zwrite (arr b) (slen b) chunk) = zlen (arr b)) as Hw
    by (apply zlen_zwrite; unfold scap in *; lia).
  rewrite reslice_spec in E by (unfold scap in *; cbn [arr]; lia).
  cbn [bind arr] in E. injection E as <-.
  exists chunk. split; [exact Hh|]. split; [exact Hby|]. unfold reader_ok, StreamModel.cdata.
  cbn [r_src r_scratch r_cdata_lo r_cdata_hi r_rdata r_err snd fst].
  split; [|split; [reflexivity|split; [reflexivity|split]]].
  - split; [exact Hs|]. split; [|exact Hc]. unfold slice_ok, scap in *. cbn [arr slen]. lia.
  - unfold contents at 1. cbn [arr slen].
    rewrite ztake_zwrite by (unfold scap in *; lia). rewrite <- Hcont. reflexivity.
  - intros ->. destruct err; cbn; discriminate.
Qed.

Lemma read_work_exact fuel : forall r k p e r' ws, 0 <= k -> least <= k -> round r ->
  Read_work grow LS lrd fuel r k = Ok (p, e, r', ws) ->
  exists new, log r' = log r ++ new /\ Forall handed new /\ ws = sums (zlen (contents (r_rdata _ r))) new /\
    round r' /\ contents (r_rdata _ r') = [] /\
    ((forall c, handed c -> exists rs, decodes c rs) -> contents (r_rdata _ r) = [] -> total ws = zlen (concat new)).
Proof.
  induction fuel as [|fuel IH]; intros r k p e r' ws Hk Hlk (Hok & Hby & Hst) E; [discriminate|].
  cbn [Read_work] in E. destruct (Z.gtb_spec (r_cdata_hi _ r - r_cdata_lo _ r) 0) as [Hc|Hc].
  - injection E as <- <- <- <-. exists []. rewrite app_nil_r. cbn [r_src r_rdata sums total concat].
    assert (contents (r_rdata _ r) = []) as Hn.
    { destruct Hst as [H|[_ H]]; [exact H|]. apply (cdata_nil LS r Hok) in H. lia. }
    split; [reflexivity|]. split; [constructor|]. split; [reflexivity|]. split; [|split; [exact Hn|reflexivity]].
    split; [|split; [exact Hby|left; exact Hn]].
    destruct Hok as (H1 & H2 & H3 & H4). unfold reader_ok. cbn [r_scratch r_rdata r_cdata_lo r_cdata_hi].
    split; [exact H1|]. split; [exact H2|]. lia.
  - assert (cdata LS r = []) as Hcd.
    { apply zlen_0. rewrite (cdata_len LS r Hok). destruct Hok as (_ & _ & ? & _). lia. }
    destruct (r_err _ r) as [x|] eqn:Ee.
    + destruct Hst as [Hn|[H _]]; [|discriminate].
      rewrite (contents_nil_len _ (proj1 (proj2 Hok)) Hn) in E. cbn [Z.eqb] in E. injection E as <- <- <- <-.
      exists []. rewrite app_nil_r. split; [reflexivity|]. split; [constructor|]. split; [reflexivity|]. split; [|split; [exact Hn|reflexivity]].
      split; [exact Hok|]. split; [exact Hby|left; exact Hn].
    + destruct (fill LS lrd r k) as [r1| |] eqn:Ef; [|discriminate|discriminate]. cbn [bind] in E.
      destruct (fill_handed r k r1 Hlk Hok Ef) as (c & Hh & Hcb & Hok1 & El1 & Ec1 & Er1 & Hne).
      assert (Forall is_byte (contents (r_rdata _ r1))) as Hb1 by (rewrite Er1; apply Forall_app; auto).
      assert (slen (r_rdata _ r1) = zlen (contents (r_rdata _ r)) + zlen c) as Hl1.
      { rewrite <- (contents_len _ (proj1 (proj2 Hok1))), Er1, zlen_app. reflexivity. }
      destruct (decodes_or_cut _ Hb1) as [(rs & Hd)|(a & Hcut)].
      * destruct (convert_complete grow LS r1 rs Hok1 Hd) as (r2 & E2 & Hok2 & Es2 & Ee2 & Ec2 & Er2 & Esl2 & _).
        rewrite E2 in E. cbn [bind] in E.
        destruct (Read_work grow LS lrd fuel r2 k) as [[[[p1 e1] r3] ws1]| |] eqn:E3; [|discriminate|discriminate].
        cbn [bind] in E. injection E as <- <- <- <-.
        assert (ws1 = []) as ->.
        { destruct fuel as [|fuel]; [discriminate|]. cbn [Read_work] in E3.
          destruct (Z.gtb_spec (r_cdata_hi _ r2 - r_cdata_lo _ r2) 0) as [H2|H2]; [congruence|].
          rewrite Ee2, Esl2 in E3. destruct (r_err _ r1) eqn:Ee1; [cbn [Z.eqb] in E3; congruence|].
          exfalso. assert (rs = []) as ->.
          { destruct rs as [|x rs]; [reflexivity|]. exfalso.
            assert (0 < zlen (utf8 (x :: rs))) by (apply utf8_nonempty; [discriminate|eapply decodes_scalar; exact Hd]).
            rewrite <- Ec2, (cdata_len LS r2 Hok2) in H. lia. }
          assert (contents (r_rdata _ r) ++ c = []) as Hnil by (rewrite <- Er1; inversion Hd; reflexivity).
          apply app_eq_nil in Hnil. apply Hne; tauto. }
        destruct (IH r2 k p1 e1 r3 [] Hk Hlk) as (new & El & Hnew & Ew & Hr & Hn & Hw); [|exact E3|].
        { split; [exact Hok2|]. rewrite Er2. split; [constructor|left; reflexivity]. }
        destruct new as [|? ?]; [|discriminate]. rewrite app_nil_r in El.
        exists [c]. split; [rewrite El, Es2; exact El1|]. split; [repeat constructor; exact Hh|].
        cbn [sums]. rewrite Hl1. split; [reflexivity|]. split; [exact Hr|]. split; [exact Hn|].
        intros _ ->. cbn [total concat]. rewrite app_nil_r. change (zlen (@nil Z)) with 0. lia.
      * destruct (convert_cut grow LS r1 a Hok1 Hcut) as (r2 & E2 & Hok2 & Es2 & Ee2 & Ec2 & _ & _ & _ & Er2).
        rewrite E2 in E. cbn [bind] in E.
        destruct (Read_work grow LS lrd fuel r2 k) as [[[[p1 e1] r3] ws1]| |] eqn:E3; [|discriminate|discriminate].
        cbn [bind] in E. injection E as <- <- <- <-.
        destruct (IH r2 k p1 e1 r3 ws1 Hk Hlk) as (new & El & Hnew & Ew & Hr & Hn & Hw); [|exact E3|].
        { split; [exact Hok2|]. rewrite Er2, Ee2, Ec2. destruct (r_err _ r1); [split; [constructor|auto]|split; [exact Hb1|auto]]. }
        assert ((forall c0, handed c0 -> exists rs, decodes c0 rs) -> contents (r_rdata _ r) = [] -> False) as Hwhole.
        { intros Hx Hn0. destruct (Hx c Hh) as (rs & Hd). rewrite Er1, Hn0 in Hcut. exact (cut_not_self _ _ _ Hcut Hd). }
        exists (c :: new). split; [rewrite El, Es2, El1, <- app_assoc; reflexivity|]. split; [constructor; assumption|].
        split; [|split; [exact Hr|split; [exact Hn|intros Hx Hn0; destruct (Hwhole Hx Hn0)]]].
        cbn [sums]. rewrite Hl1. f_equal. rewrite Ew.
        destruct (r_err _ r1) eqn:Ee1.
        -- (* after the error nothing more is read *)
           assert (new = []) as ->; [|reflexivity].
           destruct fuel as [|fuel]; [discriminate|]. cbn [Read_work] in E3.
           rewrite (cdata_nil LS r2 Hok2 Ec2), Ee2 in E3. change (0 >? 0) with false in E3. cbv iota in E3.
           rewrite (contents_nil_len _ (proj1 (proj2 Hok2)) Er2) in E3. cbn [Z.eqb] in E3. injection E3 as _ _ _ E4.
           rewrite Ew in E4. destruct new; [reflexivity|discriminate].
        -- rewrite Er2, Er1, zlen_app. reflexivity.
Qed.

Lemma round_new s : round (NewReader (s, [])).
Proof.
  split; [|split; [constructor|left; reflexivity]].
  unfold reader_ok, NewReader, slice_ok, scap. cbn. repeat split; lia.
Qed.

Lemma reads_work_exact fuel sizes : Forall (fun k => 0 <= k /\ least <= k) sizes -> forall r r' wss, round r -> contents (r_rdata _ r) = [] ->
  reads_work grow LS lrd fuel r sizes = Ok (r', wss) ->
  exists news, log r' = log r ++ concat news /\ Forall (Forall handed) news /\ wss = map (sums 0) news /\
  ((forall c, handed c -> exists rs, decodes c rs) -> total (concat wss) = zlen (concat (concat news))).
Proof.
  induction 1 as [|k sizes [Hk Hlk] _ IH]; intros r r' wss Hr Hn E; cbn [reads_work] in E.
  - injection E as <- <-. exists []. cbn. rewrite app_nil_r. repeat split; constructor.
  - destruct (Read_work grow LS lrd fuel r k) as [[[[p e] r1] ws]| |] eqn:E1; [|discriminate|discriminate]. cbn [bind] in E.
    destruct (reads_work grow LS lrd fuel r1 sizes) as [[r2 wss2]| |] eqn:E2; [|discriminate|discriminate]. cbn [bind] in E.
    injection E as <- <-.
    destruct (read_work_exact fuel r k p e r1 ws Hk Hlk Hr E1) as (new & El & Hh & -> & Hr1 & Hn1 & Hw).
    destruct (IH r1 r2 wss2 Hr1 Hn1 E2) as (news & El2 & Hh2 & -> & Hw2).
    exists (new :: news). cbn [concat map]. split; [rewrite El2, El, <- app_assoc; reflexivity|]. split; [constructor; assumption|].
    rewrite Hn. split; [reflexivity|]. intros Hx. rewrite concat_app, zlen_app, <- (Hw2 Hx), <- (Hw Hx Hn), Hn.
    generalize (sums (zlen (@nil Z)) new), (concat (map (sums 0) news)). intros l1 l2. induction l1 as [|x l1 IHl]; cbn [app total]; [reflexivity|lia].
Qed.

End Work.

Lemma C127_exact_lemma grow RS (rd : RS -> Z -> list Z * option error * RS) : (forall s k, Forall is_byte (fst (fst (rd s k)))) ->
  forall s fuel sizes r' wss, Forall (fun k => 0 <= k) sizes ->
  reads_work grow _ (logged rd) fuel (NewReader (s, [])) sizes = Ok (r', wss) ->
  exists news, snd (r_src _ r') = concat news /\ wss = map (sums 0) news.
Proof.
  intros Hb s fuel sizes r' wss Hs E.
  destruct (reads_work_exact grow RS rd Hb 0 fuel sizes) with (r := NewReader (s, @nil (list Z))) (r' := r') (wss := wss) as (news & H1 & _ & H2 & _).
  - eapply Forall_impl; [|exact Hs]. cbn. lia.
  - apply round_new.
  - reflexivity.
  - exact E.
  - exists news. split; [exact H1|exact H2].
Qed.
Lemma C127_whole_lemma grow RS (rd : RS -> Z -> list Z * option error * RS) : (forall s k, Forall is_byte (fst (fst (rd s k)))) ->
  forall least s fuel sizes r' wss, 0 <= least -> (forall s k, least <= k -> exists rs, decodes (fst (fst (rd s k))) rs) ->
  Forall (fun k => least <= k) sizes -> reads_work grow _ (logged rd) fuel (NewReader (s, [])) sizes = Ok (r', wss) ->
  total (concat wss) = zlen (concat (snd (r_src _ r'))).
Proof.
  intros Hb least s fuel sizes r' wss H0 Hx Hs E.
  destruct (reads_work_exact grow RS rd Hb least fuel sizes) with (r := NewReader (s, @nil (list Z))) (r' := r') (wss := wss) as (news & H1 & _ & _ & H2).
  - eapply Forall_impl; [|exact Hs]. cbn. lia.
  - apply round_new.
  - reflexivity.
  - exact E.
  - rewrite H2; [rewrite H1; reflexivity|]. intros c (s0 & sp & Hle & ->). now apply Hx.
Qed.

Lemma sums_square chunks : Forall (fun c => zlen c <= 2) chunks -> forall b, 0 <= b ->
  (b + zlen (concat chunks)) * (b + zlen (concat chunks)) - b * b <= 4 * total (sums b chunks).
Proof.
  induction 1 as [|c chunks Hc _ IH]; intros b Hb; cbn [concat sums total].
  - change (zlen (@nil Z)) with 0. nia.
  - rewrite zlen_app. pose proof (zlen_nonneg c). specialize (IH (b + zlen c) ltac:(lia)).
    replace (b + (zlen c + zlen (concat chunks))) with (b + zlen c + zlen (concat chunks)) by lia. nia.
Qed.

Lemma half_chunk s k : Forall is_byte (fst (fst (half_rd s k))) /\ zlen (fst (fst (half_rd s k))) <= 2.
Proof.
  destruct s as [[] [|[|n]]]; cbn [half_rd]; [| |destruct (2 <=? k)| | |]; cbn [fst]; (split; [|cbn; lia]);
    repeat constructor; lia.
Qed.
Lemma C127_refuted_lemma : exists (RS : Type) (rd : RS -> Z -> list Z * option error * RS), forall c, 0 <= c ->
  exists s stream, delivers rd s stream EOF /\ forall grow k fuel, 2 <= k -> (length stream + 4 <= fuel)%nat ->
  exists p r' ws, Read_work grow _ (logged rd) fuel (NewReader (s, [])) k = Ok (p, None, r', ws) /\
    concat (snd (r_src _ r')) = stream /\ c * zlen stream < total ws.
Proof.
  exists (bool * nat)%type, half_rd. intros c Hc. set (n := Z.to_nat (2 * c)). exists (false, S n), (gas (S n)).
  split; [exact (half_delivers_aux (S n) false)|]. intros grow k fuel Hk Hf.
  pose proof (gas_len (S n)) as Hl. unfold zlen in Hl.
  destruct (half_all grow k Hk n fuel ltac:(lia)) as (p & r' & H1 & H2 & H3 & _).
  rewrite read_work_same in H1. destruct (Read_work grow _ (logged half_rd) fuel _ k) as [[[[p0 e0] r0] ws]| |] eqn:E; [|discriminate|discriminate].
  cbn [bind] in H1. injection H1 as -> -> ->. exists p, r', ws. split; [reflexivity|]. split; [exact H3|].
  destruct (read_work_exact grow _ half_rd (fun s k => proj1 (half_chunk s k)) 0 fuel _ k p None r' ws ltac:(lia) ltac:(lia) (round_new _ _) E)
    as (new & El & Hh & -> & _). cbn [NewReader r_src snd app] in El. rewrite El in H3.
  change (zlen (contents (r_rdata _ (NewReader ((false, S n), @nil (list Z)))))) with 0.
  assert (Forall (fun c => zlen c <= 2) new) as H4.
  { eapply Forall_impl; [|exact Hh]. intros x (s & sp & _ & ->). apply half_chunk. }
  pose proof (sums_square new H4 0 ltac:(lia)) as H5. rewrite H3 in H5. unfold zlen in *. nia.
Qed.
