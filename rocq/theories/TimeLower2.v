(** How many steps a Reader takes at least, by what it converts. *)
From Coq Require Import String ZArith List Bool Lia.
From Verif Require Import Base Utf8 SortSearch TableFrom TableTo Cp949Model StreamModel StreamModel3 IoModel GoLang GoSource GoTime GoFacts GoHeap GoCp949 GoStream
  Facts Utf8Facts SliceFacts Spec SpecCp949 SpecIO SpecText2 TableFacts Cp949Facts Cp949Facts2 Cp949Facts3 TransformFacts2 StreamFacts StreamFacts2 StreamFacts3 StreamFacts4 StreamFacts5 SourceSpec SourceFacts SourceFacts2
  MemorySpec MemoryFacts TimeFacts TimeSpec TimeCp949 TimeStream TimeReader TimeReader2 TimeLower TransformFacts3 PipeFacts PipeFacts2.
From Verif Require SpecWork WorkFacts EmptyFacts.
Import ListNotations.
Local Open Scope string_scope.
Local Open Scope list_scope.
Local Open Scope Z_scope.
Local Open Scope go_scope.
Local Opaque fromTable toTable dec_tree enc_tree.
Notation Read_work := SpecWork.Read_work.
Notation reads_work := SpecWork.reads_work.
Notation sums := SpecWork.sums.
Notation sum := SpecWork.total.

Lemma reslice_least sl n sl' : reslice sl n = Ok sl' -> 0 <= slen sl'.
Proof.
  unfold reslice. destruct ((0 <=? n) && (n <=? scap sl)) eqn:H; [|discriminate]. intros [= <-].
  apply andb_prop in H as [H1 H2]. apply Z.leb_le in H1. exact H1.
Qed.
Lemma convert_least grow S (r r1 : reader S) : convert grow S r = Ok r1 -> 0 <= slen (r_rdata _ r1).
Proof.
  unfold convert. destruct (from_Translate _ _ _ _) as [[[[nc cd] x] sc]| |]; try discriminate. cbn [bind].
  match goal with |- (if ?c then _ else _) = _ -> _ => destruct c; [discriminate|] end.
  destruct (reslice _ _) as [sl| |] eqn:Er; try discriminate. cbn [bind]. intros [= <-]. eapply reslice_least. exact Er.
Qed.
Lemma kepts_least grow S fil fuel : forall r n, 0 <= kepts grow S fil fuel r n.
Proof.
  induction fuel as [|fuel IH]; intros r n; cbn [kepts]; [lia|]. destruct (_ >? 0); [lia|].
  assert (forall r, 0 <= match convert grow S r with Ok r => slen (r_rdata _ r) + kepts grow S fil fuel r n | _ => 0 end) as Hc.
  { intros r0. destruct (convert grow S r0) as [r1| |] eqn:Hc; try lia. apply convert_least in Hc. specialize (IH r1 n). lia. }
  destruct (r_err _ r); [destruct (_ =? 0); [lia|apply Hc]|]. destruct (fil r n); [apply Hc|lia|lia].
Qed.

Section Work.
Variable grow : Z -> Z -> Z.
Variable S : Type.
Variable rd : S -> Z -> list Z * option error * S.
Hypothesis rd_bytes : forall s k, Forall is_byte (fst (fst (rd s k))).
Notation reader := (reader S).

Definition between (r : reader) : Prop :=
  reader_ok S r /\ Forall is_byte (contents (r_rdata _ r)) /\ (contents (r_rdata _ r) = [] \/ r_err _ r = None /\ cdata S r = []).

Lemma fill_between r k r1 : 0 <= k -> reader_ok S r -> fill S rd r k = Ok r1 ->
  exists chunk, Forall is_byte chunk /\ reader_ok S r1 /\
    cdata S r1 = cdata S r /\ contents (r_rdata _ r1) = contents (r_rdata _ r) ++ chunk /\
    (chunk = [] -> r_err _ r1 <> None).
Proof.
  intros Hk (Hs & Hr & Hc) E. unfold StreamModel.fill in E.
  destruct (ensureCap_spec (r_rdata _ r) (slen (r_rdata _ r) + k) Hr)
    as (b & Eb & Hb & Hcont & Hl & Hcap & _). rewrite Eb in E. cbn [bind] in E.
  pose proof (rd_bytes (r_src _ r) (scap b - slen b)) as Hby.
  destruct (rd (r_src _ r) (scap b - slen b)) as [[chunk err] s'] eqn:Erd. cbn [fst] in Hby.
  pose proof (zlen_nonneg chunk) as Hn0.
  destruct (Z.gtb_spec (slen b + zlen chunk) (scap b)) as [Hx|Hx]; [discriminate|].
  unfold slice_ok in Hb.
  assert (zlen (zwrite (arr b) (slen b) chunk) = zlen (arr b)) as Hw
    by (apply zlen_zwrite; unfold scap in *; lia).
  rewrite reslice_spec in E by (unfold scap in *; cbn [arr]; lia).
  cbn [bind arr] in E. injection E as <-.
  exists chunk. split; [exact Hby|]. unfold reader_ok, StreamModel.cdata.
  cbn [r_src r_scratch r_cdata_lo r_cdata_hi r_rdata r_err snd fst].
  split; [|split; [reflexivity|split]].
  - split; [exact Hs|]. split; [|exact Hc]. unfold slice_ok, scap in *. cbn [arr slen]. lia.
  - unfold contents at 1. cbn [arr slen].
    rewrite ztake_zwrite by (unfold scap in *; lia). rewrite <- Hcont. reflexivity.
  - intros ->. destruct err; cbn; discriminate.
Qed.

Lemma read_kept fuel : forall r k p e r' ws, 0 <= k -> between r -> Read_work grow S rd fuel r k = Ok (p, e, r', ws) ->
  sum ws <= kepts grow S (fill S rd) fuel r k + last ws 0 /\ between r' /\ contents (r_rdata _ r') = [].
Proof.
  induction fuel as [|fuel IH]; intros r k p e r' ws Hk (Hok & Hby & Hst) E; [discriminate|].
  cbn [SpecWork.Read_work] in E. cbn [kepts]. destruct (Z.gtb_spec (r_cdata_hi _ r - r_cdata_lo _ r) 0) as [Hc|Hc].
  - injection E as <- <- <- <-. cbn [SpecWork.total last]. split; [lia|]. cbn [r_rdata].
    assert (contents (r_rdata _ r) = []) as Hn.
    { destruct Hst as [H|[_ H]]; [exact H|]. apply (cdata_nil S r Hok) in H. lia. }
    split; [|exact Hn]. split; [|split; [exact Hby|left; exact Hn]].
    destruct Hok as (H1 & H2 & H3 & H4). unfold reader_ok. cbn [r_scratch r_rdata r_cdata_lo r_cdata_hi].
    split; [exact H1|]. split; [exact H2|]. lia.
  - assert (cdata S r = []) as Hcd.
    { apply zlen_0. rewrite (cdata_len S r Hok). destruct Hok as (_ & _ & ? & _). lia. }
    destruct (r_err _ r) as [x|] eqn:Ee.
    + destruct Hst as [Hn|[H _]]; [|discriminate].
      rewrite (contents_nil_len _ (proj1 (proj2 Hok)) Hn) in *. cbn [Z.eqb] in *. injection E as <- <- <- <-.
      cbn [SpecWork.total last]. split; [lia|]. split; [|exact Hn]. split; [exact Hok|]. split; [exact Hby|left; exact Hn].
    + destruct (fill S rd r k) as [r1| |] eqn:Ef; [|discriminate|discriminate]. cbn [bind] in E.
      destruct (fill_between r k r1 Hk Hok Ef) as (c & Hcb & Hok1 & Ec1 & Er1 & Hne).
      assert (Forall is_byte (contents (r_rdata _ r1))) as Hb1 by (rewrite Er1; apply Forall_app; auto).
      assert (slen (r_rdata _ r1) = zlen (contents (r_rdata _ r1))) as Hl1 by (symmetry; apply contents_len, Hok1).
      destruct (decodes_or_cut _ Hb1) as [(rs & Hd)|(a & Hcut)].
      * destruct (convert_complete grow S r1 rs Hok1 Hd) as (r2 & E2 & Hok2 & Es2 & Ee2 & Ec2 & Er2 & Esl2 & _).
        rewrite E2 in *. cbn [bind] in E.
        destruct (Read_work grow S rd fuel r2 k) as [[[[p1 e1] r3] ws1]| |] eqn:E3; [|discriminate|discriminate].
        cbn [bind] in E. injection E as <- <- <- <-.
        assert (ws1 = []) as ->.
        { destruct fuel as [|fuel]; [discriminate|]. cbn [SpecWork.Read_work] in E3.
          destruct (Z.gtb_spec (r_cdata_hi _ r2 - r_cdata_lo _ r2) 0) as [H2|H2]; [congruence|].
          rewrite Ee2, Esl2 in E3. destruct (r_err _ r1) eqn:Ee1; [cbn [Z.eqb] in E3; congruence|].
          exfalso. assert (rs = []) as ->.
          { destruct rs as [|x rs]; [reflexivity|]. exfalso.
            assert (0 < zlen (utf8 (x :: rs))) by (apply utf8_nonempty; [discriminate|eapply decodes_scalar; exact Hd]).
            rewrite <- Ec2, (cdata_len S r2 Hok2) in H. lia. }
          assert (contents (r_rdata _ r) ++ c = []) as Hnil by (rewrite <- Er1; inversion Hd; reflexivity).
          apply app_eq_nil in Hnil. apply Hne; tauto. }
        destruct (IH r2 k p1 e1 r3 [] Hk) as (Hw & Hr & Hn); [|exact E3|].
        { split; [exact Hok2|]. rewrite Er2. split; [constructor|left; reflexivity]. }
        split; [|auto]. cbn [SpecWork.total last] in *. rewrite Esl2. lia.
      * destruct (convert_cut grow S r1 a Hok1 Hcut) as (r2 & E2 & Hok2 & Es2 & Ee2 & Ec2 & _ & _ & _ & Er2).
        rewrite E2 in *. cbn [bind] in E.
        destruct (Read_work grow S rd fuel r2 k) as [[[[p1 e1] r3] ws1]| |] eqn:E3; [|discriminate|discriminate].
        cbn [bind] in E. injection E as <- <- <- <-.
        destruct (IH r2 k p1 e1 r3 ws1 Hk) as (Hw & Hr & Hn); [|exact E3|].
        { split; [exact Hok2|]. rewrite Er2, Ee2, Ec2. destruct (r_err _ r1); [split; [constructor|auto]|split; [exact Hb1|auto]]. }
        split; [|auto].
        assert (slen (r_rdata _ r2) = zlen (contents (r_rdata _ r2))) as Hl2 by (symmetry; apply contents_len, Hok2).
        cbn [SpecWork.total]. destruct (r_err _ r1) eqn:Ee1.
        -- assert (ws1 = []) as ->.
           { destruct fuel as [|fuel]; [discriminate|]. cbn [SpecWork.Read_work] in E3.
             rewrite (cdata_nil S r2 Hok2 Ec2), Ee2 in E3. change (0 >? 0) with false in E3. cbv iota in E3.
             rewrite (contents_nil_len _ (proj1 (proj2 Hok2)) Er2) in E3. cbn [Z.eqb] in E3. congruence. }
           cbn [SpecWork.total last] in *. rewrite Hl2, Er2. change (zlen (@nil Z)) with 0. lia.
        -- rewrite Hl2, Er2, <- Hl1. destruct ws1 as [|w ws1]; [cbn [SpecWork.total last] in *; pose proof (contents_len _ (proj1 (proj2 Hok1))); pose proof (zlen_nonneg (contents (r_rdata S r1))); lia|].
           change (last (slen (r_rdata S r1) :: w :: ws1) 0) with (last (w :: ws1) 0). lia.
Qed.

(** What a sequence of Reads leaves over. *)
Inductive all_kept (fil : reader -> Z -> res reader) (read : nat -> reader -> Z -> res (list Z * option error * reader)) (fuel : nat) : reader -> list Z -> Z -> Prop :=
| all_kept_nil r : all_kept fil read fuel r [] 0
| all_kept_cons r n ns bs err r1 c : read fuel r n = Ok (bs, err, r1) -> all_kept fil read fuel r1 ns c ->
    all_kept fil read fuel r (n :: ns) (kepts grow S fil fuel r n + c).
Definition left_over (wss : list (list Z)) : Z := sum (map (fun ws => sum ws - last ws 0) wss).

Lemma reads_kept fuel ns : Forall (fun n => 0 <= n) ns -> forall r r' wss, between r -> reads_work grow S rd fuel r ns = Ok (r', wss) ->
  exists c, all_kept (fill S rd) (Read grow S rd) fuel r ns c /\ left_over wss <= c.
Proof.
  induction 1 as [|n ns Hn _ IH]; intros r r' wss Hr H; cbn [SpecWork.reads_work] in H.
  - injection H as <- <-. exists 0. split; [constructor|]. cbn. lia.
  - pose proof (WorkFacts.read_work_same grow S rd fuel r n) as Hsame.
    destruct (Read_work grow S rd fuel r n) as [[[[p e] r1] ws]| |] eqn:H1; try discriminate. cbn [bind] in H, Hsame.
    destruct (reads_work grow S rd fuel r1 ns) as [[r2 wss2]| |] eqn:H2; try discriminate. cbn [bind] in H. injection H as <- <-.
    destruct (read_kept fuel r n p e r1 ws Hn Hr H1) as (Hw & Hr1 & _).
    destruct (IH _ _ _ Hr1 H2) as (c & Hc & Hle). exists (kepts grow S (fill S rd) fuel r n + c). split; [econstructor; eassumption|].
    unfold left_over in *. cbn [map SpecWork.total]. lia.
Qed.
Lemma between_new s : between (NewReader s).
Proof.
  split; [|split; [constructor|left; reflexivity]].
  unfold reader_ok, NewReader, slice_ok, scap. cbn. repeat split; lia.
Qed.
End Work.

Section Two.
Variable grow : Z -> Z -> Z.
Variables E S : Type.
Variable rd3 : E -> Z -> Z * list Z * option error * E.
Variable rd1 : S -> Z -> list Z * option error * S.
Variable Q : E -> S -> Prop.
Hypothesis Hal : answers_alike E S rd3 rd1 Q.
Lemma kepts_alike fuel : forall r q n, alike E S Q r q -> kepts grow E (fill3 E rd3) fuel r n = kepts grow S (fill S rd1) fuel q n.
Proof.
  induction fuel as [|fuel IH]; intros r q n Ha; [reflexivity|]. cbn [kepts].
  pose proof Ha as (_ & _ & Elo & Ehi & Ee & Hsl). rewrite Elo, Ehi, Ee.
  assert (slen (r_rdata _ r) = slen (r_rdata _ q)) as El by apply Hsl. rewrite El.
  assert (forall r q, alike E S Q r q -> match convert grow E r with Ok r => slen (r_rdata _ r) + kepts grow E (fill3 E rd3) fuel r n | _ => 0 end =
    match convert grow S q with Ok r => slen (r_rdata _ r) + kepts grow S (fill S rd1) fuel r n | _ => 0 end) as Hc.
  { intros r0 q0 H0. pose proof (convert_alike grow E S Q r0 q0 H0) as Hc.
    destruct (convert grow E r0) as [r1| |], (convert grow S q0) as [q1| |]; cbn in Hc; try contradiction; try reflexivity.
    rewrite (IH r1 q1 n Hc). f_equal. apply Hc. }
  destruct (_ >? 0); [reflexivity|]. destruct (r_err _ q) as [x|].
  - destruct (_ =? 0); [reflexivity|]. apply Hc. assumption.
  - pose proof (fill_alike E S rd3 rd1 Q Hal r q n Ha) as Hf.
    destruct (fill3 E rd3 r n) as [r1| |], (fill S rd1 q n) as [q1| |]; cbn in Hf; try contradiction; try reflexivity. apply Hc. assumption.
Qed.
Lemma all_kept_alike fuel ns : forall r q c, alike E S Q r q -> all_kept grow S (fill S rd1) (Read grow S rd1) fuel q ns c ->
  all_kept grow E (fill3 E rd3) (Read3 grow E rd3) fuel r ns c.
Proof.
  intros r q c Ha H. revert r Ha. induction H as [q|q n ns bs err q1 c H1 _ IH]; intros r Ha; [constructor|].
  pose proof (read_alike grow E S rd3 rd1 Q Hal fuel r q n Ha) as Hr. rewrite H1 in Hr.
  destruct (Read3 grow E rd3 fuel r n) as [[[p' e'] r1]| |] eqn:H3; cbn in Hr; try contradiction. destruct Hr as [_ Ha1].
  rewrite <- (kepts_alike fuel r q n Ha). econstructor; [exact H3|]. apply IH. exact Ha1.
Qed.
End Two.

Section Run.
Variable grow : Z -> Z -> Z.
Variable E : Type.
Variable rd : nat -> E -> Z -> Z * list Z * option error * E.
Variable wr : nat -> E -> list Z -> Z * option error * E.
Variable kx : nat.
Hypothesis Hrdb : forall x k, Forall is_byte (snd (fst (fst (rd kx x k)))).
Notation mk := (mkState E).
Notation is_reader := (is_reader E kx).

Lemma reads_least fuel p pt evs : forall own s ls lr r c t,
  is_reader s p pt ls lr r -> ext E s = r_src _ r -> NoDup own -> mine (arrs E s) own ls -> mine (arrs E s) own lr ->
  sensible 0 (map zlen (seen (arrs E s) own)) evs -> all_kept grow E (fill3 E (rd kx)) (Read3 grow E (rd kx)) fuel r (sizes evs) c ->
  reads_take grow E rd wr prog_cp949 p own s evs t -> c <= t.
Proof.
  induction evs as [|[h a|a|h o n c0] evs IH]; intros own s ls lr r c t Hr Hx Hnd Hms Hmr Hsens Hc Htk.
  - inversion Hc; subst. inversion Htk; subst. lia.
  - destruct Hsens as [Hh Hsens]. unfold seen in Hh. rewrite map_map in Hh. apply nth_error_map_some in Hh.
    destruct Hh as (l & Hh & Hlen). apply length_zlen in Hlen.
    assert (Hin : In l own) by (eapply nth_error_In; eassumption).
    destruct (Hms l Hin) as [Hl Hsl]. destruct (Hmr l Hin) as [_ Hsr].
    assert (Hs : seen (arrs E (set_arr E s l a)) own = set_nth h a (seen (arrs E s) own)).
    { apply (seen_change _ _ own h l a); try assumption.
      - apply cell_set. assumption.
      - intros j _ Hj. apply cell_set_ne. congruence. }
    inversion Htk as [|? ? ? l' ? ? ? Hh' Htk'| |]; subst. assert (l' = l) as -> by congruence.
    eapply (IH own (set_arr E s l a) ls lr r c t); try eassumption.
    + apply is_reader_store; auto.
    + apply mine_store; auto.
    + apply mine_store; auto.
    + rewrite Hs, map_set_nth. replace (set_nth h (zlen a) (map zlen (seen (arrs E s) own))) with (map zlen (seen (arrs E s) own));
        [assumption|]. symmetry. apply set_nth_id. unfold seen. rewrite map_map, nth_error_map, Hh. cbn. f_equal.
      unfold zlen. now rewrite Hlen.
  - destruct (is_reader_locs _ _ _ _ _ _ _ _ Hr) as [L1 L2].
    assert (Hs : seen (arrs E (snd (new_arr E s a))) (own ++ [fst (new_arr E s a)]) = seen (arrs E s) own ++ [a]).
    { unfold seen. rewrite map_app. cbn [new_arr fst snd arrs map]. rewrite cell_new. f_equal. apply seen_new. apply Forall_forall. intros j Hj.
      apply Hms. assumption. }
    inversion Htk as [| |? ? ? ? ? Htk'|]; subst.
    eapply (IH (own ++ [fst (new_arr E s a)]) (snd (new_arr E s a)) ls lr r c t); try eassumption.
    + apply is_reader_new. assumption.
    + apply NoDup_rev in Hnd. rewrite <- (rev_involutive (own ++ _)), rev_app_distr. apply NoDup_rev. cbn.
      constructor; [|assumption]. rewrite <- in_rev. intros Hi. destruct (Hms _ Hi). lia.
    + apply mine_new; assumption.
    + apply mine_new; assumption.
    + rewrite Hs, map_app. exact Hsens.
  - destruct Hsens as [(k & Hh & Ho & Hn & Hcc) Hsens]. unfold seen in Hh. rewrite map_map in Hh.
    apply nth_error_map_some in Hh. destruct Hh as (l & Hh & Hlen).
    assert (Hin : In l own) by (eapply nth_error_In; eassumption).
    destruct (Hms l Hin) as [Hl Hsl]. destruct (Hmr l Hin) as [_ Hsr].
    cbn [sizes] in Hc. inversion Hc as [|? ? ? bs err r1 c1 Hread Hc']; subst.
    assert (Hi : input (arrs E s) l o n c0 (ztake n (zdrop o (cell (arrs E s) l)))) by (repeat split; try assumption; lia).
    destruct (go_Read grow E rd wr kx Hrdb fuel s p pt ls lr r l o n c0 (ztake n (zdrop o (cell (arrs E s) l))) bs err r1)
      as (s1 & ls' & lr' & Hr1 & Hx1 & _ & Hbn & Hle & Hls & Hlr & Hcell & Hoth & _ & N & Hrun); try assumption.
    destruct (Read_least grow E rd wr kx Hrdb fuel s p pt ls lr r l o n c0 (ztake n (zdrop o (cell (arrs E s) l))) bs err r1) as (N2 & Hsteps); try assumption.
    assert (Hs : seen (arrs E s1) own = set_nth h (zwrite (cell (arrs E s) l) o bs) (seen (arrs E s) own)).
    { apply (seen_change _ _ own h l); try assumption. intros j Hj Hjl. apply Hoth; try assumption; [apply Hms|apply Hms|apply Hmr]; assumption. }
    assert (Hw : zlen (zwrite (cell (arrs E s) l) o bs) = zlen (cell (arrs E s) l)) by (apply zlen_zwrite; lia).
    assert (Hmine : forall m m', mine (arrs E s) own m -> (m' = m \/ (length (arrs E s) <= m')%nat) -> mine (arrs E s1) own m').
    { intros m m' Hm0 Hy j Hj. destruct (Hm0 j Hj) as [Hj1 Hj2]. split; [lia|].
      destruct Hy as [->|Hy]; [|left; lia]. destruct Hj2 as [Hj2|Hj2]; [left; assumption|]. right.
      destruct (Nat.eq_dec j l) as [->|Hjl].
      - rewrite Hcell. rewrite Hj2 in Hw, Hcc |- *. change (zlen (@nil Z)) with 0 in Hw, Hcc.
        destruct (zwrite [] o bs) as [|x l']; [reflexivity|]. rewrite zlen_cons in Hw. pose proof (zlen_nonneg l'). lia.
      - rewrite Hoth by (first [assumption | apply Hms; assumption | apply Hmr; assumption]). assumption. }
    inversion Htk as [| | |? ? ? l' ? ? ? v s1' t1 ? t2 Hh' Hcalls Htakes Htk']; subst. assert (l' = l) as -> by congruence.
    assert (s1' = s1) as ->.
    { destruct (calls_det grow E rd wr prog_cp949 _ _ _ _ _ _ _ Hcalls (ex_intro _ N Hrun)). assumption. }
    assert (c1 <= t2) as H2.
    { eapply (IH own s1 ls' lr' r1 c1 t2); try eassumption.
      + eapply Hmine; [|eassumption]; assumption.
      + eapply Hmine; [|eassumption]; assumption.
      + rewrite Hs, map_set_nth, Hw.
        replace (set_nth h (zlen (cell (arrs E s) l)) (map zlen (seen (arrs E s) own))) with (map zlen (seen (arrs E s) own)); [assumption|].
        symmetry. apply set_nth_id. unfold seen. now rewrite map_map, nth_error_map, Hh. }
    destruct Htakes as (N3 & Htakes). specialize (Htakes (N2 + N3)%nat ltac:(lia)). specialize (Hsteps (N2 + N3)%nat ltac:(lia)). lia.
Qed.

Lemma session_least A O X fuel evs c : nil_ok A -> sensible 0 (map zlen A) evs ->
  all_kept grow E (fill3 E (rd kx)) (Read3 grow E (rd kx)) fuel (NewReader X) (sizes evs) c ->
  exists p s0, calls grow E rd wr prog_cp949 "NewReader" [VExt kx] (mk A O X) (VTuple [VPtr p; VErr None]) s0 /\ arrs E s0 = A /\
    forall t, reads_take grow E rd wr prog_cp949 p (seq 0 (length A)) s0 evs t -> c <= t.
Proof.
  intros Hn Hsens Hc.
  destruct (go_NewReader grow E rd wr kx A O X Hn) as (s0 & Hr & Hx & Ha & Hold & Hlen & Hrun).
  exists (Datatypes.S (length O)), s0.
  split; [exists 2%nat; intros n Hle; destruct n as [|[|n]]; [lia|lia|apply Hrun]|].
  split; [assumption|]. intros t Ht.
  eapply (reads_least fuel (Datatypes.S (length O)) (length O) evs (seq 0 (length A)) s0 0%nat 0%nat (NewReader X) c t); try eassumption.
  - apply seq_NoDup.
  - rewrite Ha. now apply mine_all.
  - rewrite Ha. now apply mine_all.
  - rewrite Ha, own_all. assumption.
Qed.

Lemma C132_least_lemma rd1 A O X fuel evs r' wss : reports (rd kx) rd1 -> has_nil A ->
  sensible 0 (map zlen A) evs -> reads_work grow E rd1 fuel (NewReader X) (sizes evs) = Ok (r', wss) ->
  exists p s0, calls grow E rd wr prog_cp949 "NewReader" [VExt kx] (mk A O X) (VTuple [VPtr p; VErr None]) s0 /\ arrs E s0 = A /\
    forall t, reads_take grow E rd wr prog_cp949 p (seq 0 (length A)) s0 evs t -> left_over wss <= t.
Proof.
  intros Hrep Hn Hsens Hw.
  assert (Hal : answers_alike E E (rd kx) rd1 eq).
  { intros x y n <-. pose proof (Hrep x n) as Hk. destruct (rd1 x n) as [[bs0 e0] x']. destruct Hk as [j Hj]. exists j, x'. auto. }
  assert (Hb1 : forall s k, Forall is_byte (fst (fst (rd1 s k)))).
  { intros s k. specialize (Hrdb s k). specialize (Hrep s k). destruct (rd1 s k) as [[bs e] s']. destruct Hrep as [j Hj].
    rewrite Hj in Hrdb. cbn in *. apply Forall_app in Hrdb. tauto. }
  assert (Hns : Forall (fun n => 0 <= n) (sizes evs)).
  { clear - Hsens. revert Hsens. generalize (map zlen A) as L. induction evs as [|[h a|a|h o n c] evs IH]; intros L Hs; cbn [sizes sensible] in *.
    - constructor.
    - destruct Hs. eauto.
    - eauto.
    - destruct Hs as [(q & _ & _ & Hq & _) Hs]. constructor; [lia|]. eauto. }
  destruct (reads_kept grow E rd1 Hb1 fuel _ Hns (NewReader X) _ _ (between_new E X) Hw) as (c & Hc & Hle).
  eapply all_kept_alike in Hc; [|exact Hal|apply new_alike; reflexivity].
  destruct (session_least A O X fuel evs c Hn Hsens Hc) as (p & s0 & H1 & H2 & H3).
  exists p, s0. split; [assumption|]. split; [assumption|]. intros t Ht. specialize (H3 t Ht). lia.
Qed.
End Run.

Lemma sums_last l : forall b, 0 <= b -> last (sums b l) 0 <= b + zlen (concat l).
Proof.
  induction l as [|c l IH]; intros b Hb; cbn [SpecWork.sums]; [change (zlen (concat (@nil (list Z)))) with 0; cbn; lia|].
  rewrite zlen_concat_cons. pose proof (zlen_nonneg c). specialize (IH (b + zlen c) ltac:(lia)). destruct l as [|c2 l].
  - cbn [SpecWork.sums last concat] in *. change (zlen (@nil Z)) with 0 in *. lia.
  - change (last (b + zlen c :: sums (b + zlen c) (c2 :: l)) 0) with (last (sums (b + zlen c) (c2 :: l)) 0). lia.
Qed.

(** The wrapped reader always ends inside a character. *)
Lemma C132_refuted_lemma : exists (E : Type) (rd1 : E -> Z -> list Z * option error * E) (rd : nat -> E -> Z -> Z * list Z * option error * E),
  reports (rd 0%nat) rd1 /\ forall c n, 0 <= c -> 2 <= n -> exists X stream rs, delivers rd1 X stream EOF /\ decodes stream rs /\
  forall grow wr A O h o cp, has_nil A -> sensible 2 (map zlen A) [Use h o n cp] ->
  exists p s0 outs own s,
    calls grow E rd wr prog_cp949 "NewReader" [VExt 0] (mkState E A O X) (VTuple [VPtr p; VErr None]) s0 /\ arrs E s0 = A /\
    reads grow E rd wr prog_cp949 p (seq 0 (length A)) s0 [Use h o n cp] outs own s /\
    forall t, reads_take grow E rd wr prog_cp949 p (seq 0 (length A)) s0 [Use h o n cp] t -> c * (zlen stream + n + 1) < t.
Proof.
  set (rdh := fun (_ : nat) x n => let '(bs, e, x') := half_rd x n in (zlen bs, bs, e, x')).
  exists (bool * nat)%type, half_rd, rdh. split.
  { intros x n. unfold rdh. destruct (half_rd x n) as [[bs e] x']. exists []. now rewrite app_nil_r. }
  intros c n Hc0 Hn2. set (m := Z.to_nat (2 * (c + 2) + c * (n + 1))).
  exists (false, S m), (gas (S m)), (repeat 0xAC00 (S m)). split; [exact (half_delivers_aux (S m) false)|].
  split; [apply gas_decodes|]. intros grow wr A O h o cp Hn Hs. pose proof Hs as [(q & _ & _ & Hq & _) _].
  destruct (half_all grow n Hn2 m (m + 4) (le_n _)) as (p & r' & Hr & _ & Hlog & _).
  assert (Hrb : forall x k, Forall is_byte (snd (fst (fst (rdh 0%nat x k))))).
  { intros [b0 n0] k. unfold rdh. destruct n0 as [|[|n0]], b0; cbn; repeat constructor; try (unfold is_byte; lia).
    destruct (2 <=? k); cbn; repeat constructor; unfold is_byte; lia. }
  assert (Hal : answers_alike (bool * nat) ((bool * nat) * list (list Z)) (rdh 0%nat) (logged half_rd) (fun x y => x = fst y)).
  { intros x y k ->. unfold rdh, logged. destruct (half_rd (fst y) k) as [[bs e] x']. exists [], x'. rewrite app_nil_r. auto. }
  pose proof (read_alike grow _ _ (rdh 0%nat) (logged half_rd) _ Hal (m + 4) (NewReader (false, S m)) (NewReader ((false, S m), [])) n) as Hra.
  rewrite Hr in Hra. destruct (Read3 grow _ (rdh 0%nat) (m + 4) (NewReader (false, S m)) n) as [[[p3 e3] r3]| |] eqn:H3;
    [|exfalso; apply Hra; now apply new_alike..].
  clear Hra. assert (Hs0 : sensible 0 (map zlen A) [Use h o n cp]) by (eapply sensible_min; [|eassumption]; lia).
  destruct (reader_session3 grow (bool * nat) rdh wr 0%nat Hrb A O (false, S m) (m + 4) [Use h o n cp] [(p3, e3)] r3 Hn Hs0)
    as (p' & s0 & own & s & H1 & H2 & H4 & _).
  { cbn [sizes]. econstructor; [exact H3|constructor]. }
  rewrite (WorkFacts.read_work_same grow _ (logged half_rd)) in Hr.
  destruct (Read_work grow _ (logged half_rd) (m + 4) _ n) as [[[[p0 e0] r0] ws]| |] eqn:Ew; [|discriminate|discriminate].
  cbn [bind] in Hr. injection Hr as -> -> ->.
  assert (Hlb : forall s k, Forall is_byte (fst (fst (logged half_rd s k)))).
  { intros [s1 l] k. unfold logged. pose proof (proj1 (WorkFacts.half_chunk s1 k)) as Hb. cbn [fst]. destruct (half_rd s1 k) as [[bs e] x]. exact Hb. }
  destruct (read_kept grow _ (logged half_rd) Hlb (m + 4) (NewReader ((false, S m), [])) n p None r' ws ltac:(lia) (between_new _ _) Ew) as (Hk & _).
  rewrite <- (kepts_alike grow _ _ (rdh 0%nat) (logged half_rd) _ Hal (m + 4) (NewReader (false, S m))) in Hk by now apply new_alike.
  destruct (session_least grow (bool * nat) rdh wr 0%nat Hrb A O (false, S m) (m + 4) [Use h o n cp] (kepts grow _ (fill3 _ (rdh 0%nat)) (m + 4) (NewReader (false, S m)) n + 0) Hn Hs0)
    as (p1 & s1 & G1 & _ & G3).
  { cbn [sizes]. econstructor; [exact H3|constructor]. }
  destruct (calls_det grow _ rdh wr prog_cp949 _ _ _ _ _ _ _ H1 G1) as [[= <-] <-].
  exists p', s0, [(p3, e3)], own, s. split; [exact H1|]. split; [exact H2|]. split; [exact H4|].
  intros t Ht. specialize (G3 t Ht).
  destruct (WorkFacts.read_work_exact grow _ half_rd (fun s k => proj1 (WorkFacts.half_chunk s k)) 0 (m + 4) _ n p None r' ws ltac:(lia) ltac:(lia) (WorkFacts.round_new _ _) Ew)
    as (new & El & Hh & -> & _). cbn [NewReader r_src snd app] in El. rewrite El in Hlog.
  change (zlen (contents (r_rdata _ (NewReader ((false, S m), @nil (list Z)))))) with 0 in *.
  assert (Forall (fun c => zlen c <= 2) new) as H5.
  { eapply Forall_impl; [|exact Hh]. intros x (s2 & sp & _ & ->). apply WorkFacts.half_chunk. }
  pose proof (WorkFacts.sums_square new H5 0 ltac:(lia)) as H6. pose proof (sums_last new 0 ltac:(lia)) as H7.
  rewrite Hlog in H6, H7. pose proof (gas_len (S m)) as Hg.
  assert (zlen (gas (S m)) = 2 * (2 * (c + 2) + c * (n + 1)) + 2) as Hz by (rewrite Hg; unfold m; nia).
  set (L := zlen (gas (S m))) in *. clearbody L. clear - Hk G3 H6 H7 Hz Hc0 Hn2.
  assert (c * (L + n + 1) = c * L + c * (n + 1)) as -> by ring.
  assert (0 <= c * (n + 1)) by nia. set (d := c * (n + 1)) in *. clearbody d.
  assert (4 * (c + 2) * L <= L * L) by nia. nia.
Qed.
