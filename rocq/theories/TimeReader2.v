(** How many steps a Reader takes, by the stream. *)
From Coq Require Import String ZArith List Bool Lia.
From Verif Require Import Base Utf8 SortSearch TableFrom TableTo Cp949Model StreamModel StreamModel3 IoModel GoLang GoSource GoTime GoFacts GoHeap GoCp949 GoStream
  Facts Utf8Facts SliceFacts Spec SpecCp949 SpecIO SpecText2 TableFacts Cp949Facts Cp949Facts2 StreamFacts StreamFacts2 StreamFacts3 StreamFacts4 StreamFacts5 SourceSpec SourceFacts SourceFacts2
  MemorySpec MemoryFacts TimeFacts TimeSpec TimeCp949 TimeStream TimeReader PipeFacts.
From Verif Require SpecWork WorkFacts EmptyFacts.
Import ListNotations.
Local Open Scope string_scope.
Local Open Scope list_scope.
Local Open Scope Z_scope.
Local Open Scope go_scope.
Local Opaque fromTable toTable.
Notation Read_work := SpecWork.Read_work.
Notation reads_work := SpecWork.reads_work.
Notation sums := SpecWork.sums.
Notation sum := SpecWork.total.

Lemma price_sum ws : price ws = 502 * sum ws + 1000 * zlen ws.
Proof. induction ws as [|w ws IH]; [reflexivity|]. cbn [price SpecWork.total]. rewrite zlen_cons, IH. lia. Qed.
Lemma sum_app a b : sum (a ++ b) = sum a + sum b.
Proof. induction a as [|x a IH]; cbn [app SpecWork.total]; lia. Qed.
Lemma zlen_concat_cons {A} (x : list A) l : zlen (concat (x :: l)) = zlen x + zlen (concat l).
Proof. cbn [concat]. apply zlen_app. Qed.

Lemma decodes_utf8_length s rs : decodes s rs -> zlen (utf8 rs) <= 2 * zlen s.
Proof.
  induction 1; [reflexivity|..]; rewrite utf8_cons, zlen_app, !zlen_cons; unfold utf8_char.
  - destruct (Z.ltb_spec b 0x80); [|lia]. change (zlen [b]) with 1. lia.
  - destruct (u <? 0x80), (u <? 0x800), (u <? 0x10000); unfold zlen in *; cbn [length]; lia.
  - change (if replacement <? 0x80 then _ else _) with [0xEF; 0xBF; 0xBD]. unfold zlen in *; cbn [length]; lia.
Qed.

Lemma decodes_bytes_length s rs : decodes s rs -> zlen s <= 2 * zlen rs.
Proof. induction 1; rewrite ?zlen_cons; [reflexivity|lia|lia|lia]. Qed.

Section Work.
Variable grow : Z -> Z -> Z.
Variable E : Type.
Variable rd : nat -> E -> Z -> Z * list Z * option error * E.
Variable wr : nat -> E -> list Z -> Z * option error * E.
Variable k : nat.
Hypothesis Hrdb : forall x n, Forall is_byte (snd (fst (fst (rd k x n)))).
Notation mk := (mkState E).
Section Two.
Variable S : Type.
Variable rd1 : S -> Z -> list Z * option error * S.
Variable Q : E -> S -> Prop.
Hypothesis Hal : answers_alike E S (rd k) rd1 Q.

Lemma convs_work fuel : forall r q n p e q' ws, alike E S Q r q ->
  Read_work grow S rd1 fuel q n = Ok (p, e, q', ws) -> convs grow E (fill3 E (rd k)) fuel r n = ws.
Proof.
  induction fuel as [|fuel IH]; intros r q n p e q' ws Ha H; [discriminate|]. cbn [SpecWork.Read_work] in H. cbn [convs].
  pose proof Ha as (_ & _ & Elo & Ehi & Ee & Hsl). rewrite Elo, Ehi, Ee.
  assert (slen (r_rdata _ r) = slen (r_rdata _ q)) as El by apply Hsl. rewrite El.
  destruct (_ >? 0); [now injection H as _ _ _ <-|]. destruct (r_err _ q) as [x|].
  - destruct (_ =? 0); [now injection H as _ _ _ <-|].
    pose proof (convert_alike grow E S Q r q Ha) as Hc.
    destruct (convert grow S q) as [q1| |]; try discriminate. destruct (convert grow E r) as [r1| |]; cbn in Hc; try contradiction.
    cbn [bind] in H. destruct (Read_work grow S rd1 fuel q1 n) as [[[[p1 e1] q2] ws1]| |] eqn:H1; try discriminate. cbn [bind] in H.
    injection H as <- <- <- <-. f_equal. eapply IH; eassumption.
  - pose proof (fill_alike E S (rd k) rd1 Q Hal r q n Ha) as Hf.
    destruct (fill S rd1 q n) as [q1| |]; try discriminate. destruct (fill3 E (rd k) r n) as [r1| |]; cbn in Hf; try contradiction.
    cbn [bind] in H. assert (slen (r_rdata _ r1) = slen (r_rdata _ q1)) as El1 by apply Hf. rewrite El1.
    pose proof (convert_alike grow E S Q r1 q1 Hf) as Hc.
    destruct (convert grow S q1) as [q2| |]; try discriminate. destruct (convert grow E r1) as [r2| |]; cbn in Hc; try contradiction.
    cbn [bind] in H. destruct (Read_work grow S rd1 fuel q2 n) as [[[[p1 e1] q3] ws1]| |] eqn:H1; try discriminate. cbn [bind] in H.
    injection H as <- <- <- <-. f_equal. eapply IH; eassumption.
Qed.

Lemma reads_cost fuel ns : forall r q q' outs, alike E S Q r q -> model_reads1 grow S rd1 fuel q ns outs q' ->
  exists wss r', reads_work grow S rd1 fuel q ns = Ok (q', wss) /\ model_reads grow E rd k fuel r ns outs r' /\ alike E S Q r' q' /\
    costs grow E rd k fuel r ns (price (concat wss) + zlen (concat (map fst outs))).
Proof.
  intros r q q' outs Ha H. revert r Ha. induction H as [q|q n ns p e q1 outs q2 H1 _ IH]; intros r Ha; cbn [SpecWork.reads_work].
  - exists [], r. split; [reflexivity|]. split; [constructor|]. split; [assumption|]. constructor.
  - pose proof (read_alike grow E S (rd k) rd1 Q Hal fuel r q n Ha) as Hr. rewrite H1 in Hr.
    destruct (Read3 grow E (rd k) fuel r n) as [[[p' e'] r1]| |] eqn:H3; cbn in Hr; try contradiction.
    destruct Hr as [[= -> ->] Ha1].
    rewrite (WorkFacts.read_work_same grow S rd1 fuel q n) in H1.
    destruct (Read_work grow S rd1 fuel q n) as [[[[p0 e0] q0] ws]| |] eqn:H2; try discriminate. cbn [bind] in H1. injection H1 as -> -> ->.
    destruct (IH _ Ha1) as (wss2 & r' & I1 & I2 & I3 & I4). cbn [bind]. rewrite I1. cbn [bind].
    exists (ws :: wss2), r'. split; [reflexivity|]. split; [econstructor; eassumption|]. split; [assumption|].
    pose proof (convs_work fuel r q n p e q1 ws Ha H2) as Hw.
    rewrite !price_sum in *. cbn [map fst]. rewrite !zlen_concat_cons. cbn [concat]. rewrite sum_app.
    match goal with |- costs _ _ _ _ _ _ _ ?c => replace c with (price (convs grow E (fill3 E (rd k)) fuel r n) + zlen p +
      (502 * sum (concat wss2) + 1000 * zlen (concat wss2) + zlen (concat (map fst outs)))) end.
    + econstructor; eassumption.
    + rewrite Hw, price_sum, ?zlen_app. lia.
Qed.
Lemma work_reads fuel ns : forall q q' wss, reads_work grow S rd1 fuel q ns = Ok (q', wss) -> exists outs, model_reads1 grow S rd1 fuel q ns outs q'.
Proof.
  induction ns as [|n ns IH]; intros q q' wss H; cbn [SpecWork.reads_work] in H.
  - injection H as <- <-. exists []. constructor.
  - pose proof (WorkFacts.read_work_same grow S rd1 fuel q n) as Hs.
    destruct (Read_work grow S rd1 fuel q n) as [[[[p e] q1] ws]| |]; try discriminate. cbn [bind] in H, Hs.
    destruct (reads_work grow S rd1 fuel q1 ns) as [[q2 wss2]| |] eqn:H2; try discriminate. cbn [bind] in H. injection H as <- <-.
    destruct (IH _ _ _ H2) as (outs & Ho). exists ((p, e) :: outs). econstructor; eassumption.
Qed.
End Two.

(** Any client of a Reader, by what the Reads convert. *)
Lemma C131_work_lemma rd1 A O X fuel evs q wss : reports (rd k) rd1 -> has_nil A -> package_tables E (mk A O X) ->
  sensible 0 (map zlen A) evs -> reads_work grow E rd1 fuel (NewReader X) (sizes evs) = Ok (q, wss) ->
  exists p s0 outs own s t,
    calls grow E rd wr prog_cp949 "NewReader" [VExt k] (mk A O X) (VTuple [VPtr p; VErr None]) s0 /\ arrs E s0 = A /\
    reads grow E rd wr prog_cp949 p (seq 0 (length A)) s0 evs outs own s /\
    reads_take grow E rd wr prog_cp949 p (seq 0 (length A)) s0 evs t /\
    t <= 502 * sum (concat wss) + 1000 * zlen (concat wss) + zlen (concat (map fst outs)) + 80 * zlen (sizes evs) +
         5 * (allocated (arrs E s) - allocated A - own_bytes evs).
Proof.
  intros Hrep Hn Htab Hsens Hw.
  assert (Hal : answers_alike E E (rd k) rd1 eq).
  { intros x y n <-. pose proof (Hrep x n) as Hk. destruct (rd1 x n) as [[bs0 e0] x']. destruct Hk as [j Hj]. exists j, x'. auto. }
  destruct (work_reads E rd1 fuel (sizes evs) _ _ _ Hw) as (outs & Hm1).
  destruct (reads_cost E rd1 eq Hal fuel (sizes evs) (NewReader X) (NewReader X) q outs) as (wss' & r' & Hw' & Hm & _ & Hc); [now apply new_alike|exact Hm1|].
  assert (wss' = wss) as -> by congruence.
  destruct (reader_session_time grow E rd wr k Hrdb A O X fuel evs outs r' _ Hn Hsens Hm Hc) as (p & s0 & own & s & t & H1 & H2 & H3 & H4 & b & b' & _ & _ & Ht & Hle).
  { apply package_tables_ok. exact Htab. }
  exists p, s0, outs, own, s, t. do 4 (split; [assumption|]). rewrite price_sum in Hle. rewrite own_client.
  change (allocated (arrs E s)) with (total (arrs E s)). change (allocated A) with (total A). lia.
Qed.

(** What a wrapped reader that delivers a stream has handed out. *)
Section Log.
Variable rd1 : E -> Z -> list Z * option error * E.
Variable e : error.
Variable D : Z.
Notation LS := (E * list (list Z))%type.
Notation lrd := (logged rd1).
Notation log r := (snd (r_src LS r)).
Definition drawn (r : reader LS) : Prop :=
  slice_ok (r_rdata _ r) /\ zlen (concat (log r)) <= D /\ zlen (log r) <= D + 1 /\
  (r_err _ r = None -> exists rem, delivers rd1 (fst (r_src _ r)) rem e /\
     zlen (concat (log r)) + zlen rem <= D /\ zlen (log r) + zlen rem <= D).

Lemma reslice_ok sl n sl' : reslice sl n = Ok sl' -> slice_ok sl'.
Proof.
  unfold reslice. destruct ((0 <=? n) && (n <=? scap sl)) eqn:H; [|discriminate]. intros [= <-].
  apply andb_prop in H as [H1 H2]. apply Z.leb_le in H1, H2. unfold slice_ok, scap in *. cbn [arr slen]. lia.
Qed.
Lemma fill_drawn r n r1 : drawn r -> r_err _ r = None -> 1 <= n -> fill LS lrd r n = Ok r1 -> drawn r1.
Proof.
  intros (Hok & _ & _ & Hd) He Hn H. destruct (Hd He) as (rem & Hrem & Hc & Hl). unfold fill in H.
  destruct (ensureCap (r_rdata _ r) (slen (r_rdata _ r) + n)) as [b| |] eqn:Eb; try discriminate. cbn [bind] in H.
  destruct (ensureCap_cap _ _ _ Hok Eb) as (Hokb & Hbl & Hbn & _).
  unfold logged in H. destruct (rd1 (fst (r_src _ r)) (scap b - slen b)) as [[chunk err] x'] eqn:Erd.
  destruct (slen b + zlen chunk >? scap b); [discriminate|].
  destruct (reslice _ _) as [sl| |] eqn:Er; try discriminate. cbn [bind] in H. injection H as <-.
  inversion Hrem as [? ? ? D1 D2 D3]; subst. pose proof (zlen_nonneg chunk). pose proof (zlen_nonneg rem).
  unfold drawn. cbn [r_rdata r_src r_err fst snd]. rewrite concat_app, !zlen_app. cbn [concat]. rewrite app_nil_r. change (zlen [chunk]) with 1.
  split; [eapply reslice_ok; exact Er|]. destruct err as [e'|].
  - destruct (D1 (scap b - slen b) chunk e' x' ltac:(lia) Erd) as (_ & -> & _). split; [lia|]. split; [lia|]. discriminate.
  - destruct (D2 (scap b - slen b) chunk x' ltac:(lia) Erd) as (Hne & _ & rest & ->). pose proof (D3 (scap b - slen b) chunk x' ltac:(lia) Erd) as Hx.
    rewrite zdrop_app_exact in Hx by reflexivity. rewrite zlen_app in *. pose proof (zlen_nonneg rest).
    assert (1 <= zlen chunk) by (destruct chunk; [congruence|rewrite zlen_cons; pose proof (zlen_nonneg chunk); lia]).
    split; [lia|]. split; [lia|]. intros _. exists rest. split; [exact Hx|]. lia.
Qed.
Lemma convert_drawn r r1 : drawn r -> convert grow LS r = Ok r1 -> drawn r1.
Proof.
  intros (Hok & H1 & H2 & H3) H. unfold convert in H.
  destruct (from_Translate _ _ _ _) as [[[[nc cd] x] sc]| |]; try discriminate. cbn [bind] in H.
  match type of H with (if ?c then _ else _) = _ => destruct c; [discriminate|] end.
  destruct (reslice _ _) as [sl| |] eqn:Er; try discriminate. cbn [bind] in H. injection H as <-.
  unfold drawn. cbn [r_rdata r_src r_err]. split; [eapply reslice_ok; exact Er|]. auto.
Qed.
Lemma read_drawn fuel : forall r n p x r1, drawn r -> 1 <= n -> Read grow LS lrd fuel r n = Ok (p, x, r1) -> drawn r1.
Proof.
  induction fuel as [|fuel IH]; intros r n p x r1 Hr Hn H; [discriminate|]. cbn [Read] in H.
  destruct (_ >? 0); [injection H as _ _ <-; exact Hr|]. destruct (r_err _ r) eqn:He.
  - destruct (_ =? 0); [injection H as _ _ <-; exact Hr|].
    destruct (convert grow LS r) as [r2| |] eqn:H1; try discriminate. cbn [bind] in H.
    eapply IH; [|exact Hn|exact H]. eapply convert_drawn; eassumption.
  - destruct (fill LS lrd r n) as [r2| |] eqn:H1; try discriminate. cbn [bind] in H.
    destruct (convert grow LS r2) as [r3| |] eqn:H2; try discriminate. cbn [bind] in H.
    eapply IH; [|exact Hn|exact H]. eapply convert_drawn; [|eassumption]. eapply fill_drawn; eassumption.
Qed.
Lemma reads_drawn fuel r ns outs r1 : model_reads1 grow LS lrd fuel r ns outs r1 -> Forall (fun n => 0 < n) ns -> drawn r -> drawn r1.
Proof.
  induction 1 as [|r n ns p x r1 outs r2 H1 _ IH]; intros Hs Hr; [assumption|]. inversion Hs; subst.
  apply IH; [assumption|]. eapply read_drawn; [exact Hr| |exact H1]. lia.
Qed.
Lemma logged_delivers x rem : delivers rd1 x rem e -> forall l, delivers lrd (x, l) rem e.
Proof.
  induction 1 as [x rem e' D1 D2 D3 IH]; intros l. constructor; intros n chunk; [intros e0 s'|intros s'|intros s']; intros Hn; unfold logged; cbn [fst snd];
    destruct (rd1 x n) as [[c0 err] x0] eqn:Erd; intros [= -> -> <-].
  - eapply D1; eassumption.
  - eapply D2; eassumption.
  - eapply IH; eassumption.
Qed.
End Log.

Lemma sums_total l : forall b, 0 <= b -> sum (sums b l) <= zlen l * (b + zlen (concat l)).
Proof.
  induction l as [|c l IH]; intros b Hb; [reflexivity|]. cbn [SpecWork.sums SpecWork.total]. rewrite zlen_concat_cons, zlen_cons.
  pose proof (zlen_nonneg c). pose proof (zlen_nonneg (concat l)). pose proof (zlen_nonneg l). specialize (IH (b + zlen c) ltac:(lia)). nia.
Qed.
Lemma sums_length l : forall b, zlen (sums b l) = zlen l.
Proof. induction l as [|c l IH]; intros b; [reflexivity|]. cbn [SpecWork.sums]. rewrite !zlen_cons, IH. reflexivity. Qed.
Lemma all_sums (news : list (list (list Z))) : zlen (concat (map (sums 0) news)) = zlen (concat news) /\
  sum (concat (map (sums 0) news)) <= zlen (concat news) * zlen (concat (concat news)).
Proof.
  induction news as [|l news [IH1 IH2]]; [split; reflexivity|]. cbn [map]. rewrite !zlen_concat_cons, sums_length, IH1. split; [reflexivity|].
  cbn [concat]. rewrite sum_app, concat_app, zlen_app. pose proof (sums_total l 0 ltac:(lia)).
  pose proof (zlen_nonneg l). pose proof (zlen_nonneg (concat l)). pose proof (zlen_nonneg (concat news)). pose proof (zlen_nonneg (concat (concat news))). nia.
Qed.

Lemma served_length e text ns outs : served e text ns outs -> zlen (concat (map fst outs)) <= zlen text.
Proof.
  induction 1 as [| |]; cbn [map fst].
  all: rewrite ?zlen_concat_cons; rewrite ?zlen_app in *; try change (zlen (concat (@nil (list Z)))) with 0; change (zlen (@nil Z)) with 0 in *.
  all: try apply zlen_nonneg; lia.
Qed.

Lemma model_reads_det fuel r ns outs1 r1 : model_reads grow E rd k fuel r ns outs1 r1 -> forall outs2 r2, model_reads grow E rd k fuel r ns outs2 r2 -> outs1 = outs2 /\ r1 = r2.
Proof.
  induction 1 as [|r n ns p x r1 outs r2 H1 _ IH]; intros outs2 r3 H; inversion H; subst; [auto|].
  match goal with H : Read3 _ _ _ _ _ _ = Ok (_, _, ?r) |- _ => rewrite H in H1; injection H1 as -> -> -> end.
  destruct (IH _ _ ltac:(eassumption)) as [-> ->]. auto.
Qed.

Section Stream.
Hypothesis Hgrow : amortised grow.
Variable rd1 : E -> Z -> list Z * option error * E.
Hypothesis Hrep : reports (rd k) rd1.

Lemma rd1_bytes x n : Forall is_byte (fst (fst (rd1 x n))).
Proof.
  pose proof (Hrep x n) as H. pose proof (Hrdb x n) as Hb. destruct (rd1 x n) as [[bs err] x']. destruct H as [j Hj].
  rewrite Hj in Hb. cbn [fst snd] in *. apply Forall_app in Hb. tauto.
Qed.

Lemma stream_time A O X stream rs e B evs : has_nil A -> package_tables E (mk A O X) -> delivers rd1 X stream e -> decodes stream rs ->
  sensible 1 (map zlen A) evs -> 0 <= B -> Forall (fun n => n <= B) (sizes evs) ->
  exists p s0 outs own s t news,
    calls grow E rd wr prog_cp949 "NewReader" [VExt k] (mk A O X) (VTuple [VPtr p; VErr None]) s0 /\ arrs E s0 = A /\
    reads grow E rd wr prog_cp949 p (seq 0 (length A)) s0 evs outs own s /\ served e (utf8 rs) (sizes evs) outs /\
    reads_take grow E rd wr prog_cp949 p (seq 0 (length A)) s0 evs t /\
    zlen (concat news) <= zlen stream + 1 /\ zlen (concat (concat news)) <= zlen stream /\
    t <= 502 * sum (concat (map (sums 0) news)) + 1242 * zlen stream + 80 * zlen (sizes evs) + 60 * B + 2920.
Proof.
  intros Hn Htab Hd Hdec Hsens HB Hsz.
  assert (Hb : Forall is_byte stream) by (eapply decodes_bytes; eassumption).
  pose proof (sensible_sizes _ _ Hsens) as Hpos.
  pose proof (C79_lemma grow _ (logged rd1) (X, []) stream (utf8 rs) e (length stream + 4) Hb (logged_delivers rd1 e X stream Hd []) (From_decodes grow stream rs Hdec) ltac:(lia)) as Hdel.
  destruct (served_sim grow _ (logged rd1) (length stream + 4) e ltac:(lia) (sizes evs) _ _ Hpos Hdel) as (outs & q' & Hm1 & Hsv).
  set (Q := fun (x : E) (y : E * list (list Z)) => x = fst y).
  assert (Hal : answers_alike E (E * list (list Z)) (rd k) (logged rd1) Q).
  { intros x [y l] n Hxy. unfold Q in Hxy. cbn [fst] in Hxy. subst y. pose proof (Hrep x n) as Hk. unfold logged. cbn [fst snd].
    destruct (rd1 x n) as [[bs0 e0] x']. destruct Hk as [j Hj]. exists j, x'. split; [exact Hj|reflexivity]. }
  destruct (reads_cost _ (logged rd1) Q Hal (length stream + 4) (sizes evs) (NewReader X) (NewReader (X, [])) q' outs) as (wss & r' & Hw & Hm & Ha & Hc).
  { apply new_alike. reflexivity. } { exact Hm1. }
  destruct (reader_session_time grow E rd wr k Hrdb A O X (length stream + 4) evs outs r' _ Hn (sensible_min _ _ _ Z.le_0_1 Hsens) Hm Hc) as (p & s0 & own & s & t & H1 & H2 & H3 & H4 & b & b' & Hb1 & Hb2 & _ & Ht).
  { apply package_tables_ok. exact Htab. }
  pose proof (reads_drawn rd1 e (zlen stream) _ _ _ _ _ Hm1 Hpos) as Hdr.
  destruct Hdr as (_ & D1 & D2 & _).
  { split; [apply nil_slice_ok|]. cbn [NewReader r_src snd concat fst r_err]. change (zlen (@nil Z)) with 0. change (zlen (@nil (list Z))) with 0.
    pose proof (zlen_nonneg stream). split; [lia|]. split; [lia|]. intros _. exists stream. split; [exact Hd|]. lia. }
  destruct (WorkFacts.C127_exact_lemma grow E rd1 rd1_bytes X (length stream + 4) (sizes evs) q' wss) as (news & N1 & N2); [|exact Hw|].
  { eapply Forall_impl; [|exact Hpos]. cbn. lia. }
  exists p, s0, outs, own, s, t, news. do 5 (split; [assumption|]). rewrite <- N1. split; [exact D2|]. split; [exact D1|].
  rewrite <- N2.
  set (budget := fun x d => exists rem, delivers rd1 x rem e /\ zlen rem <= d).
  assert (Hbud : forall x d n, budget x d -> 1 <= n ->
    let '(m, _, err, x') := rd k x n in m <= d /\ (err = None -> m <> 0 -> budget x' (d - m))).
  { intros x d n (rem & Hx & Hr) Hn1. pose proof (Hrep x n) as Hk. destruct (rd1 x n) as [[bs err] x'] eqn:Hbb.
    destruct Hk as [j Hj]. rewrite Hj. inversion Hx as [? ? ? E1 E2 E3]; subst. destruct err as [e'|].
    - destruct (E1 n bs e' x' ltac:(lia) Hbb) as (_ & -> & _). split; [lia|discriminate].
    - destruct (E2 n bs x' ltac:(lia) Hbb) as (_ & _ & rest & Hp). pose proof (E3 n bs x' ltac:(lia) Hbb) as Hx'.
      rewrite Hp in Hr. unfold zlen in Hr. rewrite app_length in Hr. split; [unfold zlen; lia|]. intros _ _.
      exists (zdrop (zlen bs) rem). split; [exact Hx'|]. rewrite Hp, zdrop_app_exact by reflexivity. unfold zlen. lia. }
  pose proof (zlen_nonneg stream) as HD.
  assert (MemoryFacts.within E budget (zlen stream) B (NewReader X)) as Hwi.
  { unfold MemoryFacts.within, NewReader. cbn [r_scratch r_rdata r_err r_src slen nil_slice]. change (scap nil_slice) with 0. unfold lim.
    split; [apply nil_slice_ok|]. split; [apply nil_slice_ok|]. do 3 (split; [lia|]). intros _. exists (zlen stream). split; [|lia]. exists stream. split; [exact Hd|lia]. }
  apply (reads_within grow Hgrow E rd k budget 1 Z.le_0_1 Hbud (zlen stream) B (length stream + 4) _ (sizes evs) outs r' HD) in Hwi; [|
    rewrite Forall_forall in Hpos, Hsz |- *; intros n Hi; specialize (Hpos n Hi); specialize (Hsz n Hi); cbn in Hpos; lia|exact Hm].
  destruct Hwi as (_ & _ & _ & Hc1 & Hc2 & _).
  apply regrows_bound in Hb1; [|assumption|lia]. apply regrows_bound in Hb2; [|assumption|lia]. unfold lim in Hc2.
  rewrite price_sum in Ht. pose proof (served_length _ _ _ _ Hsv) as Hu.
  assert (zlen (concat wss) = zlen (snd (r_src _ q'))) as Hlen by (rewrite N2, N1; apply all_sums).
  assert (zlen (utf8 rs) <= 2 * zlen stream) as H22 by (apply decodes_utf8_length; exact Hdec).
  lia.
Qed.

Lemma C131_stream_lemma A O X stream rs e B evs : has_nil A -> package_tables E (mk A O X) -> delivers rd1 X stream e -> decodes stream rs ->
  sensible 1 (map zlen A) evs -> 0 <= B -> Forall (fun n => n <= B) (sizes evs) ->
  exists p s0 outs own s t,
    calls grow E rd wr prog_cp949 "NewReader" [VExt k] (mk A O X) (VTuple [VPtr p; VErr None]) s0 /\ arrs E s0 = A /\
    reads grow E rd wr prog_cp949 p (seq 0 (length A)) s0 evs outs own s /\ served e (utf8 rs) (sizes evs) outs /\
    reads_take grow E rd wr prog_cp949 p (seq 0 (length A)) s0 evs t /\
    t <= 502 * zlen stream * zlen stream + 1744 * zlen stream + 80 * zlen (sizes evs) + 60 * B + 2920.
Proof.
  intros Hn Htab Hd Hdec Hsens HB Hsz.
  destruct (stream_time A O X stream rs e B evs Hn Htab Hd Hdec Hsens HB Hsz) as (p & s0 & outs & own & s & t & news & H1 & H2 & H3 & H4 & H5 & H6 & H7 & H8).
  exists p, s0, outs, own, s, t. do 5 (split; [assumption|]). destruct (all_sums news) as [_ Hs].
  pose proof (zlen_nonneg (concat news)). pose proof (zlen_nonneg (concat (concat news))). nia.
Qed.
(** A source of whole characters. *)
Definition whole (e : error) (r : reader E) (N : Z) : Prop :=
  reader_ok _ r /\ contents (r_rdata _ r) = [] /\ 0 <= N /\
  (r_err _ r = None -> exists rs, delivers_chars rd1 (r_src _ r) rs e /\ zlen rs + 1 <= N).

Lemma work_whole e fuel : forall r n p x r' ws N, whole e r N -> 2 <= n -> Read_work grow E rd1 fuel r n = Ok (p, x, r', ws) ->
  exists N', whole e r' N' /\ sum ws <= 2 * (N - N') /\ zlen ws <= N - N'.
Proof.
  induction fuel as [|fuel IH]; intros r n p x r' ws N (Hok & Hc & HN & Hr) Hn H; [discriminate|]. cbn [SpecWork.Read_work] in H.
  assert (slen (r_rdata _ r) = 0) as Hlen0 by (apply contents_nil_len; [apply Hok|exact Hc]).
  destruct (Z.gtb_spec (r_cdata_hi _ r - r_cdata_lo _ r) 0) as [Hcd|Hcd].
  { injection H as _ _ <- <-. exists N. cbn [SpecWork.total]. change (zlen (@nil Z)) with 0. split; [|lia].
    split; [|auto]. destruct Hok as (H1 & H2 & H3 & H4). unfold reader_ok. cbn [r_scratch r_rdata r_cdata_lo r_cdata_hi].
    split; [exact H1|]. split; [exact H2|]. lia. }
  destruct (r_err _ r) as [e1|] eqn:He.
  { rewrite Hlen0 in H. cbn [Z.eqb] in H. injection H as _ _ <- <-. exists N. cbn [SpecWork.total]. change (zlen (@nil Z)) with 0. split; [|lia].
    split; [exact Hok|]. split; [exact Hc|]. split; [exact HN|]. congruence. }
  destruct (Hr eq_refl) as (rs & Hd & HNr).
  pose proof Hok as (Hs & Hrd & Hb). unfold fill in H. rewrite Hlen0 in H. change (0 + n) with n in H.
  destruct (ensureCap_spec (r_rdata _ r) n Hrd) as (b & Eb & Hb' & Hcont & Hl & Hcapb & Hle & _).
  rewrite Eb in H. cbn [bind] in H. rewrite Hl, Hlen0, Z.sub_0_r in H.
  assert (2 <= scap b) as H2 by lia.
  destruct (rd1 (r_src _ r) (scap b)) as [[chunk err] s'] eqn:Erd.
  inversion Hd as [s0 b0 e0 D1 D2 D3]; subst.
  assert (exists cs, decodes chunk cs) as (cs & Hcs).
  { destruct err as [e'|].
    - destruct (D1 _ _ _ _ H2 Erd) as (_ & _ & H'). eauto.
    - destruct (D2 _ _ _ H2 Erd) as (_ & _ & c1 & c2 & H' & _). eauto. }
  pose proof (zlen_nonneg chunk) as Hz. change (0 + zlen chunk) with (zlen chunk) in H.
  destruct (Z.gtb_spec (zlen chunk) (scap b)) as [Hx|Hx]; [discriminate|].
  assert (zlen (zwrite (arr b) 0 chunk) = scap b) as Lw by (rewrite zlen_zwrite; unfold scap in *; lia).
  rewrite reslice_spec in H by (unfold scap in *; cbn [arr]; lia). cbn [bind arr] in H.
  set (r1 := mkReader _ _ _ _ _ _ _) in H.
  assert (contents (r_rdata _ r1) = chunk) as Ec1.
  { subst r1. cbn [r_rdata]. unfold contents. cbn [arr slen].
    change (zlen chunk) with (0 + zlen chunk). rewrite ztake_zwrite by (unfold scap in *; lia). rewrite ztake_0. reflexivity. }
  assert (reader_ok _ r1) as Hok1.
  { subst r1. unfold reader_ok. cbn [r_scratch r_rdata r_cdata_lo r_cdata_hi]. unfold slice_ok in *. unfold scap in *. cbn [arr slen].
    rewrite Lw. repeat split; lia. }
  assert (decodes (contents (r_rdata _ r1)) cs) as Hdc by (rewrite Ec1; exact Hcs).
  destruct (convert_complete grow E r1 cs Hok1 Hdc) as (r2 & E2 & Hok2 & Es2 & Ee2 & Ecd & Ec2 & _ & _ & Hcap2).
  rewrite E2 in H. cbn [bind] in H.
  destruct (Read_work grow E rd1 fuel r2 n) as [[[[p1 x1] r3] ws1]| |] eqn:H3; try discriminate. cbn [bind] in H. injection H as <- <- <- <-.
  change (slen (r_rdata _ r1)) with (zlen chunk). cbn [SpecWork.total]. rewrite zlen_cons.
  pose proof (decodes_bytes_length _ _ Hcs) as Hcl. pose proof (zlen_nonneg rs) as Hrs0.
  assert (exists N2, whole e r2 N2 /\ zlen chunk <= 2 * (N - N2) /\ 1 <= N - N2) as (N2 & Hw2 & L1 & L2).
  { destruct err as [e'|].
    - destruct (D1 _ _ _ _ H2 Erd) as (-> & _ & Hrs). assert (cs = rs) as -> by exact (decodes_fun _ _ Hcs _ Hrs).
      exists 0. split; [|lia]. split; [exact Hok2|]. split; [exact Ec2|]. split; [lia|]. rewrite Ee2. discriminate.
    - destruct (D2 _ _ _ H2 Erd) as (Hne & _ & (c1 & rq & H1 & ->)).
      assert (c1 = cs) as -> by exact (decodes_fun _ _ H1 _ Hcs).
      pose proof (D3 _ _ _ _ _ H2 Erd Hcs eq_refl) as Hd'. rewrite zlen_app in *. pose proof (zlen_nonneg rq).
      assert (1 <= zlen chunk) by (destruct chunk; [congruence|rewrite zlen_cons; pose proof (zlen_nonneg chunk); lia]).
      exists (N - zlen cs). split; [|lia]. split; [exact Hok2|]. split; [exact Ec2|]. split; [lia|]. intros _.
      exists rq. rewrite Es2. split; [exact Hd'|]. lia. }
  destruct (IH _ _ _ _ _ _ _ Hw2 Hn H3) as (N' & Hw' & L3 & L4). exists N'. split; [exact Hw'|]. lia.
Qed.
Lemma reads_work_whole e fuel ns : Forall (fun n => 2 <= n) ns -> forall r q wss N, whole e r N -> reads_work grow E rd1 fuel r ns = Ok (q, wss) ->
  sum (concat wss) <= 2 * N /\ zlen (concat wss) <= N.
Proof.
  induction 1 as [|n ns Hn _ IH]; intros r q wss N Hw H; cbn [SpecWork.reads_work] in H.
  - injection H as <- <-. destruct Hw as (_ & _ & Hw & _). cbn [concat SpecWork.total]. change (zlen (@nil Z)) with 0. lia.
  - destruct (Read_work grow E rd1 fuel r n) as [[[[p x] r1] ws]| |] eqn:H1; try discriminate. cbn [bind] in H.
    destruct (reads_work grow E rd1 fuel r1 ns) as [[q2 wss2]| |] eqn:H2; try discriminate. cbn [bind] in H. injection H as <- <-.
    destruct (work_whole e fuel _ _ _ _ _ _ _ Hw Hn H1) as (N' & Hw' & L1 & L2). destruct (IH _ _ _ _ Hw' H2) as [L3 L4].
    cbn [concat]. rewrite sum_app, zlen_app. lia.
Qed.
Lemma read_length fuel : forall r n p x r', 0 <= n -> Read grow E rd1 fuel r n = Ok (p, x, r') -> zlen p <= n /\ (x <> None -> p = []).
Proof.
  induction fuel as [|fuel IH]; intros r n p x r' Hn H; [discriminate|]. cbn [Read] in H.
  destruct (Z.gtb_spec (r_cdata_hi _ r - r_cdata_lo _ r) 0).
  - injection H as <- <- _. split; [|congruence]. unfold zlen, ztake. rewrite firstn_length. lia.
  - destruct (r_err _ r) as [y|] eqn:He.
    + destruct (_ =? 0); [injection H as <- <- _; split; [cbn; lia|reflexivity]|].
      destruct (convert grow E r) as [r1| |]; try discriminate. cbn [bind] in H. eapply IH; eassumption.
    + destruct (fill E rd1 r n) as [r1| |]; try discriminate. cbn [bind] in H.
      destruct (convert grow E r1) as [r2| |]; try discriminate. cbn [bind] in H. eapply IH; eassumption.
Qed.
Lemma served_roomy e fuel ns : (2 <= fuel)%nat -> Forall (fun n => 2 <= n) ns -> forall r text,
  EmptyFacts.roomy E rd1 e 0 r text \/ (forall n, 2 <= n -> EmptyFacts.roomy E rd1 e n r text) /\ cdata _ r = [] /\ r_err _ r = None ->
  exists outs r', model_reads1 grow E rd1 fuel r ns outs r' /\ served e text ns outs.
Proof.
  intros Hf. induction 1 as [|n ns Hn _ IH]; intros r text Hr; [exists [], r; split; constructor|].
  destruct (EmptyFacts.read_roomy grow E rd1 e fuel r n text) as (p & err & r1 & t1 & H1 & Ht & Hr1 & Hx); [|lia|exact Hf|].
  { destruct Hr as [Hr|(Hr & Hr')]; [left; exact Hr|right; auto]. }
  destruct (read_length fuel r n p err r1 ltac:(lia) H1) as [Hp Hp'].
  destruct (IH r1 t1 (or_introl Hr1)) as (outs & r' & Hm & Hs). exists ((p, err) :: outs), r'. split; [econstructor; eassumption|].
  destruct err as [e'|].
  - destruct Hx as (-> & ->). rewrite (Hp' ltac:(discriminate)) in *. cbn [app] in Ht. subst t1. constructor. exact Hs.
  - subst text. constructor; [apply Hx; lia|exact Hp|exact Hs].
Qed.

Lemma C131_whole_lemma A O X rs e B evs :
  has_nil A -> package_tables E (mk A O X) -> delivers_chars rd1 X rs e ->
  sensible 2 (map zlen A) evs -> 0 <= B -> Forall (fun n => n <= B) (sizes evs) ->
  exists p s0 outs own s t,
    calls grow E rd wr prog_cp949 "NewReader" [VExt k] (mk A O X) (VTuple [VPtr p; VErr None]) s0 /\ arrs E s0 = A /\
    reads grow E rd wr prog_cp949 p (seq 0 (length A)) s0 evs outs own s /\ served e (utf8 rs) (sizes evs) outs /\
    reads_take grow E rd wr prog_cp949 p (seq 0 (length A)) s0 evs t /\
    t <= 2488 * zlen rs + 80 * zlen (sizes evs) + 60 * B + 3924.
Proof.
  intros Hn Htab Hd Hsens HB Hsz.
  assert (Hns : Forall (fun n => 2 <= n) (sizes evs)).
  { clear - Hsens. revert Hsens. generalize (map zlen A) as L. induction evs as [|[h a|a|h o n c] evs IH]; intros L Hs; cbn [sizes sensible] in *.
    - constructor.
    - destruct Hs. eauto.
    - eauto.
    - destruct Hs as [(q & _ & _ & Hq & _) Hs]. constructor; [lia|]. eauto. }
  destruct (served_roomy e 2 (sizes evs) (le_n 2) Hns (NewReader X) (utf8 rs)) as (outs & q & Hm1 & Hsv).
  { right. split; [|auto]. intros n H2. split; [unfold reader_ok, NewReader; cbn; unfold slice_ok, scap; cbn; lia|]. split; [reflexivity|].
    cbn [r_err NewReader]. exists rs. split; [exact Hd|]. split; [reflexivity|lia]. }
  assert (Hal : answers_alike E E (rd k) rd1 eq).
  { intros x y n <-. pose proof (Hrep x n) as Hk. destruct (rd1 x n) as [[bs0 e0] x']. destruct Hk as [j Hj]. exists j, x'. auto. }
  destruct (reads_cost E rd1 eq Hal 2 (sizes evs) (NewReader X) (NewReader X) q outs) as (wss & r' & Hw & Hm & _ & Hc); [now apply new_alike|exact Hm1|].
  destruct (reader_session_time grow E rd wr k Hrdb A O X 2 evs outs r' _ Hn (sensible_min 2 _ _ ltac:(lia) Hsens) Hm Hc) as (p & s0 & own & s & t & H1 & H2 & H3 & H4 & b & b' & Hb1 & Hb2 & _ & Ht).
  { apply package_tables_ok. exact Htab. }
  exists p, s0, outs, own, s, t. do 5 (split; [assumption|]). pose proof (zlen_nonneg rs) as Hrs0.
  destruct (reads_work_whole e 2 (sizes evs) Hns (NewReader X) q wss (zlen rs + 1)) as [L1 L2]; [|exact Hw|].
  { split; [unfold reader_ok, NewReader; cbn; unfold slice_ok, scap; cbn; lia|]. split; [reflexivity|]. split; [lia|]. intros _. exists rs. split; [exact Hd|lia]. }
  set (budget := fun x d => exists rs, delivers_chars rd1 x rs e /\ 2 * zlen rs <= d).
  assert (Hbud : forall x d n, budget x d -> 2 <= n ->
    let '(m, _, err, x') := rd k x n in m <= d /\ (err = None -> m <> 0 -> budget x' (d - m))).
  { intros x d n (rem & Hx & Hr) Hn1. pose proof (Hrep x n) as Hk. destruct (rd1 x n) as [[bs err] x'] eqn:Hbb.
    destruct Hk as [j Hj]. rewrite Hj. inversion Hx as [? ? ? E1 E2 E3]; subst. destruct err as [e'|].
    - destruct (E1 n bs e' x' Hn1 Hbb) as (_ & _ & Hdc). apply decodes_bytes_length in Hdc. split; [lia|discriminate].
    - destruct (E2 n bs x' Hn1 Hbb) as (_ & _ & r1 & r2 & Hdc & ->). pose proof (E3 n bs x' r1 r2 Hn1 Hbb Hdc eq_refl) as Hx'.
      apply decodes_bytes_length in Hdc. rewrite zlen_app in Hr. pose proof (zlen_nonneg r2). split; [lia|]. intros _ _.
      exists r2. split; [exact Hx'|lia]. }
  assert (MemoryFacts.within E budget (2 * zlen rs) B (NewReader X)) as Hwi.
  { unfold MemoryFacts.within, NewReader. cbn [r_scratch r_rdata r_err r_src slen nil_slice]. change (scap nil_slice) with 0. unfold lim.
    split; [apply nil_slice_ok|]. split; [apply nil_slice_ok|]. do 3 (split; [lia|]). intros _. exists (2 * zlen rs). split; [|lia]. exists rs. split; [exact Hd|lia]. }
  apply (reads_within grow Hgrow E rd k budget 2 ltac:(lia) Hbud (2 * zlen rs) B 2 _ (sizes evs) outs r' ltac:(lia)) in Hwi; [|
    rewrite Forall_forall in Hns, Hsz |- *; intros n Hi; specialize (Hns n Hi); specialize (Hsz n Hi); cbn in Hns; lia|exact Hm].
  destruct Hwi as (_ & _ & _ & Hc1 & Hc2 & _).
  apply regrows_bound in Hb1; [|assumption|lia]. apply regrows_bound in Hb2; [|assumption|lia]. unfold lim in Hc2.
  rewrite price_sum in Ht. pose proof (served_length _ _ _ _ Hsv) as Hu.
  assert (zlen (utf8 rs) <= 4 * zlen rs) as H22.
  { clear. induction rs as [|u rs IH]; [reflexivity|]. rewrite utf8_cons, zlen_app, zlen_cons. unfold utf8_char.
    destruct (u <? 0x80), (u <? 0x800), (u <? 0x10000); unfold zlen in *; cbn [length]; lia. }
  lia.
Qed.
End Stream.
End Work.
