(** Lemmas for PropIotest.v. *)
From Coq Require Import ZArith List Bool Lia.
From Verif Require Import Base Spec SpecCp949 SpecIO Facts Cp949Model Cp949Facts2 StreamModel StreamFacts StreamFacts2 StreamFacts3 IotestModel.
Import ListNotations.
Local Open Scope Z_scope.
Local Open Scope list_scope.

Lemma same_bytes_refl a : same_bytes a a = true.
Proof. induction a as [|x a IH]; [reflexivity|]. cbn. rewrite Z.eqb_refl. exact IH. Qed.

Section Reader.
Variable grow : Z -> Z -> Z.
Variable RS : Type.
Variable rd : RS -> Z -> list Z * option error * RS.

Lemma test_fails fuel s content sizes e s' : rd s 0 = ([], e, s') -> content <> [] ->
  TestReader grow RS rd (S (S fuel)) (NewReader s) content sizes = Ok (Some 1).
Proof.
  intros Hr Hc. unfold TestReader. destruct content as [|c content]; [congruence|]. cbn [nothing].
  assert (E : exists e0 r', Read grow RS rd (S (S fuel)) (NewReader s) 0 = Ok ([], Some e0, r')).
  { unfold NewReader. cbn. rewrite Hr. destruct e as [e|]; cbn; eauto. }
  destruct E as (e0 & r' & ->). reflexivity.
Qed.
Lemma rest_passes fuel s stream text sizes : Forall is_byte stream -> delivers rd s stream EOF -> From grow stream = Ok (inl text) ->
  Forall (fun k => 0 < k) sizes -> zlen text < zlen sizes -> (length stream + 4 <= fuel)%nat ->
  TestReader_rest grow RS rd fuel (NewReader s) text sizes = Ok None.
Proof.
  intros Hb Hd Ht Hs Hl Hf. destruct (C45_lemma grow RS rd s stream text EOF fuel sizes Hb Hd Ht Hs Hf) as (out & err & r' & E & _ & He & Hn).
  specialize (Hn Hl). subst err. destruct He as [He|[_ ->]]; [discriminate|].
  unfold TestReader_rest. rewrite E. cbn [bind]. cbn [is_EOF negb]. rewrite same_bytes_refl. cbn [negb].
  assert (Hlast : exists r k bs, Read grow RS rd fuel r k = Ok (bs, Some EOF, r')).
  { clear - E. revert E. generalize (NewReader s) as r. revert text. induction sizes as [|k sizes IH]; intros text r E; [discriminate|].
    cbn [read_seq] in E. destruct (Read grow RS rd fuel r k) as [[[bs err] r1]| |] eqn:E1; try discriminate. cbn [bind] in E.
    destruct err as [e|].
    - injection E as <- -> <-. eauto.
    - destruct (read_seq grow RS rd fuel r1 sizes) as [[[bs' err'] r2]| |] eqn:E2; try discriminate. cbn [bind] in E. injection E as <- -> <-.
      exact (IH _ _ E2). }
  destruct Hlast as (r & k & bs & E1). destruct (C49_lemma grow RS rd _ _ _ _ _ _ E1) as [_ H]. destruct fuel as [|fuel]; [lia|].
  rewrite (H fuel 10). reflexivity.
Qed.
Lemma empty_passes fuel s sizes : delivers rd s [] EOF -> Forall (fun k => 0 < k) sizes -> sizes <> [] -> (4 <= fuel)%nat ->
  TestReader grow RS rd fuel (NewReader s) [] sizes = Ok None.
Proof.
  intros Hd Hs Hn Hf. unfold TestReader. cbn [nothing]. apply (rest_passes fuel s [] []); auto.
  destruct sizes as [|k sizes]; [congruence|]. rewrite zlen_cons, zlen_nil. pose proof (zlen_nonneg sizes). lia.
Qed.
End Reader.
Lemma test_refuted : exists stream text, delivers bytes_rd stream stream EOF /\
  forall grow fuel sizes, From grow stream = Ok (inl text) /\
    TestReader grow _ bytes_rd (S (S fuel)) (NewReader stream) text sizes = Ok (Some 1).
Proof.
  exists [0x41], [0x41]. split; [apply bytes_rd_delivers|]. intros grow fuel sizes. split.
  - apply (From_encodes grow [0x41] [0x41]). apply enc_ascii; [lia|constructor].
  - eapply test_fails; [reflexivity|discriminate].
Qed.
