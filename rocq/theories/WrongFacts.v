(** Facts about Read over wrapped readers that report wrong counts. *)
From Coq Require Import ZArith List Bool Lia.
From Coq Require Import ZifyBool.
From Verif Require Import Base Spec Facts Utf8 SortSearch TableFrom TableTo
  Cp949Model StreamModel StreamModel3 SpecWrong SpecIO SpecCp949 SliceFacts StreamFacts3.
Import ListNotations.
Local Open Scope Z_scope.
Local Opaque fromTable toTable.

Lemma total_app a b : total (a ++ b) = total a + total b.
Proof. unfold total. induction a; cbn in *; lia. Qed.

Section Counts.
Variable grow : Z -> Z -> Z.
Variable RS : Type.
Variable rd : RS -> Z -> Z * list Z * option error * RS.
Notation reader := (reader (RS * list (Z * Z))).

(* a negative count never takes back more than was held *)
Definition counts_ok (calls : list (Z * Z)) : Prop :=
  forall before k n after, calls = before ++ (k, n) :: after -> n <= k /\ 0 <= total before + n.

Definition cinv (r : reader) : Prop :=
  slice_ok (r_rdata _ r) /\ slen (r_rdata _ r) <= total (snd (r_src _ r)) /\ counts_ok (snd (r_src _ r)).

Lemma counts_ok_snoc calls k n : counts_ok calls -> n <= k -> 0 <= total calls + n -> counts_ok (calls ++ [(k, n)]).
Proof.
  intros H Hk Hn before k' n' after E.
  destruct after as [|a after _] using rev_ind.
  - apply app_inj_tail in E. destruct E as [-> E]. injection E as <- <-. lia.
  - rewrite app_comm_cons, app_assoc in E. apply app_inj_tail in E. destruct E as [E _]. apply (H _ _ _ _ E).
Qed.

Lemma fill_counts r k r1 : cinv r -> fill3 _ (counted rd) r k = Ok r1 -> cinv r1.
Proof.
  intros (Hs & Ht & Hc) E. unfold fill3 in E.
  destruct (ensureCap_spec (r_rdata _ r) (slen (r_rdata _ r) + k) Hs) as (b & Eb & Hb & _ & Hl & Hcap & _).
  rewrite Eb in E. cbn [bind] in E. unfold counted in E.
  destruct (rd (fst (r_src _ r)) (scap b - slen b)) as [[[n stored] err] s'].
  unfold reslice in E. change (scap (mkSlice ?a ?n)) with (zlen a) in E. unfold slice_ok in *.
  assert (zlen (zwrite (arr b) (slen b) (ztake (scap b - slen b) stored)) = scap b) as L.
  { assert (zlen (ztake (scap b - slen b) stored) <= scap b - slen b) by (unfold zlen, ztake; rewrite firstn_length; lia).
    pose proof (zlen_nonneg (ztake (scap b - slen b) stored)). rewrite zlen_zwrite; unfold scap in *; lia. }
  rewrite L in E. destruct (_ && _) eqn:Eb2; [|discriminate].
  cbn [bind] in E. injection E as <-. unfold cinv, slice_ok. cbn [r_rdata r_src snd arr slen].
  change (scap (mkSlice ?a ?n)) with (zlen a). rewrite L, total_app. cbn [total fold_right snd]. split; [lia|]. split; [lia|].
  apply counts_ok_snoc; [exact Hc|lia|lia].
Qed.

Lemma convert_counts r r1 : cinv r -> convert grow _ r = Ok r1 -> cinv r1.
Proof.
  intros (Hs & Ht & Hc) E. unfold convert in E.
  destruct (from_Translate grow fromTable (r_scratch _ r) (contents (r_rdata _ r))) as [[[[nc cd] o] sc]| |];
    cbn [bind] in E; try discriminate.
  set (n := match r_err _ r with Some _ => _ | None => _ end) in E.
  destruct (Z.gtb_spec n (slen (r_rdata _ r))) as [Hx|Hx]; [discriminate|].
  set (rest := zdrop n (contents (r_rdata _ r))) in E.
  assert (zlen rest <= slen (r_rdata _ r)) as Hr.
  { rewrite <- (contents_len _ Hs). unfold rest, zlen, zdrop. rewrite skipn_length. lia. }
  pose proof (zlen_nonneg rest) as Hr0. unfold slice_ok, scap in *.
  assert (zlen (zwrite (arr (r_rdata _ r)) 0 rest) = zlen (arr (r_rdata _ r))) as L by (rewrite zlen_zwrite; lia).
  rewrite reslice_spec in E by (unfold scap; cbn [arr]; lia). cbn [bind] in E. injection E as <-.
  unfold cinv, slice_ok, scap. cbn [r_rdata r_src arr slen]. rewrite L. repeat split; try lia; apply (Hc _ _ _ _ H).
Qed.

Lemma read_counts fuel : forall r k p err r1, cinv r -> Read3 grow _ (counted rd) fuel r k = Ok (p, err, r1) -> cinv r1.
Proof.
  induction fuel as [|fuel IH]; intros r k p err r1 H E; [discriminate|]. cbn [Read3] in E.
  destruct (_ >? 0).
  - injection E as _ _ <-. exact H.
  - destruct (r_err _ r) as [e|].
    + destruct (_ =? 0); [injection E as _ _ <-; exact H|].
      destruct (convert grow _ r) as [r2| |] eqn:E2; cbn [bind] in E; try discriminate.
      exact (IH _ _ _ _ _ (convert_counts _ _ H E2) E).
    + destruct (fill3 _ (counted rd) r k) as [r2| |] eqn:E2; cbn [bind] in E; try discriminate.
      destruct (convert grow _ r2) as [r3| |] eqn:E3; cbn [bind] in E; try discriminate.
      exact (IH _ _ _ _ _ (convert_counts _ _ (fill_counts _ _ _ H E2) E3) E).
Qed.

Lemma read_seq_counts fuel sizes : forall r out err r1, cinv r ->
  read_seq3 grow _ (counted rd) fuel r sizes = Ok (out, err, r1) -> cinv r1.
Proof.
  induction sizes as [|k sizes IH]; intros r out err r1 H E; cbn [read_seq3] in E.
  - injection E as _ _ <-. exact H.
  - destruct (Read3 grow _ (counted rd) fuel r k) as [[[bs e] r2]| |] eqn:E2; cbn [bind] in E; try discriminate.
    pose proof (read_counts _ _ _ _ _ _ H E2) as H2. destruct e as [e|]; [injection E as _ _ <-; exact H2|].
    destruct (read_seq3 grow _ (counted rd) fuel r2 sizes) as [[[bs' e'] r3]| |] eqn:E3; cbn [bind] in E; try discriminate.
    injection E as _ _ <-. exact (IH _ _ _ _ H2 E3).
Qed.

Lemma C104_lemma s fuel sizes out err r :
  read_seq3 grow _ (counted rd) fuel (NewReader (s, [])) sizes = Ok (out, err, r) ->
  forall before k n after, snd (r_src _ r) = before ++ (k, n) :: after -> n <= k /\ 0 <= total before + n.
Proof.
  intros E. apply (read_seq_counts _ _ _ _ _ _) in E; [apply E|].
  split; [|split].
  - unfold slice_ok, scap. cbn. lia.
  - cbn. lia.
  - intros before k n after H. cbn in H. destruct before; discriminate.
Qed.

(* what the reader of a well-behaved stream, or of any other, reports first *)
Lemma C104_first_lemma s k fuel : 0 < k ->
  (let '(n, _, _, _) := rd s k in n < 0 \/ k < n) ->
  Read3 grow _ rd (S fuel) (NewReader s) k = Panic.
Proof.
  intros Hk H. unfold NewReader. cbn [Read3 r_cdata_hi r_cdata_lo r_err]. change (0 - 0 >? 0) with false. cbn iota.
  unfold fill3. cbn [r_rdata].
  destruct (ensureCap_spec nil_slice (slen nil_slice + k)) as (b & Eb & Hb & _ & Hl & _ & _ & Hcap & _).
  { unfold slice_ok, scap. cbn. lia. }
  rewrite Eb. cbn [bind r_src]. assert (scap b = k) as -> by (rewrite Hcap; cbn; lia).
  assert (slen b = 0) as -> by (rewrite Hl; reflexivity). rewrite Z.sub_0_r.
  destruct (rd s k) as [[[n stored] err] s'] eqn:Erd. unfold reslice, scap. cbn [arr].
  assert (zlen (zwrite (arr b) 0 (ztake k stored)) = k) as ->.
  { assert (zlen (ztake k stored) <= k) by (unfold zlen, ztake; rewrite firstn_length; lia).
    pose proof (zlen_nonneg (ztake k stored)). unfold scap in Hcap. assert (zlen (arr b) = k) by (rewrite Hcap; cbn; lia).
    rewrite zlen_zwrite; lia. }
  replace ((0 <=? 0 + n) && (0 + n <=? k)) with false by lia. reflexivity.
Qed.
End Counts.

(** * Writers *)
Lemma C105_lemma grow (WS : Type) (wr : WS -> list Z -> Z * option error * WS) taken s chunks :
  honest_writer taken wr -> Forall (Forall is_byte) chunks ->
  exists rows w, map w_data rows = chunks /\
    write_all grow WS (uncounted wr) (NewWriter s) chunks = Ok (map (fun x => (w_count x, w_error x)) rows, w) /\
    taken (w_dst _ w) = taken s ++ concat (map w_got rows) /\
    Forall (fun x => To grow (w_data x) = Ok (inl (w_enc x)) /\
      match w_error x with
      | None => w_count x = zlen (w_data x) /\ w_got x = w_enc x
      | Some _ => w_count x = 0 /\ is_prefix (w_got x) (w_enc x)
      end) rows.
Proof.
  intros Hh Hb. destruct (C53_lemma grow WS (uncounted wr) s chunks Hb) as (pairs & w & Hf & Hto & Hw & Hd).
  subst chunks. clear Hb.
  enough (forall s, exists rows, map w_data rows = map fst pairs /\
    fst (writes_spec (uncounted wr) s pairs) = map (fun x => (w_count x, w_error x)) rows /\
    taken (snd (writes_spec (uncounted wr) s pairs)) = taken s ++ concat (map w_got rows) /\
    Forall (fun x => To grow (w_data x) = Ok (inl (w_enc x)) /\
      match w_error x with
      | None => w_count x = zlen (w_data x) /\ w_got x = w_enc x
      | Some _ => w_count x = 0 /\ is_prefix (w_got x) (w_enc x)
      end) rows) as H.
  { destruct (H s) as (rows & H1 & H2 & H3 & H4). exists rows, w. rewrite Hw, Hd, H2. auto. }
  clear s w Hw Hd. induction Hto as [|[d enc] pairs Hp Hto IH]; intros s.
  - exists []. cbn. rewrite app_nil_r. auto.
  - cbn [writes_spec map fst]. cbn [fst snd] in Hp. destruct d as [|b d].
    + destruct (IH s) as (rows & H1 & H2 & H3 & H4). destruct (writes_spec (uncounted wr) s pairs) as [rs s2]. cbn [fst snd] in *.
      assert (enc = []) as -> by (vm_compute in Hp; congruence).
      exists (mkWritten [] [] [] 0 None :: rows). cbn [map w_data w_count w_error w_got concat app]. rewrite H1, H2.
      repeat split; auto. constructor; [|exact H4]. cbn. auto.
    + pose proof (Hh s enc) as Hs. unfold uncounted at 1 3.
      destruct (wr s enc) as [[n e] s1] eqn:Ew. destruct Hs as (Hn & Ht & He).
      destruct (IH s1) as (rows & H1 & H2 & H3 & H4). destruct (writes_spec (uncounted wr) s1 pairs) as [rs s2]. cbn [fst snd] in *.
      exists (mkWritten (b :: d) enc (ztake n enc) (match e with Some _ => 0 | None => zlen (b :: d) end) e :: rows).
      cbn [map w_data w_count w_error w_got concat app]. rewrite H1, H2, H3, Ht, <- app_assoc.
      repeat split; auto. constructor; [|exact H4]. cbn [w_data w_enc w_got w_count w_error]. split; [exact Hp|].
      destruct e as [e|].
      * split; [reflexivity|]. exists (zdrop n enc). symmetry. apply ztake_zdrop.
      * rewrite (He eq_refl). split; [reflexivity|]. unfold ztake, zlen. rewrite Nat2Z.id. apply firstn_all.
Qed.

Lemma disk_wr_honest room : honest_writer (fun s => s) (disk_wr room).
Proof.
  intros s bs. pose proof (zlen_nonneg bs). unfold disk_wr.
  destruct (Z.ltb_spec (Z.max 0 (Z.min (zlen bs) (Z.of_nat room - zlen s))) (zlen bs)); repeat split; try lia; discriminate.
Qed.

(** * The counterexamples *)
Definition dbl (old need : Z) : Z := Z.max need (2 * old).
Lemma C104_refuted_lemma : exists (rd : nat -> Z -> Z * list Z * option error * nat) s r,
  read_seq3 dbl _ (counted rd) 9 (NewReader (s, [])) [16; 16; 16] = Ok ([0x41], Some EOF, r) /\
  map snd (snd (r_src _ r)) = [2; -1; 1; 0].
Proof. exists minus_rd, 0%nat. eexists. vm_compute. split; reflexivity. Qed.
Lemma C105_count_lemma : exists wr e w, honest_writer (fun s => s) wr /\
  write_all dbl _ (uncounted wr) (NewWriter []) [utf8 [0x41; 0xAC00; 0x42]] = Ok ([(0, Some e)], w) /\
  w_dst _ w = [0x41; 0xB0; 0xA1].
Proof. exists (disk_wr 3). eexists. eexists. split; [apply disk_wr_honest|]. vm_compute. split; reflexivity. Qed.
Lemma C105_short_lemma : exists (wr : list Z -> list Z -> Z * option error * list Z) w,
  fst (fst (wr [] [0xB0; 0xA1])) = 1 /\
  write_all dbl _ (uncounted wr) (NewWriter []) [utf8 [0xAC00]] = Ok ([(3, None)], w) /\ w_dst _ w = [0xB0].
Proof. exists (forgetful_wr 1). eexists. vm_compute. repeat split. Qed.
