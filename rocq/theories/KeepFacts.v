(** Wrapped readers and writers that keep the slices they are given: proofs for PropKeep.v. *)
From Coq Require Import ZArith List Bool Lia.
From Verif Require Import Base Facts Spec SpecCp949 Utf8 Utf8Facts SortSearch TableFrom TableTo Cp949Model SliceFacts Cp949Facts StreamModel SpecIO SpecReads
  StreamFacts StreamFacts3 KeepModel.
Import ListNotations.
Local Open Scope Z_scope.
Local Open Scope go_scope.
Local Opaque fromTable toTable.

Lemma stored_len lo x a : 0 <= lo <= zlen a -> zlen (stored lo x a) = zlen a.
Proof.
  intros H. unfold stored. pose proof (zlen_nonneg x). rewrite zlen_app, !zlen_ztake by lia. rewrite zlen_app, zlen_zdrop by lia. lia.
Qed.

Section Reader.
Variable grow : Z -> Z -> Z.
Variable RS : Type.
Variable keeps : bool.
Variable rd : RS -> Z -> list Z * option error * RS.
Variable late : RS -> Z -> list Z.
Variable room : Z.
Hypothesis Hwhole : forall s k, room <= k -> exists rs, decodes (fst (fst (rd s k))) rs.

(** The same but for what is in the spare part of rdata, of which nothing is in use. *)
Definition idle (k : keeper RS) (r : reader RS) : Prop :=
  let r1 := k_reader _ k in
  r_src _ r1 = r_src _ r /\ r_scratch _ r1 = r_scratch _ r /\ r_cdata_lo _ r1 = r_cdata_lo _ r /\ r_cdata_hi _ r1 = r_cdata_hi _ r /\
  r_err _ r1 = r_err _ r /\ slen (r_rdata _ r1) = 0 /\ slen (r_rdata _ r) = 0 /\ scap (r_rdata _ r1) = scap (r_rdata _ r) /\
  0 <= k_lo _ k <= scap (r_rdata _ r) /\ slice_ok (r_scratch _ r).

Lemma ensure_form s n : slen s = 0 -> ensureCap s n =
  if n <=? scap s then Ok s
  else let! m := if scap s =? 0 then Ok n else grow_loop (Z.to_nat n) (scap s) n in Ok (mkSlice (zwrite (zeros m) 0 []) 0).
Proof. intros H. unfold ensureCap, contents. rewrite H. reflexivity. Qed.

Lemma convert_all r rs bs : r_rdata _ r = mkSlice (arr (r_rdata _ r)) (zlen bs) -> contents (r_rdata _ r) = bs -> zlen bs <= scap (r_rdata _ r) -> decodes bs rs -> slice_ok (r_scratch _ r) ->
  exists s', slice_ok s' /\ from_Translate grow fromTable (r_scratch _ r) bs = Ok (zlen bs, Some s', None, s') /\
    convert grow RS r = Ok (mkReader _ (r_src _ r) s' 0 (slen s') (mkSlice (zwrite (arr (r_rdata _ r)) 0 []) 0) (r_err _ r)).
Proof.
  intros Hr Hc Hl Hd Hs. destruct (from_Translate_complete grow (r_scratch _ r) bs rs Hs Hd) as (s' & Hs' & _ & E). exists s'. split; [exact Hs'|]. split; [exact E|].
  unfold convert. rewrite Hc, E. cbn [bind].
  assert (Hn : slen (r_rdata RS r) = zlen bs) by (rewrite Hr; reflexivity). rewrite Hn.
  assert ((match r_err RS r with Some _ => if zlen bs =? 0 then zlen bs else zlen bs | None => zlen bs end) = zlen bs) as -> by (destruct (r_err RS r); [destruct (_ =? 0)|]; reflexivity).
  destruct (Z.gtb_spec (zlen bs) (zlen bs)); [lia|]. rewrite zdrop_all by lia. change (zlen (@nil Z)) with 0.
  rewrite reslice_spec; [reflexivity|]. unfold scap. cbn [arr]. rewrite zlen_zwrite; [pose proof (zlen_nonneg bs); unfold scap in *; lia|lia|cbn; unfold scap in *; pose proof (zlen_nonneg bs); lia].
Qed.

Lemma fill_convert k r n : idle k r -> room <= n ->
  match bind (k_fill RS keeps rd late k n) (k_convert grow RS), bind (fill RS rd r n) (convert grow RS) with
  | Ok k', Ok r' => idle k' r'
  | Panic, Panic => True
  | Fuel, Fuel => True
  | _, _ => False
  end.
Proof.
  intros (H1 & H2 & H3 & H4 & H5 & H6 & H7 & H8 & H9 & H10) Hn. unfold k_fill, fill. rewrite H6, H7, !ensure_form by assumption. rewrite H8.
  set (e := 0 + n). 
  assert (He : exists x y, scap x = scap y /\ slen x = 0 /\ slen y = 0 /\
     ((if e <=? scap (r_rdata RS r) then Ok (r_rdata RS (k_reader RS k)) else let! m := if scap (r_rdata RS r) =? 0 then Ok e else grow_loop (Z.to_nat e) (scap (r_rdata RS r)) e in Ok (mkSlice (zwrite (zeros m) 0 []) 0)) = Ok x /\
      (if e <=? scap (r_rdata RS r) then Ok (r_rdata RS r) else let! m := if scap (r_rdata RS r) =? 0 then Ok e else grow_loop (Z.to_nat e) (scap (r_rdata RS r)) e in Ok (mkSlice (zwrite (zeros m) 0 []) 0)) = Ok y) /\
     e <= scap y).
  { assert (Hok : slice_ok (r_rdata RS r)) by (unfold slice_ok; rewrite H7; unfold scap; pose proof (zlen_nonneg (arr (r_rdata RS r))); lia).
    destruct (ensureCap_spec (r_rdata RS r) e Hok) as (s' & Hs & _ & _ & Hl & Hc & _ & _ & _). rewrite ensure_form in Hs by exact H7.
    destruct (e <=? scap (r_rdata RS r)) eqn:El.
    - do 2 eexists. split; [|split; [|split; [|split; [split; reflexivity|]]]]; [exact H8|exact H6|exact H7|]. injection Hs as <-. exact Hc.
    - exists s', s'. split; [reflexivity|]. split; [rewrite Hl; exact H7|]. split; [rewrite Hl; exact H7|]. split; [split; exact Hs|exact Hc]. }
  destruct He as (x & y & Hxy & Hx & Hy & [-> ->] & Hcap). cbn [bind]. rewrite Hx, Hy, Hxy, H1.
  pose proof (Hwhole (r_src RS r) (scap y - 0) ltac:(unfold e in Hcap; lia)) as [rs Hd].
  destruct (rd (r_src RS r) (scap y - 0)) as [[bs err] src]. cbn [fst] in Hd.
  destruct (Z.gtb_spec (0 + zlen bs) (scap y)) as [|Hfit]; [cbn [bind]; exact I|].
  pose proof (zlen_nonneg bs) as Hb0.
  set (lo := if keeps && (scap y =? scap (r_rdata RS r) ) then Z.min (k_lo RS k) 0 else 0).
  assert (Hlo : lo = 0) by (unfold lo; destruct (keeps && _); lia).
  assert (Hax : zlen (stored lo (late (r_src RS r) (scap y - 0)) (arr x)) = scap y).
  { rewrite stored_len; [exact Hxy|]. rewrite Hlo. pose proof (zlen_nonneg (arr x)). lia. }
  rewrite !reslice_spec by (unfold scap in *; cbn [arr]; rewrite zlen_zwrite by lia; lia). cbn [bind arr].
  change (0 + zlen bs) with (zlen bs). unfold k_convert. cbn [k_reader k_lo].
  set (ex := match err with Some e0 => Some e0 | None => if zlen bs =? 0 then Some EOF else None end).
  destruct (convert_all (mkReader RS src (r_scratch RS (k_reader RS k)) (r_cdata_lo RS (k_reader RS k)) (r_cdata_hi RS (k_reader RS k)) (mkSlice (zwrite (stored lo (late (r_src RS r) (scap y - 0)) (arr x)) 0 bs) (zlen bs)) ex) rs bs)
    as (s1 & Hs1 & E1 & C1); cbn [r_rdata r_scratch arr]; try reflexivity; [|unfold scap in *; cbn [arr]; rewrite zlen_zwrite by lia; lia|exact Hd|rewrite H2; exact H10|].
  { unfold contents. cbn [arr slen]. rewrite <- (Z.add_0_l (zlen bs)) at 1. rewrite ztake_zwrite by lia. reflexivity. }
  destruct (convert_all (mkReader RS src (r_scratch RS r) (r_cdata_lo RS r) (r_cdata_hi RS r) (mkSlice (zwrite (arr y) 0 bs) (zlen bs)) ex) rs bs)
    as (s2 & Hs2 & E2 & C2); cbn [r_rdata r_scratch arr]; try reflexivity; [|unfold scap in *; cbn [arr]; rewrite zlen_zwrite by lia; lia|exact Hd|exact H10|].
  { unfold contents. cbn [arr slen]. rewrite <- (Z.add_0_l (zlen bs)) at 1. rewrite ztake_zwrite by (unfold scap in *; lia). reflexivity. }
  cbn [r_scratch] in E1, E2. rewrite H2 in E1. rewrite E1 in E2. assert (s2 = s1) as -> by congruence.
  rewrite C1, C2. cbn [bind r_src r_rdata r_err arr]. repeat split; cbn [k_reader k_lo r_src r_scratch r_cdata_lo r_cdata_hi r_err r_rdata slen]; try reflexivity; try apply Hs1.
  - unfold scap in *. cbn [arr]. assert (0 <= zlen (arr y)) by apply zlen_nonneg. change (zlen (@nil Z)) with 0 in *.
    assert (HA : zlen (zwrite (stored lo (late (r_src RS r) (zlen (arr y) - 0)) (arr x)) 0 bs) = zlen (arr y)) by (rewrite zlen_zwrite by lia; exact Hax).
    assert (HB : zlen (zwrite (arr y) 0 bs) = zlen (arr y)) by (rewrite zlen_zwrite by lia; reflexivity).
    rewrite (zlen_zwrite _ 0 []) by (change (zlen (@nil Z)) with 0; lia). rewrite (zlen_zwrite _ 0 []) by (change (zlen (@nil Z)) with 0; lia). congruence.
  - lia.
  - rewrite Hlo. unfold scap. apply zlen_nonneg.
Qed.

Lemma Read_same fuel n : room <= n -> forall k r, idle k r ->
  match k_Read grow RS keeps rd late fuel k n, Read grow RS rd fuel r n with
  | Ok (bs, e, k'), Ok (bs', e', r') => bs = bs' /\ e = e' /\ idle k' r'
  | Panic, Panic => True
  | Fuel, Fuel => True
  | _, _ => False
  end.
Proof.
  intros Hn. induction fuel as [|fuel IH]; intros k r H; cbn [k_Read Read]; [exact I|].
  pose proof H as (H1 & H2 & H3 & H4 & H5 & H6 & H7 & H8 & H9 & H10). rewrite H3, H4, H5, H6, H7.
  destruct (r_cdata_hi RS r - r_cdata_lo RS r >? 0).
  - split; [unfold cdata; now rewrite H2, H3, H4|]. split; [reflexivity|]. unfold idle. cbn. repeat split; try assumption; try lia; try apply H10.
  - destruct (r_err RS r) as [e|] eqn:Ee; [change (0 =? 0) with true; cbv iota; auto|].
    pose proof (fill_convert k r n H Hn) as Hfc.
    destruct (k_fill RS keeps rd late k n) as [k1| |]; cbn [bind] in *; destruct (fill RS rd r n) as [r1| |]; cbn [bind] in *; try exact Hfc; try contradiction;
      try (destruct (k_convert grow RS k1) as [k2| |]; contradiction || exact Hfc); try (destruct (convert grow RS r1) as [r2| |]; contradiction || exact Hfc).
    destruct (k_convert grow RS k1) as [k2| |]; cbn [bind]; destruct (convert grow RS r1) as [r2| |]; cbn [bind]; try contradiction; try exact I.
    now apply IH.
Qed.
Lemma store_idle x k r : idle k r -> idle (k_store RS x k) r.
Proof.
  intros (H1 & H2 & H3 & H4 & H5 & H6 & H7 & H8 & H9 & H10). unfold idle, k_store. cbn. repeat split; try assumption; try lia; try apply H10.
  unfold scap. cbn [arr]. rewrite stored_len; [exact H8|]. unfold scap in *. lia.
Qed.
Lemma reads_same fuel evs : Forall (fun n => room <= n) (sizes_of evs) -> forall k r, idle k r ->
  match k_reads grow RS keeps rd late fuel k evs, reads grow RS rd fuel r (sizes_of evs) with
  | Ok (rs, k'), Ok (rs', r') => rs = rs' /\ idle k' r'
  | Panic, Panic => True
  | Fuel, Fuel => True
  | _, _ => False
  end.
Proof.
  induction evs as [|[n|x] evs IH]; intros Hs k r H; cbn [k_reads]; [cbn [sizes_of flat_map reads]; auto| |apply IH; [exact Hs|now apply store_idle]].
  change (sizes_of (KRead n :: evs)) with (n :: sizes_of evs) in *. cbn [reads].
  inversion_clear Hs as [|? ? Hn Hs']. pose proof (Read_same fuel n Hn k r H) as HR.
  destruct (k_Read grow RS keeps rd late fuel k n) as [[[bs e] k1]| |], (Read grow RS rd fuel r n) as [[[bs' e'] r1]| |]; cbn [bind]; try contradiction; try exact I.
  destruct HR as (-> & -> & H1). specialize (IH Hs' k1 r1 H1).
  destruct (k_reads grow RS keeps rd late fuel k1 evs) as [[rs k2]| |], (reads grow RS rd fuel r1 (sizes_of evs)) as [[rs' r2]| |]; cbn [bind]; try contradiction; try exact I.
  destruct IH as [-> IH]. auto.
Qed.
Lemma keep_whole fuel evs s : Forall (fun n => room <= n) (sizes_of evs) ->
  (let! (rs, k) := k_reads grow RS keeps rd late fuel (k_NewReader RS s) evs in Ok (rs, r_src _ (k_reader _ k))) =
  (let! (rs, r) := reads grow RS rd fuel (NewReader s) (sizes_of evs) in Ok (rs, r_src _ r)).
Proof.
  intros Hs. assert (H : idle (k_NewReader RS s) (NewReader s)) by (repeat split; unfold scap; cbn; lia).
  pose proof (reads_same fuel evs Hs _ _ H) as HR.
  destruct (k_reads grow RS keeps rd late fuel (k_NewReader RS s) evs) as [[rs k2]| |], (reads grow RS rd fuel (NewReader s) (sizes_of evs)) as [[rs' r2]| |]; cbn [bind]; try contradiction; try reflexivity.
  destruct HR as (-> & Hsrc & _). now rewrite Hsrc.
Qed.
End Reader.

(** A reader that uses its buffer, but not beyond the call. *)
Section Scribble.
Variable grow : Z -> Z -> Z.
Variable RS : Type.
Variable rd : RS -> Z -> list Z * option error * RS.
Variable late : RS -> Z -> list Z.
Definition alike (k : keeper RS) (r : reader RS) : Prop :=
  let r1 := k_reader _ k in
  r_src _ r1 = r_src _ r /\ r_scratch _ r1 = r_scratch _ r /\ r_cdata_lo _ r1 = r_cdata_lo _ r /\ r_cdata_hi _ r1 = r_cdata_hi _ r /\
  r_err _ r1 = r_err _ r /\ slen (r_rdata _ r1) = slen (r_rdata _ r) /\ scap (r_rdata _ r1) = scap (r_rdata _ r) /\
  contents (r_rdata _ r1) = contents (r_rdata _ r) /\ slice_ok (r_rdata _ r).
Lemma ensure_alike a b n : slen a = slen b -> scap a = scap b -> contents a = contents b -> slice_ok b ->
  exists a' b', ensureCap a n = Ok a' /\ ensureCap b n = Ok b' /\ slen a' = slen b' /\ scap a' = scap b' /\ contents a' = contents b' /\ slice_ok b'.
Proof.
  intros H1 H2 H3 Hb. destruct (ensureCap_spec b n Hb) as (b' & Eb & Hb' & _). revert Eb. unfold ensureCap. rewrite H1, H2, H3. destruct (n <=? scap b); intros Eb.
  - exists a, b. injection Eb as <-. auto 10.
  - exists b', b'. auto 10.
Qed.
Lemma zlen_stored_ge lo x a : 0 <= lo <= zlen a -> ztake lo (stored lo x a) = ztake lo a.
Proof. intros H. unfold stored. rewrite ztake_app_l by (rewrite zlen_ztake by lia; lia). apply ztake_all. rewrite zlen_ztake by lia. lia. Qed.
Lemma fill_alike k r n : alike k r ->
  match k_fill RS false rd late k n, fill RS rd r n with Ok k', Ok r' => alike k' r' | Panic, Panic => True | Fuel, Fuel => True | _, _ => False end.
Proof.
  intros (H1 & H2 & H3 & H4 & H5 & H6 & H7 & H8 & H9). unfold k_fill, fill. rewrite H6.
  destruct (ensure_alike _ _ (slen (r_rdata RS r) + n) H6 H7 H8 H9) as (a & b & -> & -> & Hl & Hc & Hcon & Hb). cbn [bind andb]. rewrite H1, Hl, Hc.
  destruct (rd (r_src RS r) (scap b - slen b)) as [[bs err] src]. destruct (Z.gtb_spec (slen b + zlen bs) (scap b)) as [|Hfit]; [exact I|].
  pose proof (zlen_nonneg bs) as Hb0. pose proof Hb as [Hb1 Hb2]. set (x := late (r_src RS r) (scap b - slen b)).
  assert (Hax : zlen (stored (slen b) x (arr a)) = scap b) by (rewrite stored_len; unfold scap in *; lia).
  rewrite !reslice_spec by (unfold scap in *; cbn [arr]; rewrite zlen_zwrite by lia; lia). cbn [bind arr].
  unfold alike. cbn [k_reader r_src r_scratch r_cdata_lo r_cdata_hi r_err r_rdata slen].
  unfold contents, scap in *. cbn [arr slen].
  assert (H10 : zlen (zwrite (arr b) (slen b) bs) = zlen (arr b)) by (rewrite zlen_zwrite by lia; reflexivity).
  repeat split; try assumption; try lia.
  - rewrite zlen_zwrite by lia. lia.
  - rewrite !ztake_zwrite by lia. f_equal. rewrite zlen_stored_ge by (unfold scap in *; lia). congruence.
  - cbn [slen]. lia.
  - cbn [slen]. unfold scap. cbn [arr]. lia.
Qed.
Lemma convert_alike k r : alike k r ->
  match k_convert grow RS k, convert grow RS r with Ok k', Ok r' => alike k' r' | Panic, Panic => True | Fuel, Fuel => True | _, _ => False end.
Proof.
  intros (H1 & H2 & H3 & H4 & H5 & H6 & H7 & H8 & H9). unfold k_convert, convert. rewrite H2, H5, H6, H8.
  destruct (from_Translate grow fromTable (r_scratch RS r) (contents (r_rdata RS r))) as [[[[nc cd] e] scratch]| |]; cbn [bind]; try exact I.
  match goal with |- context [zdrop ?m _] => set (mc := m) end. destruct (mc >? slen (r_rdata RS r)) eqn:Eg; [exact I|].
  set (rest := zdrop mc (contents (r_rdata RS r))).
  assert (Hr : 0 <= zlen rest <= scap (r_rdata RS r)).
  { split; [apply zlen_nonneg|]. pose proof (contents_len _ H9) as Hcl. destruct H9 as [H9 H10].
    assert (zlen rest <= zlen (contents (r_rdata RS r))); [|lia]. unfold rest, zdrop, zlen. rewrite skipn_length. lia. }
  pose proof H9 as [Hb1 Hb2].
  rewrite !reslice_spec by (unfold scap in *; cbn [arr]; rewrite zlen_zwrite by lia; lia). cbn [bind arr].
  unfold alike. cbn [k_reader r_src r_scratch r_cdata_lo r_cdata_hi r_err r_rdata slen]. unfold contents, scap in *. cbn [arr slen].
  assert (HA : zlen (zwrite (arr (r_rdata RS r)) 0 rest) = zlen (arr (r_rdata RS r))) by (rewrite zlen_zwrite by lia; reflexivity).
  repeat split; try assumption; try lia.
  - rewrite zlen_zwrite by lia. lia.
  - change (zlen rest) with (0 + zlen rest). rewrite !ztake_zwrite by lia. reflexivity.
  - cbn [slen]. lia.
  - cbn [slen]. unfold scap. cbn [arr]. lia.
Qed.
Lemma Read_alike fuel n : forall k r, alike k r ->
  match k_Read grow RS false rd late fuel k n, Read grow RS rd fuel r n with
  | Ok (bs, e, k'), Ok (bs', e', r') => bs = bs' /\ e = e' /\ alike k' r'
  | Panic, Panic => True
  | Fuel, Fuel => True
  | _, _ => False
  end.
Proof.
  induction fuel as [|fuel IH]; intros k r H; cbn [k_Read Read]; [exact I|].
  pose proof H as (H1 & H2 & H3 & H4 & H5 & H6 & H7 & H8 & H9). rewrite H3, H4, H5, H6.
  assert (Hconv : forall k r, alike k r -> match bind (k_convert grow RS k) (fun k => k_Read grow RS false rd late fuel k n), bind (convert grow RS r) (fun r => Read grow RS rd fuel r n) with
    | Ok (bs, e, k'), Ok (bs', e', r') => bs = bs' /\ e = e' /\ alike k' r' | Panic, Panic => True | Fuel, Fuel => True | _, _ => False end).
  { intros k0 r0 H0. pose proof (convert_alike k0 r0 H0) as Hc. destruct (k_convert grow RS k0) as [k1| |], (convert grow RS r0) as [r1| |]; cbn [bind]; try contradiction; try exact I. now apply IH. }
  destruct (r_cdata_hi RS r - r_cdata_lo RS r >? 0).
  - split; [unfold cdata; now rewrite H2, H3, H4|]. split; [reflexivity|]. unfold alike. cbn [k_reader r_src r_scratch r_cdata_lo r_cdata_hi r_err r_rdata]. repeat split; try assumption; try reflexivity; apply H9.
  - destruct (r_err RS r) as [e|] eqn:Ee.
    + destruct (slen (r_rdata RS r) =? 0); [auto|]. apply Hconv. exact H.
    + pose proof (fill_alike k r n H) as Hf. destruct (k_fill RS false rd late k n) as [k1| |], (fill RS rd r n) as [r1| |]; cbn [bind]; try contradiction; try exact I. now apply Hconv.
Qed.
Lemma reads_alike fuel sizes : forall k r, alike k r ->
  match k_reads grow RS false rd late fuel k (map KRead sizes), reads grow RS rd fuel r sizes with
  | Ok (rs, k'), Ok (rs', r') => rs = rs' /\ alike k' r'
  | Panic, Panic => True
  | Fuel, Fuel => True
  | _, _ => False
  end.
Proof.
  induction sizes as [|n sizes IH]; intros k r H; cbn [map k_reads reads]; [auto|]. pose proof (Read_alike fuel n k r H) as HR.
  destruct (k_Read grow RS false rd late fuel k n) as [[[bs e] k1]| |], (Read grow RS rd fuel r n) as [[[bs' e'] r1]| |]; cbn [bind]; try contradiction; try exact I.
  destruct HR as (-> & -> & H1). specialize (IH k1 r1 H1).
  destruct (k_reads grow RS false rd late fuel k1 (map KRead sizes)) as [[rs k2]| |], (reads grow RS rd fuel r1 sizes) as [[rs' r2]| |]; cbn [bind]; try contradiction; try exact I.
  destruct IH as [-> IH]. auto.
Qed.
Lemma keep_scribble fuel sizes s :
  (let! (rs, k) := k_reads grow RS false rd late fuel (k_NewReader RS s) (map KRead sizes) in Ok (rs, r_src _ (k_reader _ k))) =
  (let! (rs, r) := reads grow RS rd fuel (NewReader s) sizes in Ok (rs, r_src _ r)).
Proof.
  assert (H : alike (k_NewReader RS s) (NewReader s)) by (repeat split; unfold scap; cbn; lia).
  pose proof (reads_alike fuel sizes _ _ H) as HR.
  destruct (k_reads grow RS false rd late fuel (k_NewReader RS s) (map KRead sizes)) as [[rs k2]| |], (reads grow RS rd fuel (NewReader s) sizes) as [[rs' r2]| |]; cbn [bind]; try contradiction; try reflexivity.
  destruct HR as (-> & Hsrc & _). now rewrite Hsrc.
Qed.
End Scribble.

Section Writer.
Variable grow : Z -> Z -> Z.
Variable WS : Type.
Variable wr : WS -> list Z -> option error * WS.
Variable late : WS -> list Z -> list Z.
Lemma stored_ok lo x s : 0 <= lo <= scap s -> slice_ok s -> slice_ok (mkSlice (stored lo x (arr s)) (slen s)).
Proof. intros Hl H. unfold slice_ok, scap in *. cbn [arr slen]. now rewrite stored_len. Qed.
Lemma k_Write_spec w data : slice_ok (w_scratch _ w) -> w_buf _ w = [] -> Forall is_byte data ->
  exists w', slice_ok (w_scratch _ w') /\ w_buf _ w' = [] /\
    match data with
    | [] => k_Write grow WS wr late w data = Ok (0, None, w') /\ w_dst _ w' = w_dst _ w
    | _ => let '(err, dst) := wr (w_dst _ w) (enc data) in
        k_Write grow WS wr late w data = Ok (match err with Some _ => 0 | None => zlen data end, err, w') /\ w_dst _ w' = dst
    end.
Proof.
  intros Hs Hb Hd. unfold k_Write. rewrite Hb. change (zlen (@nil Z) >? 0) with false. cbv iota.
  destruct (to_Translate_spec grow (w_scratch _ w) data Hs Hd) as (s' & Hs' & Hc & ->). cbn [bind]. rewrite Hc. fold (enc data).
  assert (Hst : forall x, slice_ok (mkSlice (stored 0 x (arr s')) (slen s'))) by (intros x; apply stored_ok; [pose proof (zlen_nonneg (arr s')); unfold scap; lia|exact Hs']).
  destruct data as [|x data].
  - cbn [zlen length Z.of_nat Z.gtb Z.compare Z.ltb]. eexists. split; [|split; [|split; [reflexivity|reflexivity]]]; [exact Hs'|reflexivity].
  - assert (zlen (x :: data) >? 0 = true) as -> by (rewrite zlen_cons; pose proof (zlen_nonneg data); lia).
    destruct (wr (w_dst _ w) (enc (x :: data))) as [[e|] dst].
    + eexists. split; [|split; [|split; [reflexivity|reflexivity]]]; [apply Hst|reflexivity].
    + rewrite Z.ltb_irrefl. eexists. split; [|split; [|split; [reflexivity|reflexivity]]]; [apply Hst|reflexivity].
Qed.
Lemma k_writes_spec evs : Forall (Forall is_byte) (data_of evs) -> forall w, slice_ok (w_scratch _ w) -> w_buf _ w = [] ->
  exists w', k_writes grow WS wr late w evs = Ok (fst (writes_spec wr (w_dst _ w) (map (fun d => (d, enc d)) (data_of evs))), w') /\
    w_dst _ w' = snd (writes_spec wr (w_dst _ w) (map (fun d => (d, enc d)) (data_of evs))).
Proof.
  induction evs as [|[d|x] evs IH]; intros Hd w Hs Hb; cbn [k_writes data_of flat_map app map writes_spec]; [eexists; split; reflexivity| |].
  - cbn [data_of flat_map app] in Hd. inversion_clear Hd as [|? ? Hd1 Hd2]. destruct (k_Write_spec w d Hs Hb Hd1) as (w1 & H1 & H2 & H3). fold (data_of evs) in *.
    destruct (IH Hd2 w1 H1 H2) as (w2 & H4 & H5). destruct d as [|z d].
    + destruct H3 as [-> H3]. cbn [bind]. rewrite H4. cbn [bind]. rewrite H3 in *. destruct (writes_spec wr (w_dst WS w) (map (fun d => (d, enc d)) (data_of evs))) as [rs dst]. exists w2. cbn in *. auto.
    + destruct (wr (w_dst WS w) (enc (z :: d))) as [err dst]. destruct H3 as [-> H3]. cbn [bind]. rewrite H4. cbn [bind]. rewrite H3 in *.
      destruct (writes_spec wr dst (map (fun d => (d, enc d)) (data_of evs))) as [rs dst']. exists w2. cbn in *. auto.
  - apply (IH Hd (w_store WS x w)); [|exact Hb]. apply stored_ok; [pose proof (zlen_nonneg (arr (w_scratch _ w))); unfold scap; lia|exact Hs].
Qed.
Lemma keep_writer evs s : Forall (Forall is_byte) (data_of evs) ->
  exists pairs w', map fst pairs = data_of evs /\ Forall (fun q => To grow (fst q) = Ok (inl (snd q))) pairs /\
    k_writes grow WS wr late (NewWriter s) evs = Ok (fst (writes_spec wr s pairs), w') /\ w_dst _ w' = snd (writes_spec wr s pairs).
Proof.
  intros Hd. exists (map (fun d => (d, enc d)) (data_of evs)). destruct (k_writes_spec evs Hd (NewWriter s)) as (w' & H1 & H2); [unfold slice_ok, scap; cbn; lia|reflexivity|].
  exists w'. split; [rewrite map_map; apply map_id|]. split; [|split; [exact H1|exact H2]].
  apply Forall_map. eapply Forall_impl; [|exact Hd]. intros d Hdd. cbn [fst snd]. now apply To_enc.
Qed.
End Writer.
