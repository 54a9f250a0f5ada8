(** Reads with an empty buffer after a first one with a real buffer: lemmas behind C50. *)
From Coq Require Import ZArith List Bool Lia.
From Coq Require Import ZifyBool.
From Verif Require Import Base Spec Facts Utf8 Utf8Facts SortSearch TableFrom TableTo SpecCp949 SpecText2
  SpecIO PMapFacts Cp949Model StreamModel IoModel SliceFacts TableFacts Cp949Facts Cp949Facts2
  StreamFacts StreamFacts2 StreamFacts3 TransformFacts3 HangulFacts3.
Import ListNotations.
Local Open Scope Z_scope.
Local Opaque fromTable toTable dec_tree enc_tree.

Section Empty.
Variable grow : Z -> Z -> Z.
Variable RS : Type.
Variable rd : RS -> Z -> list Z * option error * RS.
Variable e : error.

(** Nothing is unconverted, and there is room for a character. *)
Definition roomy (k : Z) (r : reader RS) (text : list Z) : Prop :=
  reader_ok _ r /\ contents (r_rdata _ r) = [] /\
  match r_err _ r with
  | Some e' => e' = e /\ text = cdata _ r
  | None => exists rs, delivers_chars rd (r_src _ r) rs e /\
      text = cdata _ r ++ utf8 rs /\ 2 <= Z.max k (scap (r_rdata _ r))
  end.

Lemma fill_roomy r k text : roomy k r text -> 0 <= k -> r_err _ r = None -> cdata _ r = [] ->
  exists r1 r2, fill RS rd r k = Ok r1 /\ convert grow RS r1 = Ok r2 /\ roomy 0 r2 text /\
    (r_err _ r2 = None -> cdata _ r2 <> []).
Proof.
  intros (Hok & Hc & Hr) Hk He Hcd. rewrite He in Hr. destruct Hr as (rs & Hd & -> & Hroom).
  assert (slen (r_rdata _ r) = 0) as Hlen0 by (apply contents_nil_len; [apply Hok|exact Hc]).
  pose proof Hok as (Hs & Hrd & Hb). unfold fill. rewrite Hlen0. change (0 + k) with k.
  destruct (ensureCap_spec (r_rdata _ r) k Hrd) as (b & Eb & Hb' & Hcont & Hl & Hcapb & Hle & _).
  rewrite Eb. cbn [bind]. rewrite Hl, Hlen0, Z.sub_0_r.
  assert (2 <= scap b) as H2.
  { destruct (Z_le_dec k (scap (r_rdata _ r))) as [H|H]; [rewrite (Hle H); lia|lia]. }
  inversion Hd as [s0 b0 e0 D1 D2 D3]; subst.
  destruct (rd (r_src _ r) (scap b)) as [[chunk err] s'] eqn:Erd.
  assert (zlen chunk <= scap b /\ exists cs, decodes chunk cs) as (Hch & cs & Hcs).
  { destruct err as [e'|].
    - destruct (D1 _ _ _ _ H2 Erd) as (_ & H & H'). eauto.
    - destruct (D2 _ _ _ H2 Erd) as (_ & H & r1 & r2 & H' & _). eauto. }
  pose proof (zlen_nonneg chunk) as Hn.
  change (0 + zlen chunk) with (zlen chunk).
  destruct (Z.gtb_spec (zlen chunk) (scap b)) as [Hx|_]; [lia|].
  assert (zlen (zwrite (arr b) 0 chunk) = scap b) as Lw by (rewrite zlen_zwrite; unfold scap in *; lia).
  rewrite reslice_spec by (unfold scap in *; cbn [arr]; lia). cbn [bind arr].
  set (r1 := mkReader _ _ _ _ _ _ _).
  assert (contents (r_rdata _ r1) = chunk) as Ec1.
  { subst r1. cbn [r_rdata]. unfold contents. cbn [arr slen].
    change (zlen chunk) with (0 + zlen chunk). rewrite ztake_zwrite by (unfold scap in *; lia). rewrite ztake_0. reflexivity. }
  assert (reader_ok _ r1) as Hok1.
  { subst r1. unfold reader_ok. cbn [r_scratch r_rdata r_cdata_lo r_cdata_hi]. unfold slice_ok in *. unfold scap in *. cbn [arr slen].
    rewrite Lw. repeat split; lia. }
  assert (decodes (contents (r_rdata _ r1)) cs) as Hdc by (rewrite Ec1; exact Hcs).
  destruct (convert_complete grow RS r1 cs Hok1 Hdc) as (r2 & E2 & Hok2 & Es2 & Ee2 & Ecd & Ec2 & _ & _ & Hcap2).
  exists r1, r2. split; [reflexivity|]. split; [exact E2|].
  assert (scap (r_rdata _ r2) = scap b) as Hcap by (rewrite Hcap2; subst r1; unfold scap; cbn [r_rdata arr]; exact Lw).
  destruct err as [e'|].
  - destruct (D1 _ _ _ _ H2 Erd) as (-> & _ & Hrs).
    assert (cs = rs) as -> by exact (decodes_fun _ _ Hcs _ Hrs).
    assert (r_err _ r2 = Some e) as Ee by (rewrite Ee2; reflexivity).
    split; [|rewrite Ee; discriminate]. split; [exact Hok2|]. split; [exact Ec2|]. rewrite Ee.
    split; [reflexivity|]. rewrite Hcd, Ecd. reflexivity.
  - destruct (D2 _ _ _ H2 Erd) as (Hne & _ & (c1 & rq & H1 & ->)).
    assert (c1 = cs) as -> by exact (decodes_fun _ _ H1 _ Hcs).
    pose proof (D3 _ _ _ _ _ H2 Erd Hcs eq_refl) as Hd'.
    assert (r_err _ r2 = None) as Ee.
    { rewrite Ee2. subst r1. cbn [r_err]. destruct (Z.eqb_spec (zlen chunk) 0) as [Hz|Hz]; [|reflexivity].
      apply zlen_0 in Hz. congruence. }
    assert (cs <> []) as Hcs' by (intros ->; inversion Hcs; congruence).
    split.
    + split; [exact Hok2|]. split; [exact Ec2|]. rewrite Ee. exists rq. rewrite Es2. split; [exact Hd'|].
      split; [rewrite Hcd, Ecd, utf8_app; reflexivity|]. lia.
    + intros _. rewrite Ecd. destruct cs as [|x cs]; [congruence|]. rewrite utf8_cons. intros En.
      apply app_eq_nil in En as [En _]. revert En. apply utf8_char_nonempty.
Qed.

Lemma read_roomy fuel r k text : (roomy 0 r text \/ roomy k r text /\ cdata _ r = [] /\ r_err _ r = None) -> 0 <= k -> (2 <= fuel)%nat ->
  exists p err r' text', Read grow RS rd fuel r k = Ok (p, err, r') /\ text = p ++ text' /\ roomy 0 r' text' /\
    match err with Some e' => e' = e /\ text = [] | None => 0 < k -> p <> [] end.
Proof.
  intros Hst Hk Hf. destruct fuel as [|[|fuel]]; try lia.
  assert (forall f q, roomy 0 q text -> (cdata _ q <> [] \/ r_err _ q <> None) -> exists p err r' text',
    Read grow RS rd (S f) q k = Ok (p, err, r') /\ text = p ++ text' /\ roomy 0 r' text' /\
    match err with Some e' => e' = e /\ text = [] | None => 0 < k -> p <> [] end) as Hdone.
  { intros f q Hq Hor. pose proof Hq as (Hok & Hc & Hx).
    pose proof (cdata_len _ q Hok) as Hcl. cbn [Read].
    destruct (Z.gtb_spec (r_cdata_hi _ q - r_cdata_lo _ q) 0) as [Hd|Hd].
    - set (m := Z.min k (r_cdata_hi _ q - r_cdata_lo _ q)).
      set (q' := mkReader _ _ _ _ _ _ _).
      assert (reader_ok _ q') as Hok'.
      { destruct Hok as (H1 & H2 & H3). subst q'. unfold reader_ok. cbn [r_scratch r_rdata r_cdata_lo r_cdata_hi].
        split; [exact H1|]. split; [exact H2|]. lia. }
      assert (cdata _ q' = zdrop m (cdata _ q)) as Ec'.
      { subst q'. unfold cdata. cbn [r_scratch r_cdata_lo r_cdata_hi]. destruct Hok as (H1 & H2 & H3).
        rewrite zdrop_zdrop by lia. f_equal. lia. }
      assert (exists tl, text = cdata _ q ++ tl /\ roomy 0 q' (zdrop m (cdata _ q) ++ tl)) as (tl & Et & Hq').
      { destruct (r_err _ q) as [e'|] eqn:Ee.
        - destruct Hx as (-> & ->). exists []. rewrite !app_nil_r. split; [reflexivity|].
          split; [exact Hok'|]. split; [exact Hc|]. subst q'. cbn [r_err]. rewrite ?Ee. auto.
        - destruct Hx as (rs & H1 & -> & H4). exists (utf8 rs). split; [reflexivity|].
          split; [exact Hok'|]. split; [exact Hc|]. subst q'. cbn [r_err]. rewrite ?Ee. exists rs.
          rewrite Ec'. auto. }
      eexists _, _, _, _. split; [reflexivity|]. split; [|split; [exact Hq'|]].
      + rewrite app_assoc, ztake_zdrop. exact Et.
      + intros Hk' E. apply (f_equal zlen) in E. rewrite zlen_ztake, zlen_nil in E by lia. lia.
    - destruct (r_err _ q) as [e'|] eqn:Ee.
      + rewrite (contents_nil_len (r_rdata _ q)) by (try exact Hc; apply Hok). cbn [Z.eqb].
        destruct Hx as (-> & Et).
        assert (cdata _ q = []) as E0 by (apply zlen_0; pose proof (zlen_nonneg (cdata _ q)); lia).
        exists [], (Some e), q, text. split; [reflexivity|]. split; [reflexivity|]. split; [exact Hq|].
        split; [reflexivity|congruence].
      + destruct Hor as [Hor|Hor]; [|congruence]. exfalso. apply Hor, zlen_0.
        pose proof (zlen_nonneg (cdata _ q)). lia. }
  assert (reader_ok _ r) as Hok by (destruct Hst as [H|[H _]]; apply H).
  assert ((roomy 0 r text /\ (cdata _ r <> [] \/ r_err _ r <> None)) \/
          (roomy k r text /\ cdata _ r = [] /\ r_err _ r = None)) as [[Hr Hor]|(Hr & Ec & Ee)].
  { destruct Hst as [H|H]; [|right; exact H].
    destruct (list_eq_dec Z.eq_dec (cdata _ r) []) as [Ec|Ec]; [|left; auto].
    destruct (r_err _ r) as [e'|] eqn:Ee; [left; split; [exact H|right; discriminate]|right].
    split; [|auto]. destruct H as (H1 & H2 & H3). split; [exact H1|]. split; [exact H2|]. rewrite Ee in *.
    destruct H3 as (rs & H4 & H5 & H6). exists rs. repeat (split; [assumption|]). lia. }
  - apply Hdone; assumption.
  - destruct (fill_roomy r k text Hr Hk Ee Ec) as (r1 & r2 & E1 & E2 & Hr2 & Hne).
    remember (S fuel) as f eqn:Ef. cbn [Read]. rewrite (cdata_nil _ r Hok Ec), Ee. cbn [Z.gtb Z.compare].
    rewrite E1. cbn [bind]. rewrite E2. cbn [bind]. subst f. apply Hdone; [exact Hr2|].
    destruct (r_err _ r2); [right; discriminate|left; auto].
Qed.

Definition positive (sizes : list Z) : list Z := filter (fun k => 0 <? k) sizes.

Lemma read_seq_roomy fuel sizes : (2 <= fuel)%nat -> Forall (fun k => 0 <= k) sizes -> forall r text, roomy 0 r text ->
  exists out err r' rest, read_seq grow RS rd fuel r sizes = Ok (out, err, r') /\ text = out ++ rest /\
    match err with Some e' => e' = e /\ rest = [] | None => zlen (positive sizes) <= zlen out end.
Proof.
  intros Hf. induction 1 as [|k sizes Hk H IH]; intros r text Hr; cbn [read_seq].
  - exists [], None, r, text. repeat split. cbn. lia.
  - destruct (read_roomy fuel r k text (or_introl Hr) Hk Hf) as (p & err & r1 & t1 & -> & -> & Hr1 & Hx). cbn [bind].
    destruct err as [e'|].
    + destruct Hx as (-> & Hn). apply app_eq_nil in Hn as (-> & ->). exists [], (Some e), r1, []. auto.
    + destruct (IH r1 t1 Hr1) as (out & err & r2 & rest & -> & -> & Hy). cbn [bind].
      exists (p ++ out), err, r2, rest. split; [reflexivity|]. split; [rewrite app_assoc; reflexivity|].
      destruct err as [e'|]; [exact Hy|]. unfold positive in *. cbn [filter]. rewrite zlen_app.
      pose proof (zlen_nonneg p). destruct (Z.ltb_spec 0 k) as [Hk'|Hk']; [|lia].
      rewrite zlen_cons. specialize (Hx Hk'). destruct p as [|x p]; [congruence|]. rewrite zlen_cons in *.
      pose proof (zlen_nonneg p). lia.
Qed.

Lemma C50_after_lemma s rs fuel k sizes : delivers_chars rd s rs e ->
  2 <= k -> Forall (fun k => 0 <= k) sizes -> (2 <= fuel)%nat ->
  exists out err r' rest, read_seq grow RS rd fuel (NewReader s) (k :: sizes) = Ok (out, err, r') /\ utf8 rs = out ++ rest /\
    match err with Some e' => e' = e /\ rest = [] | None => zlen (positive sizes) < zlen out end.
Proof.
  intros Hd Hk Hs Hf.
  assert (roomy k (NewReader s) (utf8 rs)) as Hr.
  { split; [unfold reader_ok, NewReader; cbn; unfold slice_ok, scap; cbn; lia|]. split; [reflexivity|].
    cbn [r_err NewReader]. exists rs. split; [exact Hd|]. split; [reflexivity|lia]. }
  destruct (read_roomy fuel (NewReader s) k (utf8 rs)) as (p & err & r1 & t1 & E & Et & Hr1 & Hx);
    [right; auto|lia|exact Hf|].
  cbn [read_seq]. rewrite E. cbn [bind]. rewrite Et in *. destruct err as [e'|].
  - destruct Hx as (-> & Hn). apply app_eq_nil in Hn as (-> & ->). exists [], (Some e), r1, []. auto.
  - destruct (read_seq_roomy fuel sizes Hf Hs r1 t1 Hr1) as (out & err & r2 & rest & -> & -> & Hy). cbn [bind].
    exists (p ++ out), err, r2, rest. split; [reflexivity|]. split; [rewrite app_assoc; reflexivity|].
    destruct err as [e'|]; [exact Hy|]. specialize (Hx ltac:(lia)). rewrite zlen_app.
    destruct p as [|x p]; [congruence|]. rewrite zlen_cons. pose proof (zlen_nonneg p). lia.
Qed.
End Empty.

Lemma C50_later_refuted_lemma : exists stream text, From (fun old need => Z.max need (2 * old)) stream = Ok (inl text) /\
  delivers bytes_rd stream stream EOF /\
  (exists r, read_seq (fun old need => Z.max need (2 * old)) (list Z) bytes_rd 9 (NewReader stream) [2; 16; 16] = Ok (text, Some EOF, r)) /\
  (exists r, read_seq (fun old need => Z.max need (2 * old)) (list Z) bytes_rd 9 (NewReader stream) [2; 0; 16; 16] = Ok ([0x41; 0x42], Some EOF, r)).
Proof.
  exists [0x41; 0x42; 0x43; 0xB0; 0xA1; 0x44], (utf8 [0x41; 0x42; 0x43; 0xAC00; 0x44]).
  split; [vm_compute; reflexivity|]. split; [apply bytes_rd_delivers|].
  split; eexists; vm_compute; reflexivity.
Qed.

Lemma syllables_deliver n : delivers_chars syllables n (repeat 0xAC00 n) EOF.
Proof.
  induction n as [|n IH].
  - constructor; intros k chunk; cbn [syllables].
    + intros e' s' Hk E. injection E as <- <- _. split; [reflexivity|]. split; [cbn; lia|constructor].
    + discriminate.
    + discriminate.
  - constructor; intros k chunk; cbn [syllables].
    + discriminate.
    + intros s' Hk E. injection E as <- _. split; [discriminate|]. split; [cbn; lia|].
      exists [0xAC00], (repeat 0xAC00 n). split; [exact (gas_decodes 1)|reflexivity].
    + intros s' r1 r2 Hk E Hd Er. injection E as <- <-.
      assert (r1 = [0xAC00]) as -> by (eapply decodes_fun; [exact Hd|exact (gas_decodes 1)]).
      cbn in Er. injection Er as <-. exact IH.
Qed.
