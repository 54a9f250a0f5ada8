(** The streaming Reader. *)
From Coq Require Import ZArith List Bool Lia.
From Coq Require Import ZifyBool.
From Verif Require Import Base Spec Facts Utf8 Utf8Facts SortSearch TableFrom TableTo SpecCp949
  SpecIO PMapFacts Cp949Model StreamModel SliceFacts TableFacts Cp949Facts Cp949Facts2.
Import ListNotations.
Local Open Scope Z_scope.
Local Opaque fromTable toTable dec_tree enc_tree.

Lemma zwrite_0 (l : list Z) : zwrite l 0 [] = l.
Proof. unfold zwrite. rewrite ztake_0. change (zlen (@nil Z)) with 0. cbn [app]. apply zdrop_0. Qed.

Section Reader.
Variable grow : Z -> Z -> Z.
Variable RS : Type.
Variable rd : RS -> Z -> list Z * option error * RS.
Notation reader := (reader RS).
Notation cdata := (cdata RS).

Definition reader_ok (r : reader) : Prop :=
  slice_ok (r_scratch _ r) /\ slice_ok (r_rdata _ r) /\
  0 <= r_cdata_lo _ r <= r_cdata_hi _ r /\ r_cdata_hi _ r <= scap (r_scratch _ r).

Lemma cdata_len r : reader_ok r -> zlen (cdata r) = r_cdata_hi _ r - r_cdata_lo _ r.
Proof.
  intros (_ & _ & H1 & H2). unfold cdata, scap in *.
  rewrite zlen_zdrop by lia. rewrite zlen_ztake by lia. lia.
Qed.

(** One read from the wrapped reader. *)
Lemma fill_spec r k : reader_ok r -> 0 <= k ->
  (forall sp, k <= sp -> scap (r_rdata _ r) - slen (r_rdata _ r) <= sp ->
     zlen (fst (fst (rd (r_src _ r) sp))) <= sp) ->
  exists sp chunk err s' r', k <= sp /\ scap (r_rdata _ r) - slen (r_rdata _ r) <= sp /\
    rd (r_src _ r) sp = (chunk, err, s') /\
    fill RS rd r k = Ok r' /\ reader_ok r' /\
    r_src _ r' = s' /\ cdata r' = cdata r /\
    r_cdata_lo _ r' = r_cdata_lo _ r /\ r_cdata_hi _ r' = r_cdata_hi _ r /\
    contents (r_rdata _ r') = contents (r_rdata _ r) ++ chunk /\
    r_err _ r' = match err with None => if zlen chunk =? 0 then Some EOF else None | Some e => Some e end.
Proof.
  intros (Hs & Hr & Hc) Hk Hrd. unfold fill.
  destruct (ensureCap_spec (r_rdata _ r) (slen (r_rdata _ r) + k) Hr)
    as (b & Eb & Hb & Hcont & Hl & Hcap & Hsame & _).
  rewrite Eb. cbn [bind].
  remember (scap b - slen b) as sp eqn:Esp. assert (k <= sp) as Hsp by lia.
  assert (scap (r_rdata _ r) - slen (r_rdata _ r) <= sp) as Hsp'.
  { destruct (Z_le_dec (slen (r_rdata _ r) + k) (scap (r_rdata _ r))) as [H|H].
    - rewrite (Hsame H) in Esp. lia.
    - lia. }
  pose proof (Hrd sp Hsp Hsp') as Hlen.
  destruct (rd (r_src _ r) sp) as [[chunk err] s'] eqn:Erd. cbn [fst] in Hlen.
  pose proof (zlen_nonneg chunk) as Hn0.
  destruct (Z.gtb_spec (slen b + zlen chunk) (scap b)) as [Hx|_]; [lia|].
  unfold slice_ok in Hb.
  assert (zlen (zwrite (arr b) (slen b) chunk) = zlen (arr b)) as Hw
    by (apply zlen_zwrite; unfold scap in *; lia).
  rewrite reslice_spec by (unfold scap in *; cbn [arr]; lia).
  cbn [bind arr]. exists sp, chunk, err, s'. eexists. split; [exact Hsp|]. split; [exact Hsp'|].
  split; [exact Erd|]. split; [reflexivity|]. unfold reader_ok, cdata.
  cbn [r_src r_scratch r_cdata_lo r_cdata_hi r_rdata r_err].
  split; [|split; [reflexivity|split; [reflexivity|split; [reflexivity|split; [reflexivity|split]]]]].
  - split; [exact Hs|]. split; [|exact Hc]. unfold slice_ok, scap in *. cbn [arr slen]. lia.
  - unfold contents at 1. cbn [arr slen].
    rewrite ztake_zwrite by (unfold scap in *; lia). rewrite <- Hcont. reflexivity.
  - reflexivity.
Qed.

Lemma convert_complete r rs : reader_ok r -> decodes (contents (r_rdata _ r)) rs ->
  exists r', convert grow RS r = Ok r' /\ reader_ok r' /\ r_src _ r' = r_src _ r /\
    r_err _ r' = r_err _ r /\ cdata r' = utf8 rs /\ contents (r_rdata _ r') = [] /\
    slen (r_rdata _ r') = 0 /\ r_cdata_lo _ r' = 0 /\ scap (r_rdata _ r') = scap (r_rdata _ r).
Proof.
  intros (Hs & Hr & Hc) H. unfold convert.
  destruct (from_Translate_complete grow (r_scratch _ r) _ rs Hs H) as (s' & Hs' & Hc' & ->).
  cbn [bind]. pose proof (contents_len _ Hr) as Hl. rewrite Hl.
  set (nc := match r_err RS r with Some _ => if slen (r_rdata RS r) =? 0 then slen (r_rdata RS r) else slen (r_rdata RS r) | None => slen (r_rdata RS r) end).
  assert (nc = slen (r_rdata _ r)) as -> by (unfold nc; destruct (r_err _ r); [destruct (_ =? 0)|]; reflexivity).
  destruct (Z.gtb_spec (slen (r_rdata _ r)) (slen (r_rdata _ r))) as [Hx|_]; [lia|].
  rewrite zdrop_all by lia. rewrite zwrite_0, zlen_nil.
  rewrite reslice_spec by (unfold slice_ok, scap in *; cbn [arr]; lia).
  cbn [bind arr]. eexists. split; [reflexivity|]. unfold reader_ok, cdata.
  cbn [r_src r_scratch r_cdata_lo r_cdata_hi r_rdata r_err].
  unfold slice_ok, scap in *. cbn [arr slen].
  repeat split; try lia.
  rewrite zdrop_0. exact Hc'.
Qed.

Lemma convert_cut r a : reader_ok r -> cut_after a (contents (r_rdata _ r)) ->
  exists r', convert grow RS r = Ok r' /\ reader_ok r' /\ r_src _ r' = r_src _ r /\
    r_err _ r' = r_err _ r /\ cdata r' = [] /\ r_cdata_lo _ r' = 0 /\ r_cdata_hi _ r' = 0 /\
    scap (r_rdata _ r') = scap (r_rdata _ r) /\
    contents (r_rdata _ r') =
      match r_err _ r with None => contents (r_rdata _ r) | Some _ => [] end.
Proof.
  intros (Hs & Hr & Hc) H. unfold convert.
  destruct (from_Translate_cut grow (r_scratch _ r) _ a Hs H) as (s' & Hs' & ->).
  cbn [bind]. pose proof (contents_len _ Hr) as Hl. cbn [Z.eqb].
  set (nc := match r_err RS r with Some _ => slen (r_rdata RS r) | None => 0 end).
  assert (0 <= nc <= slen (r_rdata _ r)) as Hnc by (unfold slice_ok in Hr; unfold nc; destruct (r_err _ r); lia).
  destruct (Z.gtb_spec nc (slen (r_rdata _ r))) as [Hx|_]; [lia|].
  assert (zlen (zdrop nc (contents (r_rdata _ r))) = slen (r_rdata _ r) - nc) as Hz
    by (rewrite zlen_zdrop by lia; lia).
  assert (zlen (zwrite (arr (r_rdata _ r)) 0 (zdrop nc (contents (r_rdata _ r)))) = zlen (arr (r_rdata _ r))) as Hw
    by (apply zlen_zwrite; unfold slice_ok, scap in Hr; lia).
  rewrite reslice_spec by (unfold slice_ok, scap in *; cbn [arr]; lia).
  cbn [bind arr]. eexists. split; [reflexivity|]. unfold reader_ok, cdata.
  cbn [r_src r_scratch r_cdata_lo r_cdata_hi r_rdata r_err].
  unfold slice_ok, scap in *. cbn [arr slen].
  repeat split; try lia.
  unfold contents at 1. cbn [arr slen].
  rewrite <- (Z.add_0_l (zlen (zdrop nc _))).
  rewrite ztake_zwrite by lia. rewrite ztake_0. cbn [app]. unfold nc.
  destruct (r_err _ r); [apply zdrop_all; lia|apply zdrop_0].
Qed.

(** The bytes the reader can still deliver are bounded by [rem]; when [cut] is false they
    are exactly [rem]. *)
Definition complete_part (cut : bool) (s : list Z) (rs : list Z) : Prop :=
  if cut then exists a, cut_after a s /\ decodes a rs else decodes s rs.

Definition inv (cut : bool) (e : error) (n : nat) (r : reader) (rem : list Z) : Prop :=
  reader_ok r /\
  match r_err _ r with
  | None => exists rest rs, delivers rd (r_src _ r) rest e /\ (length rest <= n)%nat /\
      complete_part cut (contents (r_rdata _ r) ++ rest) rs /\ rem = cdata r ++ utf8 rs
  | Some e' => e' = e /\
      ((exists rs, complete_part cut (contents (r_rdata _ r)) rs /\ rem = cdata r ++ utf8 rs) \/
       (contents (r_rdata _ r) = [] /\ rem = cdata r))
  end.

Definition below (cut : bool) (x y : list Z) : Prop := if cut then is_prefix x y else x = y.
Lemma below_refl cut x : below cut x x.
Proof. destruct cut; [exists []; rewrite app_nil_r; reflexivity|reflexivity]. Qed.
Lemma below_trans cut x y z : below cut x y -> below cut y z -> below cut x z.
Proof.
  destruct cut; cbn; [|congruence]. intros [p ->] [q ->]. exists (p ++ q). rewrite app_assoc. reflexivity.
Qed.
Lemma below_app cut p x y : below cut x y -> below cut (p ++ x) (p ++ y).
Proof. destruct cut; cbn; [|congruence]. intros [q ->]. exists q. rewrite app_assoc. reflexivity. Qed.

Lemma complete_part_bytes cut s rs : complete_part cut s rs -> Forall is_byte s.
Proof. destruct cut; [intros (a & H & _); eapply cut_bytes; exact H|apply decodes_bytes]. Qed.

Lemma complete_part_cons cut d ra s rs :
  decodes d ra -> complete_part cut (d ++ s) rs ->
  exists rs', complete_part cut s rs' /\ rs = ra ++ rs'.
Proof.
  intros Hd H. destruct cut.
  - destruct H as (a & (b & Hb & E & _) & Ha).
    destruct (exists_last (l := s)) as (s' & b' & ->).
    { intros ->. rewrite app_nil_r in E. subst d.
      destruct (decodes_app_inv _ _ Ha _ _ Hd) as (x & Hx & _). inversion Hx; lia. }
    rewrite app_assoc in E. apply app_inj_tail in E as [<- <-].
    destruct (decodes_app_inv _ _ Hd _ _ Ha) as (rs' & Hrs' & ->).
    exists rs'. split; [|reflexivity]. exists s'. split; [|exact Hrs'].
    exists b'. split; [exact Hb|]. split; [reflexivity|eauto].
  - destruct (decodes_app_inv _ _ Hd _ _ H) as (rs' & Hrs' & ->). exists rs'. auto.
Qed.

(** How the state passes from one Read to the next. *)
Definition step_ok (cut : bool) (e : error) (n : nat) (k : Z) (rem : list Z)
    (x : res (list Z * option error * reader)) : Prop :=
  exists p err r' rem', x = Ok (p, err, r') /\ zlen p <= k /\
    below cut (p ++ rem') rem /\ inv cut e n r' rem' /\
    match err with
    | None => p <> [] \/ k = 0
    | Some e' => e' = e /\ p = [] /\ rem' = [] /\ r_err _ r' = Some e
    end.

(** Pending converted data is handed out first. *)
Lemma read_pending cut e n r rem fuel k : inv cut e n r rem -> cdata r <> [] -> 0 <= k ->
  (0 < fuel)%nat -> step_ok cut e n k rem (Read grow RS rd fuel r k).
Proof.
  intros Hinv Hc Hk Hf. destruct fuel as [|fuel]; [lia|]. cbn [Read].
  assert (reader_ok r) as Hok by apply Hinv.
  pose proof (cdata_len r Hok) as Hl.
  assert (0 < zlen (cdata r)) as Hpos.
  { pose proof (zlen_nonneg (cdata r)). destruct (cdata r) as [|x l] eqn:E; [congruence|].
    rewrite zlen_cons. pose proof (zlen_nonneg l). lia. }
  destruct (Z.gtb_spec (r_cdata_hi _ r - r_cdata_lo _ r) 0) as [Hd|Hd]; [|lia].
  set (m := Z.min k (r_cdata_hi _ r - r_cdata_lo _ r)).
  assert (0 <= m <= zlen (cdata r)) as Hm by (unfold m; lia).
  set (r' := mkReader RS _ _ _ _ _ _).
  assert (cdata r' = zdrop m (cdata r)) as Ec.
  { unfold r', cdata. cbn [r_scratch r_cdata_lo r_cdata_hi]. destruct Hok as (_ & _ & Hlo & _).
    rewrite zdrop_zdrop by lia. f_equal. lia. }
  exists (ztake m (cdata r)), None, r', (zdrop m rem).
  destruct Hinv as (_ & Hinv).
  assert (exists tail, rem = cdata r ++ tail) as [tail Et].
  { destruct (r_err _ r).
    - destruct Hinv as (_ & [(rs & _ & ->)|(_ & ->)]); [eauto|exists []; rewrite app_nil_r; reflexivity].
    - destruct Hinv as (rest & rs & _ & _ & _ & ->). eauto. }
  assert (zdrop m rem = cdata r' ++ tail) as Er.
  { rewrite Et, Ec. apply zdrop_app_l. lia. }
  split; [reflexivity|]. split; [rewrite zlen_ztake by lia; unfold m; lia|]. split; [|split].
  - rewrite Er, Ec, app_assoc, ztake_zdrop, <- Et. apply below_refl.
  - split.
    + destruct Hok as (H1 & H2 & H3 & H4). unfold r', reader_ok.
      cbn [r_scratch r_cdata_lo r_cdata_hi r_rdata]. split; [exact H1|]. split; [exact H2|]. lia.
    + unfold r' at 1 2 3. cbn [r_err r_src r_rdata].
      destruct (r_err _ r).
      * destruct Hinv as (He & Hx). split; [exact He|].
        destruct Hx as [(rs & H1 & H2)|(H1 & H2)].
        -- left. exists rs. split; [exact H1|]. rewrite Er. f_equal.
           rewrite Et in H2. apply app_inv_head in H2. exact H2.
        -- right. split; [exact H1|]. rewrite Er. rewrite Et in H2.
           rewrite <- (app_nil_r (cdata r)) in H2 at 2. apply app_inv_head in H2. subst tail.
           apply app_nil_r.
      * destruct Hinv as (rest & rs & H1 & H2 & H3 & H4). exists rest, rs.
        split; [exact H1|]. split; [exact H2|]. split; [exact H3|]. rewrite Er. f_equal.
        rewrite Et in H4. apply app_inv_head in H4. exact H4.
  - destruct (Z.eq_dec k 0); [right; lia|left]. intros E.
    assert (zlen (ztake m (cdata r)) = 0) as E0 by (rewrite E; reflexivity).
    rewrite zlen_ztake in E0 by lia. unfold m in *. lia.
Qed.

Lemma cdata_nil r : reader_ok r -> cdata r = [] -> r_cdata_hi _ r - r_cdata_lo _ r = 0.
Proof. intros H E. rewrite <- (cdata_len r H), E. reflexivity. Qed.

Lemma contents_nil_len s : slice_ok s -> contents s = [] -> slen s = 0.
Proof. intros H E. rewrite <- (contents_len s H), E. reflexivity. Qed.

(** The reader has seen the final error: a conversion, at most, is left. *)
Lemma read_final cut e n r rem fuel k : inv cut e n r rem -> r_err _ r <> None -> 0 <= k ->
  (2 < fuel)%nat -> step_ok cut e n k rem (Read grow RS rd fuel r k).
Proof.
  intros Hinv He Hk Hf. destruct (list_eq_dec Z.eq_dec (cdata r) []) as [Ec|Ec];
    [|apply read_pending; try assumption; lia].
  destruct fuel as [|fuel]; [lia|]. cbn [Read].
  assert (reader_ok r) as Hok by apply Hinv. rewrite (cdata_nil r Hok Ec). cbn [Z.gtb Z.compare].
  destruct (r_err _ r) as [e'|] eqn:Ee; [|congruence].
  pose proof Hinv as (_ & Hinv'). rewrite Ee in Hinv'. destruct Hinv' as (-> & Hx).
  destruct (Z.eqb_spec (slen (r_rdata _ r)) 0) as [E0|E0].
  - exists [], (Some e), r, []. split; [reflexivity|]. split; [cbn; lia|].
    assert (contents (r_rdata _ r) = []) as En by (unfold contents; rewrite E0; apply ztake_0).
    assert (rem = [] \/ cut = true) as Hrem.
    { destruct Hx as [(rs & H1 & ->)|(_ & ->)]; [|left; exact Ec].
      destruct cut; [right; reflexivity|left]. rewrite En in H1. inversion H1. rewrite Ec. reflexivity. }
    split.
    { destruct Hrem as [->| ->]; [apply below_refl|]. exists rem. reflexivity. }
    split; [|auto]. split; [exact Hok|]. rewrite Ee. split; [reflexivity|]. right. auto.
  - destruct Hx as [(rs & H1 & Erem)|(En & _)]; [|apply contents_nil_len in En; [lia|apply Hok]].
    rewrite Ec in Erem. cbn [app] in Erem. destruct cut.
    + destruct H1 as (a & Ha & Hd).
      destruct (convert_cut r a Hok Ha) as (r' & -> & Hok' & _ & Ee' & Ec' & _ & _ & _ & Er').
      rewrite Ee in Ee', Er'. cbn [bind].
      destruct fuel as [|fuel]; [lia|]. cbn [Read]. rewrite (cdata_nil r' Hok' Ec'), Ee'.
      cbn [Z.gtb Z.compare].
      rewrite (contents_nil_len (r_rdata _ r')) by (try exact Er'; apply Hok'). cbn [Z.eqb].
      exists [], (Some e), r', []. split; [reflexivity|]. split; [cbn; lia|].
      split; [exists rem; reflexivity|]. split; [|auto].
      split; [exact Hok'|]. rewrite Ee'. split; [reflexivity|]. right. auto.
    + destruct (convert_complete r rs Hok H1) as (r' & -> & Hok' & _ & Ee' & Ec' & Er' & El' & _).
      rewrite Ee in Ee'. cbn [bind].
      assert (inv false e n r' rem) as Hinv''.
      { split; [exact Hok'|]. rewrite Ee'. split; [reflexivity|]. right. split; [exact Er'|].
        rewrite Ec'. exact Erem. }
      destruct (list_eq_dec Z.eq_dec (cdata r') []) as [En|En];
        [|apply read_pending; try assumption; lia].
      destruct fuel as [|fuel]; [lia|]. cbn [Read]. rewrite (cdata_nil r' Hok' En), Ee', El'.
      cbn [Z.gtb Z.compare Z.eqb].
      exists [], (Some e), r', rem. split; [reflexivity|]. split; [cbn; lia|].
      split; [apply below_refl|]. split; [exact Hinv''|].
      rewrite Erem, <- Ec', En. auto.
Qed.

(** One call of Read on a non-empty buffer. *)
Lemma read_step cut e k : 0 < k -> forall n r rem fuel, inv cut e n r rem ->
  (n + 4 <= fuel)%nat -> step_ok cut e n k rem (Read grow RS rd fuel r k).
Proof.
  intros Hk. induction n as [n IH] using lt_wf_ind. intros r rem fuel Hinv Hf.
  destruct (list_eq_dec Z.eq_dec (cdata r) []) as [Ec|Ec];
    [|apply read_pending; try assumption; lia].
  destruct (r_err _ r) as [e'|] eqn:Ee; [apply read_final; try assumption; [congruence|lia|lia]|].
  destruct fuel as [|fuel]; [lia|]. cbn [Read].
  pose proof Hinv as (Hok & Hinv'). rewrite (cdata_nil r Hok Ec), Ee in *. cbn [Z.gtb Z.compare].
  destruct Hinv' as (rest & rs & Hdel & Hn & Hpart & Hrem). rewrite Ec in Hrem. cbn [app] in Hrem.
  inversion Hdel as [s0 bytes e0 D1 D2 D3]; subst s0 bytes e0.
  destruct (fill_spec r k Hok) as (sp & chunk & err & s' & r1 & Hsp & _ & Erd & -> & Hok1 & Es1 & Ec1 & _ & _ & Er1 & Ee1).
  { lia. }
  { intros sp Hsp _. destruct (rd (r_src _ r) sp) as [[chunk err] s'] eqn:Erd. cbn [fst].
    destruct err as [e'|]; [apply (D1 sp chunk e' s')|apply (D2 sp chunk s')]; (lia || exact Erd). }
  cbn [bind]. rewrite Ec in Ec1.
  destruct err as [e'|].
  - destruct (D1 sp chunk e' s') as (-> & -> & Hlen); [lia|exact Erd|].
    assert (inv cut e n r1 rem) as Hinv1.
    { split; [exact Hok1|]. rewrite Ee1. split; [reflexivity|]. left. exists rs.
      rewrite Er1, Ec1. auto. }
    destruct cut.
    + destruct Hpart as (a & Ha & Hd). rewrite <- Er1 in Ha.
      destruct (convert_cut r1 a Hok1 Ha) as (r2 & -> & Hok2 & _ & Ee2 & Ec2 & _ & _ & _ & Er2).
      rewrite Ee1 in Ee2, Er2. cbn [bind].
      assert (inv true e n r2 []) as Hinv2.
      { split; [exact Hok2|]. rewrite Ee2. split; [reflexivity|]. right. auto. }
      destruct (read_final true e n r2 [] fuel k Hinv2) as (p & er & r' & rem' & H1 & H2 & H3 & H4 & H5);
        [congruence|lia|lia|].
      exists p, er, r', rem'. split; [exact H1|]. split; [exact H2|].
      split; [eapply below_trans; [exact H3|exists rem; reflexivity]|]. split; [exact H4|exact H5].
    + rewrite <- Er1 in Hpart.
      destruct (convert_complete r1 rs Hok1 Hpart) as (r2 & -> & Hok2 & _ & Ee2 & Ec2 & Er2 & El2 & _).
      rewrite Ee1 in Ee2. cbn [bind]. apply read_final; [|congruence|lia|lia].
      split; [exact Hok2|]. rewrite Ee2. split; [reflexivity|]. right. split; [exact Er2|congruence].
  - destruct (D2 sp chunk s') as (Hne & Hlen & [q Eq]); [lia|exact Erd|].
    assert (0 < zlen chunk) as Hpos.
    { destruct chunk as [|x l]; [congruence|]. rewrite zlen_cons. pose proof (zlen_nonneg l). lia. }
    specialize (D3 sp chunk s' ltac:(lia) Erd).
    rewrite Eq, zdrop_app_exact in D3 by reflexivity.
    destruct (Z.eqb_spec (zlen chunk) 0) as [|_]; [lia|].
    assert (length q < n)%nat as Hq.
    { rewrite Eq, app_length in Hn. unfold zlen in Hpos. lia. }
    rewrite Eq, app_assoc, <- Er1 in Hpart.
    assert (Forall is_byte (contents (r_rdata _ r1))) as Hby.
    { apply complete_part_bytes in Hpart. apply Forall_app in Hpart. tauto. }
    assert (forall r2 rem2, inv cut e (length q) r2 rem2 -> below cut rem2 rem ->
              step_ok cut e n k rem (Read grow RS rd fuel r2 k)) as Hgo.
    { intros r2 rem2 Hi Hb.
      destruct (IH (length q) Hq r2 rem2 fuel Hi) as (p & er & r' & rem' & H1 & H2 & H3 & H4 & H5); [lia|].
      exists p, er, r', rem'. split; [exact H1|]. split; [exact H2|].
      split; [eapply below_trans; [exact H3|exact Hb]|]. split; [|exact H5].
      destruct H4 as (H4a & H4b). split; [exact H4a|]. destruct (r_err _ r'); [exact H4b|].
      destruct H4b as (x & y & Hx1 & Hx2 & Hx3). exists x, y. split; [exact Hx1|]. split; [lia|exact Hx3]. }
    destruct (decodes_or_cut _ Hby) as [(ra & Hra)|(a & Ha)].
    + destruct (convert_complete r1 ra Hok1 Hra) as (r2 & -> & Hok2 & Es2 & Ee2 & Ec2 & Er2 & El2 & _).
      rewrite Ee1 in Ee2. cbn [bind].
      destruct (complete_part_cons cut _ ra q rs Hra Hpart) as (rs' & Hrs' & ->).
      apply (Hgo r2 rem); [|apply below_refl].
      split; [exact Hok2|]. rewrite Ee2, Es2, Es1. exists q, rs'. rewrite Er2. cbn [app].
      rewrite Ec2, Hrem, utf8_app. auto.
    + destruct (convert_cut r1 a Hok1 Ha) as (r2 & -> & Hok2 & Es2 & Ee2 & Ec2 & _ & _ & _ & Er2).
      rewrite Ee1 in Ee2, Er2. cbn [bind].
      apply (Hgo r2 rem); [|apply below_refl].
      split; [exact Hok2|]. rewrite Ee2, Es2, Es1. exists q, rs. rewrite Er2, Ec2. auto.
Qed.
End Reader.
