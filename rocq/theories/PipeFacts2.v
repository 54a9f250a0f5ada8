(** Read-ahead and scratch space: lemmas behind C83 and C84. *)
From Coq Require Import ZArith List Bool Lia.
From Coq Require Import ZifyBool.
From Verif Require Import Base Spec Facts Utf8 Utf8Facts SortSearch TableFrom TableTo SpecCp949
  SpecIO PMapFacts Cp949Model StreamModel IoModel StreamModel2 SliceFacts TableFacts Cp949Facts Cp949Facts2
  StreamFacts StreamFacts2 StreamFacts3 TransformFacts3.
Import ListNotations.
Local Open Scope Z_scope.
Local Opaque fromTable toTable dec_tree enc_tree.

(** ** C84 *)
Section Scribble.
Variable grow : Z -> Z -> Z.
Variable RS : Type.
Variable rd : RS -> Z -> list Z * option error * RS.
Variable junk : RS -> Z -> list Z.

Definition same_slice (s t : slice) : Prop :=
  slice_ok s /\ slice_ok t /\ contents s = contents t /\ slen s = slen t /\ scap s = scap t.
Definition same (r q : reader RS) : Prop :=
  r_src _ r = r_src _ q /\ r_scratch _ r = r_scratch _ q /\ r_cdata_lo _ r = r_cdata_lo _ q /\
  r_cdata_hi _ r = r_cdata_hi _ q /\ r_err _ r = r_err _ q /\ same_slice (r_rdata _ r) (r_rdata _ q).
Definition same_res {A} (R : A -> A -> Prop) (x y : res A) : Prop :=
  match x, y with
  | Ok a, Ok b => R a b
  | Panic, Panic => True
  | Fuel, Fuel => True
  | _, _ => False
  end.

Lemma ensureCap_same s t n : same_slice s t -> same_res same_slice (ensureCap s n) (ensureCap t n).
Proof.
  intros (Hs & Ht & Hc & Hl & Hcap). pose proof (contents_len _ Hs) as Hcl. unfold ensureCap. rewrite <- Hcap.
  destruct (Z.leb_spec n (scap s)) as [Hle|Hgt]; [cbn; repeat split; try assumption; apply Hs || apply Ht|].
  destruct (if scap s =? 0 then Ok n else grow_loop (Z.to_nat n) (scap s) n) as [m| |] eqn:Em; cbn [bind same_res]; try exact I.
  rewrite <- Hc, <- Hl. cbn [slen arr].
  assert (n <= m) as Hm.
  { destruct (Z.eqb_spec (scap s) 0) as [E|E]; [injection Em as <-; lia|].
    destruct Hs as [H1 H2]. destruct (grow_loop_spec (Z.to_nat n) (scap s) n) as (m' & Em' & Hm'); [lia..|].
    rewrite Em in Em'. injection Em' as <-. lia. }
  destruct Hs as [Hs1 Hs2].
  assert (slice_ok (mkSlice (zwrite (zeros m) 0 (contents s)) (slen s))) as Hok.
  { unfold slice_ok, scap in *. cbn [arr slen]. rewrite zlen_zwrite; rewrite ?zlen_zeros; lia. }
  repeat split; apply Hok.
Qed.

Lemma fill_same r q k : same r q -> same_res same (fill2 RS rd junk r k) (fill RS rd q k).
Proof.
  intros (Es & Esc & Elo & Ehi & Ee & Hsl). unfold fill2, fill.
  assert (slen (r_rdata _ r) = slen (r_rdata _ q)) as El by apply Hsl. rewrite El, Es.
  pose proof (ensureCap_same _ _ (slen (r_rdata _ q) + k) Hsl) as He.
  destruct (ensureCap (r_rdata _ r) _) as [b| |], (ensureCap (r_rdata _ q) _) as [c| |]; cbn in He;
    try contradiction; cbn [bind same_res]; try exact I.
  destruct He as (Hb & Hc & Hcont & Hl & Hcap). rewrite Hl, Hcap.
  destruct (rd (r_src _ q) (scap c - slen c)) as [[bs err] s']. set (j := junk _ _).
  destruct (Z.gtb_spec (slen c + zlen bs) (scap c)) as [Hx|Hx]; [exact I|].
  pose proof (zlen_nonneg bs) as Hn. unfold slice_ok in *.
  assert (zlen (ztake (scap c - slen c) (bs ++ j)) <= scap c - slen c) as Hj.
  { unfold zlen, ztake. rewrite firstn_length. lia. }
  assert (exists j', ztake (scap c - slen c) (bs ++ j) = bs ++ j') as [j' Ej].
  { exists (ztake (scap c - slen c - zlen bs) j). rewrite ztake_app_r by lia. reflexivity. }
  rewrite Ej in *. rewrite zlen_app in Hj. pose proof (zlen_nonneg j') as Hj0.
  assert (zlen (zwrite (arr b) (slen c) (bs ++ j')) = scap c) as L1.
  { rewrite zlen_zwrite; [exact Hcap|lia|rewrite zlen_app; unfold scap in *; lia]. }
  assert (zlen (zwrite (arr c) (slen c) bs) = scap c) as L2.
  { rewrite zlen_zwrite; unfold scap in *; lia. }
  rewrite !reslice_spec by (unfold scap; cbn [arr]; unfold scap in *; lia). cbn [bind arr same_res].
  unfold same. cbn [r_src r_scratch r_cdata_lo r_cdata_hi r_rdata r_err].
  repeat (split; [solve [auto]|]). unfold same_slice, slice_ok, scap. cbn [arr slen].
  rewrite L1, L2. repeat (split; [lia|]). split; [|auto]. unfold contents. cbn [arr slen].
  rewrite (ztake_zwrite (arr c)) by (unfold scap in *; lia).
  unfold zwrite. rewrite <- app_assoc, app_assoc. rewrite ztake_app_exact.
  - f_equal. unfold contents in Hcont. rewrite Hl in Hcont. exact Hcont.
  - unfold scap in *. rewrite zlen_app, zlen_ztake by lia. lia.
Qed.

Lemma convert_same r q : same r q -> same_res same (convert grow RS r) (convert grow RS q).
Proof.
  intros (Es & Esc & Elo & Ehi & Ee & Hs & Ht & Hc & Hl & Hcap). unfold convert. rewrite Esc, Hc, Hl, Ee, Es.
  destruct (from_Translate grow fromTable (r_scratch _ q) (contents (r_rdata _ q))) as [[[[nc cd] o] sc]| |];
    cbn [bind same_res]; try exact I.
  set (n := match r_err RS q with Some _ => _ | None => _ end).
  destruct (Z.gtb_spec n (slen (r_rdata _ q))) as [Hx|Hx]; [exact I|].
  set (rest := zdrop n (contents (r_rdata _ q))).
  assert (zlen rest <= slen (r_rdata _ q)) as Hr.
  { rewrite <- (contents_len _ Ht). unfold rest, zlen, zdrop. rewrite skipn_length. lia. }
  pose proof (zlen_nonneg rest) as Hr0. unfold slice_ok, scap in *.
  assert (zlen (zwrite (arr (r_rdata _ r)) 0 rest) = zlen (arr (r_rdata _ q))) as L1 by (rewrite zlen_zwrite; lia).
  assert (zlen (zwrite (arr (r_rdata _ q)) 0 rest) = zlen (arr (r_rdata _ q))) as L2 by (rewrite zlen_zwrite; lia).
  rewrite !reslice_spec by (unfold scap; cbn [arr]; lia). cbn [bind arr same_res].
  unfold same. cbn [r_src r_scratch r_cdata_lo r_cdata_hi r_rdata r_err].
  repeat (split; [solve [auto]|]). unfold same_slice, slice_ok, scap. cbn [arr slen].
  rewrite L1, L2. repeat (split; [lia|]). split; [|auto]. unfold contents. cbn [arr slen].
  change (zlen rest) with (0 + zlen rest). rewrite !ztake_zwrite by lia. rewrite !ztake_0. reflexivity.
Qed.

Definition same_answer (x y : list Z * option error * reader RS) : Prop :=
  fst x = fst y /\ same (snd x) (snd y).

Lemma read_same fuel : forall r q k, same r q ->
  same_res same_answer (Read2 grow RS rd junk fuel r k) (Read grow RS rd fuel q k).
Proof.
  induction fuel as [|fuel IH]; intros r q k H; [exact I|]. cbn [Read2 Read].
  pose proof H as (Es & Esc & Elo & Ehi & Ee & Hsl).
  assert (slen (r_rdata _ r) = slen (r_rdata _ q)) as El by apply Hsl.
  rewrite Elo, Ehi, Ee, El. destruct (_ >? 0).
  - cbn [same_res]. split; cbn [fst snd].
    + unfold cdata. rewrite Elo, Ehi, Esc. reflexivity.
    + unfold same. cbn [r_src r_scratch r_cdata_lo r_cdata_hi r_rdata r_err]. repeat (split; [assumption||reflexivity|]). exact Hsl.
  - destruct (r_err _ q) as [e|] eqn:Eq.
    + destruct (_ =? 0); [cbn; split; [reflexivity|exact H]|].
      pose proof (convert_same r q H) as Hc.
      destruct (convert grow RS r) as [r1| |], (convert grow RS q) as [q1| |]; cbn in Hc; try contradiction;
        cbn [bind same_res]; try exact I. apply IH, Hc.
    + pose proof (fill_same r q k H) as Hf.
      destruct (fill2 RS rd junk r k) as [r1| |], (fill RS rd q k) as [q1| |]; cbn in Hf; try contradiction;
        cbn [bind same_res]; try exact I.
      pose proof (convert_same r1 q1 Hf) as Hc.
      destruct (convert grow RS r1) as [r2| |], (convert grow RS q1) as [q2| |]; cbn in Hc; try contradiction;
        cbn [bind same_res]; try exact I. apply IH, Hc.
Qed.

Lemma read_seq_same fuel sizes : forall r q, same r q ->
  same_res same_answer (read_seq2 grow RS rd junk fuel r sizes) (read_seq grow RS rd fuel q sizes).
Proof.
  induction sizes as [|k sizes IH]; intros r q H; cbn [read_seq2 read_seq]; [split; [reflexivity|exact H]|].
  pose proof (read_same fuel r q k H) as Hr.
  destruct (Read2 grow RS rd junk fuel r k) as [[[p e] r1]| |], (Read grow RS rd fuel q k) as [[[p' e'] q1]| |];
    cbn in Hr; try contradiction; cbn [bind same_res]; try exact I.
  destruct Hr as [E H1]. cbn [fst snd] in *. injection E as <- <-. destruct e as [e|]; [split; [reflexivity|exact H1]|].
  pose proof (IH r1 q1 H1) as Hs.
  destruct (read_seq2 grow RS rd junk fuel r1 sizes) as [[[p2 e2] r2]| |],
    (read_seq grow RS rd fuel q1 sizes) as [[[p3 e3] r3]| |]; cbn in Hs; try contradiction; cbn [bind same_res]; try exact I.
  destruct Hs as [E Hs]. cbn [fst snd] in E. injection E as <- <-. split; [reflexivity|exact Hs].
Qed.

Lemma C84_lemma fuel sizes s :
  outcome (read_seq2 grow RS rd junk fuel (NewReader s) sizes) =
  outcome (read_seq grow RS rd fuel (NewReader s) sizes).
Proof.
  assert (same (NewReader s) (NewReader s)) as H.
  { unfold same, same_slice, slice_ok, scap, NewReader. cbn. repeat split; lia. }
  pose proof (read_seq_same fuel sizes _ _ H) as Hs.
  destruct (read_seq2 grow RS rd junk fuel (NewReader s) sizes) as [[[p2 e2] r2]| |],
    (read_seq grow RS rd fuel (NewReader s) sizes) as [[[p3 e3] r3]| |]; cbn in Hs; try contradiction; try reflexivity.
  destruct Hs as [E _]. cbn [fst] in E. cbn. rewrite E. congruence.
Qed.
End Scribble.

(** ** C83 *)
Definition half_bytes (s : bool * nat) : list Z :=
  if fst s then zdrop 1 (gas (snd s)) else gas (snd s).
Lemma gas_S n : gas (S n) = [0xB0; 0xA1] ++ gas n.
Proof. reflexivity. Qed.

Lemma half_delivers_aux : forall n b, delivers half_rd (b, n) (half_bytes (b, n)) EOF.
Proof.
  assert (forall b, delivers half_rd (b, O) [] EOF) as H0.
  { intros b. constructor; intros k chunk.
    - intros e' s' Hk E. destruct b; injection E as <- <- <-; (split; [reflexivity|]; split; [reflexivity|cbn; lia]).
    - intros s' Hk E. destruct b; discriminate E.
    - intros s' Hk E. destruct b; discriminate E. }
  assert (forall n, delivers half_rd (false, n) (gas n) EOF -> delivers half_rd (true, S n) (0xA1 :: gas n) EOF ->
            delivers half_rd (true, S (S n)) (0xA1 :: gas (S n)) EOF) as Haux0.
  { intros n Hf Ht. constructor; intros k chunk.
    - intros e' s' Hk E. cbn in E. destruct (2 <=? k); discriminate E.
    - intros s' Hk E. cbn [half_rd] in E. destruct (Z.leb_spec 2 k); injection E as <- <-.
      + split; [discriminate|]. split; [cbn; lia|]. exists (0xA1 :: gas n). reflexivity.
      + split; [discriminate|]. split; [cbn; lia|]. exists (gas (S n)). reflexivity.
    - intros s' Hk E. cbn [half_rd] in E. destruct (Z.leb_spec 2 k); injection E as <- <-.
      + exact Ht.
      + constructor; intros k2 chunk2.
        * intros e' s' Hk2 E. discriminate E.
        * intros s' Hk2 E. injection E as <- <-. split; [discriminate|]. split; [cbn; lia|]. exists (0xA1 :: gas n). reflexivity.
        * intros s' Hk2 E. injection E as <- <-. exact Ht. }
  assert (forall n, delivers half_rd (true, S n) (0xA1 :: gas n) EOF ->
            delivers half_rd (false, S n) (gas (S n)) EOF) as Haux1.
  { intros n Ht. constructor; intros k chunk.
    - intros e' s' Hk E. discriminate E.
    - intros s' Hk E. injection E as <- <-. split; [discriminate|]. split; [cbn; lia|]. exists (0xA1 :: gas n). reflexivity.
    - intros s' Hk E. injection E as <- <-. exact Ht. }
  assert (forall n, delivers half_rd (true, S n) (0xA1 :: gas n) EOF) as Ht.
  { induction n as [|n IH].
    - constructor; intros k chunk.
      + intros e' s' Hk E. discriminate E.
      + intros s' Hk E. injection E as <- <-. split; [discriminate|]. split; [cbn; lia|]. exists []. reflexivity.
      + intros s' Hk E. injection E as <- <-. apply H0.
    - apply Haux0; [|exact IH]. destruct n as [|n]; [apply H0|]. apply Haux1.
      inversion IH as [s0 b0 e0 D1 D2 D3]; subst. apply (D3 2 [0xA1; 0xB0] (true, S n)); [lia|reflexivity]. }
  intros [|n] [|]; [apply H0|apply H0|exact (Ht n)|exact (Haux1 n (Ht n))].
Qed.

Section Half.
Variable grow : Z -> Z -> Z.
Variable k : Z.
Hypothesis Hk : 2 <= k.
Notation RS := ((bool * nat) * list (list Z))%type.
Notation rd := (logged half_rd).

Lemma half_fill r k' : reader_ok RS r -> 2 <= k' -> exists sp chunk err s' r1, 2 <= sp /\
  half_rd (fst (r_src _ r)) sp = (chunk, err, s') /\ fill RS rd r k' = Ok r1 /\ reader_ok RS r1 /\
  r_src _ r1 = (s', snd (r_src _ r) ++ [chunk]) /\ cdata _ r1 = cdata _ r /\
  contents (r_rdata _ r1) = contents (r_rdata _ r) ++ chunk /\
  r_err _ r1 = match err with None => if zlen chunk =? 0 then Some EOF else None | Some e => Some e end.
Proof.
  intros Hok Hk'. destruct (fill_spec RS rd r k' Hok) as
    (sp & chunk & err & s' & r1 & Hsp & _ & Erd & E1 & Hok1 & Es1 & Ec1 & _ & _ & Er1 & Ee1).
  { lia. }
  { intros sp Hsp _. unfold logged. destruct (r_src _ r) as [[b n] log]. cbn [fst].
    destruct n as [|[|n]], b; cbn [half_rd]; cbn; try lia.
    destruct (Z.leb_spec 2 sp); cbn; lia. }
  unfold logged in Erd. destruct (half_rd (fst (r_src _ r)) sp) as [[c e] s0] eqn:Eh.
  injection Erd as <- <- <-. exists sp, c, e, s0, r1. repeat (split; [lia||assumption|]). exact Ee1.
Qed.

Lemma half_run : forall m fuel r a rs log, reader_ok RS r -> cdata _ r = [] -> r_err _ r = None ->
  r_src _ r = ((true, S m), log) -> decodes a rs -> contents (r_rdata _ r) = a ++ [0xB0] ->
  concat log = a ++ [0xB0] -> (m + 2 <= fuel)%nat ->
  exists p r', Read grow RS rd fuel r k = Ok (p, None, r') /\ zlen p <= k /\
    concat (snd (r_src _ r')) = a ++ gas (S m) /\ zlen (utf8 rs) + 3 * Z.of_nat (S m) <= scap (r_scratch _ r').
Proof.
  induction m as [|m IH]; intros fuel r a rs log Hok Hc He Es Ha Econ Elog Hf; (destruct fuel as [|fuel]; [lia|]);
    cbn [Read]; rewrite (cdata_nil _ r Hok Hc), He; cbn [Z.gtb Z.compare];
    destruct (half_fill r k Hok Hk) as (sp & chunk & err & s' & r1 & Hsp & Erd & -> & Hok1 & Es1 & Ec1 & Er1 & Ee1);
    cbn [bind]; rewrite Es in Erd, Es1; cbn [fst snd half_rd] in Erd, Es1.
  - injection Erd as <- <- <-. cbn in Ee1.
    assert (decodes (contents (r_rdata _ r1)) (rs ++ [0xAC00])) as Hd.
    { rewrite Er1, Econ, <- app_assoc. apply decodes_app; [exact Ha|]. exact (gas_decodes 1). }
    destruct (convert_complete grow RS r1 _ Hok1 Hd) as (r2 & -> & Hok2 & Es2 & Ee2 & Ec2 & _). cbn [bind].
    destruct fuel as [|fuel]; [lia|]. cbn [Read]. pose proof (cdata_len _ r2 Hok2) as Hl.
    assert (0 < zlen (cdata _ r2)) as Hpos.
    { rewrite Ec2, utf8_app, zlen_app. pose proof (zlen_nonneg (utf8 rs)). change (zlen (utf8 [0xAC00])) with 3. lia. }
    destruct (Z.gtb_spec (r_cdata_hi _ r2 - r_cdata_lo _ r2) 0) as [_|Hx]; [|lia].
    eexists. eexists. split; [reflexivity|]. split; [rewrite zlen_ztake by lia; lia|]. cbn [r_src].
    rewrite Es2, Es1. cbn [snd]. rewrite concat_app, Elog, <- app_assoc. split; [reflexivity|]. cbn [r_scratch].
    rewrite Ec2, utf8_app, zlen_app in Hl. change (zlen (utf8 [0xAC00])) with 3 in Hl.
    destruct Hok2 as (Hs2 & _ & Hb2). unfold slice_ok in Hs2. lia.
  - destruct (Z.leb_spec 2 sp) as [_|Hx]; [|lia]. injection Erd as <- <- <-. cbn in Ee1.
    assert (decodes (a ++ [0xB0; 0xA1]) (rs ++ [0xAC00])) as Hd by (apply decodes_app; [exact Ha|exact (gas_decodes 1)]).
    assert (contents (r_rdata _ r1) = (a ++ [0xB0; 0xA1]) ++ [0xB0]) as Ec by (rewrite Er1, Econ, <- !app_assoc; reflexivity).
    assert (cut_after (a ++ [0xB0; 0xA1]) (contents (r_rdata _ r1))) as Hcut.
    { exists 0xB0. split; [lia|]. split; [exact Ec|eauto]. }
    destruct (convert_cut grow RS r1 _ Hok1 Hcut) as (r2 & -> & Hok2 & Es2 & Ee2 & Ec2 & _ & _ & _ & Er2).
    rewrite Ee1 in Ee2, Er2. cbn [bind].
    destruct (IH fuel r2 (a ++ [0xB0; 0xA1]) (rs ++ [0xAC00]) (log ++ [[0xA1; 0xB0]])) as (p & r' & E & Hp & El & Hcap);
      try assumption; try congruence; try lia.
    + rewrite concat_app, Elog, <- !app_assoc. reflexivity.
    + exists p, r'. split; [exact E|]. split; [exact Hp|]. split; [rewrite El, <- app_assoc; reflexivity|].
      rewrite utf8_app, zlen_app in Hcap. change (zlen (utf8 [0xAC00])) with 3 in Hcap. lia.
Qed.

Lemma half_all n fuel : (n + 4 <= fuel)%nat -> exists p r',
  Read grow RS rd fuel (NewReader ((false, S n), [])) k = Ok (p, None, r') /\ zlen p <= k /\
  concat (snd (r_src _ r')) = gas (S n) /\ 3 * Z.of_nat (S n) <= scap (r_scratch _ r').
Proof.
  intros Hf. set (r := NewReader ((false, S n), [])). assert (reader_ok RS r) as Hok
    by (unfold reader_ok, r, NewReader; cbn; unfold slice_ok, scap; cbn; lia).
  destruct fuel as [|fuel]; [lia|]. cbn [Read]. cbn [NewReader r_cdata_hi r_cdata_lo r_err Z.sub Z.opp Z.add Z.gtb Z.compare r].
  fold r. destruct (half_fill r k Hok Hk) as (sp & chunk & err & s' & r1 & Hsp & Erd & -> & Hok1 & Es1 & Ec1 & Er1 & Ee1).
  cbn [bind]. cbn [r NewReader r_src fst snd half_rd] in Erd, Es1. injection Erd as <- <- <-. cbn in Ee1.
  change (contents (r_rdata RS r1) = [] ++ [0xB0]) in Er1.
  assert (cut_after [] (contents (r_rdata _ r1))) as Hcut.
  { exists 0xB0. split; [lia|]. split; [exact Er1|]. exists []. constructor. }
  destruct (convert_cut grow RS r1 _ Hok1 Hcut) as (r2 & -> & Hok2 & Es2 & Ee2 & Ec2 & _ & _ & _ & Er2).
  rewrite Ee1 in Ee2, Er2. cbn [bind].
  apply (half_run n fuel r2 [] [] [[0xB0]]); try assumption; try congruence; try lia.
  - rewrite Es2, Es1. reflexivity.
  - constructor.
  - reflexivity.
Qed.
End Half.

Lemma C83_refuted_lemma : exists (RS : Type) (rd : RS -> Z -> list Z * option error * RS),
  forall n, exists s stream, zlen stream = 2 * Z.of_nat (S n) /\ delivers rd s stream EOF /\
  forall grow k fuel, 2 <= k -> (n + 4 <= fuel)%nat -> exists p r',
    Read grow _ (logged rd) fuel (NewReader (s, [])) k = Ok (p, None, r') /\ zlen p <= k /\
    concat (snd (r_src _ r')) = stream.
Proof.
  exists (bool * nat)%type, half_rd. intros n. exists (false, S n), (gas (S n)).
  split; [apply gas_len|]. split; [exact (half_delivers_aux (S n) false)|].
  intros grow k fuel Hk Hf. destruct (half_all grow k Hk n fuel Hf) as (p & r' & H1 & H2 & H3 & _). eauto.
Qed.

(** Whole characters: one call of the wrapped reader per Read, and a bounded buffer. *)
Section Whole.
Variable grow : Z -> Z -> Z.
Variable RS : Type.
Variable rd : RS -> Z -> list Z * option error * RS.
Variable B : Z.
Hypothesis whole : forall s k, 2 <= k -> zlen (fst (fst (rd s k))) <= k /\
  exists rs, decodes (fst (fst (rd s k))) rs.
Notation WS := (RS * list (Z * list Z * option error))%type.
Notation wrd := (witnessed rd).
Definition small (c : Z * list Z * option error) : Prop := fst (fst c) < 2 * B.

Definition tidy (r : reader WS) : Prop :=
  reader_ok _ r /\ contents (r_rdata _ r) = [] /\ scap (r_rdata _ r) < 2 * B.

Lemma tidy_len r : tidy r -> slen (r_rdata _ r) = 0.
Proof. intros ((_ & H & _) & E & _). apply contents_nil_len; assumption. Qed.

Lemma fill_whole r k : tidy r -> 2 <= k <= B -> exists r1 r2 call rs, fill WS wrd r k = Ok r1 /\
  convert grow WS r1 = Ok r2 /\ tidy r2 /\ small call /\
  snd (r_src _ r2) = snd (r_src _ r) ++ [call] /\ cdata _ r2 = utf8 rs /\ (r_err _ r2 = None -> rs <> []).
Proof.
  intros Ht Hk. pose proof (tidy_len r Ht) as Hlen0. destruct Ht as (Hok & Hc & Hcap).
  pose proof Hok as (Hs & Hr & Hb). unfold fill. rewrite Hlen0. change (0 + k) with k.
  destruct (ensureCap_spec (r_rdata _ r) k Hr) as (b & Eb & Hb' & Hcont & Hl & Hcapb & Hle & Hz & Hgrow).
  rewrite Eb. cbn [bind]. rewrite Hl, Hlen0, Z.sub_0_r.
  assert (scap b < 2 * B) as HcapB.
  { destruct (Z_le_dec k (scap (r_rdata _ r))) as [H|H]; [rewrite (Hle H); exact Hcap|].
    destruct (Z.eq_dec (scap (r_rdata _ r)) 0) as [E0|E0]; [rewrite Hz by lia; lia|].
    unfold slice_ok in Hr. assert (scap b < 2 * k) by (apply Hgrow; lia). lia. }
  unfold witnessed. destruct (rd (fst (r_src _ r)) (scap b)) as [[chunk err] s'] eqn:Erd.
  assert (2 <= scap b) as H2 by lia.
  pose proof (whole (fst (r_src _ r)) (scap b) H2) as Hw. rewrite Erd in Hw. cbn [fst] in Hw.
  destruct Hw as [Hch (rs & Hrs)]. pose proof (zlen_nonneg chunk) as Hn.
  change (0 + zlen chunk) with (zlen chunk).
  destruct (Z.gtb_spec (zlen chunk) (scap b)) as [Hx|_]; [lia|].
  assert (zlen (zwrite (arr b) 0 chunk) = scap b) as Lw by (rewrite zlen_zwrite; unfold scap in *; lia).
  rewrite reslice_spec by (unfold scap in *; cbn [arr]; lia). cbn [bind arr].
  set (r1 := mkReader _ _ _ _ _ _ _).
  assert (contents (r_rdata _ r1) = chunk) as Ec1.
  { subst r1. cbn [r_rdata]. unfold contents. cbn [arr slen].
    change (zlen chunk) with (0 + zlen chunk). rewrite ztake_zwrite by (unfold scap in *; lia). rewrite ztake_0. reflexivity. }
  assert (reader_ok _ r1) as Hok1.
  { subst r1. unfold reader_ok. cbn [r_scratch r_rdata r_cdata_lo r_cdata_hi]. unfold slice_ok in *. unfold scap in *. cbn [arr slen].
    rewrite Lw. repeat split; lia. }
  assert (decodes (contents (r_rdata _ r1)) rs) as Hd by (rewrite Ec1; exact Hrs).
  destruct (convert_complete grow WS r1 rs Hok1 Hd) as (r2 & E2 & Hok2 & Es2 & Ee2 & Ecd & Ec2 & _ & _ & Hcap2).
  exists r1, r2, (scap b, chunk, err), rs. split; [reflexivity|]. split; [exact E2|].
  split; [split; [exact Hok2|]; split; [exact Ec2|]; rewrite Hcap2; subst r1; unfold scap; cbn [r_rdata arr]; rewrite Lw; exact HcapB|].
  split; [exact HcapB|]. rewrite Es2, Ee2. subst r1. cbn [r_src r_err snd]. split; [reflexivity|]. split; [exact Ecd|].
  intros He ->. inversion Hrs; subst. destruct err; discriminate.
Qed.

Lemma read_whole fuel r k : tidy r -> 2 <= k <= B -> (3 <= fuel)%nat -> exists p err r' calls,
  Read grow WS wrd fuel r k = Ok (p, err, r') /\ tidy r' /\
  snd (r_src _ r') = snd (r_src _ r) ++ calls /\ zlen calls <= 1 /\ Forall small calls.
Proof.
  intros Ht Hk Hf. destruct fuel as [|[|[|fuel]]]; try lia.
  pose proof (tidy_len r Ht) as Hlen0.
  assert (forall f q calls, tidy q -> snd (r_src _ q) = snd (r_src _ r) ++ calls -> zlen calls <= 1 -> Forall small calls ->
    (cdata _ q <> [] \/ r_err _ q <> None) -> exists p err r' calls,
    Read grow WS wrd (S f) q k = Ok (p, err, r') /\ tidy r' /\
    snd (r_src _ r') = snd (r_src _ r) ++ calls /\ zlen calls <= 1 /\ Forall small calls) as Hdone.
  { intros f q calls Hq Es Hl Hs Hor. pose proof (tidy_len q Hq) as Hq0. destruct Hq as (Hok & Hc & Hcap).
    pose proof (cdata_len _ q Hok) as Hcl. cbn [Read].
    destruct (Z.gtb_spec (r_cdata_hi _ q - r_cdata_lo _ q) 0) as [Hd|Hd].
    - eexists. eexists. eexists. exists calls. split; [reflexivity|]. cbn [r_src]. split; [|auto].
      split; [|split; [exact Hc|exact Hcap]].
      destruct Hok as (H1 & H2 & H3). unfold reader_ok. cbn [r_scratch r_rdata r_cdata_lo r_cdata_hi].
      split; [exact H1|]. split; [exact H2|]. lia.
    - destruct (r_err _ q) as [e|].
      + rewrite Hq0. cbn [Z.eqb]. exists [], (Some e), q, calls. repeat (split; [auto|]); auto.
      + destruct Hor as [Hor|Hor]; [|congruence]. exfalso. apply Hor, zlen_0. pose proof (zlen_nonneg (cdata _ q)). lia. }
  destruct (r_err _ r) as [e|] eqn:Ee.
  - apply (Hdone _ r []); try assumption; [rewrite app_nil_r; reflexivity|cbn; lia|constructor|right; congruence].
  - destruct (list_eq_dec Z.eq_dec (cdata _ r) []) as [Ec|Ec];
      [|apply (Hdone _ r []); try assumption; [rewrite app_nil_r; reflexivity|cbn; lia|constructor|left; exact Ec]].
    assert (reader_ok _ r) as Hok by apply Ht.
    destruct (fill_whole r k Ht Hk) as (r1 & r2 & call & rs & E1 & E2 & Ht2 & Hsm & Es & Ecd & Hne).
    remember (S fuel) as f eqn:Ef. cbn [Read]. rewrite (cdata_nil _ r Hok Ec), Ee. cbn [Z.gtb Z.compare].
    rewrite E1. cbn [bind]. rewrite E2. cbn [bind].
    apply (Hdone f r2 [call]); try assumption; [cbn; lia|constructor; [exact Hsm|constructor]|].
    destruct (r_err _ r2); [right; discriminate|]. left. rewrite Ecd. specialize (Hne eq_refl).
    intros En. destruct rs as [|x rs]; [congruence|]. rewrite utf8_cons in En. apply app_eq_nil in En as [En _].
    revert En. apply utf8_char_nonempty.
Qed.

Lemma read_seq_whole fuel sizes : (3 <= fuel)%nat -> Forall (fun k => 2 <= k <= B) sizes -> forall r, tidy r ->
  exists out err r' calls, read_seq grow WS wrd fuel r sizes = Ok (out, err, r') /\
  snd (r_src _ r') = snd (r_src _ r) ++ calls /\ zlen calls <= zlen sizes /\ Forall small calls.
Proof.
  intros Hf. induction 1 as [|k sizes Hk H IH]; intros r Ht; cbn [read_seq].
  - exists [], None, r, []. rewrite app_nil_r. split; [reflexivity|]. split; [reflexivity|]. split; [cbn; lia|constructor].
  - destruct (read_whole fuel r k Ht Hk Hf) as (p & err & r1 & calls & -> & Ht1 & Es & Hl & Hsm). cbn [bind].
    rewrite zlen_cons. pose proof (zlen_nonneg sizes). destruct err as [e|].
    + exists p, (Some e), r1, calls. repeat (split; [auto; lia|]). assumption.
    + destruct (IH r1 Ht1) as (out & err & r2 & calls2 & -> & Es2 & Hl2 & Hsm2). cbn [bind].
      exists (p ++ out), err, r2, (calls ++ calls2). split; [reflexivity|].
      split; [rewrite Es2, Es, app_assoc; reflexivity|]. split; [rewrite zlen_app; lia|].
      apply Forall_app. auto.
Qed.

Lemma C83_lemma s fuel sizes : 0 < B -> (3 <= fuel)%nat -> Forall (fun k => 2 <= k <= B) sizes ->
  exists out err r', read_seq grow WS wrd fuel (NewReader (s, [])) sizes = Ok (out, err, r') /\
  zlen (snd (r_src _ r')) <= zlen sizes /\
  Forall (fun call : Z * list Z * option error => fst (fst call) < 2 * B) (snd (r_src _ r')).
Proof.
  intros HB Hf Hs. destruct (read_seq_whole fuel sizes Hf Hs (NewReader (s, []))) as (out & err & r' & calls & E & Es & Hl & Hsm).
  - split; [unfold reader_ok, NewReader; cbn; unfold slice_ok, scap; cbn; lia|]. split; [reflexivity|].
    change (0 < 2 * B). lia.
  - exists out, err, r'. split; [exact E|]. rewrite Es. split; [exact Hl|exact Hsm].
Qed.
End Whole.
