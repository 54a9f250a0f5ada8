(** Witnesses about the Reader, and the lemmas behind C51-C54: the Writer. *)
From Coq Require Import ZArith List Bool Lia.
From Coq Require Import ZifyBool.
From Verif Require Import Base Spec Facts Utf8 Utf8Facts HangulFacts3 SortSearch TableFrom TableTo SpecCp949
  SpecIO PMapFacts Cp949Model StreamModel SliceFacts TableFacts Cp949Facts Cp949Facts2 StreamFacts StreamFacts2.
Import ListNotations.
Local Open Scope Z_scope.
Local Opaque fromTable toTable dec_tree enc_tree.

(** ** The byte-string reader keeps the contract *)
Lemma bytes_rd_delivers s : delivers bytes_rd s s EOF.
Proof.
  remember (length s) as n eqn:En. revert s En.
  induction n as [n IH] using lt_wf_ind. intros s ->.
  destruct s as [|x s]; constructor; intros k chunk.
  - intros e' s' Hk E. cbn in E. destruct (Z.ltb_spec 0 k); [|lia]. injection E as <- <- <-.
    split; [reflexivity|]. split; [reflexivity|cbn; lia].
  - intros s' Hk E. cbn in E. destruct (Z.ltb_spec 0 k); [discriminate|lia].
  - intros s' Hk E. cbn in E. destruct (Z.ltb_spec 0 k); [discriminate|lia].
  - intros e' s' Hk E. cbn [bytes_rd] in E. discriminate.
  - intros s' Hk E. cbn [bytes_rd] in E. injection E as <- <-. split; [|split].
    + intros E0. assert (zlen (ztake k (x :: s)) = 0) as H0 by (rewrite E0; reflexivity).
      rewrite zlen_ztake, zlen_cons in H0 by lia. pose proof (zlen_nonneg s). lia.
    + rewrite zlen_ztake by lia. lia.
    + exists (zdrop k (x :: s)). symmetry. apply ztake_zdrop.
  - intros s' Hk E. cbn [bytes_rd] in E. injection E as <- <-.
    rewrite zlen_ztake by lia.
    replace (zdrop (Z.min k (zlen (x :: s))) (x :: s)) with (zdrop k (x :: s)).
    2:{ destruct (Z_le_dec k (zlen (x :: s))); [f_equal; lia|].
        rewrite !zdrop_all by lia. reflexivity. }
    eapply IH; [|reflexivity].
    pose proof (zlen_zdrop k (x :: s)) as Hz. rewrite zlen_cons in Hz. unfold zlen in Hz. cbn [length]. lia.
Qed.

(** ** A stream on which Read never returns *)

Section Stuck.
Variable grow : Z -> Z -> Z.
Variable k : Z.
Hypothesis Hk : 2 <= k.

Lemma odd_stuck fuel : forall r, reader_ok _ r -> cdata _ r = [] -> r_err _ r = None ->
  (r_src _ r = false /\ contents (r_rdata _ r) = [] \/
   r_src _ r = true /\ exists a rs, decodes a rs /\ contents (r_rdata _ r) = a ++ [0xB0]) ->
  Read grow bool odd_rd fuel r k = Fuel.
Proof.
  induction fuel as [|fuel IH]; intros r Hok Hc He Hs; [reflexivity|].
  cbn [Read]. rewrite (cdata_nil _ r Hok Hc), He. cbn [Z.gtb Z.compare].
  destruct (fill_spec bool odd_rd r k Hok) as
    (sp & chunk & err & s' & r1 & Hsp & _ & Erd & -> & Hok1 & Es1 & Ec1 & _ & _ & Er1 & Ee1).
  { lia. }
  { intros sp Hsp _. unfold odd_rd. destruct (r_src _ r).
    - destruct (Z.leb_spec 2 sp); cbn; lia.
    - destruct (Z.leb_spec 1 sp); cbn; lia. }
  cbn [bind].
  assert (s' = true /\ err = None /\ zlen chunk <> 0 /\
    exists a rs, decodes a rs /\ contents (r_rdata _ r1) = a ++ [0xB0]) as (-> & -> & Hn & a & rs & Ha & Ea).
  { destruct Hs as [[Es Er]|[Es (a & rs & Ha & Ea)]]; rewrite Es in Erd; cbn [odd_rd] in Erd.
    - destruct (Z.leb_spec 1 sp); [|lia]. injection Erd as <- <- <-.
      split; [reflexivity|]. split; [reflexivity|]. split; [discriminate|].
      exists [], []. split; [constructor|]. rewrite Er1, Er. reflexivity.
    - destruct (Z.leb_spec 2 sp); [|lia]. injection Erd as <- <- <-.
      split; [reflexivity|]. split; [reflexivity|]. split; [discriminate|].
      exists (a ++ [0xB0; 0xA1]), (rs ++ [0xAC00]). split.
      + apply decodes_app; [exact Ha|]. apply dec_code; try lia; [|constructor].
        apply assigned_by. vm_compute. reflexivity.
      + rewrite Er1, Ea, <- !app_assoc. reflexivity. }
  assert (cut_after a (contents (r_rdata _ r1))) as Hcut.
  { exists 0xB0. split; [lia|]. split; [exact Ea|eauto]. }
  destruct (Z.eqb_spec (zlen chunk) 0) as [|_]; [congruence|].
  destruct (convert_cut grow _ r1 a Hok1 Hcut) as (r2 & -> & Hok2 & Es2 & Ee2 & Ec2 & _ & _ & _ & Er2).
  rewrite Ee1 in Ee2, Er2. cbn [bind]. apply IH; [exact Hok2|exact Ec2|exact Ee2|].
  right. split; [congruence|]. exists a, rs. split; [exact Ha|congruence].
Qed.
End Stuck.

Lemma odd_rd_contract s k : 0 < k ->
  let '(chunk, err, _) := odd_rd s k in chunk <> [] /\ zlen chunk <= k /\ Forall is_byte chunk /\ err = None.
Proof.
  intros Hk. unfold odd_rd. destruct s.
  - destruct (Z.leb_spec 2 k); (split; [discriminate|]); (split; [cbn; lia|]); (split; [|reflexivity]);
      repeat constructor; unfold is_byte; lia.
  - destruct (Z.leb_spec 1 k); [|lia]. split; [discriminate|]. split; [cbn; lia|].
    split; [|reflexivity]. repeat constructor; unfold is_byte; lia.
Qed.

Lemma C63_refuted_lemma : exists (RS : Type) (rd : RS -> Z -> list Z * option error * RS) (s : RS),
  (forall s k, 0 < k -> let '(chunk, err, _) := rd s k in
     chunk <> [] /\ zlen chunk <= k /\ Forall is_byte chunk /\ err = None) /\
  forall grow k fuel, 2 <= k -> Read grow RS rd fuel (NewReader s) k = Fuel.
Proof.
  exists bool, odd_rd, false. split; [exact odd_rd_contract|].
  intros grow k fuel Hk. apply (odd_stuck grow k Hk); [|reflexivity|reflexivity|left; auto].
  unfold reader_ok, NewReader. cbn. unfold slice_ok, scap. cbn. lia.
Qed.

(** When the wrapped reader hands out whole characters, one call of it is enough. *)
Lemma C63_lemma grow RS (rd : RS -> Z -> list Z * option error * RS) s k fuel :
  0 < k -> (2 <= fuel)%nat ->
  (forall sp, k <= sp -> let '(chunk, err, _) := rd s sp in
     zlen chunk <= sp /\ exists rs, decodes chunk rs /\ rs <> []) ->
  exists sp chunk err s' rs p r', k <= sp /\ rd s sp = (chunk, err, s') /\ decodes chunk rs /\
    Read grow RS rd fuel (NewReader s) k = Ok (p, None, r') /\ r_src _ r' = s' /\
    p = ztake k (utf8 rs) /\ 0 < zlen p.
Proof.
  intros Hk Hf Hrd. destruct fuel as [|[|fuel]]; try lia.
  assert (reader_ok RS (NewReader s)) as Hok
    by (unfold reader_ok, NewReader; cbn; unfold slice_ok, scap; cbn; lia).
  cbn [Read]. cbn [NewReader r_cdata_hi r_cdata_lo r_err Z.sub Z.opp Z.add Z.gtb Z.compare].
  destruct (fill_spec RS rd (NewReader s) k Hok) as
    (sp & chunk & err & s' & r1 & Hsp & _ & Erd & E1 & Hok1 & Es1 & Ec1 & _ & _ & Er1 & Ee1).
  { lia. }
  { intros sp Hsp _. specialize (Hrd sp Hsp). cbn [NewReader r_src].
    destruct (rd s sp) as [[chunk err] s']. apply Hrd. }
  unfold NewReader in E1. unfold NewReader. rewrite E1. cbn [bind].
  cbn [NewReader r_src r_rdata] in *. specialize (Hrd sp Hsp). rewrite Erd in Hrd.
  destruct Hrd as (Hlen & rs & Hrs & Hne).
  change (contents nil_slice) with (@nil Z) in Er1. cbn [app] in Er1. rewrite <- Er1 in Hrs.
  destruct (convert_complete grow _ r1 rs Hok1 Hrs) as (r2 & -> & Hok2 & Es2 & _ & Ec2 & _ & _ & Hlo2 & _).
  cbn [bind].
  pose proof (cdata_len _ r2 Hok2) as Hl. rewrite Ec2 in Hl.
  assert (0 < zlen (utf8 rs)) as Hpos.
  { destruct rs as [|r0 rs]; [congruence|]. rewrite utf8_cons, zlen_app.
    pose proof (decodes_scalar _ _ Hrs) as Hsc. inversion Hsc as [|? ? Hr0 _]; subst.
    pose proof (zlen_nonneg (utf8 rs)).
    destruct (utf8_char_cases r0 Hr0) as [[? ->]|[[? ->]|[[? [? ->]]|[? ->]]]];
      rewrite !zlen_cons; change (zlen (@nil Z)) with 0; lia. }
  destruct (Z.gtb_spec (r_cdata_hi _ r2 - r_cdata_lo _ r2) 0); [|lia].
  exists sp, chunk, err, s', rs. eexists. eexists.
  split; [exact Hsp|]. split; [exact Erd|]. split; [rewrite <- Er1; exact Hrs|].
  split; [reflexivity|]. split; [cbn [r_src]; congruence|].
  rewrite Ec2. rewrite <- Hl.
  assert (ztake (Z.min k (zlen (utf8 rs))) (utf8 rs) = ztake k (utf8 rs)) as ->.
  { destruct (Z_le_dec k (zlen (utf8 rs))); [f_equal; lia|]. rewrite !ztake_all by lia. reflexivity. }
  split; [reflexivity|]. rewrite zlen_ztake by lia. lia.
Qed.

(** ** Writer *)
Section Writer.
Variable grow : Z -> Z -> Z.
Variable WS : Type.
Variable wr : WS -> list Z -> option error * WS.

Definition writer_ok (w : writer WS) : Prop := slice_ok (w_scratch _ w) /\ w_buf _ w = [].

Definition enc (data : list Z) : list Z := flat_map to_char (string_to_runes data).

Lemma Write_spec w data : writer_ok w -> Forall is_byte data ->
  exists w', writer_ok w' /\
    match data with
    | [] => Write grow WS wr w data = Ok (0, None, w') /\ w_dst _ w' = w_dst _ w
    | _ => let '(err, dst) := wr (w_dst _ w) (enc data) in
        Write grow WS wr w data =
          Ok (match err with Some _ => 0 | None => zlen data end, err, w') /\
        w_dst _ w' = dst
    end.
Proof.
  intros [Hs Hb] Hd. unfold Write. rewrite Hb. change (zlen (@nil Z) >? 0) with false. cbv iota.
  destruct (to_Translate_spec grow (w_scratch _ w) data Hs Hd) as (s' & Hs' & Hc & ->).
  cbn [bind]. rewrite Hc. fold (enc data). destruct data as [|x data].
  - cbn [zlen length Z.of_nat Z.gtb Z.compare Z.ltb]. eexists. split; [|split; [reflexivity|reflexivity]].
    split; [exact Hs'|reflexivity].
  - assert (zlen (x :: data) >? 0 = true) as ->.
    { rewrite zlen_cons. pose proof (zlen_nonneg data). lia. }
    destruct (wr (w_dst _ w) (enc (x :: data))) as [[e|] dst].
    + eexists. split; [|split; [reflexivity|reflexivity]]. split; [exact Hs'|reflexivity].
    + rewrite Z.ltb_irrefl. eexists. split; [|split; [reflexivity|reflexivity]].
      split; [exact Hs'|reflexivity].
Qed.

Lemma To_enc data : Forall is_byte data -> To grow data = Ok (inl (enc data)).
Proof. apply To_runes. Qed.


Lemma new_writer_ok s : writer_ok (NewWriter s).
Proof. split; [apply nil_slice_ok|reflexivity]. Qed.

Lemma write_all_spec chunks : Forall (Forall is_byte) chunks -> forall w, writer_ok w ->
  exists w', writer_ok w' /\
    write_all grow WS wr w chunks =
      Ok (fst (writes_spec wr (w_dst _ w) (map (fun d => (d, enc d)) chunks)), w') /\
    w_dst _ w' = snd (writes_spec wr (w_dst _ w) (map (fun d => (d, enc d)) chunks)).
Proof.
  induction 1 as [|d chunks Hd H IH]; intros w Hw; cbn [write_all map writes_spec].
  - exists w. auto.
  - destruct (Write_spec w d Hw Hd) as (w1 & Hw1 & E). destruct d as [|x d].
    + destruct E as [-> Ed]. cbn [bind]. destruct (IH w1 Hw1) as (w2 & Hw2 & -> & E2). cbn [bind].
      rewrite Ed in *. destruct (writes_spec _ _ _) as [rs dst]. exists w2. auto.
    + destruct (wr (w_dst _ w) (enc (x :: d))) as [err dst] eqn:Ew. destruct E as [-> Ed]. cbn [bind].
      destruct (IH w1 Hw1) as (w2 & Hw2 & -> & E2). cbn [bind].
      rewrite Ed in *. destruct (writes_spec _ _ _) as [rs dst']. exists w2. auto.
Qed.
End Writer.

Lemma C53_lemma grow WS (wr : WS -> list Z -> option error * WS) s chunks :
  Forall (Forall is_byte) chunks ->
  exists pairs w, map fst pairs = chunks /\
    Forall (fun p => To grow (fst p) = Ok (inl (snd p))) pairs /\
    write_all grow WS wr (NewWriter s) chunks = Ok (fst (writes_spec wr s pairs), w) /\
    w_dst _ w = snd (writes_spec wr s pairs).
Proof.
  intros H. destruct (write_all_spec grow WS wr chunks H (NewWriter s) (new_writer_ok WS s))
    as (w & _ & E1 & E2).
  exists (map (fun d => (d, enc d)) chunks), w. split; [rewrite map_map; apply map_id|].
  split; [|split; [exact E1|exact E2]].
  apply Forall_map. eapply Forall_impl; [|exact H]. intros d Hd. apply To_enc, Hd.
Qed.

(** Into a buffer, every chunk is accepted. *)
Lemma write_seq_buffer grow chunks : Forall (Forall is_byte) chunks -> forall w, writer_ok _ w ->
  exists w', writer_ok _ w' /\ w_dst _ w' = w_dst _ w ++ flat_map enc chunks /\
    write_seq grow (list Z) buffer_wr w chunks = Ok (map (fun d => (zlen d, None)) chunks, w').
Proof.
  induction 1 as [|d chunks Hd H IH]; intros w Hw; cbn [write_seq flat_map map].
  - exists w. rewrite app_nil_r. auto.
  - destruct (Write_spec grow (list Z) buffer_wr w d Hw Hd) as (w1 & Hw1 & E). destruct d as [|x d].
    + destruct E as [-> Ed]. cbn [bind]. destruct (IH w1 Hw1) as (w2 & Hw2 & E2 & ->). cbn [bind].
      exists w2. split; [exact Hw2|]. split; [rewrite E2, Ed; reflexivity|reflexivity].
    + cbn [buffer_wr] in E. destruct E as [-> Ed]. cbn [bind].
      destruct (IH w1 Hw1) as (w2 & Hw2 & E2 & ->). cbn [bind].
      exists w2. split; [exact Hw2|]. split; [rewrite E2, Ed, <- app_assoc; reflexivity|reflexivity].
Qed.

Lemma runes_concat chunks : Forall (Forall is_byte) chunks ->
  (Forall valid_utf8 chunks \/ Forall boundary chunks) ->
  flat_map enc chunks = enc (concat chunks).
Proof.
  intros Hb H.
  assert (string_to_runes (concat chunks) = flat_map string_to_runes chunks) as E.
  { destruct H as [H|H].
    - clear Hb. induction H as [|c chunks (rs & Hrs & ->) H IH]; [reflexivity|]. cbn [concat flat_map].
      rewrite string_to_runes_utf8_app, string_to_runes_utf8, IH; try assumption; [reflexivity|].
      clear - H. induction H as [|c chunks (rs & Hrs & ->) H IH]; [constructor|].
      cbn [concat]. apply Forall_app. split; [apply utf8_bytes; exact Hrs|exact IH].
    - induction H as [|c chunks Hc H IH]; [reflexivity|]. cbn [concat flat_map].
      inversion Hb as [|? ? Hb1 Hb2]; subst.
      assert (Forall is_byte (concat chunks)) as Hbc by (apply Forall_concat; exact Hb2).
      rewrite string_to_runes_boundary, IH; try assumption; [reflexivity|].
      clear - H. induction H as [|c chunks Hc H IH]; [exact I|].
      destruct c as [|x c]; [exact IH|exact Hc]. }
  unfold enc. rewrite E. clear. induction chunks as [|c chunks IH]; [reflexivity|].
  cbn [flat_map]. rewrite flat_map_app, IH. reflexivity.
Qed.

Lemma C51_lemma grow chunks : Forall (Forall is_byte) chunks ->
  (Forall valid_utf8 chunks \/ Forall boundary chunks) ->
  exists w bs, To grow (concat chunks) = Ok (inl bs) /\
    write_seq grow (list Z) buffer_wr (NewWriter []) chunks = Ok (map (fun d => (zlen d, None)) chunks, w) /\
    w_dst _ w = bs.
Proof.
  intros Hb H. destruct (write_seq_buffer grow chunks Hb (NewWriter []) (new_writer_ok _ []))
    as (w & _ & Ed & E).
  exists w, (enc (concat chunks)). split; [apply To_enc, Forall_concat, Hb|]. split; [exact E|].
  rewrite Ed. cbn [NewWriter w_dst app]. apply runes_concat; assumption.
Qed.

(** Whatever the split, the writer gets the encodings of the chunks. *)
Lemma C52_lemma grow chunks : Forall (Forall is_byte) chunks ->
  exists w parts, Forall2 (fun d p => To grow d = Ok (inl p)) chunks parts /\
    write_seq grow (list Z) buffer_wr (NewWriter []) chunks = Ok (map (fun d => (zlen d, None)) chunks, w) /\
    w_dst _ w = concat parts.
Proof.
  intros Hb. destruct (write_seq_buffer grow chunks Hb (NewWriter []) (new_writer_ok _ []))
    as (w & _ & Ed & E).
  exists w, (map enc chunks). split; [|split; [exact E|rewrite Ed; cbn [NewWriter w_dst app]; apply flat_map_concat_map]].
  clear - Hb. induction Hb as [|d chunks Hd H IH]; cbn [map]; constructor; [apply To_enc, Hd|exact IH].
Qed.

Lemma C54_lemma grow RS (rd : RS -> Z -> list Z * option error * RS) rss bs e s fuel sizes :
  Forall (Forall in_repertoire) rss -> encodes (concat rss) bs -> delivers rd s bs e ->
  Forall (fun k => 0 < k) sizes -> (length bs + 4 <= fuel)%nat ->
  zlen (utf8 (concat rss)) < zlen sizes ->
  exists w r,
    write_seq grow (list Z) buffer_wr (NewWriter []) (map utf8 rss) =
      Ok (map (fun rs => (zlen (utf8 rs), None)) rss, w) /\ w_dst _ w = bs /\
    read_seq grow RS rd fuel (NewReader s) sizes = Ok (utf8 (concat rss), Some e, r).
Proof.
  intros Hr He Hd Hs Hf Hl.
  assert (Forall valid_utf8 (map utf8 rss)) as Hv.
  { apply Forall_map. eapply Forall_impl; [|exact Hr]. intros rs H. exists rs.
    split; [apply Forall_repertoire_scalar, H|reflexivity]. }
  assert (Forall (Forall is_byte) (map utf8 rss)) as Hby.
  { eapply Forall_impl; [|exact Hv]. intros x (rs & H & ->). apply utf8_bytes, H. }
  destruct (C51_lemma grow (map utf8 rss) Hby (or_introl Hv)) as (w & bs' & E1 & E2 & E3).
  assert (concat (map utf8 rss) = utf8 (concat rss)) as Ec.
  { clear. induction rss as [|rs rss IH]; [reflexivity|]. cbn [map concat]. rewrite IH, utf8_app. reflexivity. }
  rewrite Ec, (To_encodes grow _ _ He) in E1. injection E1 as <-.
  assert (Forall is_byte bs) as Hbb by (eapply decodes_bytes, encodes_decodes; exact He).
  destruct (C45_lemma grow RS rd s bs (utf8 (concat rss)) e fuel sizes Hbb Hd (From_encodes grow _ _ He) Hs Hf)
    as (out & err & r & E4 & _ & H5 & H6).
  rewrite (H6 Hl) in *. destruct H5 as [H5|[_ ->]]; [discriminate|].
  exists w, r. split; [rewrite E2, map_map; reflexivity|]. auto.
Qed.

(** ** Counterexamples *)
Lemma C46_refuted_lemma : exists r,
  truncated [0x41; 0xB0] /\ delivers bytes_rd [0x41; 0xB0] [0x41; 0xB0] EOF /\
  read_seq wgrow (list Z) bytes_rd 9 (NewReader [0x41; 0xB0]) [16] = Ok ([], Some EOF, r).
Proof.
  eexists. split; [|split; [apply bytes_rd_delivers|vm_compute; reflexivity]].
  exists [0x41], 0xB0. split; [lia|]. split; [reflexivity|]. exists [0x41]. apply dec_ascii; [lia|apply dec_nil].
Qed.
Lemma C50_refuted_lemma : exists r,
  read_seq wgrow (list Z) bytes_rd 9 (NewReader [0x41]) [0; 16] = Ok ([], Some EOF, r).
Proof. eexists. vm_compute. reflexivity. Qed.
Lemma C52_refuted_lemma : exists a b w bs,
  To wgrow (a ++ b) = Ok (inl bs) /\
  write_seq wgrow (list Z) buffer_wr (NewWriter []) [a; b] = Ok ([(zlen a, None); (zlen b, None)], w) /\
  w_dst _ w <> bs.
Proof.
  exists [0xEA], [0xB0; 0x80]. eexists. eexists. split; [vm_compute; reflexivity|].
  split; [vm_compute; reflexivity|]. vm_compute. discriminate.
Qed.

Lemma C50_refuted_lemma' :
  (exists r, read_seq wgrow (list Z) bytes_rd 9 (NewReader [0x41]) [16; 16] = Ok ([0x41], Some EOF, r)) /\
  (exists r, read_seq wgrow (list Z) bytes_rd 9 (NewReader [0x41]) [0; 16; 16] = Ok ([], Some EOF, r)).
Proof. split; eexists; vm_compute; reflexivity. Qed.

Lemma C62_refuted_lemma : exists r,
  read_seq wgrow _ pause_rd 9 (NewReader (false, [0x41])) [16] = Ok ([], Some EOF, r).
Proof. eexists. vm_compute. reflexivity. Qed.

(** An answer without data and without error ends the stream, in every state in which the
    wrapped reader is asked. *)
Lemma C62_lemma grow RS (rd : RS -> Z -> list Z * option error * RS) s k fuel :
  0 <= k -> (2 <= fuel)%nat ->
  (forall sp, k <= sp -> fst (rd s sp) = ([], None)) ->
  exists r, Read grow RS rd fuel (NewReader s) k = Ok ([], Some EOF, r).
Proof.
  intros Hk Hf Hrd. destruct fuel as [|[|fuel]]; try lia.
  assert (reader_ok RS (NewReader s)) as Hok
    by (unfold reader_ok, NewReader; cbn; unfold slice_ok, scap; cbn; lia).
  cbn [Read]. cbn [NewReader r_cdata_hi r_cdata_lo r_err Z.sub Z.opp Z.add Z.gtb Z.compare].
  destruct (fill_spec RS rd (NewReader s) k Hok) as
    (sp & chunk & err & s' & r1 & Hsp & _ & Erd & E1 & Hok1 & Es1 & Ec1 & _ & _ & Er1 & Ee1).
  { exact Hk. }
  { intros sp Hsp _. specialize (Hrd sp Hsp). cbn [NewReader r_src].
    destruct (rd s sp) as [[chunk err] s']. cbn in Hrd. injection Hrd as -> _. cbn. lia. }
  cbn [NewReader r_src] in Erd. specialize (Hrd sp Hsp). rewrite Erd in Hrd. cbn in Hrd.
  injection Hrd as -> ->. rewrite app_nil_r in Er1. cbn [NewReader r_rdata] in Er1.
  change (contents nil_slice) with (@nil Z) in Er1. change (zlen (@nil Z) =? 0) with true in Ee1.
  unfold NewReader in E1. unfold NewReader. rewrite E1. cbn [bind].
  destruct (convert_complete grow _ r1 [] Hok1) as (r2 & -> & Hok2 & Es2 & Ee2 & Ec2 & Er2 & El2 & _).
  { rewrite Er1. constructor. }
  cbn [bind]. rewrite (cdata_nil _ r2 Hok2 Ec2), Ee2, Ee1, El2. cbn [Z.gtb Z.compare Z.eqb]. eauto.
Qed.
