(** transform.Reader over the encoder and transform.Writer over the decoder: lemmas behind
    C106 and C107. *)
From Coq Require Import ZArith List Bool Lia.
From Coq Require Import ZifyBool.
From Verif Require Import Base Spec Facts Utf8 Utf8Facts SortSearch TableFrom TableTo SpecCp949
  SpecIO SpecTrans PMapFacts Cp949Model TransformModel TransformModel3 SliceFacts TableFacts Cp949Facts Cp949Facts2 StreamFacts
  StreamFacts3 PipeFacts TransformFacts TransformFacts2 TransformFacts3.
Import ListNotations.
Local Open Scope Z_scope.
Local Opaque fromTable toTable dec_tree enc_tree.

Section Enc.
Variable grow : Z -> Z -> Z.
Variable RS : Type.
Variable rd : RS -> Z -> list Z * option error * RS.
Notation T := (enc_Transform grow).
Notation converts := (Forall2 (fun d p => To grow d = Ok (inl p))).

Definition estate (r : treader RS) (parts : list (list Z)) (e : error) : Prop :=
  tr_ok r /\ t_dst1 _ r <= 4096 /\ t_src0 _ r = t_src1 _ r /\
  (t_complete _ r = true /\ t_err _ r = Some e /\ parts = [] \/
   t_complete _ r = false /\ t_err _ r = None /\
     exists chunks, hands_out 4096 rd (t_src _ r) chunks e /\ converts chunks parts).

Lemma tread_pending fuel r parts e k : estate r parts e -> t_dst0 _ r <> t_dst1 _ r -> 0 < k ->
  exists bs err r', TRead T RS rd (S fuel) r k = Ok (bs, err, r') /\ estate r' parts e /\
    pending r = bs ++ pending r' /\ 0 < zlen bs /\
    (err = None \/ err = Some e /\ pending r' = [] /\ parts = []).
Proof.
  intros (Hok & Hl & Es & Hst) N01 Hk.
  pose proof Hok as (Hd & Hs & Hd01 & Hd0 & Hs01 & Hs1).
  destruct (wpend RS r k Hok Hl N01 Hk) as (Hp & Hn & Hok').
  cbn [TRead]. destruct (Z.eqb_spec (t_dst0 _ r) (t_dst1 _ r)) as [?|_]; [lia|]. cbn [negb].
  destruct (Z.gtb_spec (t_dst1 _ r) (zlen (t_dst _ r))) as [?|_]; [lia|].
  destruct (Z.gtb_spec (t_dst0 _ r) (t_dst1 _ r)) as [?|_]; [lia|]. cbn [orb].
  set (n := Z.min k (t_dst1 _ r - t_dst0 _ r)) in *.
  set (out := ztake n (zdrop (t_dst0 _ r) (t_dst _ r))) in *.
  set (r' := mkTR RS (t_src _ r) (t_err _ r) (t_dst _ r) (t_dst0 _ r + n) (t_dst1 _ r)
               (t_sbuf _ r) (t_src0 _ r) (t_src1 _ r) (t_complete _ r)) in *.
  assert (estate r' parts e) as Hw by (split; [exact Hok'|]; split; [exact Hl|]; split; [exact Es|exact Hst]).
  destruct ((t_dst0 _ r + n =? t_dst1 _ r) && t_complete _ r) eqn:Ec.
  - apply andb_true_iff in Ec. destruct Ec as [Ec1 Ec2].
    exists out, (t_err _ r), r'. split; [reflexivity|]. split; [exact Hw|].
    split; [exact Hp|]. split; [lia|].
    destruct Hst as [(_ & -> & ->)|(H & _)]; [|congruence]. right. split; [reflexivity|]. split; [|reflexivity].
    unfold pending, r'. cbn [t_dst0 t_dst1 t_dst].
    apply zdrop_all. rewrite zlen_ztake by lia. lia.
  - exists out, None, r'. split; [reflexivity|]. split; [exact Hw|].
    split; [exact Hp|]. split; [lia|]. left. reflexivity.
Qed.


Lemma enc_nonempty chunk p : Forall is_byte chunk -> To grow chunk = Ok (inl p) -> chunk <> [] -> 0 < zlen p.
Proof.
  intros Hb E Hne. rewrite To_runes in E by exact Hb. injection E as <-.
  pose proof (string_to_runes_nonempty chunk Hb Hne) as H. destruct (string_to_runes chunk) as [|r rs]; [congruence|].
  cbn [flat_map]. rewrite zlen_app. pose proof (zlen_nonneg (flat_map to_char rs)).
  enough (0 < zlen (to_char r)) by lia. unfold to_char, enc16, code_bytes. destruct (r <? 0x80); [cbn; lia|].
  destruct (tget _ _); [cbn; lia|]. destruct (_ <? _); cbn; lia.
Qed.

(** A Read with nothing pending: a part that fits, or a panic. *)
Lemma tread_part fuel r parts e k : estate r parts e -> t_dst0 _ r = t_dst1 _ r -> t_complete _ r = false -> 0 < k -> (4 <= fuel)%nat ->
  exists p parts', parts = p :: parts' /\
   (4096 < zlen p /\ TRead T RS rd fuel r k = Panic \/
    zlen p <= 4096 /\
    exists bs err r', TRead T RS rd fuel r k = Ok (bs, err, r') /\ estate r' parts' e /\
    p = bs ++ pending r' /\
    (err = None /\ 0 < zlen bs \/ err = Some e /\ pending r' = [] /\ parts' = [])).
Proof.
  intros (Hok & Hl & Es & Hst) E01 Ec Hk Hf. destruct fuel as [|[|[|[|fuel]]]]; try lia. clear Hf.
  pose proof Hok as (Hd & Hs & Hd01 & Hd0 & Hs01 & Hs1).
  destruct Hst as [(H & _)|(_ & Ee & chunks & Hdel & Hconv)]; [congruence|].
  assert (exists chunk cerr s' p parts', rd (t_src _ r) 4096 = (chunk, cerr, s') /\ zlen chunk <= 4096 /\
    Forall is_byte chunk /\ To grow chunk = Ok (inl p) /\ parts = p :: parts' /\
    (cerr = Some e /\ parts' = [] \/ cerr = None /\ chunk <> [] /\
       exists chunks', hands_out 4096 rd s' chunks' e /\ converts chunks' parts')) as
    (chunk & cerr & s' & p & parts' & Erd & Hcl & Hb & Eto & -> & Hnext).
  { inversion Hdel as [? ? chunk s' Erd Hcl Hb|? ? chunk chunks' s' Erd Hcl Hb Hne Hn]; subst.
    - inversion Hconv as [|? p ? ps Hp Hps]; subst. inversion Hps; subst.
      exists chunk, (Some e), s', p, []. repeat (split; [assumption || reflexivity|]). left. auto.
    - inversion Hconv as [|? p ? ps Hp Hps]; subst.
      exists chunk, None, s', p, ps. repeat (split; [assumption || reflexivity|]). right.
      split; [reflexivity|]. split; [exact Hne|]. exists chunks'. auto. }
  exists p, parts'. split; [reflexivity|].
  destruct (t_fill_spec RS rd r chunk cerr s' Hok Es Erd Hcl) as
    (r1 & E1 & Hok1 & Hb1 & Hsrc1 & Herr1 & Hd1 & Hd01' & Hd11 & Hc1 & Hs01' & Hs11').
  remember (S (S fuel)) as fu2 eqn:Ef2. remember (S fu2) as fu3 eqn:Ef3.
  assert (TRead T RS rd (S fu3) r k = TRead T RS rd fu3 r1 k) as ->.
  { cbn [TRead]. rewrite E01, Es, !Z.eqb_refl, Ec, Ee. cbn [negb orb is_none]. rewrite E1. reflexivity. }
  rewrite Ef3.
  set (r2 := mkTR RS s' cerr (go_copy (t_dst _ r1) p) 0 (zlen p) (t_sbuf _ r1)
                  (t_src1 _ r1) (t_src1 _ r1) (negb (is_none cerr))).
  assert (TRead T RS rd (S fu2) r1 k = TRead T RS rd fu2 r2 k) as ->.
  { cbn [TRead]. rewrite Hd01', Hd11, E01, Z.eqb_refl, Hc1, Ec. cbn [negb].
    assert (negb (t_src0 _ r1 =? t_src1 _ r1) || negb (is_none (t_err _ r1)) = true) as ->.
    { rewrite Hs01', Hs11', Herr1. destruct Hnext as [[-> _]|(-> & Hne & _)]; [apply orb_true_r|].
      destruct (Z.eqb_spec 0 (zlen chunk)) as [H|H]; [|reflexivity].
      exfalso. apply Hne. apply zlen_0. auto. }
    fold (buffered r1). rewrite Hb1. unfold enc_Transform. rewrite Eto.
    cbn [bind]. rewrite Hs01'. change (0 + zlen chunk) with (zlen chunk). rewrite <- Hs11', Z.eqb_refl. cbn [negb].
    rewrite Hsrc1, Herr1. reflexivity. }
  destruct Hok1 as (Hx1 & Hx2 & Hx3 & Hx4 & Hx5 & Hx6). pose proof (zlen_nonneg p) as Hp0.
  rewrite Ef2.
  destruct (Z_le_dec (zlen p) 4096) as [Hul|Hul].
  2:{ left. split; [lia|]. unfold r2. cbn [TRead t_dst0 t_dst1 t_dst].
      destruct (Z.eqb_spec 0 (zlen p)) as [?|_]; [lia|]. cbn [negb]. rewrite go_copy_len, Hx1.
      destruct (Z.gtb_spec (zlen p) 4096); [reflexivity|lia]. }
  right. split; [exact Hul|].
  assert (estate r2 parts' e) as Hw2.
  { split.
    - unfold tr_ok, r2. cbn [t_dst t_dst0 t_dst1 t_sbuf t_src0 t_src1]. rewrite go_copy_len. repeat split; lia.
    - split; [exact Hul|]. split; [reflexivity|]. unfold r2; cbn [t_complete t_err t_src].
      destruct Hnext as [[-> ->]|(-> & _ & Hn)]; [left|right]; auto. }
  assert (pending r2 = p) as Hp2.
  { unfold pending, r2. cbn [t_dst t_dst0 t_dst1]. rewrite zdrop_0, go_copy_take, Hx1. apply ztake_all. lia. }
  destruct (Z.eq_dec (zlen p) 0) as [Hz|Hz].
  - (* only the last chunk can be empty *)
    destruct Hnext as [[-> ->]|(-> & Hne & _)]; [|pose proof (enc_nonempty chunk p Hb Eto Hne); lia].
    exists [], (Some e), r2. split.
    { unfold r2. cbn [TRead t_dst0 t_dst1 t_complete t_err]. rewrite Hz, Z.eqb_refl. reflexivity. }
    split; [exact Hw2|]. split; [symmetry; exact Hp2|]. right. rewrite Hp2. split; [reflexivity|]. split; [apply zlen_0; exact Hz|reflexivity].
  - destruct (tread_pending (S fuel) r2 parts' e k Hw2) as (bs & err & r' & E & Hw' & Ep & Hn & Hc); [cbn; lia|exact Hk|].
    exists bs, err, r'. split; [exact E|]. split; [exact Hw'|]. split; [congruence|].
    destruct Hc as [->|Hc]; [left; auto|right; exact Hc].
Qed.

Lemma tread_enc fuel r parts e k : estate r parts e -> 0 < k -> (4 <= fuel)%nat ->
  (exists p parts', t_dst0 _ r = t_dst1 _ r /\ parts = p :: parts' /\ 4096 < zlen p /\ TRead T RS rd fuel r k = Panic) \/
  exists bs err r' parts' got, TRead T RS rd fuel r k = Ok (bs, err, r') /\ estate r' parts' e /\
    parts = got ++ parts' /\ Forall (fun p => zlen p <= 4096) got /\
    pending r ++ concat got = bs ++ pending r' /\
    (err = None /\ 0 < zlen bs \/ err = Some e /\ pending r' = [] /\ parts' = []).
Proof.
  intros Hw Hk Hf. pose proof Hw as (Hok & Hl & Es & Hst).
  pose proof Hok as (Hd & Hs & Hd01 & Hd0 & Hs01 & Hs1).
  destruct (Z.eq_dec (t_dst0 _ r) (t_dst1 _ r)) as [E01|N01].
  - assert (pending r = []) as Hpe.
    { unfold pending. apply zdrop_all. rewrite zlen_ztake by lia. lia. }
    destruct (t_complete _ r) eqn:Ec.
    + right. destruct Hst as [(_ & Ee & ->)|(H & _)]; [|discriminate].
      destruct fuel as [|fuel]; [lia|].
      exists [], (Some e), r, [], []. split.
      { cbn [TRead]. rewrite E01, Z.eqb_refl, Ec. cbn [negb]. rewrite Ee. reflexivity. }
      split; [exact Hw|]. split; [reflexivity|]. split; [constructor|]. rewrite Hpe. split; [reflexivity|]. right. auto.
    + destruct (tread_part fuel r parts e k Hw E01 Ec Hk Hf) as (p & parts' & -> & [[H1 H2]|(Hp & bs & err & r' & E & Hw' & Ep & Hc)]).
      * left. exists p, parts'. auto.
      * right. exists bs, err, r', parts', [p]. split; [exact E|]. split; [exact Hw'|]. split; [reflexivity|].
        split; [constructor; [exact Hp|constructor]|]. rewrite Hpe. cbn [concat app]. rewrite app_nil_r. split; [exact Ep|exact Hc].
  - right. destruct fuel as [|fuel]; [lia|].
    destruct (tread_pending fuel r parts e k Hw N01 Hk) as (bs & err & r' & E & Hw' & Ep & Hn & Hc).
    exists bs, err, r', parts, []. split; [exact E|]. split; [exact Hw'|]. split; [reflexivity|]. split; [constructor|].
    cbn [concat]. rewrite app_nil_r. split; [exact Ep|]. destruct Hc as [->|Hc]; [left; auto|right; exact Hc].
Qed.

Lemma tread_seq_enc fuel sizes : forall r parts e, estate r parts e -> Forall (fun k => 0 < k) sizes -> (4 <= fuel)%nat ->
  Forall (fun p => zlen p <= 4096) parts ->
  exists out err r' q, tread_seq T RS rd fuel r sizes = Ok (out, err, r') /\
    pending r ++ concat parts = out ++ q /\ (err = None /\ zlen sizes <= zlen out \/ err = Some e /\ q = []).
Proof.
  induction sizes as [|k sizes IH]; intros r parts e Hw Hks Hf Hp.
  - exists [], None, r, (pending r ++ concat parts). split; [reflexivity|]. split; [reflexivity|]. left. split; [reflexivity|cbn; lia].
  - apply Forall_cons_iff in Hks. destruct Hks as [Hk Hks]. cbn [tread_seq].
    destruct (tread_enc fuel r parts e k Hw Hk Hf) as [(p & parts' & _ & -> & Hx & _)|
      (bs & err & r1 & parts' & got & -> & Hw1 & -> & Hg & Ebs & Hc)].
    { apply Forall_cons_iff in Hp. lia. }
    cbn [bind]. apply Forall_app in Hp. destruct Hp as [_ Hp]. rewrite concat_app, app_assoc, Ebs, <- app_assoc.
    destruct Hc as [[-> Hn]|(-> & Hq & ->)].
    + destruct (IH r1 parts' e Hw1 Hks Hf Hp) as (out & err & r' & q & -> & Eq & Hc). cbn [bind].
      exists (bs ++ out), err, r', q. split; [reflexivity|]. split; [rewrite Eq, app_assoc; reflexivity|].
      rewrite zlen_app, zlen_cons. destruct Hc as [[-> Hc]|[-> ->]]; [left|right]; split; auto; lia.
    + exists bs, (Some e), r1, []. split; [reflexivity|]. rewrite Hq. split; [reflexivity|]. right. auto.
Qed.

Lemma tread_seq_panic fuel sizes : forall r parts e good bad rest, estate r parts e ->
  Forall (fun k => 0 < k) sizes -> (4 <= fuel)%nat -> parts = good ++ bad :: rest -> 4096 < zlen bad ->
  zlen (pending r ++ concat good) < zlen sizes ->
  tread_seq T RS rd fuel r sizes = Panic.
Proof.
  induction sizes as [|k sizes IH]; intros r parts e good bad rest Hw Hks Hf Ep Hbad Hlen.
  { rewrite zlen_nil in Hlen. pose proof (zlen_nonneg (pending r ++ concat good)). lia. }
  apply Forall_cons_iff in Hks. destruct Hks as [Hk Hks]. cbn [tread_seq].
  destruct (tread_enc fuel r parts e k Hw Hk Hf) as [(p & parts' & _ & _ & _ & ->)|
    (bs & err & r1 & parts' & got & -> & Hw1 & E2 & Hg & Ebs & Hc)]; [reflexivity|].
  cbn [bind]. rewrite E2 in Ep. 
  assert (exists good', good = got ++ good' /\ parts' = good' ++ bad :: rest) as (good' & -> & E3).
  { clear - Hg Ep Hbad. revert good Ep. induction Hg as [|x got Hx Hg IH]; intros good Ep.
    - exists good. auto.
    - destruct good as [|y good]; cbn [app] in Ep; injection Ep as <- Ep; [lia|].
      destruct (IH good Ep) as (g' & -> & E). exists g'. auto. }
  rewrite concat_app, app_assoc, Ebs, <- app_assoc, zlen_app, zlen_cons in Hlen.
  destruct Hc as [[-> Hn]|(-> & Hq & H0)]; [|rewrite H0 in E3; destruct good'; discriminate].
  rewrite (IH r1 parts' e good' bad rest Hw1 Hks Hf E3 Hbad); [reflexivity|]. lia.
Qed.

Lemma estate_new s chunks parts e : hands_out 4096 rd s chunks e -> converts chunks parts -> estate (TNewReader s) parts e.
Proof.
  intros Hh Hc. assert (zlen (zeros defaultBufSize) = 4096) as Hz by reflexivity.
  split; [unfold tr_ok, TNewReader; cbn [t_dst t_dst0 t_dst1 t_sbuf t_src0 t_src1]; repeat split; lia|].
  split; [cbn; lia|]. split; [reflexivity|]. right. split; [reflexivity|]. split; [reflexivity|]. exists chunks. auto.
Qed.

Lemma hands_out_bytes s chunks e : hands_out 4096 rd s chunks e ->
  Forall (Forall is_byte) chunks /\ Forall (fun c => zlen c <= 4096) chunks.
Proof. induction 1; split; constructor; try assumption; try constructor; tauto. Qed.

Lemma converts_total chunks : Forall (Forall is_byte) chunks -> exists parts, converts chunks parts.
Proof.
  induction 1 as [|d chunks Hd _ (parts & IH)]; [exists []; constructor|].
  destruct (C41_To_lemma grow d Hd) as (out & E & _). exists (out :: parts). constructor; assumption.
Qed.

(** C106, for all chunks *)
Lemma C106_exact_lemma s chunks e fuel sizes : hands_out 4096 rd s chunks e -> Forall (fun k => 0 < k) sizes -> (4 <= fuel)%nat ->
  exists parts, converts chunks parts /\
    (Forall (fun p => zlen p <= 4096) parts ->
      exists out err r', tread_seq T RS rd fuel (TNewReader s) sizes = Ok (out, err, r') /\
        is_prefix out (concat parts) /\ (err = None \/ err = Some e /\ out = concat parts) /\
        (zlen (concat parts) < zlen sizes -> err = Some e)) /\
    (forall good bad rest, parts = good ++ bad :: rest -> 4096 < zlen bad -> zlen (concat good) < zlen sizes ->
      tread_seq T RS rd fuel (TNewReader s) sizes = Panic).
Proof.
  intros Hh Hk Hf. destruct (converts_total chunks (proj1 (hands_out_bytes _ _ _ Hh))) as (parts & Hc).
  pose proof (estate_new s chunks parts e Hh Hc) as Hw.
  assert (pending (TNewReader s) = []) as Hp by reflexivity.
  exists parts. split; [exact Hc|]. split.
  - intros Hl. destruct (tread_seq_enc fuel sizes _ _ _ Hw Hk Hf Hl) as (out & err & r' & q & E & Eq & Hx).
    rewrite Hp in Eq. cbn [app] in Eq. exists out, err, r'. split; [exact E|]. split; [exists q; exact Eq|].
    destruct Hx as [[-> Hx]|[-> ->]].
    + split; [left; reflexivity|]. intros H. rewrite Eq, zlen_app in H. pose proof (zlen_nonneg q). lia.
    + rewrite app_nil_r in Eq. split; [right; auto|reflexivity].
  - intros good bad rest Ep Hb Hl. eapply (tread_seq_panic fuel sizes _ parts e good bad rest Hw Hk Hf Ep Hb).
    rewrite Hp. exact Hl.
Qed.
End Enc.

Lemma To_valid_parts grow chunks parts : Forall valid_utf8 chunks ->
  Forall2 (fun d p => To grow d = Ok (inl p)) chunks parts ->
  valid_utf8 (concat chunks) /\ To grow (concat chunks) = Ok (inl (concat parts)) /\
  Forall2 (fun d p => zlen p <= zlen d) chunks parts.
Proof.
  intros Hv H. induction H as [|d p ds ps Hd Hds IH].
  - split; [exists []; split; [constructor|reflexivity]|]. split; [apply (To_utf8 grow []); constructor|constructor].
  - apply Forall_cons_iff in Hv. destruct Hv as [Hv Hvs]. destruct (IH Hvs) as ((rs2 & Hs2 & E2) & Ec & Hl).
    pose proof Hv as (rs1 & Hs1 & E1). cbn [concat].
    assert (Forall is_byte d) as Hb by (rewrite E1; apply utf8_bytes; exact Hs1).
    assert (utf8 rs1 ++ utf8 rs2 = utf8 (rs1 ++ rs2)) as Eu by (unfold utf8; rewrite flat_map_app; reflexivity).
    assert (Forall is_scalar (rs1 ++ rs2)) as Hs by (apply Forall_app; auto).
    rewrite E1 in Hd. rewrite E2 in Ec. rewrite To_utf8 in Hd, Ec by assumption. injection Hd as Hd. injection Ec as Ec.
    split; [exists (rs1 ++ rs2); split; [exact Hs|]; rewrite E1, E2; exact Eu|].
    split; [rewrite E1, E2, Eu, To_utf8 by exact Hs; rewrite flat_map_app, Hd, Ec; reflexivity|].
    constructor; [|exact Hl].
    destruct (C41_To_lemma grow d Hb) as (out & E & _ & Hx). rewrite E1, To_utf8 in E by exact Hs1. injection E as <-.
    rewrite <- Hd. apply Hx. exact Hv.
Qed.

Lemma C106_lemma grow RS (rd : RS -> Z -> list Z * option error * RS) s chunks e fuel sizes :
  hands_out 4096 rd s chunks e -> Forall valid_utf8 chunks -> Forall (fun k => 0 < k) sizes -> (4 <= fuel)%nat ->
  exists bs out err r', To grow (concat chunks) = Ok (inl bs) /\
    tread_seq (enc_Transform grow) RS rd fuel (TNewReader s) sizes = Ok (out, err, r') /\
    is_prefix out bs /\ (err = None \/ err = Some e /\ out = bs) /\ (zlen bs < zlen sizes -> err = Some e).
Proof.
  intros Hh Hv Hk Hf. destruct (C106_exact_lemma grow RS rd s chunks e fuel sizes Hh Hk Hf) as (parts & Hc & Hok & _).
  destruct (To_valid_parts grow chunks parts Hv Hc) as (_ & E & Hl).
  destruct Hok as (out & err & r' & Er & H).
  { pose proof (proj2 (hands_out_bytes RS rd s chunks e Hh)) as H. clear - Hl H.
    induction Hl as [|d p ds ps Hd _ IH]; [constructor|]. apply Forall_cons_iff in H. constructor; [lia|]. apply IH. tauto. }
  exists (concat parts), out, err, r'. auto.
Qed.

(** ** Where transform.Reader over the encoder goes wrong *)
Lemma C106_cut_lemma : exists text right out r, encodes text right /\
  tread_seq (enc_Transform (fun old need => Z.max need (2 * old))) (list Z) bytes_rd 9 (TNewReader (utf8 text)) [4096; 4096; 4096] =
    Ok (out, Some EOF, r) /\ out <> right.
Proof.
  exists (repeat 0xAC00 1366), (gas 1366), (gas 1365 ++ repeat 0x3F 6). eexists.
  split; [apply gas_encodes|]. split.
  - vm_compute. reflexivity.
  - intros E. apply (f_equal zlen) in E. rewrite zlen_app, !gas_len in E. vm_compute in E. discriminate.
Qed.

Lemma To_result grow d p : Forall is_byte d -> To grow d = Ok (inl p) -> p = flat_map to_char (string_to_runes d).
Proof. intros Hb E. rewrite To_runes in E by exact Hb. congruence. Qed.

Lemma C106_panic_lemma : exists stream, Forall is_byte stream /\ zlen stream = 2049 /\ forall grow fuel k, 0 < k -> (4 <= fuel)%nat ->
  tread_seq (enc_Transform grow) (list Z) bytes_rd fuel (TNewReader stream) [k] = Panic.
Proof.
  exists (repeat 0xFF 2049). 
  assert (Forall is_byte (repeat 0xFF 2049)) as Hb.
  { apply Forall_forall. intros x Hx. apply repeat_spec in Hx. subst x. unfold is_byte. lia. }
  split; [exact Hb|]. split; [reflexivity|]. intros grow fuel k Hk Hf.
  assert (hands_out 4096 bytes_rd (repeat 0xFF 2049) [repeat 0xFF 2049; []] EOF) as Hh.
  { eapply hands_more; [vm_compute; reflexivity|vm_compute; discriminate|exact Hb|discriminate|].
    eapply hands_last; [reflexivity|vm_compute; discriminate|constructor]. }
  destruct (C106_exact_lemma grow _ bytes_rd _ _ _ fuel [k] Hh) as (parts & Hc & _ & Hp); [constructor; [exact Hk|constructor]|exact Hf|].
  inversion Hc as [|? p ? ps E1 E2]; subst. apply (Hp [] p ps); [reflexivity| |reflexivity].
  rewrite (To_result grow _ _ Hb E1). vm_compute. reflexivity.
Qed.

(** ** transform.Writer over the decoder *)
Lemma twrite_dec grow w data x : zlen (tw_buf _ w) = 4096 -> From grow data = Ok x ->
  (4096 < zlen (decode_part x) -> TWrite (dec_Transform grow) (list Z) buffer_wr w data = Panic) /\
  (zlen (decode_part x) <= 4096 -> exists w',
     TWrite (dec_Transform grow) (list Z) buffer_wr w data = Ok (fst (decode_answer data x), snd (decode_answer data x), w') /\
     tw_dst _ w' = tw_dst _ w ++ decode_part x /\ zlen (tw_buf _ w') = 4096).
Proof.
  intros Hw E. unfold TWrite, dec_Transform. rewrite E. cbn [bind]. destruct x as [out|e]; cbn [decode_part decode_answer fst snd].
  - cbn [bind]. rewrite go_copy_len, go_copy_take, Hw. split; intros Hl.
    + destruct (Z.gtb_spec (zlen out) 4096); [reflexivity|lia].
    + destruct (Z.gtb_spec (zlen out) 4096); [lia|]. rewrite ztake_all by lia. cbn [buffer_wr].
      eexists. split; [reflexivity|]. cbn [tw_dst tw_buf]. split; [reflexivity|]. rewrite go_copy_len. exact Hw.
  - split; intros Hl; [rewrite zlen_nil in Hl; lia|]. cbn [bind].
    destruct (Z.gtb_spec 0 (zlen (tw_buf _ w))); [lia|]. cbn [buffer_wr]. eexists. split; [reflexivity|].
    cbn [tw_dst tw_buf]. rewrite ztake_0. split; [reflexivity|exact Hw].
Qed.

Lemma From_total_res grow d : Forall is_byte d -> exists x, From grow d = Ok x.
Proof.
  intros Hb. destruct (decodes_or_cut d Hb) as [(rs & H)|(a & H)].
  - eexists. apply From_decodes, H.
  - eexists. eapply From_cut, H.
Qed.

Lemma twrite_seq_dec grow chunks : Forall (Forall is_byte) chunks ->
  exists decs, Forall2 (fun d x => From grow d = Ok x) chunks decs /\
   forall w, zlen (tw_buf _ w) = 4096 ->
    (Forall (fun x => zlen (decode_part x) <= 4096) decs -> exists w',
       twrite_seq (dec_Transform grow) (list Z) buffer_wr w chunks =
         Ok (map (fun p => decode_answer (fst p) (snd p)) (combine chunks decs), w') /\
       tw_dst _ w' = tw_dst _ w ++ concat (map decode_part decs) /\ zlen (tw_buf _ w') = 4096) /\
    (Exists (fun x => 4096 < zlen (decode_part x)) decs ->
       twrite_seq (dec_Transform grow) (list Z) buffer_wr w chunks = Panic).
Proof.
  induction 1 as [|d chunks Hd Hds IH].
  - exists []. split; [constructor|]. intros w Hw. split; [|intros H; inversion H].
    intros _. exists w. split; [reflexivity|]. cbn. rewrite app_nil_r. auto.
  - destruct IH as (decs & Hp & IH). destruct (From_total_res grow d Hd) as (x & E).
    exists (x :: decs). split; [constructor; assumption|]. intros w Hw.
    destruct (twrite_dec grow w d x Hw E) as [Hpan Hok]. cbn [twrite_seq].
    destruct (Z_le_dec (zlen (decode_part x)) 4096) as [Hl|Hl].
    + destruct (Hok Hl) as (w1 & -> & E1 & Hw1). cbn [bind].
      destruct (IH w1 Hw1) as [IH1 IH2]. split; intros H.
      * apply Forall_cons_iff in H. destruct (IH1 (proj2 H)) as (w2 & -> & E2 & Hw2). cbn [bind].
        exists w2. split; [cbn [combine map fst snd]; rewrite <- surjective_pairing; reflexivity|].
        split; [|exact Hw2]. rewrite E2, E1. cbn [map concat]. rewrite app_assoc. reflexivity.
      * apply Exists_cons in H. destruct H as [H|H]; [lia|]. rewrite (IH2 H). reflexivity.
    + split; intros H; [apply Forall_cons_iff in H; lia|].
      rewrite Hpan by lia. reflexivity.
Qed.

Lemma tclose_dec grow w : zlen (tw_buf _ w) = 4096 -> exists w',
  TClose (dec_Transform grow) (list Z) buffer_wr w = Ok (None, w') /\ tw_dst _ w' = tw_dst _ w.
Proof.
  intros Hw. unfold TClose, dec_Transform. rewrite (From_decodes grow [] [] dec_nil). cbn [bind utf8 flat_map zlen].
  rewrite go_copy_len, Hw. cbn. eexists. split; [reflexivity|]. cbn. apply app_nil_r.
Qed.

Lemma C107_exact_lemma grow chunks : Forall (Forall is_byte) chunks ->
  exists decs, Forall2 (fun d x => From grow d = Ok x) chunks decs /\
    (Forall (fun x => zlen (decode_part x) <= 4096) decs -> exists w w',
       twrite_seq (dec_Transform grow) (list Z) buffer_wr (TNewWriter []) chunks =
         Ok (map (fun p => decode_answer (fst p) (snd p)) (combine chunks decs), w) /\
       TClose (dec_Transform grow) (list Z) buffer_wr w = Ok (None, w') /\
       tw_dst _ w' = concat (map decode_part decs)) /\
    (Exists (fun x => 4096 < zlen (decode_part x)) decs ->
       twrite_seq (dec_Transform grow) (list Z) buffer_wr (TNewWriter []) chunks = Panic).
Proof.
  intros H. destruct (twrite_seq_dec grow chunks H) as (decs & Hp & Hw).
  exists decs. split; [exact Hp|]. destruct (Hw (TNewWriter []) eq_refl) as [H1 H2]. split; [|exact H2].
  intros Hl. destruct (H1 Hl) as (w & E & Ed & Hb). destruct (tclose_dec grow w Hb) as (w' & Ec & Ew).
  exists w, w'. split; [exact E|]. split; [exact Ec|]. rewrite Ew, Ed. reflexivity.
Qed.

Lemma C107_lemma grow chunks texts : Forall (Forall is_byte) chunks ->
  Forall2 (fun d t => From grow d = Ok (inl t)) chunks texts -> Forall (fun t => zlen t <= 4096) texts ->
  exists w w', From grow (concat chunks) = Ok (inl (concat texts)) /\
    twrite_seq (dec_Transform grow) (list Z) buffer_wr (TNewWriter []) chunks =
      Ok (map (fun d => (zlen d, None)) chunks, w) /\
    TClose (dec_Transform grow) (list Z) buffer_wr w = Ok (None, w') /\ tw_dst _ w' = concat texts.
Proof.
  intros Hb Ht Hl. destruct (C107_exact_lemma grow chunks Hb) as (decs & Hd & Hok & _).
  assert (decs = map inl texts) as ->.
  { clear - Ht Hd. revert decs Hd. induction Ht as [|d t ds ts H Hs IH]; intros decs Hd; inversion Hd as [|? x ? xs H1 H2]; subst; [reflexivity|].
    cbn [map]. f_equal; [congruence|auto]. }
  destruct Hok as (w & w' & E & Ec & Ew).
  { apply Forall_map. exact Hl. }
  exists w, w'. split.
  - clear - Hb Ht. assert (exists rs, decodes (concat chunks) rs /\ utf8 rs = concat texts) as (rs & H & <-); [|apply From_decodes, H].
    induction Ht as [|d t ds ts H Hs IH]; [exists []; split; [constructor|reflexivity]|].
    apply Forall_cons_iff in Hb. destruct Hb as [Hb Hbs]. destruct (IH Hbs) as (r2 & H2 & E2).
    destruct (decodes_or_cut d Hb) as [(r1 & H1)|(a & H1)]; [|rewrite (From_cut grow d a H1) in H; discriminate].
    rewrite (From_decodes grow d r1 H1) in H. injection H as <-.
    exists (r1 ++ r2). cbn [concat]. split; [apply decodes_app; assumption|]. unfold utf8 in *. rewrite flat_map_app, E2. reflexivity.
  - split; [|split; [exact Ec|]].
    + rewrite E. do 2 f_equal. clear - Ht. induction Ht as [|d t ds ts _ _ IH]; [reflexivity|].
      cbn [map combine fst snd decode_answer]. rewrite IH. reflexivity.
    + rewrite Ew, map_map. cbn [decode_part]. rewrite map_id. reflexivity.
Qed.

(** A character split between two Writes is lost; 1366 syllables at once are too many. *)
Lemma C107_split_lemma : exists chunks text w, From (fun old need => Z.max need (2 * old)) (concat chunks) = Ok (inl text) /\ text <> [] /\
  twrite_seq (dec_Transform (fun old need => Z.max need (2 * old))) (list Z) buffer_wr (TNewWriter []) chunks =
    Ok ([(0, Some ErrCP949UnexpectedStream); (0, Some ErrCP949UnexpectedStream)], w) /\ tw_dst _ w = [].
Proof.
  exists [[0xB0]; [0xA1]], (utf8 [0xAC00]). eexists. split; [vm_compute; reflexivity|]. split; [discriminate|].
  split; [vm_compute; reflexivity|reflexivity].
Qed.

Lemma C107_panic_lemma : exists data text, forall grow, From grow data = Ok (inl text) /\
  TWrite (dec_Transform grow) (list Z) buffer_wr (TNewWriter []) data = Panic.
Proof.
  exists (gas 1366), (utf8 (repeat 0xAC00 1366)). intros grow.
  pose proof (From_decodes grow _ _ (gas_decodes 1366)) as E. split; [exact E|].
  apply (proj1 (twrite_dec grow (TNewWriter []) (gas 1366) _ eq_refl E)).
  cbn [decode_part]. rewrite gas_utf8_len. reflexivity.
Qed.
