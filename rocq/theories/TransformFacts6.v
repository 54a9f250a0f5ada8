(** transform.Reader over the decoder, for all chunks: lemmas behind C58_exact_partial. *)
From Coq Require Import ZArith List Bool Lia.
From Coq Require Import ZifyBool.
From Verif Require Import Base Spec Facts Utf8 Utf8Facts SortSearch TableFrom TableTo SpecCp949
  SpecIO SpecTrans PMapFacts Cp949Model TransformModel TransformModel3 SliceFacts TableFacts Cp949Facts Cp949Facts2 StreamFacts
  StreamFacts3 PipeFacts TransformFacts TransformFacts2 TransformFacts3 TransformFacts5.
Import ListNotations.
Local Open Scope Z_scope.
Local Opaque fromTable toTable dec_tree enc_tree.

Section Dec.
Variable grow : Z -> Z -> Z.
Variable RS : Type.
Variable rd : RS -> Z -> list Z * option error * RS.
Notation T := (dec_Transform grow).
Notation until := (decoded_until (From grow)).

Definition dstate (r : treader RS) (parts : list (list Z)) (e : error) : Prop :=
  tr_ok r /\ t_dst1 _ r <= 4096 /\
  (t_complete _ r = true /\ t_err _ r = Some e /\ parts = [] \/
   t_complete _ r = false /\ t_src0 _ r = t_src1 _ r /\ t_err _ r = None /\
     exists chunks e0, hands_out 4096 rd (t_src _ r) chunks e0 /\ until e0 chunks parts e).

Lemma tread_pending fuel r parts e k : dstate r parts e -> t_dst0 _ r <> t_dst1 _ r -> 0 < k ->
  exists bs err r', TRead T RS rd (S fuel) r k = Ok (bs, err, r') /\ dstate r' parts e /\
    pending r = bs ++ pending r' /\ 0 < zlen bs /\
    (err = None \/ err = Some e /\ pending r' = [] /\ parts = []).
Proof.
  intros (Hok & Hl & Hst) N01 Hk.
  pose proof Hok as (Hd & Hs & Hd01 & Hd0 & Hs01 & Hs1).
  destruct (wpend RS r k Hok Hl N01 Hk) as (Hp & Hn & Hok').
  cbn [TRead]. destruct (Z.eqb_spec (t_dst0 _ r) (t_dst1 _ r)) as [?|_]; [lia|]. cbn [negb].
  destruct (Z.gtb_spec (t_dst1 _ r) (zlen (t_dst _ r))) as [?|_]; [lia|].
  destruct (Z.gtb_spec (t_dst0 _ r) (t_dst1 _ r)) as [?|_]; [lia|]. cbn [orb].
  set (n := Z.min k (t_dst1 _ r - t_dst0 _ r)) in *.
  set (out := ztake n (zdrop (t_dst0 _ r) (t_dst _ r))) in *.
  set (r' := mkTR RS (t_src _ r) (t_err _ r) (t_dst _ r) (t_dst0 _ r + n) (t_dst1 _ r)
               (t_sbuf _ r) (t_src0 _ r) (t_src1 _ r) (t_complete _ r)) in *.
  assert (dstate r' parts e) as Hw by (split; [exact Hok'|]; split; [exact Hl|exact Hst]).
  destruct ((t_dst0 _ r + n =? t_dst1 _ r) && t_complete _ r) eqn:Ec.
  - apply andb_true_iff in Ec. destruct Ec as [Ec1 Ec2].
    exists out, (t_err _ r), r'. split; [reflexivity|]. split; [exact Hw|].
    split; [exact Hp|]. split; [lia|].
    destruct Hst as [(_ & -> & ->)|(H & _)]; [|congruence]. right. split; [reflexivity|]. split; [|reflexivity].
    unfold pending, r'. cbn [t_dst0 t_dst1 t_dst].
    apply zdrop_all. rewrite zlen_ztake by lia. lia.
  - exists out, None, r'. split; [reflexivity|]. split; [exact Hw|].
    split; [exact Hp|]. split; [lia|]. left. reflexivity.
Qed.


Lemma dec_nonempty chunk p : Forall is_byte chunk -> From grow chunk = Ok (inl p) -> chunk <> [] -> 0 < zlen p.
Proof.
  intros Hb E Hne. destruct (From_ok_inv grow chunk p Hb E) as (rs & Hd & ->).
  apply utf8_nonempty; [|eapply decodes_scalar; exact Hd]. intros ->. inversion Hd; subst. congruence.
Qed.

(** A Read with nothing pending: the end, a part that fits, or a panic. *)
Lemma tread_part fuel r parts e k : dstate r parts e -> t_dst0 _ r = t_dst1 _ r -> t_complete _ r = false -> 0 < k -> (4 <= fuel)%nat ->
  (parts = [] /\ exists r', TRead T RS rd fuel r k = Ok ([], Some e, r') /\ dstate r' [] e /\ pending r' = []) \/
  exists p parts', parts = p :: parts' /\
   (4096 < zlen p /\ TRead T RS rd fuel r k = Panic \/
    zlen p <= 4096 /\
    exists bs err r', TRead T RS rd fuel r k = Ok (bs, err, r') /\ dstate r' parts' e /\
    p = bs ++ pending r' /\
    (err = None /\ 0 < zlen bs \/ err = Some e /\ pending r' = [] /\ parts' = [])).
Proof.
  intros (Hok & Hl & Hst) E01 Ec Hk Hf. destruct fuel as [|[|[|[|fuel]]]]; try lia. clear Hf.
  pose proof Hok as (Hd & Hs & Hd01 & Hd0 & Hs01 & Hs1).
  destruct Hst as [(H & _)|(_ & Es & Ee & chunks & e0 & Hdel & Hconv)]; [congruence|].
  assert (exists chunk cerr s', rd (t_src _ r) 4096 = (chunk, cerr, s') /\ zlen chunk <= 4096 /\
    Forall is_byte chunk /\ (cerr = None -> chunk <> []) /\
    ((exists x, From grow chunk = Ok (inr x) /\ parts = [] /\ e = match cerr with None | Some EOF => x | Some e' => e' end) \/
     exists p parts', From grow chunk = Ok (inl p) /\ parts = p :: parts' /\
     (cerr = Some e /\ parts' = [] \/ cerr = None /\
       exists chunks' e0, hands_out 4096 rd s' chunks' e0 /\ until e0 chunks' parts' e))) as
    (chunk & cerr & s' & Erd & Hcl & Hb & Hnemp & Hcase).
  { inversion Hdel as [? ? chunk s' Erd Hcl Hb|? ? chunk chunks' s' Erd Hcl Hb Hne Hn]; subst.
    - exists chunk, (Some e0), s'. repeat (split; [assumption || reflexivity || discriminate|]).
      inversion Hconv as [|? ? p ps ? Hp Hps|? ? x Hx]; subst.
      + right. exists p, ps. split; [exact Hp|]. split; [reflexivity|]. inversion Hps; subst. left. auto.
      + left. exists x. split; [exact Hx|]. split; [reflexivity|]. destruct e0; reflexivity.
    - exists chunk, None, s'. repeat (split; [assumption || reflexivity || auto|]).
      inversion Hconv as [|? ? p ps ? Hp Hps|? ? x Hx]; subst.
      + right. exists p, ps. split; [exact Hp|]. split; [reflexivity|]. right. split; [reflexivity|]. exists chunks', e0. auto.
      + left. exists x. split; [exact Hx|]. split; [reflexivity|]. destruct chunks'; [inversion Hn|reflexivity]. }
  destruct (t_fill_spec RS rd r chunk cerr s' Hok Es Erd Hcl) as
    (r1 & E1 & Hok1 & Hb1 & Hsrc1 & Herr1 & Hd1 & Hd01' & Hd11 & Hc1 & Hs01' & Hs11').
  remember (S (S fuel)) as fu2 eqn:Ef2. remember (S fu2) as fu3 eqn:Ef3.
  assert (TRead T RS rd (S fu3) r k = TRead T RS rd fu3 r1 k) as ->.
  { cbn [TRead]. rewrite E01, Es, !Z.eqb_refl, Ec, Ee. cbn [negb orb is_none]. rewrite E1. reflexivity. }
  rewrite Ef3.
  assert (negb (t_src0 _ r1 =? t_src1 _ r1) || negb (is_none (t_err _ r1)) = true) as Hgo.
  { rewrite Hs01', Hs11', Herr1. destruct cerr; [apply orb_true_r|].
    destruct (Z.eqb_spec 0 (zlen chunk)) as [H|H]; [|reflexivity].
    exfalso. apply (Hnemp eq_refl). apply zlen_0. auto. }
  destruct Hok1 as (Hx1 & Hx2 & Hx3 & Hx4 & Hx5 & Hx6).
  destruct Hcase as [(x & Ef & -> & Hex)|(p & parts' & Eto & -> & Hnext)].
  { left. split; [reflexivity|].
    assert (x = ErrCP949UnexpectedStream) as ->.
    { destruct (decodes_or_cut chunk Hb) as [(rs & H)|(a & H)].
      - rewrite (From_decodes grow _ _ H) in Ef. discriminate.
      - rewrite (From_cut grow _ _ H) in Ef. congruence. }
    set (r2 := mkTR RS s' (Some e) (t_dst _ r1) 0 0 (t_sbuf _ r1) (t_src0 _ r1) (t_src1 _ r1) true).
    assert (TRead T RS rd (S fu2) r1 k = TRead T RS rd fu2 r2 k) as ->.
    { cbn [TRead]. rewrite Hd01', Hd11, E01, Z.eqb_refl, Hc1, Ec. cbn [negb]. rewrite Hgo.
      fold (buffered r1). rewrite Hb1. unfold dec_Transform. rewrite Ef. cbn [bind is_short_dst is_short_src andb].
      rewrite Z.add_0_r, Hsrc1, Herr1. unfold r2. rewrite Hex. destruct cerr as [[]|]; reflexivity. }
    exists r2. rewrite Ef2. split; [reflexivity|]. split; [|reflexivity].
    split; [unfold tr_ok, r2; cbn [t_dst t_dst0 t_dst1 t_sbuf t_src0 t_src1]; repeat split; lia|].
    split; [cbn; lia|]. left. auto. }
  right. exists p, parts'. split; [reflexivity|].
  set (r2 := mkTR RS s' cerr (go_copy (t_dst _ r1) p) 0 (zlen p) (t_sbuf _ r1)
                  (t_src1 _ r1) (t_src1 _ r1) (negb (is_none cerr))).
  assert (TRead T RS rd (S fu2) r1 k = TRead T RS rd fu2 r2 k) as ->.
  { cbn [TRead]. rewrite Hd01', Hd11, E01, Z.eqb_refl, Hc1, Ec. cbn [negb]. rewrite Hgo.
    fold (buffered r1). rewrite Hb1. unfold dec_Transform. rewrite Eto.
    cbn [bind]. rewrite Hs01'. change (0 + zlen chunk) with (zlen chunk). rewrite <- Hs11', Z.eqb_refl. cbn [negb].
    rewrite Hsrc1, Herr1. reflexivity. }
  pose proof (zlen_nonneg p) as Hp0.
  rewrite Ef2.
  destruct (Z_le_dec (zlen p) 4096) as [Hul|Hul].
  2:{ left. split; [lia|]. unfold r2. cbn [TRead t_dst0 t_dst1 t_dst].
      destruct (Z.eqb_spec 0 (zlen p)) as [?|_]; [lia|]. cbn [negb]. rewrite go_copy_len, Hx1.
      destruct (Z.gtb_spec (zlen p) 4096); [reflexivity|lia]. }
  right. split; [exact Hul|].
  assert (dstate r2 parts' e) as Hw2.
  { split.
    - unfold tr_ok, r2. cbn [t_dst t_dst0 t_dst1 t_sbuf t_src0 t_src1]. rewrite go_copy_len. repeat split; lia.
    - split; [exact Hul|]. unfold r2; cbn [t_complete t_err t_src t_src0 t_src1].
      destruct Hnext as [[-> ->]|(-> & Hn)]; [left|right]; auto. }
  assert (pending r2 = p) as Hp2.
  { unfold pending, r2. cbn [t_dst t_dst0 t_dst1]. rewrite zdrop_0, go_copy_take, Hx1. apply ztake_all. lia. }
  destruct (Z.eq_dec (zlen p) 0) as [Hz|Hz].
  - (* only the last chunk can be empty *)
    destruct Hnext as [[-> ->]|(-> & _)]; [|pose proof (dec_nonempty chunk p Hb Eto (Hnemp eq_refl)); lia].
    exists [], (Some e), r2. split.
    { unfold r2. cbn [TRead t_dst0 t_dst1 t_complete t_err]. rewrite Hz, Z.eqb_refl. reflexivity. }
    split; [exact Hw2|]. split; [symmetry; exact Hp2|]. right. rewrite Hp2. split; [reflexivity|]. split; [apply zlen_0; exact Hz|reflexivity].
  - destruct (tread_pending (S fuel) r2 parts' e k Hw2) as (bs & err & r' & E & Hw' & Ep & Hn & Hc); [cbn; lia|exact Hk|].
    exists bs, err, r'. split; [exact E|]. split; [exact Hw'|]. split; [congruence|].
    destruct Hc as [->|Hc]; [left; auto|right; exact Hc].
Qed.

Lemma tread_dec fuel r parts e k : dstate r parts e -> 0 < k -> (4 <= fuel)%nat ->
  (exists p parts', t_dst0 _ r = t_dst1 _ r /\ parts = p :: parts' /\ 4096 < zlen p /\ TRead T RS rd fuel r k = Panic) \/
  exists bs err r' parts' got, TRead T RS rd fuel r k = Ok (bs, err, r') /\ dstate r' parts' e /\
    parts = got ++ parts' /\ Forall (fun p => zlen p <= 4096) got /\
    pending r ++ concat got = bs ++ pending r' /\
    (err = None /\ 0 < zlen bs \/ err = Some e /\ pending r' = [] /\ parts' = []).
Proof.
  intros Hw Hk Hf. pose proof Hw as (Hok & Hl & Hst).
  pose proof Hok as (Hd & Hs & Hd01 & Hd0 & Hs01 & Hs1).
  destruct (Z.eq_dec (t_dst0 _ r) (t_dst1 _ r)) as [E01|N01].
  - assert (pending r = []) as Hpe.
    { unfold pending. apply zdrop_all. rewrite zlen_ztake by lia. lia. }
    destruct (t_complete _ r) eqn:Ec.
    + right. destruct Hst as [(_ & Ee & ->)|(H & _)]; [|discriminate].
      destruct fuel as [|fuel]; [lia|].
      exists [], (Some e), r, [], []. split.
      { cbn [TRead]. rewrite E01, Z.eqb_refl, Ec. cbn [negb]. rewrite Ee. reflexivity. }
      split; [exact Hw|]. split; [reflexivity|]. split; [constructor|]. rewrite Hpe. split; [reflexivity|]. right. auto.
    + destruct (tread_part fuel r parts e k Hw E01 Ec Hk Hf) as [(-> & r' & E & Hw' & Hp')|(p & parts' & -> & [[H1 H2]|(Hp & bs & err & r' & E & Hw' & Ep & Hc)])].
      * right. exists [], (Some e), r', [], []. split; [exact E|]. split; [exact Hw'|]. split; [reflexivity|]. split; [constructor|].
        rewrite Hpe, Hp'. split; [reflexivity|]. right. auto.
      * left. exists p, parts'. auto.
      * right. exists bs, err, r', parts', [p]. split; [exact E|]. split; [exact Hw'|]. split; [reflexivity|].
        split; [constructor; [exact Hp|constructor]|]. rewrite Hpe. cbn [concat app]. rewrite app_nil_r. split; [exact Ep|exact Hc].
  - right. destruct fuel as [|fuel]; [lia|].
    destruct (tread_pending fuel r parts e k Hw N01 Hk) as (bs & err & r' & E & Hw' & Ep & Hn & Hc).
    exists bs, err, r', parts, []. split; [exact E|]. split; [exact Hw'|]. split; [reflexivity|]. split; [constructor|].
    cbn [concat]. rewrite app_nil_r. split; [exact Ep|]. destruct Hc as [->|Hc]; [left; auto|right; exact Hc].
Qed.

Lemma tread_seq_dec fuel sizes : forall r parts e, dstate r parts e -> Forall (fun k => 0 < k) sizes -> (4 <= fuel)%nat ->
  Forall (fun p => zlen p <= 4096) parts ->
  exists out err r' q, tread_seq T RS rd fuel r sizes = Ok (out, err, r') /\
    pending r ++ concat parts = out ++ q /\ (err = None /\ zlen sizes <= zlen out \/ err = Some e /\ q = []).
Proof.
  induction sizes as [|k sizes IH]; intros r parts e Hw Hks Hf Hp.
  - exists [], None, r, (pending r ++ concat parts). split; [reflexivity|]. split; [reflexivity|]. left. split; [reflexivity|cbn; lia].
  - apply Forall_cons_iff in Hks. destruct Hks as [Hk Hks]. cbn [tread_seq].
    destruct (tread_dec fuel r parts e k Hw Hk Hf) as [(p & parts' & _ & -> & Hx & _)|
      (bs & err & r1 & parts' & got & -> & Hw1 & -> & Hg & Ebs & Hc)].
    { apply Forall_cons_iff in Hp. lia. }
    cbn [bind]. apply Forall_app in Hp. destruct Hp as [_ Hp]. rewrite concat_app, app_assoc, Ebs, <- app_assoc.
    destruct Hc as [[-> Hn]|(-> & Hq & ->)].
    + destruct (IH r1 parts' e Hw1 Hks Hf Hp) as (out & err & r' & q & -> & Eq & Hc). cbn [bind].
      exists (bs ++ out), err, r', q. split; [reflexivity|]. split; [rewrite Eq, app_assoc; reflexivity|].
      rewrite zlen_app, zlen_cons. destruct Hc as [[-> Hc]|[-> ->]]; [left|right]; split; auto; lia.
    + exists bs, (Some e), r1, []. split; [reflexivity|]. rewrite Hq. split; [reflexivity|]. right. auto.
Qed.

Lemma tread_seq_panic fuel sizes : forall r parts e good bad rest, dstate r parts e ->
  Forall (fun k => 0 < k) sizes -> (4 <= fuel)%nat -> parts = good ++ bad :: rest -> 4096 < zlen bad ->
  zlen (pending r ++ concat good) < zlen sizes ->
  tread_seq T RS rd fuel r sizes = Panic.
Proof.
  induction sizes as [|k sizes IH]; intros r parts e good bad rest Hw Hks Hf Ep Hbad Hlen.
  { rewrite zlen_nil in Hlen. pose proof (zlen_nonneg (pending r ++ concat good)). lia. }
  apply Forall_cons_iff in Hks. destruct Hks as [Hk Hks]. cbn [tread_seq].
  destruct (tread_dec fuel r parts e k Hw Hk Hf) as [(p & parts' & _ & _ & _ & ->)|
    (bs & err & r1 & parts' & got & -> & Hw1 & E2 & Hg & Ebs & Hc)]; [reflexivity|].
  cbn [bind]. rewrite E2 in Ep. 
  assert (exists good', good = got ++ good' /\ parts' = good' ++ bad :: rest) as (good' & -> & E3).
  { clear - Hg Ep Hbad. revert good Ep. induction Hg as [|x got Hx Hg IH]; intros good Ep.
    - exists good. auto.
    - destruct good as [|y good]; cbn [app] in Ep; injection Ep as <- Ep; [lia|].
      destruct (IH good Ep) as (g' & -> & E). exists g'. auto. }
  rewrite concat_app, app_assoc, Ebs, <- app_assoc, zlen_app, zlen_cons in Hlen.
  destruct Hc as [[-> Hn]|(-> & Hq & H0)]; [|rewrite H0 in E3; destruct good'; discriminate].
  rewrite (IH r1 parts' e good' bad rest Hw1 Hks Hf E3 Hbad); [reflexivity|]. lia.
Qed.

Lemma dstate_new s chunks parts e e0 : hands_out 4096 rd s chunks e0 -> until e0 chunks parts e -> dstate (TNewReader s) parts e.
Proof.
  intros Hh Hc. assert (zlen (zeros defaultBufSize) = 4096) as Hz by reflexivity.
  split; [unfold tr_ok, TNewReader; cbn [t_dst t_dst0 t_dst1 t_sbuf t_src0 t_src1]; repeat split; lia|].
  split; [cbn; lia|]. right. split; [reflexivity|]. split; [reflexivity|]. split; [reflexivity|]. exists chunks, e0. auto.
Qed.
Lemma until_total e chunks : Forall (Forall is_byte) chunks -> exists parts e', until e chunks parts e'.
Proof.
  induction 1 as [|d chunks Hd _ (parts & e' & IH)]; [exists [], e; constructor|].
  destruct (From_total_res grow d Hd) as ([p|x] & E).
  - exists (p :: parts), e'. constructor; assumption.
  - do 2 eexists. apply until_bad. exact E.
Qed.

Lemma C58_exact_lemma s chunks e fuel sizes : hands_out 4096 rd s chunks e -> Forall (fun k => 0 < k) sizes -> (4 <= fuel)%nat ->
  exists parts e', until e chunks parts e' /\
    (Forall (fun p => zlen p <= 4096) parts ->
      exists out err r', tread_seq T RS rd fuel (TNewReader s) sizes = Ok (out, err, r') /\
        is_prefix out (concat parts) /\ (err = None \/ err = Some e' /\ out = concat parts) /\
        (zlen (concat parts) < zlen sizes -> err = Some e')) /\
    (forall good bad rest, parts = good ++ bad :: rest -> 4096 < zlen bad -> zlen (concat good) < zlen sizes ->
      tread_seq T RS rd fuel (TNewReader s) sizes = Panic).
Proof.
  intros Hh Hk Hf. destruct (until_total e chunks (proj1 (hands_out_bytes _ _ _ _ _ Hh))) as (parts & e' & Hc).
  pose proof (dstate_new s chunks parts e' e Hh Hc) as Hw.
  assert (pending (TNewReader s) = []) as Hp by reflexivity.
  exists parts, e'. split; [exact Hc|]. split.
  - intros Hl. destruct (tread_seq_dec fuel sizes _ _ _ Hw Hk Hf Hl) as (out & err & r' & q & E & Eq & Hx).
    rewrite Hp in Eq. cbn [app] in Eq. exists out, err, r'. split; [exact E|]. split; [exists q; exact Eq|].
    destruct Hx as [[-> Hx]|[-> ->]].
    + split; [left; reflexivity|]. intros H. rewrite Eq, zlen_app in H. pose proof (zlen_nonneg q). lia.
    + rewrite app_nil_r in Eq. split; [right; auto|reflexivity].
  - intros good bad rest Ep Hb Hl. eapply (tread_seq_panic fuel sizes _ parts e' good bad rest Hw Hk Hf Ep Hb).
    rewrite Hp. exact Hl.
Qed.
End Dec.
