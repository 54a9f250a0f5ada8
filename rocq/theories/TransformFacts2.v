(** transform.Reader over the decoder: lemmas behind C58 and C64. *)
From Coq Require Import ZArith List Bool Lia.
From Coq Require Import ZifyBool.
From Verif Require Import Base Spec Facts Utf8 Utf8Facts SortSearch TableFrom TableTo SpecCp949
  SpecIO PMapFacts Cp949Model TransformModel SliceFacts TableFacts Cp949Facts Cp949Facts2 StreamFacts
  TransformFacts.
Import ListNotations.
Local Open Scope Z_scope.
Local Opaque fromTable toTable dec_tree enc_tree.

Definition buffered {RS} (r : treader RS) : list Z :=
  zdrop (t_src0 _ r) (ztake (t_src1 _ r) (t_sbuf _ r)).
Definition pending {RS} (r : treader RS) : list Z :=
  zdrop (t_dst0 _ r) (ztake (t_dst1 _ r) (t_dst _ r)).

Lemma zsub_len {A} lo hi (l : list A) : 0 <= lo <= hi -> hi <= zlen l ->
  zlen (zdrop lo (ztake hi l)) = hi - lo.
Proof. intros H1 H2. rewrite zlen_zdrop, zlen_ztake by lia. lia. Qed.

Definition tr_ok {RS} (r : treader RS) : Prop :=
  zlen (t_dst _ r) = 4096 /\ zlen (t_sbuf _ r) = 4096 /\
  0 <= t_dst0 _ r <= t_dst1 _ r /\ t_dst0 _ r <= 4096 /\ 0 <= t_src0 _ r <= t_src1 _ r /\ t_src1 _ r <= 4096.

(** Filling a reader whose source buffer is used up. *)
Lemma t_fill_spec RS (rd : RS -> Z -> list Z * option error * RS) r chunk err s' :
  tr_ok r -> t_src0 _ r = t_src1 _ r -> rd (t_src _ r) 4096 = (chunk, err, s') -> zlen chunk <= 4096 ->
  exists r', t_fill RS rd r = Ok r' /\ tr_ok r' /\ buffered r' = chunk /\ t_src _ r' = s' /\
    t_err _ r' = err /\ t_dst _ r' = t_dst _ r /\ t_dst0 _ r' = t_dst0 _ r /\ t_dst1 _ r' = t_dst1 _ r /\
    t_complete _ r' = t_complete _ r /\ t_src0 _ r' = 0 /\ t_src1 _ r' = zlen chunk.
Proof.
  intros (Hd & Hs & Hd01 & Hd0 & Hs01 & Hs1) E0 Erd Hl. unfold t_fill.
  assert (zdrop (t_src0 _ r) (ztake (t_src1 _ r) (t_sbuf _ r)) = []) as Hk
    by (apply zdrop_all; rewrite zlen_ztake by lia; lia).
  rewrite Hk. pose proof (zlen_nonneg chunk) as Hn.
  assert ((if t_src0 _ r =? 0 then (t_sbuf _ r, t_src0 _ r, t_src1 _ r)
           else (zwrite (t_sbuf _ r) 0 [], 0, zlen (@nil Z))) = (t_sbuf _ r, 0, 0)) as ->.
  { destruct (Z.eqb_spec (t_src0 _ r) 0) as [H|H].
    - rewrite <- E0, H. reflexivity.
    - rewrite zwrite_0. reflexivity. }
  rewrite Hs. change (4096 - 0) with 4096. rewrite Erd. change (0 + zlen chunk) with (zlen chunk).
  destruct (Z.gtb_spec (zlen chunk) 4096) as [H|_]; [lia|].
  eexists. split; [reflexivity|].
  assert (zlen (zwrite (t_sbuf RS r) 0 chunk) = 4096) as Hw by (rewrite zlen_zwrite; lia).
  split; [|split; [|cbn; repeat split; reflexivity]].
  - unfold tr_ok. cbn. repeat split; try assumption; lia.
  - unfold buffered. cbn [t_src0 t_src1 t_sbuf]. rewrite zdrop_0.
    unfold zwrite. rewrite ztake_0. cbn [app].
    apply ztake_app_exact. reflexivity.
Qed.

(** ** Soundness, for every wrapped reader *)
Section Logged.
Variable grow : Z -> Z -> Z.
Variable RS : Type.
Variable rd : RS -> Z -> list Z * option error * RS.
Hypothesis rd_bytes : forall s k, Forall is_byte (fst (fst (rd s k))).
Notation LS := (RS * list (list Z))%type.
Notation T := (dec_Transform grow).

(** The states a reader goes through, with the bytes [out] it has delivered. *)
Definition tinv (r : treader LS) (out : list Z) : Prop :=
  tr_ok r /\ exists done lost rs, snd (t_src _ r) = done ++ lost /\ decodes (concat done) rs /\
    (t_dst1 _ r <= 4096 -> out ++ pending r = utf8 rs) /\
    (t_complete _ r = false /\ t_dst0 _ r = t_dst1 _ r /\ Forall is_byte (buffered r) /\
       (lost = [buffered r] \/ lost = [] /\ buffered r = []) \/
     t_complete _ r = false /\ lost = [] /\ t_src0 _ r = t_src1 _ r /\ t_err _ r = None \/
     t_complete _ r = true /\ lost = [] \/
     t_complete _ r = true /\ t_dst0 _ r = t_dst1 _ r /\ t_err _ r <> Some EOF /\ t_dst1 _ r <= 4096 /\
       exists c, lost = [c] /\ truncated c).

Lemma tread_sound fuel : forall r out k bs err r', tinv r out -> 0 <= k ->
  TRead T LS (logged rd) fuel r k = Ok (bs, err, r') ->
  tinv r' (out ++ bs) /\
  (forall e, err = Some e -> t_complete _ r' = true /\ t_dst0 _ r' = t_dst1 _ r' /\ t_dst1 _ r' <= 4096 /\ t_err _ r' = Some e).
Proof.
  induction fuel as [|fuel IH]; intros r out k bs err r' (Hok & done & lost & rs & Hlog & Hdec & Hout & Hst) Hk E;
    [discriminate|].
  pose proof Hok as (Hd & Hs & Hd01 & Hd0 & Hs01 & Hs1). cbn [TRead] in E.
  destruct (Z.eqb_spec (t_dst0 _ r) (t_dst1 _ r)) as [E01|N01]; cbn [negb] in E.
  2:{ (* pending output *)
      destruct (Z.gtb_spec (t_dst1 _ r) (zlen (t_dst _ r))) as [Hx|Hx]; [discriminate|].
      destruct (Z.gtb_spec (t_dst0 _ r) (t_dst1 _ r)) as [Hy|Hy]; [lia|]. cbn [orb] in E.
      set (n := Z.min k (t_dst1 _ r - t_dst0 _ r)) in *.
      set (r1 := mkTR LS (t_src _ r) (t_err _ r) (t_dst _ r) (t_dst0 _ r + n) (t_dst1 _ r)
                   (t_sbuf _ r) (t_src0 _ r) (t_src1 _ r) (t_complete _ r)) in *.
      assert (bs = ztake n (zdrop (t_dst0 _ r) (t_dst _ r)) /\ r' = r1) as [-> ->].
      { destruct ((t_dst0 _ r + n =? t_dst1 _ r) && t_complete _ r); injection E as <- <- <-; auto. }
      assert (pending r = ztake n (zdrop (t_dst0 _ r) (t_dst _ r)) ++ pending r1) as Hp.
      { unfold pending, r1. cbn [t_dst0 t_dst1 t_dst].
        rewrite <- (ztake_zdrop n (zdrop (t_dst0 _ r) (ztake (t_dst1 _ r) (t_dst _ r)))). f_equal.
        - rewrite <- (ztake_zdrop (t_dst1 _ r) (t_dst _ r)) at 2.
          rewrite zdrop_app_l by (rewrite zlen_ztake by lia; lia).
          rewrite ztake_app_l; [reflexivity|]. rewrite zsub_len by lia. unfold n. lia.
        - rewrite zdrop_zdrop by lia. f_equal; lia. }
      split; [|intros e ->].
      - split; [unfold tr_ok, r1; cbn; repeat split; lia|].
        exists done, lost, rs. split; [exact Hlog|]. split; [exact Hdec|]. split.
        + intros _. rewrite <- app_assoc, <- Hp. apply Hout. lia.
        + destruct Hst as [(_ & H & _)|[H|[H|(_ & H & _)]]]; [lia| | |lia].
          * right; left. exact H.
          * right; right; left. exact H.
      - destruct (Z.eqb_spec (t_dst0 _ r + n) (t_dst1 _ r)) as [Hn|Hn]; cbn [andb] in E; [|discriminate].
        destruct (t_complete _ r) eqn:Ec; [|discriminate]. injection E as Ee.
        unfold r1; cbn. repeat split; try assumption; lia. }
  assert (pending r = []) as Hpe.
  { unfold pending. apply zdrop_all. rewrite zlen_ztake by lia. lia. }
  destruct (t_complete _ r) eqn:Ec.
  { injection E as <- <- <-. rewrite app_nil_r.
    split; [|intros e He; repeat split; try assumption; lia].
    split; [exact Hok|]. exists done, lost, rs. rewrite Ec. repeat (split; [assumption|]). exact Hst. }
  (* no output pending, not complete *)
  assert (Forall is_byte (buffered r) /\
          (lost = [buffered r] \/ lost = [] /\ buffered r = [])) as (Hbb & Hlost).
  { destruct Hst as [(_ & _ & H1 & H2)|[(_ & H1 & H2 & _)|[(H & _)|(H & _)]]]; try discriminate.
    - split; assumption.
    - assert (buffered r = []) as -> by (unfold buffered; apply zdrop_all; rewrite zlen_ztake by lia; lia).
      split; [constructor|right; split; auto]. }
  clear Hst. specialize (Hout ltac:(lia)). rewrite Hpe, app_nil_r in Hout.
  destruct (negb (t_src0 _ r =? t_src1 _ r) || negb (is_none (t_err _ r))) eqn:Ecase.
  - (* transform *)
    fold (buffered r) in E.
    assert (zlen (buffered r) = t_src1 _ r - t_src0 _ r) as Hlb by (apply zsub_len; lia).
    destruct (decodes_or_cut (buffered r) Hbb) as [(ra & Ha)|(a & Ha)].
    + unfold dec_Transform in E. rewrite (From_decodes grow (buffered r) ra Ha) in E. cbn [bind] in E.
      replace (t_src0 _ r + zlen (buffered r)) with (t_src1 _ r) in E by lia.
      rewrite Z.eqb_refl in E. cbn [negb] in E.
      refine (IH _ out k bs err r' _ Hk E). clear E. split.
      * unfold tr_ok. cbn [t_dst t_dst0 t_dst1 t_sbuf t_src0 t_src1]. rewrite go_copy_len.
        pose proof (zlen_nonneg (utf8 ra)). repeat split; lia.
      * exists (done ++ lost), [], (rs ++ ra). cbn [t_src t_dst t_dst0 t_dst1 t_sbuf t_src0 t_src1 t_complete t_err].
        rewrite app_nil_r. split; [exact Hlog|]. split.
        { rewrite concat_app. apply decodes_app; [exact Hdec|].
          destruct Hlost as [-> | [-> Hbe]]; cbn [concat]; [rewrite app_nil_r; exact Ha|].
          rewrite Hbe in Ha. exact Ha. }
        split.
        { intros Hl. unfold pending. cbn [t_dst t_dst0 t_dst1]. rewrite zdrop_0.
          rewrite go_copy_take, Hd. rewrite ztake_all by lia.
          unfold utf8. rewrite flat_map_app. fold (utf8 rs) (utf8 ra). rewrite Hout. reflexivity. }
        destruct (t_err _ r) as [e|]; cbn [is_none negb].
        { right; right; left. auto. }
        { right; left. auto. }
    + unfold dec_Transform in E. rewrite (From_cut grow (buffered r) a Ha) in E. cbn [bind is_short_dst is_short_src andb] in E.
      refine (IH _ out k bs err r' _ Hk E). clear E. split.
      * unfold tr_ok. cbn [t_dst t_dst0 t_dst1 t_sbuf t_src0 t_src1]. repeat split; lia.
      * exists done, lost, rs. cbn [t_src t_dst t_dst0 t_dst1 t_sbuf t_src0 t_src1 t_complete t_err].
        split; [exact Hlog|]. split; [exact Hdec|]. split.
        { intros _. unfold pending. cbn [t_dst t_dst0 t_dst1]. rewrite zdrop_0, ztake_0, app_nil_r. exact Hout. }
        right; right; right. split; [reflexivity|]. split; [reflexivity|]. split.
        { destruct (t_err _ r) as [e|]; cbn [is_none orb]; [|discriminate].
          destruct e; cbn [is_eof]; discriminate. }
        split; [lia|]. destruct Hlost as [-> | [_ Hbe]].
        { exists (buffered r). split; [reflexivity|]. exists a. exact Ha. }
        { destruct Ha as (b & _ & Hx & _). rewrite Hbe in Hx. destruct a; discriminate. }
  - (* fill *)
    apply orb_false_iff in Ecase. destruct Ecase as [Ec1 Ec2].
    assert (t_src0 _ r = t_src1 _ r) as Es by lia.
    assert (buffered r = []) as Hbe by (unfold buffered; apply zdrop_all; rewrite zlen_ztake by lia; lia).
    destruct (logged rd (t_src _ r) 4096) as [[chunk cerr] s'] eqn:Erd.
    destruct (Z_le_dec (zlen chunk) 4096) as [Hl|Hl].
    + destruct (t_fill_spec LS (logged rd) r chunk cerr s' Hok Es Erd Hl) as
        (r1 & E1 & Hok1 & Hb1 & Hs1' & _ & Hd1 & Hd01' & Hd11 & Hc1 & _).
      rewrite E1 in E. cbn [bind] in E.
      refine (IH _ out k bs err r' _ Hk E). clear E. split; [exact Hok1|].
      unfold logged in Erd. pose proof (rd_bytes (fst (t_src _ r)) 4096) as Hcb.
      destruct (rd (fst (t_src _ r)) 4096) as [[ch e0] s0]. injection Erd as -> -> <-. cbn [fst] in Hcb.
      exists (done ++ lost), [chunk], rs. rewrite Hs1'. cbn [snd]. rewrite Hlog, Hc1, Ec, Hd01', Hd11, Hb1.
      split; [reflexivity|]. split.
      { rewrite concat_app. destruct Hlost as [-> | [-> _]]; cbn [concat]; rewrite ?Hbe, ?app_nil_r; exact Hdec. }
      split.
      { intros _. replace (pending r1) with (pending r) by (unfold pending; rewrite Hd1, Hd01', Hd11; reflexivity).
        rewrite Hpe, app_nil_r. exact Hout. }
      left. repeat (split; [assumption || reflexivity|]). left. reflexivity.
    + exfalso. unfold t_fill in E.
      assert ((if t_src0 _ r =? 0 then (t_sbuf _ r, t_src0 _ r, t_src1 _ r)
           else (zwrite (t_sbuf _ r) 0 (zdrop (t_src0 _ r) (ztake (t_src1 _ r) (t_sbuf _ r))), 0,
                 zlen (zdrop (t_src0 _ r) (ztake (t_src1 _ r) (t_sbuf _ r))))) = (t_sbuf _ r, 0, 0)) as Ek.
      { fold (buffered r). rewrite Hbe. destruct (Z.eqb_spec (t_src0 _ r) 0) as [H|H].
        - rewrite <- Es, H. reflexivity.
        - rewrite zwrite_0. reflexivity. }
      rewrite Ek in E. rewrite Hs in E. change (4096 - 0) with 4096 in E. rewrite Erd in E.
      change (0 + zlen chunk) with (zlen chunk) in E.
      destruct (Z.gtb_spec (zlen chunk) 4096); [discriminate|lia].
Qed.

Lemma tread_seq_sound fuel sizes : forall r out bs err r', tinv r out -> Forall (fun k => 0 <= k) sizes ->
  tread_seq T LS (logged rd) fuel r sizes = Ok (bs, err, r') ->
  tinv r' (out ++ bs) /\
  (forall e, err = Some e -> t_complete _ r' = true /\ t_dst0 _ r' = t_dst1 _ r' /\ t_dst1 _ r' <= 4096 /\ t_err _ r' = Some e).
Proof.
  induction sizes as [|k sizes IH]; intros r out bs err r' Hi Hk E; cbn [tread_seq] in E.
  { injection E as <- <- <-. rewrite app_nil_r. split; [exact Hi|discriminate]. }
  apply Forall_cons_iff in Hk. destruct Hk as [Hk Hks].
  destruct (TRead T LS (logged rd) fuel r k) as [[[b1 e1] r1]| |] eqn:E1; try discriminate. cbn [bind] in E.
  destruct (tread_sound fuel r out k b1 e1 r1 Hi Hk E1) as [Hi1 He1].
  destruct e1 as [e|].
  - injection E as <- <- <-. split; assumption.
  - destruct (tread_seq T LS (logged rd) fuel r1 sizes) as [[[b2 e2] r2]| |] eqn:E2; try discriminate.
    cbn [bind] in E. injection E as <- <- <-. rewrite app_assoc. eapply IH; eassumption.
Qed.

Lemma tinv_start s : tinv (TNewReader (s, [])) [].
Proof.
  assert (zlen (zeros defaultBufSize) = 4096) as Hz by reflexivity.
  split; [unfold tr_ok, TNewReader; cbn [t_dst t_dst0 t_dst1 t_sbuf t_src0 t_src1]; repeat split; lia|].
  exists [], [], []. split; [reflexivity|]. split; [constructor|]. split; [reflexivity|].
  left. split; [reflexivity|]. split; [reflexivity|].
  assert (buffered (TNewReader (s, @nil (list Z))) = []) as -> by reflexivity.
  split; [constructor|]. right. auto.
Qed.

Lemma C64_lemma s fuel sizes out e r' : Forall (fun k => 0 <= k) sizes ->
  tread_seq T LS (logged rd) fuel (TNewReader (s, [])) sizes = Ok (out, Some e, r') ->
  exists done lost rs, snd (t_src _ r') = done ++ lost /\ decodes (concat done) rs /\ out = utf8 rs /\
    (lost = [] \/ e <> EOF /\ exists c, lost = [c] /\ truncated c).
Proof.
  intros Hk E.
  destruct (tread_seq_sound fuel sizes _ [] out (Some e) r' (tinv_start s) Hk E) as [(Hok & done & lost & rs & Hlog & Hdec & Hout & Hst) He].
  destruct (He e eq_refl) as (Hc & H01 & Hl & Ee).
  exists done, lost, rs. split; [exact Hlog|]. split; [exact Hdec|].
  assert (pending r' = []) as Hp.
  { unfold pending. apply zdrop_all. unfold tr_ok in Hok. rewrite zlen_ztake by lia. lia. }
  split.
  { rewrite <- (Hout Hl), Hp, app_nil_r. reflexivity. }
  destruct Hst as [(H & _)|[(H & _)|[(_ & H)|(_ & _ & H & _ & H')]]]; try congruence.
  - left. exact H.
  - right. split; [congruence|exact H'].
Qed.
End Logged.

(** ** Completeness, for chunks of whole characters *)
Section Whole.
Variable grow : Z -> Z -> Z.
Variable RS : Type.
Variable rd : RS -> Z -> list Z * option error * RS.
Notation T := (dec_Transform grow).

(** [rest] is still to come from the wrapped reader, [txt] is the text not delivered yet. *)
Definition wstate (r : treader RS) (rest : list Z) (e : error) : Prop :=
  tr_ok r /\ t_dst1 _ r <= 4096 /\ t_src0 _ r = t_src1 _ r /\
  (t_complete _ r = true /\ t_err _ r = Some e /\ rest = [] \/
   t_complete _ r = false /\ t_err _ r = None /\ delivers_whole 4096 rd (t_src _ r) rest e).

Lemma wpend r k : tr_ok r -> t_dst1 _ r <= 4096 -> t_dst0 _ r <> t_dst1 _ r -> 0 < k ->
  let n := Z.min k (t_dst1 _ r - t_dst0 _ r) in
  let out := ztake n (zdrop (t_dst0 _ r) (t_dst _ r)) in
  let r' := mkTR RS (t_src _ r) (t_err _ r) (t_dst _ r) (t_dst0 _ r + n) (t_dst1 _ r)
                 (t_sbuf _ r) (t_src0 _ r) (t_src1 _ r) (t_complete _ r) in
  pending r = out ++ pending r' /\ zlen out = n /\ tr_ok r'.
Proof.
  intros (Hd & Hs & Hd01 & Hd0 & Hs01 & Hs1) Hl N01 Hk n out r'. split; [|split].
  - unfold pending, r'. cbn [t_dst0 t_dst1 t_dst].
    rewrite <- (ztake_zdrop n (zdrop (t_dst0 _ r) (ztake (t_dst1 _ r) (t_dst _ r)))). f_equal.
    + unfold out. rewrite <- (ztake_zdrop (t_dst1 _ r) (t_dst _ r)) at 2.
      rewrite zdrop_app_l by (rewrite zlen_ztake by lia; lia).
      rewrite ztake_app_l; [reflexivity|]. rewrite zsub_len by lia. unfold n. lia.
    + rewrite zdrop_zdrop by lia. f_equal; lia.
  - unfold out. rewrite zlen_ztake by lia. rewrite zlen_zdrop by lia. lia.
  - unfold tr_ok, r'. cbn. repeat split; lia.
Qed.

Lemma utf8_nonempty rs : rs <> [] -> Forall is_scalar rs -> 0 < zlen (utf8 rs).
Proof.
  destruct rs as [|x rs]; [congruence|]. intros _ H. rewrite utf8_cons, zlen_app.
  pose proof (zlen_nonneg (utf8 rs)).
  assert (0 < zlen (utf8_char x)); [|lia].
  unfold utf8_char. repeat destruct (_ <? _); cbn; lia.
Qed.

(** One Read delivers something, or the end. *)
Lemma tread_whole fuel r rest e k : wstate r rest e -> 0 < k -> (4 <= fuel)%nat ->
  exists bs err r' rest', TRead T RS rd fuel r k = Ok (bs, err, r') /\ wstate r' rest' e /\
    pending r ++ utf8 rest = bs ++ pending r' ++ utf8 rest' /\
    (err = None /\ 0 < zlen bs \/ err = Some e /\ pending r' ++ utf8 rest' = []).
Proof.
  intros (Hok & Hl & Es & Hst) Hk Hf. destruct fuel as [|[|[|[|fuel]]]]; try lia. clear Hf.
  pose proof Hok as (Hd & Hs & Hd01 & Hd0 & Hs01 & Hs1).
  assert (forall r fuel rest, wstate r rest e -> t_dst0 _ r <> t_dst1 _ r ->
    exists bs err r' rest', TRead T RS rd (S fuel) r k = Ok (bs, err, r') /\ wstate r' rest' e /\
    pending r ++ utf8 rest = bs ++ pending r' ++ utf8 rest' /\
    (err = None /\ 0 < zlen bs \/ err = Some e /\ pending r' ++ utf8 rest' = [])) as Hpend.
  { clear r rest Hok Hl Es Hst Hd Hs Hd01 Hd0 Hs01 Hs1. intros r f rest (Hok & Hl & Es & Hst) N01.
    pose proof Hok as (Hd & Hs & Hd01 & Hd0 & Hs01 & Hs1).
    destruct (wpend r k Hok Hl N01 Hk) as (Hp & Hn & Hok').
    cbn [TRead]. destruct (Z.eqb_spec (t_dst0 _ r) (t_dst1 _ r)) as [?|_]; [lia|]. cbn [negb].
    destruct (Z.gtb_spec (t_dst1 _ r) (zlen (t_dst _ r))) as [?|_]; [lia|].
    destruct (Z.gtb_spec (t_dst0 _ r) (t_dst1 _ r)) as [?|_]; [lia|]. cbn [orb].
    set (n := Z.min k (t_dst1 _ r - t_dst0 _ r)) in *.
    set (out := ztake n (zdrop (t_dst0 _ r) (t_dst _ r))) in *.
    set (r' := mkTR RS (t_src _ r) (t_err _ r) (t_dst _ r) (t_dst0 _ r + n) (t_dst1 _ r)
                 (t_sbuf _ r) (t_src0 _ r) (t_src1 _ r) (t_complete _ r)) in *.
    assert (wstate r' rest e) as Hw by (split; [exact Hok'|]; split; [exact Hl|]; split; [exact Es|exact Hst]).
    destruct ((t_dst0 _ r + n =? t_dst1 _ r) && t_complete _ r) eqn:Ec.
    - apply andb_true_iff in Ec. destruct Ec as [Ec1 Ec2].
      exists out, (t_err _ r), r', rest. split; [reflexivity|]. split; [exact Hw|].
      split; [rewrite app_assoc, <- Hp; reflexivity|].
      destruct Hst as [(_ & -> & ->)|(H & _)]; [|congruence]. right. split; [reflexivity|].
      unfold pending, r'. cbn [t_dst0 t_dst1 t_dst]. cbn [utf8 flat_map]. rewrite app_nil_r.
      apply zdrop_all. rewrite zlen_ztake by lia. lia.
    - exists out, None, r', rest. split; [reflexivity|]. split; [exact Hw|].
      split; [rewrite app_assoc, <- Hp; reflexivity|]. left. split; [reflexivity|]. lia. }
  destruct (Z.eq_dec (t_dst0 _ r) (t_dst1 _ r)) as [E01|N01]; [|apply Hpend; [|exact N01]].
  2:{ split; [exact Hok|]. split; [exact Hl|]. split; [exact Es|exact Hst]. }
  assert (pending r = []) as Hpe.
  { unfold pending. apply zdrop_all. rewrite zlen_ztake by lia. lia. }
  assert (forall r fuel rest, wstate r rest e -> t_dst0 _ r = t_dst1 _ r -> t_complete _ r = true ->
    TRead T RS rd (S fuel) r k = Ok ([], Some e, r) /\ rest = []) as Hcomp.
  { clear. intros r f rest (Hok & Hl & Es & Hst) E01 Ec. cbn [TRead]. rewrite E01, Z.eqb_refl, Ec. cbn [negb].
    destruct Hst as [(_ & -> & ->)|(H & _)]; [auto|congruence]. }
  destruct (t_complete _ r) eqn:Ec.
  { destruct (Hcomp r (S (S (S fuel))) rest) as [E ->];
      [split; [exact Hok|]; split; [exact Hl|]; split; [exact Es|rewrite Ec; exact Hst]|exact E01|exact Ec|].
    exists [], (Some e), r, []. split; [exact E|].
    split; [split; [exact Hok|]; split; [exact Hl|]; split; [exact Es|rewrite Ec; exact Hst]|].
    rewrite Hpe. split; [reflexivity|]. right. auto. }
  destruct Hst as [(H & _)|(_ & Ee & Hdel)]; [discriminate|].
  assert (exists chunk cerr s' ra rest', rd (t_src _ r) 4096 = (chunk, cerr, s') /\ zlen chunk <= 4096 /\
    decodes chunk ra /\ zlen (utf8 ra) <= 4096 /\ rest = ra ++ rest' /\
    (cerr = Some e /\ rest' = [] \/ cerr = None /\ chunk <> [] /\ delivers_whole 4096 rd s' rest' e)) as
    (chunk & cerr & s' & ra & rest' & Erd & Hcl & Hdec & Hul & -> & Hnext).
  { inversion Hdel as [? ? ? chunk s' Erd Hcl Hdec Hul|? ra rb ? chunk s' Erd Hcl Hne Hdec Hul Hn]; subst.
    - exists chunk, (Some e), s', rest, []. rewrite app_nil_r. repeat (split; [assumption || reflexivity|]). left. auto.
    - exists chunk, None, s', ra, rb. repeat (split; [assumption || reflexivity|]). right. auto. }
  destruct (t_fill_spec RS rd r chunk cerr s' Hok Es Erd Hcl) as
    (r1 & E1 & Hok1 & Hb1 & Hsrc1 & Herr1 & Hd1 & Hd01' & Hd11 & Hc1 & Hs01' & Hs11').
  remember (S (S fuel)) as fu2 eqn:Ef2. remember (S fu2) as fu3 eqn:Ef3.
  assert (TRead T RS rd (S fu3) r k = TRead T RS rd fu3 r1 k) as ->.
  { cbn [TRead]. rewrite E01, Es, !Z.eqb_refl, Ec, Ee. cbn [negb orb is_none]. rewrite E1. reflexivity. }
  rewrite Ef3.
  (* the transform step *)
  set (r2 := mkTR RS s' cerr (go_copy (t_dst _ r1) (utf8 ra)) 0 (zlen (utf8 ra)) (t_sbuf _ r1)
                  (t_src1 _ r1) (t_src1 _ r1) (negb (is_none cerr))).
  assert (TRead T RS rd (S fu2) r1 k = TRead T RS rd fu2 r2 k) as ->.
  { cbn [TRead]. rewrite Hd01', Hd11, E01, Z.eqb_refl, Hc1, Ec. cbn [negb].
    assert (negb (t_src0 _ r1 =? t_src1 _ r1) || negb (is_none (t_err _ r1)) = true) as ->.
    { rewrite Hs01', Hs11', Herr1. destruct Hnext as [[-> _]|(-> & Hne & _)]; [apply orb_true_r|].
      destruct (Z.eqb_spec 0 (zlen chunk)) as [H|H]; [|reflexivity].
      exfalso. apply Hne. apply zlen_0. auto. }
    fold (buffered r1). rewrite Hb1. unfold dec_Transform. rewrite (From_decodes grow chunk ra Hdec).
    cbn [bind]. rewrite Hs01'. change (0 + zlen chunk) with (zlen chunk). rewrite <- Hs11', Z.eqb_refl. cbn [negb].
    rewrite Hsrc1, Herr1. reflexivity. }
  assert (wstate r2 rest' e) as Hw2.
  { destruct Hok1 as (Hx1 & Hx2 & Hx3 & Hx4 & Hx5 & Hx6). pose proof (zlen_nonneg (utf8 ra)). split.
    - unfold tr_ok, r2. cbn [t_dst t_dst0 t_dst1 t_sbuf t_src0 t_src1]. rewrite go_copy_len. repeat split; lia.
    - split; [exact Hul|]. split; [reflexivity|]. unfold r2; cbn [t_complete t_err t_src].
      destruct Hnext as [[-> ->]|(-> & _ & Hn)]; [left|right]; auto. }
  assert (pending r2 = utf8 ra) as Hp2.
  { unfold pending, r2. cbn [t_dst t_dst0 t_dst1]. rewrite zdrop_0, go_copy_take.
    destruct Hok1 as (-> & _). apply ztake_all. exact Hul. }
  assert (pending r ++ utf8 (ra ++ rest') = pending r2 ++ utf8 rest') as ->.
  { rewrite Hpe, Hp2. unfold utf8. rewrite flat_map_app. reflexivity. }
  rewrite Ef2.
  destruct (Z.eq_dec (t_dst0 _ r2) (t_dst1 _ r2)) as [E2|N2]; [|exact (Hpend r2 (S fuel) rest' Hw2 N2)].
  destruct (t_complete _ r2) eqn:Ec2.
  - destruct (Hcomp r2 (S fuel) rest' Hw2 E2 Ec2) as [E3 ->].
    exists [], (Some e), r2, []. split; [exact E3|]. split; [exact Hw2|]. split; [reflexivity|].
    right. split; [reflexivity|]. rewrite Hp2. cbn [t_dst0 t_dst1 r2] in E2.
    rewrite (zlen_0 (utf8 ra)) by auto. reflexivity.
  - exfalso. destruct Hnext as [[-> _]|(-> & Hne & _)]; [discriminate|].
    unfold r2 in E2. cbn [t_dst0 t_dst1] in E2.
    assert (ra <> []) as Hra by (intros ->; inversion Hdec; congruence).
    pose proof (utf8_nonempty ra Hra (decodes_scalar _ _ Hdec)). lia.
Qed.

Lemma tread_seq_whole fuel sizes : forall r rest e, wstate r rest e -> Forall (fun k => 0 < k) sizes -> (4 <= fuel)%nat ->
  exists out err r' q, tread_seq T RS rd fuel r sizes = Ok (out, err, r') /\
    pending r ++ utf8 rest = out ++ q /\ (err = None /\ zlen sizes <= zlen out \/ err = Some e /\ q = []).
Proof.
  induction sizes as [|k sizes IH]; intros r rest e Hw Hk Hf; cbn [tread_seq].
  { exists [], None, r, (pending r ++ utf8 rest). split; [reflexivity|]. split; [reflexivity|]. left. cbn. split; [reflexivity|lia]. }
  apply Forall_cons_iff in Hk. destruct Hk as [Hk Hks].
  destruct (tread_whole fuel r rest e k Hw Hk Hf) as (bs & err & r1 & rest1 & -> & Hw1 & Ebs & Hcase).
  cbn [bind]. destruct Hcase as [[-> Hn]|[-> Hq]].
  - destruct (IH r1 rest1 e Hw1 Hks Hf) as (out & err & r' & q & -> & Eq & Hc). cbn [bind].
    exists (bs ++ out), err, r', q. split; [reflexivity|]. split; [rewrite Ebs, Eq, app_assoc; reflexivity|].
    rewrite zlen_app, zlen_cons. destruct Hc as [[-> Hc]|[-> ->]]; [left|right]; split; auto; lia.
  - exists bs, (Some e), r1, []. split; [reflexivity|]. rewrite Ebs, Hq. split; [reflexivity|]. right. auto.
Qed.

Lemma C58_lemma s rs e fuel sizes : delivers_whole 4096 rd s rs e -> Forall (fun k => 0 < k) sizes -> (4 <= fuel)%nat ->
  exists out err r', tread_seq T RS rd fuel (TNewReader s) sizes = Ok (out, err, r') /\
    is_prefix out (utf8 rs) /\ (err = None \/ err = Some e /\ out = utf8 rs) /\
    (zlen (utf8 rs) < zlen sizes -> err = Some e).
Proof.
  intros Hdel Hk Hf.
  assert (wstate (TNewReader s) rs e) as Hw.
  { assert (zlen (zeros defaultBufSize) = 4096) as Hz by reflexivity.
    split; [unfold tr_ok, TNewReader; cbn [t_dst t_dst0 t_dst1 t_sbuf t_src0 t_src1]; repeat split; lia|].
    split; [cbn; lia|]. split; [reflexivity|]. right. auto. }
  destruct (tread_seq_whole fuel sizes _ _ _ Hw Hk Hf) as (out & err & r' & q & E & Eq & Hc).
  assert (pending (TNewReader s) = []) as Hp by reflexivity. rewrite Hp in Eq. cbn [app] in Eq.
  exists out, err, r'. split; [exact E|]. split; [exists q; exact Eq|].
  destruct Hc as [[-> Hc]|[-> ->]].
  - split; [left; reflexivity|]. intros H. rewrite Eq, zlen_app in H. pose proof (zlen_nonneg q). lia.
  - rewrite app_nil_r in Eq. split; [right; auto|reflexivity].
Qed.

(** A first chunk of whole characters whose decoding exceeds the buffer. *)
Lemma C58_panic_lemma s chunk err s' rs fuel k :
  rd s 4096 = (chunk, err, s') -> zlen chunk <= 4096 -> decodes chunk rs -> 4096 < zlen (utf8 rs) ->
  (3 <= fuel)%nat -> TRead T RS rd fuel (TNewReader s) k = Panic.
Proof.
  intros Erd Hl Hdec Hu Hf. destruct fuel as [|[|[|fuel]]]; try lia. clear Hf.
  assert (tr_ok (TNewReader s)) as Hok.
  { assert (zlen (zeros defaultBufSize) = 4096) as Hz by reflexivity.
    unfold tr_ok, TNewReader; cbn [t_dst t_dst0 t_dst1 t_sbuf t_src0 t_src1]; repeat split; lia. }
  destruct (t_fill_spec RS rd (TNewReader s) chunk err s' Hok eq_refl Erd Hl) as
    (r1 & E1 & Hok1 & Hb1 & Hsrc1 & Herr1 & Hd1 & Hd01' & Hd11 & Hc1 & Hs01' & Hs11').
  remember (S (S fuel)) as fu2 eqn:Ef2.
  assert (TRead T RS rd (S fu2) (TNewReader s) k = TRead T RS rd fu2 r1 k) as ->.
  { cbn [TRead TNewReader t_dst0 t_dst1 t_src0 t_src1 t_complete t_err Z.eqb negb orb is_none].
    rewrite E1. reflexivity. }
  assert (chunk <> []) as Hne.
  { intros ->. inversion Hdec. subst. cbn in Hu. lia. }
  rewrite Ef2. remember (S fuel) as fu1 eqn:Ef1. cbn [TRead].
  rewrite Hd01', Hd11, Hc1. cbn [TNewReader t_dst0 t_dst1 t_complete Z.eqb negb].
  assert (negb (t_src0 _ r1 =? t_src1 _ r1) = true) as ->.
  { rewrite Hs01', Hs11'. destruct (Z.eqb_spec 0 (zlen chunk)) as [H|H]; [|reflexivity].
    exfalso. apply Hne. apply zlen_0. auto. }
  cbn [orb]. fold (buffered r1). rewrite Hb1. unfold dec_Transform. rewrite (From_decodes grow chunk rs Hdec).
  cbn [bind]. rewrite Ef1. cbn [TRead t_dst0 t_dst1 t_dst].
  destruct (Z.eqb_spec 0 (zlen (utf8 rs))) as [?|_]; [lia|]. cbn [negb]. rewrite go_copy_len, Hd1.
  change (zlen (t_dst RS (TNewReader s))) with 4096.
  destruct (Z.gtb_spec (zlen (utf8 rs)) 4096); [reflexivity|lia].
Qed.
End Whole.
