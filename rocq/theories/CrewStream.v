(** Readers of several goroutines on top of one stream: proofs for PropCrewRead.v. *)
From Coq Require Import String ZArith List Bool Lia.
From Verif Require Import Base Utf8 SortSearch TableFrom TableTo Cp949Model GoLang GoSource GoFacts GoHeap GoCp949 StreamModel StreamModel3 TransformModel Facts Utf8Facts SliceFacts
  Spec SpecCp949 TableFacts Cp949Facts StreamFacts GoStream SpecIO GoThreads ThreadFacts SourceSpec SourceFacts SourceFacts2 SpecThreads SpecCells SpecAgents SpecCrew GoroutineFacts CrewFacts StreamFacts5 PipeFacts2 SpecReads ReadsFacts ShareFacts ProgFacts AgentFacts CrewWriters SpecCrewRead CrewReaders CrewWrong.
Import ListNotations.
Local Open Scope string_scope.
Local Open Scope list_scope.
Local Open Scope Z_scope.
Local Open Scope go_scope.
Local Opaque fromTable toTable.
Local Arguments Z.add : simpl never.
Local Arguments Z.sub : simpl never.
Local Arguments Z.leb : simpl never.
Local Arguments Z.ltb : simpl never.
Local Arguments run : simpl never.
Local Arguments zwrite : simpl never.
Local Arguments cells : simpl never.
Local Arguments store : simpl never.

(** ** What a goroutine does by itself *)
Section General.
Variable grow : Z -> Z -> Z.
Variable RS : Type.
Variable rd : nat -> RS -> Z -> Z * list Z * option error * RS.
Variable wr : nat -> RS -> list Z -> Z * option error * RS.
Variable kx : nat.
Hypothesis Hconf : forall y n, let '(c, bs, er, y') := rd kx y n in c = zlen bs /\ (0 <= n -> zlen bs <= n) /\ Forall is_byte bs.
Definition rd1 (y : RS) (n : Z) : list Z * option error * RS := let '(_, bs, er, y') := rd kx y n in (bs, er, y').
Variable B : nat.
Hypothesis HB : forall k n y y' u, 0 < k -> starves rd1 k n y y' u -> (n <= B)%nat.
Lemma rd1_fits : fits_buffer rd1.
Proof. intros y n Hn. unfold rd1. specialize (Hconf y n). destruct (rd kx y n) as [[[c bs] er] y']. cbn [fst]. tauto. Qed.
Lemma rd1_alike : answers_alike _ _ (rd kx) rd1 eq.
Proof.
  intros y y' n <-. unfold rd1. specialize (Hconf y n). destruct (rd kx y n) as [[[c bs] er] y']. destruct Hconf as (-> & _). exists [], y'. rewrite app_nil_r. auto.
Qed.
Definition holds (A : heap) O X p pt ls lr (left : list Z) (err : option error) : Prop :=
  exists r q, is_reader RS kx (mkState _ A O X) p pt ls lr r /\ r_src _ r = X /\ alike _ _ eq r q /\ between _ q (X, left, err).
Lemma read_one A O X p pt ls lr left err lb ob nb cb old :
  holds A O X p pt ls lr left err -> 0 < nb -> input A lb ob nb cb old -> sep A lb ls -> sep A lb lr ->
  exists bs er X' left' err' A' O' ls' lr' N, one_read rd1 nb (X, left, err) bs er (X', left', err') /\
    holds A' O' X' p pt ls' lr' left' err' /\ zlen bs <= nb /\
    (length A <= length A')%nat /\ (ls' = ls \/ (length A <= ls')%nat) /\ (lr' = lr \/ (length A <= lr')%nat) /\
    cell A' lb = zwrite (cell A lb) ob bs /\
    (forall j, (j < length A)%nat -> j <> lb -> sep A j ls -> sep A j lr -> cell A' j = cell A j) /\
    forall n, (N <= n)%nat ->
      run grow RS rd wr prog_cp949 n "cp949Reader.Read" [VPtr p; VSlice lb ob nb cb] (mkState RS A O X) = Ok (VTuple [VInt (zlen bs); VErr er], mkState RS A' O' X').
Proof.
  intros (r & q & Hr & Hsrc & Hal & Hbt) Hnb Hin Hs1 Hs2.
  destruct (read_between grow _ rd1 rd1_fits nb (B + 2) q _ ltac:(lia) Hbt) as [[_ [Hz|(s & n & s' & u & E & Hst & Hle)]]|(bs & er & q' & [[X' left'] err'] & Hq & H1 & Hbt')].
  { lia. } { apply HB in Hst; [lia|exact Hnb]. }
  pose proof (read_alike grow _ _ (rd kx) rd1 eq rd1_alike (B + 2) r q nb Hal) as Hres. rewrite Hq in Hres.
  destruct (Read3 grow RS (rd kx) (B + 2) r nb) as [[[bs1 er1] r']| |] eqn:Hr3; cbn in Hres; try contradiction.
  destruct Hres as [[= -> ->] Hal']. cbn [snd] in Hal'.
  assert (Hby : forall y k, Forall is_byte (snd (fst (fst (rd kx y k))))).
  { intros y k. specialize (Hconf y k). destruct (rd kx y k) as [[[c b] e'] y']. cbn. tauto. }
  destruct (go_Read grow RS rd wr kx Hby (B + 2) _ p pt ls lr r lb ob nb cb old bs er r' Hr (eq_sym Hsrc) Hin Hs1 Hs2 Hr3)
    as (s' & ls' & lr' & Hr' & Hext & _ & Hlen & G1 & G2 & G3 & G4 & G5 & _ & N & Hrun).
  assert (Hr'src : r_src _ r' = X') by (destruct Hal' as [-> _]; destruct Hbt' as (_ & _ & E); congruence).
  destruct s' as [A' O' X1]. cbn [arrs objs ext] in *. rewrite Hr'src in Hext. subst X1.
  exists bs, er, X', left', err', A', O', ls', lr', N. split; [exact H1|]. split; [exists r', q'; auto|]. auto 10.
Qed.
Section Seq.
Variable A0 : heap.
Hypothesis Hnil : nil_ok A0.
Definition invg (A : heap) O X p pt left err : Prop :=
  exists ls lr, holds A O X p pt ls lr left err /\ (ls = 0 \/ length A0 <= ls)%nat /\ (lr = 0 \/ length A0 <= lr)%nat /\
    (length A0 <= length A)%nat /\ cell A 0 = [] /\ forall l, (l < length A0)%nat -> zlen (cell A l) = zlen (cell A0 l).
Lemma reads_seq p pt vs : Forall (fun v => exists old, slice_holds A0 v old /\ 0 < len_of v) vs ->
  forall A O X left err, invg A O X p pt left err -> exists outs X' left' err' A' O' N,
    many_reads rd1 (X, left, err) (map len_of vs) outs (X', left', err') /\
    forall n rs, (N <= n)%nat -> nth_error rs 0 = Some (VTuple [VPtr p; VErr None]) ->
      code_alone grow RS rd wr n (read_all vs) rs (mkState _ A O X) = Ok (VTuple (rs ++ flat_map show outs), mkState _ A' O' X').
Proof.
  intros Hvs. induction Hvs as [|v vs (old & Hv & Hlen) _ IH]; intros A O X left err Hinv.
  - exists [], X, left, err, A, O, 0%nat. split; [constructor|]. intros n rs _ _. cbn. now rewrite app_nil_r.
  - destruct v as [| | | |lb ob nb cb| | | | | |]; try contradiction Hv. cbn [len_of] in Hlen.
    destruct Hinv as (ls & lr & Hr & Hls & Hlr & HA & H0 & Hz).
    assert (Hin : input A lb ob nb cb (ztake nb (zdrop ob (cell A lb)))).
    { destruct Hv as (H1 & H2 & H3 & H4 & H5). unfold input. rewrite (Hz lb H1). change (cell A0 lb) with (array A0 lb). repeat (split; [lia|]). reflexivity. }
    assert (Hlb : (0 < lb < length A0)%nat).
    { destruct Hv as (H1 & H2 & H3 & H4 & H5). destruct lb; [|lia]. exfalso. destruct Hnil as [_ Hc]. change (array A0 0) with (cell A0 0) in H4. rewrite Hc in H4. change (zlen (@nil Z)) with 0 in H4. lia. }
    assert (Hsep : forall l, (l = 0 \/ length A0 <= l)%nat -> sep A lb l) by (intros l Hl; left; lia).
    destruct (read_one A O X p pt ls lr left err lb ob nb cb _ Hr Hlen Hin (Hsep ls Hls) (Hsep lr Hlr))
      as (bs & er & X' & left' & err' & A' & O' & ls' & lr' & N1 & Hone & Hr' & Hbs & H1 & H2 & H3 & H4 & H5 & Hrun).
    assert (Hcell : forall j, (j < length A0)%nat -> j <> lb -> cell A' j = cell A j).
    { intros j Hj Hne. destruct (Nat.eq_dec j 0) as [->|]; [|apply H5; [lia|exact Hne|left; lia|left; lia]].
      apply H5; [lia|exact Hne|right; exact H0|right; exact H0]. }
    assert (Hzw : zlen (zwrite (cell A lb) ob bs) = zlen (cell A lb)).
    { destruct Hin as (_ & G2 & G3 & G4 & _). apply zlen_zwrite; lia. }
    assert (Hinv' : invg A' O' X' p pt left' err').
    { exists ls', lr'. split; [exact Hr'|]. split; [lia|]. split; [lia|]. split; [lia|].
      split; [rewrite Hcell by lia; exact H0|]. intros l Hl. destruct (Nat.eq_dec l lb) as [->|Hne]; [rewrite H4, Hzw; auto|rewrite Hcell by assumption; auto]. }
    destruct (IH A' O' X' left' err' Hinv') as (outs & X2 & left2 & err2 & A2 & O2 & N2 & Hm & Hrest).
    exists ((bs, er) :: outs), X2, left2, err2, A2, O2, (Nat.max N1 N2). split; [econstructor; eassumption|]. intros n rs Hn Hrs.
    cbn [read_all code_alone op_alone source arg_vals arg_val]. rewrite Hrs. cbn [the bind component nth_error].
    rewrite (Hrun n) by lia. cbn [bind seen map].
    pose proof (zlen_nonneg bs) as Hb0. replace ((0 <=? zlen bs) && (zlen bs <=? nb)) with true by lia.
    cbn [code_alone op_alone arg_val bind].
    assert (Hcells : cells _ (mkState _ A' O' X') lb ob (zlen bs) = bs).
    { unfold cells, arr_at. cbn [arrs]. fold (cell A' lb). rewrite H4. destruct Hin as (_ & G2 & G3 & G4 & _). apply zwrite_take; lia. }
    rewrite Hcells. rewrite Hrest; [|lia|destruct rs; [discriminate Hrs|exact Hrs]].
    f_equal. f_equal. f_equal. cbn [flat_map seen_read fst snd]. rewrite <- !app_assoc. reflexivity.
Qed.
End Seq.
Lemma reading_seq A O X vs : nil_ok A -> Forall (fun v => exists old, slice_holds A v old /\ 0 < len_of v) vs ->
  exists p outs X' left' err' A' O' N, many_reads rd1 (X, [], None) (map len_of vs) outs (X', left', err') /\
    forall n, (N <= n)%nat -> code_alone grow RS rd wr n (reading kx vs) [] (mkState _ A O X) =
      Ok (VTuple (VTuple [VPtr p; VErr None] :: flat_map show outs), mkState _ A' O' X').
Proof.
  intros Hnil Hvs. destruct (go_NewReader grow RS rd wr kx A O X Hnil) as (s & Hr & Hx & HA & _ & _ & Hrun).
  destruct s as [A1 O1 X1]. cbn [arrs objs ext] in *. subst A1 X1.
  assert (Hinv : invg A A O1 X (S (length O)) (length O) [] None).
  { exists 0%nat, 0%nat. split; [|repeat split; auto; apply Hnil]. exists (NewReader X), (NewReader X). split; [exact Hr|]. split; [reflexivity|].
    split; [now apply new_alike|apply between_new]. }
  destruct (reads_seq A Hnil _ _ vs Hvs A O1 X [] None Hinv) as (outs & X' & left' & err' & A' & O' & N & Hm & HN).
  exists (S (length O)), outs, X', left', err', A', O', (Nat.max 2 N). split; [exact Hm|]. intros n Hn. destruct n as [|[|n]]; try lia.
  unfold reading. cbn [code_alone op_alone source arg_vals arg_val bind]. rewrite Hrun. cbn [bind app]. rewrite HN by (try lia; reflexivity). reflexivity.
Qed.

(** *** Its text *)
Inductive hears : RS -> RS -> list Z -> Prop :=
| hears_0 X : hears X X []
| hears_S X n c er X1 X2 d : 0 < n -> rd1 X n = (c, er, X1) -> hears X1 X2 d -> hears X X2 (c ++ d).
Lemma hears_app X X1 d : hears X X1 d -> forall X2 d', hears X1 X2 d' -> hears X X2 (d ++ d').
Proof. induction 1 as [|X n c er X1 X2 d Hn Hc _ IH]; intros X3 d' H; [exact H|]. rewrite <- app_assoc. econstructor; [exact Hn|exact Hc|]. now apply IH. Qed.
Lemma hears_one X n c er X1 : 0 < n -> rd1 X n = (c, er, X1) -> hears X X1 c.
Proof. intros Hn Hc. rewrite <- (app_nil_r c). econstructor; [exact Hn|exact Hc|constructor]. Qed.
Lemma starves_hears k n X X1 u : 0 < k -> starves rd1 k n X X1 u -> hears X X1 u.
Proof. intros Hk. induction 1 as [|n s s1 u sp c s2 _ IH Hsp E _ _]; [constructor|]. eapply hears_app; [exact IH|]. eapply hears_one; [|exact E]. lia. Qed.
Variable e : error.
Hypothesis He : forall X n c er X', 0 < n -> rd1 X n = (c, er, X') -> final c er = None \/ final c er = Some e.
Lemma reads_text sizes : forall st outs st', many_reads rd1 st sizes outs st' -> Forall (fun k => 0 < k) sizes ->
  forall X left err X' left' err', st = (X, left, err) -> st' = (X', left', err') -> err = None \/ err = Some e ->
  exists a lost rs, hears X X' (a ++ lost) /\ decodes a rs /\ left ++ utf8 rs = concat (map fst outs) ++ left' /\
    (err <> None -> a = [] /\ lost = []) /\ (lost <> [] -> truncated lost /\ In ([], Some e) outs) /\
    forall bs er, In (bs, er) outs -> (er = None /\ bs <> []) \/ (er = Some e /\ bs = [] /\ left' = []).
Proof.
  intros st outs st' H. induction H as [st|st k sizes bs er st1 outs st2 H1 _ IH]; intros Hs X left err X' left' err' E E' Herr.
  - rewrite E in E'. injection E' as <- <- <-. exists [], [], []. split; [constructor|]. split; [constructor|]. cbn [utf8 flat_map map concat app]. rewrite app_nil_r. split; [reflexivity|].
    split; [auto|]. split; [congruence|]. intros bs er [].
  - inversion Hs as [|? ? Hk Hs']; subst. specialize (IH Hs').
    assert (Htk : forall t : list Z, t <> [] -> ztake k t <> []).
    { intros [|x t] Ht E; [congruence|]. apply (f_equal zlen) in E. rewrite zlen_ztake, zlen_cons in E by lia. change (zlen []) with 0 in E. pose proof (zlen_nonneg t). lia. }
    inversion H1 as [s0 text0 err0 Ht|s0 x0|s0 n s1 u sp c er0 s2 r Hst Hsp Er Hdc Hne|s0 n s1 u sp c er0 s2 x0 Hst Hsp Er Hor Hfin]; subst.
    + destruct (IH _ _ _ _ _ _ eq_refl eq_refl Herr) as (a & lost & rs & G1 & G2 & G3 & G4 & G5 & G6). exists a, lost, rs. split; [exact G1|]. split; [exact G2|].
      cbn [map concat fst]. split; [rewrite <- app_assoc, <- G3, app_assoc, ztake_zdrop; reflexivity|]. split; [exact G4|]. split; [intros Hl; destruct (G5 Hl); cbn; auto|].
      intros b1 e1 [[= <- <-]|Hin]; [left; auto|auto].
    + destruct Herr as [|[= ->]]; [discriminate|]. destruct (IH _ _ _ _ _ _ eq_refl eq_refl (or_intror eq_refl)) as (a & lost & rs & G1 & G2 & G3 & G4 & G5 & G6).
      destruct G4 as [-> ->]; [discriminate|]. exists [], [], rs. split; [exact G1|]. split; [exact G2|]. cbn [map concat fst app]. split; [exact G3|]. split; [auto|]. split; [congruence|].
      assert (left' = []) by (inversion G2; subst; cbn in G3; symmetry in G3; apply app_eq_nil in G3; tauto).
      intros b1 e1 [[= <- <-]|Hin]; [right; auto|auto].
    + assert (Hh : hears X s2 (u ++ c)) by (eapply hears_app; [eapply starves_hears; eassumption|eapply hears_one; [|exact Er]; lia]).
      assert (Hf : final c er0 = None \/ final c er0 = Some e) by (eapply He; [|exact Er]; lia).
      destruct (IH _ _ _ _ _ _ eq_refl eq_refl Hf) as (a & lost & rs & G1 & G2 & G3 & G4 & G5 & G6).
      exists ((u ++ c) ++ a), lost, (r ++ rs). split; [rewrite <- (app_assoc (u ++ c)); eapply hears_app; eassumption|]. split; [now apply decodes_app|].
      cbn [map concat fst app]. split; [rewrite utf8_app, <- app_assoc, <- G3, app_assoc, ztake_zdrop; reflexivity|]. split; [congruence|].
      split; [intros Hl; destruct (G5 Hl); cbn; auto|]. intros b1 e1 [[= <- <-]|Hin]; [left; split; [reflexivity|]; now apply Htk, utf8_some|auto].
    + assert (Hh : hears X s2 (u ++ c)) by (eapply hears_app; [eapply starves_hears; eassumption|eapply hears_one; [|exact Er]; lia]).
      assert (Hf : final c er0 = None \/ final c er0 = Some e) by (eapply He; [|exact Er]; lia). rewrite Hfin in Hf. destruct Hf as [|[= ->]]; [discriminate|].
      destruct (IH _ _ _ _ _ _ eq_refl eq_refl (or_intror eq_refl)) as (a & lost & rs & G1 & G2 & G3 & G4 & G5 & G6). destruct G4 as [-> ->]; [discriminate|].
      assert (rs = []) as -> by (inversion G2; reflexivity). assert (left' = []) by (cbn in G3; symmetry in G3; apply app_eq_nil in G3; tauto).
      exists [], (u ++ c), []. cbn [app]. split; [rewrite <- (app_nil_r (u ++ c)); eapply hears_app; eassumption|]. split; [constructor|]. cbn [map concat fst app]. split; [exact G3|].
      split; [congruence|]. split; [intros Hl; destruct Hor as [Hor|Hor]; [congruence|]; cbn; auto|]. intros b1 e1 [[= <- <-]|Hin]; [right; auto|auto].
Qed.
End General.

(** ** Over other readers and writers that give the same answers *)
Lemma finish_map {E1 E2} (rd1 : nat -> E1 -> Z -> Z * list Z * option error * E1) wr1 (rd2 : nat -> E2 -> Z -> Z * list Z * option error * E2) wr2 (f : E1 -> E2) {B} (q : proc B) :
  (forall i y n, rd2 i (f y) n = (let '(c, bs, er, y') := rd1 i y n in (c, bs, er, f y'))) ->
  (forall i y bs, wr2 i (f y) bs = (let '(c, er, y') := wr1 i y bs in (c, er, f y'))) ->
  forall A O y a s', finish E1 rd1 wr1 q (mkState _ A O y) = Ok (a, s') -> finish E2 rd2 wr2 q (mkState _ A O (f y)) = Ok (a, mkState _ (arrs _ s') (objs _ s') (f (ext _ s'))).
Proof.
  intros Hrd Hwr. induction q as [r|l o n k IH|l o bs k IH|a0 k IH|l k IH|l g v k IH|T fs k IH|i n k IH|i bs k IH]; intros A O y a s' H; cbn [finish] in *.
  - destruct r; try discriminate H. injection H as -> <-. reflexivity.
  - eapply IH; eassumption.
  - eapply IH; eassumption.
  - unfold new_arr in *. cbn [arrs objs ext] in *. eapply IH; eassumption.
  - cbn [objs] in *. destruct (the (nth_error O l)); try discriminate H. cbn [bind] in *. eapply IH; eassumption.
  - unfold set_field in *. cbn [arrs objs ext] in *. destruct (the (nth_error O l)) as [[T fs]| |]; try discriminate H. cbn [bind] in *.
    destruct (the (get g fs)); try discriminate H. cbn [bind] in *. eapply IH; eassumption.
  - cbn [arrs objs ext] in *. eapply IH; eassumption.
  - cbn [ext] in *. rewrite Hrd. destruct (rd1 i y n) as [[[c bs] er] y']. unfold set_ext in *. cbn [arrs objs] in *. eapply IH; eassumption.
  - cbn [ext] in *. rewrite Hwr. destruct (wr1 i y bs) as [[c er] y']. unfold set_ext in *. cbn [arrs objs] in *. eapply IH; eassumption.
Qed.

(** ** The stream *)
Section Stream.
Variable s : list Z.
Variable e : error.
Variable give : nat -> Z -> Z.
Variable early : bool.
Hypothesis Hs : Forall is_byte s.
Notation D := (length s).
Notation rdS := (stream_rd s e give early).
Notation wrS := (stream_wr s).
Lemma stream_conf i pos n : let '(c, bs, er, pos') := rdS i pos n in c = zlen bs /\ (0 <= n -> zlen bs <= n) /\ Forall is_byte bs.
Proof.
  unfold stream_rd. destruct (skipn pos s) as [|b l] eqn:E; [repeat split; [intros H; exact H|constructor]|].
  destruct (Z.leb_spec n 0); [repeat split; [intros; change (zlen (@nil Z)) with 0; lia|constructor]|]. split; [reflexivity|]. split.
  - intros _. rewrite zlen_ztake by lia. lia.
  - apply Forall_ztake. rewrite <- E. rewrite <- (firstn_skipn pos s) in Hs. apply Forall_app in Hs. apply Hs.
Qed.
Lemma stream_end i pos n : (D <= pos)%nat -> rdS i pos n = (0, [], Some e, D).
Proof. intros H. unfold stream_rd. now rewrite skipn_all2. Qed.
Lemma skipn_add {X} a : forall b (l : list X), skipn (a + b) l = skipn b (skipn a l).
Proof. induction a as [|a IH]; intros b l; [reflexivity|]. destruct l; cbn; [now rewrite skipn_nil|apply IH]. Qed.
Lemma stream_more i pos n : (pos < D)%nat -> 0 < n -> exists bs er, rdS i pos n = (zlen bs, bs, er, (pos + length bs)%nat) /\ bs <> [] /\ (er = None \/ er = Some e) /\ (pos + length bs <= D)%nat /\ bs ++ skipn (pos + length bs) s = skipn pos s.
Proof.
  intros Hp Hn. unfold stream_rd. destruct (skipn pos s) as [|b l] eqn:E.
  { exfalso. apply (f_equal (@length _)) in E. rewrite skipn_length in E. cbn in E. lia. }
  replace (n <=? 0) with false by lia. set (k := Z.max 1 (Z.min n (give pos n))). set (bs := ztake k (b :: l)).
  exists bs, (if early && (zlen (b :: l) <=? zlen bs) then Some e else None). split; [reflexivity|]. split; [|split; [destruct (early && _); auto|]].
  - intros H. apply (f_equal zlen) in H. unfold bs in H. rewrite zlen_ztake, zlen_cons in H by lia. change (zlen (@nil Z)) with 0 in H. pose proof (zlen_nonneg l). lia.
  - assert (Hl : (length bs <= length (b :: l))%nat) by (unfold bs, ztake; rewrite firstn_length; lia).
    assert (Hd : length (b :: l) = (D - pos)%nat) by (rewrite <- E; apply skipn_length).
    split; [lia|]. rewrite skipn_add, E. rewrite <- (firstn_skipn (length bs) (b :: l)) at 2. f_equal.
    unfold bs, ztake. rewrite firstn_length. destruct (Nat.le_ge_cases (Z.to_nat k) (length (b :: l))); [now rewrite Nat.min_l|]. rewrite Nat.min_r by assumption. now rewrite firstn_all, firstn_all2.
Qed.
Lemma stream_next i pos n : (pos < D)%nat -> (pos < snd (rdS i pos n) <= D)%nat.
Proof.
  intros Hp. destruct (Z_lt_le_dec 0 n) as [Hn|Hn].
  - destruct (stream_more i pos n Hp Hn) as (bs & er & -> & Hne & _ & Hle & _). cbn [snd]. destruct bs; [congruence|]. cbn [length] in *. lia.
  - unfold stream_rd. replace (n <=? 0) with true by lia. destruct (skipn pos s); cbn [snd]; lia.
Qed.

(** The states that the calls of one goroutine find. *)
Definition fine (states : list nat) : Prop := exists w j, states = w ++ repeat D j /\ NoDup w /\ incl w (seq 0 D).
Lemma conversation_fine log : forall x x' i, (x <= D)%nat -> conversation nat rdS wrS x log x' ->
  exists w j, map n_at (calls_of i log) = w ++ repeat D j /\ NoDup w /\ Forall (fun p => x <= p < D)%nat w.
Proof.
  induction log as [|call log IH]; intros x x' i Hx H; [exists [], 0%nat; cbn; auto using NoDup_nil|].
  destruct H as [Hat H]. assert (Hnext : (x <= after nat rdS wrS x (n_ask call) <= D)%nat /\ ((x < D)%nat -> (x < after nat rdS wrS x (n_ask call))%nat)).
  { destruct (n_ask call) as [k n|k bs]; [cbn [after]|change (after nat rdS wrS x (AskWrite k bs)) with D; lia]. destruct (Nat.lt_ge_cases x D) as [Hl|Hl].
    - pose proof (stream_next k x n Hl). destruct (rdS k x n) as [[[c b] er] y]. cbn [snd] in *. lia.
    - rewrite stream_end by exact Hl. lia. }
  destruct Hnext as [Hn1 Hn2]. destruct (IH _ x' i (proj2 Hn1) H) as (w & j & E & Hnd & Hw). cbn [calls_of filter].
  assert (Hw' : Forall (fun p => x <= p < D)%nat w) by (eapply Forall_impl; [|exact Hw]; cbn; lia).
  destruct (Nat.eqb (n_who call) i); [|exists w, j; auto]. cbn [map]. fold (calls_of i log). rewrite E, Hat.
  destruct (Nat.lt_ge_cases x D) as [Hl|Hl].
  - exists (x :: w), j. split; [reflexivity|]. split; [|constructor; [lia|exact Hw']]. constructor; [|exact Hnd]. intros Hin. rewrite Forall_forall in Hw. specialize (Hw x Hin). specialize (Hn2 Hl). lia.
  - assert (x = D) as -> by lia. destruct w as [|p w]; [|inversion Hw'; lia]. exists [], (S j). cbn. auto using NoDup_nil.
Qed.
Lemma fine_conversation log x' i : conversation nat rdS wrS 0%nat log x' -> fine (map n_at (calls_of i log)).
Proof.
  intros H. destruct (conversation_fine log 0%nat x' i (Nat.le_0_l _) H) as (w & j & E & Hnd & Hw). exists w, j. split; [exact E|]. split; [exact Hnd|].
  intros p Hp. rewrite Forall_forall in Hw. specialize (Hw p Hp). apply in_seq. lia.
Qed.
Fixpoint words (al : list nat) (m : nat) : list (list nat) :=
  match m with 0%nat => [[]] | S m => [] :: flat_map (fun a => map (cons a) (words al m)) al end.
Lemma in_words al w : incl w al -> forall m, (length w <= m)%nat -> In w (words al m).
Proof.
  induction w as [|a w IH]; intros Hal m Hm; [destruct m; cbn; auto|]. destruct m as [|m]; [cbn in Hm; lia|]. cbn [words]. right. apply in_flat_map. exists a.
  split; [apply Hal; now left|]. apply in_map, IH; [intros x Hx; apply Hal; now right|cbn in Hm; lia].
Qed.
Lemma fine_words w : NoDup w -> incl w (seq 0 D) -> In w (words (seq 0 D) D).
Proof. intros H1 H2. apply in_words; [exact H2|]. rewrite <- (seq_length D 0). now apply NoDup_incl_length. Qed.
Lemma nth_pad w j i : nth i (w ++ repeat D j) D = nth i w D.
Proof.
  destruct (Nat.lt_ge_cases i (length w)) as [H|H]; [now rewrite app_nth1|]. rewrite app_nth2, (nth_overflow w) by exact H. generalize (i - length w)%nat. clear.
  induction j as [|j IH]; intros [|i]; cbn; auto.
Qed.

(** The calls are answered as in the states [w], and then at the end. *)
Variable w : list nat.
Definition rdW (i : nat) (y : list ask) (n : Z) : Z * list Z * option error * list ask :=
  let '(c, bs, er, _) := rdS i (nth (length y) w D) n in (c, bs, er, y ++ [AskRead i n]).
Definition wrW (i : nat) (y : list ask) (bs : list Z) : Z * option error * list ask :=
  let '(c, er, _) := wrS i (nth (length y) w D) bs in (c, er, y ++ [AskWrite i bs]).
Variable kx : nat.
Lemma W_conf y n : let '(c, bs, er, y') := rdW kx y n in c = zlen bs /\ (0 <= n -> zlen bs <= n) /\ Forall is_byte bs.
Proof. unfold rdW. pose proof (stream_conf kx (nth (length y) w D) n) as H. destruct (rdS kx _ n) as [[[c bs] er] p]. exact H. Qed.
Notation r1 := (rd1 (list ask) rdW kx).
Lemma W_starves k n y y' u : 0 < k -> starves r1 k n y y' u -> (n + length y <= Nat.max (length y) (length w))%nat /\ length y' = (n + length y)%nat.
Proof.
  intros Hk H. induction H as [y|n y y1 u sp c y2 _ [IH1 IH2] Hsp E Hc _]; [lia|]. unfold rd1, rdW in E.
  destruct (Nat.lt_ge_cases (length y1) (length w)) as [Hl|Hl].
  - destruct (rdS kx _ sp) as [[[c' bs] er] p]. injection E as <- -> <-. rewrite app_length. cbn [length]. lia.
  - rewrite (nth_overflow w), stream_end in E by lia. injection E as <- ? _. discriminate.
Qed.
Lemma W_bound k n y y' u : 0 < k -> starves r1 k n y y' u -> (n <= length w)%nat.
Proof. intros Hk H. apply W_starves in H; [lia|exact Hk]. Qed.
Lemma W_final y n c er y' : 0 < n -> r1 y n = (c, er, y') -> final c er = None \/ final c er = Some e.
Proof.
  intros Hn E. unfold rd1, rdW in E. destruct (Nat.lt_ge_cases (nth (length y) w D) D) as [Hl|Hl].
  - destruct (stream_more kx _ n Hl Hn) as (bs & er' & Hr & Hne & Her & _). rewrite Hr in E. injection E as <- <- <-. destruct bs; [congruence|]. destruct Her as [-> | ->]; cbn; auto.
  - rewrite stream_end in E by exact Hl. injection E as <- <- _. right. reflexivity.
Qed.
Lemma W_hears_mono y y' d : hears (list ask) rdW kx y y' d -> exists more, y' = y ++ more.
Proof.
  induction 1 as [y|y n c er y1 y2 d _ E _ [more ->]]; [exists []; now rewrite app_nil_r|]. unfold rd1, rdW in E. destruct (rdS kx _ n) as [[[c' bs] er'] p]. injection E as _ _ <-.
  rewrite <- app_assoc. eauto.
Qed.
Definition true_read (k : nat) (call : entry nat) : Prop := exists n, n_ask call = AskRead k n /\ 0 < n.
Lemma W_hears y y' d : hears (list ask) rdW kx y y' d -> forall es, y' = y ++ map n_ask es -> (forall j, nth (length y + j) w D = nth j (map n_at es) D) ->
  d = bytes_of s e give early es /\ Forall (true_read kx) es.
Proof.
  induction 1 as [y|y n c er y1 y2 d Hn E Hh IH]; intros es Hy Hat.
  - assert (es = []) as ->. { apply (f_equal (@length _)) in Hy. rewrite app_length, map_length in Hy. destruct es; [reflexivity|cbn in Hy; lia]. } split; [reflexivity|constructor].
  - pose proof (W_hears_mono _ _ _ Hh) as [more Hm]. unfold rd1, rdW in E. pose proof (Hat 0%nat) as H0. rewrite Nat.add_0_r in H0.
    destruct (rdS kx (nth (length y) w D) n) as [[[c' bs] er'] p] eqn:Er. injection E as <- <- <-.
    rewrite Hm, <- app_assoc in Hy. apply app_inv_head in Hy. destruct es as [|call es]; [discriminate Hy|]. cbn [map app] in Hy. injection Hy as Ha Hmore.
    destruct (IH es) as [-> Hes].
    + rewrite Hm, Hmore. reflexivity.
    + intros j. rewrite app_length. cbn [length]. specialize (Hat (S j)). cbn [map nth] in Hat. rewrite <- Hat. f_equal. lia.
    + cbn [map nth] in H0. split; [|constructor; [exists n; auto|exact Hes]]. unfold bytes_of. cbn [flat_map]. rewrite <- Ha, <- H0, Er. reflexivity.
Qed.
End Stream.

Section Runs.
Variable s : list Z.
Variable e : error.
Variable give : nat -> Z -> Z.
Variable early : bool.
Hypothesis Hs : Forall is_byte s.
Notation D := (length s).
Notation rdS := (stream_rd s e give early).
Notation wrS := (stream_wr s).
Lemma stream_runs grow kx A O vs : nil_ok A -> Forall (fun v => exists old, slice_holds A v old /\ 0 < len_of v) vs ->
  exists N, forall n states, (N <= n)%nat -> fine s states -> exists p outs asks left A' O',
    with_others nat rdS wrS D grow n A O (reading kx vs) states = Ok (VTuple (VTuple [VPtr p; VErr None] :: flat_map show outs), mkState _ A' O' (states, asks)) /\
    length outs = length vs /\
    forall es, asks = map n_ask es -> states = map n_at es -> Forall (true_read kx) es /\
      exists a lost rs, bytes_of s e give early es = a ++ lost /\ decodes a rs /\ utf8 rs = concat (map fst outs) ++ left /\
        (lost <> [] -> truncated lost /\ In ([], Some e) outs) /\
        forall bs er, In (bs, er) outs -> (er = None /\ bs <> []) \/ (er = Some e /\ bs = [] /\ left = []).
Proof.
  intros Hnil Hvs.
  set (Q := fun (w : list nat) N => exists p outs y left err A' O', many_reads (rd1 (list ask) (rdW s e give early w) kx) ([], [], None) (map len_of vs) outs (y, left, err) /\
     forall n, (N <= n)%nat -> code_alone grow (list ask) (rdW s e give early w) (wrW s w) n (reading kx vs) [] (mkState _ A O []) =
       Ok (VTuple (VTuple [VPtr p; VErr None] :: flat_map show outs), mkState _ A' O' y)).
  destruct (sup Q (words (seq 0 D) D)) as [N HN].
  { intros w N N' HNN (p & outs & y & left & err & A' & O' & H1 & H2). exists p, outs, y, left, err, A', O'. split; [exact H1|]. intros n Hn. apply H2. lia. }
  { apply Forall_forall. intros w _.
    destruct (reading_seq grow (list ask) (rdW s e give early w) (wrW s w) kx (W_conf s e give early Hs w kx) (length w) (W_bound s e give early w kx) A O [] vs Hnil Hvs)
      as (p & outs & y & left & err & A' & O' & N & H1 & H2). exists N, p, outs, y, left, err, A', O'. auto. }
  exists N. intros n states Hn (w & j & Hst & Hnd & Hincl). rewrite Forall_forall in HN.
  destruct (HN w (fine_words s w Hnd Hincl)) as (p & outs & y & left & err & A' & O' & Hm & Hr).
  exists p, outs, y, left, A', O'. specialize (Hr n Hn). split; [|split].
  - unfold with_others. rewrite <- finish_code in *.
    refine (finish_map (rdW s e give early w) (wrW s w) (found_rd nat rdS D) (found_wr nat wrS D) (fun y => (states, y)) _ _ _ A O [] _ _ Hr).
    + intros i y0 k. unfold found_rd, rdW. cbn [fst snd]. rewrite Hst, nth_pad. destruct (rdS i _ k) as [[[c bs] er] q]. reflexivity.
    + intros i y0 bs. unfold found_wr, wrW. cbn [fst snd]. rewrite Hst, nth_pad. destruct (wrS i _ bs) as [[c er] q]. reflexivity.
  - clear -Hm. rewrite <- (map_length len_of). remember (map len_of vs) as sizes. clear Heqsizes. induction Hm; [reflexivity|]. cbn [length]. now rewrite IHHm.
  - intros es Ha Hes.
    assert (Hsz : Forall (fun k => 0 < k) (map len_of vs)).
    { apply Forall_map. eapply Forall_impl; [|exact Hvs]. intros v (old & _ & H). exact H. }
    destruct (reads_text grow (list ask) (rdW s e give early w) (wrW s w) kx e (W_final s e give early w kx) _ _ _ _ Hm Hsz _ _ _ _ _ _ eq_refl eq_refl (or_introl eq_refl))
      as (a & lost & rs & G1 & G2 & G3 & _ & G5 & G6).
    destruct (W_hears s e give early w kx _ _ _ G1 es) as [Hb Htr].
    + exact Ha.
    + intros i. cbn [length plus]. rewrite <- Hes, Hst, nth_pad. reflexivity.
    + split; [exact Htr|]. exists a, lost, rs. cbn [app] in G3. auto 10.
Qed.
Lemma conversation_bytes log : forall x x', (x <= D)%nat -> conversation nat rdS wrS x log x' -> Forall (fun call => exists k, true_read k call) log ->
  bytes_of s e give early log ++ skipn x' s = skipn x s.
Proof.
  induction log as [|call log IH]; intros x x' Hx H Hl; cbn [conversation] in H; [now subst|]. destruct H as [Hat H]. inversion Hl as [|? ? (k & n & Ha & Hn) Hl']; subst.
  unfold bytes_of. cbn [flat_map]. fold (bytes_of s e give early log). rewrite Ha in *. cbn [after] in H.
  destruct (Nat.lt_ge_cases (n_at call) D) as [Hp|Hp].
  - destruct (stream_more s e give early k (n_at call) n Hp Hn) as (bs & er & E & _ & _ & Hle & Hsk). rewrite E in *. cbn [fst snd] in *.
    rewrite <- app_assoc, (IH _ _ Hle H Hl'). exact Hsk.
  - rewrite stream_end in * by exact Hp. cbn [fst snd app]. rewrite (IH D x' (le_n _) H Hl'). now rewrite !skipn_all2 by lia.
Qed.
End Runs.

(** ** The theorem *)
Lemma steps_who {E} rd wr m (c : crew E) log c' : crew_steps E rd wr m c log c' -> length (c_procs c') = length (c_procs c) /\ Forall (fun call => (n_who call < length (c_procs c))%nat) log.
Proof.
  induction 1 as [c|m c l c1 l1 c2 Hs _ [IH1 IH2]]; [auto|]. inversion Hs as [A O x qs i q q' s' Hi Hd Ho]; subst. cbn [c_procs] in *. rewrite set_nth_len in *.
  split; [exact IH1|]. apply Forall_app. split; [|exact IH2]. apply Forall_forall. intros call Hin. apply in_map_iff in Hin. destruct Hin as (a & <- & _). cbn [n_who]. apply nth_error_Some. congruence.
Qed.
Lemma run_on {E} rd wr (c0 : crew E) bound : (forall m log c, crew_steps E rd wr m c0 log c -> (m <= bound)%nat /\ (crew_finished c \/ exists l c', crew_step E rd wr c l c')) ->
  forall d m log c, (bound - m <= d)%nat -> crew_steps E rd wr m c0 log c -> exists m' more c', crew_steps E rd wr m' c0 (log ++ more) c' /\ crew_finished c'.
Proof.
  intros H. induction d as [|d IH]; intros m log c Hd Hm; destruct (H _ _ _ Hm) as [Hle [Hf|(l & c' & Hs)]]; try solve [exists m, [], c; rewrite app_nil_r; auto].
  - pose proof (steps_app _ _ _ _ _ _ _ _ _ Hm (crew_steps_S _ _ _ _ _ _ _ _ _ Hs (crew_steps_0 _ _ _ _))) as Hm'. destruct (H _ _ _ Hm') as [Hle' _]. lia.
  - pose proof (steps_app _ _ _ _ _ _ _ _ _ Hm (crew_steps_S _ _ _ _ _ _ _ _ _ Hs (crew_steps_0 _ _ _ _))) as Hm'. destruct (H _ _ _ Hm') as [Hle' _].
    assert (Hd2 : (bound - (m + 1) <= d)%nat) by lia. destruct (IH _ _ _ Hd2 Hm') as (m2 & more & c2 & H1 & H2). exists m2, (l ++ more), c2. rewrite app_nil_r, <- app_assoc in H1. auto.
Qed.
Theorem stream_readers : forall grow s e give early A O (gs : list (list (nat * (Z * Z)) * (nat * list val))),
  Forall is_byte s ->
  separate_parts A O (map fst (reader_crew gs)) ->
  Forall (fun g => Forall (fun v => (exists old, slice_holds A v old) /\ 0 < len_of v /\
    may_use A O (map fst (reader_crew gs)) (mkWorker [] (fst g) [] tt) Dst v) (snd (snd g))) gs ->
  exists N, forall n, (N <= n)%nat -> exists bound, forall m log c,
    crew_steps nat (stream_rd s e give early) (stream_wr s) m (start_crew grow n A O 0%nat (reader_crew gs)) log c ->
    (m <= bound)%nat /\ (crew_finished c \/ exists l c', crew_step nat (stream_rd s e give early) (stream_wr s) c l c') /\ ~ crew_race c /\
    Forall (fun call => exists g k, nth_error gs (n_who call) = Some g /\ n_ask call = AskRead (fst (snd g)) k /\ 0 < k) log /\
    bytes_of s e give early log ++ skipn (c_ext c) s = s /\
    (forall l, (l < length A)%nat -> zlen (array (c_arrs c) l) = zlen (array A l) /\
       forall z, ~ owned (map fst (reader_crew gs)) l z -> zget (array (c_arrs c) l) z = zget (array A l) z) /\
    (crew_finished c -> forall i g, nth_error gs i = Some g -> exists p outs a lost rs rest,
       nth_error (c_procs c) i = Some (Done (Ok (VTuple (VTuple [VPtr p; VErr None] :: flat_map seen_read outs)))) /\
       length outs = length (snd (snd g)) /\
       bytes_of s e give early (calls_of i log) = a ++ lost /\ decodes a rs /\ utf8 rs = concat (map fst outs) ++ rest /\
       (lost <> [] -> truncated lost /\ In ([], Some e) outs) /\
       (forall bs er, In (bs, er) outs -> (er = None /\ bs <> []) \/ (er = Some e /\ bs = [] /\ rest = []))).
Proof.
  intros grow s e give early A O gs Hs Hsep Hgs.
  assert (Hnil : nil_ok A). { destruct Hsep as [[rest ->] _]. split; [cbn; lia|reflexivity]. }
  destruct (sup (fun g N => forall n states, (N <= n)%nat -> fine s states -> exists p outs asks left A' O',
    with_others nat (stream_rd s e give early) (stream_wr s) (length s) grow n A O (reading (fst (snd g)) (snd (snd g))) states = Ok (VTuple (VTuple [VPtr p; VErr None] :: flat_map show outs), mkState _ A' O' (states, asks)) /\
    length outs = length (snd (snd g)) /\
    forall es, asks = map n_ask es -> states = map n_at es -> Forall (true_read (fst (snd g))) es /\
      exists a lost rs, bytes_of s e give early es = a ++ lost /\ decodes a rs /\ utf8 rs = concat (map fst outs) ++ left /\
        (lost <> [] -> truncated lost /\ In ([], Some e) outs) /\
        forall bs er, In (bs, er) outs -> (er = None /\ bs <> []) \/ (er = Some e /\ bs = [] /\ left = [])) gs) as [N Hall].
  { intros g N N' HNN H n states Hn. apply H. lia. }
  { apply Forall_forall. intros g Hg. rewrite Forall_forall in Hgs. apply stream_runs; [exact Hs|exact Hnil|]. eapply Forall_impl; [|exact (Hgs g Hg)]. intros v ([old Ho] & Hl & _). eauto. }
  rewrite Forall_forall in Hall. exists N. intros n Hn.
  assert (Hat : forall i t, nth_error (reader_crew gs) i = Some t -> exists g, nth_error gs i = Some g /\ In g gs /\ t = (mkWorker [] (fst g) [] tt, reading (fst (snd g)) (snd (snd g)))).
  { unfold reader_crew. intros i t Ht. rewrite nth_error_map in Ht. destruct (nth_error gs i) as [g|] eqn:Hg; [|discriminate]. injection Ht as <-. exists g. split; [reflexivity|]. split; [eapply nth_error_In, Hg|reflexivity]. }
  destruct (shared_sequences nat (stream_rd s e give early) (stream_wr s) grow n A O (length s) 0%nat (fine s) (reader_crew gs) (fun log x' i => fine_conversation s e give early log x' i) Hsep) as [bound Hsh].
  { apply Forall_forall. intros t Ht. apply In_nth_error in Ht. destruct Ht as [i Hi]. destruct (Hat i t Hi) as (g & _ & Hin & ->). cbn [fst snd].
    unfold reading. apply cu_act with (u := Own); [exists [Own]; split; [reflexivity|]; repeat constructor|]. intros _. cbn [app].
    apply usable_reads; [|reflexivity]. rewrite Forall_forall in Hgs. eapply Forall_impl; [|exact (Hgs g Hin)]. intros v (_ & _ & H). exact H. }
  { intros t states Ht Hst. apply In_nth_error in Ht. destruct Ht as [i Hi]. destruct (Hat i t Hi) as (g & _ & Hin & ->). cbn [snd].
    destruct (Hall g Hin n states Hn Hst) as (p & outs & asks & left & A' & O' & Hr & _). rewrite Hr. discriminate. }
  set (c0 := start_crew grow n A O 0%nat (reader_crew gs)) in *.
  (* what a goroutine has done in the end *)
  assert (Hend : forall m log c, crew_steps nat (stream_rd s e give early) (stream_wr s) m c0 log c -> crew_finished c -> forall i g, nth_error gs i = Some g ->
    Forall (true_read (fst (snd g))) (calls_of i log) /\ exists p outs a lost rs rest,
       nth_error (c_procs c) i = Some (Done (Ok (VTuple (VTuple [VPtr p; VErr None] :: flat_map seen_read outs)))) /\
       length outs = length (snd (snd g)) /\
       bytes_of s e give early (calls_of i log) = a ++ lost /\ decodes a rs /\ utf8 rs = concat (map fst outs) ++ rest /\
       (lost <> [] -> truncated lost /\ In ([], Some e) outs) /\
       (forall bs er, In (bs, er) outs -> (er = None /\ bs <> []) \/ (er = Some e /\ bs = [] /\ rest = []))).
  { intros m log c Hm Hf i g Hg. destruct (Hsh m log c Hm) as (_ & _ & _ & H4 & _ & _ & H7).
    assert (Hi : nth_error (reader_crew gs) i = Some (mkWorker [] (fst g) [] tt, reading (fst (snd g)) (snd (snd g)))) by (unfold reader_crew; now rewrite nth_error_map, Hg).
    specialize (H7 Hf i _ Hi). assert (Hin : In g gs) by (eapply nth_error_In, Hg).
    destruct (Hall g Hin n (map n_at (calls_of i log)) Hn (fine_conversation s e give early log _ i H4)) as (p & outs & asks & left & A' & O' & Hr & Hlen & Htext).
    cbn [snd] in H7. rewrite Hr in H7. destruct H7 as (Hasks & v' & Hv' & ca & co & _ & _ & _ & _ & _ & _ & Hcorr). cbn [ext snd] in Hasks.
    destruct (Htext (calls_of i log) Hasks eq_refl) as (Htr & a & lost & rs & G1 & G2 & G3 & G4 & G5). split; [exact Htr|].
    assert (exists p', v' = VTuple (VTuple [VPtr p'; VErr None] :: flat_map show outs)) as [p' ->].
    { destruct v' as [| | | | | | | | | |[|v1 vs1]]; cbn [corresponds] in Hcorr; try contradiction Hcorr. destruct Hcorr as [Hc1 Hc2].
      destruct v1 as [| | | | | | | | | |[|a1 [|b1 [|]]]]; try contradiction Hc1; try tauto. destruct Hc1 as (Ha & <- & _).
      destruct a1; try contradiction Ha. eexists. f_equal. f_equal. now apply (corr_reads ca co). }
    exists p', outs, a, lost, rs, left. auto 10. }
  exists bound. intros m log c Hm. destruct (Hsh m log c Hm) as (H1 & H2 & H3 & H4 & H5 & H6 & _).
  do 3 (split; [assumption|]).
  assert (Hlog : Forall (fun call => exists g k, nth_error gs (n_who call) = Some g /\ n_ask call = AskRead (fst (snd g)) k /\ 0 < k) log).
  { destruct (run_on (stream_rd s e give early) (stream_wr s) c0 bound) with (d := (bound - m)%nat) (m := m) (log := log) (c := c) as (m2 & more & c2 & Hm2 & Hf2).
    - intros m1 l1 c1 Hm1. destruct (Hsh m1 l1 c1 Hm1) as (G1 & G2 & _). auto.
    - lia.
    - exact Hm.
    - destruct (steps_who _ _ _ _ _ _ Hm) as [_ Hwho]. rewrite Forall_forall in *. intros call Hcall. specialize (Hwho call Hcall). cbn [c0 start_crew c_procs] in Hwho.
      rewrite map_length in Hwho. unfold reader_crew in Hwho. rewrite map_length in Hwho. destruct (nth_error gs (n_who call)) as [g|] eqn:Hg; [|apply nth_error_None in Hg; lia].
      destruct (Hend m2 _ c2 Hm2 Hf2 _ g Hg) as [Htr _]. rewrite Forall_forall in Htr. destruct (Htr call) as (k & Hk & Hpos).
      + unfold calls_of. apply filter_In. split; [apply in_or_app; auto|apply Nat.eqb_refl].
      + exists g, k. auto. }
  split; [exact Hlog|]. split; [|split; [exact H6|]].
  - rewrite (conversation_bytes s e give early log 0%nat (c_ext c)); [reflexivity|lia|exact H4|]. eapply Forall_impl; [|exact Hlog]. intros call (g & k & _ & Ha & Hk). exists (fst (snd g)), k. auto.
  - intros Hf i g Hg. destruct (Hend m log c Hm Hf i g Hg) as [_ H]. exact H.
Qed.
