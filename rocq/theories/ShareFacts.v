(** Several Readers or Writers over one reader or writer: lemmas behind C133-C135. *)
From Coq Require Import ZArith List Bool Lia Arith.
From Coq Require Import ZifyBool.
From Verif Require Import Base Spec Facts Utf8 Utf8Facts SortSearch TableFrom TableTo SpecCp949
  SpecIO SpecReads PMapFacts Cp949Model StreamModel SliceFacts TableFacts Cp949Facts Cp949Facts2 Cp949Facts3 StreamFacts
  StreamFacts3 ReadsFacts ShareModel SpecShare.
Import ListNotations.
Local Open Scope Z_scope.
Local Open Scope go_scope.
Local Opaque fromTable toTable dec_tree enc_tree.

Lemma update_same {A} (f : nat -> A) i x : update f i x i = x.
Proof. unfold update. rewrite Nat.eqb_refl. reflexivity. Qed.
Lemma update_all {A} (P : A -> Prop) (f : nat -> A) i x : (forall j, P (f j)) -> P x -> forall j, P (update f i x j).
Proof. intros H Hx j. unfold update. destruct (Nat.eqb j i); auto. Qed.

(** ** Writers *)
Section Writers.
Variable grow : Z -> Z -> Z.
Variable WS : Type.
Variable wr : WS -> list Z -> option error * WS.

Lemma writes_in_turn_spec ops : Forall (fun o => Forall is_byte (snd o)) ops -> forall ws s,
  (forall i, writer_ok WS (ws i)) ->
  writes_in_turn grow wr ws s ops = Ok (writes_spec wr s (map (fun o => (snd o, enc (snd o))) ops)).
Proof.
  induction 1 as [|[i d] ops Hd _ IH]; intros ws s Hw; [reflexivity|]. cbn [snd] in Hd.
  cbn [writes_in_turn map snd writes_spec].
  destruct (Write_spec grow WS wr (with_dst (ws i) s) d) as (w' & Hw' & H); [exact (Hw i)|exact Hd|].
  destruct d as [|x d].
  - destruct H as [-> E]. cbn [bind]. rewrite E. cbn [with_dst w_dst].
    rewrite IH by (apply update_all; assumption).
    destruct (writes_spec wr s _) as [rs dst]. reflexivity.
  - cbn [with_dst w_dst] in H. destruct (wr s (enc (x :: d))) as [err dst] eqn:Ewr. destruct H as [-> E]. cbn [bind]. rewrite E.
    rewrite IH by (apply update_all; assumption).
    destruct (writes_spec wr dst _) as [rs dst']. reflexivity.
Qed.

Lemma C133_lemma s ops : Forall (fun o => Forall is_byte (snd o)) ops ->
  exists results s' w,
    writes_in_turn grow wr (fun _ => NewWriter s) s ops = Ok (results, s') /\
    write_all grow WS wr (NewWriter s) (map snd ops) = Ok (results, w) /\ w_dst _ w = s'.
Proof.
  intros H. rewrite (writes_in_turn_spec ops H) by (intros _; apply new_writer_ok).
  destruct (write_all_spec grow WS wr (map snd ops)) with (w := @NewWriter WS s) as (w' & _ & -> & E); [|apply new_writer_ok|].
  { clear -H. induction H; constructor; assumption. }
  rewrite map_map in *. cbn [NewWriter w_dst] in *.
  destruct (writes_spec wr s _) as [rs dst]. exists rs, dst, w'. cbn [fst snd] in *. auto.
Qed.
End Writers.

Lemma writes_spec_buffer pairs : forall s, snd (writes_spec buffer_wr s pairs) =
  s ++ concat (map (fun p => match fst p with [] => [] | _ => snd p end) pairs).
Proof.
  induction pairs as [|[d e] pairs IH]; intros s; cbn [writes_spec map concat fst snd]; [rewrite app_nil_r; reflexivity|].
  destruct d as [|x d]; cbn [buffer_wr].
  - specialize (IH s). destruct (writes_spec buffer_wr s pairs). exact IH.
  - specialize (IH (s ++ e)). destruct (writes_spec buffer_wr (s ++ e) pairs). cbn [snd] in *. rewrite IH, app_assoc. reflexivity.
Qed.
Lemma writes_spec_buffer_results pairs : forall s, fst (writes_spec buffer_wr s pairs) = map (fun p => (zlen (fst p), None)) pairs.
Proof.
  induction pairs as [|[d e] pairs IH]; intros s; [reflexivity|]. cbn [writes_spec map fst].
  destruct d as [|x d]; cbn [buffer_wr].
  - specialize (IH s). destruct (writes_spec buffer_wr s pairs). cbn [fst] in *. rewrite IH. reflexivity.
  - specialize (IH (s ++ e)). destruct (writes_spec buffer_wr (s ++ e) pairs). cbn [fst] in *. rewrite IH. reflexivity.
Qed.
Lemma C133_buffer_lemma grow ops : Forall (fun o => Forall is_byte (snd o)) ops ->
  exists parts, Forall2 (fun o p => To grow (snd o) = Ok (inl p)) ops parts /\
    writes_in_turn grow buffer_wr (fun _ => NewWriter []) [] ops = Ok (map (fun o => (zlen (snd o), None)) ops, concat parts).
Proof.
  intros H. exists (map (fun o => enc (snd o)) ops). split.
  { clear -H. induction H; constructor; [apply To_enc|]; assumption. }
  rewrite (writes_in_turn_spec _ _ _ ops H) by (intros _; apply new_writer_ok).
  pose proof (writes_spec_buffer (map (fun o => (snd o, enc (snd o))) ops) []) as E1.
  pose proof (writes_spec_buffer_results (map (fun o => (snd o, enc (snd o))) ops) []) as E2.
  destruct (writes_spec buffer_wr [] _) as [a b]. cbn [fst snd] in *. subst a b. f_equal. f_equal.
  - rewrite map_map. reflexivity.
  - cbn [app]. f_equal. rewrite map_map. apply map_ext. intros [i [|x d]]; reflexivity.
Qed.

(** ** A Writer and a Reader over one buffer *)
(* Read depends on the wrapped reader in the states it gets into only *)
Lemma Read_agree grow RS (P : RS -> Prop) rd rd' : (forall s k, P s -> rd s k = rd' s k) ->
  (forall s k, P s -> P (snd (rd s k))) -> forall fuel r k, P (r_src _ r) -> Read grow RS rd fuel r k = Read grow RS rd' fuel r k.
Proof.
  intros H Hp. induction fuel as [|fuel IH]; intros r k Hr; [reflexivity|]. cbn [Read].
  destruct (_ >? 0); [reflexivity|].
  assert (forall r, P (r_src _ r) -> forall r1, convert grow RS r = Ok r1 -> P (r_src _ r1)) as Hc.
  { clear. intros r Hr r1. unfold convert. destruct (from_Translate _ _ _ _) as [[[[nc cd] x] scratch]| |]; [|discriminate..].
    cbn [bind]. destruct (_ >? _); [discriminate|]. destruct (reslice _ _); [|discriminate..]. cbn [bind].
    intros E. injection E as <-. exact Hr. }
  destruct (r_err RS r).
  - destruct (_ =? 0); [reflexivity|]. destruct (convert grow RS r) as [r1| |] eqn:E; [|reflexivity..]. cbn [bind].
    apply IH, (Hc r Hr r1 E).
  - assert (fill RS rd r k = fill RS rd' r k) as Ef.
    { unfold fill. destruct (ensureCap _ _) as [rdata| |]; [|reflexivity..]. cbn [bind]. rewrite H by exact Hr. reflexivity. }
    rewrite <- Ef. destruct (fill RS rd r k) as [r1| |] eqn:E1; [|reflexivity..]. cbn [bind].
    assert (P (r_src _ r1)) as H1.
    { revert E1. unfold fill. destruct (ensureCap _ _) as [rdata| |]; [|discriminate..]. cbn [bind].
      specialize (Hp (r_src _ r) (scap rdata - slen rdata) Hr). destruct (rd _ _) as [[bs err] src]. cbn [snd] in Hp.
      destruct (_ >? _); [discriminate|]. destruct (reslice _ _); [|discriminate..]. cbn [bind].
      intros E. injection E as <-. exact Hp. }
    destruct (convert grow RS r1) as [r2| |] eqn:E2; [|reflexivity..]. cbn [bind]. apply IH, (Hc r1 H1 r2 E2).
Qed.

Definition is_byteb (b : Z) : bool := (0 <=? b) && (b <? 256).
Lemma is_byteb_iff b : is_byteb b = true <-> is_byte b.
Proof. unfold is_byteb, is_byte. lia. Qed.
Definition byte_rd (s : list Z) (k : Z) : list Z * option error * list Z :=
  if forallb is_byteb s then bytes_rd s k else ([], None, s).
Lemma forallb_bytes s : forallb is_byteb s = true <-> Forall is_byte s.
Proof.
  rewrite forallb_forall, Forall_forall. split; intros H x Hx; specialize (H x Hx); now apply is_byteb_iff.
Qed.
Lemma byte_rd_fits : fits_buffer byte_rd.
Proof.
  intros s sp Hsp. unfold byte_rd. destruct (forallb is_byteb s) eqn:E; [|cbn; split; [lia|constructor]].
  apply forallb_bytes in E. destruct s as [|x s]; cbn [bytes_rd].
  - destruct (0 <? sp); cbn; (split; [lia|constructor]).
  - cbn [fst]. split; [rewrite zlen_ztake by lia; lia|apply Forall_ztake; exact E].
Qed.
Lemma byte_rd_eq s k : Forall is_byte s -> byte_rd s k = bytes_rd s k.
Proof. intros H. unfold byte_rd. apply forallb_bytes in H. rewrite H. reflexivity. Qed.
Lemma bytes_rd_bytes s k : Forall is_byte s -> Forall is_byte (snd (bytes_rd s k)).
Proof.
  intros H. destruct s as [|x s]; cbn [bytes_rd]; [destruct (0 <? k); constructor|]. apply Forall_zdrop. exact H.
Qed.
Lemma Read_bytes grow fuel r k : Forall is_byte (r_src _ r) ->
  Read grow (list Z) bytes_rd fuel r k = Read grow (list Z) byte_rd fuel r k.
Proof.
  apply (Read_agree grow (list Z) (Forall is_byte)); [intros s n H; symmetry; apply byte_rd_eq, H|exact bytes_rd_bytes].
Qed.

(* one call on a buffer *)
Lemma bytes_rd_case s k c e s' : 0 < k -> Forall is_byte s -> byte_rd s k = (c, e, s') ->
  s = c ++ s' /\ (c <> [] /\ e = None \/ s = [] /\ e = Some EOF).
Proof.
  intros Hk Hb. rewrite byte_rd_eq by exact Hb. destruct s as [|x s]; cbn [bytes_rd].
  - destruct (Z.ltb_spec 0 k); [|lia]. intros E. injection E as <- <- <-. auto.
  - intros E. injection E as <- <- <-. split; [symmetry; apply ztake_zdrop|]. left. split; [|reflexivity].
    intros E. apply (f_equal zlen) in E. rewrite zlen_ztake, zlen_cons in E by lia. change (zlen []) with 0 in E.
    pose proof (zlen_nonneg s). lia.
Qed.
Lemma starves_bytes k n s s1 u : 0 < k -> Forall is_byte s -> starves byte_rd k n s s1 u ->
  s = u ++ s1 /\ (n <= length u)%nat /\ (u = [] \/ truncated u).
Proof.
  intros Hk Hb. induction 1 as [s|n s s1 u sp c s2 H IH Hsp E Hc Ht]; [auto|].
  destruct (IH Hb) as (-> & Hn & _). apply Forall_app in Hb as [_ Hb].
  destruct (bytes_rd_case s1 sp c None s2 ltac:(lia) Hb E) as (-> & _). rewrite app_assoc, app_length.
  split; [reflexivity|]. split; [|right; exact Ht]. destruct c; [congruence|cbn [length]; lia].
Qed.
(* one Read *)
Lemma one_read_bytes k b rs text err bs e st' : 0 < k -> decodes b rs -> (err = None \/ text = [] /\ err = Some EOF) ->
  one_read byte_rd k (b, text, err) bs e st' ->
  exists b' text' err' rs', st' = (b', text', err') /\ decodes b' rs' /\ (length b' <= length b)%nat /\
    (err' = None \/ text' = [] /\ err' = Some EOF) /\
    match e with
    | None => bs <> [] /\ zlen bs <= k /\ err' = None /\ err = None /\ text ++ utf8 rs = bs ++ text' ++ utf8 rs'
    | Some x => x = EOF /\ bs = [] /\ text' = [] /\ err' = Some EOF /\ text = [] /\ (err = None -> utf8 rs = [])
    end.
Proof.
  intros Hk Hd Herr H. pose proof (decodes_bytes _ _ Hd) as Hb.
  assert (forall t : list Z, t <> [] -> ztake k t <> []) as Htk.
  { intros [|x t] Ht E; [congruence|]. apply (f_equal zlen) in E. rewrite zlen_ztake, zlen_cons in E by lia.
    change (zlen []) with 0 in E. pose proof (zlen_nonneg t). lia. }
  inversion H as [s0 text0 err0 Ht|s0 x|s0 n s1 u sp c er s2 r Hst Hsp E Hdc Hne|s0 n s1 u sp c er s2 x Hst Hsp E Hor Hfin]; subst.
  - destruct Herr as [->|[-> _]]; [|congruence].
    exists b, (zdrop k text), None, rs. split; [reflexivity|]. split; [exact Hd|]. split; [lia|]. split; [auto|].
    split; [apply Htk; exact Ht|]. split; [rewrite zlen_ztake by lia; lia|]. split; [reflexivity|]. split; [reflexivity|].
    rewrite app_assoc, ztake_zdrop. reflexivity.
  - destruct Herr as [Herr|[_ Herr]]; [congruence|]. injection Herr as ->.
    exists b, [], (Some EOF), rs. split; [reflexivity|]. split; [exact Hd|]. split; [lia|]. split; [auto|].
    repeat (split; [reflexivity|]). discriminate.
  - destruct (starves_bytes k n b s1 u Hk Hb Hst) as (-> & _ & Hu). apply Forall_app in Hb as [_ Hb].
    destruct (bytes_rd_case s1 sp c er s2 ltac:(lia) Hb E) as (-> & Hc).
    destruct Hc as [[Hc ->]|[Hc ->]].
    + rewrite app_assoc in Hd. destruct (decodes_app_inv _ _ Hdc _ _ Hd) as (rs' & Hrs' & ->).
      assert (final c None = None) as -> by (destruct c; [congruence|reflexivity]).
      exists s2, (zdrop k (utf8 r)), None, rs'. split; [reflexivity|]. split; [exact Hrs'|].
      split; [rewrite !app_length; lia|]. split; [auto|].
      split; [apply Htk; destruct r; [congruence|]; intros Eu; apply (f_equal zlen) in Eu; rewrite utf8_cons, zlen_app in Eu;
        pose proof (zlen_nonneg (utf8 r)); revert Eu; unfold utf8_char; repeat destruct (_ <? _); change (zlen (@nil Z)) with 0; rewrite ?zlen_cons; change (zlen (@nil Z)) with 0; lia|].
      split; [rewrite zlen_ztake by lia; lia|]. split; [reflexivity|]. split; [reflexivity|].
      cbn [app]. rewrite utf8_app, app_assoc, ztake_zdrop. reflexivity.
    + exfalso. apply app_eq_nil in Hc as [-> ->]. rewrite app_nil_r in Hdc.
      destruct Hu as [->|Hu]; [inversion Hdc; subst; congruence|exact (trunc_not u r Hu Hdc)].
  - destruct (starves_bytes k n b s1 u Hk Hb Hst) as (-> & _ & Hu). apply Forall_app in Hb as [_ Hb].
    destruct (bytes_rd_case s1 sp c er s2 ltac:(lia) Hb E) as (-> & Hc).
    destruct Hc as [[Hc ->]|[Hc ->]]; [destruct c; [congruence|discriminate]|].
    apply app_eq_nil in Hc as [-> ->]. cbn [app] in *. rewrite app_nil_r in *.
    cbn [final] in Hfin. injection Hfin as <-.
    destruct Hor as [->|Hor]; [|exfalso; exact (trunc_not u rs Hor Hd)].
    inversion Hd; subst. exists [], [], (Some EOF), []. split; [reflexivity|]. split; [constructor|]. split; [lia|]. split; [auto|].
    repeat (split; [reflexivity|]). reflexivity.
Qed.

Lemma between_src {RS} (r : reader RS) s text err s' : between RS r (s, text, err) -> between RS (with_src r s') (s', text, err).
Proof.
  intros (H1 & H2 & E). injection E as _ -> ->. split; [exact H1|]. split; [exact H2|reflexivity].
Qed.
Lemma between_new {RS} (s : RS) : between RS (NewReader s) (s, [], None).
Proof.
  split; [|split; reflexivity]. unfold reader_ok, NewReader. cbn [r_scratch r_cdata_lo r_cdata_hi r_rdata nil_slice arr].
  split; [apply nil_slice_ok|]. split; [apply nil_slice_ok|]. cbn. lia.
Qed.

Section Buffer.
Variable grow : Z -> Z -> Z.

(* one Read on the Reader of the buffer *)
Lemma Read_buffer fuel r b rs text err k : 0 < k -> decodes b rs -> (err = None \/ text = [] /\ err = Some EOF) ->
  between (list Z) r (b, text, err) -> (length b + 2 <= fuel)%nat ->
  exists bs e r' b' text' err' rs', Read grow (list Z) bytes_rd fuel r k = Ok (bs, e, r') /\
    r_src _ r' = b' /\ between (list Z) r' (b', text', err') /\ decodes b' rs' /\ (length b' <= length b)%nat /\
    (err' = None \/ text' = [] /\ err' = Some EOF) /\
    match e with
    | None => bs <> [] /\ zlen bs <= k /\ err' = None /\ err = None /\ text ++ utf8 rs = bs ++ text' ++ utf8 rs'
    | Some x => x = EOF /\ bs = [] /\ text' = [] /\ err' = Some EOF /\ text = [] /\ (err = None -> utf8 rs = [])
    end.
Proof.
  intros Hk Hd Herr Hbt Hf. pose proof (decodes_bytes _ _ Hd) as Hb.
  assert (r_src _ r = b) as Es by (destruct Hbt as (_ & _ & E); congruence).
  rewrite Read_bytes by (rewrite Es; exact Hb).
  destruct (read_between grow _ byte_rd byte_rd_fits k fuel r _ ltac:(lia) Hbt) as [[_ [Hx|(s & n & s' & u & E & Hst & Hle)]]|(bs & e & r' & st' & E & H1 & Hbt')].
  - lia.
  - exfalso. injection E as <- _ _. destruct (starves_bytes k n b s' u Hk Hb Hst) as (-> & Hn & _). rewrite app_length in Hf. lia.
  - destruct (one_read_bytes k b rs text err bs e st' Hk Hd Herr H1) as (b' & text' & err' & rs' & -> & Hd' & Hl & He' & Hm).
    exists bs, e, r', b', text', err', rs'. split; [exact E|]. split; [destruct Hbt' as (_ & _ & E'); congruence|]. auto 10.
Qed.

Lemma enc_utf8 text bs : encodes text bs -> enc (utf8 text) = bs.
Proof.
  intros H. pose proof (To_encodes grow text bs H) as E.
  rewrite To_enc in E by (apply utf8_bytes, Forall_repertoire_scalar, (encodes_repertoire _ _ H)). congruence.
Qed.
Lemma encodes_len text bs : encodes text bs -> (length bs <= length (utf8 text))%nat.
Proof.
  intros H. assert (Forall is_scalar text) as Hsc by (apply Forall_repertoire_scalar, (encodes_repertoire _ _ H)).
  destruct (C41_To_lemma grow (utf8 text) (utf8_bytes _ Hsc)) as (out & E & _ & Hv).
  rewrite (To_encodes grow text bs H) in E. injection E as <-.
  specialize (Hv (ex_intro _ text (conj Hsc eq_refl))). unfold zlen in Hv. lia.
Qed.

Lemma through_buffer_spec ops : Forall proper ops -> forall fuel w r b rs text err, writer_ok _ w ->
  decodes b rs -> (err = None \/ text = [] /\ err = Some EOF) -> between (list Z) (with_src r b) (b, text, err) ->
  (length b + length (written ops) + 2 <= fuel)%nat ->
  exists answers, through_buffer grow fuel w r b ops = Ok answers /\
    queue (match err with None => text ++ utf8 rs | Some _ => [] end) (match err with None => false | Some _ => true end) ops answers.
Proof.
  induction 1 as [|o ops Ho _ IH]; intros fuel w r b rs text err Hw Hd Herr Hbt Hf.
  { exists []. split; [reflexivity|exact I]. }
  unfold written in *. cbn [map concat] in Hf.
  destruct o as [data|k]; cbn [through_buffer].
  - destruct Ho as (t & bs & -> & Henc).
    assert (Forall is_byte (utf8 t)) as Hby by (apply utf8_bytes, Forall_repertoire_scalar, (encodes_repertoire _ _ Henc)).
    destruct (Write_spec grow _ buffer_wr (with_dst w b) (utf8 t) Hw Hby) as (w' & Hw' & H).
    assert (Write grow _ buffer_wr (with_dst w b) (utf8 t) = Ok (zlen (utf8 t), None, w') /\ w_dst _ w' = b ++ bs) as [E1 E2].
    { destruct (utf8 t) as [|x d] eqn:Eu.
      - destruct t as [|c t].
        + inversion Henc; subst. rewrite app_nil_r. destruct H as [-> ->]. split; reflexivity.
        + exfalso. revert Eu. rewrite utf8_cons. unfold utf8_char. repeat destruct (_ <? _); discriminate.
      - cbn [buffer_wr] in H. rewrite <- Eu in *. rewrite (enc_utf8 t bs Henc) in H. exact H. }
    rewrite E1. cbn [bind]. rewrite E2.
    pose proof (encodes_decodes _ _ Henc) as Hdt.
    pose proof (encodes_len _ _ Henc) as Hlen. rewrite app_length in Hf.
    destruct (IH fuel w' r (b ++ bs) (rs ++ t) text err) as (answers & E & Hq).
    + exact Hw'.
    + apply decodes_app; assumption.
    + exact Herr.
    + apply (between_src (with_src r b) b text err (b ++ bs)) in Hbt. exact Hbt.
    + rewrite app_length. lia.
    + rewrite E. cbn [bind]. eexists. split; [reflexivity|]. cbn [queue]. split; [reflexivity|]. split; [reflexivity|].
      destruct Herr as [->|[-> ->]]; [|exact Hq]. rewrite utf8_app, app_assoc in Hq. exact Hq.
  - cbn [proper] in Ho. cbn [app] in Hf.
    destruct (Read_buffer fuel (with_src r b) b rs text err k Ho Hd Herr Hbt ltac:(lia))
      as (bs & e & r' & b' & text' & err' & rs' & E & Es & Hbt' & Hd' & Hl & Herr' & Hm).
    rewrite E. cbn [bind]. rewrite Es.
    destruct (IH fuel w r' b' rs' text' err' Hw Hd' Herr' (between_src _ _ _ _ b' Hbt') ltac:(lia)) as (answers & Ea & Hq).
    rewrite Ea. cbn [bind]. eexists. split; [reflexivity|]. cbn [queue]. destruct e as [x|].
    + destruct Hm as (-> & -> & -> & -> & -> & Hm). split; [reflexivity|]. split; [reflexivity|]. split; [|exact Hq].
      destruct err; [reflexivity|]. cbn [app]. apply Hm. reflexivity.
    + destruct Hm as (H1 & H2 & -> & -> & H3). split; [exact H1|]. split; [exact H2|]. exists (text' ++ utf8 rs'). split; [exact H3|exact Hq].
Qed.

Lemma C134_lemma fuel ops : Forall proper ops -> (length (written ops) + 2 <= fuel)%nat ->
  exists answers, through_buffer grow fuel (NewWriter []) (NewReader []) [] ops = Ok answers /\ queue [] false ops answers.
Proof.
  intros H Hf. apply (through_buffer_spec ops H fuel (NewWriter []) (NewReader []) [] [] [] None); [apply new_writer_ok|constructor|auto| |exact Hf].
  apply (between_new (@nil Z)).
Qed.
End Buffer.

(** ** Readers *)
Section Readers.
Variable grow : Z -> Z -> Z.
Variable RS : Type.
Variable rd : RS -> Z -> list Z * option error * RS.
Hypothesis Hfit : fits_buffer rd.

Lemma reads_in_turn_spec fuel ops : Forall (fun o => 0 <= snd o) ops -> (0 < fuel)%nat -> forall rs s own,
  (forall i s, between RS (with_src (rs i) s) (s, fst (own i), snd (own i))) ->
  (exists results s', reads_in_turn grow rd fuel rs s ops = Ok (results, s') /\ shared_reads rd s own ops results s') \/
  (reads_in_turn grow rd fuel rs s ops = Fuel /\ exists before i k after results s1 n s2 u, ops = before ++ (i, k) :: after /\
     shared_reads rd s own before results s1 /\ starves rd k n s1 s2 u /\ (fuel <= n + 1)%nat).
Proof.
  intros Ho Hf. induction Ho as [|[i k] ops Hk _ IH]; intros rs s own Hb.
  { left. exists [], s. split; [reflexivity|constructor]. }
  cbn [snd] in Hk. cbn [reads_in_turn].
  destruct (read_between grow RS rd Hfit k fuel (with_src (rs i) s) _ Hk (Hb i s)) as [[E [Hx|(s1 & n & s' & u & E1 & Hst & Hle)]]|(bs & e & r' & [[s1 text] err] & E & H1 & Hbt)].
  - lia.
  - right. rewrite E. split; [reflexivity|]. injection E1 as <- _ _.
    exists [], i, k, ops, [], s, n, s', u. split; [reflexivity|]. split; [constructor|]. split; [exact Hst|exact Hle].
  - rewrite E. cbn [bind]. assert (r_src _ r' = s1) as -> by (destruct Hbt as (_ & _ & E'); congruence).
    destruct (IH (update rs i r') s1 (update own i (text, err))) as [(results & s' & E2 & H2)|(E2 & before & j & k' & after & results & t1 & n & t2 & u & -> & H2 & H3 & H4)].
    + intros j t. unfold update. destruct (Nat.eqb j i); [|apply Hb]. cbn [fst snd]. apply (between_src _ s1), Hbt.
    + left. rewrite E2. cbn [bind]. do 2 eexists. split; [reflexivity|]. econstructor; [exact H1|exact H2].
    + right. rewrite E2. cbn [bind]. split; [reflexivity|].
      exists ((i, k) :: before), j, k', after, ((bs, e) :: results), t1, n, t2, u. split; [reflexivity|].
      split; [econstructor; [exact H1|exact H2]|]. split; [exact H3|exact H4].
Qed.

Lemma C135_exact_lemma fuel s ops : Forall (fun o => 0 <= snd o) ops -> (0 < fuel)%nat ->
  (exists results s', reads_in_turn grow rd fuel (fun _ => NewReader s) s ops = Ok (results, s') /\
     shared_reads rd s (fun _ => ([], None)) ops results s') \/
  (reads_in_turn grow rd fuel (fun _ => NewReader s) s ops = Fuel /\
     exists before i k after results s1 n s2 u, ops = before ++ (i, k) :: after /\
     shared_reads rd s (fun _ => ([], None)) before results s1 /\ starves rd k n s1 s2 u /\ (fuel <= n + 1)%nat).
Proof.
  intros Ho Hf. apply (reads_in_turn_spec fuel ops Ho Hf). intros i t. apply (between_src _ s), between_new.
Qed.

Lemma starves_pieces room k s rs e n s1 u : room <= k -> piecewise room rd s rs e -> starves rd k n s s1 u -> n = O /\ s1 = s /\ u = [].
Proof.
  intros Hk Hp. induction 1 as [s|n s s1 u sp c s2 H IH Hsp E Hc Ht]; [auto|]. exfalso.
  destruct (IH Hp) as (_ & -> & ->). cbn [app] in Ht. inversion Hp as [? ? He|? piece rest chunk s' ? He Hd]; subst.
  - rewrite He in E by lia. discriminate.
  - rewrite He in E by lia. injection E as <- <-. exact (trunc_not _ _ Ht Hd).
Qed.

Definition clean (e : error) (rest : list Z) (own : list Z * option error) : Prop :=
  fst own = [] /\ (snd own = None \/ snd own = Some e /\ rest = []).

Lemma shared_pieces room e ops : 0 < room -> Forall (fun o => room <= snd o) ops -> forall s rs own results s',
  piecewise room rd s rs e -> (forall i, clean e rs (own i)) -> shared_reads rd s own ops results s' ->
  is_prefix (concat (map fst results)) (utf8 rs) /\
  Forall (fun x => snd x = None /\ fst x <> [] \/ x = ([], Some e) /\ concat (map fst results) = utf8 rs) results /\
  exists rs', piecewise room rd s' rs' e.
Proof.
  intros Hr Ho. induction Ho as [|[i k] ops Hk _ IH]; intros s rs own results s' Hp Hc H.
  { inversion H; subst. split; [exists (utf8 rs); reflexivity|]. split; [constructor|eauto]. }
  cbn [snd] in Hk. inversion H as [|? ? ? ? ? bs er s1 text err results' ? H1 H2]; subst.
  destruct (Hc i) as [Hc1 Hc2]. rewrite Hc1 in H1.
  inversion H1 as [s0 text0 err0 Ht|s0 x|s0 n t1 u sp c er0 s2 r Hst Hsp E Hdc Hne|s0 n t1 u sp c er0 s2 x Hst Hsp E Hor Hfin]; subst.
  - congruence.
  - assert (e = x /\ rs = []) as [<- ->].
    { destruct Hc2 as [Hc2|[Hc2 ->]]; [congruence|]. split; [congruence|reflexivity]. }
    destruct (IH s1 [] (update own i ([], Some e)) results' s' Hp) as (IH1 & IH2 & IH3); [|exact H2|].
    { apply update_all; [exact Hc|]. split; [reflexivity|auto]. }
    assert (concat (map fst results') = []) as E0.
    { destruct IH1 as [q Eq]. symmetry in Eq. apply app_eq_nil in Eq. tauto. }
    cbn [map fst concat app]. split; [exact IH1|]. split; [|exact IH3]. constructor; [right; auto|exact IH2].
  - destruct (starves_pieces room k s rs e n t1 u Hk Hp Hst) as (-> & -> & ->). cbn [app] in Hdc.
    inversion Hp as [? ? He|? piece rest chunk s'' ? He Hd Hpn Hpl Hp']; subst.
    + rewrite He in E by lia. injection E as <- <- <-. inversion Hdc; subst. congruence.
    + rewrite He in E by lia. injection E as <- <- <-.
      assert (piece = r) as -> by (eapply decodes_fun; [exact Hd|exact Hdc]).
      assert (chunk <> []) as Hcn by (intros ->; inversion Hd; subst; congruence).
      match type of H2 with shared_reads _ ?x ?o _ _ _ => destruct (IH x rest o results' s' Hp') as (IH1 & IH2 & IH3); [|exact H2|] end.
      { apply update_all.
        - intros j. destruct (Hc j) as [Hj1 [Hj2|[_ Hj2]]]; [split; auto|]. apply app_eq_nil in Hj2. exfalso. apply Hne. tauto.
        - split; cbn [fst snd]; [apply zdrop_all; lia|left; destruct chunk; [congruence|reflexivity]]. }
      cbn [map fst concat]. rewrite ztake_all by lia. rewrite utf8_app. split.
      * destruct IH1 as [q ->]. exists q. rewrite app_assoc. reflexivity.
      * split; [|exact IH3]. constructor.
        -- left. split; [reflexivity|]. destruct r as [|y r]; [congruence|]. cbn [fst]. rewrite utf8_cons.
           unfold utf8_char. repeat destruct (_ <? _); discriminate.
        -- eapply Forall_impl; [|exact IH2]. intros x [Hx|[-> Hx]]; [left; exact Hx|right]. rewrite Hx. auto.
  - destruct (starves_pieces room k s rs e n t1 u Hk Hp Hst) as (-> & -> & ->). cbn [app] in Hor.
    inversion Hp as [? ? He|? piece rest chunk s'' ? He Hd Hpn Hpl Hp']; subst.
    + rewrite He in E by lia. injection E as <- <- <-. cbn [final] in Hfin. injection Hfin as <-.
      match type of H2 with shared_reads _ ?x ?o _ _ _ => destruct (IH x [] o results' s' Hp) as (IH1 & IH2 & IH3); [|exact H2|] end.
      { apply update_all; [exact Hc|]. split; [reflexivity|auto]. }
      assert (concat (map fst results') = []) as E0.
      { destruct IH1 as [q Eq]. symmetry in Eq. apply app_eq_nil in Eq. tauto. }
      cbn [map fst concat app]. split; [exact IH1|]. split; [|exact IH3]. constructor; [right; auto|exact IH2].
    + rewrite He in E by lia. injection E as <- <- <-. exfalso.
      assert (chunk <> []) as Hcn by (intros ->; inversion Hd; subst; congruence).
      destruct Hor as [Hor|Hor]; [congruence|exact (trunc_not _ _ Hor Hd)].
Qed.

Lemma C135_pieces_lemma fuel s room rs e ops : piecewise room rd s rs e -> 0 < room -> Forall (fun o => room <= snd o) ops ->
  (2 <= fuel)%nat ->
  exists results s', reads_in_turn grow rd fuel (fun _ => NewReader s) s ops = Ok (results, s') /\
    is_prefix (concat (map fst results)) (utf8 rs) /\
    Forall (fun x => snd x = None /\ fst x <> [] \/ x = ([], Some e) /\ concat (map fst results) = utf8 rs) results.
Proof.
  intros Hp Hr Ho Hf.
  assert (Forall (fun o : nat * Z => 0 <= snd o) ops) as Ho0 by (eapply Forall_impl; [|exact Ho]; cbn; lia).
  destruct (C135_exact_lemma fuel s ops Ho0 ltac:(lia)) as [(results & s' & E & H)|(E & before & i & k & after & results & s1 & n & s2 & u & -> & H & Hst & Hle)].
  - exists results, s'. split; [exact E|].
    destruct (shared_pieces room e ops Hr Ho s rs (fun _ => ([], None)) results s' Hp) as (H1 & H2 & _); [|exact H|auto].
    intros _. split; [reflexivity|auto].
  - exfalso. apply Forall_app in Ho as [Ho1 Ho2]. inversion Ho2 as [|? ? Hk _]; subst. cbn [snd] in Hk.
    destruct (shared_pieces room e before Hr Ho1 s rs (fun _ => ([], None)) results s1 Hp) as (_ & _ & rs' & Hp'); [|exact H|].
    { intros _. split; [reflexivity|auto]. }
    destruct (starves_pieces room k s1 rs' e n s2 u Hk Hp' Hst) as (-> & _). lia.
Qed.
End Readers.

(** ** Counterexamples *)
Lemma C134_refuted_lemma : exists data text bs, data = utf8 text /\ encodes text bs /\ text <> [] /\
  forall grow fuel k, 0 < k -> (5 <= fuel)%nat ->
  through_buffer grow fuel (NewWriter []) (NewReader []) [] [PRead k; PWrite data; PRead k] =
    Ok [Got [] (Some EOF); Wrote (zlen data) None; Got [] (Some EOF)].
Proof.
  assert (encodes [0xAC00] [0xB0; 0xA1]) as He.
  { change [0xB0; 0xA1] with (code_bytes 0xB0A1 ++ []). constructor; [apply assigned_by; vm_compute; reflexivity|constructor]. }
  exists (utf8 [0xAC00]), [0xAC00], [0xB0; 0xA1]. split; [reflexivity|]. split; [exact He|]. split; [discriminate|].
  intros grow fuel k Hk Hf.
  destruct (C134_lemma grow fuel [PRead k; PWrite (utf8 [0xAC00]); PRead k]) as (answers & -> & H).
  - constructor; [exact Hk|]. constructor; [exists [0xAC00], [0xB0; 0xA1]; auto|]. constructor; [exact Hk|constructor].
  - change (length (written _)) with 3%nat. lia.
  - destruct answers as [|[n err|b [x|]] answers]; try contradiction.
    2: { destruct H as (H1 & _ & q & H & _). destruct b; [congruence|discriminate]. }
    destruct H as (-> & -> & _ & H).
    destruct answers as [|[n err|b err] answers]; try contradiction. destruct H as (-> & -> & H).
    destruct answers as [|[n err|b [x|]] answers]; try contradiction.
    2: { destruct H as (H1 & _ & q & H & _). destruct b; [congruence|discriminate]. }
    destruct H as (-> & -> & _ & H). destruct answers; [|contradiction]. reflexivity.
Qed.
Definition dbl (old need : Z) : Z := Z.max need (2 * old).
(* 가나다라마 *)
Definition five_syllables : list Z := [0xB0; 0xA1; 0xB3; 0xAA; 0xB4; 0xD9; 0xB6; 0xF3; 0xB8; 0xB6].
Lemma C135_order_lemma : exists stream text,
  From dbl stream = Ok (inl text) /\
  exists a b c s, reads_in_turn dbl bytes_rd 20 (fun _ => NewReader stream) stream [(0%nat, 4); (1%nat, 4); (0%nat, 4)] =
    Ok ([(a, None); (b, None); (c, None)], s) /\ ~ is_prefix (a ++ b) text /\ is_prefix (a ++ c) text.
Proof.
  exists five_syllables, (utf8 [0xAC00; 0xB098; 0xB2E4; 0xB77C; 0xB9C8]). split; [vm_compute; reflexivity|].
  do 4 eexists. split; [vm_compute; reflexivity|]. split.
  - intros [q E]. vm_compute in E. discriminate.
  - exists (utf8 [0xB2E4; 0xB77C; 0xB9C8]). vm_compute. reflexivity.
Qed.
Lemma C135_end_lemma : exists stream text,
  From dbl stream = Ok (inl text) /\
  exists a s, reads_in_turn dbl bytes_rd 20 (fun _ => NewReader stream) stream [(0%nat, 3); (1%nat, 3)] =
    Ok ([(a, None); ([], Some EOF)], s) /\ a <> text.
Proof.
  exists [0xB0; 0xA1; 0xB3; 0xAA], (utf8 [0xAC00; 0xB098]). split; [vm_compute; reflexivity|].
  do 2 eexists. split; [vm_compute; reflexivity|]. vm_compute. discriminate.
Qed.
