(** The streaming API under io.Copy: lemmas behind C79-C83. *)
From Coq Require Import ZArith List Bool Lia.
From Coq Require Import ZifyBool.
From Verif Require Import Base Spec Facts Utf8 Utf8Facts SortSearch TableFrom TableTo SpecCp949
  SpecIO PMapFacts Cp949Model StreamModel IoModel SliceFacts TableFacts Cp949Facts Cp949Facts2 Cp949Facts3
  StreamFacts StreamFacts2 StreamFacts3 TransformFacts3 HangulFacts3.
Import ListNotations.
Local Open Scope Z_scope.
Local Opaque fromTable toTable dec_tree enc_tree.

(** ** The Reader as an io.Reader *)
Section AsReader.
Variable grow : Z -> Z -> Z.
Variable RS : Type.
Variable rd : RS -> Z -> list Z * option error * RS.

Lemma inv_delivers e n fuel : (n + 4 <= fuel)%nat -> forall m r rem, (length rem <= m)%nat ->
  inv RS rd false e n r rem -> delivers (as_reader (Read grow RS rd fuel)) r rem e.
Proof.
  intros Hf. induction m as [m IH] using lt_wf_ind. intros r rem Hm Hinv.
  assert (forall k, 0 < k -> step_ok RS rd false e n k rem (Read grow RS rd fuel r k)) as Hstep
    by (intros k Hk; apply read_step; assumption).
  constructor; intros k chunk.
  - intros e' s' Hk E. destruct (Hstep k Hk) as (p & err & r' & rem' & Er & Hl & Hb & Hi & Hres).
    unfold as_reader in E. rewrite Er in E. injection E as -> -> ->. cbn in Hb.
    destruct Hres as (-> & -> & -> & _). subst rem. auto.
  - intros s' Hk E. destruct (Hstep k Hk) as (p & err & r' & rem' & Er & Hl & Hb & Hi & Hres).
    unfold as_reader in E. rewrite Er in E. injection E as -> -> ->. cbn in Hb.
    destruct Hres as [Hp|Hp]; [|lia]. split; [exact Hp|]. split; [exact Hl|]. exists rem'. auto.
  - intros s' Hk E. destruct (Hstep k Hk) as (p & err & r' & rem' & Er & Hl & Hb & Hi & Hres).
    unfold as_reader in E. rewrite Er in E. injection E as -> -> ->. cbn in Hb.
    destruct Hres as [Hp|Hp]; [|lia]. subst rem. rewrite zdrop_app_exact by reflexivity.
    apply (IH (length rem')); [|lia|exact Hi].
    rewrite app_length in Hm. destruct chunk; [congruence|cbn in Hm; lia].
Qed.

Lemma C79_lemma s stream text e fuel : Forall is_byte stream -> delivers rd s stream e ->
  From grow stream = Ok (inl text) -> (length stream + 4 <= fuel)%nat ->
  delivers (as_reader (Read grow RS rd fuel)) (NewReader s) text e.
Proof.
  intros Hb Hd HF Hf. destruct (From_ok_inv grow stream text Hb HF) as (rs & Hrs & ->).
  eapply inv_delivers; [exact Hf|apply le_n|]. apply new_reader_inv; [exact Hd|exact Hrs].
Qed.

(** What filling and converting keep, whether or not the stream is complete. *)
Definition sane (e : error) (r : reader RS) : Prop :=
  reader_ok RS r /\ Forall is_byte (contents (r_rdata _ r)) /\
  (r_err _ r = None -> exists rest, delivers rd (r_src _ r) rest e /\ Forall is_byte rest).

Lemma inv_sane e n r rem : inv RS rd false e n r rem -> sane e r.
Proof.
  intros [Hok H]. split; [exact Hok|]. destruct (r_err _ r) as [e'|].
  - split; [|discriminate]. destruct H as (_ & [(rs & H & _)|(-> & _)]); [|constructor].
    apply (decodes_bytes _ _ H).
  - destruct H as (rest & rs & Hd & _ & H & _). apply decodes_bytes in H. apply Forall_app in H as [H1 H2].
    split; [exact H1|]. intros _. exists rest. auto.
Qed.

Lemma fill_sane e r k r1 : sane e r -> 0 < k -> r_err _ r = None -> fill RS rd r k = Ok r1 -> sane e r1.
Proof.
  intros (Hok & Hb & Hd) Hk He E. destruct (Hd He) as (rest & Hdel & Hrest).
  inversion Hdel as [s0 b0 e0 D1 D2 D3]; subst.
  assert (forall sp, k <= sp -> zlen (fst (fst (rd (r_src _ r) sp))) <= sp) as Hle.
  { intros sp Hsp. assert (0 < sp) as Hp by lia.
    destruct (rd (r_src _ r) sp) as [[c [e'|]] s'] eqn:Er; cbn [fst].
    - apply (D1 sp c e' s' Hp Er).
    - apply (D2 sp c s' Hp Er). }
  destruct (fill_spec RS rd r k Hok) as
    (sp & chunk & err & s' & r1' & Hsp & _ & Erd & E1 & Hok1 & Es1 & _ & _ & _ & Er1 & Ee1);
    [lia|intros sp Hsp _; apply Hle, Hsp|].
  rewrite E in E1. injection E1 as <-. assert (0 < sp) as Hp by lia.
  split; [exact Hok1|]. rewrite Er1, Ee1, Es1. destruct err as [e'|].
  - destruct (D1 _ _ _ _ Hp Erd) as (-> & -> & _). split; [|discriminate].
    apply Forall_app. auto.
  - destruct (D2 _ _ _ Hp Erd) as (Hne & _ & (q & Eq)). pose proof (D3 _ _ _ Hp Erd) as Hd'.
    subst rest. apply Forall_app in Hrest as [Hc Hq]. rewrite zdrop_app_exact in Hd' by reflexivity.
    split; [apply Forall_app; auto|]. intros _. exists q. auto.
Qed.

Lemma convert_sane e r r1 : sane e r -> convert grow RS r = Ok r1 -> sane e r1.
Proof.
  intros (Hok & Hb & Hd) E. destruct (decodes_or_cut _ Hb) as [(rs & H)|(a & H)].
  - destruct (convert_complete grow RS r rs Hok H) as (r' & E' & Hok' & Es & Ee & _ & Ec & _).
    rewrite E in E'. injection E' as <-. split; [exact Hok'|]. rewrite Ec, Ee, Es. split; [constructor|exact Hd].
  - destruct (convert_cut grow RS r a Hok H) as (r' & E' & Hok' & Es & Ee & _ & _ & _ & _ & Ec).
    rewrite E in E'. injection E' as <-. split; [exact Hok'|]. rewrite Ec, Ee, Es.
    split; [destruct (r_err _ r); [constructor|exact Hb]|exact Hd].
Qed.

(** A Read that does not fill the buffer leaves nothing pending. *)
Lemma read_drains e fuel : forall r k p err r', sane e r -> 0 < k ->
  Read grow RS rd fuel r k = Ok (p, err, r') -> zlen p = k \/ cdata RS r' = [].
Proof.
  induction fuel as [|fuel IH]; intros r k p err r' Hs Hk E; [discriminate|].
  assert (reader_ok RS r) as Hok by apply Hs.
  cbn [Read] in E. pose proof (cdata_len _ r Hok) as Hl.
  destruct (Z.gtb_spec (r_cdata_hi _ r - r_cdata_lo _ r) 0) as [Hd|Hd].
  - injection E as <- <- <-.
    destruct (Z_le_dec k (r_cdata_hi _ r - r_cdata_lo _ r)) as [Hle|Hgt].
    + left. rewrite zlen_ztake by lia. lia.
    + right. unfold cdata. cbn [r_scratch r_cdata_lo r_cdata_hi].
      destruct Hok as (_ & _ & Hlo & Hhi). unfold scap in Hhi.
      apply zdrop_all. rewrite zlen_ztake by lia. lia.
  - destruct (r_err _ r) as [e'|] eqn:Ee.
    + destruct (slen (r_rdata _ r) =? 0).
      * injection E as <- <- <-. right. apply zlen_0. pose proof (zlen_nonneg (cdata RS r)). lia.
      * destruct (convert grow RS r) as [r1| |] eqn:E1; try discriminate. cbn [bind] in E.
        apply (IH r1 k p err r'); try assumption. eapply convert_sane; eassumption.
    + destruct (fill RS rd r k) as [r1| |] eqn:E1; try discriminate. cbn [bind] in E.
      destruct (convert grow RS r1) as [r2| |] eqn:E2; try discriminate. cbn [bind] in E.
      apply (IH r2 k p err r'); try assumption. eapply convert_sane; [|exact E2].
      eapply fill_sane; eassumption.
Qed.

Lemma inv_start e n r rem : inv RS rd false e n r rem -> cdata RS r = [] ->
  exists rs, Forall is_scalar rs /\ rem = utf8 rs.
Proof.
  intros [_ H] Hc. destruct (r_err _ r) as [e'|].
  - destruct H as (_ & [(rs & H & ->)|(_ & ->)]); rewrite Hc.
    + exists rs. split; [apply (decodes_scalar _ _ H)|reflexivity].
    + exists []. split; [constructor|reflexivity].
  - destruct H as (rest & rs & _ & _ & H & ->). rewrite Hc. exists rs. split; [apply (decodes_scalar _ _ H)|reflexivity].
Qed.
End AsReader.

(** ** io.Copy, for any source that goes through states with a known rest *)
Section CopyFacts.
Variable S D : Type.
Variable rd : S -> Z -> res (list Z * option error * S).
Variable wr : D -> list Z -> res (Z * option error * D).
Variable size : Z.
Variable e : error.
Variable I : S -> list Z -> Prop.           (* what is left to read *)
Variable Q : list Z -> Prop.                (* what holds of each chunk *)
Hypothesis rd_ok : forall s rem, I s rem -> exists p err s' rem',
  rd s size = Ok (p, err, s') /\ rem = p ++ rem' /\ zlen p <= size /\ (p <> [] -> Q p) /\
  match err with
  | None => p <> [] /\ I s' rem'
  | Some e' => e' = e /\ rem' = []
  end.
Variable P : D -> Prop.
Variable step : D -> list Z -> D -> Prop.
Hypothesis wr_ok : forall d bs, P d -> bs <> [] -> Q bs -> exists d',
  wr d bs = Ok (zlen bs, None, d') /\ P d' /\ step d bs d'.

Inductive steps : D -> list (list Z) -> D -> Prop :=
| steps_nil d : steps d [] d
| steps_cons d c d1 cs d2 : step d c d1 -> steps d1 cs d2 -> steps d (c :: cs) d2.

Definition copy_err : option error := match e with EOF => None | _ => Some e end.

Lemma copy_spec : forall fuel s rem d written, I s rem -> P d -> (length rem < fuel)%nat ->
  exists chunks d', concat chunks = rem /\ Forall (fun c => c <> [] /\ zlen c <= size /\ Q c) chunks /\
    steps d chunks d' /\ P d' /\
    Copy S D rd wr fuel size s d written = Ok (written + zlen rem, copy_err, d').
Proof.
  induction fuel as [|fuel IH]; intros s rem d written Hi Hp Hf; [lia|]. cbn [Copy].
  destruct (rd_ok s rem Hi) as (p & err & s' & rem' & -> & -> & Hl & HQ & Hres). cbn [bind].
  assert (err = None -> p <> []) as Hne by (intros ->; apply Hres).
  destruct p as [|x p].
  - destruct err as [e'|]; [|exfalso; apply Hne; reflexivity]. destruct Hres as [-> ->].
    change (zlen [] >? 0) with false. cbv iota. cbn [bind].
    exists [], d. split; [reflexivity|]. split; [constructor|]. split; [constructor|]. split; [exact Hp|].
    cbn [app]. change (zlen (@nil Z)) with 0. rewrite Z.add_0_r. unfold copy_err. destruct e; reflexivity.
  - set (c := x :: p) in *. assert (c <> []) as Hc by discriminate.
    assert (0 < zlen c) as Hpos by (subst c; rewrite zlen_cons; pose proof (zlen_nonneg p); lia).
    destruct (Z.gtb_spec (zlen c) 0) as [_|Hx]; [|lia].
    destruct (wr_ok d c Hp Hc (HQ Hc)) as (d1 & -> & Hp1 & Hst). cbn [bind].
    destruct (Z.ltb_spec (zlen c) 0) as [Hx|_]; [lia|]. rewrite Z.ltb_irrefl. cbn [orb].
    rewrite Z.eqb_refl. cbn [bind].
    destruct err as [e'|].
    + destruct Hres as [-> ->]. exists [c], d1. rewrite app_nil_r. cbn [concat]. rewrite app_nil_r.
      split; [reflexivity|]. split; [constructor; [auto|constructor]|].
      split; [econstructor; [exact Hst|constructor]|]. split; [exact Hp1|].
      unfold copy_err. destruct e; reflexivity.
    + destruct Hres as [_ Hi'].
      destruct (IH s' rem' d1 (written + zlen c) Hi' Hp1) as (cs & d2 & H1 & H2 & H3 & H4 & ->).
      { rewrite app_length in Hf. subst c. cbn in Hf. lia. }
      exists (c :: cs), d2. cbn [concat]. rewrite H1. split; [reflexivity|].
      split; [constructor; auto|]. split; [econstructor; eassumption|]. split; [exact H4|].
      rewrite zlen_app. do 3 f_equal. lia.
Qed.
End CopyFacts.

(** ** The Reader as a source, the Writer as a destination *)
Definition reader_src {RS} (rd : RS -> Z -> list Z * option error * RS) e n :=
  inv RS rd false e n.

Lemma reader_rd_ok grow RS (rd : RS -> Z -> list Z * option error * RS) e n fuel size :
  0 < size -> (n + 4 <= fuel)%nat -> forall r rem, inv RS rd false e n r rem -> Forall is_byte rem ->
  exists p err r' rem', Read grow RS rd fuel r size = Ok (p, err, r') /\ rem = p ++ rem' /\
    zlen p <= size /\ Forall is_byte p /\ Forall is_byte rem' /\
    match err with
    | None => p <> [] /\ inv RS rd false e n r' rem'
    | Some e' => e' = e /\ rem' = []
    end.
Proof.
  intros Hk Hf r rem Hi Hb.
  destruct (read_step grow RS rd false e size Hk n r rem fuel Hi Hf) as (p & err & r' & rem' & Er & Hl & Hbl & Hi' & Hres).
  cbn in Hbl. subst rem. apply Forall_app in Hb as [Hb1 Hb2].
  exists p, err, r', rem'. split; [exact Er|]. split; [reflexivity|]. split; [exact Hl|]. split; [exact Hb1|].
  split; [exact Hb2|]. destruct err as [e'|].
  - destruct Hres as (-> & _ & -> & _). auto.
  - destruct Hres as [Hp|Hp]; [auto|lia].
Qed.

Lemma plain_rd_ok RS (rd : RS -> Z -> list Z * option error * RS) e size : 0 < size ->
  forall s rem, delivers rd s rem e -> Forall is_byte rem -> exists p err s' rem',
  plain_rd rd s size = Ok (p, err, s') /\ rem = p ++ rem' /\ zlen p <= size /\ Forall is_byte p /\
  Forall is_byte rem' /\
  match err with
  | None => p <> [] /\ delivers rd s' rem' e
  | Some e' => e' = e /\ rem' = []
  end.
Proof.
  intros Hk s rem Hd Hb. inversion Hd as [s0 b0 e0 D1 D2 D3]; subst.
  unfold plain_rd. destruct (rd s size) as [[p err] s'] eqn:E. destruct err as [e'|].
  - destruct (D1 _ _ _ _ Hk E) as (-> & -> & Hl). exists rem, (Some e), s', []. rewrite app_nil_r.
    repeat (split; [solve [auto]|]). auto.
  - destruct (D2 _ _ _ Hk E) as (Hne & Hl & (q & ->)). pose proof (D3 _ _ _ Hk E) as Hd'.
    rewrite zdrop_app_exact in Hd' by reflexivity. apply Forall_app in Hb as [Hb1 Hb2].
    exists p, None, s', q. repeat (split; [solve [auto]|]). auto.
Qed.

Lemma writer_wr_ok grow (w : writer (list Z)) bs : writer_ok _ w -> bs <> [] -> Forall is_byte bs ->
  exists w', Write grow (list Z) buffer_wr w bs = Ok (zlen bs, None, w') /\ writer_ok _ w' /\
    w_dst _ w' = w_dst _ w ++ enc bs.
Proof.
  intros Hw Hne Hb. destruct (Write_spec grow (list Z) buffer_wr w bs Hw Hb) as (w' & Hw' & E).
  destruct bs as [|x bs]; [congruence|]. cbn [buffer_wr] in E. destruct E as [E1 E2].
  exists w'. auto.
Qed.

Lemma steps_writer (chunks : list (list Z)) : forall (w w' : writer (list Z)),
  steps _ (fun w bs w' => w_dst _ w' = w_dst _ w ++ enc bs) w chunks w' ->
  w_dst _ w' = w_dst _ w ++ flat_map enc chunks.
Proof.
  induction chunks as [|c cs IH]; intros w w' H; inversion H as [|? ? w1 ? ? Hs Hr]; subst; cbn [flat_map].
  - rewrite app_nil_r. reflexivity.
  - rewrite (IH _ _ Hr), Hs, app_assoc. reflexivity.
Qed.

Lemma steps_buffer (chunks : list (list Z)) : forall d d',
  steps (list Z) (fun d bs d' => d' = d ++ bs) d chunks d' -> d' = d ++ concat chunks.
Proof.
  induction chunks as [|c cs IH]; intros d d' H; inversion H as [|? ? w1 ? ? Hs Hr]; subst; cbn [concat].
  - rewrite app_nil_r. reflexivity.
  - rewrite (IH _ _ Hr), app_assoc. reflexivity.
Qed.

(** ** C80: copying out of a Reader *)
Lemma C80_lemma grow RS (rd : RS -> Z -> list Z * option error * RS) s stream text e size fuel fuel' dst :
  Forall is_byte stream -> delivers rd s stream e -> From grow stream = Ok (inl text) -> 0 < size ->
  (length stream + 4 <= fuel)%nat -> (length text < fuel')%nat ->
  Copy (reader RS) (list Z) (Read grow RS rd fuel) (plain_wr buffer_wr) fuel' size (NewReader s) dst 0 =
    Ok (zlen text, match e with EOF => None | _ => Some e end, dst ++ text).
Proof.
  intros Hb Hd HF Hk Hf Hf'. destruct (From_ok_inv grow stream text Hb HF) as (rs & Hrs & ->).
  assert (Forall is_byte (utf8 rs)) as Hbu by (apply utf8_bytes, (decodes_scalar _ _ Hrs)).
  destruct (copy_spec (reader RS) (list Z) (Read grow RS rd fuel) (plain_wr buffer_wr) size e
    (fun r rem => inv RS rd false e (length stream) r rem /\ Forall is_byte rem) (fun _ => True)) with
    (P := fun _ : list Z => True) (step := fun d bs d' : list Z => d' = d ++ bs)
    (fuel := fuel') (s := @NewReader RS s) (rem := utf8 rs) (d := dst) (written := 0)
    as (chunks & d' & Hc & _ & Hst & _ & E).
  - intros r rem [Hi Hbr].
    destruct (reader_rd_ok grow RS rd e (length stream) fuel size Hk Hf r rem Hi Hbr)
      as (p & err & r' & rem' & E1 & E2 & E3 & E4 & E5 & E6).
    exists p, err, r', rem'. repeat (split; [solve [auto]|]). destruct err; tauto.
  - intros d bs _ _ _. exists (d ++ bs). split; [reflexivity|]. auto.
  - split; [apply new_reader_inv; [exact Hd|exact Hrs]|exact Hbu].
  - exact I.
  - exact Hf'.
  - rewrite E. apply steps_buffer in Hst. subst d'. rewrite Hc. reflexivity.
Qed.

(** ** C81, C82: copying into a Writer *)
Lemma copy_to_writer grow (S : Type) (rdr : S -> Z -> res (list Z * option error * S)) (I : S -> list Z -> Prop) e size :
  (forall s rem, I s rem -> Forall is_byte rem -> exists p err s' rem',
     rdr s size = Ok (p, err, s') /\ rem = p ++ rem' /\ zlen p <= size /\ Forall is_byte p /\ Forall is_byte rem' /\
     match err with
     | None => p <> [] /\ I s' rem'
     | Some e' => e' = e /\ rem' = []
     end) ->
  forall fuel s rem w written, I s rem -> Forall is_byte rem -> writer_ok _ w -> (length rem < fuel)%nat ->
  exists chunks w', concat chunks = rem /\ Forall (fun c => c <> [] /\ zlen c <= size /\ Forall is_byte c) chunks /\
    w_dst _ w' = w_dst _ w ++ flat_map enc chunks /\
    Copy S (writer (list Z)) rdr (Write grow (list Z) buffer_wr) fuel size s w written =
      Ok (written + zlen rem, match e with EOF => None | _ => Some e end, w').
Proof.
  intros Hr fuel s rem w written Hi Hb Hw Hf.
  destruct (copy_spec S (writer (list Z)) rdr (Write grow (list Z) buffer_wr) size e
    (fun s rem => I s rem /\ Forall is_byte rem) (Forall is_byte)) with
    (P := writer_ok (list Z)) (step := fun (w : writer (list Z)) bs w' => w_dst _ w' = w_dst _ w ++ enc bs)
    (fuel := fuel) (s := s) (rem := rem) (d := w) (written := written)
    as (chunks & d' & Hc & Hq & Hst & _ & E); try assumption.
  - intros s1 rem1 [Hi1 Hb1]. destruct (Hr s1 rem1 Hi1 Hb1) as (p & err & s2 & rem2 & E1 & E2 & E3 & E4 & E5 & E6).
    exists p, err, s2, rem2. repeat (split; [solve [auto]|]). destruct err; tauto.
  - intros d bs Hd Hne HbQ. destruct (writer_wr_ok grow d bs Hd Hne HbQ) as (d1 & ? & ? & ?). eauto.
  - auto.
  - exists chunks, d'. split; [exact Hc|]. split; [exact Hq|]. split; [apply steps_writer, Hst|exact E].
Qed.

Lemma To_parts grow chunks : Forall (Forall is_byte) chunks ->
  Forall2 (fun d p => To grow d = Ok (inl p)) chunks (map enc chunks).
Proof. induction 1; cbn [map]; constructor; [apply To_enc; assumption|assumption]. Qed.

(** What arrives, in general. *)
Lemma C81_exact_lemma grow RS (rd : RS -> Z -> list Z * option error * RS) s stream text e size fuel fuel' :
  Forall is_byte stream -> delivers rd s stream e -> From grow stream = Ok (inl text) -> 0 < size ->
  (length stream + 4 <= fuel)%nat -> (length text < fuel')%nat ->
  exists chunks parts w, concat chunks = text /\ Forall (fun c => c <> [] /\ zlen c <= size) chunks /\
    Forall2 (fun d p => To grow d = Ok (inl p)) chunks parts /\
    Copy (reader RS) (writer (list Z)) (Read grow RS rd fuel) (Write grow (list Z) buffer_wr)
      fuel' size (NewReader s) (NewWriter []) 0 = Ok (zlen text, match e with EOF => None | _ => Some e end, w) /\
    w_dst _ w = concat parts.
Proof.
  intros Hb Hd HF Hk Hf Hf'. destruct (From_ok_inv grow stream text Hb HF) as (rs & Hrs & ->).
  destruct (copy_to_writer grow (reader RS) (Read grow RS rd fuel) (fun r rem => inv RS rd false e (length stream) r rem) e size)
    with (fuel := fuel') (s := @NewReader RS s) (rem := utf8 rs) (w := NewWriter (@nil Z)) (written := 0)
    as (chunks & w & Hc & Hq & Hw & E).
  - apply reader_rd_ok; assumption.
  - apply new_reader_inv; [exact Hd|exact Hrs].
  - apply utf8_bytes, (decodes_scalar _ _ Hrs).
  - apply new_writer_ok.
  - exact Hf'.
  - exists chunks, (map enc chunks), w. split; [exact Hc|].
    split; [eapply Forall_impl; [|exact Hq]; cbn; tauto|].
    split; [apply To_parts; eapply Forall_impl; [|exact Hq]; cbn; tauto|].
    split; [exact E|]. rewrite Hw. apply flat_map_concat_map.
Qed.

Lemma C82_exact_lemma grow RS (rd : RS -> Z -> list Z * option error * RS) s text e size fuel :
  Forall is_byte text -> delivers rd s text e -> 0 < size -> (length text < fuel)%nat ->
  exists chunks parts w, concat chunks = text /\ Forall (fun c => c <> [] /\ zlen c <= size) chunks /\
    Forall2 (fun d p => To grow d = Ok (inl p)) chunks parts /\
    Copy RS (writer (list Z)) (plain_rd rd) (Write grow (list Z) buffer_wr) fuel size s (NewWriter []) 0 =
      Ok (zlen text, match e with EOF => None | _ => Some e end, w) /\
    w_dst _ w = concat parts.
Proof.
  intros Hb Hd Hk Hf.
  destruct (copy_to_writer grow RS (plain_rd rd) (fun s rem => delivers rd s rem e) e size)
    with (fuel := fuel) (s := s) (rem := text) (w := NewWriter (@nil Z)) (written := 0)
    as (chunks & w & Hc & Hq & Hw & E); try assumption.
  - intros s1 rem1 H1 H2. apply plain_rd_ok; assumption.
  - apply new_writer_ok.
  - exists chunks, (map enc chunks), w. split; [exact Hc|].
    split; [eapply Forall_impl; [|exact Hq]; cbn; tauto|].
    split; [apply To_parts; eapply Forall_impl; [|exact Hq]; cbn; tauto|].
    split; [exact E|]. rewrite Hw. apply flat_map_concat_map.
Qed.

(** Chunks that start at a boundary: the text fits the buffer. *)
Lemma prefix_boundary rs p q : Forall is_scalar rs -> p ++ q = utf8 rs -> boundary p.
Proof.
  intros Hrs E. destruct p as [|b p]; [exact Logic.I|]. destruct rs as [|r rs]; [discriminate|].
  inversion Hrs as [|? ? Hr _]; subst. rewrite utf8_cons in E.
  pose proof (boundary_char r (utf8 rs) Hr) as Hb. rewrite <- E in Hb. exact Hb.
Qed.

Lemma C81_fit_lemma grow RS (rd : RS -> Z -> list Z * option error * RS) s stream rs e size fuel fuel' :
  delivers rd s stream e -> encodes rs stream -> 0 < size -> zlen (utf8 rs) <= size ->
  (length stream + 4 <= fuel)%nat -> (length (utf8 rs) < fuel')%nat ->
  exists w, Copy (reader RS) (writer (list Z)) (Read grow RS rd fuel) (Write grow (list Z) buffer_wr)
      fuel' size (NewReader s) (NewWriter []) 0 = Ok (zlen (utf8 rs), match e with EOF => None | _ => Some e end, w) /\
    w_dst _ w = stream.
Proof.
  intros Hd Henc Hk Hfit Hf Hf'. pose proof (encodes_decodes _ _ Henc) as Hrs.
  destruct (copy_spec (reader RS) (writer (list Z)) (Read grow RS rd fuel) (Write grow (list Z) buffer_wr) size e
    (fun r rem => inv RS rd false e (length stream) r rem /\ Forall is_byte rem /\ zlen rem <= size /\ cdata RS r = [])
    (fun c => Forall is_byte c /\ boundary c)) with
    (P := writer_ok (list Z)) (step := fun (w : writer (list Z)) bs w' => w_dst _ w' = w_dst _ w ++ enc bs)
    (fuel := fuel') (s := @NewReader RS s) (rem := utf8 rs) (d := NewWriter (@nil Z)) (written := 0)
    as (chunks & w & Hc & Hq & Hst & _ & E).
  - intros r rem (Hi & Hb & Hl & Hcd).
    destruct (inv_start RS rd e _ r rem Hi Hcd) as (rs' & Hrs' & Erem).
    destruct (reader_rd_ok grow RS rd e (length stream) fuel size Hk Hf r rem Hi Hb)
      as (p & err & r' & rem' & E1 & E2 & E3 & E4 & E5 & E6).
    pose proof (read_drains grow RS rd e fuel r size p err r' (inv_sane RS rd e _ r rem Hi) Hk E1) as Hdr.
    exists p, err, r', rem'. split; [exact E1|]. split; [exact E2|]. split; [exact E3|].
    split; [intros _; split; [exact E4|apply (prefix_boundary rs' p rem' Hrs'); congruence]|].
    destruct err as [e'|]; [exact E6|]. destruct E6 as [Hne Hi']. split; [exact Hne|]. split; [exact Hi'|].
    split; [exact E5|]. rewrite E2, zlen_app in Hl. pose proof (zlen_nonneg p). split; [lia|].
    destruct Hdr as [Hdr|Hdr]; [|exact Hdr].
    assert (rem' = []) as -> by (apply zlen_0; pose proof (zlen_nonneg rem'); lia).
    destruct Hi' as [_ Hi']. destruct (r_err _ r') as [e'|].
    + destruct Hi' as (_ & [(x & _ & Hx)|(_ & Hx)]); [|congruence]. symmetry in Hx. apply app_eq_nil in Hx. tauto.
    + destruct Hi' as (x & y & _ & _ & _ & Hx). symmetry in Hx. apply app_eq_nil in Hx. tauto.
  - intros d bs Hw Hne [HbQ _]. destruct (writer_wr_ok grow d bs Hw Hne HbQ) as (d1 & ? & ? & ?). eauto.
  - split; [apply new_reader_inv; [exact Hd|exact Hrs]|]. split; [apply utf8_bytes, (decodes_scalar _ _ Hrs)|].
    split; [exact Hfit|reflexivity].
  - apply new_writer_ok.
  - exact Hf'.
  - exists w. split; [exact E|]. apply steps_writer in Hst. rewrite Hst. cbn [NewWriter w_dst app].
    rewrite runes_concat, Hc.
    + destruct (C29_lemma grow rs stream Henc) as [_ HT].
      rewrite To_enc in HT by (apply utf8_bytes, (decodes_scalar _ _ Hrs)). congruence.
    + eapply Forall_impl; [|exact Hq]. cbn. tauto.
    + right. eapply Forall_impl; [|exact Hq]. cbn. tauto.
Qed.

(** ASCII of any length survives any chunking. *)
Lemma ascii_chunks grow chunks parts : Forall (fun b => 0 <= b < 0x80) (concat chunks) ->
  Forall2 (fun d p => To grow d = Ok (inl p)) chunks parts -> concat parts = concat chunks.
Proof.
  intros Ha H. induction H as [|d p ds ps Hdp H IH]; [reflexivity|]. cbn [concat] in *.
  apply Forall_app in Ha as [Hd Hds]. rewrite (IH Hds). f_equal.
  assert (encodes d d) as Henc by (clear - Hd; induction Hd; [constructor|apply enc_ascii; [lia|assumption]]).
  destruct (C29_lemma grow d d Henc) as [_ HT].
  assert (utf8 d = d) as Eu.
  { clear - Hd. induction Hd as [|x l Hx H IH]; [reflexivity|]. rewrite utf8_cons, IH.
    unfold utf8_char. destruct (Z.ltb_spec x 0x80); [reflexivity|lia]. }
  rewrite Eu in HT. congruence.
Qed.

Lemma gas_encodes n : encodes (repeat 0xAC00 n) (gas n).
Proof.
  induction n as [|n IH]; [constructor|].
  change (encodes (0xAC00 :: repeat 0xAC00 n) (code_bytes 0xB0A1 ++ gas n)).
  apply enc_code; [apply assigned_by; vm_compute; reflexivity|exact IH].
Qed.
Lemma enc_first k rs : Forall is_scalar rs -> 0 <= k <= zlen (utf8 rs) -> (forall r, In r rs -> r = 0xAC00) ->
  k mod 3 <> 0 -> 2 * (k / 3) + 2 * (k mod 3) <= zlen (enc (ztake k (utf8 rs))).
Proof.
  intros Hrs Hk Hall Hm.
  destruct (C73_To_lemma wgrow rs k Hrs Hk) as (whole & rest & x & j & E & HTw & HTc & Hj & Hr).
  rewrite To_enc in HTc by apply Forall_ztake, utf8_bytes, Hrs. injection HTc as ->.
  assert (whole = repeat 0xAC00 (length whole)) as Ew.
  { apply Forall_eq_repeat. apply Forall_forall. intros z Hz. symmetry. apply Hall. rewrite E. apply in_or_app; auto. }
  assert (zlen (utf8 whole) = 3 * zlen whole) as Hl by (rewrite Ew at 1; rewrite gas_utf8_len; reflexivity).
  assert (Z.of_nat j < 3) as Hj3.
  { destruct Hr as [->|(r & rest' & -> & Hlt)]; [lia|].
    rewrite (Hall r) in Hlt by (rewrite E; apply in_or_app; right; left; reflexivity).
    change (zlen (utf8_char 0xAC00)) with 3 in Hlt. lia. }
  assert (x = gas (length whole)) as ->.
  { rewrite Ew in HTw.
    destruct (C29_lemma wgrow _ _ (gas_encodes (length whole))) as [_ HT]. congruence. }
  rewrite zlen_app, gas_len. unfold zlen at 1. rewrite repeat_length.
  unfold zlen in Hl, Hj. Z.div_mod_to_equations. lia.
Qed.

Lemma copy_first grow (S : Type) (rdr : S -> Z -> res (list Z * option error * S)) (I : S -> list Z -> Prop) e size :
  (forall s rem, I s rem -> Forall is_byte rem -> exists p err s' rem',
     rdr s size = Ok (p, err, s') /\ rem = p ++ rem' /\ zlen p <= size /\ Forall is_byte p /\ Forall is_byte rem' /\
     match err with
     | None => p <> [] /\ I s' rem'
     | Some e' => e' = e /\ rem' = []
     end) ->
  forall fuel s p s1 rem w, rdr s size = Ok (p, None, s1) -> p <> [] -> Forall is_byte p ->
  I s1 rem -> Forall is_byte rem -> writer_ok _ w -> (Datatypes.S (length rem) < fuel)%nat ->
  w_dst _ w = [] -> exists rest w', w_dst _ w' = enc p ++ rest /\
    Copy S (writer (list Z)) rdr (Write grow (list Z) buffer_wr) fuel size s w 0 =
      Ok (zlen (p ++ rem), match e with EOF => None | _ => Some e end, w').
Proof.
  intros Hr fuel s p s1 rem w E Hne Hb Hi Hbr Hw Hf Hw0. destruct fuel as [|fuel]; [lia|]. cbn [Copy].
  rewrite E. cbn [bind].
  assert (0 < zlen p) as Hpos by (destruct p; [congruence|rewrite zlen_cons; pose proof (zlen_nonneg p); lia]).
  destruct (Z.gtb_spec (zlen p) 0) as [_|Hx]; [|lia].
  destruct (writer_wr_ok grow w p Hw Hne Hb) as (w1 & -> & Hw1 & Ed). cbn [bind].
  destruct (Z.ltb_spec (zlen p) 0) as [Hx|_]; [lia|]. rewrite Z.ltb_irrefl. cbn [orb].
  rewrite Z.eqb_refl. cbn [bind].
  destruct (copy_to_writer grow S rdr I e size Hr fuel s1 rem w1 (0 + zlen p) Hi Hbr Hw1) as (cs & w2 & _ & _ & E2 & ->); [lia|].
  exists (flat_map enc cs), w2. split; [rewrite E2, Ed, Hw0; reflexivity|].
  rewrite zlen_app. reflexivity.
Qed.

(** The stream of 10923 syllables: 32769 bytes of UTF-8, one more than the buffer of io.Copy. *)
Section Many.
Variable many : nat.
Hypothesis many_value : Z.of_nat many = 10923.
Variable size : Z.
Hypothesis size_value : size = 32768.
Lemma many_len : zlen (utf8 (repeat 0xAC00 many)) = 32769.
Proof. rewrite gas_utf8_len. lia. Qed.
Lemma many_scalar : Forall is_scalar (repeat 0xAC00 many).
Proof. apply (decodes_scalar _ _ (gas_decodes many)). Qed.
Lemma many_first : 21848 <= zlen (enc (ztake size (utf8 (repeat 0xAC00 many)))).
Proof.
  pose proof (enc_first size (repeat 0xAC00 many) many_scalar) as H. rewrite many_len in H.
  rewrite size_value in H at 1 2 3 4 5. change (2 * (32768 / 3) + 2 * (32768 mod 3)) with 21848 in H. apply H; [lia| |discriminate].
  intros r Hr. apply repeat_spec in Hr. exact Hr.
Qed.
Lemma many_wrong (w : list Z) rest : w = enc (ztake size (utf8 (repeat 0xAC00 many))) ++ rest -> w <> gas many.
Proof.
  intros -> E. apply (f_equal zlen) in E. rewrite gas_len, zlen_app in E.
  pose proof many_first as H. revert E H. generalize (enc (ztake size (utf8 (repeat 0xAC00 many)))). intros c E H.
  pose proof (zlen_nonneg rest). lia.
Qed.

Lemma C82_many : exists text right, encodes text right /\ delivers bytes_rd (utf8 text) (utf8 text) EOF /\
  forall grow fuel, (length (utf8 text) < fuel)%nat ->
  exists w, Copy (list Z) (writer (list Z)) (plain_rd bytes_rd) (Write grow (list Z) buffer_wr)
      fuel size (utf8 text) (NewWriter []) 0 = Ok (zlen (utf8 text), None, w) /\
    w_dst _ w <> right.
Proof.
  exists (repeat 0xAC00 many), (gas many). split; [apply gas_encodes|]. split; [apply bytes_rd_delivers|].
  pose proof many_len as Hlen. pose proof many_scalar as Hsc.
  pose proof (fun w rest => many_wrong w rest) as Hwrong.
  assert (Forall is_byte (utf8 (repeat 0xAC00 many))) as Hb by (apply utf8_bytes; exact Hsc).
  set (t := utf8 (repeat 0xAC00 many)) in *. clearbody t.
  intros grow fuel Hf.
  assert (plain_rd bytes_rd t size = Ok (ztake size t, None, zdrop size t)) as E.
  { unfold plain_rd, bytes_rd. destruct t; [discriminate Hlen|reflexivity]. }
  destruct (copy_first grow (list Z) (plain_rd bytes_rd) (fun s rem => delivers bytes_rd s rem EOF) EOF size)
    with (fuel := fuel) (s := t) (p := ztake size t) (s1 := zdrop size t) (rem := zdrop size t) (w := NewWriter (@nil Z))
    as (rest & w & Ew & Ec).
  - intros s1 rem1 H1 H2. apply plain_rd_ok; [lia|assumption|assumption].
  - exact E.
  - intros En. apply (f_equal zlen) in En. rewrite zlen_ztake in En by lia. cbn in En. lia.
  - apply Forall_ztake, Hb.
  - apply bytes_rd_delivers.
  - apply Forall_zdrop, Hb.
  - apply new_writer_ok.
  - assert (zlen (zdrop size t) = 1) as Hz by (rewrite zlen_zdrop by lia; lia). unfold zlen in Hz, Hlen. lia.
  - reflexivity.
  - rewrite ztake_zdrop in Ec. exists w. split; [exact Ec|]. apply (Hwrong _ rest). exact Ew.
Qed.

Lemma C81_many : exists rs stream, encodes rs stream /\ delivers bytes_rd stream stream EOF /\
  forall grow fuel fuel', (length stream + 4 <= fuel)%nat -> (length (utf8 rs) < fuel')%nat ->
  exists w, Copy (reader (list Z)) (writer (list Z)) (Read grow (list Z) bytes_rd fuel) (Write grow (list Z) buffer_wr)
      fuel' size (NewReader stream) (NewWriter []) 0 = Ok (zlen (utf8 rs), None, w) /\
    w_dst _ w <> stream.
Proof.
  exists (repeat 0xAC00 many), (gas many). split; [apply gas_encodes|]. split; [apply bytes_rd_delivers|].
  intros grow fuel fuel' Hf Hf'. assert (0 < size) as Hpos by lia.
  pose proof many_len as Hlen. pose proof many_scalar as Hsc.
  pose proof (gas_len many) as Hgl. pose proof (gas_decodes many) as Hdec.
  assert (zlen (gas many) = 21846) as Hg by (rewrite Hgl; lia).
  pose proof (fun w rest => many_wrong w rest) as Hwrong.
  assert (exists r', Read grow (list Z) bytes_rd fuel (NewReader (gas many)) size =
            Ok (ztake size (utf8 (repeat 0xAC00 many)), None, r')) as (r1 & E1).
  { destruct (C63_lemma grow (list Z) bytes_rd (gas many) size fuel) as
      (sp & chunk & err & s' & rs & p & r' & Hsp & Erd & Hch & Er & _ & Ep & _).
    - lia.
    - lia.
    - intros sp Hsp. unfold bytes_rd. destruct (gas many) as [|x g] eqn:Eg; [discriminate Hg|]. rewrite <- Eg in *.
      rewrite ztake_all by lia. split; [lia|]. exists (repeat 0xAC00 many). split; [exact Hdec|].
      intros En. rewrite En in Hlen. discriminate Hlen.
    - unfold bytes_rd in Erd. destruct (gas many) as [|x g] eqn:Eg; [discriminate Hg|]. rewrite <- Eg in *.
      rewrite ztake_all in Erd by lia. injection Erd as <- <- <-.
      assert (rs = repeat 0xAC00 many) as -> by (eapply decodes_fun; eassumption). subst p. exists r'. exact Er. }
  assert (Forall is_byte (utf8 (repeat 0xAC00 many))) as Hb by (apply utf8_bytes; exact Hsc).
  assert (inv (list Z) bytes_rd false EOF (length (gas many)) (NewReader (gas many)) (utf8 (repeat 0xAC00 many))) as Hinv
    by (apply new_reader_inv; [apply bytes_rd_delivers|exact Hdec]).
  destruct (reader_rd_ok grow (list Z) bytes_rd EOF (length (gas many)) fuel size Hpos Hf _ _ Hinv Hb)
    as (p & err & r' & rem' & E2 & E3 & _ & Hbp & Hbr & E6).
  rewrite E1 in E2. injection E2 as <- <- <-. destruct E6 as [Hne Hi].
  destruct (copy_first grow (reader (list Z)) (Read grow (list Z) bytes_rd fuel)
      (fun r rem => inv (list Z) bytes_rd false EOF (length (gas many)) r rem) EOF size)
    with (fuel := fuel') (s := NewReader (gas many)) (p := ztake size (utf8 (repeat 0xAC00 many))) (s1 := r1) (rem := rem') (w := NewWriter (@nil Z))
    as (rest & w & Ew & Ec); try assumption.
  - apply reader_rd_ok; [lia|exact Hf].
  - apply new_writer_ok.
  - assert (zlen (ztake size (utf8 (repeat 0xAC00 many))) = size) as Hz by (rewrite zlen_ztake; lia).
    pose proof (f_equal (@length Z) E3) as Hz'. rewrite app_length in Hz'. unfold zlen in Hz. lia.
  - reflexivity.
  - rewrite <- E3 in Ec. exists w. split; [exact Ec|]. apply (Hwrong _ rest). exact Ew.
Qed.
End Many.

Lemma many_exists : exists n, Z.of_nat n = 10923.
Proof. exists (Z.to_nat 10923). apply Z2Nat.id. discriminate. Qed.
Lemma C81_refuted_lemma : exists rs stream, encodes rs stream /\ delivers bytes_rd stream stream EOF /\
  forall grow fuel fuel', (length stream + 4 <= fuel)%nat -> (length (utf8 rs) < fuel')%nat ->
  exists w, Copy (reader (list Z)) (writer (list Z)) (Read grow (list Z) bytes_rd fuel) (Write grow (list Z) buffer_wr)
      fuel' copyBufSize (NewReader stream) (NewWriter []) 0 = Ok (zlen (utf8 rs), None, w) /\
    w_dst _ w <> stream.
Proof. destruct many_exists as [n Hn]. exact (C81_many n Hn copyBufSize eq_refl). Qed.
Lemma C82_refuted_lemma : exists text right, encodes text right /\ delivers bytes_rd (utf8 text) (utf8 text) EOF /\
  forall grow fuel, (length (utf8 text) < fuel)%nat ->
  exists w, Copy (list Z) (writer (list Z)) (plain_rd bytes_rd) (Write grow (list Z) buffer_wr)
      fuel copyBufSize (utf8 text) (NewWriter []) 0 = Ok (zlen (utf8 text), None, w) /\
    w_dst _ w <> right.
Proof. destruct many_exists as [n Hn]. exact (C82_many n Hn copyBufSize eq_refl). Qed.

Lemma C81_ascii_lemma grow RS (rd : RS -> Z -> list Z * option error * RS) s stream e size fuel fuel' :
  delivers rd s stream e -> Forall (fun b => 0 <= b < 0x80) stream -> 0 < size ->
  (length stream + 4 <= fuel)%nat -> (length stream < fuel')%nat ->
  exists w, Copy (reader RS) (writer (list Z)) (Read grow RS rd fuel) (Write grow (list Z) buffer_wr)
      fuel' size (NewReader s) (NewWriter []) 0 = Ok (zlen stream, match e with EOF => None | _ => Some e end, w) /\
    w_dst _ w = stream.
Proof.
  intros Hd Ha Hk Hf Hf'.
  assert (encodes stream stream) as Henc by (clear - Ha; induction Ha; [constructor|apply enc_ascii; [lia|assumption]]).
  assert (utf8 stream = stream) as Eu.
  { clear - Ha. induction Ha as [|x l Hx H IH]; [reflexivity|]. rewrite utf8_cons, IH.
    unfold utf8_char. destruct (Z.ltb_spec x 0x80); [reflexivity|lia]. }
  destruct (C29_lemma grow stream stream Henc) as [HF _]. rewrite Eu in HF.
  destruct (C81_exact_lemma grow RS rd s stream stream e size fuel fuel') as (chunks & parts & w & Hc & _ & Hp & E & Ew);
    try assumption.
  - apply (decodes_bytes _ _ (encodes_decodes _ _ Henc)).
  - exists w. split; [exact E|]. rewrite Ew, <- Hc. apply (ascii_chunks grow chunks parts); [|exact Hp].
    rewrite Hc. exact Ha.
Qed.

Lemma C82_fits_lemma grow text bs size fuel : Forall is_byte text -> To grow text = Ok (inl bs) ->
  0 < size -> zlen text <= size -> (length text < fuel)%nat ->
  exists w, Copy (list Z) (writer (list Z)) (plain_rd bytes_rd) (Write grow (list Z) buffer_wr)
      fuel size text (NewWriter []) 0 = Ok (zlen text, None, w) /\ w_dst _ w = bs.
Proof.
  intros Hb HT Hk Hfit Hf. rewrite To_enc in HT by exact Hb. injection HT as <-.
  assert (forall w fuel n, (0 < fuel)%nat -> Copy (list Z) (writer (list Z)) (plain_rd bytes_rd) (Write grow (list Z) buffer_wr)
      fuel size [] w n = Ok (n, None, w)) as Hend.
  { intros w [|f] n H; [lia|]. cbn [Copy]. unfold plain_rd, bytes_rd. destruct (Z.ltb_spec 0 size); [|lia]. reflexivity. }
  destruct text as [|x t].
  - exists (NewWriter []). split; [apply Hend; lia|reflexivity].
  - set (text := x :: t) in *. assert (text <> []) as Hne by discriminate.
    destruct (writer_wr_ok grow (NewWriter []) text (new_writer_ok _ []) Hne Hb) as (w1 & E1 & _ & Ed).
    exists w1. split; [|exact Ed]. destruct fuel as [|fuel]; [lia|]. cbn [Copy].
    assert (plain_rd bytes_rd text size = Ok (text, None, [])) as ->.
    { unfold plain_rd, bytes_rd, text at 1. rewrite ztake_all, zdrop_all by exact Hfit. reflexivity. }
    cbn [bind]. assert (0 < zlen text) as Hpos by (unfold text; rewrite zlen_cons; pose proof (zlen_nonneg t); lia).
    destruct (Z.gtb_spec (zlen text) 0) as [_|Hx]; [|lia]. rewrite E1. cbn [bind].
    destruct (Z.ltb_spec (zlen text) 0) as [Hx|_]; [lia|]. rewrite Z.ltb_irrefl. cbn [orb].
    rewrite Z.eqb_refl. cbn [bind]. apply Hend. cbn in Hf. lia.
Qed.
