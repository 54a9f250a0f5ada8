(** bufio.Writer over a Writer: lemmas behind C115 and C116. *)
From Coq Require Import ZArith List Bool Lia.
From Coq Require Import ZifyBool.
From Verif Require Import Base Spec Facts Utf8 Utf8Facts SliceFacts SpecCp949 SpecIO Cp949Model StreamModel
  Cp949Facts Cp949Facts2 StreamFacts StreamFacts2 StreamFacts3 PipeFacts BufioModel TableFacts PMapFacts.
Import ListNotations.
Local Open Scope Z_scope.
Local Opaque To.

Section BufWriterFacts.
Variable grow : Z -> Z -> Z.
Notation bufw := (bufwriter (writer (list Z))).
Notation dst b := (w_dst _ (bw_dst (writer (list Z)) b)).
Notation buf b := (bw_buf (writer (list Z)) b).
Notation wr := (Write grow (list Z) buffer_wr).

Record state (size : Z) (b : bufw) (blocks : list (list Z)) : Prop := {
  st_pos : 0 < size;
  st_size : bw_size _ b = size;
  st_err : bw_err _ b = None;
  st_ok : writer_ok _ (bw_dst _ b);
  st_dst : dst b = flat_map enc blocks;
  st_len : zlen (buf b) <= size;
  st_bytes : Forall is_byte (buf b)
}.


Lemma new_ok size : 0 < size -> state size (NewBufWriter _ size (NewWriter [])) [].
Proof.
  intros H. unfold NewBufWriter. destruct (Z.leb_spec size 0); [lia|].
  constructor; cbn [bw_size bw_err bw_dst bw_buf]; auto; try lia.
  - split; [split; cbn; lia|reflexivity].
  - cbn. lia.
Qed.

Lemma flush_ok size b blocks : state size b blocks -> buf b <> [] ->
  exists b', Flush _ wr b = Ok (None, b') /\ state size b' (blocks ++ [buf b]) /\ buf b' = [].
Proof.
  intros [H0 H1 H2 H3 H4 H5 H6] Hne. unfold Flush. rewrite H2.
  assert (0 < zlen (buf b)) as Hp by (destruct (buf b) as [|x l]; [congruence|rewrite zlen_cons; pose proof (zlen_nonneg l); lia]).
  destruct (Z.eqb_spec (zlen (buf b)) 0); [lia|].
  destruct (writer_wr_ok grow (bw_dst _ b) (buf b) H3 Hne H6) as (w' & -> & Hw & Hd). cbn [bind].
  rewrite Z.ltb_irrefl. eexists. split; [reflexivity|]. split; [|reflexivity].
  constructor; cbn [bw_size bw_err bw_dst bw_buf]; auto.
  - rewrite Hd, H4, flat_map_app. cbn [flat_map]. rewrite app_nil_r. reflexivity.
  - cbn. lia.
Qed.
Lemma flush_empty size b blocks : state size b blocks -> buf b = [] -> Flush _ wr b = Ok (None, b).
Proof. intros [H0 H1 H2 H3 H4 H5 H6] E. unfold Flush. rewrite H2, E. reflexivity. Qed.

Lemma keep_ok size b blocks p : state size b blocks -> Forall is_byte p -> zlen p <= Available _ b ->
  state size (mkBufWriter _ (bw_dst _ b) (bw_size _ b) (buf b ++ p) None) blocks.
Proof.
  intros [H0 H1 H2 H3 H4 H5 H6] Hp Hl. unfold Available in Hl.
  constructor; cbn [bw_size bw_err bw_dst bw_buf]; auto; [rewrite zlen_app; lia|apply Forall_app; auto].
Qed.

Definition fits (size : Z) (blocks : list (list Z)) : Prop := Forall (fun c => size <= zlen c /\ Forall is_byte c) blocks.

(** Filling the buffer and flushing it. *)
Lemma fill_flush size b blocks p : state size b blocks -> Forall is_byte p -> Available _ b < zlen p ->
  exists b', Flush _ wr (mkBufWriter _ (bw_dst _ b) (bw_size _ b) (buf b ++ ztake (Available _ b) p) None) = Ok (None, b') /\
    state size b' (blocks ++ [buf b ++ ztake (Available _ b) p]) /\ buf b' = [] /\
    fits size [buf b ++ ztake (Available _ b) p] /\ 0 <= Available _ b.
Proof.
  intros Hs Hp Hl. pose proof Hs as [H0 H1 H2 H3 H4 H5 H6].
  assert (0 <= Available _ b) as Ha by (unfold Available; lia).
  assert (zlen (ztake (Available _ b) p) = Available _ b) as Ez by (rewrite zlen_ztake by lia; lia).
  assert (state size (mkBufWriter _ (bw_dst _ b) (bw_size _ b) (buf b ++ ztake (Available _ b) p) None) blocks) as Hs'.
  { apply keep_ok; [exact Hs|apply Forall_ztake, Hp|lia]. }
  assert (zlen (buf b ++ ztake (Available _ b) p) = size) as Hz.
  { rewrite zlen_app, Ez. unfold Available. lia. }
  destruct (flush_ok size _ blocks Hs') as (b' & E & Hs2 & Eb); cbn [bw_buf] in *.
  { intros E. rewrite E in Hz. cbn in Hz. lia. }
  exists b'. split; [exact E|]. split; [exact Hs2|]. split; [exact Eb|]. split; [|exact Ha].
  constructor; [|constructor]. split; [lia|]. apply Forall_app. split; [exact H6|apply Forall_ztake, Hp].
Qed.

Lemma write_ok size : forall fuel b blocks p nn, state size b blocks -> Forall is_byte p ->
  (length p + (if (Available _ b <=? 0)%Z then 1 else 0) < fuel)%nat ->
  exists b' more, BufWrite _ wr fuel b p nn = Ok (nn + zlen p, None, b') /\ state size b' (blocks ++ more) /\
    fits size more /\ concat more ++ buf b' = buf b ++ p.
Proof.
  induction fuel as [|fuel IH]; intros b blocks p nn Hs Hp Hf; [lia|]. cbn [BufWrite].
  pose proof Hs as [H0 H1 H2 H3 H4 H5 H6]. rewrite H2.
  destruct (Z.ltb_spec (Available _ b) (zlen p)) as [Hl|Hl].
  - destruct (Z.eqb_spec (zlen (buf b)) 0) as [E|E].
    + assert (buf b = []) as Eb by (destruct (buf b) as [|x l]; [reflexivity|rewrite zlen_cons in E; pose proof (zlen_nonneg l); lia]).
      assert (Available _ b = size) as Ea by (unfold Available; rewrite Eb, H1; cbn; lia).
      assert (p <> []) as Hne by (intros ->; cbn in Hl; lia).
      destruct (writer_wr_ok grow (bw_dst _ b) p H3 Hne Hp) as (w' & -> & Hw & Hd). cbn [bind].
      pose proof (zlen_nonneg p). destruct (Z.ltb_spec (zlen p) 0); [lia|]. rewrite Z.ltb_irrefl. cbn [orb].
      rewrite (zdrop_all (zlen p)) by lia.
      destruct fuel as [|fuel]; [destruct p; [congruence|cbn in Hf; lia]|]. cbn [BufWrite bw_err].
      unfold Available. cbn [bw_size bw_buf]. change (zlen (@nil Z)) with 0. rewrite H1.
      destruct (Z.ltb_spec (size - 0) 0); [lia|]. eexists _, [p]. split; [rewrite Z.add_0_r; reflexivity|].
      split; [|split].
      * constructor; cbn [bw_size bw_err bw_dst bw_buf app]; auto; [|cbn; lia].
        rewrite Hd, H4, flat_map_app. cbn [flat_map]. rewrite app_nil_r. reflexivity.
      * constructor; [split; [lia|exact Hp]|constructor].
      * cbn [concat bw_buf]. rewrite Eb, !app_nil_r. reflexivity.
    + destruct (fill_flush size b blocks p Hs Hp Hl) as (b1 & -> & Hs1 & Eb1 & Hfit & Ha). cbn [bind].
      assert (Available _ b1 = size) as Ea1 by (unfold Available; rewrite Eb1, (st_size _ _ _ Hs1); cbn; lia).
      destruct (IH b1 _ (zdrop (Available _ b) p) (nn + Available _ b) Hs1) as (b2 & more & E2 & Hs2 & Hf2 & Hc).
      * apply Forall_zdrop, Hp.
      * rewrite Ea1. destruct (Z.leb_spec size 0); [lia|]. unfold zdrop. rewrite skipn_length.
        destruct (Z.leb_spec (Available _ b) 0); unfold zlen in *; lia.
      * exists b2, ((buf b ++ ztake (Available _ b) p) :: more). split.
        { rewrite E2. do 3 f_equal. rewrite zlen_zdrop by lia. lia. }
        split; [rewrite <- app_assoc in Hs2; exact Hs2|]. split.
        { inversion Hfit; subst. constructor; assumption. }
        cbn [concat]. rewrite <- app_assoc, Hc, Eb1. cbn [app]. rewrite <- app_assoc, ztake_zdrop. reflexivity.
  - eexists _, []. split; [reflexivity|]. rewrite app_nil_r. split; [apply keep_ok; [exact Hs|exact Hp|lia]|].
    split; [constructor|]. reflexivity.
Qed.

Lemma write_string_ok size : forall fuel b blocks p nn, state size b blocks -> Forall is_byte p ->
  (length p + (if (Available _ b <=? 0)%Z then 1 else 0) < fuel)%nat ->
  exists b' more, BufWriteString _ wr fuel b p nn = Ok (nn + zlen p, None, b') /\ state size b' (blocks ++ more) /\
    fits size more /\ concat more ++ buf b' = buf b ++ p.
Proof.
  induction fuel as [|fuel IH]; intros b blocks p nn Hs Hp Hf; [lia|]. cbn [BufWriteString].
  pose proof Hs as [H0 H1 H2 H3 H4 H5 H6]. rewrite H2.
  destruct (Z.ltb_spec (Available _ b) (zlen p)) as [Hl|Hl].
  - destruct (fill_flush size b blocks p Hs Hp Hl) as (b1 & -> & Hs1 & Eb1 & Hfit & Ha). cbn [bind].
    assert (Available _ b1 = size) as Ea1 by (unfold Available; rewrite Eb1, (st_size _ _ _ Hs1); cbn; lia).
    destruct (IH b1 _ (zdrop (Available _ b) p) (nn + Available _ b) Hs1) as (b2 & more & E2 & Hs2 & Hf2 & Hc).
    + apply Forall_zdrop, Hp.
    + rewrite Ea1. destruct (Z.leb_spec size 0); [lia|]. unfold zdrop. rewrite skipn_length.
      destruct (Z.leb_spec (Available _ b) 0); unfold zlen in *; lia.
    + exists b2, ((buf b ++ ztake (Available _ b) p) :: more). split.
      { rewrite E2. do 3 f_equal. rewrite zlen_zdrop by lia. lia. }
      split; [rewrite <- app_assoc in Hs2; exact Hs2|]. split.
      { inversion Hfit; subst. constructor; assumption. }
      cbn [concat]. rewrite <- app_assoc, Hc, Eb1. cbn [app]. rewrite <- app_assoc, ztake_zdrop. reflexivity.
  - eexists _, []. split; [reflexivity|]. rewrite app_nil_r. split; [apply keep_ok; [exact Hs|exact Hp|lia]|].
    split; [constructor|]. reflexivity.
Qed.

Lemma writes_ok size fuel : forall ps b blocks, state size b blocks ->
  Forall (fun p => Forall is_byte (piece_bytes p) /\ (length (piece_bytes p) + 1 < fuel)%nat) ps ->
  exists b' full last, BufWrites _ wr fuel b ps = Ok (None, b') /\ fits size full /\
    zlen last <= size /\ Forall is_byte last /\
    dst b' = flat_map enc blocks ++ flat_map enc full ++ enc last /\
    concat full ++ last = buf b ++ concat (map piece_bytes ps).
Proof.
  induction ps as [|p ps IH]; intros b blocks Hs Hps; cbn [BufWrites map concat].
  - rewrite app_nil_r. destruct (list_eq_dec Z.eq_dec (buf b) []) as [E|E].
    + rewrite (flush_empty _ _ _ Hs E). exists b, [], []. split; [reflexivity|]. split; [constructor|].
      split; [pose proof (st_pos _ _ _ Hs); cbn; lia|]. split; [constructor|]. split; [|rewrite E; reflexivity].
      cbn [flat_map app]. change (enc []) with (@nil Z). rewrite app_nil_r. apply (st_dst _ _ _ Hs).
    + destruct (flush_ok _ _ _ Hs E) as (b' & -> & Hs' & Eb). exists b', [], (buf b).
      split; [reflexivity|]. split; [constructor|]. split; [apply (st_len _ _ _ Hs)|]. split; [apply (st_bytes _ _ _ Hs)|].
      split; [|reflexivity]. rewrite (st_dst _ _ _ Hs'), flat_map_app. cbn [flat_map]. rewrite app_nil_r. reflexivity.
  - inversion Hps as [|? ? [Hb Hl] Hps']; subst.
    assert (exists b1 more nn, match p with
      | ByWrite q => BufWrite _ wr fuel b q 0
      | ByWriteString q => BufWriteString _ wr fuel b q 0
      end = Ok (nn, None, b1) /\ state size b1 (blocks ++ more) /\ fits size more /\
      concat more ++ buf b1 = buf b ++ piece_bytes p) as (b1 & more & nn & E1 & Hs1 & Hf1 & Hc1).
    { destruct p as [q|q]; cbn [piece_bytes] in *.
      - destruct (write_ok size fuel b blocks q 0 Hs Hb) as (b1 & more & ? & ? & ? & ?).
        { destruct (Available _ b <=? 0); lia. } exists b1, more. eauto 8.
      - destruct (write_string_ok size fuel b blocks q 0 Hs Hb) as (b1 & more & ? & ? & ? & ?).
        { destruct (Available _ b <=? 0); lia. } exists b1, more. eauto 8. }
    destruct (IH b1 _ Hs1 Hps') as (b' & full & last & E2 & Hf2 & Hl2 & Hb2 & Hd2 & Hc2).
    exists b', (more ++ full), last. split.
    { destruct p; rewrite E1; cbn [bind]; exact E2. }
    split; [apply Forall_app; auto|]. split; [exact Hl2|]. split; [exact Hb2|]. split.
    + rewrite Hd2, !flat_map_app, <- !app_assoc. reflexivity.
    + rewrite concat_app, <- app_assoc, Hc2, app_assoc, Hc1, <- app_assoc. reflexivity.
Qed.

(** ** Character by character *)
Lemma enc_utf8 rs : Forall is_scalar rs -> enc (utf8 rs) = flat_map to_char rs.
Proof. intros H. unfold enc. rewrite string_to_runes_utf8 by exact H. reflexivity. Qed.

Lemma flush_any size b blocks : state size b blocks -> exists b' more, Flush _ wr b = Ok (None, b') /\
  state size b' (blocks ++ more) /\ buf b' = [] /\ concat more = buf b /\ (more = [] \/ more = [buf b]).
Proof.
  intros Hs. destruct (list_eq_dec Z.eq_dec (buf b) []) as [E|E].
  - rewrite (flush_empty _ _ _ Hs E). exists b, []. rewrite app_nil_r. auto 6.
  - destruct (flush_ok _ _ _ Hs E) as (b' & -> & Hs' & Eb). exists b', [buf b]. cbn [concat]. rewrite app_nil_r. auto 6.
Qed.

Lemma scalar_u32 r : is_scalar r -> to_u32 r = r.
Proof. intros H. unfold to_u32. apply Z.mod_small. unfold is_scalar in H. lia. Qed.

Lemma rune_ok size fuel b rss rb r : 4 <= size -> state size b (map utf8 rss) -> Forall (Forall is_scalar) rss ->
  Forall is_scalar rb -> buf b = utf8 rb -> is_scalar r ->
  exists b' rss' rb' n, WriteRune _ wr fuel b r = Ok (n, None, b') /\ state size b' (map utf8 rss') /\
    Forall (Forall is_scalar) rss' /\ Forall is_scalar rb' /\ buf b' = utf8 rb' /\
    concat rss' ++ rb' = concat rss ++ rb ++ [r].
Proof.
  intros Hsz Hs Hrss Hrb Hbuf Hr. unfold WriteRune, WriteByte. rewrite (scalar_u32 r Hr), (st_err _ _ _ Hs).
  pose proof (utf8_char_len r) as Hlen. pose proof (utf8_char_bytes r Hr) as Hby.
  (* putting the character into the buffer *)
  assert (forall b1 rss1 rb1, state size b1 (map utf8 rss1) -> Forall (Forall is_scalar) rss1 -> Forall is_scalar rb1 ->
    buf b1 = utf8 rb1 -> zlen (utf8_char r) <= Available _ b1 -> concat rss1 ++ rb1 = concat rss ++ rb ->
    exists rss' rb', state size (mkBufWriter _ (bw_dst _ b1) (bw_size _ b1) (buf b1 ++ utf8_char r) None) (map utf8 rss') /\
      Forall (Forall is_scalar) rss' /\ Forall is_scalar rb' /\ buf b1 ++ utf8_char r = utf8 rb' /\
      concat rss' ++ rb' = concat rss ++ rb ++ [r]) as Hput.
  { intros b1 rss1 rb1 Hs1 H1 H2 H3 H4 H5. exists rss1, (rb1 ++ [r]). split; [apply keep_ok; assumption|].
    split; [exact H1|]. split; [apply Forall_app; auto|]. split.
    - rewrite utf8_app, H3. cbn [utf8 flat_map]. rewrite app_nil_r. reflexivity.
    - rewrite app_assoc, H5, <- app_assoc. reflexivity. }
  (* flushing first if need be *)
  assert (forall (c : bool), exists b1 rss1 rb1, (if c then Flush _ wr b else Ok (None, b)) = Ok (None, b1) /\
    state size b1 (map utf8 rss1) /\ Forall (Forall is_scalar) rss1 /\ Forall is_scalar rb1 /\ buf b1 = utf8 rb1 /\
    concat rss1 ++ rb1 = concat rss ++ rb /\ if c then Available _ b1 = size else b1 = b) as Hfl.
  { intros [|].
    - destruct (flush_any _ _ _ Hs) as (b1 & more & E & Hs1 & Eb & Hc & Hm).
      assert (exists rss1, map utf8 rss ++ more = map utf8 rss1 /\ Forall (Forall is_scalar) rss1 /\ concat rss1 = concat rss ++ rb) as (rss1 & Em & Hsc & Hcc).
      { destruct Hm as [->| ->].
        - exists rss. rewrite app_nil_r. split; [reflexivity|]. split; [exact Hrss|].
          cbn in Hc. rewrite Hbuf in Hc. destruct rb as [|x rb]; [rewrite app_nil_r; reflexivity|].
          exfalso. cbn [utf8 flat_map] in Hc. symmetry in Hc. apply app_eq_nil in Hc as [Hc _]. apply (utf8_char_nonempty x Hc).
        - exists (rss ++ [rb]). rewrite map_app, Hbuf. split; [reflexivity|]. split; [apply Forall_app; auto|].
          rewrite concat_app. cbn [concat]. rewrite app_nil_r. reflexivity. }
      rewrite Em in Hs1. exists b1, rss1, []. split; [exact E|]. split; [exact Hs1|]. split; [exact Hsc|].
      split; [constructor|]. split; [exact Eb|]. rewrite app_nil_r. split; [exact Hcc|].
      unfold Available. rewrite Eb, (st_size _ _ _ Hs1). cbn. lia.
    - exists b, rss, rb. auto 10. }
  destruct (Z.ltb_spec r 0x80) as [Ha|Ha].
  - assert (utf8_char r = [to_u8 r]) as Eu.
    { unfold utf8_char. destruct (Z.ltb_spec r 0x80); [|lia]. unfold to_u8. unfold is_scalar in Hr. rewrite Z.mod_small by lia. reflexivity. }
    rewrite <- Eu in *.
    destruct (Hfl (Available _ b <=? 0)) as (b1 & rss1 & rb1 & -> & Hs1 & H1 & H2 & H3 & H4 & H5). cbn [bind].
    destruct (Hput b1 rss1 rb1 Hs1 H1 H2 H3) as (rss' & rb' & G1 & G2 & G3 & G4 & G5); [|exact H4|].
    + rewrite Eu. change (zlen [to_u8 r]) with 1. destruct (Z.leb_spec (Available _ b) 0); [lia|subst b1; lia].
    + exists (mkBufWriter _ (bw_dst _ b1) (bw_size _ b1) (buf b1 ++ utf8_char r) None), rss', rb', 1.
      split; [reflexivity|]. auto 10.
  - rewrite (EncodeRune_scalar r Hr).
    destruct (Hfl (Available _ b <? UTFMax)) as (b1 & rss1 & rb1 & -> & Hs1 & H1 & H2 & H3 & H4 & H5). cbn [bind].
    assert (UTFMax <= Available _ b1) as Hav.
    { unfold UTFMax in *. destruct (Z.ltb_spec (Available _ b) 4); [lia|subst b1; lia]. }
    destruct (Z.ltb_spec (Available _ b1) UTFMax); [lia|].
    destruct (Hput b1 rss1 rb1 Hs1 H1 H2 H3) as (rss' & rb' & G1 & G2 & G3 & G4 & G5); [unfold UTFMax in *; lia|exact H4|].
    exists (mkBufWriter _ (bw_dst _ b1) (bw_size _ b1) (buf b1 ++ utf8_char r) None), rss', rb', (zlen (utf8_char r)).
    split; [reflexivity|]. auto 10.
Qed.

Lemma runes_ok size fuel : 4 <= size -> forall rs b rss rb, state size b (map utf8 rss) ->
  Forall (Forall is_scalar) rss -> Forall is_scalar rb -> buf b = utf8 rb -> Forall is_scalar rs ->
  exists b', WriteRunes _ wr fuel b rs = Ok (None, b') /\ dst b' = flat_map to_char (concat rss ++ rb ++ rs).
Proof.
  intros Hsz. induction rs as [|r rs IH]; intros b rss rb Hs H1 H2 H3 Hrs; cbn [WriteRunes].
  - rewrite app_nil_r. destruct (flush_any _ _ _ Hs) as (b' & more & -> & Hs' & _ & Hc & Hm). exists b'. split; [reflexivity|].
    rewrite (st_dst _ _ _ Hs'), flat_map_app, flat_map_app. f_equal.
    + clear - H1. induction H1 as [|x l Hx H IH]; [reflexivity|]. cbn [map flat_map concat]. rewrite IH, flat_map_app, enc_utf8 by exact Hx. reflexivity.
    + rewrite <- enc_utf8 by exact H2. rewrite <- H3. destruct Hm as [->| ->].
      * cbn in Hc. rewrite <- Hc. reflexivity.
      * cbn [flat_map]. rewrite app_nil_r. reflexivity.
  - inversion Hrs as [|? ? Hr Hrs']; subst.
    destruct (rune_ok size fuel b rss rb r Hsz Hs H1 H2 H3 Hr) as (b1 & rss' & rb' & n & -> & G1 & G2 & G3 & G4 & G5). cbn [bind].
    destruct (IH b1 rss' rb' G1 G2 G3 G4 Hrs') as (b' & -> & Hd). exists b'. split; [reflexivity|].
    rewrite Hd. f_equal. rewrite app_assoc, G5, <- !app_assoc. reflexivity.
Qed.
End BufWriterFacts.

(** ** The statements *)
Lemma buf_exact grow size pieces fuel : 0 < size ->
  Forall (fun p => Forall is_byte (piece_bytes p) /\ (length (piece_bytes p) + 1 < fuel)%nat) pieces ->
  exists full last parts part b,
    concat full ++ last = concat (map piece_bytes pieces) /\ Forall (fun c => size <= zlen c) full /\ zlen last <= size /\
    Forall2 (fun d p => To grow d = Ok (inl p)) (full ++ [last]) (parts ++ [part]) /\
    BufWrites _ (Write grow (list Z) buffer_wr) fuel (NewBufWriter _ size (NewWriter [])) pieces = Ok (None, b) /\
    w_dst _ (bw_dst _ b) = concat parts ++ part.
Proof.
  intros Hsz Hp. destruct (writes_ok grow size fuel pieces _ [] (new_ok size Hsz) Hp) as (b & full & last & E & Hf & Hl & Hb & Hd & Hc).
  exists full, last, (map enc full), (enc last), b. split.
  { rewrite Hc. unfold NewBufWriter. cbn [bw_buf app]. reflexivity. }
  split; [apply Forall_forall; intros c Hi; apply (proj1 (Forall_forall _ _) Hf c Hi)|]. split; [exact Hl|]. split.
  { apply Forall2_app; [apply To_parts; apply Forall_forall; intros c Hi; apply (proj1 (Forall_forall _ _) Hf c Hi)|].
    constructor; [apply To_enc, Hb|constructor]. }
  split; [exact E|]. rewrite Hd. cbn [flat_map app]. rewrite <- flat_map_concat_map. reflexivity.
Qed.

Lemma buf_fits grow size pieces bs fuel : 0 < size ->
  Forall (fun p => Forall is_byte (piece_bytes p) /\ (length (piece_bytes p) + 1 < fuel)%nat) pieces ->
  zlen (concat (map piece_bytes pieces)) <= size -> To grow (concat (map piece_bytes pieces)) = Ok (inl bs) ->
  exists b, BufWrites _ (Write grow (list Z) buffer_wr) fuel (NewBufWriter _ size (NewWriter [])) pieces = Ok (None, b) /\
    w_dst _ (bw_dst _ b) = bs.
Proof.
  intros Hsz Hp Hl HT. destruct (writes_ok grow size fuel pieces _ [] (new_ok size Hsz) Hp) as (b & full & last & E & Hf & Hll & Hb & Hd & Hc).
  exists b. split; [exact E|]. rewrite Hd. cbn [flat_map app].
  unfold NewBufWriter in Hc. cbn [bw_buf app] in Hc.
  assert (Forall is_byte (concat full ++ last)) as Hby.
  { rewrite Hc. clear - Hp. induction Hp as [|p ps [Hp _] H IH]; [constructor|]. cbn [map concat]. apply Forall_app; auto. }
  rewrite <- Hc in HT, Hl. rewrite (To_enc grow _ Hby) in HT. injection HT as <-.
  destruct full as [|c full]; [reflexivity|]. inversion Hf as [|? ? [Hc1 _] Hf']; subst.
  cbn [concat] in *. rewrite !zlen_app in Hl. pose proof (zlen_nonneg (concat full)). pose proof (zlen_nonneg last).
  assert (last = []) as -> by (destruct last as [|x l]; [reflexivity|rewrite zlen_cons in *; pose proof (zlen_nonneg l); lia]).
  assert (full = []) as ->.
  { destruct full as [|c' full]; [reflexivity|]. inversion Hf' as [|? ? [Hc2 _] _]; subst. cbn [concat] in *. rewrite zlen_app in *.
    pose proof (zlen_nonneg (concat full)). lia. }
  cbn [concat flat_map app]. change (enc []) with (@nil Z). rewrite !app_nil_r. reflexivity.
Qed.

Lemma buf_ascii grow size pieces fuel : 0 < size ->
  Forall (fun p => Forall (fun b => 0 <= b < 0x80) (piece_bytes p) /\ (length (piece_bytes p) + 1 < fuel)%nat) pieces ->
  exists b, BufWrites _ (Write grow (list Z) buffer_wr) fuel (NewBufWriter _ size (NewWriter [])) pieces = Ok (None, b) /\
    w_dst _ (bw_dst _ b) = concat (map piece_bytes pieces).
Proof.
  intros Hsz Hp. destruct (buf_exact grow size pieces fuel Hsz) as (full & last & parts & part & b & Hc & _ & _ & HT & E & Hd).
  { eapply Forall_impl; [|exact Hp]. intros p [H1 H2]. split; [|exact H2]. eapply Forall_impl; [|exact H1]. unfold is_byte. intros; lia. }
  exists b. split; [exact E|]. rewrite Hd, <- Hc. apply ascii_chunks in HT.
  - rewrite !concat_app in HT. cbn [concat] in HT. rewrite !app_nil_r in HT. exact HT.
  - rewrite concat_app. cbn [concat]. rewrite app_nil_r, Hc. clear - Hp.
    induction Hp as [|p ps [Hp _] H IH]; [constructor|]. cbn [map concat]. apply Forall_app; auto.
Qed.

Lemma buf_runes grow size rs fuel : 4 <= size -> Forall is_scalar rs ->
  exists b, WriteRunes _ (Write grow (list Z) buffer_wr) fuel (NewBufWriter _ size (NewWriter [])) rs = Ok (None, b) /\
    To grow (utf8 rs) = Ok (inl (w_dst _ (bw_dst _ b))).
Proof.
  intros Hsz Hrs. destruct (runes_ok grow size fuel Hsz rs (NewBufWriter _ size (NewWriter [])) [] []) as (b & E & Hd).
  - apply new_ok. lia.
  - constructor.
  - constructor.
  - reflexivity.
  - exact Hrs.
  - exists b. split; [exact E|]. rewrite Hd. cbn [concat app]. rewrite To_enc by (apply utf8_bytes, Hrs).
    rewrite enc_utf8 by exact Hrs. reflexivity.
Qed.

(** A string one byte longer than the buffer, with a character across the border. *)
Lemma string_cut grow size t1 t2 fuel : 0 < size -> Forall is_byte t1 -> Forall is_byte t2 -> zlen t1 = size ->
  t2 <> [] -> zlen t2 <= size -> (2 <= fuel)%nat ->
  exists b, BufWrites _ (Write grow (list Z) buffer_wr) fuel (NewBufWriter _ size (NewWriter [])) [ByWriteString (t1 ++ t2)] = Ok (None, b) /\
    w_dst _ (bw_dst _ b) = enc t1 ++ enc t2.
Proof.
  intros Hsz Hb1 Hb2 H1 H2 H3 Hf. destruct fuel as [|[|fuel]]; [lia..|].
  pose proof (new_ok size Hsz) as Hs. set (b0 := NewBufWriter _ size (NewWriter [])) in *.
  assert (bw_buf _ b0 = []) as Eb0 by reflexivity.
  assert (Available _ b0 = size) as Ea by (unfold Available; rewrite Eb0, (st_size _ _ _ Hs); cbn; lia).
  assert (0 < zlen t2) as Hp2 by (destruct t2 as [|x l]; [congruence|rewrite zlen_cons; pose proof (zlen_nonneg l); lia]).
  cbn [BufWrites]. cbn [BufWriteString]. rewrite (st_err _ _ _ Hs), Ea. rewrite zlen_app.
  destruct (Z.ltb_spec size (zlen t1 + zlen t2)); [|lia].
  destruct (fill_flush grow size b0 [] (t1 ++ t2) Hs) as (b1 & E1 & Hs1 & Eb1 & _ & _).
  { apply Forall_app; auto. } { rewrite Ea, zlen_app. lia. }
  rewrite Ea in E1, Hs1. rewrite E1. cbn [bind]. rewrite (st_err _ _ _ Hs1).
  rewrite zdrop_app_exact by lia. rewrite ztake_app_exact in Hs1 by lia. rewrite Eb0 in Hs1. cbn [app] in Hs1.
  assert (Available _ b1 = size) as Ea1 by (unfold Available; rewrite Eb1, (st_size _ _ _ Hs1); cbn; lia).
  rewrite Ea1. destruct (Z.ltb_spec size (zlen t2)); [lia|]. cbn [bind].
  destruct (flush_ok grow size (mkBufWriter _ (bw_dst _ b1) (bw_size _ b1) (bw_buf _ b1 ++ t2) None) [t1]) as (b2 & -> & Hs2 & _).
  { apply keep_ok; [exact Hs1|exact Hb2|lia]. } { cbn [bw_buf]. rewrite Eb1. exact H2. }
  exists b2. split; [reflexivity|]. rewrite (st_dst _ _ _ Hs2). cbn [bw_buf]. rewrite Eb1. cbn [flat_map app]. rewrite app_nil_r. reflexivity.
Qed.

Lemma bytes_cut grow size t1 t2 t3 fuel : 0 < size -> Forall is_byte t1 -> Forall is_byte t2 -> Forall is_byte t3 ->
  zlen (t1 ++ t2) = size -> t1 <> [] -> t2 <> [] -> t3 <> [] -> zlen t3 <= size -> (2 <= fuel)%nat ->
  exists b, BufWrites _ (Write grow (list Z) buffer_wr) fuel (NewBufWriter _ size (NewWriter [])) [ByWrite t1; ByWrite (t2 ++ t3)] = Ok (None, b) /\
    w_dst _ (bw_dst _ b) = enc (t1 ++ t2) ++ enc t3.
Proof.
  intros Hsz Hb1 Hb2 Hb3 H1 H0 H2 H2' H3 Hf. destruct fuel as [|[|fuel]]; [lia..|].
  assert (forall l : list Z, l <> [] -> 0 < zlen l) as Hne by (intros [|x l] Hl; [congruence|rewrite zlen_cons; pose proof (zlen_nonneg l); lia]).
  pose proof (Hne _ H0). pose proof (Hne _ H2). pose proof (Hne _ H2'). rewrite zlen_app in H1.
  pose proof (new_ok size Hsz) as Hs. set (b0 := NewBufWriter _ size (NewWriter [])) in *.
  assert (bw_buf _ b0 = []) as Eb0 by reflexivity.
  assert (Available _ b0 = size) as Ea by (unfold Available; rewrite Eb0, (st_size _ _ _ Hs); cbn; lia).
  assert (exists b1, BufWrite _ (Write grow (list Z) buffer_wr) (S (S fuel)) b0 t1 0 = Ok (0 + zlen t1, None, b1) /\
    state size b1 [] /\ bw_buf _ b1 = t1) as (b1 & E1 & Hs1 & Eb1).
  { cbn [BufWrite]. rewrite (st_err _ _ _ Hs), Ea. destruct (Z.ltb_spec size (zlen t1)); [lia|].
    eexists. split; [reflexivity|]. split; [apply keep_ok; [exact Hs|exact Hb1|lia]|]. cbn [bw_buf]. rewrite Eb0. reflexivity. }
  assert (Available _ b1 = zlen t2) as Ea1 by (unfold Available; rewrite Eb1, (st_size _ _ _ Hs1); cbn; lia).
  assert (exists b2, BufWrite _ (Write grow (list Z) buffer_wr) (S (S fuel)) b1 (t2 ++ t3) 0 = Ok (0 + zlen t2 + zlen t3, None, b2) /\
    state size b2 [t1 ++ t2] /\ bw_buf _ b2 = t3) as (b2 & E2 & Hs2 & Eb2).
  { cbn [BufWrite]. rewrite (st_err _ _ _ Hs1), Ea1. rewrite zlen_app. destruct (Z.ltb_spec (zlen t2) (zlen t2 + zlen t3)); [|lia].
    rewrite Eb1. destruct (Z.eqb_spec (zlen t1) 0); [lia|].
    destruct (fill_flush grow size b1 [] (t2 ++ t3) Hs1) as (b2 & E2 & Hs2 & Eb2 & _ & _).
    { apply Forall_app; auto. } { rewrite Ea1, zlen_app. lia. }
    rewrite Ea1, Eb1 in E2, Hs2. rewrite E2. cbn [bind]. rewrite (st_err _ _ _ Hs2).
    rewrite zdrop_app_exact by lia. rewrite ztake_app_exact in Hs2 by lia. cbn [app] in Hs2.
    assert (Available _ b2 = size) as Ea2 by (unfold Available; rewrite Eb2, (st_size _ _ _ Hs2); cbn; lia).
    rewrite Ea2. destruct (Z.ltb_spec size (zlen t3)); [lia|]. eexists. split; [reflexivity|].
    split; [apply keep_ok; [exact Hs2|exact Hb3|lia]|]. cbn [bw_buf]. rewrite Eb2. reflexivity. }
  cbn [BufWrites]. rewrite E1. cbn [bind]. rewrite E2. cbn [bind].
  destruct (flush_ok grow size b2 [t1 ++ t2] Hs2) as (b3 & -> & Hs3 & _); [rewrite Eb2; exact H2'|].
  exists b3. split; [reflexivity|]. rewrite (st_dst _ _ _ Hs3), Eb2. cbn [flat_map app]. rewrite app_nil_r. reflexivity.
Qed.

(** 4095 letters and one syllable. *)
Definition letters : list Z := repeat 0x61 (Z.to_nat 4095).
Lemma letters_encodes : encodes (letters ++ [0xAC00]) (letters ++ [0xB0; 0xA1]).
Proof.
  unfold letters. induction (Z.to_nat 4095) as [|n IH]; cbn [repeat app].
  - change [0xB0; 0xA1] with (code_bytes 0xB0A1 ++ []). constructor; [apply assigned_by; vm_compute; reflexivity|constructor].
  - constructor; [lia|exact IH].
Qed.
Lemma letters_utf8 : utf8 letters = letters.
Proof. unfold letters. induction (Z.to_nat 4095) as [|n IH]; [reflexivity|]. cbn [repeat]. change (utf8 (0x61 :: repeat 0x61 n)) with (0x61 :: utf8 (repeat 0x61 n)). rewrite IH. reflexivity. Qed.
Lemma letters_len : zlen letters = 4095.
Proof. unfold letters, zlen. rewrite repeat_length. lia. Qed.
Lemma letters_byte : Forall is_byte letters.
Proof. unfold letters. apply Forall_forall. intros b Hb. apply repeat_spec in Hb. subst b. unfold is_byte. lia. Qed.
Lemma letters_wrong : enc (letters ++ [0xEA]) ++ enc [0xB0; 0x80] <> letters ++ [0xB0; 0xA1].
Proof.
  intros H. apply (f_equal (fun l => nth 4095 l 0)) in H. vm_compute in H. discriminate H.
Qed.

Lemma buf_string_refuted : exists text bs, encodes text bs /\ forall grow fuel, (2 <= fuel)%nat ->
  exists b, BufWrites _ (Write grow (list Z) buffer_wr) fuel (NewBufWriter _ defaultBufSize (NewWriter [])) [ByWriteString (utf8 text)] = Ok (None, b) /\
    w_dst _ (bw_dst _ b) <> bs.
Proof.
  exists (letters ++ [0xAC00]), (letters ++ [0xB0; 0xA1]). split; [exact letters_encodes|]. intros grow fuel Hf.
  rewrite utf8_app, letters_utf8. change (utf8 [0xAC00]) with ([0xEA] ++ [0xB0; 0x80]). rewrite app_assoc.
  destruct (string_cut grow defaultBufSize (letters ++ [0xEA]) [0xB0; 0x80] fuel) as (b & E & Hd).
  - reflexivity.
  - apply Forall_app. split; [exact letters_byte|]. constructor; [unfold is_byte; lia|constructor].
  - repeat constructor; lia.
  - rewrite zlen_app, letters_len. reflexivity.
  - discriminate.
  - cbn. unfold defaultBufSize. lia.
  - exact Hf.
  - exists b. split; [exact E|]. rewrite Hd. exact letters_wrong.
Qed.

Lemma buf_write_refuted : exists t1 t2 bs, encodes (t1 ++ t2) bs /\ forall grow fuel, (2 <= fuel)%nat ->
  exists b, BufWrites _ (Write grow (list Z) buffer_wr) fuel (NewBufWriter _ defaultBufSize (NewWriter []))
      [ByWrite (utf8 t1); ByWrite (utf8 t2)] = Ok (None, b) /\
    w_dst _ (bw_dst _ b) <> bs.
Proof.
  exists letters, [0xAC00], (letters ++ [0xB0; 0xA1]). split; [exact letters_encodes|]. intros grow fuel Hf.
  rewrite letters_utf8. change (utf8 [0xAC00]) with ([0xEA] ++ [0xB0; 0x80]).
  destruct (bytes_cut grow defaultBufSize letters [0xEA] [0xB0; 0x80] fuel) as (b & E & Hd); try discriminate.
  - reflexivity.
  - exact letters_byte.
  - repeat constructor; lia.
  - repeat constructor; lia.
  - rewrite zlen_app, letters_len. reflexivity.
  - exact Hf.
  - exists b. split; [exact E|]. rewrite Hd. exact letters_wrong.
Qed.

Lemma From_ascii grow d : Forall (fun b => 0 <= b < 0x80) d -> From grow d = Ok (inl d).
Proof.
  intros Hd.
  assert (encodes d d) as Henc by (clear - Hd; induction Hd; [constructor|apply enc_ascii; [lia|assumption]]).
  destruct (C29_lemma grow d d Henc) as [HF _]. rewrite HF.
  assert (utf8 d = d) as ->; [|reflexivity].
  clear - Hd. induction Hd as [|x l Hx H IH]; [reflexivity|]. rewrite utf8_cons, IH.
  unfold utf8_char. destruct (Z.ltb_spec x 0x80); [reflexivity|lia].
Qed.
