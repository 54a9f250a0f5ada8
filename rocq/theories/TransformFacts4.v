(** The String methods of Decoder and Encoder: lemmas behind C78. *)
From Coq Require Import ZArith List Bool Lia.
From Coq Require Import ZifyBool.
From Verif Require Import Base Spec Facts Utf8 Utf8Facts SortSearch TableFrom TableTo SpecCp949 SpecText
  SpecIO PMapFacts Cp949Model TransformModel TransformModel2 SliceFacts TableFacts Cp949Facts Cp949Facts2
  TransformFacts TransformFacts3.
Import ListNotations.
Local Open Scope Z_scope.
Local Opaque fromTable toTable dec_tree enc_tree.

Lemma bytes_eqb_iff a b : bytes_eqb a b = true <-> a = b.
Proof. unfold bytes_eqb. destruct (list_eq_dec Z.eq_dec a b); split; intros; congruence. Qed.

(** ** Any transformer that converts each source on its own *)
Section Conv.
Variable T : list Z -> list Z -> bool -> res transform_result.
Variable conv : list Z -> list Z + error.
Hypothesis T_conv : forall dst src eof, Forall is_byte src ->
  T dst src eof = match conv src with
                  | inr e => Ok (dst, 0, 0, Some e)
                  | inl c => Ok (go_copy dst c, zlen c, zlen src, None)
                  end.
Hypothesis conv_nil : conv [] = inl [].
Hypothesis conv_err : forall s e, Forall is_byte s -> conv s = inr e -> e <> ErrShortDst /\ e <> ErrShortSrc.

Lemma copy_block s p src : zlen src = 128 -> 0 <= p <= zlen s ->
  let n := Z.min (zlen src) (zlen (zdrop p s)) in
  ztake n (go_copy src (zdrop p s)) = ztake 128 (zdrop p s) /\
  zlen (ztake 128 (zdrop p s)) = n /\ n = Z.min 128 (zlen s - p) /\
  zlen (go_copy src (zdrop p s)) = 128.
Proof.
  intros Hl Hp n. subst n. rewrite Hl. rewrite zlen_zdrop by lia.
  replace (Z.max 0 (zlen s - p)) with (zlen s - p) by lia.
  assert (zlen (zdrop p s) = zlen s - p) as Hz by (rewrite zlen_zdrop by lia; lia).
  split; [|split; [rewrite zlen_ztake by lia; lia|split; [reflexivity|rewrite go_copy_len; exact Hl]]].
  destruct (Z_le_dec (zlen (zdrop p s)) 128) as [H|H].
  - rewrite go_copy_fits by lia. replace (Z.min 128 (zlen s - p)) with (zlen (zdrop p s)) by lia.
    rewrite ztake_app_exact by reflexivity. symmetry. apply ztake_all. lia.
  - rewrite go_copy_short by lia. rewrite Hl. replace (Z.min 128 (zlen s - p)) with 128 by lia.
    apply ztake_all. rewrite zlen_ztake by lia. lia.
Qed.

Lemma block_bytes (s : list Z) p : Forall is_byte s -> Forall is_byte (ztake 128 (zdrop p s)).
Proof. intros H. apply Forall_ztake, Forall_zdrop, H. Qed.

(** Cutting off one block. *)
Lemma blocks_step (s : list Z) p bs : 0 <= p -> p + 128 < zlen s -> in_blocks 128 (zdrop (p + 128) s) bs ->
  in_blocks 128 (zdrop p s) (ztake 128 (zdrop p s) :: bs).
Proof.
  intros H0 Hp H.
  assert (zdrop p s = ztake 128 (zdrop p s) ++ zdrop (p + 128) s) as E.
  { rewrite <- (ztake_zdrop 128 (zdrop p s)) at 1. rewrite zdrop_zdrop by lia. f_equal. f_equal. lia. }
  rewrite E at 1. apply blocks_more.
  - rewrite zlen_ztake, zlen_zdrop by lia. lia.
  - intros En. assert (zlen (zdrop (p + 128) s) = 0) as Ez by (rewrite En; reflexivity).
    rewrite zlen_zdrop in Ez by lia. lia.
  - exact H.
Qed.
Lemma blocks_end (s : list Z) p : 0 <= p -> p < zlen s <= p + 128 ->
  in_blocks 128 (zdrop p s) [ztake 128 (zdrop p s)].
Proof.
  intros H0 Hp. rewrite ztake_all by (rewrite zlen_zdrop by lia; lia).
  apply blocks_last; [|rewrite zlen_zdrop by lia; lia].
  intros En. assert (zlen (zdrop p s) = 0) as Ez by (rewrite En; reflexivity).
  rewrite zlen_zdrop in Ez by lia. lia.
Qed.

Lemma loop2_sound s : Forall is_byte s -> forall fuel dst src pDst pSrc r,
  zlen src = 128 -> 0 <= pSrc < zlen s -> 0 <= pDst ->
  string_loop2 T fuel s dst src pDst pSrc = Ok (r, None) ->
  exists bs outs, in_blocks 128 (zdrop pSrc s) bs /\ Forall2 (fun b o => conv b = inl o) bs outs /\
    r = ztake pDst dst ++ concat outs.
Proof.
  intros Hs. induction fuel as [|fuel IH]; intros dst src pDst pSrc r Hl Hp Hd E; [discriminate|].
  cbn [string_loop2] in E.
  destruct (copy_block s pSrc src Hl ltac:(lia)) as (Eb & Hbl & Hn & Hl').
  set (n := Z.min (zlen src) (zlen (zdrop pSrc s))) in *.
  destruct (Z.gtb_spec pDst (zlen dst)) as [Hx|Hx]; [discriminate|].
  rewrite Eb, T_conv in E by (apply block_bytes; exact Hs).
  destruct (conv (ztake 128 (zdrop pSrc s))) as [c|e] eqn:Ec.
  - cbn [bind is_short_dst is_short_src is_none negb orb] in E. rewrite Hbl in E.
    set (dst' := ztake pDst dst ++ go_copy (zdrop pDst dst) c) in *.
    assert (zlen dst' = zlen dst) as Hld.
    { subst dst'. rewrite zlen_app, go_copy_len, zlen_ztake, zlen_zdrop by lia. lia. }
    pose proof (zlen_nonneg c) as Hc.
    assert (pDst + zlen c <= zlen dst' -> ztake (pDst + zlen c) dst' = ztake pDst dst ++ c) as Htake.
    { intros H. subst dst'. rewrite go_copy_fits by (rewrite zlen_zdrop by lia; lia).
      rewrite app_assoc. apply ztake_app_exact. rewrite zlen_app, zlen_ztake by lia. lia. }
    destruct (Z.eqb_spec (pSrc + n) (zlen s)) as [Ee|Ee].
    + destruct (Z.gtb_spec (pDst + zlen c) (zlen dst')) as [Hy|Hy]; [discriminate|].
      injection E as <-. exists [ztake 128 (zdrop pSrc s)], [c].
      split; [apply blocks_end; lia|]. split; [repeat constructor; exact Ec|].
      rewrite Htake by exact Hy. cbn. rewrite app_nil_r. reflexivity.
    + assert (n = 128) as En by lia. rewrite En in *.
      destruct (IH dst' _ (pDst + zlen c) (pSrc + 128) r Hl' ltac:(lia) ltac:(lia) E)
        as (bs & outs & Hb & Ho & ->).
      assert (pDst + zlen c <= zlen dst') as Hy.
      { destruct fuel as [|fuel]; [discriminate|]. cbn [string_loop2] in E.
        destruct (Z.gtb_spec (pDst + zlen c) (zlen dst')) as [Hy|Hy]; [discriminate|exact Hy]. }
      exists (ztake 128 (zdrop pSrc s) :: bs), (c :: outs).
      split; [apply blocks_step; [lia|lia|exact Hb]|].
      split; [constructor; [exact Ec|exact Ho]|].
      rewrite Htake by exact Hy. cbn [concat]. rewrite app_assoc. reflexivity.
  - destruct (conv_err _ _ (block_bytes s _ Hs) Ec) as [H1 H2]. cbn [bind] in E.
    destruct e; try congruence; cbn [is_short_dst is_short_src is_none negb orb] in E;
      (destruct (pDst + 0 >? _); discriminate).
Qed.

Lemma loop1_sound s : Forall is_byte s -> forall fuel dst src p res,
  zlen dst = 128 -> zlen src = 128 -> 0 <= p < zlen s -> string_loop1 T fuel s dst src p = Ok res ->
  match res with
  | inl (r, None) => r = s /\ exists bs, in_blocks 128 (zdrop p s) bs /\ Forall (fun b => conv b = inl b) bs
  | inl (_, Some _) => True
  | inr st => exists done c,
      p <= l_prefix st < zlen s /\ 0 <= l_nSrc st /\
      let blk := ztake 128 (zdrop (l_prefix st) s) in
      (forall rest, in_blocks 128 (zdrop (l_prefix st) s) rest -> in_blocks 128 (zdrop p s) (done ++ rest)) /\
      concat done = zdrop p (ztake (l_prefix st) s) /\ Forall (fun b => conv b = inl b) done /\
      conv blk = inl c /\ zlen c <= 128 /\ ztake (zlen c) (l_dst st) = c /\
      l_nDst st = zlen c /\ l_nSrc st = zlen blk /\ l_pDst st = l_prefix st + zlen c /\
      l_pSrc st = l_prefix st + zlen blk /\ l_err st = None /\ zlen (l_dst st) = 128 /\ zlen (l_src st) = 128
  end.
Proof.
  intros Hs. induction fuel as [|fuel IH]; intros dst src p res Hld Hls Hp E; [discriminate|].
  cbn [string_loop1] in E.
  destruct (copy_block s p src Hls ltac:(lia)) as (Eb & Hbl & Hn & Hl').
  set (n := Z.min (zlen src) (zlen (zdrop p s))) in *.
  rewrite Eb, T_conv in E by (apply block_bytes; exact Hs).
  destruct (conv (ztake 128 (zdrop p s))) as [c|e] eqn:Ec.
  - cbn [bind] in E. rewrite Hbl in E.
    destruct (Z.gtb_spec (zlen c) (zlen (go_copy dst c))) as [Hx|Hx]; [discriminate|].
    rewrite go_copy_len in Hx.
    destruct (Z.gtb_spec n (zlen (go_copy src (zdrop p s)))) as [Hy|Hy]; [discriminate|].
    cbn [orb] in E. rewrite Eb in E.
    assert (ztake (zlen c) (go_copy dst c) = c) as Hc
      by (rewrite go_copy_take; apply ztake_all; lia).
    rewrite Hc in E.
    destruct (bytes_eqb c (ztake 128 (zdrop p s))) eqn:Eq; cbn [negb] in E.
    + apply bytes_eqb_iff in Eq. subst c. cbn [is_short_dst is_short_src is_none negb orb] in E.
      destruct (Z.eqb_spec (p + n) (zlen s)) as [Ee|Ee].
      * injection E as <-. split; [apply ztake_all; lia|].
        exists [ztake 128 (zdrop p s)]. split; [apply blocks_end; lia|]. repeat constructor. exact Ec.
      * assert (n = 128) as En by lia. rewrite En in E.
        specialize (IH (go_copy dst (ztake 128 (zdrop p s))) _ (p + 128) res ltac:(rewrite go_copy_len; exact Hld) Hl' ltac:(lia) E).
        destruct res as [[r [e|]]|st].
        -- exact I.
        -- destruct IH as (-> & bs & Hb & Hf). split; [reflexivity|].
           exists (ztake 128 (zdrop p s) :: bs). split; [apply blocks_step; [lia|lia|exact Hb]|].
           constructor; assumption.
        -- destruct IH as (done & c & H1 & H2 & H3 & H4 & H5 & H6).
           exists (ztake 128 (zdrop p s) :: done), c. split; [lia|]. split; [exact H2|].
           split; [|split; [|split; [constructor; [exact Ec|exact H5]|exact H6]]].
           ++ intros rest Hr. cbn [app]. apply blocks_step; [lia|lia|]. apply H3. exact Hr.
           ++ cbn [concat]. rewrite H4.
              assert (zdrop p (ztake (l_prefix st) s) =
                      ztake 128 (zdrop p (ztake (l_prefix st) s)) ++ zdrop (p + 128) (ztake (l_prefix st) s)) as ->.
              { rewrite <- (ztake_zdrop 128 (zdrop p (ztake (l_prefix st) s))) at 1.
                rewrite zdrop_zdrop by lia. f_equal. f_equal. lia. }
              f_equal. rewrite <- (ztake_zdrop (l_prefix st) s) at 1.
              rewrite zdrop_app_l by (rewrite zlen_ztake by lia; lia).
              apply ztake_app_l. rewrite zlen_zdrop, zlen_ztake by lia. lia.
    + injection E as <-. cbn [l_prefix l_nSrc l_nDst l_pDst l_pSrc l_err l_dst l_src].
      exists [], c. cbn zeta. rewrite Hbl, go_copy_len.
      split; [lia|]. split; [lia|]. split; [intros rest Hr; exact Hr|].
      split; [cbn [concat]; symmetry; apply zdrop_all; rewrite zlen_ztake by lia; lia|].
      split; [constructor|]. split; [exact Ec|]. split; [lia|]. split; [exact Hc|].
      repeat (split; [reflexivity|]). split; assumption.
  - destruct (conv_err _ _ (block_bytes s _ Hs) Ec) as [H1 H2]. cbn [bind] in E.
    destruct (_ || _); [discriminate|].
    rewrite !ztake_0 in E. cbn [bytes_eqb] in E.
    destruct (bytes_eqb [] []) eqn:Eq; [|rewrite <- Eq in *; exfalso; assert (@nil Z = []) as X by reflexivity; apply bytes_eqb_iff in X; congruence].
    cbn [negb] in E.
    destruct e; try congruence; cbn [is_short_dst is_short_src is_none negb orb] in E; injection E as <-; exact I.
Qed.

Lemma string_sound fuel s t : Forall is_byte s -> String T fuel s = Ok (inl t) ->
  exists bs outs, in_blocks 128 s bs /\ Forall2 (fun b o => conv b = inl o) bs outs /\ t = concat outs.
Proof.
  intros Hs E. unfold String, string_transform in E.
  destruct s as [|x s'].
  { rewrite T_conv, conv_nil in E by constructor. cbn in E. injection E as <-.
    exists [], []. split; [constructor|]. split; [constructor|reflexivity]. }
  set (s := x :: s') in *.
  assert (0 < zlen s) as Hlen by (subst s; rewrite zlen_cons; pose proof (zlen_nonneg s'); lia).
  cbn [bind] in E.
  destruct (string_loop1 T fuel s (zeros initialBufSize) (zeros initialBufSize) 0) as [res| |] eqn:E1;
    try discriminate. cbn [bind] in E.
  apply (loop1_sound s Hs) in E1; [|apply zlen_zeros; unfold initialBufSize; lia..|lia].
  destruct res as [[r [e|]]|st].
  - discriminate.
  - cbn [bind] in E. injection E as <-. destruct E1 as (-> & bs & Hb & Hf).
    exists bs, bs. split; [exact Hb|]. split.
    + clear -Hf. induction Hf; constructor; assumption.
    + clear -Hb. rewrite zdrop_0 in Hb. induction Hb; cbn [concat]; [reflexivity|rewrite app_nil_r; reflexivity|congruence].
  - destruct E1 as (done & c & Hpre & Hns & H). destruct st as [dst src nDst nSrc pPrefix pDst pSrc err].
    cbn [l_prefix l_nSrc l_nDst l_pDst l_pSrc l_err l_dst l_src] in *. cbn zeta in H.
    destruct H as (Hblocks & Hdone & Hfd & Hconv & Hcl & Hct & -> & EnS & -> & EpS & -> & Hld & Hls).
    rewrite zdrop_0 in Hdone, Hblocks.
    set (blk := ztake 128 (zdrop pPrefix s)) in *.
    assert (zlen blk = Z.min 128 (zlen s - pPrefix)) as Hbl
      by (subst blk; rewrite zlen_ztake, zlen_zdrop by lia; lia).
    pose proof (zlen_nonneg c) as Hc0.
    (* the destination after the copies *)
    assert (exists dst', (if pPrefix =? 0 then Ok dst
       else let newDst := if pPrefix + zlen c >? zlen dst then zeros (zlen s + zlen c - nSrc) else dst in
         if pPrefix + zlen c >? zlen newDst then Panic else
         Ok (zwrite (zwrite newDst pPrefix (ztake (pPrefix + zlen c - pPrefix) (ztake (zlen c) dst)))
                    0 (ztake pPrefix s))) = Ok dst' /\
       pPrefix + zlen c <= zlen dst' /\ ztake (pPrefix + zlen c) dst' = ztake pPrefix s ++ c) as (dst' & Ed & Hlen' & Htake).
    { destruct (Z.eqb_spec pPrefix 0) as [->|Hn0].
      - exists dst. split; [reflexivity|]. split; [lia|]. rewrite ztake_0. exact Hct.
      - cbn zeta.
        set (newDst := if pPrefix + zlen c >? zlen dst then zeros (zlen s + zlen c - nSrc) else dst).
        assert (pPrefix + zlen c <= zlen newDst) as Hnew.
        { subst newDst. destruct (Z.gtb_spec (pPrefix + zlen c) (zlen dst)); [|lia].
          rewrite zlen_zeros by lia. lia. }
        destruct (Z.gtb_spec (pPrefix + zlen c) (zlen newDst)) as [Hx|_]; [lia|].
        eexists. split; [reflexivity|].
        replace (pPrefix + zlen c - pPrefix) with (zlen c) by lia.
        rewrite Hct. rewrite (ztake_all (zlen c) c) by lia.
        assert (zlen (zwrite newDst pPrefix c) = zlen newDst) as Hw by (apply zlen_zwrite; lia).
        assert (zlen (ztake pPrefix s) = pPrefix) as Hpl by (rewrite zlen_ztake by lia; lia).
        split; [rewrite zlen_zwrite by lia; lia|].
        unfold zwrite at 1. rewrite ztake_0. cbn [app].
        rewrite ztake_app_r by lia. f_equal. rewrite Hpl.
        replace (pPrefix + zlen c - pPrefix) with (zlen c) by lia.
        replace (0 + pPrefix) with pPrefix by lia.
        unfold zwrite. rewrite zdrop_app_exact by (rewrite zlen_ztake by lia; lia).
        apply ztake_app_exact. reflexivity. }
    cbn zeta in Ed, E. rewrite Ed in E. cbn [bind is_none negb andb orb] in E.
    rewrite EpS in E. rewrite orb_false_r in E.
    assert (concat done = ztake pPrefix s) as Hdone' by exact Hdone.
    assert (exists outs, Forall2 (fun b o => conv b = inl o) done outs /\ concat outs = concat done) as (outs & Ho & Hco).
    { exists done. split; [|reflexivity]. clear -Hfd. induction Hfd; constructor; assumption. }
    destruct (Z.eqb_spec (pPrefix + zlen blk) (zlen s)) as [Ee|Ee].
    + destruct (Z.gtb_spec (pPrefix + zlen c) (zlen dst')) as [Hx|_]; [lia|].
      cbn [bind] in E. injection E as <-.
      exists (done ++ [blk]), (outs ++ [c]). split; [apply Hblocks; apply blocks_end; lia|].
      split; [apply Forall2_app; [exact Ho|repeat constructor; exact Hconv]|].
      rewrite concat_app, Hco, Hdone'. cbn. rewrite app_nil_r. exact Htake.
    + destruct (string_loop2 T fuel s dst' src (pPrefix + zlen c) (pPrefix + zlen blk)) as [[r err]| |] eqn:E2;
        try discriminate. cbn [bind] in E. destruct err; [discriminate|]. injection E as <-.
      assert (zlen blk = 128) as Eb by lia. rewrite Eb in *.
      destruct (loop2_sound s Hs fuel dst' src (pPrefix + zlen c) (pPrefix + 128) r Hls ltac:(lia) ltac:(lia) E2) as (bs & outs2 & Hb & Ho2 & ->).
      exists (done ++ blk :: bs), (outs ++ c :: outs2).
      split; [apply Hblocks; apply blocks_step; [lia|lia|exact Hb]|].
      split; [apply Forall2_app; [exact Ho|constructor; [exact Hconv|exact Ho2]]|].
      rewrite concat_app, Hco, Hdone'. cbn [concat]. rewrite Htake, <- app_assoc. reflexivity.
Qed.

(** One block. *)
Lemma string_short fuel s : Forall is_byte s -> zlen s <= 128 ->
  (forall e, conv s = inr e -> String T (S fuel) s = Ok (inr e)) /\
  (forall c, conv s = inl c -> zlen c <= 128 -> String T (S fuel) s = Ok (inl c)) /\
  (forall c, conv s = inl c -> 128 < zlen c -> String T (S fuel) s = Panic).
Proof.
  intros Hs Hl. unfold String, string_transform.
  destruct s as [|x s'].
  { rewrite T_conv, conv_nil by constructor. cbn [bind is_none]. split; [discriminate|].
    split; [intros c E; injection E as <-; reflexivity|intros c E; injection E as <-; cbn; lia]. }
  set (s := x :: s') in *.
  assert (0 < zlen s) as Hlen by (subst s; rewrite zlen_cons; pose proof (zlen_nonneg s'); lia).
  cbn [bind]. cbn [string_loop1].
  assert (zlen (zeros initialBufSize) = 128) as Hz by reflexivity.
  destruct (copy_block s 0 (zeros initialBufSize) Hz ltac:(lia)) as (Eb & Hbl & Hn & Hl').
  rewrite zdrop_0 in *. rewrite (ztake_all 128 s) in Eb, Hbl by lia.
  rewrite <- Hbl in Eb |- *. rewrite Eb, T_conv by exact Hs.
  split; [|split].
  - intros e Ec. rewrite Ec. cbn [bind]. destruct (conv_err _ _ Hs Ec) as [H1 H2].
    rewrite Hz, Hl'. change ((0 >? 128) || (0 >? 128)) with false. cbv iota. rewrite !ztake_0.
    change (bytes_eqb [] []) with true. cbn [negb].
    destruct e; try congruence; reflexivity.
  - intros c Ec Hc. rewrite Ec. cbn [bind]. rewrite go_copy_len, Hz, Hl'.
    pose proof (zlen_nonneg c) as Hc0.
    destruct (Z.gtb_spec (zlen c) 128) as [Hx|_]; [lia|].
    destruct (Z.gtb_spec (zlen s) 128) as [Hx|_]; [lia|]. cbn [orb].
    rewrite Eb. rewrite go_copy_take, Hz, (ztake_all 128 c) by lia.
    change (0 + zlen s) with (zlen s). change (0 + zlen c) with (zlen c).
    destruct (bytes_eqb c s) eqn:Eq; cbn [negb is_short_dst is_short_src is_none orb bind].
    + apply bytes_eqb_iff in Eq. rewrite Eq. rewrite Z.eqb_refl. cbn [bind].
      rewrite ztake_all by lia. reflexivity.
    + change (0 =? 0) with true. cbv iota. cbn [bind andb orb]. rewrite Z.eqb_refl. cbn [orb].
      rewrite go_copy_len, Hz. destruct (Z.gtb_spec (zlen c) 128) as [Hx|_]; [lia|]. cbn [bind].
      rewrite go_copy_take, Hz, ztake_all by lia. reflexivity.
  - intros c Ec Hc. rewrite Ec. cbn [bind]. rewrite go_copy_len, Hz.
    destruct (Z.gtb_spec (zlen c) 128) as [_|Hx]; [|lia]. reflexivity.
Qed.

(** Input that is not changed. *)
Lemma loop1_same s : Forall is_byte s ->
  (forall p, 0 <= p -> conv (ztake 128 (zdrop p s)) = inl (ztake 128 (zdrop p s))) ->
  forall fuel dst src p, zlen dst = 128 -> zlen src = 128 -> 0 <= p < zlen s -> zlen s - p <= Z.of_nat fuel ->
  string_loop1 T fuel s dst src p = Ok (inl (s, None)).
Proof.
  intros Hs Hsame. induction fuel as [|fuel IH]; intros dst src p Hld Hls Hp Hf; [lia|].
  cbn [string_loop1].
  destruct (copy_block s p src Hls ltac:(lia)) as (Eb & Hbl & Hn & Hl').
  set (n := Z.min (zlen src) (zlen (zdrop p s))) in *.
  rewrite Eb, T_conv by (apply block_bytes; exact Hs).
  rewrite Hsame by lia. cbn [bind]. rewrite go_copy_len, Hl', Hbl.
  destruct (Z.gtb_spec n (zlen dst)) as [Hx|_]; [lia|]. destruct (Z.gtb_spec n 128) as [Hx|_]; [lia|]. cbn [orb].
  rewrite Eb. rewrite <- Hbl at 1. rewrite go_copy_take, Hld. rewrite (ztake_all 128 (ztake 128 _)) by lia.
  replace (bytes_eqb _ _) with true by (symmetry; apply bytes_eqb_iff; reflexivity).
  cbn [negb is_short_dst is_short_src is_none orb].
  destruct (Z.eqb_spec (p + n) (zlen s)) as [Ee|Ee].
  - rewrite Ee, ztake_all by lia. reflexivity.
  - apply IH; [rewrite go_copy_len; exact Hld|exact Hl'|lia|lia].
Qed.
Lemma string_same s fuel : Forall is_byte s ->
  (forall p, 0 <= p -> conv (ztake 128 (zdrop p s)) = inl (ztake 128 (zdrop p s))) ->
  zlen s <= Z.of_nat fuel -> String T fuel s = Ok (inl s).
Proof.
  intros Hs Hsame Hf. unfold String, string_transform. destruct s as [|x s'].
  { rewrite T_conv, conv_nil by constructor. reflexivity. }
  set (s := x :: s') in *.
  assert (0 < zlen s) as Hlen by (subst s; rewrite zlen_cons; pose proof (zlen_nonneg s'); lia).
  cbn [bind]. rewrite (loop1_same s Hs Hsame) by (try reflexivity; lia). reflexivity.
Qed.

(** It always ends. *)
Lemma loop2_ends s : Forall is_byte s -> forall fuel dst src pDst pSrc,
  zlen src = 128 -> 0 <= pSrc < zlen s -> zlen s - pSrc <= Z.of_nat fuel ->
  string_loop2 T fuel s dst src pDst pSrc <> Fuel.
Proof.
  intros Hs. induction fuel as [|fuel IH]; intros dst src pDst pSrc Hl Hp Hf; [lia|].
  cbn [string_loop2].
  destruct (copy_block s pSrc src Hl ltac:(lia)) as (Eb & Hbl & Hn & Hl').
  set (n := Z.min (zlen src) (zlen (zdrop pSrc s))) in *.
  destruct (pDst >? zlen dst); [discriminate|].
  rewrite Eb, T_conv by (apply block_bytes; exact Hs).
  destruct (conv (ztake 128 (zdrop pSrc s))) as [c|e] eqn:Ec.
  - cbn [bind is_short_dst is_short_src is_none negb orb]. rewrite Hbl.
    destruct (Z.eqb_spec (pSrc + n) (zlen s)) as [Ee|Ee].
    + destruct (_ >? _); discriminate.
    + apply IH; [exact Hl'|lia|lia].
  - destruct (conv_err _ _ (block_bytes s _ Hs) Ec) as [H1 H2]. cbn [bind].
    destruct e; try congruence; cbn [is_short_dst is_short_src is_none negb orb];
      (destruct (pDst + 0 >? _); discriminate).
Qed.
Lemma loop1_ends s : Forall is_byte s -> forall fuel dst src p,
  zlen src = 128 -> 0 <= p < zlen s -> zlen s - p <= Z.of_nat fuel ->
  string_loop1 T fuel s dst src p <> Fuel.
Proof.
  intros Hs. induction fuel as [|fuel IH]; intros dst src p Hl Hp Hf; [lia|].
  cbn [string_loop1].
  destruct (copy_block s p src Hl ltac:(lia)) as (Eb & Hbl & Hn & Hl').
  set (n := Z.min (zlen src) (zlen (zdrop p s))) in *.
  rewrite Eb, T_conv by (apply block_bytes; exact Hs).
  destruct (conv (ztake 128 (zdrop p s))) as [c|e] eqn:Ec.
  - cbn [bind]. destruct (_ || _); [discriminate|]. destruct (negb _); [discriminate|].
    cbn [is_short_dst is_short_src is_none negb orb]. rewrite Hbl.
    destruct (Z.eqb_spec (p + n) (zlen s)) as [Ee|Ee]; [discriminate|].
    apply IH; [exact Hl'|lia|lia].
  - destruct (conv_err _ _ (block_bytes s _ Hs) Ec) as [H1 H2]. cbn [bind].
    destruct (_ || _); [discriminate|]. destruct (negb _); [discriminate|].
    destruct e; try congruence; cbn [is_short_dst is_short_src is_none negb orb]; discriminate.
Qed.
Lemma string_ends s fuel : Forall is_byte s -> zlen s <= Z.of_nat fuel -> String T fuel s <> Fuel.
Proof.
  intros Hs Hf. unfold String, string_transform. destruct s as [|x s'].
  { rewrite T_conv, conv_nil by constructor. discriminate. }
  set (s := x :: s') in *.
  assert (0 < zlen s) as Hlen by (subst s; rewrite zlen_cons; pose proof (zlen_nonneg s'); lia).
  cbn [bind].
  pose proof (loop1_ends s Hs fuel (zeros initialBufSize) (zeros initialBufSize) 0 eq_refl ltac:(lia) ltac:(lia)) as H1.
  destruct (string_loop1 T fuel s (zeros initialBufSize) (zeros initialBufSize) 0) as [res| |] eqn:E1;
    [|discriminate|congruence]. cbn [bind].
  apply (loop1_sound s Hs) in E1; [|reflexivity|reflexivity|lia].
  destruct res as [[r [e|]]|st]; [discriminate|discriminate|].
  destruct st as [dst src nDst nSrc pPrefix pDst pSrc err].
  destruct E1 as (done & c & Hpre & Hns & H).
  cbn [l_prefix l_nSrc l_nDst l_pDst l_pSrc l_err l_dst l_src] in *. cbn zeta in H.
  destruct H as (_ & _ & _ & _ & _ & _ & _ & _ & _ & EpS & -> & _ & Hls).
  rewrite zlen_ztake, zlen_zdrop in EpS by lia.
  match goal with |- bind (bind ?m _) _ <> _ => destruct m as [dst'| |] eqn:Em end.
  - cbn [bind is_none negb andb orb]. rewrite orb_false_r.
    destruct (Z.eqb_spec pSrc (zlen s)) as [Ee|Ee].
    + match goal with |- context [if ?b then Panic else _] => destruct b; cbn; discriminate end.
    + pose proof (loop2_ends s Hs fuel dst' src pDst pSrc Hls ltac:(lia) ltac:(lia)) as H2.
      destruct (string_loop2 T fuel s dst' src pDst pSrc) as [[r [e|]]| |]; [discriminate..|congruence].
  - discriminate.
  - exfalso. revert Em. cbn zeta.
    destruct (pPrefix =? 0); [discriminate|].
    match goal with |- context [if ?b then Panic else _] => destruct b; discriminate end.
Qed.
(** The destination of 128 bytes never grows once the first block was changed. *)
Lemma loop2_cap s : Forall is_byte s -> forall fuel dst src pDst pSrc r e,
  zlen src = 128 -> 0 <= pSrc < zlen s -> 0 <= pDst ->
  string_loop2 T fuel s dst src pDst pSrc = Ok (r, e) -> zlen r <= zlen dst.
Proof.
  intros Hs. induction fuel as [|fuel IH]; intros dst src pDst pSrc r e Hl Hp Hd E; [discriminate|].
  cbn [string_loop2] in E.
  destruct (copy_block s pSrc src Hl ltac:(lia)) as (Eb & Hbl & Hn & Hl').
  set (n := Z.min (zlen src) (zlen (zdrop pSrc s))) in *.
  destruct (Z.gtb_spec pDst (zlen dst)) as [Hx|Hx]; [discriminate|].
  rewrite Eb, T_conv in E by (apply block_bytes; exact Hs).
  assert (forall c, zlen (ztake pDst dst ++ go_copy (zdrop pDst dst) c) = zlen dst) as Hld.
  { intros c. rewrite zlen_app, go_copy_len, zlen_ztake, zlen_zdrop by lia. lia. }
  destruct (conv (ztake 128 (zdrop pSrc s))) as [c|e'] eqn:Ec.
  - cbn [bind is_short_dst is_short_src is_none negb orb] in E. rewrite Hbl in E.
    pose proof (zlen_nonneg c) as Hc. rewrite <- (Hld c).
    destruct (Z.eqb_spec (pSrc + n) (zlen s)) as [Ee|Ee].
    + destruct (Z.gtb_spec (pDst + zlen c) (zlen (ztake pDst dst ++ go_copy (zdrop pDst dst) c))) as [Hy|Hy];
        [discriminate|].
      injection E as <- <-. rewrite zlen_ztake by lia. lia.
    + apply (IH _ _ _ _ _ _ Hl') in E; [exact E|lia|lia].
  - destruct (conv_err _ _ (block_bytes s _ Hs) Ec) as [H1 H2]. cbn [bind] in E.
    assert (zlen (ztake pDst dst ++ zdrop pDst dst) = zlen dst) as Hld' by (rewrite ztake_zdrop; reflexivity).
    destruct e'; try congruence; cbn [is_short_dst is_short_src is_none negb orb] in E;
      (destruct (Z.gtb_spec (pDst + 0) (zlen (ztake pDst dst ++ zdrop pDst dst))) as [Hy|Hy]; [discriminate|];
       injection E as <- <-; rewrite zlen_ztake by lia; lia).
Qed.
Lemma string_cap fuel s c t : Forall is_byte s -> conv (ztake 128 s) = inl c -> c <> ztake 128 s ->
  String T fuel s = Ok (inl t) -> zlen t <= 128.
Proof.
  intros Hs Ec Hne E. destruct s as [|x s'].
  { exfalso. change (ztake 128 []) with (@nil Z) in *. rewrite conv_nil in Ec. injection Ec as <-. apply Hne. reflexivity. }
  unfold String, string_transform in E. set (s := x :: s') in *.
  assert (0 < zlen s) as Hlen by (subst s; rewrite zlen_cons; pose proof (zlen_nonneg s'); lia).
  cbn [bind] in E. destruct fuel as [|fuel]; [discriminate|]. cbn [string_loop1] in E.
  assert (zlen (zeros initialBufSize) = 128) as Hz by reflexivity.
  destruct (copy_block s 0 (zeros initialBufSize) Hz ltac:(lia)) as (Eb & Hbl & Hn & Hl').
  rewrite zdrop_0 in *. set (n := Z.min (zlen (zeros initialBufSize)) (zlen s)) in *.
  rewrite Eb, T_conv, Ec in E by (apply Forall_ztake; exact Hs). cbn [bind] in E.
  rewrite Hbl, go_copy_len, Hz in E.
  destruct (Z.gtb_spec (zlen c) 128) as [Hx|Hx]; [discriminate|].
  destruct (n >? _); [discriminate|]. cbn [orb] in E.
  rewrite Eb in E. rewrite go_copy_take, Hz, (ztake_all 128 c) in E by lia.
  destruct (bytes_eqb c (ztake 128 s)) eqn:Eq; [apply bytes_eqb_iff in Eq; contradiction|].
  cbn [negb bind] in E. change (0 =? 0) with true in E. cbv iota in E.
  change (0 + zlen c) with (zlen c) in E. change (0 + n) with n in E.
  cbn [bind is_none negb andb orb] in E. rewrite orb_false_r in E. pose proof (zlen_nonneg c) as Hc.
  destruct (Z.eqb_spec n (zlen s)) as [Ee|Ee].
  - rewrite go_copy_len, Hz in E. destruct (Z.gtb_spec (zlen c) 128) as [Hy|_]; [lia|]. cbn [bind] in E.
    injection E as <-. rewrite zlen_ztake by lia. rewrite go_copy_len, Hz. lia.
  - match type of E with bind ?m _ = _ => destruct m as [[r [e|]]| |] eqn:E2 end; try discriminate.
    cbn [bind] in E. injection E as <-.
    apply (loop2_cap s Hs) in E2; [|exact Hl'|lia|lia]. rewrite go_copy_len, Hz in E2. exact E2.
Qed.
End Conv.

(** ** Decoder.String and Encoder.String *)
Definition conv_of (f : list Z -> res (list Z + error)) (s : list Z) : list Z + error :=
  match f s with Ok r => r | _ => inr EOF end.

Section Grow.
Variable grow : Z -> Z -> Z.

Lemma From_total s : Forall is_byte s -> From grow s = Ok (conv_of (From grow) s).
Proof.
  intros Hs. unfold conv_of. destruct (decodes_or_cut s Hs) as [(rs & H)|(a & H)].
  - rewrite (From_decodes grow s rs H). reflexivity.
  - rewrite (From_cut grow s a H). reflexivity.
Qed.
Lemma To_total s : Forall is_byte s -> To grow s = Ok (conv_of (To grow) s).
Proof. intros Hs. unfold conv_of. rewrite (To_runes grow s Hs). reflexivity. Qed.
Lemma dec_conv dst src eof : Forall is_byte src ->
  dec_Transform grow dst src eof = match conv_of (From grow) src with
    | inr e => Ok (dst, 0, 0, Some e)
    | inl c => Ok (go_copy dst c, zlen c, zlen src, None) end.
Proof. intros Hs. unfold dec_Transform. rewrite (From_total src Hs). reflexivity. Qed.
Lemma enc_conv dst src eof : Forall is_byte src ->
  enc_Transform grow dst src eof = match conv_of (To grow) src with
    | inr e => Ok (dst, 0, 0, Some e)
    | inl c => Ok (go_copy dst c, zlen c, zlen src, None) end.
Proof. intros Hs. unfold enc_Transform. rewrite (To_total src Hs). reflexivity. Qed.
Lemma dec_err s e : Forall is_byte s -> conv_of (From grow) s = inr e -> e <> ErrShortDst /\ e <> ErrShortSrc.
Proof.
  intros Hs. unfold conv_of. destruct (decodes_or_cut s Hs) as [(rs & H)|(a & H)].
  - rewrite (From_decodes grow s rs H). discriminate.
  - rewrite (From_cut grow s a H). intros E. injection E as <-. split; discriminate.
Qed.
Lemma enc_err s e : Forall is_byte s -> conv_of (To grow) s = inr e -> e <> ErrShortDst /\ e <> ErrShortSrc.
Proof. intros Hs. unfold conv_of. rewrite (To_runes grow s Hs). discriminate. Qed.
Lemma dec_nil_conv : conv_of (From grow) [] = inl [].
Proof. unfold conv_of. rewrite (From_decodes grow [] [] dec_nil). reflexivity. Qed.
Lemma enc_nil_conv : conv_of (To grow) [] = inl [].
Proof. unfold conv_of. rewrite (To_runes grow []) by constructor. reflexivity. Qed.

Lemma conv_of_ok f s o : conv_of f s = inl o -> f s = Ok (inl o).
Proof. unfold conv_of. destruct (f s) as [r| |]; [congruence|discriminate..]. Qed.

(** *** Success means the right answer (decoder), or the blockwise one (encoder) *)
Lemma C78_dec_sound_lemma fuel s t : Forall is_byte s -> String (dec_Transform grow) fuel s = Ok (inl t) ->
  From grow s = Ok (inl t).
Proof.
  intros Hs E.
  destruct (string_sound _ _ dec_conv dec_nil_conv dec_err fuel s t Hs E) as (bs & outs & Hb & Ho & ->).
  assert (Forall (Forall is_byte) bs /\ s = concat bs) as [Hbb ->].
  { clear - Hb Hs. induction Hb as [|b Hn Hl|b s bs Hl Hn Hb IH].
    - split; [constructor|reflexivity].
    - split; [repeat constructor; exact Hs|cbn; rewrite app_nil_r; reflexivity].
    - apply Forall_app in Hs. destruct (IH (proj2 Hs)) as [H1 H2]. split; [constructor; [apply Hs|exact H1]|].
      cbn [concat]. rewrite <- H2. reflexivity. }
  clear - Ho Hbb.
  assert (exists rs, decodes (concat bs) rs /\ concat outs = utf8 rs) as (rs & Hd & ->);
    [|apply From_decodes; exact Hd].
  induction Ho as [|b o bs outs Hbo Ho IH]; [exists []; split; [constructor|reflexivity]|].
  apply Forall_cons_iff in Hbb. destruct (IH (proj2 Hbb)) as (rs & Hd & E).
  apply conv_of_ok in Hbo. destruct (From_ok_inv grow b o (proj1 Hbb) Hbo) as (rb & Hdb & ->).
  exists (rb ++ rs). cbn [concat]. split; [apply decodes_app; assumption|]. rewrite utf8_app, E. reflexivity.
Qed.
Lemma C78_enc_sound_lemma fuel s t : Forall is_byte s -> String (enc_Transform grow) fuel s = Ok (inl t) ->
  exists bs outs, in_blocks 128 s bs /\ Forall2 (fun b o => To grow b = Ok (inl o)) bs outs /\ t = concat outs.
Proof.
  intros Hs E.
  destruct (string_sound _ _ enc_conv enc_nil_conv enc_err fuel s t Hs E) as (bs & outs & Hb & Ho & ->).
  exists bs, outs. split; [exact Hb|]. split; [|reflexivity].
  clear - Ho. induction Ho; constructor; [apply conv_of_ok; assumption|assumption].
Qed.

(** *** At most 128 bytes *)
Lemma C78_dec_short_lemma fuel s : Forall is_byte s -> zlen s <= 128 ->
  (forall e, From grow s = Ok (inr e) -> String (dec_Transform grow) (S fuel) s = Ok (inr e)) /\
  (forall c, From grow s = Ok (inl c) -> zlen c <= 128 -> String (dec_Transform grow) (S fuel) s = Ok (inl c)) /\
  (forall c, From grow s = Ok (inl c) -> 128 < zlen c -> String (dec_Transform grow) (S fuel) s = Panic).
Proof.
  intros Hs Hl.
  destruct (string_short _ _ dec_conv dec_nil_conv dec_err fuel s Hs Hl) as (H1 & H2 & H3).
  split; [|split]; intros x E; [apply H1|apply H2|apply H3]; unfold conv_of; rewrite E; reflexivity.
Qed.
Lemma C78_enc_short_lemma fuel s : Forall is_byte s -> zlen s <= 128 ->
  exists c, To grow s = Ok (inl c) /\
  (zlen c <= 128 -> String (enc_Transform grow) (S fuel) s = Ok (inl c)) /\
  (128 < zlen c -> String (enc_Transform grow) (S fuel) s = Panic) /\
  (valid_utf8 s -> zlen c <= 128).
Proof.
  intros Hs Hl. destruct (C41_To_lemma grow s Hs) as (c & E & _ & Hv). exists c. split; [exact E|].
  destruct (string_short _ _ enc_conv enc_nil_conv enc_err fuel s Hs Hl) as (_ & H2 & H3).
  assert (conv_of (To grow) s = inl c) as Ec by (unfold conv_of; rewrite E; reflexivity).
  split; [intros Hc; apply H2; assumption|]. split; [intros Hc; apply (H3 c); assumption|].
  intros H. specialize (Hv H). lia.
Qed.

(** *** ASCII of any length *)
Lemma C78_ascii_lemma fuel s : Forall (fun b => 0 <= b < 0x80) s -> zlen s <= Z.of_nat fuel ->
  String (dec_Transform grow) fuel s = Ok (inl s) /\ String (enc_Transform grow) fuel s = Ok (inl s).
Proof.
  intros Ha Hf.
  assert (Forall is_byte s) as Hs.
  { eapply Forall_impl; [|exact Ha]. cbv beta. unfold is_byte. intros b. lia. }
  split.
  - apply (string_same _ _ dec_conv dec_nil_conv); [exact Hs| |exact Hf]. intros p _.
    unfold conv_of. destruct (C33_lemma grow (ztake 128 (zdrop p s))) as [E _];
      [apply Forall_ztake, Forall_zdrop, Ha|]. rewrite E. reflexivity.
  - apply (string_same _ _ enc_conv enc_nil_conv); [exact Hs| |exact Hf]. intros p _.
    unfold conv_of. destruct (C33_lemma grow (ztake 128 (zdrop p s))) as [_ E];
      [apply Forall_ztake, Forall_zdrop, Ha|]. rewrite E. reflexivity.
Qed.

(** *** It ends; and it cannot return more than 128 bytes once the first block changed *)
Lemma C78_ends_lemma fuel s : Forall is_byte s -> zlen s <= Z.of_nat fuel ->
  String (dec_Transform grow) fuel s <> Fuel /\ String (enc_Transform grow) fuel s <> Fuel.
Proof.
  intros Hs Hf. split.
  - apply (string_ends _ _ dec_conv dec_nil_conv dec_err); assumption.
  - apply (string_ends _ _ enc_conv enc_nil_conv enc_err); assumption.
Qed.
Lemma C78_dec_cap_lemma fuel s c t : Forall is_byte s -> From grow (ztake 128 s) = Ok (inl c) ->
  c <> ztake 128 s -> String (dec_Transform grow) fuel s = Ok (inl t) -> zlen t <= 128.
Proof.
  intros Hs E. apply (string_cap _ _ dec_conv dec_nil_conv dec_err); [exact Hs|].
  unfold conv_of. rewrite E. reflexivity.
Qed.
Lemma C78_enc_cap_lemma fuel s c t : Forall is_byte s -> To grow (ztake 128 s) = Ok (inl c) ->
  c <> ztake 128 s -> String (enc_Transform grow) fuel s = Ok (inl t) -> zlen t <= 128.
Proof.
  intros Hs E. apply (string_cap _ _ enc_conv enc_nil_conv enc_err); [exact Hs|].
  unfold conv_of. rewrite E. reflexivity.
Qed.
End Grow.

(** *** Witnesses *)
Lemma gas_bytes n : Forall is_byte (gas n).
Proof. apply (decodes_bytes _ _ (gas_decodes n)). Qed.
Lemma C78_refuted_lemma :
  (exists s text, decodes s text /\ forall fuel, String (dec_Transform wgrow) (S fuel) s = Panic) /\
  (exists s text, decodes s text /\
     forall fuel, String (dec_Transform wgrow) (S fuel) s = Ok (inr ErrCP949UnexpectedStream)) /\
  (exists text right wrong, encodes text right /\ wrong <> right /\
     forall fuel, String (enc_Transform wgrow) (S (S fuel)) (utf8 text) = Ok (inl wrong)).
Proof.
  split; [|split].
  - exists (gas 43), (repeat 0xAC00 43). split; [apply gas_decodes|]. intros fuel.
    destruct (C78_dec_short_lemma wgrow fuel (gas 43)) as (_ & _ & H);
      [apply gas_bytes|rewrite gas_len; lia|].
    apply (H (utf8 (repeat 0xAC00 43))); [apply From_decodes, gas_decodes|rewrite gas_utf8_len; lia].
  - exists (repeat 0x41 127 ++ gas 1), (repeat 0x41 127 ++ repeat 0xAC00 1). split.
    + apply decodes_app; [|apply gas_decodes].
      generalize 127%nat. intros n. induction n as [|n IH]; [constructor|]. cbn [repeat].
      apply dec_ascii; [lia|exact IH].
    + intros fuel. vm_compute. reflexivity.
  - exists (repeat 0xAC00 44), (gas 44), (gas 42 ++ repeat 0x3F 6 ++ gas 1).
    split; [|split].
    + generalize 44%nat. intros n. induction n as [|n IH]; [constructor|].
      change (encodes (0xAC00 :: repeat 0xAC00 n) (code_bytes 0xB0A1 ++ gas n)).
      apply enc_code; [apply assigned_by; vm_compute; reflexivity|exact IH].
    + vm_compute. discriminate.
    + intros fuel. vm_compute. reflexivity.
Qed.
