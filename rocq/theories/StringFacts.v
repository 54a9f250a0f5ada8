(** The exact outcome of the String methods: lemmas behind C78. *)
From Coq Require Import ZArith List Bool Lia.
From Coq Require Import ZifyBool.
From Verif Require Import Base Spec Facts Utf8 Utf8Facts SortSearch TableFrom TableTo SpecCp949 SpecText
  SpecIO PMapFacts Cp949Model TransformModel TransformModel2 SliceFacts TableFacts Cp949Facts Cp949Facts2
  TransformFacts TransformFacts3 TransformFacts4 SpecString.
Import ListNotations.
Local Open Scope Z_scope.
Local Open Scope go_scope.
Local Opaque fromTable toTable dec_tree enc_tree.

Lemma in_blocks_concat n s bs : in_blocks n s bs -> concat bs = s.
Proof. induction 1; cbn [concat]; [reflexivity|apply app_nil_r|congruence]. Qed.

Lemma in_blocks_inv s p bs : 0 <= p < zlen s -> in_blocks 128 (zdrop p s) bs ->
  exists rest, bs = ztake 128 (zdrop p s) :: rest /\
    (zlen s <= p + 128 -> rest = []) /\ (p + 128 < zlen s -> in_blocks 128 (zdrop (p + 128) s) rest).
Proof.
  intros Hp H. assert (zlen (zdrop p s) = zlen s - p) as Hz by (rewrite zlen_zdrop by lia; lia).
  remember (zdrop p s) as t eqn:Et. destruct H as [|b Hb Hl|b t bs Hl Ht H].
  - change (zlen []) with 0 in Hz. lia.
  - exists []. rewrite ztake_all by lia. split; [reflexivity|]. split; [reflexivity|lia].
  - exists bs. rewrite ztake_app_exact by (symmetry; exact Hl). split; [reflexivity|].
    assert (0 < zlen t) by (destruct t; [congruence|rewrite zlen_cons; pose proof (zlen_nonneg t); lia]).
    rewrite zlen_app in Hz. split; [lia|]. intros _.
    replace (zdrop (p + 128) s) with t; [exact H|].
    replace (p + 128) with (128 + p) by lia. rewrite <- zdrop_zdrop by lia. rewrite <- Et.
    symmetry. apply zdrop_app_exact. symmetry. exact Hl.
Qed.

Section Conv.
Variable T : list Z -> list Z -> bool -> res transform_result.
Variable conv : list Z -> list Z + error.
Variable f : list Z -> res (list Z + error).
Hypothesis T_conv : forall dst src eof, Forall is_byte src ->
  T dst src eof = match conv src with
                  | inr e => Ok (dst, 0, 0, Some e)
                  | inl c => Ok (go_copy dst c, zlen c, zlen src, None)
                  end.
Hypothesis f_conv : forall s, Forall is_byte s -> f s = Ok (conv s).
Hypothesis conv_nil : conv [] = inl [].
Hypothesis conv_err : forall s e, Forall is_byte s -> conv s = inr e -> e <> ErrShortDst /\ e <> ErrShortSrc.
Hypothesis conv_some : forall s, Forall is_byte s -> conv s = inl [] -> s = [].

Definition finish (r : res (list Z * option error)) : res (list Z + error) :=
  let! (r, err) := r in match err with Some e => Ok (inr e) | None => Ok (inl r) end.

Lemma loop2_exact s : Forall is_byte s -> forall fuel dst src pDst pSrc bs got,
  zlen src = 128 -> 0 <= pSrc < zlen s -> zlen s - pSrc <= Z.of_nat fuel ->
  in_blocks 128 (zdrop pSrc s) bs -> pDst = zlen got -> (pDst <= zlen dst -> ztake pDst dst = got) ->
  finish (string_loop2 T fuel s dst src pDst pSrc) = after_change f (zlen dst) got bs.
Proof.
  intros Hs. induction fuel as [|fuel IH]; intros dst src pDst pSrc bs got Hl Hp Hf Hb Ed Hd; [lia|].
  cbn [string_loop2].
  destruct (copy_block s pSrc src Hl ltac:(lia)) as (Eb & Hbl & Hn & Hl').
  set (n := Z.min (zlen src) (zlen (zdrop pSrc s))) in *.
  destruct (in_blocks_inv s pSrc bs Hp Hb) as (rest & -> & Hend & Hmore).
  cbn [after_change]. rewrite <- Ed.
  destruct (Z.gtb_spec pDst (zlen dst)) as [Hx|Hx].
  { destruct (Z.ltb_spec (zlen dst) pDst) as [_|Hy]; [reflexivity|lia]. }
  destruct (Z.ltb_spec (zlen dst) pDst) as [Hy|_]; [lia|].
  pose proof (block_bytes s pSrc Hs) as Hbb.
  rewrite Eb, T_conv, f_conv by exact Hbb. cbn [bind].
  assert (0 <= pDst) as Hp0 by (rewrite Ed; apply zlen_nonneg).
  destruct (conv (ztake 128 (zdrop pSrc s))) as [c|e] eqn:Ec.
  - cbn [bind is_short_dst is_short_src is_none negb orb]. rewrite Hbl.
    set (dst' := ztake pDst dst ++ go_copy (zdrop pDst dst) c) in *.
    assert (zlen dst' = zlen dst) as Hld.
    { subst dst'. rewrite zlen_app, go_copy_len, zlen_ztake, zlen_zdrop by lia. lia. }
    pose proof (zlen_nonneg c) as Hc.
    assert (pDst + zlen c <= zlen dst' -> ztake (pDst + zlen c) dst' = got ++ c) as Htake.
    { intros H. subst dst'. rewrite go_copy_fits by (rewrite zlen_zdrop by lia; lia).
      rewrite app_assoc, (Hd Hx). apply ztake_app_exact. rewrite zlen_app. lia. }
    destruct (Z.eqb_spec (pSrc + n) (zlen s)) as [Ee|Ee].
    + rewrite (Hend ltac:(lia)). cbn [after_change]. rewrite zlen_app, <- Ed, Hld.
      destruct (Z.gtb_spec (pDst + zlen c) (zlen dst)) as [Hy|Hy].
      * destruct (Z.ltb_spec (zlen dst) (pDst + zlen c)); [reflexivity|lia].
      * destruct (Z.ltb_spec (zlen dst) (pDst + zlen c)); [lia|].
        cbn [finish bind]. rewrite Htake by lia. reflexivity.
    + rewrite <- Hld. assert (n = 128) as En by lia. rewrite En in *.
      apply (IH dst' _ (pDst + zlen c) (pSrc + 128)); [exact Hl'|lia|lia|apply Hmore; lia| |exact Htake].
      rewrite zlen_app. lia.
  - destruct (conv_err _ _ Hbb Ec) as [H1 H2]. cbn [bind].
    destruct e; try congruence; cbn [is_short_dst is_short_src is_none negb orb];
      rewrite Z.add_0_r, zlen_app, zlen_ztake, zlen_zdrop by lia;
      (destruct (Z.gtb_spec pDst (Z.min pDst (zlen dst) + Z.max 0 (zlen dst - pDst))); [lia|reflexivity]).
Qed.

(* string_transform after the fast path *)
Definition cont (fuel : nat) (s : list Z) (l : res (list Z * option error + loop1_state)) : res (list Z * option error) :=
  let! l := l in
  match l with
  | inl r => Ok r
  | inr (mkL1 dst src nDst nSrc pPrefix pDst pSrc err) =>
    let! dst :=
      (if pPrefix =? 0 then Ok dst
       else
         let newDst := if pDst >? zlen dst then zeros (zlen s + nDst - nSrc) else dst in
         if pDst >? zlen newDst then Panic else
         Ok (zwrite (zwrite newDst pPrefix (ztake (pDst - pPrefix) (ztake nDst dst)))
                    0 (ztake pPrefix s))) in
    if is_none err && (pSrc =? zlen s)
       || negb (is_none err) && negb (is_short_dst err) && negb (is_short_src err) then
      if pDst >? zlen dst then Panic else Ok (ztake pDst dst, err)
    else string_loop2 T fuel s dst src pDst pSrc
  end.

Lemma loop1_exact s f0 : Forall is_byte s -> zlen s <= Z.of_nat f0 -> forall fuel dst src p bs,
  zlen dst = 128 -> zlen src = 128 -> 0 <= p < zlen s -> (p = 0 \/ 128 <= p) -> zlen s - p <= Z.of_nat fuel ->
  in_blocks 128 (zdrop p s) bs ->
  finish (cont f0 s (string_loop1 T fuel s dst src p)) = block_by_block f (zlen s) (ztake p s) bs.
Proof.
  intros Hs Hf0. induction fuel as [|fuel IH]; intros dst src p bs Hld Hls Hp Hp1 Hf Hb; [lia|].
  cbn [string_loop1].
  destruct (copy_block s p src Hls ltac:(lia)) as (Eb & Hbl & Hn & Hl').
  set (n := Z.min (zlen src) (zlen (zdrop p s))) in *.
  destruct (in_blocks_inv s p bs Hp Hb) as (rest & -> & Hend & Hmore).
  cbn [block_by_block].
  pose proof (block_bytes s p Hs) as Hbb.
  rewrite Eb, T_conv, f_conv by exact Hbb. cbn [bind].
  assert (zlen (ztake p s) = p) as Hzp by (rewrite zlen_ztake by lia; lia).
  destruct (conv (ztake 128 (zdrop p s))) as [c|e] eqn:Ec.
  - cbn [bind]. rewrite go_copy_len, Hl', Hbl, Hld.
    destruct (Z.gtb_spec n 128) as [Hx|_]; [lia|]. rewrite orb_false_r. rewrite Eb.
    pose proof (zlen_nonneg c) as Hc.
    destruct (list_eq_dec Z.eq_dec c (ztake 128 (zdrop p s))) as [Es|Es].
    + rewrite Es, Hbl. destruct (Z.gtb_spec n 128) as [Hx|_]; [lia|].
      rewrite <- Hbl at 1. rewrite go_copy_take, Hld. rewrite (ztake_all 128 (ztake 128 _)) by lia.
      replace (bytes_eqb _ _) with true by (symmetry; apply bytes_eqb_iff; reflexivity).
      cbn [negb is_short_dst is_short_src is_none orb].
      assert (ztake p s ++ ztake 128 (zdrop p s) = ztake (p + n) s) as Ecat.
      { assert (p + n <= zlen s) by lia.
        rewrite <- (ztake_zdrop p s) at 3. rewrite ztake_app_r by lia. f_equal. rewrite Hzp.
        replace (p + n - p) with n by lia. destruct (Z.eq_dec n 128) as [->|]; [reflexivity|].
        assert (zlen (zdrop p s) = n) as Hzd by (rewrite zlen_zdrop by lia; lia).
        rewrite !ztake_all by lia. reflexivity. }
      rewrite Ecat.
      destruct (Z.eqb_spec (p + n) (zlen s)) as [Ee|Ee].
      * rewrite (Hend ltac:(lia)). reflexivity.
      * assert (n = 128) as En by lia. rewrite En in *.
        apply IH; [rewrite go_copy_len; exact Hld|exact Hl'|lia|lia|lia|apply Hmore; lia].
    + destruct (Z.gtb_spec (zlen c) 128) as [Hx|Hx].
      { destruct (Z.ltb_spec 128 (zlen c)); [reflexivity|lia]. }
      destruct (Z.ltb_spec 128 (zlen c)); [lia|].
      assert (ztake (zlen c) (go_copy dst c) = c) as Hct.
      { rewrite go_copy_take, Hld. apply ztake_all. lia. }
      rewrite Hct.
      destruct (bytes_eqb c (ztake 128 (zdrop p s))) eqn:Eq.
      { apply bytes_eqb_iff in Eq. congruence. }
      cbn [negb]. cbv iota. cbn [cont bind].
      assert (c <> []) as Hcn.
      { intros ->. apply (conv_some _ Hbb) in Ec. congruence. }
      assert (0 < zlen c) as Hc1 by (destruct c; [congruence|rewrite zlen_cons; pose proof (zlen_nonneg c); lia]).
      set (room := match ztake p s with [] => 128 | _ :: _ => zlen s - n + zlen c end).
      assert (exists dst', (if p =? 0 then Ok (go_copy dst c)
         else let newDst := if p + zlen c >? zlen (go_copy dst c) then zeros (zlen s + zlen c - n) else go_copy dst c in
           if p + zlen c >? zlen newDst then Panic else
           Ok (zwrite (zwrite newDst p (ztake (p + zlen c - p) (ztake (zlen c) (go_copy dst c))))
                      0 (ztake p s))) = Ok dst' /\ zlen dst' = room /\
         p + zlen c <= zlen dst' /\ ztake (p + zlen c) dst' = ztake p s ++ c) as (dst' & Ed & Hroom & Hlen' & Htake).
      { destruct (Z.eqb_spec p 0) as [->|Hn0].
        - exists (go_copy dst c). rewrite go_copy_len, Hld. split; [reflexivity|].
          subst room. rewrite ztake_0. split; [reflexivity|]. split; [lia|exact Hct].
        - cbn zeta. rewrite go_copy_len, Hld.
          destruct (Z.gtb_spec (p + zlen c) 128) as [_|Hy]; [|lia].
          set (newDst := zeros (zlen s + zlen c - n)).
          assert (zlen newDst = zlen s + zlen c - n) as Hzn by (apply zlen_zeros; lia).
          destruct (Z.gtb_spec (p + zlen c) (zlen newDst)) as [Hy|_]; [lia|].
          eexists. split; [reflexivity|].
          replace (p + zlen c - p) with (zlen c) by lia.
          rewrite Hct. rewrite (ztake_all (zlen c) c) by lia.
          assert (zlen (zwrite newDst p c) = zlen newDst) as Hw by (apply zlen_zwrite; lia).
          split; [|split].
          + rewrite zlen_zwrite by lia. subst room. destruct (ztake p s) eqn:Ep; [change (zlen []) with 0 in Hzp; lia|lia].
          + rewrite zlen_zwrite by lia. lia.
          + unfold zwrite at 1. rewrite ztake_0. cbn [app].
            rewrite ztake_app_r by lia. f_equal. rewrite Hzp.
            replace (p + zlen c - p) with (zlen c) by lia.
            replace (0 + p) with p by lia.
            unfold zwrite. rewrite zdrop_app_exact by (rewrite zlen_ztake by lia; lia).
            apply ztake_app_exact. reflexivity. }
      cbn zeta in Ed. rewrite Ed. cbn [bind is_none negb andb orb]. rewrite orb_false_r.
      destruct (Z.eqb_spec (p + n) (zlen s)) as [Ee|Ee].
      * rewrite (Hend ltac:(lia)). cbn [after_change]. rewrite zlen_app, Hzp, <- Hroom.
        destruct (Z.gtb_spec (p + zlen c) (zlen dst')) as [Hy|_]; [lia|].
        destruct (Z.ltb_spec (zlen dst') (p + zlen c)) as [Hy|_]; [lia|].
        cbn [finish bind]. rewrite Htake. reflexivity.
      * rewrite <- Hroom. assert (n = 128) as En by lia. rewrite En in *.
        apply loop2_exact; [exact Hs|exact Hl'|lia|lia|apply Hmore; lia|rewrite zlen_app; lia|].
        intros _. exact Htake.
  - destruct (conv_err _ _ Hbb Ec) as [H1 H2]. cbn [bind]. rewrite Hld, Hl'.
    change ((0 >? 128) || (0 >? 128)) with false. cbv iota. rewrite !ztake_0.
    change (bytes_eqb [] []) with true. cbn [negb].
    destruct e; try congruence; reflexivity.
Qed.

Lemma string_exact s fuel bs : Forall is_byte s -> zlen s <= Z.of_nat fuel -> in_blocks 128 s bs ->
  String T fuel s = block_by_block f (zlen s) [] bs.
Proof.
  intros Hs Hf Hb. destruct s as [|x s'].
  { inversion Hb as [|b Hn|b t bs' Hl Ht Hb' E]; subst; [|congruence|destruct b; [discriminate Hl|discriminate E]].
    unfold String, string_transform. rewrite T_conv, conv_nil by constructor. reflexivity. }
  set (s := x :: s') in *.
  assert (0 < zlen s) as Hlen by (subst s; rewrite zlen_cons; pose proof (zlen_nonneg s'); lia).
  change (String T fuel s) with (finish (cont fuel s (string_loop1 T fuel s (zeros initialBufSize) (zeros initialBufSize) 0))).
  rewrite (loop1_exact s fuel Hs Hf fuel _ _ 0 bs); [rewrite ztake_0; reflexivity|reflexivity|reflexivity|lia|lia|lia|].
  rewrite zdrop_0. exact Hb.
Qed.
End Conv.

Section Grow.
Variable grow : Z -> Z -> Z.

Lemma utf8_some r rs : utf8 (r :: rs) <> [].
Proof.
  rewrite utf8_cons. unfold utf8_char. repeat destruct (_ <? _); discriminate.
Qed.
Lemma dec_some s : Forall is_byte s -> conv_of (From grow) s = inl [] -> s = [].
Proof.
  intros Hs. unfold conv_of. destruct (decodes_or_cut s Hs) as [(rs & H)|(a & H)].
  - rewrite (From_decodes grow s rs H). intros E. injection E as E.
    destruct H; [reflexivity|exfalso; exact (utf8_some _ _ E)..].
  - rewrite (From_cut grow s a H). discriminate.
Qed.
Lemma enc_some s : Forall is_byte s -> conv_of (To grow) s = inl [] -> s = [].
Proof.
  intros Hs. unfold conv_of. rewrite (To_runes grow s Hs). intros E. injection E as E.
  destruct s as [|x s]; [reflexivity|exfalso].
  destruct (string_to_runes (x :: s)) as [|r rs] eqn:Er.
  - apply (string_to_runes_nonempty _ Hs) in Er; [exact Er|discriminate].
  - rewrite to_chars_cons in E. apply app_eq_nil in E. destruct E as [E _]. revert E.
    unfold to_char, enc16, code_bytes. repeat first [destruct (_ <? _)|destruct (tget _ _)]; discriminate.
Qed.

Lemma C78_dec_exact_lemma fuel s bs : Forall is_byte s -> zlen s <= Z.of_nat fuel -> in_blocks 128 s bs ->
  String (dec_Transform grow) fuel s = block_by_block (From grow) (zlen s) [] bs.
Proof.
  apply (string_exact _ (conv_of (From grow)) _ (dec_conv grow) (From_total grow) (dec_nil_conv grow) (dec_err grow) dec_some).
Qed.
Lemma C78_enc_exact_lemma fuel s bs : Forall is_byte s -> zlen s <= Z.of_nat fuel -> in_blocks 128 s bs ->
  String (enc_Transform grow) fuel s = block_by_block (To grow) (zlen s) [] bs.
Proof.
  apply (string_exact _ (conv_of (To grow)) _ (enc_conv grow) (To_total grow) (enc_nil_conv grow) (enc_err grow) enc_some).
Qed.
End Grow.
