(** Chains of Decoders and Encoders: proofs for PropChain.v. *)
From Coq Require Import ZArith List Bool Lia.
From Verif Require Import Base Facts Spec SpecCp949 Utf8 Utf8Facts Cp949Model Cp949Facts Cp949Facts2 GoLang GoHeap SourceSpec SourceFacts SourceFacts2 ProgFacts TransformModel TransformFacts SpecIO SpecChain ChainModel.
Import ListNotations.
Local Open Scope Z_scope.
Local Open Scope go_scope.

Section Chain.
Variable grow : Z -> Z -> Z.
Definition tr (c : coder) : transformer := match c with Dec => dec_Transform grow | Enc => enc_Transform grow end.

Lemma converts_tr c src out : Forall is_byte src -> converts to_char c src out ->
  Forall is_byte out /\ forall dst eof, tr c dst src eof = Ok (go_copy dst out, zlen out, zlen src, None).
Proof.
  intros Hb. destruct c; intros (rs & H & ->).
  - split; [apply utf8_bytes; eapply decodes_scalar; exact H|]. intros dst eof. cbn [tr]. unfold dec_Transform. now rewrite (From_decodes grow src rs H).
  - split; [eapply code_bytes_ok; exact H|]. intros dst eof. cbn [tr]. unfold enc_Transform. now rewrite (To_reads grow src rs Hb H).
Qed.
Lemma cut_tr src : truncated src -> forall dst eof, tr Dec dst src eof = Ok (dst, 0, 0, Some ErrCP949UnexpectedStream).
Proof. intros [a H] dst eof. cbn [tr]. unfold dec_Transform. now rewrite (From_cut grow src a H). Qed.
Lemma converts_nil c : converts to_char c [] [].
Proof. destruct c; exists []; split; constructor. Qed.
Lemma chained_nil c cs : chained to_char defaultBufSize (c :: cs) [] (Converted []).
Proof.
  revert c. induction cs as [|d cs IH]; intros c; [constructor; apply converts_nil|].
  apply (chained_step _ _ c d cs [] [] (Converted []) (converts_nil c)); [unfold zlen, defaultBufSize; cbn; lia|apply IH].
Qed.
Lemma converts_or c src : Forall is_byte src -> (exists out, converts to_char c src out) \/ (c = Dec /\ truncated src).
Proof.
  intros Hb. destruct c.
  - destruct (decodes_or_cut src Hb) as [(rs & H)|(a & H)]; [left; exists (utf8 rs), rs; auto|right; split; [reflexivity|now exists a]].
  - left. exists (flat_map to_char (string_to_runes src)), (string_to_runes src). split; [now apply string_to_runes_reads|reflexivity].
Qed.
Lemma chained_total cs : cs <> [] -> forall src, Forall is_byte src -> exists o, chained to_char defaultBufSize cs src o.
Proof.
  induction cs as [|c cs IH]; [congruence|]. intros _ src Hb.
  destruct (converts_or c src Hb) as [[mid Hc]|[-> Ht]]; [|eexists; apply chained_cut; exact Ht].
  destruct cs as [|d cs]; [eexists; apply chained_last; exact Hc|].
  destruct (Z.le_gt_cases (zlen mid) defaultBufSize) as [Hl|Hl]; [|eexists; eapply chained_long; eassumption].
  destruct (IH ltac:(discriminate) mid (proj1 (converts_tr c src mid Hb Hc))) as [o Ho]. eexists. eapply chained_step; eassumption.
Qed.

(** ** The loop *)
Section Loop.
Variable cs : list coder.
Notation m := (length cs).
Notation ts := (map tr cs).
Notation at_ k c := (nth k (c_link c) no_link).

(** The links before the [i]-th Transformer is called: [mid] is waiting for it. *)
Record inv (c : chain) (i : nat) (mid dst : list Z) : Prop := {
  i_len : length (c_link c) = S m;
  i_in : (i < m)%nat;
  i_buf k : (0 < k < m)%nat -> zlen (l_b (at_ k c)) = defaultBufSize;
  i_free k : (0 < k < m)%nat -> k <> i -> (c_errStart c <= k)%nat -> l_p (at_ k c) = 0 /\ l_n (at_ k c) = 0;
  i_here : l_p (at_ i c) = 0 /\ l_n (at_ i c) = zlen mid /\ ztake (zlen mid) (l_b (at_ i c)) = mid;
  i_dst : l_b (at_ m c) = dst /\ l_n (at_ m c) = 0;
  i_err : (c_errStart c <= i)%nat
}.
Record ended (c : chain) (p0 : Z) (d : list Z) (n : Z) : Prop := {
  e_len : length (c_link c) = S m;
  e_buf k : (0 < k < m)%nat -> zlen (l_b (at_ k c)) = defaultBufSize;
  e_free k : (0 < k < m)%nat -> (c_errStart c <= k)%nat -> l_p (at_ k c) = 0 /\ l_n (at_ k c) = 0;
  e_dst : l_b (at_ m c) = d /\ l_n (at_ m c) = n;
  e_src : l_p (at_ 0 c) = p0
}.

Lemma src_here c i mid dst : inv c i mid dst -> link_src (at_ i c) = Ok mid.
Proof.
  intros [_ _ _ _ (Hp & Hn & Hm) _ _]. unfold link_src. rewrite Hp, Hn. pose proof (zlen_nonneg mid).
  assert (zlen mid <= zlen (l_b (at_ i c))).
  { rewrite <- Hm at 1. unfold ztake, zlen. rewrite firstn_length. lia. }
  destruct (Z.gtb_spec 0 (zlen mid)); [lia|]. destruct (Z.gtb_spec (zlen mid) (zlen (l_b (at_ i c)))); [lia|]. cbn [orb].
  rewrite Hm. reflexivity.
Qed.
Lemma dst_there c i mid dst : inv c i mid dst -> link_dst (at_ (S i) c) = Ok (l_b (at_ (S i) c)) /\ l_n (at_ (S i) c) = 0 /\ ((S i < m)%nat -> l_p (at_ (S i) c) = 0).
Proof.
  intros H. assert (Hn : l_n (at_ (S i) c) = 0 /\ ((S i < m)%nat -> l_p (at_ (S i) c) = 0)).
  { pose proof (i_in _ _ _ _ H) as Hi. pose proof (i_err _ _ _ _ H) as He. destruct (Nat.lt_ge_cases (S i) m) as [Hlt|Hge].
    - destruct (i_free _ _ _ _ H (S i) ltac:(lia) ltac:(lia) ltac:(lia)) as [Hp Hn]. auto.
    - assert (HS : S i = m) by lia. rewrite HS. split; [apply (i_dst _ _ _ _ H)|intros; lia]. }
  split; [|exact Hn]. unfold link_dst. rewrite (proj1 Hn). pose proof (zlen_nonneg (l_b (at_ (S i) c))).
  destruct (Z.gtb_spec 0 (zlen (l_b (at_ (S i) c)))); [lia|reflexivity].
Qed.

Definition after (c : chain) (i : nat) (mid out : list Z) : chain :=
  set_links c (set_nth (S i) (mkLink (go_copy (l_b (at_ (S i) c)) out) (l_p (at_ (S i) c)) (zlen out))
    (set_nth i (mkLink (l_b (at_ i c)) (if (i =? 0)%nat then zlen mid else 0) (if (i =? 0)%nat then zlen mid else 0)) (c_link c))).
Lemma set_nth_twice {A} i (x y : A) l : set_nth i x (set_nth i y l) = set_nth i x l.
Proof. revert i. induction l as [|a l IH]; intros [|i]; cbn; congruence. Qed.
Lemma step_convert c i mid dst t out fuel err eof : inv c i mid dst -> Forall is_byte mid -> nth_error cs i = Some t -> converts to_char t mid out ->
  chain_loop ts (S fuel) c i i err false eof = chain_loop ts fuel (after c i mid out) (S i) (S i) err false eof.
Proof.
  intros H Hb Ht Hc. cbn [chain_loop]. rewrite nth_error_map, Ht. cbn [option_map].
  destruct (dst_there _ _ _ _ H) as (Hd & Hn & _). rewrite Hd. cbn [bind]. rewrite (src_here _ _ _ _ H). cbn [bind].
  rewrite (proj2 (converts_tr t mid out Hb Hc)). cbn [bind]. rewrite Nat.ltb_irrefl. destruct (i_here _ _ _ _ H) as (Hp & Hm & _).
  rewrite Hn, Hp, Hm. cbn [l_p l_n l_b]. rewrite !Z.add_0_l. unfold after.
  change (ztake 0 (l_b (at_ (S i) c))) with (@nil Z). cbn [app].
  destruct (Nat.eqb_spec i 0); cbn [negb andb]; [reflexivity|]. rewrite Z.eqb_refl. reflexivity.
Qed.
Lemma at_after c i mid out k : length (c_link c) = S m -> (i < m)%nat ->
  at_ k (after c i mid out) =
    if (k =? S i)%nat then mkLink (go_copy (l_b (at_ (S i) c)) out) (l_p (at_ (S i) c)) (zlen out)
    else if (k =? i)%nat then mkLink (l_b (at_ i c)) (if (i =? 0)%nat then zlen mid else 0) (if (i =? 0)%nat then zlen mid else 0)
    else at_ k c.
Proof.
  intros Hl Hi. unfold after, set_links. cbn [c_link].
  destruct (Nat.eqb_spec k (S i)) as [->|H1]; [apply nth_set_nth; rewrite set_nth_len; lia|]. rewrite nth_set_nth_ne by lia.
  destruct (Nat.eqb_spec k i) as [->|H2]; [apply nth_set_nth; lia|]. apply nth_set_nth_ne. lia.
Qed.
Lemma after_len c i mid out : length (c_link (after c i mid out)) = length (c_link c).
Proof. unfold after, set_links. cbn [c_link]. now rewrite !set_nth_len. Qed.
Lemma src_after c i mid dst out : inv c i mid dst ->
  l_p (at_ 0 (after c i mid out)) = if (i =? 0)%nat then zlen mid else l_p (at_ 0 c).
Proof.
  intros H. rewrite at_after by apply H. cbn [Nat.eqb]. destruct i; reflexivity.
Qed.
Lemma inv_after c i mid dst out : inv c i mid dst -> (S i < m)%nat -> zlen out <= defaultBufSize -> inv (after c i mid out) (S i) out dst.
Proof.
  intros H Hi Ho. pose proof (i_len _ _ _ _ H) as Hl. pose proof (i_in _ _ _ _ H) as Him.
  assert (Hs : zlen (l_b (at_ (S i) c)) = defaultBufSize) by (apply H; lia).
  destruct (dst_there _ _ _ _ H) as (_ & Hn & Hp). specialize (Hp Hi).
  constructor.
  - now rewrite after_len.
  - exact Hi.
  - intros k Hk. rewrite at_after by assumption. destruct (Nat.eqb_spec k (S i)); [cbn [l_b]; now rewrite go_copy_len|].
    destruct (Nat.eqb_spec k i) as [->|]; cbn [l_b]; apply H; lia.
  - intros k Hk Hne He. rewrite at_after by assumption. destruct (Nat.eqb_spec k (S i)); [contradiction|].
    destruct (Nat.eqb_spec k i) as [->|Hki]; [|apply H; [lia|exact Hki|exact He]]. cbn [l_p l_n].
    destruct (Nat.eqb_spec i 0); [lia|auto].
  - rewrite at_after by assumption. rewrite Nat.eqb_refl. cbn [l_p l_n l_b]. split; [exact Hp|]. split; [reflexivity|].
    rewrite go_copy_take, Hs. apply ztake_all. lia.
  - rewrite at_after by assumption. destruct (Nat.eqb_spec m (S i)); [lia|]. destruct (Nat.eqb_spec m i); [lia|]. apply H.
  - pose proof (i_err _ _ _ _ H). cbn. lia.
Qed.
Lemma ended_after c i mid dst out : inv c i mid dst -> S i = m ->
  ended (after c i mid out) (if (i =? 0)%nat then zlen mid else l_p (at_ 0 c)) (go_copy dst out) (zlen out).
Proof.
  intros H Hi. pose proof (i_len _ _ _ _ H) as Hl. pose proof (i_in _ _ _ _ H) as Him. constructor.
  - now rewrite after_len.
  - intros k Hk. rewrite at_after by assumption. destruct (Nat.eqb_spec k (S i)); [lia|].
    destruct (Nat.eqb_spec k i) as [->|]; cbn [l_b]; apply H; lia.
  - intros k Hk He. rewrite at_after by assumption. destruct (Nat.eqb_spec k (S i)); [lia|].
    destruct (Nat.eqb_spec k i) as [->|Hki]; [|apply H; [lia|exact Hki|exact He]]. cbn [l_p l_n].
    destruct (Nat.eqb_spec i 0); [lia|auto].
  - rewrite at_after by assumption. rewrite Hi, Nat.eqb_refl. cbn [l_b l_n]. destruct (i_dst _ _ _ _ H) as [-> _]. auto.
  - eapply src_after. exact H.
Qed.
Lemma loop_done fuel c err eof : chain_loop ts (S fuel) c m m err false eof = Ok (c, err, false).
Proof. cbn [chain_loop]. rewrite nth_error_map. rewrite (proj2 (nth_error_None cs m)) by lia. reflexivity. Qed.
Lemma nth_error_mid {A} (pre : list A) x post : nth_error (pre ++ x :: post) (length pre) = Some x.
Proof. induction pre; auto. Qed.

Lemma loop_convert rest : forall pre fuel c mid dst out err eof, cs = pre ++ rest -> inv c (length pre) mid dst -> Forall is_byte mid ->
  (length rest < fuel)%nat -> chained to_char defaultBufSize rest mid (Converted out) ->
  exists c', chain_loop ts fuel c (length pre) (length pre) err false eof = Ok (c', err, false) /\ c_errStart c' = c_errStart c /\ c_err c' = c_err c /\
    ended c' (if (length pre =? 0)%nat then zlen mid else l_p (at_ 0 c)) (go_copy dst out) (zlen out).
Proof.
  induction rest as [|t rest IH]; intros pre fuel c mid dst out err eof Hcs H Hb Hf Hch; [inversion Hch|].
  destruct fuel as [|fuel]; [lia|].
  assert (Ht : nth_error cs (length pre) = Some t) by (rewrite Hcs; apply nth_error_mid).
  assert (Hm : m = (length pre + S (length rest))%nat) by (rewrite Hcs, app_length; reflexivity).
  inversion Hch as [c0 src o Hc|c0 src Hc|c0 d cs0 src o Hc Hl|c0 d cs0 src mid' o Hc Hl Hch']; subst; try discriminate.
  - rewrite (step_convert _ _ _ _ _ _ _ _ _ H Hb Ht Hc). assert (Hm' : S (length pre) = m) by (rewrite Hm; cbn; lia).
    rewrite Hm'. destruct fuel as [|fuel]; [cbn in Hf; lia|]. rewrite loop_done. eexists. split; [reflexivity|]. split; [reflexivity|]. split; [reflexivity|].
    eapply ended_after; [exact H|exact Hm'].
  - destruct o as [out'| |]; try discriminate. match goal with E : Converted _ = Converted _ |- _ => injection E as -> end.
    rewrite (step_convert _ _ _ _ _ _ _ _ _ H Hb Ht Hc).
    assert (Hi' : inv (after c (length pre) mid mid') (S (length pre)) mid' dst) by (eapply inv_after; [exact H|rewrite Hm; cbn; lia|exact Hl]).
    destruct (IH (pre ++ [t]) fuel (after c (length pre) mid mid') mid' dst out err eof) as (c' & Hc' & He1 & He2 & Hend).
    + now rewrite <- app_assoc.
    + rewrite app_length, Nat.add_1_r. exact Hi'.
    + exact (proj1 (converts_tr _ _ _ Hb Hc)).
    + cbn in Hf |- *. lia.
    + exact Hch'.
    + rewrite app_length, Nat.add_1_r in Hc', Hend. exists c'. split; [exact Hc'|]. split; [exact He1|]. split; [exact He2|].
      cbn [Nat.eqb] in Hend. rewrite (src_after _ _ _ _ _ H) in Hend. exact Hend.
Qed.

Lemma loop_long rest : forall pre fuel c mid dst err eof, cs = pre ++ rest -> inv c (length pre) mid dst -> Forall is_byte mid ->
  (length rest < fuel)%nat -> chained to_char defaultBufSize rest mid TooLong ->
  chain_loop ts fuel c (length pre) (length pre) err false eof = Panic.
Proof.
  induction rest as [|t rest IH]; intros pre fuel c mid dst err eof Hcs H Hb Hf Hch; [inversion Hch|].
  destruct fuel as [|fuel]; [lia|].
  assert (Ht : nth_error cs (length pre) = Some t) by (rewrite Hcs; apply nth_error_mid).
  assert (Hm : m = (length pre + S (length rest))%nat) by (rewrite Hcs, app_length; reflexivity).
  inversion Hch as [|c0 src Hc|c0 d cs0 src mid' Hc Hl|c0 d cs0 src mid' o Hc Hl Hch']; subst; try discriminate.
  - rewrite (step_convert _ _ _ _ _ _ _ _ _ H Hb Ht Hc). cbn in Hf, Hm. destruct fuel as [|fuel]; [lia|]. cbn [chain_loop].
    rewrite nth_error_map. replace (nth_error cs (S (length pre))) with (Some d).
    2:{ symmetry. rewrite Hcs. change (t :: d :: cs0) with ([t] ++ d :: cs0). rewrite app_assoc.
        replace (S (length pre)) with (length (pre ++ [t])) by (rewrite app_length; cbn; lia). apply nth_error_mid. }
    cbn [option_map]. destruct (link_dst _) as [x| |] eqn:Ed; cbn [bind]; [|reflexivity|].
    2:{ unfold link_dst in Ed. match type of Ed with (if ?b then _ else _) = _ => destruct b end; discriminate. }
    unfold link_src. rewrite at_after by apply H. rewrite Nat.eqb_refl. cbn [l_p l_n l_b]. rewrite go_copy_len.
    rewrite (i_buf _ _ _ _ H) by lia. destruct (Z.gtb_spec (zlen mid') defaultBufSize); [|lia]. rewrite orb_true_r. reflexivity.
  - destruct o as [out'| |]; try discriminate.
    rewrite (step_convert _ _ _ _ _ _ _ _ _ H Hb Ht Hc).
    specialize (IH (pre ++ [t]) fuel (after c (length pre) mid mid') mid' dst err eof). rewrite app_length, Nat.add_1_r in IH. apply IH.
    + now rewrite <- app_assoc.
    + eapply inv_after; [exact H|rewrite Hm; cbn; lia|exact Hl].
    + exact (proj1 (converts_tr _ _ _ Hb Hc)).
    + cbn in Hf |- *. lia.
    + exact Hch'.
Qed.

Lemma loop_failed rest : forall pre fuel c mid dst k err eof, cs = pre ++ rest -> inv c (length pre) mid dst -> Forall is_byte mid -> c_errStart c = O ->
  (length rest < fuel)%nat -> chained to_char defaultBufSize rest mid (Failed k) ->
  exists c', chain_loop ts fuel c (length pre) (length pre) err false eof = Ok (c', err, false) /\
    (0 < c_errStart c')%nat /\ c_err c' = Some ErrCP949UnexpectedStream /\
    ended c' (if (length pre =? 0)%nat then (if (k =? 0)%nat then 0 else zlen mid) else l_p (at_ 0 c)) dst 0.
Proof.
  induction rest as [|t rest IH]; intros pre fuel c mid dst k err eof Hcs H Hb He Hf Hch; [inversion Hch|].
  destruct fuel as [|fuel]; [lia|].
  assert (Ht : nth_error cs (length pre) = Some t) by (rewrite Hcs; apply nth_error_mid).
  assert (Hm : m = (length pre + S (length rest))%nat) by (rewrite Hcs, app_length; reflexivity).
  inversion Hch as [|c0 src Hc|c0 d cs0 src mid' Hc Hl|c0 d cs0 src mid' o Hc Hl Hch']; subst; try discriminate.
  - (* this one fails; nothing is left for the others *)
    set (i := length pre) in *. pose proof (i_len _ _ _ _ H) as HL. pose proof (i_in _ _ _ _ H) as Him.
    destruct (dst_there _ _ _ _ H) as (Hd & Hn & Hp).
    set (inl' := let l := mkLink (l_b (at_ i c)) (l_p (at_ i c) + 0) (l_n (at_ i c)) in if negb (i =? 0)%nat && (l_p l =? l_n l) then mkLink (l_b l) 0 0 else l).
    set (out' := mkLink (l_b (at_ (S i) c)) (l_p (at_ (S i) c)) 0).
    set (c1 := mkChain (set_nth (S i) out' (set_nth i inl' (c_link c))) (S i) (Some ErrCP949UnexpectedStream)).
    assert (Hstep : chain_loop ts (S fuel) c i i err false eof = chain_loop ts fuel c1 (S i) (S i) err false eof).
    { cbn [chain_loop]. rewrite nth_error_map, Ht. cbn [option_map]. rewrite Hd. cbn [bind]. rewrite (src_here _ _ _ _ H). cbn [bind].
      rewrite (cut_tr mid Hc). cbn [bind]. rewrite Hn. change (ztake 0 (l_b (at_ (S i) c))) with (@nil Z). cbn [app Z.add].
      unfold fatal, set_links. cbn [c_errStart]. rewrite He. cbn [Nat.ltb Nat.leb c_link]. reflexivity. }
    rewrite Hstep.
    assert (Hat : forall k, at_ k c1 = if (k =? S i)%nat then out' else if (k =? i)%nat then inl' else at_ k c).
    { intros k. unfold c1. cbn [c_link]. destruct (Nat.eqb_spec k (S i)) as [->|H1]; [apply nth_set_nth; rewrite set_nth_len; lia|]. rewrite nth_set_nth_ne by lia.
      destruct (Nat.eqb_spec k i) as [->|H2]; [apply nth_set_nth; lia|]. apply nth_set_nth_ne. lia. }
    assert (Hlen : length (c_link c1) = S m) by (unfold c1; cbn [c_link]; rewrite !set_nth_len; exact HL).
    assert (Hbuf : forall k, (0 < k < m)%nat -> zlen (l_b (at_ k c1)) = defaultBufSize).
    { intros k Hk. rewrite Hat. destruct (Nat.eqb_spec k (S i)) as [->|]; [cbn [out' l_b]; apply H; lia|].
      destruct (Nat.eqb_spec k i) as [->|]; [|apply H; lia]. unfold inl'. cbv zeta. cbn [l_b l_p l_n].
      destruct (_ && _); cbn [l_b]; apply H; lia. }
    assert (Hfree : forall k, (0 < k < m)%nat -> (S i <= k)%nat -> l_p (at_ k c1) = 0 /\ l_n (at_ k c1) = 0).
    { intros k Hk Hi. rewrite Hat. destruct (Nat.eqb_spec k (S i)) as [->|]; [cbn [out' l_p l_n]; split; [apply Hp; lia|reflexivity]|].
      destruct (Nat.eqb_spec k i) as [->|]; [lia|]. apply H; lia. }
    assert (Hsrc : l_p (at_ 0 c1) = if (i =? 0)%nat then 0 else l_p (at_ 0 c)).
    { rewrite Hat. destruct (Nat.eqb_spec 0 (S i)); [lia|]. destruct (Nat.eqb_spec 0 i) as [Hi0|Hi0].
      - unfold inl'. rewrite <- Hi0. cbn [Nat.eqb negb andb l_p]. rewrite Hi0, (proj1 (i_here _ _ _ _ H)). reflexivity.
      - destruct (Nat.eqb_spec i 0); [lia|reflexivity]. }
    assert (Hdst : l_b (at_ m c1) = dst /\ l_n (at_ m c1) = 0).
    { rewrite Hat. destruct (Nat.eqb_spec m (S i)) as [Hi|Hi]; [cbn [out' l_b l_n]; rewrite <- Hi; split; [apply (i_dst _ _ _ _ H)|reflexivity]|].
      destruct (Nat.eqb_spec m i); [lia|]. apply (i_dst _ _ _ _ H). }
    destruct rest as [|d rest].
    + cbn in Hm. replace (S i) with m by (unfold i; lia). destruct fuel as [|fuel]; [cbn in Hf; lia|]. rewrite loop_done.
      exists c1. split; [reflexivity|]. split; [cbn; lia|]. split; [reflexivity|].
      replace (if (0 =? 0)%nat then 0 else zlen mid) with 0 by reflexivity.
      constructor; auto.
    + destruct (loop_convert (d :: rest) (pre ++ [Dec]) fuel c1 [] dst [] err eof) as (c' & H1 & H2 & H3 & H4).
      * now rewrite <- app_assoc.
      * rewrite app_length, Nat.add_1_r. fold i. cbn in Hm. constructor; auto; try (unfold i; lia).
        -- destruct (Hfree (S i) ltac:(unfold i in *; lia) ltac:(lia)) as [Hf1 Hf2]. split; [exact Hf1|]. split; [exact Hf2|reflexivity].
      * constructor.
      * cbn in *. lia.
      * apply chained_nil.
      * rewrite app_length, Nat.add_1_r in H1, H4. fold i in H1, H4. exists c'. split; [exact H1|]. rewrite H2, H3. split; [cbn; lia|]. split; [reflexivity|].
        cbn [Nat.eqb] in H4. rewrite Hsrc in H4. assert (Hgc : go_copy dst [] = dst).
        { rewrite go_copy_fits; [reflexivity|pose proof (zlen_nonneg dst); unfold zlen in *; cbn in *; lia]. }
        rewrite Hgc in H4. exact H4.
  - destruct o as [|k'|]; try discriminate. match goal with E : Failed _ = Failed _ |- _ => injection E as <- end.
    rewrite (step_convert _ _ _ _ _ _ _ _ _ H Hb Ht Hc).
    destruct (IH (pre ++ [t]) fuel (after c (length pre) mid mid') mid' dst k' err eof) as (c' & Hc' & He1 & He2 & Hend).
    + now rewrite <- app_assoc.
    + rewrite app_length, Nat.add_1_r. eapply inv_after; [exact H|rewrite Hm; cbn; lia|exact Hl].
    + exact (proj1 (converts_tr _ _ _ Hb Hc)).
    + exact He.
    + cbn in Hf |- *. lia.
    + exact Hch'.
    + rewrite app_length, Nat.add_1_r in Hc', Hend. exists c'. split; [exact Hc'|]. split; [exact He1|]. split; [exact He2|].
      cbn [Nat.eqb] in Hend. rewrite (src_after _ _ _ _ _ H) in Hend. exact Hend.
Qed.

(** ** Calls of Transform *)
Definition ready (c : chain) : Prop :=
  length (c_link c) = S m /\ (forall k, (0 < k < m)%nat -> zlen (l_b (at_ k c)) = defaultBufSize /\ l_p (at_ k c) = 0 /\ l_n (at_ k c) = 0) /\
  c_errStart c = O /\ c_err c = None.
Lemma ready_Chain : (0 < m)%nat -> ready (Chain m).
Proof.
  intros Hm. unfold ready, Chain. cbn [c_link c_errStart c_err]. split; [cbn; rewrite app_length, repeat_length; cbn; lia|]. split; [|auto].
  intros [|k] Hk; [lia|]. cbn [nth]. rewrite app_nth1 by (rewrite repeat_length; lia).
  rewrite nth_indep with (d' := mkLink (zeros defaultBufSize) 0 0) by (rewrite repeat_length; lia). rewrite nth_repeat. split; [reflexivity|auto].
Qed.
Lemma nth_combine (f : nat -> link -> link) ls : forall b k, (k < length ls)%nat ->
  nth k (map (fun '(k, l) => f k l) (combine (seq b (length ls)) ls)) no_link = f (b + k)%nat (nth k ls no_link).
Proof.
  induction ls as [|l ls IH]; intros b [|k] Hk; cbn [length] in *; try lia; cbn [seq combine map nth]; [now rewrite Nat.add_0_r|].
  rewrite IH by lia. f_equal. lia.
Qed.
Lemma start_inv c dst src : (0 < m)%nat -> ready c ->
  inv (set_links c (set_nth m (mkLink dst (l_p (at_ m c)) 0) (set_nth 0 (mkLink src 0 (zlen src)) (c_link c)))) 0 src dst.
Proof.
  intros Hm (Hl & Hk & He & _).
  assert (Hat : forall k, nth k (set_nth m (mkLink dst (l_p (at_ m c)) 0) (set_nth 0 (mkLink src 0 (zlen src)) (c_link c))) no_link =
    if (k =? m)%nat then mkLink dst (l_p (at_ m c)) 0 else if (k =? 0)%nat then mkLink src 0 (zlen src) else at_ k c).
  { intros k. destruct (Nat.eqb_spec k m) as [->|H1]; [apply nth_set_nth; rewrite set_nth_len; lia|]. rewrite nth_set_nth_ne by lia.
    destruct (Nat.eqb_spec k 0) as [->|H2]; [apply nth_set_nth; lia|]. apply nth_set_nth_ne. lia. }
  constructor; unfold set_links; cbn [c_link c_errStart].
  - rewrite !set_nth_len. exact Hl.
  - exact Hm.
  - intros k H. rewrite Hat. destruct (Nat.eqb_spec k m); [lia|]. destruct (Nat.eqb_spec k 0); [lia|]. now apply Hk.
  - intros k H H0 _. rewrite Hat. destruct (Nat.eqb_spec k m); [lia|]. destruct (Nat.eqb_spec k 0); [lia|]. now apply Hk.
  - rewrite Hat. destruct (Nat.eqb_spec 0 m); [lia|]. cbn [Nat.eqb l_p l_n l_b]. split; [reflexivity|]. split; [reflexivity|]. apply ztake_all. lia.
  - rewrite Hat, Nat.eqb_refl. auto.
  - rewrite He. lia.
Qed.
Lemma chain_call fuel c dst src eof o : (0 < m < fuel)%nat -> ready c -> Forall is_byte src -> chained to_char defaultBufSize cs src o ->
  (o = TooLong -> chain_Transform ts fuel c dst src eof = Panic) /\
  (o <> TooLong -> exists r c', chain_Transform ts fuel c dst src eof = Ok (r, c') /\ ready c' /\ call_result dst src ErrCP949UnexpectedStream o r).
Proof.
  intros Hm Hr Hb Hch. pose proof (start_inv c dst src ltac:(lia) Hr) as Hi. destruct Hr as (_ & _ & He & Hce).
  unfold chain_Transform. rewrite map_length, He. set (c0 := set_links _ _) in *.
  change (ready c) with (ready c).
  assert (He0 : c_errStart c0 = O) by exact He. assert (Hce0 : c_err c0 = None) by exact Hce. destruct o as [out|k|].
  - split; [discriminate|]. intros _.
    destruct (loop_convert cs [] fuel c0 src dst out None eof eq_refl Hi Hb ltac:(lia) Hch) as (c' & Hl & H1 & H2 & [E1 E2 E3 [E4 E5] E6]).
    cbn [length] in Hl. rewrite Hl. cbn [bind]. rewrite H1, He0. cbn [orb Nat.eqb]. do 2 eexists. split; [reflexivity|].
    split; [split; [exact E1|]; split; [intros k Hk; split; [now apply E2|apply E3; [exact Hk|rewrite H1, He0; lia]]|split; congruence]|].
    cbn [length Nat.eqb] in E6. rewrite E4, E5, E6. unfold call_result. do 3 (split; [reflexivity|]). split; [apply go_copy_len|].
    split; intros Hlen; [now apply go_copy_fits|]. rewrite go_copy_short by lia. exists (zdrop (zlen dst) out). symmetry. apply ztake_zdrop.
  - split; [discriminate|]. intros _.
    destruct (loop_failed cs [] fuel c0 src dst k None eof eq_refl Hi Hb He0 ltac:(lia) Hch) as (c' & Hl & H1 & H2 & [E1 E2 E3 [E4 E5] E6]).
    cbn [length] in Hl. rewrite Hl. cbn [bind]. destruct (Nat.eqb_spec (c_errStart c') 0); [lia|]. cbn [orb]. do 2 eexists. split; [reflexivity|].
    split.
    + split; [cbn [c_link]; rewrite map_length, combine_length, seq_length; lia|]. split; [|split; reflexivity].
      intros j Hj. cbn [c_link].
      rewrite (nth_combine (fun k l => if ((1 <=? k) && (k <? c_errStart c'))%nat then mkLink (l_b l) 0 0 else l) (c_link c') 0 j) by lia.
      cbn [Nat.add]. destruct (Nat.leb_spec 1 j); [|lia]. destruct (Nat.ltb_spec j (c_errStart c')); cbn [andb l_b l_p l_n]; (split; [now apply E2|]); [auto|now apply E3].
    + cbn [length Nat.eqb] in E6. rewrite E4, E5, E6, H2. unfold call_result. auto.
  - split; [|congruence]. intros _. pose proof (loop_long cs [] fuel c0 src dst None eof eq_refl Hi Hb ltac:(lia) Hch) as Hl. cbn [length] in Hl. now rewrite Hl.
Qed.
Lemma chain_all fuel calls : (0 < m < fuel)%nat -> Forall (fun x => Forall is_byte (snd (fst x))) calls -> forall c, ready c ->
  exists outs, Forall2 (fun x o => chained to_char defaultBufSize cs (snd (fst x)) o) calls outs /\
    (In TooLong outs -> chain_calls ts fuel c calls = Panic) /\
    (~ In TooLong outs -> exists rs, chain_calls ts fuel c calls = Ok rs /\
       Forall2 (fun x z => call_result (fst (fst x)) (snd (fst x)) ErrCP949UnexpectedStream (fst z) (snd z)) calls (combine outs rs)).
Proof.
  intros Hm. induction 1 as [|[[dst src] eof] calls Hb _ IH]; intros c Hr.
  { exists []. split; [constructor|]. split; [intros []|]. intros _. exists []. split; [reflexivity|constructor]. }
  cbn [fst snd] in Hb. destruct (chained_total cs ltac:(intros ->; cbn in *; lia) src Hb) as [o Ho].
  destruct (chain_call fuel c dst src eof o Hm Hr Hb Ho) as [Hlong Hok]. cbn [chain_calls].
  assert (o = TooLong \/ o <> TooLong) as [Hd|Hd] by (destruct o; [right|right|left]; congruence).
  - destruct (IH (Chain m) (ready_Chain ltac:(lia))) as (outs & H1 & _). exists (o :: outs). split; [constructor; [exact Ho|exact H1]|].
    split; [intros _; now rewrite (Hlong Hd)|]. intros Hn. destruct Hn. left. exact Hd.
  - destruct (Hok Hd) as (r & c' & Hrun & Hr' & Hres). destruct (IH c' Hr') as (outs & H1 & H2 & H3). exists (o :: outs).
    split; [constructor; [exact Ho|exact H1]|]. rewrite Hrun. cbn [bind]. split.
    + intros [Hin|Hin]; [contradiction|]. now rewrite (H2 Hin).
    + intros Hn. destruct (H3 (fun Hin => Hn (or_intror Hin))) as (rs & Hrs & Hall). rewrite Hrs. cbn [bind]. exists (r :: rs). split; [reflexivity|].
      cbn [combine]. constructor; [exact Hres|exact Hall].
Qed.
End Loop.
End Chain.

Lemma chain_lemma : exists f, char_code f /\
  forall grow cs calls fuel, cs <> [] -> (length cs < fuel)%nat -> Forall (fun x => Forall is_byte (snd (fst x))) calls ->
  exists outs, Forall2 (fun x o => chained f 4096 cs (snd (fst x)) o) calls outs /\
    (In TooLong outs -> chain_calls (map (fun c => match c with Dec => dec_Transform grow | Enc => enc_Transform grow end) cs) fuel (Chain (length cs)) calls = Panic) /\
    (~ In TooLong outs -> exists rs, chain_calls (map (fun c => match c with Dec => dec_Transform grow | Enc => enc_Transform grow end) cs) fuel (Chain (length cs)) calls = Ok rs /\
       Forall2 (fun x z => call_result (fst (fst x)) (snd (fst x)) ErrCP949UnexpectedStream (fst z) (snd z)) calls (combine outs rs)).
Proof.
  exists to_char. split; [exact char_code_to_char|]. intros grow cs calls fuel Hne Hf Hb.
  assert (0 < length cs)%nat by (destruct cs; [congruence|cbn; lia]).
  exact (chain_all grow cs fuel calls ltac:(lia) Hb (Chain (length cs)) (ready_Chain cs ltac:(lia))).
Qed.

Definition dbl (old need : Z) : Z := Z.max need (2 * old).
Definition long_text : list Z := concat (repeat [0xB0; 0xA1] 1366).
Lemma long_decodes n : decodes (concat (repeat [0xB0; 0xA1] n)) (repeat 0xAC00 n).
Proof.
  assert (H1 : decodes [0xB0; 0xA1] [0xAC00]).
  { assert (Hb : Forall is_byte [0xB0; 0xA1]) by (repeat constructor; unfold is_byte; lia).
    destruct (From_ok_inv dbl [0xB0; 0xA1] [0xEA; 0xB0; 0x80] Hb ltac:(vm_compute; reflexivity)) as (rs & Hd & Hr).
    pose proof (reads_as_utf8 rs (decodes_scalar _ _ Hd)) as H2. rewrite <- Hr in H2.
    rewrite <- (string_to_runes_eq [0xEA; 0xB0; 0x80] rs ltac:(repeat constructor; unfold is_byte; lia) H2) in Hd. exact Hd. }
  induction n as [|n IH]; [constructor|]. exact (decodes_app _ _ _ _ H1 IH).
Qed.
Lemma long_chars n : flat_map to_char (repeat 0xAC00 n) = concat (repeat [0xB0; 0xA1] n).
Proof.
  assert (H : to_char 0xAC00 = [0xB0; 0xA1]) by (vm_compute; reflexivity).
  induction n as [|n IH]; [reflexivity|]. cbn [repeat flat_map concat]. now rewrite H, IH.
Qed.
Lemma long_utf8 n : zlen (utf8 (repeat 0xAC00 n)) = 3 * Z.of_nat n /\ zlen (concat (repeat [0xB0; 0xA1] n)) = 2 * Z.of_nat n.
Proof.
  induction n as [|n [IH1 IH2]]; [split; reflexivity|]. cbn [repeat]. change (0xAC00 :: repeat 0xAC00 n) with ([0xAC00] ++ repeat 0xAC00 n).
  rewrite utf8_app, zlen_app. cbn [concat]. rewrite zlen_app, IH1, IH2. change (zlen (utf8 [0xAC00])) with 3. change (zlen [0xB0; 0xA1]) with 2. lia.
Qed.
Lemma chain_refuted : exists src out,
  From dbl src = Ok (inl out) /\ To dbl out = Ok (inl src) /\ zlen src = 2732 /\
  forall fuel, (2 < fuel)%nat -> chain_Transform [dec_Transform dbl; enc_Transform dbl] fuel (Chain 2) (zeros 4096) src true = Panic.
Proof.
  assert (Hb : Forall is_byte long_text).
  { unfold long_text. generalize 1366%nat; intros N; induction N as [|n IH]; [constructor|]. cbn [repeat concat]. apply Forall_app. split; [|exact IH]. repeat constructor; unfold is_byte; lia. }
  pose proof (long_decodes 1366) as Hd. pose proof (long_chars 1366) as Hc. destruct (long_utf8 1366) as [H1 H2]. fold long_text in Hd, Hc, H2.
  set (rs := repeat 0xAC00 1366) in *. clearbody rs. remember long_text as src eqn:Hs. clear Hs. pose proof (decodes_scalar _ _ Hd) as Hsc.
  exists src, (utf8 rs). split; [now apply From_decodes|]. split; [|split; [lia|]].
  { rewrite (To_reads dbl (utf8 rs) rs (utf8_bytes _ Hsc) (reads_as_utf8 rs Hsc)). now rewrite Hc. }
  intros fuel Hf.
  refine (proj1 (chain_call dbl [Dec; Enc] fuel (Chain 2) (zeros 4096) src true TooLong _ (ready_Chain [Dec; Enc] _) Hb _) eq_refl); cbn [length]; try lia.
  apply chained_long with (mid := utf8 rs); [exists rs; split; [exact Hd|reflexivity]|]. unfold defaultBufSize. lia.
Qed.
