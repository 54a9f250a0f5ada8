(** How many steps a Writer takes. *)
From Coq Require Import String ZArith List Bool Lia.
From Verif Require Import Base Utf8 SortSearch TableFrom TableTo Cp949Model StreamModel IoModel TransformModel GoLang GoSource GoTime GoFacts GoHeap GoCp949 GoStream
  Facts Utf8Facts SliceFacts Spec SpecCp949 SpecIO TableFacts Cp949Facts StreamFacts StreamFacts2 StreamFacts3 StreamFacts5 SourceSpec SourceFacts SourceFacts2 MemorySpec MemoryFacts TimeFacts TimeSpec TimeCp949.
Import ListNotations.
Local Open Scope string_scope.
Local Open Scope list_scope.
Local Open Scope Z_scope.
Local Open Scope go_scope.
Local Opaque fromTable toTable.
Local Arguments Z.add : simpl never.
Local Arguments Z.sub : simpl never.
Local Arguments Z.mul : simpl never.
Local Arguments Z.leb : simpl never.
Local Arguments Z.ltb : simpl never.
Local Arguments Z.geb : simpl never.
Local Arguments Z.gtb : simpl never.
Local Arguments Z.eqb : simpl never.
Local Arguments cells : simpl never.
Local Arguments field_of : simpl never.
Local Arguments set_field : simpl never.
Local Arguments slice_of : simpl never.
Local Arguments GoLang.run : simpl never.
Local Arguments GoTime.run_steps : simpl never.

Section Run.
Variable grow : Z -> Z -> Z.
Variable E : Type.
Variable rd : nat -> E -> Z -> Z * list Z * option error * E.
Variable wr : nat -> E -> list Z -> Z * option error * E.
Variable kx : nat.
Notation state := (state E).
Notation run := (GoLang.run grow E rd wr prog_cp949).
Notation run_steps := (GoTime.run_steps grow E rd wr prog_cp949).
Notation tables := (TimeFacts.tables E).
Notation within := (TimeFacts.within E).
Notation size s := (allocated (arrs E s)).
Notation wst := (wst E kx).

Lemma If_within n e a b be bb env s : ebound known2 e = Some be -> tables s ->
  (forall x s1, eval grow E rd wr (run n) n e env s = Ok (VBool x, s1) -> tables s1 -> forall K env2 s2,
     exec grow E rd wr (run n) n (if x then a else b) env s1 = Ok (K, env2, s2) ->
     within bb (exec_steps grow E rd wr (run n) (run_steps n) n (if x then a else b) env s1) s1 s2) ->
  forall K env2 s2, exec grow E rd wr (run n) n (If e a b) env s = Ok (K, env2, s2) ->
  within (1 + be + bb) (exec_steps grow E rd wr (run n) (run_steps n) n (If e a b) env s) s s2.
Proof.
  intros He Ht H K env2 s2 Hx.
  change (exec grow E rd wr (run n) n (If e a b) env s) with
    (let! (v, s) := eval grow E rd wr (run n) n e env s in let! x := as_bool v in
     if x then exec grow E rd wr (run n) n a env s else exec grow E rd wr (run n) n b env s) in Hx.
  change (exec_steps grow E rd wr (run n) (run_steps n) n (If e a b) env s) with
    (1 + (eval_steps grow E rd wr (run n) (run_steps n) n e env s + after E (eval grow E rd wr (run n) n e env s) (fun v s =>
     match v with
     | VBool true => exec_steps grow E rd wr (run n) (run_steps n) n a env s
     | VBool false => exec_steps grow E rd wr (run n) (run_steps n) n b env s
     | _ => 0 end))).
  destruct (exprs_fine grow E rd wr (run n) (run_steps n) n known2 (known2_ok grow E rd wr n) e be He) as [He0 He1].
  destruct (eval grow E rd wr (run n) n e env s) as [[v s1]| |] eqn:Hv; try discriminate. cbn [bind after] in *.
  destruct (He1 _ _ _ _ Ht Hv) as (T1 & T2 & T3).
  destruct v; try discriminate. cbn [as_bool bind] in Hx.
  specialize (H _ _ eq_refl T1 K env2 s2).
  destruct b0; destruct (H Hx) as (T4 & T5 & T6); (split; [assumption|]); split; lia.
Qed.

Notation list_within := (list_within grow E rd wr).
Notation Block_within := (Block_within grow E rd wr).
Notation steps_fine := (steps_fine grow E rd wr).
Ltac fine := intros; eapply within_le; [eapply steps_fine; [reflexivity|assumption|eassumption]|vm_compute; discriminate].

Lemma Write_steps s p pt ls w ld od nd cd data :
  is_writer E kx s p pt ls w -> input (arrs _ s) ld od nd cd data -> sep (arrs _ s) ld ls -> Forall is_byte data -> tables s ->
  exists N, forall n, (N <= n)%nat -> forall v s',
    run n "cp949Writer.Write" [VPtr p; VSlice ld od nd cd] s = Ok (v, s') ->
    within (361 * (zlen data + 1) + 200) (run_steps n "cp949Writer.Write" [VPtr p; VSlice ld od nd cd] s) s s'.
Proof.
  intros (Hne & Hop & Hot & Hr & Hbuf) Hi Hsep Hb Htab.
  destruct s as [A O X]. cbn [arrs objs ext] in *.
  assert (Hp : (p < length O)%nat) by (apply nth_error_Some; congruence).
  assert (Hpt : (pt < length O)%nat) by (apply nth_error_Some; congruence).
  destruct w as [Xw scr buf]. cbn [w_dst w_scratch w_buf] in *. subst buf.
  pose proof (input_len _ _ _ _ _ _ Hi) as Hnd. subst nd.
  destruct (to_Translate_spec grow scr data (proj2 (proj2 Hr)) Hb) as (scr1 & Hok1 & Hc1 & Ht).
  set (O1 := set_nth p (wob kx pt) O).
  assert (Hpt1 : (pt < length O1)%nat) by (unfold O1; now rewrite set_nth_len).
  destruct (go_to_Translate grow E rd wr O1 X pt "translateToCp949" toTable ld A ls scr data od (zlen data) cd _ _ _ _
     Hpt1 Hr Hi Hsep Ht) as (A1 & ls1 & Hr1 & Hg1 & _ & _ & N1 & Hrun).
  assert (Hzl : zlen data <? zlen data = false) by lia.
  assert (Hst : mkState E A O X = wst A O X p pt (sv ls scr)).
  { unfold GoStream.wst, GoCp949.trs. rewrite (set_nth_id p) by assumption. rewrite set_nth_id by assumption. reflexivity. }
  rewrite Hst in *.
  destruct (to_Translate_steps grow E rd wr O1 X pt "translateToCp949" toTable ld A ls scr data od (zlen data) cd _ _ _ _
     Hpt1 Hr Hi Hsep Ht Htab) as (N2 & Hsteps).
  exists (S (N1 + N2)). intros [|n] Hn v s' Hres; [lia|]. specialize (Hrun n ltac:(lia)). specialize (Hsteps n ltac:(lia) _ _ Hrun).
  rewrite run_S in Hres. rewrite run_steps_S. cbn [the get bind prog_cp949 String.eqb Ascii.eqb Bool.eqb] in *.
  apply (enter_within _ _ _ _ _ (run_steps n) _ _ (361 * (zlen data + 1) + 197)) in Hres; [|reflexivity|].
  { destruct Hres as [_ (H1 & H2 & H3)]. split; [assumption|]. split; [assumption|]. change (zlen (f_params f_cp949Writer_Write)) with 2 in H3. lia. }
  clear Hres v s'. cbn [f_body f_cp949Writer_Write f_params combine]. pose proof (zlen_nonneg data).
  replace (361 * (zlen data + 1) + 197) with (1 + (5 + (15 + (361 * (zlen data + 1) + 50 + (15 + (40 + (20 + (20 + (20 + 11))))))))) by ring.
  apply Block_within. apply list_within; [lia|fine|].
  intros env1 s1 Hx _. erewrite exec_Define in Hx; [|reflexivity|reflexivity]. cbn [combine app] in Hx. injection Hx as <- <-.
  apply list_within; [lia| |].
  { intros K env1 s1 Hx. replace 15 with (1 + 5 + 9) by ring. eapply If_within; [reflexivity|assumption| |exact Hx].
    intros x s2 Hv T2. cbn in Hv. rewrite wf_buf in Hv by assumption. cbn in Hv. injection Hv as <- <-.
    change (0 >? 0) with false. cbv iota. fine. }
  intros env1 s1 Hx _.
  erewrite exec_If in Hx; [|cbn; rewrite wf_buf by assumption; reflexivity|eapply exec_Block; reflexivity]. cbn [leave length Nat.sub skipn] in Hx. injection Hx as <- <-.
  assert (exec grow E rd wr (run n) n (Define ["n"; "cdata"; "err"] (Method (Field (Var "w") "tr") "Translate" [(Var "wdata")]))
    [("wdata", VSlice ld od (zlen data) cd); ("w", VPtr p); ("data", VSlice ld od (zlen data) cd)] (wst A O X p pt (sv ls scr)) =
    Ok (Next, combine ["n"; "cdata"; "err"] [VInt (zlen data); sv ls1 scr1; VErr None] ++
     [("wdata", VSlice ld od (zlen data) cd); ("w", VPtr p); ("data", VSlice ld od (zlen data) cd)],
     wst A1 O X p pt (sv ls1 scr1))) as H3.
  { eapply exec_Define.
    - cbn. rewrite wf_tr by assumption. cbn.
      rewrite nth_error_set_nth by (rewrite set_nth_len; assumption). cbn. exact Hrun.
    - reflexivity. }
  cbn [combine app] in H3. apply list_within; [lia| |].
  { intros K env1 s1 Hx. rewrite H3 in Hx. injection Hx as <- <- <-.
    destruct Hsteps as (T1 & T2 & T3). split; [assumption|]. split; [assumption|].
    cbn. rewrite wf_tr by assumption. cbn. rewrite nth_error_set_nth by (rewrite set_nth_len; assumption). cbn.
    unfold GoStream.wst. fold O1. unfold GoCp949.trs in T3 at 2 3. cbn [arrs] in T3. cbn. lia. }
  intros env1 s1 Hx T1. rewrite H3 in Hx. injection Hx as <- <-. clear H3 Hsteps.
  apply list_within; [lia|fine|].
  intros env1 s1 Hx _. erewrite exec_If in Hx; [|reflexivity|eapply exec_Block; reflexivity]. cbn [leave length Nat.sub skipn] in Hx. injection Hx as <- <-.
  set (env1 := fun v => [("n", VInt (zlen data)); ("cdata", sv ls1 scr1); ("err", VErr v); ("wdata", VSlice ld od (zlen data) cd);
                         ("w", VPtr p); ("data", VSlice ld od (zlen data) cd)]).
  change [("n", VInt (zlen data)); ("cdata", VSlice ls1 0 (slen scr1) (scap scr1)); ("err", VErr None); ("wdata", VSlice ld od (zlen data) cd);
                         ("w", VPtr p); ("data", VSlice ld od (zlen data) cd)] with (env1 None).
  change (VSlice ls1 0 (slen scr1) (scap scr1)) with (sv ls1 scr1) in *.
  assert (Hout : exists e X1, exec grow E rd wr (run n) n (Assign [LBlank; LVar "err"] (Method (Field (Var "w") "w") "Write" [(Var "cdata")]))
     (env1 None) (wst A1 O X p pt (sv ls1 scr1)) = Ok (Next, env1 e, wst A1 O X1 p pt (sv ls1 scr1))).
  { destruct (wr kx X (cells E (wst A1 O X p pt (sv ls1 scr1)) ls1 0 (slen scr1))) as [[cnt e] X1] eqn:Hw. exists e, X1.
    cbn. rewrite wf_w by assumption. cbn. rewrite Hw. reflexivity. }
  destruct Hout as (e & X1 & Hout).
  apply list_within; [lia| |].
  { intros K env2 s2 Hx. replace 40 with (1 + 3 + 36) by ring. eapply If_within; [reflexivity|assumption| |exact Hx].
    clear K env2 s2 Hx. intros x s2 Hv T2. assert (s2 = wst A1 O X p pt (sv ls1 scr1)) as -> by (cbn in Hv; congruence). clear Hv.
    destruct x; [|fine]. replace 36 with (1 + (15 + (20 + 0))) by ring. apply Block_within.
    apply list_within; [lia| |].
    - intros K env2 s2 Hx. rewrite Hout in Hx. injection Hx as <- <- <-. split; [exact T1|]. split; [cbn; lia|].
      cbn. rewrite wf_w by assumption. cbn. destruct (wr kx X _) as [[cnt e1] X2]. cbn. lia.
    - intros env2 s2 _ T3. apply list_within; [lia|fine|].
      intros env3 s3 H3 T4 K4 env4 s4 H4. injection H4 as <- <- <-. split; [assumption|]. split; cbn; lia. }
  intros env2 s2 Hx T3.
  assert (exists e X1, env2 = env1 e /\ s2 = wst A1 O X1 p pt (sv ls1 scr1)) as (e2 & X2 & -> & ->).
  { destruct (zlen data >? 0) eqn:Hpos.
    - erewrite exec_If in Hx; [|cbn; rewrite Hpos; reflexivity|reflexivity].
      change (exec grow E rd wr (run n) n (Block ?cs) ?env ?s) with
        (let! (k, env', s') := execs grow E rd wr (run n) n cs env s in Ok (k, leave env env', s')) in Hx.
      cbn [execs] in Hx. rewrite Hout in Hx. cbn [bind] in Hx.
      exists e, X1. destruct e; cbn in Hx; [discriminate|]. injection Hx as <- <-. split; reflexivity.
    - erewrite exec_If in Hx; [|cbn; rewrite Hpos; reflexivity|eapply exec_Block; reflexivity]. cbn in Hx. injection Hx as <- <-. exists None, X. split; reflexivity. }
  clear Hx Hout e X1.
  apply list_within; [lia|fine|].
  intros env3 s3 Hx T4.
  assert (exec grow E rd wr (run n) n (Assign [LField (Var "w") "buf"] (Slice (Field (Var "w") "buf") (Lit 0) (Lit 0)))
    (env1 e2) (wst A1 O X2 p pt (sv ls1 scr1)) = Ok (Next, env1 e2, wst A1 O X2 p pt (sv ls1 scr1))) as H4.
  { eapply exec_Field.
    { cbn. rewrite wf_buf by assumption. reflexivity. }
    { reflexivity. }
    { apply ws_buf; assumption. } }
  rewrite H4 in Hx. clear H4.
  injection Hx as <- <-.
  apply list_within; [lia| |].
  { intros K env3 s3 Hx. replace 20 with (1 + 4 + 15) by ring. eapply If_within; [reflexivity|assumption| |exact Hx].
    intros x s4 Hv T5. cbn in Hv. rewrite Hzl in Hv. injection Hv as <- <-. fine. }
  intros env3 s3 Hx T5. replace (20 + 11) with (31 + 0) by ring. apply list_within; [lia|fine|].
  intros env4 s4 H3 T6 K4 env5 s5 H4. injection H4 as <- <- <-. split; [assumption|]. split; cbn; lia.
Qed.

Notation is_writer := (GoStream.is_writer E kx).
Notation wr_model := (GoStream.wr_model E wr kx).
Lemma writes_time p pt evs : forall own s ls w outs w',
  tables s -> is_writer s p pt ls w -> ext E s = w_dst _ w -> NoDup own -> mine (arrs E s) own ls ->
  sensible 0 (map zlen (seen (arrs E s) own)) evs -> Forall (Forall is_byte) (chunks (seen (arrs E s) own) evs) ->
  write_all grow E wr_model w (chunks (seen (arrs E s) own) evs) = Ok (outs, w') ->
  exists own' s' t, writes grow E rd wr prog_cp949 p own s evs outs own' s' /\
    writes_take grow E rd wr prog_cp949 p own s evs t /\
    exists b, regrows grow (scap (w_scratch _ w)) (scap (w_scratch _ w')) b /\
      t <= 361 * all_bytes evs + 561 * zlen (sizes evs) + 5 * b.
Proof.
  induction evs as [|[h a|a|h o n c] evs IH]; intros own s ls w outs w' Htab Hw Hx Hnd Hms Hsens Hby Hm.
  - injection Hm as <- <-. exists own, s, 0. split; [constructor|]. split; [constructor|].
    exists 0. split; [constructor|]. cbn. lia.
  - destruct Hsens as [Hh Hsens]. unfold seen in Hh. rewrite map_map in Hh. apply nth_error_map_some in Hh.
    destruct Hh as (l & Hh & Hlen). apply length_zlen in Hlen.
    assert (Hin : In l own) by (eapply nth_error_In; eassumption).
    destruct (Hms l Hin) as [Hl Hsl].
    assert (Hs : seen (arrs E (set_arr E s l a)) own = set_nth h a (seen (arrs E s) own)).
    { apply (seen_change _ _ own h l a); try assumption.
      - apply cell_set. assumption.
      - intros j _ Hj. apply cell_set_ne. congruence. }
    cbn [chunks] in Hm, Hby. rewrite <- Hs in Hm, Hby.
    destruct (IH own (set_arr E s l a) ls w outs w') as (own' & s' & t & H1 & H2 & b & Hb & Ht); try assumption.
    + apply is_writer_store; auto.
    + apply mine_store; auto.
    + rewrite Hs, map_set_nth. replace (set_nth h (zlen a) (map zlen (seen (arrs E s) own))) with (map zlen (seen (arrs E s) own));
        [assumption|]. symmetry. apply set_nth_id. unfold seen. rewrite map_map, nth_error_map, Hh. cbn. f_equal.
      unfold zlen. now rewrite Hlen.
    + exists own', s', t. split; [econstructor; eassumption|]. split; [econstructor; eassumption|].
      exists b. split; [assumption|]. exact Ht.
  - assert (L1 : (ls < length (arrs E s))%nat) by (destruct Hw as (_ & _ & _ & (H1 & _) & _); exact H1).
    assert (Hs : seen (arrs E (snd (new_arr E s a))) (own ++ [fst (new_arr E s a)]) = seen (arrs E s) own ++ [a]).
    { unfold seen. rewrite map_app. cbn [new_arr fst snd arrs map]. rewrite cell_new. f_equal. apply seen_new. apply Forall_forall. intros j Hj.
      apply Hms. assumption. }
    cbn [chunks] in Hm, Hby. rewrite <- Hs in Hm, Hby.
    destruct (IH (own ++ [fst (new_arr E s a)]) (snd (new_arr E s a)) ls w outs w') as (own' & s' & t & H1 & H2 & b & Hb & Ht); try assumption.
    + apply is_writer_new. assumption.
    + apply NoDup_rev in Hnd. rewrite <- (rev_involutive (own ++ _)), rev_app_distr. apply NoDup_rev. cbn.
      constructor; [|assumption]. rewrite <- in_rev. intros Hi. destruct (Hms _ Hi). lia.
    + apply mine_new; assumption.
    + rewrite Hs, map_app. exact Hsens.
    + exists own', s', t. split; [constructor; assumption|]. split; [constructor; assumption|]. exists b. split; [assumption|]. exact Ht.
  - destruct Hsens as [(k & Hh & Ho & Hn & Hc) Hsens]. unfold seen in Hh. rewrite map_map in Hh.
    apply nth_error_map_some in Hh. destruct Hh as (l & Hh & Hlen).
    assert (Hin : In l own) by (eapply nth_error_In; eassumption).
    destruct (Hms l Hin) as [Hl Hsl].
    assert (Hnth : nth h (seen (arrs E s) own) [] = cell (arrs E s) l).
    { apply nth_error_nth. unfold seen. rewrite nth_error_map, Hh. reflexivity. }
    cbn [chunks] in Hm, Hby. inversion Hby as [|? ? Hby1 Hby2]; subst. rewrite Hnth in Hm, Hby1. cbn [write_all] in Hm.
    destruct (Write grow E wr_model w (ztake n (zdrop o (cell (arrs E s) l)))) as [[[k1 err] w1]| |] eqn:Hwr; try discriminate.
    cbn [bind] in Hm.
    destruct (write_all grow E wr_model w1 (chunks (seen (arrs E s) own) evs)) as [[rs w2]| |] eqn:Hrest; try discriminate.
    cbn [bind] in Hm. injection Hm as <- <-.
    destruct (go_Write grow E rd wr kx s p pt ls w l o n c (ztake n (zdrop o (cell (arrs E s) l))) k1 err w1)
      as (s1 & ls' & Hw1 & Hx1 & _ & (Hle & Hls & Hoth & _ & b1 & Hb1 & Ht1) & N & Hrun); try assumption.
    { repeat split; try assumption; lia. }
    assert (Hin1 : input (arrs E s) l o n c (ztake n (zdrop o (cell (arrs E s) l)))) by (repeat split; try assumption; lia).
    destruct (Write_steps s p pt ls w l o n c _ Hw Hin1 Hsl Hby1 Htab) as (N2 & Hsteps).
    pose proof (input_len _ _ _ _ _ _ Hin1) as Hnn. rewrite Hnn in Hsteps.
    assert (Hs : seen (arrs E s1) own = seen (arrs E s) own).
    { apply map_ext_in. intros j Hj. destruct (Hms j Hj) as [Hj1 Hj2]. now apply Hoth. }
    rewrite <- Hs in Hrest, Hby2.
    destruct (IH own s1 ls' w1 rs w2) as (own' & s' & t & H1 & H2 & b & Hb & Ht); try assumption.
    + destruct (Hsteps (N + N2)%nat ltac:(lia) _ _ (Hrun (N + N2)%nat ltac:(lia))) as (T1 & _). exact T1.
    + intros j Hj. destruct (Hms j Hj) as [Hj1 Hj2]. split; [lia|]. unfold sep. rewrite Hoth by assumption.
      destruct Hls as [->|Hls]; [assumption|left; lia].
    + now rewrite Hs.
    + exists own', s', (361 * (n + 1) + 200 + 5 * b1 + t). split; [|split].
      * econstructor; [eassumption|exists N; exact Hrun|eassumption].
      * econstructor; [eassumption|exists N; exact Hrun| |eassumption].
        exists (N + N2)%nat. intros fuel Hf. destruct (Hsteps fuel ltac:(lia) _ _ (Hrun fuel ltac:(lia))) as (_ & _ & T3).
        change allocated with total in T3. lia.
      * destruct Hw as (_ & _ & _ & (_ & C1 & _) & _). destruct Hw1 as (_ & _ & _ & (_ & C2 & _) & _).
        rewrite C1, C2 in Hb1.
        exists (b1 + b). split; [eapply regrows_trans; eassumption|]. unfold all_bytes in *. cbn [sizes fold_right]. rewrite zlen_cons. lia.
Qed.

Lemma writer_session_time A O X evs :
  nil_ok A -> Forall (Forall is_byte) A -> Forall event_bytes evs -> sensible 0 (map zlen A) evs -> tables (mkState E A O X) ->
  exists p s0 outs own s t,
    calls grow E rd wr prog_cp949 "NewWriter" [VExt kx] (mkState E A O X) (VTuple [VPtr p; VErr None]) s0 /\ arrs E s0 = A /\
    writes grow E rd wr prog_cp949 p (seq 0 (length A)) s0 evs outs own s /\
    writes_take grow E rd wr prog_cp949 p (seq 0 (length A)) s0 evs t /\
    exists w' b, write_all grow E wr_model (NewWriter X) (chunks A evs) = Ok (outs, w') /\
      regrows grow 0 (scap (w_scratch _ w')) b /\ t <= 361 * all_bytes evs + 561 * zlen (sizes evs) + 5 * b.
Proof.
  intros Hn HA He Hsens Htab.
  destruct (go_NewWriter grow E rd wr kx A O X Hn) as (s0 & Hw & Hx & Ha & Hold & Hlen & Hrun).
  pose proof (chunks_bytes evs A HA He) as Hch.
  destruct (C53_lemma grow E wr_model X (chunks A evs) Hch) as (pairs & w' & Hp & Hto & Hall & Hdst).
  destruct (writes_time (S (length O)) (length O) evs (seq 0 (length A)) s0 0%nat (NewWriter X) (fst (writes_spec wr_model X pairs)) w')
    as (own & s & t & H1 & H2 & b & Hb & Ht); try assumption.
  - destruct Hw as (_ & Hw1 & Hw2 & _). apply Forall_forall. intros o Ho v Hv.
    apply In_nth_error in Ho. destruct Ho as [q Hq].
    destruct (Nat.lt_ge_cases q (length O)) as [Hlt|Hge].
    + rewrite Hold in Hq by assumption. apply nth_error_In in Hq. unfold TimeFacts.tables in Htab. cbn [objs] in Htab. rewrite Forall_forall in Htab. eauto.
    + assert (q < length (objs E s0))%nat by (apply nth_error_Some; congruence).
      assert (q = length O \/ q = S (length O)) as [-> | ->] by lia.
      * rewrite Hw2 in Hq. injection Hq as <-. cbn in Hv. injection Hv as <-. exists toTable. split; [reflexivity|apply zlen_toTable].
      * rewrite Hw1 in Hq. injection Hq as <-. cbn in Hv. discriminate.
  - apply seq_NoDup.
  - rewrite Ha. now apply mine_all.
  - rewrite Ha, own_all. assumption.
  - rewrite Ha, own_all. assumption.
  - rewrite Ha, own_all. assumption.
  - exists (S (length O)), s0, (fst (writes_spec wr_model X pairs)), own, s, t.
    split; [exists 2%nat; intros n Hle; destruct n as [|[|n]]; [lia|lia|apply Hrun]|].
    split; [assumption|]. split; [assumption|]. split; [assumption|]. exists w', b. auto.
Qed.
End Run.

Lemma C129_Writer_lemma grow : amortised grow -> forall E rd wr k A O X evs W,
  has_nil A -> Forall (Forall is_byte) A -> Forall event_bytes evs -> sensible 0 (map zlen A) evs ->
  Forall (fun d => zlen d <= W) (chunks A evs) -> 0 <= W -> package_tables E (mkState E A O X) ->
  exists p s0 outs own s t,
    calls grow E rd wr prog_cp949 "NewWriter" [VExt k] (mkState E A O X) (VTuple [VPtr p; VErr None]) s0 /\ arrs E s0 = A /\
    writes grow E rd wr prog_cp949 p (seq 0 (length A)) s0 evs outs own s /\
    writes_take grow E rd wr prog_cp949 p (seq 0 (length A)) s0 evs t /\
    t <= 361 * all_bytes evs + 561 * zlen (sizes evs) + 180 * W + 1920.
Proof.
  intros Hgrow E rd wr k A O X evs W Hn HA He Hs HW H0 Htab.
  destruct (writer_session_time grow E rd wr k A O X evs Hn HA He Hs (package_tables_ok _ _ Htab)) as (p & s0 & outs & own & s & t & H1 & H2 & H3 & H4 & w' & b & H7 & Hr & Ht).
  exists p, s0, outs, own, s, t. split; [exact H1|]. split; [exact H2|]. split; [exact H3|]. split; [exact H4|].
  apply (write_all_cap grow Hgrow E _ W _ (chunks_bytes evs A HA He) HW) in H7; [|split; [apply nil_slice_ok|reflexivity]].
  apply (regrows_bound grow Hgrow) in Hr; [|lia]. change (scap (w_scratch E (NewWriter X))) with 0 in H7. unfold lim in H7. lia.
Qed.

(** ** Transform *)
Lemma total_nonneg A : 0 <= total A.
Proof. induction A as [|a A IH]; cbn [total]; [lia|]. pose proof (zlen_nonneg a). lia. Qed.
Lemma cell_total A : forall l, zlen (cell A l) <= total A.
Proof.
  induction A as [|a A IH]; intros l.
  - unfold cell. destruct l; cbn [nth total]; rewrite zlen_nil; lia.
  - cbn [total]. pose proof (zlen_nonneg a). pose proof (total_nonneg A). destruct l as [|l]; [change (cell (a :: A) 0) with a; lia|].
    change (cell (a :: A) (S l)) with (cell A l). specialize (IH l). lia.
Qed.
Lemma keeps_total A : forall A' l, keeps A A' -> (length A <= l)%nat -> zlen (cell A' l) <= total A' - total A.
Proof.
  induction A as [|a A IH]; intros A' l [H1 H2] Hl.
  - cbn [total]. pose proof (cell_total A' l). lia.
  - destruct A' as [|a' A']; [cbn in H1; lia|]. destruct l as [|l]; [cbn in Hl; lia|].
    pose proof (H2 0%nat ltac:(cbn; lia)) as Ha. cbn in Ha. subst a'. cbn [total].
    change (cell (a :: A') (S l)) with (cell A' l).
    assert (zlen (cell A' l) <= total A' - total A); [|lia]. apply IH; [|cbn in Hl; lia].
    split; [cbn in H1; lia|]. intros j Hj. apply (H2 (S j)). cbn. lia.
Qed.

Section Transform.
Variable grow : Z -> Z -> Z.
Variable E : Type.
Variable rd : nat -> E -> Z -> Z * list Z * option error * E.
Variable wr : nat -> E -> list Z -> Z * option error * E.
Notation run := (GoLang.run grow E rd wr prog_cp949).
Notation run_steps := (GoTime.run_steps grow E rd wr prog_cp949).
Local Arguments Z.min : simpl never.
Local Arguments Z.max : simpl never.
Lemma Transform_steps f n d ld od nd cd l0 o0 n0 c0 eof s s1 x e b m : f = "Decoder" \/ f = "Encoder" ->
  let g := if String.eqb f "Decoder" then "From" else "To" in
  run n g [VSlice l0 o0 n0 c0] s = Ok (VTuple [x; VErr e], s1) -> run_steps n g [VSlice l0 o0 n0 c0] s <= b ->
  (e = None -> exists l o k c, x = VSlice l o k c /\ 0 <= k <= m) -> 0 <= m ->
  run_steps (S n) (String.append "cp949" (String.append f ".Transform")) [d; VSlice ld od nd cd; VSlice l0 o0 n0 c0; eof] s <= b + m + 60.
Proof.
  intros Hf g Hr Hb Hx Hm. rewrite run_steps_S.
  destruct Hf as [-> | ->]; subst g; cbn [the get bind prog_cp949 String.eqb Ascii.eqb Bool.eqb String.append] in *;
  unfold enter_steps; cbn; rewrite Hr; cbn; (destruct e; cbn; [lia|]);
  destruct (Hx eq_refl) as (l & o & k & c & -> & Hk); cbn; lia.
Qed.

Hypothesis Hgrow : amortised grow.
Lemma C129_Decoder_lemma s d dst src eof old data : has_nil (arrs E s) ->
  slice_holds (arrs E s) dst old -> slice_holds (arrs E s) src data -> Forall is_byte data -> package_tables E s ->
  exists r s', calls grow E rd wr prog_cp949 "cp949Decoder.Transform" [VPtr d; dst; src; VBool eof] s r s' /\
    takes grow E rd wr prog_cp949 "cp949Decoder.Transform" [VPtr d; dst; src; VBool eof] s (717 * zlen data + 3005).
Proof.
  intros Hn Hd Hi Hb Ht. destruct (C120_From_lemma grow Hgrow E rd wr s src data Hn Hi Hb) as (r & s' & (N1 & H1) & H2).
  destruct s as [A O X]. apply holds_input in Hi, Hd. destruct Hi as (l & o & n & c & -> & Hi), Hd as (l1 & o1 & n1 & c1 & -> & Hd). cbn [arrs] in *.
  assert (exists c' out err sl', from_Translate grow fromTable nil_slice data = Ok (c', out, err, sl')) as (c' & out & err & sl' & Hf).
  { destruct (decodes_or_cut data Hb) as [(rs & Hdd)|(a & Hc)].
    - destruct (from_Translate_complete grow nil_slice data rs nil_slice_ok Hdd) as (s1 & _ & _ & ->). eauto.
    - destruct (from_Translate_cut grow nil_slice data a nil_slice_ok Hc) as (s1 & _ & ->). eauto. }
  destruct (From_steps grow E rd wr A O X l o n c data c' out err sl' Hn Hi Hb Hf (package_tables_ok _ _ Ht)) as (N2 & H3).
  destruct (go_From_spends grow E rd wr A O X l o n c data c' out err sl' Hn Hi Hb Hf) as (A0 & v & Hk & Hret & _ & ob & N3 & Hrun).
  destruct (dec_Transform grow old data eof) as [[[[dst' nDst] nSrc] e]| |] eqn:Htr.
  2, 3: exfalso; unfold dec_Transform, From in Htr; rewrite Hf in Htr; cbn [bind] in Htr; destruct (of_translate _); discriminate.
  destruct (go_dec_Transform grow E rd wr A O X d l1 o1 n1 c1 old l o n c data eof dst' nDst nSrc e Hn Hd Hi Hb Htr) as (A' & _ & _ & _ & _ & _ & oo & N4 & Hrun4).
  eexists _, _. split; [exists N4; exact Hrun4|].
  exists (S (N1 + N2 + N3)). intros [|m] Hm; [lia|].
  pose proof (Hrun m ltac:(lia)) as R1. pose proof (H1 m ltac:(lia)) as R2. rewrite R1 in R2. injection R2 as <- <-. cbn [arrs] in H2.
  destruct (H3 m ltac:(lia) _ _ R1) as (_ & H5 & H4). cbn [arrs] in H4, H5.
  assert (exists x e1, v = VTuple [x; VErr e1] /\ (e1 = None -> exists l o k c, x = VSlice l o k c /\ 0 <= k <= allocated A0 - allocated A)) as (x & e1 & -> & Hx).
  { unfold returns in Hret. destruct (of_translate _) as [bs|e1].
    - destruct Hret as (l2 & n2 & c2 & -> & Hin2 & Hfresh). eexists _, _. split; [reflexivity|]. intros _.
      exists l2, 0, n2, c2. split; [reflexivity|]. destruct Hin2 as (_ & _ & Hn2 & Hc2 & _). change allocated with total in *.
      destruct Hfresh as [[-> _]|Hfresh]; [lia|]. pose proof (keeps_total A A0 l2 Hk Hfresh). lia.
    - subst v. eexists _, _. split; [reflexivity|]. discriminate. }
  pose proof (Transform_steps "Decoder" m (VPtr d) l1 o1 n1 c1 l o n c (VBool eof) _ _ _ _ _ (allocated A0 - allocated A) (or_introl eq_refl) R1 H4 Hx ltac:(lia)) as H6.
  cbn [String.append] in H6. lia.
Qed.
Lemma C129_Encoder_lemma s d dst src eof old data : has_nil (arrs E s) ->
  slice_holds (arrs E s) dst old -> slice_holds (arrs E s) src data -> Forall is_byte data -> package_tables E s ->
  exists r s', calls grow E rd wr prog_cp949 "cp949Encoder.Transform" [VPtr d; dst; src; VBool eof] s r s' /\
    takes grow E rd wr prog_cp949 "cp949Encoder.Transform" [VPtr d; dst; src; VBool eof] s (577 * zlen data + 2865).
Proof.
  intros Hn Hd Hi Hb Ht. destruct (C120_To_lemma grow Hgrow E rd wr s src data Hn Hi Hb) as (r & s' & (N1 & H1) & H2).
  destruct s as [A O X]. apply holds_input in Hi, Hd. destruct Hi as (l & o & n & c & -> & Hi), Hd as (l1 & o1 & n1 & c1 & -> & Hd). cbn [arrs] in *.
  destruct (to_Translate_spec grow nil_slice data nil_slice_ok Hb) as (sl' & _ & _ & Hf).
  destruct (To_steps grow E rd wr A O X l o n c data _ _ _ _ Hn Hi Hf (package_tables_ok _ _ Ht)) as (N2 & H3).
  destruct (go_To_spends grow E rd wr A O X l o n c data _ _ _ _ Hn Hi Hf) as (A0 & v & Hk & Hret & _ & ob & N3 & Hrun).
  destruct (enc_Transform grow old data eof) as [[[[dst' nDst] nSrc] e]| |] eqn:Htr.
  2, 3: exfalso; unfold enc_Transform, To in Htr; rewrite Hf in Htr; cbn [bind] in Htr; destruct (of_translate _); discriminate.
  destruct (go_enc_Transform grow E rd wr A O X d l1 o1 n1 c1 old l o n c data eof dst' nDst nSrc e Hn Hd Hi Htr) as (A' & _ & _ & _ & _ & _ & oo & N4 & Hrun4).
  eexists _, _. split; [exists N4; exact Hrun4|].
  exists (S (N1 + N2 + N3)). intros [|m] Hm; [lia|].
  pose proof (Hrun m ltac:(lia)) as R1. pose proof (H1 m ltac:(lia)) as R2. rewrite R1 in R2. injection R2 as <- <-. cbn [arrs] in H2.
  destruct (H3 m ltac:(lia) _ _ R1) as (_ & H5 & H4). cbn [arrs] in H4, H5.
  assert (exists x e1, v = VTuple [x; VErr e1] /\ (e1 = None -> exists l o k c, x = VSlice l o k c /\ 0 <= k <= allocated A0 - allocated A)) as (x & e1 & -> & Hx).
  { unfold returns in Hret. destruct (of_translate _) as [bs|e1].
    - destruct Hret as (l2 & n2 & c2 & -> & Hin2 & Hfresh). eexists _, _. split; [reflexivity|]. intros _.
      exists l2, 0, n2, c2. split; [reflexivity|]. destruct Hin2 as (_ & _ & Hn2 & Hc2 & _). change allocated with total in *.
      destruct Hfresh as [[-> _]|Hfresh]; [lia|]. pose proof (keeps_total A A0 l2 Hk Hfresh). lia.
    - subst v. eexists _, _. split; [reflexivity|]. discriminate. }
  pose proof (Transform_steps "Encoder" m (VPtr d) l1 o1 n1 c1 l o n c (VBool eof) _ _ _ _ _ (allocated A0 - allocated A) (or_intror eq_refl) R1 H4 Hx ltac:(lia)) as H6.
  cbn [String.append] in H6. lia.
Qed.
End Transform.
