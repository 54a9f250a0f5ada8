(** Writers on top of shared writers: proofs for PropCrew.v. *)
From Coq Require Import String ZArith List Bool Lia.
From Verif Require Import Base Utf8 SortSearch TableFrom TableTo Cp949Model GoLang GoSource GoFacts GoHeap GoCp949 StreamModel StreamModel3 TransformModel Facts Utf8Facts SliceFacts
  Spec SpecCp949 TableFacts Cp949Facts StreamFacts GoStream SpecIO GoThreads ThreadFacts SourceSpec SourceFacts SourceFacts2 SpecThreads SpecCells SpecAgents SpecCrew GoroutineFacts CrewFacts.
Import ListNotations.
Local Open Scope string_scope.
Local Open Scope list_scope.
Local Open Scope Z_scope.
Local Open Scope go_scope.
Local Opaque fromTable toTable.
Local Arguments Z.add : simpl never.
Local Arguments Z.sub : simpl never.
Local Arguments Z.leb : simpl never.
Local Arguments Z.ltb : simpl never.
Local Arguments Z.geb : simpl never.
Local Arguments Z.gtb : simpl never.
Local Arguments Z.eqb : simpl never.
Local Arguments Z.lor : simpl never.
Local Arguments Z.land : simpl never.
Local Arguments Z.shiftl : simpl never.
Local Arguments Z.shiftr : simpl never.
Local Arguments to_u16 : simpl never.
Local Arguments to_u8 : simpl never.
Local Arguments Search : simpl never.
Local Arguments DecodeRune : simpl never.
Local Arguments run : simpl never.
Local Arguments zwrite : simpl never.
Local Arguments go_div : simpl never.
Local Arguments append_to : simpl never.
Local Arguments slice_of : simpl never.
Local Arguments index_of : simpl never.
Local Arguments copy_to : simpl never.
Local Arguments field_of : simpl never.
Local Arguments set_field : simpl never.
Local Arguments store : simpl never.
Local Arguments scap : simpl never.
Local Arguments go_append : simpl never.
Local Arguments cells : simpl never.


(** ** Executions that call no reader or writer *)
Definition count_rd (_ : nat) (x : nat) (_ : Z) : Z * list Z * option error * nat := (0, [], None, S x).
Definition count_wr (_ : nat) (x : nat) (_ : list Z) : Z * option error * nat := (0, None, S x).
Lemma count_mono {A} (q : proc A) : forall s a s', finish nat count_rd count_wr q s = Ok (a, s') -> (ext nat s <= ext nat s')%nat.
Proof.
  induction q as [r|l o n k IH|l o bs k IH|a0 k IH|l k IH|l f v k IH|T fs k IH|i n k IH|i bs k IH]; intros s a s' H; cbn [finish] in H.
  - destruct r; try discriminate H. injection H as _ <-. lia.
  - apply IH in H. exact H.
  - apply IH in H. exact H.
  - unfold new_arr in H. apply IH in H. exact H.
  - destruct (the _); try discriminate H. cbn [bind] in H. apply IH in H. exact H.
  - unfold set_field in H. destruct (the (nth_error (objs nat s) l)) as [[T fs]| |]; try discriminate H. cbn [bind] in H.
    destruct (the (get f fs)); try discriminate H. cbn [bind] in H. apply IH in H. exact H.
  - apply IH in H. exact H.
  - unfold count_rd in H. apply IH in H. cbn [set_ext ext] in H. lia.
  - unfold count_wr in H. apply IH in H. cbn [set_ext ext] in H. lia.
Qed.
Lemma quiet {A} (q : proc A) : forall M O X a s', finish nat count_rd count_wr q (mkState nat M O X) = Ok (a, s') -> ext nat s' = X ->
  forall E rd wr Y, finish E rd wr q (mkState E M O Y) = Ok (a, mkState E (arrs nat s') (objs nat s') Y).
Proof.
  induction q as [r|l o n k IH|l o bs k IH|a0 k IH|l k IH|l f v k IH|T fs k IH|i n k IH|i bs k IH]; intros M O X a s' H HX E rd wr Y; cbn [finish] in *.
  - destruct r; try discriminate H. injection H as -> <-. reflexivity.
  - eapply (IH _ M O X); eassumption.
  - eapply (IH (arrs nat (store nat (mkState nat M O X) l o bs)) O X); eassumption.
  - unfold new_arr in *. cbn [arrs objs ext] in *. eapply (IH _ _ O X); eassumption.
  - cbn [objs] in *. destruct (the (nth_error O l)); try discriminate H. cbn [bind] in *. eapply (IH _ M O X); eassumption.
  - unfold set_field in *. cbn [arrs objs ext] in *. destruct (the (nth_error O l)) as [[T fs]| |]; try discriminate H. cbn [bind] in *.
    destruct (the (get f fs)); try discriminate H. cbn [bind] in *. eapply (IH M _ X); eassumption.
  - cbn [arrs objs ext] in *. eapply (IH _ M _ X); eassumption.
  - exfalso. unfold count_rd in H. apply count_mono in H. cbn [set_ext ext] in H. lia.
  - exfalso. unfold count_wr in H. apply count_mono in H. cbn [set_ext ext] in H. lia.
Qed.
Lemma quiet_run grow p n f args M O X a s' : run grow nat count_rd count_wr (source p) n f args (mkState nat M O X) = Ok (a, s') -> ext nat s' = X ->
  forall E rd wr Y, run grow E rd wr (source p) n f args (mkState E M O Y) = Ok (a, mkState E (arrs nat s') (objs nat s') Y).
Proof.
  intros H HX E rd wr Y. rewrite <- (finish_run grow E rd wr (source p) (searches_source p)). rewrite <- (finish_run grow nat count_rd count_wr (source p) (searches_source p)) in H.
  eapply quiet; eassumption.
Qed.

(** ** Write, with a bound on the depth that does not depend on the writer *)
Section Write.
Variable grow : Z -> Z -> Z.
Variable kx : nat.
Lemma translate_uniform A O p ls scr ld od cd data : (p < length O)%nat -> ref A ls scr -> input A ld od (zlen data) cd data -> sep A ld ls -> Forall is_byte data ->
  exists scr1 A1 ls1, contents scr1 = flat_map to_char (string_to_runes data) /\ ref A1 ls1 scr1 /\ grows grow A ls A1 ls1 /\
  exists N, forall E rd wr X n, (N <= n)%nat ->
    run grow E rd wr prog_cp949 n "translateToCp949.Translate" [VPtr p; VSlice ld od (zlen data) cd] (trs E A O X p "translateToCp949" toTable (sv ls scr)) =
    Ok (VTuple [VInt (zlen data); sv ls1 scr1; VErr None], trs E A1 O X p "translateToCp949" toTable (sv ls1 scr1)).
Proof.
  intros Hp Hr Hi Hs Hb. destruct (to_Translate_spec grow scr data (proj2 (proj2 Hr)) Hb) as (scr1 & Hok1 & Hc1 & Ht).
  destruct (go_to_Translate grow nat count_rd count_wr O 0%nat p "translateToCp949" toTable ld A ls scr data od (zlen data) cd _ _ _ _
     Hp Hr Hi Hs Ht) as (A1 & ls1 & Hr1 & Hg1 & _ & _ & N & Hrun).
  exists scr1, A1, ls1. split; [exact Hc1|]. split; [exact Hr1|]. split; [exact Hg1|]. exists N. intros E rd wr X n Hn.
  specialize (Hrun n Hn). exact (quiet_run grow Cp949 _ _ _ _ _ _ _ _ Hrun eq_refl E rd wr X).
Qed.

Section At.
Variable E : Type.
Variable rd : nat -> E -> Z -> Z * list Z * option error * E.
Variable wr : nat -> E -> list Z -> Z * option error * E.
Notation run := (run grow E rd wr prog_cp949).
Notation mk := (mkState E).
Notation exec n := (exec grow E rd wr (run n) n).
Notation wst := (wst E kx).
Notation wr_model := (wr_model E wr kx).
Notation wob := (wob kx).
Notation run_S := (run_S grow E rd wr).
Local Arguments ztake : simpl never.
Local Arguments zdrop : simpl never.
Lemma write_at A O X p pt ls scr ld od cd (data : list Z) A1 ls1 scr1 N e X1 :
  p <> pt -> (p < length O)%nat -> (pt < length O)%nat -> nth_error O p = Some (wob pt) -> nth_error O pt = Some (tr "translateToCp949" toTable (sv ls scr)) ->
  ref A1 ls1 scr1 ->
  (forall n, (N <= n)%nat -> run n "translateToCp949.Translate" [VPtr pt; VSlice ld od (zlen data) cd] (GoCp949.trs E A (set_nth p (wob pt) O) X pt "translateToCp949" toTable (sv ls scr)) =
    Ok (VTuple [VInt (zlen data); sv ls1 scr1; VErr None], GoCp949.trs E A1 (set_nth p (wob pt) O) X pt "translateToCp949" toTable (sv ls1 scr1))) ->
  (if zlen data >? 0 then wr_model X (contents scr1) else (None, X)) = (e, X1) ->
  forall n, (S N <= n)%nat -> run n "cp949Writer.Write" [VPtr p; VSlice ld od (zlen data) cd] (mk A O X) =
    Ok (VTuple [VInt (match e with None => zlen data | Some _ => 0 end); VErr e], wst A1 O X1 p pt (sv ls1 scr1)).
Proof.
  intros Hne Hp Hpt Hop Hot Hr1 Hrun Hw. set (O1 := set_nth p (wob pt) O) in *.
  assert (Hst : mk A O X = wst A O X p pt (sv ls scr)).
  { unfold GoStream.wst, GoCp949.trs. rewrite (set_nth_id p) by assumption. rewrite set_nth_id by assumption. reflexivity. }
  assert (Hzl : zlen data <? zlen data = false) by lia.
  intros [|n] Hn; [lia|].
  rewrite Hst, run_S. cbn [the get bind prog_cp949 String.eqb Ascii.eqb Bool.eqb].
  eapply enter_ret; [reflexivity|reflexivity|]. cbn [f_body f_cp949Writer_Write f_params combine].
  eapply exec_Block. eapply execs_cons; [eapply exec_Define; reflexivity|]. cbn [combine app].
  eapply execs_cons; [eapply exec_If|].
  { cbn. rewrite wf_buf by assumption. reflexivity. }
  { eapply exec_Block. reflexivity. }
  cbn [leave length Nat.sub skipn].
  eapply execs_cons; [eapply exec_Define|].
  { cbn. rewrite wf_tr by assumption. cbn.
    rewrite nth_error_set_nth by (rewrite set_nth_len; assumption). cbn. apply Hrun. lia. }
  { reflexivity. }
  cbn [combine app]. change (GoCp949.trs E A1 O1 X pt "translateToCp949" toTable (sv ls1 scr1)) with (wst A1 O X p pt (sv ls1 scr1)).
  eapply execs_cons; [eapply exec_If; [reflexivity|]|].
  { eapply exec_Block. reflexivity. }
  cbn [leave length Nat.sub skipn].
  assert (Hcells : cells E (wst A1 O X p pt (sv ls1 scr1)) ls1 0 (slen scr1) = contents scr1).
  { unfold cells, arr_at. change (arrs E (wst A1 O X p pt (sv ls1 scr1))) with A1. fold (cell A1 ls1).
    destruct Hr1 as (_ & -> & _). now rewrite zdrop_0. }
  set (env1 := fun v => [("n", VInt (zlen data)); ("cdata", sv ls1 scr1); ("err", VErr v); ("wdata", VSlice ld od (zlen data) cd);
                         ("w", VPtr p); ("data", VSlice ld od (zlen data) cd)]).
  assert (Hif : execs grow E rd wr (run n) n
    [If (Cmp Gt (Var "n") (Lit 0))
      (Block [Assign [LBlank; LVar "err"] (Method (Field (Var "w") "w") "Write" [(Var "cdata")]);
       If (Cmp Ne (Var "err") NilErr) (Block [Return [(Lit 0); (Var "err")]]) (Block [])])
      (Block [])] (env1 None) (wst A1 O X p pt (sv ls1 scr1)) =
    Ok (match e with None => Next | Some _ => Ret (VTuple [VInt 0; VErr e]) end, env1 e, wst A1 O X1 p pt (sv ls1 scr1))).
  { destruct (zlen data >? 0) eqn:Hpos.
    - unfold wr_model in Hw. destruct (wr kx X (contents scr1)) as [[cnt e'] X1'] eqn:Hwr. injection Hw as -> ->.
      cbn [execs]. rewrite (exec_If _ _ _ _ _ _ _ _ _ _ _ true (wst A1 O X p pt (sv ls1 scr1))
          (Ok (match e with None => Next | Some _ => Ret (VTuple [VInt 0; VErr e]) end, env1 e, wst A1 O X1 p pt (sv ls1 scr1)))).
      + cbn [bind]. destruct e; reflexivity.
      + cbn. rewrite Hpos. reflexivity.
      + cbv iota. eapply exec_Block'.
        { eapply execs_cons.
          { cbn. rewrite wf_w by assumption. cbn. rewrite Hcells, Hwr. reflexivity. }
          cbn. destruct e; reflexivity. }
        reflexivity.
    - injection Hw as <- <-. eapply execs_cons; [|reflexivity].
      eapply exec_If; [cbn; rewrite Hpos; reflexivity|]. eapply exec_Block'. { reflexivity. } reflexivity. }
  destruct e as [e|].
  - cbn [execs] in Hif.
    match type of Hif with bind ?x _ = _ => destruct x as [[[c env'] s']| |] eqn:Hex end; try discriminate.
    cbn [bind] in Hif. eapply execs_stop; [|discriminate].
    destruct c; try discriminate. injection Hif as -> -> ->. exact Hex.
  - cbn [execs] in Hif.
    match type of Hif with bind ?x _ = _ => destruct x as [[[c env'] s']| |] eqn:Hex end; try discriminate.
    cbn [bind] in Hif. destruct c; try discriminate. injection Hif as -> ->.
    eapply execs_cons; [exact Hex|].
    eapply execs_cons; [eapply exec_Field|].
    { cbn. rewrite wf_buf by assumption. reflexivity. }
    { reflexivity. }
    { apply ws_buf; assumption. }
    eapply execs_cons; [eapply exec_If|].
    { cbn. rewrite Hzl. reflexivity. }
    { eapply exec_Block. reflexivity. }
    eapply execs_stop; [|discriminate]. reflexivity.
Qed.

End At.

Definition to_pair (d : list Z) : list Z * list Z := (d, flat_map to_char (string_to_runes d)).
Definition to_val (r : Z * option error) : val := VTuple [VInt (fst r); VErr (snd r)].
Definition as_writer {E} (wr : nat -> E -> list Z -> Z * option error * E) (x : E) (bs : list Z) : option error * E := let '(_, e, x') := wr kx x bs in (e, x').
Lemma write_seq A0 p pt vs datas : cell A0 0 = [] -> Forall2 (fun v d => slice_holds A0 v d /\ Forall is_byte d) vs datas -> p <> pt ->
  forall A O ls scr, nth_error O p = Some (wob kx pt) -> nth_error O pt = Some (tr "translateToCp949" toTable (sv ls scr)) -> ref A ls scr ->
  (length A0 <= length A)%nat -> (forall l, (l < length A0)%nat -> cell A l = cell A0 l) -> (ls = 0 \/ length A0 <= ls)%nat ->
  exists N A' O', (length A0 <= length A')%nat /\ (forall l, (l < length A0)%nat -> cell A' l = cell A0 l) /\
  forall E rd wr X n rs, (N <= n)%nat -> nth_error rs 0 = Some (VTuple [VPtr p; VErr None]) ->
    code_alone grow E rd wr n (write_all vs) rs (mkState E A O X) =
    Ok (VTuple (rs ++ map to_val (fst (writes_spec (as_writer wr) X (map to_pair datas)))), mkState E A' O' (snd (writes_spec (as_writer wr) X (map to_pair datas)))).
Proof.
  intros Hnil Hvs Hne. induction Hvs as [|v d vs datas [Hv Hd] _ IH]; intros A O ls scr Hop Hot Hr Hlen Hk Hls.
  - exists 0%nat, A, O. split; [exact Hlen|]. split; [exact Hk|]. intros E rd wr X n rs _ _. cbn [write_all code_alone map writes_spec fst snd]. now rewrite app_nil_r.
  - destruct v as [| | | |ld od nd cd| | | | | |]; try contradiction Hv.
    assert (Hp : (p < length O)%nat) by (apply nth_error_Some; congruence). assert (Hpt : (pt < length O)%nat) by (apply nth_error_Some; congruence).
    assert (Hi : input A ld od nd cd d).
    { destruct Hv as (H1 & H2 & H3 & H4 & H5). unfold input. rewrite (Hk ld H1). unfold cell. unfold array in *. repeat (split; [lia||assumption|]). exact H5. }
    pose proof (input_len _ _ _ _ _ _ Hi) as Hnd. subst nd.
    assert (Hs : sep A ld ls).
    { destruct Hv as (H1 & _). unfold sep. rewrite (Hk ld H1). destruct (Nat.eq_dec ld ls) as [->|]; [|left; assumption]. right. destruct Hls as [->|Hls]; [exact Hnil|lia]. }
    destruct (translate_uniform A (set_nth p (wob kx pt) O) pt ls scr ld od cd d ltac:(now rewrite set_nth_len) Hr Hi Hs Hd) as (scr1 & A1 & ls1 & Hc1 & Hr1 & Hg & N1 & Hrun).
    set (O1 := set_nth pt (tr "translateToCp949" toTable (sv ls1 scr1)) (set_nth p (wob kx pt) O)).
    destruct Hg as (G1 & G2 & G3 & _).
    destruct (IH A1 O1 ls1 scr1) as (N2 & A' & O' & HA1 & HA2 & HN2).
    { unfold O1. rewrite nth_error_set_nth_ne by congruence. now apply nth_error_set_nth. }
    { unfold O1. apply nth_error_set_nth. now rewrite set_nth_len. }
    { exact Hr1. }
    { lia. }
    { intros l Hl. rewrite <- (Hk l Hl). apply G3; [lia|]. destruct (Nat.eq_dec l ls) as [->|]; [|left; assumption]. right. rewrite (Hk ls Hl). destruct Hls as [->|Hls]; [exact Hnil|lia]. }
    { destruct G2 as [->|G2]; [exact Hls|right; lia]. }
    exists (Nat.max (S N1) N2), A', O'. split; [exact HA1|]. split; [exact HA2|]. intros E rd wr X n rs Hn Hrs.
    cbn [write_all code_alone op_alone source arg_vals arg_val]. rewrite Hrs. cbn [the bind component nth_error].
    destruct (if zlen d >? 0 then wr_model E wr kx X (contents scr1) else (None, X)) as [e X1] eqn:Hw.
    rewrite (write_at E rd wr A O X p pt ls scr ld od cd d A1 ls1 scr1 N1 e X1 Hne Hp Hpt Hop Hot Hr1 (Hrun E rd wr X) Hw n ltac:(lia)). cbn [bind].
    unfold wst, GoCp949.trs. fold O1. rewrite (HN2 E rd wr X1 n (rs ++ [VTuple [VInt (match e with None => zlen d | Some _ => 0 end); VErr e]]) ltac:(lia)).
    2:{ destruct rs; [discriminate Hrs|]. exact Hrs. }
    assert (HX : (match d with [] => (None, X) | _ => as_writer wr X (flat_map to_char (string_to_runes d)) end) = (e, X1)).
    { rewrite <- Hw, <- Hc1. destruct d; [reflexivity|]. unfold wr_model, as_writer. rewrite zlen_cons. pose proof (zlen_nonneg d). now replace (1 + zlen d >? 0) with true by lia. }
    cbn [map writes_spec to_pair]. rewrite HX. destruct (writes_spec (as_writer wr) X1 (map to_pair datas)) as [rs1 X2]. cbn [fst snd map].
    rewrite <- app_assoc. cbn [app]. unfold to_val at 3. cbn [fst snd]. destruct e; reflexivity.
Qed.
Lemma writing_seq A O vs datas : nil_ok A -> Forall2 (fun v d => slice_holds A v d /\ Forall is_byte d) vs datas ->
  exists N A' O', (length A <= length A')%nat /\ (forall l, (l < length A)%nat -> cell A' l = cell A l) /\
  forall E rd wr X n, (N <= n)%nat ->
    code_alone grow E rd wr n (writing kx vs) [] (mkState E A O X) =
    Ok (VTuple (VTuple [VPtr (S (length O)); VErr None] :: map to_val (fst (writes_spec (as_writer wr) X (map to_pair datas)))),
        mkState E A' O' (snd (writes_spec (as_writer wr) X (map to_pair datas)))).
Proof.
  intros Hn Hvs. destruct (go_NewWriter grow nat count_rd count_wr kx A O 0%nat Hn) as (s & (Hne & Hop & Hot & Hr & _) & Hx & HA & _ & _ & Hrun).
  destruct s as [A1 O1 X1]. cbn [arrs objs ext] in *. subst A1 X1. cbn [w_scratch NewWriter] in *.
  destruct (write_seq A (S (length O)) (length O) vs datas (proj2 Hn) Hvs Hne A O1 0%nat _ Hop Hot Hr (le_n _) ltac:(auto) ltac:(auto)) as (N & A' & O' & H1 & H2 & H3).
  exists (Nat.max 2 N), A', O'. split; [exact H1|]. split; [exact H2|]. intros E rd wr X n Hnn. destruct n as [|[|n]]; try lia.
  cbn [writing code_alone op_alone source arg_vals arg_val bind].
  pose proof (quiet_run grow Cp949 _ _ _ _ _ _ _ _ (Hrun n) eq_refl E rd wr X) as Hq. cbn [source arrs objs] in Hq. rewrite Hq. cbn [bind app].
  rewrite (H3 E rd wr X (S (S n)) [VTuple [VPtr (S (length O)); VErr None]] ltac:(lia) eq_refl). reflexivity.
Qed.

(** With others using the writer in between. *)
Lemma found_asked E (wr : nat -> E -> list Z -> Z * option error * E) x0 pairs : forall states asked,
  snd (writes_spec (as_writer (found_wr E wr x0)) (states, asked) pairs) = (states, asked ++ write_calls kx pairs).
Proof.
  induction pairs as [|[d bs] pairs IH]; intros states asked; [cbn; now rewrite app_nil_r|].
  cbn [writes_spec write_calls flat_map fst snd]. fold (write_calls kx pairs). destruct d as [|b d].
  - change (zlen (@nil Z) =? 0) with true. cbn [app]. specialize (IH states asked). destruct (writes_spec _ _ pairs). exact IH.
  - assert (Hz : zlen (b :: d) =? 0 = false) by (rewrite zlen_cons; pose proof (zlen_nonneg d); lia). rewrite Hz. cbn [app]. unfold as_writer at 1, found_wr at 1. cbn [fst snd].
    destruct (wr kx (nth (length asked) states x0) bs) as [[c err] y]. specialize (IH states (asked ++ [AskWrite kx bs])). rewrite <- app_assoc in IH. destruct (writes_spec _ _ pairs). exact IH.
Qed.
Lemma found_writes E (wr : nat -> E -> list Z -> Z * option error * E) x0 pairs : forall states asked es,
  states = firstn (length asked) states ++ map n_at es -> (length asked <= length states)%nat -> length es = length (write_calls kx pairs) ->
  writes_spec (as_writer (found_wr E wr x0)) (states, asked) pairs = (write_results wr kx pairs es, (states, asked ++ write_calls kx pairs)).
Proof.
  induction pairs as [|[d bs] pairs IH]; intros states asked es Hst Hle Hes; [cbn; now rewrite app_nil_r|].
  cbn [writes_spec write_results write_calls flat_map fst snd] in *. fold (write_calls kx pairs) in *.
  destruct d as [|b d].
  - change (zlen (@nil Z) =? 0) with true in *. cbn [app] in *. rewrite (IH states asked es) by assumption. reflexivity.
  - assert (Hz : zlen (b :: d) =? 0 = false) by (rewrite zlen_cons; pose proof (zlen_nonneg d); lia). rewrite Hz in *. cbn [app length] in *.
    destruct es as [|e es]; [discriminate Hes|]. unfold as_writer at 1, found_wr at 1. cbn [fst snd].
    assert (Hlen : length states = (length asked + S (length es))%nat).
    { rewrite Hst, app_length, firstn_length_le by exact Hle. cbn [map length]. now rewrite map_length. }
    assert (Hat : nth (length asked) states x0 = n_at e).
    { rewrite Hst, app_nth2 by (rewrite firstn_length_le; lia). rewrite firstn_length_le, Nat.sub_diag by exact Hle. reflexivity. }
    rewrite Hat. destruct (wr kx (n_at e) bs) as [[c err] y].
    rewrite (IH states (asked ++ [AskWrite kx bs]) es).
    + rewrite <- app_assoc. destruct err; reflexivity.
    + rewrite app_length. cbn [length].
      assert (Hf : firstn (length asked + 1) states = firstn (length asked) states ++ [n_at e]).
      { rewrite Hst at 1. rewrite firstn_app, firstn_length_le by exact Hle. rewrite (firstn_all2 (firstn (length asked) states)) by (rewrite firstn_length_le; lia).
        f_equal. replace (length asked + 1 - length asked)%nat with 1%nat by lia. reflexivity. }
      rewrite Hf, <- app_assoc. exact Hst.
    + rewrite app_length. cbn [length]. lia.
    + cbn [length] in Hes. lia.
Qed.
End Write.

(** ** The theorem *)
Lemma usable_writes {E} A O (t : worker E) vs : k_parts t = [] -> Forall (fun v => exists d, slice_holds A v d) vs -> forall us, nth_error us 0 = Some Own ->
  forall ts, (forall l z, ~ owned ts l z) -> code_usable A O ts t us (write_all vs).
Proof.
  intros Hp Hvs. induction Hvs as [|v vs [d Hv] _ IH]; intros us Hus ts Hts; cbn [write_all]; [constructor|].
  apply cu_act with (u := Own); [|intros _; apply IH; [destruct us; [discriminate Hus|exact Hus]|exact Hts]].
  exists [Own; Src]. split; [reflexivity|]. constructor; [exists Own; split; [exact Hus|exact I]|]. constructor; [|constructor].
  destruct v as [| | | |l o n c| | | | | |]; try contradiction Hv. destruct Hv as (H1 & H2 & H3 & H4 & _). cbn [arg_usable may_use]. unfold slice_usable.
  split; [exact H1|]. split; [exact H2|]. split; [exact H3|]. right. right. split; [reflexivity|]. intros i _. apply Hts.
Qed.
Definition plain_worker : worker unit := mkWorker [] [] [] tt.
Lemma owned_none (gs : list (nat * list val)) l z : ~ owned (map fst (map (fun g => (plain_worker, writing (fst g) (snd g))) gs)) l z.
Proof.
  intros (t & Ht & lo & hi & Hin & _). rewrite map_map in Ht. apply in_map_iff in Ht. destruct Ht as (g & <- & _). destruct Hin.
Qed.
Lemma array_cell A l : array A l = cell A l.
Proof. reflexivity. Qed.
Lemma zget_ext (a b : list Z) : zlen a = zlen b -> (forall i, zget a i = zget b i) -> a = b.
Proof.
  intros Hl H. apply nth_ext with (d := 0) (d' := 0); [unfold zlen in Hl; lia|]. intros i Hi. specialize (H (Z.of_nat i)). unfold zget in H.
  replace (Z.of_nat i <? 0) with false in H by lia. rewrite Nat2Z.id in H.
  rewrite (nth_error_nth' a 0 Hi) in H. rewrite (nth_error_nth' b 0) in H by (unfold zlen in Hl; lia). exact (f_equal (fun o => match o with Some z => z | None => 0 end) H).
Qed.
Lemma corr_vals ca co rs : forall vs', (fix all (vs vs' : list val) : Prop :=
       match vs, vs' with
       | [], [] => True
       | v :: vs, v' :: vs' => corresponds ca co v v' /\ all vs vs'
       | _, _ => False
       end) (map to_val rs) vs' -> vs' = map to_val rs.
Proof.
  induction rs as [|[k e] rs IH]; intros [|v' vs'] H; try contradiction H; [reflexivity|]. destruct H as [H1 H2]. cbn [map]. f_equal; [|now apply IH].
  unfold to_val in *. cbn [fst snd] in *. destruct v' as [| | | | | | | | | |[|a [|b [|]]]]; cbn in H1; try contradiction H1; try tauto. destruct H1 as (<- & <- & _). reflexivity.
Qed.
Theorem shared_writers : exists f, char_code f /\
  forall grow E rd wr A O x0 (gs : list (nat * list val)), hangul_memory A ->
  Forall (fun g => Forall (fun v => exists data, slice_holds A v data /\ Forall is_byte data) (snd g)) gs ->
  exists N, forall n, (N <= n)%nat -> exists bound, forall m log c,
    crew_steps E rd wr m (start_crew grow n A O x0 (map (fun g => (mkWorker [] [] [] tt, writing (fst g) (snd g))) gs)) log c ->
    (m <= bound)%nat /\ (crew_finished c \/ exists l c', crew_step E rd wr c l c') /\ ~ crew_race c /\
    conversation E rd wr x0 log (c_ext c) /\
    (forall l, (l < length A)%nat -> array (c_arrs c) l = array A l) /\
    (crew_finished c -> forall i g, nth_error gs i = Some g -> exists p pairs,
       Forall2 (fun v q => slice_holds A v (fst q)) (snd g) pairs /\
       Forall (fun q => exists rs, reads_as (fst q) rs /\ snd q = flat_map f rs) pairs /\
       map n_ask (calls_of i log) = write_calls (fst g) pairs /\
       nth_error (c_procs c) i = Some (Done (Ok (VTuple (VTuple [VPtr p; VErr None] ::
         map (fun r => VTuple [VInt (fst r); VErr (snd r)]) (write_results wr (fst g) pairs (calls_of i log))))))).
Proof.
  exists to_char. split; [exact char_code_to_char|]. intros grow E rd wr A O x0 gs HA Hgs.
  assert (Hnil : nil_ok A). { destruct HA as [rest ->]. split; [cbn; lia|reflexivity]. }
  assert (Hdata : exists ds, Forall2 (fun g d => Forall2 (fun v d => slice_holds A v d /\ Forall is_byte d) (snd g) d) gs ds).
  { clear -Hgs. induction Hgs as [|g gs Hg _ [ds IH]]; [exists []; constructor|]. assert (exists d, Forall2 (fun v d => slice_holds A v d /\ Forall is_byte d) (snd g) d) as [d Hd].
    { induction Hg as [|v vs [d Hd] _ [ds' IH']]; [exists []; constructor|]. exists (d :: ds'). now constructor. }
    exists (d :: ds). now constructor. }
  destruct Hdata as [ds Hds].
  assert (Hall : exists N, forall g d, In (g, d) (combine gs ds) -> exists A' O', (length A <= length A')%nat /\ (forall l, (l < length A)%nat -> cell A' l = cell A l) /\
     forall E rd wr X n, (N <= n)%nat -> code_alone grow E rd wr n (writing (fst g) (snd g)) [] (mkState E A O X) =
      Ok (VTuple (VTuple [VPtr (S (length O)); VErr None] :: map to_val (fst (writes_spec (as_writer (fst g) wr) X (map to_pair d)))),
        mkState E A' O' (snd (writes_spec (as_writer (fst g) wr) X (map to_pair d))))).
  { clear -Hds Hnil. induction Hds as [|g d gs ds Hd _ [N IH]]; [exists 0%nat; intros g d []|].
    destruct (writing_seq grow (fst g) A O (snd g) d Hnil Hd) as (M & A' & O' & H1 & H2 & H3). exists (Nat.max N M). intros g' d' [[= <- <-]|Hin].
    - exists A', O'. split; [exact H1|]. split; [exact H2|]. intros. apply H3. lia.
    - destruct (IH g' d' Hin) as (A2 & O2 & H4 & H5 & H6). exists A2, O2. split; [exact H4|]. split; [exact H5|]. intros. apply H6. lia. }
  destruct Hall as [N Hall]. exists N. intros n Hn.
  set (cs := map (fun g => (mkWorker [] [] [] tt, writing (fst g) (snd g))) gs).
  assert (Hat : forall i t, nth_error cs i = Some t -> exists g d, nth_error gs i = Some g /\ In (g, d) (combine gs ds) /\ Forall2 (fun v d => slice_holds A v d /\ Forall is_byte d) (snd g) d /\
      t = (mkWorker [] [] [] tt, writing (fst g) (snd g))).
  { unfold cs. intros i t Ht. rewrite nth_error_map in Ht. destruct (nth_error gs i) as [g|] eqn:Hg; [|discriminate]. injection Ht as <-.
    clear -Hds Hg. revert i Hg. induction Hds as [|g' d gs ds Hd _ IH]; intros [|i] Hg; try discriminate; cbn in Hg.
    - injection Hg as ->. exists g, d. cbn. auto.
    - destruct (IH i Hg) as (g1 & d1 & H1 & H2 & H3 & H4). exists g1, d1. cbn. auto. }
  destruct (shared_independent E rd wr grow n A O x0 (fun _ => True) cs I (fun _ _ _ => I)) as [bound Hsh].
  - split; [exact HA|]. split; [|split].
    + intros i j t u l z _ Hi _ (lo & hi & Hin & _). apply nth_error_In in Hi. unfold cs in Hi. rewrite map_map in Hi. apply in_map_iff in Hi. destruct Hi as (g & <- & _). destruct Hin.
    + unfold cs. rewrite map_map. clear. induction gs; [constructor|exact IHgs].
    + intros t Ht. unfold cs in Ht. rewrite map_map in Ht. apply in_map_iff in Ht. destruct Ht as (g & <- & _). cbn [k_parts k_objs k_ops fst]. split; [intros l lo hi []|]. split; [intros l []|constructor].
  - apply Forall_forall. intros t Ht. apply In_nth_error in Ht. destruct Ht as [i Hi]. destruct (Hat i t Hi) as (g & d & _ & _ & Hv & ->). cbn [fst snd].
    unfold writing. apply cu_act with (u := Own); [exists [Own]; split; [reflexivity|]; repeat constructor|]. intros _. cbn [app].
    apply usable_writes; [reflexivity| |reflexivity|apply owned_none].
    clear -Hv. induction Hv as [|v d vs ds [H _] _ IH]; constructor; eauto.
  - intros t states Ht _. apply In_nth_error in Ht. destruct Ht as [i Hi]. destruct (Hat i t Hi) as (g & d & _ & Hin & _ & ->). cbn [snd].
    destruct (Hall g d Hin) as (A' & O' & _ & _ & Hr). unfold with_others. rewrite Hr by exact Hn. discriminate.
  - exists bound. intros m log c Hm. destruct (Hsh m log c Hm) as (H1 & H2 & H3 & H4 & H5 & H6 & H7). clear Hsh.
    do 4 (split; [assumption|]). split.
    + intros l Hl. destruct (H6 l Hl) as [H8 H9]. apply zget_ext; [exact H8|]. intros z. apply H9. apply owned_none.
    + intros Hf i g Hg. assert (Hi : nth_error cs i = Some (mkWorker [] [] [] tt, writing (fst g) (snd g))) by (unfold cs; now rewrite nth_error_map, Hg).
      specialize (H7 Hf i _ Hi). destruct (Hat i _ Hi) as (g' & d & Hg' & Hin & Hv & _). rewrite Hg in Hg'. injection Hg' as <-.
      destruct (Hall g d Hin) as (A' & O' & _ & _ & Hr). unfold with_others in H7. cbn [snd] in H7. rewrite Hr in H7 by exact Hn.
      destruct H7 as (Hasks & v' & Hv' & ca & co & _ & _ & _ & _ & _ & _ & Hcorr). cbn [ext] in Hasks. rewrite found_asked in Hasks. cbn [app snd] in Hasks.
      assert (Hw : writes_spec (as_writer (fst g) (found_wr E wr x0)) (map n_at (calls_of i log), []) (map to_pair d) =
        (write_results wr (fst g) (map to_pair d) (calls_of i log), (map n_at (calls_of i log), [] ++ write_calls (fst g) (map to_pair d)))).
      { apply found_writes; [reflexivity|cbn; lia|]. rewrite Hasks. now rewrite map_length. }
      rewrite Hw in Hcorr. cbn [fst snd] in Hcorr.
      assert (exists p, v' = VTuple (VTuple [VPtr p; VErr None] :: map to_val (write_results wr (fst g) (map to_pair d) (calls_of i log)))) as [p ->].
      { destruct v' as [| | | | | | | | | |[|v1 vs1]]; cbn [corresponds] in Hcorr; try contradiction Hcorr. destruct Hcorr as [Hc1 Hc2].
        destruct v1 as [| | | | | | | | | |[|a [|b [|]]]]; try contradiction Hc1; try tauto. destruct Hc1 as (Ha & <- & _).
        destruct a; try contradiction Ha. eexists. f_equal. f_equal. now apply (corr_vals ca co). }
      exists p, (map to_pair d). split; [|split; [|split; [symmetry; exact Hasks|exact Hv']]].
      * clear -Hv. induction Hv as [|v d vs ds [H _] _ IH]; constructor; [exact H|exact IH].
      * clear -Hv. induction Hv as [|v d vs ds [_ H] _ IH]; constructor; [|exact IH]. exists (string_to_runes d). split; [now apply string_to_runes_reads|reflexivity].
Qed.
