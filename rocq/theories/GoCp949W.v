(** GoCp949.v again for the program compiled for machines with ints of limited width
    (GoPlatform.v): as long as the sizes stay below the limit, ensureCap, appendRune, the two
    Translate methods, From and To do what Cp949Model.v says. *)
From Coq Require Import String ZArith List Bool Lia.
From Verif Require Import Base Utf8 SortSearch TableFrom TableTo Cp949Model GoLang GoSource GoPlatform GoFacts GoHeap GoCp949 Facts Utf8Facts SliceFacts SpecCp949 TableFacts.
Import ListNotations.
Local Open Scope string_scope.
Local Open Scope list_scope.
Local Open Scope Z_scope.
Local Open Scope go_scope.
Local Opaque fromTable toTable.
Local Arguments Z.add : simpl never.
Local Arguments Z.sub : simpl never.
Local Arguments Z.leb : simpl never.
Local Arguments Z.ltb : simpl never.
Local Arguments Z.geb : simpl never.
Local Arguments Z.gtb : simpl never.
Local Arguments Z.eqb : simpl never.
Local Arguments Z.lor : simpl never.
Local Arguments Z.land : simpl never.
Local Arguments Z.shiftl : simpl never.
Local Arguments Z.shiftr : simpl never.
Local Arguments to_u16 : simpl never.
Local Arguments to_u8 : simpl never.
Local Arguments Search : simpl never.
Local Arguments DecodeRune : simpl never.
Local Arguments run : simpl never.
Local Arguments compiled : simpl never.
Local Arguments zwrite : simpl never.
Local Arguments go_div : simpl never.
Local Arguments append_to : simpl never.
Local Arguments slice_of : simpl never.
Local Arguments index_of : simpl never.
Local Arguments copy_to : simpl never.
Local Arguments field_of : simpl never.
Local Arguments set_field : simpl never.
Local Arguments store : simpl never.
Local Arguments scap : simpl never.
Local Arguments go_append : simpl never.
Local Arguments cells : simpl never.

Section Run.
Variable grow : Z -> Z -> Z.
Variable E : Type.
Variable rd : nat -> E -> Z -> Z * list Z * option error * E.
Variable wr : nat -> E -> list Z -> Z * option error * E.
Notation run w := (GoLang.run grow E rd wr (compiled w prog_cp949)).
Notation state := (state E).
Notation mk := (mkState E).
Notation grows := (grows grow).
Notation input_grows := (input_grows grow).
Notation exec w n := (exec grow E rd wr (run w n) n).
Notation eval w n := (eval grow E rd wr (run w n) n).
Notation trs := (trs E).
Notation index_input := (index_input E).
Notation from_loop_results := (from_loop_results grow).

Lemma run_S w n f args s : run w (S n) f args s =
  bind (the (option_map (func_as w) (get f prog_cp949))) (fun fn => enter grow E rd wr (run w n) n fn args s).
Proof. rewrite <- get_compiled. reflexivity. Qed.

(* cp949.go:130-139 *)
Definition grow_body (w : ity) : stmt :=
  Block [If (Cmp Lt (Var "m") (Lit 0x400))
  (Block [Assign [LVar "m"] (Arith Add w (Var "m") (Var "m"))])
  (Block [Assign [LVar "m"] (Arith Add w (Var "m") (Arith Div w (Var "m") (Lit 4)))]);
  If (Cmp Ge (Var "m") (Var "n"))
  (Block [Break])
  (Block [])].

Lemma go_grow w b call loops k v s f : wide w b -> 5 * k + 8192 <= 4 * b ->
  forall m m' n, 0 <= m < k -> (f <= n)%nat -> grow_loop f m k = Ok m' ->
  while_loop grow E rd wr call loops (LitB true) (grow_body w) n [("m", VInt m); ("s", v); ("n", VInt k)] s =
  Ok (Next, [("m", VInt m'); ("s", v); ("n", VInt k)], s).
Proof.
  intros Hw Hb. induction f as [|f IH]; intros m m' n Hmk Hn H; [discriminate|].
  destruct n as [|n]; [lia|]. cbn in H. cbn.
  assert (Hq : 0 <= go_div m 4 /\ 4 * go_div m 4 <= m).
  { unfold go_div. rewrite Z.quot_div_nonneg by lia. split; [apply Z.div_pos; lia|apply Z.mul_div_le; lia]. }
  assert (Hdiv : (if 4 =? 0 then Panic else Ok (wrap w (go_div m 4))) = Ok (go_div m 4))
    by (rewrite Hw by lia; reflexivity).
  destruct (m <? 0x400) eqn:Hm; cbn; rewrite ?Hdiv; cbn.
  - assert (Hwm : wrap w (m + m) = m + m) by (apply Hw; lia). rewrite Hwm.
    destruct (m + m >=? k) eqn:Hk; cbn; rewrite ?Hwm; [injection H as <-; reflexivity|]. apply IH; [lia|lia|assumption].
  - assert (Hwm : wrap w (m + go_div m 4) = m + go_div m 4) by (apply Hw; lia). rewrite Hwm.
    destruct (m + go_div m 4 >=? k) eqn:Hk; cbn; rewrite ?Hwm; [injection H as <-; reflexivity|]. apply IH; [lia|lia|assumption].
Qed.

Lemma go_ensureCap A O X l sl k sl' : ref A l sl -> ensureCap sl k = Ok sl' ->
  exists A' l', ref A' l' sl' /\ grows A l A' l' /\
  forall w b n, wide w b -> 5 * k + 8192 <= 4 * b -> (Z.to_nat k <= n)%nat ->
    run w (S n) "ensureCap" [sv l sl; VInt k] (mk A O X) = Ok (sv l' sl', mk A' O X).
Proof.
  intros Hr H. pose proof Hr as (Hl & Ha & Hok). pose proof Hok as [Hs1 Hs2].
  pose proof (ensureCap_spec sl k Hok) as Hsp.
  unfold ensureCap in H.
  destruct (k <=? scap sl) eqn:Hk.
  - injection H as <-. exists A, l. split; [assumption|]. split; [apply grows_refl|]. intros w b n _ _ _.
    rewrite run_S. cbn [the get bind option_map prog_cp949 String.eqb Ascii.eqb Bool.eqb].
    eapply enter_ret; [reflexivity|reflexivity|]. cbn [f_body func_as f_ensureCap f_params combine stmt_as expr_as lhs_as int_as map].
    eapply exec_Block, execs_stop; [|discriminate]. eapply exec_If.
    { cbn. rewrite Hk. reflexivity. }
    eapply exec_Block, execs_stop; [|discriminate]. eapply exec_Return1. reflexivity.
  - destruct (if scap sl =? 0 then Ok k else grow_loop (Z.to_nat k) (scap sl) k) as [m| |] eqn:Hm; try discriminate.
    cbn in H. injection H as <-.
    assert (Hmk : slen sl <= m /\ 0 <= m).
    { destruct (scap sl =? 0) eqn:H0; [injection Hm as <-; lia|].
      destruct (grow_loop_spec (Z.to_nat k) (scap sl) k) as (m1 & Hm1 & Hb); [lia..|]. 
      assert (m1 = m) by congruence. lia. }
    assert (Hlen : zlen (zwrite (zeros m) 0 (contents sl)) = m).
    { rewrite zlen_zwrite; rewrite ?zlen_zeros, ?contents_len by (assumption || lia); lia. }
    exists (A ++ [zwrite (zeros m) 0 (contents sl)]), (length A).
    split; [|split; [apply grows_new; [assumption|]; rewrite Ha, Hlen; fold (scap sl); left|]].
    2:{ destruct (scap sl =? 0) eqn:H0; [injection Hm as <-; lia|].
      apply grow_loop_regrown in Hm; lia. }
    2:{ intros w b n Hw Hwb Hn. rewrite run_S. cbn [the get bind option_map prog_cp949 String.eqb Ascii.eqb Bool.eqb].
      eapply enter_ret; [reflexivity|reflexivity|]. cbn [f_body func_as f_ensureCap f_params combine stmt_as expr_as lhs_as int_as map].
      eapply exec_Block. eapply execs_cons; [eapply exec_If|].
      { cbn. rewrite Hk. reflexivity. }
      { eapply exec_Block. reflexivity. }
      eapply execs_cons; [eapply exec_Define; reflexivity|].
      eapply execs_cons.
      { instantiate (1 := mk A O X).
        instantiate (1 := [("m", VInt m); ("s", sv l sl); ("n", VInt k)]).
        eapply exec_If; [reflexivity|].
        destruct (scap sl =? 0) eqn:H0; cbv iota.
        - injection Hm as <-. eapply exec_Block'.
          { eapply execs_cons; [eapply exec_Var; reflexivity|]. reflexivity. }
          reflexivity.
        - eapply exec_Block'.
          { eapply execs_cons; [|reflexivity].
            rewrite exec_While. apply (go_grow w b _ _ _ _ _ _ Hw Hwb (scap sl) _ _ ltac:(lia) Hn Hm). }
          reflexivity. }
      eapply execs_cons; [eapply exec_Define; [|reflexivity]|].
      { cbn. rewrite (proj2 (Z.leb_le 0 (slen sl))), (proj2 (Z.leb_le (slen sl) m)) by lia. reflexivity. }
      cbn [combine app].
      eapply execs_cons.
      { cbn. unfold copy_to, store, set_arr, cells, arr_at. cbn [arrs objs ext].
        fold (cell (A ++ [zeros m]) l). rewrite cell_old, Ha by assumption.
        fold (cell (A ++ [zeros m]) (length A)). rewrite cell_new, Z.min_id, zdrop_0, set_nth_last.
        reflexivity. }
      eapply execs_stop; [|discriminate]. eapply exec_Return1. cbn.
      unfold scap. cbn [arr slen]. rewrite Hlen. reflexivity. }
    split; [rewrite app_length; cbn; lia|]. split; [apply cell_new|].
      unfold slice_ok, scap. cbn [arr slen]. rewrite Hlen. lia.
Qed.

Lemma go_appendRune A O X l sl r sl' : ref A l sl -> appendRune sl r = Ok sl' ->
  exists A' l', ref A' l' sl' /\ grows A l A' l' /\
  slen sl' <= slen sl + 4 /\
  exists N, forall w b n, wide w b -> 5 * slen sl + 8212 <= 4 * b -> (N <= n)%nat ->
    run w n "appendRune" [sv l sl; VInt r] (mk A O X) = Ok (sv l' sl', mk A' O X).
Proof.
  intros Hr H. pose proof Hr as (Hl & Ha & Hok). unfold appendRune in H.
  destruct (ensureCap sl (slen sl + UTFMax)) as [b| |] eqn:Hb; try discriminate. cbn [bind] in H.
  destruct (slen sl + UTFMax >? scap b) eqn:Hcap; try discriminate.
  unfold reslice in H.
  destruct ((0 <=? slen sl + zlen (EncodeRune r)) && _) eqn:Hre; try discriminate. injection H as <-.
  cbn [arr slen] in *.
  destruct (go_ensureCap A O X l sl _ b Hr Hb) as (A1 & l1 & Hr1 & Hg1 & Hrun1).
  pose proof Hr1 as (Hl1 & Ha1 & Hok1). unfold slice_ok in Hok, Hok1.
  pose proof (EncodeRune_len r) as He.
  assert (HU : UTFMax = 4) by reflexivity.
  assert (Hz : zlen (zwrite (arr b) (slen sl) (EncodeRune r)) = zlen (arr b))
    by (apply zlen_zwrite; unfold scap in *; lia).
  exists (set_nth l1 (zwrite (arr b) (slen sl) (EncodeRune r)) A1), l1.
  split; [|split].
  - split; [rewrite set_nth_len; lia|]. cbn [arr]. split; [now apply cell_set|].
    unfold slice_ok, scap in *. cbn [arr slen] in *. lia.
  - eapply grows_trans; [eassumption..|]. apply grows_write; [|assumption]. rewrite Ha1. now apply length_zlen.
  - split; [cbn [slen]; lia|].
    exists (S (S (Z.to_nat (slen sl + UTFMax)))). intros w b0 [|[|n]] Hw Hwb Hn; try lia.
    specialize (Hrun1 w b0 n Hw ltac:(lia) ltac:(lia)).
    rewrite run_S. cbn [the get bind option_map prog_cp949 String.eqb Ascii.eqb Bool.eqb].
    eapply enter_ret; [reflexivity|reflexivity|]. cbn [f_body func_as f_appendRune f_params combine stmt_as expr_as lhs_as int_as map].
    eapply exec_Block. eapply execs_cons; [eapply exec_Define; reflexivity|]. cbn [combine app].
    assert (Hw1 : wrap w (slen sl + UTFMax) = slen sl + UTFMax) by (apply Hw; lia).
    assert (Hw2 : wrap w (slen sl + zlen (EncodeRune r)) = slen sl + zlen (EncodeRune r)) by (apply Hw; lia).
    eapply execs_cons; [eapply exec_Var|].
    { cbn. rewrite Hw1. exact Hrun1. }
    cbn [set String.eqb Ascii.eqb Bool.eqb].
    eapply execs_cons; [eapply exec_Define; [|reflexivity]|].
    { cbn. rewrite Hw1. unfold slice_of.
      replace ((0 <=? slen sl) && (slen sl <=? slen sl + UTFMax) && (slen sl + UTFMax <=? scap b)) with true by lia.
      cbn. destruct (zlen (EncodeRune r) >? slen sl + UTFMax - slen sl) eqn:Hx; [lia|].
      unfold store, set_arr, arr_at. cbn [arrs objs ext]. fold (cell A1 l1). rewrite Ha1.
      replace (0 + slen sl) with (slen sl) by lia. reflexivity. }
    cbn [combine app].
    eapply execs_stop; [|discriminate]. eapply exec_Return1. cbn. rewrite Hw2. unfold slice_of.
    unfold scap in *. cbn [arr slen] in *. rewrite Hz in *.
    replace ((0 <=? 0) && (0 <=? slen sl + zlen (EncodeRune r)) && (slen sl + zlen (EncodeRune r) <=? zlen (arr b))) with true by lia.
    cbn. do 2 f_equal. f_equal; lia.
Qed.

(* cp949.go:37-65 *)
Definition from_body (w : ity) : stmt :=
  Block [If (Cmp Eq (Arith BAnd Uint8 (Index (Var "data") (Lit 0)) (Lit 0x80)) (Lit 0))
  (Block [Assign [LField (Var "p") "scratch"] (Append (Field (Var "p") "scratch") [(Index (Var "data") (Lit 0))]);
  Assign [LVar "data"] (SliceFrom (Var "data") (Lit 1));
  Assign [LVar "c"] (Arith Add w (Var "c") (Lit 1));
  Continue])
  (Block []);
  If (Cmp Lt (Len (Var "data")) (Lit 2))
  (Block [Return [(Lit 0); NilSlice; (ErrLit ErrCP949UnexpectedStream)]])
  (Block []);
  Define ["n"] (Arith BOr Uint16 (Arith Shl Uint16 (Conv Uint16 (Index (Var "data") (Lit 0))) (Lit 8)) (Conv Uint16 (Index (Var "data") (Lit 1))));
  Define ["fi"] (SearchE (Len (Field (Var "p") "table")) "i"
  (Block [If (Cmp Le (Var "n") (Field (Index (Field (Var "p") "table") (Var "i")) "cp949"))
  (Block [Return [(LitB true)]])
  (Block []);
  Return [(LitB false)]]));
  If (And (Cmp Lt (Var "fi") (Len (Field (Var "p") "table"))) (Cmp Eq (Var "n") (Field (Index (Field (Var "p") "table") (Var "fi")) "cp949")))
  (Block [Define ["f"] (Index (Field (Var "p") "table") (Var "fi"));
  Assign [LField (Var "p") "scratch"] (Call "appendRune" [(Field (Var "p") "scratch"); (Conv Int32 (Field (Var "f") "ucs2"))])])
  (Block [Assign [LField (Var "p") "scratch"] (Call "appendRune" [(Field (Var "p") "scratch"); (Lit RuneError)])]);
  Assign [LVar "data"] (SliceFrom (Var "data") (Lit 2));
  Assign [LVar "c"] (Arith Add w (Var "c") (Lit 2))].

(** Appending in a translator's scratch buffer. *)
Lemma eval_append w n A O X p T t l sl bs es env s' : (p < length O)%nat -> ref A l sl ->
  get "p" env = Some (VPtr p) ->
  (fix evals (es : list expr) (s : state) {struct es} : res (list val * state) :=
     match es with
     | [] => Ok ([], s)
     | e :: es => let! (v, s) := eval w n e env s in let! (vs, s) := evals es s in Ok (v :: vs, s)
     end) es (trs A O X p T t (sv l sl)) = Ok (map VInt bs, trs A O X p T t (sv l sl)) ->
  append_to grow E (trs A O X p T t (sv l sl)) (sv l sl) bs = Ok s' ->
  eval w n (Append (Field (Var "p") "scratch") es) env (trs A O X p T t (sv l sl)) = Ok s'.
Proof.
  intros Hp Hr Hg He Ha. cbn. rewrite Hg. cbn. rewrite field_scratch by assumption. cbn. rewrite He. cbn.
  assert (Hints : forall zs, as_ints (map VInt zs) = Ok zs) by (induction zs as [|z zs IH]; cbn; rewrite ?IH; reflexivity).
  rewrite Hints. cbn. exact Ha.
Qed.

Lemma slen_append_len sl bs : slen (go_append grow sl bs) = slen sl + zlen bs.
Proof. unfold go_append. destruct (_ <=? _); reflexivity. Qed.

Lemma go_from_loop O X p T t ld : (p < length O)%nat -> u16_table t ->
  forall fuel A l sl data c od nd cd c' out err sl',
  ref A l sl -> input A ld od nd cd data -> ld <> l \/ cell A ld = [] -> Forall is_byte data ->
  from_loop grow fuel t sl data c = Ok (c', out, err, sl') -> 0 <= c ->
  exists A' l', ref A' l' sl' /\ grows A l A' l' /\
  exists env' N, (err = None -> exists d, env' = [("c", VInt c'); ("p", VPtr p); ("data", d)] /\ out = Some sl') /\
  forall w b n m, wide w b -> 5 * (slen sl + 2 * zlen data) + 8212 <= 4 * b -> c + zlen data <= b ->
    (N <= n)%nat -> (N <= m)%nat ->
    while_loop grow E rd wr (run w n) n (Cmp Gt (Len (Var "data")) (Lit 0)) (from_body w) m
      [("c", VInt c); ("p", VPtr p); ("data", VSlice ld od nd cd)] (trs A O X p T t (sv l sl)) =
    Ok (match err with
        | None => Next
        | Some e => Ret (VTuple [VInt 0; VSlice 0 0 0 0; VErr (Some e)])
        end, env', trs A' O X p T t (sv l' sl')).
Proof.
  intros Hp Ht. induction fuel as [|fuel IH]; intros A l sl data c od nd cd c' out err sl' Hr Hi Hs Hb H Hc.
  - destruct data as [|d0 rest]; [|discriminate]. cbn in H. injection H as <- <- <- <-.
    exists A, l. split; [assumption|]. split; [apply grows_refl|]. eexists. exists 1%nat.
    split; [intros _; eexists; split; reflexivity|]. intros w b n [|m] _ _ _ _ Hm; [lia|].
    pose proof (input_len _ _ _ _ _ _ Hi) as Hn. cbn in Hn. subst nd. reflexivity.
  - destruct data as [|d0 rest].
    { cbn in H. injection H as <- <- <- <-.
      exists A, l. split; [assumption|]. split; [apply grows_refl|]. eexists. exists 1%nat.
      split; [intros _; eexists; split; reflexivity|]. intros w b n [|m] _ _ _ _ Hm; [lia|].
      pose proof (input_len _ _ _ _ _ _ Hi) as Hn. cbn in Hn. subst nd. reflexivity. }
    pose proof (input_len _ _ _ _ _ _ Hi) as Hn. rewrite zlen_cons in Hn. pose proof (zlen_nonneg rest) as Hrest.
    assert (Hcond : forall w n env, get "data" env = Some (VSlice ld od nd cd) -> 
       eval w n (Cmp Gt (Len (Var "data")) (Lit 0)) env (trs A O X p T t (sv l sl)) = Ok (VBool true, trs A O X p T t (sv l sl))).
    { intros w n env Hg. cbn. rewrite Hg. cbn. replace (nd >? 0) with true by lia. reflexivity. }
    assert (Hix0 : index_of E (trs A O X p T t (sv l sl)) (VSlice ld od nd cd) 0 = Ok (VInt d0))
      by (apply (index_input A _ X ld od nd cd (d0 :: rest) 0 d0 Hi); reflexivity).
    cbn [from_loop] in H.
    destruct (Z.land d0 0x80 =? 0) eqn:Hasc.
    + (* one byte *)
      destruct (append_ref grow E A (set_nth p (tr T t (sv l sl)) O) X l sl [d0] Hr) as (A1 & l1 & Happ & Hr1 & Hg1).
      destruct (input_grows _ _ _ _ _ _ _ _ _ Hi Hg1 Hs) as [Hi1 Hs1].
      apply (input_drop _ _ _ _ _ _ 1) in Hi1 as Hi1'; [|lia].
      change (zdrop 1 (d0 :: rest)) with rest in Hi1'. pose proof (Forall_inv_tail Hb) as Hbr.
      destruct (IH A1 l1 _ rest (c + 1) _ _ _ _ _ _ _ Hr1 Hi1' Hs1 Hbr H ltac:(lia)) as (A2 & l2 & Hr2 & Hg2 & env' & N & Henv & Hrun).
      exists A2, l2. split; [assumption|]. split; [eapply grows_trans; [apply Hr|eassumption..]|].
      exists env', (S N). split; [exact Henv|]. intros w b n [|m] Hw Hwb Hcb Hnn Hm; [lia|].
      cbn [while_loop]. rewrite Hcond by reflexivity. cbn [bind as_bool].
      assert (Hbody : exec w n (from_body w) [("c", VInt c); ("p", VPtr p); ("data", VSlice ld od nd cd)] (trs A O X p T t (sv l sl))
        = Ok (Cont, [("c", VInt (c + 1)); ("p", VPtr p); ("data", VSlice ld (od + 1) (nd - 1) (cd - 1))],
              trs A1 O X p T t (sv l1 (go_append grow sl [d0])))).
      { eapply exec_Block'. eapply execs_stop; [|discriminate]. eapply exec_If.
        { cbn. rewrite Hix0. cbn. rewrite Hasc. reflexivity. }
        eapply exec_Block'.
        eapply execs_cons; [eapply exec_Field|].
        { eapply eval_append; [assumption..|reflexivity| |].
          - instantiate (1 := [d0]). cbn. rewrite Hix0. reflexivity.
          - exact Happ. }
        { reflexivity. }
        { change (mk A1 (set_nth p (tr T t (sv l sl)) O) X) with (trs A1 O X p T t (sv l sl)).
          apply set_scratch. assumption. }
        eapply execs_cons; [eapply exec_Var|].
        { cbn. rewrite (drop_input _ _ _ _ _ _ _ Hi) by lia. reflexivity. }
        eapply execs_cons; [eapply exec_Var; cbn; rewrite Hw by (rewrite ?zlen_cons in *; lia); reflexivity|].
        eapply execs_stop; [|discriminate]. reflexivity.
        reflexivity. reflexivity. }
      rewrite Hbody. cbn [bind]. apply (Hrun w b); [assumption|rewrite ?slen_append_len, ?zlen_cons, ?zlen_nil in *; lia..].
    + destruct rest as [|d1 rest].
      * (* a byte is missing *)
        injection H as <- <- <- <-.
        exists A, l. split; [assumption|]. split; [apply grows_refl|].
        exists [("c", VInt c); ("p", VPtr p); ("data", VSlice ld od nd cd)], 1%nat.
        split; [discriminate|]. intros w b n [|m] _ _ _ _ Hm; [lia|].
        cbn [while_loop]. rewrite Hcond by reflexivity. cbn [bind as_bool].
        assert (Hbody : exec w n (from_body w) [("c", VInt c); ("p", VPtr p); ("data", VSlice ld od nd cd)] (trs A O X p T t (sv l sl))
          = Ok (Ret (VTuple [VInt 0; VSlice 0 0 0 0; VErr (Some ErrCP949UnexpectedStream)]),
                [("c", VInt c); ("p", VPtr p); ("data", VSlice ld od nd cd)], trs A O X p T t (sv l sl))).
        { eapply exec_Block'. eapply execs_cons; [eapply exec_If|].
          { cbn. rewrite Hix0. cbn. rewrite Hasc. reflexivity. }
          { eapply exec_Block. reflexivity. }
          eapply execs_stop; [|discriminate]. eapply exec_If.
          { cbn. rewrite zlen_nil in *. replace (nd <? 2) with true by lia. reflexivity. }
          eapply exec_Block. eapply execs_stop; [|discriminate]. reflexivity. reflexivity. }
        rewrite Hbody. reflexivity.
      * (* a code of two bytes *)
        rewrite zlen_cons in Hn. pose proof (zlen_nonneg rest) as Hrest'.
        assert (Hix1 : index_of E (trs A O X p T t (sv l sl)) (VSlice ld od nd cd) 1 = Ok (VInt d1))
          by (apply (index_input A _ X ld od nd cd (d0 :: d1 :: rest) 1 d1 Hi); reflexivity).
        pose proof (Forall_inv Hb) as Hb0. pose proof (Forall_inv_tail Hb) as Hbr.
        pose proof (Forall_inv Hbr) as Hb1. pose proof (Forall_inv_tail Hbr) as Hbr'.
        unfold is_byte in Hb0, Hb1.
        assert (Hcode : Z.lor (to_u16 (Z.shiftl (to_u16 d0) 8)) (to_u16 d1) = Z.lor (to_u16 (Z.shiftl d0 8)) d1)
          by (unfold to_u16 at 2 3; now rewrite (Z.mod_small d0), (Z.mod_small d1) by lia).
        set (code := Z.lor (to_u16 (Z.shiftl d0 8)) d1) in *. clearbody code.
        destruct (Search (zlen t) (from_pred t code)) as [fi| |] eqn:Hsearch; try discriminate. cbn [bind] in H.
        destruct (if fi <? zlen t then let! it := get_or_panic (zget t fi) in Ok (code =? cp949 it) else Ok false)
          as [hit| |] eqn:Hhit; try discriminate. cbn [bind] in H.
        destruct (if hit then let! f := get_or_panic (zget t fi) in appendRune sl (ucs2 f) else appendRune sl RuneError)
          as [sl1| |] eqn:Hsl1; try discriminate. cbn [bind] in H.
        assert (Hap : exists r, appendRune sl r = Ok sl1 /\
                  if hit then exists it, zget t fi = Some it /\ wrap32 (ucs2 it) = r else r = RuneError).
        { destruct hit; [|exists RuneError; auto].
          destruct (zget t fi) as [it|] eqn:Hit; [|discriminate]. exists (ucs2 it). split; [exact Hsl1|].
          exists it. split; [reflexivity|]. apply zget_In in Hit.
          apply (proj1 (Forall_forall _ _) Ht) in Hit. unfold wrap32. rewrite Z.mod_small; lia. }
        destruct Hap as (r & Hr0 & Hhit').
        destruct (go_appendRune A (set_nth p (tr T t (sv l sl)) O) X l sl r sl1 Hr Hr0) as (A1 & l1 & Hr1 & Hg1 & Hln1 & N1 & Hcall).
        destruct (input_grows _ _ _ _ _ _ _ _ _ Hi Hg1 Hs) as [Hi1 Hs1].
        apply (input_drop _ _ _ _ _ _ 2) in Hi1 as Hi1'; [|lia].
        change (zdrop 2 (d0 :: d1 :: rest)) with rest in Hi1'.
        destruct (IH A1 l1 _ rest (c + 2) _ _ _ _ _ _ _ Hr1 Hi1' Hs1 Hbr' H ltac:(lia)) as (A2 & l2 & Hr2 & Hg2 & env' & N & Henv & Hrun).
        exists A2, l2. split; [assumption|]. split; [eapply grows_trans; [apply Hr|eassumption..]|].
        exists env', (S (N + N1)). split; [exact Henv|]. intros w b n [|m] Hw Hwb Hcb Hnn Hm; [lia|].
        cbn [while_loop]. rewrite Hcond by reflexivity. cbn [bind as_bool].
        assert (Hbody : exec w n (from_body w) [("c", VInt c); ("p", VPtr p); ("data", VSlice ld od nd cd)] (trs A O X p T t (sv l sl))
          = Ok (Next, [("c", VInt (c + 2)); ("p", VPtr p); ("data", VSlice ld (od + 2) (nd - 2) (cd - 2))],
                trs A1 O X p T t (sv l1 sl1))).
        { eapply exec_Block'.
          eapply execs_cons; [eapply exec_If|].
          { cbn. rewrite Hix0. cbn. rewrite Hasc. reflexivity. }
          { eapply exec_Block. reflexivity. }
          eapply execs_cons; [eapply exec_If|].
          { cbn. replace (nd <? 2) with false by lia. reflexivity. }
          { eapply exec_Block. reflexivity. }
          eapply execs_cons; [eapply exec_Define; [|reflexivity]|].
          { cbn. rewrite Hix0. cbn. rewrite Hix1. cbn.
            rewrite Hcode. reflexivity. }
          eapply execs_cons; [eapply exec_Define; [|reflexivity]|].
          { eapply eval_Search; [| |exact Hsearch].
            { cbn. rewrite field_table by assumption. reflexivity. }
            intros k. cbn. rewrite field_table by assumption. cbn. unfold from_pred.
            unfold index_of. destruct (zget t k) as [it|]; cbn; [|reflexivity]. rewrite field_cp949. cbn.
            destruct (code <=? cp949 it); reflexivity. }
          cbn [combine app leave length Nat.sub skipn].
          eapply execs_cons.
          { instantiate (1 := trs A1 O X p T t (sv l1 sl1)).
            instantiate (1 := [("fi", VInt fi); ("n", VInt code); ("c", VInt c); ("p", VPtr p); ("data", VSlice ld od nd cd)]).
            eapply exec_If.
            { instantiate (1 := trs A O X p T t (sv l sl)). instantiate (1 := hit).
              cbn. rewrite !field_table by assumption. cbn.
              destruct (fi <? zlen t); cbn; [|injection Hhit as <-; reflexivity].
              rewrite !field_table by assumption. cbn. unfold index_of.
              destruct (zget t fi) as [it|]; cbn in Hhit |- *; [|discriminate]. injection Hhit as <-.
              rewrite field_cp949. reflexivity. }
            destruct hit; cbv iota.
            - destruct Hhit' as (it & Hit & Hwu). eapply exec_Block'.
              { eapply execs_cons; [eapply exec_Define; [|reflexivity]|].
                { cbn. rewrite field_table by assumption. cbn. unfold index_of. rewrite Hit. reflexivity. }
                eapply execs_cons; [eapply exec_Field|reflexivity].
                { cbn. rewrite field_scratch by assumption. cbn. rewrite field_ucs2. cbn. rewrite Hwu. apply (Hcall w b); [assumption|rewrite !zlen_cons in Hwb; lia|lia]. }
                { reflexivity. }
                { change (mk A1 (set_nth p (tr T t (sv l sl)) O) X) with (trs A1 O X p T t (sv l sl)).
                  apply set_scratch. assumption. } }
              reflexivity.
            - subst r. eapply exec_Block'.
              { eapply execs_cons; [eapply exec_Field|reflexivity].
                { cbn. rewrite field_scratch by assumption. cbn. apply (Hcall w b); [assumption|rewrite !zlen_cons in Hwb; lia|lia]. }
                { reflexivity. }
                { change (mk A1 (set_nth p (tr T t (sv l sl)) O) X) with (trs A1 O X p T t (sv l sl)).
                  apply set_scratch. assumption. } }
              reflexivity. }
          eapply execs_cons; [eapply exec_Var|].
          { cbn. rewrite (drop_input _ _ _ _ _ _ _ Hi) by lia. reflexivity. }
          eapply execs_cons; [eapply exec_Var; cbn; rewrite Hw by (rewrite ?zlen_cons in *; lia); reflexivity|]. reflexivity. reflexivity. }
        rewrite Hbody. cbn [bind]. apply (Hrun w b); [assumption|rewrite ?slen_append_len, ?zlen_cons, ?zlen_nil in *; lia..].
Qed.

Lemma go_from_Translate O X p T t ld A l sl data od nd cd c' out err sl' :
  (p < length O)%nat -> u16_table t ->
  ref A l sl -> input A ld od nd cd data -> ld <> l \/ cell A ld = [] -> Forall is_byte data ->
  from_Translate grow t sl data = Ok (c', out, err, sl') ->
  exists A' l', ref A' l' sl' /\ grows A l A' l' /\
  exists N, forall w b n, wide w b -> 5 * (2 * zlen data) + 8212 <= 4 * b -> (N <= n)%nat ->
    run w n "translateFromCp949.Translate" [VPtr p; VSlice ld od nd cd] (trs A O X p T t (sv l sl)) =
    Ok (VTuple [VInt c'; out_val l' out; VErr err], trs A' O X p T t (sv l' sl')).
Proof.
  intros Hp Ht Hr Hi Hs Hb H. unfold from_Translate, reslice in H.
  destruct ((0 <=? 0) && (0 <=? scap sl)) eqn:Hc; try discriminate. cbn [bind] in H.
  destruct (slice_ref A l sl 0 Hr ltac:(lia)) as [Hsl Hr0].
  destruct (go_from_loop O X p T t ld Hp Ht _ _ _ _ _ _ _ _ _ _ _ _ _ Hr0 Hi Hs Hb H ltac:(lia))
    as (A' & l' & Hr' & Hg & env' & N & Henv & Hrun).
  exists A', l'. split; [assumption|]. split; [assumption|]. exists (S N).
  intros w b [|n] Hw Hwb Hn; [lia|]. pose proof (from_loop_results _ _ _ _ _ _ _ _ _ H) as Hres.
  rewrite run_S. cbn [the get bind option_map prog_cp949 String.eqb Ascii.eqb Bool.eqb].
  eapply enter_ret; [reflexivity|reflexivity|]. cbn [f_body func_as f_translateFromCp949_Translate f_params combine stmt_as expr_as lhs_as int_as map].
  eapply exec_Block. eapply execs_cons; [eapply exec_Field|].
  { cbn. rewrite field_scratch by assumption. cbn. rewrite Hsl. reflexivity. }
  { reflexivity. }
  { apply set_scratch. assumption. }
  eapply execs_cons; [eapply exec_Define; reflexivity|]. cbn [combine app].
  pose proof (zlen_nonneg data) as Hdn.
  specialize (Hrun w b n n Hw ltac:(cbn [slen]; lia) ltac:(lia) ltac:(lia) ltac:(lia)).
  destruct err as [e|].
  - destruct Hres as [-> ->]. eapply execs_stop; [|discriminate]. rewrite exec_While. exact Hrun.
  - destruct (Henv eq_refl) as (d & -> & ->).
    eapply execs_cons; [rewrite exec_While; exact Hrun|].
    eapply execs_stop; [|discriminate]. cbn. rewrite field_scratch by assumption. reflexivity.
Qed.

(* cp949.go:75-106 *)
Definition to_body (w : ity) : stmt :=
  Block [If (Cmp Eq (Arith BAnd Uint8 (Index (Var "data") (Lit 0)) (Lit 0x80)) (Lit 0))
  (Block [Assign [LField (Var "p") "scratch"] (Append (Field (Var "p") "scratch") [(Index (Var "data") (Lit 0))]);
  Assign [LVar "data"] (SliceFrom (Var "data") (Lit 1));
  Assign [LVar "c"] (Arith Add w (Var "c") (Lit 1));
  Continue])
  (Block []);
  Define ["r"; "s"] (DecodeRuneE (Var "data"));
  Define ["rUcs2"] (Conv Uint16 (Var "r"));
  Define ["fi"] (SearchE (Len (Field (Var "p") "table")) "i"
  (Block [If (Cmp Le (Var "rUcs2") (Field (Index (Field (Var "p") "table") (Var "i")) "ucs2"))
  (Block [Return [(LitB true)]])
  (Block []);
  Return [(LitB false)]]));
  If (Cmp Ge (Var "fi") (Len (Field (Var "p") "table")))
  (Block [Assign [LField (Var "p") "scratch"] (Append (Field (Var "p") "scratch") [(Lit 0x3f)])])
  (Block []);
  If (And (Cmp Lt (Var "fi") (Len (Field (Var "p") "table"))) (Cmp Eq (Var "rUcs2") (Field (Index (Field (Var "p") "table") (Var "fi")) "ucs2")))
  (Block [Define ["f"] (Index (Field (Var "p") "table") (Var "fi"));
  Assign [LField (Var "p") "scratch"] (Append (Field (Var "p") "scratch") [(Conv Uint8 (Arith Shr Uint16 (Field (Var "f") "cp949") (Lit 8))); (Conv Uint8 (Arith BAnd Uint16 (Field (Var "f") "cp949") (Lit 0xff)))])])
  (Block [Assign [LField (Var "p") "scratch"] (Append (Field (Var "p") "scratch") [(Lit 0x3f)])]);
  Assign [LVar "data"] (SliceFrom (Var "data") (Var "s"));
  Assign [LVar "c"] (Arith Add w (Var "c") (Var "s"))].

(** One assignment p.scratch = append(p.scratch, es...). *)
Lemma exec_append w n A O X p T t l sl bs es env A1 l1 : (p < length O)%nat -> ref A l sl ->
  get "p" env = Some (VPtr p) ->
  (fix evals (es : list expr) (s : state) {struct es} : res (list val * state) :=
     match es with
     | [] => Ok ([], s)
     | e :: es => let! (v, s) := eval w n e env s in let! (vs, s) := evals es s in Ok (v :: vs, s)
     end) es (trs A O X p T t (sv l sl)) = Ok (map VInt bs, trs A O X p T t (sv l sl)) ->
  append_to grow E (trs A O X p T t (sv l sl)) (sv l sl) bs =
    Ok (sv l1 (go_append grow sl bs), trs A1 O X p T t (sv l sl)) ->
  exec w n (Assign [LField (Var "p") "scratch"] (Append (Field (Var "p") "scratch") es)) env (trs A O X p T t (sv l sl)) =
  Ok (Next, env, trs A1 O X p T t (sv l1 (go_append grow sl bs))).
Proof.
  intros Hp Hr Hg He Ha. eapply exec_Field.
  { eapply eval_append; eassumption. }
  { cbn. rewrite Hg. reflexivity. }
  { apply set_scratch. assumption. }
Qed.

Lemma go_to_loop O X p T t ld : (p < length O)%nat ->
  forall fuel A l sl data c od nd cd c' out err sl',
  ref A l sl -> input A ld od nd cd data -> ld <> l \/ cell A ld = [] ->
  to_loop grow fuel t sl data c = Ok (c', out, err, sl') -> 0 <= c ->
  err = None /\ out = Some sl' /\
  exists A' l', ref A' l' sl' /\ grows A l A' l' /\
  exists d N, forall w b n m, wide w b -> c + zlen data <= b -> (N <= n)%nat -> (N <= m)%nat ->
    while_loop grow E rd wr (run w n) n (Cmp Gt (Len (Var "data")) (Lit 0)) (to_body w) m
      [("c", VInt c); ("p", VPtr p); ("data", VSlice ld od nd cd)] (trs A O X p T t (sv l sl)) =
    Ok (Next, [("c", VInt c'); ("p", VPtr p); ("data", d)], trs A' O X p T t (sv l' sl')).
Proof.
  intros Hp. induction fuel as [|fuel IH]; intros A l sl data c od nd cd c' out err sl' Hr Hi Hs H Hc.
  - destruct data as [|d0 rest]; [|discriminate]. cbn in H. injection H as <- <- <- <-. do 2 (split; [reflexivity|]).
    exists A, l. split; [assumption|]. split; [apply grows_refl|]. eexists. exists 1%nat.
    intros w b n [|m] _ _ _ Hm; [lia|].
    pose proof (input_len _ _ _ _ _ _ Hi) as Hn. cbn in Hn. subst nd. reflexivity.
  - destruct data as [|d0 rest].
    { cbn in H. injection H as <- <- <- <-. do 2 (split; [reflexivity|]).
      exists A, l. split; [assumption|]. split; [apply grows_refl|]. eexists. exists 1%nat.
      intros w b n [|m] _ _ _ Hm; [lia|].
      pose proof (input_len _ _ _ _ _ _ Hi) as Hn. cbn in Hn. subst nd. reflexivity. }
    pose proof (input_len _ _ _ _ _ _ Hi) as Hn. rewrite zlen_cons in Hn. pose proof (zlen_nonneg rest) as Hrest.
    assert (Hcond : forall w n env, get "data" env = Some (VSlice ld od nd cd) -> 
       eval w n (Cmp Gt (Len (Var "data")) (Lit 0)) env (trs A O X p T t (sv l sl)) = Ok (VBool true, trs A O X p T t (sv l sl))).
    { intros w n env Hg. cbn. rewrite Hg. cbn. replace (nd >? 0) with true by lia. reflexivity. }
    assert (Hix0 : index_of E (trs A O X p T t (sv l sl)) (VSlice ld od nd cd) 0 = Ok (VInt d0))
      by (apply (index_input A _ X ld od nd cd (d0 :: rest) 0 d0 Hi); reflexivity).
    cbn [to_loop] in H.
    destruct (Z.land d0 0x80 =? 0) eqn:Hasc.
    + (* one byte *)
      destruct (append_ref grow E A (set_nth p (tr T t (sv l sl)) O) X l sl [d0] Hr) as (A1 & l1 & Happ & Hr1 & Hg1).
      destruct (input_grows _ _ _ _ _ _ _ _ _ Hi Hg1 Hs) as [Hi1 Hs1].
      apply (input_drop _ _ _ _ _ _ 1) in Hi1 as Hi1'; [|lia].
      change (zdrop 1 (d0 :: rest)) with rest in Hi1'.
      destruct (IH A1 l1 _ rest (c + 1) _ _ _ _ _ _ _ Hr1 Hi1' Hs1 H ltac:(lia)) as (He & Ho & A2 & l2 & Hr2 & Hg2 & d & N & Hrun).
      split; [assumption|]. split; [assumption|].
      exists A2, l2. split; [assumption|]. split; [eapply grows_trans; [apply Hr|eassumption..]|].
      exists d, (S N). intros w b n [|m] Hw Hcb Hnn Hm; [lia|].
      cbn [while_loop]. rewrite Hcond by reflexivity. cbn [bind as_bool].
      assert (Hbody : exec w n (to_body w) [("c", VInt c); ("p", VPtr p); ("data", VSlice ld od nd cd)] (trs A O X p T t (sv l sl))
        = Ok (Cont, [("c", VInt (c + 1)); ("p", VPtr p); ("data", VSlice ld (od + 1) (nd - 1) (cd - 1))],
              trs A1 O X p T t (sv l1 (go_append grow sl [d0])))).
      { eapply exec_Block'. eapply execs_stop; [|discriminate]. eapply exec_If.
        { cbn. rewrite Hix0. cbn. rewrite Hasc. reflexivity. }
        eapply exec_Block'.
        eapply execs_cons; [eapply exec_append|].
        { assumption. } { assumption. } { reflexivity. }
        { instantiate (1 := [d0]). cbn. rewrite Hix0. reflexivity. }
        { exact Happ. }
        eapply execs_cons; [eapply exec_Var|].
        { cbn. rewrite (drop_input _ _ _ _ _ _ _ Hi) by lia. reflexivity. }
        eapply execs_cons; [eapply exec_Var; cbn; rewrite Hw by (rewrite ?zlen_cons in *; lia); reflexivity|].
        eapply execs_stop; [|discriminate]. reflexivity.
        reflexivity. reflexivity. }
      rewrite Hbody. cbn [bind]. apply (Hrun w b); [assumption|rewrite ?zlen_zdrop by (rewrite ?zlen_cons; lia); rewrite ?zlen_cons in *; lia|lia|lia].
    + (* a character of several bytes, or a malformed one *)
      destruct (DecodeRune (d0 :: rest)) as [r sz] eqn:Hdec.
      pose proof (DecodeRune_size_nonneg (d0 :: rest)) as Hsz. rewrite Hdec in Hsz. cbn [snd] in Hsz.
      remember (to_u16 r) as u eqn:Hu.
      assert (Hcells : cells E (trs A O X p T t (sv l sl)) ld od nd = d0 :: rest)
        by (destruct Hi as (_ & _ & _ & _ & ->); reflexivity).
      destruct (Search (zlen t) (to_pred t u)) as [fi| |] eqn:Hsearch; try discriminate. cbn [bind] in H.
      set (sl0 := if fi >=? zlen t then go_append grow sl [0x3F] else sl) in *.
      destruct (if fi <? zlen t then let! it := get_or_panic (zget t fi) in Ok (u =? ucs2 it) else Ok false)
        as [hit| |] eqn:Hhit; try discriminate. cbn [bind] in H.
      destruct (if hit then let! f := get_or_panic (zget t fi) in
                  Ok (go_append grow sl0 [to_u8 (Z.shiftr (cp949 f) 8); to_u8 (Z.land (cp949 f) 255)])
                else Ok (go_append grow sl0 [63])) as [sl1| |] eqn:Hsl1; try discriminate. cbn [bind] in H.
      destruct (sz >? zlen (d0 :: rest)) eqn:Hgt; [discriminate|].
      rewrite zlen_cons in Hgt.
      (* the bytes appended *)
      assert (H0 : exists A0 l0, ref A0 l0 sl0 /\ grows A l A0 l0 /\
                (if fi >=? zlen t then
                   append_to grow E (trs A O X p T t (sv l sl)) (sv l sl) [63] = Ok (sv l0 sl0, trs A0 O X p T t (sv l sl))
                 else A0 = A /\ l0 = l /\ sl0 = sl)).
      { subst sl0. destruct (fi >=? zlen t).
        - destruct (append_ref grow E A (set_nth p (tr T t (sv l sl)) O) X l sl [63] Hr) as (A1 & l1 & Happ & Hr1 & Hg1).
          exists A1, l1. auto.
        - exists A, l. split; [assumption|]. split; [apply grows_refl|]. auto. }
      destruct H0 as (A0 & l0 & Hr0 & Hg0 & Hap0).
      set (bs := if hit then match zget t fi with
                             | Some f => [to_u8 (Z.shiftr (cp949 f) 8); to_u8 (Z.land (cp949 f) 255)]
                             | None => [] end else [63]) in *.
      assert (Hsl1' : sl1 = go_append grow sl0 bs).
      { subst bs. destruct hit; [destruct (zget t fi); [|discriminate]|]; cbn in Hsl1; injection Hsl1 as <-; reflexivity. }
      destruct (append_ref grow E A0 (set_nth p (tr T t (sv l0 sl0)) O) X l0 sl0 bs Hr0) as (A1 & l1 & Happ & Hr1 & Hg1).
      rewrite <- Hsl1' in *.
      assert (Hg : grows A l A1 l1) by (eapply grows_trans; [apply Hr|eassumption..]).
      destruct (input_grows _ _ _ _ _ _ _ _ _ Hi Hg Hs) as [Hi1 Hs1].
      apply (input_drop _ _ _ _ _ _ sz) in Hi1 as Hi1'; [|lia].
      destruct (IH A1 l1 _ _ (c + sz) _ _ _ _ _ _ _ Hr1 Hi1' Hs1 H ltac:(lia)) as (He & Ho & A2 & l2 & Hr2 & Hg2 & d & N & Hrun).
      split; [assumption|]. split; [assumption|].
      exists A2, l2. split; [assumption|]. split; [eapply grows_trans; [apply Hr|eassumption..]|].
      exists d, (S N). intros w b n [|m] Hw Hcb Hnn Hm; [lia|].
      cbn [while_loop]. rewrite Hcond by reflexivity. cbn [bind as_bool].
      assert (Hbody : exec w n (to_body w) [("c", VInt c); ("p", VPtr p); ("data", VSlice ld od nd cd)] (trs A O X p T t (sv l sl))
        = Ok (Next, [("c", VInt (c + sz)); ("p", VPtr p); ("data", VSlice ld (od + sz) (nd - sz) (cd - sz))],
              trs A1 O X p T t (sv l1 sl1))).
      { eapply exec_Block'.
        eapply execs_cons; [eapply exec_If|].
        { cbn. rewrite Hix0. cbn. rewrite Hasc. reflexivity. }
        { eapply exec_Block. reflexivity. }
        eapply execs_cons; [eapply exec_Define|].
        { cbn. rewrite Hcells, Hdec. reflexivity. }
        { reflexivity. }
        eapply execs_cons; [eapply exec_Define; [|reflexivity]|].
        { cbn. rewrite <- Hu. reflexivity. }
        eapply execs_cons; [eapply exec_Define; [|reflexivity]|].
        { eapply eval_Search; [| |exact Hsearch].
          { cbn. rewrite field_table by assumption. reflexivity. }
          intros k. cbn. rewrite field_table by assumption. cbn. unfold to_pred.
          unfold index_of. destruct (zget t k) as [it|]; cbn; [|reflexivity]. rewrite field_ucs2. cbn.
          destruct (u <=? ucs2 it); reflexivity. }
        cbn [combine app leave length Nat.sub skipn].
        eapply execs_cons.
        { instantiate (1 := trs A0 O X p T t (sv l0 sl0)).
          instantiate (1 := [("fi", VInt fi); ("rUcs2", VInt u); ("r", VInt r); ("s", VInt sz); ("c", VInt c); ("p", VPtr p); ("data", VSlice ld od nd cd)]).
          eapply exec_If.
          { cbn. rewrite !field_table by assumption. reflexivity. }
          destruct (fi >=? zlen t) eqn:Hge; cbv iota.
          - eapply exec_Block'.
            { eapply execs_cons; [|reflexivity].
              subst sl0. eapply exec_append; [assumption|assumption|reflexivity| |exact Hap0]. reflexivity. }
            reflexivity.
          - destruct Hap0 as (-> & -> & ->). eapply exec_Block'. { reflexivity. } reflexivity. }
        eapply execs_cons.
        { instantiate (1 := trs A1 O X p T t (sv l1 sl1)).
          instantiate (1 := [("fi", VInt fi); ("rUcs2", VInt u); ("r", VInt r); ("s", VInt sz); ("c", VInt c); ("p", VPtr p); ("data", VSlice ld od nd cd)]).
          eapply exec_If.
          { instantiate (1 := trs A0 O X p T t (sv l0 sl0)). instantiate (1 := hit).
            cbn. rewrite !field_table by assumption. cbn.
            destruct (fi <? zlen t); cbn; [|injection Hhit as <-; reflexivity].
            rewrite !field_table by assumption. cbn. unfold index_of.
            destruct (zget t fi) as [it|]; cbn in Hhit |- *; [|discriminate]. injection Hhit as <-.
            rewrite field_ucs2. reflexivity. }
          rewrite Hsl1'. rewrite Hsl1' in Happ. subst bs.
          destruct hit; cbv iota.
          - destruct (zget t fi) as [it|] eqn:Hit; [|discriminate]. eapply exec_Block'.
            { eapply execs_cons; [eapply exec_Define; [|reflexivity]|].
              { cbn. rewrite field_table by assumption. cbn. unfold index_of. rewrite Hit. reflexivity. }
              eapply execs_cons; [|reflexivity].
              eapply exec_append; [assumption|assumption|reflexivity| |exact Happ].
              cbn. rewrite !field_cp949. reflexivity. }
            reflexivity.
          - eapply exec_Block'.
            { eapply execs_cons; [|reflexivity].
              eapply exec_append; [assumption|assumption|reflexivity| |exact Happ]. reflexivity. }
            reflexivity. }
        eapply execs_cons; [eapply exec_Var|].
        { cbn. rewrite (drop_input _ _ _ _ _ _ _ Hi) by lia. reflexivity. }
        eapply execs_cons; [eapply exec_Var; cbn; rewrite Hw by (rewrite ?zlen_cons in *; lia); reflexivity|]. reflexivity. reflexivity. }
      rewrite Hbody. cbn [bind]. apply (Hrun w b); [assumption|rewrite ?zlen_zdrop by (rewrite ?zlen_cons; lia); rewrite ?zlen_cons in *; lia|lia|lia].
Qed.

Lemma go_to_Translate O X p T t ld A l sl data od nd cd c' out err sl' :
  (p < length O)%nat ->
  ref A l sl -> input A ld od nd cd data -> ld <> l \/ cell A ld = [] ->
  to_Translate grow t sl data = Ok (c', out, err, sl') ->
  exists A' l', ref A' l' sl' /\ grows A l A' l' /\ err = None /\ out = Some sl' /\
  exists N, forall w b n, wide w b -> zlen data <= b -> (N <= n)%nat ->
    run w n "translateToCp949.Translate" [VPtr p; VSlice ld od nd cd] (trs A O X p T t (sv l sl)) =
    Ok (VTuple [VInt c'; out_val l' out; VErr err], trs A' O X p T t (sv l' sl')).
Proof.
  intros Hp Hr Hi Hs H. unfold to_Translate, reslice in H.
  destruct ((0 <=? 0) && (0 <=? scap sl)) eqn:Hc; try discriminate. cbn [bind] in H.
  destruct (slice_ref A l sl 0 Hr ltac:(lia)) as [Hsl Hr0].
  destruct (go_to_loop O X p T t ld Hp _ _ _ _ _ _ _ _ _ _ _ _ _ Hr0 Hi Hs H ltac:(lia))
    as (-> & -> & A' & l' & Hr' & Hg & d & N & Hrun).
  exists A', l'. split; [assumption|]. split; [assumption|]. split; [reflexivity|]. split; [reflexivity|]. exists (S N).
  intros w b [|n] Hw Hwb Hn; [lia|].
  rewrite run_S. cbn [the get bind option_map prog_cp949 String.eqb Ascii.eqb Bool.eqb].
  eapply enter_ret; [reflexivity|reflexivity|]. cbn [f_body func_as f_translateToCp949_Translate f_params combine stmt_as expr_as lhs_as int_as map].
  eapply exec_Block. eapply execs_cons; [eapply exec_Field|].
  { cbn. rewrite field_scratch by assumption. cbn. rewrite Hsl. reflexivity. }
  { reflexivity. }
  { apply set_scratch. assumption. }
  eapply execs_cons; [eapply exec_Define; reflexivity|]. cbn [combine app].
  specialize (Hrun w b n n Hw ltac:(lia) ltac:(lia) ltac:(lia)).
  eapply execs_cons; [rewrite exec_While; exact Hrun|].
  eapply execs_stop; [|discriminate]. cbn. rewrite field_scratch by assumption. reflexivity.
Qed.

(** ** Package functions *)

Lemma go_fromCp949 w A O X n :
  run w (S n) "fromCp949" [] (mk A O X) =
  Ok (VTuple [VPtr (length O); VErr None],
      trs A (O ++ [tr "translateFromCp949" fromTable (VSlice 0 0 0 0)]) X (length O) "translateFromCp949" fromTable (sv 0 nil_slice)).
Proof.
  unfold trs. rewrite set_nth_last. reflexivity.
Qed.
Lemma go_toCp949 w A O X n :
  run w (S n) "toCp949" [] (mk A O X) =
  Ok (VTuple [VPtr (length O); VErr None],
      trs A (O ++ [tr "translateToCp949" toTable (VSlice 0 0 0 0)]) X (length O) "translateToCp949" toTable (sv 0 nil_slice)).
Proof.
  unfold trs. rewrite set_nth_last. reflexivity.
Qed.

Lemma go_From A O X ld od nd cd data r : nil_ok A -> input A ld od nd cd data -> Forall is_byte data ->
  From grow data = Ok r ->
  exists A' v, keeps A A' /\ returns A A' v r /\
  exists o N, forall w b n, wide w b -> 5 * (2 * zlen data) + 8212 <= 4 * b -> (N <= n)%nat ->
    run w n "From" [VSlice ld od nd cd] (mk A O X) = Ok (v, mk A' (O ++ [o]) X).
Proof.
  intros Hnil Hi Hb H. unfold From in H.
  destruct (from_Translate grow fromTable nil_slice data) as [[[[c' out] err] sl']| |] eqn:Ht; try discriminate.
  cbn [bind] in H. injection H as <-.
  set (O' := O ++ [tr "translateFromCp949" fromTable (VSlice 0 0 0 0)]).
  assert (Hp : (length O < length O')%nat) by (unfold O'; rewrite app_length; cbn; lia).
  destruct (go_from_Translate O' X (length O) "translateFromCp949" fromTable ld A 0 nil_slice data od nd cd c' out err sl'
     Hp u16_fromTable (nil_ref A Hnil) Hi) as (A' & l' & Hr & Hg & N & Hrun); [| assumption | assumption |].
  { destruct (Nat.eq_dec ld 0) as [->|]; [right; apply Hnil|auto]. }
  pose proof (from_loop_results _ _ _ _ _ _ _ _ _ Ht) as Hres.
  exists A', (VTuple [out_val l' out; VErr err]).
  split; [eapply fresh_keeps; eassumption|]. split.
  { unfold of_translate, returns. destruct err as [e|]; [destruct Hres as [_ ->]; reflexivity|]. subst out.
    exists l', (slen sl'), (scap sl'). split; [reflexivity|]. split; [now apply ref_input|].
    eapply fresh_loc; eassumption. }
  exists (tr "translateFromCp949" fromTable (sv l' sl')), (S (S N)). intros w b [|[|n]] Hw Hwb Hn; [lia|lia|].
  rewrite run_S. cbn [the get bind option_map prog_cp949 String.eqb Ascii.eqb Bool.eqb].
  replace (mk A' (O ++ [tr "translateFromCp949" fromTable (sv l' sl')]) X) with
    (trs A' O' X (length O) "translateFromCp949" fromTable (sv l' sl'))
    by (unfold trs, O'; now rewrite set_nth_last).
  eapply enter_ret; [reflexivity|reflexivity|]. cbn [f_body func_as f_From f_params combine stmt_as expr_as lhs_as int_as map].
  eapply exec_Block. eapply execs_cons; [eapply exec_Define; [apply go_fromCp949|reflexivity]|]. cbn [combine app].
  eapply execs_cons; [eapply exec_If; [reflexivity|]|].
  { eapply exec_Block. reflexivity. }
  cbn [leave length Nat.sub skipn].
  eapply execs_cons; [eapply exec_Define|].
  { cbn. unfold trs at 1. cbn [objs]. rewrite nth_error_set_nth by assumption. cbn. apply (Hrun w b); [assumption|assumption|lia]. }
  { reflexivity. }
  destruct err as [e|].
  - destruct Hres as [_ ->]. eapply execs_stop; [|discriminate]. eapply exec_If; [reflexivity|].
    eapply exec_Block. eapply execs_stop; [|discriminate]. reflexivity.
  - eapply execs_cons; [eapply exec_If; [reflexivity|]|].
    { eapply exec_Block. reflexivity. }
    eapply execs_stop; [|discriminate]. reflexivity.
Qed.

Lemma go_To A O X ld od nd cd data r : nil_ok A -> input A ld od nd cd data ->
  To grow data = Ok r ->
  exists A' v, keeps A A' /\ returns A A' v r /\
  exists o N, forall w b n, wide w b -> zlen data <= b -> (N <= n)%nat ->
    run w n "To" [VSlice ld od nd cd] (mk A O X) = Ok (v, mk A' (O ++ [o]) X).
Proof.
  intros Hnil Hi H. unfold To in H.
  destruct (to_Translate grow toTable nil_slice data) as [[[[c' out] err] sl']| |] eqn:Ht; try discriminate.
  cbn [bind] in H. injection H as <-.
  set (O' := O ++ [tr "translateToCp949" toTable (VSlice 0 0 0 0)]).
  assert (Hp : (length O < length O')%nat) by (unfold O'; rewrite app_length; cbn; lia).
  destruct (go_to_Translate O' X (length O) "translateToCp949" toTable ld A 0 nil_slice data od nd cd c' out err sl'
     Hp (nil_ref A Hnil) Hi) as (A' & l' & Hr & Hg & -> & -> & N & Hrun); [| assumption |].
  { destruct (Nat.eq_dec ld 0) as [->|]; [right; apply Hnil|auto]. }
  exists A', (VTuple [sv l' sl'; VErr None]).
  split; [eapply fresh_keeps; eassumption|]. split.
  { exists l', (slen sl'), (scap sl'). split; [reflexivity|]. split; [now apply ref_input|].
    eapply fresh_loc; eassumption. }
  exists (tr "translateToCp949" toTable (sv l' sl')), (S (S N)). intros w b [|[|n]] Hw Hwb Hn; [lia|lia|].
  rewrite run_S. cbn [the get bind option_map prog_cp949 String.eqb Ascii.eqb Bool.eqb].
  replace (mk A' (O ++ [tr "translateToCp949" toTable (sv l' sl')]) X) with
    (trs A' O' X (length O) "translateToCp949" toTable (sv l' sl'))
    by (unfold trs, O'; now rewrite set_nth_last).
  eapply enter_ret; [reflexivity|reflexivity|]. cbn [f_body func_as f_To f_params combine stmt_as expr_as lhs_as int_as map].
  eapply exec_Block. eapply execs_cons; [eapply exec_Define; [apply go_toCp949|reflexivity]|]. cbn [combine app].
  eapply execs_cons; [eapply exec_If; [reflexivity|]|].
  { eapply exec_Block. reflexivity. }
  cbn [leave length Nat.sub skipn].
  eapply execs_cons; [eapply exec_Define|].
  { cbn. unfold trs at 1. cbn [objs]. rewrite nth_error_set_nth by assumption. cbn. apply (Hrun w b); [assumption|assumption|lia]. }
  { reflexivity. }
  eapply execs_cons; [eapply exec_If; [reflexivity|]|].
  { eapply exec_Block. reflexivity. }
  eapply execs_stop; [|discriminate]. reflexivity.
Qed.

End Run.
