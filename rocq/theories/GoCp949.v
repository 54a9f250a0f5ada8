(** Executing the syntax trees of package cp949: ensureCap, appendRune, the two Translate
    methods, From and To do what Cp949Model.v says. *)
From Coq Require Import String ZArith List Bool Lia.
From Verif Require Import Base Utf8 SortSearch TableFrom TableTo Cp949Model GoLang GoSource GoFacts GoHeap Facts Utf8Facts SliceFacts SpecCp949 TableFacts.
Import ListNotations.
Local Open Scope string_scope.
Local Open Scope list_scope.
Local Open Scope Z_scope.
Local Open Scope go_scope.
Local Opaque fromTable toTable.
Local Arguments Z.add : simpl never.
Local Arguments Z.sub : simpl never.
Local Arguments Z.leb : simpl never.
Local Arguments Z.ltb : simpl never.
Local Arguments Z.geb : simpl never.
Local Arguments Z.gtb : simpl never.
Local Arguments Z.eqb : simpl never.
Local Arguments Z.lor : simpl never.
Local Arguments Z.land : simpl never.
Local Arguments Z.shiftl : simpl never.
Local Arguments Z.shiftr : simpl never.
Local Arguments to_u16 : simpl never.
Local Arguments to_u8 : simpl never.
Local Arguments Search : simpl never.
Local Arguments DecodeRune : simpl never.
Local Arguments run : simpl never.
Local Arguments zwrite : simpl never.
Local Arguments go_div : simpl never.
Local Arguments append_to : simpl never.
Local Arguments slice_of : simpl never.
Local Arguments index_of : simpl never.
Local Arguments copy_to : simpl never.
Local Arguments field_of : simpl never.
Local Arguments set_field : simpl never.
Local Arguments store : simpl never.
Local Arguments scap : simpl never.
Local Arguments go_append : simpl never.
Local Arguments cells : simpl never.

Section Run.
Variable grow : Z -> Z -> Z.
Variable E : Type.
Variable rd : nat -> E -> Z -> Z * list Z * option error * E.
Variable wr : nat -> E -> list Z -> Z * option error * E.
Notation run := (run grow E rd wr prog_cp949).
Notation state := (state E).
Notation mk := (mkState E).
Notation grows := (grows grow).
Notation input_grows := (input_grows grow).
Notation exec n := (exec grow E rd wr (run n) n).
Notation eval n := (eval grow E rd wr (run n) n).

Lemma run_S n f args s : run (S n) f args s =
  bind (the (get f prog_cp949)) (fun fn => enter grow E rd wr (run n) n fn args s).
Proof. reflexivity. Qed.

(* cp949.go:130-139 *)
Definition grow_body : stmt :=
  Block [If (Cmp Lt (Var "m") (Lit 0x400))
  (Block [Assign [LVar "m"] (Arith Add Int (Var "m") (Var "m"))])
  (Block [Assign [LVar "m"] (Arith Add Int (Var "m") (Arith Div Int (Var "m") (Lit 4)))]);
  If (Cmp Ge (Var "m") (Var "n"))
  (Block [Break])
  (Block [])].

Lemma go_grow call loops k v s f : forall m m' n, (f <= n)%nat -> grow_loop f m k = Ok m' ->
  while_loop grow E rd wr call loops (LitB true) grow_body n [("m", VInt m); ("s", v); ("n", VInt k)] s =
  Ok (Next, [("m", VInt m'); ("s", v); ("n", VInt k)], s).
Proof.
  induction f as [|f IH]; intros m m' n Hn H; [discriminate|].
  destruct n as [|n]; [lia|]. cbn in H. cbn.
  assert (Hdiv : forall z, (if 4 =? 0 then Panic else Ok (go_div z 4)) = Ok (go_div z 4)) by reflexivity.
  destruct (m <? 0x400) eqn:Hm; cbn; rewrite ?Hdiv; cbn.
  - destruct (m + m >=? k) eqn:Hk; cbn; [injection H as <-; reflexivity|]. apply IH; [lia|assumption].
  - destruct (m + go_div m 4 >=? k) eqn:Hk; cbn; [injection H as <-; reflexivity|]. apply IH; [lia|assumption].
Qed.

Lemma go_ensureCap A O X l sl k sl' : ref A l sl -> ensureCap sl k = Ok sl' ->
  exists A' l', ref A' l' sl' /\ grows A l A' l' /\
  forall n, (Z.to_nat k <= n)%nat ->
    run (S n) "ensureCap" [sv l sl; VInt k] (mk A O X) = Ok (sv l' sl', mk A' O X).
Proof.
  intros Hr H. pose proof Hr as (Hl & Ha & Hok). pose proof Hok as [Hs1 Hs2].
  pose proof (ensureCap_spec sl k Hok) as Hsp.
  unfold ensureCap in H.
  destruct (k <=? scap sl) eqn:Hk.
  - injection H as <-. exists A, l. split; [assumption|]. split; [apply grows_refl|]. intros n _.
    rewrite run_S. cbn [the get bind prog_cp949 String.eqb Ascii.eqb Bool.eqb].
    eapply enter_ret; [reflexivity|reflexivity|]. cbn [f_body f_ensureCap f_params combine].
    eapply exec_Block, execs_stop; [|discriminate]. eapply exec_If.
    { cbn. rewrite Hk. reflexivity. }
    eapply exec_Block, execs_stop; [|discriminate]. eapply exec_Return1. reflexivity.
  - destruct (if scap sl =? 0 then Ok k else grow_loop (Z.to_nat k) (scap sl) k) as [m| |] eqn:Hm; try discriminate.
    cbn in H. injection H as <-.
    assert (Hmk : slen sl <= m /\ 0 <= m).
    { destruct (scap sl =? 0) eqn:H0; [injection Hm as <-; lia|].
      destruct (grow_loop_spec (Z.to_nat k) (scap sl) k) as (m1 & Hm1 & Hb); [lia..|]. 
      assert (m1 = m) by congruence. lia. }
    assert (Hlen : zlen (zwrite (zeros m) 0 (contents sl)) = m).
    { rewrite zlen_zwrite; rewrite ?zlen_zeros, ?contents_len by (assumption || lia); lia. }
    exists (A ++ [zwrite (zeros m) 0 (contents sl)]), (length A).
    split; [|split; [apply grows_new; [assumption|]; rewrite Ha, Hlen; fold (scap sl); left|]].
    2:{ destruct (scap sl =? 0) eqn:H0; [injection Hm as <-; lia|].
      apply grow_loop_regrown in Hm; lia. }
    2:{ intros n Hn. rewrite run_S. cbn [the get bind prog_cp949 String.eqb Ascii.eqb Bool.eqb].
      eapply enter_ret; [reflexivity|reflexivity|]. cbn [f_body f_ensureCap f_params combine].
      eapply exec_Block. eapply execs_cons; [eapply exec_If|].
      { cbn. rewrite Hk. reflexivity. }
      { eapply exec_Block. reflexivity. }
      eapply execs_cons; [eapply exec_Define; reflexivity|].
      eapply execs_cons.
      { instantiate (1 := mk A O X).
        instantiate (1 := [("m", VInt m); ("s", sv l sl); ("n", VInt k)]).
        eapply exec_If; [reflexivity|].
        destruct (scap sl =? 0) eqn:H0; cbv iota.
        - injection Hm as <-. eapply exec_Block'.
          { eapply execs_cons; [eapply exec_Var; reflexivity|]. reflexivity. }
          reflexivity.
        - eapply exec_Block'.
          { eapply execs_cons; [|reflexivity].
            rewrite exec_While. apply (go_grow _ _ _ _ _ _ _ _ _ Hn Hm). }
          reflexivity. }
      eapply execs_cons; [eapply exec_Define; [|reflexivity]|].
      { cbn. rewrite (proj2 (Z.leb_le 0 (slen sl))), (proj2 (Z.leb_le (slen sl) m)) by lia. reflexivity. }
      cbn [combine app].
      eapply execs_cons.
      { cbn. unfold copy_to, store, set_arr, cells, arr_at. cbn [arrs objs ext].
        fold (cell (A ++ [zeros m]) l). rewrite cell_old, Ha by assumption.
        fold (cell (A ++ [zeros m]) (length A)). rewrite cell_new, Z.min_id, zdrop_0, set_nth_last.
        reflexivity. }
      eapply execs_stop; [|discriminate]. eapply exec_Return1. cbn.
      unfold scap. cbn [arr slen]. rewrite Hlen. reflexivity. }
    split; [rewrite app_length; cbn; lia|]. split; [apply cell_new|].
      unfold slice_ok, scap. cbn [arr slen]. rewrite Hlen. lia.
Qed.

Lemma go_appendRune A O X l sl r sl' : ref A l sl -> appendRune sl r = Ok sl' ->
  exists A' l', ref A' l' sl' /\ grows A l A' l' /\
  exists N, forall n, (N <= n)%nat ->
    run n "appendRune" [sv l sl; VInt r] (mk A O X) = Ok (sv l' sl', mk A' O X).
Proof.
  intros Hr H. pose proof Hr as (Hl & Ha & Hok). unfold appendRune in H.
  destruct (ensureCap sl (slen sl + UTFMax)) as [b| |] eqn:Hb; try discriminate. cbn [bind] in H.
  destruct (slen sl + UTFMax >? scap b) eqn:Hcap; try discriminate.
  unfold reslice in H.
  destruct ((0 <=? slen sl + zlen (EncodeRune r)) && _) eqn:Hre; try discriminate. injection H as <-.
  cbn [arr slen] in *.
  destruct (go_ensureCap A O X l sl _ b Hr Hb) as (A1 & l1 & Hr1 & Hg1 & Hrun1).
  pose proof Hr1 as (Hl1 & Ha1 & Hok1). unfold slice_ok in Hok, Hok1.
  pose proof (EncodeRune_len r) as He.
  assert (HU : UTFMax = 4) by reflexivity.
  assert (Hz : zlen (zwrite (arr b) (slen sl) (EncodeRune r)) = zlen (arr b))
    by (apply zlen_zwrite; unfold scap in *; lia).
  exists (set_nth l1 (zwrite (arr b) (slen sl) (EncodeRune r)) A1), l1.
  split; [|split].
  - split; [rewrite set_nth_len; lia|]. cbn [arr]. split; [now apply cell_set|].
    unfold slice_ok, scap in *. cbn [arr slen] in *. lia.
  - eapply grows_trans; [eassumption..|]. apply grows_write; [|assumption]. rewrite Ha1. now apply length_zlen.
  - exists (S (S (Z.to_nat (slen sl + UTFMax)))). intros [|[|n]] Hn; try lia.
    specialize (Hrun1 n ltac:(lia)).
    rewrite run_S. cbn [the get bind prog_cp949 String.eqb Ascii.eqb Bool.eqb].
    eapply enter_ret; [reflexivity|reflexivity|]. cbn [f_body f_appendRune f_params combine].
    eapply exec_Block. eapply execs_cons; [eapply exec_Define; reflexivity|]. cbn [combine app].
    eapply execs_cons; [eapply exec_Var|].
    { cbn. exact Hrun1. }
    cbn [set String.eqb Ascii.eqb Bool.eqb].
    eapply execs_cons; [eapply exec_Define; [|reflexivity]|].
    { cbn. unfold slice_of.
      replace ((0 <=? slen sl) && (slen sl <=? slen sl + UTFMax) && (slen sl + UTFMax <=? scap b)) with true by lia.
      cbn. destruct (zlen (EncodeRune r) >? slen sl + UTFMax - slen sl) eqn:Hx; [lia|].
      unfold store, set_arr, arr_at. cbn [arrs objs ext]. fold (cell A1 l1). rewrite Ha1.
      replace (0 + slen sl) with (slen sl) by lia. reflexivity. }
    cbn [combine app].
    eapply execs_stop; [|discriminate]. eapply exec_Return1. cbn. unfold slice_of.
    unfold scap in *. cbn [arr slen] in *. rewrite Hz in *.
    replace ((0 <=? 0) && (0 <=? slen sl + zlen (EncodeRune r)) && (slen sl + zlen (EncodeRune r) <=? zlen (arr b))) with true by lia.
    cbn. do 2 f_equal. f_equal; lia.
Qed.

(** ** Translators in the storage *)
Definition tr (T : string) (t : list lookupItem) (v : val) : string * list (string * val) :=
  (T, [("table", VTable t); ("scratch", v)]).
Definition trs (A : heap) (O : list (string * list (string * val))) (X : E) (p : nat) T t v : state :=
  mk A (set_nth p (tr T t v) O) X.

Lemma field_cp949 s it : field_of E s (VItem it) "cp949" = Ok (VInt (cp949 it)).
Proof. reflexivity. Qed.
Lemma field_ucs2 s it : field_of E s (VItem it) "ucs2" = Ok (VInt (ucs2 it)).
Proof. reflexivity. Qed.
Lemma field_scratch A O X p T t v : (p < length O)%nat ->
  field_of E (trs A O X p T t v) (VPtr p) "scratch" = Ok v.
Proof. intros H. unfold field_of, trs. cbn [objs]. rewrite nth_error_set_nth by assumption. reflexivity. Qed.
Lemma field_table A O X p T t v : (p < length O)%nat ->
  field_of E (trs A O X p T t v) (VPtr p) "table" = Ok (VTable t).
Proof. intros H. unfold field_of, trs. cbn [objs]. rewrite nth_error_set_nth by assumption. reflexivity. Qed.
Lemma set_scratch A O X p T t v w : (p < length O)%nat ->
  set_field E (trs A O X p T t v) (VPtr p) "scratch" w = Ok (trs A O X p T t w).
Proof.
  intros H. unfold set_field, trs. cbn [objs arrs ext]. rewrite nth_error_set_nth by assumption. cbn.
  rewrite set_nth_twice. reflexivity.
Qed.

Lemma index_input A O X l o n c data i x : input A l o n c data -> nth_error data i = Some x ->
  index_of E (mk A O X) (VSlice l o n c) (Z.of_nat i) = Ok (VInt x).
Proof.
  intros Hi Hx. pose proof (input_len _ _ _ _ _ _ Hi) as Hn.
  assert ((i < length data)%nat) by (apply nth_error_Some; congruence). unfold zlen in Hn.
  unfold index_of. replace ((0 <=? Z.of_nat i) && (Z.of_nat i <? n)) with true by lia.
  unfold arr_at. cbn [arrs]. fold (cell A l). now rewrite (input_nth _ _ _ _ _ _ _ _ Hi Hx).
Qed.
Lemma drop_input A l o n c data k : input A l o n c data -> 0 <= k <= n ->
  slice_of (VSlice l o n c) k None = Ok (VSlice l (o + k) (n - k) (c - k)).
Proof.
  intros (_ & _ & Hn & _) Hk. unfold slice_of.
  replace ((0 <=? k) && (k <=? n) && (n <=? c)) with true by lia. reflexivity.
Qed.

(* cp949.go:37-65 *)
Definition from_body : stmt :=
  Block [If (Cmp Eq (Arith BAnd Uint8 (Index (Var "data") (Lit 0)) (Lit 0x80)) (Lit 0))
  (Block [Assign [LField (Var "p") "scratch"] (Append (Field (Var "p") "scratch") [(Index (Var "data") (Lit 0))]);
  Assign [LVar "data"] (SliceFrom (Var "data") (Lit 1));
  Assign [LVar "c"] (Arith Add Int (Var "c") (Lit 1));
  Continue])
  (Block []);
  If (Cmp Lt (Len (Var "data")) (Lit 2))
  (Block [Return [(Lit 0); NilSlice; (ErrLit ErrCP949UnexpectedStream)]])
  (Block []);
  Define ["n"] (Arith BOr Uint16 (Arith Shl Uint16 (Conv Uint16 (Index (Var "data") (Lit 0))) (Lit 8)) (Conv Uint16 (Index (Var "data") (Lit 1))));
  Define ["fi"] (SearchE (Len (Field (Var "p") "table")) "i"
  (Block [If (Cmp Le (Var "n") (Field (Index (Field (Var "p") "table") (Var "i")) "cp949"))
  (Block [Return [(LitB true)]])
  (Block []);
  Return [(LitB false)]]));
  If (And (Cmp Lt (Var "fi") (Len (Field (Var "p") "table"))) (Cmp Eq (Var "n") (Field (Index (Field (Var "p") "table") (Var "fi")) "cp949")))
  (Block [Define ["f"] (Index (Field (Var "p") "table") (Var "fi"));
  Assign [LField (Var "p") "scratch"] (Call "appendRune" [(Field (Var "p") "scratch"); (Conv Int32 (Field (Var "f") "ucs2"))])])
  (Block [Assign [LField (Var "p") "scratch"] (Call "appendRune" [(Field (Var "p") "scratch"); (Lit RuneError)])]);
  Assign [LVar "data"] (SliceFrom (Var "data") (Lit 2));
  Assign [LVar "c"] (Arith Add Int (Var "c") (Lit 2))].

(** Appending in a translator's scratch buffer. *)
Lemma eval_append n A O X p T t l sl bs es env s' : (p < length O)%nat -> ref A l sl ->
  get "p" env = Some (VPtr p) ->
  (fix evals (es : list expr) (s : state) {struct es} : res (list val * state) :=
     match es with
     | [] => Ok ([], s)
     | e :: es => let! (v, s) := eval n e env s in let! (vs, s) := evals es s in Ok (v :: vs, s)
     end) es (trs A O X p T t (sv l sl)) = Ok (map VInt bs, trs A O X p T t (sv l sl)) ->
  append_to grow E (trs A O X p T t (sv l sl)) (sv l sl) bs = Ok s' ->
  eval n (Append (Field (Var "p") "scratch") es) env (trs A O X p T t (sv l sl)) = Ok s'.
Proof.
  intros Hp Hr Hg He Ha. cbn. rewrite Hg. cbn. rewrite field_scratch by assumption. cbn. rewrite He. cbn.
  assert (Hints : forall zs, as_ints (map VInt zs) = Ok zs) by (induction zs as [|z zs IH]; cbn; rewrite ?IH; reflexivity).
  rewrite Hints. cbn. exact Ha.
Qed.

Definition u16_table (t : list lookupItem) : Prop := Forall (fun it => 0 <= ucs2 it < 0x10000) t.

(** One round per unit of the model's fuel at most. *)
Lemma go_from_loop O X p T t ld : (p < length O)%nat -> u16_table t ->
  forall fuel A l sl data c od nd cd c' out err sl',
  ref A l sl -> input A ld od nd cd data -> ld <> l \/ cell A ld = [] -> Forall is_byte data ->
  from_loop grow fuel t sl data c = Ok (c', out, err, sl') ->
  exists A' l', ref A' l' sl' /\ grows A l A' l' /\
  exists env' N, (err = None -> exists d, env' = [("c", VInt c'); ("p", VPtr p); ("data", d)] /\ out = Some sl') /\
  forall n m, (N <= n)%nat -> (fuel < m)%nat ->
    while_loop grow E rd wr (run n) n (Cmp Gt (Len (Var "data")) (Lit 0)) from_body m
      [("c", VInt c); ("p", VPtr p); ("data", VSlice ld od nd cd)] (trs A O X p T t (sv l sl)) =
    Ok (match err with
        | None => Next
        | Some e => Ret (VTuple [VInt 0; VSlice 0 0 0 0; VErr (Some e)])
        end, env', trs A' O X p T t (sv l' sl')).
Proof.
  intros Hp Ht. induction fuel as [|fuel IH]; intros A l sl data c od nd cd c' out err sl' Hr Hi Hs Hb H.
  - destruct data as [|d0 rest]; [|discriminate]. cbn in H. injection H as <- <- <- <-.
    exists A, l. split; [assumption|]. split; [apply grows_refl|]. eexists. exists 1%nat.
    split; [intros _; eexists; split; reflexivity|]. intros n [|m] _ Hm; [lia|].
    pose proof (input_len _ _ _ _ _ _ Hi) as Hn. cbn in Hn. subst nd. reflexivity.
  - destruct data as [|d0 rest].
    { cbn in H. injection H as <- <- <- <-.
      exists A, l. split; [assumption|]. split; [apply grows_refl|]. eexists. exists 1%nat.
      split; [intros _; eexists; split; reflexivity|]. intros n [|m] _ Hm; [lia|].
      pose proof (input_len _ _ _ _ _ _ Hi) as Hn. cbn in Hn. subst nd. reflexivity. }
    pose proof (input_len _ _ _ _ _ _ Hi) as Hn. rewrite zlen_cons in Hn. pose proof (zlen_nonneg rest) as Hrest.
    assert (Hcond : forall n env, get "data" env = Some (VSlice ld od nd cd) -> 
       eval n (Cmp Gt (Len (Var "data")) (Lit 0)) env (trs A O X p T t (sv l sl)) = Ok (VBool true, trs A O X p T t (sv l sl))).
    { intros n env Hg. cbn. rewrite Hg. cbn. replace (nd >? 0) with true by lia. reflexivity. }
    assert (Hix0 : index_of E (trs A O X p T t (sv l sl)) (VSlice ld od nd cd) 0 = Ok (VInt d0))
      by (apply (index_input A _ X ld od nd cd (d0 :: rest) 0 d0 Hi); reflexivity).
    cbn [from_loop] in H.
    destruct (Z.land d0 0x80 =? 0) eqn:Hasc.
    + (* one byte *)
      destruct (append_ref grow E A (set_nth p (tr T t (sv l sl)) O) X l sl [d0] Hr) as (A1 & l1 & Happ & Hr1 & Hg1).
      destruct (input_grows _ _ _ _ _ _ _ _ _ Hi Hg1 Hs) as [Hi1 Hs1].
      apply (input_drop _ _ _ _ _ _ 1) in Hi1 as Hi1'; [|lia].
      change (zdrop 1 (d0 :: rest)) with rest in Hi1'. pose proof (Forall_inv_tail Hb) as Hbr.
      destruct (IH A1 l1 _ rest (c + 1) _ _ _ _ _ _ _ Hr1 Hi1' Hs1 Hbr H) as (A2 & l2 & Hr2 & Hg2 & env' & N & Henv & Hrun).
      exists A2, l2. split; [assumption|]. split; [eapply grows_trans; [apply Hr|eassumption..]|].
      exists env', (S N). split; [exact Henv|]. intros n [|m] Hnn Hm; [lia|].
      cbn [while_loop]. rewrite Hcond by reflexivity. cbn [bind as_bool].
      assert (Hbody : exec n from_body [("c", VInt c); ("p", VPtr p); ("data", VSlice ld od nd cd)] (trs A O X p T t (sv l sl))
        = Ok (Cont, [("c", VInt (c + 1)); ("p", VPtr p); ("data", VSlice ld (od + 1) (nd - 1) (cd - 1))],
              trs A1 O X p T t (sv l1 (go_append grow sl [d0])))).
      { eapply exec_Block'. eapply execs_stop; [|discriminate]. eapply exec_If.
        { cbn. rewrite Hix0. cbn. rewrite Hasc. reflexivity. }
        eapply exec_Block'.
        eapply execs_cons; [eapply exec_Field|].
        { eapply eval_append; [assumption..|reflexivity| |].
          - instantiate (1 := [d0]). cbn. rewrite Hix0. reflexivity.
          - exact Happ. }
        { reflexivity. }
        { change (mk A1 (set_nth p (tr T t (sv l sl)) O) X) with (trs A1 O X p T t (sv l sl)).
          apply set_scratch. assumption. }
        eapply execs_cons; [eapply exec_Var|].
        { cbn. rewrite (drop_input _ _ _ _ _ _ _ Hi) by lia. reflexivity. }
        eapply execs_cons; [eapply exec_Var; reflexivity|].
        eapply execs_stop; [|discriminate]. reflexivity.
        reflexivity. reflexivity. }
      rewrite Hbody. cbn [bind]. apply Hrun; lia.
    + destruct rest as [|d1 rest].
      * (* a byte is missing *)
        injection H as <- <- <- <-.
        exists A, l. split; [assumption|]. split; [apply grows_refl|].
        exists [("c", VInt c); ("p", VPtr p); ("data", VSlice ld od nd cd)], 1%nat.
        split; [discriminate|]. intros n [|m] _ Hm; [lia|].
        cbn [while_loop]. rewrite Hcond by reflexivity. cbn [bind as_bool].
        assert (Hbody : exec n from_body [("c", VInt c); ("p", VPtr p); ("data", VSlice ld od nd cd)] (trs A O X p T t (sv l sl))
          = Ok (Ret (VTuple [VInt 0; VSlice 0 0 0 0; VErr (Some ErrCP949UnexpectedStream)]),
                [("c", VInt c); ("p", VPtr p); ("data", VSlice ld od nd cd)], trs A O X p T t (sv l sl))).
        { eapply exec_Block'. eapply execs_cons; [eapply exec_If|].
          { cbn. rewrite Hix0. cbn. rewrite Hasc. reflexivity. }
          { eapply exec_Block. reflexivity. }
          eapply execs_stop; [|discriminate]. eapply exec_If.
          { cbn. rewrite zlen_nil in *. replace (nd <? 2) with true by lia. reflexivity. }
          eapply exec_Block. eapply execs_stop; [|discriminate]. reflexivity. reflexivity. }
        rewrite Hbody. reflexivity.
      * (* a code of two bytes *)
        rewrite zlen_cons in Hn. pose proof (zlen_nonneg rest) as Hrest'.
        assert (Hix1 : index_of E (trs A O X p T t (sv l sl)) (VSlice ld od nd cd) 1 = Ok (VInt d1))
          by (apply (index_input A _ X ld od nd cd (d0 :: d1 :: rest) 1 d1 Hi); reflexivity).
        pose proof (Forall_inv Hb) as Hb0. pose proof (Forall_inv_tail Hb) as Hbr.
        pose proof (Forall_inv Hbr) as Hb1. pose proof (Forall_inv_tail Hbr) as Hbr'.
        unfold is_byte in Hb0, Hb1.
        assert (Hcode : Z.lor (to_u16 (Z.shiftl (to_u16 d0) 8)) (to_u16 d1) = Z.lor (to_u16 (Z.shiftl d0 8)) d1)
          by (unfold to_u16 at 2 3; now rewrite (Z.mod_small d0), (Z.mod_small d1) by lia).
        set (code := Z.lor (to_u16 (Z.shiftl d0 8)) d1) in *. clearbody code.
        destruct (Search (zlen t) (from_pred t code)) as [fi| |] eqn:Hsearch; try discriminate. cbn [bind] in H.
        destruct (if fi <? zlen t then let! it := get_or_panic (zget t fi) in Ok (code =? cp949 it) else Ok false)
          as [hit| |] eqn:Hhit; try discriminate. cbn [bind] in H.
        destruct (if hit then let! f := get_or_panic (zget t fi) in appendRune sl (ucs2 f) else appendRune sl RuneError)
          as [sl1| |] eqn:Hsl1; try discriminate. cbn [bind] in H.
        assert (Hap : exists r, appendRune sl r = Ok sl1 /\
                  if hit then exists it, zget t fi = Some it /\ wrap32 (ucs2 it) = r else r = RuneError).
        { destruct hit; [|exists RuneError; auto].
          destruct (zget t fi) as [it|] eqn:Hit; [|discriminate]. exists (ucs2 it). split; [exact Hsl1|].
          exists it. split; [reflexivity|]. apply zget_In in Hit.
          apply (proj1 (Forall_forall _ _) Ht) in Hit. unfold wrap32. rewrite Z.mod_small; lia. }
        destruct Hap as (r & Hr0 & Hhit').
        destruct (go_appendRune A (set_nth p (tr T t (sv l sl)) O) X l sl r sl1 Hr Hr0) as (A1 & l1 & Hr1 & Hg1 & N1 & Hcall).
        destruct (input_grows _ _ _ _ _ _ _ _ _ Hi Hg1 Hs) as [Hi1 Hs1].
        apply (input_drop _ _ _ _ _ _ 2) in Hi1 as Hi1'; [|lia].
        change (zdrop 2 (d0 :: d1 :: rest)) with rest in Hi1'.
        destruct (IH A1 l1 _ rest (c + 2) _ _ _ _ _ _ _ Hr1 Hi1' Hs1 Hbr' H) as (A2 & l2 & Hr2 & Hg2 & env' & N & Henv & Hrun).
        exists A2, l2. split; [assumption|]. split; [eapply grows_trans; [apply Hr|eassumption..]|].
        exists env', (S (N + N1)). split; [exact Henv|]. intros n [|m] Hnn Hm; [lia|].
        cbn [while_loop]. rewrite Hcond by reflexivity. cbn [bind as_bool].
        assert (Hbody : exec n from_body [("c", VInt c); ("p", VPtr p); ("data", VSlice ld od nd cd)] (trs A O X p T t (sv l sl))
          = Ok (Next, [("c", VInt (c + 2)); ("p", VPtr p); ("data", VSlice ld (od + 2) (nd - 2) (cd - 2))],
                trs A1 O X p T t (sv l1 sl1))).
        { eapply exec_Block'.
          eapply execs_cons; [eapply exec_If|].
          { cbn. rewrite Hix0. cbn. rewrite Hasc. reflexivity. }
          { eapply exec_Block. reflexivity. }
          eapply execs_cons; [eapply exec_If|].
          { cbn. replace (nd <? 2) with false by lia. reflexivity. }
          { eapply exec_Block. reflexivity. }
          eapply execs_cons; [eapply exec_Define; [|reflexivity]|].
          { cbn. rewrite Hix0. cbn. rewrite Hix1. cbn.
            rewrite Hcode. reflexivity. }
          eapply execs_cons; [eapply exec_Define; [|reflexivity]|].
          { eapply eval_Search; [| |exact Hsearch].
            { cbn. rewrite field_table by assumption. reflexivity. }
            intros k. cbn. rewrite field_table by assumption. cbn. unfold from_pred.
            unfold index_of. destruct (zget t k) as [it|]; cbn; [|reflexivity]. rewrite field_cp949. cbn.
            destruct (code <=? cp949 it); reflexivity. }
          cbn [combine app leave length Nat.sub skipn].
          eapply execs_cons.
          { instantiate (1 := trs A1 O X p T t (sv l1 sl1)).
            instantiate (1 := [("fi", VInt fi); ("n", VInt code); ("c", VInt c); ("p", VPtr p); ("data", VSlice ld od nd cd)]).
            eapply exec_If.
            { instantiate (1 := trs A O X p T t (sv l sl)). instantiate (1 := hit).
              cbn. rewrite !field_table by assumption. cbn.
              destruct (fi <? zlen t); cbn; [|injection Hhit as <-; reflexivity].
              rewrite !field_table by assumption. cbn. unfold index_of.
              destruct (zget t fi) as [it|]; cbn in Hhit |- *; [|discriminate]. injection Hhit as <-.
              rewrite field_cp949. reflexivity. }
            destruct hit; cbv iota.
            - destruct Hhit' as (it & Hit & Hw). eapply exec_Block'.
              { eapply execs_cons; [eapply exec_Define; [|reflexivity]|].
                { cbn. rewrite field_table by assumption. cbn. unfold index_of. rewrite Hit. reflexivity. }
                eapply execs_cons; [eapply exec_Field|reflexivity].
                { cbn. rewrite field_scratch by assumption. cbn. rewrite field_ucs2. cbn. rewrite Hw. apply Hcall. lia. }
                { reflexivity. }
                { change (mk A1 (set_nth p (tr T t (sv l sl)) O) X) with (trs A1 O X p T t (sv l sl)).
                  apply set_scratch. assumption. } }
              reflexivity.
            - subst r. eapply exec_Block'.
              { eapply execs_cons; [eapply exec_Field|reflexivity].
                { cbn. rewrite field_scratch by assumption. cbn. apply Hcall. lia. }
                { reflexivity. }
                { change (mk A1 (set_nth p (tr T t (sv l sl)) O) X) with (trs A1 O X p T t (sv l sl)).
                  apply set_scratch. assumption. } }
              reflexivity. }
          eapply execs_cons; [eapply exec_Var|].
          { cbn. rewrite (drop_input _ _ _ _ _ _ _ Hi) by lia. reflexivity. }
          eapply execs_cons; [eapply exec_Var; reflexivity|]. reflexivity. reflexivity. }
        rewrite Hbody. cbn [bind]. apply Hrun; lia.
Qed.

(** The second and third result of a Translate method belong together. *)
Lemma from_loop_results t fuel : forall sl data c c' out err sl',
  from_loop grow fuel t sl data c = Ok (c', out, err, sl') ->
  match err with None => out = Some sl' | Some _ => c' = 0 /\ out = None end.
Proof.
  induction fuel as [|fuel IH]; intros sl data c c' out err sl' H; destruct data as [|d0 rest]; cbn in H;
    try discriminate; try (injection H as <- <- <- <-; reflexivity).
  destruct (Z.land d0 0x80 =? 0); [now apply IH in H|].
  destruct rest as [|d1 rest]; [injection H as <- <- <- <-; auto|].
  destruct (Search _ _) as [fi| |]; try discriminate. cbn in H.
  destruct (if fi <? zlen t then _ else _) as [hit| |]; try discriminate. cbn in H.
  destruct (if hit then _ else _) as [sl1| |]; try discriminate. cbn in H. now apply IH in H.
Qed.

Definition out_val (l : nat) (out : option slice) : val :=
  match out with Some sl => sv l sl | None => VSlice 0 0 0 0 end.

Lemma go_from_Translate O X p T t ld A l sl data od nd cd c' out err sl' :
  (p < length O)%nat -> u16_table t ->
  ref A l sl -> input A ld od nd cd data -> ld <> l \/ cell A ld = [] -> Forall is_byte data ->
  from_Translate grow t sl data = Ok (c', out, err, sl') ->
  exists A' l', ref A' l' sl' /\ grows A l A' l' /\
  exists N, forall n, (N <= n)%nat ->
    run n "translateFromCp949.Translate" [VPtr p; VSlice ld od nd cd] (trs A O X p T t (sv l sl)) =
    Ok (VTuple [VInt c'; out_val l' out; VErr err], trs A' O X p T t (sv l' sl')).
Proof.
  intros Hp Ht Hr Hi Hs Hb H. unfold from_Translate, reslice in H.
  destruct ((0 <=? 0) && (0 <=? scap sl)) eqn:Hc; try discriminate. cbn [bind] in H.
  destruct (slice_ref A l sl 0 Hr ltac:(lia)) as [Hsl Hr0].
  destruct (go_from_loop O X p T t ld Hp Ht _ _ _ _ _ _ _ _ _ _ _ _ _ Hr0 Hi Hs Hb H)
    as (A' & l' & Hr' & Hg & env' & N & Henv & Hrun).
  exists A', l'. split; [assumption|]. split; [assumption|]. exists (S (N + S (length data))).
  intros [|n] Hn; [lia|]. pose proof (from_loop_results _ _ _ _ _ _ _ _ _ H) as Hres.
  rewrite run_S. cbn [the get bind prog_cp949 String.eqb Ascii.eqb Bool.eqb].
  eapply enter_ret; [reflexivity|reflexivity|]. cbn [f_body f_translateFromCp949_Translate f_params combine].
  eapply exec_Block. eapply execs_cons; [eapply exec_Field|].
  { cbn. rewrite field_scratch by assumption. cbn. rewrite Hsl. reflexivity. }
  { reflexivity. }
  { apply set_scratch. assumption. }
  eapply execs_cons; [eapply exec_Define; reflexivity|]. cbn [combine app].
  specialize (Hrun n n ltac:(lia) ltac:(lia)).
  destruct err as [e|].
  - destruct Hres as [-> ->]. eapply execs_stop; [|discriminate]. rewrite exec_While. exact Hrun.
  - destruct (Henv eq_refl) as (d & -> & ->).
    eapply execs_cons; [rewrite exec_While; exact Hrun|].
    eapply execs_stop; [|discriminate]. cbn. rewrite field_scratch by assumption. reflexivity.
Qed.

(** ** UTF-8 to CP949 *)
Lemma DecodeRune_size_nonneg s : 0 <= snd (DecodeRune s).
Proof.
  unfold DecodeRune. destruct s as [|p0 p1]; [cbn; lia|]. destruct (p0 <? 0x80); [cbn; lia|].
  destruct (first_info p0) as [[sz [lo hi]]|]; [|cbn; lia]. destruct p1 as [|b1 p2]; [cbn; lia|].
  destruct (_ <? sz); [cbn; lia|]. destruct (negb (in_range lo hi b1)); [cbn; lia|]. destruct (sz <=? 2); [cbn; lia|].
  destruct p2 as [|b2 p3]; [cbn; lia|]. destruct (negb (in_range 128 191 b2)); [cbn; lia|]. destruct (sz <=? 3); [cbn; lia|].
  destruct p3 as [|b3 p4]; [cbn; lia|]. destruct (negb (in_range 128 191 b3)); cbn; lia.
Qed.

(* cp949.go:75-106 *)
Definition to_body : stmt :=
  Block [If (Cmp Eq (Arith BAnd Uint8 (Index (Var "data") (Lit 0)) (Lit 0x80)) (Lit 0))
  (Block [Assign [LField (Var "p") "scratch"] (Append (Field (Var "p") "scratch") [(Index (Var "data") (Lit 0))]);
  Assign [LVar "data"] (SliceFrom (Var "data") (Lit 1));
  Assign [LVar "c"] (Arith Add Int (Var "c") (Lit 1));
  Continue])
  (Block []);
  Define ["r"; "s"] (DecodeRuneE (Var "data"));
  Define ["rUcs2"] (Conv Uint16 (Var "r"));
  Define ["fi"] (SearchE (Len (Field (Var "p") "table")) "i"
  (Block [If (Cmp Le (Var "rUcs2") (Field (Index (Field (Var "p") "table") (Var "i")) "ucs2"))
  (Block [Return [(LitB true)]])
  (Block []);
  Return [(LitB false)]]));
  If (Cmp Ge (Var "fi") (Len (Field (Var "p") "table")))
  (Block [Assign [LField (Var "p") "scratch"] (Append (Field (Var "p") "scratch") [(Lit 0x3f)])])
  (Block []);
  If (And (Cmp Lt (Var "fi") (Len (Field (Var "p") "table"))) (Cmp Eq (Var "rUcs2") (Field (Index (Field (Var "p") "table") (Var "fi")) "ucs2")))
  (Block [Define ["f"] (Index (Field (Var "p") "table") (Var "fi"));
  Assign [LField (Var "p") "scratch"] (Append (Field (Var "p") "scratch") [(Conv Uint8 (Arith Shr Uint16 (Field (Var "f") "cp949") (Lit 8))); (Conv Uint8 (Arith BAnd Uint16 (Field (Var "f") "cp949") (Lit 0xff)))])])
  (Block [Assign [LField (Var "p") "scratch"] (Append (Field (Var "p") "scratch") [(Lit 0x3f)])]);
  Assign [LVar "data"] (SliceFrom (Var "data") (Var "s"));
  Assign [LVar "c"] (Arith Add Int (Var "c") (Var "s"))].

(** One assignment p.scratch = append(p.scratch, es...). *)
Lemma exec_append n A O X p T t l sl bs es env A1 l1 : (p < length O)%nat -> ref A l sl ->
  get "p" env = Some (VPtr p) ->
  (fix evals (es : list expr) (s : state) {struct es} : res (list val * state) :=
     match es with
     | [] => Ok ([], s)
     | e :: es => let! (v, s) := eval n e env s in let! (vs, s) := evals es s in Ok (v :: vs, s)
     end) es (trs A O X p T t (sv l sl)) = Ok (map VInt bs, trs A O X p T t (sv l sl)) ->
  append_to grow E (trs A O X p T t (sv l sl)) (sv l sl) bs =
    Ok (sv l1 (go_append grow sl bs), trs A1 O X p T t (sv l sl)) ->
  exec n (Assign [LField (Var "p") "scratch"] (Append (Field (Var "p") "scratch") es)) env (trs A O X p T t (sv l sl)) =
  Ok (Next, env, trs A1 O X p T t (sv l1 (go_append grow sl bs))).
Proof.
  intros Hp Hr Hg He Ha. eapply exec_Field.
  { eapply eval_append; eassumption. }
  { cbn. rewrite Hg. reflexivity. }
  { apply set_scratch. assumption. }
Qed.

Lemma go_to_loop O X p T t ld : (p < length O)%nat ->
  forall fuel A l sl data c od nd cd c' out err sl',
  ref A l sl -> input A ld od nd cd data -> ld <> l \/ cell A ld = [] ->
  to_loop grow fuel t sl data c = Ok (c', out, err, sl') ->
  err = None /\ out = Some sl' /\
  exists A' l', ref A' l' sl' /\ grows A l A' l' /\
  exists d N, forall n m, (N <= n)%nat -> (fuel < m)%nat ->
    while_loop grow E rd wr (run n) n (Cmp Gt (Len (Var "data")) (Lit 0)) to_body m
      [("c", VInt c); ("p", VPtr p); ("data", VSlice ld od nd cd)] (trs A O X p T t (sv l sl)) =
    Ok (Next, [("c", VInt c'); ("p", VPtr p); ("data", d)], trs A' O X p T t (sv l' sl')).
Proof.
  intros Hp. induction fuel as [|fuel IH]; intros A l sl data c od nd cd c' out err sl' Hr Hi Hs H.
  - destruct data as [|d0 rest]; [|discriminate]. cbn in H. injection H as <- <- <- <-. do 2 (split; [reflexivity|]).
    exists A, l. split; [assumption|]. split; [apply grows_refl|]. eexists. exists 1%nat.
    intros n [|m] _ Hm; [lia|].
    pose proof (input_len _ _ _ _ _ _ Hi) as Hn. cbn in Hn. subst nd. reflexivity.
  - destruct data as [|d0 rest].
    { cbn in H. injection H as <- <- <- <-. do 2 (split; [reflexivity|]).
      exists A, l. split; [assumption|]. split; [apply grows_refl|]. eexists. exists 1%nat.
      intros n [|m] _ Hm; [lia|].
      pose proof (input_len _ _ _ _ _ _ Hi) as Hn. cbn in Hn. subst nd. reflexivity. }
    pose proof (input_len _ _ _ _ _ _ Hi) as Hn. rewrite zlen_cons in Hn. pose proof (zlen_nonneg rest) as Hrest.
    assert (Hcond : forall n env, get "data" env = Some (VSlice ld od nd cd) -> 
       eval n (Cmp Gt (Len (Var "data")) (Lit 0)) env (trs A O X p T t (sv l sl)) = Ok (VBool true, trs A O X p T t (sv l sl))).
    { intros n env Hg. cbn. rewrite Hg. cbn. replace (nd >? 0) with true by lia. reflexivity. }
    assert (Hix0 : index_of E (trs A O X p T t (sv l sl)) (VSlice ld od nd cd) 0 = Ok (VInt d0))
      by (apply (index_input A _ X ld od nd cd (d0 :: rest) 0 d0 Hi); reflexivity).
    cbn [to_loop] in H.
    destruct (Z.land d0 0x80 =? 0) eqn:Hasc.
    + (* one byte *)
      destruct (append_ref grow E A (set_nth p (tr T t (sv l sl)) O) X l sl [d0] Hr) as (A1 & l1 & Happ & Hr1 & Hg1).
      destruct (input_grows _ _ _ _ _ _ _ _ _ Hi Hg1 Hs) as [Hi1 Hs1].
      apply (input_drop _ _ _ _ _ _ 1) in Hi1 as Hi1'; [|lia].
      change (zdrop 1 (d0 :: rest)) with rest in Hi1'.
      destruct (IH A1 l1 _ rest (c + 1) _ _ _ _ _ _ _ Hr1 Hi1' Hs1 H) as (He & Ho & A2 & l2 & Hr2 & Hg2 & d & N & Hrun).
      split; [assumption|]. split; [assumption|].
      exists A2, l2. split; [assumption|]. split; [eapply grows_trans; [apply Hr|eassumption..]|].
      exists d, (S N). intros n [|m] Hnn Hm; [lia|].
      cbn [while_loop]. rewrite Hcond by reflexivity. cbn [bind as_bool].
      assert (Hbody : exec n to_body [("c", VInt c); ("p", VPtr p); ("data", VSlice ld od nd cd)] (trs A O X p T t (sv l sl))
        = Ok (Cont, [("c", VInt (c + 1)); ("p", VPtr p); ("data", VSlice ld (od + 1) (nd - 1) (cd - 1))],
              trs A1 O X p T t (sv l1 (go_append grow sl [d0])))).
      { eapply exec_Block'. eapply execs_stop; [|discriminate]. eapply exec_If.
        { cbn. rewrite Hix0. cbn. rewrite Hasc. reflexivity. }
        eapply exec_Block'.
        eapply execs_cons; [eapply exec_append|].
        { assumption. } { assumption. } { reflexivity. }
        { instantiate (1 := [d0]). cbn. rewrite Hix0. reflexivity. }
        { exact Happ. }
        eapply execs_cons; [eapply exec_Var|].
        { cbn. rewrite (drop_input _ _ _ _ _ _ _ Hi) by lia. reflexivity. }
        eapply execs_cons; [eapply exec_Var; reflexivity|].
        eapply execs_stop; [|discriminate]. reflexivity.
        reflexivity. reflexivity. }
      rewrite Hbody. cbn [bind]. apply Hrun; lia.
    + (* a character of several bytes, or a malformed one *)
      destruct (DecodeRune (d0 :: rest)) as [r sz] eqn:Hdec.
      pose proof (DecodeRune_size_nonneg (d0 :: rest)) as Hsz. rewrite Hdec in Hsz. cbn [snd] in Hsz.
      remember (to_u16 r) as u eqn:Hu.
      assert (Hcells : cells E (trs A O X p T t (sv l sl)) ld od nd = d0 :: rest)
        by (destruct Hi as (_ & _ & _ & _ & ->); reflexivity).
      destruct (Search (zlen t) (to_pred t u)) as [fi| |] eqn:Hsearch; try discriminate. cbn [bind] in H.
      set (sl0 := if fi >=? zlen t then go_append grow sl [0x3F] else sl) in *.
      destruct (if fi <? zlen t then let! it := get_or_panic (zget t fi) in Ok (u =? ucs2 it) else Ok false)
        as [hit| |] eqn:Hhit; try discriminate. cbn [bind] in H.
      destruct (if hit then let! f := get_or_panic (zget t fi) in
                  Ok (go_append grow sl0 [to_u8 (Z.shiftr (cp949 f) 8); to_u8 (Z.land (cp949 f) 255)])
                else Ok (go_append grow sl0 [63])) as [sl1| |] eqn:Hsl1; try discriminate. cbn [bind] in H.
      destruct (sz >? zlen (d0 :: rest)) eqn:Hgt; [discriminate|].
      rewrite zlen_cons in Hgt.
      (* the bytes appended *)
      assert (H0 : exists A0 l0, ref A0 l0 sl0 /\ grows A l A0 l0 /\
                (if fi >=? zlen t then
                   append_to grow E (trs A O X p T t (sv l sl)) (sv l sl) [63] = Ok (sv l0 sl0, trs A0 O X p T t (sv l sl))
                 else A0 = A /\ l0 = l /\ sl0 = sl)).
      { subst sl0. destruct (fi >=? zlen t).
        - destruct (append_ref grow E A (set_nth p (tr T t (sv l sl)) O) X l sl [63] Hr) as (A1 & l1 & Happ & Hr1 & Hg1).
          exists A1, l1. auto.
        - exists A, l. split; [assumption|]. split; [apply grows_refl|]. auto. }
      destruct H0 as (A0 & l0 & Hr0 & Hg0 & Hap0).
      set (bs := if hit then match zget t fi with
                             | Some f => [to_u8 (Z.shiftr (cp949 f) 8); to_u8 (Z.land (cp949 f) 255)]
                             | None => [] end else [63]) in *.
      assert (Hsl1' : sl1 = go_append grow sl0 bs).
      { subst bs. destruct hit; [destruct (zget t fi); [|discriminate]|]; cbn in Hsl1; injection Hsl1 as <-; reflexivity. }
      destruct (append_ref grow E A0 (set_nth p (tr T t (sv l0 sl0)) O) X l0 sl0 bs Hr0) as (A1 & l1 & Happ & Hr1 & Hg1).
      rewrite <- Hsl1' in *.
      assert (Hg : grows A l A1 l1) by (eapply grows_trans; [apply Hr|eassumption..]).
      destruct (input_grows _ _ _ _ _ _ _ _ _ Hi Hg Hs) as [Hi1 Hs1].
      apply (input_drop _ _ _ _ _ _ sz) in Hi1 as Hi1'; [|lia].
      destruct (IH A1 l1 _ _ (c + sz) _ _ _ _ _ _ _ Hr1 Hi1' Hs1 H) as (He & Ho & A2 & l2 & Hr2 & Hg2 & d & N & Hrun).
      split; [assumption|]. split; [assumption|].
      exists A2, l2. split; [assumption|]. split; [eapply grows_trans; [apply Hr|eassumption..]|].
      exists d, (S N). intros n [|m] Hnn Hm; [lia|].
      cbn [while_loop]. rewrite Hcond by reflexivity. cbn [bind as_bool].
      assert (Hbody : exec n to_body [("c", VInt c); ("p", VPtr p); ("data", VSlice ld od nd cd)] (trs A O X p T t (sv l sl))
        = Ok (Next, [("c", VInt (c + sz)); ("p", VPtr p); ("data", VSlice ld (od + sz) (nd - sz) (cd - sz))],
              trs A1 O X p T t (sv l1 sl1))).
      { eapply exec_Block'.
        eapply execs_cons; [eapply exec_If|].
        { cbn. rewrite Hix0. cbn. rewrite Hasc. reflexivity. }
        { eapply exec_Block. reflexivity. }
        eapply execs_cons; [eapply exec_Define|].
        { cbn. rewrite Hcells, Hdec. reflexivity. }
        { reflexivity. }
        eapply execs_cons; [eapply exec_Define; [|reflexivity]|].
        { cbn. rewrite <- Hu. reflexivity. }
        eapply execs_cons; [eapply exec_Define; [|reflexivity]|].
        { eapply eval_Search; [| |exact Hsearch].
          { cbn. rewrite field_table by assumption. reflexivity. }
          intros k. cbn. rewrite field_table by assumption. cbn. unfold to_pred.
          unfold index_of. destruct (zget t k) as [it|]; cbn; [|reflexivity]. rewrite field_ucs2. cbn.
          destruct (u <=? ucs2 it); reflexivity. }
        cbn [combine app leave length Nat.sub skipn].
        eapply execs_cons.
        { instantiate (1 := trs A0 O X p T t (sv l0 sl0)).
          instantiate (1 := [("fi", VInt fi); ("rUcs2", VInt u); ("r", VInt r); ("s", VInt sz); ("c", VInt c); ("p", VPtr p); ("data", VSlice ld od nd cd)]).
          eapply exec_If.
          { cbn. rewrite !field_table by assumption. reflexivity. }
          destruct (fi >=? zlen t) eqn:Hge; cbv iota.
          - eapply exec_Block'.
            { eapply execs_cons; [|reflexivity].
              subst sl0. eapply exec_append; [assumption|assumption|reflexivity| |exact Hap0]. reflexivity. }
            reflexivity.
          - destruct Hap0 as (-> & -> & ->). eapply exec_Block'. { reflexivity. } reflexivity. }
        eapply execs_cons.
        { instantiate (1 := trs A1 O X p T t (sv l1 sl1)).
          instantiate (1 := [("fi", VInt fi); ("rUcs2", VInt u); ("r", VInt r); ("s", VInt sz); ("c", VInt c); ("p", VPtr p); ("data", VSlice ld od nd cd)]).
          eapply exec_If.
          { instantiate (1 := trs A0 O X p T t (sv l0 sl0)). instantiate (1 := hit).
            cbn. rewrite !field_table by assumption. cbn.
            destruct (fi <? zlen t); cbn; [|injection Hhit as <-; reflexivity].
            rewrite !field_table by assumption. cbn. unfold index_of.
            destruct (zget t fi) as [it|]; cbn in Hhit |- *; [|discriminate]. injection Hhit as <-.
            rewrite field_ucs2. reflexivity. }
          rewrite Hsl1'. rewrite Hsl1' in Happ. subst bs.
          destruct hit; cbv iota.
          - destruct (zget t fi) as [it|] eqn:Hit; [|discriminate]. eapply exec_Block'.
            { eapply execs_cons; [eapply exec_Define; [|reflexivity]|].
              { cbn. rewrite field_table by assumption. cbn. unfold index_of. rewrite Hit. reflexivity. }
              eapply execs_cons; [|reflexivity].
              eapply exec_append; [assumption|assumption|reflexivity| |exact Happ].
              cbn. rewrite !field_cp949. reflexivity. }
            reflexivity.
          - eapply exec_Block'.
            { eapply execs_cons; [|reflexivity].
              eapply exec_append; [assumption|assumption|reflexivity| |exact Happ]. reflexivity. }
            reflexivity. }
        eapply execs_cons; [eapply exec_Var|].
        { cbn. rewrite (drop_input _ _ _ _ _ _ _ Hi) by lia. reflexivity. }
        eapply execs_cons; [eapply exec_Var; reflexivity|]. reflexivity. reflexivity. }
      rewrite Hbody. cbn [bind]. apply Hrun; lia.
Qed.

Lemma go_to_Translate O X p T t ld A l sl data od nd cd c' out err sl' :
  (p < length O)%nat ->
  ref A l sl -> input A ld od nd cd data -> ld <> l \/ cell A ld = [] ->
  to_Translate grow t sl data = Ok (c', out, err, sl') ->
  exists A' l', ref A' l' sl' /\ grows A l A' l' /\ err = None /\ out = Some sl' /\
  exists N, forall n, (N <= n)%nat ->
    run n "translateToCp949.Translate" [VPtr p; VSlice ld od nd cd] (trs A O X p T t (sv l sl)) =
    Ok (VTuple [VInt c'; out_val l' out; VErr err], trs A' O X p T t (sv l' sl')).
Proof.
  intros Hp Hr Hi Hs H. unfold to_Translate, reslice in H.
  destruct ((0 <=? 0) && (0 <=? scap sl)) eqn:Hc; try discriminate. cbn [bind] in H.
  destruct (slice_ref A l sl 0 Hr ltac:(lia)) as [Hsl Hr0].
  destruct (go_to_loop O X p T t ld Hp _ _ _ _ _ _ _ _ _ _ _ _ _ Hr0 Hi Hs H)
    as (-> & -> & A' & l' & Hr' & Hg & d & N & Hrun).
  exists A', l'. split; [assumption|]. split; [assumption|]. split; [reflexivity|]. split; [reflexivity|]. exists (S (N + S (length data))).
  intros [|n] Hn; [lia|].
  rewrite run_S. cbn [the get bind prog_cp949 String.eqb Ascii.eqb Bool.eqb].
  eapply enter_ret; [reflexivity|reflexivity|]. cbn [f_body f_translateToCp949_Translate f_params combine].
  eapply exec_Block. eapply execs_cons; [eapply exec_Field|].
  { cbn. rewrite field_scratch by assumption. cbn. rewrite Hsl. reflexivity. }
  { reflexivity. }
  { apply set_scratch. assumption. }
  eapply execs_cons; [eapply exec_Define; reflexivity|]. cbn [combine app].
  specialize (Hrun n n ltac:(lia) ltac:(lia)).
  eapply execs_cons; [rewrite exec_While; exact Hrun|].
  eapply execs_stop; [|discriminate]. cbn. rewrite field_scratch by assumption. reflexivity.
Qed.

(** ** Package functions *)

(** The storage starts with the empty array nil slices refer to. *)
Definition nil_ok (A : heap) : Prop := (0 < length A)%nat /\ cell A 0 = [].
Lemma nil_ref A : nil_ok A -> ref A 0 nil_slice.
Proof. intros [H1 H2]. split; [assumption|]. split; [assumption|]. unfold slice_ok, scap, nil_slice. cbn. lia. Qed.

Lemma go_fromCp949 A O X n :
  run (S n) "fromCp949" [] (mk A O X) =
  Ok (VTuple [VPtr (length O); VErr None],
      trs A (O ++ [tr "translateFromCp949" fromTable (VSlice 0 0 0 0)]) X (length O) "translateFromCp949" fromTable (sv 0 nil_slice)).
Proof.
  unfold trs. rewrite set_nth_last. reflexivity.
Qed.
Lemma go_toCp949 A O X n :
  run (S n) "toCp949" [] (mk A O X) =
  Ok (VTuple [VPtr (length O); VErr None],
      trs A (O ++ [tr "translateToCp949" toTable (VSlice 0 0 0 0)]) X (length O) "translateToCp949" toTable (sv 0 nil_slice)).
Proof.
  unfold trs. rewrite set_nth_last. reflexivity.
Qed.

(** What a caller sees of a returned pair (slice, error) in the storage: the bytes, all in an array
    that did not exist before. *)
Definition returns (A A' : heap) (v : val) (r : list Z + error) : Prop :=
  match r with
  | inl bs => exists l n c, v = VTuple [VSlice l 0 n c; VErr None] /\ input A' l 0 n c bs /\
      (c = 0 /\ cell A' l = [] \/ (length A <= l)%nat)
  | inr e => v = VTuple [VSlice 0 0 0 0; VErr (Some e)]
  end.

Lemma ref_input A l sl : ref A l sl -> input A l 0 (slen sl) (scap sl) (contents sl).
Proof.
  intros (Hl & Ha & Hok). unfold slice_ok in Hok. split; [assumption|]. split; [lia|]. split; [lia|].
  rewrite Ha. split; [unfold scap in *; lia|]. now rewrite zdrop_0.
Qed.

Lemma u16_fromTable : u16_table fromTable.
Proof.
  apply Forall_forall. intros [c u] H. change (SpecCp949.assigned c u) in H.
  apply TableFacts.assigned_ranges in H. cbn [ucs2]. lia.
Qed.

(** Nothing that was in the storage before is changed. *)
Definition keeps (A A' : heap) : Prop :=
  (length A <= length A')%nat /\ forall j, (j < length A)%nat -> cell A' j = cell A j.

Lemma fresh_keeps A A' l' : nil_ok A -> grows A 0 A' l' -> keeps A A'.
Proof.
  intros [H1 H2] (Hlen & _ & Hk & _). split; [assumption|]. intros j Hj. apply Hk; [assumption|].
  destruct j; auto.
Qed.
Lemma fresh_loc A A' l' sl : nil_ok A -> grows A 0 A' l' -> ref A' l' sl ->
  scap sl = 0 /\ cell A' l' = [] \/ (length A <= l')%nat.
Proof.
  intros Hn Hg Hr. pose proof (fresh_keeps _ _ _ Hn Hg) as [_ Hk]. destruct Hg as (_ & [->|Hl] & _); [|auto].
  left. destruct Hr as (_ & Hc & _). pose proof (Hk 0%nat (proj1 Hn)) as H0. destruct Hn as [_ Hn]. rewrite Hn in H0.
  split; [|exact H0]. rewrite H0 in Hc. unfold scap. now rewrite <- Hc.
Qed.

(** The bytes allocated by one conversion that ends with the buffer [sl]. *)
Definition spends (A A' : heap) (sl : slice) : Prop :=
  exists b, regrows grow 0 (scap sl) b /\ total A' = total A + b.
Lemma fresh_spends A A' l' sl : nil_ok A -> grows A 0 A' l' -> ref A' l' sl -> spends A A' sl.
Proof.
  intros [_ Hn] (_ & _ & _ & _ & b & Hb & Ht) (_ & Hc & _). rewrite Hn, Hc in Hb. exists b. split; assumption.
Qed.

Lemma go_From_spends A O X ld od nd cd data c' out err sl' : nil_ok A -> input A ld od nd cd data -> Forall is_byte data ->
  from_Translate grow fromTable nil_slice data = Ok (c', out, err, sl') ->
  exists A' v, keeps A A' /\ returns A A' v (of_translate (c', out, err, sl')) /\ spends A A' sl' /\
  exists o N, forall n, (N <= n)%nat ->
    run n "From" [VSlice ld od nd cd] (mk A O X) = Ok (v, mk A' (O ++ [o]) X).
Proof.
  intros Hnil Hi Hb Ht.
  set (O' := O ++ [tr "translateFromCp949" fromTable (VSlice 0 0 0 0)]).
  assert (Hp : (length O < length O')%nat) by (unfold O'; rewrite app_length; cbn; lia).
  destruct (go_from_Translate O' X (length O) "translateFromCp949" fromTable ld A 0 nil_slice data od nd cd c' out err sl'
     Hp u16_fromTable (nil_ref A Hnil) Hi) as (A' & l' & Hr & Hg & N & Hrun); [| assumption | assumption |].
  { destruct (Nat.eq_dec ld 0) as [->|]; [right; apply Hnil|auto]. }
  pose proof (from_loop_results _ _ _ _ _ _ _ _ _ Ht) as Hres.
  exists A', (VTuple [out_val l' out; VErr err]).
  split; [eapply fresh_keeps; eassumption|]. split.
  { unfold of_translate, returns. destruct err as [e|]; [destruct Hres as [_ ->]; reflexivity|]. subst out.
    exists l', (slen sl'), (scap sl'). split; [reflexivity|]. split; [now apply ref_input|].
    eapply fresh_loc; eassumption. }
  split; [eapply fresh_spends; eassumption|].
  exists (tr "translateFromCp949" fromTable (sv l' sl')), (S (S N)). intros [|[|n]] Hn; [lia|lia|].
  rewrite run_S. cbn [the get bind prog_cp949 String.eqb Ascii.eqb Bool.eqb].
  replace (mk A' (O ++ [tr "translateFromCp949" fromTable (sv l' sl')]) X) with
    (trs A' O' X (length O) "translateFromCp949" fromTable (sv l' sl'))
    by (unfold trs, O'; now rewrite set_nth_last).
  eapply enter_ret; [reflexivity|reflexivity|]. cbn [f_body f_From f_params combine].
  eapply exec_Block. eapply execs_cons; [eapply exec_Define; [apply go_fromCp949|reflexivity]|]. cbn [combine app].
  eapply execs_cons; [eapply exec_If; [reflexivity|]|].
  { eapply exec_Block. reflexivity. }
  cbn [leave length Nat.sub skipn].
  eapply execs_cons; [eapply exec_Define|].
  { cbn. unfold trs at 1. cbn [objs]. rewrite nth_error_set_nth by assumption. cbn. apply Hrun. lia. }
  { reflexivity. }
  destruct err as [e|].
  - destruct Hres as [_ ->]. eapply execs_stop; [|discriminate]. eapply exec_If; [reflexivity|].
    eapply exec_Block. eapply execs_stop; [|discriminate]. reflexivity.
  - eapply execs_cons; [eapply exec_If; [reflexivity|]|].
    { eapply exec_Block. reflexivity. }
    eapply execs_stop; [|discriminate]. reflexivity.
Qed.

Lemma go_From A O X ld od nd cd data r : nil_ok A -> input A ld od nd cd data -> Forall is_byte data ->
  From grow data = Ok r ->
  exists A' v, keeps A A' /\ returns A A' v r /\
  exists o N, forall n, (N <= n)%nat ->
    run n "From" [VSlice ld od nd cd] (mk A O X) = Ok (v, mk A' (O ++ [o]) X).
Proof.
  intros Hnil Hi Hb H. unfold From in H.
  destruct (from_Translate grow fromTable nil_slice data) as [[[[c' out] err] sl']| |] eqn:Ht; try discriminate.
  cbn [bind] in H. injection H as <-.
  destruct (go_From_spends A O X ld od nd cd data c' out err sl' Hnil Hi Hb Ht) as (A' & v & H1 & H2 & _ & H3).
  exists A', v. auto.
Qed.

Lemma go_To_spends A O X ld od nd cd data c' out err sl' : nil_ok A -> input A ld od nd cd data ->
  to_Translate grow toTable nil_slice data = Ok (c', out, err, sl') ->
  exists A' v, keeps A A' /\ returns A A' v (of_translate (c', out, err, sl')) /\ spends A A' sl' /\
  exists o N, forall n, (N <= n)%nat ->
    run n "To" [VSlice ld od nd cd] (mk A O X) = Ok (v, mk A' (O ++ [o]) X).
Proof.
  intros Hnil Hi Ht.
  set (O' := O ++ [tr "translateToCp949" toTable (VSlice 0 0 0 0)]).
  assert (Hp : (length O < length O')%nat) by (unfold O'; rewrite app_length; cbn; lia).
  destruct (go_to_Translate O' X (length O) "translateToCp949" toTable ld A 0 nil_slice data od nd cd c' out err sl'
     Hp (nil_ref A Hnil) Hi) as (A' & l' & Hr & Hg & -> & -> & N & Hrun); [| assumption |].
  { destruct (Nat.eq_dec ld 0) as [->|]; [right; apply Hnil|auto]. }
  exists A', (VTuple [sv l' sl'; VErr None]).
  split; [eapply fresh_keeps; eassumption|]. split.
  { exists l', (slen sl'), (scap sl'). split; [reflexivity|]. split; [now apply ref_input|].
    eapply fresh_loc; eassumption. }
  split; [eapply fresh_spends; eassumption|].
  exists (tr "translateToCp949" toTable (sv l' sl')), (S (S N)). intros [|[|n]] Hn; [lia|lia|].
  rewrite run_S. cbn [the get bind prog_cp949 String.eqb Ascii.eqb Bool.eqb].
  replace (mk A' (O ++ [tr "translateToCp949" toTable (sv l' sl')]) X) with
    (trs A' O' X (length O) "translateToCp949" toTable (sv l' sl'))
    by (unfold trs, O'; now rewrite set_nth_last).
  eapply enter_ret; [reflexivity|reflexivity|]. cbn [f_body f_To f_params combine].
  eapply exec_Block. eapply execs_cons; [eapply exec_Define; [apply go_toCp949|reflexivity]|]. cbn [combine app].
  eapply execs_cons; [eapply exec_If; [reflexivity|]|].
  { eapply exec_Block. reflexivity. }
  cbn [leave length Nat.sub skipn].
  eapply execs_cons; [eapply exec_Define|].
  { cbn. unfold trs at 1. cbn [objs]. rewrite nth_error_set_nth by assumption. cbn. apply Hrun. lia. }
  { reflexivity. }
  eapply execs_cons; [eapply exec_If; [reflexivity|]|].
  { eapply exec_Block. reflexivity. }
  eapply execs_stop; [|discriminate]. reflexivity.
Qed.

Lemma go_To A O X ld od nd cd data r : nil_ok A -> input A ld od nd cd data ->
  To grow data = Ok r ->
  exists A' v, keeps A A' /\ returns A A' v r /\
  exists o N, forall n, (N <= n)%nat ->
    run n "To" [VSlice ld od nd cd] (mk A O X) = Ok (v, mk A' (O ++ [o]) X).
Proof.
  intros Hnil Hi H. unfold To in H.
  destruct (to_Translate grow toTable nil_slice data) as [[[[c' out] err] sl']| |] eqn:Ht; try discriminate.
  cbn [bind] in H. injection H as <-.
  destruct (go_To_spends A O X ld od nd cd data c' out err sl' Hnil Hi Ht) as (A' & v & H1 & H2 & _ & H3).
  exists A', v. auto.
Qed.

End Run.
