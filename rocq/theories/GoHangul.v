(** Executing the syntax trees of package hangul gives what HangulModel.v says. *)
From Coq Require Import String ZArith List Bool Lia.
From Verif Require Import Base Utf8 HangulModel Cp949Model GoLang GoSource GoFacts Facts Utf8Facts.
Import ListNotations.
Local Open Scope string_scope.
Local Open Scope list_scope.
Local Open Scope Z_scope.
Local Open Scope go_scope.

Local Arguments Z.leb : simpl never.
Local Arguments Z.ltb : simpl never.
Local Arguments Z.gtb : simpl never.
Local Arguments Z.geb : simpl never.
Local Arguments Z.eqb : simpl never.
Local Arguments Z.add : simpl never.
Local Arguments Z.sub : simpl never.
Local Arguments Z.mul : simpl never.
Local Arguments wrap32 : simpl never.
Local Arguments go_div : simpl never.
Local Arguments go_mod : simpl never.
Local Arguments map_get : simpl never.
Local Arguments slice_at : simpl never.
Local Arguments run : simpl never.
Local Arguments index_of : simpl never.
Local Arguments Split : simpl never.
Local Arguments CompatJamo : simpl never.
Local Arguments string_to_runes : simpl never.

(** The constants of the two transcriptions agree. *)
Lemma consts_agree :
  m_multiElements = multiElements /\ m_toCompatJamo = toCompatJamo /\ m_toLead = toLead /\
  m_toTail = toTail /\ m_strokes = strokes.
Proof. repeat split. Qed.

Section Run.
Variable grow : Z -> Z -> Z.
Variable E : Type.
Variable rd : nat -> E -> Z -> Z * list Z * option error * E.
Variable wr : nat -> E -> list Z -> Z * option error * E.
Notation run := (run grow E rd wr prog_hangul).
Notation state := (state E).

Lemma run_S n f args s : run (S n) f args s =
  bind (the (get f prog_hangul)) (fun fn => enter grow E rd wr (run n) n fn args s).
Proof. reflexivity. Qed.

Ltac split_if :=
  match goal with
  | |- context [if ?b then _ else _] =>
    lazymatch b with context [if _ then _ else _] => fail | _ => idtac end;
    destruct b eqn:?
  | |- context [map_get ?m ?k] => destruct (map_get m k) eqn:?
  end.
(* calls of functions that are done already *)
Create HintDb called.
Ltac split_ifs := cbn; repeat (first [progress autorewrite with called | split_if]; cbn).
Ltac go := rewrite run_S; cbn.
(* the model side, once the conditions are decided *)
Ltac use_conds := repeat match goal with H : _ = true |- _ => rewrite H | H : _ = false |- _ => rewrite H end.

Lemma go_IsLead n r s : run (S n) "IsLead" [VInt r] s = Ok (VBool (IsLead r), s).
Proof. go. unfold IsLead. change c_LeadG with LeadG. change c_LeadH with LeadH. split_ifs; reflexivity. Qed.
Hint Rewrite go_IsLead : called.

Lemma go_IsMedial n r s : run (S n) "IsMedial" [VInt r] s = Ok (VBool (IsMedial r), s).
Proof. go. unfold IsMedial. change c_MedialA with MedialA. change c_MedialI with MedialI. split_ifs; reflexivity. Qed.
Hint Rewrite go_IsMedial : called.

Lemma go_IsTail n r s : run (S n) "IsTail" [VInt r] s = Ok (VBool (IsTail r), s).
Proof. go. unfold IsTail. change c_TailG with TailG. change c_TailH with TailH. split_ifs; reflexivity. Qed.
Hint Rewrite go_IsTail : called.

Lemma go_IsJaeum n r s : run (S (S n)) "IsJaeum" [VInt r] s = Ok (VBool (IsJaeum r), s).
Proof.
  go. unfold IsJaeum. change c_G with J_G. change c_H with J_H.
  split_ifs; reflexivity.
Qed.
Hint Rewrite go_IsJaeum : called.

Lemma go_IsMoeum n r s : run (S (S n)) "IsMoeum" [VInt r] s = Ok (VBool (IsMoeum r), s).
Proof.
  go. unfold IsMoeum. change c_A with J_A. change c_I with J_I.
  split_ifs; reflexivity.
Qed.
Hint Rewrite go_IsMoeum : called.

Lemma go_IsHangul n r s : run (S (S (S n))) "IsHangul" [VInt r] s = Ok (VBool (IsHangul r), s).
Proof. go. unfold IsHangul. split_ifs; reflexivity. Qed.
Hint Rewrite go_IsHangul : called.

Lemma go_CompatJamo n r s : run (S n) "CompatJamo" [VInt r] s = Ok (VInt (CompatJamo r), s).
Proof.
  go. unfold CompatJamo. change m_toCompatJamo with toCompatJamo.
  change c_G with J_G. change c_H with J_H. change c_A with J_A. change c_I with J_I.
  change c_MedialA with MedialA. change c_MedialI with MedialI. change c_medialBase with medialBase.
  split_ifs; reflexivity.
Qed.
Hint Rewrite go_CompatJamo : called.

Lemma go_Lead n c s : run (S n) "Lead" [VInt c] s = Ok (VInt (Lead c), s).
Proof.
  go. unfold Lead. change m_toLead with toLead. change c_LeadG with LeadG. change c_LeadH with LeadH.
  split_ifs; reflexivity.
Qed.
Hint Rewrite go_Lead : called.

Lemma go_Medial n c s : run (S n) "Medial" [VInt c] s = Ok (VInt (Medial c), s).
Proof.
  go. unfold Medial. change c_A with J_A. change c_I with J_I.
  change c_MedialA with MedialA. change c_MedialI with MedialI. change c_medialBase with medialBase.
  split_ifs; reflexivity.
Qed.
Hint Rewrite go_Medial : called.

Lemma go_Tail n c s : run (S n) "Tail" [VInt c] s = Ok (VInt (Tail c), s).
Proof.
  go. unfold Tail. change m_toTail with toTail. change c_TailG with TailG. change c_TailH with TailH.
  split_ifs; reflexivity.
Qed.
Hint Rewrite go_Tail : called.

Definition pair_val (p : Z * bool) : val := VTuple [VInt (fst p); VBool (snd p)].
Definition triple_val (p : Z * Z * Z) : val := let '(l, m, t) := p in VTuple [VInt l; VInt m; VInt t].

Lemma go_leadIdx n l s : run (S n) "leadIdx" [VInt l] s = Ok (pair_val (leadIdx l), s).
Proof.
  go. unfold leadIdx. change c_leadBase with leadBase. change c_maxLeadIdx with maxLeadIdx.
  split_ifs; reflexivity.
Qed.
Hint Rewrite go_leadIdx : called.

Lemma go_medialIdx n l s : run (S n) "medialIdx" [VInt l] s = Ok (pair_val (medialIdx l), s).
Proof.
  go. unfold medialIdx. change c_medialBase with medialBase. change c_maxMedialIdx with maxMedialIdx.
  split_ifs; reflexivity.
Qed.
Hint Rewrite go_medialIdx : called.

Lemma go_tailIdx n l s : run (S n) "tailIdx" [VInt l] s = Ok (pair_val (tailIdx l), s).
Proof.
  go. unfold tailIdx. change c_tailBase with tailBase. change c_maxTailIdx with maxTailIdx.
  split_ifs; reflexivity.
Qed.
Hint Rewrite go_tailIdx : called.

Lemma go_Join n l m t s : run (S (S n)) "Join" [VInt l; VInt m; VInt t] s = Ok (VInt (Join l m t), s).
Proof.
  go. unfold Join. autorewrite with called. cbn. autorewrite with called.
  destruct (leadIdx (Lead l)) as [li ok]. cbn. destruct ok; cbn; [|reflexivity].
  autorewrite with called. cbn. autorewrite with called.
  destruct (medialIdx (Medial m)) as [mi ok]. cbn. destruct ok; cbn; [|reflexivity].
  autorewrite with called. cbn. autorewrite with called.
  destruct (tailIdx (Tail t)) as [ti ok]. cbn. destruct ok; cbn; reflexivity.
Qed.
Hint Rewrite go_Join : called.

Lemma wrap32_small y : -0x80000000 <= y < 0x80000000 -> wrap32 y = y.
Proof. intros Hy. unfold wrap32. rewrite Z.mod_small; lia. Qed.
Lemma wrap32_range x : -0x80000000 <= wrap32 x < 0x80000000.
Proof. unfold wrap32. pose proof (Z.mod_pos_bound (x + 0x80000000) 0x100000000). lia. Qed.
Lemma quot_range a k : 0 < k -> -0x80000000 <= a < 0x80000000 -> -0x80000000 <= Z.quot a k < 0x80000000.
Proof.
  intros Hk Ha. destruct (Z_le_gt_dec 0 a).
  - pose proof (Z.quot_pos a k). pose proof (Z.quot_le_mono a 0x7fffffff k).
    pose proof (Z.quot_le_upper_bound 0x7fffffff k 0x7fffffff). lia.
  - pose proof (Z.quot_pos (- a) k). pose proof (Z.quot_opp_l a k).
    pose proof (Z.quot_le_upper_bound (- a) k 0x80000000). lia.
Qed.
Lemma wrap32_div x k : 0 < k -> wrap32 (go_div (wrap32 x) k) = go_div (wrap32 x) k.
Proof. intros Hk. apply wrap32_small, quot_range; [assumption|apply wrap32_range]. Qed.
Lemma wrap32_div_mod x j k : 0 < j < 0x80000000 -> 0 < k ->
  wrap32 (go_div (go_mod x j) k) = go_div (go_mod x j) k.
Proof.
  intros Hj Hk. apply wrap32_small, quot_range; [assumption|]. unfold go_mod.
  pose proof (Z.rem_bound_abs x j ltac:(lia)). lia.
Qed.

Lemma go_Split n c s : run (S n) "Split" [VInt c] s = Ok (triple_val (Split c), s).
Proof.
  go. unfold Split. change (0x1c =? 0) with false. change (0x24c =? 0) with false. cbn.
  change (0x1c =? 0) with false. change (0x24c =? 0) with false. cbn.
  rewrite wrap32_div, wrap32_div_mod by lia. split_ifs; reflexivity.
Qed.
Hint Rewrite go_Split : called.

Lemma go_SplitCompat n c s : run (S (S n)) "SplitCompat" [VInt c] s = Ok (triple_val (SplitCompat c), s).
Proof.
  go. unfold SplitCompat. autorewrite with called. destruct (Split c) as [[l m] t]. split_ifs; reflexivity.
Qed.
Hint Rewrite go_SplitCompat : called.

Lemma go_SplitMultiElement n r s : run (S (S n)) "SplitMultiElement" [VInt r] s =
  Ok (match slice_at 1 multiElements (CompatJamo r) with
      | Some (l, k) => VTuple [VSlice l 0 k k; VBool true]
      | None => VTuple [VSlice 0 0 0 0; VBool false]
      end, s).
Proof.
  go. autorewrite with called. cbn. change m_multiElements with multiElements.
  destruct (slice_at 1 multiElements (CompatJamo r)) as [[l k]|]; reflexivity.
Qed.

Lemma index_new s rs c i :
  index_of E (mkState E (arrs E s ++ [rs]) (objs E s) (ext E s)) (VSlice (length (arrs E s)) 0 (zlen rs) c) i =
  let! x := get_or_panic (zget rs i) in Ok (VInt x).
Proof.
  unfold index_of, new_arr, arr_at, zget, zlen; cbn. rewrite nth_middle.
  destruct (i <? 0) eqn:Hi.
  - rewrite (proj2 (Z.leb_gt 0 i)) by lia. reflexivity.
  - rewrite (proj2 (Z.leb_le 0 i)) by lia. cbn.
    destruct (i <? Z.of_nat (length rs)) eqn:Hl.
    + rewrite (nth_error_nth' rs 0) by lia. reflexivity.
    + rewrite (proj2 (nth_error_None rs (Z.to_nat i))) by lia. reflexivity.
Qed.

(** LastConsonant converts a nonempty word to a fresh []rune. *)
Definition after_runes (w : list Z) (s : state) : state :=
  match w with [] => s | _ => snd (new_arr E s (string_to_runes w)) end.

Lemma go_LastConsonant n w s : run (S (S n)) "LastConsonant" [VStr w] s =
  let! t := LastConsonant w in Ok (VInt t, after_runes w s).
Proof.
  go. destruct w as [|b w]; [reflexivity|]. cbn.
  set (rs := string_to_runes (b :: w)). rewrite index_new.
  destruct (zget rs (zlen rs - 1)) as [c|]; cbn; [|reflexivity].
  autorewrite with called. destruct (Split c) as [[l m] t]. reflexivity.
Qed.
Hint Rewrite go_LastConsonant : called.

Lemma go_EndsWithConsonant n w s : run (S (S (S n))) "EndsWithConsonant" [VStr w] s =
  let! b := EndsWithConsonant w in Ok (VBool b, after_runes w s).
Proof.
  go. unfold EndsWithConsonant. autorewrite with called.
  destruct (LastConsonant w) as [t| |]; cbn; [|reflexivity..]. split_ifs; reflexivity.
Qed.

Lemma bytes_eqb_str a b : bytes_eqb a b = str_eqb a b.
Proof. revert b; induction a as [|x a IH]; intros [|y b]; reflexivity. Qed.

Lemma go_AppendPostposition n w p q s : run (S (S (S n))) "AppendPostposition" [VStr w; VStr p; VStr q] s =
  let! r := AppendPostposition w p q in Ok (VStr r, after_runes w s).
Proof.
  go. unfold AppendPostposition. autorewrite with called.
  destruct (LastConsonant w) as [t| |]; cbn; [|reflexivity..].
  rewrite bytes_eqb_str. change c_TailL with TailL.
  change [236; 156; 188; 235; 161; 156] with str_euro.
  destruct (str_eqb p str_euro); split_ifs; reflexivity.
Qed.

(** The slices of multiElements, with the current contents [h], are where package
    initialisation put them. *)
Definition holds (h : list (Z * list Z)) (s : state) : Prop :=
  Forall2 (fun a b => fst a = fst b /\ length (snd a) = length (snd b)) multiElements h /\
  exists rest, arrs E s = ([] :: map snd h) ++ rest.

Lemma slice_at_get (m h : list (Z * list Z)) : Forall2 (fun a b => fst a = fst b /\ length (snd a) = length (snd b)) m h ->
  forall i k, match map_get h k with
              | Some es => exists j, slice_at i m k = Some ((i + j)%nat, zlen es) /\ nth_error (map snd h) j = Some es
              | None => slice_at i m k = None
              end.
Proof.
  induction 1 as [|[k1 e1] [k2 e2] m h [Hk Hl] _ IH]; intros i k; [reflexivity|].
  cbn in Hk, Hl. subst k2. unfold map_get, slice_at; fold (@map_get (list Z)); fold slice_at.
  destruct (k1 =? k).
  - exists 0%nat. rewrite Nat.add_0_r. unfold zlen. rewrite Hl. auto.
  - specialize (IH (S i) k). destruct (map_get h k) as [es|]; [|exact IH].
    destruct IH as (j & -> & Hj). exists (S j). rewrite Nat.add_succ_r. auto.
Qed.

(** What SplitMultiElement hands out, in terms of the storage. *)
Lemma go_SplitMultiElement_holds n r h s : holds h s ->
  match map_get h (CompatJamo r) with
  | Some es => exists l, run (S (S n)) "SplitMultiElement" [VInt r] s =
                 Ok (VTuple [VSlice l 0 (zlen es) (zlen es); VBool true], s) /\ arr_at E s l = es
  | None => run (S (S n)) "SplitMultiElement" [VInt r] s = Ok (VTuple [VSlice 0 0 0 0; VBool false], s)
  end.
Proof.
  intros [Hs [rest Ha]]. rewrite go_SplitMultiElement.
  pose proof (slice_at_get _ _ Hs 1 (CompatJamo r)) as H.
  destruct (map_get h (CompatJamo r)) as [es|].
  - destruct H as (j & -> & Hj). exists (1 + j)%nat. split; [reflexivity|].
    unfold arr_at. apply nth_error_nth. rewrite Ha, nth_error_app1; [exact Hj|].
    apply nth_error_Some. cbn. congruence.
  - rewrite H. reflexivity.
Qed.

(* stroke.go:44-46: the loop of Stroke *)
Lemma stroke_loop call loops es s l ve vo vj vr : arr_at E s l = es ->
  forall m k c, 0 <= k -> k + Z.of_nat m = zlen es ->
  range_loop grow E rd wr call loops "_" "e"
    (Block [Assign [LVar "c"] (Arith Add Int (Var "c") (MapGet m_strokes (Var "e")))]) l 0 m k
    (("es", ve) :: ("ok", vo) :: ("jm", vj) :: ("c", VInt c) :: [("r", vr)]) s =
  Ok (Next, ("es", ve) :: ("ok", vo) :: ("jm", vj) ::
        ("c", VInt (fold_left (fun c e => c + strokes_at e) (zdrop k es) c)) :: [("r", vr)], s).
Proof.
  intros Ha. induction m as [|m IH]; intros k c Hk Hm.
  - cbn. unfold zdrop. rewrite skipn_all2 by (unfold zlen in Hm; lia). reflexivity.
  - cbn. rewrite IH by lia.
    rewrite Ha. unfold strokes_at. change m_strokes with strokes.
    unfold zdrop. replace (Z.to_nat (0 + k)) with (Z.to_nat k) by lia.
    replace (Z.to_nat (k + 1)) with (S (Z.to_nat k)) by lia.
    assert (Hlt : (Z.to_nat k < length es)%nat) by (unfold zlen in Hm; lia).
    rewrite (skipn_nth es (Z.to_nat k) 0 Hlt). reflexivity.
Qed.

Lemma eval_call call loops f env s es vs s' R :
  (fix evals (es : list expr) (s : state) {struct es} : res (list val * state) :=
     match es with
     | [] => Ok ([], s)
     | e :: es => let! (v, s) := eval grow E rd wr call loops e env s in let! (vs, s) := evals es s in Ok (v :: vs, s)
     end) es s = Ok (vs, s') ->
  call f vs s' = R -> eval grow E rd wr call loops (Call f es) env s = R.
Proof. intros H <-. cbn. rewrite H. reflexivity. Qed.

Lemma go_Stroke k : forall n r h s c, holds h s -> Stroke_in h k r = Ok c ->
  run (2 + k + n) "Stroke" [VInt r] s = Ok (VInt c, s).
Proof.
  induction k as [|k IH]; intros n r h s c Hh Hc; [discriminate|].
  replace (2 + S k + n)%nat with (S (2 + k + n)) by lia. cbn - [SplitMultiElement_in] in Hc. rewrite run_S.
  change (get "Stroke" prog_hangul) with (Some f_Stroke). cbn [the bind].
  destruct ((0xac00 <=? r) && (r <=? 0xd7a3)) eqn:Hr.
  - apply andb_prop in Hr as [Hr1 Hr2].
    destruct (Split r) as [[i m] f] eqn:Hsp.
    destruct (Stroke_in h k i) as [ci| |] eqn:Hi; try discriminate. cbn in Hc.
    destruct (Stroke_in h k m) as [cm| |] eqn:Hm; try discriminate. cbn in Hc.
    destruct (Stroke_in h k f) as [cf| |] eqn:Hf; try discriminate. cbn in Hc.
    injection Hc as <-.
    eapply enter_ret; [reflexivity|reflexivity|]. cbn [f_body f_Stroke].
    eapply exec_Block, execs_stop; [|discriminate]. eapply exec_If.
    { cbn. rewrite Hr1, Hr2. reflexivity. }
    eapply exec_Block.
    eapply execs_cons; [eapply exec_Define|].
    { eapply eval_call; [reflexivity|]. apply go_Split. }
    { rewrite Hsp. reflexivity. }
    cbn [combine app].
    assert (Hcall : forall j v, Stroke_in h k j = Ok v -> run (2 + k + n) "Stroke" [VInt j] s = Ok (VInt v, s))
      by (intros; eapply IH; eauto).
    eapply execs_cons; [eapply exec_Var|].
    { cbn - [Nat.add]. rewrite (Hcall _ _ Hi). reflexivity. }
    eapply execs_cons; [eapply exec_Var|].
    { cbn - [Nat.add]. rewrite (Hcall _ _ Hm). reflexivity. }
    eapply execs_cons; [eapply exec_Var|].
    { cbn - [Nat.add]. rewrite (Hcall _ _ Hf). reflexivity. }
    eapply execs_stop; [|discriminate]. eapply exec_Return1. cbn.
    reflexivity.
  - pose proof (go_SplitMultiElement_holds (k + n) (CompatJamo r) h s Hh) as Hsm.
    assert (Hcond : eval grow E rd wr (run (2 + k + n)) (2 + k + n)
              (And (Cmp Le (Lit 0xac00) (Var "r")) (Cmp Le (Var "r") (Lit 0xd7a3)))
              [("c", VInt 0); ("r", VInt r)] s = Ok (VBool false, s)).
    { cbn. destruct (0xac00 <=? r); cbn in Hr |- *; rewrite ?Hr; reflexivity. }
    unfold SplitMultiElement_in in Hc.
    destruct (map_get h (CompatJamo (CompatJamo r))) as [es|].
    + destruct Hsm as (l & Hsm & Hl). injection Hc as <-.
      eapply enter_ret; [reflexivity|reflexivity|]. cbn [f_body f_Stroke].
      eapply exec_Block.
      eapply execs_cons; [eapply exec_If; [exact Hcond|eapply exec_Block; reflexivity]|].
      eapply execs_cons; [eapply exec_Define; [eapply eval_call; [reflexivity|apply go_CompatJamo]|reflexivity]|].
      cbn [combine app leave length Nat.sub skipn].
      eapply execs_cons; [eapply exec_Block|].
      { eapply execs_cons; [eapply exec_Define; [eapply eval_call; [reflexivity|apply Hsm]|reflexivity]|].
        cbn [combine app].
        eapply execs_cons; [eapply exec_If; [reflexivity|]|reflexivity].
        eapply exec_Block. eapply execs_cons; [|reflexivity].
        rewrite exec_Range. cbn [eval get String.eqb Ascii.eqb Bool.eqb the bind].
        eapply (stroke_loop _ _ _ _ _ _ _ _ _ Hl); unfold zlen; lia. }
      eapply execs_stop; [|discriminate]. eapply exec_Return1. reflexivity.
    + injection Hc as <-.
      eapply enter_ret; [reflexivity|reflexivity|]. cbn [f_body f_Stroke].
      eapply exec_Block.
      eapply execs_cons; [eapply exec_If; [exact Hcond|eapply exec_Block; reflexivity]|].
      eapply execs_cons; [eapply exec_Define; [eapply eval_call; [reflexivity|apply go_CompatJamo]|reflexivity]|].
      cbn [combine app leave length Nat.sub skipn].
      eapply execs_cons; [eapply exec_Block|].
      { eapply execs_cons; [eapply exec_Define; [eapply eval_call; [reflexivity|apply Hsm]|reflexivity]|].
        cbn [combine app].
        eapply execs_cons; [eapply exec_If; [reflexivity|]|reflexivity].
        eapply exec_Block. eapply execs_cons; [|reflexivity].
        eapply exec_Var. reflexivity. }
      eapply execs_stop; [|discriminate]. eapply exec_Return1. reflexivity.
Qed.
End Run.
