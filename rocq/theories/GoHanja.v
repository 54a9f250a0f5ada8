(** Executing the syntax trees of package hanja gives what HanjaModel.v says. *)
From Coq Require Import String ZArith List Bool Lia.
From Verif Require Import Base Utf8 TableHanja HanjaModel Cp949Model GoLang GoSource GoFacts Facts.
Import ListNotations.
Local Open Scope string_scope.
Local Open Scope list_scope.
Local Open Scope Z_scope.
Local Open Scope go_scope.
Local Opaque table.
Local Arguments map_get : simpl never.
Local Arguments Z.add : simpl never.
Local Arguments Z.leb : simpl never.
Local Arguments Z.ltb : simpl never.
Local Arguments run : simpl never.
Local Arguments zwrite : simpl never.

Section Run.
Variable grow : Z -> Z -> Z.
Variable E : Type.
Variable rd : nat -> E -> Z -> Z * list Z * option error * E.
Variable wr : nat -> E -> list Z -> Z * option error * E.
Notation run := (run grow E rd wr prog_hanja).
Notation state := (state E).

Lemma go_IsHanja n c s : run (S n) "IsHanja" [VInt c] s = Ok (VBool (IsHanja c), s).
Proof.
  unfold run, IsHanja. change (get "IsHanja" prog_hanja) with (Some f_IsHanja). cbn.
  destruct (map_get table c); reflexivity.
Qed.

(* hanja.go:11-16 *)
Definition loop_body : stmt :=
  Block [Define ["h"; "ok"] (MapGet2 table (Var "c"));
  If (Var "ok")
  (Block [Assign [LIndex (Var "rh") (Var "i")] (Var "h")])
  (Block [])].

Lemma nth_last {A} (l : list A) a d : nth (length l) (l ++ [a]) d = a.
Proof. rewrite app_nth2, Nat.sub_diag; [reflexivity|lia]. Qed.
Lemma set_nth_last {A} (l : list A) a b : set_nth (length l) b (l ++ [a]) = l ++ [b].
Proof. induction l; cbn; congruence. Qed.

Lemma convert_loop call loops (A : list (list Z)) O X vh : forall m done_ todo,
  length todo = m ->
  range_loop grow E rd wr call loops "i" "c" loop_body (length A) 0 m (zlen done_)
    [("rh", VSlice (length A) 0 (zlen (done_ ++ todo)) (zlen (done_ ++ todo))); ("h", vh)]
    (mkState E (A ++ [done_ ++ todo]) O X) =
  Ok (Next, [("rh", VSlice (length A) 0 (zlen (done_ ++ todo)) (zlen (done_ ++ todo))); ("h", vh)],
      mkState E (A ++ [done_ ++ map convert_rune todo]) O X).
Proof.
  induction m as [|m IH]; intros done_ todo Hm.
  - destruct todo; [reflexivity|discriminate].
  - destruct todo as [|c todo]; [discriminate|]. injection Hm as Hm.
    cbn [range_loop]. unfold arr_at at 1; cbn [arrs]. rewrite nth_last.
    replace (nth (Z.to_nat (0 + zlen done_)) (done_ ++ c :: todo) 0) with c
      by (unfold zlen; rewrite Z.add_0_l, Nat2Z.id, nth_middle; reflexivity).
    cbn. unfold convert_rune at 1.
    assert (Hz : zlen (done_ ++ c :: todo) = zlen done_ + 1 + zlen todo)
      by (unfold zlen; rewrite app_length; cbn; lia).
    assert (Hd : 0 <= zlen done_ /\ 0 <= zlen todo) by (unfold zlen; lia).
    destruct (map_get table c) as [h|]; cbn.
    + rewrite (proj2 (Z.leb_le 0 (zlen done_))), (proj2 (Z.ltb_lt (zlen done_) _)) by lia. cbn.
      unfold store, set_arr, arr_at; cbn. rewrite nth_last, set_nth_last.
      assert (Hw : zwrite (done_ ++ c :: todo) (0 + zlen done_) [h] = (done_ ++ [h]) ++ todo).
      { unfold zwrite, ztake, zdrop, zlen. rewrite Z.add_0_l, Nat2Z.id, firstn_app, Nat.sub_diag, firstn_all.
        replace (Z.to_nat (Z.of_nat (length done_) + Z.of_nat (length [h]))) with (length done_ + 1)%nat by (cbn; lia).
        rewrite skipn_app. rewrite skipn_all2 by lia.
        replace (length done_ + 1 - length done_)%nat with 1%nat by lia. cbn. now rewrite app_nil_r, <- app_assoc. }
      rewrite Hw. specialize (IH (done_ ++ [h]) todo Hm).
      replace (zlen (done_ ++ [h])) with (zlen done_ + 1) in IH by (unfold zlen; rewrite app_length; cbn; lia).
      replace (zlen ((done_ ++ [h]) ++ todo)) with (zlen (done_ ++ c :: todo)) in IH
        by (unfold zlen; rewrite !app_length; cbn; lia).
      rewrite IH. rewrite <- app_assoc. reflexivity.
    + specialize (IH (done_ ++ [c]) todo Hm).
      replace (zlen (done_ ++ [c])) with (zlen done_ + 1) in IH by (unfold zlen; rewrite app_length; cbn; lia).
      rewrite <- !app_assoc in IH. cbn in IH. rewrite IH. reflexivity.
Qed.

(** Convert allocates one []rune. *)
Lemma go_Convert n h s : run (S n) "Convert" [VStr h] s =
  Ok (VStr (Convert h),
      mkState E (arrs E s ++ [map convert_rune (string_to_runes h)]) (objs E s) (ext E s)).
Proof.
  unfold run. change (get "Convert" prog_hanja) with (Some f_Convert). cbn [the bind].
  eapply enter_ret; [reflexivity|reflexivity|]. cbn [f_body f_Convert f_params combine].
  eapply exec_Block. eapply execs_cons; [eapply exec_Define; reflexivity|]. cbn [combine app].
  eapply execs_cons.
  { rewrite exec_Range. cbn [eval get String.eqb Ascii.eqb Bool.eqb the bind].
    eapply (convert_loop _ _ (arrs E s) _ _ _ _ [] (string_to_runes h)). unfold zlen. lia. }
  eapply execs_stop; [|discriminate]. eapply exec_Return1.
  cbn. unfold cells, arr_at; cbn. rewrite nth_last. unfold ztake, zdrop, zlen. cbn.
  rewrite Nat2Z.id. unfold Convert.
  rewrite firstn_all2 by (rewrite map_length; lia). reflexivity.
Qed.
End Run.
