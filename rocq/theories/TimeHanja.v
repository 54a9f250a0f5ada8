(** How many steps the functions of package hanja take. *)
From Coq Require Import String ZArith List Bool Lia.
From Verif Require Import Base Utf8 TableHanja HanjaModel Cp949Model GoLang GoSource GoFacts GoTime GoHanja Facts Utf8Facts SourceSpec TimeSpec.
From Verif Require GoHangulW.
Import ListNotations.
Local Open Scope string_scope.
Local Open Scope list_scope.
Local Open Scope Z_scope.
Local Open Scope go_scope.
Local Opaque table.
Local Arguments map_get : simpl never.
Local Arguments Z.add : simpl never.
Local Arguments Z.mul : simpl never.
Local Arguments Z.leb : simpl never.
Local Arguments Z.ltb : simpl never.
Local Arguments GoLang.run : simpl never.
Local Arguments GoTime.run_steps : simpl never.
Local Arguments zwrite : simpl never.
Local Arguments string_to_runes : simpl never.
Local Arguments runes_to_string : simpl never.

Lemma runes_to_string_4 rs : zlen (runes_to_string rs) <= 4 * zlen rs.
Proof.
  unfold runes_to_string. induction rs as [|r rs IH]; cbn [flat_map]; [cbn; lia|].
  rewrite zlen_app, zlen_cons. pose proof (EncodeRune_len r). lia.
Qed.

Section Run.
Variable grow : Z -> Z -> Z.
Variable E : Type.
Variable rd : nat -> E -> Z -> Z * list Z * option error * E.
Variable wr : nat -> E -> list Z -> Z * option error * E.
Notation run := (run grow E rd wr prog_hanja).
Notation steps := (run_steps grow E rd wr prog_hanja).
Notation state := (state E).

Lemma steps_S n f args s : steps (S n) f args s =
  match get f prog_hanja with
  | Some fn => enter_steps grow E rd wr (run n) (steps n) n fn args s
  | None => 0
  end.
Proof. reflexivity. Qed.

Lemma t_IsHanja n c s : steps (S n) "IsHanja" [VInt c] s <= 10.
Proof. rewrite steps_S. unfold enter_steps. cbn. destruct (map_get table c); cbn; lia. Qed.

Section Loop.
Variable call : string -> list val -> state -> res (val * state).
Variable call_steps : string -> list val -> state -> Z.
Variable loops : nat.
Section Range.
Variable i x : string.
Variable body : stmt.
Variable l : nat.
Variable o : Z.
Fixpoint range_steps (m : nat) (k : Z) (env : env) (s : state) {struct m} : Z :=
  match m with
  | O => 1
  | S m =>
    let y := nth (Z.to_nat (o + k)) (arr_at E s l) 0 in
    let inner := (i, VInt k) :: (x, VInt y) :: env in
    1 + exec_steps grow E rd wr call call_steps loops body inner s +
    after E (exec grow E rd wr call loops body inner s) (fun ke s =>
    match fst ke with Next | Cont => range_steps m (k + 1) (leave env (snd ke)) s | _ => 0 end)
  end.
End Range.

Lemma convert_steps (A : list (list Z)) O X vh : forall m done_ todo,
  length todo = m ->
  range_steps "i" "c" loop_body (length A) 0 m (zlen done_)
    [("rh", VSlice (length A) 0 (zlen (done_ ++ todo)) (zlen (done_ ++ todo))); ("h", vh)]
    (mkState E (A ++ [done_ ++ todo]) O X) <= 1 + 15 * Z.of_nat m.
Proof.
  induction m as [|m IH]; intros done_ todo Hm; [cbn; lia|].
  destruct todo as [|c todo]; [discriminate|]. injection Hm as Hm.
  cbn [range_steps]. unfold arr_at at 1 2; cbn [arrs]. rewrite nth_last.
  replace (nth (Z.to_nat (0 + zlen done_)) (done_ ++ c :: todo) 0) with c
    by (unfold zlen; rewrite Z.add_0_l, Nat2Z.id, nth_middle; reflexivity).
  cbn.
  assert (Hz : zlen (done_ ++ c :: todo) = zlen done_ + 1 + zlen todo)
    by (unfold zlen; rewrite app_length; cbn; lia).
  assert (Hd : 0 <= zlen done_ /\ 0 <= zlen todo) by (unfold zlen; lia).
  destruct (map_get table c) as [h|]; cbn.
  + rewrite (proj2 (Z.leb_le 0 (zlen done_))), (proj2 (Z.ltb_lt (zlen done_) _)) by lia. cbn.
    unfold store, set_arr, arr_at; cbn. rewrite nth_last, set_nth_last.
    assert (Hw : zwrite (done_ ++ c :: todo) (0 + zlen done_) [h] = (done_ ++ [h]) ++ todo).
    { unfold zwrite, ztake, zdrop, zlen. rewrite Z.add_0_l, Nat2Z.id, firstn_app, Nat.sub_diag, firstn_all.
      replace (Z.to_nat (Z.of_nat (length done_) + Z.of_nat (length [h]))) with (length done_ + 1)%nat by (cbn; lia).
      rewrite skipn_app. rewrite skipn_all2 by lia.
      replace (length done_ + 1 - length done_)%nat with 1%nat by lia. cbn. now rewrite app_nil_r, <- app_assoc. }
    rewrite Hw. specialize (IH (done_ ++ [h]) todo Hm).
    replace (zlen (done_ ++ [h])) with (zlen done_ + 1) in IH by (unfold zlen; rewrite app_length; cbn; lia).
    replace (zlen ((done_ ++ [h]) ++ todo)) with (zlen (done_ ++ c :: todo)) in IH
      by (unfold zlen; rewrite !app_length; cbn; lia).
    cbn in IH. lia.
  + specialize (IH (done_ ++ [c]) todo Hm).
    replace (zlen (done_ ++ [c])) with (zlen done_ + 1) in IH by (unfold zlen; rewrite app_length; cbn; lia).
    rewrite <- !app_assoc in IH. cbn in IH. lia.
Qed.
End Loop.

Lemma t_Convert n h s : steps (S n) "Convert" [VStr h] s <= 22 * zlen h + 20.
Proof.
  rewrite steps_S. change (get "Convert" prog_hanja) with (Some f_Convert). cbv beta iota.
  assert (Hn0 : length (string_to_runes h) = Z.to_nat (zlen (string_to_runes h))) by (unfold zlen; lia).
  pose proof (convert_steps (run n) (steps n) n (arrs E s) (objs E s) (ext E s) (VStr h) _ [] (string_to_runes h) Hn0) as Hl.
  pose proof (convert_loop grow E rd wr (run n) n (arrs E s) (objs E s) (ext E s) (VStr h) _ [] (string_to_runes h) Hn0) as Hr.
  cbn [app] in Hl, Hr. change (zlen []) with 0 in Hl, Hr.
  pose proof (GoHangulW.runes_len h) as Hn. pose proof (zlen_nonneg (string_to_runes h)) as Hp.
  unfold enter_steps, f_Convert. cbn.
  unfold range_steps, loop_body in Hl. unfold range_loop, loop_body in Hr. cbn in Hl, Hr.
  match type of Hl with ?a <= _ => set (L := a) in * end.
  rewrite Hr. cbn. unfold cells, arr_at; cbn. rewrite nth_last. unfold ztake, zdrop. cbn.
  rewrite (firstn_all2 (map convert_rune (string_to_runes h))) by (rewrite map_length; lia).
  pose proof (runes_to_string_4 (map convert_rune (string_to_runes h))) as H4.
  assert (Hm : zlen (map convert_rune (string_to_runes h)) = zlen (string_to_runes h)) by (unfold zlen; now rewrite map_length).
  lia.
Qed.

Lemma C130_hanja_lemma s :
  (forall c, answers grow E rd wr prog_hanja "IsHanja" [VInt c] s 10) /\
  (forall h, answers grow E rd wr prog_hanja "Convert" [VStr h] s (22 * zlen h + 20)).
Proof.
  split.
  - intros c. split; [do 2 eexists|]; exists 1%nat; intros [|n] Hn; try lia; [apply go_IsHanja|apply t_IsHanja].
  - intros h. split; [do 2 eexists|]; exists 1%nat; intros [|n] Hn; try lia; [apply go_Convert|apply t_Convert].
Qed.
End Run.
