(** Lemmas for PropBom.v. *)
From Coq Require Import ZArith List Bool Lia ZifyBool.
From Verif Require Import Base Spec SpecText SpecCp949 Facts Utf8 Utf8Facts Cp949Model Cp949Facts Cp949Facts2 Cp949Facts3 TableFacts PMapFacts HanjaModel HanjaFacts.
Import ListNotations.
Local Open Scope Z_scope.
Local Open Scope list_scope.

Lemma bom_valid : valid_utf8 [0xEF; 0xBB; 0xBF].
Proof. exists [0xFEFF]. split; [constructor; [unfold is_scalar; lia|constructor]|reflexivity]. Qed.
Lemma bom_bytes : Forall is_byte [0xEF; 0xBB; 0xBF].
Proof. repeat (constructor; [unfold is_byte; lia|]). constructor. Qed.
Lemma bom_none : tget enc_tree 0xFEFF = None.
Proof. vm_compute. reflexivity. Qed.
Lemma bom_hanja : tget hanja_tree 0xFEFF = None.
Proof. vm_compute. reflexivity. Qed.
Lemma bom_code : assigned 0xEFBB 0x7664.
Proof. apply assigned_by. vm_compute. reflexivity. Qed.
Lemma bom_unassigned c : ~ assigned c 0xFEFF.
Proof. intros H. apply assigned_enc in H. rewrite bom_none in H. discriminate. Qed.
Local Opaque enc_tree hanja_tree dec_tree.

Section Grow.
Variable grow : Z -> Z -> Z.
Lemma bom_alone : To grow [0xEF; 0xBB; 0xBF] = Ok (inl [0x3F]).
Proof.
  change [0xEF; 0xBB; 0xBF] with (utf8 [0xFEFF]). assert (S : is_scalar 0xFEFF) by (unfold is_scalar; lia).
  rewrite To_utf8 by (constructor; [exact S|constructor]). cbn [flat_map].
  rewrite (proj1 (to_char_unassigned 0xFEFF S ltac:(intros [H|(c & H)]; [lia|exact (bom_unassigned c H)]))) by lia. reflexivity.
Qed.
Lemma bom_To t x : Forall is_byte t -> To grow t = Ok (inl x) -> To grow ([0xEF; 0xBB; 0xBF] ++ t) = Ok (inl (0x3F :: x)).
Proof.
  intros Ht E. destruct (C37_lemma grow [0xEF; 0xBB; 0xBF] t bom_bytes Ht (or_introl bom_valid)) as (a & b & E1 & E2 & E3).
  rewrite bom_alone in E1. injection E1 as <-. rewrite E in E2. injection E2 as <-. exact E3.
Qed.
Lemma bom_From_pair c w : 0 <= c < 256 -> assigned (0xBF * 256 + c) w \/ w = 0xFFFD /\ (forall v, ~ assigned (0xBF * 256 + c) v) ->
  From grow [0xEF; 0xBB; 0xBF; c] = Ok (inl (utf8 [0x7664; w])).
Proof.
  intros Hc Hw. apply From_decodes. apply dec_code; [lia|lia|exact bom_code|]. destruct Hw as [Hw|[-> Hw]].
  - apply dec_code; [lia|lia|exact Hw|constructor].
  - apply dec_unassigned; [lia|lia|exact Hw|constructor].
Qed.
Lemma bom_From c s w : Forall is_byte (c :: s) -> assigned (0xBF * 256 + c) w \/ w = 0xFFFD /\ (forall v, ~ assigned (0xBF * 256 + c) v) ->
  (forall y, From grow s = Ok (inl y) -> From grow ([0xEF; 0xBB; 0xBF] ++ c :: s) = Ok (inl (utf8_char 0x7664 ++ utf8_char w ++ y))) /\
  (forall e, From grow s = Ok (inr e) -> From grow ([0xEF; 0xBB; 0xBF] ++ c :: s) = Ok (inr e)).
Proof.
  intros Hb Hw. inversion Hb as [|? ? Hc Hs]; subst.
  pose proof (bom_From_pair c w Hc Hw) as E.
  assert (B : Forall is_byte [0xEF; 0xBB; 0xBF; c]) by (change [0xEF; 0xBB; 0xBF; c] with ([0xEF; 0xBB; 0xBF] ++ [c]); apply Forall_app; split; [exact bom_bytes|constructor; [exact Hc|constructor]]).
  destruct (C36_lemma grow _ s _ B Hs E) as (H1 & H2 & _). split; [|exact H2].
  intros y Hy. specialize (H1 y Hy). rewrite !utf8_cons in H1. cbn [utf8 flat_map] in H1. rewrite app_nil_r, <- app_assoc in H1. exact H1.
Qed.
Lemma bom_From_alone : From grow [0xEF; 0xBB; 0xBF] = Ok (inr ErrCP949UnexpectedStream).
Proof.
  apply (C30_lemma grow _ bom_bytes). exists [0xEF; 0xBB], 0xBF. split; [lia|]. split; [reflexivity|].
  exists [0x7664]. apply dec_code; [lia|lia|exact bom_code|constructor].
Qed.
Lemma bom_never s out rs : Forall is_byte s -> From grow s = Ok (inl out) -> reads_as out rs -> ~ In 0xFEFF rs.
Proof.
  intros Hs E Hr Hi. destruct (C30_lemma grow s Hs) as (H & H1 & H2). destruct H as [[(rs' & Hd) _]|[Ht _]].
  - destruct (proj1 (H1 rs') Hd) as [E' Hsc]. rewrite E in E'. injection E' as ->.
    assert (rs' = rs) as -> by (apply (reads_as_fun (utf8 rs')); [apply reads_as_utf8; exact Hsc|exact Hr]).
    clear - Hd Hi. induction Hd as [|b s rs Hb Hd IH|b0 b1 u s rs H0 H1 Ha Hd IH|b0 b1 s rs H0 H1 Hn Hd IH]; cbn [In] in Hi.
    + exact Hi.
    + destruct Hi as [Hi|Hi]; [lia|exact (IH Hi)].
    + destruct Hi as [->|Hi]; [exact (bom_unassigned _ Ha)|exact (IH Hi)].
    + destruct Hi as [Hi|Hi]; [discriminate|exact (IH Hi)].
  - apply H2 in Ht. rewrite E in Ht. discriminate.
Qed.
End Grow.
Lemma bom_Convert t : Forall is_byte t -> Convert ([0xEF; 0xBB; 0xBF] ++ t) = [0xEF; 0xBB; 0xBF] ++ Convert t.
Proof.
  intros Ht. rewrite (C25_lemma [0xEF; 0xBB; 0xBF] t bom_bytes Ht (or_introl bom_valid)).
  assert (E : Convert (utf8 [0xFEFF]) = utf8 [0xFEFF]); [|exact (f_equal (fun x => x ++ Convert t) E)]. rewrite Convert_utf8 by (constructor; [unfold is_scalar; lia|constructor]).
  cbn [map]. rewrite convert_rune_other; [reflexivity|]. apply IsHanja_false_get. rewrite hanja_get. exact bom_hanja.
Qed.
Lemma bom_refuted : (forall grow, exists t x y, To grow t = Ok (inl x) /\ To grow ([0xEF; 0xBB; 0xBF] ++ t) = Ok (inl y) /\ y <> x) /\
  (forall grow, exists s u v, From grow s = Ok (inl u) /\ From grow ([0xEF; 0xBB; 0xBF] ++ s) = Ok (inl v) /\ v <> u).
Proof.
  split; intros grow.
  - exists [], [], [0x3F]. assert (E : To grow [] = Ok (inl [])) by exact (To_encodes grow [] [] enc_nil).
    split; [exact E|]. split; [exact (bom_To grow [] [] (Forall_nil _) E)|discriminate].
  - assert (exists w, assigned (0xBF * 256 + 0x41) w) as (w & Hw) by (eexists; apply assigned_by; vm_compute; reflexivity).
    exists [0x41], [0x41], (utf8 [0x7664; w]). split; [exact (From_decodes grow [0x41] [0x41] (dec_ascii 0x41 [] [] ltac:(lia) dec_nil))|].
    split; [apply (bom_From_pair grow 0x41 w); [lia|left; exact Hw]|]. rewrite utf8_cons. intros E. assert (E' := f_equal (hd 0) E). vm_compute in E'. discriminate.
Qed.
