(** Lemmas for PropRedecode.v. *)
From Coq Require Import ZArith List Bool Lia Arith ZifyBool.
From Verif Require Import Base Spec SpecCp949 SpecEnds Facts Utf8 Utf8Facts Cp949Model Cp949Facts Cp949Facts2 TableFacts PMapFacts EndsFacts.
Import ListNotations.
Local Open Scope Z_scope.
Local Open Scope list_scope.

Definition three (r : Z) : bool := (0x800 <=? r) && (r <? 0x10000).
Lemma three_bytes h : Forall (fun r => is_scalar r /\ 0x80 <= r) h ->
  Nat.even (length (utf8 h)) = Nat.even (length (filter three h)) /\ Forall (fun b => 0x80 <= b) (utf8 h).
Proof.
  induction 1 as [|r h [Hr H] _ [IH1 IH2]]; [split; [reflexivity|constructor]|].
  rewrite utf8_cons, app_length, Nat.even_add, IH1. cbn [filter]. unfold three at 2.
  destruct (utf8_char_cases r Hr) as [[? K]|[[? K]|[[? [? K]]|[? K]]]]; [lia|..]; rewrite K.
  - replace ((0x800 <=? r) && (r <? 0x10000)) with false by lia.
    split; [cbn; destruct (Nat.even (length (filter three h))); reflexivity|]. apply Forall_app. split; [|exact IH2]. repeat (constructor; [Z.div_mod_to_equations; lia|]). constructor.
  - replace ((0x800 <=? r) && (r <? 0x10000)) with true by lia.
    split; [cbn [length]; rewrite (Nat.even_succ (length (filter three h))), <- Nat.negb_even; change (Nat.even 3) with false; destruct (Nat.even (length (filter three h))); reflexivity|]. apply Forall_app. split; [|exact IH2]. repeat (constructor; [Z.div_mod_to_equations; lia|]). constructor.
  - replace ((0x800 <=? r) && (r <? 0x10000)) with false by lia.
    split; [cbn; destruct (Nat.even (length (filter three h))); reflexivity|]. apply Forall_app. split; [|exact IH2]. repeat (constructor; [Z.div_mod_to_equations; lia|]). constructor.
Qed.
Lemma high_end_all h : Forall (fun b => 0x80 <= b) h -> high_end h = length h.
Proof.
  induction h as [|b h IH] using rev_ind; intros H; [reflexivity|]. apply Forall_app in H as [H Hb]. inversion Hb; subst.
  rewrite high_end_snoc, app_length, IH by exact H. destruct (Z.leb_spec 0x80 b); [cbn [length]; lia|lia].
Qed.
Lemma three_end p h : Forall is_scalar p -> p = [] \/ (exists q c, p = q ++ [c] /\ c < 0x80) -> Forall (fun r => is_scalar r /\ 0x80 <= r) h ->
  Nat.even (high_end (utf8 (p ++ h))) = Nat.even (length (filter three h)).
Proof.
  intros Hp [->|(q & c & -> & Hc)] H; destruct (three_bytes h H) as [L G].
  - cbn [app]. rewrite high_end_all by exact G. exact L.
  - apply Forall_app in Hp as [_ Hp]. inversion Hp as [|? ? Hs _]; subst. rewrite !utf8_app, <- app_assoc. cbn [utf8 flat_map app]. fold (utf8 h).
    rewrite utf8_char_ascii by (unfold is_scalar in Hs; lia). cbn [app]. rewrite high_end_run by assumption. exact L.
Qed.
Lemma redecode grow p h : Forall is_scalar (p ++ h) -> p = [] \/ (exists q c, p = q ++ [c] /\ c < 0x80) -> Forall (fun r => 0x80 <= r) h ->
  (Nat.Odd (length (filter (fun r => (0x800 <=? r) && (r <? 0x10000)) h)) -> From grow (utf8 (p ++ h)) = Ok (inr ErrCP949UnexpectedStream)) /\
  (Nat.Even (length (filter (fun r => (0x800 <=? r) && (r <? 0x10000)) h)) -> exists t, From grow (utf8 (p ++ h)) = Ok (inl t)).
Proof.
  intros S Hc H. assert (S' := S). apply Forall_app in S' as [Hp Hh].
  assert (H' : Forall (fun r => is_scalar r /\ 0x80 <= r) h) by (apply Forall_forall; intros r Hi; split; [exact (proj1 (Forall_forall _ _) Hh r Hi)|exact (proj1 (Forall_forall _ _) H r Hi)]).
  destruct (From_ends grow (utf8 (p ++ h)) (utf8_bytes _ S)) as [E1 E2]. rewrite (three_end p h Hp Hc H') in E1, E2. split; intros N.
  - apply E2. apply Nat.odd_spec in N. rewrite <- Nat.negb_odd. apply negb_false_iff. exact N.
  - apply E1. apply Nat.even_spec. exact N.
Qed.
Lemma redecode_refuted : exists text t, Forall is_syllable text /\ text <> [] /\ (forall grow, From grow (utf8 text) = Ok (inl (utf8 t))) /\
  Forall is_scalar t /\ ~ In replacement t.
Proof.
  exists [0xAC01; 0xAC01], [0x5A9B; 0xACF4; 0xCED6].
  assert (A : assigned 0xEAB0 0x5A9B) by (apply assigned_by; vm_compute; reflexivity).
  assert (B : assigned 0x81EA 0xACF4) by (apply assigned_by; vm_compute; reflexivity).
  assert (C : assigned 0xB081 0xCED6) by (apply assigned_by; vm_compute; reflexivity).
  split; [repeat (constructor; [unfold is_syllable; lia|]); constructor|]. split; [discriminate|]. split.
  - intros grow. change (utf8 [0xAC01; 0xAC01]) with [0xEA; 0xB0; 0x81; 0xEA; 0xB0; 0x81].
    apply From_decodes. apply dec_code; [lia|lia|exact A|]. apply dec_code; [lia|lia|exact B|]. apply dec_code; [lia|lia|exact C|constructor].
  - split; [repeat (constructor; [unfold is_scalar; lia|]); constructor|]. unfold replacement. cbn. lia.
Qed.
