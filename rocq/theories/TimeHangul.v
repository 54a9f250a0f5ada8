(** How many steps the functions of package hangul take. *)
From Coq Require Import String ZArith List Bool Lia.
From Verif Require Import Base Utf8 HangulModel Cp949Model GoLang GoSource GoFacts GoTime GoHangul Spec HangulFacts HangulFacts3 Facts Utf8Facts SourceSpec TimeSpec.
From Verif Require GoHangulW.
Import ListNotations.
Local Open Scope string_scope.
Local Open Scope list_scope.
Local Open Scope Z_scope.
Local Open Scope go_scope.

Local Arguments Z.leb : simpl never.
Local Arguments Z.ltb : simpl never.
Local Arguments Z.gtb : simpl never.
Local Arguments Z.geb : simpl never.
Local Arguments Z.eqb : simpl never.
Local Arguments Z.add : simpl never.
Local Arguments Z.sub : simpl never.
Local Arguments Z.mul : simpl never.
Local Arguments Z.min : simpl never.
Local Arguments wrap32 : simpl never.
Local Arguments go_div : simpl never.
Local Arguments go_mod : simpl never.
Local Arguments map_get : simpl never.
Local Arguments slice_at : simpl never.
Local Arguments GoLang.run : simpl never.
Local Arguments GoTime.run_steps : simpl never.
Local Arguments index_of : simpl never.
Local Arguments Split : simpl never.
Local Arguments CompatJamo : simpl never.
Local Arguments string_to_runes : simpl never.

Section Run.
Variable grow : Z -> Z -> Z.
Variable E : Type.
Variable rd : nat -> E -> Z -> Z * list Z * option error * E.
Variable wr : nat -> E -> list Z -> Z * option error * E.
Notation run := (run grow E rd wr prog_hangul).
Notation steps := (run_steps grow E rd wr prog_hangul).
Notation state := (state E).

Lemma steps_S n f args s : steps (S n) f args s =
  match get f prog_hangul with
  | Some fn => enter_steps grow E rd wr (run n) (steps n) n fn args s
  | None => 0
  end.
Proof. reflexivity. Qed.

Hint Rewrite go_IsLead go_IsMedial go_IsTail go_IsJaeum go_IsMoeum go_IsHangul go_CompatJamo go_Lead go_Medial go_Tail
  go_leadIdx go_medialIdx go_tailIdx go_Join go_Split go_SplitCompat go_SplitMultiElement go_LastConsonant : ran.
Ltac split_if :=
  match goal with
  | |- context [if ?b then _ else _] =>
    lazymatch b with context [if _ then _ else _] => fail | _ => idtac end;
    destruct b eqn:?
  | |- context [map_get ?m ?k] => destruct (map_get m k) eqn:?
  end.
Ltac count := rewrite steps_S; unfold enter_steps; cbn; repeat (first [progress autorewrite with ran | split_if]; cbn).
Tactic Notation "use" constr(f) tactic(L) := repeat match goal with
  | |- context [run_steps grow E rd wr prog_hangul ?n f ?a ?s] =>
    let H := fresh in eassert (run_steps grow E rd wr prog_hangul n f a s <= _) as H by L;
    revert H; generalize (run_steps grow E rd wr prog_hangul n f a s); intros ? ?
  end.

Lemma t_IsLead n r s : steps (S n) "IsLead" [VInt r] s <= 14.
Proof. count. all: lia. Qed.
Lemma t_IsMedial n r s : steps (S n) "IsMedial" [VInt r] s <= 14.
Proof. count. all: lia. Qed.
Lemma t_IsTail n r s : steps (S n) "IsTail" [VInt r] s <= 14.
Proof. count. all: lia. Qed.
Lemma t_IsJaeum n r s : steps (S (S n)) "IsJaeum" [VInt r] s <= 48.
Proof. count. all: use "IsLead" (apply t_IsLead). all: use "IsTail" (apply t_IsTail). all: lia. Qed.
Lemma t_IsMoeum n r s : steps (S (S n)) "IsMoeum" [VInt r] s <= 31.
Proof. count. all: use "IsMedial" (apply t_IsMedial). all: lia. Qed.
Lemma t_IsHangul n r s : steps (S (S (S n))) "IsHangul" [VInt r] s <= 99.
Proof. count. all: use "IsJaeum" (apply t_IsJaeum). all: use "IsMoeum" (apply t_IsMoeum). all: lia. Qed.
Lemma t_CompatJamo n r s : steps (S n) "CompatJamo" [VInt r] s <= 39.
Proof. count. all: lia. Qed.
Lemma t_Lead n r s : steps (S n) "Lead" [VInt r] s <= 23.
Proof. count. all: lia. Qed.
Lemma t_Medial n r s : steps (S n) "Medial" [VInt r] s <= 26.
Proof. count. all: lia. Qed.
Lemma t_Tail n r s : steps (S n) "Tail" [VInt r] s <= 23.
Proof. count. all: lia. Qed.
Lemma t_leadIdx n r s : steps (S n) "leadIdx" [VInt r] s <= 21.
Proof. count. all: lia. Qed.
Lemma t_medialIdx n r s : steps (S n) "medialIdx" [VInt r] s <= 21.
Proof. count. all: lia. Qed.
Lemma t_tailIdx n r s : steps (S n) "tailIdx" [VInt r] s <= 28.
Proof. count. all: lia. Qed.

Lemma t_Join n l m t s : steps (S (S n)) "Join" [VInt l; VInt m; VInt t] s <= 230.
Proof.
  rewrite steps_S; unfold enter_steps; cbn. autorewrite with ran. cbn. autorewrite with ran.
  destruct (leadIdx (Lead l)) as [li ok]. cbn. destruct ok; cbn; autorewrite with ran; cbn; autorewrite with ran.
  1: destruct (medialIdx (Medial m)) as [mi ok]; cbn; destruct ok; cbn; autorewrite with ran; cbn; autorewrite with ran.
  1: destruct (tailIdx (Tail t)) as [ti ok]; cbn; destruct ok; cbn.
  all: use "Lead" (apply t_Lead). all: use "Medial" (apply t_Medial). all: use "Tail" (apply t_Tail).
  all: use "leadIdx" (apply t_leadIdx). all: use "medialIdx" (apply t_medialIdx). all: use "tailIdx" (apply t_tailIdx).
  all: lia.
Qed.

Lemma t_Split n r s : steps (S n) "Split" [VInt r] s <= 57.
Proof.
  rewrite steps_S; unfold enter_steps; cbn. change (0x1c =? 0) with false. change (0x24c =? 0) with false. cbn.
  change (0x1c =? 0) with false. change (0x24c =? 0) with false. cbn.
  repeat (split_if; cbn). all: lia.
Qed.
Lemma t_SplitCompat n r s : steps (S (S n)) "SplitCompat" [VInt r] s <= 203.
Proof.
  rewrite steps_S; unfold enter_steps; cbn. autorewrite with ran. destruct (Split r) as [[l m] t]. cbn.
  repeat (first [progress autorewrite with ran | split_if]; cbn).
  all: use "Split" (apply t_Split). all: use "CompatJamo" (apply t_CompatJamo). all: lia.
Qed.
Lemma t_SplitMultiElement n r s : steps (S (S n)) "SplitMultiElement" [VInt r] s <= 54.
Proof.
  rewrite steps_S; unfold enter_steps; cbn. autorewrite with ran. cbn.
  destruct (slice_at 1 m_multiElements (CompatJamo r)) as [[l k]|]; cbn.
  all: use "CompatJamo" (apply t_CompatJamo). all: lia.
Qed.

Lemma t_LastConsonant n w s : steps (S (S n)) "LastConsonant" [VStr w] s <= 2 * zlen w + 90.
Proof.
  rewrite steps_S; unfold enter_steps; cbn. destruct w as [|b w]; cbn; [lia|].
  set (rs := string_to_runes (b :: w)). rewrite index_new.
  assert (zlen rs <= zlen (b :: w)) by apply GoHangulW.runes_len.
  destruct (zget rs (zlen rs - 1)) as [c|]; cbn; autorewrite with ran;
    [destruct (Split c) as [[l m] t]; cbn; use "Split" (apply t_Split)|].
  all: change (Z.pos (Pos.of_succ_nat (Datatypes.length w))) with (zlen (b :: w)); lia.
Qed.
Lemma t_EndsWithConsonant n w s : steps (S (S (S n))) "EndsWithConsonant" [VStr w] s <= 2 * zlen w + 105.
Proof.
  rewrite steps_S; unfold enter_steps; cbn. autorewrite with ran.
  destruct (LastConsonant w) as [c| |]; cbn; repeat (split_if; cbn).
  all: use "LastConsonant" (apply t_LastConsonant). all: pose proof (zlen_nonneg w); lia.
Qed.
Lemma t_AppendPostposition n w p q s : steps (S (S (S n))) "AppendPostposition" [VStr w; VStr p; VStr q] s <=
  3 * zlen w + zlen p + zlen q + 140.
Proof.
  rewrite steps_S; unfold enter_steps; cbn. autorewrite with ran.
  destruct (LastConsonant w) as [c| |]; cbn; repeat (split_if; cbn).
  all: use "LastConsonant" (apply t_LastConsonant). all: pose proof (zlen_nonneg w); pose proof (zlen_nonneg p); pose proof (zlen_nonneg q).
  all: pose proof (Z.le_min_r (zlen p) (zlen [0xEC; 0x9C; 0xBC; 0xEB; 0xA1; 0x9C])) as Hm.
  all: change (zlen [0xEC; 0x9C; 0xBC; 0xEB; 0xA1; 0x9C]) with 6 in Hm |- *.
  all: lia.
Qed.

Lemma slice_at_small k l z : slice_at 1 m_multiElements k = Some (l, z) -> z = 2 \/ z = 3.
Proof.
  assert (H : forall m i, Forall (fun p : Z * list Z => zlen (snd p) = 2 \/ zlen (snd p) = 3) m ->
    slice_at i m k = Some (l, z) -> z = 2 \/ z = 3).
  { induction m as [|[a es] m IH]; intros i Hm H; [discriminate|]. unfold slice_at in H; fold slice_at in H.
    inversion_clear Hm as [|? ? H1 H2]. destruct (a =? k); [injection H as _ <-; exact H1|exact (IH _ H2 H)]. }
  apply H. unfold m_multiElements. repeat (apply Forall_cons; [first [left; reflexivity|right; reflexivity]|]). apply Forall_nil.
Qed.

Definition syllable (r : Z) : bool := (0xac00 <=? r) && (r <=? 0xd7a3).
Lemma jamo_Stroke r s : syllable r = false ->
  exists c, forall n, run (S (S (S n))) "Stroke" [VInt r] s = Ok (VInt c, s) /\ steps (S (S (S n))) "Stroke" [VInt r] s <= 190.
Proof.
  intros Hr. unfold syllable in Hr.
  exists (match slice_at 1 multiElements (CompatJamo (CompatJamo r)) with
          | Some (l, k) => fold_left (fun c i => c + strokes_at (nth (Z.to_nat (0 + i)) (arr_at E s l) 0)) (if k =? 2 then [0; 1] else [0; 1; 2]) 0
          | None => strokes_at (CompatJamo r)
          end).
  intros n. split.
  - rewrite run_S. cbn. destruct (0xac00 <=? r); cbn in Hr |- *; rewrite ?Hr; cbn; autorewrite with ran; cbn; autorewrite with ran; cbn.
    all: destruct (slice_at 1 multiElements (CompatJamo (CompatJamo r))) as [[l k]|] eqn:Hk; cbn; [|reflexivity].
    all: apply slice_at_small in Hk; destruct Hk as [-> | ->]; cbn; [change (Pos.to_nat 2) with 2%nat|change (Pos.to_nat 3) with 3%nat]; reflexivity.
  - rewrite steps_S. unfold enter_steps. cbn. destruct (0xac00 <=? r); cbn in Hr |- *; rewrite ?Hr; cbn; autorewrite with ran; cbn; autorewrite with ran; cbn.
    all: destruct (slice_at 1 multiElements (CompatJamo (CompatJamo r))) as [[l k]|] eqn:Hk; cbn.
    all: try (apply slice_at_small in Hk; destruct Hk as [-> | ->]; cbn; [change (Pos.to_nat 2) with 2%nat|change (Pos.to_nat 3) with 3%nat]; cbn).
    all: use "CompatJamo" (apply t_CompatJamo). all: use "SplitMultiElement" (apply t_SplitMultiElement).
    all: lia.
Qed.
Lemma Split_jamo r : syllable r = true ->
  let '(l, m, t) := Split r in syllable l = false /\ syllable m = false /\ syllable t = false.
Proof.
  intros Hr. unfold syllable in Hr. apply andb_prop in Hr as [Hr1 Hr2].
  rewrite (Split_syllable r) by (unfold is_syllable; lia). unfold syllable.
  assert ((r - 0xAC00) / 588 < 19) by (apply Z.div_lt_upper_bound; lia).
  assert ((r - 0xAC00) mod 588 / 28 < 21) by (apply Z.div_lt_upper_bound; [lia|apply Z.mod_pos_bound; lia]).
  pose proof (Z.mod_pos_bound (r - 0xAC00) 28 ltac:(lia)).
  destruct (_ =? 0); rewrite !(proj2 (Z.leb_gt 0xac00 _)) by lia; auto.
Qed.
Lemma t_Stroke r s : exists c, forall n,
  run (S (S (S (S n)))) "Stroke" [VInt r] s = Ok (VInt c, s) /\ steps (S (S (S (S n)))) "Stroke" [VInt r] s <= 669.
Proof.
  destruct (syllable r) eqn:Hr; [|destruct (jamo_Stroke r s Hr) as [c Hc]; exists c; intros n; destruct (Hc (S n)); split; [assumption|lia]].
  pose proof (Split_jamo r Hr) as Hs.
  unfold syllable in Hr. apply andb_prop in Hr as [Hr1 Hr2].
  pose proof (fun n => go_Split grow E rd wr (S (S n)) r s) as Hsp.
  destruct (Split r) as [[l m] t]. destruct Hs as (Hl & Hm & Ht).
  destruct (jamo_Stroke l s Hl) as [cl Hcl]. destruct (jamo_Stroke m s Hm) as [cm Hcm]. destruct (jamo_Stroke t s Ht) as [ct Hct].
  exists (0 + cl + cm + ct). intros n.
  specialize (Hsp n). destruct (Hcl n) as [Hcl1 Hsl], (Hcm n) as [Hcm1 Hsm], (Hct n) as [Hct1 Hst].
  split.
  - rewrite run_S. cbn. rewrite Hr1. cbn. rewrite Hr2. cbn. rewrite Hsp. cbn. rewrite Hcl1. cbn. rewrite Hcm1. cbn. rewrite Hct1.
    reflexivity.
  - rewrite steps_S. unfold enter_steps. cbn. rewrite Hr1. cbn. rewrite Hr2. cbn. rewrite Hsp.
    cbn. rewrite Hcl1. cbn. rewrite Hcm1. cbn. rewrite Hct1. cbn.
    use "Split" (apply t_Split). lia.
Qed.

Notation answers := (answers grow E rd wr prog_hangul).
Lemma answers_1 f args s r s' t : (forall n, run (S n) f args s = Ok (r, s')) ->
  (forall n, steps (S n) f args s <= t) -> answers f args s t.
Proof. intros H1 H2. split; [exists r, s'|]; exists 1%nat; intros [|n] Hn; try lia; auto. Qed.
Lemma answers_2 f args s r s' t : (forall n, run (S (S n)) f args s = Ok (r, s')) ->
  (forall n, steps (S (S n)) f args s <= t) -> answers f args s t.
Proof. intros H1 H2. split; [exists r, s'|]; exists 2%nat; intros [|[|n]] Hn; try lia; auto. Qed.
Lemma answers_3 f args s r s' t : (forall n, run (S (S (S n))) f args s = Ok (r, s')) ->
  (forall n, steps (S (S (S n))) f args s <= t) -> answers f args s t.
Proof. intros H1 H2. split; [exists r, s'|]; exists 3%nat; intros [|[|[|n]]] Hn; try lia; auto. Qed.

Lemma C130_character_lemma s r :
  Forall (fun p => answers (fst p) [VInt r] s (snd p))
    [("IsLead", 14); ("IsMedial", 14); ("IsTail", 14); ("IsJaeum", 48); ("IsMoeum", 31); ("IsHangul", 99);
     ("CompatJamo", 39); ("Lead", 23); ("Medial", 26); ("Tail", 23); ("Split", 57); ("SplitCompat", 203);
     ("SplitMultiElement", 54); ("Stroke", 669)].
Proof.
  repeat (apply Forall_cons; [cbn [fst snd]|]); try apply Forall_nil.
  - eapply answers_1; intros; [apply go_IsLead|apply t_IsLead].
  - eapply answers_1; intros; [apply go_IsMedial|apply t_IsMedial].
  - eapply answers_1; intros; [apply go_IsTail|apply t_IsTail].
  - eapply answers_2; intros; [apply go_IsJaeum|apply t_IsJaeum].
  - eapply answers_2; intros; [apply go_IsMoeum|apply t_IsMoeum].
  - eapply answers_3; intros; [apply go_IsHangul|apply t_IsHangul].
  - eapply answers_1; intros; [apply go_CompatJamo|apply t_CompatJamo].
  - eapply answers_1; intros; [apply go_Lead|apply t_Lead].
  - eapply answers_1; intros; [apply go_Medial|apply t_Medial].
  - eapply answers_1; intros; [apply go_Tail|apply t_Tail].
  - eapply answers_1; intros; [apply go_Split|apply t_Split].
  - eapply answers_2; intros; [apply go_SplitCompat|apply t_SplitCompat].
  - eapply answers_2; intros; [apply go_SplitMultiElement|apply t_SplitMultiElement].
  - destruct (t_Stroke r s) as [c Hc]. split; [exists (VInt c), s|]; exists 4%nat; intros [|[|[|[|n]]]] Hn; try lia; apply Hc.
Qed.
Lemma C130_Join_lemma s l m t : answers "Join" [VInt l; VInt m; VInt t] s 230.
Proof. eapply answers_2; intros; [apply go_Join|apply t_Join]. Qed.
Lemma C130_word_lemma s w : Forall is_byte w ->
  answers "LastConsonant" [VStr w] s (2 * zlen w + 90) /\
  answers "EndsWithConsonant" [VStr w] s (2 * zlen w + 105) /\
  forall p q, answers "AppendPostposition" [VStr w; VStr p; VStr q] s (3 * zlen w + zlen p + zlen q + 140).
Proof.
  intros Hw. destruct (LastConsonant_total w Hw) as (c & Hc).
  assert (He : exists b, EndsWithConsonant w = Ok b)
    by (unfold EndsWithConsonant; rewrite Hc; cbn; destruct (c =? 0); eauto).
  destruct He as (b & He).
  split; [|split; [|intros p q]].
  - eapply answers_2; intros; [rewrite go_LastConsonant, Hc; reflexivity|apply t_LastConsonant].
  - eapply answers_3; intros; [rewrite go_EndsWithConsonant, He; reflexivity|apply t_EndsWithConsonant].
  - assert (Ha : exists r, AppendPostposition w p q = Ok r)
      by (unfold AppendPostposition; rewrite Hc; cbn; repeat match goal with |- context [if ?b then _ else _] => destruct b end; eauto).
    destruct Ha as (r & Ha).
    eapply answers_3; intros; [rewrite go_AppendPostposition, Ha; reflexivity|apply t_AppendPostposition].
Qed.
End Run.
