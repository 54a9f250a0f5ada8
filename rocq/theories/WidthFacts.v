(** Lemmas for PropWidth.v: fields of a given width. *)
From Coq Require Import ZArith List Bool Lia ZifyBool PeanoNat.
From Verif Require Import Base Spec Facts Utf8Facts SpecCp949 SpecField SpecEnds Cp949Model Cp949Facts Cp949Facts2 Cp949Facts3 FieldFacts EndsFacts TableFacts.
Import ListNotations.
Local Open Scope Z_scope.
Local Open Scope list_scope.

Lemma columns_app a b : columns (a ++ b) = columns a + columns b.
Proof. induction a as [|r a IH]; [reflexivity|]. cbn [app columns]. rewrite IH. lia. Qed.
Lemma prefix_le (a b rs : list Z) : is_prefix a rs -> is_prefix b rs -> is_prefix a b \/ exists r q, a = b ++ r :: q.
Proof.
  intros (p & Ep) (q & Eq). rewrite Ep in Eq. destruct (app_prefix_eq _ _ _ _ Eq) as [H|(z & ->)]; [left; exact H|].
  destruct z as [|r z]; [left; exists []; rewrite !app_nil_r; reflexivity|]. right. exists r, z. reflexivity.
Qed.
Lemma encodes_columns rs x : encodes rs x -> zlen x = columns rs.
Proof. intros H. apply decodes_columns, encodes_decodes. exact H. Qed.
Lemma encodes_part u v rs : encodes rs (u ++ v) -> (exists ru, decodes u ru) ->
  exists r1 r2, rs = r1 ++ r2 /\ encodes r1 u /\ encodes r2 v.
Proof.
  intros H (ru & Hu). destruct (decodes_app_inv u ru Hu v rs (encodes_decodes _ _ H)) as (r2 & _ & ->).
  destruct (encodes_split ru r2 _ H) as (xa & xb & E & Ha & Hb). exists ru, r2. split; [reflexivity|].
  assert (L : length u = length xa).
  { pose proof (decodes_columns _ _ Hu) as L1. pose proof (encodes_columns _ _ Ha) as L2. unfold zlen in *. lia. }
  assert (Eu : u = xa).
  { apply (f_equal (firstn (length u))) in E. rewrite L in E at 2. rewrite !firstn_app, !firstn_all, !Nat.sub_diag in E.
    cbn [firstn] in E. rewrite !app_nil_r in E. exact E. }
  subst xa. apply app_inv_head in E. subst xb. split; assumption.
Qed.

Section Width.
Variable grow : Z -> Z -> Z.
Lemma cut_width rs x n : encodes rs x -> exists rs1, is_prefix rs1 rs /\ columns rs1 <= Z.of_nat n /\
  (forall rs2, is_prefix rs2 rs -> columns rs2 <= Z.of_nat n -> is_prefix rs2 rs1) /\
  To grow (utf8 rs1) = Ok (inl (firstn (if Nat.even (high_end (firstn n x)) then n else n - 1) x)).
Proof.
  intros Hx. pose proof (decodes_bytes _ _ (encodes_decodes _ _ Hx)) as Hb.
  assert (Hbu : Forall is_byte (firstn n x)).
  { rewrite <- (firstn_skipn n x) in Hb. apply Forall_app in Hb. apply Hb. }
  destruct (high_end_decodes (firstn n x) Hbu) as [H1 H2]. destruct (Nat.even (high_end (firstn n x))).
  - destruct (H1 eq_refl) as (ru & Hu). pose proof Hx as Hx'. rewrite <- (firstn_skipn n x) in Hx'.
    destruct (encodes_part _ _ _ Hx') as (r1 & r2 & -> & E1 & E2); [exists ru; exact Hu|].
    pose proof (encodes_columns _ _ E1) as L1. pose proof (encodes_columns _ _ E2) as L2. unfold zlen in L1, L2. rewrite firstn_length in L1. rewrite skipn_length in L2.
    exists r1. split; [exists r2; reflexivity|]. split; [lia|]. split; [|apply To_encodes; exact E1].
    intros rs2 Hp Hc. destruct (prefix_le rs2 r1 (r1 ++ r2) Hp) as [H|(r & q & ->)]; [exists r2; reflexivity|exact H|]. exfalso.
    rewrite columns_app in Hc. cbn [columns] in Hc. pose proof (columns_nonneg q).
    destruct Hp as (z & Ez). rewrite <- app_assoc in Ez. apply app_inv_head in Ez. subst r2. cbn [columns app] in L2. rewrite columns_app in L2.
    pose proof (columns_nonneg z). destruct (r <? 0x80); lia.
  - destruct (H2 eq_refl) as (a & b & Hbb & Ea & ra & Ha).
    assert (Ln : (length a + 1 = Nat.min n (length x))%nat).
    { rewrite <- firstn_length, Ea, app_length. reflexivity. }
    assert (Hn : (n <= length x)%nat).
    { destruct (Nat.le_gt_cases n (length x)) as [H|H]; [exact H|]. rewrite firstn_all2 in Ea by lia. subst x.
      exfalso. apply (cut_not_complete a (a ++ [b])) with (rs := rs); [|apply encodes_decodes; exact Hx].
      exists b. split; [exact Hbb|]. split; [reflexivity|exists ra; exact Ha]. }
    assert (Ex : x = a ++ b :: skipn n x).
    { rewrite <- (firstn_skipn n x) at 1. rewrite Ea, <- app_assoc. reflexivity. }
    assert (Ef : firstn (n - 1) x = a).
    { rewrite Ex, firstn_app. replace (n - 1 - length a)%nat with 0%nat by lia. cbn [firstn]. rewrite app_nil_r. apply firstn_all2. lia. }
    rewrite Ef. pose proof Hx as Hx'. rewrite Ex in Hx'.
    destruct (encodes_part _ _ _ Hx') as (r1 & r2 & -> & E1 & E2); [exists ra; exact Ha|].
    pose proof (encodes_columns _ _ E1) as L1. unfold zlen in L1.
    exists r1. split; [exists r2; reflexivity|]. split; [lia|]. split; [|apply To_encodes; exact E1].
    intros rs2 Hp Hc. destruct (prefix_le rs2 r1 (r1 ++ r2) Hp) as [H|(r & q & ->)]; [exists r2; reflexivity|exact H|]. exfalso.
    rewrite columns_app in Hc. cbn [columns] in Hc. pose proof (columns_nonneg q).
    destruct Hp as (z & Ez). rewrite <- app_assoc in Ez. apply app_inv_head in Ez. subst r2. cbn [app] in E2.
    inversion E2 as [|? ? ? Hr|c ? ? ? Hr]; subst; [lia|]. apply assigned_ranges in Hr as [_ [Hr _]].
    destruct (Z.ltb_spec r 0x80); lia.
Qed.

Lemma spaces_encode k : encodes (repeat 0x20 k) (repeat 0x20 k).
Proof. induction k as [|k IH]; constructor; [lia|exact IH]. Qed.
Lemma pad_field rs x w : encodes rs x -> columns rs <= w ->
  let k := Z.to_nat (w - columns rs) in
  To grow (utf8 (rs ++ repeat 0x20 k)) = Ok (inl (x ++ repeat 0x20 k)) /\ zlen (x ++ repeat 0x20 k) = w /\
  From grow (x ++ repeat 0x20 k) = Ok (inl (utf8 (rs ++ repeat 0x20 k))).
Proof.
  intros Hx Hw k. assert (He : encodes (rs ++ repeat 0x20 k) (x ++ repeat 0x20 k)) by (apply encodes_app; [exact Hx|apply spaces_encode]).
  split; [apply To_encodes; exact He|]. split.
  - rewrite zlen_app, (encodes_columns _ _ Hx). unfold zlen. rewrite repeat_length. unfold k. pose proof (columns_nonneg rs). lia.
  - apply From_decodes, encodes_decodes. exact He.
Qed.
Lemma take_field a f b x : encodes (a ++ f ++ b) x ->
  From grow (ztake (columns f) (zdrop (columns a) x)) = Ok (inl (utf8 f)).
Proof.
  intros Hx. destruct (encodes_split a _ _ Hx) as (xa & xr & -> & Ha & Hr). destruct (encodes_split f b _ Hr) as (xf & xb & -> & Hf & _).
  rewrite <- (encodes_columns _ _ Ha), <- (encodes_columns _ _ Hf). unfold ztake, zdrop, zlen. rewrite !Nat2Z.id.
  rewrite skipn_app, Nat.sub_diag, skipn_all. cbn [skipn app].
  rewrite firstn_app, firstn_all, Nat.sub_diag. cbn [firstn]. rewrite app_nil_r. apply From_decodes, encodes_decodes. exact Hf.
Qed.
End Width.
