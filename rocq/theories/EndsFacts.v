(** Lemmas for PropEnds.v: characters begin after an even number of bytes of 0x80 and more. *)
From Coq Require Import ZArith List Bool Lia PeanoNat.
From Verif Require Import Base Spec SpecCp949 SpecEnds Cp949Model Cp949Facts Cp949Facts2 DamageFacts TableFacts PMapFacts.
Import ListNotations.
Local Open Scope Z_scope.
Local Open Scope list_scope.

Lemma high_end_snoc s b : high_end (s ++ [b]) = if 0x80 <=? b then S (high_end s) else 0%nat.
Proof. unfold high_end. rewrite rev_unit. reflexivity. Qed.
Lemma high_end_run s b h : b < 0x80 -> Forall (fun x => 0x80 <= x) h -> high_end (s ++ b :: h) = length h.
Proof.
  intros Hb. induction h as [|x h IH] using rev_ind; intros Hh.
  - rewrite high_end_snoc. destruct (Z.leb_spec 0x80 b); [lia|reflexivity].
  - apply Forall_app in Hh. destruct Hh as [Hh Hx]. change (s ++ b :: h ++ [x]) with (s ++ (b :: h) ++ [x]).
    rewrite app_assoc, high_end_snoc, (IH Hh), app_length. apply Forall_inv in Hx. destruct (Z.leb_spec 0x80 x); cbn; lia.
Qed.

Lemma high_end_decodes s : Forall is_byte s ->
  (Nat.even (high_end s) = true -> exists rs, decodes s rs) /\ (Nat.even (high_end s) = false -> truncated s).
Proof.
  induction s as [|b s IH] using rev_ind; intros Hs.
  - split; [exists []; constructor|discriminate].
  - apply Forall_app in Hs. destruct Hs as [Hs Hb]. apply Forall_inv in Hb. destruct (IH Hs) as [IH1 IH2].
    rewrite high_end_snoc. destruct (Z.leb_spec 0x80 b) as [Hl|Hl].
    + rewrite Nat.even_succ, <- Nat.negb_even. destruct (Nat.even (high_end s)) eqn:E; cbn [negb]; (split; [try discriminate|try discriminate]).
      * intros _. destruct (IH1 eq_refl) as (rs & Hd). exists s, b. split; [unfold is_byte in Hb; lia|]. split; [reflexivity|]. exists rs. exact Hd.
      * intros _. apply truncated_byte; [apply IH2; reflexivity|exact Hb].
    + split; [|discriminate]. intros _. destruct (decodes_or_cut s Hs) as [[rs Hd]|Ht].
      * exists (rs ++ [b]). apply decodes_app; [exact Hd|]. apply dec_ascii; [unfold is_byte in Hb; lia|constructor].
      * apply truncated_byte; [exact Ht|exact Hb].
Qed.

Section Ends.
Variable grow : Z -> Z -> Z.
Lemma From_ends s : Forall is_byte s ->
  (Nat.even (high_end s) = true -> exists t, From grow s = Ok (inl t)) /\
  (Nat.even (high_end s) = false -> From grow s = Ok (inr ErrCP949UnexpectedStream)).
Proof.
  intros Hs. destruct (high_end_decodes s Hs) as [H1 H2]. split; intros E.
  - destruct (H1 E) as (rs & Hd). exists (utf8 rs). apply From_decodes. exact Hd.
  - destruct (H2 E) as (a & Ha). eapply From_cut. exact Ha.
Qed.
Lemma From_cut_at u v t : Forall is_byte (u ++ v) -> From grow (u ++ v) = Ok (inl t) ->
  (Nat.even (high_end u) = true -> exists a b, From grow u = Ok (inl a) /\ From grow v = Ok (inl b) /\ t = a ++ b) /\
  (Nat.even (high_end u) = false -> From grow u = Ok (inr ErrCP949UnexpectedStream) /\
     exists c v' a b, v = c :: v' /\ From grow (u ++ [c]) = Ok (inl a) /\ From grow v' = Ok (inl b) /\ t = a ++ b).
Proof.
  intros Hb Ht. pose proof Hb as Hb'. apply Forall_app in Hb'. destruct Hb' as [Hu Hv]. destruct (From_ends u Hu) as [H1 H2].
  split; intros E.
  - destruct (H1 E) as (a & Ha). destruct (C36_lemma grow u v a Hu Hv Ha) as (_ & _ & H3). destruct (H3 t Ht) as (b & Hb1 & Hb2). eauto.
  - split; [apply H2; exact E|]. destruct v as [|c v'].
    + rewrite app_nil_r, (H2 E) in Ht. discriminate.
    + exists c, v'. pose proof (Forall_inv Hv) as Hc. pose proof (Forall_inv_tail Hv) as Hv'.
      assert (Hu' : Forall is_byte (u ++ [c])) by (apply Forall_app; auto).
      destruct (truncated_byte u c) as (rs & Hd); [apply high_end_decodes; assumption|exact Hc|].
      pose proof (From_decodes grow _ _ Hd) as Ha. change (c :: v') with ([c] ++ v') in Ht. rewrite app_assoc in Ht.
      destruct (C36_lemma grow (u ++ [c]) v' _ Hu' Hv' Ha) as (_ & _ & H3). destruct (H3 t Ht) as (b & Hb1 & Hb2).
      exists (utf8 rs), b. auto.
Qed.
Lemma From_back_to u b h v t : Forall is_byte (u ++ b :: h ++ v) -> b < 0x80 -> Forall (fun x => 0x80 <= x) h ->
  From grow (u ++ b :: h ++ v) = Ok (inl t) ->
  ((exists a c, From grow (u ++ b :: h) = Ok (inl a) /\ From grow v = Ok (inl c) /\ t = a ++ c) <-> Nat.Even (length h)).
Proof.
  intros Hby Hb Hh Ht. change (u ++ b :: h ++ v) with (u ++ (b :: h) ++ v) in *. rewrite app_assoc in *.
  destruct (From_cut_at (u ++ b :: h) v t Hby Ht) as [H1 H2]. rewrite (high_end_run u b h Hb Hh) in H1, H2. split.
  - intros (a & c & Ha & _). apply Nat.even_spec. destruct (Nat.even (length h)); [reflexivity|].
    destruct (H2 eq_refl) as [H _]. congruence.
  - intros H. apply Nat.even_spec in H. apply H1. exact H.
Qed.
End Ends.

(** Arbitrarily long runs of one byte. *)
Lemma high_run_repeat n : high_end (repeat 0xB1 n) = n.
Proof.
  unfold high_end. assert (E : rev (repeat 0xB1 n) = repeat 0xB1 n).
  { induction n as [|n IH]; [reflexivity|]. cbn [repeat rev]. rewrite IH. symmetry. apply repeat_cons. }
  rewrite E. clear E. induction n as [|n IH]; [reflexivity|]. cbn [repeat high_run]. rewrite IH. reflexivity.
Qed.
Lemma far_refuted n : exists p p' u v q q' text text',
  length u = n /\ length v = n /\ Forall is_syllable text /\ Forall is_syllable text' /\
  forall grow, To grow (utf8 text) = Ok (inl (p ++ u ++ v ++ q)) /\ To grow (utf8 text') = Ok (inl (p' ++ u ++ v ++ q')) /\
    (exists t, From grow (p ++ u) = Ok (inl t)) /\ From grow (p' ++ u) = Ok (inr ErrCP949UnexpectedStream).
Proof.
  assert (H1 : exists r, tget dec_tree 0xB1B1 = Some r /\ is_syllable r).
  { eexists. split; [vm_compute; reflexivity|]. unfold is_syllable. lia. }
  destruct H1 as (r & Hr & Sr). apply assigned_by in Hr.
  assert (He : forall m, encodes (repeat r m) (repeat 0xB1 (2 * m))).
  { induction m as [|m IH]; [constructor|]. replace (2 * S m)%nat with (S (S (2 * m))) by lia. cbn [repeat].
    apply (enc_code 0xB1B1 r (repeat r m) (repeat 0xB1 (2 * m))); assumption. }
  exists (repeat 0xB1 n), (repeat 0xB1 (S n)), (repeat 0xB1 n), (repeat 0xB1 n), (repeat 0xB1 n), (repeat 0xB1 (S n)),
    (repeat r (2 * n)), (repeat r (2 * n + 1)).
  split; [apply repeat_length|]. split; [apply repeat_length|].
  assert (Hs : forall m, Forall is_syllable (repeat r m)) by (intros m; induction m; constructor; assumption).
  split; [apply Hs|]. split; [apply Hs|]. intros grow. rewrite <- !repeat_app.
  assert (Hb : forall m, Forall is_byte (repeat 0xB1 m)) by (intros m; induction m; constructor; [unfold is_byte; lia|assumption]).
  split; [|split; [|split]].
  - replace (n + (n + (n + n)))%nat with (2 * (2 * n))%nat by lia. apply To_encodes, He.
  - replace (S n + (n + (n + S n)))%nat with (2 * (2 * n + 1))%nat by lia. apply To_encodes, He.
  - apply From_ends; [apply Hb|]. rewrite high_run_repeat. apply Nat.even_spec. exists n. lia.
  - apply From_ends; [apply Hb|]. rewrite high_run_repeat. rewrite <- Nat.negb_odd. replace (Nat.odd (S n + n)) with true; [reflexivity|].
    symmetry. apply Nat.odd_spec. exists n. lia.
Qed.
