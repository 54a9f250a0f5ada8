(** Lemmas for PropParse.v. *)
From Coq Require Import ZArith List Bool Lia ZifyBool.
From Verif Require Import Base Spec Utf8 Utf8Facts SpecText2 TextFacts2 SpecCp949 Cp949Model Cp949Facts Cp949Facts2 TableFacts PMapFacts HanjaModel HanjaFacts SpecParse.
Import ListNotations.
Local Open Scope Z_scope.
Local Open Scope list_scope.

Definition map_pieces (f : Z -> list Z) (r : option (list (list Z * Z))) : option (list (list Z * Z)) :=
  option_map (map (fun p => (flat_map f (fst p), snd p))) r.

Section Machine.
Context {Q : Type} (m : parser Q) (Hu : uniform m).

(** Several bytes that are not special are treated like one. *)
Lemma pieces_others q q' k bs : on_other m q = Some (q', k) -> Forall (fun b => special m b = false) bs -> bs <> [] ->
  forall cur s, pieces m q cur (bs ++ s) = pieces m q' (if k then cur ++ bs else cur) s.
Proof.
  intros Hq Hb. revert q Hq. induction Hb as [|b bs Hb0 Hb IH]; intros q Hq Hn cur s; [congruence|].
  cbn [app pieces]. rewrite Hb0, Hq. destruct bs as [|b' bs].
  - cbn [app]. destruct k; reflexivity.
  - destruct k.
    + rewrite (IH q' (Hu _ _ _ Hq)) by discriminate. rewrite <- app_assoc. reflexivity.
    + rewrite (IH q' (Hu _ _ _ Hq)) by discriminate. reflexivity.
Qed.
Lemma pieces_others_fail q bs : on_other m q = None -> Forall (fun b => special m b = false) bs -> bs <> [] ->
  forall cur s, pieces m q cur (bs ++ s) = None.
Proof. intros Hq Hb Hn cur s. destruct Hb as [|b bs Hb0 Hb]; [congruence|]. cbn [app pieces]. rewrite Hb0, Hq. reflexivity. Qed.

Definition block (f : Z -> list Z) (r : Z) : Prop :=
  if special m r then f r = [r] else f r <> [] /\ Forall (fun b => special m b = false) (f r).

Lemma pieces_blocks f rs : Forall (block f) rs -> forall q cur,
  pieces m q (flat_map f cur) (flat_map f rs) = map_pieces f (pieces m q cur rs).
Proof.
  induction 1 as [|r rs Hr H IH]; intros q cur.
  - cbn [flat_map pieces]. destruct (at_end m q) as [[|]|]; reflexivity.
  - cbn [flat_map]. unfold block in Hr. cbn [pieces]. destruct (special m r) eqn:Es.
    + rewrite Hr. cbn [app pieces]. rewrite Es. destruct (on_special m q r) as [[q' [| |k]]|]; [|apply IH| |reflexivity].
      * rewrite <- IH, flat_map_app. cbn [flat_map]. rewrite Hr. cbn [app]. reflexivity.
      * rewrite <- (app_nil_r (flat_map f cur)). specialize (IH q' []). cbn [flat_map] in IH. rewrite IH.
        destruct (pieces m q' [] rs); cbn; [|reflexivity]. rewrite app_nil_r. reflexivity.
    + destruct Hr as [Hn Hb]. destruct (on_other m q) as [[q' k]|] eqn:Eo.
      * rewrite (pieces_others q q' k (f r) Eo Hb Hn). destruct k; [|apply IH].
        rewrite <- IH, flat_map_app. cbn [flat_map]. rewrite app_nil_r. reflexivity.
      * apply pieces_others_fail; assumption.
Qed.
Lemma parse_blocks f rs : Forall (block f) rs -> parse m (flat_map f rs) = map_pieces f (parse m rs).
Proof. intros H. unfold parse. exact (pieces_blocks f rs H (start m) []). Qed.

(** The pieces consist of characters of the text. *)
Lemma pieces_from (P : Z -> Prop) rs : Forall P rs -> forall q cur ps, Forall P cur -> pieces m q cur rs = Some ps ->
  Forall (fun p => Forall P (fst p)) ps.
Proof.
  assert (Hsnoc : forall cur r, Forall P cur -> P r -> Forall P (cur ++ [r])) by (intros; apply Forall_app; auto).
  induction 1 as [|r rs Hr H IH]; intros q cur ps Hc E; cbn [pieces] in E.
  - destruct (at_end m q) as [[|]|]; [| |discriminate]; injection E as <-; repeat constructor. exact Hc.
  - destruct (special m r).
    + destruct (on_special m q r) as [[q' [| |k]]|]; [| | |discriminate].
      * eapply IH; [|exact E]. auto.
      * eapply IH; [|exact E]. auto.
      * destruct (pieces m q' [] rs) as [qs|] eqn:Eq; [|discriminate]. injection E as <-.
        constructor; [exact Hc|]. eapply IH; [|exact Eq]. constructor.
    + destruct (on_other m q) as [[q' [|]]|]; [| |discriminate]; (eapply IH; [|exact E]; auto).
Qed.
Lemma parse_from P rs ps : Forall P rs -> parse m rs = Some ps -> Forall (fun p => Forall P (fst p)) ps.
Proof. intros H E. eapply pieces_from; [exact H| |exact E]. constructor. Qed.

Lemma same_blocks P f g (R : list Z -> list Z -> Prop) rs : Forall P rs ->
  (forall r, P r -> block f r /\ block g r) -> (forall l, Forall P l -> R (flat_map f l) (flat_map g l)) ->
  same_pieces R (parse m (flat_map f rs)) (parse m (flat_map g rs)).
Proof.
  intros HP Hb HR.
  rewrite !parse_blocks by (eapply Forall_impl; [|exact HP]; intros r Hr; apply Hb; exact Hr).
  destruct (parse m rs) as [ps|] eqn:E; [|exact I]. cbn. pose proof (parse_from P rs ps HP E) as Hps.
  clear E. induction Hps as [|p ps Hp Hps IH]; constructor; [|exact IH]. cbn [fst snd]. auto.
Qed.
End Machine.

Lemma utf8_char_block {Q} (m : parser Q) r : (forall b, special m b = true -> 0 <= b < 0x80) -> is_scalar r -> block m utf8_char r.
Proof.
  intros Hs Hr. unfold block. destruct (special m r) eqn:E.
  - apply Hs in E. apply utf8_char_ascii. exact E.
  - assert (Hh : forall b, 0x80 <= b -> special m b = false).
    { intros b Hb. destruct (special m b) eqn:Eb; [|reflexivity]. apply Hs in Eb. lia. }
    unfold utf8_char. unfold is_scalar in Hr.
    destruct (r <? 0x80) eqn:H1; [split; [discriminate|constructor; [exact E|constructor]]|].
    destruct (r <? 0x800) eqn:H2; [|destruct (r <? 0x10000) eqn:H3];
      (split; [discriminate|]; repeat (constructor; [apply Hh; Z.div_mod_to_equations; lia|]); constructor).
Qed.
Lemma to_char_block {Q} (m : parser Q) r : (forall b, special m b = true -> ascii_nonletter b = true) ->
  (special m 0x3F = false \/ in_repertoire r) -> is_scalar r -> block m to_char r.
Proof.
  intros Hs Hq Hr. unfold block. destruct (special m r) eqn:E.
  - apply Hs in E. apply to_char_ascii. apply nonletter_range. exact E.
  - assert (Hh : forall b, ascii_nonletter b = false -> special m b = false).
    { intros b Hb. destruct (special m b) eqn:Eb; [|reflexivity]. apply Hs in Eb. congruence. }
    destruct (Z.lt_ge_cases r 0x80) as [Hl|Hl].
    + rewrite to_char_ascii by (unfold is_scalar in Hr; lia). split; [discriminate|]. constructor; [exact E|constructor].
    + assert (Hcode : forall c u, assigned c u -> Forall (fun b => special m b = false) (code_bytes c)).
      { intros c u Hc. apply code_trail in Hc. unfold code_bytes. constructor; [|constructor; [|constructor]]; apply Hh; unfold ascii_nonletter.
        - lia.
        - destruct Hc as [_ [Hc|Hc]]; [rewrite Hc; lia|lia]. }
      destruct Hq as [Hq|[Hq|[c Hc]]].
      * rewrite to_char_high by exact Hl. unfold enc16. destruct (tget _ _) as [c|] eqn:Ec.
        -- split; [discriminate|]. apply (Hcode c (r mod 0x10000)). apply assigned_enc. exact Ec.
        -- destruct (0xFFE6 <? r mod 0x10000); (split; [discriminate|]); repeat (constructor; [exact Hq|]); constructor.
      * lia.
      * rewrite (to_char_assigned c r Hc). split; [discriminate|]. eapply Hcode. exact Hc.
Qed.

Lemma parse_From {Q} (m : parser Q) grow rs x : uniform m -> (forall b, special m b = true -> ascii_nonletter b = true) -> encodes rs x ->
  same_pieces (fun p t => From grow p = Ok (inl t)) (parse m x) (parse m (utf8 rs)).
Proof.
  intros Hu Hs He. rewrite <- (encodes_to_char rs x He). unfold utf8. apply (same_blocks m Hu in_repertoire).
  - eapply encodes_repertoire. exact He.
  - intros r Hr. pose proof (repertoire_scalar r Hr). split; [apply to_char_block; auto|].
    apply utf8_char_block; [|assumption]. intros b Hb. apply nonletter_range. auto.
  - intros l Hl. destruct (repertoire_encodes l Hl) as [y Hy]. rewrite (encodes_to_char l y Hy). apply From_encodes. exact Hy.
Qed.
Lemma parse_To {Q} (m : parser Q) grow rs y : uniform m -> (forall b, special m b = true -> ascii_mark b = true) -> Forall is_scalar rs ->
  To grow (utf8 rs) = Ok (inl y) -> same_pieces (fun t p => To grow t = Ok (inl p)) (parse m (utf8 rs)) (parse m y).
Proof.
  intros Hu Hs Hr E. rewrite To_utf8 in E by exact Hr. injection E as <-. unfold utf8. apply (same_blocks m Hu is_scalar).
  - exact Hr.
  - intros r Hr'. split.
    + apply utf8_char_block; [|assumption]. intros b Hb. apply mark_range. auto.
    + apply to_char_block; [|left|assumption].
      * intros b Hb. apply Hs in Hb. unfold ascii_mark in Hb. lia.
      * destruct (special m 0x3F) eqn:Eq; [|reflexivity]. apply Hs in Eq. discriminate.
  - intros l Hl. apply To_utf8. exact Hl.
Qed.
Lemma parse_Convert {Q} (m : parser Q) rs : uniform m -> (forall b, special m b = true -> 0 <= b < 0x80) -> Forall is_scalar rs ->
  same_pieces (fun t p => Convert t = p) (parse m (utf8 rs)) (parse m (Convert (utf8 rs))).
Proof.
  intros Hu Hs Hr. rewrite Convert_utf8 by exact Hr. unfold utf8.
  assert (E : forall l, flat_map utf8_char (map convert_rune l) = flat_map (fun r => utf8_char (convert_rune r)) l).
  { induction l as [|r l IH]; [reflexivity|]. cbn. rewrite IH. reflexivity. }
  rewrite E. apply (same_blocks m Hu is_scalar); [exact Hr| |].
  - intros r Hr'. split; [apply utf8_char_block; assumption|].
    destruct (IsHanja r) eqn:Eh.
    + pose proof (convert_rune_hanja r Eh) as Hc. pose proof (convert_rune_scalar r Hr') as Hsc.
      pose proof (utf8_char_block m (convert_rune r) Hs Hsc) as Hb. unfold block in *.
      assert (E1 : special m (convert_rune r) = false).
      { destruct (special m (convert_rune r)) eqn:Ex; [|reflexivity]. apply Hs in Ex. unfold is_syllable in Hc. lia. }
      assert (E2 : special m r = false).
      { destruct (special m r) eqn:Ex; [|reflexivity]. apply Hs in Ex. apply IsHanja_iff in Eh. unfold is_hanja, unified_in_compat_block in Eh. cbn [In] in Eh. lia. }
      rewrite E1 in Hb. rewrite E2. exact Hb.
    + pose proof (utf8_char_block m r Hs Hr') as Hb. unfold block in *. rewrite (convert_rune_other r Eh). exact Hb.
  - intros l Hl. fold (utf8 l). rewrite Convert_utf8 by exact Hl. apply E.
Qed.
Lemma csv_uniform : uniform csv.
Proof. intros q q' k. destruct q; cbn; intros E; try discriminate; injection E as <- <-; reflexivity. Qed.
Lemma csv_special b : special csv b = true -> ascii_mark b = true.
Proof. cbn. unfold ascii_mark, ascii_nonletter, is_letter_byte. lia. Qed.
