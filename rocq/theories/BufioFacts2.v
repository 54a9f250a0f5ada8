(** Lines and characters read from a Reader with bufio.Scanner: lemmas behind C113 and C114. *)
From Coq Require Import ZArith List Bool Lia.
From Coq Require Import ZifyBool.
From Verif Require Import Base Spec Facts Utf8 Utf8Facts SliceFacts SpecCp949 SpecIO SpecLines Cp949Model StreamModel
  Cp949Facts StreamFacts StreamFacts2 BufioModel BufioFacts.
Import ListNotations.
Local Open Scope Z_scope.

(** ** ScanLines *)
Lemma IndexByte_found c l t : ~ In c l -> IndexByte (l ++ c :: t) c = zlen l.
Proof.
  induction l as [|b l IH]; intros H; cbn [app IndexByte].
  - rewrite Z.eqb_refl. reflexivity.
  - destruct (Z.eqb_spec b c) as [->|]; [exfalso; apply H; left; reflexivity|].
    rewrite IH by (intros Hi; apply H; right; exact Hi). cbv zeta.
    pose proof (zlen_nonneg l). destruct (Z.ltb_spec (zlen l) 0); [lia|]. rewrite zlen_cons. lia.
Qed.
Lemma IndexByte_none c l : ~ In c l -> IndexByte l c = -1.
Proof.
  induction l as [|b l IH]; intros H; cbn [IndexByte]; [reflexivity|].
  destruct (Z.eqb_spec b c) as [->|]; [exfalso; apply H; left; reflexivity|].
  rewrite IH by (intros Hi; apply H; right; exact Hi). reflexivity.
Qed.

Lemma dropCR_spec l t : without_cr l t -> dropCR l = t.
Proof.
  intros H. unfold dropCR. inversion H as [l0 E|l0 Hno E]; subst.
  - rewrite zlen_app. change (zlen [13]) with 1. replace (zlen t + 1 - 1) with (zlen t) by lia.
    pose proof (zlen_nonneg t).
    replace (zget (t ++ [13]) (zlen t)) with (Some 13).
    + apply ztake_app_exact. reflexivity.
    + unfold zget. destruct (Z.ltb_spec (zlen t) 0); [lia|]. unfold zlen. rewrite Nat2Z.id.
      rewrite nth_error_app2 by lia. rewrite Nat.sub_diag. reflexivity.
  - destruct (zget t (zlen t - 1)) as [b|] eqn:E; [|reflexivity].
    destruct (Z.eq_dec b 13) as [->|Hb]; [exfalso|destruct b as [|p|p]; try reflexivity; repeat (destruct p as [p|p|]; try reflexivity); congruence].
    destruct t as [|x t _] using rev_ind; [cbn in E; discriminate E|].
    rewrite zlen_app in E. change (zlen [x]) with 1 in E. replace (zlen t + 1 - 1) with (zlen t) in E by lia.
    pose proof (zlen_nonneg t). unfold zget in E. destruct (Z.ltb_spec (zlen t) 0); [lia|].
    unfold zlen in E. rewrite Nat2Z.id, nth_error_app2 in E by lia. rewrite Nat.sub_diag in E. injection E as ->.
    apply (Hno t). reflexivity.
Qed.
Lemma without_cr_exists l : exists t, without_cr l t.
Proof.
  destruct l as [|x l _] using rev_ind; [exists []; constructor; intros [|? ?]; discriminate|].
  destruct (Z.eq_dec x 13) as [->|Hx]; [exists l; constructor|].
  exists (l ++ [x]). constructor. intros l' E. apply app_inj_tail in E as [_ E]. congruence.
Qed.

Definition next_line (T : list Z) (a : Z) (t : list Z) : Prop :=
  exists l, ~ In 10 l /\ without_cr l t /\ zlen l < MaxScanTokenSize /\
    ((exists T', T = l ++ 10 :: T' /\ a = zlen l + 1) \/ (T = l /\ l <> [] /\ a = zlen l)).

Lemma lines_end : ScanLines [] true = Ok (0, None, None).
Proof. reflexivity. Qed.
Lemma nonempty_len (l : list Z) : l <> [] -> 0 < zlen l.
Proof. destruct l; [congruence|]. intros _. rewrite zlen_cons. pose proof (zlen_nonneg l). lia. Qed.
Lemma lines_whole T a t : next_line T a t -> ScanLines T true = Ok (a, Some t, None) /\ 0 < a <= zlen T.
Proof.
  intros (l & Hl & Hc & Hs & [(T' & -> & ->)|(-> & Hne & ->)]); pose proof (zlen_nonneg l); unfold ScanLines.
  - rewrite zlen_app, zlen_cons. pose proof (zlen_nonneg T'). destruct (Z.eqb_spec (zlen l + (1 + zlen T')) 0); [lia|].
    cbn [andb]. cbv zeta. rewrite IndexByte_found by exact Hl. destruct (Z.leb_spec 0 (zlen l)); [|lia].
    rewrite ztake_app_exact by reflexivity. rewrite (dropCR_spec _ _ Hc). split; [reflexivity|lia].
  - pose proof (nonempty_len _ Hne). destruct (Z.eqb_spec (zlen l) 0); [lia|]. cbn [andb]. cbv zeta.
    rewrite IndexByte_none by exact Hl. cbn [Z.leb Z.compare]. rewrite (dropCR_spec _ _ Hc). split; [reflexivity|lia].
Qed.

Lemma In_prefix (p q l r : list Z) c : p ++ q = l ++ c :: r -> ~ In c l ->
  (exists r', p = l ++ c :: r') \/ (~ In c p /\ zlen p <= zlen l).
Proof.
  revert l. induction p as [|x p IH]; intros l E Hl.
  - right. split; [tauto|]. cbn. apply zlen_nonneg.
  - destruct l as [|y l]; cbn in E; injection E as -> E.
    + left. exists p. reflexivity.
    + destruct (IH l E) as [(r' & ->)|[H1 H2]]; [intros H; apply Hl; right; exact H| |].
      * left. exists r'. reflexivity.
      * right. split; [|rewrite !zlen_cons; lia]. intros [H|H]; [|tauto]. apply Hl. left. exact H.
Qed.

Lemma lines_more_data p : p <> [] -> ~ In 10 p -> ScanLines p false = Ok (0, None, None).
Proof. intros Hp Hi. unfold ScanLines. cbn [andb]. cbv zeta. rewrite IndexByte_none by exact Hi. reflexivity. Qed.

Lemma lines_part T a t p q : next_line T a t -> T = p ++ q -> p <> [] ->
  (ScanLines p false = Ok (a, Some t, None) /\ a <= zlen p) \/
  (ScanLines p false = Ok (0, None, None) /\ zlen p < MaxScanTokenSize).
Proof.
  intros (l & Hl & Hc & Hs & [(T' & HT & ->)|(-> & Hne & ->)]) E Hp.
  - rewrite HT in E. symmetry in E. destruct (In_prefix p q l T' 10 E Hl) as [(r' & ->)|[H1 H2]].
    + left. unfold ScanLines. cbn [andb]. cbv zeta. rewrite IndexByte_found by exact Hl.
      pose proof (zlen_nonneg l). pose proof (zlen_nonneg r'). destruct (Z.leb_spec 0 (zlen l)); [|lia].
      rewrite ztake_app_exact by reflexivity. rewrite (dropCR_spec _ _ Hc). rewrite zlen_app, zlen_cons. split; [reflexivity|lia].
    + right. split; [apply lines_more_data; assumption|lia].
  - right. subst l. rewrite zlen_app in Hs. pose proof (zlen_nonneg q). split; [|lia].
    apply lines_more_data; [exact Hp|]. intros H'. apply Hl, in_or_app. left. exact H'.
Qed.

Lemma lines_long l T : ~ In 10 l -> MaxScanTokenSize <= zlen l -> (T = l \/ exists T', T = l ++ 10 :: T') ->
  MaxScanTokenSize <= zlen T /\
  forall p q, T = p ++ q -> p <> [] -> zlen p <= MaxScanTokenSize -> ScanLines p false = Ok (0, None, None).
Proof.
  intros Hl Hs [->|(T' & ->)]; (split; [rewrite ?zlen_app, ?zlen_cons; try pose proof (zlen_nonneg T'); lia|]); intros p q E Hp Hle.
  - apply lines_more_data; [exact Hp|]. intros H. apply Hl. rewrite E. apply in_or_app. left. exact H.
  - symmetry in E. destruct (In_prefix p q l T' 10 E Hl) as [(r' & ->)|[H1 H2]]; [|apply lines_more_data; assumption].
    rewrite zlen_app, zlen_cons in Hle. pose proof (zlen_nonneg r'). lia.
Qed.

Lemma lines_tokens text ls : is_lines text ls -> forall ts, Forall (fun l => zlen l < MaxScanTokenSize) ls ->
  Forall2 without_cr ls ts -> tokens next_line text ts [].
Proof.
  induction 1 as [|l Hne Hl|l text ls Hl Hi IH]; intros ts Hs Hc.
  - inversion Hc; subst. constructor.
  - inversion Hc as [|? t ? ts' Ht Hts]; subst. inversion Hts; subst. inversion Hs; subst.
    econstructor; [exists l; eauto 8|]. unfold zdrop, zlen. rewrite Nat2Z.id, skipn_all. constructor.
  - inversion Hc as [|? t ? ts' Ht Hts]; subst. inversion Hs; subst.
    econstructor; [exists l; split; [exact Hl|]; split; [exact Ht|]; split; [assumption|]; left; eauto|].
    replace (l ++ 10 :: text) with ((l ++ [10]) ++ text) by (rewrite <- app_assoc; reflexivity).
    rewrite zdrop_app_exact by (rewrite zlen_app; reflexivity). apply IH; assumption.
Qed.

Lemma lines_before ls1 : forall text l ls2 ts, is_lines text (ls1 ++ l :: ls2) ->
  Forall (fun l => zlen l < MaxScanTokenSize) ls1 -> Forall2 without_cr ls1 ts ->
  exists rest, tokens next_line text ts rest /\ ~ In 10 l /\ (rest = l \/ exists T', rest = l ++ 10 :: T').
Proof.
  induction ls1 as [|l1 ls1 IH]; intros text l ls2 ts Hi Hs Hc.
  - inversion Hc; subst. exists text. cbn in Hi. split; [constructor|].
    inversion Hi as [|? ? ?|? T' ? ? ?]; subst; eauto.
  - inversion Hc as [|? t ? ts' Ht Hts]; subst. inversion Hs; subst.
    inversion Hi as [|? Hne Hl E1 E2|? T' ? Hl Hi' E1]; subst; [destruct ls1; discriminate|].
    destruct (IH T' l ls2 ts' Hi') as (rest & H1' & H2' & H3'); [assumption..|].
    exists rest. split; [|auto].
    econstructor; [exists l1; split; [exact Hl|]; split; [exact Ht|]; split; [assumption|]; left; eauto|].
    replace (l1 ++ 10 :: T') with ((l1 ++ [10]) ++ T') by (rewrite <- app_assoc; reflexivity).
    rewrite zdrop_app_exact by (rewrite zlen_app; reflexivity). exact H1'.
Qed.

(** ** ScanRunes *)
Definition next_rune (T : list Z) (a : Z) (t : list Z) : Prop :=
  exists r T', is_scalar r /\ T = utf8_char r ++ T' /\ t = utf8_char r /\ a = zlen t.

Lemma in_range_yes lo hi b : lo <= b <= hi -> in_range lo hi b = true.
Proof. intros H. apply in_range_true. exact H. Qed.
Lemma cons_eq (x y : Z) l m : x :: l = y :: m -> x = y /\ l = m.
Proof. intros H. injection H as H1 H2. auto. Qed.
Lemma incomplete r p q : is_scalar r -> utf8_char r = p ++ q -> p <> [] -> q <> [] ->
  exists b p', p = b :: p' /\ 0x80 <= b /\ snd (DecodeRune p) = 1 /\ FullRune p = false.
Proof.
  intros Hr E Hp Hq. destruct p as [|b0 p]; [congruence|]. clear Hp. exists b0, p. split; [reflexivity|].
  destruct (utf8_char_cases r Hr) as [[H E']|[[H E']|[(H & Hns & E')|[H E']]]]; rewrite E' in E; cbn [app] in E; apply cons_eq in E as [E0 E]; subst b0.
  - destruct p; [destruct q; [congruence|discriminate]|discriminate].
  - destruct p as [|b1 p]; [|cbn [app] in E; apply cons_eq in E as [E1 E]; destruct p; [destruct q; [congruence|discriminate]|discriminate]].
    assert (2 <= r / 64 < 32) by (split; [apply Z.div_le_lower_bound|apply Z.div_lt_upper_bound]; lia).
    assert (194 <= 192 + r / 64 <= 223) as Hb0 by lia. set (b0 := 192 + r / 64) in *. split; [lia|]. clearbody b0. unfold DecodeRune, FullRune. rewrite first_info_2 by lia.
    destruct (Z.ltb_spec b0 128); [lia|]. split; reflexivity.
  - assert (0 <= r / 4096 < 16) by (split; [apply Z.div_le_lower_bound|apply Z.div_lt_upper_bound]; lia).
    assert (0 <= (r / 64) mod 64 < 64) as Hm by (apply Z.mod_pos_bound; lia).
    assert (in_range (if 224 + r / 4096 =? 224 then 160 else 128) (if 224 + r / 4096 =? 237 then 159 else 191) (128 + (r / 64) mod 64) = true) as Hb1.
    { apply in_range_yes. pose proof (Z.div_mod (r / 64) 64 ltac:(lia)) as Hd. rewrite Z.div_div in Hd by lia. change (64 * 64) with 4096 in Hd.
      pose proof (Z.div_mod r 64 ltac:(lia)). pose proof (Z.mod_pos_bound r 64 ltac:(lia)).
      destruct (Z.eqb_spec (224 + r / 4096) 224), (Z.eqb_spec (224 + r / 4096) 237); lia. }
    assert (224 <= 224 + r / 4096 <= 239) as Hb0 by lia. set (b0 := 224 + r / 4096) in *. split; [lia|]. clearbody b0. unfold DecodeRune, FullRune. rewrite first_info_3 by lia.
    destruct (Z.ltb_spec b0 128); [lia|].
    destruct p as [|b1 p]; [split; reflexivity|]. cbn [app] in E. apply cons_eq in E as [<- E].
    destruct p as [|b2 p]; [|cbn [app] in E; apply cons_eq in E as [E1 E]; destruct p; [destruct q; [congruence|discriminate]|discriminate]].
    rewrite Hb1. split; reflexivity.
  - assert (0 <= r / 262144 <= 4) by (split; [apply Z.div_le_lower_bound|apply Z.lt_succ_r, Z.div_lt_upper_bound]; lia).
    assert (0 <= (r / 4096) mod 64 < 64) as Hm by (apply Z.mod_pos_bound; lia).
    assert (0 <= (r / 64) mod 64 < 64) as Hm2 by (apply Z.mod_pos_bound; lia).
    assert (in_range (if 240 + r / 262144 =? 240 then 144 else 128) (if 240 + r / 262144 =? 244 then 143 else 191) (128 + (r / 4096) mod 64) = true) as Hb1.
    { apply in_range_yes. pose proof (Z.div_mod (r / 4096) 64 ltac:(lia)) as Hd. rewrite Z.div_div in Hd by lia. change (4096 * 64) with 262144 in Hd.
      pose proof (Z.div_mod r 4096 ltac:(lia)). pose proof (Z.mod_pos_bound r 4096 ltac:(lia)).
      destruct (Z.eqb_spec (240 + r / 262144) 240), (Z.eqb_spec (240 + r / 262144) 244); lia. }
    assert (240 <= 240 + r / 262144 <= 244) as Hb0 by lia. set (b0 := 240 + r / 262144) in *. split; [lia|]. clearbody b0. unfold DecodeRune, FullRune. rewrite first_info_4 by lia.
    destruct (Z.ltb_spec b0 128); [lia|].
    destruct p as [|b1 p]; [split; reflexivity|]. cbn [app] in E. apply cons_eq in E as [<- E].
    rewrite Hb1. cbn [negb].
    destruct p as [|b2 p]; [split; reflexivity|]. cbn [app] in E. apply cons_eq in E as [<- E].
    destruct p as [|b3 p]; [|cbn [app] in E; apply cons_eq in E as [E1 E]; destruct p; [destruct q; [congruence|discriminate]|discriminate]].
    rewrite (in_range_yes 0x80 0xBF) by lia. split; reflexivity.
Qed.

Lemma runes_complete r T eof : is_scalar r -> ScanRunes (utf8_char r ++ T) eof = Ok (zlen (utf8_char r), Some (utf8_char r), None).
Proof.
  intros Hr. unfold ScanRunes. rewrite zlen_app. pose proof (utf8_char_len r) as Hlen. pose proof (zlen_nonneg T).
  destruct (Z.eqb_spec (zlen (utf8_char r) + zlen T) 0); [lia|]. rewrite andb_false_r.
  rewrite DecodeRune_char by exact Hr. cbn [snd]. rewrite (ztake_app_exact (zlen (utf8_char r)) (utf8_char r) T) by reflexivity.
  destruct (utf8_char_cases r Hr) as [[H' E']|[[H' E']|[(H' & Hns & E')|[H' E']]]]; rewrite E'; cbn [app zget Z.ltb Z.compare nth_error Z.to_nat get_or_panic bind];
    unfold zget; cbn [Z.ltb Z.compare Z.to_nat nth_error get_or_panic bind].
  - destruct (Z.ltb_spec r 128); [|lia]. unfold ztake. reflexivity.
  - assert (2 <= r / 64 < 32) by (split; [apply Z.div_le_lower_bound|apply Z.div_lt_upper_bound]; lia).
    destruct (Z.ltb_spec (192 + r / 64) 128); [lia|]. reflexivity.
  - assert (0 <= r / 4096 < 16) by (split; [apply Z.div_le_lower_bound|apply Z.div_lt_upper_bound]; lia).
    destruct (Z.ltb_spec (224 + r / 4096) 128); [lia|]. reflexivity.
  - assert (0 <= r / 262144) by (apply Z.div_le_lower_bound; lia).
    destruct (Z.ltb_spec (240 + r / 262144) 128); [lia|]. reflexivity.
Qed.

Lemma runes_end : ScanRunes [] true = Ok (0, None, None).
Proof. reflexivity. Qed.
Lemma runes_whole T a t : next_rune T a t -> ScanRunes T true = Ok (a, Some t, None) /\ 0 < a <= zlen T.
Proof.
  intros (r & T' & Hr & -> & -> & ->). split; [apply runes_complete, Hr|].
  rewrite zlen_app. pose proof (utf8_char_len r). pose proof (zlen_nonneg T'). lia.
Qed.
Lemma runes_part T a t p q : next_rune T a t -> T = p ++ q -> p <> [] ->
  (ScanRunes p false = Ok (a, Some t, None) /\ a <= zlen p) \/
  (ScanRunes p false = Ok (0, None, None) /\ zlen p < MaxScanTokenSize).
Proof.
  intros (r & T' & Hr & -> & -> & ->) E Hp. pose proof (utf8_char_len r) as Hlen.
  destruct (Z.le_gt_cases (zlen (utf8_char r)) (zlen p)) as [Hle|Hgt].
  - left. split; [|exact Hle].
    assert (p = utf8_char r ++ zdrop (zlen (utf8_char r)) p) as ->.
    { rewrite <- (ztake_zdrop (zlen (utf8_char r)) p) at 1. f_equal.
      apply (f_equal (ztake (zlen (utf8_char r)))) in E. rewrite ztake_app_exact, ztake_app_l in E by lia. auto. }
    apply runes_complete, Hr.
  - right. split; [|unfold MaxScanTokenSize; lia].
    assert (utf8_char r = p ++ zdrop (zlen p) (utf8_char r)) as Ec.
    { rewrite <- (ztake_zdrop (zlen p) (utf8_char r)) at 1. f_equal.
      apply (f_equal (ztake (zlen p))) in E. rewrite ztake_app_l, (ztake_app_exact _ p q) in E by lia. auto. }
    destruct (incomplete r p _ Hr Ec Hp) as (b & p' & -> & Hb & Hd & Hf).
    { intros Hx. rewrite Hx, app_nil_r in Ec. rewrite Ec in Hgt. lia. }
    unfold ScanRunes. cbn [andb]. rewrite Hd, Hf. unfold zget. cbn [Z.ltb Z.compare Z.to_nat nth_error get_or_panic bind].
    destruct (Z.ltb_spec b 128); [lia|]. reflexivity.
Qed.

Lemma runes_tokens rs : Forall is_scalar rs -> tokens next_rune (utf8 rs) (map utf8_char rs) [].
Proof.
  induction 1 as [|r rs Hr Hrs IH]; cbn [map utf8 flat_map]; [constructor|].
  econstructor; [exists r, (utf8 rs); auto|]. unfold utf8. rewrite zdrop_app_exact by reflexivity. exact IH.
Qed.

(** ** Over a Reader *)
Section OverReader.
Variable grow : Z -> Z -> Z.
Variable RS : Type.
Variable rd : RS -> Z -> list Z * option error * RS.

Lemma reader_src_ok e n fuel : (n + 4 <= fuel)%nat -> forall r rem size, inv RS rd false e n r rem -> 0 < size ->
  exists p err r' rem', Read grow RS rd fuel r size = Ok (p, err, r') /\ rem = p ++ rem' /\ zlen p <= size /\
    match err with
    | None => p <> [] /\ inv RS rd false e n r' rem'
    | Some e' => e' = e /\ rem' = [] /\ p = []
    end.
Proof.
  intros Hf r rem size Hi Hk.
  destruct (read_step grow RS rd false e size Hk n r rem fuel Hi Hf) as (p & err & r' & rem' & Er & Hl & Hbl & Hi' & Hres).
  cbn in Hbl. subst rem. exists p, err, r', rem'. split; [exact Er|]. split; [reflexivity|]. split; [exact Hl|].
  destruct err as [e'|].
  - destruct Hres as (-> & -> & -> & _). auto.
  - destruct Hres as [Hp|Hp]; [auto|lia].
Qed.

Lemma lines_lemma s stream text e ls ts fuel fuel' : Forall is_byte stream -> delivers rd s stream e ->
  From grow stream = Ok (inl text) -> is_lines text ls -> Forall2 without_cr ls ts ->
  Forall (fun l => zlen l < 65536) ls -> (length stream + 4 <= fuel)%nat -> (length text + 2 < fuel')%nat ->
  ScanAll (reader RS) (Read grow RS rd fuel) ScanLines fuel' (NewScanner _ (NewReader s)) =
    Ok (ts, match e with EOF => None | _ => Some e end).
Proof.
  intros Hb Hd HF Hi Hc Hs Hf Hf'. destruct (From_ok_inv grow stream text Hb HF) as (rs & Hrs & ->).
  eapply (scan_all_end (reader RS) (Read grow RS rd fuel) ScanLines e (inv RS rd false e (length stream))
    (reader_src_ok e _ fuel Hf) next_line lines_end lines_whole lines_part).
  - eapply lines_tokens; eassumption.
  - apply new_left_over. apply new_reader_inv; [exact Hd|exact Hrs].
  - exact Hf'.
Qed.

Lemma long_line_lemma s stream text e ls1 l ls2 ts fuel fuel' : Forall is_byte stream -> delivers rd s stream e ->
  From grow stream = Ok (inl text) -> is_lines text (ls1 ++ l :: ls2) -> Forall2 without_cr ls1 ts ->
  Forall (fun l => zlen l < 65536) ls1 -> 65536 <= zlen l ->
  (length stream + 4 <= fuel)%nat -> (length text + 2 < fuel')%nat ->
  ScanAll (reader RS) (Read grow RS rd fuel) ScanLines fuel' (NewScanner _ (NewReader s)) = Ok (ts, Some ErrTooLong).
Proof.
  intros Hb Hd HF Hi Hc Hs Hl Hf Hf'. destruct (From_ok_inv grow stream text Hb HF) as (rs & Hrs & ->).
  destruct (lines_before ls1 _ l ls2 ts Hi Hs Hc) as (rest & Ht & Hn & Hr).
  destruct (lines_long l rest Hn Hl Hr) as [H1 H2].
  eapply (scan_all_long (reader RS) (Read grow RS rd fuel) ScanLines e (inv RS rd false e (length stream))
    (reader_src_ok e _ fuel Hf) next_line lines_whole lines_part).
  - exact Ht.
  - apply new_left_over. apply new_reader_inv; [exact Hd|exact Hrs].
  - exact Hf'.
  - exact H1.
  - exact H2.
Qed.

Lemma runes_lemma s stream e rs fuel fuel' : delivers rd s stream e -> decodes stream rs ->
  (length stream + 4 <= fuel)%nat -> (length (utf8 rs) + 2 < fuel')%nat ->
  ScanAll (reader RS) (Read grow RS rd fuel) ScanRunes fuel' (NewScanner _ (NewReader s)) =
    Ok (map utf8_char rs, match e with EOF => None | _ => Some e end).
Proof.
  intros Hd Hrs Hf Hf'.
  eapply (scan_all_end (reader RS) (Read grow RS rd fuel) ScanRunes e (inv RS rd false e (length stream))
    (reader_src_ok e _ fuel Hf) next_rune runes_end runes_whole runes_part).
  - apply runes_tokens, (decodes_scalar _ _ Hrs).
  - apply new_left_over. apply new_reader_inv; [exact Hd|exact Hrs].
  - exact Hf'.
Qed.
End OverReader.
