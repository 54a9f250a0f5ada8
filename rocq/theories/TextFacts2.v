(** The lemmas behind properties C85-C88 and C93. *)
From Coq Require Import ZArith List Bool Lia ZifyBool.
From Verif Require Import Base Facts Spec SpecCp949 SpecText SpecText2 Utf8 Utf8Facts TableFrom TableTo
  TableHanja PMapFacts HanjaModel HanjaFacts HangulModel HangulFacts Cp949Model SliceFacts TableFacts
  Cp949Facts Cp949Facts2 Cp949Facts3 ClientModel.
Import ListNotations.
Local Open Scope Z_scope.
Local Opaque fromTable toTable dec_tree enc_tree.

(** ** Length of converted text *)
Lemma utf8_char_3 r : 0x800 <= r < 0x10000 -> zlen (utf8_char r) = 3.
Proof.
  intros H. unfold utf8_char. destruct (Z.ltb_spec r 0x80); [lia|].
  destruct (Z.ltb_spec r 0x800); [lia|]. destruct (Z.ltb_spec r 0x10000); [reflexivity|lia].
Qed.
Lemma hanja_range r : is_hanja r -> 0x800 <= r < 0x10000.
Proof. unfold is_hanja. cbn [In unified_in_compat_block]. intuition lia. Qed.
Lemma convert_rune_len r : zlen (utf8_char (convert_rune r)) = zlen (utf8_char r).
Proof.
  destruct (IsHanja r) eqn:E; [|rewrite convert_rune_other by exact E; reflexivity].
  pose proof (convert_rune_hanja r E) as Hs. unfold is_syllable in Hs.
  apply IsHanja_iff in E. rewrite !utf8_char_3; [reflexivity|apply hanja_range; exact E|lia].
Qed.
Lemma utf8_convert_len rs : zlen (utf8 (map convert_rune rs)) = zlen (utf8 rs).
Proof.
  induction rs as [|r rs IH]; [reflexivity|]. cbn [map]. rewrite !utf8_cons, !zlen_app, IH, convert_rune_len.
  reflexivity.
Qed.

Lemma C85_lemma s : Forall is_byte s ->
  zlen s <= zlen (Convert s) <= 3 * zlen s /\ (zlen (Convert s) = zlen s <-> valid_utf8 s).
Proof.
  intros Hb. pose proof (string_to_runes_reads s Hb) as Hr.
  rewrite (Convert_reads s _ Hb Hr), utf8_convert_len.
  rewrite <- (reads_as_valid s _ Hr).
  remember (string_to_runes s) as rs. clear Heqrs Hb.
  assert (zlen s <= zlen (utf8 rs) <= 3 * zlen s /\ (zlen (utf8 rs) = zlen s -> s = utf8 rs)) as (H1 & H2).
  { induction Hr as [|r s rs Hs Hr IH|b s rs Hn Hr IH].
    - split; [cbn; lia|reflexivity].
    - rewrite utf8_cons, !zlen_app. destruct IH as (IH1 & IH2). pose proof (utf8_char_len r).
      split; [lia|]. intros E. f_equal. apply IH2. lia.
    - rewrite utf8_cons, zlen_app, zlen_cons. destruct IH as (IH1 & IH2).
      change (zlen (utf8_char replacement)) with 3. split; [lia|]. intros E. lia. }
  split; [exact H1|]. split; [exact H2|intros ->; reflexivity].
Qed.

Lemma to_char_convert_len r : in_repertoire r -> zlen (to_char (convert_rune r)) = zlen (to_char r).
Proof.
  intros Hr. destruct (IsHanja r) eqn:E; [|rewrite convert_rune_other by exact E; reflexivity].
  pose proof (convert_rune_hanja r E) as Hs. destruct (syllable_assigned _ Hs) as (c & Hc).
  rewrite (to_char_assigned c _ Hc). apply IsHanja_iff, hanja_range in E.
  destruct Hr as [Hr|(c' & Hc')]; [lia|]. rewrite (to_char_assigned c' r Hc'). reflexivity.
Qed.
Lemma C85_To_lemma grow rs x y : Forall in_repertoire rs ->
  To grow (utf8 rs) = Ok (inl x) -> To grow (Convert (utf8 rs)) = Ok (inl y) -> zlen y = zlen x.
Proof.
  intros H. pose proof (Forall_repertoire_scalar rs H) as Hs. rewrite (Convert_utf8 rs Hs).
  rewrite (To_utf8 grow rs Hs), (To_utf8 grow _ (Forall_scalar_convert rs Hs)).
  intros E1 E2. injection E1 as <-. injection E2 as <-.
  induction H as [|r rs Hr H IH]; [reflexivity|]. cbn [map]. rewrite !to_chars_cons, !zlen_app.
  inversion Hs; subst. rewrite IH, to_char_convert_len by assumption. reflexivity.
Qed.

(** ** ASCII in encoded and decoded text *)
Lemma utf8_char_no_ascii r : is_scalar r -> 0x80 <= r -> Forall (fun b => 0x80 <= b) (utf8_char r).
Proof.
  intros Hr H. unfold is_scalar in Hr. unfold utf8_char. destruct (Z.ltb_spec r 0x80); [lia|].
  destruct (Z.ltb_spec r 0x800); [|destruct (Z.ltb_spec r 0x10000)];
    repeat (apply Forall_cons; [Z.div_mod_to_equations; lia|]); apply Forall_nil.
Qed.
Lemma filter_none {A} (p : A -> bool) l : Forall (fun x => p x = false) l -> filter p l = [].
Proof. induction 1 as [|x l H Hl IH]; cbn; [reflexivity|]. rewrite H. exact IH. Qed.
Lemma filter_char_high p r : (forall b, p b = true -> 0 <= b < 0x80) -> is_scalar r -> 0x80 <= r ->
  filter p (utf8_char r) = [].
Proof.
  intros Hp Hr H. apply filter_none. eapply Forall_impl; [|exact (utf8_char_no_ascii r Hr H)].
  cbn. intros b Hb. destruct (p b) eqn:E; [|reflexivity]. apply Hp in E. lia.
Qed.
Lemma filter_utf8 p rs : (forall b, p b = true -> 0 <= b < 0x80) -> Forall is_scalar rs ->
  filter p (utf8 rs) = filter p rs.
Proof.
  intros Hp. induction 1 as [|r rs Hr H IH]; [reflexivity|]. rewrite utf8_cons, filter_app, IH.
  destruct (Z.ltb_spec r 0x80) as [Hlt|Hge].
  - rewrite utf8_char_ascii by (unfold is_scalar in Hr; lia). cbn. destruct (p r); reflexivity.
  - rewrite filter_char_high by assumption. cbn. destruct (p r) eqn:E; [apply Hp in E; lia|reflexivity].
Qed.
Lemma ascii_b_range b : ascii_b b = true -> 0 <= b < 0x80.
Proof. unfold ascii_b. lia. Qed.
Lemma nonletter_range b : ascii_nonletter b = true -> 0 <= b < 0x80.
Proof. unfold ascii_nonletter. lia. Qed.
Lemma mark_range b : ascii_mark b = true -> 0 <= b < 0x80.
Proof. unfold ascii_mark, ascii_nonletter. lia. Qed.

Lemma C87_lemma grow s out : Forall is_byte s -> From grow s = Ok (inl out) ->
  subsequence (filter ascii_b out) (filter ascii_b s).
Proof.
  intros Hb E. destruct (From_ok_inv grow s out Hb E) as (rs & H & ->). clear Hb E.
  rewrite (filter_utf8 _ rs ascii_b_range (decodes_scalar s rs H)).
  induction H as [|b s rs Hb H IH|b0 b1 u s rs H0 H1 Ha H IH|b0 b1 s rs H0 H1 Hn H IH].
  - constructor.
  - cbn [filter]. assert (ascii_b b = true) as -> by (unfold ascii_b; lia). constructor. exact IH.
  - cbn [filter]. pose proof (assigned_ranges _ u Ha) as [_ [Hr _]].
    assert (ascii_b b0 = false) as -> by (unfold ascii_b; lia).
    assert (ascii_b u = false) as -> by (unfold ascii_b; lia).
    destruct (ascii_b b1); [constructor|]; exact IH.
  - cbn [filter]. assert (ascii_b b0 = false) as -> by (unfold ascii_b; lia).
    change (ascii_b replacement) with false. destruct (ascii_b b1); [constructor|]; exact IH.
Qed.

Lemma C87_valid_lemma grow rs x : encodes rs x -> exists out, From grow x = Ok (inl out) /\
  filter ascii_nonletter out = filter ascii_nonletter x.
Proof.
  intros H. exists (utf8 rs). split; [apply From_decodes, encodes_decodes; exact H|].
  rewrite (filter_utf8 _ rs nonletter_range (Forall_repertoire_scalar _ (encodes_repertoire _ _ H))).
  symmetry. apply (C40_lemma grow rs x H).
Qed.

Lemma to_char_marks r : is_scalar r -> 0x80 <= r -> filter ascii_mark (to_char r) = [].
Proof.
  intros Hs Hr. rewrite to_char_high by exact Hr. unfold enc16.
  destruct (tget enc_tree (r mod 0x10000)) as [c|] eqn:E.
  - apply assigned_enc in E. destruct (code_trail c _ E) as (H1 & H2). unfold code_bytes. cbn [filter].
    assert (ascii_mark (c / 256) = false) as -> by (unfold ascii_mark, ascii_nonletter; lia).
    assert (ascii_mark (c mod 256) = false) as -> by (unfold ascii_mark, ascii_nonletter; lia).
    reflexivity.
  - destruct (0xFFE6 <? r mod 0x10000); reflexivity.
Qed.
Lemma to_marks rs : Forall is_scalar rs ->
  filter ascii_mark (flat_map to_char rs) = filter ascii_mark rs.
Proof.
  induction 1 as [|r rs Hr H IH]; [reflexivity|]. rewrite to_chars_cons, filter_app, IH.
  destruct (Z.ltb_spec r 0x80) as [Hlt|Hge].
  - rewrite to_char_ascii by (unfold is_scalar in Hr; lia). cbn. destruct (ascii_mark r); reflexivity.
  - rewrite to_char_marks by assumption. cbn. destruct (ascii_mark r) eqn:E; [apply mark_range in E; lia|reflexivity].
Qed.
Lemma reads_marks s rs : Forall is_byte s -> reads_as s rs -> filter ascii_mark rs = filter ascii_mark s.
Proof.
  intros Hb. induction 1 as [|r s rs Hs Hr IH|b s rs Hn Hr IH]; [reflexivity|..].
  - apply Forall_app in Hb as [_ Hb]. rewrite filter_app.
    pose proof (filter_utf8 ascii_mark [r] mark_range) as Hu. unfold utf8 in Hu. cbn [flat_map] in Hu.
    rewrite app_nil_r in Hu. rewrite Hu by (constructor; [exact Hs|constructor]).
    cbn. rewrite (IH Hb). destruct (ascii_mark r); reflexivity.
  - inversion Hb as [|? ? Hb0 Hb1]; subst. cbn [filter]. rewrite (IH Hb1).
    change (ascii_mark replacement) with false.
    destruct (ascii_mark b) eqn:E; [|reflexivity]. exfalso. apply mark_range in E.
    apply (Hn b); [unfold is_scalar; lia|]. rewrite utf8_char_ascii by lia. exists s. reflexivity.
Qed.
Lemma C88_lemma grow x : Forall is_byte x -> exists out, To grow x = Ok (inl out) /\
  filter ascii_mark out = filter ascii_mark x.
Proof.
  intros Hb. rewrite (To_runes grow x Hb). eexists. split; [reflexivity|].
  rewrite to_marks by (apply string_to_runes_scalar; exact Hb).
  apply reads_marks; [exact Hb|apply string_to_runes_reads; exact Hb].
Qed.

(** ** Splitting into lines *)
Lemma encodes_at_sep sep rs y : encodes rs y -> forall u v, y = u ++ sep :: v -> ascii_nonletter sep = true ->
  exists ru rv, rs = ru ++ sep :: rv /\ encodes ru u /\ encodes rv v.
Proof.
  induction 1 as [|r rs bs Hr H IH|c r rs bs Ha H IH]; intros u v E Hp.
  - destruct u; discriminate.
  - destruct u as [|b0 u].
    + cbn in E. injection E as <- <-. exists [], rs. repeat split; [constructor|exact H].
    + cbn in E. injection E as <- E. destruct (IH u v E Hp) as (ru & rv & -> & H1 & H2).
      exists (r :: ru), rv. repeat split; [constructor; assumption|exact H2].
  - pose proof (code_trail c r Ha) as (H1 & H2). pose proof (nonletter_range _ Hp).
    destruct u as [|b0 u]; [cbn in E; injection E as E _; lia|].
    unfold code_bytes in E. cbn in E. injection E as E0 E.
    destruct u as [|b1 u].
    + cbn in E. injection E as E1 _. exfalso. unfold ascii_nonletter in Hp. subst sep. lia.
    + cbn in E. injection E as E1 E. destruct (IH u v E Hp) as (ru & rv & -> & H3 & H4).
      exists (r :: ru), rv. repeat split; [|exact H4].
      rewrite <- E0, <- E1. apply (enc_code c r ru u Ha H3).
Qed.
Lemma in_utf8_ascii p rs : 0 <= p < 0x80 -> Forall is_scalar rs -> (In p (utf8 rs) <-> In p rs).
Proof.
  intros Hp Hs. pose proof (filter_utf8 (fun b => b =? p) rs ltac:(intros b; lia) Hs) as E.
  assert (forall l, In p l <-> In p (filter (fun b => b =? p) l)) as Hf.
  { intros l. rewrite filter_In, Z.eqb_refl. tauto. }
  rewrite (Hf (utf8 rs)), (Hf rs), E. reflexivity.
Qed.
Lemma in_encodes p rs x : ascii_nonletter p = true -> encodes rs x -> (In p x <-> In p rs).
Proof.
  intros Hp H. pose proof (proj2 (C40_lemma (fun _ n => n) rs x H)) as E.
  assert (forall l, In p l <-> In p (filter ascii_nonletter l)) as Hf.
  { intros l. rewrite filter_In. rewrite Hp. tauto. }
  rewrite (Hf x), (Hf rs), E. reflexivity.
Qed.

Lemma C86_From_lemma grow sep rs x ps : ascii_nonletter sep = true -> encodes rs x -> split_at sep x ps ->
  exists ts, Forall2 (fun p t => From grow p = Ok (inl t)) ps ts /\ split_at sep (utf8 rs) ts.
Proof.
  intros Hp H Hs. revert rs H. induction Hs as [p Hn|p s ps Hn Hs IH]; intros rs H.
  - exists [utf8 rs]. split; [constructor; [apply From_decodes, encodes_decodes; exact H|constructor]|].
    constructor. rewrite in_utf8_ascii; [|apply nonletter_range; exact Hp|exact (Forall_repertoire_scalar _ (encodes_repertoire _ _ H))].
    rewrite <- (in_encodes sep rs p Hp H). exact Hn.
  - destruct (encodes_at_sep sep rs _ H p s eq_refl Hp) as (ru & rv & -> & Hu & Hv).
    destruct (IH rv Hv) as (ts & H1 & H2). exists (utf8 ru :: ts).
    split; [constructor; [apply From_decodes, encodes_decodes; exact Hu|exact H1]|].
    rewrite utf8_app, utf8_cons, utf8_char_ascii by (apply nonletter_range; exact Hp). cbn [app].
    constructor; [|exact H2].
    rewrite in_utf8_ascii; [|apply nonletter_range; exact Hp|exact (Forall_repertoire_scalar _ (encodes_repertoire _ _ Hu))].
    rewrite <- (in_encodes sep ru p Hp Hu). exact Hn.
Qed.

Lemma mark_in_To grow sep p out : ascii_mark sep = true -> Forall is_byte p -> To grow p = Ok (inl out) ->
  (In sep out <-> In sep p).
Proof.
  intros Hp Hb E. destruct (C88_lemma grow p Hb) as (out' & E' & Hf). rewrite E in E'. injection E' as <-.
  assert (forall l, In sep l <-> In sep (filter ascii_mark l)) as Hx.
  { intros l. rewrite filter_In. rewrite Hp. tauto. }
  rewrite (Hx out), (Hx p), Hf. reflexivity.
Qed.

Lemma C86_To_lemma grow sep x ps out : ascii_mark sep = true -> Forall is_byte x -> split_at sep x ps ->
  To grow x = Ok (inl out) ->
  exists os, Forall2 (fun p o => To grow p = Ok (inl o)) ps os /\ split_at sep out os.
Proof.
  intros Hp Hb Hs. revert out Hb. induction Hs as [p Hn|p s ps Hn Hs IH]; intros out Hb E.
  - exists [out]. split; [constructor; [exact E|constructor]|]. constructor.
    rewrite (mark_in_To grow sep p out Hp Hb E). exact Hn.
  - apply Forall_app in Hb as [Hbp Hbs]. inversion Hbs as [|? ? Hsep Hbs']; subst.
    pose proof (mark_range _ Hp) as Hr.
    destruct (C37_lemma grow p (sep :: s) Hbp Hbs) as (a & b & E1 & E2 & E3); [right; cbn; lia|].
    destruct (C37_lemma grow [sep] s ltac:(constructor; [exact Hsep|constructor]) Hbs') as (c & d & E4 & E5 & E6).
    { left. exists [sep]. split; [constructor; [unfold is_scalar; lia|constructor]|].
      rewrite utf8_cons, utf8_char_ascii by exact Hr. reflexivity. }
    assert (c = [sep]) as ->.
    { pose proof (To_utf8 grow [sep]) as Hu. rewrite utf8_cons, utf8_char_ascii in Hu by exact Hr.
      cbn [app utf8 flat_map] in Hu. rewrite Hu in E4 by (constructor; [unfold is_scalar; lia|constructor]).
      rewrite to_char_ascii in E4 by exact Hr. injection E4 as <-. reflexivity. }
    cbn [app] in E6. rewrite E2 in E6. injection E6 as ->. rewrite E in E3. injection E3 as ->.
    destruct (IH d Hbs' E5) as (os & H1 & H2). exists (a :: os).
    split; [constructor; assumption|]. constructor; [|exact H2].
    rewrite (mark_in_To grow sep p a Hp Hbp E1). exact Hn.
Qed.

(** ** Decomposed text *)
Lemma decomposed_low c : 0 <= c < 0x1100 -> decomposed c = [c].
Proof. intros H. unfold decomposed. destruct (0xAC00 <=? c) eqn:E; [lia|reflexivity]. Qed.
Lemma decomposed_syllable c : is_syllable c -> exists l m t, Split c = (l, m, t) /\
  is_lead_jamo l /\ is_medial_jamo m /\ (t = 0 \/ is_tail_jamo t) /\
  decomposed c = l :: m :: (if t =? 0 then [] else [t]) /\
  c = ((l - 0x1100) * 21 + (m - 0x1161)) * 28 + (if t =? 0 then 0 else t - 0x11A7) + 0xAC00.
Proof.
  intros H. pose proof (Split_syllable c H) as E. unfold is_syllable in H.
  destruct (Split c) as ((l & m) & t) eqn:Es. injection E as -> -> ->.
  eexists _, _, _. split; [reflexivity|].
  unfold decomposed. assert ((0xAC00 <=? c) && (c <=? 0xD7A3) = true) as -> by lia. rewrite Es.
  unfold is_lead_jamo, is_medial_jamo, is_tail_jamo, parts_of.
  destruct (Z.eqb_spec ((c - 0xAC00) mod 28) 0) as [Hz|Hz].
  - cbn [Z.eqb]. repeat split; try (Z.div_mod_to_equations; lia).
  - assert ((c - 44032) mod 28 + 4519 =? 0 = false) as -> by (Z.div_mod_to_equations; lia).
    repeat split; try (Z.div_mod_to_equations; lia).
Qed.
Lemma decomposed_nonempty r : decomposed r <> [].
Proof.
  unfold decomposed, parts_of. destruct (_ && _); [|discriminate].
  destruct (Split r) as ((l & m) & t). destruct (t =? 0); discriminate.
Qed.
Lemma decomposed_head a : Forall low_char a ->
  flat_map decomposed a = [] \/ exists h tl, flat_map decomposed a = h :: tl /\ h <= 0x1112.
Proof.
  intros H. destruct H as [|c a Hc H]; [left; reflexivity|right]. cbn [flat_map].
  destruct Hc as [Hc|Hc].
  - rewrite decomposed_low by exact Hc. eexists _, _. split; [reflexivity|lia].
  - destruct (decomposed_syllable c Hc) as (l & m & t & _ & Hl & _ & _ & -> & _).
    eexists _, _. split; [reflexivity|]. unfold is_lead_jamo in Hl. lia.
Qed.
Lemma decomposed_fw a b : lex_lt a b -> Forall low_char a -> Forall low_char b ->
  lex_lt (flat_map decomposed a) (flat_map decomposed b).
Proof.
  induction 1 as [y t|x y s t Hxy|x s t H IH]; intros Ha Hb.
  - cbn. pose proof (decomposed_nonempty y). destruct (decomposed y); [congruence|constructor].
  - inversion Ha as [|? ? Hx Hs]; inversion Hb as [|? ? Hy Ht]; subst. cbn [flat_map].
    destruct Hx as [Hx|Hx], Hy as [Hy|Hy].
    + rewrite !decomposed_low by assumption. cbn. constructor. exact Hxy.
    + rewrite (decomposed_low x Hx). destruct (decomposed_syllable y Hy) as (l & m & k & _ & Hl & _ & _ & -> & _).
      cbn. unfold is_lead_jamo in Hl. constructor. lia.
    + unfold is_syllable in Hx. lia.
    + destruct (decomposed_syllable x Hx) as (l & m & k & _ & Hl & Hm & Hk & -> & Ex).
      destruct (decomposed_syllable y Hy) as (l' & m' & k' & _ & Hl' & Hm' & Hk' & -> & Ey).
      unfold is_lead_jamo, is_medial_jamo, is_tail_jamo in *. cbn [app].
      destruct (Z.lt_trichotomy l l') as [C|[->|C]]; [constructor; exact C| |exfalso; destruct (k =? 0) eqn:?, (k' =? 0) eqn:?; lia].
      apply lex_tail.
      destruct (Z.lt_trichotomy m m') as [C|[->|C]]; [constructor; exact C| |exfalso; destruct (k =? 0) eqn:?, (k' =? 0) eqn:?; lia].
      apply lex_tail.
      destruct (Z.eqb_spec k 0) as [K|K], (Z.eqb_spec k' 0) as [K'|K']; try (exfalso; lia).
      * cbn [app]. destruct (decomposed_head s Hs) as [->|(h & tl & -> & Hh)]; [constructor|].
        apply lex_less. lia.
      * cbn [app]. apply lex_less. lia.
  - inversion Ha as [|? ? Hx Hs]; inversion Hb as [|? ? Hy Ht]; subst. cbn.
    apply lex_app_head. apply IH; assumption.
Qed.
Lemma C93_lemma a b : Forall low_char a -> Forall low_char b ->
  (lex_lt a b <-> lex_lt (decompose a) (decompose b)).
Proof.
  unfold decompose. intros Ha Hb. split; [intros H; apply decomposed_fw; assumption|].
  intros H. destruct (lex_trichotomy a b) as [H1|[->|H1]]; [exact H1|..]; exfalso.
  - exact (lex_irrefl _ H).
  - exact (lex_asym _ _ H (decomposed_fw b a H1 Hb Ha)).
Qed.

(** ** Text that is not valid CP949 *)
Lemma C87_refuted_lemma : exists s, Forall is_byte s /\ In 0x22 s /\
  forall grow, exists out, From grow s = Ok (inl out) /\ ~ In 0x22 out.
Proof.
  exists [0xFE; 0x22]. split; [repeat constructor; unfold is_byte; lia|]. split; [cbn; auto|].
  intros grow. exists (utf8 [replacement]). split; [|cbn; intuition lia].
  apply From_decodes, dec_unassigned; [lia|lia| |constructor].
  intros u Hu. apply assigned_ranges in Hu as [[_ H2] _]. revert H2. vm_compute. discriminate.
Qed.
Lemma C86_refuted_lemma : exists s ps, Forall is_byte s /\ split_at 0x0A s ps /\
  forall grow, exists out, From grow s = Ok (inl out) /\
    forall ts, split_at 0x0A out ts -> ~ Forall2 (fun p t => From grow p = Ok (inl t)) ps ts.
Proof.
  exists [0xFE; 0x0A; 0x41], [[0xFE]; [0x41]].
  split; [repeat constructor; unfold is_byte; lia|].
  split; [apply (split_more 0x0A [0xFE] [0x41] [[0x41]]); [cbn; intuition lia|constructor; cbn; intuition lia]|].
  intros grow. exists (utf8 [replacement; 0x41]). split.
  - apply From_decodes, dec_unassigned; [lia|lia| |repeat constructor; lia].
    intros u Hu. apply assigned_ranges in Hu as [[_ H2] _]. revert H2. vm_compute. discriminate.
  - intros ts _ H. inversion H as [|? ? ? ? E]; subst.
    rewrite (From_cut grow [0xFE] []) in E; [discriminate|].
    exists 0xFE. split; [lia|]. split; [reflexivity|]. exists []. constructor.
Qed.
Lemma C93_unique_lemma a b : Forall low_char a -> Forall low_char b -> decompose a = decompose b -> a = b.
Proof.
  intros Ha Hb E. destruct (lex_trichotomy a b) as [H|[H|H]]; [exfalso|exact H|exfalso];
    (apply C93_lemma in H; [|assumption|assumption]); rewrite E in H; exact (lex_irrefl _ H).
Qed.
Lemma C86_case_lemma : encodes [0xAC00; 0x0A; 0x41; 0x0A] [0xB0; 0xA1; 0x0A; 0x41; 0x0A] /\
  split_at 0x0A [0xB0; 0xA1; 0x0A; 0x41; 0x0A] [[0xB0; 0xA1]; [0x41]; []].
Proof.
  split.
  - apply (enc_code 0xB0A1); [apply assigned_enc; vm_compute; reflexivity|]. repeat constructor; lia.
  - apply (split_more 0x0A [0xB0; 0xA1] [0x41; 0x0A]); [cbn; intuition lia|].
    apply (split_more 0x0A [0x41] []); [cbn; intuition lia|]. constructor. cbn. tauto.
Qed.
