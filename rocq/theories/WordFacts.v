(** Proofs for C159: the words of a stream. *)
From Coq Require Import ZArith List Bool Lia.
From Coq Require Import ZifyBool.
From Verif Require Import Base Spec Facts Utf8 Utf8Facts SpecCp949 SpecIO Cp949Model StreamModel StreamFacts StreamFacts2 StreamFacts3 Cp949Facts BufioModel BufioFacts BufioFacts2
  SpecWords WordModel WordScan.
Import ListNotations.
Local Open Scope Z_scope.

Lemma isSpace_spec r : isSpace r = true <-> white r.
Proof. unfold isSpace, white. cbn [existsb]. destruct (Z.leb_spec r 255); [|destruct ((8192 <=? r) && (r <=? 8202)) eqn:E]; lia. Qed.
Lemma isSpace_no r : ~ white r -> isSpace r = false.
Proof. intros H. destruct (isSpace r) eqn:E; [|reflexivity]. apply isSpace_spec in E. contradiction. Qed.
Lemma error_not_space : isSpace RuneError = false. Proof. reflexivity. Qed.

(** ** Moving along a text *)
Lemma DecodeRune_width s : 0 <= snd (DecodeRune s).
Proof.
  unfold DecodeRune. destruct s as [|p0 p1]; [cbn; lia|]. destruct (p0 <? 0x80); [cbn; lia|].
  destruct (first_info p0) as [[sz [lo hi]]|]; [|cbn; lia]. destruct p1 as [|b1 p2]; [cbn; lia|].
  destruct (_ <? sz); [cbn; lia|]. destruct (negb (in_range lo hi b1)); [cbn; lia|]. destruct (sz <=? 2); [cbn; lia|].
  destruct p2 as [|b2 p3]; [cbn; lia|]. destruct (negb (in_range 0x80 0xBF b2)); [cbn; lia|]. destruct (sz <=? 3); [cbn; lia|].
  destruct p3 as [|b3 p4]; [cbn; lia|]. destruct (negb (in_range 0x80 0xBF b3)); cbn; lia.
Qed.
Lemma skip_shift : forall fuel x d st, 0 <= st -> skip_spaces fuel (x ++ d) (zlen x + st) = zlen x + skip_spaces fuel d st.
Proof.
  induction fuel as [|fuel IH]; intros x d st Hs; cbn [skip_spaces]; [reflexivity|]. rewrite zlen_app.
  replace (zdrop (zlen x + st) (x ++ d)) with (zdrop st d).
  2:{ rewrite Z.add_comm, <- zdrop_zdrop by (try lia; apply zlen_nonneg). now rewrite zdrop_app_exact. }
  replace (zlen x + st <? zlen x + zlen d) with (st <? zlen d) by lia. destruct (Z.ltb_spec st (zlen d)); [|reflexivity].
  pose proof (DecodeRune_width (zdrop st d)) as Hw. destruct (DecodeRune (zdrop st d)) as [r w]. cbn [snd] in Hw. destruct (isSpace r); [|reflexivity].
  rewrite <- Z.add_assoc. apply IH. lia.
Qed.
Lemma find_shift : forall fuel x d st, 0 <= st -> find_space fuel (x ++ d) (zlen x + st) = option_map (fun q => (zlen x + fst q, snd q)) (find_space fuel d st).
Proof.
  induction fuel as [|fuel IH]; intros x d st Hs; cbn [find_space]; [reflexivity|]. rewrite zlen_app.
  replace (zdrop (zlen x + st) (x ++ d)) with (zdrop st d).
  2:{ rewrite Z.add_comm, <- zdrop_zdrop by (try lia; apply zlen_nonneg). now rewrite zdrop_app_exact. }
  replace (zlen x + st <? zlen x + zlen d) with (st <? zlen d) by lia. destruct (Z.ltb_spec st (zlen d)); [|reflexivity].
  pose proof (DecodeRune_width (zdrop st d)) as Hw. destruct (DecodeRune (zdrop st d)) as [r w]. cbn [snd] in Hw. destruct (isSpace r); [reflexivity|].
  rewrite <- Z.add_assoc. apply IH. lia.
Qed.

Definition stops (d : list Z) : Prop := forall fuel, skip_spaces fuel d 0 = 0.
Definition clean (d : list Z) : Prop := forall fuel, find_space fuel d 0 = None.
Lemma char_pos r : 0 < zlen (utf8_char r).
Proof. pose proof (utf8_char_len r). lia. Qed.
Lemma skip_white sp : Forall is_scalar sp -> Forall white sp -> forall d fuel, stops d -> (length (utf8 sp) <= fuel)%nat -> skip_spaces fuel (utf8 sp ++ d) 0 = zlen (utf8 sp).
Proof.
  induction 1 as [|c sp Hc Hsp IH]; intros Hw d fuel Hd Hf; [apply Hd|]. inversion_clear Hw as [|? ? Hw1 Hw2].
  change (utf8 (c :: sp)) with (utf8_char c ++ utf8 sp) in *. rewrite app_length in Hf. pose proof (char_pos c) as Hp. unfold zlen in Hp.
  destruct fuel as [|fuel]; [lia|]. cbn [skip_spaces]. rewrite <- app_assoc, !zlen_app. pose proof (zlen_nonneg (utf8 sp)). pose proof (zlen_nonneg d). pose proof (char_pos c).
  destruct (Z.ltb_spec 0 (zlen (utf8_char c) + (zlen (utf8 sp) + zlen d))); [|lia].
  rewrite zdrop_0, DecodeRune_char by exact Hc. apply isSpace_spec in Hw1. rewrite Hw1. rewrite Z.add_comm, skip_shift by lia. f_equal. apply IH; auto. lia.
Qed.
Lemma find_none w : Forall is_scalar w -> Forall (fun r => ~ white r) w -> forall d, clean d -> clean (utf8 w ++ d).
Proof.
  induction 1 as [|c w Hc Hw0 IH]; intros Hw d Hd; [exact Hd|]. inversion_clear Hw as [|? ? Hw1 Hw2]. intros [|fuel]; [reflexivity|].
  change (utf8 (c :: w)) with (utf8_char c ++ utf8 w). cbn [find_space]. rewrite <- app_assoc. destruct (0 <? zlen _); [|reflexivity].
  rewrite zdrop_0, DecodeRune_char by exact Hc. rewrite (isSpace_no c Hw1). rewrite Z.add_comm, find_shift by lia. rewrite (IH Hw2 d Hd). reflexivity.
Qed.
Lemma find_some w c d : Forall is_scalar w -> Forall (fun r => ~ white r) w -> is_scalar c -> white c -> forall fuel, (length (utf8 w) < fuel)%nat ->
  find_space fuel (utf8 w ++ utf8_char c ++ d) 0 = Some (zlen (utf8 w), zlen (utf8_char c)).
Proof.
  intros Hw0 Hw Hc Hwc. induction Hw0 as [|x w Hx Hw0 IH]; intros [|fuel] Hf; try lia.
  - cbn [find_space utf8 flat_map app]. rewrite zlen_app. pose proof (zlen_nonneg d). pose proof (char_pos c). destruct (Z.ltb_spec 0 (zlen (utf8_char c) + zlen d)); [|lia].
    rewrite zdrop_0, DecodeRune_char by exact Hc. apply isSpace_spec in Hwc. rewrite Hwc. reflexivity.
  - inversion_clear Hw as [|? ? Hw1 Hw2]. change (utf8 (x :: w)) with (utf8_char x ++ utf8 w) in *. rewrite app_length in Hf. pose proof (char_pos x) as Hp. unfold zlen in Hp.
    cbn [find_space]. rewrite <- app_assoc. rewrite (zlen_app (utf8_char x)). pose proof (zlen_nonneg (utf8 w ++ utf8_char c ++ d)). pose proof (char_pos x).
    destruct (Z.ltb_spec 0 (zlen (utf8_char x) + zlen (utf8 w ++ utf8_char c ++ d))); [|lia].
    rewrite zdrop_0, DecodeRune_char by exact Hx. rewrite (isSpace_no x Hw1). rewrite Z.add_comm, find_shift by lia. rewrite IH by (auto; lia). cbn [option_map fst snd]. now rewrite zlen_app.
Qed.
Lemma stops_nil : stops []. Proof. intros [|f]; reflexivity. Qed.
Lemma clean_nil : clean []. Proof. intros [|f]; reflexivity. Qed.
Lemma stops_char c d : is_scalar c -> ~ white c -> stops (utf8_char c ++ d).
Proof.
  intros Hc Hw [|f]; [reflexivity|]. cbn [skip_spaces]. destruct (0 <? zlen _); [|reflexivity]. rewrite zdrop_0, DecodeRune_char by exact Hc. now rewrite isSpace_no.
Qed.
Lemma clean_bytes l : Forall (fun b => 0x80 <= b < 0xC0) l -> clean l.
Proof.
  induction 1 as [|b l Hb Hl IH]; [apply clean_nil|]. intros [|fuel]; [reflexivity|]. cbn [find_space]. destruct (0 <? zlen (b :: l)); [|reflexivity].
  assert (DecodeRune (zdrop 0 (b :: l)) = (RuneError, 1)) as ->.
  { rewrite zdrop_0. unfold DecodeRune. destruct (Z.ltb_spec b 128); [lia|]. assert (first_info b = None) as ->; [|reflexivity].
    destruct (first_info b) as [[sz [lo hi]]|] eqn:E; [|reflexivity]. apply first_info_spec in E. lia. }
  rewrite error_not_space. change (b :: l) with ([b] ++ l). change (0 + 1) with (zlen [b] + 0). rewrite find_shift by lia. now rewrite IH.
Qed.
(** The beginning of a character, in a buffer that ends inside it. *)
Lemma frag_ok r p q : is_scalar r -> utf8_char r = p ++ q -> p <> [] -> q <> [] -> stops p /\ clean p /\ zlen p < 4.
Proof.
  intros Hr E Hp Hq. assert (Hlen : zlen p < 4).
  { pose proof (utf8_char_len r) as H. rewrite E, zlen_app in H. destruct q; [congruence|]. rewrite zlen_cons in H. pose proof (zlen_nonneg q). lia. }
  destruct (incomplete r p q Hr E Hp Hq) as (b & p' & -> & Hb & Hd & _).
  assert (HD : DecodeRune (b :: p') = (RuneError, 1)).
  { clear E. unfold DecodeRune in *. destruct (Z.ltb_spec b 128); [lia|]. destruct (first_info b) as [[sz [lo hi]]|]; [|reflexivity]. destruct p' as [|b1 p'']; [reflexivity|].
    destruct (_ <? sz); [reflexivity|]. destruct (negb _); [reflexivity|]. destruct (sz <=? 2); [discriminate|]. destruct p'' as [|b2 p'']; [reflexivity|]. destruct (negb _); [reflexivity|].
    destruct (sz <=? 3); [discriminate|]. destruct p''; [reflexivity|]. destruct (negb _); [reflexivity|discriminate]. }
  assert (Ht : Forall (fun b => 0x80 <= b < 0xC0) p').
  { assert (Hall : Forall (fun b => 0x80 <= b < 0xC0) (p' ++ q)).
    { assert (H : forall k, 128 <= 128 + k mod 64 < 192) by (intros k; pose proof (Z.mod_pos_bound k 64 ltac:(lia)); lia).
      destruct (utf8_char_cases r Hr) as [[H' E']|[[H' E']|[(H' & Hns & E')|[H' E']]]]; rewrite E' in E; cbn [app] in E; apply cons_eq in E as [_ <-]; repeat constructor; apply H. }
    apply Forall_app in Hall. apply Hall. }
  split; [|split; [|exact Hlen]].
  - intros [|f]; [reflexivity|]. cbn [skip_spaces]. destruct (0 <? zlen _); [|reflexivity]. rewrite zdrop_0, HD, error_not_space. reflexivity.
  - intros [|f]; [reflexivity|]. cbn [find_space]. destruct (0 <? zlen _); [|reflexivity]. rewrite zdrop_0, HD, error_not_space.
    change (b :: p') with ([b] ++ p'). change (0 + 1) with (zlen [b] + 0). rewrite find_shift by lia. now rewrite clean_bytes.
Qed.
Lemma cut rs : Forall is_scalar rs -> forall p q, utf8 rs = p ++ q -> exists rs1 rs2 frag, rs = rs1 ++ rs2 /\ p = utf8 rs1 ++ frag /\
  (frag = [] \/ exists r rs3 g, rs2 = r :: rs3 /\ utf8_char r = frag ++ g /\ frag <> [] /\ g <> []).
Proof.
  induction 1 as [|r rs Hr Hrs IH]; intros p q E.
  - symmetry in E. apply app_eq_nil in E as [-> ->]. exists [], [], []. auto.
  - change (utf8 (r :: rs)) with (utf8_char r ++ utf8 rs) in E. apply app_eq_app in E as (l & [[E1 E2]|[E1 E2]]).
    + destruct l as [|x l].
      * rewrite app_nil_r in E1. exists [r], rs, []. split; [reflexivity|]. split; [|auto]. cbn [utf8 flat_map app]. rewrite !app_nil_r. auto.
      * destruct p as [|y p]; [exists [], (r :: rs), []; auto|]. exists [], (r :: rs), (y :: p). split; [reflexivity|]. split; [reflexivity|]. right.
        exists r, rs, (x :: l). repeat split; try assumption; discriminate.
    + destruct (IH l q E2) as (rs1 & rs2 & frag & -> & -> & H). exists (r :: rs1), rs2, frag. split; [reflexivity|]. split; [|exact H]. rewrite E1. cbn [utf8 flat_map]. now rewrite <- app_assoc.
Qed.
Lemma cut_frag rs1 rs2 frag : Forall is_scalar (rs1 ++ rs2) -> (frag = [] \/ exists r rs3 g, rs2 = r :: rs3 /\ utf8_char r = frag ++ g /\ frag <> [] /\ g <> []) ->
  stops frag /\ clean frag /\ zlen frag < 4.
Proof.
  intros Hs [->|(r & rs3 & g & -> & E & H1 & H2)]; [repeat split; [apply stops_nil|apply clean_nil]|].
  apply Forall_app in Hs as [_ Hs]. inversion_clear Hs. eapply frag_ok; eassumption.
Qed.

(** ** ScanWords *)
Lemma words_wait sp w d : Forall is_scalar sp -> Forall white sp -> Forall is_scalar w -> Forall (fun r => ~ white r) w -> stops d -> clean d ->
  ScanWords (utf8 sp ++ utf8 w ++ d) false = Ok (zlen (utf8 sp), None, None).
Proof.
  intros H1 H2 H3 H4 H5 H6. unfold ScanWords.
  assert (Hst : stops (utf8 w ++ d)).
  { destruct w as [|c w]; [exact H5|]. inversion_clear H3. inversion_clear H4. change (utf8 (c :: w)) with (utf8_char c ++ utf8 w). rewrite <- app_assoc. now apply stops_char. }
  rewrite skip_white by (auto; rewrite !app_length; lia).
  rewrite <- (Z.add_0_r (zlen (utf8 sp))) at 1. rewrite find_shift by lia. rewrite (find_none w H3 H4 d H6). reflexivity.
Qed.
Lemma words_found sp w c d eof : Forall is_scalar sp -> Forall white sp -> Forall is_scalar w -> Forall (fun r => ~ white r) w -> w <> [] -> is_scalar c -> white c ->
  ScanWords (utf8 sp ++ utf8 w ++ utf8_char c ++ d) eof = Ok (zlen (utf8 sp) + zlen (utf8 w) + zlen (utf8_char c), Some (utf8 w), None).
Proof.
  intros H1 H2 H3 H4 H5 H6 H7. unfold ScanWords.
  assert (Hst : stops (utf8 w ++ utf8_char c ++ d)).
  { destruct w as [|x w]; [congruence|]. inversion_clear H3. inversion_clear H4. change (utf8 (x :: w)) with (utf8_char x ++ utf8 w). rewrite <- app_assoc. now apply stops_char. }
  rewrite skip_white by (auto; rewrite !app_length; lia).
  rewrite <- (Z.add_0_r (zlen (utf8 sp))) at 1. rewrite find_shift by lia. pose proof (char_pos c) as Hp. unfold zlen in Hp.
  rewrite (find_some w c d H3 H4 H6 H7) by (rewrite !app_length; lia). cbn [option_map fst snd].
  rewrite app_assoc, ztake_app_exact by (now rewrite zlen_app). now rewrite zdrop_app_exact.
Qed.
Lemma words_final sp w : Forall is_scalar sp -> Forall white sp -> Forall is_scalar w -> Forall (fun r => ~ white r) w -> 
  ScanWords (utf8 sp ++ utf8 w) true = Ok (zlen (utf8 sp) + zlen (utf8 w), match w with [] => None | _ => Some (utf8 w) end, None).
Proof.
  intros H1 H2 H3 H4. unfold ScanWords. rewrite <- (app_nil_r (utf8 w)).
  assert (Hst : stops (utf8 w ++ [])).
  { destruct w as [|x w]; [apply stops_nil|]. inversion_clear H3. inversion_clear H4. change (utf8 (x :: w)) with (utf8_char x ++ utf8 w). rewrite <- app_assoc. now apply stops_char. }
  rewrite skip_white by (auto; rewrite !app_length; lia).
  rewrite <- (Z.add_0_r (zlen (utf8 sp))) at 1. rewrite find_shift by lia. rewrite (find_none w H3 H4 [] clean_nil). cbn [option_map andb]. rewrite app_nil_r, zlen_app.
  destruct w as [|x w].
  - change (zlen (utf8 [])) with 0. rewrite Z.add_0_r, Z.ltb_irrefl. reflexivity.
  - assert (0 < zlen (utf8 (x :: w))). { change (utf8 (x :: w)) with (utf8_char x ++ utf8 w). rewrite zlen_app. pose proof (char_pos x). pose proof (zlen_nonneg (utf8 w)). lia. }
    destruct (Z.ltb_spec (zlen (utf8 sp)) (zlen (utf8 sp) + zlen (utf8 (x :: w)))); [|lia]. now rewrite zdrop_app_exact.
Qed.

Definition plain (w : list Z) : Prop := Forall (fun r => ~ white r) w.
Definition next_word (T : list Z) (a : Z) (t : list Z) : Prop := exists sp w, Forall is_scalar sp /\ Forall white sp /\ Forall is_scalar w /\ plain w /\ w <> [] /\ t = utf8 w /\
  zlen (utf8 w) <= 65533 /\
  ((T = utf8 sp ++ utf8 w /\ a = zlen T) \/
   exists c rest, is_scalar c /\ white c /\ Forall is_scalar rest /\ T = utf8 (sp ++ w ++ c :: rest) /\ a = zlen (utf8 sp) + zlen (utf8 w) + zlen (utf8_char c)).
Definition blanks (T : list Z) : Prop := exists sp, Forall is_scalar sp /\ Forall white sp /\ T = utf8 sp.
Definition too_long (T : list Z) : Prop := exists sp w rest, Forall is_scalar (sp ++ w ++ rest) /\ Forall white sp /\ plain w /\ 65536 <= zlen (utf8 w) /\ T = utf8 (sp ++ w ++ rest).

Lemma utf8_pos w : w <> [] -> 0 < zlen (utf8 w).
Proof. destruct w as [|x w]; [congruence|]. intros _. change (utf8 (x :: w)) with (utf8_char x ++ utf8 w). rewrite zlen_app. pose proof (char_pos x). pose proof (zlen_nonneg (utf8 w)). lia. Qed.
Lemma utf8_cons c l : utf8 (c :: l) = utf8_char c ++ utf8 l. Proof. reflexivity. Qed.
Lemma word_whole T a t : next_word T a t -> ScanWords T true = Ok (a, Some t, None) /\ 0 < a <= zlen T.
Proof.
  intros (sp & w & H1 & H2 & H3 & H4 & H5 & -> & _ & [[-> ->]|(c & rest & H6 & H7 & H8 & -> & ->)]); pose proof (utf8_pos w H5); pose proof (zlen_nonneg (utf8 sp)).
  - rewrite words_final by assumption. rewrite zlen_app. destruct w; [congruence|]. split; [reflexivity|lia].
  - rewrite !utf8_app, utf8_cons. rewrite words_found by assumption. split; [reflexivity|]. rewrite !zlen_app. pose proof (char_pos c). pose proof (zlen_nonneg (utf8 rest)). lia.
Qed.
(** A buffer that ends inside the spaces, the word, or after it. *)
Lemma where_cut sp w rest p q : Forall is_scalar (sp ++ w ++ rest) -> utf8 (sp ++ w ++ rest) = p ++ q ->
  (exists sp1 sp2 frag, sp = sp1 ++ sp2 /\ p = utf8 sp1 ++ utf8 [] ++ frag /\ stops frag /\ clean frag /\ zlen frag < 4 /\ (sp2 = [] -> w ++ rest = [] -> frag = [])) \/
  (exists w1 w2 frag, w = w1 ++ w2 /\ w1 <> [] /\ p = utf8 sp ++ utf8 w1 ++ frag /\ stops frag /\ clean frag /\ zlen frag < 4 /\ (w2 <> [] -> zlen (utf8 w1 ++ frag) < zlen (utf8 w)) /\
     (forall c l, w2 = [] -> rest = c :: l -> zlen frag < zlen (utf8_char c)) /\ (w2 = [] -> rest = [] -> frag = [])) \/
  (exists r1 r2 frag, rest = r1 ++ r2 /\ r1 <> [] /\ p = utf8 sp ++ utf8 w ++ utf8 r1 ++ frag).
Proof.
  intros Hs E. destruct (cut _ Hs p q E) as (rs1 & rs2 & frag & E1 & -> & Hf). pose proof Hs as Hs'. rewrite E1 in Hs'. pose proof (cut_frag rs1 rs2 frag Hs' Hf) as (F1 & F2 & F3).
  assert (F4 : rs2 = [] -> frag = []) by (intros ->; destruct Hf as [Hf|(r & rs3 & g & Hf & _)]; [exact Hf|discriminate]).
  assert (F5 : forall c l, rs2 = c :: l -> zlen frag < zlen (utf8_char c)).
  { intros c l ->. destruct Hf as [->|(r & rs3 & g & Hf & Ec & Hg1 & Hg2)]; [apply char_pos|]. injection Hf as -> ->. rewrite Ec, zlen_app. destruct g; [congruence|]. rewrite zlen_cons. pose proof (zlen_nonneg g). lia. }
  clear E Hs' Hf. apply app_eq_app in E1 as (l & [[E1 E2]|[E1 E2]]).
  - left. exists rs1, l, frag. split; [exact E1|]. split; [reflexivity|]. repeat split; try assumption. intros -> Hn. apply F4. rewrite E2. exact Hn.
  - apply app_eq_app in E2 as (m & [[E2 E3]|[E2 E3]]).
    + destruct l as [|x l].
      * left. rewrite app_nil_r in E1. exists rs1, [], frag. rewrite E1, app_nil_r. split; [reflexivity|]. split; [reflexivity|]. repeat split; try assumption. intros _ Hn. apply F4. cbn [app] in E2. subst m. now rewrite E3.
      * right. left. exists (x :: l), m, frag. split; [exact E2|]. split; [discriminate|]. split; [rewrite E1, utf8_app, <- app_assoc; reflexivity|]. repeat split; try assumption.
        -- intros Hm. destruct m as [|y m]; [congruence|]. rewrite E2, utf8_app, (utf8_cons y m), !zlen_app. pose proof (F5 y (m ++ rest) E3). pose proof (zlen_nonneg (utf8 m)). lia.
        -- intros c l' -> ->. apply (F5 c l'). now rewrite E3.
        -- intros -> ->. apply F4. now rewrite E3.
    + destruct m as [|x m].
      * cbn [app] in E3. subst rs2. destruct l as [|x l].
        -- left. rewrite app_nil_r in E1. exists rs1, [], frag. rewrite E1, app_nil_r. split; [reflexivity|]. split; [reflexivity|]. repeat split; try assumption. intros _ Hn. apply F4. apply app_eq_nil in Hn. apply Hn.
        -- right. left. rewrite app_nil_r in E2. exists (x :: l), [], frag. rewrite app_nil_r. split; [auto|]. split; [discriminate|]. split; [rewrite E1, utf8_app, <- app_assoc; reflexivity|]. repeat split; try assumption.
           ++ congruence.
           ++ intros c l' _ ->. now apply (F5 c l').
           ++ intros _. apply F4.
      * right. right. exists (x :: m), rs2, frag. split; [exact E3|]. split; [discriminate|]. rewrite E1, E2, !utf8_app, <- !app_assoc. reflexivity.
Qed.
Lemma zlen_app3 (a b c : list Z) : zlen (a ++ b ++ c) = zlen a + zlen b + zlen c.
Proof. rewrite !zlen_app. lia. Qed.
Lemma white_width c : is_scalar c -> white c -> zlen (utf8_char c) <= 3.
Proof. intros Hs Hw. destruct (utf8_char_cases c Hs) as [[H ->]|[[H ->]|[(H & _ & ->)|[H ->]]]]; try (cbn; lia). unfold white in Hw. lia. Qed.
Lemma word_part T a t p q : next_word T a t -> T = p ++ q -> p <> [] ->
  (ScanWords p false = Ok (a, Some t, None) /\ a <= zlen p) \/
  (exists st, ScanWords p false = Ok (st, None, None) /\ 0 <= st <= zlen p /\ zlen p - st < MaxScanTokenSize /\ next_word (zdrop st T) (a - st) t).
Proof.
  intros (sp & w & H1 & H2 & H3 & H4 & H5 & -> & Hlen & Hc) E _. unfold MaxScanTokenSize.
  assert (Hc' : exists rest, Forall is_scalar rest /\ T = utf8 (sp ++ w ++ rest) /\
    ((rest = [] /\ a = zlen T) \/ exists c r, rest = c :: r /\ is_scalar c /\ white c /\ a = zlen (utf8 sp) + zlen (utf8 w) + zlen (utf8_char c))).
  { destruct Hc as [[-> ->]|(c & rest & H6 & H7 & H8 & -> & ->)].
    - exists []. split; [constructor|]. rewrite app_nil_r, utf8_app. auto.
    - exists (c :: rest). split; [now constructor|]. split; [reflexivity|]. right. eauto 10. }
  clear Hc. destruct Hc' as (rest & Hr & -> & Hrest).
  assert (Hs : Forall is_scalar (sp ++ w ++ rest)) by (apply Forall_app; split; [exact H1|]; apply Forall_app; split; assumption).
  assert (Hnext : forall sp1 sp2, sp = sp1 ++ sp2 -> next_word (zdrop (zlen (utf8 sp1)) (utf8 (sp ++ w ++ rest))) (a - zlen (utf8 sp1)) (utf8 w)).
  { intros sp1 sp2 ->. apply Forall_app in H1 as [H1a H1b]. apply Forall_app in H2 as [H2a H2b]. exists sp2, w. repeat (split; [assumption||reflexivity|]).
    rewrite <- app_assoc, utf8_app, zdrop_app_exact by reflexivity. destruct Hrest as [[-> ->]|(c & r & -> & Hc1 & Hc2 & ->)].
    - left. rewrite app_nil_r, !utf8_app, !zlen_app. split; [reflexivity|]. lia.
    - right. exists c, r. inversion_clear Hr. repeat (split; [assumption||reflexivity|]). rewrite utf8_app, zlen_app. lia. }
  destruct (where_cut sp w rest p q Hs E) as [(sp1 & sp2 & frag & -> & -> & F1 & F2 & F3 & _)|[(w1 & w2 & frag & Ew & Hw1 & -> & F1 & F2 & F3 & F4 & F5 & F6)|(r1 & r2 & frag & -> & Hr1 & ->)]].
  - right. exists (zlen (utf8 sp1)). split; [apply words_wait; try assumption; try constructor; [apply Forall_app in H1 as [H1 _]|apply Forall_app in H2 as [H2 _]]; assumption|].
    rewrite zlen_app3. change (zlen (utf8 [])) with 0. pose proof (zlen_nonneg (utf8 sp1)). pose proof (zlen_nonneg frag). split; [lia|]. split; [lia|]. now apply (Hnext sp1 sp2).
  - right. exists (zlen (utf8 sp)). split.
    { subst w. apply Forall_app in H3 as [H3 _]. apply Forall_app in H4 as [H4 _]. apply words_wait; assumption. }
    rewrite zlen_app3. pose proof (zlen_nonneg (utf8 sp)). pose proof (zlen_nonneg frag). pose proof (zlen_nonneg (utf8 w1)). split; [lia|]. split; [|apply (Hnext sp []); now rewrite app_nil_r].
    destruct w2 as [|y w2].
    + rewrite app_nil_r in Ew. subst w1. destruct Hrest as [[-> _]|(c & r & -> & Hc1 & Hc2 & _)].
      * rewrite (F6 eq_refl eq_refl). change (zlen []) with 0. lia.
      * pose proof (F5 c r eq_refl eq_refl). pose proof (white_width c Hc1 Hc2). lia.
    + assert (zlen (utf8 w1 ++ frag) < zlen (utf8 w)) as Hz by (apply F4; discriminate). rewrite zlen_app in Hz. lia.
  - left. destruct Hrest as [[Hn _]|(c & r & Hn & Hc1 & Hc2 & ->)]; [apply app_eq_nil in Hn as [Hn _]; congruence|].
    destruct r1 as [|x r1]; [congruence|]. injection Hn as -> <-. rewrite utf8_cons, <- app_assoc.
    split; [now apply words_found|]. rewrite !zlen_app. pose proof (zlen_nonneg (utf8 r1)). pose proof (zlen_nonneg frag). lia.
Qed.
Lemma blank_whole' T : blanks T -> exists st, ScanWords T true = Ok (st, None, None) /\ 0 <= st <= zlen T.
Proof.
  intros (sp & H1 & H2 & ->). exists (zlen (utf8 sp) + zlen (utf8 [])). split; [|change (zlen (utf8 [])) with 0; pose proof (zlen_nonneg (utf8 sp)); lia].
  rewrite <- (app_nil_r (utf8 sp)) at 1. change (@nil Z) with (utf8 []) at 1. apply (words_final sp []); auto.
Qed.
Lemma blank_part' T p q : blanks T -> T = p ++ q -> p <> [] ->
  exists st, ScanWords p false = Ok (st, None, None) /\ 0 <= st <= zlen p /\ zlen p - st < MaxScanTokenSize /\ blanks (zdrop st T).
Proof.
  intros (sp & H1 & H2 & ->) E _. destruct (where_cut sp [] [] p q) as [(sp1 & sp2 & frag & -> & -> & F1 & F2 & F3 & _)|[(w1 & w2 & frag & Ew & Hw1 & _)|(r1 & r2 & frag & Er & Hr1 & _)]].
  - rewrite app_nil_r. exact H1.
  - rewrite app_nil_r. exact E.
  - apply Forall_app in H1 as [H1a H1b]. apply Forall_app in H2 as [H2a H2b]. exists (zlen (utf8 sp1)). split; [apply words_wait; try assumption; constructor|].
    rewrite zlen_app3. change (zlen (utf8 [])) with 0. unfold MaxScanTokenSize. pose proof (zlen_nonneg (utf8 sp1)). pose proof (zlen_nonneg frag). split; [lia|]. split; [lia|].
    exists sp2. rewrite utf8_app, zdrop_app_exact by reflexivity. auto.
  - symmetry in Ew. apply app_eq_nil in Ew as [-> _]. congruence.
  - symmetry in Er. apply app_eq_nil in Er as [-> _]. congruence.
Qed.
Lemma long_len T : too_long T -> MaxScanTokenSize <= zlen T.
Proof. intros (sp & w & rest & _ & _ & _ & H & ->). rewrite !utf8_app, !zlen_app. pose proof (zlen_nonneg (utf8 sp)). pose proof (zlen_nonneg (utf8 rest)). unfold MaxScanTokenSize. lia. Qed.
Lemma long_part T p q : too_long T -> T = p ++ q -> p <> [] -> zlen p <= MaxScanTokenSize ->
  exists st, ScanWords p false = Ok (st, None, None) /\ 0 <= st <= zlen p /\ too_long (zdrop st T).
Proof.
  intros (sp & w & rest & Hs & H2 & H4 & Hlen & ->) E _ Hp. unfold MaxScanTokenSize in Hp.
  pose proof Hs as H1. apply Forall_app in H1 as [H1 H3]. apply Forall_app in H3 as [H3 H3'].
  assert (Hnext : forall sp1 sp2, sp = sp1 ++ sp2 -> too_long (zdrop (zlen (utf8 sp1)) (utf8 (sp ++ w ++ rest)))).
  { intros sp1 sp2 ->. rewrite <- app_assoc in *. apply Forall_app in Hs as [_ Hs]. apply Forall_app in H2 as [_ H2]. exists sp2, w, rest. rewrite utf8_app, zdrop_app_exact by reflexivity. auto. }
  destruct (where_cut sp w rest p q Hs E) as [(sp1 & sp2 & frag & -> & -> & F1 & F2 & F3 & _)|[(w1 & w2 & frag & Ew & Hw1 & -> & F1 & F2 & F3 & F4 & F5 & F6)|(r1 & r2 & frag & -> & Hr1 & ->)]].
  - exists (zlen (utf8 sp1)). split; [apply words_wait; try assumption; try constructor; [apply Forall_app in H1 as [H1 _]|apply Forall_app in H2 as [H2 _]]; assumption|].
    rewrite zlen_app3. change (zlen (utf8 [])) with 0. pose proof (zlen_nonneg (utf8 sp1)). pose proof (zlen_nonneg frag). split; [lia|]. now apply (Hnext sp1 sp2).
  - exists (zlen (utf8 sp)). split.
    { subst w. apply Forall_app in H3 as [H3 _]. apply Forall_app in H4 as [H4 _]. apply words_wait; assumption. }
    rewrite zlen_app3. pose proof (zlen_nonneg (utf8 sp)). pose proof (zlen_nonneg frag). pose proof (zlen_nonneg (utf8 w1)). split; [lia|]. apply (Hnext sp []). now rewrite app_nil_r.
  - exfalso. rewrite !zlen_app in Hp. pose proof (utf8_pos r1 Hr1). pose proof (zlen_nonneg (utf8 sp)). pose proof (zlen_nonneg frag). lia.
Qed.

Lemma words_tokens rs ws : is_words rs ws -> Forall is_scalar rs -> Forall (fun w => zlen (utf8 w) <= 65533) ws ->
  exists rest, tokens next_word (utf8 rs) (map utf8 ws) rest /\ blanks rest.
Proof.
  induction 1 as [sp Hsp|sp w Hsp Hw Hp|sp w c text ws Hsp Hw Hp Hc Hi IH]; intros Hs Hl.
  - exists (utf8 sp). split; [constructor|]. exists sp. auto.
  - apply Forall_app in Hs as [H1 H2]. inversion_clear Hl. exists []. split; [|exists []; auto]. cbn [map].
    eapply tokens_cons; [exists sp, w; repeat (split; [assumption||reflexivity|]); left; split; [apply utf8_app|reflexivity]|].
    rewrite zdrop_all by lia. constructor.
  - inversion_clear Hl. apply Forall_app in Hs as [H1 H2]. apply Forall_app in H2 as [H2 H3]. inversion_clear H3 as [|? ? H3' H4]. destruct (IH H4 H0) as (rest & Ht & Hb). exists rest. split; [|exact Hb]. cbn [map].
    eapply tokens_cons; [exists sp, w; repeat (split; [assumption||reflexivity|]); right; exists c, text; repeat (split; [assumption||reflexivity|]); reflexivity|].
    rewrite !utf8_app, utf8_cons. replace (utf8 sp ++ utf8 w ++ utf8_char c ++ utf8 text) with ((utf8 sp ++ utf8 w ++ utf8_char c) ++ utf8 text) by (now rewrite <- !app_assoc).
    rewrite zdrop_app_exact; [exact Ht|]. rewrite !zlen_app. lia.
Qed.
Lemma long_tokens ws1 : forall rs w ws2, is_words rs (ws1 ++ w :: ws2) -> Forall is_scalar rs -> Forall (fun w => zlen (utf8 w) <= 65533) ws1 -> 65536 <= zlen (utf8 w) ->
  exists rest, tokens next_word (utf8 rs) (map utf8 ws1) rest /\ too_long rest.
Proof.
  induction ws1 as [|w1 ws1 IH]; intros rs w ws2 Hi Hs Hl Hw; cbn [app map] in *.
  - exists (utf8 rs). split; [constructor|]. inversion Hi as [|sp w' Hsp Hne Hp|sp w' c text ws Hsp Hne Hp Hc Hi']; subst.
    + exists sp, w, []. rewrite app_nil_r. auto.
    + exists sp, w, (c :: text). auto.
  - inversion Hi as [|sp w' Hsp Hne Hp Hx Hy|sp w' c text ws Hsp Hne Hp Hc Hi']; subst; [destruct ws1; discriminate|].
    inversion_clear Hl. apply Forall_app in Hs as [H1 H2]. apply Forall_app in H2 as [H2 H3]. inversion_clear H3 as [|? ? H3' H4].
    destruct (IH text w ws2 Hi' H4 H0 Hw) as (rest & Ht & Hb). exists rest. split; [|exact Hb].
    eapply tokens_cons; [exists sp, w1; repeat (split; [assumption||reflexivity|]); right; exists c, text; repeat (split; [assumption||reflexivity|]); reflexivity|].
    rewrite !utf8_app, utf8_cons. replace (utf8 sp ++ utf8 w1 ++ utf8_char c ++ utf8 text) with ((utf8 sp ++ utf8 w1 ++ utf8_char c) ++ utf8 text) by (now rewrite <- !app_assoc).
    rewrite zdrop_app_exact; [exact Ht|]. rewrite !zlen_app. lia.
Qed.

Section OverReader.
Variable grow : Z -> Z -> Z.
Variable RS : Type.
Variable rd : RS -> Z -> list Z * option error * RS.
Lemma words_lemma s stream e rs ws fuel fuel' : delivers rd s stream e -> decodes stream rs -> is_words rs ws -> Forall (fun w => zlen (utf8 w) <= 65533) ws ->
  (length stream + 4 <= fuel)%nat -> (length (utf8 rs) + 2 < fuel')%nat ->
  ScanAll (reader RS) (Read grow RS rd fuel) ScanWords fuel' (NewScanner _ (NewReader s)) = Ok (map utf8 ws, match e with EOF => None | _ => Some e end).
Proof.
  intros Hd Hrs Hw Hl Hf Hf'. destruct (words_tokens rs ws Hw (decodes_scalar _ _ Hrs) Hl) as (rest & Ht & Hb).
  eapply (words_all_end (reader RS) (Read grow RS rd fuel) ScanWords e (inv RS rd false e (length stream))
    (reader_src_ok grow RS rd e _ fuel Hf) next_word word_whole word_part blanks blank_whole' blank_part').
  - exact Ht.
  - exact Hb.
  - apply new_left_over. apply new_reader_inv; [exact Hd|exact Hrs].
  - exact Hf'.
Qed.
Lemma long_word_lemma s stream e rs ws1 w ws2 fuel fuel' : delivers rd s stream e -> decodes stream rs -> is_words rs (ws1 ++ w :: ws2) -> Forall (fun w => zlen (utf8 w) <= 65533) ws1 ->
  65536 <= zlen (utf8 w) -> (length stream + 4 <= fuel)%nat -> (length (utf8 rs) + 2 < fuel')%nat ->
  ScanAll (reader RS) (Read grow RS rd fuel) ScanWords fuel' (NewScanner _ (NewReader s)) = Ok (map utf8 ws1, Some ErrTooLong).
Proof.
  intros Hd Hrs Hw Hl Hlen Hf Hf'. destruct (long_tokens ws1 rs w ws2 Hw (decodes_scalar _ _ Hrs) Hl Hlen) as (rest & Ht & Hb).
  eapply (words_all_long (reader RS) (Read grow RS rd fuel) ScanWords e (inv RS rd false e (length stream))
    (reader_src_ok grow RS rd e _ fuel Hf) next_word word_whole word_part too_long long_len long_part).
  - exact Ht.
  - exact Hb.
  - apply new_left_over. apply new_reader_inv; [exact Hd|exact Hrs].
  - exact Hf'.
Qed.
End OverReader.
