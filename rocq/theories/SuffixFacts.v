(** Lemmas for PropSuffix.v. *)
From Coq Require Import ZArith List Bool Lia ZifyBool.
From Verif Require Import Base Spec SpecText SpecCp949 SpecSuffix Cp949Model Cp949Facts Cp949Facts2 Cp949Facts3 TableFacts PMapFacts.
Import ListNotations.
Local Open Scope Z_scope.
Local Open Scope list_scope.

(** A byte string inside of an encoded text begins where a character does, or at the second byte
    of one. *)
Lemma cut_encoded b y : encodes b y -> forall u w, y = u ++ w ->
  (exists ru, decodes u ru) \/ (exists c1 w' b2, w = c1 :: w' /\ encodes b2 w' /\ (exists q, b = q ++ b2) /\ (is_letter_byte c1 = true \/ 0x81 <= c1)).
Proof.
  induction 1 as [|r rs bs Hr H IH|c r rs bs Ha H IH]; intros u w E.
  - destruct u; [left; exists []; constructor|discriminate].
  - destruct u as [|b0 u]; [left; exists []; constructor|]. cbn in E. injection E as <- E.
    destruct (IH u w E) as [(ru & Hu)|(c1 & w' & b2 & E1 & H1 & (q & Hq) & H2)].
    + left. exists (r :: ru). constructor; assumption.
    + right. exists c1, w', b2. split; [exact E1|]. split; [exact H1|]. split; [exists (r :: q); rewrite Hq; reflexivity|exact H2].
  - pose proof (code_trail c r Ha) as (H1 & H2). unfold code_bytes in E. cbn [app] in E.
    destruct u as [|b0 u]; [left; exists []; constructor|]. cbn in E.
    assert (E0 := f_equal (hd 0) E). assert (E' := f_equal (@tl Z) E). cbn [hd tl] in E0, E'. clear E.
    destruct u as [|b1 u].
    + right. cbn in E'. exists (c mod 256), bs, rs. split; [symmetry; exact E'|]. split; [exact H|]. split; [exists [r]; reflexivity|]. destruct H2 as [H2|H2]; [left; exact H2|right; lia].
    + cbn in E'. assert (E1 := f_equal (hd 0) E'). assert (E2 := f_equal (@tl Z) E'). cbn [hd tl] in E1, E2. clear E'.
      destruct (IH u w E2) as [(ru & Hu)|(c1 & w' & b2 & E3 & H3 & (q & Hq) & H4)].
      * left. exists (r :: ru). rewrite <- E0, <- E1. pose proof (assigned_code c r Ha).
        apply dec_code; [Z.div_mod_to_equations; lia|Z.div_mod_to_equations; lia| |exact Hu].
        replace (c / 256 * 256 + c mod 256) with c by (Z.div_mod_to_equations; lia). exact Ha.
      * right. exists c1, w', b2. split; [exact E3|]. split; [exact H3|]. split; [exists (r :: q); rewrite Hq; reflexivity|exact H4].
Qed.
(** A text that begins with a byte of 0x80 or more. *)
Lemma encoded_high b h s : encodes b (h :: s) -> 0x80 <= h -> exists z s' b', s = z :: s' /\ encodes b' s' /\
  (exists r, b = r :: b') /\ (is_letter_byte z = true \/ 0x81 <= z).
Proof.
  intros H Hh. inversion H as [|r rs bs Hr H' E1 E2|c r rs bs Ha H' E1 E2]; subst; [lia|].
  pose proof (code_trail c r Ha) as (_ & H2). exists (c mod 256), bs, rs. split; [reflexivity|]. split; [exact H'|]. split; [exists r; reflexivity|].
  destruct H2 as [H2|H2]; [left; exact H2|right; lia].
Qed.

Lemma ks_run_bytes k x : Forall ks_char k -> encodes k x -> Forall (fun b => 0xA1 <= b) x /\ length x = (2 * length k)%nat.
Proof.
  intros Hk He. induction He as [|r rs bs Hr H IH|c r rs bs Ha H IH].
  - split; [constructor|reflexivity].
  - exfalso. apply Forall_inv in Hk. destruct Hk as (c & Hc & _). apply assigned_ranges in Hc. lia.
  - pose proof (Forall_inv Hk) as (c' & Hc' & [K1 K2]). destruct (IH (Forall_inv_tail Hk)) as [H1 H2].
    assert (c' = c) as -> by (apply (assigned_inj c' c r Hc' Ha)).
    split; [unfold code_bytes; cbn [app]; constructor; [exact K1|constructor; [exact K2|exact H1]]|]. unfold code_bytes. cbn [app length]. rewrite H2. lia.
Qed.
(** In the wrong position, a run of bytes of 0x80 and more of even length leaves one to be paired. *)
Lemma shifted_run n : forall hs w c1 y b2, length hs = (2 * n)%nat -> Forall (fun b => 0xA1 <= b) hs -> c1 :: y = hs ++ w -> encodes b2 y ->
  (is_letter_byte c1 = true \/ 0x81 <= c1) -> exists z w', w = z :: w' /\ (is_letter_byte z = true \/ 0x81 <= z).
Proof.
  induction n as [|n IH]; intros hs w c1 y b2 Hl Hh E He Hc.
  - destruct hs; [|discriminate]. cbn in E. exists c1, y. split; [symmetry; exact E|exact Hc].
  - destruct hs as [|h0 [|h1 hs]]; [discriminate|cbn in Hl; lia|]. cbn [app] in E. injection E as -> ->.
    inversion Hh as [|? ? _ Hh1]; subst. inversion Hh1 as [|? ? H1 Hh2]; subst.
    destruct (encoded_high b2 h1 _ He ltac:(lia)) as (z & s' & b' & E & He' & _ & Hz).
    apply (IH hs w z s' b'); [cbn in Hl; lia|exact Hh2|symmetry; exact E|exact He'|exact Hz].
Qed.
Lemma run_aligned k p a b x y u v : Forall ks_char k -> ascii_nonletter p = true -> encodes (k ++ p :: a) x -> encodes b y -> y = u ++ x ++ v ->
  occurs (k ++ p :: a) b.
Proof.
  intros Hk Hp Hx Hy ->. apply (C76_aligned_lemma (k ++ p :: a) b x u v Hx Hy).
  destruct (cut_encoded b _ Hy u (x ++ v) eq_refl) as [H|(c1 & w' & b2 & E & He & _ & Hc)]; [exact H|exfalso].
  destruct (encodes_split k (p :: a) x Hx) as (xk & xr & -> & Hxk & Hxr). destruct (ks_run_bytes k xk Hk Hxk) as [H1 H2].
  rewrite <- app_assoc in E.
  destruct (shifted_run (length k) xk (xr ++ v) c1 w' b2 H2 H1 (eq_sym E) He Hc) as (z & w'' & Ez & Hz).
  inversion Hxr as [|r rs bs Hr H' E1 E2|c r rs bs Ha H' E1 E2]; subst.
  - cbn in Ez. injection Ez as -> _. unfold ascii_nonletter in Hp. destruct Hz as [Hz|Hz]; [rewrite Hz in Hp; lia|lia].
  - apply assigned_ranges in Ha. unfold ascii_nonletter in Hp. lia.
Qed.
Lemma suffix_up k b x y : encodes k x -> encodes b y -> is_suffix k b -> is_suffix x y.
Proof.
  intros Hk Hb [q ->]. destruct (encodes_split q k y Hb) as (xa & xb & -> & _ & H). exists xa. f_equal.
  rewrite <- (encodes_to_char k x Hk), <- (encodes_to_char k xb H). reflexivity.
Qed.
Lemma suffix_at a b x u : encodes a x -> encodes b (u ++ x) -> (exists ru, decodes u ru) -> is_suffix a b.
Proof.
  intros Ha Hb (ru & Hu). destruct (decodes_app_inv u ru Hu _ b (encodes_decodes b _ Hb)) as (r1 & H1 & ->).
  exists ru. f_equal. pose proof (encodes_decodes a x Ha) as Hd. apply (decodes_fun _ _ H1 _ Hd).
Qed.
Lemma run_suffix k b x y : Forall ks_char k -> encodes k x -> encodes b y -> (is_suffix x y <-> is_suffix k b).
Proof.
  intros Hk Hx Hy. split; [|apply suffix_up; assumption]. intros [u ->].
  destruct (cut_encoded b _ Hy u x eq_refl) as [H|(c1 & w' & b2 & E & He & _ & Hc)]; [apply (suffix_at k b x u Hx Hy H)|exfalso].
  destruct (ks_run_bytes k x Hk Hx) as [H1 H2]. rewrite <- (app_nil_r x) in E.
  destruct (shifted_run (length k) x [] c1 w' b2 H2 H1 (eq_sym E) He Hc) as (z & w'' & Ez & _). discriminate.
Qed.
(** Texts without letters of the alphabet. *)
Lemma shifted_letters a x : encodes a x -> Forall (fun r => is_letter_byte r = false) a -> forall c1 y b2, x = c1 :: y -> encodes b2 y ->
  Forall (fun r => is_letter_byte r = false) b2 -> (is_letter_byte c1 = true \/ 0x81 <= c1) -> False.
Proof.
  induction 1 as [|r rs bs Hr H IH|c r rs bs Ha H IH]; intros Hn c1 y b2 E He Hb Hc.
  - discriminate.
  - injection E as <- _. apply Forall_inv in Hn. destruct Hc as [Hc|Hc]; [congruence|lia].
  - pose proof (code_trail c r Ha) as (_ & H2). unfold code_bytes in E. cbn [app] in E.
    assert (E' := f_equal (@tl Z) E). cbn [tl] in E'. clear E. subst y.
    destruct H2 as [H2|H2].
    + inversion He as [|r' rs' bs' Hr' H' E1 E2|c' r' rs' bs' Ha' H' E1 E2]; subst.
      * apply Forall_inv in Hb. congruence.
      * apply code_trail in Ha'. unfold is_letter_byte in H2. assert (c' / 256 = c mod 256) by (unfold code_bytes in *; congruence). lia.
    + destruct (encoded_high b2 _ _ He ltac:(lia)) as (z & s' & b' & E & He' & (r' & ->) & Hz).
      exact (IH (Forall_inv_tail Hn) z s' b' E He' (Forall_inv_tail Hb) Hz).
Qed.
Lemma letterless_suffix a b x y : Forall (fun r => is_letter_byte r = false) a -> Forall (fun r => is_letter_byte r = false) b ->
  encodes a x -> encodes b y -> (is_suffix x y <-> is_suffix a b).
Proof.
  intros Ha Hb Hx Hy. split; [|apply suffix_up; assumption]. intros [u ->].
  destruct (cut_encoded b _ Hy u x eq_refl) as [H|(c1 & w' & b2 & E & He & (q & ->) & Hc)]; [apply (suffix_at a b x u Hx Hy H)|exfalso].
  apply Forall_app in Hb as [_ Hb]. exact (shifted_letters a x Hx Ha c1 w' b2 E He Hb Hc).
Qed.

Section Grow.
Variable grow : Z -> Z -> Z.
Lemma search_To k p a b x y : Forall ks_char k -> ascii_nonletter p = true -> Forall in_repertoire a -> Forall in_repertoire b ->
  To grow (utf8 (k ++ p :: a)) = Ok (inl x) -> To grow (utf8 b) = Ok (inl y) -> (occurs x y <-> occurs (k ++ p :: a) b).
Proof.
  intros Hk Hp Ha Hb Ex Ey.
  assert (R : Forall in_repertoire (k ++ p :: a)).
  { apply Forall_app. split; [eapply Forall_impl; [|exact Hk]; intros r (c & Hc & _); right; exists c; exact Hc|]. constructor; [left|exact Ha]. unfold ascii_nonletter in Hp. lia. }
  split; [|apply (C76_To_occurs_lemma grow); assumption].
  apply To_inv in Ex, Ey; try assumption. intros (u & v & E). eapply run_aligned; eassumption.
Qed.
Lemma suffix_To k b x y : Forall ks_char k -> Forall in_repertoire b -> To grow (utf8 k) = Ok (inl x) -> To grow (utf8 b) = Ok (inl y) ->
  (is_suffix x y <-> is_suffix k b).
Proof.
  intros Hk Hb Ex Ey. apply To_inv in Ex, Ey; [apply run_suffix; assumption|exact Hb|].
  eapply Forall_impl; [|exact Hk]; intros r (c & Hc & _); right; exists c; exact Hc.
Qed.
Lemma letterless_To a b x y : Forall in_repertoire a -> Forall in_repertoire b ->
  Forall (fun r => is_letter_byte r = false) a -> Forall (fun r => is_letter_byte r = false) b ->
  To grow (utf8 a) = Ok (inl x) -> To grow (utf8 b) = Ok (inl y) -> (is_suffix x y <-> is_suffix a b).
Proof. intros Ha Hb La Lb Ex Ey. apply To_inv in Ex, Ey; [|assumption..]. apply letterless_suffix; assumption. Qed.
End Grow.
(** 0x8141 and the letter A; and 0xB041, which ends the text of the code 0x81B0 and the letter A *)
Lemma suffix_refuted :
  (exists a b x y, (forall grow, To grow (utf8 a) = Ok (inl x) /\ To grow (utf8 b) = Ok (inl y)) /\ Forall is_syllable b /\ is_suffix x y /\ ~ is_suffix a b) /\
  (exists a b x y, (forall grow, To grow (utf8 a) = Ok (inl x) /\ To grow (utf8 b) = Ok (inl y)) /\ Forall is_syllable a /\ is_suffix x y /\ ~ is_suffix a b).
Proof.
  assert (Hs : forall c, 0xAC00 <= c <= 0xD7A3 -> is_syllable c) by (unfold is_syllable; lia). split.
  - exists [0x41], [0xAC02], [0x41], [0x81; 0x41]. split.
    { intros grow. split; apply To_encodes; [apply enc_ascii; [lia|constructor]|].
      apply (enc_code 0x8141 0xAC02 [] []); [apply assigned_by; vm_compute; reflexivity|constructor]. }
    split; [constructor; [apply Hs; lia|constructor]|]. split; [exists [0x81]; reflexivity|].
    intros [q E]. destruct q as [|q0 [|q1 q]]; discriminate.
  - assert (exists v, tget dec_tree 0xB041 = Some v /\ 0xAC00 <= v <= 0xD7A3) as (v & Hv & Rv) by (eexists; split; [vm_compute; reflexivity|split; vm_compute; discriminate]).
    assert (exists v, tget dec_tree 0x81B0 = Some v /\ 0xAC00 <= v <= 0xD7A3) as (w & Hw & Rw) by (eexists; split; [vm_compute; reflexivity|split; vm_compute; discriminate]).
    apply assigned_by in Hv, Hw.
    exists [v], [w; 0x41], [0xB0; 0x41], [0x81; 0xB0; 0x41]. split.
    { intros grow. split; apply To_encodes.
      - apply (enc_code 0xB041 v [] []); [exact Hv|constructor].
      - apply (enc_code 0x81B0 w [0x41] [0x41]); [exact Hw|]. apply enc_ascii; [lia|constructor]. }
    split; [constructor; [apply Hs; exact Rv|constructor]|]. split; [exists [0x81]; reflexivity|].
    intros [q E]. destruct q as [|q0 [|q1 [|q2 q]]]; try discriminate. injection E as _ E. lia.
Qed.
Lemma suffix_complete grow a b x y : Forall in_repertoire a -> Forall in_repertoire b ->
  To grow (utf8 a) = Ok (inl x) -> To grow (utf8 b) = Ok (inl y) -> is_suffix a b -> is_suffix x y.
Proof. intros Ha Hb Ex Ey. apply To_inv in Ex, Ey; [|assumption..]. apply suffix_up; assumption. Qed.
