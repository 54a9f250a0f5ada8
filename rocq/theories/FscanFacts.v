(** Words read from a Reader with fmt.Fscan: lemmas behind C170. *)
From Coq Require Import ZArith List Bool Lia.
From Coq Require Import ZifyBool.
From Verif Require Import Base Spec Facts Utf8 Utf8Facts SliceFacts SpecCp949 SpecIO SpecWords Cp949Model StreamModel
  Cp949Facts StreamFacts StreamFacts2 ClientModel BufioModel BufioFacts2 WordModel WordFacts FscanModel.
Import ListNotations.
Local Open Scope Z_scope.
Local Open Scope list_scope.

Lemma FullRune_char r : is_scalar r -> FullRune (utf8_char r) = true.
Proof.
  intros Hr. destruct (utf8_char_cases r Hr) as [[H ->]|[[H ->]|[(H & _ & ->)|[H ->]]]]; unfold FullRune.
  - replace (r <? 0x80) with true by lia. reflexivity.
  - assert (2 <= r / 64 < 32) by (split; [apply Z.div_le_lower_bound|apply Z.div_lt_upper_bound]; lia).
    destruct (_ <? _); [reflexivity|]. rewrite first_info_2 by lia. reflexivity.
  - assert (0 <= r / 4096 < 16) by (split; [apply Z.div_le_lower_bound|apply Z.div_lt_upper_bound]; lia).
    destruct (_ <? _); [reflexivity|]. rewrite first_info_3 by lia. reflexivity.
  - assert (0 <= r / 262144 <= 4) by (split; [apply Z.div_le_lower_bound|apply Z.lt_succ_r, Z.div_lt_upper_bound]; lia).
    destruct (_ <? _); [reflexivity|]. rewrite first_info_4 by lia. reflexivity.
Qed.

Section Words.
Variable grow : Z -> Z -> Z.
Variable RS : Type.
Variable rd : RS -> Z -> list Z * option error * RS.
Variable e : error.
Variable n fuel rfuel : nat.
Hypothesis Hfuel : (n + 4 <= fuel)%nat.
Hypothesis Hrfuel : (2 <= rfuel)%nat.
Variable no_word : error.
Notation read := (Read grow RS rd fuel).
Notation Inv := (inv RS rd false e n).
Notation scan := (scan (reader RS)).
Notation mk := (mkScan (reader RS)).
Notation getRune := (getRune (reader RS) read rfuel).
Notation readByte := (readByte (reader RS) read rfuel).
Notation src := (src (reader RS)).
Notation pend := (pend (reader RS)).
Notation peek := (peek (reader RS)).
Notation at_eof := (at_eof (reader RS)).

Lemma read_one s b rem : Inv s (b :: rem) ->
  exists s', ReadFull (reader RS) read rfuel s 1 = Ok ([b], None, s') /\ Inv s' rem.
Proof.
  intros H. destruct (read_step grow RS rd false e 1 ltac:(lia) n s (b :: rem) fuel H Hfuel) as (p & err & s' & rem' & Er & Hl & Hb & Hi & Hres).
  cbn in Hb. destruct err as [e'|]; [destruct Hres as (_ & -> & -> & _); discriminate|]. destruct Hres as [Hp|Hp]; [|lia].
  destruct p as [|x p]; [congruence|]. destruct p as [|y p]; [|rewrite !zlen_cons in Hl; pose proof (zlen_nonneg p); lia].
  cbn [app] in Hb. apply cons_eq in Hb as [-> ->]. exists s'. split; [|exact Hi].
  unfold ReadFull. destruct rfuel as [|[|f]]; [lia|lia|]. cbn [read_full]. change (zlen [] <? 1) with true. cbv iota.
  change (1 - zlen []) with 1. rewrite Er. reflexivity.
Qed.
Lemma read_none s : Inv s [] ->
  exists s', ReadFull (reader RS) read rfuel s 1 = Ok ([], Some e, s') /\ Inv s' [].
Proof.
  intros H. destruct (read_step grow RS rd false e 1 ltac:(lia) n s [] fuel H Hfuel) as (p & err & s' & rem' & Er & Hl & Hb & Hi & Hres).
  cbn in Hb. apply app_eq_nil in Hb as [-> ->]. destruct err as [e'|]; [|destruct Hres; [congruence|lia]]. destruct Hres as (-> & _).
  exists s'. split; [|exact Hi]. unfold ReadFull. destruct rfuel as [|f]; [lia|]. cbn [read_full]. change (zlen [] <? 1) with true. cbv iota.
  change (1 - zlen []) with 1. rewrite Er. cbn [bind app]. change (1 <=? zlen []) with false. cbv iota. destruct e; reflexivity.
Qed.

(** [rs] is what is left, with the character that was put back. *)
Definition left_in (st : scan) (rs : list Z) : Prop :=
  Forall is_scalar rs /\ pend st = [] /\
  ((peek st < 0 /\ Inv (src st) (utf8 rs) /\ (at_eof st = true -> rs = [] /\ e = EOF)) \/
   (exists rs', rs = peek st :: rs' /\ at_eof st = false /\ Inv (src st) (utf8 rs'))).

Lemma byte_one st b rem : pend st = [] -> Inv (src st) (b :: rem) ->
  exists s', readByte st = Ok (b, None, mk s' [] (peek st) (at_eof st)) /\ Inv s' rem.
Proof.
  intros Hp H. destruct (read_one _ _ _ H) as (s' & E & Hi). exists s'. split; [|exact Hi].
  unfold FscanModel.readByte. rewrite Hp, E. reflexivity.
Qed.
Lemma complete_spec r rem : is_scalar r -> forall q p k st, utf8_char r = p ++ q -> p <> [] -> (length q <= k)%nat ->
  pend st = [] -> Inv (src st) (q ++ rem) ->
  exists s', complete (reader RS) read rfuel k p st = Ok (utf8_char r, None, mk s' [] (peek st) (at_eof st)) /\ Inv s' rem.
Proof.
  intros Hr. induction q as [|b q IH]; intros p k st E Hne Hk Hp Hi.
  - rewrite app_nil_r in E. exists (src st). split; [|exact Hi].
    assert (Est : mk (src st) [] (peek st) (at_eof st) = st) by (destruct st; cbn in *; subst; reflexivity). rewrite Est, E.
    destruct k as [|k]; [reflexivity|]. cbn [complete]. rewrite <- E, FullRune_char by exact Hr. reflexivity.
  - destruct k as [|k]; [cbn in Hk; lia|]. cbn [complete].
    destruct (incomplete r p (b :: q) Hr E Hne ltac:(discriminate)) as (b0 & p' & _ & _ & _ & ->).
    destruct (byte_one st b (q ++ rem) Hp Hi) as (s1 & -> & Hi1). cbn [bind].
    destruct (IH (p ++ [b]) k (mk s1 [] (peek st) (at_eof st))) as (s' & E' & Hi').
    + rewrite <- app_assoc. exact E.
    + intros X. apply app_eq_nil in X as [_ X]. discriminate.
    + cbn in Hk. lia.
    + reflexivity.
    + exact Hi1.
    + exists s'. auto.
Qed.

Lemma get_some st r rs : left_in st (r :: rs) -> exists st', getRune st = Ok (inl (Some r), st') /\
  left_in st' rs /\ left_in (unread _ st') (r :: rs) /\ Inv (src st') (utf8 rs).
Proof.
  intros (Hs & Hp & H). pose proof (Forall_inv Hs) as Hr. pose proof (Forall_inv_tail Hs) as Hs'.
  assert (Hr0 : 0 <= r) by (unfold is_scalar in Hr; lia).
  assert (Goal : exists s', getRune st = Ok (inl (Some r), mk s' [] (- r - 1) false) /\ Inv s' (utf8 rs)).
  { unfold FscanModel.getRune. destruct H as [(Hk & Hi & He)|(rs' & E & He & Hi)].
    - destruct (at_eof st) eqn:Ea; [destruct (He eq_refl); discriminate|]. unfold readRune.
      replace (0 <=? peek st) with false by lia. rewrite utf8_cons in Hi.
      destruct (utf8_char r) as [|b q] eqn:Eu; [exfalso; destruct (utf8_char_cases r Hr) as [[_ X]|[[_ X]|[(_ & _ & X)|[_ X]]]]; congruence|].
      cbn [app] in Hi. destruct (byte_one st b _ Hp Hi) as (s1 & -> & Hi1). cbn [bind].
      destruct (Z.ltb_spec b 0x80) as [Hb|Hb].
      + assert (E : b = r /\ q = []).
        { destruct (utf8_char_cases r Hr) as [[_ X]|[[H X]|[(H & _ & X)|[H X]]]]; rewrite Eu in X; apply cons_eq in X as [X1 X2]; [auto|exfalso..].
          - assert (2 <= r / 64) by (apply Z.div_le_lower_bound; lia). lia.
          - assert (0 <= r / 4096) by (apply Z.div_pos; lia). lia.
          - assert (0 <= r / 262144) by (apply Z.div_pos; lia). lia. }
        destruct E as [-> ->]. exists s1. rewrite Ea. split; [reflexivity|exact Hi1].
      + destruct (complete_spec r (utf8 rs) Hr q [b] 3%nat (mk s1 [] (peek st) (at_eof st))) as (s2 & -> & Hi2).
        * exact Eu.
        * discriminate.
        * pose proof (EncodeRune_len r) as Hl. rewrite (EncodeRune_scalar r Hr), Eu, zlen_cons in Hl. unfold zlen in Hl. lia.
        * reflexivity.
        * exact Hi1.
        * cbn [bind]. pose proof (DecodeRune_char r [] Hr) as D. rewrite app_nil_r in D. rewrite D. cbn [FscanModel.src FscanModel.pend FscanModel.at_eof app].
          exists s2. rewrite Ea. replace (zdrop (zlen (utf8_char r)) (utf8_char r)) with (@nil Z); [split; [reflexivity|exact Hi2]|].
          unfold zdrop, zlen. rewrite Nat2Z.id, skipn_all. reflexivity.
    - apply cons_eq in E as [E1 E2]. subst rs'. rewrite He. unfold readRune. rewrite <- E1. replace (0 <=? r) with true by lia.
      cbn [bind]. rewrite He, Hp. exists (src st). split; [reflexivity|exact Hi]. }
  destruct Goal as (s' & E & Hi). exists (mk s' [] (- r - 1) false). split; [exact E|]. split; [|split; [|exact Hi]].
  - split; [exact Hs'|]. split; [reflexivity|]. apply or_introl. cbn. split; [lia|]. split; [exact Hi|discriminate].
  - split; [exact Hs|]. split; [reflexivity|]. apply or_intror. exists rs. unfold unread. cbn. replace (0 <=? - r - 1) with false by lia.
    split; [|split; [reflexivity|exact Hi]]. replace (- (- r - 1) - 1) with r by lia. reflexivity.
Qed.
Lemma get_none st : left_in st [] -> exists st', getRune st = Ok (match e with EOF => inl None | _ => inr e end, st') /\ left_in st' [].
Proof.
  intros (Hs & Hp & [(Hk & Hi & He)|(rs' & E & _)]); [|discriminate]. unfold FscanModel.getRune. destruct (at_eof st) eqn:Ea.
  - destruct (He eq_refl) as [_ Ee]. exists st. rewrite Ee. split; [reflexivity|]. split; [exact Hs|]. split; [exact Hp|].
    apply or_introl. split; [exact Hk|]. split; [exact Hi|]. intros _. auto.
  - unfold readRune. replace (0 <=? peek st) with false by lia. unfold FscanModel.readByte. rewrite Hp.
    destruct (read_none _ Hi) as (s' & -> & Hi'). cbn [bind]. rewrite Ea.
    assert (Hx : e = EOF \/ e <> EOF) by (destruct e; (now left) || (right; discriminate)). destruct Hx as [Ee|Ee].
    + rewrite Ee. eexists. split; [reflexivity|]. split; [constructor|]. split; [reflexivity|]. apply or_introl. cbn. auto.
    + exists (mk s' [] (peek st) false). split; [destruct e; congruence || reflexivity|]. split; [constructor|]. split; [reflexivity|].
      apply or_introl. cbn. split; [exact Hk|]. split; [exact Hi'|discriminate].
Qed.
Lemma other {A} (a : A) (f : A) : e <> EOF -> match e with EOF => a | _ => f end = f.
Proof. intros H. destruct e; congruence. Qed.

Definition starts_word (rest : list Z) : Prop := match rest with [] => True | r :: _ => ~ white r end.
Lemma skip_spec sp rest : Forall white sp -> starts_word rest -> forall f st, left_in st (sp ++ rest) -> (length sp < f)%nat ->
  exists st', SkipSpace (reader RS) read rfuel f st =
    Ok (match rest with [] => match e with EOF => None | _ => Some e end | _ => None end, st') /\ left_in st' rest.
Proof.
  intros Hsp Hrest. induction Hsp as [|r sp Hr Hsp IH]; intros f st Hl Hf; (destruct f as [|f]; [cbn in Hf; lia|]); cbn [SkipSpace].
  - cbn [app] in Hl. destruct rest as [|r rest].
    + destruct (get_none st Hl) as (st' & -> & Hl'). exists st'. split; [destruct e; reflexivity|exact Hl'].
    + destruct (get_some st r rest Hl) as (st' & -> & _ & Hl' & _). cbn [bind]. cbn in Hrest.
      assert (r <> 13) by (intros ->; apply Hrest; unfold white; lia).
      replace (r =? 13) with false by lia. rewrite isSpace_no by exact Hrest. exists (unread _ st'). auto.
  - cbn [app] in Hl. destruct (get_some st r _ Hl) as (st' & -> & Hl' & _). cbn [bind].
    destruct (Z.eqb_spec r 13) as [->|Hn].
    + destruct (sp ++ rest) as [|c l] eqn:E.
      * apply app_eq_nil in E as [-> ->]. destruct (get_none st' Hl') as (st2 & -> & Hl2). cbn [bind].
        assert (Hx : e = EOF \/ e <> EOF) by (destruct e; (now left) || (right; discriminate)). destruct Hx as [Ee|Ee].
        -- destruct (IH f st2 Hl2) as (st3 & E3 & Hl3); [cbn in *; lia|]. rewrite Ee in *. exists st3. split; [exact E3|exact Hl3].
        -- rewrite !other by exact Ee. exists st2. auto.
      * destruct (get_some st' c l Hl') as (st2 & -> & _ & Hl2 & _). cbn [bind]. apply IH; [exact Hl2|cbn in Hf; lia].
    + rewrite (proj2 (isSpace_spec r) Hr). apply IH; [exact Hl'|cbn in Hf; lia].
Qed.
Lemma token_spec w : Forall (fun r => ~ white r) w -> forall rest f buf st, match rest with [] => True | c :: _ => white c end ->
  left_in st (w ++ rest) -> (length w < f)%nat ->
  exists st', token (reader RS) read rfuel f buf st =
    Ok (match rest with [] => match e with EOF => inl (buf ++ utf8 w) | _ => inr e end | _ => inl (buf ++ utf8 w) end, st') /\
    Inv (src st') (utf8 (tl rest)).
Proof.
  intros Hw. induction Hw as [|r w Hr Hw IH]; intros rest f buf st Hrest Hl Hf; (destruct f as [|f]; [cbn in Hf; lia|]); cbn [token].
  - cbn [app] in Hl. rewrite app_nil_r. destruct rest as [|c rest].
    + destruct (get_none st Hl) as (st' & -> & Hl'). exists st'. split; [destruct e; reflexivity|].
      destruct Hl' as (_ & _ & [(_ & Hi & _)|(rs' & X & _)]); [exact Hi|discriminate].
    + destruct (get_some st c rest Hl) as (st' & -> & _ & _ & Hi). cbn [bind]. rewrite (proj2 (isSpace_spec c) Hrest).
      exists (unread _ st'). split; [reflexivity|exact Hi].
  - cbn [app] in Hl. destruct (get_some st r _ Hl) as (st' & -> & Hl' & _). cbn [bind]. rewrite isSpace_no by exact Hr.
    destruct Hl as (Hs & _). rewrite (EncodeRune_scalar r (Forall_inv Hs)).
    destruct (IH rest f (buf ++ utf8_char r) st' Hrest Hl') as (st2 & E & Hi); [cbn in Hf; lia|]. exists st2. split; [|exact Hi].
    rewrite E, <- app_assoc, <- utf8_cons. reflexivity.
Qed.
Lemma new_left s rs : Forall is_scalar rs -> Inv s (utf8 rs) -> left_in (new_scan _ s) rs.
Proof. intros Hs Hi. split; [exact Hs|]. split; [reflexivity|]. apply or_introl. cbn. split; [lia|]. split; [exact Hi|discriminate]. Qed.

(** One call. *)
Lemma Fscan_word s sp w rest f : Forall white sp -> Forall (fun r => ~ white r) w -> w <> [] -> match rest with [] => True | c :: _ => white c end ->
  Forall is_scalar (sp ++ w ++ rest) -> Inv s (utf8 (sp ++ w ++ rest)) -> (length (sp ++ w ++ rest) < f)%nat ->
  exists s', Fscan (reader RS) read rfuel no_word f s =
    Ok (match rest with [] => match e with EOF => inl (utf8 w) | _ => inr e end | _ => inl (utf8 w) end, s') /\ Inv s' (utf8 (tl rest)).
Proof.
  intros Hsp Hw Hne Hrest Hs Hi Hf. rewrite !app_length in Hf. unfold Fscan.
  destruct w as [|r w]; [congruence|]. assert (Hstart : starts_word ((r :: w) ++ rest)) by exact (Forall_inv Hw).
  destruct (skip_spec sp ((r :: w) ++ rest) Hsp Hstart f (new_scan _ s) (new_left _ _ Hs Hi)) as (st1 & -> & Hl1); [lia|]. cbn [app bind].
  destruct (get_some st1 r (w ++ rest) Hl1) as (st2 & -> & _ & Hl2 & _). cbn [bind].
  destruct (skip_spec [] ((r :: w) ++ rest) ltac:(constructor) Hstart f (unread _ st2) Hl2) as (st3 & -> & Hl3); [cbn in *; lia|]. cbn [app bind].
  destruct (token_spec (r :: w) Hw rest f [] st3 Hrest Hl3) as (st4 & -> & Hi4); [lia|]. cbn [bind app]. exists (src st4). auto.
Qed.
Lemma Fscan_none s sp f : Forall white sp -> Forall is_scalar sp -> Inv s (utf8 sp) -> (length sp < f)%nat ->
  exists s', Fscan (reader RS) read rfuel no_word f s = Ok (inr (match e with EOF => no_word | _ => e end), s').
Proof.
  intros Hsp Hs Hi Hf. unfold Fscan. assert (Hi' : left_in (new_scan _ s) (sp ++ [])) by (rewrite app_nil_r; apply new_left; assumption).
  destruct (skip_spec sp [] Hsp I f _ Hi' Hf) as (st1 & -> & Hl1). cbn [bind].
  assert (Hx : e = EOF \/ e <> EOF) by (destruct e; (now left) || (right; discriminate)). destruct Hx as [Ee|Ee].
  - destruct (get_none st1 Hl1) as (st2 & E2 & _). rewrite Ee in *. rewrite E2. cbn [bind]. eauto.
  - rewrite !other by exact Ee. eauto.
Qed.

(** All of them. *)
Lemma fscan_eof : e = EOF -> forall rs ws, is_words rs ws -> forall s m f, Forall is_scalar rs -> Inv s (utf8 rs) -> (length rs < f)%nat -> (length ws < m)%nat ->
  fscan_all (reader RS) read rfuel no_word m f s = Ok (map utf8 ws, no_word).
Proof.
  intros Ee rs ws H. induction H as [sp Hsp|sp w Hsp Hne Hw|sp w c text ws Hsp Hne Hw Hc H IH]; intros s m f Hs Hi Hf Hm;
    (destruct m as [|m]; [cbn in Hm; lia|]); cbn [fscan_all map].
  - destruct (Fscan_none s sp f Hsp Hs Hi Hf) as (s' & ->). rewrite Ee. reflexivity.
  - rewrite <- (app_nil_r w) in Hs, Hi, Hf. destruct (Fscan_word s sp w [] f Hsp Hw Hne I Hs Hi Hf) as (s' & -> & Hi'). cbn [tl] in Hi'.
    rewrite Ee. cbn [bind]. destruct m as [|m]; [cbn in Hm; lia|]. cbn [fscan_all].
    destruct (Fscan_none s' [] f ltac:(constructor) ltac:(constructor) Hi') as (s2 & ->); [rewrite !app_length in Hf; cbn; lia|]. rewrite Ee. reflexivity.
  - destruct (Fscan_word s sp w (c :: text) f Hsp Hw Hne Hc Hs Hi Hf) as (s' & -> & Hi'). cbn [tl bind] in *.
    rewrite (IH s' m f); [reflexivity| |exact Hi'|rewrite !app_length in Hf; cbn in Hf; lia|cbn in Hm; lia].
    apply Forall_app in Hs as [_ Hs]. apply Forall_app in Hs as [_ Hs]. exact (Forall_inv_tail Hs).
Qed.
Lemma fscan_other : e <> EOF -> forall w, Forall (fun r => ~ white r) w -> forall rs ws, is_words rs ws -> (forall a x, rs = a ++ [x] -> white x) ->
  forall s m f, Forall is_scalar (rs ++ w) -> Inv s (utf8 (rs ++ w)) -> (length (rs ++ w) < f)%nat -> (length ws < m)%nat ->
  fscan_all (reader RS) read rfuel no_word m f s = Ok (map utf8 ws, e).
Proof.
  intros Ee w Hw rs ws H. induction H as [sp Hsp|sp w0 Hsp Hne Hw0|sp w0 c text ws Hsp Hne Hw0 Hc H IH]; intros Hend s m f Hs Hi Hf Hm;
    (destruct m as [|m]; [cbn in Hm; lia|]); cbn [fscan_all map].
  - destruct w as [|r w].
    + rewrite app_nil_r in *. destruct (Fscan_none s sp f Hsp Hs Hi Hf) as (s' & ->). rewrite other by exact Ee. reflexivity.
    + rewrite <- (app_nil_r (r :: w)) in Hs, Hi, Hf. destruct (Fscan_word s sp (r :: w) [] f Hsp Hw ltac:(discriminate) I Hs Hi Hf) as (s' & -> & _).
      rewrite other by exact Ee. reflexivity.
  - exfalso. destruct (exists_last Hne) as (a & x & E). rewrite E in *. apply Forall_app in Hw0 as [_ Hx]. apply (Forall_inv Hx).
    apply (Hend (sp ++ a) x). rewrite <- app_assoc. reflexivity.
  - rewrite <- !app_assoc in Hs, Hi, Hf. cbn [app] in Hs, Hi, Hf.
    destruct (Fscan_word s sp w0 (c :: text ++ w) f Hsp Hw0 Hne Hc Hs Hi Hf) as (s' & -> & Hi'). cbn [tl bind] in *.
    rewrite (IH) with (m := m) (s := s') (f := f); [reflexivity| | |exact Hi'|rewrite !app_length in *; cbn in Hf; rewrite app_length in Hf; lia|cbn in Hm; lia].
    + intros a x ->. apply (Hend (sp ++ w0 ++ c :: a) x). rewrite <- !app_assoc. reflexivity.
    + apply Forall_app in Hs as [_ Hs]. apply Forall_app in Hs as [_ Hs]. exact (Forall_inv_tail Hs).
Qed.
End Words.

Lemma C170_eof_lemma grow RS (rd : RS -> Z -> list Z * option error * RS) no_word s stream rs ws fuel rfuel f m :
  delivers rd s stream EOF -> decodes stream rs -> is_words rs ws ->
  (length stream + 4 <= fuel)%nat -> (2 <= rfuel)%nat -> (length rs < f)%nat -> (length ws < m)%nat ->
  fscan_all (reader RS) (Read grow RS rd fuel) rfuel no_word m f (NewReader s) = Ok (map utf8 ws, no_word).
Proof.
  intros Hd Hrs Hw Hf Hr Hf2 Hm. apply (fscan_eof grow RS rd EOF (length stream) fuel rfuel Hf Hr no_word eq_refl rs ws Hw); try assumption.
  - exact (decodes_scalar _ _ Hrs).
  - apply new_reader_inv; [exact Hd|exact Hrs].
Qed.
Lemma C170_error_lemma grow RS (rd : RS -> Z -> list Z * option error * RS) no_word s stream e rs ws w fuel rfuel f m :
  delivers rd s stream e -> e <> EOF -> decodes stream (rs ++ w) -> is_words rs ws -> (forall a x, rs = a ++ [x] -> white x) -> Forall (fun r => ~ white r) w ->
  (length stream + 4 <= fuel)%nat -> (2 <= rfuel)%nat -> (length (rs ++ w) < f)%nat -> (length ws < m)%nat ->
  fscan_all (reader RS) (Read grow RS rd fuel) rfuel no_word m f (NewReader s) = Ok (map utf8 ws, e).
Proof.
  intros Hd He Hrs Hws Hend Hw Hf Hr Hf2 Hm. apply (fscan_other grow RS rd e (length stream) fuel rfuel Hf Hr no_word He w Hw rs ws Hws Hend); try assumption.
  - exact (decodes_scalar _ _ Hrs).
  - apply new_reader_inv; [exact Hd|exact Hrs].
Qed.
