(** The lemmas behind C144 and C145: bufio.Reader over a Reader. *)
From Coq Require Import ZArith List Bool Lia.
From Coq Require Import ZifyBool.
From Verif Require Import Base Spec Facts Utf8 Utf8Facts SpecCp949 SpecIO Cp949Model StreamModel IoModel
  SliceFacts Cp949Facts Cp949Facts2 BufioModel BufioFacts2 BufReaderModel SpecPieces PipeFacts ComposeFacts TableFrom TableTo.
Import ListNotations.
Local Open Scope Z_scope.
Local Opaque fromTable toTable.

Lemma first_of d (l : list Z) : In d l -> exists a t, l = a ++ d :: t /\ ~ In d a.
Proof.
  induction l as [|x l IH]; intros H; [destruct H|]. destruct (Z.eq_dec x d) as [->|N]; [exists [], l; auto|].
  destruct H as [H|H]; [congruence|]. destruct (IH H) as (a & t & -> & Ha). exists (x :: a), t. split; [reflexivity|].
  intros [E|E]; auto.
Qed.

Section Reader.
Variable S : Type.
Variable rd : S -> Z -> list Z * option error * S.
Variable e : error.
Variable size : Z.
Hypothesis Hsize : 0 < size.
Notation fill := (fill S rd).
Notation bufreader := (bufreader S).

(** The bytes not yet handed out. *)
Definition holds (b : bufreader) (rem : list Z) : Prop :=
  br_size S b = size /\ zlen (br_buf S b) <= size /\ exists rest, rem = br_buf S b ++ rest /\
  match br_err S b with Some e' => e' = e /\ rest = [] | None => delivers rd (br_src S b) rest e end.

Lemma new_holds s bytes : delivers rd s bytes e -> holds (NewBufReader size s) bytes.
Proof. intros H. split; [reflexivity|]. split; [cbn; lia|]. exists bytes. auto. Qed.

Lemma fill_holds b rem : holds b rem -> br_err S b = None -> zlen (br_buf S b) < size ->
  exists b', fill b = Ok b' /\ holds b' rem /\ is_prefix (br_buf S b) (br_buf S b') /\
    (br_err S b' = None -> zlen (br_buf S b) < zlen (br_buf S b')).
Proof.
  intros (Es & Hl & rest & -> & Hd) He Hlt. rewrite He in Hd. unfold BufReaderModel.fill. rewrite Es.
  destruct (Z.leb_spec size (zlen (br_buf S b))); [lia|].
  change (Z.to_nat maxConsecutiveEmptyReads) with (Datatypes.S 99). generalize 99%nat. intros loop. cbn [fill_reads]. rewrite Es.
  apply delivers_answers in Hd. specialize (Hd (size - zlen (br_buf S b)) ltac:(lia)).
  destruct (rd (br_src S b) _) as [[bs err] src]. destruct Hd as (Hb & Hd).
  destruct (Z.ltb_spec (size - zlen (br_buf S b)) (zlen bs)); [lia|]. cbn [br_size br_buf br_src br_err].
  destruct err as [e'|].
  - destruct Hd as [-> ->]. eexists. split; [reflexivity|]. cbn [br_size br_buf br_src br_err]. split.
    + split; [reflexivity|]. cbn [br_buf]. rewrite zlen_app. split; [lia|]. exists []. rewrite app_nil_r. cbn [br_err]. auto.
    + split; [exists rest; reflexivity|discriminate].
  - destruct Hd as (Hc & more & -> & Hd). assert (0 < zlen bs) by (destruct bs; [congruence|]; rewrite zlen_cons; pose proof (zlen_nonneg bs); lia).
    destruct (Z.ltb_spec 0 (zlen bs)); [|lia]. eexists. split; [reflexivity|]. cbn [br_size br_buf br_src br_err]. rewrite zlen_app. split.
    + split; [reflexivity|]. cbn [br_buf br_err br_src]. rewrite zlen_app, He. split; [lia|]. exists more. rewrite app_assoc. auto.
    + split; [exists bs; reflexivity|lia].
Qed.

Lemma holds_err b rem : holds b rem -> br_err S b <> None -> br_err S b = Some e /\ rem = br_buf S b.
Proof.
  intros (_ & _ & rest & -> & H) N. destruct (br_err S b) as [e'|]; [|congruence]. destruct H as [-> ->]. rewrite app_nil_r. auto.
Qed.
Lemma holds_advance b n rem : holds b (ztake n (br_buf S b) ++ rem) -> 0 <= n <= zlen (br_buf S b) -> holds (advance S b n) rem.
Proof.
  intros (Es & Hl & rest & E & H) Hn. split; [exact Es|]. cbn [advance br_buf br_err br_src]. rewrite zlen_zdrop by lia.
  split; [lia|]. exists rest. split; [|exact H].
  apply (app_inv_head (ztake n (br_buf S b))). rewrite app_assoc, ztake_zdrop. exact E.
Qed.

(* how much is still to come, for induction *)
Definition outstanding (b : bufreader) (rem : list Z) : nat :=
  (Z.to_nat (zlen rem - zlen (br_buf S b)) + match br_err S b with None => 1 | Some _ => 0 end)%nat.
Lemma holds_zlen b rem : holds b rem -> zlen (br_buf S b) <= zlen rem.
Proof. intros (_ & _ & rest & -> & _). rewrite zlen_app. pose proof (zlen_nonneg rest). lia. Qed.
Lemma fill_less b rem : holds b rem -> br_err S b = None -> zlen (br_buf S b) < size ->
  exists b', fill b = Ok b' /\ holds b' rem /\ is_prefix (br_buf S b) (br_buf S b') /\ (outstanding b' rem < outstanding b rem)%nat.
Proof.
  intros H He Hl. destruct (fill_holds b rem H He Hl) as (b' & E & H' & Hp & Hlt). exists b'. split; [exact E|]. split; [exact H'|].
  split; [exact Hp|]. unfold outstanding. rewrite He. pose proof (holds_zlen _ _ H). pose proof (holds_zlen _ _ H').
  destruct Hp as [q Eq]. rewrite Eq, zlen_app in *. pose proof (zlen_nonneg q). destruct (br_err S b'); [lia|]. specialize (Hlt eq_refl). lia.
Qed.

(** ** ReadByte *)
Lemma ReadByte_spec fuel : forall b rem, holds b rem -> (outstanding b rem < fuel)%nat ->
  exists c err b', ReadByte S rd fuel b = Ok (c, err, b') /\
    match rem with
    | [] => c = 0 /\ err = Some e
    | c' :: rem' => c = c' /\ err = None /\ holds b' rem'
    end.
Proof.
  induction fuel as [|fuel IH]; intros b rem H Hf; [lia|]. cbn [ReadByte]. destruct (br_buf S b) as [|c buf] eqn:Eb.
  - destruct (br_err S b) as [e'|] eqn:Ee.
    + destruct (holds_err b rem H ltac:(congruence)) as [E ->]. rewrite Eb. unfold readErr.
      do 3 eexists. split; [reflexivity|]. rewrite E. auto.
    + destruct (fill_less b rem H Ee) as (b' & E & H' & _ & Hlt); [rewrite Eb; cbn; lia|]. rewrite E. cbn [bind].
      apply IH; [exact H'|lia].
  - destruct H as (Es & Hl & rest & -> & H). rewrite Eb in *. do 3 eexists. split; [reflexivity|].
    cbn [app]. split; [reflexivity|]. split; [reflexivity|]. split; [exact Es|]. cbn [advance br_buf br_err br_src]. rewrite Eb.
    change (zdrop 1 (c :: buf)) with buf. rewrite zlen_cons in Hl. split; [lia|]. exists rest. auto.
Qed.
Lemma outstanding_le b rem : (outstanding b rem <= length rem + 1)%nat.
Proof. unfold outstanding, zlen. destruct (br_err S b); lia. Qed.

Lemma ReadBytes_spec fuel : forall n b rem, holds b rem -> (length rem + 1 < fuel)%nat -> (length rem < n)%nat ->
  ReadBytes1 S rd n fuel b = Ok (rem, Some e).
Proof.
  induction n as [|n IH]; intros b rem H Hf Hn; [lia|]. cbn [ReadBytes1]. pose proof (outstanding_le b rem).
  destruct (ReadByte_spec fuel b rem H ltac:(lia)) as (c & err & b' & E & Hr). rewrite E. cbn [bind].
  destruct rem as [|c' rem]; [destruct Hr as [-> ->]; reflexivity|]. destruct Hr as (-> & -> & H'). cbn [length] in *.
  rewrite (IH b' rem H') by lia. reflexivity.
Qed.

(** ** ReadRune *)
Lemma ReadRune_spec (Hs4 : 4 <= size) fuel : forall b rs, holds b (utf8 rs) -> Forall is_scalar rs -> (outstanding b (utf8 rs) < fuel)%nat ->
  exists r sz err b', ReadRune S rd fuel b = Ok (r, sz, err, b') /\
    match rs with
    | [] => r = 0 /\ sz = 0 /\ err = Some e
    | r' :: rs' => r = r' /\ sz = zlen (utf8_char r) /\ err = None /\ holds b' (utf8 rs')
    end.
Proof.
  induction fuel as [|fuel IH]; intros b rs H Hrs Hf; [lia|]. cbn [ReadRune].
  pose proof H as (Es & Hl & rest & Er & Hd).
  destruct (_ && _)%bool eqn:C.
  - apply andb_prop in C as [C C4]. apply andb_prop in C as [C C3]. apply andb_prop in C as [C1 C2].
    destruct (br_err S b) eqn:Ee; [discriminate|]. apply Z.ltb_lt in C4. rewrite Es in C4.
    destruct (fill_less b _ H Ee C4) as (b' & E & H' & _ & Hlt). rewrite E. cbn [bind]. apply IH; [exact H'|exact Hrs|lia].
  - destruct rs as [|r rs].
    + cbn in Er. symmetry in Er. apply app_eq_nil in Er as [Eb ->]. rewrite Eb in *. unfold readErr.
      destruct (br_err S b) as [e'|] eqn:Ee.
      * destruct Hd as [-> _]. do 4 eexists. split; [reflexivity|]. auto.
      * cbn in C. rewrite Es in C. destruct (Z.ltb_spec 0 size); [discriminate|lia].
    + inversion Hrs as [|? ? Hr Hrs']; subst. cbn [utf8 flat_map] in Er. fold (utf8 rs) in Er.
      pose proof (utf8_char_len r) as Hcl.
      (* the first character is in the buffer *)
      assert (exists q, br_buf S b = utf8_char r ++ q) as [q Eq].
      { destruct (app_prefix_eq _ _ _ _ Er) as [[q Eq]|[q Eq]]; [exists q; exact Eq|].
        (* utf8_char r = br_buf ++ q *)
        destruct q as [|x q]; [exists []; rewrite app_nil_r in *; congruence|].
        assert (zlen (utf8_char r) = zlen (br_buf S b) + (1 + zlen q)) as HL by (rewrite Eq, zlen_app, zlen_cons; reflexivity).
        pose proof (zlen_nonneg q).
        destruct (Z.ltb_spec (zlen (br_buf S b)) UTFMax) as [_|]; [|unfold UTFMax in *; lia].
        rewrite Es in C. destruct (Z.ltb_spec (zlen (br_buf S b)) size) as [_|]; [|lia].
        destruct (br_err S b) as [e'|].
        - destruct Hd as [_ ->]. rewrite app_nil_r in Er. rewrite <- Er in HL. rewrite zlen_app in HL.
          pose proof (zlen_nonneg (utf8 rs)). lia.
        - destruct (br_buf S b) as [|c buf] eqn:Eb; [discriminate C|].
          destruct (incomplete r (c :: buf) (x :: q) Hr Eq ltac:(discriminate) ltac:(discriminate)) as (b0 & p' & _ & _ & _ & F).
          rewrite F in C. discriminate C. }
      destruct (br_buf S b) as [|c buf] eqn:Eb.
      { symmetry in Eq. apply app_eq_nil in Eq as [Eq _]. destruct (utf8_char_nonempty r Eq). }
      assert ((if c <? 0x80 then (c, 1) else DecodeRune (c :: buf)) = (r, zlen (utf8_char r))) as ED.
      { rewrite Eq. rewrite DecodeRune_char by exact Hr. destruct (Z.ltb_spec c 0x80) as [Hc|]; [|reflexivity].
        destruct (utf8_char_cases r Hr) as [[H1 E1]|[[H1 E1]|[(H1 & _ & E1)|[H1 E1]]]]; rewrite E1 in Eq |- *; cbn [app] in Eq;
          apply cons_eq in Eq as [-> _].
        - reflexivity.
        - pose proof (Z.div_pos r 64 ltac:(lia) ltac:(lia)). lia.
        - pose proof (Z.div_pos r 4096 ltac:(lia) ltac:(lia)). lia.
        - pose proof (Z.div_pos r 262144 ltac:(lia) ltac:(lia)). lia. }
      rewrite ED. do 4 eexists. split; [reflexivity|]. split; [reflexivity|]. split; [reflexivity|]. split; [reflexivity|].
      apply holds_advance; rewrite Eb, Eq; [|rewrite zlen_app; pose proof (zlen_nonneg q); lia].
      rewrite ztake_app_exact by reflexivity. exact H.
Qed.

Lemma ReadRunes_spec (Hs4 : 4 <= size) fuel : forall n b rs, holds b (utf8 rs) -> Forall is_scalar rs ->
  (length (utf8 rs) + 1 < fuel)%nat -> (length rs < n)%nat ->
  ReadRunes S rd n fuel b = Ok (map (fun r => (r, zlen (utf8_char r))) rs, Some e).
Proof.
  induction n as [|n IH]; intros b rs H Hrs Hf Hn; [lia|]. cbn [ReadRunes]. pose proof (outstanding_le b (utf8 rs)).
  destruct (ReadRune_spec Hs4 fuel b rs H Hrs ltac:(lia)) as (r & sz & err & b' & E & Hr). rewrite E. cbn [bind].
  destruct rs as [|r' rs]; [destruct Hr as (_ & _ & ->); reflexivity|]. destruct Hr as (-> & -> & -> & H').
  inversion Hrs; subst. cbn [length] in *. cbn [utf8 flat_map] in Hf. rewrite app_length in Hf. fold (utf8 rs) in Hf.
  rewrite (IH b' rs) by (auto; lia). reflexivity.
Qed.

(** ** ReadSlice and ReadString *)
Lemma ReadSlice_spec d fuel : forall b rem, holds b rem -> (outstanding b rem < fuel)%nat ->
  exists line err b', ReadSlice S rd fuel d b = Ok (line, err, b') /\
    ((exists a rem', line = a ++ [d] /\ ~ In d a /\ err = None /\ rem = line ++ rem' /\ holds b' rem') \/
     (line = rem /\ ~ In d rem /\ err = Some e) \/
     (exists rem', line <> [] /\ ~ In d line /\ err = Some ErrBufferFull /\ rem = line ++ rem' /\ holds b' rem')).
Proof.
  induction fuel as [|fuel IH]; intros b rem H Hf; [lia|]. cbn [ReadSlice]. pose proof H as (Es & Hl & rest & Er & Hd).
  destruct (in_dec Z.eq_dec d (br_buf S b)) as [Hin|Hout].
  - destruct (first_of d _ Hin) as (a & t & Eb & Ha).
    assert (IndexByte (br_buf S b) d = zlen a) as Ei by (rewrite Eb; apply IndexByte_found; exact Ha). rewrite Ei.
    pose proof (zlen_nonneg a). destruct (Z.leb_spec 0 (zlen a)); [|lia].
    assert (ztake (zlen a + 1) (br_buf S b) = a ++ [d]) as Et.
    { rewrite Eb. change (d :: t) with ([d] ++ t). rewrite app_assoc. apply ztake_app_exact. rewrite zlen_app. reflexivity. }
    cbv zeta. rewrite Et. do 3 eexists. split; [reflexivity|]. left. exists a, (t ++ rest).
    split; [reflexivity|]. split; [exact Ha|]. split; [reflexivity|].
    assert (rem = (a ++ [d]) ++ t ++ rest) as Em by (rewrite Er, Eb, <- !app_assoc; reflexivity). split; [exact Em|].
    apply holds_advance; [rewrite Et, <- Em; exact H|]. rewrite Eb, zlen_app, zlen_cons. pose proof (zlen_nonneg t). lia.
  - rewrite (IndexByte_none d _ Hout). cbv zeta. cbn [Z.leb Z.compare]. destruct (br_err S b) as [e'|] eqn:Ee.
    + destruct (holds_err b rem H ltac:(congruence)) as [E ->]. unfold readErr, advance. cbn [br_err].
      do 3 eexists. split; [reflexivity|]. right. left. rewrite E. auto.
    + rewrite Es. destruct (Z.leb_spec size (zlen (br_buf S b))).
      * do 3 eexists. split; [reflexivity|]. right. right. exists rest. split.
        { intros E0. rewrite E0 in *. change (zlen (@nil Z)) with 0 in *. lia. }
        split; [exact Hout|]. split; [reflexivity|]. split; [exact Er|].
        apply holds_advance; [rewrite ztake_all by lia; rewrite <- Er; exact H|]. pose proof (zlen_nonneg (br_buf S b)). lia.
      * destruct (fill_less b rem H Ee ltac:(lia)) as (b' & E & H' & _ & Hlt). rewrite E. cbn [bind]. apply IH; [exact H'|lia].
Qed.

Hypothesis He : e <> ErrBufferFull.
Lemma is_full_e : is_full (Some e) = false.
Proof.
  destruct e as [| | | | |c] eqn:E; try reflexivity. cbn. destruct (Z.eqb_spec c (-8)) as [->|]; [|reflexivity].
  destruct He. reflexivity.
Qed.
Lemma ReadString_spec d fuel : forall b rem, holds b rem -> (length rem + 1 < fuel)%nat ->
  exists s err b', ReadString S rd fuel d b = Ok (s, err, b') /\
    ((exists a rem', s = a ++ [d] /\ ~ In d a /\ err = None /\ rem = s ++ rem' /\ holds b' rem') \/
     (s = rem /\ ~ In d rem /\ err = Some e)).
Proof.
  induction fuel as [|fuel IH]; intros b rem H Hf; [lia|]. cbn [ReadString].
  pose proof (outstanding_le b rem).
  destruct (ReadSlice_spec d (Datatypes.S fuel) b rem H ltac:(lia)) as (line & err & b' & E & Hc). rewrite E. cbn [bind].
  destruct Hc as [(a & rem' & -> & Ha & -> & -> & H')|[(-> & Hn & ->)|(rem' & Hne & Hn & -> & -> & H')]].
  - cbn [is_full]. do 3 eexists. split; [reflexivity|]. left. exists a, rem'. auto.
  - rewrite is_full_e. do 3 eexists. split; [reflexivity|]. auto.
  - cbn [is_full ErrBufferFull Z.eqb Pos.eqb]. rewrite app_length in Hf.
    assert (0 < length line)%nat by (destruct line; [congruence|cbn; lia]).
    destruct (IH b' rem' H' ltac:(lia)) as (s & err & b'' & E' & Hc). rewrite E'. cbn [bind]. do 3 eexists. split; [reflexivity|].
    destruct Hc as [(a & rem2 & -> & Ha & -> & -> & H2)|(-> & Hn2 & ->)].
    + left. exists (line ++ a), rem2. rewrite !app_assoc. split; [reflexivity|]. split; [|auto].
      intros Hi. apply in_app_or in Hi as [Hi|Hi]; auto.
    + right. split; [reflexivity|]. split; [|reflexivity]. intros Hi. apply in_app_or in Hi as [Hi|Hi]; auto.
Qed.
Lemma pieces_unique d a rem text ps : ~ In d a -> is_pieces d text ps -> text = (a ++ [d]) ++ rem ->
  exists ps', ps = (a ++ [d]) :: ps' /\ is_pieces d rem ps'.
Proof.
  intros Ha Hp E. inversion Hp as [l Hl E1 E2|l t ps' Hl Hp' E1 E2]; subst.
  - destruct Hl. apply in_or_app. left. apply in_or_app. right. left. reflexivity.
  - rewrite <- app_assoc in E1. cbn [app] in E1.
    assert (l = a /\ t = rem) as [-> ->]; [|eauto].
    { clear Hp Hp'. revert a Ha E1. induction l as [|x l IH]; intros [|y a] Ha E1; cbn [app] in E1.
      - apply cons_eq in E1 as [_ ->]. auto.
      - apply cons_eq in E1 as [-> _]. destruct Ha. left. reflexivity.
      - apply cons_eq in E1 as [-> _]. destruct Hl. left. reflexivity.
      - apply cons_eq in E1 as [-> E1]. destruct (IH ltac:(intros Hi; apply Hl; right; exact Hi) a ltac:(intros Hi; apply Ha; right; exact Hi) E1) as [-> ->]. auto. }
Qed.
Lemma ReadStrings_spec d fuel : forall n b rem ps, holds b rem -> is_pieces d rem ps -> (length rem + 1 < fuel)%nat -> (length rem < n)%nat ->
  ReadStrings S rd n fuel d b = Ok (ps, Some e).
Proof.
  induction n as [|n IH]; intros b rem ps H Hp Hf Hn; [lia|]. cbn [ReadStrings].
  destruct (ReadString_spec d fuel b rem H Hf) as (s & err & b' & E & Hc). rewrite E. cbn [bind].
  destruct Hc as [(a & rem' & -> & Ha & -> & Er & H')|(-> & Hni & ->)].
  - destruct (pieces_unique d a rem' rem ps Ha Hp Er) as (ps' & -> & Hp').
    rewrite Er, !app_length in Hf, Hn. cbn [length] in Hf, Hn. rewrite (IH b' rem' ps' H' Hp') by lia. reflexivity.
  - inversion Hp as [l Hl E1 E2|l t ps' Hl Hp' E1 E2]; subst; [reflexivity|]. destruct Hni. apply in_or_app. right. left. reflexivity.
Qed.
End Reader.

Lemma pieces_exist d : forall n text, (length text < n)%nat -> exists ps, is_pieces d text ps.
Proof.
  induction n as [|n IH]; intros text Hn; [lia|]. destruct (in_dec Z.eq_dec d text) as [Hi|Ho]; [|exists [text]; constructor; exact Ho].
  destruct (first_of d text Hi) as (a & t & -> & Ha). rewrite app_length in Hn. cbn [length] in Hn.
  destruct (IH t ltac:(lia)) as [ps Hp]. exists ((a ++ [d]) :: ps). constructor; assumption.
Qed.

Section OverReader.
Variable grow : Z -> Z -> Z.
Variable RS : Type.
Variable rd : RS -> Z -> list Z * option error * RS.

Lemma C144_lemma s stream text e fuel size n fuel' d :
  Forall is_byte stream -> delivers rd s stream e -> From grow stream = Ok (inl text) -> (length stream + 4 <= fuel)%nat ->
  16 <= size -> e <> ErrBufferFull -> (length text + 2 <= fuel')%nat -> (length text + 1 <= n)%nat ->
  exists pieces, is_pieces d text pieces /\
    ReadStrings _ (as_reader (Read grow RS rd fuel)) n fuel' d (NewBufReader size (NewReader s)) = Ok (pieces, Some e).
Proof.
  intros Hb Hd HF Hf Hs He Hf' Hn. pose proof (C79_lemma grow RS rd s stream text e fuel Hb Hd HF Hf) as H.
  destruct (pieces_exist d _ text (Nat.lt_succ_diag_r _)) as [ps Hp]. exists ps. split; [exact Hp|].
  eapply ReadStrings_spec with (size := size); [lia|exact He|apply new_holds; [lia|exact H]|exact Hp|lia|lia].
Qed.
Lemma C145_lemma s stream rs e fuel size n fuel' :
  delivers rd s stream e -> decodes stream rs -> (length stream + 4 <= fuel)%nat ->
  16 <= size -> (length (utf8 rs) + 2 <= fuel')%nat -> (length rs + 1 <= n)%nat ->
  ReadRunes _ (as_reader (Read grow RS rd fuel)) n fuel' (NewBufReader size (NewReader s)) =
    Ok (map (fun r => (r, zlen (utf8_char r))) rs, Some e).
Proof.
  intros Hd Hrs Hf Hs Hf' Hn.
  pose proof (C79_lemma grow RS rd s stream (utf8 rs) e fuel (decodes_bytes _ _ Hrs) Hd (From_decodes grow _ _ Hrs) Hf) as H.
  eapply ReadRunes_spec with (size := size); [lia|lia|apply new_holds; [lia|exact H]|eapply decodes_scalar; exact Hrs|lia|lia].
Qed.
Lemma C145_bytes_lemma s stream text e fuel size n fuel' :
  Forall is_byte stream -> delivers rd s stream e -> From grow stream = Ok (inl text) -> (length stream + 4 <= fuel)%nat ->
  16 <= size -> (length text + 2 <= fuel')%nat -> (length text + 1 <= n)%nat ->
  ReadBytes1 _ (as_reader (Read grow RS rd fuel)) n fuel' (NewBufReader size (NewReader s)) = Ok (text, Some e).
Proof.
  intros Hb Hd HF Hf Hs Hf' Hn. pose proof (C79_lemma grow RS rd s stream text e fuel Hb Hd HF Hf) as H.
  eapply ReadBytes_spec with (size := size); [lia|apply new_holds; [lia|exact H]|lia|lia].
Qed.
End OverReader.

Lemma pieces_fun d : forall text ps ps', is_pieces d text ps -> is_pieces d text ps' -> ps = ps'.
Proof.
  intros text ps ps' H. revert ps'. induction H as [l Hl|l text ps Hl Hp IH]; intros ps' H'; inversion H' as [l' Hl' E1 E2|l' t' q Hl' Hq E1 E2]; subst.
  - reflexivity.
  - exfalso. apply Hl. apply in_or_app. right. left. reflexivity.
  - exfalso. apply Hl'. apply in_or_app. right. left. reflexivity.
  - assert (l' = l /\ t' = text) as [-> ->].
    { clear -Hl Hl' E1. revert l' Hl' E1. induction l as [|x l IH]; intros [|y l'] Hl' E; cbn [app] in E.
      - injection E as E. auto.
      - injection E as <- E. exfalso. apply Hl'. left. reflexivity.
      - injection E as <- E. exfalso. apply Hl. left. reflexivity.
      - injection E as <- E. destruct (IH (fun h => Hl (or_intror h)) l' (fun h => Hl' (or_intror h)) E) as [-> ->]. auto. }
    f_equal. apply IH. exact Hq.
Qed.
