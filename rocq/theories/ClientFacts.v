(** The lemmas behind properties C89-C92: clients of the streaming API and of the x/text
    encoder and decoder. *)
From Coq Require Import ZArith List Bool Lia.
From Coq Require Import ZifyBool.
From Verif Require Import Base Spec Facts Utf8 Utf8Facts SortSearch TableFrom TableTo SpecCp949 SpecText2
  SpecIO PMapFacts Cp949Model StreamModel IoModel TransformModel ClientModel SliceFacts TableFacts Cp949Facts
  Cp949Facts2 StreamFacts StreamFacts2 StreamFacts3 TransformFacts TransformFacts3 HangulFacts3.
Import ListNotations.
Local Open Scope Z_scope.
Local Opaque fromTable toTable dec_tree enc_tree.

Section ReadClients.
Variable grow : Z -> Z -> Z.
Variable RS : Type.
Variable rd : RS -> Z -> list Z * option error * RS.

Lemma read_all_spec cut e n fuel : (n + 4 <= fuel)%nat -> forall fuel' r rem b cap,
  inv RS rd cut e n r rem -> zlen b < cap -> (length rem < fuel')%nat ->
  exists rem', read_all (reader RS) (Read grow RS rd fuel) grow fuel' r b cap =
    Ok (b ++ rem', match e with EOF => None | _ => Some e end) /\ below cut rem' rem.
Proof.
  intros Hf. induction fuel' as [|fuel' IH]; intros r rem b cap Hinv Hcap Hfuel; [lia|].
  destruct (read_step grow RS rd cut e (cap - zlen b) ltac:(lia) n r rem fuel Hinv Hf) as
    (p & err & r' & rem' & Er & Hl & Hb & Hi & Hres).
  cbn [read_all]. rewrite Er. cbn [bind]. destruct err as [e'|].
  - destruct Hres as (-> & -> & -> & _). exists []. cbn in Hb. rewrite app_nil_r.
    split; [destruct e; reflexivity|exact Hb].
  - destruct Hres as [Hp|Hp]; [|lia].
    assert (length p + length rem' <= length rem)%nat as Hlen.
    { rewrite <- app_length. destruct cut; cbn in Hb; [destruct Hb as [q ->]; rewrite !app_length; lia|].
      rewrite Hb. apply le_n. }
    assert (0 < length p)%nat by (destruct p; [congruence|cbn; lia]).
    destruct (IH r' rem' (b ++ p) (if zlen (b ++ p) =? cap then grown grow cap else cap) Hi) as (q & E & Hq).
    + rewrite zlen_app. unfold grown. destruct (Z.eqb_spec (zlen b + zlen p) cap); lia.
    + lia.
    + exists (p ++ q). rewrite E, app_assoc. split; [reflexivity|].
      eapply below_trans; [apply below_app, Hq|exact Hb].
Qed.

Lemma C91_lemma s stream text e fuel fuel' : Forall is_byte stream -> delivers rd s stream e ->
  From grow stream = Ok (inl text) -> (length stream + 4 <= fuel)%nat -> (length text < fuel')%nat ->
  ReadAll (reader RS) (Read grow RS rd fuel) grow fuel' (NewReader s) =
    Ok (text, match e with EOF => None | _ => Some e end).
Proof.
  intros Hb Hd HF Hf Hf'. destruct (From_ok_inv grow stream text Hb HF) as (rs & Hrs & ->).
  destruct (read_all_spec false e (length stream) fuel Hf fuel' (NewReader s) (utf8 rs) [] 512) as (q & E & Hq).
  - apply new_reader_inv; [exact Hd|exact Hrs].
  - cbn. lia.
  - exact Hf'.
  - cbn in Hq. subst q. exact E.
Qed.

Lemma C91_truncated_lemma s stream a rs e fuel fuel' : delivers rd s stream e -> cut_after a stream -> decodes a rs ->
  (length stream + 4 <= fuel)%nat -> (length (utf8 rs) < fuel')%nat ->
  exists out, ReadAll (reader RS) (Read grow RS rd fuel) grow fuel' (NewReader s) =
    Ok (out, match e with EOF => None | _ => Some e end) /\ is_prefix out (utf8 rs).
Proof.
  intros Hd Hc Ha Hf Hf'.
  destruct (read_all_spec true e (length stream) fuel Hf fuel' (NewReader s) (utf8 rs) [] 512) as (q & E & Hq).
  - apply new_reader_inv; [exact Hd|]. exists a. auto.
  - cbn. lia.
  - exact Hf'.
  - exists q. auto.
Qed.

Lemma read_full_spec e n fuel min : (n + 4 <= fuel)%nat -> forall fuel' r rem b,
  inv RS rd false e n r rem -> (length rem + 1 < fuel')%nat -> zlen b <= min ->
  exists r', read_full (reader RS) (Read grow RS rd fuel) fuel' r b min =
    Ok (ztake min (b ++ rem),
        if min <=? zlen (b ++ rem) then None
        else match e with EOF => if 0 <? zlen (b ++ rem) then Some ErrUnexpectedEOF else Some EOF | _ => Some e end,
        r') /\
    (min <= zlen (b ++ rem) -> inv RS rd false e n r' (zdrop min (b ++ rem))).
Proof.
  intros Hf. induction fuel' as [|fuel' IH]; intros r rem b Hinv Hfuel Hmin; [lia|].
  cbn [read_full]. destruct (Z.ltb_spec (zlen b) min) as [Hlt|Hge].
  - destruct (read_step grow RS rd false e (min - zlen b) ltac:(lia) n r rem fuel Hinv Hf) as
      (p & err & r' & rem' & Er & Hl & Hb & Hi & Hres).
    rewrite Er. cbn [bind]. cbn in Hb. subst rem. destruct err as [e'|].
    + destruct Hres as (-> & -> & -> & _). exists r'. cbn [app]. rewrite app_nil_r.
      rewrite ztake_all by lia. destruct (Z.leb_spec min (zlen b)); [lia|].
      split; [reflexivity|intros Hx; lia].
    + destruct Hres as [Hp|Hp]; [|lia].
      assert (0 < length p)%nat by (destruct p; [congruence|cbn; lia]).
      rewrite app_length in Hfuel.
      destruct (IH r' rem' (b ++ p) Hi) as (r'' & E & Hx); [lia|rewrite zlen_app; lia|].
      exists r''. rewrite E, <- app_assoc. rewrite <- app_assoc in Hx. auto.
  - assert (min = zlen b) as E by lia. exists r. rewrite ztake_app_exact by exact E.
    rewrite zdrop_app_exact by exact E. rewrite zlen_app. pose proof (zlen_nonneg rem).
    destruct (Z.leb_spec min (zlen b + zlen rem)); [|lia]. split; [reflexivity|intros _; exact Hinv].
Qed.

End ReadClients.

Lemma C92_lemma grow RS rd s stream text e fuel fuel' len : Forall is_byte stream -> delivers rd s stream e ->
  From grow stream = Ok (inl text) -> (length stream + 4 <= fuel)%nat -> (length text + 1 < fuel')%nat -> 0 <= len ->
  exists r', ReadFull (reader RS) (Read grow RS rd fuel) fuel' (NewReader s) len =
    Ok (ztake len text,
        if len <=? zlen text then None
        else match e with EOF => if 0 <? zlen text then Some ErrUnexpectedEOF else Some EOF | _ => Some e end,
        r') /\
    (len <= zlen text -> forall fuel2, (length (zdrop len text) < fuel2)%nat ->
       ReadAll (reader RS) (Read grow RS rd fuel) grow fuel2 r' =
         Ok (zdrop len text, match e with EOF => None | _ => Some e end)).
Proof.
  intros Hb Hd HF Hf Hf' Hlen. destruct (From_ok_inv grow stream text Hb HF) as (rs & Hrs & ->).
  destruct (read_full_spec grow RS rd e (length stream) fuel len Hf fuel' (NewReader s) (utf8 rs) []) as (r' & E & Hx).
  - apply new_reader_inv; [exact Hd|exact Hrs].
  - exact Hf'.
  - cbn. lia.
  - exists r'. cbn [app] in E, Hx. split; [exact E|]. intros Hle fuel2 Hf2.
    destruct (read_all_spec grow RS rd false e (length stream) fuel Hf fuel2 r' _ [] 512 (Hx Hle)) as (q & E2 & Hq);
      [cbn; lia|exact Hf2|]. cbn in Hq. subst q. exact E2.
Qed.

(** ** The contract of encoding.Encoder and encoding.Decoder *)
Lemma C89_exact_lemma grow dst src atEOF : Forall is_byte src ->
  exists d n m, enc_Transform grow dst src atEOF = Ok (d, n, m, None) /\ m = zlen src.
Proof.
  intros Hb. unfold enc_Transform. rewrite (To_runes grow src Hb). cbn [bind]. eauto.
Qed.
Lemma C90_exact_lemma grow rep handler fuel dst src atEOF : Forall is_byte src ->
  handled_Transform (enc_Transform grow) rep handler fuel dst src atEOF = enc_Transform grow dst src atEOF.
Proof.
  intros Hb. destruct (C89_exact_lemma grow dst src atEOF Hb) as (d & n & m & E & _).
  unfold handled_Transform. rewrite E. destruct fuel; reflexivity.
Qed.

Lemma C89_refuted_lemma : exists r, is_scalar r /\ ~ in_repertoire r /\
  forall grow dst atEOF, exists d, enc_Transform grow dst (utf8_char r) atEOF = Ok (d, 1, zlen (utf8_char r), None).
Proof.
  exists 0xFF. split; [unfold is_scalar; lia|].
  assert (tget enc_tree 0xFF = None) as E by (vm_compute; reflexivity).
  split.
  - intros [H|(c & H)]; [lia|]. apply assigned_enc in H. congruence.
  - intros grow dst atEOF. unfold enc_Transform.
    pose proof (To_utf8 grow [0xFF]) as Hu. change (utf8 [0xFF]) with (utf8_char 0xFF) in Hu.
    rewrite Hu by (constructor; [unfold is_scalar; lia|constructor]). cbn [bind].
    assert (flat_map to_char [0xFF] = [0x3F]) as ->.
    { cbn [flat_map]. unfold to_char, enc16. change (0xFF <? 0x80) with false. cbv iota.
      change (0xFF mod 0x10000) with 0xFF. rewrite E. reflexivity. }
    eexists. reflexivity.
Qed.

Lemma C94_refuted_lemma :
  (forall grow dst, dec_Transform grow dst [0xB0] true = Ok (dst, 0, 0, Some ErrCP949UnexpectedStream)) /\
  (forall grow, (forall u, ~ assigned (0xFE * 256 + 0xFF) u) /\
     dec_Transform grow (zeros 6) [0xFE; 0xFF] true = Ok (utf8_char replacement ++ zeros 3, 3, 2, None)).
Proof.
  split.
  - intros grow dst. unfold dec_Transform. rewrite (From_cut grow [0xB0] []); [reflexivity|].
    exists 0xB0. split; [lia|]. split; [reflexivity|]. exists []. constructor.
  - intros grow.
    assert (forall u, ~ assigned (0xFE * 256 + 0xFF) u) as Hn.
    { intros u Hu. apply assigned_ranges in Hu as [[H1 H2] _]. revert H2. vm_compute. discriminate. }
    split; [exact Hn|]. unfold dec_Transform.
    assert (decodes [0xFE; 0xFF] [replacement]) as H by (apply dec_unassigned; [lia|lia|exact Hn|constructor]).
    rewrite (From_decodes grow _ _ H). reflexivity.
Qed.
Lemma C94_exact_lemma grow dst src atEOF : Forall is_byte src ->
  (truncated src -> dec_Transform grow dst src atEOF = Ok (dst, 0, 0, Some ErrCP949UnexpectedStream)) /\
  (~ truncated src -> exists rs, decodes src rs /\
     (zlen (utf8 rs) <= zlen dst -> dec_Transform grow dst src atEOF =
        Ok (utf8 rs ++ zdrop (zlen (utf8 rs)) dst, zlen (utf8 rs), zlen src, None))).
Proof.
  intros Hb. split.
  - intros (a & H). unfold dec_Transform. rewrite (From_cut grow src a H). reflexivity.
  - intros Hn. destruct (decodes_or_cut src Hb) as [(rs & H)|(a & H)]; [|destruct Hn; exists a; exact H].
    exists rs. split; [exact H|]. intros Hl. unfold dec_Transform. rewrite (From_decodes grow src rs H).
    cbn [bind]. rewrite go_copy_fits by exact Hl. reflexivity.
Qed.
Lemma C94_case_lemma : truncated [0x41; 0xB0].
Proof.
  exists [0x41], 0xB0. split; [lia|]. split; [reflexivity|]. exists [0x41]. repeat constructor; lia.
Qed.

Lemma C90_refuted_lemma : exists r d, is_scalar r /\ ~ in_repertoire r /\ forall rep fuel,
  handled_Transform (enc_Transform (fun old need => Z.max need (2 * old))) rep html_escape fuel (zeros 8) (utf8_char r) true =
    Ok (d, 1, zlen (utf8_char r), None) /\
  ztake 1 d <> ztake 1 (html_escape r 0x3F).
Proof.
  exists 0xFF, (0x3F :: zeros 7). split; [unfold is_scalar; lia|]. split.
  - intros [H|(c & H)]; [lia|]. apply assigned_enc in H. revert H. vm_compute. discriminate.
  - intros rep fuel. split; [|vm_compute; discriminate].
    rewrite (C90_exact_lemma (fun old need => Z.max need (2 * old))); [|change (utf8_char 0xFF) with [0xC3; 0xBF]; repeat (constructor; [unfold is_byte; lia|]); constructor].
    vm_compute. reflexivity.
Qed.
