(** The lemmas behind properties C136-C140: readers and writers made of others, and pipes. *)
From Coq Require Import ZArith List Bool Lia.
From Coq Require Import ZifyBool.
From Verif Require Import Base Spec Facts Utf8 Utf8Facts SpecCp949 SpecIO Cp949Model StreamModel IoModel
  SliceFacts Cp949Facts Cp949Facts2 StreamFacts StreamFacts2 StreamFacts3 Cp949Facts3 ComposeModel SpecCompose TableFrom TableTo PipeFacts.
Import ListNotations.
Local Open Scope Z_scope.
Local Opaque fromTable toTable.

Lemma ztake_nonpos {A} n (l : list A) : n <= 0 -> ztake n l = [].
Proof. intros H. unfold ztake. replace (Z.to_nat n) with O by lia. reflexivity. Qed.
Lemma ztake_cons_pos {A} n (x : A) l : 0 < n -> ztake n (x :: l) = x :: ztake (n - 1) l.
Proof. intros H. unfold ztake. replace (Z.to_nat n) with (S (Z.to_nat (n - 1))) by lia. reflexivity. Qed.
Lemma zlen_0_nil {A} (l : list A) : zlen l = 0 -> l = [].
Proof. destruct l; [reflexivity|]. rewrite zlen_cons. pose proof (zlen_nonneg l). lia. Qed.

(** ** [delivers], rephrased: one answer *)
Definition answers {S} (rd : S -> Z -> list Z * option error * S) (s : S) (bytes : list Z) (e : error) (Q : S -> list Z -> Prop) : Prop :=
  forall k, 0 < k -> let '(chunk, err, s') := rd s k in
  zlen chunk <= k /\
  match err with
  | Some e' => e' = e /\ chunk = bytes
  | None => chunk <> [] /\ exists rest, bytes = chunk ++ rest /\ Q s' rest
  end.
Lemma delivers_answers {S} (rd : S -> Z -> list Z * option error * S) s bytes e :
  delivers rd s bytes e <-> answers rd s bytes e (fun s' rest => delivers rd s' rest e).
Proof.
  split.
  - intros H. inversion H as [s0 b0 e0 H1 H2 H3]; subst. intros k Hk.
    destruct (rd s k) as [[chunk [e'|]] s'] eqn:E.
    + destruct (H1 _ _ _ _ Hk E) as (-> & -> & Hl). auto.
    + destruct (H2 _ _ _ Hk E) as (Hn & Hl & [rest ->]). specialize (H3 _ _ _ Hk E).
      rewrite zdrop_app_exact in H3 by reflexivity. eauto 6.
  - intros H. constructor; intros k; [intros chunk e' s' Hk E|intros chunk s' Hk E..]; specialize (H k Hk); rewrite E in H.
    + destruct H as (Hl & -> & ->). auto.
    + destruct H as (Hl & Hn & rest & -> & _). split; [exact Hn|]. split; [exact Hl|]. exists rest. reflexivity.
    + destruct H as (Hl & Hn & rest & -> & Hd). rewrite zdrop_app_exact by reflexivity. exact Hd.
Qed.

(** An invariant that is kept by every answer and gives the answers. *)
Lemma delivers_by {S} (rd : S -> Z -> list Z * option error * S) e (Q : S -> list Z -> Prop) :
  (forall s bytes, Q s bytes -> answers rd s bytes e Q) -> forall s bytes, Q s bytes -> delivers rd s bytes e.
Proof.
  intros H. assert (forall n s bytes, (length bytes < n)%nat -> Q s bytes -> delivers rd s bytes e) as G.
  { induction n as [|n IH]; intros s bytes Hn HQ; [lia|]. apply delivers_answers; intros k Hk.
    specialize (H s bytes HQ k Hk). destruct (rd s k) as [[chunk [e'|]] s']; [exact H|].
    destruct H as (Hl & Hc & rest & -> & HQ'). split; [exact Hl|]. split; [exact Hc|]. exists rest. split; [reflexivity|].
    apply IH; [|exact HQ']. destruct chunk; [congruence|]. rewrite app_length in Hn. cbn in Hn. lia. }
  intros s bytes. apply (G (Datatypes.S (length bytes))). lia.
Qed.

Section Compose.
Context {RS : Type} (rd : RS -> Z -> list Z * option error * RS).
Notation read := (read RS rd).
Notation delivered := (delivers read).

Lemma read_plain s bytes e : delivers rd s bytes e -> delivered (Plain s) bytes e.
Proof.
  intros H. apply (delivers_by _ e (fun c bytes => exists s, c = Plain s /\ delivers rd s bytes e)); [|eauto].
  clear. intros c bytes (s & -> & H) k Hk. cbn [read]. apply delivers_answers in H. specialize (H k Hk).
  destruct (rd s k) as [[chunk [e'|]] s']; [exact H|]. destruct H as (Hl & Hc & rest & -> & H). eauto 8.
Qed.

Lemma read_tee c w bytes e : delivered c bytes e -> delivered (Tee c w) bytes e.
Proof.
  intros H. apply (delivers_by _ e (fun c bytes => exists c' w, c = Tee c' w /\ delivered c' bytes e)); [|eauto].
  clear. intros t bytes (c & w & -> & H) k Hk. cbn [ComposeModel.read]. apply delivers_answers in H. specialize (H k Hk).
  destruct (read c k) as [[chunk [e'|]] s']; [exact H|]. destruct H as (Hl & Hc & rest & -> & H). eauto 9.
Qed.

Lemma read_one_byte c bytes e : delivered c bytes e -> delivered (OneByte c) bytes e.
Proof.
  intros H. apply (delivers_by _ e (fun c bytes => exists c', c = OneByte c' /\ delivered c' bytes e)); [|eauto].
  clear. intros t bytes (c & -> & H) k Hk. cbn [ComposeModel.read]. destruct (Z.eqb_spec k 0); [lia|].
  apply delivers_answers in H. specialize (H 1 ltac:(lia)).
  destruct (read c 1) as [[chunk [e'|]] s']; destruct H as (Hl & H); (split; [lia|]); [exact H|].
  destruct H as (Hc & rest & -> & H). eauto 9.
Qed.

Lemma read_half c bytes e : delivered c bytes e -> delivered (Half c) bytes e.
Proof.
  intros H. apply (delivers_by _ e (fun c bytes => exists c', c = Half c' /\ delivered c' bytes e)); [|eauto].
  clear. intros t bytes (c & -> & H) k Hk. cbn [ComposeModel.read].
  assert (0 < (k + 1) / 2 <= k) as Hh.
  { split; [apply Z.div_str_pos; lia|]. apply Z.div_le_upper_bound; lia. }
  apply delivers_answers in H. specialize (H _ (proj1 Hh)).
  destruct (read c _) as [[chunk [e'|]] s']; destruct H as (Hl & H); (split; [lia|]); [exact H|].
  destruct H as (Hc & rest & -> & H). eauto 9.
Qed.

Lemma read_limit N c bytes e : delivered c bytes e ->
  (N < zlen bytes -> delivered (Limit N c) (ztake N bytes) EOF) /\
  (zlen bytes <= N -> (zlen bytes = N -> e = EOF) -> delivered (Limit N c) bytes e).
Proof.
  intros H. split.
  - intros HN. apply (delivers_by _ EOF (fun t out => exists c N rest, t = Limit N c /\ delivered c rest e /\ N < zlen rest /\ out = ztake N rest));
      [|eauto 8].
    clear. intros t out (c & N & rest & -> & H & HN & ->) k Hk. cbn [ComposeModel.read].
    destruct (Z.leb_spec N 0).
    + cbn. split; [lia|]. split; [reflexivity|]. symmetry. now apply ztake_nonpos.
    + apply delivers_answers in H. specialize (H (if N <? k then N else k)).
      assert (0 < (if N <? k then N else k) /\ (if N <? k then N else k) <= k /\ (if N <? k then N else k) <= N) as Hm
        by (destruct (Z.ltb_spec N k); lia).
      set (m := if N <? k then N else k) in *. specialize (H (proj1 Hm)).
      destruct (read c m) as [[chunk [e'|]] s']; destruct H as (Hl & H); (split; [lia|]).
      * destruct H as [_ ->]. lia.
      * destruct H as (Hc & more & -> & H). split; [exact Hc|]. exists (ztake (N - zlen chunk) more). split.
        { apply ztake_app_r. lia. }
        exists s', (N - zlen chunk), more. rewrite zlen_app in HN. split; [reflexivity|]. split; [exact H|]. split; [lia|reflexivity].
  - intros HN He.
    apply (delivers_by _ e (fun t out => exists c N, t = Limit N c /\ delivered c out e /\ zlen out <= N /\ (zlen out = N -> e = EOF)));
      [|eauto 8].
    clear. intros t out (c & N & -> & H & HN & He) k Hk. cbn [ComposeModel.read].
    destruct (Z.leb_spec N 0).
    + pose proof (zlen_nonneg out). assert (zlen out = 0) as Hz by lia. cbn. split; [lia|].
      split; [symmetry; apply He; lia|]. symmetry. now apply zlen_0_nil.
    + apply delivers_answers in H. specialize (H (if N <? k then N else k)).
      assert (0 < (if N <? k then N else k) /\ (if N <? k then N else k) <= k /\ (if N <? k then N else k) <= N) as Hm
        by (destruct (Z.ltb_spec N k); lia).
      set (m := if N <? k then N else k) in *. specialize (H (proj1 Hm)).
      destruct (read c m) as [[chunk [e'|]] s']; destruct H as (Hl & H); (split; [lia|]); [exact H|].
      destruct H as (Hc & more & -> & H). split; [exact Hc|]. exists more. split; [reflexivity|].
      exists s', (N - zlen chunk). rewrite zlen_app in *. split; [reflexivity|]. split; [exact H|]. split; [lia|]. intros. apply He. lia.
Qed.

Lemma read_buffered size c bytes e : 0 < size -> delivered c bytes e -> delivered (Buffered size [] None c) bytes e.
Proof.
  intros Hs H.
  apply (delivers_by _ e (fun t out => exists c buf err rest, t = Buffered size buf err c /\ out = buf ++ rest /\
    match err with Some e' => e' = e /\ rest = [] | None => delivered c rest e end)); [|exists c, [], None, bytes; auto].
  clear - Hs. intros t out (c & buf & err & rest & -> & -> & H) k Hk. cbn [ComposeModel.read].
  destruct (Z.eqb_spec k 0); [lia|]. destruct buf as [|b buf].
  - destruct err as [e'|].
    + destruct H as [-> ->]. cbn. split; [lia|]. auto.
    + destruct (Z.leb_spec size k).
      * apply delivers_answers in H. specialize (H k Hk).
        destruct (read c k) as [[chunk [e'|]] s']; destruct H as (Hl & H); (split; [exact Hl|]); [exact H|].
        destruct H as (Hc & more & -> & H). split; [exact Hc|]. exists more. split; [reflexivity|].
        exists s', [], None, more. auto.
      * apply delivers_answers in H. specialize (H size Hs).
        destruct (read c size) as [[chunk err] s'].
        destruct (Z.eqb_spec (zlen chunk) 0) as [Ez|Ez].
        { apply zlen_0_nil in Ez. subst chunk. destruct err as [e'|]; destruct H as (Hl & H).
          - destruct H as [-> <-]. cbn. split; [lia|auto].
          - destruct H as (Hc & _). congruence. }
        assert (chunk <> []) as Hc by (intros ->; apply Ez; reflexivity).
        split; [rewrite zlen_ztake by lia; lia|]. split.
        { destruct chunk; [congruence|]. rewrite ztake_cons_pos by lia. discriminate. }
        destruct err as [e'|]; destruct H as (Hl & H).
        -- destruct H as [-> <-]. exists (zdrop k chunk). split; [now rewrite ztake_zdrop|].
           exists s', (zdrop k chunk), (Some e), []. rewrite app_nil_r. auto.
        -- destruct H as (_ & more & -> & H). exists (zdrop k chunk ++ more).
           split; [rewrite (app_assoc (ztake _ _)), ztake_zdrop; reflexivity|]. exists s', (zdrop k chunk), None, more. auto.
  - split; [rewrite zlen_ztake by lia; lia|]. split; [rewrite ztake_cons_pos by lia; discriminate|].
    exists (zdrop k (b :: buf) ++ rest). split; [rewrite (app_assoc (ztake _ _)), ztake_zdrop; reflexivity|]. eauto 9.
Qed.

Lemma read_multi_nil : delivered (Multi []) [] EOF.
Proof. apply delivers_answers. intros k Hk. cbn. split; [lia|auto]. Qed.

Lemma multi_step k r cs : multi_read RS (fun r => read r k) (r :: cs) =
  let '(bs, err, r') := read r k in
  match err with
  | Some EOF => if 0 <? zlen bs then (bs, match cs with [] => Some EOF | _ => None end, cs) else multi_read RS (fun r => read r k) cs
  | _ => (bs, err, r' :: cs)
  end.
Proof. reflexivity. Qed.

Lemma read_multi_error c cs a e : e <> EOF -> delivered c a e -> delivered (Multi (c :: cs)) a e.
Proof.
  intros He H. apply (delivers_by _ e (fun t out => exists c, t = Multi (c :: cs) /\ delivered c out e)); [|eauto].
  clear - He. intros t out (c & -> & H) k Hk. cbn [ComposeModel.read]. rewrite multi_step.
  apply delivers_answers in H. specialize (H k Hk).
  destruct (read c k) as [[chunk [e'|]] s']; destruct H as (Hl & H).
  - destruct H as [-> ->]. destruct e; try congruence; auto.
  - destruct H as (Hc & more & -> & H). eauto 9.
Qed.

Lemma read_multi_more cs b e : delivered (Multi cs) b e -> forall c a, delivered c a EOF -> delivered (Multi (c :: cs)) (a ++ b) e.
Proof.
  intros Hcs c a Hc.
  (* nothing at all in an empty MultiReader *)
  assert (cs = [] -> b = [] /\ e = EOF) as Hnil.
  { intros ->. apply delivers_answers in Hcs. specialize (Hcs 1 ltac:(lia)). cbn in Hcs. destruct Hcs as (_ & -> & <-). auto. }
  apply (delivers_by _ e (fun t out => (exists c a, t = Multi (c :: cs) /\ out = a ++ b /\ delivered c a EOF) \/ delivered t out e));
    [|left; eauto 6].
  clear c a Hc. intros t out [(c & a & -> & -> & H)|H] k Hk.
  - cbn [ComposeModel.read]. rewrite multi_step. apply delivers_answers in H. specialize (H k Hk).
    destruct (read c k) as [[chunk [e'|]] s']; destruct H as (Hl & H).
    + destruct H as [-> ->]. destruct (Z.ltb_spec 0 (zlen a)).
      * split; [exact Hl|]. destruct cs as [|c2 cs].
        -- destruct (Hnil eq_refl) as [-> ->]. rewrite app_nil_r. auto.
        -- split; [intros ->; cbn in *; lia|]. exists b. split; [reflexivity|]. right. exact Hcs.
      * assert (a = []) as -> by (apply zlen_0_nil; pose proof (zlen_nonneg a); lia).
        apply delivers_answers in Hcs. specialize (Hcs k Hk). cbn [ComposeModel.read app] in Hcs |- *.
        destruct (multi_read RS (fun r => read r k) cs) as [[chunk [e'|]] cs']; [exact Hcs|].
        destruct Hcs as (Hl2 & Hc2 & more & -> & Hd). eauto 8.
    + destruct H as (Hc & more & -> & H). split; [exact Hl|]. split; [exact Hc|]. exists (more ++ b).
      split; [now rewrite app_assoc|]. left. eauto 6.
  - apply delivers_answers in H. specialize (H k Hk). destruct (read t k) as [[chunk [e'|]] t']; [exact H|].
    destruct H as (Hl & Hc & more & -> & Hd). eauto 8.
Qed.

Lemma content_delivers c bytes e : content rd c bytes e -> delivered c bytes e.
Proof.
  induction 1.
  - apply read_plain. assumption.
  - apply read_multi_nil.
  - apply read_multi_more; assumption.
  - apply read_multi_error; assumption.
  - apply (proj1 (read_limit _ _ _ _ IHcontent)). assumption.
  - apply (proj2 (read_limit _ _ _ _ IHcontent)); [lia|reflexivity].
  - apply (proj2 (read_limit _ _ _ _ IHcontent)); lia.
  - apply read_tee. assumption.
  - apply read_buffered; assumption.
  - apply read_one_byte. assumption.
  - apply read_half. assumption.
Qed.

Lemma C136_lemma grow c stream text e fuel sizes :
  Forall is_byte stream -> content rd c stream e -> From grow stream = Ok (inl text) ->
  Forall (fun k => 0 < k) sizes -> (length stream + 4 <= fuel)%nat ->
  exists out err r', read_seq grow (composed RS) read fuel (NewReader c) sizes = Ok (out, err, r') /\
    is_prefix out text /\ (err = None \/ err = Some e /\ out = text) /\
    (zlen text < zlen sizes -> err = Some e).
Proof. intros Hb Hc. apply C45_lemma; [exact Hb|]. apply content_delivers. exact Hc. Qed.
End Compose.

(** ** The state of the wrapped reader while Reads go on *)
Section Keeps.
Variable grow : Z -> Z -> Z.
Variable RS : Type.
Variable rd : RS -> Z -> list Z * option error * RS.
(* [Q]: while no error was seen, [Q']: afterwards *)
Variable Q Q' : RS -> Prop.
Hypothesis HQ : forall s k, 0 < k -> Q s -> let '(chunk, err, s') := rd s k in
  match err with Some _ => Q' s' | None => chunk <> [] /\ Q s' end.
Definition keeps (r : reader RS) : Prop :=
  slice_ok (r_rdata _ r) /\ match r_err _ r with None => Q (r_src _ r) | Some _ => Q' (r_src _ r) end.

Lemma convert_keeps r r' : convert grow RS r = Ok r' -> keeps r -> keeps r'.
Proof.
  unfold convert, keeps. intros E [Hok HK].
  destruct (from_Translate _ _ _ _) as [[[[nc cd] er] scratch]| |]; try discriminate. cbn [bind] in E.
  set (n := match r_err _ r with Some _ => _ | None => _ end) in E.
  destruct (Z.gtb_spec n (slen (r_rdata _ r))); [discriminate|].
  assert (zlen (zwrite (arr (r_rdata _ r)) 0 (zdrop n (contents (r_rdata _ r)))) = scap (r_rdata _ r)) as Hw.
  { apply zlen_zwrite; [lia|]. pose proof (contents_len _ Hok). unfold slice_ok, scap in *.
    assert (zlen (zdrop n (contents (r_rdata _ r))) <= zlen (contents (r_rdata _ r))).
    { rewrite <- (ztake_zdrop n (contents (r_rdata _ r))) at 2. rewrite zlen_app.
      pose proof (zlen_nonneg (ztake n (contents (r_rdata _ r)))). lia. }
    lia. }
  unfold reslice in E. cbn [slen arr] in E. destruct ((0 <=? _) && (_ <=? _)) eqn:Eb; [|discriminate].
  cbn [bind] in E. injection E as <-. cbn [r_src r_err r_rdata]. split; [|exact HK].
  unfold slice_ok, scap in *. cbn [arr slen] in *. lia.
Qed.

Lemma fill_keeps r k r' : 0 < k -> fill RS rd r k = Ok r' -> r_err _ r = None -> keeps r -> keeps r'.
Proof.
  unfold fill, keeps. intros Hk E Hn [Hok HK]. rewrite Hn in HK.
  destruct (ensureCap_spec (r_rdata _ r) (slen (r_rdata _ r) + k) Hok) as (b & Eb & Hb & _ & Hl & Hcap & _).
  rewrite Eb in E. cbn [bind] in E.
  pose proof (HQ (r_src _ r) (scap b - slen b) ltac:(lia) HK) as H.
  destruct (rd (r_src _ r) (scap b - slen b)) as [[chunk err] s'].
  destruct (Z.gtb_spec (slen b + zlen chunk) (scap b)) as [Hx|Hx]; [discriminate|].
  unfold slice_ok in Hb. pose proof (zlen_nonneg chunk).
  assert (zlen (zwrite (arr b) (slen b) chunk) = zlen (arr b)) as Hw by (apply zlen_zwrite; unfold scap in *; lia).
  rewrite reslice_spec in E by (unfold scap in *; cbn [arr]; lia).
  cbn [bind arr] in E. injection E as <-. cbn [r_src r_err r_rdata].
  split; [unfold slice_ok, scap in *; cbn [arr slen]; lia|]. destruct err as [e|]; [exact H|].
  destruct H as [Hc H]. destruct (Z.eqb_spec (zlen chunk) 0) as [E0|_]; [|exact H].
  apply zlen_0_nil in E0. congruence.
Qed.

Lemma Read_keeps fuel : forall r k p err r', 0 < k -> keeps r -> Read grow RS rd fuel r k = Ok (p, err, r') ->
  keeps r' /\ (err <> None -> err = r_err _ r').
Proof.
  induction fuel as [|fuel IH]; intros r k p err r' Hk Hr E; [discriminate|]. cbn [Read] in E.
  destruct (_ >? 0).
  - injection E as <- <- <-. split; [exact Hr|congruence].
  - destruct (r_err RS r) as [e'|] eqn:Ee.
    + destruct (_ =? 0); [injection E as <- <- <-; rewrite Ee; auto|].
      destruct (convert grow RS r) as [r1| |] eqn:E1; try discriminate. cbn [bind] in E.
      apply (IH r1 k p err r' Hk (convert_keeps r r1 E1 Hr) E).
    + destruct (fill RS rd r k) as [r1| |] eqn:E1; try discriminate. cbn [bind] in E.
      pose proof (fill_keeps r k r1 Hk E1 Ee Hr) as H1.
      destruct (convert grow RS r1) as [r2| |] eqn:E2; try discriminate. cbn [bind] in E.
      apply (IH r2 k p err r' Hk (convert_keeps r1 r2 E2 H1) E).
Qed.

Lemma read_seq_keeps fuel sizes : Forall (fun k => 0 < k) sizes -> forall r out err r', keeps r ->
  read_seq grow RS rd fuel r sizes = Ok (out, err, r') -> keeps r' /\ (err <> None -> err = r_err _ r').
Proof.
  induction 1 as [|k sizes Hk _ IH]; intros r out err r' Hr E; cbn [read_seq] in E.
  - injection E as <- <- <-. split; [exact Hr|congruence].
  - destruct (Read grow RS rd fuel r k) as [[[p e] r1]| |] eqn:E1; try discriminate. cbn [bind] in E.
    destruct (Read_keeps fuel r k p e r1 Hk Hr E1) as [H1 H2].
    destruct e as [e|]; [injection E as <- <- <-; auto|].
    destruct (read_seq _ _ _ _ r1 sizes) as [[[p2 e2] r2]| |] eqn:E2; try discriminate.
    cbn [bind] in E. injection E as <- <- <-. apply (IH r1 p2 e2 r2 H1 E2).
Qed.
End Keeps.

(** ** TeeReader *)
Definition teed {RS} (c : composed RS) : list Z := match c with Tee _ w => w | _ => [] end.
Lemma C137_lemma {RS} (rd : RS -> Z -> list Z * option error * RS) grow c stream text e fuel sizes :
  Forall is_byte stream -> content rd c stream e -> From grow stream = Ok (inl text) ->
  Forall (fun k => 0 < k) sizes -> (length stream + 4 <= fuel)%nat ->
  exists out err r' w c', read_seq grow (composed RS) (read RS rd) fuel (NewReader (Tee c [])) sizes = Ok (out, err, r') /\
    r_src _ r' = Tee c' w /\ is_prefix w stream /\
    (err = None \/ err = Some e /\ out = text /\ w = stream) /\ (zlen text < zlen sizes -> err = Some e).
Proof.
  intros Hb Hc HF Hs Hf. pose proof (content_delivers rd c stream e Hc) as Hd.
  destruct (C136_lemma rd grow (Tee c []) stream text e fuel sizes Hb (content_tee _ _ _ _ _ Hc) HF Hs Hf)
    as (out & err & r' & E & _ & H1 & H2).
  pose (Q := fun t : composed RS => exists c w rest, t = Tee c w /\ w ++ rest = stream /\ delivers (read RS rd) c rest e).
  pose (Q' := fun t : composed RS => exists c, t = Tee c stream).
  destruct (read_seq_keeps grow _ (read RS rd) Q Q') with (4 := E) as [[_ HK] He].
  - intros t k Hk (c1 & w & rest & -> & Hw & H). apply delivers_answers in H. specialize (H k Hk).
    cbn [read]. destruct (read RS rd c1 k) as [[chunk err1] c2]. destruct H as [_ H]. destruct err1 as [e1|].
    + destruct H as [_ ->]. exists c2. rewrite Hw. reflexivity.
    + destruct H as (Hn & more & -> & H). split; [exact Hn|]. exists c2, (w ++ chunk), more.
      rewrite <- app_assoc. auto.
  - exact Hs.
  - split; [unfold slice_ok, scap; cbn; lia|]. cbn [r_err r_src NewReader]. exists c, [], stream. auto.
  - assert (exists c' w, r_src _ r' = Tee c' w /\ is_prefix w stream /\ (r_err _ r' <> None -> w = stream)) as (c' & w & Ew & Hp & Hw).
    { destruct (r_err _ r').
      - destruct HK as (c' & ->). exists c', stream. split; [reflexivity|]. split; [|auto]. exists []. now rewrite app_nil_r.
      - destruct HK as (c' & w & rest & -> & Hw & _). exists c', w. split; [reflexivity|]. split; [exists rest; auto|congruence]. }
    exists out, err, r', w, c'. split; [exact E|]. split; [exact Ew|]. split; [exact Hp|]. split; [|exact H2].
    destruct H1 as [->|[-> ->]]; [auto|]. right. split; [reflexivity|]. split; [reflexivity|]. apply Hw.
    rewrite <- (He ltac:(discriminate)). discriminate.
Qed.

(** ** MultiWriter over several Writers *)
Section Multi.
Variable grow : Z -> Z -> Z.
Variable WS : Type.
Variable wr : WS -> list Z -> option error * WS.
Notation Write := (Write grow WS wr).
Notation ok := (writer_ok WS).

Lemma multi_write_spec data : Forall is_byte data -> forall ws, Forall ok ws ->
  let '(err, dsts) := match data with [] => (None, map (w_dst _) ws) | _ => to_each wr (map (w_dst _) ws) (enc data) end in
  exists ws', multi_write Write ws data = Ok (match err with Some _ => 0 | None => zlen data end, err, ws') /\
    Forall ok ws' /\ map (w_dst _) ws' = dsts.
Proof.
  intros Hd. induction ws as [|w ws IH]; intros Hw.
  - destruct data; cbn; exists []; auto.
  - inversion_clear Hw as [|? ? H1 H2]. specialize (IH H2).
    destruct (Write_spec grow WS wr w data H1 Hd) as (w' & Hok & H). cbn [multi_write map].
    destruct data as [|x data].
    + destruct H as [-> H]. cbn [bind]. destruct IH as (ws' & -> & Hws & Ews). cbn [bind zlen length Z.of_nat Z.eqb].
      exists (w' :: ws'). split; [reflexivity|]. split; [constructor; assumption|]. cbn [map]. congruence.
    + cbn [to_each]. destruct (wr (w_dst _ w) (enc (x :: data))) as [[e|] dst].
      * destruct H as [-> H]. cbn [bind]. exists (w' :: ws). split; [reflexivity|]. split; [constructor; assumption|]. cbn [map]. congruence.
      * destruct H as [-> H]. cbn [bind]. rewrite Z.eqb_refl.
        destruct (to_each wr (map (w_dst WS) ws) (enc (x :: data))) as [err dsts]. destruct IH as (ws' & -> & Hws & Ews). cbn [bind].
        exists (w' :: ws'). split; [reflexivity|]. split; [constructor; assumption|]. cbn [map]. congruence.
Qed.

Lemma multi_writes_spec chunks : Forall (Forall is_byte) chunks -> forall ws, Forall ok ws ->
  exists ws', multi_writes Write ws chunks = Ok (fst (writes_to_each wr (map (w_dst _) ws) (map (fun d => (d, enc d)) chunks)), ws') /\
    Forall ok ws' /\ map (w_dst _) ws' = snd (writes_to_each wr (map (w_dst _) ws) (map (fun d => (d, enc d)) chunks)).
Proof.
  induction 1 as [|data chunks Hd _ IH]; intros ws Hw; cbn [multi_writes map writes_to_each].
  - exists ws. auto.
  - pose proof (multi_write_spec data Hd ws Hw) as H.
    destruct (match data with [] => _ | _ => _ end) as [err dsts]. destruct H as (w1 & -> & Hw1 & <-). cbn [bind].
    destruct (IH w1 Hw1) as (w2 & -> & Hw2 & E2). cbn [bind].
    destruct (writes_to_each wr (map (w_dst WS) w1) _) as [results dsts]. cbn [fst snd] in *.
    exists w2. auto.
Qed.

Lemma C138_lemma dsts chunks : Forall (Forall is_byte) chunks ->
  exists pairs ws, map fst pairs = chunks /\ Forall (fun p => To grow (fst p) = Ok (inl (snd p))) pairs /\
    multi_writes Write (map NewWriter dsts) chunks = Ok (fst (writes_to_each wr dsts pairs), ws) /\
    map (w_dst _) ws = snd (writes_to_each wr dsts pairs).
Proof.
  intros Hc. exists (map (fun d => (d, enc d)) chunks).
  destruct (multi_writes_spec chunks Hc (map NewWriter dsts)) as (ws & E & _ & Hws).
  { apply Forall_map, Forall_forall. intros d _. apply new_writer_ok. }
  rewrite map_map in E, Hws. cbn [w_dst NewWriter] in E, Hws. rewrite map_id in E, Hws.
  exists ws. split; [rewrite map_map; apply map_id|]. split; [|auto].
  apply Forall_map. eapply Forall_impl; [|exact Hc]. intros d Hd. cbn [fst snd]. apply To_enc. exact Hd.
Qed.
End Multi.

Lemma to_each_buffers bs : forall dsts, to_each buffer_wr dsts bs = (None, map (fun d => d ++ bs) dsts).
Proof. induction dsts as [|d dsts IH]; [reflexivity|]. cbn [to_each buffer_wr map]. rewrite IH. reflexivity. Qed.
Lemma writes_to_each_buffers pairs : Forall (fun p => fst p = [] -> snd p = []) pairs -> forall dsts : list (list Z),
  writes_to_each buffer_wr dsts pairs =
    (map (fun p => (zlen (fst p), None)) pairs, map (fun d => d ++ concat (map snd pairs)) dsts).
Proof.
  induction 1 as [|[data x] pairs H _ IH]; intros dsts; cbn [writes_to_each map concat].
  - f_equal. rewrite <- map_id at 1. apply map_ext. intros d. now rewrite app_nil_r.
  - cbn [fst snd] in *. destruct data as [|b data].
    + rewrite IH, H by reflexivity. reflexivity.
    + rewrite to_each_buffers, IH, map_map. f_equal. apply map_ext. intros d. now rewrite app_assoc.
Qed.
Lemma C138_buffer_lemma grow (n : nat) chunks : Forall (Forall is_byte) chunks ->
  exists parts ws, Forall2 (fun d p => To grow d = Ok (inl p)) chunks parts /\
    multi_writes (Write grow (list Z) buffer_wr) (repeat (NewWriter []) n) chunks = Ok (map (fun d => (zlen d, None)) chunks, ws) /\
    map (w_dst _) ws = repeat (concat parts) n.
Proof.
  intros Hc. destruct (C138_lemma grow (list Z) buffer_wr (repeat [] n) chunks Hc) as (pairs & ws & <- & HT & E & Ew).
  assert (Forall (fun p : list Z * list Z => fst p = [] -> snd p = []) pairs) as Hn.
  { eapply Forall_impl; [|exact HT]. intros [d x] H Hd. cbn [fst snd] in *. subst d.
    rewrite (To_enc grow []) in H by constructor. injection H as <-. reflexivity. }
  rewrite writes_to_each_buffers in E, Ew by exact Hn. cbn [fst snd] in E, Ew.
  exists (map snd pairs), ws. split; [|split].
  - clear - HT. induction HT; cbn; constructor; auto.
  - rewrite map_map. rewrite <- E. f_equal. clear. induction n; cbn; congruence.
  - rewrite Ew. clear. induction n; cbn; congruence.
Qed.

(** ** Pipes *)
Lemma raw_pipe_delivers e chunks : Forall (fun b => b <> []) chunks -> delivers (raw_pipe e) chunks (concat chunks) e.
Proof.
  intros H. apply (delivers_by _ e (fun s bytes => Forall (fun b => b <> []) s /\ bytes = concat s)); [|auto].
  clear. intros s bytes [H ->] k Hk. destruct s as [|b s]; cbn [raw_pipe]; [cbn; split; [lia|auto]|].
  inversion_clear H as [|? ? Hb Hs]. destruct b as [|x b]; [congruence|].
  split; [rewrite zlen_ztake by lia; lia|]. split; [rewrite ztake_cons_pos by lia; discriminate|].
  destruct (Z.leb_spec (zlen (x :: b)) k).
  - exists (concat s). cbn [concat]. rewrite ztake_all by lia. auto.
  - exists (zdrop k (x :: b) ++ concat s). cbn [concat]. rewrite (app_assoc (ztake _ _)), ztake_zdrop.
    split; [reflexivity|]. split; [|reflexivity]. constructor; [|exact Hs].
    intros E. pose proof (zlen_zdrop k (x :: b) ltac:(lia)) as E1. rewrite E in E1. change (zlen (@nil Z)) with 0 in E1. lia.
Qed.

Lemma enc_nonempty data : Forall is_byte data -> data <> [] -> enc data <> [].
Proof.
  intros Hd Hn. unfold enc. pose proof (string_to_runes_nonempty data Hd Hn) as H.
  destruct (string_to_runes data) as [|r rs]; [congruence|]. rewrite to_chars_cons. intros E.
  apply app_eq_nil in E. destruct E as [E _]. revert E.
  unfold to_char, enc16, code_bytes. repeat first [destruct (_ <? _)|destruct (PMapFacts.tget _ _)]; discriminate.
Qed.

Lemma go_on_spec grow chunks : Forall (Forall is_byte) chunks -> forall w, writer_ok _ w ->
  exists g, go_on grow w chunks = Ok g /\ writer_ok _ (g_writer g) /\ Forall (Forall is_byte) (g_chunks g) /\
    match g_offered g with
    | Some b => b <> [] /\ concat (map enc chunks) = b ++ concat (map enc (g_chunks g))
    | None => concat (map enc chunks) = [] /\ g_chunks g = []
    end.
Proof.
  induction 1 as [|data chunks Hd Hcs IH]; intros w Hw; cbn [go_on].
  - eexists. split; [reflexivity|]. cbn. auto.
  - destruct (Write_spec grow _ offer (mkWriter _ None (w_scratch _ w) (w_buf _ w)) data) as (w' & Hw' & H);
      [exact Hw|exact Hd|]. destruct data as [|x data].
    + destruct H as [-> H]. cbn [bind w_dst] in *. rewrite H. destruct (IH w' Hw') as (g & -> & H1 & H2 & H3).
      exists g. split; [reflexivity|]. split; [exact H1|]. split; [exact H2|]. exact H3.
    + cbn [offer w_dst] in H. destruct H as [-> H]. cbn [bind]. rewrite H.
      eexists. split; [reflexivity|]. cbn [g_offered g_writer g_chunks map concat].
      split; [exact Hw'|]. split; [exact Hcs|]. split; [|reflexivity]. apply enc_nonempty; [exact Hd|discriminate].
Qed.

Lemma encoding_pipe_delivers grow e chunks : Forall (Forall is_byte) chunks ->
  delivers (encoding_pipe grow e) (mkGoroutine None (NewWriter None) chunks) (concat (map enc chunks)) e.
Proof.
  intros Hc. apply (delivers_by _ e (fun g bytes => writer_ok _ (g_writer g) /\ Forall (Forall is_byte) (g_chunks g) /\
    match g_offered g with Some b => b <> [] /\ bytes = b ++ concat (map enc (g_chunks g)) | None => bytes = concat (map enc (g_chunks g)) end)).
  2: { cbn. split; [apply new_writer_ok|auto]. }
  clear. intros g bytes (Hw & Hc & Ho) k Hk. unfold encoding_pipe.
  assert (exists g1, match g_offered g with Some _ => Ok g | None => go_on grow (g_writer g) (g_chunks g) end = Ok g1 /\
    writer_ok _ (g_writer g1) /\ Forall (Forall is_byte) (g_chunks g1) /\
    match g_offered g1 with
    | Some b => b <> [] /\ bytes = b ++ concat (map enc (g_chunks g1))
    | None => bytes = [] /\ g_chunks g1 = []
    end) as (g1 & -> & H1 & H2 & H3).
  { destruct (g_offered g) as [b|] eqn:Eo.
    - exists g. split; [reflexivity|]. split; [exact Hw|]. split; [exact Hc|]. rewrite Eo. exact Ho.
    - destruct (go_on_spec grow (g_chunks g) Hc (g_writer g) Hw) as (g1 & E & H1 & H2 & H3).
      exists g1. split; [exact E|]. split; [exact H1|]. split; [exact H2|]. rewrite Ho. exact H3. }
  destruct g1 as [[b|] w chunks]; cbn [g_offered g_writer g_chunks] in *.
  - destruct H3 as [Hb ->]. destruct b as [|x b]; [congruence|].
    split; [rewrite zlen_ztake by lia; lia|]. split; [rewrite ztake_cons_pos by lia; discriminate|].
    destruct (Z.leb_spec (zlen (x :: b)) k).
    + exists (concat (map enc chunks)). rewrite ztake_all by lia. cbn [g_offered g_writer g_chunks]. auto.
    + exists (zdrop k (x :: b) ++ concat (map enc chunks)). rewrite (app_assoc (ztake _ _)), ztake_zdrop.
      cbn [g_offered g_writer g_chunks]. split; [reflexivity|]. split; [exact H1|]. split; [exact H2|]. split; [|reflexivity].
      intros E. pose proof (zlen_zdrop k (x :: b) ltac:(lia)) as E1. rewrite E in E1. change (zlen (@nil Z)) with 0 in E1. lia.
  - destruct H3 as [-> _]. split; [cbn; lia|]. auto.
Qed.

Lemma C139_lemma grow e chunks : Forall (Forall is_byte) chunks ->
  exists parts text, Forall2 (fun d p => To grow d = Ok (inl p)) chunks parts /\ From grow (concat parts) = Ok (inl text) /\
  forall fuel sizes, Forall (fun k => 0 < k) sizes -> (length (concat parts) + 4 <= fuel)%nat ->
  exists out err r', read_seq grow _ (encoding_pipe grow e) fuel (NewReader (mkGoroutine None (NewWriter None) chunks)) sizes = Ok (out, err, r') /\
    is_prefix out text /\ (err = None \/ err = Some e /\ out = text) /\ (zlen text < zlen sizes -> err = Some e).
Proof.
  intros Hc.
  assert (Forall2 (fun d p => To grow d = Ok (inl p)) chunks (map enc chunks)) as HT.
  { induction Hc; cbn; constructor; auto. apply To_enc. assumption. }
  assert (exists rs, encodes rs (concat (map enc chunks))) as (rs & Hrs).
  { clear HT. induction Hc as [|d ds Hd _ IH]; cbn [map concat]; [exists []; constructor|].
    destruct IH as (rs & Hrs). destruct (C35_lemma grow d Hd) as (bs & rs1 & E & Henc & _).
    rewrite (To_enc grow d Hd) in E. injection E as <-. exists (rs1 ++ rs). apply encodes_app; assumption. }
  exists (map enc chunks), (utf8 rs). split; [exact HT|].
  assert (From grow (concat (map enc chunks)) = Ok (inl (utf8 rs))) as HF by (apply C29_lemma; exact Hrs).
  split; [exact HF|]. intros fuel sizes Hs Hf. apply C45_lemma with (stream := concat (map enc chunks)); auto.
  - eapply decodes_bytes, encodes_decodes. exact Hrs.
  - apply encoding_pipe_delivers. exact Hc.
Qed.

Lemma C139_round_trip_lemma grow e rss : Forall (Forall in_repertoire) rss ->
  exists bs, encodes (concat rss) bs /\
  forall fuel sizes, Forall (fun k => 0 < k) sizes -> (length bs + 4 <= fuel)%nat -> zlen (utf8 (concat rss)) < zlen sizes ->
  exists r', read_seq grow _ (encoding_pipe grow e) fuel (NewReader (mkGoroutine None (NewWriter None) (map utf8 rss))) sizes =
    Ok (utf8 (concat rss), Some e, r').
Proof.
  intros Hr.
  assert (Forall (Forall is_byte) (map utf8 rss)) as Hb.
  { apply Forall_map. eapply Forall_impl; [|exact Hr]. intros rs H. apply utf8_bytes, Forall_repertoire_scalar, H. }
  destruct (C139_lemma grow e (map utf8 rss) Hb) as (parts & text & HT & HF & H).
  assert (encodes (concat rss) (concat parts)) as He.
  { clear - HT Hr. revert parts HT. induction Hr as [|rs rss H _ IH]; intros parts HT; inversion HT; subst; [constructor|].
    cbn [concat]. apply encodes_app; [|auto]. apply (To_inv grow); assumption. }
  exists (concat parts). split; [exact He|].
  pose proof (From_encodes grow _ _ He) as HF'. rewrite HF in HF'. injection HF' as ->.
  intros fuel sizes Hs Hf Hl. destruct (H fuel sizes Hs Hf) as (out & err & r' & E & _ & H1 & H2).
  specialize (H2 Hl). subst err. destruct H1 as [H1|[_ ->]]; [discriminate|]. eauto.
Qed.

(* Read takes an answer without bytes and error for the end of the stream *)
Definition with_end {S} (rd : S -> Z -> list Z * option error * S) (s : S) (k : Z) : list Z * option error * S :=
  let '(bs, err, s') := rd s k in
  (bs, match err with None => if zlen bs =? 0 then Some EOF else None | Some e => Some e end, s').
Lemma fill_with_end RS rd r k : fill RS (with_end rd) r k = fill RS rd r k.
Proof.
  unfold fill, with_end. destruct (ensureCap _ _) as [b| |]; [|reflexivity..]. cbn [bind].
  destruct (rd _ _) as [[bs err] s]. destruct err; [reflexivity|]. destruct (zlen bs =? 0); reflexivity.
Qed.
Lemma Read_with_end grow RS rd fuel : forall r k, Read grow RS (with_end rd) fuel r k = Read grow RS rd fuel r k.
Proof.
  induction fuel as [|fuel IH]; intros r k; [reflexivity|]. cbn [Read]. destruct (_ >? 0); [reflexivity|].
  destruct (r_err _ r).
  - destruct (_ =? 0); [reflexivity|]. destruct (convert _ _ r); [|reflexivity..]. cbn [bind]. apply IH.
  - rewrite fill_with_end. destruct (fill _ _ r k) as [r1| |]; [|reflexivity..]. cbn [bind].
    destruct (convert _ _ r1); [|reflexivity..]. cbn [bind]. apply IH.
Qed.
Lemma read_seq_with_end grow RS rd fuel sizes : forall r,
  read_seq grow RS (with_end rd) fuel r sizes = read_seq grow RS rd fuel r sizes.
Proof.
  induction sizes as [|k sizes IH]; intros r; [reflexivity|]. cbn [read_seq]. rewrite Read_with_end.
  destruct (Read _ _ _ _ _ _) as [[[p [x|]] r1]| |]; [reflexivity| |reflexivity..]. cbn [bind]. rewrite IH. reflexivity.
Qed.

Lemma raw_pipe_end e writes : forall before, Forall (fun b => b <> []) before ->
  (exists after, writes = before ++ [] :: after) -> delivers (with_end (raw_pipe e)) writes (concat before) EOF.
Proof.
  intros before Hb Hw.
  apply (delivers_by _ EOF (fun s bytes => exists before after, s = before ++ [] :: after /\ Forall (fun b => b <> []) before /\ bytes = concat before)).
  2: { destruct Hw as (after & ->). eauto 6. }
  clear. intros s bytes (before & after & -> & H & ->) k Hk. unfold with_end. destruct before as [|b before]; cbn [app raw_pipe].
  - unfold ztake. rewrite firstn_nil. cbn. split; [lia|auto].
  - inversion_clear H as [|? ? Hb Hs]. destruct b as [|x b]; [congruence|].
    destruct (Z.eqb_spec (zlen (ztake k (x :: b))) 0) as [E|_].
    { rewrite zlen_ztake, zlen_cons in E by lia. pose proof (zlen_nonneg b). lia. }
    split; [rewrite zlen_ztake by lia; lia|]. split; [rewrite ztake_cons_pos by lia; discriminate|].
    destruct (Z.leb_spec (zlen (x :: b)) k).
    + exists (concat before). cbn [concat]. rewrite ztake_all by lia. split; [reflexivity|]. eauto 6.
    + exists (zdrop k (x :: b) ++ concat before). cbn [concat]. rewrite (app_assoc (ztake _ _)), ztake_zdrop.
      split; [reflexivity|]. exists (zdrop k (x :: b) :: before), after. split; [reflexivity|]. split; [|reflexivity].
      constructor; [|exact Hs].
      intros E. pose proof (zlen_zdrop k (x :: b) ltac:(lia)) as E1. rewrite E in E1. change (zlen (@nil Z)) with 0 in E1. lia.
Qed.

Lemma C140_whole_lemma grow e writes text fuel sizes : Forall (Forall is_byte) writes -> Forall (fun b => b <> []) writes ->
  From grow (concat writes) = Ok (inl text) -> Forall (fun k => 0 < k) sizes -> (length (concat writes) + 4 <= fuel)%nat ->
  exists out err r', read_seq grow _ (raw_pipe e) fuel (NewReader writes) sizes = Ok (out, err, r') /\
    is_prefix out text /\ (err = None \/ err = Some e /\ out = text) /\ (zlen text < zlen sizes -> err = Some e).
Proof.
  intros Hb Hn HF Hs Hf. apply C45_lemma with (stream := concat writes); auto.
  - clear - Hb. induction Hb; cbn; [constructor|]. apply Forall_app. auto.
  - apply raw_pipe_delivers. exact Hn.
Qed.
Lemma C140_exact_lemma grow e before after text fuel sizes : Forall (Forall is_byte) before -> Forall (fun b => b <> []) before ->
  From grow (concat before) = Ok (inl text) -> Forall (fun k => 0 < k) sizes -> (length (concat before) + 4 <= fuel)%nat ->
  exists out err r', read_seq grow _ (raw_pipe e) fuel (NewReader (before ++ [] :: after)) sizes = Ok (out, err, r') /\
    is_prefix out text /\ (err = None \/ err = Some EOF /\ out = text) /\ (zlen text < zlen sizes -> err = Some EOF).
Proof.
  intros Hb Hn HF Hs Hf. rewrite <- read_seq_with_end. apply C45_lemma with (stream := concat before); auto.
  - clear - Hb. induction Hb; cbn; [constructor|]. apply Forall_app. auto.
  - apply raw_pipe_end; eauto.
Qed.
Lemma C140_refuted_lemma : exists writes text, (forall grow, From grow (concat writes) = Ok (inl text)) /\
  forall grow fuel sizes, Forall (fun k => 0 < k) sizes -> (5 <= fuel)%nat ->
  exists out err r', read_seq grow _ (raw_pipe EOF) fuel (NewReader writes) sizes = Ok (out, err, r') /\ out <> text /\
    (1 < zlen sizes -> err = Some EOF).
Proof.
  exists [[0x41]; []; [0x42]], [0x41; 0x42]. split.
  { intros grow. apply C33_lemma. repeat constructor; discriminate. }
  intros grow fuel sizes Hs Hf.
  destruct (C140_exact_lemma grow EOF [[0x41]] [[0x42]] [0x41] fuel sizes) as (out & err & r' & E & [q Hq] & _ & H).
  - repeat constructor; discriminate.
  - repeat constructor; discriminate.
  - apply C33_lemma. repeat constructor; discriminate.
  - exact Hs.
  - exact Hf.
  - exists out, err, r'. split; [exact E|]. split; [|exact H]. intros ->. destruct q; discriminate.
Qed.

Lemma C136_over_lemma grow RS (rd : RS -> Z -> list Z * option error * RS) s stream text e fuel :
  Forall is_byte stream -> delivers rd s stream e -> From grow stream = Ok (inl text) -> (length stream + 4 <= fuel)%nat ->
  content (as_reader (Read grow RS rd fuel)) (Plain (NewReader s)) text e.
Proof. intros Hb Hd HF Hf. constructor. eapply C79_lemma; eassumption. Qed.
