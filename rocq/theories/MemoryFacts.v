(** How much the executed sources allocate: bounds for the capacities of the buffers. *)
From Coq Require Import String ZArith List Bool Lia.
From Verif Require Import Base Spec Utf8 SortSearch TableFrom TableTo Cp949Model StreamModel IoModel StreamModel3 GoLang GoPlatform GoSource GoFacts GoHeap Facts Utf8Facts
  SliceFacts SpecCp949 SpecIO SourceSpec MemorySpec GoCp949 GoStream Cp949Facts StreamFacts StreamFacts2 StreamFacts3 StreamFacts5 TransformFacts3 PipeFacts PipeFacts2 SourceFacts SourceFacts2.
Import ListNotations.
Local Open Scope string_scope.
Local Open Scope list_scope.
Local Open Scope Z_scope.
Local Open Scope go_scope.
Local Opaque fromTable toTable.

Section Amortised.
Variable grow : Z -> Z -> Z.
Hypothesis Hgrow : amortised grow.

Lemma regrows_bound c c' b : 0 <= c -> regrows grow c c' b -> c <= c' /\ b <= 6 * (c' - c).
Proof.
  intros Hc H. induction H as [c|c c1 c2 b Hs H IH]; [lia|].
  assert (c < c1 /\ 6 * c <= 5 * c1) as [H1 H2].
  { destruct Hs as [[H1 [->|H2]]|(need & H1 & ->)]; [lia|lia|]. destruct (Hgrow c need ltac:(lia)). lia. }
  destruct (IH ltac:(lia)). lia.
Qed.

(** No buffer has a larger capacity than [lim T] if it never had to hold more than [T] bytes. *)
Definition lim (T : Z) : Z := 3 * T + 64.

Lemma append_cap sl bs T : slice_ok sl -> slen sl + zlen bs <= T ->
  scap (go_append grow sl bs) <= Z.max (scap sl) (lim T).
Proof.
  intros Hok HT. pose proof Hok as [H1 H2]. pose proof (zlen_nonneg bs) as Hb. unfold go_append, lim in *.
  destruct (Z.leb_spec (slen sl + zlen bs) (scap sl)) as [Hle|Hgt]; unfold scap in *; cbn [arr].
  - rewrite zlen_zwrite by lia. lia.
  - pose proof (contents_len sl Hok) as Hc. rewrite !zlen_app, zlen_zeros by lia.
    destruct (Hgrow (zlen (arr sl)) (slen sl + zlen bs)); [pose proof (zlen_nonneg (arr sl)); lia|]. lia.
Qed.

Lemma ensureCap_cap sl n sl' : slice_ok sl -> ensureCap sl n = Ok sl' ->
  slice_ok sl' /\ slen sl' = slen sl /\ n <= scap sl' /\ scap sl' <= Z.max (scap sl) (2 * n).
Proof.
  intros Hok H. destruct (ensureCap_spec sl n Hok) as (s' & E & H1 & _ & H2 & H3 & H4 & H5 & H6).
  rewrite E in H. injection H as <-. split; [assumption|]. split; [assumption|]. split; [assumption|].
  unfold slice_ok in *. destruct (Z_le_dec n (scap sl)) as [Hn|Hn]; [rewrite (H4 Hn); lia|].
  destruct (Z.eq_dec (scap sl) 0) as [Hz|Hz]; [rewrite H5 by lia; lia|]. assert (scap s' < 2 * n) by (apply H6; lia). lia.
Qed.

Lemma appendRune_cap sl r sl' T : slice_ok sl -> appendRune sl r = Ok sl' -> slen sl + 4 <= T ->
  slice_ok sl' /\ slen sl' <= slen sl + 4 /\ scap sl' <= Z.max (scap sl) (lim T).
Proof.
  intros Hok H HT. unfold appendRune in H.
  destruct (ensureCap sl (slen sl + UTFMax)) as [b| |] eqn:Hb; try discriminate. cbn [bind] in H.
  destruct (ensureCap_cap _ _ _ Hok Hb) as (Hokb & Hl & Hn & Hcap). change UTFMax with 4 in *.
  destruct (slen sl + 4 >? scap b) eqn:Hgt; [discriminate|].
  pose proof (EncodeRune_len r) as He. unfold slice_ok, scap, lim in *.
  assert (Hz : zlen (zwrite (arr b) (slen sl) (EncodeRune r)) = zlen (arr b)) by (apply zlen_zwrite; lia).
  rewrite reslice_spec in H by (unfold scap; cbn [arr]; lia). injection H as <-. cbn [arr slen] in *. lia.
Qed.

Lemma from_loop_cap t T fuel : forall sl data c c' out err sl', slice_ok sl ->
  from_loop grow fuel t sl data c = Ok (c', out, err, sl') -> slen sl + 2 * zlen data <= T ->
  slice_ok sl' /\ slen sl' <= T /\ scap sl' <= Z.max (scap sl) (lim T).
Proof.
  induction fuel as [|fuel IH]; intros sl data c c' out err sl' Hok H HT; destruct data as [|d0 rest]; cbn [from_loop] in H;
    try discriminate; try (injection H as <- <- <- <-; cbn in HT; split; [assumption|lia]).
  rewrite zlen_cons in HT. pose proof (zlen_nonneg rest) as Hr.
  destruct (Z.land d0 0x80 =? 0).
  - destruct (go_append_spec grow sl [d0] Hok) as (Hok1 & _ & Hl1). change (zlen [d0]) with 1 in Hl1.
    pose proof (append_cap sl [d0] T Hok) as Hc. change (zlen [d0]) with 1 in Hc.
    apply IH in H; [|assumption|lia]. split; [apply H|lia].
  - destruct rest as [|d1 rest]; [injection H as <- <- <- <-; split; [assumption|lia]|].
    rewrite zlen_cons in *. pose proof (zlen_nonneg rest).
    destruct (Search _ _) as [fi| |]; try discriminate. cbn [bind] in H.
    destruct (if fi <? zlen t then _ else _) as [hit| |]; try discriminate. cbn [bind] in H.
    destruct (if hit then _ else _) as [sl1| |] eqn:Hs; try discriminate. cbn [bind] in H.
    assert (Ha : exists r, appendRune sl r = Ok sl1).
    { destruct hit; [|eauto]. destruct (get_or_panic _); try discriminate. cbn [bind] in Hs. eauto. }
    destruct Ha as [r Ha]. apply (appendRune_cap _ _ _ T Hok) in Ha; [|lia].
    apply IH in H; [|apply Ha|lia]. split; [apply H|lia].
Qed.

Lemma from_Translate_cap t sl data c' out err sl' T : slice_ok sl ->
  from_Translate grow t sl data = Ok (c', out, err, sl') -> 2 * zlen data <= T ->
  slice_ok sl' /\ slen sl' <= T /\ scap sl' <= Z.max (scap sl) (lim T).
Proof.
  intros Hok H HT. unfold from_Translate in H. rewrite reslice_0 in H by exact Hok. cbn [bind] in H.
  apply (from_loop_cap _ T) in H; [exact H|apply reslice_0_ok, Hok|exact HT].
Qed.

Lemma to_loop_cap t T fuel : forall sl data c c' out err sl', slice_ok sl -> Forall is_byte data ->
  to_loop grow fuel t sl data c = Ok (c', out, err, sl') -> slen sl + 2 * zlen data <= T ->
  slice_ok sl' /\ scap sl' <= Z.max (scap sl) (lim T).
Proof.
  induction fuel as [|fuel IH]; intros sl data c c' out err sl' Hok Hby H HT; destruct data as [|d0 rest]; cbn [to_loop] in H;
    try discriminate; try (injection H as <- <- <- <-; split; [assumption|lia]).
  inversion Hby as [|? ? Hd0 Hrest]; subst.
  rewrite zlen_cons in HT. pose proof (zlen_nonneg rest) as Hr.
  assert (Happ : forall s bs, slice_ok s -> slen s + zlen bs <= T ->
     slice_ok (go_append grow s bs) /\ slen (go_append grow s bs) = slen s + zlen bs /\ scap (go_append grow s bs) <= Z.max (scap s) (lim T)).
  { intros s bs Hs Hl. destruct (go_append_spec grow s bs Hs) as (H1 & _ & H2). split; [assumption|]. split; [assumption|].
    now apply append_cap. }
  destruct (Z.land d0 0x80 =? 0).
  - destruct (Happ sl [d0] Hok) as (H1 & H2 & H3); [change (zlen [d0]) with 1; lia|]. change (zlen [d0]) with 1 in H2.
    apply IH in H; [|assumption|assumption|lia]. split; [apply H|lia].
  - destruct (DecodeRune_step d0 rest Hd0) as (r & n & Ed & Hn & _). rewrite Ed in H.
    destruct (Search _ _) as [fi| |]; try discriminate. cbn [bind] in H.
    set (sl0 := if fi >=? zlen t then _ else _) in H.
    assert (H0 : slice_ok sl0 /\ slen sl0 <= slen sl + (if fi >=? zlen t then 1 else 0) /\ scap sl0 <= Z.max (scap sl) (lim T)).
    { unfold sl0. destruct (fi >=? zlen t); [|split; [assumption|lia]].
      destruct (Happ sl [0x3F] Hok) as (H1 & H2 & H3); [change (zlen [0x3F]) with 1; lia|]. change (zlen [0x3F]) with 1 in H2.
      split; [assumption|lia]. }
    destruct H0 as (Hok0 & Hl0 & Hc0).
    destruct (if fi <? zlen t then _ else _) as [hit| |] eqn:Hhit; try discriminate. cbn [bind] in H.
    destruct (if hit then _ else _) as [sl1| |] eqn:Hs; try discriminate. cbn [bind] in H.
    assert (H1 : slice_ok sl1 /\ slen sl1 <= slen sl + 2 /\ scap sl1 <= Z.max (scap sl) (lim T)).
    { destruct hit.
      - destruct (get_or_panic _) as [f| |]; try discriminate. cbn [bind] in Hs. injection Hs as <-.
        assert (Hge : (fi >=? zlen t) = false).
        { destruct (fi <? zlen t) eqn:Hlt; [lia|]. discriminate. }
        rewrite Hge in Hl0.
        destruct (Happ sl0 [to_u8 (Z.shiftr (cp949 f) 8); to_u8 (Z.land (cp949 f) 0xff)] Hok0) as (H1 & H2 & H3);
          [rewrite zlen_cons; change (zlen [to_u8 (Z.land (cp949 f) 0xff)]) with 1; lia|].
        rewrite zlen_cons in H2. change (zlen [to_u8 (Z.land (cp949 f) 0xff)]) with 1 in H2. split; [assumption|lia].
      - injection Hs as <-. destruct (Happ sl0 [0x3F] Hok0) as (H1 & H2 & H3).
        + change (zlen [0x3F]) with 1. destruct (fi >=? zlen t); lia.
        + change (zlen [0x3F]) with 1 in H2. split; [assumption|]. destruct (fi >=? zlen t); lia. }
    destruct (n >? zlen (d0 :: rest)); [discriminate|].
    apply IH in H; [|apply H1|apply Forall_zdrop; assumption|rewrite zlen_zdrop by lia; rewrite zlen_cons; lia]. split; [apply H|lia].
Qed.

Lemma to_Translate_cap t sl data c' out err sl' T : slice_ok sl -> Forall is_byte data ->
  to_Translate grow t sl data = Ok (c', out, err, sl') -> 2 * zlen data <= T ->
  slice_ok sl' /\ scap sl' <= Z.max (scap sl) (lim T).
Proof.
  intros Hok Hb H HT. unfold to_Translate in H. rewrite reslice_0 in H by exact Hok. cbn [bind] in H.
  apply (to_loop_cap _ T) in H; [exact H|apply reslice_0_ok, Hok|exact Hb|exact HT].
Qed.

Lemma nil_slice_ok : slice_ok nil_slice.
Proof. unfold slice_ok, scap. cbn. lia. Qed.

(** ** From and To *)
Section Calls.
Variable E : Type.
Variable rd : nat -> E -> Z -> Z * list Z * option error * E.
Variable wr : nat -> E -> list Z -> Z * option error * E.
Notation mk := (mkState E).

Lemma C120_From_lemma s v data : has_nil (arrs E s) -> slice_holds (arrs E s) v data -> Forall is_byte data ->
  exists r s', calls grow E rd wr prog_cp949 "From" [v] s r s' /\
    allocated (arrs E s') <= allocated (arrs E s) + 36 * zlen data + 384.
Proof.
  intros Hn Hi Hb. destruct s as [A O X]. apply holds_input in Hi. destruct Hi as (l & o & n & c & -> & Hi). cbn [arrs] in *.
  assert (exists c' out err sl', from_Translate grow fromTable nil_slice data = Ok (c', out, err, sl')) as (c' & out & err & sl' & Hf).
  { destruct (decodes_or_cut data Hb) as [(rs & Hd)|(a & Hc)].
    - destruct (from_Translate_complete grow nil_slice data rs nil_slice_ok Hd) as (s' & _ & _ & ->). eauto.
    - destruct (from_Translate_cut grow nil_slice data a nil_slice_ok Hc) as (s' & _ & ->). eauto. }
  destruct (go_From_spends grow E rd wr A O X l o n c data c' out err sl' Hn Hi Hb Hf) as (A' & v & _ & _ & (b & Hr & Htot) & ob & N & Hrun).
  exists v, (mk A' (O ++ [ob]) X). split; [exists N; exact Hrun|]. cbn [arrs].
  apply (from_Translate_cap _ _ _ _ _ _ _ (2 * zlen data) nil_slice_ok) in Hf; [|lia].
  apply regrows_bound in Hr; [|lia]. change (scap nil_slice) with 0 in Hf. unfold lim in Hf. pose proof (zlen_nonneg data).
  change (allocated A') with (total A'). change (allocated A) with (total A). lia.
Qed.
Lemma C120_To_lemma s v data : has_nil (arrs E s) -> slice_holds (arrs E s) v data -> Forall is_byte data ->
  exists r s', calls grow E rd wr prog_cp949 "To" [v] s r s' /\
    allocated (arrs E s') <= allocated (arrs E s) + 36 * zlen data + 384.
Proof.
  intros Hn Hi Hb. destruct s as [A O X]. apply holds_input in Hi. destruct Hi as (l & o & n & c & -> & Hi). cbn [arrs] in *.
  destruct (to_Translate_spec grow nil_slice data nil_slice_ok Hb) as (sl' & _ & _ & Hf).
  destruct (go_To_spends grow E rd wr A O X l o n c data _ _ _ _ Hn Hi Hf) as (A' & v & _ & _ & (b & Hr & Htot) & ob & N & Hrun).
  exists v, (mk A' (O ++ [ob]) X). split; [exists N; exact Hrun|]. cbn [arrs].
  apply (to_Translate_cap _ _ _ _ _ _ _ (2 * zlen data) nil_slice_ok Hb) in Hf; [|lia].
  apply regrows_bound in Hr; [|lia]. change (scap nil_slice) with 0 in Hf. unfold lim in Hf. pose proof (zlen_nonneg data).
  change (allocated A') with (total A'). change (allocated A) with (total A). lia.
Qed.

(** ** Writer *)
Lemma Write_cap (w1 : E -> list Z -> option error * E) w data n err w' W : writer_ok E w -> Forall is_byte data -> zlen data <= W ->
  Write grow E w1 w data = Ok (n, err, w') ->
  writer_ok E w' /\ scap (w_scratch _ w') <= Z.max (scap (w_scratch _ w)) (lim (2 * W)).
Proof.
  intros Hw Hb HW H. destruct (Write_spec grow E w1 w data Hw Hb) as (w'' & Hw'' & Heq).
  assert (writer_ok E w') as Hw'.
  { destruct data as [|d data]; [destruct Heq as [Heq _]; congruence|].
    destruct (w1 _ _) as [e x]. destruct Heq as [Heq _]. congruence. }
  split; [exact Hw'|]. clear Heq Hw'' w''. destruct Hw as [Hs Hbuf]. unfold Write in H. rewrite Hbuf in H. cbn [zlen length Z.of_nat Z.gtb Z.compare] in H.
  destruct (to_Translate grow toTable (w_scratch _ w) data) as [[[[c cd] o] sc]| |] eqn:Ht; try discriminate. cbn [bind] in H.
  apply (to_Translate_cap _ _ _ _ _ _ _ (2 * W) Hs Hb) in Ht; [|lia].
  destruct (if c >? 0 then _ else _) as [[e|] x]; injection H as <- <- <-; cbn [w_scratch]; apply Ht.
Qed.
Lemma write_all_cap (w1 : E -> list Z -> option error * E) W chunks : Forall (Forall is_byte) chunks -> Forall (fun d => zlen d <= W) chunks ->
  forall w outs w', writer_ok E w -> write_all grow E w1 w chunks = Ok (outs, w') ->
  writer_ok E w' /\ scap (w_scratch _ w') <= Z.max (scap (w_scratch _ w)) (lim (2 * W)).
Proof.
  induction 1 as [|d chunks Hd Hch IH]; intros HW w outs w' Hw H; cbn [write_all] in H.
  - injection H as <- <-. split; [assumption|lia].
  - inversion HW as [|? ? HW1 HW2]; subst.
    destruct (Write grow E w1 w d) as [[[n err] w2]| |] eqn:Hwr; try discriminate. cbn [bind] in H.
    destruct (write_all grow E w1 w2 chunks) as [[rs w3]| |] eqn:Hrest; try discriminate. cbn [bind] in H. injection H as <- <-.
    apply (Write_cap w1 _ _ _ _ _ W Hw Hd HW1) in Hwr. destruct (IH HW2 _ _ _ (proj1 Hwr) Hrest) as [H1 H2].
    split; [assumption|lia].
Qed.

Lemma own_client evs : own_bytes evs = client_bytes evs.
Proof. induction evs as [|[? ?|?|? ? ? ?] evs IH]; cbn; rewrite ?IH; reflexivity. Qed.

Lemma C121_lemma k A O X evs W : has_nil A -> Forall (Forall is_byte) A -> Forall event_bytes evs -> sensible 0 (map zlen A) evs ->
  Forall (fun d => zlen d <= W) (chunks A evs) -> 0 <= W ->
  exists p s0 outs own s,
    calls grow E rd wr prog_cp949 "NewWriter" [VExt k] (mk A O X) (VTuple [VPtr p; VErr None]) s0 /\ arrs E s0 = A /\
    writes grow E rd wr prog_cp949 p (seq 0 (length A)) s0 evs outs own s /\
    allocated (arrs E s) <= allocated A + own_bytes evs + 36 * W + 384.
Proof.
  intros Hn HA He Hs HW H0.
  destruct (writer_session_spends grow E rd wr k A O X evs Hn HA He Hs) as (p & s0 & pairs & own & s & H1 & H2 & H3 & _ & H5 & _ & _ & w' & b & H7 & Hr & Ht).
  eexists p, s0, _, own, s. split; [exact H1|]. split; [exact H2|]. split; [exact H5|].
  apply (write_all_cap _ W _ (chunks_bytes evs A HA He) HW) in H7; [|split; [apply nil_slice_ok|reflexivity]].
  apply regrows_bound in Hr; [|lia]. change (scap (w_scratch E (NewWriter X))) with 0 in H7. unfold lim in H7.
  rewrite own_client. change (allocated (arrs E s)) with (total (arrs E s)). change (allocated A) with (total A). lia.
Qed.
End Calls.
End Amortised.

(** ** A Writer whose buffer is large enough *)
Section Steady.
Variable grow : Z -> Z -> Z.

Lemma regrows_least c c' b : 0 <= c -> regrows grow c c' b -> c <= c' /\ c' - c <= b /\ (c = c' -> b = 0).
Proof.
  intros Hc H. induction H as [c|c c1 c2 b Hs H IH]; [lia|].
  assert (c < c1) as H1 by (destruct Hs as [[H1 _]|(need & H1 & ->)]; lia).
  destruct (IH ltac:(lia)) as (H2 & H3 & _). lia.
Qed.

Lemma append_steady sl bs : slice_ok sl -> slen sl + zlen bs <= scap sl -> scap (go_append grow sl bs) = scap sl.
Proof.
  intros [H1 H2] H. pose proof (zlen_nonneg bs). unfold go_append. destruct (Z.leb_spec (slen sl + zlen bs) (scap sl)); [|lia].
  unfold scap in *. cbn [arr]. apply zlen_zwrite; lia.
Qed.

Lemma append_more sl bs : slice_ok sl -> scap sl <= scap (go_append grow sl bs).
Proof.
  intros Hok. pose proof Hok as [H1 H2]. pose proof (zlen_nonneg bs). destruct (Z_le_dec (slen sl + zlen bs) (scap sl)).
  - rewrite append_steady by assumption. lia.
  - destruct (go_append_spec grow sl bs Hok) as ([_ H3] & _ & H4). lia.
Qed.

Lemma to_loop_steady t fuel : forall sl data c c' out err sl', slice_ok sl ->
  to_loop grow fuel t sl data c = Ok (c', out, err, sl') ->
  slen sl <= slen sl' /\ scap sl <= scap sl' /\ (slen sl' <= scap sl -> scap sl' = scap sl).
Proof.
  induction fuel as [|fuel IH]; intros sl data c c' out err sl' Hok H; destruct data as [|d0 rest]; cbn [to_loop] in H;
    try discriminate; try (injection H as <- <- <- <-; lia).
  assert (Happ : forall s bs, slice_ok s -> slice_ok (go_append grow s bs) /\ slen s <= slen (go_append grow s bs) /\
     scap s <= scap (go_append grow s bs) /\
     (slen (go_append grow s bs) <= scap s -> scap (go_append grow s bs) = scap s)).
  { intros s bs Hs. destruct (go_append_spec grow s bs Hs) as (H1 & _ & H2). pose proof (zlen_nonneg bs). split; [assumption|].
    split; [lia|]. split; [now apply append_more|]. intros Hl. apply append_steady; [assumption|lia]. }
  destruct (Z.land d0 0x80 =? 0).
  - destruct (Happ sl [d0] Hok) as (H1 & H2 & H2' & H3). apply IH in H; [|assumption]. destruct H as (H4 & H4' & H5). split; [lia|].
    split; [lia|]. intros Hl. rewrite H3 in H5 by lia. apply H5. lia.
  - destruct (DecodeRune (d0 :: rest)) as [r n].
    destruct (Search _ _) as [fi| |]; try discriminate. cbn [bind] in H.
    set (sl0 := if fi >=? zlen t then _ else _) in H.
    assert (H0 : slice_ok sl0 /\ slen sl <= slen sl0 /\ scap sl <= scap sl0 /\ (slen sl0 <= scap sl -> scap sl0 = scap sl)).
    { unfold sl0. destruct (fi >=? zlen t); [apply Happ, Hok|]. split; [assumption|lia]. }
    destruct H0 as (Hok0 & Hl0 & Hm0 & Hc0).
    destruct (if fi <? zlen t then _ else _) as [hit| |]; try discriminate. cbn [bind] in H.
    destruct (if hit then _ else _) as [sl1| |] eqn:Hs; try discriminate. cbn [bind] in H.
    assert (H1 : slice_ok sl1 /\ slen sl0 <= slen sl1 /\ scap sl0 <= scap sl1 /\ (slen sl1 <= scap sl0 -> scap sl1 = scap sl0)).
    { destruct hit; [destruct (get_or_panic _) as [f| |]; try discriminate; cbn [bind] in Hs|].
      - injection Hs as <-. now apply Happ.
      - injection Hs as <-. now apply Happ. }
    destruct H1 as (H1 & H2 & H2' & H3).
    destruct (n >? zlen (d0 :: rest)); [discriminate|]. apply IH in H; [|assumption]. destruct H as (H4 & H4' & H5). split; [lia|].
    split; [lia|]. intros Hl. assert (scap sl0 = scap sl) as Hx by (apply Hc0; lia). rewrite Hx in H3. rewrite H3 in H5 by lia. apply H5. lia.
Qed.

Section Calls.
Variable E : Type.
Variable rd : nat -> E -> Z -> Z * list Z * option error * E.
Variable wr : nat -> E -> list Z -> Z * option error * E.
Notation mk := (mkState E).

(** The buffer holds the last result; it keeps its capacity if that was enough. *)
Lemma Write_steady (w1 : E -> list Z -> option error * E) w data n err w' bs : writer_ok E w -> Forall is_byte data -> To grow data = Ok (inl bs) ->
  Write grow E w1 w data = Ok (n, err, w') ->
  writer_ok E w' /\ zlen bs <= scap (w_scratch _ w') /\ scap (w_scratch _ w) <= scap (w_scratch _ w') /\
  (zlen bs <= scap (w_scratch _ w) -> scap (w_scratch _ w') = scap (w_scratch _ w)).
Proof.
  intros Hw Hb Hto H. destruct (Write_spec grow E w1 w data Hw Hb) as (w'' & Hw'' & Heq).
  assert (writer_ok E w') as Hw'.
  { destruct data as [|d data]; [destruct Heq as [Heq _]; congruence|].
    destruct (w1 _ _) as [e x]. destruct Heq as [Heq _]. congruence. }
  split; [exact Hw'|]. clear Heq Hw'' w''. destruct Hw as [Hs Hbuf]. unfold Write in H. rewrite Hbuf in H. cbn [zlen length Z.of_nat Z.gtb Z.compare] in H.
  rewrite (To_runes grow data Hb) in Hto. injection Hto as <-.
  destruct (to_Translate_spec grow (w_scratch _ w) data Hs Hb) as (sc & Hsc & Hcont & Ht). pose proof Ht as Ht'. rewrite Ht in H. cbn [bind] in H.
  unfold to_Translate in Ht'. rewrite reslice_0 in Ht' by exact Hs. cbn [bind] in Ht'.
  apply to_loop_steady in Ht'; [|apply reslice_0_ok, Hs]. change (scap (mkSlice (arr (w_scratch E w)) 0)) with (scap (w_scratch E w)) in *.
  assert (w_scratch _ w' = sc) as -> by (destruct (if zlen data >? 0 then _ else _) as [[e|] x]; injection H as <- <- <-; reflexivity).
  rewrite <- Hcont. rewrite contents_len by exact Hsc. unfold slice_ok in Hsc. split; [lia|]. split; [lia|apply Ht'].
Qed.

Lemma write_all_steady (w1 : E -> list Z -> option error * E) chunks : Forall (Forall is_byte) chunks ->
  forall w outs w', writer_ok E w -> write_all grow E w1 w chunks = Ok (outs, w') ->
  writer_ok E w' /\ scap (w_scratch _ w) <= scap (w_scratch _ w') /\
  (forall d bs, In d chunks -> To grow d = Ok (inl bs) -> zlen bs <= scap (w_scratch _ w')) /\
  ((forall d bs, In d chunks -> To grow d = Ok (inl bs) -> zlen bs <= scap (w_scratch _ w)) -> scap (w_scratch _ w') = scap (w_scratch _ w)).
Proof.
  induction 1 as [|d chunks Hd Hch IH]; intros w outs w' Hw H; cbn [write_all] in H.
  - injection H as <- <-. split; [assumption|]. split; [lia|]. split; [intros d bs []|auto].
  - destruct (Write grow E w1 w d) as [[[n err] w2]| |] eqn:Hwr; try discriminate. cbn [bind] in H.
    destruct (write_all grow E w1 w2 chunks) as [[rs w3]| |] eqn:Hrest; try discriminate. cbn [bind] in H. injection H as <- <-.
    destruct (Write_steady w1 _ _ _ _ _ _ Hw Hd (To_runes grow d Hd) Hwr) as (Hw2 & H1 & H2 & H3).
    destruct (IH _ _ _ Hw2 Hrest) as (Hw3 & H4 & H5 & H6). split; [assumption|]. split; [lia|]. split.
    + intros d' bs [<-|Hi] Hto; [|now apply (H5 d')]. rewrite (To_runes grow d Hd) in Hto. injection Hto as <-. lia.
    + intros Hall. pose proof (Hall d _ (or_introl eq_refl) (To_runes grow d Hd)) as H7. rewrite <- (H3 H7).
      apply H6. intros d' bs Hi Hto. rewrite (H3 H7). apply (Hall d'); [now right|assumption].
Qed.

Lemma after_writes_bytes evs : forall C, Forall (Forall is_byte) C -> Forall event_bytes evs -> Forall (Forall is_byte) (after_writes C evs).
Proof.
  assert (Hset : forall h a (C : list (list Z)), Forall is_byte a -> Forall (Forall is_byte) C -> Forall (Forall is_byte) (set_nth h a C)).
  { intros h a C Ha HC. revert h. induction HC as [|x C Hx HC IH]; intros [|h]; cbn; constructor; auto. }
  induction evs as [|[h a|a|h o n c] evs IH]; intros C HC He; [assumption|..]; inversion He as [|? ? He1 He2]; subst; cbn in *.
  - apply IH; [apply Hset; assumption|assumption].
  - apply IH; [apply Forall_app; auto|assumption].
  - auto.
Qed.

Lemma C123_lemma k A O X evs1 evs2 : has_nil A -> Forall (Forall is_byte) A -> Forall event_bytes (evs1 ++ evs2) ->
  sensible 0 (map zlen A) evs1 -> sensible 0 (map zlen (after_writes A evs1)) evs2 ->
  (forall d2 bs2, In d2 (chunks (after_writes A evs1) evs2) -> To grow d2 = Ok (inl bs2) ->
     exists d1 bs1, In d1 (chunks A evs1) /\ To grow d1 = Ok (inl bs1) /\ zlen bs2 <= zlen bs1) ->
  exists p s0 outs1 own1 s1 outs2 own2 s2,
    calls grow E rd wr prog_cp949 "NewWriter" [VExt k] (mk A O X) (VTuple [VPtr p; VErr None]) s0 /\ arrs E s0 = A /\
    writes grow E rd wr prog_cp949 p (seq 0 (length A)) s0 evs1 outs1 own1 s1 /\
    writes grow E rd wr prog_cp949 p own1 s1 evs2 outs2 own2 s2 /\
    allocated (arrs E s2) = allocated (arrs E s1) + own_bytes evs2.
Proof.
  intros Hn HA He Hs1 Hs2 Hcov. apply Forall_app in He. destruct He as [He1 He2].
  destruct (go_NewWriter grow E rd wr k A O X Hn) as (s0 & Hw & Hx & Ha & _ & _ & Hrun).
  set (wm := wr_model E wr k).
  pose proof (chunks_bytes evs1 A HA He1) as Hch1.
  assert (Hch2 : Forall (Forall is_byte) (chunks (after_writes A evs1) evs2)) by (apply chunks_bytes; [now apply after_writes_bytes|assumption]).
  assert (writer_ok E (NewWriter X)) as Hw0 by (split; [apply nil_slice_ok|reflexivity]).
  destruct (write_all_spec grow E wm _ Hch1 (NewWriter X) Hw0) as (w1 & Hw1 & Hall1 & Hdst1).
  destruct (write_all_spec grow E wm _ Hch2 w1 Hw1) as (w2 & Hw2 & Hall2 & Hdst2).
  set (outs1 := fst (writes_spec wm (w_dst E (NewWriter X)) _)) in Hall1. set (outs2 := fst (writes_spec wm (w_dst E w1) _)) in Hall2.
  pose proof (own_all A) as Hown.
  destruct (writes_sim grow E rd wr k (S (length O)) (length O) evs1 (seq 0 (length A)) s0 0%nat (NewWriter X) outs1 w1)
    as (own1 & s1 & R1 & R2 & R3 & (ls1 & I1 & I2 & I3 & _) & b1 & Hb1 & Ht1); try assumption.
  - apply seq_NoDup.
  - rewrite Ha. now apply mine_all.
  - rewrite Ha, Hown. assumption.
  - rewrite Ha, Hown. assumption.
  - rewrite Ha, Hown. assumption.
  - rewrite Ha, Hown in R2.
    destruct (writes_sim grow E rd wr k (S (length O)) (length O) evs2 own1 s1 ls1 w1 outs2 w2)
      as (own2 & s2 & Q1 & Q2 & Q3 & _ & b2 & Hb2 & Ht2); try assumption.
    + rewrite R2. assumption.
    + rewrite R2. assumption.
    + rewrite R2. assumption.
    + exists (S (length O)), s0, outs1, own1, s1, outs2, own2, s2.
      split; [exists 2%nat; intros n Hle; destruct n as [|[|n]]; [lia|lia|apply Hrun]|].
      split; [assumption|]. split; [assumption|]. split; [assumption|].
      destruct (write_all_steady wm _ Hch1 _ _ _ Hw0 Hall1) as (_ & _ & Hbig & _).
      destruct (write_all_steady wm _ Hch2 _ _ _ Hw1 Hall2) as (_ & _ & _ & Hst).
      assert (scap (w_scratch _ w2) = scap (w_scratch _ w1)) as Hsame.
      { apply Hst. intros d2 bs2 Hi Hto. destruct (Hcov d2 bs2 Hi Hto) as (d1 & bs1 & Hi1 & Hto1 & Hle).
        specialize (Hbig d1 bs1 Hi1 Hto1). lia. }
      apply regrows_least in Hb2; [|destruct Hw1 as [[? ?] _]; lia]. rewrite own_client.
      change (allocated (arrs E s2)) with (total (arrs E s2)). change (allocated (arrs E s1)) with (total (arrs E s1)). lia.
Qed.
End Calls.
End Steady.

(** ** Reader *)
Section Reader.
Variable grow : Z -> Z -> Z.
Hypothesis Hgrow : amortised grow.
Variable E : Type.

(** A source that supplies a limited number of bytes, in pieces of any kind. *)
Section Supplied.
Variable rdk : E -> Z -> Z * list Z * option error * E.
Variable P : E -> Z -> Prop.
Variable least : Z.
Hypothesis least_0 : 0 <= least.
Hypothesis HP : forall x d k, P x d -> least <= k ->
  let '(n, _, err, x') := rdk x k in n <= d /\ (err = None -> n <> 0 -> P x' (d - n)).
Variables D B : Z.
Hypothesis HD : 0 <= D.

Definition within (r : reader E) : Prop :=
  slice_ok (r_scratch _ r) /\ slice_ok (r_rdata _ r) /\ slen (r_rdata _ r) <= D /\
  scap (r_rdata _ r) <= 2 * (D + B) /\ scap (r_scratch _ r) <= lim (2 * D) /\
  (r_err _ r = None -> exists d, P (r_src _ r) d /\ slen (r_rdata _ r) + d <= D).

Lemma fill_within r k r' : within r -> r_err _ r = None -> least <= k <= B -> fill3 E rdk r k = Ok r' -> within r'.
Proof.
  intros (Hs & Hr & Hl & Hc & Hsc & Hb) He Hk H. destruct (Hb He) as (d & HPd & Hd). unfold fill3 in H.
  destruct (ensureCap (r_rdata _ r) (slen (r_rdata _ r) + k)) as [b| |] eqn:Eb; try discriminate. cbn [bind] in H.
  destruct (ensureCap_cap _ _ _ Hr Eb) as (Hok & Hbl & Hn & Hcap).
  pose proof (HP (r_src _ r) d (scap b - slen b) HPd ltac:(lia)) as Hst.
  destruct (rdk (r_src _ r) (scap b - slen b)) as [[[n stored] err] src]. destruct Hst as [Hn1 Hn2].
  set (st := ztake (scap b - slen b) stored) in H.
  assert (Hst : zlen st <= scap b - slen b) by (unfold st, ztake, zlen; rewrite firstn_length; unfold slice_ok in Hok; lia).
  unfold reslice in H. unfold slice_ok in *. pose proof (zlen_nonneg st).
  assert (Hz : zlen (zwrite (arr b) (slen b) st) = scap b) by (rewrite zlen_zwrite; unfold scap in *; lia).
  change (scap (mkSlice (zwrite (arr b) (slen b) st) (slen b))) with (zlen (zwrite (arr b) (slen b) st)) in H. rewrite Hz in H.
  destruct ((0 <=? slen b + n) && (slen b + n <=? scap b)) eqn:Hx; [|discriminate]. apply andb_prop in Hx. destruct Hx as [Hx1 Hx2].
  cbn [bind] in H. injection H as <-. unfold within, slice_ok. cbn [r_scratch r_rdata r_err r_src arr slen]. unfold scap in *. cbn [arr] in *.
  rewrite Hz in *. repeat (split; [lia|]). intros He'. exists (d - n). split; [|lia].
  destruct err as [e|]; [discriminate|]. destruct (Z.eqb_spec n 0); [discriminate|]. auto.
Qed.

Lemma convert_within r r' : within r -> convert grow E r = Ok r' -> within r'.
Proof.
  intros (Hs & Hr & Hl & Hc & Hsc & Hb) H. unfold convert in H. pose proof (contents_len _ Hr) as Hcl.
  destruct (from_Translate grow fromTable (r_scratch _ r) (contents (r_rdata _ r))) as [[[[nc cd] e] sc]| |] eqn:Ht; try discriminate.
  cbn [bind] in H. apply (from_Translate_cap grow Hgrow _ _ _ _ _ _ _ (2 * D) Hs) in Ht; [|lia].
  set (n := match r_err _ r with Some _ => _ | None => _ end) in H.
  destruct (n >? slen (r_rdata _ r)); [discriminate|].
  set (rest := zdrop n (contents (r_rdata _ r))) in H.
  assert (Hrest : zlen rest <= slen (r_rdata _ r)).
  { rewrite <- Hcl. unfold rest, zlen, zdrop. rewrite skipn_length. lia. }
  pose proof (zlen_nonneg rest). unfold slice_ok in *.
  assert (Hz : zlen (zwrite (arr (r_rdata _ r)) 0 rest) = scap (r_rdata _ r)) by (rewrite zlen_zwrite; unfold scap in *; lia).
  rewrite reslice_spec in H by (unfold scap; cbn [arr]; rewrite Hz; lia). cbn [bind arr] in H. injection H as <-.
  unfold within, slice_ok. cbn [r_scratch r_rdata r_err r_src slen]. unfold scap in *. cbn [arr]. rewrite Hz.
  destruct Ht as (Ht1 & _ & Ht2). repeat (split; [lia|]). intros He. destruct (Hb He) as (d & H1 & H2). exists d. split; [assumption|lia].
Qed.

Lemma Read_within fuel : forall r k bs err r', within r -> least <= k <= B -> Read3 grow E rdk fuel r k = Ok (bs, err, r') -> within r'.
Proof.
  induction fuel as [|fuel IH]; intros r k bs err r' Hw Hk H; [discriminate|]. cbn [Read3] in H.
  destruct (_ >? 0).
  - injection H as _ _ <-. exact Hw.
  - destruct (r_err _ r) as [e|] eqn:He.
    + destruct (_ =? 0); [injection H as _ _ <-; exact Hw|].
      destruct (convert grow E r) as [r1| |] eqn:H1; try discriminate. cbn [bind] in H.
      eapply IH; [|exact Hk|exact H]. now apply (convert_within r).
    + destruct (fill3 E rdk r k) as [r1| |] eqn:H1; try discriminate. cbn [bind] in H.
      destruct (convert grow E r1) as [r2| |] eqn:H2; try discriminate. cbn [bind] in H.
      eapply IH; [|exact Hk|exact H]. apply (convert_within r1); [|assumption]. now apply (fill_within r k).
Qed.
End Supplied.

Variable rd : nat -> E -> Z -> Z * list Z * option error * E.
Variable wr : nat -> E -> list Z -> Z * option error * E.
Variable k : nat.
Notation mk := (mkState E).
Hypothesis Hrdb : forall x n, Forall is_byte (snd (fst (fst (rd k x n)))).

Lemma reads_within (P : E -> Z -> Prop) least (Hl0 : 0 <= least) (HP : forall x d n, P x d -> least <= n ->
    let '(m, _, err, x') := rd k x n in m <= d /\ (err = None -> m <> 0 -> P x' (d - m))) D B fuel r ns outs r' :
  0 <= D -> Forall (fun n => least <= n <= B) ns -> within P D B r -> model_reads grow E rd k fuel r ns outs r' -> within P D B r'.
Proof.
  intros HD Hns Hw H. induction H as [r|r n ns bs err r1 outs r2 Hr _ IH]; [assumption|].
  inversion Hns; subst. apply IH; [assumption|]. eapply Read_within with (r := r); eassumption.
Qed.

Lemma session_within (P : E -> Z -> Prop) least (Hl0 : 0 <= least) (HP : forall x d n, P x d -> least <= n ->
    let '(m, _, err, x') := rd k x n in m <= d /\ (err = None -> m <> 0 -> P x' (d - m))) A O X D B fuel evs outs r' :
  P X D -> 0 <= D -> 0 <= B -> Forall (fun n => least <= n <= B) (sizes evs) -> has_nil A -> sensible 0 (map zlen A) evs ->
  model_reads grow E rd k fuel (NewReader X) (sizes evs) outs r' ->
  exists p s0 own s,
    calls grow E rd wr prog_cp949 "NewReader" [VExt k] (mk A O X) (VTuple [VPtr p; VErr None]) s0 /\ arrs E s0 = A /\
    reads grow E rd wr prog_cp949 p (seq 0 (length A)) s0 evs outs own s /\
    allocated (arrs E s) <= allocated A + own_bytes evs + 48 * D + 12 * B + 384.
Proof.
  intros HX HD HB Hsz Hn Hsens Hm.
  destruct (reader_session3_spends grow E rd wr k Hrdb A O X fuel evs outs r' Hn Hsens Hm) as (p & s0 & own & s & H1 & H2 & H3 & _ & _ & b & b' & Hb & Hb' & Ht).
  exists p, s0, own, s. split; [exact H1|]. split; [exact H2|]. split; [exact H3|].
  assert (within P D B (NewReader X)) as Hw.
  { unfold within, NewReader. cbn [r_scratch r_rdata r_err r_src slen nil_slice]. change (scap nil_slice) with 0. unfold lim.
    split; [apply nil_slice_ok|]. split; [apply nil_slice_ok|]. do 3 (split; [lia|]). intros _. exists D. split; [exact HX|lia]. }
  destruct (reads_within P least Hl0 HP D B fuel _ _ _ _ HD Hsz Hw Hm) as (_ & _ & _ & Hc1 & Hc2 & _).
  apply regrows_bound in Hb; [|assumption|lia]. apply regrows_bound in Hb'; [|assumption|lia]. unfold lim in Hc2.
  rewrite own_client. change (allocated (arrs E s)) with (total (arrs E s)). change (allocated A) with (total A). lia.
Qed.

Lemma C122_any_lemma A O X D B fuel evs outs r' : supplies (rd k) X D -> 0 <= D -> 0 <= B ->
  Forall (fun n => n <= B) (sizes evs) -> has_nil A -> sensible 0 (map zlen A) evs ->
  model_reads grow E rd k fuel (NewReader X) (sizes evs) outs r' ->
  exists p s0 own s,
    calls grow E rd wr prog_cp949 "NewReader" [VExt k] (mk A O X) (VTuple [VPtr p; VErr None]) s0 /\ arrs E s0 = A /\
    reads grow E rd wr prog_cp949 p (seq 0 (length A)) s0 evs outs own s /\
    allocated (arrs E s) <= allocated A + own_bytes evs + 48 * D + 12 * B + 384.
Proof.
  intros (P & HX & HP) HD HB Hsz Hn Hsens Hm.
  apply (session_within P 0 (Z.le_refl 0) HP A O X D B fuel evs outs r'); try assumption.
  clear - Hsz Hsens. revert Hsens. generalize (map zlen A) as L. induction evs as [|[h a|a|h o n c] evs IH]; intros L Hs; cbn [sizes sensible] in *.
  - constructor.
  - destruct Hs. eauto.
  - eauto.
  - destruct Hs as [(q & _ & _ & Hq & _) Hs]. inversion Hsz; subst. constructor; [lia|]. eauto.
Qed.

Lemma C122_stream_lemma rd1 A O X stream rs e B evs : reports (rd k) rd1 -> has_nil A -> delivers rd1 X stream e -> decodes stream rs ->
  sensible 1 (map zlen A) evs -> 0 <= B -> Forall (fun n => n <= B) (sizes evs) ->
  exists p s0 outs own s,
    calls grow E rd wr prog_cp949 "NewReader" [VExt k] (mk A O X) (VTuple [VPtr p; VErr None]) s0 /\ arrs E s0 = A /\
    reads grow E rd wr prog_cp949 p (seq 0 (length A)) s0 evs outs own s /\ served e (utf8 rs) (sizes evs) outs /\
    allocated (arrs E s) <= allocated A + own_bytes evs + 48 * zlen stream + 12 * B + 384.
Proof.
  intros Hrep Hn Hd Hdec Hsens HB Hsz.
  assert (Hb : Forall is_byte stream) by (eapply decodes_bytes; eassumption).
  pose proof (C79_lemma grow E rd1 X stream (utf8 rs) e (length stream + 4) Hb Hd (From_decodes grow stream rs Hdec) ltac:(lia)) as Hdel.
  destruct (served_sim grow E rd1 (length stream + 4) e ltac:(lia) (sizes evs) _ _ (sensible_sizes _ _ Hsens) Hdel) as (outs & r' & Hm & Hsv).
  destruct (model_reads_alike grow E rd k rd1 (length stream + 4) Hrep _ _ _ _ Hm (NewReader X)) as (q' & Hq & Hal); [now apply new_alike|].
  set (budget := fun x d => exists rem, delivers rd1 x rem e /\ zlen rem <= d).
  assert (Hbud : forall x d n, budget x d -> 1 <= n ->
    let '(m, _, err, x') := rd k x n in m <= d /\ (err = None -> m <> 0 -> budget x' (d - m))).
  { intros x d n (rem & Hx & Hr) H1. pose proof (Hrep x n) as Hk. destruct (rd1 x n) as [[bs err] x'] eqn:Hb1.
    destruct Hk as [j Hj]. rewrite Hj. inversion Hx as [? ? ? D1 D2 D3]; subst. destruct err as [e'|].
    - destruct (D1 n bs e' x' ltac:(lia) Hb1) as (_ & -> & _). split; [lia|discriminate].
    - destruct (D2 n bs x' ltac:(lia) Hb1) as (_ & _ & rest & Hp). pose proof (D3 n bs x' ltac:(lia) Hb1) as Hx'.
      rewrite Hp in Hr. unfold zlen in Hr. rewrite app_length in Hr. split; [unfold zlen; lia|]. intros _ _.
      exists (zdrop (zlen bs) rem). split; [exact Hx'|]. rewrite Hp, zdrop_app_exact by reflexivity. unfold zlen. lia. }
  destruct (session_within budget 1 Z.le_0_1 Hbud A O X (zlen stream) B (length stream + 4) evs outs q') as (p & s0 & own & s & H1 & H2 & H3 & H4); try assumption.
  - exists stream. split; [assumption|lia].
  - apply zlen_nonneg.
  - pose proof (sensible_sizes _ _ Hsens) as Hpos. rewrite Forall_forall in Hpos, Hsz |- *. intros n Hi. specialize (Hpos n Hi). specialize (Hsz n Hi). cbn in Hpos. lia.
  - eapply sensible_min; [|eassumption]. lia.
  - exists p, s0, outs, own, s. auto.
Qed.

(** A source of whole characters. *)
Section Whole.
Variable rd1 : E -> Z -> list Z * option error * E.
Hypothesis Hwhole : forall x n, 2 <= n -> zlen (fst (fst (rd1 x n))) <= n /\ exists rs, decodes (fst (fst (rd1 x n))) rs.
Variable B : Z.

Definition settled (r : reader E) : Prop :=
  reader_ok _ r /\ contents (r_rdata _ r) = [] /\ scap (r_rdata _ r) <= 2 * B /\ scap (r_scratch _ r) <= lim (4 * B).

Lemma fill_settled r n : settled r -> 2 <= n <= B -> exists r1 r2 rs, fill E rd1 r n = Ok r1 /\
  convert grow E r1 = Ok r2 /\ settled r2 /\ cdata _ r2 = utf8 rs /\ (r_err _ r2 = None -> rs <> []).
Proof.
  intros (Hok & Hc & Hcap & Hsc) Hk. pose proof Hok as (Hs & Hr & Hb).
  assert (Hlen0 : slen (r_rdata _ r) = 0) by (apply contents_nil_len; assumption).
  unfold fill. rewrite Hlen0. change (0 + n) with n.
  destruct (ensureCap_spec (r_rdata _ r) n Hr) as (b & Eb & _).
  destruct (ensureCap_cap _ _ _ Hr Eb) as (Hb' & Hl & Hn' & HcapB).
  rewrite Eb. cbn [bind]. rewrite Hl, Hlen0, Z.sub_0_r. rewrite Hlen0 in Hl.
  destruct (rd1 (r_src _ r) (scap b)) as [[chunk err] s'] eqn:Erd.
  pose proof (Hwhole (r_src _ r) (scap b) ltac:(lia)) as Hw. rewrite Erd in Hw. cbn [fst] in Hw.
  destruct Hw as [Hch (rs & Hrs)]. pose proof (zlen_nonneg chunk) as Hn.
  change (0 + zlen chunk) with (zlen chunk).
  destruct (Z.gtb_spec (zlen chunk) (scap b)) as [Hx|_]; [lia|].
  assert (zlen (zwrite (arr b) 0 chunk) = scap b) as Lw by (rewrite zlen_zwrite; unfold scap in *; lia).
  rewrite reslice_spec by (unfold scap in *; cbn [arr]; lia). cbn [bind arr].
  set (r1 := mkReader _ _ _ _ _ _ _).
  assert (contents (r_rdata _ r1) = chunk) as Ec1.
  { subst r1. cbn [r_rdata]. unfold contents. cbn [arr slen].
    change (zlen chunk) with (0 + zlen chunk). rewrite ztake_zwrite by (unfold scap in *; lia). rewrite ztake_0. reflexivity. }
  assert (scap (r_rdata _ r1) = scap b) as Es1 by (subst r1; unfold scap; cbn [r_rdata arr]; exact Lw).
  assert (reader_ok _ r1) as Hok1.
  { subst r1. unfold reader_ok. cbn [r_scratch r_rdata r_cdata_lo r_cdata_hi]. unfold slice_ok in *. unfold scap in *. cbn [arr slen].
    rewrite Lw. repeat split; lia. }
  assert (decodes (contents (r_rdata _ r1)) rs) as Hd by (rewrite Ec1; exact Hrs).
  destruct (convert_complete grow E r1 rs Hok1 Hd) as (r2 & E2 & Hok2 & Es2 & Ee2 & Ecd & Ec2 & _ & _ & Hcap2).
  exists r1, r2, rs. split; [reflexivity|]. split; [exact E2|]. split.
  - split; [exact Hok2|]. split; [exact Ec2|]. split; [lia|].
    assert (within (fun _ d => d = 0) (2 * B) (2 * B) r1) as Hw.
    { subst r1. unfold within. unfold slice_ok in *. cbn [r_scratch r_rdata r_err r_src slen] in *. unfold scap in *. cbn [arr] in *. rewrite Lw.
      unfold lim in *. repeat (split; [lia|]). intros _. exists 0. split; [reflexivity|lia]. }
    apply (convert_within _ _ _ _ _ Hw) in E2. destruct E2 as (_ & _ & _ & _ & E2 & _). unfold lim in *. lia.
  - split; [exact Ecd|]. rewrite Ee2. subst r1. cbn [r_err]. intros He ->. inversion Hrs; subst. destruct err; discriminate.
Qed.

Lemma read_settled fuel r n : settled r -> 2 <= n <= B -> (3 <= fuel)%nat -> exists p err r',
  Read grow E rd1 fuel r n = Ok (p, err, r') /\ settled r'.
Proof.
  intros Ht Hk Hf. destruct fuel as [|[|[|fuel]]]; try lia.
  assert (forall f q, settled q -> (cdata _ q <> [] \/ r_err _ q <> None) -> exists p err r',
    Read grow E rd1 (S f) q n = Ok (p, err, r') /\ settled r') as Hdone.
  { intros f q Hq Hor. destruct Hq as (Hok & Hc & Hcap & Hsc).
    assert (Hq0 : slen (r_rdata _ q) = 0) by (apply contents_nil_len; [apply Hok|assumption]).
    pose proof (cdata_len _ q Hok) as Hcl. cbn [Read].
    destruct (Z.gtb_spec (r_cdata_hi _ q - r_cdata_lo _ q) 0) as [Hd|Hd].
    - eexists. eexists. eexists. split; [reflexivity|].
      split; [|split; [exact Hc|split; [exact Hcap|exact Hsc]]].
      destruct Hok as (H1 & H2 & H3). unfold reader_ok. cbn [r_scratch r_rdata r_cdata_lo r_cdata_hi].
      split; [exact H1|]. split; [exact H2|]. lia.
    - destruct (r_err _ q) as [e|].
      + rewrite Hq0. cbn [Z.eqb]. exists [], (Some e), q. split; [reflexivity|]. split; [exact Hok|]. auto.
      + destruct Hor as [Hor|Hor]; [|congruence]. exfalso. apply Hor, zlen_0. pose proof (zlen_nonneg (cdata _ q)). lia. }
  destruct (r_err _ r) as [e|] eqn:Ee.
  - apply (Hdone _ r); [assumption|right; congruence].
  - destruct (list_eq_dec Z.eq_dec (cdata _ r) []) as [Ec|Ec]; [|apply (Hdone _ r); auto].
    assert (reader_ok _ r) as Hok by apply Ht.
    destruct (fill_settled r n Ht Hk) as (r1 & r2 & rs & E1 & E2 & Ht2 & Ecd & Hne).
    remember (S fuel) as f eqn:Ef. cbn [Read]. rewrite (cdata_nil _ r Hok Ec), Ee. cbn [Z.gtb Z.compare].
    rewrite E1. cbn [bind]. rewrite E2. cbn [bind].
    apply (Hdone f r2); [assumption|].
    destruct (r_err _ r2); [right; discriminate|]. left. rewrite Ecd. specialize (Hne eq_refl).
    intros En. destruct rs as [|x rs]; [congruence|]. rewrite utf8_cons in En. apply app_eq_nil in En as [En _].
    revert En. apply utf8_char_nonempty.
Qed.

Lemma reads_settled fuel ns : (3 <= fuel)%nat -> Forall (fun n => 2 <= n <= B) ns -> forall r, settled r ->
  exists outs r', model_reads1 grow E rd1 fuel r ns outs r' /\ settled r'.
Proof.
  intros Hf. induction 1 as [|n ns Hn H IH]; intros r Hr; [exists [], r; split; [constructor|assumption]|].
  destruct (read_settled fuel r n Hr Hn Hf) as (p & err & r1 & E1 & Hr1).
  destruct (IH r1 Hr1) as (outs & r2 & Hm & Hr2). exists ((p, err) :: outs), r2. split; [econstructor; eassumption|assumption].
Qed.

Lemma C122_whole_lemma A O X evs : reports (rd k) rd1 -> has_nil A -> sensible 2 (map zlen A) evs -> 0 <= B ->
  Forall (fun n => n <= B) (sizes evs) ->
  exists p s0 outs own s,
    calls grow E rd wr prog_cp949 "NewReader" [VExt k] (mk A O X) (VTuple [VPtr p; VErr None]) s0 /\ arrs E s0 = A /\
    reads grow E rd wr prog_cp949 p (seq 0 (length A)) s0 evs outs own s /\
    allocated (arrs E s) <= allocated A + own_bytes evs + 84 * B + 384.
Proof.
  intros Hrep Hn Hsens HB Hsz.
  assert (Hns : Forall (fun n => 2 <= n <= B) (sizes evs)).
  { clear - Hsz Hsens. revert Hsens. generalize (map zlen A) as L. induction evs as [|[h a|a|h o n c] evs IH]; intros L Hs; cbn [sizes sensible] in *.
    - constructor.
    - destruct Hs. eauto.
    - eauto.
    - destruct Hs as [(q & _ & _ & Hq & _) Hs]. inversion Hsz; subst. constructor; [lia|]. eauto. }
  assert (settled (NewReader X)) as H0.
  { split; [unfold reader_ok, NewReader; cbn; unfold slice_ok, scap; cbn; lia|]. split; [reflexivity|].
    unfold NewReader, lim. cbn [r_rdata r_scratch]. change (scap nil_slice) with 0. lia. }
  destruct (reads_settled 3 (sizes evs) (le_n 3) Hns _ H0) as (outs & r' & Hm & (_ & _ & Hc1 & Hc2)).
  destruct (model_reads_alike grow E rd k rd1 3 Hrep _ _ _ _ Hm (NewReader X)) as (q' & Hq & Hal); [now apply new_alike|].
  destruct Hal as (_ & Hsc & _ & _ & _ & Hsl). destruct Hsl as (_ & _ & _ & _ & Hsl). rewrite <- Hsc in Hc2. rewrite <- Hsl in Hc1.
  destruct (reader_session3_spends grow E rd wr k Hrdb A O X 3 evs outs q' Hn) as (p & s0 & own & s & H1 & H2 & H3 & _ & _ & b & b' & Hb & Hb' & Ht).
  - eapply sensible_min; [|eassumption]. lia.
  - exact Hq.
  - exists p, s0, outs, own, s. split; [exact H1|]. split; [exact H2|]. split; [exact H3|].
    apply regrows_bound in Hb; [|assumption|lia]. apply regrows_bound in Hb'; [|assumption|lia]. unfold lim in Hc2.
    rewrite own_client. change (allocated (arrs E s)) with (total (arrs E s)). change (allocated A) with (total A). lia.
Qed.
End Whole.
End Reader.

(** A source that always ends inside a character. *)
Lemma C122_refuted_lemma : exists (E : Type) (rd1 : E -> Z -> list Z * option error * E) (rd : nat -> E -> Z -> Z * list Z * option error * E),
  reports (rd 0%nat) rd1 /\ forall M, exists X stream rs, delivers rd1 X stream EOF /\ decodes stream rs /\
  forall grow wr A O h o n c, has_nil A -> sensible 2 (map zlen A) [Use h o n c] ->
  exists p s0 outs own s,
    calls grow E rd wr prog_cp949 "NewReader" [VExt 0] (mkState E A O X) (VTuple [VPtr p; VErr None]) s0 /\ arrs E s0 = A /\
    reads grow E rd wr prog_cp949 p (seq 0 (length A)) s0 [Use h o n c] outs own s /\
    M < allocated (arrs E s) - allocated A.
Proof.
  set (rdh := fun (_ : nat) x n => let '(bs, e, x') := half_rd x n in (zlen bs, bs, e, x')).
  exists (bool * nat)%type, half_rd, rdh. split.
  { intros x n. unfold rdh. destruct (half_rd x n) as [[bs e] x']. exists []. now rewrite app_nil_r. }
  intros M. set (m := Z.to_nat (Z.max M 0)).
  exists (false, S m), (gas (S m)), (repeat 0xAC00 (S m)). split; [exact (half_delivers_aux (S m) false)|].
  split; [apply gas_decodes|]. intros grow wr A O h o n c Hn Hs. pose proof Hs as [(q & _ & _ & Hq & _) _].
  destruct (half_all grow n ltac:(lia) m (m + 4) (le_n _)) as (p & r' & Hr & _ & _ & Hcap).
  assert (Hal : answers_alike (bool * nat) ((bool * nat) * list (list Z)) (rdh 0%nat) (logged half_rd) (fun x y => x = fst y)).
  { intros x y k ->. unfold rdh, logged. destruct (half_rd (fst y) k) as [[bs e] x']. exists [], x'. rewrite app_nil_r. auto. }
  pose proof (read_alike grow _ _ (rdh 0%nat) (logged half_rd) _ Hal (m + 4) (NewReader (false, S m)) (NewReader ((false, S m), [])) n) as Hra.
  rewrite Hr in Hra. destruct (Read3 grow _ (rdh 0%nat) (m + 4) (NewReader (false, S m)) n) as [[[p3 e3] r3]| |] eqn:H3.
  - destruct Hra as [_ (_ & Hsc & _)]; [now apply new_alike|]. cbn [snd] in Hsc. rewrite <- Hsc in Hcap.
    destruct (reader_session3_spends grow (bool * nat) rdh wr 0%nat) with (A := A) (O := O) (X := (false, S m)) (fuel := (m + 4)%nat) (evs := [Use h o n c])
      (outs := [(p3, e3)]) (r' := r3) as (p' & s0 & own & s & H1 & H2 & H4 & _ & _ & b & b' & Hb & Hb' & Ht).
    + intros [b0 n0] k. unfold rdh. destruct n0 as [|[|n0]], b0; cbn; repeat constructor; try (unfold is_byte; lia).
      destruct (2 <=? k); cbn; repeat constructor; unfold is_byte; lia.
    + exact Hn.
    + eapply sensible_min; [|eassumption]. lia.
    + cbn [sizes]. econstructor; [exact H3|constructor].
    + exists p', s0, [(p3, e3)], own, s. split; [exact H1|]. split; [exact H2|]. split; [exact H4|].
      apply regrows_least in Hb; [|lia]. apply regrows_least in Hb'; [|lia]. cbn [client_bytes] in Ht.
      change (allocated (arrs (bool * nat) s)) with (total (arrs (bool * nat) s)). change (allocated A) with (total A). lia.
  - exfalso. apply Hra. now apply new_alike.
  - exfalso. apply Hra. now apply new_alike.
Qed.

Lemma quarters_bound fuel : forall c n, 0 <= c -> 0 <= n ->
  Z.min c n <= quarters fuel c n /\ quarters fuel c n <= Z.max c (n + (n + 768) / 4).
Proof.
  induction fuel as [|fuel IH]; intros c n Hc Hn; cbn [quarters].
  - pose proof (Z.div_le_lower_bound (n + 768) 4 0 ltac:(lia) ltac:(lia)). lia.
  - destruct (Z.leb_spec n c) as [H|H].
    + lia.
    + pose proof (Z.div_le_mono (c + 768) (n + 768) 4 ltac:(lia) ltac:(lia)) as Hm.
      pose proof (Z.div_le_lower_bound (c + 768) 4 0 ltac:(lia) ltac:(lia)).
      destruct (IH (c + (c + 768) / 4) n ltac:(lia) Hn). lia.
Qed.
Lemma quarters_more fuel : forall c n, 0 <= c -> (0 < fuel)%nat \/ c <= n -> c <= quarters fuel c n.
Proof.
  induction fuel as [|fuel IH]; intros c n Hc H; cbn [quarters]; [lia|]. destruct (Z.leb_spec n c); [lia|].
  pose proof (Z.div_le_lower_bound (c + 768) 4 0 ltac:(lia) ltac:(lia)).
  destruct fuel as [|fuel]; [cbn; lia|]. specialize (IH (c + (c + 768) / 4) n ltac:(lia) ltac:(lia)). lia.
Qed.
Lemma runtime_grow_amortised : amortised runtime_grow.
Proof.
  intros c n H. unfold runtime_grow. destruct (Z.ltb_spec (2 * c) n); [lia|]. destruct (Z.ltb_spec c 256); [lia|].
  pose proof (Z.div_mod (c + 768) 4 ltac:(lia)). pose proof (Z.mod_pos_bound (c + 768) 4 ltac:(lia)).
  pose proof (Z.div_mod (n + 768) 4 ltac:(lia)). pose proof (Z.mod_pos_bound (n + 768) 4 ltac:(lia)).
  destruct (quarters_bound (Z.to_nat n) (c + (c + 768) / 4) n ltac:(lia) ltac:(lia)).
  pose proof (quarters_more (Z.to_nat n) (c + (c + 768) / 4) n ltac:(lia) ltac:(lia)). lia.
Qed.
