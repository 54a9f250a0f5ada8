(** Statements about the executed sources: the functions outside the streaming API. *)
From Coq Require Import String ZArith List Bool Lia.
From Coq Require Import ZifyBool.
From Verif Require Import StreamFacts3 Base Utf8 SortSearch TableFrom TableTo HangulModel HanjaModel Cp949Model GoLang GoSource GoFacts
  GoHeap GoHangul GoHanja GoCp949 GoStream StreamModel TransformModel Facts Utf8Facts SliceFacts
  Spec SpecCp949 SpecIO TableFacts Cp949Facts Cp949Facts2 TransformFacts HangulFacts3 SourceSpec SourceFacts.
Import ListNotations.
Local Open Scope string_scope.
Local Open Scope list_scope.
Local Open Scope Z_scope.
Local Open Scope go_scope.
Local Opaque fromTable toTable.
Local Arguments run : simpl never.
Local Arguments zwrite : simpl never.
Local Arguments ztake : simpl never.
Local Arguments zdrop : simpl never.
Local Arguments cell : simpl never.

Lemma holds_input A v data : slice_holds A v data -> exists l o n c, v = VSlice l o n c /\ input A l o n c data.
Proof. destruct v as [| | | |l o n c| | | | | |]; cbn; try contradiction. intros H. exists l, o, n, c. auto. Qed.

Lemma char_code_to_char : char_code to_char.
Proof.
  assert (forall r, 0xFFFF < r -> ~ in_repertoire r) as Hbig.
  { intros r H [Hr|[c Hc]]; [lia|]. apply assigned_ranges in Hc. lia. }
  split; [exact to_char_ascii|]. split; [exact to_char_assigned|].
  split; [|split; [|split]].
  - intros r Hs Hn. apply (to_char_unassigned r Hs Hn).
  - intros r Hs Hn. apply (to_char_unassigned r Hs Hn).
  - intros r c Hs Hr. apply (to_char_unassigned r Hs (Hbig r Hr)). exact Hr.
  - intros r Hs Hr. apply (to_char_unassigned r Hs (Hbig r Hr)). exact Hr.
Qed.

Section Run.
Variable grow : Z -> Z -> Z.
Variable E : Type.
Variable rd : nat -> E -> Z -> Z * list Z * option error * E.
Variable wr : nat -> E -> list Z -> Z * option error * E.
Notation state := (state E).
Notation mk := (mkState E).
Notation calls := (calls grow E rd wr).

Lemma calls_S prog f args s v s' N : (forall n, run grow E rd wr prog (N + n) f args s = Ok (v, s')) -> calls prog f args s v s'.
Proof. intros H. exists N. intros n Hn. replace n with (N + (n - N))%nat by lia. apply H. Qed.

Lemma source_From s v data : has_nil (arrs E s) -> slice_holds (arrs E s) v data -> Forall is_byte data ->
  exists out err s' o, calls prog_cp949 "From" [v] s (VTuple [out; VErr err]) s' /\
    kept (arrs E s) (arrs E s') /\ objs E s' = objs E s ++ [o] /\ ext E s' = ext E s /\
    ((exists rs, decodes data rs /\ err = None /\ slice_holds (arrs E s') out (utf8 rs) /\ fresh (arrs E s) out) \/
     (truncated data /\ err = Some ErrCP949UnexpectedStream /\ out = VSlice 0 0 0 0)).
Proof.
  intros Hn Hi Hb. destruct s as [A O X]. apply holds_input in Hi. destruct Hi as (l & o & n & c & -> & Hi). cbn [arrs] in *.
  destruct (decodes_or_cut data Hb) as [(rs & Hd)|(a & Hc)].
  - destruct (go_From grow E rd wr A O X l o n c data (inl (utf8 rs)) Hn Hi Hb (From_decodes grow data rs Hd))
      as (A' & v & Hk & (l' & n' & c' & -> & Hin & Hf) & ob & N & Hrun).
    exists (VSlice l' 0 n' c'), None, (mk A' (O ++ [ob]) X), ob. split; [exists N; exact Hrun|].
    split; [exact Hk|]. split; [reflexivity|]. split; [reflexivity|]. left. exists rs. repeat (split; [solve [auto]|]). cbn. tauto.
  - destruct (go_From grow E rd wr A O X l o n c data _ Hn Hi Hb (From_cut grow data a Hc))
      as (A' & v & Hk & -> & ob & N & Hrun).
    eexists _, _, (mk A' (O ++ [ob]) X), ob. split; [exists N; exact Hrun|].
    split; [exact Hk|]. split; [reflexivity|]. split; [reflexivity|]. right. split; [exists a; exact Hc|auto].
Qed.

Lemma source_To s v data rs : has_nil (arrs E s) -> slice_holds (arrs E s) v data -> Forall is_byte data -> reads_as data rs ->
  exists out s' o, calls prog_cp949 "To" [v] s (VTuple [out; VErr None]) s' /\
    kept (arrs E s) (arrs E s') /\ objs E s' = objs E s ++ [o] /\ ext E s' = ext E s /\
    slice_holds (arrs E s') out (flat_map to_char rs) /\ fresh (arrs E s) out.
Proof.
  intros Hn Hi Hb Hr. destruct s as [A O X]. apply holds_input in Hi. destruct Hi as (l & o & n & c & -> & Hi). cbn [arrs] in *.
  destruct (go_To grow E rd wr A O X l o n c data _ Hn Hi (To_reads grow data rs Hb Hr))
    as (A' & v & Hk & (l' & n' & c' & -> & Hin & Hf) & ob & N & Hrun).
  exists (VSlice l' 0 n' c'), (mk A' (O ++ [ob]) X), ob. split; [exists N; exact Hrun|].
  split; [exact Hk|]. split; [reflexivity|]. split; [reflexivity|]. split; [assumption|]. cbn. tauto.
Qed.

(** ** Transform *)
Lemma source_dec_Transform s p vdst dst vsrc src eof : has_nil (arrs E s) -> slice_holds (arrs E s) vdst dst ->
  slice_holds (arrs E s) vsrc src -> Forall is_byte src ->
  exists nDst nSrc err dst' s' o,
    calls prog_cp949 "cp949Decoder.Transform" [VPtr p; vdst; vsrc; VBool eof] s (VTuple [VInt nDst; VInt nSrc; VErr err]) s' /\
    kept_outside (arrs E s) (arrs E s') vdst /\ objs E s' = objs E s ++ [o] /\ ext E s' = ext E s /\
    slice_holds (arrs E s') vdst dst' /\
    ((exists rs, decodes src rs /\ nDst = zlen (utf8 rs) /\ nSrc = zlen src /\ err = None /\
        (zlen (utf8 rs) <= zlen dst -> dst' = utf8 rs ++ zdrop (zlen (utf8 rs)) dst) /\
        (zlen dst < zlen (utf8 rs) -> is_prefix dst' (utf8 rs))) \/
     (truncated src /\ nDst = 0 /\ nSrc = 0 /\ err = Some ErrCP949UnexpectedStream /\ dst' = dst)).
Proof.
  intros Hn Hd Hs Hb. destruct s as [A O X]. cbn [arrs objs ext] in *.
  apply holds_input in Hd. destruct Hd as (l & o & n & c & -> & Hd).
  apply holds_input in Hs. destruct Hs as (l' & o' & n' & c' & -> & Hs).
  destruct (C56_dec_lemma grow dst src eof Hb) as [(a & Hc & Ht)|(rs & d & Hrs & Ht & Hl & Hfit & Hshort)].
  - destruct (go_dec_Transform grow E rd wr A O X p l o n c dst l' o' n' c' src eof _ _ _ _ Hn Hd Hs Hb Ht)
      as (A' & H1 & H2 & H3 & H4 & H5 & ob & N & Hrun).
    eexists _, _, _, dst, (mk A' (O ++ [ob]) X), ob. split; [exists N; exact Hrun|]. split; [repeat split; assumption|].
    split; [reflexivity|]. split; [reflexivity|]. split; [exact H3|]. right. split; [exists a; exact Hc|auto].
  - destruct (go_dec_Transform grow E rd wr A O X p l o n c dst l' o' n' c' src eof _ _ _ _ Hn Hd Hs Hb Ht)
      as (A' & H1 & H2 & H3 & H4 & H5 & ob & N & Hrun).
    eexists _, _, _, d, (mk A' (O ++ [ob]) X), ob. split; [exists N; exact Hrun|]. split; [repeat split; assumption|].
    split; [reflexivity|]. split; [reflexivity|]. split; [exact H3|]. left. exists rs. auto 10.
Qed.

Lemma source_enc_Transform s p vdst dst vsrc src rs eof : has_nil (arrs E s) -> slice_holds (arrs E s) vdst dst ->
  slice_holds (arrs E s) vsrc src -> Forall is_byte src -> reads_as src rs ->
  exists dst' s' o,
    calls prog_cp949 "cp949Encoder.Transform" [VPtr p; vdst; vsrc; VBool eof] s
      (VTuple [VInt (zlen (flat_map to_char rs)); VInt (zlen src); VErr None]) s' /\
    kept_outside (arrs E s) (arrs E s') vdst /\ objs E s' = objs E s ++ [o] /\ ext E s' = ext E s /\
    slice_holds (arrs E s') vdst dst' /\
    (zlen (flat_map to_char rs) <= zlen dst -> dst' = flat_map to_char rs ++ zdrop (zlen (flat_map to_char rs)) dst) /\
    (zlen dst < zlen (flat_map to_char rs) -> is_prefix dst' (flat_map to_char rs)).
Proof.
  intros Hn Hd Hs Hb Hr. destruct s as [A O X]. cbn [arrs objs ext] in *.
  apply holds_input in Hd. destruct Hd as (l & o & n & c & -> & Hd).
  apply holds_input in Hs. destruct Hs as (l' & o' & n' & c' & -> & Hs).
  destruct (C56_enc_lemma grow dst src eof Hb) as (out & d & Hto & Ht & Hl & Hfit & Hshort).
  rewrite (To_reads grow src rs Hb Hr) in Hto. injection Hto as <-.
  destruct (go_enc_Transform grow E rd wr A O X p l o n c dst l' o' n' c' src eof _ _ _ _ Hn Hd Hs Ht)
    as (A' & H1 & H2 & H3 & H4 & H5 & ob & N & Hrun).
  exists d, (mk A' (O ++ [ob]) X), ob. split; [exists N; exact Hrun|]. split; [repeat split; assumption|].
  split; [reflexivity|]. split; [reflexivity|]. split; [exact H3|]. auto.
Qed.

(** ** The encoding object *)
Lemma source_constructors s :
  calls prog_cp949 "NewCP949Encoding" [] s (VPtr (length (objs E s)))
    (mk (arrs E s) (objs E s ++ [("CP949Encoding", [])]) (ext E s)) /\
  (forall e, calls prog_cp949 "CP949Encoding.NewDecoder" [VPtr e] s (VPtr (S (length (objs E s))))
    (mk (arrs E s) (objs E s ++ [("cp949Decoder", []); ("encoding.Decoder", [("Transformer", VPtr (length (objs E s)))])]) (ext E s))) /\
  (forall e, calls prog_cp949 "CP949Encoding.NewEncoder" [VPtr e] s (VPtr (S (length (objs E s))))
    (mk (arrs E s) (objs E s ++ [("cp949Encoder", []); ("encoding.Encoder", [("Transformer", VPtr (length (objs E s)))])]) (ext E s))) /\
  (forall d, calls prog_cp949 "cp949Decoder.Reset" [VPtr d] s (VTuple []) s) /\
  (forall d, calls prog_cp949 "cp949Encoder.Reset" [VPtr d] s (VTuple []) s).
Proof.
  destruct s as [A O X]. cbn [arrs objs ext].
  assert (Hlen : forall x : string * list (string * val), length (O ++ [x]) = S (length O)) by (intros x; rewrite app_length; cbn; lia).
  repeat split; try (intros e); apply (calls_S _ _ _ _ _ _ 1); intros n; unfold run; cbn; rewrite ?Hlen, <- ?app_assoc; reflexivity.
Qed.

(** ** hangul *)
Definition hangul_val (c : string * list val) : val :=
  match c with
  | (f, [VInt r]) =>
    if String.eqb f "IsLead" then VBool (IsLead r) else if String.eqb f "IsMedial" then VBool (IsMedial r)
    else if String.eqb f "IsTail" then VBool (IsTail r) else if String.eqb f "IsJaeum" then VBool (IsJaeum r)
    else if String.eqb f "IsMoeum" then VBool (IsMoeum r) else if String.eqb f "IsHangul" then VBool (IsHangul r)
    else if String.eqb f "CompatJamo" then VInt (CompatJamo r) else if String.eqb f "Lead" then VInt (Lead r)
    else if String.eqb f "Medial" then VInt (Medial r) else if String.eqb f "Tail" then VInt (Tail r)
    else if String.eqb f "Split" then triple_val (Split r) else if String.eqb f "SplitCompat" then triple_val (SplitCompat r)
    else if String.eqb f "Stroke" then match Stroke r with Ok n => VInt n | _ => VNil end
    else match slice_at 1 multiElements (CompatJamo r) with
         | Some (l, k) => VTuple [VSlice l 0 k k; VBool true]
         | None => VTuple [VSlice 0 0 0 0; VBool false]
         end
  | (f, [VInt l; VInt m; VInt t]) => VInt (Join l m t)
  | (f, [VStr w]) =>
    if String.eqb f "LastConsonant" then match LastConsonant w with Ok t => VInt t | _ => VNil end
    else match EndsWithConsonant w with Ok b => VBool b | _ => VNil end
  | (f, [VStr w; VStr p; VStr q]) => match AppendPostposition w p q with Ok r => VStr r | _ => VNil end
  | _ => VNil
  end.

Lemma kept_refl A : kept A A.
Proof. split; auto. Qed.
Lemma kept_trans A B C : kept A B -> kept B C -> kept A C.
Proof. intros [H1 H2] [H3 H4]. split; [lia|]. intros l Hl. rewrite H4 by lia. auto. Qed.
Lemma kept_new (A : list (list Z)) a : kept A (A ++ [a]).
Proof. split; [rewrite app_length; lia|]. intros l Hl. unfold array. now rewrite app_nth1. Qed.

Lemma memory_holds s : hangul_memory (arrs E s) -> holds E multiElements s.
Proof.
  intros [rest H]. split; [|exists rest; exact H].
  clear H. induction multiElements as [|x m IH]; constructor; auto.
Qed.

Lemma kept_memory A A' : hangul_memory A -> kept A A' -> hangul_memory A'.
Proof.
  intros [rest ->] [Hl Hk]. unfold hangul_memory. remember ([] :: map snd m_multiElements) as B eqn:HB. clear HB.
  exists (skipn (length B) A'). rewrite app_length in Hl. rewrite <- (firstn_skipn (length B) A') at 1. f_equal.
  assert (Hfl : length (firstn (length B) A') = length B) by (rewrite firstn_length; lia).
  apply nth_ext with (d := []) (d' := []); [exact Hfl|]. rewrite Hfl. intros i Hi.
  specialize (Hk i). unfold array in Hk. rewrite app_nth1 in Hk by exact Hi.
  rewrite <- Hk by (rewrite app_length; lia). clear - Hi. revert A' i Hi. generalize (length B) as k.
  induction k as [|k IH]; intros A' i Hi; [lia|]. destruct A' as [|a A']; [now rewrite firstn_nil|]. destruct i; [reflexivity|].
  cbn. apply IH. lia.
Qed.

Lemma after_kept w s : kept (arrs E s) (arrs E (after_runes E w s)) /\
  objs E (after_runes E w s) = objs E s /\ ext E (after_runes E w s) = ext E s.
Proof. destruct w as [|b w]; [split; [apply kept_refl|auto]|]. cbn - [string_to_runes]. split; [apply kept_new|auto]. Qed.

Lemma source_hangul c s : hangul_call c -> hangul_memory (arrs E s) ->
  exists s', calls prog_hangul (fst c) (snd c) s (hangul_val c) s' /\
    kept (arrs E s) (arrs E s') /\ objs E s' = objs E s /\ ext E s' = ext E s.
Proof.
  intros Hc Hm. destruct Hc as [f r Hf|l m t|f w Hf Hw|w p q Hw]; cbn [fst snd].
  - exists s. split; [|split; [apply kept_refl|auto]].
    cbn [In] in Hf. repeat destruct Hf as [<-|Hf]; [..|destruct Hf].
    + apply (calls_S _ _ _ _ _ _ 1). intros n. apply go_IsLead.
    + apply (calls_S _ _ _ _ _ _ 1). intros n. apply go_IsMedial.
    + apply (calls_S _ _ _ _ _ _ 1). intros n. apply go_IsTail.
    + apply (calls_S _ _ _ _ _ _ 2). intros n. apply go_IsJaeum.
    + apply (calls_S _ _ _ _ _ _ 2). intros n. apply go_IsMoeum.
    + apply (calls_S _ _ _ _ _ _ 3). intros n. apply go_IsHangul.
    + apply (calls_S _ _ _ _ _ _ 1). intros n. apply go_CompatJamo.
    + apply (calls_S _ _ _ _ _ _ 1). intros n. apply go_Lead.
    + apply (calls_S _ _ _ _ _ _ 1). intros n. apply go_Medial.
    + apply (calls_S _ _ _ _ _ _ 1). intros n. apply go_Tail.
    + apply (calls_S _ _ _ _ _ _ 1). intros n. apply go_Split.
    + apply (calls_S _ _ _ _ _ _ 2). intros n. apply go_SplitCompat.
    + apply (calls_S _ _ _ _ _ _ 2). intros n. apply go_SplitMultiElement.
    + destruct (C16_lemma r) as (k & Hk & _ & _ & Hfuel).
      apply (calls_S _ _ _ _ _ _ 4). intros n.
      change (hangul_val ("Stroke", [VInt r])) with (match Stroke r with Ok n => VInt n | _ => VNil end). rewrite Hk.
      apply (go_Stroke grow E rd wr 2 n r multiElements s k (memory_holds s Hm)). apply Hfuel. lia.
  - exists s. split; [|split; [apply kept_refl|auto]]. apply (calls_S _ _ _ _ _ _ 2). intros n. apply go_Join.
  - exists (after_runes E w s). split; [|apply after_kept]. destruct (LastConsonant_total w Hw) as [t Ht].
    cbn [In] in Hf. repeat destruct Hf as [<-|Hf]; [..|destruct Hf].
    + apply (calls_S _ _ _ _ _ _ 2). intros n. cbn [Nat.add]. rewrite go_LastConsonant. cbn - [LastConsonant after_runes].
      rewrite Ht. reflexivity.
    + apply (calls_S _ _ _ _ _ _ 3). intros n. cbn [Nat.add]. rewrite go_EndsWithConsonant.
      cbn - [EndsWithConsonant after_runes]. rewrite (EndsWithConsonant_of _ _ Ht). reflexivity.
  - exists (after_runes E w s). split; [|apply after_kept]. destruct (LastConsonant_total w Hw) as [t Ht].
    apply (calls_S _ _ _ _ _ _ 3). intros n. cbn [Nat.add]. rewrite go_AppendPostposition. cbn - [AppendPostposition after_runes].
    unfold AppendPostposition. rewrite Ht. cbn [bind].
    destruct (str_eqb p str_euro && (t =? TailL)); [reflexivity|]. destruct (negb (t =? 0)); reflexivity.
Qed.

Lemma source_hangul_seq cs : forall s, Forall hangul_call cs -> hangul_memory (arrs E s) ->
  exists s', calls_seq grow E rd wr prog_hangul cs s (map hangul_val cs) s' /\
    kept (arrs E s) (arrs E s') /\ objs E s' = objs E s /\ ext E s' = ext E s.
Proof.
  induction cs as [|c cs IH]; intros s Hc Hm.
  - exists s. split; [constructor|split; [apply kept_refl|auto]].
  - inversion Hc as [|? ? H1 H2]; subst. destruct (source_hangul c s H1 Hm) as (s1 & R & K & Ho & Hx).
    destruct (IH s1 H2 (kept_memory _ _ Hm K)) as (s2 & R2 & K2 & Ho2 & Hx2). exists s2.
    split; [|split; [eapply kept_trans; eassumption|split; congruence]].
    destruct c as [f args]. econstructor; eassumption.
Qed.

(** ** hanja *)
Definition hanja_val (c : string * list val) : val :=
  match c with
  | (_, [VInt r]) => VBool (IsHanja r)
  | (_, [VStr h]) => VStr (Convert h)
  | _ => VNil
  end.
Lemma source_hanja_seq cs : forall s, Forall hanja_call cs ->
  exists s', calls_seq grow E rd wr prog_hanja cs s (map hanja_val cs) s' /\
    kept (arrs E s) (arrs E s') /\ objs E s' = objs E s /\ ext E s' = ext E s.
Proof.
  induction cs as [|c cs IH]; intros s Hc.
  - exists s. split; [constructor|split; [apply kept_refl|auto]].
  - inversion Hc as [|? ? H1 H2]; subst.
    assert (exists s1, calls prog_hanja (fst c) (snd c) s (hanja_val c) s1 /\
      kept (arrs E s) (arrs E s1) /\ objs E s1 = objs E s /\ ext E s1 = ext E s) as (s1 & R & K & Ho & Hx).
    { destruct H1 as [r|h]; cbn [fst snd hanja_val].
      - exists s. split; [apply (calls_S _ _ _ _ _ _ 1); intros n; apply go_IsHanja|split; [apply kept_refl|auto]].
      - eexists. split; [apply (calls_S _ _ _ _ _ _ 1); intros n; apply go_Convert|]. cbn. split; [apply kept_new|auto]. }
    destruct (IH s1 H2) as (s2 & R2 & K2 & Ho2 & Hx2). exists s2.
    split; [|split; [eapply kept_trans; eassumption|split; congruence]].
    destruct c as [f args]. econstructor; eassumption.
Qed.
End Run.

(** ** A caller that writes to the slice SplitMultiElement returned *)
Lemma source_corruption grow E rd wr (X : E) :
  let s := mkState E ([] :: map snd m_multiElements) [] X in
  exists l n a k1 k2,
    calls grow E rd wr prog_hangul "SplitMultiElement" [VInt 0x3132] s (VTuple [VSlice l 0 n n; VBool true]) s /\
    length a = length (array (arrs E s) l) /\
    calls grow E rd wr prog_hangul "Stroke" [VInt 0x3132] s (VInt k1) s /\
    calls grow E rd wr prog_hangul "Stroke" [VInt 0x3132] (set_arr E s l a) (VInt k2) (set_arr E s l a) /\ k1 <> k2.
Proof.
  intros s. exists 1%nat, 2, [0x3139; 0x3139], 2, 6.
  split; [apply (calls_S _ _ _ _ _ _ _ _ _ _ 2); intros n; exact (go_SplitMultiElement grow E rd wr n 0x3132 s)|].
  split; [reflexivity|].
  assert (Hs : holds E multiElements s) by (apply memory_holds; exists []; rewrite app_nil_r; reflexivity).
  split; [apply (calls_S _ _ _ _ _ _ _ _ _ _ 4); intros n; exact (go_Stroke grow E rd wr 2 n 0x3132 multiElements s 2 Hs eq_refl)|].
  split; [|lia]. apply (calls_S _ _ _ _ _ _ _ _ _ _ 4). intros n.
  refine (go_Stroke grow E rd wr 2 n 0x3132 (set_nth 0 (0x3132, [0x3139; 0x3139]) multiElements) (set_arr E s 1 [0x3139; 0x3139]) 6 _ eq_refl).
  split; [|exists []; rewrite app_nil_r; reflexivity].
  repeat constructor.
Qed.

(** ** In terms of [char_code] *)
Lemma source_To_code : exists f, char_code f /\
  forall grow E rd wr s v data rs, has_nil (arrs E s) -> slice_holds (arrs E s) v data -> Forall is_byte data -> reads_as data rs ->
  exists out s' o, calls grow E rd wr prog_cp949 "To" [v] s (VTuple [out; VErr None]) s' /\
    kept (arrs E s) (arrs E s') /\ objs E s' = objs E s ++ [o] /\ ext E s' = ext E s /\
    slice_holds (arrs E s') out (flat_map f rs) /\ fresh (arrs E s) out.
Proof. exists to_char. split; [exact char_code_to_char|exact source_To]. Qed.

Lemma source_Encoder_code : exists f, char_code f /\
  forall grow E rd wr s p vdst dst vsrc src rs eof, has_nil (arrs E s) -> slice_holds (arrs E s) vdst dst ->
  slice_holds (arrs E s) vsrc src -> Forall is_byte src -> reads_as src rs ->
  let out := flat_map f rs in
  exists dst' s' o,
    calls grow E rd wr prog_cp949 "cp949Encoder.Transform" [VPtr p; vdst; vsrc; VBool eof] s
      (VTuple [VInt (zlen out); VInt (zlen src); VErr None]) s' /\
    kept_outside (arrs E s) (arrs E s') vdst /\ objs E s' = objs E s ++ [o] /\ ext E s' = ext E s /\
    slice_holds (arrs E s') vdst dst' /\
    (zlen out <= zlen dst -> dst' = out ++ zdrop (zlen out) dst) /\ (zlen dst < zlen out -> is_prefix dst' out).
Proof. exists to_char. split; [exact char_code_to_char|exact source_enc_Transform]. Qed.

Lemma source_writer : exists f, char_code f /\
  forall grow E rd wr k A O X evs,
  has_nil A -> Forall (Forall is_byte) A -> Forall event_bytes evs -> sensible 0 (map zlen A) evs ->
  exists p s0 pairs own s,
    calls grow E rd wr prog_cp949 "NewWriter" [VExt k] (mkState E A O X) (VTuple [VPtr p; VErr None]) s0 /\ arrs E s0 = A /\
    map fst pairs = chunks A evs /\
    Forall (fun q => exists rs, reads_as (fst q) rs /\ snd q = flat_map f rs) pairs /\
    let expected := writes_spec (fun x bs => let '(_, e, x') := wr k x bs in (e, x')) X pairs in
    writes grow E rd wr prog_cp949 p (seq 0 (length A)) s0 evs (fst expected) own s /\
    map (array (arrs E s)) own = after_writes A evs /\ ext E s = snd expected.
Proof.
  exists to_char. split; [exact char_code_to_char|]. intros grow E rd wr k A O X evs Hn HA He Hs.
  destruct (writer_session grow E rd wr k A O X evs Hn HA He Hs) as (p & s0 & pairs & own & s & H1 & H2 & H3 & H4 & H5 & H6 & H7).
  exists p, s0, pairs, own, s. split; [exact H1|]. split; [exact H2|]. split; [exact H3|]. split; [|auto].
  pose proof (chunks_bytes evs A HA He) as Hb. rewrite <- H3 in Hb. clear - H4 Hb. induction H4 as [|q pairs Hq H4 IH]; constructor.
  - inversion Hb as [|? ? Hb1 Hb2]; subst. pose proof (string_to_runes_reads (fst q) Hb1) as Hr. exists (string_to_runes (fst q)).
    split; [exact Hr|]. rewrite (To_reads grow _ _ Hb1 Hr) in Hq. injection Hq as Hq. symmetry. exact Hq.
  - inversion Hb; subst. auto.
Qed.

(** ** Purity *)
Lemma source_hangul_pure : exists F : string * list val -> val,
  forall grow E rd wr cs s, Forall hangul_call cs -> hangul_memory (arrs E s) ->
  exists s', calls_seq grow E rd wr prog_hangul cs s (map F cs) s' /\
    kept (arrs E s) (arrs E s') /\ objs E s' = objs E s /\ ext E s' = ext E s.
Proof. exists hangul_val. exact source_hangul_seq. Qed.
Lemma source_hanja_pure : exists F : string * list val -> val,
  forall grow E rd wr cs s, Forall hanja_call cs ->
  exists s', calls_seq grow E rd wr prog_hanja cs s (map F cs) s' /\
    kept (arrs E s) (arrs E s') /\ objs E s' = objs E s /\ ext E s' = ext E s.
Proof. exists hanja_val. exact source_hanja_seq. Qed.

(** The executed sources compute what the model says. *)
Lemma source_hangul_model grow E rd wr s : hangul_memory (arrs E s) ->
  (forall r,
    calls grow E rd wr prog_hangul "IsLead" [VInt r] s (VBool (IsLead r)) s /\
    calls grow E rd wr prog_hangul "IsMedial" [VInt r] s (VBool (IsMedial r)) s /\
    calls grow E rd wr prog_hangul "IsTail" [VInt r] s (VBool (IsTail r)) s /\
    calls grow E rd wr prog_hangul "IsJaeum" [VInt r] s (VBool (IsJaeum r)) s /\
    calls grow E rd wr prog_hangul "IsMoeum" [VInt r] s (VBool (IsMoeum r)) s /\
    calls grow E rd wr prog_hangul "IsHangul" [VInt r] s (VBool (IsHangul r)) s /\
    calls grow E rd wr prog_hangul "CompatJamo" [VInt r] s (VInt (CompatJamo r)) s /\
    calls grow E rd wr prog_hangul "Lead" [VInt r] s (VInt (Lead r)) s /\
    calls grow E rd wr prog_hangul "Medial" [VInt r] s (VInt (Medial r)) s /\
    calls grow E rd wr prog_hangul "Tail" [VInt r] s (VInt (Tail r)) s /\
    (let '(l, m, t) := Split r in
     calls grow E rd wr prog_hangul "Split" [VInt r] s (VTuple [VInt l; VInt m; VInt t]) s) /\
    (let '(l, m, t) := SplitCompat r in
     calls grow E rd wr prog_hangul "SplitCompat" [VInt r] s (VTuple [VInt l; VInt m; VInt t]) s) /\
    (let (es, ok) := SplitMultiElement r in
     exists v, calls grow E rd wr prog_hangul "SplitMultiElement" [VInt r] s (VTuple [v; VBool ok]) s /\
       slice_holds (arrs E s) v es) /\
    (exists n, Stroke r = Ok n /\ calls grow E rd wr prog_hangul "Stroke" [VInt r] s (VInt n) s)) /\
  (forall l m t, calls grow E rd wr prog_hangul "Join" [VInt l; VInt m; VInt t] s (VInt (Join l m t)) s) /\
  (forall w, Forall is_byte w ->
    (exists s' t, LastConsonant w = Ok t /\ calls grow E rd wr prog_hangul "LastConsonant" [VStr w] s (VInt t) s') /\
    (exists s' b, EndsWithConsonant w = Ok b /\ calls grow E rd wr prog_hangul "EndsWithConsonant" [VStr w] s (VBool b) s') /\
    (forall p q, exists s' x, AppendPostposition w p q = Ok x /\
       calls grow E rd wr prog_hangul "AppendPostposition" [VStr w; VStr p; VStr q] s (VStr x) s')).
Proof.
  intros Hm. assert (Hrune : forall f r, hangul_call (f, [VInt r]) -> calls grow E rd wr prog_hangul f [VInt r] s (hangul_val (f, [VInt r])) s).
  { intros f r H. inversion H as [f' r' Hf| | |]; subst. clear H.
    cbn [In] in Hf. repeat destruct Hf as [<-|Hf]; [..|destruct Hf].
    + apply (calls_S _ _ _ _ _ _ _ _ _ _ 1). intros n. apply go_IsLead.
    + apply (calls_S _ _ _ _ _ _ _ _ _ _ 1). intros n. apply go_IsMedial.
    + apply (calls_S _ _ _ _ _ _ _ _ _ _ 1). intros n. apply go_IsTail.
    + apply (calls_S _ _ _ _ _ _ _ _ _ _ 2). intros n. apply go_IsJaeum.
    + apply (calls_S _ _ _ _ _ _ _ _ _ _ 2). intros n. apply go_IsMoeum.
    + apply (calls_S _ _ _ _ _ _ _ _ _ _ 3). intros n. apply go_IsHangul.
    + apply (calls_S _ _ _ _ _ _ _ _ _ _ 1). intros n. apply go_CompatJamo.
    + apply (calls_S _ _ _ _ _ _ _ _ _ _ 1). intros n. apply go_Lead.
    + apply (calls_S _ _ _ _ _ _ _ _ _ _ 1). intros n. apply go_Medial.
    + apply (calls_S _ _ _ _ _ _ _ _ _ _ 1). intros n. apply go_Tail.
    + apply (calls_S _ _ _ _ _ _ _ _ _ _ 1). intros n. apply go_Split.
    + apply (calls_S _ _ _ _ _ _ _ _ _ _ 2). intros n. apply go_SplitCompat.
    + apply (calls_S _ _ _ _ _ _ _ _ _ _ 2). intros n. apply go_SplitMultiElement.
    + destruct (C16_lemma r) as (k & Hk & _ & _ & Hfuel).
      apply (calls_S _ _ _ _ _ _ _ _ _ _ 4). intros n.
      change (hangul_val ("Stroke", [VInt r])) with (match Stroke r with Ok n => VInt n | _ => VNil end). rewrite Hk.
      apply (go_Stroke grow E rd wr 2 n r multiElements s k (memory_holds E s Hm)). apply Hfuel. lia. }
  split; [|split].
  - intros r. repeat match goal with |- _ /\ _ => split end.
    1-10: refine (Hrune _ r _); constructor; cbn; tauto.
    + pose proof (Hrune "Split" r) as H. change (hangul_val ("Split", [VInt r])) with (triple_val (Split r)) in H.
      destruct (Split r) as [[l m] t]. apply H. constructor; cbn; tauto.
    + pose proof (Hrune "SplitCompat" r) as H. change (hangul_val ("SplitCompat", [VInt r])) with (triple_val (SplitCompat r)) in H.
      destruct (SplitCompat r) as [[l m] t]. apply H. constructor; cbn; tauto.
    + pose proof (fun n => go_SplitMultiElement_holds grow E rd wr n r multiElements s (memory_holds E s Hm)) as H.
      unfold SplitMultiElement, SplitMultiElement_in.
      destruct (map_get multiElements (CompatJamo r)) as [es|] eqn:Hes.
      * destruct (H 0%nat) as (l & Hrun & Hl). exists (VSlice l 0 (zlen es) (zlen es)). split.
        -- apply (calls_S _ _ _ _ _ _ _ _ _ _ 2). intros n. destruct (H n) as (l' & Hrun' & _). cbn [Nat.add].
           rewrite go_SplitMultiElement in Hrun, Hrun' |- *. congruence.
        -- cbn. change (array (arrs E s) l) with (arr_at E s l). rewrite Hl. pose proof (zlen_nonneg es).
           rewrite zdrop_0, ztake_all by lia.
           assert ((l < length (arrs E s))%nat).
           { rewrite go_SplitMultiElement in Hrun. destruct (slice_at 1 multiElements (CompatJamo r)) as [[l0 k0]|] eqn:Hsl; [|discriminate].
             injection Hrun as -> _. destruct Hm as [rest Hm]. rewrite Hm, app_length. cbn [length map]. rewrite map_length.
             enough (forall m i, slice_at i m (CompatJamo r) = Some (l, k0) -> (l < i + length m)%nat) as Hx
               by (specialize (Hx _ _ Hsl); change m_multiElements with multiElements; lia).
             induction m as [|[k1 e1] m IH]; intros i; cbn; [discriminate|]. destruct (k1 =? CompatJamo r).
             - intros [= <- _]. lia.
             - intros Hi. apply IH in Hi. lia. }
           repeat split; try assumption; lia.
      * exists (VSlice 0 0 0 0). split; [apply (calls_S _ _ _ _ _ _ _ _ _ _ 2); intros n; apply H|].
        destruct Hm as [rest Hm]. cbn. unfold array. rewrite Hm. cbn. repeat split; lia.
    + destruct (C16_lemma r) as (k & Hk & _ & _ & Hfuel). exists k. split; [exact Hk|].
      pose proof (Hrune "Stroke" r) as H.
      change (hangul_val ("Stroke", [VInt r])) with (match Stroke r with Ok n => VInt n | _ => VNil end) in H. rewrite Hk in H.
      apply H. constructor; cbn; tauto.
  - intros l m t. apply (calls_S _ _ _ _ _ _ _ _ _ _ 2). intros n. apply go_Join.
  - intros w Hw. destruct (LastConsonant_total w Hw) as [t Ht].
    split; [|split].
    + eexists _, t. split; [exact Ht|]. apply (calls_S _ _ _ _ _ _ _ _ _ _ 2). intros n. cbn [Nat.add]. rewrite go_LastConsonant, Ht. reflexivity.
    + eexists _, _. split; [exact (EndsWithConsonant_of _ _ Ht)|]. apply (calls_S _ _ _ _ _ _ _ _ _ _ 3). intros n. cbn [Nat.add].
      rewrite go_EndsWithConsonant, (EndsWithConsonant_of _ _ Ht). reflexivity.
    + intros p q. assert (exists x, AppendPostposition w p q = Ok x) as [x Hx].
      { unfold AppendPostposition. rewrite Ht. cbn [bind]. destruct (str_eqb p str_euro && (t =? TailL)); [eauto|].
        destruct (negb (t =? 0)); eauto. }
      eexists _, x. split; [exact Hx|]. apply (calls_S _ _ _ _ _ _ _ _ _ _ 3). intros n. cbn [Nat.add].
      rewrite go_AppendPostposition, Hx. reflexivity.
Qed.
Lemma source_hanja_model grow E rd wr s :
  (forall r, calls grow E rd wr prog_hanja "IsHanja" [VInt r] s (VBool (IsHanja r)) s) /\
  (forall h, exists s', calls grow E rd wr prog_hanja "Convert" [VStr h] s (VStr (Convert h)) s').
Proof.
  split.
  - intros r. apply (calls_S _ _ _ _ _ _ _ _ _ _ 1). intros n. apply go_IsHanja.
  - intros h. eexists. apply (calls_S _ _ _ _ _ _ _ _ _ _ 1). intros n. apply go_Convert.
Qed.

(** The reader of the examples. *)
Lemma wire_rd_delivers x : Forall is_byte x -> delivers wire_rd x x EOF.
Proof.
  remember (length x) as n eqn:Hn. revert x Hn. induction n as [n IH] using lt_wf_ind. intros x -> Hb.
  assert (Hid : forall c, Forall is_byte c -> map (fun b => b mod 256) c = c).
  { intros c H. induction H as [|b c Hc H IHc]; [reflexivity|]. cbn. rewrite IHc. f_equal. apply Z.mod_small. exact Hc. }
  assert (Hw : forall k, wire_rd x k = bytes_rd x k).
  { intros k. unfold wire_rd. destruct x as [|b x]; cbn [bytes_rd].
    - destruct (0 <? k); reflexivity.
    - rewrite Hid by (apply Forall_ztake; assumption). reflexivity. }
  pose proof (bytes_rd_delivers x) as Hd. inversion Hd as [? ? ? D1 D2 D3]; subst.
  constructor.
  - intros k c e s' Hk. rewrite Hw. apply D1. assumption.
  - intros k c s' Hk. rewrite Hw. apply D2. assumption.
  - intros k c s' Hk H. rewrite Hw in H. destruct (D2 k c s' Hk H) as (Hne & Hl & _).
    destruct x as [|b x]; cbn [bytes_rd] in H; [destruct (0 <? k); congruence|].
    assert (Hc : c = ztake k (b :: x)) by congruence. assert (Hs : s' = zdrop k (b :: x)) by congruence.
    assert (He : zdrop (zlen c) (b :: x) = s').
    { subst. rewrite zlen_ztake by lia. destruct (Z.le_gt_cases k (zlen (b :: x))) as [Hx|Hx]; [now rewrite Z.min_l by assumption|].
      rewrite Z.min_r by lia. rewrite !zdrop_all by lia. reflexivity. }
    rewrite He. apply (IH (length s')); [|reflexivity|subst s'; apply Forall_zdrop; assumption].
    pose proof (zlen_cons b x) as Hz. pose proof (zlen_nonneg x). enough (zlen s' < zlen (b :: x)) by (unfold zlen in *; lia).
    subst s'. destruct (Z.le_gt_cases k (zlen (b :: x))); [rewrite zlen_zdrop by lia; lia|rewrite zdrop_all by lia; unfold zlen in *; cbn in *; lia].
Qed.
Lemma wire_rd_bytes x n : Forall is_byte (fst (fst (wire_rd x n))).
Proof.
  unfold wire_rd. destruct (bytes_rd x n) as [[bs e] x']. cbn. induction bs; cbn; constructor; auto.
  unfold is_byte. pose proof (Z.mod_pos_bound a 256). lia.
Qed.
Lemma noisy_rd_bytes k x n : Forall is_byte (snd (fst (fst (noisy_rd k x n)))).
Proof.
  unfold noisy_rd. pose proof (wire_rd_bytes x n) as H. destruct (wire_rd x n) as [[bs e] x']. cbn in *.
  apply Forall_app. split; [assumption|]. repeat constructor; unfold is_byte; lia.
Qed.
Lemma noisy_rd_reports k : reports (noisy_rd k) wire_rd.
Proof. intros x n. unfold noisy_rd. destruct (wire_rd x n) as [[bs err] x']. eexists. reflexivity. Qed.
