(** Properties of the sources as executed: the functions of /repo are given by their syntax
    trees (GoSource.v, generated from the Go files by tools/gen_ast.py), executed by the
    interpreter of GoLang.v in a memory of arrays and objects.  Slices can share memory here,
    so what a call reads, writes and keeps can be said.

    Throughout, [grow] is the runtime's choice of capacities in append, [rd i] and
    [wr i] are the caller's readers and writers, numbered and sharing the state [E], and [calls ... f args s v s'] says that f(args)
    called in state [s] returns [v] in state [s'] (SourceSpec.v). *)
From Coq Require Import String ZArith List Bool Lia.
From Verif Require Import Base Spec SpecCp949 SpecIO Utf8 SortSearch HangulModel HanjaModel Cp949Model StreamModel
  GoLang GoSource Cp949Facts2 SourceSpec SourceFacts SourceFacts2.
Import ListNotations.
Local Open Scope list_scope.
Local Open Scope Z_scope.
Local Open Scope go_scope.

Definition double (old need : Z) : Z := Z.max need (2 * old).
(** A program that has no reader and no writer, and memory for the examples. *)
Definition no_rd (_ : nat) (_ : unit) (_ : Z) : Z * list Z * option error * unit := (0, [], Some EOF, tt).
Definition no_wr (_ : nat) (_ : unit) (bs : list Z) : Z * option error * unit := (zlen bs, None, tt).
Definition ex_run f args A := run double unit no_rd no_wr prog_cp949 30 f args (mkState unit A [] tt).
Definition shown {E} (x : res (val * state E)) : option (val * list (list Z)) :=
  match x with Ok (v, s) => Some (v, arrs E s) | _ => None end.
(** * C21 Callers cannot corrupt the package, for the executed sources: false *)
Theorem C21_source_refuted : forall grow E rd wr (X : E),
  let s := mkState E ([] :: map snd m_multiElements) [] X in
  exists l n a k1 k2,
    calls grow E rd wr prog_hangul "SplitMultiElement" [VInt 0x3132] s (VTuple [VSlice l 0 n n; VBool true]) s /\
    length a = length (array (arrs E s) l) /\
    calls grow E rd wr prog_hangul "Stroke" [VInt 0x3132] s (VInt k1) s /\
    calls grow E rd wr prog_hangul "Stroke" [VInt 0x3132] (set_arr E s l a) (VInt k2) (set_arr E s l a) /\ k1 <> k2.
Proof. exact source_corruption. Qed.
Print Assumptions C21_source_refuted.

(** * C95 Executing From *)
Theorem C95_source_From : forall grow E rd wr s v data,
  has_nil (arrs E s) -> slice_holds (arrs E s) v data -> Forall is_byte data ->
  exists out err s' o, calls grow E rd wr prog_cp949 "From" [v] s (VTuple [out; VErr err]) s' /\
    kept (arrs E s) (arrs E s') /\ objs E s' = objs E s ++ [o] /\ ext E s' = ext E s /\
    ((exists rs, decodes data rs /\ err = None /\ slice_holds (arrs E s') out (utf8 rs) /\ fresh (arrs E s) out) \/
     (truncated data /\ err = Some ErrCP949UnexpectedStream /\ out = VSlice 0 0 0 0)).
Proof. exact source_From. Qed.
Print Assumptions C95_source_From.
(* the middle three bytes of an array of five: 가A *)
Example C95_case :
  slice_holds [[]; [7; 0xB0; 0xA1; 0x41; 9]] (VSlice 1 1 3 4) [0xB0; 0xA1; 0x41] /\
  shown (ex_run "From" [VSlice 1 1 3 4] [[]; [7; 0xB0; 0xA1; 0x41; 9]]) =
    Some (VTuple [VSlice 2 0 4 4; VErr None], [[]; [7; 0xB0; 0xA1; 0x41; 9]; utf8 [0xAC00; 0x41]]).
Proof. split; [cbn; repeat split; lia|]. vm_compute. reflexivity. Qed.

(** * C96 Executing To *)
Theorem C96_source_To : exists f, char_code f /\
  forall grow E rd wr s v data rs, has_nil (arrs E s) -> slice_holds (arrs E s) v data -> Forall is_byte data -> reads_as data rs ->
  exists out s' o, calls grow E rd wr prog_cp949 "To" [v] s (VTuple [out; VErr None]) s' /\
    kept (arrs E s) (arrs E s') /\ objs E s' = objs E s ++ [o] /\ ext E s' = ext E s /\
    slice_holds (arrs E s') out (flat_map f rs) /\ fresh (arrs E s) out.
Proof. exact source_To_code. Qed.
Print Assumptions C96_source_To.
Example C96_case :
  shown (ex_run "To" [VSlice 1 0 4 4] [[]; [0xEA; 0xB0; 0x80; 0x41]]) =
    Some (VTuple [VSlice 3 0 3 4; VErr None], [[]; [0xEA; 0xB0; 0x80; 0x41]; [0xB0; 0xA1]; [0xB0; 0xA1; 0x41; 0]]).
Proof. vm_compute. reflexivity. Qed.

(** * C97 A Reader and the memory of its client *)
Theorem C97_source_Reader : forall grow E rd wr k, (forall x n, Forall is_byte (snd (fst (fst (rd k x n))))) ->
  forall rd1 A O X stream rs e evs, reports (rd k) rd1 ->
  has_nil A -> delivers rd1 X stream e -> decodes stream rs -> sensible 1 (map zlen A) evs ->
  exists p s0 outs own s,
    calls grow E rd wr prog_cp949 "NewReader" [VExt k] (mkState E A O X) (VTuple [VPtr p; VErr None]) s0 /\ arrs E s0 = A /\
    reads grow E rd wr prog_cp949 p (seq 0 (length A)) s0 evs outs own s /\
    map (array (arrs E s)) own = after_reads A evs outs /\ served e (utf8 rs) (sizes evs) outs.
Proof. exact reader_session. Qed.
Print Assumptions C97_source_Reader.
(** For an arbitrary wrapped reader the results are those of the model, so that everything
    proved about Read in the other files holds of the executed source: [model_reads1] is about
    Read of StreamModel.v, [model_reads] about Read3 of StreamModel3.v, where the wrapped
    reader may also report a wrong count. *)
Theorem C97_source_Reader_model : forall grow E rd wr k, (forall x n, Forall is_byte (snd (fst (fst (rd k x n))))) ->
  forall rd1 A O X fuel evs outs r', reports (rd k) rd1 ->
  has_nil A -> sensible 0 (map zlen A) evs -> model_reads1 grow E rd1 fuel (NewReader X) (sizes evs) outs r' ->
  exists p s0 own s,
    calls grow E rd wr prog_cp949 "NewReader" [VExt k] (mkState E A O X) (VTuple [VPtr p; VErr None]) s0 /\ arrs E s0 = A /\
    reads grow E rd wr prog_cp949 p (seq 0 (length A)) s0 evs outs own s /\
    map (array (arrs E s)) own = after_reads A evs outs /\ ext E s = r_src _ r'.
Proof. exact reader_session_model. Qed.
Print Assumptions C97_source_Reader_model.
Theorem C97_source_Reader_any : forall grow E rd wr k, (forall x n, Forall is_byte (snd (fst (fst (rd k x n))))) ->
  forall A O X fuel evs outs r',
  has_nil A -> sensible 0 (map zlen A) evs -> model_reads grow E rd k fuel (NewReader X) (sizes evs) outs r' ->
  exists p s0 own s,
    calls grow E rd wr prog_cp949 "NewReader" [VExt k] (mkState E A O X) (VTuple [VPtr p; VErr None]) s0 /\ arrs E s0 = A /\
    reads grow E rd wr prog_cp949 p (seq 0 (length A)) s0 evs outs own s /\
    map (array (arrs E s)) own = after_reads A evs outs /\ ext E s = r_src _ r'.
Proof. exact reader_session3. Qed.
Print Assumptions C97_source_Reader_any.
(* 가A read into overlapping windows of one array, which the client clears in between *)
Example C97_case :
  (forall x n, Forall is_byte (snd (fst (fst (noisy_rd 0 x n))))) /\ reports (noisy_rd 0) wire_rd /\
  delivers wire_rd [0xB0; 0xA1; 0x41] [0xB0; 0xA1; 0x41] EOF /\ decodes [0xB0; 0xA1; 0x41] [0xAC00; 0x41] /\
  let evs := [Use 1 1 2 4; Use 1 2 2 2; Store 1 [0; 0; 0; 0; 0]; Alloc [5; 5; 5]; Use 2 0 3 3; Use 1 0 1 1] in
  let outs := [([0xEA; 0xB0], None); ([0x80; 0x41], None); ([], Some EOF); ([], Some EOF)] in
  sensible 1 (map zlen [[]; [1; 2; 3; 4; 5]]) evs /\
  after_reads [[]; [1; 2; 3; 4; 5]] (firstn 2 evs) outs = [[]; [1; 0xEA; 0x80; 0x41; 5]] /\
  served EOF (utf8 [0xAC00; 0x41]) (sizes evs) outs.
Proof.
  split; [apply noisy_rd_bytes|]. split; [apply noisy_rd_reports|].
  split; [apply wire_rd_delivers; repeat constructor; unfold is_byte; lia|].
  split; [apply dec_code; [lia|lia|apply assigned_by; vm_compute; reflexivity|apply dec_ascii; [lia|constructor]]|].
  cbn. split; [|split; [reflexivity|]].
  - repeat split; try (exists 5; repeat split; lia); exists 3; repeat split; lia.
  - apply (served_piece _ [0xEA; 0xB0] [0x80; 0x41]); [discriminate|cbn; lia|].
    apply (served_piece _ [0x80; 0x41] []); [discriminate|cbn; lia|].
    apply served_end, served_end, served_none.
Qed.
(* the first Read of that client, executed *)
Example C97_run :
  let s0 := run double _ noisy_rd keep_wr prog_cp949 40 "NewReader" [VExt 0]
              (mkState _ [[]; [1; 2; 3; 4; 5]] [] [0xB0; 0xA1; 0x41]) in
  (let! (v, s) := s0 in
   let! (v1, s) := run double _ noisy_rd keep_wr prog_cp949 40 "cp949Reader.Read" [VPtr 1; VSlice 1 1 2 4] s in
   Ok (v, v1, array (arrs _ s) 1)) =
  Ok (VTuple [VPtr 1; VErr None], VTuple [VInt 2; VErr None], [1; 0xEA; 0xB0; 4; 5]).
Proof. vm_compute. reflexivity. Qed.

(** * C98 A Writer and the memory of its client *)
Theorem C98_source_Writer : exists f, char_code f /\
  forall grow E rd wr k A O X evs,
  has_nil A -> Forall (Forall is_byte) A -> Forall event_bytes evs -> sensible 0 (map zlen A) evs ->
  exists p s0 pairs own s,
    calls grow E rd wr prog_cp949 "NewWriter" [VExt k] (mkState E A O X) (VTuple [VPtr p; VErr None]) s0 /\ arrs E s0 = A /\
    map fst pairs = chunks A evs /\
    Forall (fun q => exists rs, reads_as (fst q) rs /\ snd q = flat_map f rs) pairs /\
    let expected := writes_spec (fun x bs => let '(_, e, x') := wr k x bs in (e, x')) X pairs in
    writes grow E rd wr prog_cp949 p (seq 0 (length A)) s0 evs (fst expected) own s /\
    map (array (arrs E s)) own = after_writes A evs /\ ext E s = snd expected.
Proof. exact source_writer. Qed.
Print Assumptions C98_source_Writer.
(* the same window written twice, with other content *)
Example C98_case :
  let evs := [Use 1 0 3 3; Store 1 [0x41; 0x42; 0x43]; Use 1 0 3 3] in
  sensible 0 (map zlen [[]; [0xEA; 0xB0; 0x80]]) evs /\ Forall event_bytes evs /\
  chunks [[]; [0xEA; 0xB0; 0x80]] evs = [[0xEA; 0xB0; 0x80]; [0x41; 0x42; 0x43]].
Proof.
  cbn. split; [|split; [|reflexivity]].
  - repeat split; exists 3; repeat split; lia.
  - repeat constructor; lia.
Qed.
Example C98_run :
  let s0 := run double _ noisy_rd keep_wr prog_cp949 40 "NewWriter" [VExt 0] (mkState _ [[]; [0xEA; 0xB0; 0x80]] [] []) in
  (let! (v, s) := s0 in
   let! (v1, s) := run double _ noisy_rd keep_wr prog_cp949 40 "cp949Writer.Write" [VPtr 1; VSlice 1 0 3 3] s in
   Ok (v, v1, array (arrs _ s) 1, ext _ s)) =
  Ok (VTuple [VPtr 1; VErr None], VTuple [VInt 3; VErr None], [0xEA; 0xB0; 0x80], [0xB0; 0xA1]).
Proof. vm_compute. reflexivity. Qed.

(** * C99 Transform and overlapping buffers *)
Theorem C99_source_Decoder : forall grow E rd wr s p vdst dst vsrc src eof,
  has_nil (arrs E s) -> slice_holds (arrs E s) vdst dst -> slice_holds (arrs E s) vsrc src -> Forall is_byte src ->
  exists nDst nSrc err dst' s' o,
    calls grow E rd wr prog_cp949 "cp949Decoder.Transform" [VPtr p; vdst; vsrc; VBool eof] s
      (VTuple [VInt nDst; VInt nSrc; VErr err]) s' /\
    kept_outside (arrs E s) (arrs E s') vdst /\ objs E s' = objs E s ++ [o] /\ ext E s' = ext E s /\
    slice_holds (arrs E s') vdst dst' /\
    ((exists rs, decodes src rs /\ nDst = zlen (utf8 rs) /\ nSrc = zlen src /\ err = None /\
        (zlen (utf8 rs) <= zlen dst -> dst' = utf8 rs ++ zdrop (zlen (utf8 rs)) dst) /\
        (zlen dst < zlen (utf8 rs) -> is_prefix dst' (utf8 rs))) \/
     (truncated src /\ nDst = 0 /\ nSrc = 0 /\ err = Some ErrCP949UnexpectedStream /\ dst' = dst)).
Proof. exact source_dec_Transform. Qed.
Print Assumptions C99_source_Decoder.
Theorem C99_source_Encoder : exists f, char_code f /\
  forall grow E rd wr s p vdst dst vsrc src rs eof, has_nil (arrs E s) -> slice_holds (arrs E s) vdst dst ->
  slice_holds (arrs E s) vsrc src -> Forall is_byte src -> reads_as src rs ->
  let out := flat_map f rs in
  exists dst' s' o,
    calls grow E rd wr prog_cp949 "cp949Encoder.Transform" [VPtr p; vdst; vsrc; VBool eof] s
      (VTuple [VInt (zlen out); VInt (zlen src); VErr None]) s' /\
    kept_outside (arrs E s) (arrs E s') vdst /\ objs E s' = objs E s ++ [o] /\ ext E s' = ext E s /\
    slice_holds (arrs E s') vdst dst' /\
    (zlen out <= zlen dst -> dst' = out ++ zdrop (zlen out) dst) /\ (zlen dst < zlen out -> is_prefix dst' out).
Proof. exact source_Encoder_code. Qed.
Print Assumptions C99_source_Encoder.
(* decoding 가A in place, and the constructors *)
Example C99_case :
  shown (ex_run "cp949Decoder.Transform" [VPtr 0; VSlice 1 0 5 6; VSlice 1 1 3 3; VBool true] [[]; [7; 0xB0; 0xA1; 0x41; 9; 8]]) =
    Some (VTuple [VInt 4; VInt 3; VErr None], [[]; [0xEA; 0xB0; 0x80; 0x41; 9; 8]; utf8 [0xAC00; 0x41]]).
Proof. vm_compute. reflexivity. Qed.

(** * C100 The functions of package hangul are pure *)
Theorem C100_source_hangul_pure : exists F : string * list val -> val,
  forall grow E rd wr cs s, Forall hangul_call cs -> hangul_memory (arrs E s) ->
  exists s', calls_seq grow E rd wr prog_hangul cs s (map F cs) s' /\
    kept (arrs E s) (arrs E s') /\ objs E s' = objs E s /\ ext E s' = ext E s.
Proof. exact source_hangul_pure. Qed.
Print Assumptions C100_source_hangul_pure.
(** The values are those of the model, so that everything proved about the model holds of the
    executed sources. *)
Theorem C100_source_hangul_model : forall grow E rd wr s, hangul_memory (arrs E s) ->
  (forall r,
    calls grow E rd wr prog_hangul "IsLead" [VInt r] s (VBool (IsLead r)) s /\
    calls grow E rd wr prog_hangul "IsMedial" [VInt r] s (VBool (IsMedial r)) s /\
    calls grow E rd wr prog_hangul "IsTail" [VInt r] s (VBool (IsTail r)) s /\
    calls grow E rd wr prog_hangul "IsJaeum" [VInt r] s (VBool (IsJaeum r)) s /\
    calls grow E rd wr prog_hangul "IsMoeum" [VInt r] s (VBool (IsMoeum r)) s /\
    calls grow E rd wr prog_hangul "IsHangul" [VInt r] s (VBool (IsHangul r)) s /\
    calls grow E rd wr prog_hangul "CompatJamo" [VInt r] s (VInt (CompatJamo r)) s /\
    calls grow E rd wr prog_hangul "Lead" [VInt r] s (VInt (Lead r)) s /\
    calls grow E rd wr prog_hangul "Medial" [VInt r] s (VInt (Medial r)) s /\
    calls grow E rd wr prog_hangul "Tail" [VInt r] s (VInt (Tail r)) s /\
    (let '(l, m, t) := Split r in
     calls grow E rd wr prog_hangul "Split" [VInt r] s (VTuple [VInt l; VInt m; VInt t]) s) /\
    (let '(l, m, t) := SplitCompat r in
     calls grow E rd wr prog_hangul "SplitCompat" [VInt r] s (VTuple [VInt l; VInt m; VInt t]) s) /\
    (let (es, ok) := SplitMultiElement r in
     exists v, calls grow E rd wr prog_hangul "SplitMultiElement" [VInt r] s (VTuple [v; VBool ok]) s /\
       slice_holds (arrs E s) v es) /\
    (exists n, Stroke r = Ok n /\ calls grow E rd wr prog_hangul "Stroke" [VInt r] s (VInt n) s)) /\
  (forall l m t, calls grow E rd wr prog_hangul "Join" [VInt l; VInt m; VInt t] s (VInt (Join l m t)) s) /\
  (forall w, Forall is_byte w ->
    (exists s' t, LastConsonant w = Ok t /\ calls grow E rd wr prog_hangul "LastConsonant" [VStr w] s (VInt t) s') /\
    (exists s' b, EndsWithConsonant w = Ok b /\ calls grow E rd wr prog_hangul "EndsWithConsonant" [VStr w] s (VBool b) s') /\
    (forall p q, exists s' x, AppendPostposition w p q = Ok x /\
       calls grow E rd wr prog_hangul "AppendPostposition" [VStr w; VStr p; VStr q] s (VStr x) s')).
Proof. exact source_hangul_model. Qed.
Print Assumptions C100_source_hangul_model.
Example C100_case :
  hangul_memory ([] :: map snd m_multiElements) /\
  hangul_call ("Stroke"%string, [VInt 0xD55C]) /\
  exists s, run double unit no_rd no_wr prog_hangul 9 "Stroke" [VInt 0xD55C]
    (mkState unit ([] :: map snd m_multiElements) [] tt) = Ok (VInt 6, s).
Proof.
  split; [exists []; rewrite app_nil_r; reflexivity|]. split; [constructor; cbn; tauto|].
  eexists. vm_compute. reflexivity.
Qed.

(** * C101 The functions of package hanja are pure *)
Theorem C101_source_hanja_pure : exists F : string * list val -> val,
  forall grow E rd wr cs s, Forall hanja_call cs ->
  exists s', calls_seq grow E rd wr prog_hanja cs s (map F cs) s' /\
    kept (arrs E s) (arrs E s') /\ objs E s' = objs E s /\ ext E s' = ext E s.
Proof. exact source_hanja_pure. Qed.
Print Assumptions C101_source_hanja_pure.
Theorem C101_source_hanja_model : forall grow E rd wr s,
  (forall r, calls grow E rd wr prog_hanja "IsHanja" [VInt r] s (VBool (IsHanja r)) s) /\
  (forall h, exists s', calls grow E rd wr prog_hanja "Convert" [VStr h] s (VStr (Convert h)) s').
Proof. exact source_hanja_model. Qed.
Print Assumptions C101_source_hanja_model.
Example C101_case :
  shown (run double unit no_rd no_wr prog_hanja 9 "Convert" [VStr (utf8 [0x5927; 0x41])] (mkState unit [[]] [] tt)) =
    Some (VStr (utf8 [0xB300; 0x41]), [[]; [0xB300; 0x41]]).
Proof. vm_compute. reflexivity. Qed.

(** * C102 The constructors of the encoding package *)
Theorem C102_source_constructors : forall grow E rd wr s,
  calls grow E rd wr prog_cp949 "NewCP949Encoding" [] s (VPtr (length (objs E s)))
    (mkState E (arrs E s) (objs E s ++ [("CP949Encoding"%string, [])]) (ext E s)) /\
  (forall e, calls grow E rd wr prog_cp949 "CP949Encoding.NewDecoder" [VPtr e] s (VPtr (S (length (objs E s))))
    (mkState E (arrs E s) (objs E s ++ [("cp949Decoder"%string, []);
       ("encoding.Decoder"%string, [("Transformer"%string, VPtr (length (objs E s)))])]) (ext E s))) /\
  (forall e, calls grow E rd wr prog_cp949 "CP949Encoding.NewEncoder" [VPtr e] s (VPtr (S (length (objs E s))))
    (mkState E (arrs E s) (objs E s ++ [("cp949Encoder"%string, []);
       ("encoding.Encoder"%string, [("Transformer"%string, VPtr (length (objs E s)))])]) (ext E s))) /\
  (forall d, calls grow E rd wr prog_cp949 "cp949Decoder.Reset" [VPtr d] s (VTuple []) s) /\
  (forall d, calls grow E rd wr prog_cp949 "cp949Encoder.Reset" [VPtr d] s (VTuple []) s).
Proof. exact source_constructors. Qed.
Print Assumptions C102_source_constructors.
Example C102_case :
  shown (ex_run "CP949Encoding.NewDecoder" [VPtr 0] [[]]) = Some (VPtr 1, [[]]).
Proof. vm_compute. reflexivity. Qed.
