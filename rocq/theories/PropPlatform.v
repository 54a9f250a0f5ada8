(** Properties of the sources on machines: [compiled t prog] is the program [prog] with the
    32-bit or 64-bit integers [t] as Go's type int, whose operations wrap around
    (GoPlatform.v).  The other files compute with ints that have no limit; here the results
    are shown to be the same as long as the sizes are well below the limit, 2^31 or 2^63. *)
From Coq Require Import String ZArith List Bool Lia.
From Verif Require Import Base Spec SpecCp949 SpecIO Utf8 HangulModel Cp949Model StreamModel
  GoLang GoSource GoPlatform Cp949Facts2 SourceSpec SourceFacts SourceFacts2 SourceFactsW.
Import ListNotations.
Local Open Scope list_scope.
Local Open Scope Z_scope.
Local Open Scope go_scope.

(** * C118 The machine's integers *)
Theorem C118_platform_hangul : forall grow E rd wr t f args s, machine t ->
  hangul_call (f, args) -> hangul_memory (arrs E s) -> strings_below (int_limit t) args -> forall v s',
  calls grow E rd wr prog_hangul f args s v s' <-> calls grow E rd wr (compiled t prog_hangul) f args s v s'.
Proof. exact platform_hangul. Qed.
Print Assumptions C118_platform_hangul.
Theorem C118_platform_hanja : forall grow E rd wr t f args s v s',
  calls grow E rd wr prog_hanja f args s v s' <-> calls grow E rd wr (compiled t prog_hanja) f args s v s'.
Proof. exact platform_hanja. Qed.
Print Assumptions C118_platform_hanja.
Theorem C118_platform_From : forall grow E rd wr t s v data, machine t ->
  has_nil (arrs E s) -> slice_holds (arrs E s) v data -> Forall is_byte data -> 4 * zlen data <= int_limit t -> forall r s',
  calls grow E rd wr prog_cp949 "From" [v] s r s' <-> calls grow E rd wr (compiled t prog_cp949) "From" [v] s r s'.
Proof. exact platform_From. Qed.
Print Assumptions C118_platform_From.
Theorem C118_platform_To : forall grow E rd wr t s v data, machine t ->
  has_nil (arrs E s) -> slice_holds (arrs E s) v data -> Forall is_byte data -> zlen data < int_limit t -> forall r s',
  calls grow E rd wr prog_cp949 "To" [v] s r s' <-> calls grow E rd wr (compiled t prog_cp949) "To" [v] s r s'.
Proof. exact platform_To. Qed.
Print Assumptions C118_platform_To.
Theorem C118_platform_Decoder : forall grow E rd wr t s p vdst dst vsrc src eof, machine t ->
  has_nil (arrs E s) -> slice_holds (arrs E s) vdst dst -> slice_holds (arrs E s) vsrc src -> Forall is_byte src ->
  4 * zlen src <= int_limit t -> forall r s',
  calls grow E rd wr prog_cp949 "cp949Decoder.Transform" [VPtr p; vdst; vsrc; VBool eof] s r s' <->
  calls grow E rd wr (compiled t prog_cp949) "cp949Decoder.Transform" [VPtr p; vdst; vsrc; VBool eof] s r s'.
Proof. exact platform_Decoder. Qed.
Print Assumptions C118_platform_Decoder.
Theorem C118_platform_Encoder : forall grow E rd wr t s p vdst dst vsrc src eof, machine t ->
  has_nil (arrs E s) -> slice_holds (arrs E s) vdst dst -> slice_holds (arrs E s) vsrc src -> Forall is_byte src ->
  zlen src < int_limit t -> forall r s',
  calls grow E rd wr prog_cp949 "cp949Encoder.Transform" [VPtr p; vdst; vsrc; VBool eof] s r s' <->
  calls grow E rd wr (compiled t prog_cp949) "cp949Encoder.Transform" [VPtr p; vdst; vsrc; VBool eof] s r s'.
Proof. exact platform_Encoder. Qed.
Print Assumptions C118_platform_Encoder.
Theorem C118_platform_Reader : forall grow E rd wr t k, machine t -> (forall x n, Forall is_byte (snd (fst (fst (rd k x n))))) ->
  forall rd1 A O X stream rs e evs, reports (rd k) rd1 ->
  has_nil A -> delivers rd1 X stream e -> decodes stream rs -> sensible 1 (map zlen A) evs ->
  4 * zlen stream <= int_limit t -> Forall (fun n => 4 * n <= int_limit t) (sizes evs) ->
  exists p s0 outs own s,
    calls grow E rd wr (compiled t prog_cp949) "NewReader" [VExt k] (mkState E A O X) (VTuple [VPtr p; VErr None]) s0 /\ arrs E s0 = A /\
    reads grow E rd wr (compiled t prog_cp949) p (seq 0 (length A)) s0 evs outs own s /\
    map (array (arrs E s)) own = after_reads A evs outs /\ served e (utf8 rs) (sizes evs) outs.
Proof. exact platform_Reader. Qed.
Print Assumptions C118_platform_Reader.
(** Whatever the wrapped reader does: the results are those of the model. *)
Theorem C118_platform_Reader_any : forall grow E rd wr t k, machine t -> (forall x n, Forall is_byte (snd (fst (fst (rd k x n))))) ->
  forall A O X D fuel evs outs r', supplies (rd k) X D -> 0 <= D -> 4 * D <= int_limit t ->
  Forall (fun n => 4 * n <= int_limit t) (sizes evs) ->
  has_nil A -> sensible 0 (map zlen A) evs -> model_reads grow E rd k fuel (NewReader X) (sizes evs) outs r' ->
  exists p s0 own s,
    calls grow E rd wr (compiled t prog_cp949) "NewReader" [VExt k] (mkState E A O X) (VTuple [VPtr p; VErr None]) s0 /\ arrs E s0 = A /\
    reads grow E rd wr (compiled t prog_cp949) p (seq 0 (length A)) s0 evs outs own s /\
    map (array (arrs E s)) own = after_reads A evs outs /\ ext E s = r_src _ r'.
Proof. exact platform_Reader_any. Qed.
Print Assumptions C118_platform_Reader_any.
Theorem C118_platform_Writer : exists f, char_code f /\
  forall t grow E rd wr k A O X evs, machine t ->
  has_nil A -> Forall (Forall is_byte) A -> Forall event_bytes evs -> sensible 0 (map zlen A) evs ->
  Forall (fun n => n < int_limit t) (sizes evs) ->
  exists p s0 pairs own s,
    calls grow E rd wr (compiled t prog_cp949) "NewWriter" [VExt k] (mkState E A O X) (VTuple [VPtr p; VErr None]) s0 /\ arrs E s0 = A /\
    map fst pairs = chunks A evs /\
    Forall (fun q => exists rs, reads_as (fst q) rs /\ snd q = flat_map f rs) pairs /\
    let expected := writes_spec (fun x bs => let '(_, e, x') := wr k x bs in (e, x')) X pairs in
    writes grow E rd wr (compiled t prog_cp949) p (seq 0 (length A)) s0 evs (fst expected) own s /\
    map (array (arrs E s)) own = after_writes A evs /\ ext E s = snd expected.
Proof. exact platform_Writer. Qed.
Print Assumptions C118_platform_Writer.
(* the compiled functions are others, and 32-bit ints overflow *)
Example C118_compiled :
  func_as Int32 f_appendRune <> f_appendRune /\ wrap Int32 (0x7fffffff + 1) = -0x80000000 /\
  wrap Int64 (0x7fffffffffffffff + 1) = -0x8000000000000000 /\ machine Int32 /\ machine Int64.
Proof.
  split; [discriminate|]. split; [reflexivity|]. split; [reflexivity|]. split; [left; reflexivity|right; reflexivity].
Qed.
Definition out_only {E} (x : res (val * state E)) : option (val * list (list Z)) :=
  match x with Ok (v, s) => Some (v, arrs E s) | _ => None end.
(* decoding 가A and counting strokes of 한 on a 32-bit machine *)
Example C118_case :
  slice_holds [[]; [0xB0; 0xA1; 0x41]] (VSlice 1 0 3 3) [0xB0; 0xA1; 0x41] /\
  out_only (run (fun old need => Z.max need (2 * old)) unit (fun _ x _ => (0, [], Some EOF, x)) (fun _ x bs => (zlen bs, None, x))
    (compiled Int32 prog_cp949) 30 "From" [VSlice 1 0 3 3] (mkState unit [[]; [0xB0; 0xA1; 0x41]] [] tt)) =
    Some (VTuple [VSlice 2 0 4 4; VErr None], [[]; [0xB0; 0xA1; 0x41]; utf8 [0xAC00; 0x41]]) /\
  exists s, run (fun old need => Z.max need (2 * old)) unit (fun _ x _ => (0, [], Some EOF, x)) (fun _ x bs => (zlen bs, None, x))
    (compiled Int32 prog_hangul) 9 "Stroke" [VInt 0xD55C] (mkState unit ([] :: map snd m_multiElements) [] tt) = Ok (VInt 6, s).
Proof.
  split; [cbn; repeat split; lia|]. split; [vm_compute; reflexivity|]. eexists. vm_compute. reflexivity.
Qed.
(* a wrapped reader that reports at most the bytes it has *)
Example C118_supply : supplies (noisy_rd 0) [0xB0; 0xA1; 0x41] 3.
Proof.
  exists (fun x d => zlen x = d). split; [reflexivity|]. intros x d k <- Hk. unfold noisy_rd, wire_rd, bytes_rd.
  destruct x as [|b x].
  { destruct (0 <? k); cbn; (split; [lia|]); [discriminate|]. intros _ H. now elim H. }
  assert (H0 : zlen (map (fun b => b mod 256) (ztake k (b :: x))) <= zlen (b :: x)).
  { unfold zlen, ztake. rewrite map_length, firstn_length. lia. }
  split; [exact H0|]. intros _ _. unfold zlen, ztake, zdrop. rewrite map_length, firstn_length, skipn_length. lia.
Qed.
