(** Properties of how much memory the sources allocate when they are executed (GoSource.v,
    GoLang.v).  [allocated] counts every byte of every array ever made, so it also counts what
    the garbage collector would have freed in the meantime (MemorySpec.v). *)
From Coq Require Import String ZArith List Bool Lia.
From Verif Require Import Base Spec SpecCp949 SpecIO Utf8 SortSearch Cp949Model StreamModel IoModel
  GoLang GoSource GoPlatform Cp949Facts2 SourceSpec SourceFacts SourceFacts2 MemorySpec MemoryFacts PropSource.
Import ListNotations.
Local Open Scope list_scope.
Local Open Scope Z_scope.
Local Open Scope go_scope.

(** * C120 From and To allocate in proportion to their input *)
Theorem C120_From : forall grow, amortised grow -> forall E rd wr s v data,
  has_nil (arrs E s) -> slice_holds (arrs E s) v data -> Forall is_byte data ->
  exists r s', calls grow E rd wr prog_cp949 "From" [v] s r s' /\
    allocated (arrs E s') <= allocated (arrs E s) + 36 * zlen data + 384.
Proof. exact C120_From_lemma. Qed.
Print Assumptions C120_From.
Theorem C120_To : forall grow, amortised grow -> forall E rd wr s v data,
  has_nil (arrs E s) -> slice_holds (arrs E s) v data -> Forall is_byte data ->
  exists r s', calls grow E rd wr prog_cp949 "To" [v] s r s' /\
    allocated (arrs E s') <= allocated (arrs E s) + 36 * zlen data + 384.
Proof. exact C120_To_lemma. Qed.
Print Assumptions C120_To.
(** Go's own choice of capacities is one of those meant. *)
Theorem C120_runtime : amortised runtime_grow.
Proof. exact runtime_grow_amortised. Qed.
Print Assumptions C120_runtime.
Definition used (x : res (val * state unit)) : option Z :=
  match x with Ok (_, s) => Some (allocated (arrs unit s)) | _ => None end.
Definition letters (n : nat) : list Z := repeat 0x41 n.
Definition call_on grow f data := used (run grow unit no_rd no_wr prog_cp949 (60 + length data) f
  [VSlice 1 0 (zlen data) (zlen data)] (mkState unit [[]; data] [] tt)).
(** 20 letters: 20 bytes of the caller's and 63 of the function's.  A runtime that gave every
    append exactly the capacity it needs would need 210 bytes, so the condition matters. *)
Example C120_case : call_on runtime_grow "From" (letters 20) = Some (20 + 63) /\
  call_on runtime_grow "To" (letters 20) = Some (20 + 63) /\
  call_on (fun _ n => n) "From" (letters 20) = Some (20 + 210) /\ ~ amortised (fun _ n => n).
Proof.
  split; [vm_compute; reflexivity|]. split; [vm_compute; reflexivity|]. split; [vm_compute; reflexivity|].
  intros H. destruct (H 7 8 ltac:(lia)) as [H1 _]. revert H1. vm_compute. intros H1. apply H1. reflexivity.
Qed.

(** * C121 A Writer needs memory for its longest Write only *)
Theorem C121_Writer : forall grow, amortised grow -> forall E rd wr k A O X evs W,
  has_nil A -> Forall (Forall is_byte) A -> Forall event_bytes evs -> sensible 0 (map zlen A) evs ->
  Forall (fun d => zlen d <= W) (chunks A evs) -> 0 <= W ->
  exists p s0 outs own s,
    calls grow E rd wr prog_cp949 "NewWriter" [VExt k] (mkState E A O X) (VTuple [VPtr p; VErr None]) s0 /\ arrs E s0 = A /\
    writes grow E rd wr prog_cp949 p (seq 0 (length A)) s0 evs outs own s /\
    allocated (arrs E s) <= allocated A + own_bytes evs + 36 * W + 384.
Proof. exact C121_lemma. Qed.
Print Assumptions C121_Writer.
(** A hundred Writes of three bytes each: the same bound as for one. *)
Example C121_case : let evs := repeat (Use 1 0 3 3) 100 in let A := [[]; [0xEA; 0xB0; 0x80]] in
  sensible 0 (map zlen A) evs /\ zlen (chunks A evs) = 100 /\ Forall (fun d => zlen d <= 3) (chunks A evs) /\ own_bytes evs = 0.
Proof.
  cbn. split; [repeat split; exists 3; repeat split; lia|]. split; [reflexivity|]. split; [|reflexivity].
  repeat (apply Forall_cons; [vm_compute; discriminate|]). apply Forall_nil.
Qed.

(** * C122 A Reader needs memory for its largest Read only: false *)
Theorem C122_Reader_refuted :
  exists (E : Type) (rd1 : E -> Z -> list Z * option error * E) (rd : nat -> E -> Z -> Z * list Z * option error * E),
  reports (rd 0%nat) rd1 /\ forall M, exists X stream rs, delivers rd1 X stream EOF /\ decodes stream rs /\
  forall grow wr A O h o n c, has_nil A -> sensible 2 (map zlen A) [Use h o n c] ->
  exists p s0 outs own s,
    calls grow E rd wr prog_cp949 "NewReader" [VExt 0] (mkState E A O X) (VTuple [VPtr p; VErr None]) s0 /\ arrs E s0 = A /\
    reads grow E rd wr prog_cp949 p (seq 0 (length A)) s0 [Use h o n c] outs own s /\
    M < allocated (arrs E s) - allocated A.
Proof. exact C122_refuted_lemma. Qed.
Print Assumptions C122_Reader_refuted.
(** It is true if every piece of the stream consists of whole characters. *)
Theorem C122_Reader_whole_partial : forall grow, amortised grow -> forall E rd wr k,
  (forall x n, Forall is_byte (snd (fst (fst (rd k x n))))) ->
  forall rd1, (forall x n, 2 <= n -> zlen (fst (fst (rd1 x n))) <= n /\ exists rs, decodes (fst (fst (rd1 x n))) rs) ->
  forall B A O X evs, reports (rd k) rd1 -> has_nil A -> sensible 2 (map zlen A) evs -> 0 <= B ->
  Forall (fun n => n <= B) (sizes evs) ->
  exists p s0 outs own s,
    calls grow E rd wr prog_cp949 "NewReader" [VExt k] (mkState E A O X) (VTuple [VPtr p; VErr None]) s0 /\ arrs E s0 = A /\
    reads grow E rd wr prog_cp949 p (seq 0 (length A)) s0 evs outs own s /\
    allocated (arrs E s) <= allocated A + own_bytes evs + 84 * B + 384.
Proof. exact C122_whole_lemma. Qed.
Print Assumptions C122_Reader_whole_partial.
(** In any case, memory in proportion to the stream and the largest Read is enough. *)
Theorem C122_Reader_stream_partial : forall grow, amortised grow -> forall E rd wr k,
  (forall x n, Forall is_byte (snd (fst (fst (rd k x n))))) ->
  forall rd1 A O X stream rs e B evs, reports (rd k) rd1 -> has_nil A -> delivers rd1 X stream e -> decodes stream rs ->
  sensible 1 (map zlen A) evs -> 0 <= B -> Forall (fun n => n <= B) (sizes evs) ->
  exists p s0 outs own s,
    calls grow E rd wr prog_cp949 "NewReader" [VExt k] (mkState E A O X) (VTuple [VPtr p; VErr None]) s0 /\ arrs E s0 = A /\
    reads grow E rd wr prog_cp949 p (seq 0 (length A)) s0 evs outs own s /\ served e (utf8 rs) (sizes evs) outs /\
    allocated (arrs E s) <= allocated A + own_bytes evs + 48 * zlen stream + 12 * B + 384.
Proof. exact C122_stream_lemma. Qed.
Print Assumptions C122_Reader_stream_partial.
(** The same for streams that are cut, for wrapped readers that report wrong counts, and so on:
    whatever the Reads of the model are, those of the sources are, within that bound. *)
Theorem C122_Reader_any_partial : forall grow, amortised grow -> forall E rd wr k,
  (forall x n, Forall is_byte (snd (fst (fst (rd k x n))))) ->
  forall A O X D B fuel evs outs r', supplies (rd k) X D -> 0 <= D -> 0 <= B ->
  Forall (fun n => n <= B) (sizes evs) -> has_nil A -> sensible 0 (map zlen A) evs ->
  model_reads grow E rd k fuel (NewReader X) (sizes evs) outs r' ->
  exists p s0 own s,
    calls grow E rd wr prog_cp949 "NewReader" [VExt k] (mkState E A O X) (VTuple [VPtr p; VErr None]) s0 /\ arrs E s0 = A /\
    reads grow E rd wr prog_cp949 p (seq 0 (length A)) s0 evs outs own s /\
    allocated (arrs E s) <= allocated A + own_bytes evs + 48 * D + 12 * B + 384.
Proof. exact C122_any_lemma. Qed.
Print Assumptions C122_Reader_any_partial.
(** A reader that hands out one syllable at a time meets the condition of C122_Reader_whole_partial. *)
Example C122_case : (forall x n, 2 <= n -> zlen (fst (fst (syllables x n))) <= n /\ exists rs, decodes (fst (fst (syllables x n))) rs) /\
  sensible 2 (map zlen [[]; [0; 0; 0; 0]]) [Use 1 0 4 4; Use 1 1 2 3] /\ sizes [Use 1 0 4 4; Use 1 1 2 3] = [4; 2].
Proof.
  split; [|cbn; split; [repeat split; exists 4; repeat split; lia|reflexivity]].
  intros [|x] n Hn; cbn; (split; [lia|]).
  - exists []. constructor.
  - exists [0xAC00]. apply dec_code; [lia|lia|apply assigned_by; vm_compute; reflexivity|constructor].
Qed.

(** * C123 A Writer with a large enough buffer allocates nothing *)
Theorem C123_Writer_steady : forall grow E rd wr k A O X evs1 evs2,
  has_nil A -> Forall (Forall is_byte) A -> Forall event_bytes (evs1 ++ evs2) ->
  sensible 0 (map zlen A) evs1 -> sensible 0 (map zlen (after_writes A evs1)) evs2 ->
  (forall d2 bs2, In d2 (chunks (after_writes A evs1) evs2) -> To grow d2 = Ok (inl bs2) ->
     exists d1 bs1, In d1 (chunks A evs1) /\ To grow d1 = Ok (inl bs1) /\ zlen bs2 <= zlen bs1) ->
  exists p s0 outs1 own1 s1 outs2 own2 s2,
    calls grow E rd wr prog_cp949 "NewWriter" [VExt k] (mkState E A O X) (VTuple [VPtr p; VErr None]) s0 /\ arrs E s0 = A /\
    writes grow E rd wr prog_cp949 p (seq 0 (length A)) s0 evs1 outs1 own1 s1 /\
    writes grow E rd wr prog_cp949 p own1 s1 evs2 outs2 own2 s2 /\
    allocated (arrs E s2) = allocated (arrs E s1) + own_bytes evs2.
Proof. exact C123_lemma. Qed.
Print Assumptions C123_Writer_steady.
(** After a Write of "가A", Writes of "가" and of "AA" allocate nothing. *)
Example C123_case : let evs1 := [Use 1 0 4 4] in let evs2 := [Use 1 0 3 3; Store 1 [0x41; 0x41; 0; 0]; Use 1 0 2 2] in
  let A := [[]; [0xEA; 0xB0; 0x80; 0x41]] in
  sensible 0 (map zlen A) evs1 /\ sensible 0 (map zlen (after_writes A evs1)) evs2 /\
  chunks A evs1 = [[0xEA; 0xB0; 0x80; 0x41]] /\ chunks (after_writes A evs1) evs2 = [[0xEA; 0xB0; 0x80]; [0x41; 0x41]] /\
  (forall d2 bs2, In d2 (chunks (after_writes A evs1) evs2) -> To double d2 = Ok (inl bs2) ->
     exists d1 bs1, In d1 (chunks A evs1) /\ To double d1 = Ok (inl bs1) /\ zlen bs2 <= zlen bs1).
Proof.
  cbn [after_writes chunks]. split; [cbn; repeat split; exists 4; repeat split; lia|].
  split; [cbn; repeat split; exists 4; repeat split; lia|]. split; [reflexivity|]. split; [reflexivity|].
  intros d2 bs2 Hi Hto. eexists _, [0xB0; 0xA1; 0x41]. split; [left; reflexivity|]. split; [vm_compute; reflexivity|].
  cbn [In] in Hi. destruct Hi as [<-|[<-|[]]]; vm_compute in Hto; injection Hto as <-; cbn; lia.
Qed.
