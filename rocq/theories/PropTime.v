(** Properties of how many steps the sources take when they are executed (GoSource.v, GoLang.v,
    GoTime.v). *)
From Coq Require Import String ZArith List Bool Lia.
From Verif Require Import Base Spec SpecCp949 SpecIO Utf8 SortSearch TableFrom TableTo Cp949Model StreamModel IoModel
  GoLang GoSource GoTime GoPlatform SourceSpec MemorySpec MemoryFacts TimeSpec TimeCp949 TimeStream TimeReader2 TimeLower2 TimeHangul TimeHanja SpecText2 SpecWork HangulModel EmptyFacts SourceFacts2 Cp949Facts2 PropSource PropMemory.
Import ListNotations.
Local Open Scope list_scope.
Local Open Scope Z_scope.
Local Open Scope go_scope.

(** * C128 From and To take time in proportion to their input *)
Theorem C128_From : forall grow, amortised grow -> forall E rd wr s v data,
  has_nil (arrs E s) -> slice_holds (arrs E s) v data -> Forall is_byte data -> package_tables E s ->
  exists r s', calls grow E rd wr prog_cp949 "From" [v] s r s' /\
    takes grow E rd wr prog_cp949 "From" [v] s (681 * zlen data + 2561).
Proof. exact C128_From_lemma. Qed.
Print Assumptions C128_From.
Theorem C128_To : forall grow, amortised grow -> forall E rd wr s v data,
  has_nil (arrs E s) -> slice_holds (arrs E s) v data -> Forall is_byte data -> package_tables E s ->
  exists r s', calls grow E rd wr prog_cp949 "To" [v] s r s' /\
    takes grow E rd wr prog_cp949 "To" [v] s (541 * zlen data + 2421).
Proof. exact C128_To_lemma. Qed.
Print Assumptions C128_To.
Definition steps_on grow f data := run_steps grow unit no_rd no_wr prog_cp949 (60 + length data) f
  [VSlice 1 0 (zlen data) (zlen data)] (mkState unit [[]; data] [] tt).
(** 20, 80 and 320 letters, and 10 syllables of two and of three bytes. *)
Example C128_case : map (fun n => steps_on runtime_grow "From" (letters n)) [20; 80; 320]%nat = [839; 3189; 12595] /\
  steps_on runtime_grow "From" (concat (repeat [0xB0; 0xA1] 10)) <= 681 * 20 + 2561 /\
  steps_on runtime_grow "To" (concat (repeat [0xEA; 0xB0; 0x80] 10)) <= 541 * 30 + 2421 /\
  package_tables unit (mkState unit [[]; letters 20] [] tt) /\
  slice_holds [[]; letters 20] (VSlice 1 0 20 20) (letters 20).
Proof.
  split; [vm_compute; reflexivity|]. split; [vm_compute; discriminate|]. split; [vm_compute; discriminate|].
  split; [apply Forall_nil|]. cbn. repeat split; lia.
Qed.
(** The condition on append matters: with no spare capacity every letter would copy all the
    letters before it, and four times as many letters would take ten times as long. *)
Example C128_exact : map (fun n => steps_on (fun _ n => n) "From" (letters n)) [20; 80; 320]%nat = [972; 6102; 62622].
Proof. vm_compute. reflexivity. Qed.

(** * C129 Transform and Write take time in proportion to their input *)
Theorem C129_Decoder : forall grow E rd wr, amortised grow -> forall s d dst src eof old data,
  has_nil (arrs E s) -> slice_holds (arrs E s) dst old -> slice_holds (arrs E s) src data -> Forall is_byte data ->
  package_tables E s ->
  exists r s', calls grow E rd wr prog_cp949 "cp949Decoder.Transform" [VPtr d; dst; src; VBool eof] s r s' /\
    takes grow E rd wr prog_cp949 "cp949Decoder.Transform" [VPtr d; dst; src; VBool eof] s (717 * zlen data + 3005).
Proof. exact C129_Decoder_lemma. Qed.
Print Assumptions C129_Decoder.
Theorem C129_Encoder : forall grow E rd wr, amortised grow -> forall s d dst src eof old data,
  has_nil (arrs E s) -> slice_holds (arrs E s) dst old -> slice_holds (arrs E s) src data -> Forall is_byte data ->
  package_tables E s ->
  exists r s', calls grow E rd wr prog_cp949 "cp949Encoder.Transform" [VPtr d; dst; src; VBool eof] s r s' /\
    takes grow E rd wr prog_cp949 "cp949Encoder.Transform" [VPtr d; dst; src; VBool eof] s (577 * zlen data + 2865).
Proof. exact C129_Encoder_lemma. Qed.
Print Assumptions C129_Encoder.
(** All Writes of a client together; [W] is the length of the longest. *)
Theorem C129_Writer : forall grow, amortised grow -> forall E rd wr k A O X evs W,
  has_nil A -> Forall (Forall is_byte) A -> Forall event_bytes evs -> sensible 0 (map zlen A) evs ->
  Forall (fun d => zlen d <= W) (chunks A evs) -> 0 <= W -> package_tables E (mkState E A O X) ->
  exists p s0 outs own s t,
    calls grow E rd wr prog_cp949 "NewWriter" [VExt k] (mkState E A O X) (VTuple [VPtr p; VErr None]) s0 /\ arrs E s0 = A /\
    writes grow E rd wr prog_cp949 p (seq 0 (length A)) s0 evs outs own s /\
    writes_take grow E rd wr prog_cp949 p (seq 0 (length A)) s0 evs t /\
    t <= 361 * all_bytes evs + 561 * zlen (sizes evs) + 180 * W + 1920.
Proof. exact C129_Writer_lemma. Qed.
Print Assumptions C129_Writer.
(** A call of the Decoder's Transform on 20 letters, and one with a destination that is too small. *)
Definition transform_steps room data := run_steps runtime_grow unit no_rd no_wr prog_cp949 (60 + length data) "cp949Decoder.Transform"
  [VPtr 0; VSlice 2 0 room 100; VSlice 1 0 (zlen data) (zlen data); VBool true] (mkState unit [[]; data; zeros 100] [] tt).
Example C129_case : transform_steps 100 (letters 20) = 888 /\ transform_steps 5 (letters 20) = 873 /\ 888 <= 717 * 20 + 3005.
Proof. split; [vm_compute; reflexivity|]. split; [vm_compute; reflexivity|]. discriminate. Qed.
(** The hypotheses about the client's events are those of C121; a hundred Writes of three bytes
    are 300 bytes in 100 calls. *)
Example C129_events : let evs := repeat (Use 1 0 3 3) 100 in all_bytes evs = 300 /\ zlen (sizes evs) = 100 /\
  sensible 0 (map zlen [[]; [0xEA; 0xB0; 0x80]]) evs.
Proof. cbn. split; [reflexivity|]. split; [reflexivity|]. apply C121_case. Qed.

(** * C130 The functions of packages hangul and hanja take constant time per character and
    time in proportion to the length of a word *)
Theorem C130_characters : forall grow E rd wr s r,
  Forall (fun p => answers grow E rd wr prog_hangul (fst p) [VInt r] s (snd p))
    [("IsLead", 14); ("IsMedial", 14); ("IsTail", 14); ("IsJaeum", 48); ("IsMoeum", 31); ("IsHangul", 99);
     ("CompatJamo", 39); ("Lead", 23); ("Medial", 26); ("Tail", 23); ("Split", 57); ("SplitCompat", 203);
     ("SplitMultiElement", 54); ("Stroke", 669)]%string.
Proof. exact C130_character_lemma. Qed.
Print Assumptions C130_characters.
Theorem C130_Join : forall grow E rd wr s l m t, answers grow E rd wr prog_hangul "Join" [VInt l; VInt m; VInt t] s 230.
Proof. exact C130_Join_lemma. Qed.
Print Assumptions C130_Join.
Theorem C130_words : forall grow E rd wr s w, Forall is_byte w ->
  answers grow E rd wr prog_hangul "LastConsonant" [VStr w] s (2 * zlen w + 90) /\
  answers grow E rd wr prog_hangul "EndsWithConsonant" [VStr w] s (2 * zlen w + 105) /\
  forall p q, answers grow E rd wr prog_hangul "AppendPostposition" [VStr w; VStr p; VStr q] s (3 * zlen w + zlen p + zlen q + 140).
Proof. exact C130_word_lemma. Qed.
Print Assumptions C130_words.
Theorem C130_hanja : forall grow E rd wr s,
  (forall c, answers grow E rd wr prog_hanja "IsHanja" [VInt c] s 10) /\
  (forall h, answers grow E rd wr prog_hanja "Convert" [VStr h] s (22 * zlen h + 20)).
Proof. exact C130_hanja_lemma. Qed.
Print Assumptions C130_hanja.
(** A syllable whose three letters are looked up, a word of two syllables, and a mixed text. *)
Definition hangul_state := mkState unit ([] :: map snd multiElements) [] tt.
Example C130_case :
  run_steps runtime_grow unit no_rd no_wr prog_hangul 9 "Stroke" [VInt 0xAC01] hangul_state = 369 /\
  run_steps runtime_grow unit no_rd no_wr prog_hangul 9 "Stroke" [VInt 0xB22B] hangul_state = 399 /\
  run_steps runtime_grow unit no_rd no_wr prog_hangul 9 "LastConsonant" [VStr [0xEA; 0xB0; 0x80; 0xEA; 0xB0; 0x81]] hangul_state = 90 /\
  run_steps runtime_grow unit no_rd no_wr prog_hanja 9 "Convert" [VStr [0xE5; 0xA4; 0xA7; 0x41]] hangul_state = 50.
Proof. vm_compute. auto. Qed.

(** * C131 How many steps a Reader takes
    By what it converts ([reads_work], see C127): *)
Theorem C131_Reader_work : forall grow E rd wr k, (forall x n, Forall is_byte (snd (fst (fst (rd k x n))))) ->
  forall rd1 A O X fuel evs r' wss, reports (rd k) rd1 -> has_nil A -> package_tables E (mkState E A O X) ->
  sensible 0 (map zlen A) evs -> reads_work grow E rd1 fuel (NewReader X) (sizes evs) = Ok (r', wss) ->
  exists p s0 outs own s t,
    calls grow E rd wr prog_cp949 "NewReader" [VExt k] (mkState E A O X) (VTuple [VPtr p; VErr None]) s0 /\ arrs E s0 = A /\
    reads grow E rd wr prog_cp949 p (seq 0 (length A)) s0 evs outs own s /\
    reads_take grow E rd wr prog_cp949 p (seq 0 (length A)) s0 evs t /\
    t <= 502 * total (concat wss) + 1000 * zlen (concat wss) + zlen (concat (map fst outs)) + 80 * zlen (sizes evs) +
         5 * (allocated (arrs E s) - allocated A - own_bytes evs).
Proof. exact C131_work_lemma. Qed.
Print Assumptions C131_Reader_work.
(** All Reads of a client together: at most in proportion to the square of the length of the
    stream, plus the number of Reads and the largest of them, [B]. *)
Theorem C131_Reader_stream : forall grow E rd wr k, (forall x n, Forall is_byte (snd (fst (fst (rd k x n))))) ->
  amortised grow -> forall rd1, reports (rd k) rd1 -> forall A O X stream rs e B evs,
  has_nil A -> package_tables E (mkState E A O X) -> delivers rd1 X stream e -> decodes stream rs ->
  sensible 1 (map zlen A) evs -> 0 <= B -> Forall (fun n => n <= B) (sizes evs) ->
  exists p s0 outs own s t,
    calls grow E rd wr prog_cp949 "NewReader" [VExt k] (mkState E A O X) (VTuple [VPtr p; VErr None]) s0 /\ arrs E s0 = A /\
    reads grow E rd wr prog_cp949 p (seq 0 (length A)) s0 evs outs own s /\ served e (utf8 rs) (sizes evs) outs /\
    reads_take grow E rd wr prog_cp949 p (seq 0 (length A)) s0 evs t /\
    t <= 502 * zlen stream * zlen stream + 1744 * zlen stream + 80 * zlen (sizes evs) + 60 * B + 2920.
Proof. exact C131_stream_lemma. Qed.
Print Assumptions C131_Reader_stream.
(** In proportion to the text if the wrapped reader hands out whole characters. *)
Theorem C131_Reader_whole : forall grow E rd wr k, (forall x n, Forall is_byte (snd (fst (fst (rd k x n))))) ->
  amortised grow -> forall rd1, reports (rd k) rd1 -> forall A O X rs e B evs,
  has_nil A -> package_tables E (mkState E A O X) -> delivers_chars rd1 X rs e ->
  sensible 2 (map zlen A) evs -> 0 <= B -> Forall (fun n => n <= B) (sizes evs) ->
  exists p s0 outs own s t,
    calls grow E rd wr prog_cp949 "NewReader" [VExt k] (mkState E A O X) (VTuple [VPtr p; VErr None]) s0 /\ arrs E s0 = A /\
    reads grow E rd wr prog_cp949 p (seq 0 (length A)) s0 evs outs own s /\ served e (utf8 rs) (sizes evs) outs /\
    reads_take grow E rd wr prog_cp949 p (seq 0 (length A)) s0 evs t /\
    t <= 2488 * zlen rs + 80 * zlen (sizes evs) + 60 * B + 3924.
Proof. exact C131_whole_lemma. Qed.
Print Assumptions C131_Reader_whole.
(** Five Reads of two bytes of two syllables; the steps of the first. *)
Definition plain {E} (rd1 : E -> Z -> list Z * option error * E) (k : nat) (x : E) (n : Z) : Z * list Z * option error * E :=
  let '(bs, err, x') := rd1 x n in (zlen bs, bs, err, x').
Definition first_read {E} (rd1 : E -> Z -> list Z * option error * E) (X : E) (n : Z) : Z :=
  let wr (k : nat) (x : E) (bs : list Z) := (zlen bs, None, x) in
  match run runtime_grow E (plain rd1) wr prog_cp949 9 "NewReader" [VExt 0] (mkState E [[]; zeros n] [] X) with
  | Ok (VTuple [VPtr p; _], s) => run_steps runtime_grow E (plain rd1) wr prog_cp949 99 "cp949Reader.Read" [VPtr p; VSlice 1 0 n n] s
  | _ => 0
  end.
Example C131_case : let evs := repeat (Use 1 0 2 2) 5 in
  sensible 2 (map zlen [[]; [0; 0]]) evs /\ sizes evs = [2; 2; 2; 2; 2] /\
  reports (plain syllables 0) syllables /\ (forall x n, Forall is_byte (snd (fst (fst (plain syllables 0 x n))))) /\
  delivers_chars syllables 2%nat [0xAC00; 0xAC00] EOF /\
  (exists r, reads_work runtime_grow _ syllables 9 (NewReader 2%nat) (sizes evs) = Ok (r, [[2]; []; [2]; []; [0]])) /\
  package_tables nat (mkState nat [[]; [0; 0]] [] 2%nat) /\ first_read syllables 2%nat 2 = 547.
Proof.
  cbn zeta. split; [repeat split; exists 2; repeat split; cbn; lia|]. split; [reflexivity|].
  split; [intros [|x] n; exists []; reflexivity|]. split; [intros [|x] n; repeat constructor; lia|].
  split; [exact (syllables_deliver 2)|]. split; [eexists; vm_compute; reflexivity|]. split; [constructor|].
  vm_compute. reflexivity.
Qed.
Example C131_stream_case : let evs := repeat (Use 1 1 2 3) 4 in
  sensible 1 (map zlen [[]; [0; 0; 0; 0]]) evs /\ Forall (fun n => n <= 2) (sizes evs) /\
  (forall x n, Forall is_byte (snd (fst (fst (noisy_rd 0 x n))))) /\ reports (noisy_rd 0) wire_rd /\
  delivers wire_rd [0xB0; 0xA1; 0x41] [0xB0; 0xA1; 0x41] EOF /\ decodes [0xB0; 0xA1; 0x41] [0xAC00; 0x41] /\
  package_tables (list Z) (mkState _ [[]; [0; 0; 0; 0]] [] [0xB0; 0xA1; 0x41]) /\ amortised runtime_grow.
Proof.
  cbn zeta. split; [repeat split; exists 4; repeat split; cbn; lia|]. split; [repeat constructor; cbn; lia|].
  split; [apply noisy_rd_bytes|]. split; [apply noisy_rd_reports|].
  split; [apply wire_rd_delivers; repeat constructor; unfold is_byte; lia|].
  split; [apply dec_code; [lia|lia|apply assigned_by; vm_compute; reflexivity|apply dec_ascii; [lia|constructor]]|].
  split; [constructor|]. exact C120_runtime.
Qed.

(** * C132 A Reader takes time in proportion to the stream *)
(** A single Read, over a wrapped reader whose pieces end inside characters: more than [c] steps per
    byte of the stream and of the buffer. *)
Theorem C132_Reader_linear_refuted : exists (E : Type) (rd1 : E -> Z -> list Z * option error * E) (rd : nat -> E -> Z -> Z * list Z * option error * E),
  reports (rd 0%nat) rd1 /\ forall c n, 0 <= c -> 2 <= n -> exists X stream rs, delivers rd1 X stream EOF /\ decodes stream rs /\
  forall grow wr A O h o cp, has_nil A -> sensible 2 (map zlen A) [Use h o n cp] ->
  exists p s0 outs own s,
    calls grow E rd wr prog_cp949 "NewReader" [VExt 0] (mkState E A O X) (VTuple [VPtr p; VErr None]) s0 /\ arrs E s0 = A /\
    reads grow E rd wr prog_cp949 p (seq 0 (length A)) s0 [Use h o n cp] outs own s /\
    forall t, reads_take grow E rd wr prog_cp949 p (seq 0 (length A)) s0 [Use h o n cp] t -> c * (zlen stream + n + 1) < t.
Proof. exact C132_refuted_lemma. Qed.
Print Assumptions C132_Reader_linear_refuted.
(** Reads take at least as many steps as they hand bytes to the conversion, the last conversion of each
    Read left out. With C131 this fixes the number of steps up to a factor. *)
Theorem C132_Reader_least_partial : forall grow E rd wr k, (forall x n, Forall is_byte (snd (fst (fst (rd k x n))))) ->
  forall rd1 A O X fuel evs r' wss, reports (rd k) rd1 -> has_nil A -> sensible 0 (map zlen A) evs ->
  reads_work grow E rd1 fuel (NewReader X) (sizes evs) = Ok (r', wss) ->
  exists p s0, calls grow E rd wr prog_cp949 "NewReader" [VExt k] (mkState E A O X) (VTuple [VPtr p; VErr None]) s0 /\ arrs E s0 = A /\
    forall t, reads_take grow E rd wr prog_cp949 p (seq 0 (length A)) s0 evs t -> total (map (fun ws => total ws - last ws 0) wss) <= t.
Proof. exact C132_least_lemma. Qed.
Print Assumptions C132_Reader_least_partial.
(** Four syllables, cut in their middle: 1 + 3 + 5 + 7 bytes are converted in vain. *)
Example C132_case :
  sensible 2 (map zlen [[]; [0; 0]]) [Use 1 0 2 2] /\ reports (plain half_rd 0) half_rd /\
  (forall x n, Forall is_byte (snd (fst (fst (plain half_rd 0 x n))))) /\
  (exists r, reads_work runtime_grow _ half_rd 9 (NewReader (false, 4%nat)) [2] = Ok (r, [[1; 3; 5; 7; 8]])) /\
  total (map (fun ws => total ws - last ws 0) [[1; 3; 5; 7; 8]]) = 16 /\
  first_read half_rd (false, 4%nat) 2 = 4377.
Proof.
  split; [repeat split; exists 2; repeat split; cbn; lia|].
  split; [intros x n; unfold plain; destruct (half_rd x n) as [[? ?] ?]; exists []; rewrite app_nil_r; reflexivity|].
  split; [intros [[] [|[|m]]] n; unfold plain; cbn; try destruct (2 <=? n); repeat constructor; lia|].
  split; [eexists; vm_compute; reflexivity|]. split; [reflexivity|]. vm_compute. reflexivity.
Qed.
