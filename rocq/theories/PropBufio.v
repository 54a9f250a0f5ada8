(** Properties C113-C116: reading from a Reader with bufio.Scanner, writing to a Writer through
    bufio.Writer (BufioModel.v). *)
From Coq Require Import ZArith List Bool Lia.
From Verif Require Import Base Spec Utf8 SpecCp949 SpecIO SpecLines Cp949Model StreamModel BufioModel
  StreamFacts3 TransformFacts3 Cp949Facts2 BufioFacts2 BufioFacts3.
Import ListNotations.
Local Open Scope Z_scope.

(** * C113 bufio.Scanner yields the lines of the decoded stream *)
Theorem C113_lines :
  forall grow (RS : Type) (rd : RS -> Z -> list Z * option error * RS) s stream text e ls ts fuel fuel',
  Forall is_byte stream -> delivers rd s stream e -> From grow stream = Ok (inl text) ->
  is_lines text ls -> Forall2 without_cr ls ts -> Forall (fun l => zlen l < 65536) ls ->
  (length stream + 4 <= fuel)%nat -> (length text + 2 < fuel')%nat ->
  ScanAll (reader RS) (Read grow RS rd fuel) ScanLines fuel' (NewScanner _ (NewReader s)) =
    Ok (ts, match e with EOF => None | _ => Some e end).
Proof. exact lines_lemma. Qed.
Print Assumptions C113_lines.
(** A line of 65536 bytes or more ends it, with an error. *)
Theorem C113_long_line :
  forall grow (RS : Type) (rd : RS -> Z -> list Z * option error * RS) s stream text e ls1 l ls2 ts fuel fuel',
  Forall is_byte stream -> delivers rd s stream e -> From grow stream = Ok (inl text) ->
  is_lines text (ls1 ++ l :: ls2) -> Forall2 without_cr ls1 ts -> Forall (fun l => zlen l < 65536) ls1 ->
  65536 <= zlen l -> (length stream + 4 <= fuel)%nat -> (length text + 2 < fuel')%nat ->
  ScanAll (reader RS) (Read grow RS rd fuel) ScanLines fuel' (NewScanner _ (NewReader s)) = Ok (ts, Some ErrTooLong).
Proof. exact long_line_lemma. Qed.
Print Assumptions C113_long_line.
Definition double (old need : Z) : Z := Z.max need (2 * old).
Definition ex_stream : list Z := [0xB0; 0xA1; 13; 10; 10; 0xB0; 0xA2].
Example C113_case : let text := [0xEA; 0xB0; 0x80; 13; 10; 10; 0xEA; 0xB0; 0x81] in
  delivers one_rd ex_stream ex_stream EOF /\ From double ex_stream = Ok (inl text) /\
  is_lines text [[0xEA; 0xB0; 0x80; 13]; []; [0xEA; 0xB0; 0x81]] /\
  Forall2 without_cr [[0xEA; 0xB0; 0x80; 13]; []; [0xEA; 0xB0; 0x81]] [[0xEA; 0xB0; 0x80]; []; [0xEA; 0xB0; 0x81]].
Proof.
  cbv zeta. split; [apply one_rd_delivers|]. split; [vm_compute; reflexivity|]. split.
  - change [0xEA; 0xB0; 0x80; 13; 10; 10; 0xEA; 0xB0; 0x81] with ([0xEA; 0xB0; 0x80; 13] ++ 10 :: ([] ++ 10 :: [0xEA; 0xB0; 0x81])).
    repeat constructor; cbn; try discriminate; lia.
  - constructor; [apply (with_cr [0xEA; 0xB0; 0x80])|]. constructor; [|constructor; [|constructor]]; apply no_cr.
    + intros [|? ?]; discriminate.
    + intros [|? [|? [|? [|? ?]]]]; discriminate.
Qed.
(** A line of 65536 letters, after a short one. *)
Example C113_long_case : exists text l, is_lines text ([[0x61]] ++ l :: [[0x62]]) /\ zlen l = 65536 /\
  From double text = Ok (inl text).
Proof.
  exists ([0x61] ++ 10 :: (repeat 0x61 (Z.to_nat 65536) ++ 10 :: [0x62])), (repeat 0x61 (Z.to_nat 65536)).
  assert (~ In 10 (repeat 0x61 (Z.to_nat 65536))) as Hr by (intros H; apply repeat_spec in H; discriminate).
  split; [|split].
  - apply (lines_more [0x61]); [cbn; lia|]. apply lines_more; [exact Hr|]. apply lines_last; [discriminate|cbn; lia].
  - unfold zlen. rewrite repeat_length. reflexivity.
  - apply From_ascii. generalize (Z.to_nat 65536). intros n.
    constructor; [lia|]. constructor; [lia|]. apply Forall_app. split; [|repeat constructor; lia].
    apply Forall_forall. intros b Hb. apply repeat_spec in Hb. lia.
Qed.

(** * C114 bufio.Scanner with ScanRunes yields the characters of the stream *)
Theorem C114_runes :
  forall grow (RS : Type) (rd : RS -> Z -> list Z * option error * RS) s stream e rs fuel fuel',
  delivers rd s stream e -> decodes stream rs ->
  (length stream + 4 <= fuel)%nat -> (length (utf8 rs) + 2 < fuel')%nat ->
  ScanAll (reader RS) (Read grow RS rd fuel) ScanRunes fuel' (NewScanner _ (NewReader s)) =
    Ok (map utf8_char rs, match e with EOF => None | _ => Some e end).
Proof. exact runes_lemma. Qed.
Print Assumptions C114_runes.
Example C114_case : delivers one_rd ex_stream ex_stream EOF /\ decodes ex_stream [0xAC00; 13; 10; 10; 0xAC01].
Proof.
  split; [apply one_rd_delivers|]. unfold ex_stream.
  apply dec_code; [lia|lia|apply assigned_by; vm_compute; reflexivity|].
  repeat (apply dec_ascii; [lia|]). apply dec_code; [lia|lia|apply assigned_by; vm_compute; reflexivity|]. constructor.
Qed.

(** * C115 Writing through a bufio.Writer
    False: the buffer is flushed when it is full, which can be inside a character. *)
Theorem C115_string_refuted : exists text bs, encodes text bs /\ forall grow fuel, (2 <= fuel)%nat ->
  exists b, BufWrites _ (Write grow (list Z) buffer_wr) fuel (NewBufWriter _ defaultBufSize (NewWriter [])) [ByWriteString (utf8 text)] = Ok (None, b) /\
    w_dst _ (bw_dst _ b) <> bs.
Proof. exact buf_string_refuted. Qed.
Print Assumptions C115_string_refuted.
Theorem C115_write_refuted : exists t1 t2 bs, encodes (t1 ++ t2) bs /\ forall grow fuel, (2 <= fuel)%nat ->
  exists b, BufWrites _ (Write grow (list Z) buffer_wr) fuel (NewBufWriter _ defaultBufSize (NewWriter []))
      [ByWrite (utf8 t1); ByWrite (utf8 t2)] = Ok (None, b) /\
    w_dst _ (bw_dst _ b) <> bs.
Proof. exact buf_write_refuted. Qed.
Print Assumptions C115_write_refuted.
(** What arrives in general: the text is cut into blocks of at least [size] bytes, and a
    shorter last one, and each block is encoded on its own. *)
Theorem C115_exact_partial : forall grow size pieces fuel, 0 < size ->
  Forall (fun p => Forall is_byte (piece_bytes p) /\ (length (piece_bytes p) + 1 < fuel)%nat) pieces ->
  exists full last parts part b,
    concat full ++ last = concat (map piece_bytes pieces) /\ Forall (fun c => size <= zlen c) full /\ zlen last <= size /\
    Forall2 (fun d p => To grow d = Ok (inl p)) (full ++ [last]) (parts ++ [part]) /\
    BufWrites _ (Write grow (list Z) buffer_wr) fuel (NewBufWriter _ size (NewWriter [])) pieces = Ok (None, b) /\
    w_dst _ (bw_dst _ b) = concat parts ++ part.
Proof. exact buf_exact. Qed.
Print Assumptions C115_exact_partial.
(** Right when the text fits the buffer ... *)
Theorem C115_fits : forall grow size pieces bs fuel, 0 < size ->
  Forall (fun p => Forall is_byte (piece_bytes p) /\ (length (piece_bytes p) + 1 < fuel)%nat) pieces ->
  zlen (concat (map piece_bytes pieces)) <= size -> To grow (concat (map piece_bytes pieces)) = Ok (inl bs) ->
  exists b, BufWrites _ (Write grow (list Z) buffer_wr) fuel (NewBufWriter _ size (NewWriter [])) pieces = Ok (None, b) /\
    w_dst _ (bw_dst _ b) = bs.
Proof. exact buf_fits. Qed.
Print Assumptions C115_fits.
(** ... and for ASCII of any length. *)
Theorem C115_ascii : forall grow size pieces fuel, 0 < size ->
  Forall (fun p => Forall (fun b => 0 <= b < 0x80) (piece_bytes p) /\ (length (piece_bytes p) + 1 < fuel)%nat) pieces ->
  exists b, BufWrites _ (Write grow (list Z) buffer_wr) fuel (NewBufWriter _ size (NewWriter [])) pieces = Ok (None, b) /\
    w_dst _ (bw_dst _ b) = concat (map piece_bytes pieces).
Proof. exact buf_ascii. Qed.
Print Assumptions C115_ascii.
Example C115_case : let pieces := [ByWrite [0xEA; 0xB0]; ByWriteString [0x80; 0x41]] in
  zlen (concat (map piece_bytes pieces)) <= 4 /\ To double (concat (map piece_bytes pieces)) = Ok (inl [0xB0; 0xA1; 0x41]).
Proof. vm_compute. split; [discriminate|reflexivity]. Qed.

(** * C116 Writing character by character through a bufio.Writer *)
Theorem C116_runes : forall grow size rs fuel, 4 <= size -> Forall is_scalar rs ->
  exists b, WriteRunes _ (Write grow (list Z) buffer_wr) fuel (NewBufWriter _ size (NewWriter [])) rs = Ok (None, b) /\
    To grow (utf8 rs) = Ok (inl (w_dst _ (bw_dst _ b))).
Proof. exact buf_runes. Qed.
Print Assumptions C116_runes.
Example C116_case : exists b,
  WriteRunes _ (Write double (list Z) buffer_wr) 9 (NewBufWriter _ 5 (NewWriter [])) [0x41; 0xAC00; 0xAC01; 0x41] = Ok (None, b) /\
    w_dst _ (bw_dst _ b) = [0x41; 0xB0; 0xA1; 0xB0; 0xA2; 0x41].
Proof. eexists. split; vm_compute; reflexivity. Qed.
