(** Properties C79-C84: the streaming API as a part of larger pipelines.  [Copy] is the loop of
    io.Copy (IoModel.v); [size] is the length of its buffer, [copyBufSize] the default. *)
From Coq Require Import ZArith List Bool Lia.
From Verif Require Import Base Spec Utf8 SpecCp949 SpecIO Cp949Model StreamModel StreamModel2 IoModel
  StreamFacts3 TransformFacts3 PipeFacts PipeFacts2.
Import ListNotations.
Local Open Scope Z_scope.

Definition double (old need : Z) : Z := Z.max need (2 * old).

(** * C79 The Reader keeps the contract of io.Reader, so it can be wrapped again *)
Theorem C79_Reader_contract :
  forall grow (RS : Type) (rd : RS -> Z -> list Z * option error * RS) s stream text e fuel,
  Forall is_byte stream -> delivers rd s stream e -> From grow stream = Ok (inl text) ->
  (length stream + 4 <= fuel)%nat ->
  delivers (as_reader (Read grow RS rd fuel)) (NewReader s) text e.
Proof. exact C79_lemma. Qed.
Print Assumptions C79_Reader_contract.
Example C79_case : delivers bytes_rd [0xB0; 0xA1; 0x41] [0xB0; 0xA1; 0x41] EOF /\
  From double [0xB0; 0xA1; 0x41] = Ok (inl (utf8 [0xAC00; 0x41])) /\
  fst (as_reader (Read double _ bytes_rd 7) (NewReader [0xB0; 0xA1; 0x41]) 2) = ([0xEA; 0xB0], None).
Proof. split; [apply bytes_rd_delivers|]. vm_compute. split; reflexivity. Qed.

(** * C80 Copying out of a Reader delivers exactly the decoded stream *)
Theorem C80_Copy_out :
  forall grow (RS : Type) (rd : RS -> Z -> list Z * option error * RS) s stream text e size fuel fuel' dst,
  Forall is_byte stream -> delivers rd s stream e -> From grow stream = Ok (inl text) -> 0 < size ->
  (length stream + 4 <= fuel)%nat -> (length text < fuel')%nat ->
  Copy (reader RS) (list Z) (Read grow RS rd fuel) (plain_wr buffer_wr) fuel' size (NewReader s) dst 0 =
    Ok (zlen text, match e with EOF => None | _ => Some e end, dst ++ text).
Proof. exact C80_lemma. Qed.
Print Assumptions C80_Copy_out.
Example C80_case :
  Copy _ (list Z) (Read double _ one_rd 7) (plain_wr buffer_wr) 9 2 (NewReader [0xB0; 0xA1; 0x41]) [0x20] 0 =
    Ok (4, None, [0x20; 0xEA; 0xB0; 0x80; 0x41]).
Proof. vm_compute. reflexivity. Qed.

(** * C81 Copying from a Reader to a Writer reproduces the stream
    False: when the decoded text is longer than the buffer a character can be split. *)
Theorem C81_refuted : exists rs stream, encodes rs stream /\ delivers bytes_rd stream stream EOF /\
  forall grow fuel fuel', (length stream + 4 <= fuel)%nat -> (length (utf8 rs) < fuel')%nat ->
  exists w, Copy (reader (list Z)) (writer (list Z)) (Read grow (list Z) bytes_rd fuel) (Write grow (list Z) buffer_wr)
      fuel' copyBufSize (NewReader stream) (NewWriter []) 0 = Ok (zlen (utf8 rs), None, w) /\
    w_dst _ w <> stream.
Proof. exact C81_refuted_lemma. Qed.
Print Assumptions C81_refuted.
(** What arrives in general: the text is cut into pieces that fit the buffer, and each piece is
    encoded on its own. *)
Theorem C81_exact_partial :
  forall grow (RS : Type) (rd : RS -> Z -> list Z * option error * RS) s stream text e size fuel fuel',
  Forall is_byte stream -> delivers rd s stream e -> From grow stream = Ok (inl text) -> 0 < size ->
  (length stream + 4 <= fuel)%nat -> (length text < fuel')%nat ->
  exists chunks parts w, concat chunks = text /\ Forall (fun c => c <> [] /\ zlen c <= size) chunks /\
    Forall2 (fun d p => To grow d = Ok (inl p)) chunks parts /\
    Copy (reader RS) (writer (list Z)) (Read grow RS rd fuel) (Write grow (list Z) buffer_wr)
      fuel' size (NewReader s) (NewWriter []) 0 = Ok (zlen text, match e with EOF => None | _ => Some e end, w) /\
    w_dst _ w = concat parts.
Proof. exact C81_exact_lemma. Qed.
Print Assumptions C81_exact_partial.
(** The stream is reproduced, however the wrapped reader splits it, when its UTF-8 form fits
    the buffer ... *)
Theorem C81_fits :
  forall grow (RS : Type) (rd : RS -> Z -> list Z * option error * RS) s stream rs e size fuel fuel',
  delivers rd s stream e -> encodes rs stream -> 0 < size -> zlen (utf8 rs) <= size ->
  (length stream + 4 <= fuel)%nat -> (length (utf8 rs) < fuel')%nat ->
  exists w, Copy (reader RS) (writer (list Z)) (Read grow RS rd fuel) (Write grow (list Z) buffer_wr)
      fuel' size (NewReader s) (NewWriter []) 0 = Ok (zlen (utf8 rs), match e with EOF => None | _ => Some e end, w) /\
    w_dst _ w = stream.
Proof. exact C81_fit_lemma. Qed.
Print Assumptions C81_fits.
(** ... and for ASCII of any length. *)
Theorem C81_ascii :
  forall grow (RS : Type) (rd : RS -> Z -> list Z * option error * RS) s stream e size fuel fuel',
  delivers rd s stream e -> Forall (fun b => 0 <= b < 0x80) stream -> 0 < size ->
  (length stream + 4 <= fuel)%nat -> (length stream < fuel')%nat ->
  exists w, Copy (reader RS) (writer (list Z)) (Read grow RS rd fuel) (Write grow (list Z) buffer_wr)
      fuel' size (NewReader s) (NewWriter []) 0 = Ok (zlen stream, match e with EOF => None | _ => Some e end, w) /\
    w_dst _ w = stream.
Proof. exact C81_ascii_lemma. Qed.
Print Assumptions C81_ascii.
(* with a 5-byte buffer, 가A arrives, 가가 does not *)
Example C81_case :
  match Copy _ (writer (list Z)) (Read double _ one_rd 7) (Write double (list Z) buffer_wr) 9 5
          (NewReader [0xB0; 0xA1; 0x41]) (NewWriter []) 0 with
  | Ok (n, e, w) => n = 4 /\ e = None /\ w_dst _ w = [0xB0; 0xA1; 0x41] | _ => False end /\
  match Copy _ (writer (list Z)) (Read double _ bytes_rd 8) (Write double (list Z) buffer_wr) 9 5
          (NewReader [0xB0; 0xA1; 0xB0; 0xA1]) (NewWriter []) 0 with
  | Ok (n, e, w) => n = 6 /\ e = None /\ w_dst _ w = [0xB0; 0xA1; 0x3F; 0x3F; 0x3F; 0x3F; 0x3F; 0x3F] | _ => False end.
Proof. vm_compute. repeat split. Qed.

(** * C82 Copying UTF-8 into a Writer encodes it
    False, for the same reason. *)
Theorem C82_refuted : exists text right, encodes text right /\ delivers bytes_rd (utf8 text) (utf8 text) EOF /\
  forall grow fuel, (length (utf8 text) < fuel)%nat ->
  exists w, Copy (list Z) (writer (list Z)) (plain_rd bytes_rd) (Write grow (list Z) buffer_wr)
      fuel copyBufSize (utf8 text) (NewWriter []) 0 = Ok (zlen (utf8 text), None, w) /\
    w_dst _ w <> right.
Proof. exact C82_refuted_lemma. Qed.
Print Assumptions C82_refuted.
Theorem C82_exact_partial :
  forall grow (RS : Type) (rd : RS -> Z -> list Z * option error * RS) s text e size fuel,
  Forall is_byte text -> delivers rd s text e -> 0 < size -> (length text < fuel)%nat ->
  exists chunks parts w, concat chunks = text /\ Forall (fun c => c <> [] /\ zlen c <= size) chunks /\
    Forall2 (fun d p => To grow d = Ok (inl p)) chunks parts /\
    Copy RS (writer (list Z)) (plain_rd rd) (Write grow (list Z) buffer_wr) fuel size s (NewWriter []) 0 =
      Ok (zlen text, match e with EOF => None | _ => Some e end, w) /\
    w_dst _ w = concat parts.
Proof. exact C82_exact_lemma. Qed.
Print Assumptions C82_exact_partial.
(** A source that fills the buffer when it can, as a file, is encoded right when it fits. *)
Theorem C82_fits : forall grow text bs size fuel, Forall is_byte text -> To grow text = Ok (inl bs) ->
  0 < size -> zlen text <= size -> (length text < fuel)%nat ->
  exists w, Copy (list Z) (writer (list Z)) (plain_rd bytes_rd) (Write grow (list Z) buffer_wr)
      fuel size text (NewWriter []) 0 = Ok (zlen text, None, w) /\ w_dst _ w = bs.
Proof. exact C82_fits_lemma. Qed.
Print Assumptions C82_fits.
Example C82_case :
  match Copy _ (writer (list Z)) (plain_rd bytes_rd) (Write double (list Z) buffer_wr) 9 4
          (utf8 [0xAC00; 0x41]) (NewWriter []) 0 with
  | Ok (n, e, w) => n = 4 /\ e = None /\ w_dst _ w = [0xB0; 0xA1; 0x41] | _ => False end /\
  match Copy _ (writer (list Z)) (plain_rd one_rd) (Write double (list Z) buffer_wr) 9 4
          (utf8 [0xAC00; 0x41]) (NewWriter []) 0 with
  | Ok (n, e, w) => n = 4 /\ e = None /\ w_dst _ w = [0x3F; 0x3F; 0x3F; 0x3F; 0x3F; 0x3F; 0x41] | _ => False end.
Proof. vm_compute. repeat split. Qed.

(** * C83 Read-ahead is bounded
    False: a single Read may swallow an arbitrarily long finite stream. *)
Theorem C83_refuted : exists (RS : Type) (rd : RS -> Z -> list Z * option error * RS),
  forall n, exists s stream, zlen stream = 2 * Z.of_nat (S n) /\ delivers rd s stream EOF /\
  forall grow k fuel, 2 <= k -> (n + 4 <= fuel)%nat -> exists p r',
    Read grow _ (logged rd) fuel (NewReader (s, [])) k = Ok (p, None, r') /\ zlen p <= k /\
    concat (snd (r_src _ r')) = stream.
Proof. exact C83_refuted_lemma. Qed.
Print Assumptions C83_refuted.
(** When the wrapped reader hands out whole characters, each Read calls it at most once, and
    with a buffer shorter than twice the longest buffer the Reader was given. *)
Theorem C83_whole_partial :
  forall grow (RS : Type) (rd : RS -> Z -> list Z * option error * RS) B,
  (forall s k, 2 <= k -> zlen (fst (fst (rd s k))) <= k /\ exists rs, decodes (fst (fst (rd s k))) rs) ->
  forall s fuel sizes, 0 < B -> (3 <= fuel)%nat -> Forall (fun k => 2 <= k <= B) sizes ->
  exists out err r', read_seq grow _ (witnessed rd) fuel (NewReader (s, [])) sizes = Ok (out, err, r') /\
  zlen (snd (r_src _ r')) <= zlen sizes /\
  Forall (fun call : Z * list Z * option error => fst (fst call) < 2 * B) (snd (r_src _ r')).
Proof. exact C83_lemma. Qed.
Print Assumptions C83_whole_partial.
(* one syllable at a time; the hypotheses hold, and the buffer does grow *)
Example C83_case :
  (forall s k, 2 <= k -> zlen (fst (fst (syllables s k))) <= k /\ exists rs, decodes (fst (fst (syllables s k))) rs) /\
  match read_seq double _ (witnessed syllables) 3 (NewReader (2%nat, [])) [3; 5; 5] with
  | Ok (out, err, r) => out = utf8 [0xAC00; 0xAC00] /\ err = Some EOF /\
      snd (r_src _ r) = [(3, [0xB0; 0xA1], None); (6, [0xB0; 0xA1], None); (6, [], Some EOF)]
  | _ => False end.
Proof.
  split; [|vm_compute; repeat split].
  intros [|s] k Hk; cbn [syllables fst]; (split; [cbn; lia|]).
  - exists []. constructor.
  - exists [0xAC00]. exact (gas_decodes 1).
Qed.

(** * C84 The wrapped reader may use the whole buffer as scratch space *)
Theorem C84_scratch :
  forall grow (RS : Type) (rd : RS -> Z -> list Z * option error * RS) (junk : RS -> Z -> list Z) fuel sizes s,
  outcome (read_seq2 grow RS rd junk fuel (NewReader s) sizes) =
  outcome (read_seq grow RS rd fuel (NewReader s) sizes).
Proof. exact C84_lemma. Qed.
Print Assumptions C84_scratch.
Example C84_case :
  outcome (read_seq2 double _ one_rd (fun _ k => repeat 0xB0 (Z.to_nat k)) 9 (NewReader [0xB0; 0xA1; 0x41]) [3; 3; 3]) =
    Ok (utf8 [0xAC00; 0x41], Some EOF).
Proof. vm_compute. reflexivity. Qed.
