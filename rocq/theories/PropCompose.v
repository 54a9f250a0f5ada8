(** Properties C136-C140: readers and writers made of others, and pipes. *)
From Coq Require Import ZArith List Bool Lia.
From Verif Require Import Base Spec Utf8 SpecCp949 SpecIO Cp949Model StreamModel IoModel ComposeModel SpecCompose
  Cp949Facts2 StreamFacts3 PipeFacts ComposeFacts.
Import ListNotations.
Local Open Scope Z_scope.

Definition twice (old need : Z) : Z := Z.max need (2 * old).

(** * C136 Readers made of others *)
Theorem C136_under_Reader :
  forall (RS : Type) (rd : RS -> Z -> list Z * option error * RS) grow c stream text e fuel sizes,
  Forall is_byte stream -> content rd c stream e -> From grow stream = Ok (inl text) ->
  Forall (fun k => 0 < k) sizes -> (length stream + 4 <= fuel)%nat ->
  exists out err r', read_seq grow (composed RS) (read RS rd) fuel (NewReader c) sizes = Ok (out, err, r') /\
    is_prefix out text /\ (err = None \/ err = Some e /\ out = text) /\ (zlen text < zlen sizes -> err = Some e).
Proof. exact @C136_lemma. Qed.
Print Assumptions C136_under_Reader.
(** Over Readers as well: a Reader stands for From(stream) among the readers others are made of,
    and what is made of such readers keeps the contract of io.Reader. *)
Theorem C136_over_Reader :
  forall grow (RS : Type) (rd : RS -> Z -> list Z * option error * RS) s stream text e fuel,
  Forall is_byte stream -> delivers rd s stream e -> From grow stream = Ok (inl text) -> (length stream + 4 <= fuel)%nat ->
  content (as_reader (Read grow RS rd fuel)) (Plain (NewReader s)) text e.
Proof. exact C136_over_lemma. Qed.
Print Assumptions C136_over_Reader.
Theorem C136_contract : forall (RS : Type) (rd : RS -> Z -> list Z * option error * RS) c bytes e,
  content rd c bytes e -> delivers (read RS rd) c bytes e.
Proof. exact @content_delivers. Qed.
Print Assumptions C136_contract.
(* two files, the first ending inside a character, buffered and cut after five bytes *)
Definition pieces : composed (list Z) :=
  Limit 5 (Buffered 16 [] None (Multi [Plain [0x41; 0xB0]; OneByte (Plain [0xA1; 0xB0; 0xA1; 0x42])])).
Example C136_case : content bytes_rd pieces [0x41; 0xB0; 0xA1; 0xB0; 0xA1] EOF /\
  exists r, read_seq twice _ (read _ bytes_rd) 9 (NewReader pieces) [4; 1; 9; 9; 9] = Ok (utf8 [0x41; 0xAC00; 0xAC00], Some EOF, r).
Proof.
  split; [|eexists; vm_compute; reflexivity]. unfold pieces.
  change [0x41; 0xB0; 0xA1; 0xB0; 0xA1] with (ztake 5 ([0x41; 0xB0] ++ [0xA1; 0xB0; 0xA1; 0x42] ++ [])).
  apply content_limit_less with (e := EOF); [|reflexivity]. constructor; [|reflexivity].
  constructor; [constructor; apply bytes_rd_delivers|]. constructor; [|constructor]. constructor. constructor. apply bytes_rd_delivers.
Qed.

(** * C137 A TeeReader below a Reader
    [c'] and [w] are what is left of the reader and what the TeeReader has written. *)
Theorem C137_Tee :
  forall (RS : Type) (rd : RS -> Z -> list Z * option error * RS) grow c stream text e fuel sizes,
  Forall is_byte stream -> content rd c stream e -> From grow stream = Ok (inl text) ->
  Forall (fun k => 0 < k) sizes -> (length stream + 4 <= fuel)%nat ->
  exists out err r' w c', read_seq grow (composed RS) (read RS rd) fuel (NewReader (Tee c [])) sizes = Ok (out, err, r') /\
    r_src _ r' = Tee c' w /\ is_prefix w stream /\
    (err = None \/ err = Some e /\ out = text /\ w = stream) /\ (zlen text < zlen sizes -> err = Some e).
Proof. exact @C137_lemma. Qed.
Print Assumptions C137_Tee.
Example C137_case : exists r c, read_seq twice _ (read _ bytes_rd) 9 (NewReader (Tee (Plain [0x41; 0xB0; 0xA1]) [])) [2; 2; 2; 2] =
  Ok (utf8 [0x41; 0xAC00], Some EOF, r) /\ r_src _ r = Tee c [0x41; 0xB0; 0xA1].
Proof. do 2 eexists. split; vm_compute; reflexivity. Qed.

(** * C138 Writing to several Writers at once *)
Theorem C138_MultiWriter :
  forall grow (WS : Type) (wr : WS -> list Z -> option error * WS) dsts chunks, Forall (Forall is_byte) chunks ->
  exists pairs ws, map fst pairs = chunks /\ Forall (fun p => To grow (fst p) = Ok (inl (snd p))) pairs /\
    multi_writes (Write grow WS wr) (map NewWriter dsts) chunks = Ok (fst (writes_to_each wr dsts pairs), ws) /\
    map (w_dst _) ws = snd (writes_to_each wr dsts pairs).
Proof. exact C138_lemma. Qed.
Print Assumptions C138_MultiWriter.
Theorem C138_buffers : forall grow n chunks, Forall (Forall is_byte) chunks ->
  exists parts ws, Forall2 (fun d p => To grow d = Ok (inl p)) chunks parts /\
    multi_writes (Write grow (list Z) buffer_wr) (repeat (NewWriter []) n) chunks = Ok (map (fun d => (zlen d, None)) chunks, ws) /\
    map (w_dst _) ws = repeat (concat parts) n.
Proof. exact C138_buffer_lemma. Qed.
Print Assumptions C138_buffers.
(* the second of three writers fails *)
Definition limited_wr (s : Z * list Z) (bs : list Z) : option error * (Z * list Z) :=
  if zlen (snd s ++ bs) <=? fst s then (None, (fst s, snd s ++ bs)) else (Some (ErrOther 7), s).
Example C138_case : exists ws, multi_writes (Write twice _ limited_wr) (map NewWriter [(9, []); (2, []); (9, [])])
    [utf8 [0xAC00]; []; [0x41]] = Ok ([(3, None); (0, None); (0, Some (ErrOther 7))], ws) /\
  map (w_dst _) ws = [(9, [0xB0; 0xA1; 0x41]); (2, [0xB0; 0xA1]); (9, [0xB0; 0xA1])].
Proof. eexists. split; vm_compute; reflexivity. Qed.

(** * C139 From a Writer to a Reader through a pipe *)
Theorem C139_pipe : forall grow e chunks, Forall (Forall is_byte) chunks ->
  exists parts text, Forall2 (fun d p => To grow d = Ok (inl p)) chunks parts /\ From grow (concat parts) = Ok (inl text) /\
  forall fuel sizes, Forall (fun k => 0 < k) sizes -> (length (concat parts) + 4 <= fuel)%nat ->
  exists out err r', read_seq grow _ (encoding_pipe grow e) fuel (NewReader (mkGoroutine None (NewWriter None) chunks)) sizes = Ok (out, err, r') /\
    is_prefix out text /\ (err = None \/ err = Some e /\ out = text) /\ (zlen text < zlen sizes -> err = Some e).
Proof. exact C139_lemma. Qed.
Print Assumptions C139_pipe.
Theorem C139_round_trip : forall grow e rss, Forall (Forall in_repertoire) rss ->
  exists bs, encodes (concat rss) bs /\
  forall fuel sizes, Forall (fun k => 0 < k) sizes -> (length bs + 4 <= fuel)%nat -> zlen (utf8 (concat rss)) < zlen sizes ->
  exists r', read_seq grow _ (encoding_pipe grow e) fuel (NewReader (mkGoroutine None (NewWriter None) (map utf8 rss))) sizes =
    Ok (utf8 (concat rss), Some e, r').
Proof. exact C139_round_trip_lemma. Qed.
Print Assumptions C139_round_trip.
(* an empty Write among others *)
Example C139_case : exists r, read_seq twice _ (encoding_pipe twice EOF) 9
    (NewReader (mkGoroutine None (NewWriter None) [utf8 [0xAC00]; []; utf8 [0x41; 0xAC00]])) [2; 2; 9; 9; 9] =
  Ok (utf8 [0xAC00; 0x41; 0xAC00], Some EOF, r).
Proof. eexists. vm_compute. reflexivity. Qed.

(** * C140 CP949 text through a pipe
    False as stated: an empty Write ends the stream for the Reader. *)
Theorem C140_refuted : exists writes text, (forall grow, From grow (concat writes) = Ok (inl text)) /\
  forall grow fuel sizes, Forall (fun k => 0 < k) sizes -> (5 <= fuel)%nat ->
  exists out err r', read_seq grow _ (raw_pipe EOF) fuel (NewReader writes) sizes = Ok (out, err, r') /\ out <> text /\
    (1 < zlen sizes -> err = Some EOF).
Proof. exact C140_refuted_lemma. Qed.
Print Assumptions C140_refuted.
Theorem C140_nonempty_partial : forall grow e writes text fuel sizes,
  Forall (Forall is_byte) writes -> Forall (fun b => b <> []) writes ->
  From grow (concat writes) = Ok (inl text) -> Forall (fun k => 0 < k) sizes -> (length (concat writes) + 4 <= fuel)%nat ->
  exists out err r', read_seq grow _ (raw_pipe e) fuel (NewReader writes) sizes = Ok (out, err, r') /\
    is_prefix out text /\ (err = None \/ err = Some e /\ out = text) /\ (zlen text < zlen sizes -> err = Some e).
Proof. exact C140_whole_lemma. Qed.
Print Assumptions C140_nonempty_partial.
Theorem C140_empty_partial : forall grow e before after text fuel sizes,
  Forall (Forall is_byte) before -> Forall (fun b => b <> []) before ->
  From grow (concat before) = Ok (inl text) -> Forall (fun k => 0 < k) sizes -> (length (concat before) + 4 <= fuel)%nat ->
  exists out err r', read_seq grow _ (raw_pipe e) fuel (NewReader (before ++ [] :: after)) sizes = Ok (out, err, r') /\
    is_prefix out text /\ (err = None \/ err = Some EOF /\ out = text) /\ (zlen text < zlen sizes -> err = Some EOF).
Proof. exact C140_exact_lemma. Qed.
Print Assumptions C140_empty_partial.
(* a character divided between two Writes *)
Example C140_case : exists r r', 
  read_seq twice _ (raw_pipe EOF) 9 (NewReader [[0xB0]; [0xA1; 0x41]]) [2; 2; 9; 9] = Ok (utf8 [0xAC00; 0x41], Some EOF, r) /\
  read_seq twice _ (raw_pipe (ErrOther 5)) 9 (NewReader [[0xB0]; [0xA1]; []; [0x41]]) [2; 2; 9; 9] = Ok (utf8 [0xAC00], Some EOF, r').
Proof. do 2 eexists. split; vm_compute; reflexivity. Qed.
