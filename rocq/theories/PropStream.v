(** Properties C45-C54, C62 and C63: the streaming Reader and Writer of package cp949.
    [rd] and [wr] are the wrapped reader and writer: arbitrary state machines.  [fuel]
    bounds the loop of one Read; the theorems say how much is enough, so the result [Fuel]
    (a loop that does not end) is excluded. *)
From Coq Require Import ZArith List Bool.
From Verif Require Import Base Spec Utf8 SpecCp949 SpecIO Cp949Model StreamModel
  StreamFacts StreamFacts2 StreamFacts3.
Import ListNotations.
Local Open Scope Z_scope.

(* the growth policy used in the examples *)
Definition double (old need : Z) : Z := Z.max need (2 * old).

(** * C45 Reader is independent of chunking *)
Theorem C45_Reader_chunking :
  forall grow (RS : Type) (rd : RS -> Z -> list Z * option error * RS) s stream text e fuel sizes,
  Forall is_byte stream -> delivers rd s stream e -> From grow stream = Ok (inl text) ->
  Forall (fun k => 0 < k) sizes -> (length stream + 4 <= fuel)%nat ->
  exists out err r', read_seq grow RS rd fuel (NewReader s) sizes = Ok (out, err, r') /\
    is_prefix out text /\ (err = None \/ err = Some e /\ out = text) /\
    (zlen text < zlen sizes -> err = Some e).
Proof. exact C45_lemma. Qed.
Print Assumptions C45_Reader_chunking.
(* every byte string has a reader keeping the contract; 가A read one byte at a time *)
Example C45_case : (forall s, delivers bytes_rd s s EOF) /\
  exists r, read_seq double _ bytes_rd 9 (NewReader [0xB0; 0xA1; 0x41]) [1; 1; 1; 1; 1]
            = Ok (utf8 [0xAC00; 0x41], Some EOF, r).
Proof. split; [exact bytes_rd_delivers|]. eexists. vm_compute. reflexivity. Qed.

(** * C46 Reader reports truncated streams
    False as stated: pending characters are dropped and a clean EOF is reported. *)
Theorem C46_refuted : exists r,
  truncated [0x41; 0xB0] /\ delivers bytes_rd [0x41; 0xB0] [0x41; 0xB0] EOF /\
  read_seq double (list Z) bytes_rd 9 (NewReader [0x41; 0xB0]) [16] = Ok ([], Some EOF, r).
Proof. exact C46_refuted_lemma. Qed.
Print Assumptions C46_refuted.
(** Exactly what is delivered, for every wrapped reader (no contract needed) and every
    stream: the chunks handed out by the wrapped reader up to the last one after which the
    stream was at a character boundary; all later chunks are lost. *)
Theorem C46_delivered_partial :
  forall grow (RS : Type) (rd : RS -> Z -> list Z * option error * RS),
  (forall s k, Forall is_byte (fst (fst (rd s k)))) ->
  forall s fuel sizes out e r', Forall (fun k => 0 <= k) sizes ->
  read_seq grow (RS * list (list Z)) (logged rd) fuel (NewReader (s, [])) sizes = Ok (out, Some e, r') ->
  exists done lost rs, snd (r_src _ r') = done ++ lost /\ decodes (concat done) rs /\ out = utf8 rs /\
    forall j, (0 < j <= length lost)%nat -> truncated (concat done ++ concat (firstn j lost)).
Proof. exact C46_exact_lemma. Qed.
Print Assumptions C46_delivered_partial.
Example C46_case : exists r,
  read_seq double _ (logged bytes_rd) 9 (NewReader ([0xB0; 0xA1; 0x41; 0x42; 0xB0], [])) [2; 2; 2; 2; 2; 2]
    = Ok (utf8 [0xAC00; 0x41; 0x42], Some EOF, r) /\
  snd (r_src _ r) = [[0xB0; 0xA1]; [0x41; 0x42]; [0xB0]; []].
Proof. eexists. vm_compute. split; reflexivity. Qed.

(** * C47 Reader never delivers wrong bytes *)
Theorem C47_Reader_prefix :
  forall grow (RS : Type) (rd : RS -> Z -> list Z * option error * RS) s stream a rs e fuel sizes,
  delivers rd s stream e -> decodes a rs -> (stream = a \/ cut_after a stream) ->
  Forall (fun k => 0 < k) sizes -> (length stream + 4 <= fuel)%nat ->
  exists out err r', read_seq grow RS rd fuel (NewReader s) sizes = Ok (out, err, r') /\
    is_prefix out (utf8 rs) /\ (err = None \/ err = Some e) /\
    (zlen (utf8 rs) < zlen sizes -> err = Some e).
Proof. exact C47_lemma. Qed.
Print Assumptions C47_Reader_prefix.
Example C47_case : exists r,
  read_seq double _ bytes_rd 9 (NewReader [0xB0; 0xA1; 0x41; 0xB0]) [2; 2; 2; 2]
    = Ok (utf8 [0xAC00], Some EOF, r).
Proof. eexists. vm_compute. reflexivity. Qed.

(** * C48 Read makes progress *)
Theorem C48_Read_progress :
  forall grow (RS : Type) (rd : RS -> Z -> list Z * option error * RS) s stream e sizes k fuel out r,
  Forall is_byte stream -> delivers rd s stream e ->
  Forall (fun k => 0 < k) sizes -> 0 < k -> (length stream + 4 <= fuel)%nat ->
  read_seq grow RS rd fuel (NewReader s) sizes = Ok (out, None, r) ->
  exists p err r', Read grow RS rd fuel r k = Ok (p, err, r') /\
    (err = None /\ 0 < zlen p <= k \/ err = Some e /\ p = []).
Proof. exact C48_lemma. Qed.
Print Assumptions C48_Read_progress.
Example C48_case : exists r,
  read_seq double _ bytes_rd 9 (NewReader [0xB0; 0xA1; 0x41]) [2] = Ok ([0xEA; 0xB0], None, r).
Proof. eexists. vm_compute. reflexivity. Qed.

(** * C49 Reader errors are sticky *)
Theorem C49_sticky :
  forall grow (RS : Type) (rd : RS -> Z -> list Z * option error * RS) fuel r k bs e r',
  Read grow RS rd fuel r k = Ok (bs, Some e, r') ->
  bs = [] /\ forall fuel' k', Read grow RS rd (S fuel') r' k' = Ok ([], Some e, r').
Proof. exact C49_lemma. Qed.
Print Assumptions C49_sticky.
Example C49_case : exists r,
  Read double _ bytes_rd 9 (NewReader []) 5 = Ok ([], Some EOF, r).
Proof. eexists. vm_compute. reflexivity. Qed.

(** * C50 An empty read is harmless
    False as stated: on a fresh reader it makes the stream end. *)
Theorem C50_refuted :
  (exists r, read_seq double (list Z) bytes_rd 9 (NewReader [0x41]) [16; 16] = Ok ([0x41], Some EOF, r)) /\
  (exists r, read_seq double (list Z) bytes_rd 9 (NewReader [0x41]) [0; 16; 16] = Ok ([], Some EOF, r)).
Proof. exact C50_refuted_lemma'. Qed.
Print Assumptions C50_refuted.
(** It is harmless while converted data is pending, and after an error. *)
Theorem C50_empty_read_partial :
  forall grow (RS : Type) (rd : RS -> Z -> list Z * option error * RS) fuel r,
  (r_cdata_hi _ r - r_cdata_lo _ r > 0 \/ r_err _ r <> None /\ slen (r_rdata _ r) = 0) ->
  exists err, Read grow RS rd (S fuel) r 0 = Ok ([], err, r).
Proof. exact C50_lemma. Qed.
Print Assumptions C50_empty_read_partial.
Example C50_case : exists r,
  Read double _ bytes_rd 9 (NewReader [0xB0; 0xA1]) 2 = Ok ([0xEA; 0xB0], None, r) /\
  r_cdata_hi _ r - r_cdata_lo _ r > 0.
Proof. eexists. vm_compute. split; reflexivity. Qed.

(** * C51 Writer is independent of chunking at character boundaries *)
Theorem C51_Writer_chunking : forall grow chunks, Forall (Forall is_byte) chunks ->
  (Forall valid_utf8 chunks \/ Forall boundary chunks) ->
  exists w bs, To grow (concat chunks) = Ok (inl bs) /\
    write_seq grow (list Z) buffer_wr (NewWriter []) chunks = Ok (map (fun d => (zlen d, None)) chunks, w) /\
    w_dst _ w = bs.
Proof. exact C51_lemma. Qed.
Print Assumptions C51_Writer_chunking.
Example C51_case : exists w,
  write_seq double _ buffer_wr (NewWriter []) [utf8 [0xAC00]; []; utf8 [0x41; 0xAC01]] =
    Ok ([(3, None); (0, None); (4, None)], w) /\ w_dst _ w = [0xB0; 0xA1; 0x41; 0xB0; 0xA2].
Proof. eexists. vm_compute. split; reflexivity. Qed.

(** * C52 Writer is independent of chunking at every split
    False as stated: a character split between two writes is destroyed. *)
Theorem C52_refuted : exists a b w bs,
  To double (a ++ b) = Ok (inl bs) /\
  write_seq double (list Z) buffer_wr (NewWriter []) [a; b] = Ok ([(zlen a, None); (zlen b, None)], w) /\
  w_dst _ w <> bs.
Proof. exact C52_refuted_lemma. Qed.
Print Assumptions C52_refuted.
(** What the wrapped writer gets for every split. *)
Theorem C52_per_chunk_partial : forall grow chunks, Forall (Forall is_byte) chunks ->
  exists w parts, Forall2 (fun d p => To grow d = Ok (inl p)) chunks parts /\
    write_seq grow (list Z) buffer_wr (NewWriter []) chunks = Ok (map (fun d => (zlen d, None)) chunks, w) /\
    w_dst _ w = concat parts.
Proof. exact C52_lemma. Qed.
Print Assumptions C52_per_chunk_partial.
Example C52_case : exists w,
  write_seq double _ buffer_wr (NewWriter []) [[0xEA]; [0xB0; 0x80]] =
    Ok ([(1, None); (2, None)], w) /\ w_dst _ w = [0x3F; 0x3F; 0x3F; 0x3F; 0x3F; 0x3F].
Proof. eexists. vm_compute. split; reflexivity. Qed.

(** * C53 Writer error handling *)
Theorem C53_Writer_errors :
  forall grow (WS : Type) (wr : WS -> list Z -> option error * WS) s chunks,
  Forall (Forall is_byte) chunks ->
  exists pairs w, map fst pairs = chunks /\
    Forall (fun p => To grow (fst p) = Ok (inl (snd p))) pairs /\
    write_all grow WS wr (NewWriter s) chunks = Ok (fst (writes_spec wr s pairs), w) /\
    w_dst _ w = snd (writes_spec wr s pairs).
Proof. exact C53_lemma. Qed.
Print Assumptions C53_Writer_errors.
(* a writer that fails on its second call *)
Example C53_case :
  let wr (s : nat) (bs : list Z) := (if Nat.eqb s 1 then Some (ErrOther 7) else None, S s) in
  exists w, write_all double nat wr (NewWriter 0%nat) [[0x41]; []; utf8 [0xAC00]; [0x42]] =
    Ok ([(1, None); (0, None); (0, Some (ErrOther 7)); (1, None)], w) /\ w_dst _ w = 3%nat.
Proof. eexists. vm_compute. split; reflexivity. Qed.

(** * C54 Streaming round trip *)
Theorem C54_round_trip :
  forall grow (RS : Type) (rd : RS -> Z -> list Z * option error * RS) rss bs e s fuel sizes,
  Forall (Forall in_repertoire) rss -> encodes (concat rss) bs -> delivers rd s bs e ->
  Forall (fun k => 0 < k) sizes -> (length bs + 4 <= fuel)%nat ->
  zlen (utf8 (concat rss)) < zlen sizes ->
  exists w r,
    write_seq grow (list Z) buffer_wr (NewWriter []) (map utf8 rss) =
      Ok (map (fun rs => (zlen (utf8 rs), None)) rss, w) /\ w_dst _ w = bs /\
    read_seq grow RS rd fuel (NewReader s) sizes = Ok (utf8 (concat rss), Some e, r).
Proof. exact C54_lemma. Qed.
Print Assumptions C54_round_trip.
Example C54_case : exists w r,
  write_seq double _ buffer_wr (NewWriter []) [utf8 [0xAC00]; utf8 [0x41]] = Ok ([(3, None); (1, None)], w) /\
  w_dst _ w = [0xB0; 0xA1; 0x41] /\
  read_seq double _ bytes_rd 9 (NewReader [0xB0; 0xA1; 0x41]) [3; 3; 3; 3; 3] = Ok (utf8 [0xAC00; 0x41], Some EOF, r).
Proof. eexists. eexists. vm_compute. split; [reflexivity|split; reflexivity]. Qed.

(** * C62 A read without data is not the end of the stream
    False as stated. *)
Theorem C62_refuted : exists r,
  read_seq double _ pause_rd 9 (NewReader (false, [0x41])) [16] = Ok ([], Some EOF, r).
Proof. exact C62_refuted_lemma. Qed.
Print Assumptions C62_refuted.
(** The code always takes it for the end. *)
Theorem C62_no_data_is_EOF_partial :
  forall grow (RS : Type) (rd : RS -> Z -> list Z * option error * RS) s k fuel,
  0 <= k -> (2 <= fuel)%nat -> (forall sp, k <= sp -> fst (rd s sp) = ([], None)) ->
  exists r, Read grow RS rd fuel (NewReader s) k = Ok ([], Some EOF, r).
Proof. exact C62_lemma. Qed.
Print Assumptions C62_no_data_is_EOF_partial.
Example C62_case : forall sp, fst (pause_rd (false, [0x41]) sp) = ([], None).
Proof. reflexivity. Qed.

(** * C63 Read returns when characters have arrived
    False as stated: a wrapped reader that keeps the contract, whose chunks always end
    inside a character, makes Read run for ever, whatever the buffer and the fuel. *)
Theorem C63_refuted : exists (RS : Type) (rd : RS -> Z -> list Z * option error * RS) (s : RS),
  (forall s k, 0 < k -> let '(chunk, err, _) := rd s k in
     chunk <> [] /\ zlen chunk <= k /\ Forall is_byte chunk /\ err = None) /\
  forall grow k fuel, 2 <= k -> Read grow RS rd fuel (NewReader s) k = Fuel.
Proof. exact C63_refuted_lemma. Qed.
Print Assumptions C63_refuted.
(** When the chunk holds whole characters, one read of the wrapped reader suffices. *)
Theorem C63_whole_characters_partial :
  forall grow (RS : Type) (rd : RS -> Z -> list Z * option error * RS) s k fuel,
  0 < k -> (2 <= fuel)%nat ->
  (forall sp, k <= sp -> let '(chunk, err, _) := rd s sp in
     zlen chunk <= sp /\ exists rs, decodes chunk rs /\ rs <> []) ->
  exists sp chunk err s' rs p r', k <= sp /\ rd s sp = (chunk, err, s') /\ decodes chunk rs /\
    Read grow RS rd fuel (NewReader s) k = Ok (p, None, r') /\ r_src _ r' = s' /\
    p = ztake k (utf8 rs) /\ 0 < zlen p.
Proof. exact C63_lemma. Qed.
Print Assumptions C63_whole_characters_partial.
Example C63_case : exists r,
  Read double _ bytes_rd 2 (NewReader [0xB0; 0xA1; 0x41]) 2 = Ok ([0xEA; 0xB0], None, r) /\
  Read double _ odd_rd 8 (NewReader false) 2 = Fuel.
Proof. eexists. vm_compute. split; reflexivity. Qed.
