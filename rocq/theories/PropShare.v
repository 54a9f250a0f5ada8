(** Properties C133-C135: several Readers and Writers over one reader or writer. *)
From Coq Require Import ZArith List Bool Lia.
From Verif Require Import Base Spec Utf8 SpecCp949 SpecIO SpecReads Cp949Model StreamModel ShareModel SpecShare
  Cp949Facts2 ShareFacts.
Import ListNotations.
Local Open Scope Z_scope.

Definition double (old need : Z) : Z := Z.max need (2 * old).

(** * C133 Several Writers over one writer
    Whatever the writer does, errors included: the same results and the same state of the
    writer as when all Writes are made through one Writer. *)
Theorem C133_Writers_as_one :
  forall grow (WS : Type) (wr : WS -> list Z -> option error * WS) s ops, Forall (fun o => Forall is_byte (snd o)) ops ->
  exists results s' w,
    writes_in_turn grow wr (fun _ => NewWriter s) s ops = Ok (results, s') /\
    write_all grow WS wr (NewWriter s) (map snd ops) = Ok (results, w) /\ w_dst _ w = s'.
Proof. exact C133_lemma. Qed.
Print Assumptions C133_Writers_as_one.
(** Over a buffer: the encodings, one after the other. *)
Theorem C133_Writers_buffer : forall grow ops, Forall (fun o => Forall is_byte (snd o)) ops ->
  exists parts, Forall2 (fun o p => To grow (snd o) = Ok (inl p)) ops parts /\
    writes_in_turn grow buffer_wr (fun _ => NewWriter []) [] ops = Ok (map (fun o => (zlen (snd o), None)) ops, concat parts).
Proof. exact C133_buffer_lemma. Qed.
Print Assumptions C133_Writers_buffer.
(* three Writes through two Writers *)
Example C133_case :
  writes_in_turn double buffer_wr (fun _ => NewWriter []) [] [(0%nat, utf8 [0xAC00]); (1%nat, [0x41]); (0%nat, utf8 [0xAC00; 0x42])] =
    Ok ([(3, None); (1, None); (4, None)], [0xB0; 0xA1; 0x41; 0xB0; 0xA1; 0x42]).
Proof. vm_compute. reflexivity. Qed.

(** * C134 Writing and reading back through one buffer
    False as stated: once the Reader has found the buffer empty it reports the end for ever. *)
Theorem C134_refuted : exists data text bs, data = utf8 text /\ encodes text bs /\ text <> [] /\
  forall grow fuel k, 0 < k -> (5 <= fuel)%nat ->
  through_buffer grow fuel (NewWriter []) (NewReader []) [] [PRead k; PWrite data; PRead k] =
    Ok [Got [] (Some EOF); Wrote (zlen data) None; Got [] (Some EOF)].
Proof. exact C134_refuted_lemma. Qed.
Print Assumptions C134_refuted.
(** The answers in every case: a queue, up to the first end. *)
Theorem C134_queue_partial : forall grow fuel ops, Forall proper ops -> (length (written ops) + 2 <= fuel)%nat ->
  exists answers, through_buffer grow fuel (NewWriter []) (NewReader []) [] ops = Ok answers /\ queue [] false ops answers.
Proof. exact C134_lemma. Qed.
Print Assumptions C134_queue_partial.
Example C134_case :
  Forall proper [PWrite (utf8 [0xAC00; 0x41]); PRead 2; PRead 5; PWrite (utf8 [0x42]); PRead 5; PRead 5] /\
  through_buffer double 9 (NewWriter []) (NewReader [])
    [] [PWrite (utf8 [0xAC00; 0x41]); PRead 2; PRead 5; PWrite (utf8 [0x42]); PRead 5; PRead 5] =
    Ok [Wrote 4 None; Got [0xEA; 0xB0] None; Got [0x80] None; Wrote 1 None; Got [0x41; 0x42] None; Got [] (Some EOF)].
Proof.
  split; [|vm_compute; reflexivity].
  repeat constructor.
  - exists [0xAC00; 0x41], [0xB0; 0xA1; 0x41]. split; [reflexivity|].
    change [0xB0; 0xA1; 0x41] with (code_bytes 0xB0A1 ++ [0x41]). constructor; [apply assigned_by; vm_compute; reflexivity|].
    constructor; [split; [discriminate|reflexivity]|constructor].
  - exists [0x42], [0x42]. split; [reflexivity|]. constructor; [split; [discriminate|reflexivity]|constructor].
Qed.

(** * C135 Several Readers over one reader
    False as stated: a Reader keeps what it has decoded too much, and the next one goes on
    after it: text out of order, or the end before everything was delivered. *)
Theorem C135_order_refuted : exists stream text,
  From double stream = Ok (inl text) /\
  exists a b c s, reads_in_turn double bytes_rd 20 (fun _ => NewReader stream) stream [(0%nat, 4); (1%nat, 4); (0%nat, 4)] =
    Ok ([(a, None); (b, None); (c, None)], s) /\ ~ is_prefix (a ++ b) text /\ is_prefix (a ++ c) text.
Proof. exact C135_order_lemma. Qed.
Print Assumptions C135_order_refuted.
Theorem C135_end_refuted : exists stream text,
  From double stream = Ok (inl text) /\
  exists a s, reads_in_turn double bytes_rd 20 (fun _ => NewReader stream) stream [(0%nat, 3); (1%nat, 3)] =
    Ok ([(a, None); ([], Some EOF)], s) /\ a <> text.
Proof. exact C135_end_lemma. Qed.
Print Assumptions C135_end_refuted.
(** What each Read returns, over every reader that stays within its buffer (compare C126). *)
Theorem C135_exact_partial :
  forall grow (RS : Type) (rd : RS -> Z -> list Z * option error * RS), fits_buffer rd ->
  forall fuel s ops, Forall (fun o => 0 <= snd o) ops -> (0 < fuel)%nat ->
  (exists results s', reads_in_turn grow rd fuel (fun _ => NewReader s) s ops = Ok (results, s') /\
     shared_reads rd s (fun _ => ([], None)) ops results s') \/
  (reads_in_turn grow rd fuel (fun _ => NewReader s) s ops = Fuel /\
     exists before i k after results s1 n s2 u, ops = before ++ (i, k) :: after /\
     shared_reads rd s (fun _ => ([], None)) before results s1 /\ starves rd k n s1 s2 u /\ (fuel <= n + 1)%nat).
Proof. exact C135_exact_lemma. Qed.
Print Assumptions C135_exact_partial.
(** True over readers that hand out pieces of whole characters which fit the client's buffers. *)
Theorem C135_pieces_partial :
  forall grow (RS : Type) (rd : RS -> Z -> list Z * option error * RS), fits_buffer rd ->
  forall fuel s room rs e ops, piecewise room rd s rs e -> 0 < room -> Forall (fun o => room <= snd o) ops -> (2 <= fuel)%nat ->
  exists results s', reads_in_turn grow rd fuel (fun _ => NewReader s) s ops = Ok (results, s') /\
    is_prefix (concat (map fst results)) (utf8 rs) /\
    Forall (fun x => snd x = None /\ fst x <> [] \/ x = ([], Some e) /\ concat (map fst results) = utf8 rs) results.
Proof. exact C135_pieces_lemma. Qed.
Print Assumptions C135_pieces_partial.
(* a reader that hands out 가 and then A, to two Readers *)
Definition two_pieces (s : nat) (k : Z) : list Z * option error * nat :=
  if k <? 2 then ([], None, s) else
  match s with
  | 2%nat => ([0xB0; 0xA1], None, 1%nat)
  | 1%nat => ([0x41], None, 0%nat)
  | _ => ([], Some EOF, s)
  end.
Example C135_case : fits_buffer two_pieces /\ piecewise 3 two_pieces 2%nat [0xAC00; 0x41] EOF /\
  reads_in_turn double two_pieces 9 (fun _ => NewReader 2%nat) 2%nat [(0%nat, 3); (1%nat, 3); (0%nat, 4); (1%nat, 3)] =
    Ok ([(utf8 [0xAC00], None); ([0x41], None); ([], Some EOF); ([], Some EOF)], 0%nat).
Proof.
  split; [|split].
  - intros s sp Hsp. unfold two_pieces. destruct (Z.ltb_spec sp 2).
    + cbn. split; [exact Hsp|constructor].
    + destruct s as [|[|[|s]]]; cbn [fst]; (split; [cbn; lia|]); repeat constructor; discriminate.
  - assert (forall k, 3 <= k -> (k <? 2) = false) as Hk by (intros; apply Z.ltb_ge; lia).
    change [0xAC00; 0x41] with ([0xAC00] ++ [0x41]).
    eapply (piecewise_more 3 two_pieces 2%nat [0xAC00] [0x41] [0xB0; 0xA1] 1%nat EOF);
      [intros k H; unfold two_pieces; rewrite (Hk k H); reflexivity| |discriminate|discriminate|].
    { apply dec_code; [lia|lia|apply assigned_by; vm_compute; reflexivity|constructor]. }
    change (piecewise 3 two_pieces 1%nat ([0x41] ++ []) EOF).
    eapply (piecewise_more 3 two_pieces 1%nat [0x41] [] [0x41] 0%nat EOF);
      [intros k H; unfold two_pieces; rewrite (Hk k H); reflexivity| |discriminate|discriminate|].
    { apply dec_ascii; [lia|constructor]. }
    apply piecewise_end. intros k H. unfold two_pieces. rewrite (Hk k H). reflexivity.
  - vm_compute. reflexivity.
Qed.
