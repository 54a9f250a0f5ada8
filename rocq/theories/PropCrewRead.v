(** Properties of goroutines whose Readers are on top of one reader of messages (SpecCrewRead.v). *)
From Coq Require Import String ZArith List Bool Lia.
From Verif Require Import Base Spec SpecCp949 SpecIO Cp949Model GoLang GoSource GoThreads SourceSpec SpecThreads SpecCells SpecAgents SpecCrew SpecCrewRead
  ThreadWrong Cp949Facts2 CrewReaders CrewWrong CrewStream.
Import ListNotations.
Local Open Scope list_scope.
Local Open Scope Z_scope.

(** * C160 Readers over one reader of messages: each message goes to one goroutine, which reads
      its text *)
Theorem C160_shared_readers : forall grow e wr room A O q (gs : list (list (nat * (Z * Z)) * (nat * list val))),
  0 < room -> Forall (fun m => decodes (fst m) (snd m) /\ snd m <> [] /\ zlen (fst m) <= room) q ->
  (forall i y bs, snd (wr i y bs) = y) ->
  separate_parts A O (map fst (reader_crew gs)) ->
  Forall (fun g => Forall (fun v => (exists old, slice_holds A v old) /\ room <= len_of v /\
    may_use A O (map fst (reader_crew gs)) (mkWorker [] (fst g) [] tt) Dst v) (snd (snd g))) gs ->
  exists N, forall n, (N <= n)%nat -> exists bound, forall m log c,
    crew_steps messages (message_rd e) wr m (start_crew grow n A O q (reader_crew gs)) log c ->
    (m <= bound)%nat /\ (crew_finished c \/ exists l c', crew_step messages (message_rd e) wr c l c') /\ ~ crew_race c /\
    received log ++ c_ext c = q /\
    (forall l, (l < length A)%nat -> zlen (array (c_arrs c) l) = zlen (array A l) /\
       forall z, ~ owned (map fst (reader_crew gs)) l z -> zget (array (c_arrs c) l) z = zget (array A l) z) /\
    (crew_finished c -> forall i g, nth_error gs i = Some g -> exists p outs rest,
       nth_error (c_procs c) i = Some (Done (Ok (VTuple (VTuple [VPtr p; VErr None] :: flat_map seen_read outs)))) /\
       outs = read_results e [] false (map len_of (snd (snd g))) (calls_of i log) /\
       length outs = length (snd (snd g)) /\
       (forall es call, calls_of i log = es ++ [call] -> (length (read_results e [] false (map len_of (snd (snd g))) es) < length (snd (snd g)))%nat) /\
       utf8 (concat (map snd (received (calls_of i log)))) = concat (map fst outs) ++ rest /\
       (forall bs er, In (bs, er) outs -> (er = None /\ bs <> []) \/ (er = Some e /\ bs = [] /\ rest = []))).
Proof. exact shared_readers. Qed.
Print Assumptions C160_shared_readers.
(** Two goroutines read twice into their halves of one array; the messages are a syllable with
    a letter, and a letter.  What the first one sees if it receives both, one, or none. *)
Definition ex_place : nat := S (length m_multiElements).
Definition ex_memory : list (list Z) := ([] :: map snd m_multiElements) ++ [[0; 0; 0; 0; 0; 0; 0; 0]].
Definition ex_messages : messages := [([0xB0; 0xA1; 0x41], [0xAC00; 0x41]); ([0x42], [0x42])].
Definition ex_crew : list (list (nat * (Z * Z)) * (nat * list val)) :=
  [([(ex_place, (0, 4))], (0%nat, [VSlice ex_place 0 3 8; VSlice ex_place 0 3 4; VSlice ex_place 1 3 3]));
   ([(ex_place, (4, 8))], (1%nat, [VSlice ex_place 4 4 4]))].
Definition ex_wr (i : nat) (q : messages) (bs : list Z) : Z * option error * messages := (zlen bs, None, q).
Definition ex_seen (states : list messages) : option (val * list ask) :=
  match with_others messages (message_rd EOF) ex_wr ex_messages dbl 60 ex_memory [] (reading 0 [VSlice ex_place 0 3 8; VSlice ex_place 0 3 4; VSlice ex_place 1 3 3]) states with
  | Ok (v, s) => Some (v, snd (ext _ s))
  | _ => None
  end.
Example C160_case :
  Forall (fun m => decodes (fst m) (snd m) /\ snd m <> [] /\ zlen (fst m) <= 3) ex_messages /\
  separate_parts ex_memory [] (map fst (reader_crew ex_crew)) /\
  Forall (fun g => Forall (fun v => (exists old, slice_holds ex_memory v old) /\ 3 <= len_of v /\
    may_use ex_memory [] (map fst (reader_crew ex_crew)) (mkWorker [] (fst g) [] tt) Dst v) (snd (snd g))) ex_crew /\
  map ex_seen [[ex_messages; [([0x42], [0x42])]]; [[([0x42], [0x42])]; []]; [[]]] =
    [Some (VTuple [VTuple [VPtr 1; VErr None]; VTuple [VInt 3; VErr None]; VStr [0xEA; 0xB0; 0x80]; VTuple [VInt 1; VErr None]; VStr [0x41];
             VTuple [VInt 1; VErr None]; VStr [0x42]], [AskRead 0 3; AskRead 0 3]);
     Some (VTuple [VTuple [VPtr 1; VErr None]; VTuple [VInt 1; VErr None]; VStr [0x42]; VTuple [VInt 0; VErr (Some EOF)]; VStr [];
             VTuple [VInt 0; VErr (Some EOF)]; VStr []], [AskRead 0 3; AskRead 0 3]);
     Some (VTuple [VTuple [VPtr 1; VErr None]; VTuple [VInt 0; VErr (Some EOF)]; VStr []; VTuple [VInt 0; VErr (Some EOF)]; VStr [];
             VTuple [VInt 0; VErr (Some EOF)]; VStr []], [AskRead 0 3])].
Proof.
  assert (Hl : (length m_multiElements < ex_place < length ex_memory)%nat) by (vm_compute; lia).
  assert (Hz : zlen (array ex_memory ex_place) = 8) by (vm_compute; reflexivity).
  split; [|split; [|split]].
  - constructor; [|constructor; [|constructor]]; cbn [fst snd]; (split; [|split; [discriminate|vm_compute; discriminate]]).
    + apply dec_code; [lia|lia|apply assigned_by; vm_compute; reflexivity|]. apply dec_ascii; [lia|constructor].
    + apply dec_ascii; [lia|constructor].
  - split; [exists [[0; 0; 0; 0; 0; 0; 0; 0]]; reflexivity|].
    split.
    { intros [|[|[|i]]] [|[|[|j]]] t u l z Hij; cbn [nth_error map reader_crew ex_crew fst]; try (intros; discriminate || contradiction);
        intros [= <-] [= <-] (lo & hi & [Ha|[]] & Hz1) (lo' & hi' & [Hb|[]] & Hz2); injection Ha as _ ? ?; injection Hb as _ ? ?; lia. }
    split; [constructor|].
    intros t [<-|[<-|[]]]; cbn [k_parts k_objs k_ops fst]; (split; [intros l lo hi [[= <- <- <-]|[]]; rewrite Hz; lia|]); (split; [intros l []|constructor]).
  - assert (Hv : forall t o n c, 3 <= n <= c -> 0 <= o -> o + c <= 8 -> forall lo hi, In (ex_place, (lo, hi)) (k_parts t) -> lo <= o -> o + n <= hi ->
        (exists old, slice_holds ex_memory (VSlice ex_place o n c) old) /\ 3 <= len_of (VSlice ex_place o n c) /\
        may_use ex_memory [] (map fst (reader_crew ex_crew)) t Dst (VSlice ex_place o n c)).
    { intros t o n c Hn Ho Hc lo hi Hin H1 H2. cbn [len_of]. split; [|split; [lia|]].
      - eexists. split; [apply Hl|]. rewrite Hz. repeat (split; [lia|]). reflexivity.
      - split; [apply Hl|]. split; [lia|]. split; [lia|]. left. exists lo, hi. cbn [extent]. auto. }
    constructor; [|constructor; [|constructor]]; cbn [fst snd ex_crew]; repeat (apply Forall_cons); try apply Forall_nil;
      (eapply Hv; [| | |left; reflexivity| |]; lia).
  - vm_compute. reflexivity.
Qed.

(** * C161 Readers over one stream: together they read all of its text (refuted: the halves of
      a character may go to different Readers, and then nobody reads it; C160 for messages of
      whole characters) *)
Theorem C161_refuted : exists q text grow n A (gs : list (list (nat * (Z * Z)) * (nat * list val))) m log c,
  decodes (concat (map fst q)) text /\ text <> [] /\
  separate_parts A [] (map fst (reader_crew gs)) /\ (2 <= length gs)%nat /\
  crew_steps messages (message_rd EOF) quiet_wr m (start_crew grow n A [] q (reader_crew gs)) log c /\ crew_finished c /\ c_ext c = [] /\
  Forall (fun x => exists p, x = Done (Ok (VTuple (VTuple [VPtr p; VErr None] :: flat_map seen_read [([], Some EOF)])))) (c_procs c).
Proof. exact halves_lost. Qed.
Print Assumptions C161_refuted.
(** What holds: every goroutine reads the text of the bytes that its own Reader received, in
    order; what is lost is the bytes since the Reader has last had whole characters, if it comes
    to the end of the stream inside a character. *)
Theorem C161_partial : forall grow s e give early A O (gs : list (list (nat * (Z * Z)) * (nat * list val))),
  Forall is_byte s ->
  separate_parts A O (map fst (reader_crew gs)) ->
  Forall (fun g => Forall (fun v => (exists old, slice_holds A v old) /\ 0 < len_of v /\
    may_use A O (map fst (reader_crew gs)) (mkWorker [] (fst g) [] tt) Dst v) (snd (snd g))) gs ->
  exists N, forall n, (N <= n)%nat -> exists bound, forall m log c,
    crew_steps nat (stream_rd s e give early) (stream_wr s) m (start_crew grow n A O 0%nat (reader_crew gs)) log c ->
    (m <= bound)%nat /\ (crew_finished c \/ exists l c', crew_step nat (stream_rd s e give early) (stream_wr s) c l c') /\ ~ crew_race c /\
    Forall (fun call => exists g k, nth_error gs (n_who call) = Some g /\ n_ask call = AskRead (fst (snd g)) k /\ 0 < k) log /\
    bytes_of s e give early log ++ skipn (c_ext c) s = s /\
    (forall l, (l < length A)%nat -> zlen (array (c_arrs c) l) = zlen (array A l) /\
       forall z, ~ owned (map fst (reader_crew gs)) l z -> zget (array (c_arrs c) l) z = zget (array A l) z) /\
    (crew_finished c -> forall i g, nth_error gs i = Some g -> exists p outs a lost rs rest,
       nth_error (c_procs c) i = Some (Done (Ok (VTuple (VTuple [VPtr p; VErr None] :: flat_map seen_read outs)))) /\
       length outs = length (snd (snd g)) /\
       bytes_of s e give early (calls_of i log) = a ++ lost /\ decodes a rs /\ utf8 rs = concat (map fst outs) ++ rest /\
       (lost <> [] -> truncated lost /\ In ([], Some e) outs) /\
       (forall bs er, In (bs, er) outs -> (er = None /\ bs <> []) \/ (er = Some e /\ bs = [] /\ rest = []))).
Proof. exact stream_readers. Qed.
Print Assumptions C161_partial.
(** The goroutines of C160_case, and a stream of a letter and two syllables in pieces of two
    bytes.  The first goroutine gets the first two pieces; or the first one and the last byte. *)
Definition ex_stream : list Z := [0x41; 0xB0; 0xA1; 0xB0; 0xA1].
Definition ex_seen2 (states : list nat) : option (val * list ask) :=
  match with_others nat (stream_rd ex_stream EOF (fun _ _ => 2) true) (stream_wr ex_stream) 5%nat dbl 60 ex_memory []
    (reading 0 [VSlice ex_place 0 3 8; VSlice ex_place 0 3 4; VSlice ex_place 1 3 3]) states with
  | Ok (v, s) => Some (v, snd (ext _ s))
  | _ => None
  end.
Example C161_case :
  Forall is_byte ex_stream /\ separate_parts ex_memory [] (map fst (reader_crew ex_crew)) /\
  Forall (fun g => Forall (fun v => (exists old, slice_holds ex_memory v old) /\ 0 < len_of v /\
    may_use ex_memory [] (map fst (reader_crew ex_crew)) (mkWorker [] (fst g) [] tt) Dst v) (snd (snd g))) ex_crew /\
  map ex_seen2 [[0; 2; 4]; [0; 4]]%nat =
    [Some (VTuple [VTuple [VPtr 1; VErr None]; VTuple [VInt 3; VErr None]; VStr [0x41; 0xEA; 0xB0]; VTuple [VInt 3; VErr None]; VStr [0x80; 0xEA; 0xB0];
             VTuple [VInt 1; VErr None]; VStr [0x80]], [AskRead 0 3; AskRead 0 4; AskRead 0 8]);
     Some (VTuple [VTuple [VPtr 1; VErr None]; VTuple [VInt 3; VErr None]; VStr [0x41; 0xEA; 0xB0]; VTuple [VInt 1; VErr None]; VStr [0x80];
             VTuple [VInt 0; VErr (Some EOF)]; VStr []], [AskRead 0 3; AskRead 0 4])].
Proof.
  split; [unfold ex_stream; repeat constructor; lia|]. split; [apply C160_case|]. split; [|vm_compute; reflexivity].
  eapply Forall_impl; [|apply C160_case]. intros g H. cbv beta in *. eapply Forall_impl; [|exact H]. intros v (H1 & H2 & H3). split; [exact H1|]. split; [lia|exact H3].
Qed.
