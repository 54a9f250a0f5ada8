(** Properties of goroutines whose Readers and Writers are on top of the same readers and
    writers (SpecCrew.v). *)
From Coq Require Import String ZArith List Bool Lia.
From Verif Require Import Base Spec SpecIO Cp949Model GoLang GoSource GoThreads SourceSpec SpecThreads SpecCells SpecAgents SpecCrew
  ThreadWrong Utf8Facts CrewFacts CrewWriters.
Import ListNotations.
Local Open Scope list_scope.
Local Open Scope Z_scope.
Local Open Scope go_scope.

(** * C154 Goroutines over the same readers and writers: each does what it would do alone, if
      its calls found the readers and writers in the same states *)
Theorem C154_shared_independent : forall E rd wr grow n A O x0 (I : E -> Prop) (cs : list (worker unit * code)),
  I x0 -> (forall x a, I x -> I (after E rd wr x a)) ->
  separate_parts A O (map fst cs) ->
  Forall (fun x => code_usable A O (map fst cs) (fst x) [] (snd x)) cs ->
  (forall t states, In t cs -> Forall I states -> with_others E rd wr x0 grow n A O (snd t) states <> Fuel) ->
  exists N, forall k log c, crew_steps E rd wr k (start_crew grow n A O x0 cs) log c ->
    (k <= N)%nat /\ (crew_finished c \/ exists l c', crew_step E rd wr c l c') /\ ~ crew_race c /\
    conversation E rd wr x0 log (c_ext c) /\
    (length A <= length (c_arrs c))%nat /\
    (forall l, (l < length A)%nat -> zlen (array (c_arrs c) l) = zlen (array A l) /\
       forall z, ~ owned (map fst cs) l z -> zget (array (c_arrs c) l) z = zget (array A l) z) /\
    (crew_finished c -> forall i t, nth_error cs i = Some t ->
       match with_others E rd wr x0 grow n A O (snd t) (map n_at (calls_of i log)) with
       | Ok (v, s) => snd (ext _ s) = map n_ask (calls_of i log) /\
           exists v', nth_error (c_procs c) i = Some (Done (Ok v')) /\
             looks_same_in (length A) (fun l z => owns (fst t) l z \/ ~ owned (map fst cs) l z) (fun l => In l (k_objs (fst t)) \/ fieldless O l)
               (arrs _ s) (objs _ s) v (c_arrs c) (c_objs c) v'
       | _ => nth_error (c_procs c) i = Some (Done Panic)
       end).
Proof. exact shared_independent. Qed.
Print Assumptions C154_shared_independent.
(** Two goroutines have Readers over one reader, which delivers a single byte before its end;
    they read twice into the halves of one array, and the second time only if there was no
    error.  Whoever comes first gets the byte. *)
Definition ex_place : nat := S (length m_multiElements).
Definition ex_memory : list (list Z) := ([] :: map snd m_multiElements) ++ [[0; 0; 0; 0; 0; 0; 0; 0]].
Fixpoint ex_reads (v : val) (k : nat) : code :=
  match k with
  | O => Stop
  | S k => Act (CallOp Cp949 "cp949Reader.Read" [Prev 0 0; Const v])
      (fun r => match r with VTuple [VInt _; VErr None] => ex_reads v k | _ => Stop end)
  end.
Definition ex_reading (v : val) : code := Act (CallOp Cp949 "NewReader" [Const (VExt 0)]) (fun _ => ex_reads v 2).
Definition ex_read1 (i : nat) (more : bool) (n : Z) : Z * list Z * option error * bool :=
  if more then (1, [65], None, false) else (0, [], Some EOF, false).
Definition ex_write1 (i : nat) (more : bool) (bs : list Z) : Z * option error * bool := (zlen bs, None, more).
Definition ex_readers : list (worker unit * code) :=
  [(mkWorker [] [(ex_place, (0, 4))] [] tt, ex_reading (VSlice ex_place 0 4 8));
   (mkWorker [] [(ex_place, (4, 8))] [] tt, ex_reading (VSlice ex_place 4 4 4))].
Definition ex_outcome {E} (r : res (val * state (list E * list ask))) : res (val * list ask) :=
  match r with Ok (v, s) => Ok (v, snd (ext _ s)) | Panic => Panic | Fuel => Fuel end.
Definition ex_ends {A} (r : res A) : bool := match r with Fuel => false | _ => true end.
Lemma ex_ends_spec {A} (r : res A) : ex_ends r = true -> r <> Fuel.
Proof. now intros H ->. Qed.
Lemma ex_reading_usable t lo : In (ex_place, (lo, lo + 4)) (k_parts t) -> 0 <= lo -> forall c, 4 <= c ->
  code_usable ex_memory [] (map fst ex_readers) t [] (ex_reading (VSlice ex_place lo 4 c)).
Proof.
  intros Hp Hlo c Hc. assert (Hl : (ex_place < length ex_memory)%nat) by (vm_compute; lia).
  assert (Hv : forall u, u <> Own -> may_use ex_memory [] (map fst ex_readers) t u (VSlice ex_place lo 4 c)).
  { intros u Hu. split; [exact Hl|]. split; [lia|]. split; [lia|]. left. exists lo, (lo + 4). split; [exact Hp|]. destruct u; cbn [extent]; [contradiction|lia|lia]. }
  apply cu_act with (u := Own); [exists [Own]; split; [reflexivity|repeat constructor]|]. intros _. cbn [app].
  change [Own] with (Own :: []). generalize (@nil use) as us. generalize 2%nat as k. induction k as [|k IH]; intros us; cbn [ex_reads]; [constructor|].
  apply cu_act with (u := Own).
  - exists [Own; Dst]. split; [reflexivity|]. constructor; [exists Own; split; [reflexivity|exact I]|]. constructor; [now apply Hv|constructor].
  - intros w. destruct w as [| | | | | | | | | |[|[] [|[| | |[e|]| | | | | | |] [|]]]]; try constructor. apply IH.
Qed.
Example C154_case :
  separate_parts ex_memory [] (map fst ex_readers) /\
  Forall (fun x => code_usable ex_memory [] (map fst ex_readers) (fst x) [] (snd x)) ex_readers /\
  (forall t states, In t ex_readers -> with_others bool ex_read1 ex_write1 true dbl 40 ex_memory [] (snd t) states <> Fuel) /\
  map (fun states => ex_outcome (with_others bool ex_read1 ex_write1 true dbl 40 ex_memory [] (ex_reading (VSlice ex_place 0 4 8)) states)) [[true; false]; [false]] =
    [Ok (VTuple [VTuple [VPtr 1; VErr None]; VTuple [VInt 1; VErr None]; VTuple [VInt 0; VErr (Some EOF)]], [AskRead 0 4; AskRead 0 4]);
     Ok (VTuple [VTuple [VPtr 1; VErr None]; VTuple [VInt 0; VErr (Some EOF)]], [AskRead 0 4])].
Proof.
  split; [|split; [|split]].
  - split; [exists [[0; 0; 0; 0; 0; 0; 0; 0]]; reflexivity|].
    assert (Hl : (length m_multiElements < ex_place < length ex_memory)%nat) by (vm_compute; lia).
    assert (Hz : zlen (array ex_memory ex_place) = 8) by (vm_compute; reflexivity).
    split.
    { intros [|[|[|i]]] [|[|[|j]]] t u l z Hij; cbn [nth_error map ex_readers fst]; try (intros; discriminate || contradiction);
        intros [= <-] [= <-] (lo & hi & [Ha|[]] & Hz1) (lo' & hi' & [Hb|[]] & Hz2); injection Ha as _ ? ?; injection Hb as _ ? ?; lia. }
    split; [constructor|].
    intros t [<-|[<-|[]]]; cbn [k_parts k_objs k_ops fst]; (split; [intros l lo hi [[= <- <- <-]|[]]; rewrite Hz; lia|]); (split; [intros l []|constructor]).
  - constructor; [|constructor; [|constructor]]; apply ex_reading_usable; cbn; auto; lia.
  - intros t states [<-|[<-|[]]]; apply ex_ends_spec; destruct states as [|[|] [|[|] states]]; vm_compute; reflexivity.
  - vm_compute. reflexivity.
Qed.

(** * C155 Writers over one writer: it receives what each goroutine writes in its order, every
      Write in one piece *)
Theorem C155_shared_writers : exists f, char_code f /\
  forall grow E rd wr A O x0 (gs : list (nat * list val)), hangul_memory A ->
  Forall (fun g => Forall (fun v => exists data, slice_holds A v data /\ Forall is_byte data) (snd g)) gs ->
  exists N, forall n, (N <= n)%nat -> exists bound, forall m log c,
    crew_steps E rd wr m (start_crew grow n A O x0 (map (fun g => (mkWorker [] [] [] tt, writing (fst g) (snd g))) gs)) log c ->
    (m <= bound)%nat /\ (crew_finished c \/ exists l c', crew_step E rd wr c l c') /\ ~ crew_race c /\
    conversation E rd wr x0 log (c_ext c) /\
    (forall l, (l < length A)%nat -> array (c_arrs c) l = array A l) /\
    (crew_finished c -> forall i g, nth_error gs i = Some g -> exists p pairs,
       Forall2 (fun v q => slice_holds A v (fst q)) (snd g) pairs /\
       Forall (fun q => exists rs, reads_as (fst q) rs /\ snd q = flat_map f rs) pairs /\
       map n_ask (calls_of i log) = write_calls (fst g) pairs /\
       nth_error (c_procs c) i = Some (Done (Ok (VTuple (VTuple [VPtr p; VErr None] ::
         map (fun r => VTuple [VInt (fst r); VErr (snd r)]) (write_results wr (fst g) pairs (calls_of i log))))))).
Proof. exact shared_writers. Qed.
Print Assumptions C155_shared_writers.
(** Two goroutines write two chunks each, the second one an empty one, from one array to a
    writer that fails when it has received 4 bytes. *)
Definition ex_text : list (list Z) := ([] :: map snd m_multiElements) ++ [[0xEA; 0xB0; 0x80; 0x41]].
Definition ex_writers : list (nat * list val) :=
  [(0%nat, [VSlice ex_place 0 3 4; VSlice ex_place 3 1 1]); (0%nat, [VSlice ex_place 0 0 4; VSlice ex_place 0 4 4])].
Definition ex_limited (i : nat) (have : list Z) (bs : list Z) : Z * option error * list Z :=
  if zlen have + zlen bs <=? 4 then (zlen bs, None, have ++ bs) else (0, Some (ErrOther 28), have).
Example C155_case :
  hangul_memory ex_text /\
  Forall (fun g => Forall (fun v => exists data, slice_holds ex_text v data /\ Forall is_byte data) (snd g)) ex_writers /\
  write_calls 0 [([], []); ([0xEA; 0xB0; 0x80; 0x41], [0xB0; 0xA1; 0x41])] = [AskWrite 0 [0xB0; 0xA1; 0x41]] /\
  write_results ex_limited 0 [([], []); ([0xEA; 0xB0; 0x80; 0x41], [0xB0; 0xA1; 0x41])] [mkEntry 1 [] (AskWrite 0 [0xB0; 0xA1; 0x41])] = [(0, None); (4, None)] /\
  write_results ex_limited 0 [([], []); ([0xEA; 0xB0; 0x80; 0x41], [0xB0; 0xA1; 0x41])] [mkEntry 1 [0xB0; 0xA1] (AskWrite 0 [0xB0; 0xA1; 0x41])] = [(0, None); (0, Some (ErrOther 28))].
Proof.
  split; [exists [[0xEA; 0xB0; 0x80; 0x41]]; reflexivity|]. split; [|repeat split; vm_compute; reflexivity].
  assert (Hl : (ex_place < length ex_text)%nat) by (vm_compute; lia).
  assert (Hz : array ex_text ex_place = [0xEA; 0xB0; 0x80; 0x41]) by (vm_compute; reflexivity).
  assert (Hd : forall o n c, 0 <= o -> 0 <= n <= c -> o + c <= 4 -> exists data, slice_holds ex_text (VSlice ex_place o n c) data /\ Forall is_byte data).
  { intros o n c Ho Hn Hc. eexists. split.
    - cbn [slice_holds]. rewrite Hz. split; [exact Hl|]. change (zlen [0xEA; 0xB0; 0x80; 0x41]) with 4. repeat split; try lia.
    - apply Forall_ztake, Forall_zdrop. repeat constructor; lia. }
  repeat constructor; apply Hd; lia.
Qed.
