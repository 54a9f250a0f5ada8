(** Properties of goroutines that share a Decoder, an Encoder or a Writer (SpecShared.v). *)
From Coq Require Import String ZArith List Bool Lia.
From Verif Require Import Base Spec SpecCp949 SpecIO Cp949Model GoLang GoSource GoThreads SourceSpec SpecThreads SpecShared SharedFacts.
Import ListNotations.
Local Open Scope list_scope.
Local Open Scope Z_scope.
Local Open Scope go_scope.

(** * C124 One Decoder or Encoder may be used by many goroutines at the same time *)
Theorem C124_shared_transformers : exists f, char_code f /\
  forall grow E rd wr A O (js : list (job E)), hangul_memory A -> Forall (job_ok A O) js ->
  NoDup (map (fun j => array_of (j_dst j)) js) ->
  (forall j j', In j js -> In j' js -> array_of (j_src j) <> array_of (j_dst j')) ->
  exists N, forall n, (N <= n)%nat -> exists M, forall k c,
    pool_steps E rd wr k (start grow n A O (map transforming js)) c ->
    (k <= M)%nat /\ (finished c \/ exists c', pool_step E rd wr c c') /\ ~ race c /\
    (forall l, (l < length A)%nat -> (forall j, In j js -> l <> array_of (j_dst j)) -> array (p_arrs E c) l = array A l) /\
    (finished c -> forall i j, nth_error js i = Some j ->
      exists nDst nSrc err new,
        nth_error (p_procs E c) i = Some (Done (Ok (VTuple [VTuple [VInt nDst; VInt nSrc; VErr err]])), j_ext j) /\
        slice_holds (p_arrs E c) (j_dst j) new /\ outside_same A (p_arrs E c) (j_dst j) /\
        job_done f j nDst nSrc err new).
Proof. exact shared_transformers_code. Qed.
Print Assumptions C124_shared_transformers.
(* two goroutines use one Decoder for the same three bytes; the second one has not enough room *)
Definition shared_memory : list (list Z) :=
  ([] :: map snd m_multiElements) ++ [[0xB0; 0xA1; 0x41]; [0; 0; 0; 0; 7]; [9; 9]].
Definition shared_jobs : list (job unit) :=
  [mkJob true 0 (VSlice (buffer 1) 0 5 5) [0; 0; 0; 0; 7] (VSlice (buffer 0) 0 3 3) [0xB0; 0xA1; 0x41] true tt;
   mkJob true 0 (VSlice (buffer 2) 0 2 2) [9; 9] (VSlice (buffer 0) 0 3 3) [0xB0; 0xA1; 0x41] false tt].
Example C124_case :
  hangul_memory shared_memory /\ Forall (job_ok shared_memory [("cp949Decoder"%string, [])]) shared_jobs /\
  NoDup (map (fun j => array_of (j_dst j)) shared_jobs) /\
  (forall j j', In j shared_jobs -> In j' shared_jobs -> array_of (j_src j) <> array_of (j_dst j')).
Proof.
  split; [exists [[0xB0; 0xA1; 0x41]; [0; 0; 0; 0; 7]; [9; 9]]; reflexivity|]. split.
  - assert (Hb : forall x, In x [0xB0; 0xA1; 0x41] -> is_byte x) by (intros x [<-|[<-|[<-|[]]]]; unfold is_byte; lia).
    repeat (apply Forall_cons || apply Forall_nil);
      (split; [exists "cp949Decoder"%string; reflexivity|]; split; [vm_compute; repeat split; congruence || lia|];
       split; [vm_compute; lia|]; split; [vm_compute; repeat split; congruence || lia|]; apply Forall_forall; exact Hb).
  - split; [vm_compute; repeat constructor; cbn; lia|].
    intros j j' [<-|[<-|[]]] [<-|[<-|[]]]; vm_compute; lia.
Qed.

(** * C125 A Writer used by two goroutines: false that what both write gets written *)
Theorem C125_shared_writer_refuted :
  exists s, alone dbl (list Z) log_rd log_wr 40 open_and_write [] (mkState (list Z) writer_memory [] []) =
    Ok (VTuple [VTuple [VPtr 1; VErr None]; VTuple [VInt 2; VErr None]], s) /\ ext _ s = [0x41; 0x42] /\
  (* one after the other *)
  (exists s', alone dbl (list Z) log_rd log_wr 40 [write_from 1 1; write_from 1 2] [] s =
     Ok (VTuple [VTuple [VInt 1; VErr None]; VTuple [VInt 1; VErr None]], s') /\ ext _ s' = [0x41; 0x42] ++ [0x43] ++ [0x44]) /\
  (* at the same time: both report success, and both have written "D" *)
  (exists k c, pool_steps (list Z) log_rd log_wr k (start dbl 40 (arrs _ s) (objs _ s) (two_writers 1 (ext _ s))) c /\
     finished c /\ map fst (p_procs _ c) = [Done (Ok (VTuple [VTuple [VInt 1; VErr None]])); Done (Ok (VTuple [VTuple [VInt 1; VErr None]]))] /\
     map snd (p_procs _ c) = [ext _ s ++ [0x44]; ext _ s ++ [0x44]]) /\
  (exists k c, pool_steps (list Z) log_rd log_wr k (start dbl 40 (arrs _ s) (objs _ s) (two_writers 1 (ext _ s))) c /\ race c).
Proof. exact shared_writer. Qed.
Print Assumptions C125_shared_writer_refuted.
