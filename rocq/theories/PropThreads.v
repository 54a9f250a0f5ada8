(** Properties of programs in which several goroutines use the packages at the same time.
    The sources are executed step by step (GoThreads.v): each access to an array or a struct is
    a step, and the goroutines take steps in any order.  [alone] executes a goroutine's
    operations without the others; [pool_steps k] is an execution of [k] steps (SpecThreads.v,
    where [separate], [race] and [looks_same] are defined as well). *)
From Coq Require Import String ZArith List Bool Lia.
From Verif Require Import Base Spec SpecCp949 SpecIO Utf8 Cp949Model GoLang GoSource GoThreads SourceSpec SpecThreads
  GoroutineFacts ThreadCases ThreadWrong.
Import ListNotations.
Local Open Scope list_scope.
Local Open Scope Z_scope.
Local Open Scope go_scope.

(** * C108 Goroutines that share nothing writable behave as if they were alone *)
Theorem C108_goroutines_independent : forall E rd wr grow n A O (ts : list (thread E)) outs,
  separate A O ts ->
  Forall2 (fun t out => alone grow E rd wr n (t_ops t) [] (mkState E A O (t_ext t)) = Ok out) ts outs ->
  exists N, forall k c, pool_steps E rd wr k (start grow n A O ts) c ->
    (k <= N)%nat /\ (finished c \/ exists c', pool_step E rd wr c c') /\ ~ race c /\
    (length A <= length (p_arrs E c))%nat /\ (forall l, read_only A ts l -> array (p_arrs E c) l = array A l) /\
    (finished c -> forall i t v s, nth_error ts i = Some t -> nth_error outs i = Some (v, s) ->
       exists v', nth_error (p_procs E c) i = Some (Done (Ok v'), ext E s) /\
         looks_same (fun l => In l (t_arrs t) \/ read_only A ts l) (fun l => In l (t_objs t) \/ fieldless O l)
           (arrs E s) (objs E s) v (p_arrs E c) (p_objs E c) v').
Proof. exact goroutines_independent. Qed.
Print Assumptions C108_goroutines_independent.
(** Three goroutines: one reads a stream through a Reader into its own buffer, the others
    convert the same bytes; the third writes into the slice it got. *)
Definition ex_memory : list (list Z) := ([] :: map snd m_multiElements) ++ [[0; 0; 0; 0]; [0xB0; 0xA1; 0x41]].
Definition ex_threads : list (thread (list Z)) :=
  [mkThread (open_and_read 4 ++ [PeekOp (Const (VSlice (buffer 0) 0 3 4))]) [buffer 0] [] [0xB0; 0xA1];
   mkThread [CallOp Cp949 "From" [Const (VSlice (buffer 1) 0 3 3)]; CallOp Cp949 "To" [Prev 0 0]; PeekOp (Prev 1 0)] [] [] [];
   mkThread [CallOp Cp949 "From" [Const (VSlice (buffer 1) 0 3 3)]; PutOp (Prev 0 0) [0x21]; PeekOp (Prev 0 0)] [] [] []].
Example C108_case :
  separate ex_memory [] ex_threads /\
  map (fun t => v_of (alone dbl (list Z) str_rd str_wr 40 (t_ops t) [] (mkState (list Z) ex_memory [] (t_ext t)))) ex_threads =
    [Some (VTuple [VTuple [VPtr 1; VErr None]; VTuple [VInt 3; VErr None]; VStr [0xEA; 0xB0; 0x80]]);
     Some (VTuple [VTuple [VSlice (buffer 2) 0 4 4; VErr None]; VTuple [VSlice (buffer 4) 0 3 4; VErr None]; VStr [0xB0; 0xA1; 0x41]]);
     Some (VTuple [VTuple [VSlice (buffer 2) 0 4 4; VErr None]; VNil; VStr [0x21; 0xB0; 0x80; 0x41]])].
Proof.
  split; [|vm_compute; reflexivity]. split; [exists [[0; 0; 0; 0]; [0xB0; 0xA1; 0x41]]; reflexivity|].
  split; [repeat constructor; auto|]. split; [constructor|].
  assert (Hb : (length m_multiElements < buffer 0 < length ex_memory)%nat) by (vm_compute; lia).
  assert (Hr : read_only ex_memory ex_threads (buffer 1)) by (vm_compute; split; [lia|intros [H|[]]; lia]).
  intros t [<-|[<-|[<-|[]]]]; cbn [t_arrs t_objs t_ops].
  - split; [intros l [<-|[]]; exact Hb|]. split; [intros l []|].
    apply ops_cons with (b := true); [exists [true]; split; [reflexivity|repeat constructor]|].
    apply ops_cons with (b := true); [exists [true; true]; split; [reflexivity|]|].
    { constructor; [exists true; auto|]. constructor; [|constructor]. left. left. reflexivity. }
    apply ops_cons with (b := true); [|constructor]. split; [|reflexivity]. left. left. reflexivity.
  - split; [intros l []|]. split; [intros l []|].
    apply ops_cons with (b := true); [exists [false]; split; [reflexivity|]|].
    { constructor; [|constructor]. right. auto. }
    apply ops_cons with (b := true); [exists [false]; split; [reflexivity|]|].
    { constructor; [|constructor]. exists true. auto. }
    apply ops_cons with (b := true); [|constructor]. split; [|reflexivity]. exists true. auto.
  - split; [intros l []|]. split; [intros l []|].
    apply ops_cons with (b := true); [exists [false]; split; [reflexivity|]|].
    { constructor; [|constructor]. right. auto. }
    apply ops_cons with (b := true); [split; [exists true; auto|reflexivity]|].
    apply ops_cons with (b := true); [|constructor]. split; [|reflexivity]. exists true. auto.
Qed.

(** Two goroutines make Decoders from one CP949Encoding. *)
Definition ex_encoding : list (thread unit) :=
  [mkThread [CallOp Cp949 "CP949Encoding.NewDecoder" [Const (VPtr 0)]] [] [] tt;
   mkThread [CallOp Cp949 "CP949Encoding.NewDecoder" [Const (VPtr 0)]; CallOp Cp949 "CP949Encoding.NewEncoder" [Const (VPtr 0)]] [] [] tt].
Example C108_case_shared : separate ex_memory [("CP949Encoding"%string, [])] ex_encoding.
Proof.
  split; [exists [[0; 0; 0; 0]; [0xB0; 0xA1; 0x41]]; reflexivity|]. split; [constructor|]. split; [constructor|].
  assert (Hf : fieldless [("CP949Encoding"%string, [])] 0) by (exists "CP949Encoding"%string; reflexivity).
  intros t Ht. split; [|split]; destruct Ht as [<-|[<-|[]]]; try (intros l []; fail); cbn [t_ops];
    repeat (apply ops_cons with (b := true); [exists [true]; split; [reflexivity|]; constructor; [right; exact Hf|constructor]|]); constructor.
Qed.

(** * C109 Conversions of shared bytes at the same time *)
Theorem C109_concurrent_conversions : exists f, char_code f /\
  forall grow E rd wr A O (cs : list (string * val * list Z * E)), hangul_memory A ->
  Forall (fun y => let '(g, v, data, _) := y in (g = "From" \/ g = "To")%string /\ slice_holds A v data /\ Forall is_byte data) cs ->
  exists N, forall n, (N <= n)%nat -> exists M, forall k c,
    pool_steps E rd wr k (start grow n A O (map (fun y => let '(g, v, _, x) := y in calling x [(Cp949, (g, [v]))]) cs)) c ->
    (k <= M)%nat /\ (finished c \/ exists c', pool_step E rd wr c c') /\ ~ race c /\ kept A (p_arrs E c) /\
    (finished c -> forall i g v data x, nth_error cs i = Some (g, v, data, x) ->
      exists out err, nth_error (p_procs E c) i = Some (Done (Ok (VTuple [VTuple [out; VErr err]])), x) /\
        (g = "From"%string ->
          (exists rs, decodes data rs /\ err = None /\ slice_holds (p_arrs E c) out (utf8 rs)) \/
          (truncated data /\ err = Some ErrCP949UnexpectedStream /\ out = VSlice 0 0 0 0)) /\
        (g = "To"%string -> exists rs, reads_as data rs /\ err = None /\ slice_holds (p_arrs E c) out (flat_map f rs))).
Proof. exact conversions_code. Qed.
Print Assumptions C109_concurrent_conversions.
(* two goroutines convert overlapping parts of one array *)
Example C109_case :
  let v := VSlice (buffer 1) 0 3 3 in let w := VSlice (buffer 1) 2 1 1 in
  Forall (fun y : string * val * list Z * unit =>
    let '(g, v, data, _) := y in (g = "From" \/ g = "To")%string /\ slice_holds ex_memory v data /\ Forall is_byte data)
    [("From"%string, v, [0xB0; 0xA1; 0x41], tt); ("To"%string, w, [0x41], tt)].
Proof.
  assert (Hl : (buffer 1 < length ex_memory)%nat) by (vm_compute; lia).
  assert (Ha : array ex_memory (buffer 1) = [0xB0; 0xA1; 0x41]) by (vm_compute; reflexivity).
  cbv zeta. constructor; [|constructor; [|constructor]]; (split; [auto|]; split; [cbn [slice_holds]; rewrite Ha; repeat split; (assumption || (vm_compute; congruence))|]);
    repeat constructor; unfold is_byte; lia.
Qed.

(** * C110 Calls of packages hangul and hanja at the same time *)
Theorem C110_concurrent_pure : exists F : package * (string * list val) -> val,
  (forall grow E rd wr c s, pure_call c -> hangul_memory (arrs E s) ->
     exists s', calls grow E rd wr (source (fst c)) (fst (snd c)) (snd (snd c)) s (F c) s') /\
  forall grow E rd wr A O (xs : list (E * list (package * (string * list val)))),
  hangul_memory A -> Forall (fun y => Forall pure_call (snd y)) xs ->
  exists N, forall n, (N <= n)%nat -> exists M, forall k c,
    pool_steps E rd wr k (start grow n A O (map (fun y => calling (fst y) (snd y)) xs)) c ->
    (k <= M)%nat /\ (finished c \/ exists c', pool_step E rd wr c c') /\ ~ race c /\ kept A (p_arrs E c) /\
    (finished c -> forall i x cs, nth_error xs i = Some (x, cs) ->
      nth_error (p_procs E c) i = Some (Done (Ok (VTuple (map F cs))), x)).
Proof. exact concurrent_pure_calls. Qed.
Print Assumptions C110_concurrent_pure.
Example C110_case :
  Forall (fun y : unit * list (package * (string * list val)) => Forall pure_call (snd y))
    [(tt, [(Hangul, ("Stroke"%string, [VInt 0xD55C])); (Hanja, ("Convert"%string, [VStr (utf8 [0x5927])]))]);
     (tt, [(Hangul, ("SplitMultiElement"%string, [VInt 0x3132]))])].
Proof. repeat constructor; cbn; tauto. Qed.

(** * C111 A Reader used by two goroutines: false that each byte is delivered once *)
Theorem C111_shared_reader_refuted :
  exists s, alone dbl (list Z) str_rd str_wr 40 (open_and_read 1) [] (mkState (list Z) (reader_memory 1) [] [0xB0; 0xA1]) =
    Ok (VTuple [VTuple [VPtr 1; VErr None]; VTuple [VInt 1; VErr None]], s) /\
  map (fun i => array (arrs _ s) (buffer i)) [0; 1; 2]%nat = [[0xEA]; [0]; [0]] /\
  (* one after the other *)
  (exists s', alone dbl (list Z) str_rd str_wr 40 [read_into 1 1; read_into 1 2] [] s =
     Ok (VTuple [VTuple [VInt 1; VErr None]; VTuple [VInt 1; VErr None]], s') /\
     map (fun i => array (arrs _ s') (buffer i)) [0; 1; 2]%nat = [[0xEA]; [0xB0]; [0x80]]) /\
  (* at the same time *)
  (exists k c, pool_steps (list Z) str_rd str_wr k (start dbl 40 (arrs _ s) (objs _ s) (two_readers 1 (ext _ s))) c /\
     finished c /\ map fst (p_procs _ c) = [Done (Ok (VTuple [VTuple [VInt 1; VErr None]])); Done (Ok (VTuple [VTuple [VInt 1; VErr None]]))] /\
     map (fun i => array (p_arrs _ c) (buffer i)) [0; 1; 2]%nat = [[0xEA]; [0xB0]; [0xB0]]) /\
  (exists k c, pool_steps (list Z) str_rd str_wr k (start dbl 40 (arrs _ s) (objs _ s) (two_readers 1 (ext _ s))) c /\ race c).
Proof. exact shared_reader. Qed.
Print Assumptions C111_shared_reader_refuted.
Theorem C111_shared_reader_panics_refuted :
  exists s, alone dbl (list Z) str_rd str_wr 40 (open_and_read 2) [] (mkState (list Z) (reader_memory 2) [] [0xB0; 0xA1]) =
    Ok (VTuple [VTuple [VPtr 1; VErr None]; VTuple [VInt 2; VErr None]], s) /\
  map (fun i => array (arrs _ s) (buffer i)) [0; 1; 2]%nat = [[0xEA; 0xB0]; [0]; [0]] /\
  (exists s', alone dbl (list Z) str_rd str_wr 40 [read_into 1 1; read_into 1 2] [] s =
     Ok (VTuple [VTuple [VInt 1; VErr None]; VTuple [VInt 0; VErr (Some EOF)]], s') /\
     map (fun i => array (arrs _ s') (buffer i)) [0; 1; 2]%nat = [[0xEA; 0xB0]; [0x80]; [0]]) /\
  exists k c x, pool_steps (list Z) str_rd str_wr k (start dbl 40 (arrs _ s) (objs _ s) (two_readers 1 (ext _ s))) c /\
     nth_error (p_procs _ c) 1 = Some (Done Panic, x).
Proof. exact shared_reader_panic. Qed.
Print Assumptions C111_shared_reader_panics_refuted.

(** * C112 Writing into the result of SplitMultiElement: false that this is the caller's own business *)
Theorem C112_shared_map_refuted :
  let A := [] :: map snd m_multiElements in
  (exists s, alone dbl unit no_rd no_wr 40 count_strokes [] (mkState unit A [] tt) = Ok (VTuple [VInt 2], s)) /\
  (exists k c, pool_steps unit no_rd no_wr k (start dbl 40 A [] (split_beside_stroke tt)) c /\ race c) /\
  exists k c, pool_steps unit no_rd no_wr k (start dbl 40 A [] (split_beside_stroke tt)) c /\
    finished c /\ map fst (p_procs _ c) = [Done (Ok (VTuple [VTuple [VSlice 1 0 2 2; VBool true]; VNil])); Done (Ok (VTuple [VInt 4]))].
Proof. exact shared_map. Qed.
Print Assumptions C112_shared_map_refuted.
