(** Properties of goroutines that use different parts of the same arrays (SpecCells.v). *)
From Coq Require Import String ZArith List Bool Lia.
From Verif Require Import Base Spec SpecCp949 SpecIO Utf8 Cp949Model GoLang GoSource GoThreads SourceSpec SpecThreads SpecCells
  ThreadWrong CellGoroutines CellCases.
Import ListNotations.
Local Open Scope list_scope.
Local Open Scope Z_scope.
Local Open Scope go_scope.

(** * C148 Goroutines that use different parts of the same arrays behave as if they were alone *)
Theorem C148_parts_independent : forall E rd wr grow n A O (ts : list (worker E)) outs,
  separate_parts A O ts ->
  Forall2 (fun t out => alone grow E rd wr n (k_ops t) [] (mkState E A O (k_ext t)) = Ok out) ts outs ->
  exists N, forall k c, pool_steps E rd wr k (start_workers grow n A O ts) c ->
    (k <= N)%nat /\ (finished c \/ exists c', pool_step E rd wr c c') /\ ~ cell_race c /\
    (length A <= length (p_arrs E c))%nat /\
    (forall l, (l < length A)%nat -> zlen (array (p_arrs E c) l) = zlen (array A l) /\
       forall z, ~ owned ts l z -> zget (array (p_arrs E c) l) z = zget (array A l) z) /\
    (finished c -> forall i t v s, nth_error ts i = Some t -> nth_error outs i = Some (v, s) ->
       exists v', nth_error (p_procs E c) i = Some (Done (Ok v'), ext E s) /\
         looks_same_in (length A) (fun l z => owns t l z \/ ~ owned ts l z) (fun l => In l (k_objs t) \/ fieldless O l)
           (arrs E s) (objs E s) v (p_arrs E c) (p_objs E c) v').
Proof. exact parts_independent. Qed.
Print Assumptions C148_parts_independent.
(** One array of 12 bytes: the first goroutine decodes the bytes 8 to 10 into the bytes 0 to 3
    and looks at them, the second one reads a stream through a Reader into the bytes 4 to 7.  The
    capacity of both destinations reaches to the end of the array. *)
Definition ex_shared : nat := S (length m_multiElements).
Definition ex_cells : list (list Z) := ([] :: map snd m_multiElements) ++ [[0; 0; 0; 0; 0; 0; 0; 0; 0xB0; 0xA1; 0x41; 9]].
Definition ex_structs : list (string * list (string * val)) := [("cp949Decoder"%string, []); ("cp949Encoder"%string, [])].
Definition ex_workers : list (worker (list Z)) :=
  [mkWorker [CallOp Cp949 "cp949Decoder.Transform" [Const (VPtr 0); Const (VSlice ex_shared 0 4 12); Const (VSlice ex_shared 8 3 4); Const (VBool true)];
             PeekOp (Const (VSlice ex_shared 0 4 12))] [(ex_shared, (0, 4))] [] [];
   mkWorker [CallOp Cp949 "NewReader" [Const (VExt 0)]; CallOp Cp949 "cp949Reader.Read" [Prev 0 0; Const (VSlice ex_shared 4 4 8)];
             PeekOp (Const (VSlice ex_shared 4 4 8))] [(ex_shared, (4, 8))] [] [0xB0; 0xA1]].
Example C148_case :
  separate_parts ex_cells ex_structs ex_workers /\
  map (fun t => v_of (alone dbl (list Z) str_rd str_wr 40 (k_ops t) [] (mkState (list Z) ex_cells ex_structs (k_ext t)))) ex_workers =
    [Some (VTuple [VTuple [VInt 4; VInt 3; VErr None]; VStr [0xEA; 0xB0; 0x80; 0x41]]);
     Some (VTuple [VTuple [VPtr 3; VErr None]; VTuple [VInt 3; VErr None]; VStr [0xEA; 0xB0; 0x80; 0]])].
Proof.
  split; [|vm_compute; reflexivity]. split; [exists [[0; 0; 0; 0; 0; 0; 0; 0; 0xB0; 0xA1; 0x41; 9]]; reflexivity|].
  assert (Hl : (length m_multiElements < ex_shared < length ex_cells)%nat) by (vm_compute; lia).
  assert (Hz : zlen (array ex_cells ex_shared) = 12) by (vm_compute; reflexivity).
  split.
  { intros [|[|[|i]]] [|[|[|j]]] t u l z Hij; cbn [nth_error]; try (intros; discriminate || contradiction);
      intros [= <-] [= <-] (lo & hi & [Ha|[]] & Hz1) (lo' & hi' & [Hb|[]] & Hz2); injection Ha as _ ? ?; injection Hb as _ ? ?; lia. }
  split; [constructor|].
  intros t [<-|[<-|[]]]; cbn [k_parts k_objs k_ops].
  - split; [intros l lo hi [[= <- <- <-]|[]]; rewrite Hz; lia|]. split; [intros l []|].
    apply usable_cons with (u := Own); [exists [Own; Dst; Src; Own]; split; [reflexivity|]|].
    { constructor; [right; exists "cp949Decoder"%string; reflexivity|].
      constructor; [|constructor; [|constructor; [exact I|constructor]]]; cbn [arg_usable may_use]; (split; [lia|]); (split; [lia|]); (split; [lia|]).
      - left. exists 0, 4. cbn. split; [auto|lia].
      - right. right. split; [reflexivity|]. intros i Hi (t & [<-|[<-|[]]] & lo & hi & [Ha|[]] & Hz1); injection Ha as ? ?; lia. }
    apply usable_cons with (u := Own); [|constructor]. split; [|reflexivity].
    split; [lia|]. split; [lia|]. split; [lia|]. left. exists 0, 4. cbn. split; [auto|lia].
  - split; [intros l lo hi [[= <- <- <-]|[]]; rewrite Hz; lia|]. split; [intros l []|].
    apply usable_cons with (u := Own); [exists [Own]; split; [reflexivity|repeat constructor]|].
    apply usable_cons with (u := Own); [exists [Own; Dst]; split; [reflexivity|]|].
    { constructor; [exists Own; split; [reflexivity|exact I]|]. constructor; [|constructor].
      split; [lia|]. split; [lia|]. split; [lia|]. left. exists 4, 8. cbn. split; [auto|lia]. }
    apply usable_cons with (u := Own); [|constructor]. split; [|reflexivity].
    split; [lia|]. split; [lia|]. split; [lia|]. left. exists 4, 8. cbn. split; [auto|lia].
Qed.

(** * C149 Calls of Transform that write to different parts of one buffer *)
Theorem C149_concurrent_transforms : exists f, char_code f /\
  forall grow E rd wr A O (js : list (job E)), hangul_memory A -> Forall (job_ok A O) js -> jobs_apart js ->
  exists N, forall n, (N <= n)%nat -> exists M, forall k c, pool_steps E rd wr k (start_jobs grow n A O js) c ->
    (k <= M)%nat /\ (finished c \/ exists c', pool_step E rd wr c c') /\ ~ cell_race c /\
    (forall l, (l < length A)%nat -> zlen (array (p_arrs E c) l) = zlen (array A l) /\
       forall i, (forall j, In j js -> ~ cell_of (j_dst j) l i) -> zget (array (p_arrs E c) l) i = zget (array A l) i) /\
    (finished c -> forall a j dst src, nth_error js a = Some j -> slice_holds A (j_dst j) dst -> slice_holds A (j_src j) src ->
       exists nDst nSrc err dst',
         nth_error (p_procs E c) a = Some (Done (Ok (VTuple [VTuple [VInt nDst; VInt nSrc; VErr err]])), j_ext j) /\
         slice_holds (p_arrs E c) (j_dst j) dst' /\ transform_result f (j_encode j) dst src nDst nSrc err dst').
Proof. exact transforms_code. Qed.
Print Assumptions C149_concurrent_transforms.
(* one call decodes bytes 8 to 10 into bytes 0 to 3, another encodes the bytes 10 and 11 into
   bytes 4 to 7, and a third one decodes a byte of another array in place *)
Definition ex_jobs : list (job unit) :=
  [mkJob false 0 (VSlice ex_shared 0 4 12) (VSlice ex_shared 8 3 4) true tt;
   mkJob true 1 (VSlice ex_shared 4 4 8) (VSlice ex_shared 10 2 2) true tt;
   mkJob false 0 (VSlice (S ex_shared) 0 2 3) (VSlice (S ex_shared) 1 1 2) true tt].
Definition ex_cells2 : list (list Z) := ex_cells ++ [[7; 0x41; 9]].
Example C149_case :
  let A := ex_cells2 in
  hangul_memory A /\ Forall (job_ok A ex_structs) ex_jobs /\ jobs_apart ex_jobs.
Proof.
  cbv zeta. split; [exists [[0; 0; 0; 0; 0; 0; 0; 0; 0xB0; 0xA1; 0x41; 9]; [7; 0x41; 9]]; reflexivity|]. split.
  - assert (H1 : (ex_shared < length ex_cells2)%nat) by (vm_compute; lia).
    assert (H2 : (S ex_shared < length ex_cells2)%nat) by (vm_compute; lia).
    assert (A1 : array ex_cells2 ex_shared = [0; 0; 0; 0; 0; 0; 0; 0; 0xB0; 0xA1; 0x41; 9]) by (vm_compute; reflexivity).
    assert (A2 : array ex_cells2 (S ex_shared) = [7; 0x41; 9]) by (vm_compute; reflexivity).
    assert (H0 : (length m_multiElements < ex_shared)%nat) by (vm_compute; lia).
    constructor; [|constructor; [|constructor; [|constructor]]]; unfold job_ok; cbn [j_this j_dst j_src cell_of slice_holds]; rewrite ?A1, ?A2; unfold zlen; cbn [length Z.of_nat].
    + split; [exists "cp949Decoder"%string; reflexivity|]. split; [eexists; do 4 (split; [lia|]); reflexivity|].
      split; [exists [0xB0; 0xA1; 0x41]; split; [do 4 (split; [lia|]); reflexivity|repeat constructor; unfold is_byte; lia]|].
      split; [intros l i [-> _]; exact H0|]. left. lia.
    + split; [exists "cp949Encoder"%string; reflexivity|]. split; [eexists; do 4 (split; [lia|]); reflexivity|].
      split; [exists [0x41; 9]; split; [do 4 (split; [lia|]); reflexivity|repeat constructor; unfold is_byte; lia]|].
      split; [intros l i [-> _]; exact H0|]. left. lia.
    + split; [exists "cp949Decoder"%string; reflexivity|]. split; [eexists; do 4 (split; [lia|]); reflexivity|].
      split; [exists [0x41]; split; [do 4 (split; [lia|]); reflexivity|repeat constructor; unfold is_byte; lia]|].
      split; [intros l i [-> _]; lia|]. right. intros l i [-> Hi]. split; [reflexivity|lia].
  - intros [|[|[|[|a]]]] [|[|[|[|b]]]] j k l i Hab; cbn [nth_error ex_jobs]; try (intros; discriminate || contradiction);
      intros [= <-] [= <-]; cbn [j_dst j_src cell_of]; intros [-> Hi]; split; intros [Hl Hj]; try lia.
Qed.
