(** Properties of goroutines that share a Reader or a Writer and hold a lock during each call
    (SpecLock.v).  Without the lock they are false: C111, C125. *)
From Coq Require Import String ZArith List Bool Lia.
From Verif Require Import Base Spec SpecCp949 SpecIO Cp949Model GoLang GoSource GoThreads Cp949Facts2 SourceSpec SourceFacts SourceFacts2 SpecThreads SpecLock LockStream.
Import ListNotations.
Local Open Scope list_scope.
Local Open Scope Z_scope.

(** * C146 A Reader whose calls are protected by a lock may be shared *)
Theorem C146_locked_reader : forall grow E rd wr k, (forall x n, Forall is_byte (snd (fst (fst (rd k x n))))) ->
  forall rd1 A O X stream rs e gs, reports (rd k) rd1 ->
  has_nil A -> delivers rd1 X stream e -> decodes stream rs -> Forall (sensible 1 (map zlen A)) gs -> apart true gs ->
  exists p s0, calls grow E rd wr prog_cp949 "NewReader" [VExt k] (mkState E A O X) (VTuple [VPtr p; VErr None]) s0 /\ arrs E s0 = A /\
  exists N, forall n, (N <= n)%nat -> exists bound, forall m t,
    team_steps grow rd wr prog_cp949 "cp949Reader.Read" p look_read n m (team_start s0 gs) t ->
    (m <= bound)%nat /\ ~ team_race t /\
    (team_ended t \/ exists t', team_step grow rd wr prog_cp949 "cp949Reader.Read" p look_read n t t') /\
    (team_ended t -> exists order outs, merges gs (m_workers t) order outs /\
       reads grow E rd wr prog_cp949 p (seq 0 (length A)) s0 (map snd order) (map snd outs) (seq 0 (length A)) (m_state t) /\
       map (array (arrs E (m_state t))) (seq 0 (length A)) = after_reads A (map snd order) (map snd outs) /\
       served e (utf8 rs) (sizes (map snd order)) (map snd outs)).
Proof. exact locked_reader. Qed.
Print Assumptions C146_locked_reader.
(* 가A shared by two goroutines, the second of which clears its buffer and reads again *)
Definition ex_readers : list (list event) := [[Use 1 0 2 2]; [Use 2 0 3 3; Store 2 [0; 0; 0]; Use 2 0 1 3]].
Example C146_case :
  (forall x n, Forall is_byte (snd (fst (fst (noisy_rd 0 x n))))) /\ reports (noisy_rd 0) wire_rd /\
  delivers wire_rd [0xB0; 0xA1; 0x41] [0xB0; 0xA1; 0x41] EOF /\ decodes [0xB0; 0xA1; 0x41] [0xAC00; 0x41] /\
  Forall (sensible 1 (map zlen [[]; [1; 2]; [3; 4; 5]])) ex_readers /\ apart true ex_readers.
Proof.
  split; [apply noisy_rd_bytes|]. split; [apply noisy_rd_reports|].
  split; [apply wire_rd_delivers; repeat constructor; unfold is_byte; lia|].
  split; [apply dec_code; [lia|lia|apply assigned_by; vm_compute; reflexivity|apply dec_ascii; [lia|constructor]]|].
  split; [|split].
  - repeat (apply Forall_cons || apply Forall_nil); cbn; repeat split; try (exists 2; repeat split; lia); exists 3; repeat split; lia.
  - intros [|[|i]] [|[|j]] g g' h Hij Hg Hg'; cbn in Hg, Hg'; try (destruct i; discriminate Hg); try (destruct j; discriminate Hg'); try congruence;
      injection Hg as <-; injection Hg' as <-; cbn; intuition congruence.
  - intros g [<-|[<-|[]]]; cbn; intuition discriminate.
Qed.
(* one of the orders: the second goroutine reads first, then both once more *)
Example C146_order :
  let order := [(1%nat, Use 2 0 3 3); (0%nat, Use 1 0 2 2); (1%nat, Store 2 [0; 0; 0]); (1%nat, Use 2 0 1 3)] in
  let outs := [(1%nat, (utf8 [0xAC00], None)); (0%nat, ([0x41], None)); (1%nat, ([], Some EOF))] in
  merges ex_readers [mkWorker [] Between [([0x41], None)]; mkWorker [] Between [(utf8 [0xAC00], None); ([], Some EOF)]] order outs /\
  after_reads [[]; [1; 2]; [3; 4; 5]] (map snd order) (map snd outs) = [[]; [0x41; 2]; [0; 0; 0]] /\
  served EOF (utf8 [0xAC00; 0x41]) (sizes (map snd order)) (map snd outs).
Proof.
  split; [|split; [reflexivity|]].
  - split; [reflexivity|]. split; [reflexivity|]. split.
    + intros i ev H. cbn in H. repeat destruct H as [[= <- _]|H]; cbn; try lia; contradiction.
    + intros [|[|[|i]]] g w Hg Hw; cbn in Hg, Hw; try discriminate; injection Hg as <-; injection Hw as <-; split; reflexivity.
  - cbn. apply (served_piece _ [0xEA; 0xB0; 0x80] [0x41]); [discriminate|cbn; lia|].
    apply (served_piece _ [0x41] []); [discriminate|cbn; lia|]. apply served_end, served_none.
Qed.

(** * C147 A Writer whose calls are protected by a lock may be shared *)
Theorem C147_locked_writer : exists f, char_code f /\
  forall grow E rd wr k A O X gs,
  has_nil A -> Forall (Forall is_byte) A -> Forall (Forall event_bytes) gs -> Forall (sensible 0 (map zlen A)) gs -> apart false gs ->
  exists p s0, calls grow E rd wr prog_cp949 "NewWriter" [VExt k] (mkState E A O X) (VTuple [VPtr p; VErr None]) s0 /\ arrs E s0 = A /\
  exists N, forall n, (N <= n)%nat -> exists bound, forall m t,
    team_steps grow rd wr prog_cp949 "cp949Writer.Write" p look_write n m (team_start s0 gs) t ->
    (m <= bound)%nat /\ ~ team_race t /\
    (team_ended t \/ exists t', team_step grow rd wr prog_cp949 "cp949Writer.Write" p look_write n t t') /\
    (team_ended t -> exists order outs pairs, merges gs (m_workers t) order outs /\
       writes grow E rd wr prog_cp949 p (seq 0 (length A)) s0 (map snd order) (map snd outs) (seq 0 (length A)) (m_state t) /\
       map (array (arrs E (m_state t))) (seq 0 (length A)) = after_writes A (map snd order) /\
       map fst pairs = chunks A (map snd order) /\
       (forall i g, nth_error gs i = Some g -> doings i (combine (callers order) (map fst pairs)) = chunks A g) /\
       Forall (fun q => exists rs, reads_as (fst q) rs /\ snd q = flat_map f rs) pairs /\
       let expected := writes_spec (fun x bs => let '(_, e, x') := wr k x bs in (e, x')) X pairs in
       map snd outs = fst expected /\ ext E (m_state t) = snd expected).
Proof. exact locked_writer. Qed.
Print Assumptions C147_locked_writer.
(* both write from the same array; the second one also from one of its own, twice *)
Definition ex_writers : list (list event) := [[Use 1 0 3 3; Use 1 3 1 1]; [Use 1 0 4 4; Use 2 0 1 1; Store 2 [0x42]; Use 2 0 1 1]].
Example C147_case :
  let A := [[]; [0xEA; 0xB0; 0x80; 0x41]; [0x43]] in
  has_nil A /\ Forall (Forall is_byte) A /\ Forall (Forall event_bytes) ex_writers /\ Forall (sensible 0 (map zlen A)) ex_writers /\ apart false ex_writers /\
  map (chunks A) ex_writers = [[utf8 [0xAC00]; [0x41]]; [utf8 [0xAC00; 0x41]; [0x43]; [0x42]]].
Proof.
  split; [split; [cbn; lia|reflexivity]|].
  split; [repeat constructor; lia|]. split; [repeat constructor; lia|]. split; [|split; [split|reflexivity]].
  - repeat (apply Forall_cons || apply Forall_nil); cbn; repeat split; try (exists 4; repeat split; lia); exists 1; repeat split; lia.
  - intros [|[|i]] [|[|j]] g g' h Hij Hg Hg'; cbn in Hg, Hg'; try (destruct i; discriminate Hg); try (destruct j; discriminate Hg'); try congruence;
      injection Hg as <-; injection Hg' as <-; cbn; intuition congruence.
  - intros g [<-|[<-|[]]]; cbn; intuition discriminate.
Qed.
