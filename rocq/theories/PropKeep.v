(** Properties of Read and Write over wrapped readers and writers that use the slices they are
    given for more than they report, or keep them (KeepModel.v). *)
From Coq Require Import ZArith List Bool Lia.
From Verif Require Import Base Spec SpecCp949 SpecIO SpecReads Cp949Model StreamModel KeepModel Facts Cp949Facts2 KeepFacts.
Import ListNotations.
Local Open Scope Z_scope.
Local Open Scope go_scope.

(** * C156 A wrapped writer may keep and change what it is given *)
Theorem C156_writer_may_keep : forall grow WS wr late evs s, Forall (Forall is_byte) (data_of evs) ->
  exists pairs w', map fst pairs = data_of evs /\ Forall (fun q => To grow (fst q) = Ok (inl (snd q))) pairs /\
    k_writes grow WS wr late (NewWriter s) evs = Ok (fst (writes_spec wr s pairs), w') /\ w_dst _ w' = snd (writes_spec wr s pairs).
Proof. exact keep_writer. Qed.
Print Assumptions C156_writer_may_keep.
(** A writer that overwrites what it gets with 7s, and once more between the calls. *)
Example C156_case : exists w, k_writes (fun c _ => 2 * c) _ buffer_wr (fun _ bs => map (fun _ => 7) bs) (NewWriter [])
    [KWrite [0x41; 0xEA; 0xB0; 0x80]; KChange [9; 9; 9; 9]; KWrite [0xEA; 0xB0; 0x80]] = Ok ([(4, None); (3, None)], w) /\
  w_dst _ w = [0x41; 0xB0; 0xA1; 0xB0; 0xA1] /\ arr (w_scratch _ w) <> [].
Proof. eexists. split; [vm_compute; reflexivity|]. split; [reflexivity|discriminate]. Qed.

(** * C157 A wrapped reader may use all of the buffer it is given during the call *)
Theorem C157_reader_may_scribble : forall grow RS rd late fuel sizes s,
  (let! (rs, k) := k_reads grow RS false rd late fuel (k_NewReader RS s) (map KRead sizes) in Ok (rs, r_src _ (k_reader _ k))) =
  (let! (rs, r) := reads grow RS rd fuel (NewReader s) sizes in Ok (rs, r_src _ r)).
Proof. exact keep_scribble. Qed.
Print Assumptions C157_reader_may_scribble.
(** One byte at a time, with 0xB3 stored all over the buffer before. *)
Definition ex_bytes (s : list Z) (k : Z) : list Z * option error * list Z :=
  if k <=? 0 then ([], None, s) else match s with [] => ([], Some EOF, []) | b :: s => ([b], None, s) end.
Example C157_case : exists k, k_reads (fun c _ => 2 * c) _ false ex_bytes (fun _ n => repeat 0xB3 (Z.to_nat n)) 9 (k_NewReader _ [0x41; 0xB0; 0xA1]) (map KRead [4; 3]) =
    Ok ([([0x41], None); ([0xEA; 0xB0; 0x80], None)], k) /\ arr (r_rdata _ (k_reader _ k)) = [0xB0; 0xA1; 0xB3; 0xB3].
Proof. eexists. split; vm_compute; reflexivity. Qed.

(** * C158 (false) A wrapped reader may keep the buffers it is given and write into them later;
      true of one that hands out whole characters *)
Theorem C158_reader_keeps_refuted : exists RS (rd : RS -> Z -> list Z * option error * RS) late fuel s sizes stream grow,
  delivers rd s stream EOF /\ (exists t, From grow stream = Ok (inl t)) /\ Forall (fun n => 3 <= n) sizes /\
  exists rs r rs' k, reads grow RS rd fuel (NewReader s) sizes = Ok (rs, r) /\
    k_reads grow RS true rd late fuel (k_NewReader RS s) (map KRead sizes) = Ok (rs', k) /\
    map snd rs = map snd rs' /\ concat (map fst rs) <> concat (map fst rs').
Proof.
  exists (list Z), ex_bytes, (fun s _ => match s with [0xA1] => [0xB3] | _ => [] end), 9%nat, [0x41; 0xB0; 0xA1], [4; 3], [0x41; 0xB0; 0xA1], (fun c _ => 2 * c).
  split; [|split; [eexists; vm_compute; reflexivity|split; [repeat constructor; lia|]]].
  - generalize [0x41; 0xB0; 0xA1]. intros s. induction s as [|b s IH]; constructor; intros k chunk; unfold ex_bytes; (destruct (Z.leb_spec k 0); [lia|]).
    + intros e' s' _ [= <- <- <-]. cbn. repeat split; lia.
    + discriminate.
    + discriminate.
    + discriminate.
    + intros s' Hk [= <- <-]. split; [discriminate|]. split; [cbn; lia|]. exists s. reflexivity.
    + intros s' Hk [= <- <-]. change (zdrop (zlen [b]) (b :: s)) with s. exact IH.
  - do 4 eexists. split; [vm_compute; reflexivity|]. split; [vm_compute; reflexivity|]. split; [reflexivity|]. discriminate.
Qed.
Print Assumptions C158_reader_keeps_refuted.
Theorem C158_reader_keeps_partial : forall grow RS keeps rd late room, (forall s k, room <= k -> exists rs, decodes (fst (fst (rd s k))) rs) ->
  forall fuel evs s, Forall (fun n => room <= n) (sizes_of evs) ->
  (let! (rs, k) := k_reads grow RS keeps rd late fuel (k_NewReader RS s) evs in Ok (rs, r_src _ (k_reader _ k))) =
  (let! (rs, r) := reads grow RS rd fuel (NewReader s) (sizes_of evs) in Ok (rs, r_src _ r)).
Proof. exact keep_whole. Qed.
Print Assumptions C158_reader_keeps_partial.
(** Lines, each handed out as a whole, and later overwritten. *)
Definition ex_lines (s : nat) (k : Z) : list Z * option error * nat :=
  match s with 0%nat => ([], Some EOF, 0%nat) | 1%nat => ([0xB0; 0xA1], None, 0%nat) | S n => ([0x41; 0x0A], None, n) end.
Example C158_case : (forall s k, 4 <= k -> exists rs, decodes (fst (fst (ex_lines s k))) rs) /\
  exists k, k_reads (fun c _ => 2 * c) _ true ex_lines (fun _ n => repeat 7 (Z.to_nat n)) 9 (k_NewReader _ 3%nat)
    [KRead 4; KStore [8; 8; 8; 8]; KRead 4; KRead 5] = Ok ([([0x41; 0x0A], None); ([0x41; 0x0A], None); ([0xEA; 0xB0; 0x80], None)], k).
Proof.
  split; [|eexists; vm_compute; reflexivity].
  intros [|[|n]] k _; [exists []|exists [0xAC00]|exists [0x41; 0x0A]]; cbn [ex_lines fst].
  - constructor.
  - apply dec_code; [lia|lia|apply assigned_by; vm_compute; reflexivity|constructor].
  - apply dec_ascii; [lia|]. apply dec_ascii; [lia|constructor].
Qed.
