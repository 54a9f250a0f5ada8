(** Property C127: how much a Reader converts. *)
From Coq Require Import ZArith List Bool Lia.
From Verif Require Import Base Spec Utf8 SpecCp949 SpecIO SpecWork Cp949Model StreamModel IoModel Cp949Facts2 WorkFacts.
Import ListNotations.
#[local] Open Scope Z_scope.
#[local] Open Scope go_scope.

Definition double (old need : Z) : Z := Z.max need (2 * old).

(** * C127 The work of a Reader is proportional to the stream
    False: over a wrapped reader whose chunks end inside a character one Read converts more
    than [c] times as many bytes as the stream has, for every [c]. *)
Theorem C127_refuted : exists (RS : Type) (rd : RS -> Z -> list Z * option error * RS), forall c, 0 <= c ->
  exists s stream, delivers rd s stream EOF /\ forall grow k fuel, 2 <= k -> (length stream + 4 <= fuel)%nat ->
  exists p r' ws, Read_work grow _ (logged rd) fuel (NewReader (s, [])) k = Ok (p, None, r', ws) /\
    concat (snd (r_src _ r')) = stream /\ c * zlen stream < total ws.
Proof. exact C127_refuted_lemma. Qed.
Print Assumptions C127_refuted.
(** [Read_work] is Read with a record of the bytes converted. *)
Theorem C127_same_Read : forall grow RS (rd : RS -> Z -> list Z * option error * RS) fuel r k,
  Read grow RS rd fuel r k = let! (p, e, r', _) := Read_work grow RS rd fuel r k in Ok (p, e, r').
Proof. exact read_work_same. Qed.
Print Assumptions C127_same_Read.
(** Exactly: of the chunks that a Read fetches, it converts the first, then the first two
    together, and so on. *)
Theorem C127_exact_partial :
  forall grow (RS : Type) (rd : RS -> Z -> list Z * option error * RS), (forall s k, Forall is_byte (fst (fst (rd s k)))) ->
  forall s fuel sizes r' wss, Forall (fun k => 0 <= k) sizes ->
  reads_work grow _ (logged rd) fuel (NewReader (s, [])) sizes = Ok (r', wss) ->
  exists news, snd (r_src _ r') = concat news /\ wss = map (sums 0) news.
Proof. exact C127_exact_lemma. Qed.
Print Assumptions C127_exact_partial.
(** Every byte is converted once when the chunks are whole characters; for small buffers they
    need not be if no Read uses a small one. *)
Theorem C127_whole_partial :
  forall grow (RS : Type) (rd : RS -> Z -> list Z * option error * RS), (forall s k, Forall is_byte (fst (fst (rd s k)))) ->
  forall least s fuel sizes r' wss, 0 <= least -> (forall s k, least <= k -> exists rs, decodes (fst (fst (rd s k))) rs) ->
  Forall (fun k => least <= k) sizes ->
  reads_work grow _ (logged rd) fuel (NewReader (s, [])) sizes = Ok (r', wss) ->
  total (concat wss) = zlen (concat (snd (r_src _ r'))).
Proof. exact C127_whole_lemma. Qed.
Print Assumptions C127_whole_partial.
(* half characters: 1 + 3 + 5 + 7 + 8 bytes are converted for a stream of 8; whole syllables: once each *)
Example C127_case : (forall s k, Forall is_byte (fst (fst (half_rd s k)))) /\
  (exists r, reads_work double _ (logged half_rd) 9 (NewReader ((false, 4%nat), [])) [2; 16; 16] = Ok (r, [[1; 3; 5; 7; 8]; []; [0]]) /\
    concat (snd (r_src _ r)) = [0xB0; 0xA1; 0xB0; 0xA1; 0xB0; 0xA1; 0xB0; 0xA1]) /\
  (forall s k, Forall is_byte (fst (fst (syllables s k)))) /\
  (forall s k, exists rs, decodes (fst (fst (syllables s k))) rs) /\
  exists r, reads_work double _ (logged syllables) 9 (NewReader (2%nat, [])) [2; 2; 2; 2; 2] = Ok (r, [[2]; []; [2]; []; [0]]).
Proof.
  split; [|split; [|split; [|split]]].
  - intros s k. apply half_chunk.
  - eexists. vm_compute. split; reflexivity.
  - intros [|s] k; cbn; repeat constructor; lia.
  - intros [|s] k; [exists []; constructor|exists [0xAC00]].
    apply dec_code; [lia|lia|apply assigned_by; vm_compute; reflexivity|constructor].
  - eexists. vm_compute. reflexivity.
Qed.
