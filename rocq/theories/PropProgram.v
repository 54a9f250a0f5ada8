(** Properties of whole client programs of package cp949 (ProgSpec.v): the client owns
    memory, opens any number of Readers and Writers and interleaves calls as it likes,
    choosing each request by the answers so far.  The programs are executed by running the
    syntax trees of the sources (GoSource.v). *)
From Coq Require Import String ZArith List Bool Lia.
From Verif Require Import Base Spec SpecCp949 SpecIO Utf8Facts Cp949Facts Cp949Facts2 Cp949Facts2 Cp949Model GoLang GoSource SourceSpec SourceFacts2 Facts ProgSpec ProgFacts.
Import ListNotations.
Local Open Scope list_scope.
Local Open Scope Z_scope.

(** * C103 Programs with many streams *)
Theorem C103_programs : exists f, char_code f /\
  forall grow T rd rd1 wr source start A O p,
    (forall k x n, Forall is_byte (snd (fst (fst (rd k x n))))) -> (forall k, reports (rd k) (rd1 k)) ->
    (forall k bytes e, source k = Some (bytes, e) -> delivers (rd1 k) (start k) bytes e) ->
    has_nil A -> Forall (Forall is_byte) A -> sensible T f source start wr (World T A []) p ->
  exists answers own s w,
    executes grow (nat -> T) (each_rd rd) (each_wr wr) (whole A) [] (mkState _ A O start) p answers own s /\
    (forall answers' own' s', executes grow (nat -> T) (each_rd rd) (each_wr wr) (whole A) [] (mkState _ A O start) p answers' own' s' ->
       answers' = answers /\ own' = own /\ s' = s) /\
    outcome T f source start wr (World T A []) p answers w /\
    memory_of (arrs _ s) own = mem T w /\
    (forall k x, In (SWriter T k x) (streams T w) -> ext _ s k = x) /\
    (forall k, ~ In k (map (wraps T) (streams T w)) -> ext _ s k = start k).
Proof. exact program_correct. Qed.
Print Assumptions C103_programs.

(** A client that copies from reader 0 to writer 2 through one buffer until the end, keeping
    reader 1 open and decoding other text in between. *)
Definition ex_bytes (k : nat) : list Z := match k with 0%nat => [0xB0; 0xA1; 0x41] | 1%nat => [0xC7; 0xD1] | _ => [] end.
Definition ex_source (k : nat) : option (list Z * error) := match k with 0%nat | 1%nat => Some (ex_bytes k, EOF) | _ => None end.
Definition buf (n : Z) : window := Window 1 1 n 4.
Definition ex_prog : program :=
  Ask (QOpenReader 0) (fun _ => Ask (QOpenReader 1) (fun _ => Ask (QOpenWriter 2) (fun _ =>
  Ask (QRead 0 (buf 4)) (fun a => match a with
    | Data bs None => Ask (QWrite 2 (buf (zlen bs))) (fun _ =>
        Ask (QRead 1 (buf 3)) (fun _ => Ask (QFrom (Window 2 0 2 2)) (fun _ => Stop)))
    | _ => Stop
    end)))).
Example C103_case : forall f,
  (forall k x n, Forall is_byte (snd (fst (fst (noisy_rd k x n))))) /\ (forall k, reports (noisy_rd k) wire_rd) /\
  (forall k bytes e, ex_source k = Some (bytes, e) -> delivers wire_rd (ex_bytes k) bytes e) /\
  has_nil [[]; [1; 2; 3; 4; 5]; [0xB0; 0xA1]] /\ Forall (Forall is_byte) [[]; [1; 2; 3; 4; 5]; [0xB0; 0xA1]] /\
  sensible (list Z) f ex_source ex_bytes keep_wr (World _ [[]; [1; 2; 3; 4; 5]; [0xB0; 0xA1]] []) ex_prog.
Proof.
  intros f. split; [apply noisy_rd_bytes|]. split; [apply noisy_rd_reports|].
  split; [|split; [split; [cbn; lia|reflexivity]|split; [repeat constructor; unfold is_byte; lia|]]].
  { intros [|[|k]] bytes e H; inversion H; apply wire_rd_delivers; repeat constructor; unfold is_byte; lia. }
  assert (D0 : decodes [0xB0; 0xA1; 0x41] [0xAC00; 0x41])
    by (apply dec_code; [lia|lia|apply assigned_by; vm_compute; reflexivity|apply dec_ascii; [lia|constructor]]).
  assert (D1 : decodes [0xC7; 0xD1] [0xD55C])
    by (apply dec_code; [lia|lia|apply assigned_by; vm_compute; reflexivity|constructor]).
  assert (D2 : decodes [0xB0; 0xA1] [0xAC00])
    by (apply dec_code; [lia|lia|apply assigned_by; vm_compute; reflexivity|constructor]).
  split; [do 2 eexists; eapply ef_open_reader; [reflexivity|exact D0|cbn; tauto]|].
  intros a0 w0 H0. inversion H0 as [| |? ? ? ? ? rs0 S0 R0 N0| | | | | | | | | | | |? ? ? ? ? x0 rs0 S0 R0 D0' N0| |]; subst; clear H0;
    [|injection S0 as <- <-; destruct (cut_not_complete _ _ R0 _ D0)]. injection S0 as <- <-.
  rewrite (decodes_fun _ _ R0 _ D0). clear R0. cbn [app].
  split; [do 2 eexists; eapply ef_open_reader; [reflexivity|exact D1|cbn; lia]|].
  intros a1 w1 H1. inversion H1 as [| |? ? ? ? ? rs1 S1 R1 N1| | | | | | | | | | | |? ? ? ? ? x1 rs1 S1 R1 D1' N1| |]; subst; clear H1;
    [|injection S1 as <- <-; destruct (cut_not_complete _ _ R1 _ D1)]. injection S1 as <- <-.
  rewrite (decodes_fun _ _ R1 _ D1). clear R1. cbn [app].
  split; [do 2 eexists; eapply ef_open_writer; cbn; lia|].
  intros a2 w2 H2. inversion H2; subst; clear H2. cbn [app ex_bytes].
  split.
  { exists (Data [0xEA; 0xB0; 0x80; 0x41] None). eexists. eapply (ef_read _ _ _ _ _ _ _ _ _ _ [0xEA; 0xB0; 0x80; 0x41] []); [reflexivity| |discriminate|cbn; lia].
    exists [1; 2; 3; 4; 5]. cbn. repeat split; lia. }
  intros a3 w3 H3. inversion H3 as [| | | |? ? ? ? ? bs3 text3 e3 S3 I3 B3 L3| | | | | | | | | | |? ? ? ? ? ? ? ? ? S3|? ? ? ? ? ? ? S3];
    subst; clear H3; [|exact I|discriminate S3|discriminate S3].
  injection S3 as <- S3 <-. change (utf8 [0xAC00; 0x41]) with [0xEA; 0xB0; 0x80; 0x41] in S3.
  assert (Hbs : bs3 = [0xEA] \/ bs3 = [0xEA; 0xB0] \/ bs3 = [0xEA; 0xB0; 0x80] \/ bs3 = [0xEA; 0xB0; 0x80; 0x41]).
  { destruct bs3 as [|b0 [|b1 [|b2 [|b3 [|b4 bs3]]]]]; cbn in S3; inversion S3; auto. congruence. }
  clear S3 B3 L3 I3. cbn [set_nth].
  destruct Hbs as [->|[->|[->| ->]]]; (split; [
    do 2 eexists; eapply ef_write; [reflexivity|eexists; split; [reflexivity|vm_compute; repeat split; discriminate]|vm_compute; discriminate|
      apply string_to_runes_reads; vm_compute; repeat constructor; discriminate|reflexivity]|]);
  (intros a4 w4 H4; inversion H4 as [| | | | | |? ? ? ? ? x4 ? ? ? ? S4| ? ? ? ? ? ? S4 I4 C4| | | | | | | | |]; subst; clear H4; [|discriminate C4]; cbn [set_nth];
   split; [
    exists (Data [0xED; 0x95; 0x9C] None); eexists; eapply (ef_read _ _ _ _ _ _ _ _ _ _ [0xED; 0x95; 0x9C] []);
      [reflexivity|eexists; split; [reflexivity|vm_compute; repeat split; discriminate]|discriminate|cbn; lia]|];
   intros a5 w5 H5; inversion H5 as [| | | |? ? ? ? ? bs5 text5 e5 S5 I5 B5 L5|? ? ? ? ? ? S5| | | | | | | | | |? ? ? ? ? ? ? ? ? S5|? ? ? ? ? ? ? S5]; subst; clear H5; [|discriminate S5|discriminate S5|discriminate S5]; cbn [set_nth];
   split; [
    do 2 eexists; eapply ef_from; [eexists; split; [reflexivity|vm_compute; repeat split; discriminate]|exact D2]|];
   intros a6 w6 _; exact I).
Qed.

(** A client that reads twice from a stream ending inside a character. *)
Definition bad_bytes (k : nat) : list Z := [0xB0; 0xA1; 0xC7].
Definition bad_prog : program :=
  Ask (QOpenReader 0) (fun _ => Ask (QRead 0 (buf 4)) (fun a => match a with
    | Data bs None => Ask (QRead 0 (buf 4)) (fun _ => Stop)
    | _ => Stop
    end)).
Example C103_broken_case : forall f,
  (forall k bytes e, (fun _ : nat => Some (bad_bytes 0, EOF)) k = Some (bytes, e) -> delivers wire_rd (bad_bytes k) bytes e) /\
  sensible (list Z) f (fun _ => Some (bad_bytes 0, EOF)) bad_bytes keep_wr (World _ [[]; [1; 2; 3; 4; 5]] []) bad_prog.
Proof.
  intros f. split.
  { intros k bytes e H. injection H as <- <-. apply wire_rd_delivers. repeat constructor; unfold is_byte; lia. }
  assert (D : decodes [0xB0; 0xA1] [0xAC00])
    by (apply dec_code; [lia|lia|apply assigned_by; vm_compute; reflexivity|constructor]).
  assert (K : cut_after [0xB0; 0xA1] [0xB0; 0xA1; 0xC7]) by (exists 0xC7; split; [lia|]; split; [reflexivity|eexists; exact D]).
  split; [do 2 eexists; eapply ef_open_broken; [reflexivity|exact K|exact D|cbn; tauto]|].
  intros a0 w0 H0. inversion H0 as [| |? ? ? ? ? rs0 S0 R0 N0| | | | | | | | | | | |? ? ? ? ? x0 rs0 S0 R0 D0 N0| |]; subst; clear H0;
    [injection S0 as <- <-; destruct (cut_not_complete _ _ K _ R0)|]. cbn [app].
  assert (W : forall C, inside ([] :: [1; 2; 3; 4; 5] :: C) (buf 4)) by (intros C; exists [1; 2; 3; 4; 5]; cbn; repeat split; lia).
  split; [do 2 eexists; eapply ef_read_broken_end; [reflexivity|apply W|cbn; lia]|].
  intros a1 w1 H1. inversion H1 as [| | | |? ? ? ? ? ? ? ? S1|? ? ? ? ? ? S1| | | | | | | | | |? ? ? ? ? bs1 ? ? ? S1 I1 B1 L1 P1|];
    subst; clear H1; [discriminate S1|discriminate S1| |exact I].
  split; [|intros; exact I]. do 2 eexists. eapply ef_read_broken_end; [reflexivity| |cbn; lia].
  exists (zwrite [1; 2; 3; 4; 5] 1 bs1). split; [reflexivity|]. rewrite zlen_zwrite; [cbn; lia|lia|].
  change (zlen bs1 <= 4) in L1. change (zlen [1; 2; 3; 4; 5]) with 5. lia.
Qed.
