(** Property C126: the exact behaviour of sequences of Reads. *)
From Coq Require Import ZArith List Bool Lia.
From Verif Require Import Base Spec Utf8 SpecCp949 SpecIO SpecReads Cp949Model StreamModel Cp949Facts2 ReadsFacts.
Import ListNotations.
#[local] Open Scope Z_scope.

Definition double (old need : Z) : Z := Z.max need (2 * old).

(** * C126 What a sequence of Reads returns
    Over every wrapped reader that stays within its buffer: the results are those of
    [many_reads]; if one Read has not returned after [fuel] rounds, the wrapped reader has
    handed out [fuel - 1] chunks since, each ending inside a character, without an error. *)
Theorem C126_Reads_exact :
  forall grow (RS : Type) (rd : RS -> Z -> list Z * option error * RS), fits_buffer rd ->
  forall s fuel sizes, Forall (fun k => 0 <= k) sizes -> (0 < fuel)%nat ->
  (exists results r' s' text err, reads grow RS rd fuel (NewReader s) sizes = Ok (results, r') /\
     r_src _ r' = s' /\ many_reads rd (s, [], None) sizes results (s', text, err)) \/
  (reads grow RS rd fuel (NewReader s) sizes = Fuel /\ exists before k after results s1 n s2 u, sizes = before ++ k :: after /\
     many_reads rd (s, [], None) before results (s1, [], None) /\ starves rd k n s1 s2 u /\ (fuel <= n + 1)%nat).
Proof. exact C126_lemma. Qed.
Print Assumptions C126_Reads_exact.
(** When the answers of the wrapped reader do not depend on the size of its buffer,
    [many_reads] leaves no choice: whatever results it allows are those of the code. *)
Theorem C126_Reads_determined :
  forall (RS : Type) (rd : RS -> Z -> list Z * option error * RS),
  (forall s sp sp', 0 < sp -> 0 < sp' -> rd s sp = rd s sp') ->
  forall grow s sizes results st, fits_buffer rd -> Forall (fun k => 0 < k) sizes ->
  many_reads rd (s, [], None) sizes results st ->
  exists enough, forall fuel, (enough <= fuel)%nat -> exists r', reads grow RS rd fuel (NewReader s) sizes = Ok (results, r').
Proof. exact C126_determined_lemma. Qed.
Print Assumptions C126_Reads_determined.
(* one byte at a time: a letter, a syllable in two Reads, then half a character, which is lost *)
Definition drip (n : nat) (sp : Z) : list Z * option error * nat :=
  if sp <=? 0 then ([], None, n) else
  match n with
  | 0%nat => ([], Some EOF, 0%nat)
  | S n' => ([nth n' [0xB0; 0xA1; 0xB0; 0x41] 0x20], None, n')
  end.
Example C126_case : fits_buffer drip /\
  (forall s sp sp', 0 < sp -> 0 < sp' -> drip s sp = drip s sp') /\
  many_reads drip (4%nat, [], None) [2; 2; 2; 2]
    [([0x41], None); ([0xEA; 0xB0], None); ([0x80], None); ([], Some EOF)] (0%nat, [], Some EOF) /\
  exists r, reads double _ drip 9 (NewReader 4%nat) [2; 2; 2; 2] =
    Ok ([([0x41], None); ([0xEA; 0xB0], None); ([0x80], None); ([], Some EOF)], r).
Proof.
  split; [|split; [|split]].
  - intros n sp Hsp. unfold drip. destruct (Z.leb_spec sp 0).
    + split; [cbn; lia|constructor].
    + destruct n as [|n]; (split; [cbn; lia|]); repeat constructor; do 4 (destruct n as [|n]; [cbn; lia|]); destruct n; cbn; lia.
  - intros n sp sp' H H'. unfold drip. destruct (Z.leb_spec sp 0); [lia|]. destruct (Z.leb_spec sp' 0); [lia|reflexivity].
  - assert (truncated [0xB0]) as Ht by (exists [], 0xB0; split; [lia|split; [reflexivity|exists []; constructor]]).
    eapply more_reads.
    { refine (read_text drip 2 4%nat 0%nat 4%nat [] 2 [0x41] None 3%nat [0x41] _ _ _ _ _); [constructor|lia|reflexivity| |discriminate].
      apply dec_ascii; [lia|constructor]. }
    eapply more_reads.
    { refine (read_text drip 2 3%nat 1%nat 2%nat ([] ++ [0xB0]) 2 [0xA1] None 1%nat [0xAC00] _ _ _ _ _); [|lia|reflexivity| |discriminate].
      - refine (starves_S drip 2 0%nat 3%nat 3%nat [] 2 [0xB0] 2%nat _ _ _ _ _); [constructor|lia|reflexivity|discriminate|exact Ht].
      - apply dec_code; [lia|lia|apply assigned_by; vm_compute; reflexivity|constructor]. }
    eapply more_reads.
    { refine (read_rest drip 2 1%nat [0x80] None _). discriminate. }
    eapply more_reads.
    { refine (read_end drip 2 1%nat 1%nat 0%nat ([] ++ [0xB0]) 2 [] (Some EOF) 0%nat EOF _ _ _ _ _); [|lia|reflexivity|right; exact Ht|reflexivity].
      refine (starves_S drip 2 0%nat 1%nat 1%nat [] 2 [0xB0] 0%nat _ _ _ _ _); [constructor|lia|reflexivity|discriminate|exact Ht]. }
    constructor.
  - eexists. vm_compute. reflexivity.
Qed.
(* a Read that still waits for the second half of a character *)
Example C126_starved_case : starves drip 1 1 1%nat 0%nat [0xB0].
Proof.
  refine (starves_S drip 1 0%nat 1%nat 1%nat [] 2 [0xB0] 0%nat _ _ _ _ _); [constructor|lia|reflexivity|discriminate|].
  exists [], 0xB0; split; [lia|split; [reflexivity|exists []; constructor]].
Qed.
