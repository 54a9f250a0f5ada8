(** Readers given to iotest.TestReader. *)
From Coq Require Import ZArith List Bool Lia.
From Verif Require Import Base Spec SpecCp949 SpecIO Cp949Model Cp949Facts2 StreamModel StreamFacts StreamFacts2 StreamFacts3 IotestModel IotestFacts.
Import ListNotations.
Local Open Scope Z_scope.
Local Open Scope list_scope.

(** * C180 iotest.TestReader
    False: the first check fails. *)
Theorem C180_refuted : exists stream text, delivers bytes_rd stream stream EOF /\
  forall grow fuel sizes, From grow stream = Ok (inl text) /\
    TestReader grow _ bytes_rd (S (S fuel)) (NewReader stream) text sizes = Ok (Some 1).
Proof. exact test_refuted. Qed.
Print Assumptions C180_refuted.
(** So it does of every stream that is not empty, over every reader that stores nothing in an empty buffer. *)
Theorem C180_fails_partial : forall grow (RS : Type) (rd : RS -> Z -> list Z * option error * RS) fuel s content sizes e s',
  rd s 0 = ([], e, s') -> content <> [] -> TestReader grow RS rd (S (S fuel)) (NewReader s) content sizes = Ok (Some 1).
Proof. exact test_fails. Qed.
Print Assumptions C180_fails_partial.
(** The other checks pass. *)
Theorem C180_rest_partial : forall grow (RS : Type) (rd : RS -> Z -> list Z * option error * RS) fuel s stream text sizes,
  Forall is_byte stream -> delivers rd s stream EOF -> From grow stream = Ok (inl text) ->
  Forall (fun k => 0 < k) sizes -> zlen text < zlen sizes -> (length stream + 4 <= fuel)%nat ->
  TestReader_rest grow RS rd fuel (NewReader s) text sizes = Ok None.
Proof. exact rest_passes. Qed.
Print Assumptions C180_rest_partial.
(** All checks pass over an empty stream. *)
Theorem C180_empty_partial : forall grow (RS : Type) (rd : RS -> Z -> list Z * option error * RS) fuel s sizes,
  delivers rd s [] EOF -> Forall (fun k => 0 < k) sizes -> sizes <> [] -> (4 <= fuel)%nat ->
  TestReader grow RS rd fuel (NewReader s) [] sizes = Ok None.
Proof. exact empty_passes. Qed.
Print Assumptions C180_empty_partial.
Example C180_case : bytes_rd [0xB0; 0xA1] 0 = ([], None, [0xB0; 0xA1]) /\ delivers bytes_rd [0xB0; 0xA1] [0xB0; 0xA1] EOF /\
  From wgrow [0xB0; 0xA1] = Ok (inl (utf8 [0xAC00])) /\
  TestReader wgrow _ bytes_rd 9 (NewReader [0xB0; 0xA1]) (utf8 [0xAC00]) [1; 2; 3; 1] = Ok (Some 1) /\
  TestReader_rest wgrow _ bytes_rd 9 (NewReader [0xB0; 0xA1]) (utf8 [0xAC00]) [1; 2; 3; 1] = Ok None /\
  TestReader_rest wgrow _ bytes_rd 9 (NewReader [0xB0; 0xA1]) [0x41] [1; 2; 3; 1] = Ok (Some 2).
Proof.
  split; [reflexivity|]. split; [apply bytes_rd_delivers|]. split; [vm_compute; reflexivity|]. split; [vm_compute; reflexivity|]. split; vm_compute; reflexivity.
Qed.
