(** Where the characters of an encoded text begin. *)
From Coq Require Import ZArith List Bool Lia PeanoNat.
From Verif Require Import Base Spec SpecCp949 SpecEnds Cp949Model Cp949Facts2 EndsFacts.
Import ListNotations.
Local Open Scope Z_scope.
Local Open Scope list_scope.

(** * C172 When From fails *)
Theorem C172_From : forall grow s, Forall is_byte s ->
  (Nat.even (high_end s) = true -> exists t, From grow s = Ok (inl t)) /\
  (Nat.even (high_end s) = false -> From grow s = Ok (inr ErrCP949UnexpectedStream)).
Proof. exact From_ends. Qed.
Print Assumptions C172_From.
Theorem C172_cut : forall grow u v t, Forall is_byte (u ++ v) -> From grow (u ++ v) = Ok (inl t) ->
  (Nat.even (high_end u) = true -> exists a b, From grow u = Ok (inl a) /\ From grow v = Ok (inl b) /\ t = a ++ b) /\
  (Nat.even (high_end u) = false -> From grow u = Ok (inr ErrCP949UnexpectedStream) /\
     exists c v' a b, v = c :: v' /\ From grow (u ++ [c]) = Ok (inl a) /\ From grow v' = Ok (inl b) /\ t = a ++ b).
Proof. exact From_cut_at. Qed.
Print Assumptions C172_cut.
(* the letter A, a syllable, the second byte of which is A, and two more syllables *)
Example C172_case : From wgrow [0x41; 0x81; 0x41; 0xB0; 0xA1; 0xB0; 0xA2] = Ok (inl (utf8 [0x41; 0xAC02; 0xAC00; 0xAC01])) /\
  map (fun n => high_end (firstn n [0x41; 0x81; 0x41; 0xB0; 0xA1; 0xB0; 0xA2])) [1; 2; 3; 4; 5; 6; 7]%nat = [0; 1; 0; 1; 2; 3; 4]%nat /\
  Forall is_byte [0x41; 0x81; 0x41; 0xB0; 0xA1; 0xB0; 0xA2].
Proof. split; [vm_compute; reflexivity|]. split; [reflexivity|]. repeat (constructor; [unfold is_byte; lia|]). constructor. Qed.

(** * C173 Seeing where a character begins (refuted for every distance) *)
Theorem C173_refuted : forall n, exists p p' u v q q' text text',
  length u = n /\ length v = n /\ Forall is_syllable text /\ Forall is_syllable text' /\
  forall grow, To grow (utf8 text) = Ok (inl (p ++ u ++ v ++ q)) /\ To grow (utf8 text') = Ok (inl (p' ++ u ++ v ++ q')) /\
    (exists t, From grow (p ++ u) = Ok (inl t)) /\ From grow (p' ++ u) = Ok (inr ErrCP949UnexpectedStream).
Proof. exact far_refuted. Qed.
Print Assumptions C173_refuted.
(** It can be told from the bytes back to the nearest one below 0x80. *)
Theorem C173_partial : forall grow u b h v t, Forall is_byte (u ++ b :: h ++ v) -> b < 0x80 -> Forall (fun x => 0x80 <= x) h ->
  From grow (u ++ b :: h ++ v) = Ok (inl t) ->
  ((exists a c, From grow (u ++ b :: h) = Ok (inl a) /\ From grow v = Ok (inl c) /\ t = a ++ c) <-> Nat.Even (length h)).
Proof. exact From_back_to. Qed.
Print Assumptions C173_partial.
Example C173_case : Forall is_byte ([0x81] ++ 0x41 :: [0xB0; 0xA1] ++ [0xB0; 0xA2]) /\ Forall (fun x => 0x80 <= x) [0xB0; 0xA1] /\
  From wgrow ([0x81] ++ 0x41 :: [0xB0; 0xA1] ++ [0xB0; 0xA2]) = Ok (inl (utf8 [0xAC02; 0xAC00; 0xAC01])) /\
  From wgrow ([0x81] ++ 0x41 :: [0xB0; 0xA1]) = Ok (inl (utf8 [0xAC02; 0xAC00])) /\ From wgrow [0xB0; 0xA2] = Ok (inl (utf8 [0xAC01])).
Proof.
  split; [repeat (constructor; [unfold is_byte; lia|]); constructor|]. split; [repeat (constructor; [lia|]); constructor|].
  split; [vm_compute; reflexivity|]. split; vm_compute; reflexivity.
Qed.
