(** Property of damaged texts: how far a changed byte is felt. *)
From Coq Require Import ZArith List Bool Lia.
From Verif Require Import Base Spec SpecCp949 SpecIO Cp949Model Cp949Facts2 DamageFacts.
Import ListNotations.
Local Open Scope Z_scope.
Local Open Scope list_scope.

(** * C162 If one byte of a text is changed, the other characters come out as before (refuted for
      From: in texts of any length, one byte may spoil every character; To is as claimed) *)
Theorem C162_refuted : forall n, exists b b' s rs rs', is_byte b /\ is_byte b' /\ Forall is_byte s /\ length rs = S (S n) /\
  (forall grow, From grow (b :: s) = Ok (inl (utf8 rs)) /\ From grow (b' :: s) = Ok (inl (utf8 rs'))) /\
  Forall is_scalar rs /\ Forall is_scalar rs' /\ (forall r, In r rs -> ~ In r rs').
Proof. exact spoiled_From. Qed.
Print Assumptions C162_refuted.
Example C162_refuted_case : From wgrow [0xB0; 0xA1; 0xB0; 0xA1; 0x0A] = Ok (inl (utf8 [0xAC00; 0xAC00; 0x0A])) /\
  From wgrow [0x41; 0xA1; 0xB0; 0xA1; 0x0A] = Ok (inl (utf8 [0x41; 0x201C; 0xFFFD])).
Proof. vm_compute. split; reflexivity. Qed.

(** What holds for From, whatever becomes of the part [m] of a text: the characters before it come
    out as before, and those after it do so too if [m] is a text of its own; otherwise it takes
    the next byte away and the text goes on after that.  In any case the characters after the
    next ASCII character come out as before. *)
Theorem C162_From_partial : forall grow p z m, Forall is_byte p -> From grow p = Ok (inl z) -> Forall is_byte m ->
  (exists x, From grow m = Ok (inl x) /\ forall s, Forall is_byte s ->
     (forall y, From grow s = Ok (inl y) -> From grow (p ++ m ++ s) = Ok (inl (z ++ x ++ y))) /\
     (forall e, From grow s = Ok (inr e) -> From grow (p ++ m ++ s) = Ok (inr e))) \/
  (From grow m = Ok (inr ErrCP949UnexpectedStream) /\
   forall b, is_byte b -> exists x, From grow (m ++ [b]) = Ok (inl x) /\ forall s, Forall is_byte s ->
     (forall y, From grow s = Ok (inl y) -> From grow (p ++ m ++ b :: s) = Ok (inl (z ++ x ++ y))) /\
     (forall e, From grow s = Ok (inr e) -> From grow (p ++ m ++ b :: s) = Ok (inr e))).
Proof. exact damage. Qed.
Print Assumptions C162_From_partial.
Theorem C162_ascii_partial : forall grow p z m c, Forall is_byte p -> From grow p = Ok (inl z) -> Forall is_byte m -> 0 <= c < 0x80 ->
  exists x, From grow (m ++ [c]) = Ok (inl x) /\ forall s, Forall is_byte s ->
     (forall y, From grow s = Ok (inl y) -> From grow (p ++ m ++ c :: s) = Ok (inl (z ++ x ++ y))) /\
     (forall e, From grow s = Ok (inr e) -> From grow (p ++ m ++ c :: s) = Ok (inr e)).
Proof. exact damage_ascii. Qed.
Print Assumptions C162_ascii_partial.
(* a syllable, the damaged part, a full stop that is taken away, and the letter z *)
Example C162_case : From wgrow [0xB0; 0xA1] = Ok (inl (utf8 [0xAC00])) /\ From wgrow [0x41; 0xA1] = Ok (inr ErrCP949UnexpectedStream) /\
  From wgrow ([0xB0; 0xA1] ++ [0x41; 0xA1] ++ 0x2E :: [0x7A]) = Ok (inl (utf8 [0xAC00] ++ utf8 [0x41; 0xFFFD] ++ utf8 [0x7A])) /\
  From wgrow ([0xB0; 0xA1] ++ [0xA1; 0x41] ++ 0x2E :: [0x7A]) = Ok (inl (utf8 [0xAC00] ++ utf8 [0xC8A5; 0x2E] ++ utf8 [0x7A])).
Proof. vm_compute. repeat split; reflexivity. Qed.

(** To: whatever becomes of the part [m], the characters before and after it come out as before,
    if they are whole characters. *)
Theorem C162_To : forall grow p m s, Forall is_byte p -> Forall is_byte m -> Forall is_byte s ->
  valid_utf8 p \/ boundary (m ++ s) -> boundary s ->
  exists z x y, To grow p = Ok (inl z) /\ To grow m = Ok (inl x) /\ To grow s = Ok (inl y) /\
    To grow (p ++ m ++ s) = Ok (inl (z ++ x ++ y)).
Proof. exact damage_utf8. Qed.
Print Assumptions C162_To.
Example C162_To_case : boundary [0xEA; 0xB0; 0x80] /\
  To wgrow ([0xEA; 0xB0; 0x80] ++ [0xEA; 0x41; 0x80] ++ [0xEA; 0xB0; 0x80]) = Ok (inl ([0xB0; 0xA1] ++ [0x3F; 0x3F; 0x41; 0x3F; 0x3F] ++ [0xB0; 0xA1])).
Proof. split; [cbn; lia|vm_compute; reflexivity]. Qed.
