(** Text that is encoded a second time. *)
From Coq Require Import ZArith List Bool Lia.
From Verif Require Import Base Spec SpecText SpecCp949 Cp949Model TableFacts PMapFacts GuessFacts TwiceFacts.
Import ListNotations.
Local Open Scope Z_scope.
Local Open Scope list_scope.

(** * C193 Encoding twice
    False: the code of U+C9D5 is the UTF-8 encoding of U+00A1, which is in CP949. *)
Theorem C193_refuted : exists rs x, encodes rs x /\ (exists r, In r rs /\ 0x80 <= r) /\
  forall grow, exists y, To grow x = Ok (inl y) /\ ~ In 0x3F y.
Proof. exact twice_refuted. Qed.
Print Assumptions C193_refuted.
(** True of everything that is not valid UTF-8. *)
Theorem C193_partial : forall grow x, Forall is_byte x -> ~ valid_utf8 x ->
  exists y, To grow x = Ok (inl y) /\ occurs [0x3F; 0x3F] y.
Proof. exact twice_marks. Qed.
Print Assumptions C193_partial.

(** The code of U+B098. *)
Example C193_case : ~ valid_utf8 [0xB3; 0xAA] /\ Forall is_byte [0xB3; 0xAA] /\
  To (fun old need => Z.max need (2 * old)) [0xB3; 0xAA] = Ok (inl [0x3F; 0x3F; 0x3F; 0x3F]).
Proof.
  split; [intros H; apply valid_pair in H; lia|]. split; [repeat (constructor; [unfold is_byte; lia|]); constructor|].
  vm_compute. reflexivity.
Qed.
