(** Property C117: the exported constants. *)
From Coq Require Import ZArith List String.
From Verif Require Import Spec SpecNames ConstModel ConstFacts.
Import ListNotations.
Local Open Scope Z_scope.

(** * C117 Constants name the Unicode jamo
    The constant of a letter's name is its compatibility form; with the prefix Lead, Medial
    or Tail it is the conjoining form, and there is none where Unicode has none. *)
Theorem C117_constants : forall x,
  constant (short_name x) = Some (compat_form x) /\
  constant ("Lead" ++ lead_name x) = lead_form x /\
  constant ("Medial" ++ short_name x) = medial_form x /\
  constant ("Tail" ++ tail_name x) = tail_form x /\
  constant (tail_name x) = Some (compat_form x).
Proof. exact constants_lemma. Qed.
Print Assumptions C117_constants.
(** There are no others. *)
Theorem C117_only : forall n c, constant n = Some c -> exists x,
  n = short_name x \/ n = tail_name x \/ n = ("Lead" ++ lead_name x)%string \/
  n = ("Medial" ++ short_name x)%string \/ n = ("Tail" ++ tail_name x)%string.
Proof. exact constants_only_lemma. Qed.
Print Assumptions C117_only.
Example C117_case : constant "LeadR" = Some 0x1105 /\ constant "L" = Some 0x3139 /\
  constant "TailL" = Some 0x11AF /\ constant "LeadGS" = None /\ constant "NG" = Some 0x3147.
Proof. vm_compute. repeat split. Qed.
