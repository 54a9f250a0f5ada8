(** C152, C153: texts taken apart into letters. *)
From Coq Require Import ZArith List Bool.
From Verif Require Import Base Spec SpecJamo HangulModel SpecLetters LettersFacts.
Import ListNotations.
Local Open Scope Z_scope.

Theorem C152_compose : forall rs, plain rs -> compose (letters rs) = rs.
Proof. exact compose_letters. Qed.
Print Assumptions C152_compose.
Theorem C152_unique : forall rs rs', plain rs -> plain rs' -> letters rs = letters rs' -> rs = rs'.
Proof. exact letters_unique. Qed.
Print Assumptions C152_unique.
(** 각나 "a가", the letters of it, and two texts with the same letters, one of them with a loose letter. *)
Example C152_case :
  plain [0xAC01; 0xB098; 0x20; 0x61; 0xAC00] /\
  letters [0xAC01; 0xB098; 0x20; 0x61; 0xAC00] = [0x3131; 0x314F; 0x3131; 0x3134; 0x314F; 0x20; 0x61; 0x3131; 0x314F] /\
  letters [0xAC00; 0x3131] = letters [0xAC01] /\ ~ plain [0xAC00; 0x3131].
Proof.
  split; [|split; [vm_compute; reflexivity|split; [vm_compute; reflexivity|]]].
  - repeat (apply Forall_cons; [first [left; split; vm_compute; discriminate|right; intros H; unfold is_jamo, is_lead_jamo, is_medial_jamo, is_tail_jamo, is_compat_jaeum, is_compat_moeum in H;
      repeat destruct H as [H|H]; destruct H as [H1 H2]; now apply H1]|]). apply Forall_nil.
  - intros H. inversion H as [|? ? _ H1]; subst. inversion H1 as [|? ? [[H2 H3]|H2] _]; subst; [now apply H2|].
    apply H2. right. right. right. left. split; vm_compute; discriminate.
Qed.

Theorem C153_refuted : exists rs rs', plain rs /\ plain rs' /\ keys rs = keys rs' /\ rs <> rs'.
Proof. exact keys_ambiguous. Qed.
Print Assumptions C153_refuted.
Theorem C153_exact_partial : forall rs rs', plain rs -> plain rs' -> (keys rs = keys rs' <-> respelt rs rs').
Proof. exact keys_exact. Qed.
Print Assumptions C153_exact_partial.
Theorem C153_simple_partial : forall rs rs', plain rs -> plain rs' ->
  Forall (fun c => is_syllable c -> ~ tense c) rs -> Forall (fun c => is_syllable c -> ~ tense c) rs' -> keys rs = keys rs' -> rs = rs'.
Proof. exact keys_simple. Qed.
Print Assumptions C153_simple_partial.
(** 알까 and 앍가 are typed alike; the tails of 닭 and 값 and the vowel of 과 are taken apart as well;
    no lead of 닭값과 is doubled. *)
Example C153_case :
  keys [0xC54C; 0xAE4C] = [0x3147; 0x314F; 0x3139; 0x3131; 0x3131; 0x314F] /\
  keys [0xC54D; 0xAC00] = keys [0xC54C; 0xAE4C] /\
  half_moved [0xC54C; 0xAE4C] [0xC54D; 0xAC00] /\
  keys [0xB2ED; 0xAC12; 0xACFC] = [0x3137; 0x314F; 0x3139; 0x3131; 0x3131; 0x314F; 0x3142; 0x3145; 0x3131; 0x3157; 0x314F] /\
  Forall (fun c => is_syllable c -> ~ tense c) [0xB2ED; 0xAC12; 0xACFC] /\ tense 0xAE4C.
Proof.
  split; [vm_compute; reflexivity|]. split; [vm_compute; reflexivity|]. split.
  { apply (half_moved_intro [] [] 0xC54C 0xAE4C 0xC54D 0xAC00 0x3147 0x314F 0x3139 0x313A 0x3132 0x3131 0x314F 0);
      try (split; vm_compute; discriminate); vm_compute; reflexivity. }
  split; [vm_compute; reflexivity|]. split.
  - repeat apply Forall_cons; try apply Forall_nil; intros _ (l & m & t & x & Hs & Hk); vm_compute in Hs; injection Hs as <- <- <-; vm_compute in Hk; discriminate.
  - exists 0x3132, 0x314F, 0, 0x3131. split; vm_compute; reflexivity.
Qed.
