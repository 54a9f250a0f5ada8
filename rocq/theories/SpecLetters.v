(** Vocabulary for texts that are taken apart into letters and put together again.  The functions
    are those a client would write with package hangul. *)
From Coq Require Import ZArith List Bool Relations.
From Verif Require Import Base Spec SpecJamo HangulModel.
Import ListNotations.
Local Open Scope Z_scope.

Definition is_jamo (r : Z) : Prop :=
  is_lead_jamo r \/ is_medial_jamo r \/ is_tail_jamo r \/ is_compat_jaeum r \/ is_compat_moeum r.
(** A text without loose letters: syllables and characters that are not Hangul. *)
Definition plain (rs : list Z) : Prop := Forall (fun r => is_syllable r \/ ~ is_jamo r) rs.

(** A text with every syllable replaced by its letters (SplitCompat, hangul.go:63-69). *)
Definition letters_of (c : Z) : list Z :=
  if (0xAC00 <=? c) && (c <=? 0xD7A3) then present (SplitCompat c) else [c].
Definition letters (rs : list Z) : list Z := flat_map letters_of rs.

(** The letters put together: a consonant before a vowel begins a syllable, and a consonant after
    these that does not begin a syllable itself belongs to it (Join, hangul.go:28-46). *)
Definition vowel_next (rs : list Z) : bool := match rs with r :: _ => IsMoeum r | [] => false end.
Fixpoint compose (rs : list Z) : list Z :=
  match rs with
  | l :: ((m :: rest) as next) =>
    if IsJaeum l && IsMoeum m then
      match rest with
      | t :: rest' => if IsJaeum t && negb (vowel_next rest') then Join l m t :: compose rest' else Join l m 0 :: compose rest
      | [] => [Join l m 0]
      end
    else l :: compose next
  | _ => rs
  end.

(** A text as it is typed: every letter replaced by its elements, if it has several
    (SplitMultiElement, jamo.go:86-90). *)
Definition keys_of (r : Z) : list Z := let (es, ok) := SplitMultiElement r in if ok then es else [r].
Definition keys (rs : list Z) : list Z := flat_map keys_of (letters rs).

(** Half of a doubled lead becomes the end of the tail of the syllable before it, as in 가까, 각가
    or 알까, 앍가. *)
Definition tail_keys (t : Z) : list Z := if t =? 0 then [] else keys_of t.
Inductive half_moved : list Z -> list Z -> Prop :=
| half_moved_intro before after c1 c2 d1 d2 l1 m1 t1 u1 l2 x m2 t2 :
    is_syllable c1 -> is_syllable c2 -> is_syllable d1 -> is_syllable d2 ->
    SplitCompat c1 = (l1, m1, t1) -> SplitCompat c2 = (l2, m2, t2) ->
    SplitCompat d1 = (l1, m1, u1) -> SplitCompat d2 = (x, m2, t2) ->
    keys_of l2 = [x; x] -> tail_keys u1 = tail_keys t1 ++ [x] ->
    half_moved (before ++ c1 :: c2 :: after) (before ++ d1 :: d2 :: after).
(** Moving halves forth and back any number of times. *)
Definition respelt : list Z -> list Z -> Prop := clos_refl_sym_trans (list Z) half_moved.
(** A syllable whose lead is a doubled letter. *)
Definition tense (c : Z) : Prop := exists l m t x, SplitCompat c = (l, m, t) /\ keys_of l = [x; x].
