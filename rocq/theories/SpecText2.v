(** More about byte strings and texts, as Go's bytes and strings packages see them. *)
From Coq Require Import ZArith List Bool.
From Verif Require Import Base Spec SpecCp949 Cp949Model.
Import ListNotations.
Local Open Scope Z_scope.

Definition ascii_b (b : Z) : bool := (0 <=? b) && (b <? 0x80).

(** ASCII other than letters and the question mark, which [To] uses as a substitute. *)
Definition ascii_mark (b : Z) : bool := ascii_nonletter b && negb (b =? 0x3F).

(** [subsequence a b]: [a] is [b] with some elements left out. *)
Inductive subsequence {A : Type} : list A -> list A -> Prop :=
| sub_nil : subsequence [] []
| sub_take x a b : subsequence a b -> subsequence (x :: a) (x :: b)
| sub_skip x a b : subsequence a b -> subsequence a (x :: b).

(** [split_at sep s pieces]: bytes.Split(s, []byte{sep}): [s] is the pieces joined by [sep],
    which occurs in none of them; there is always at least one piece. *)
Inductive split_at (sep : Z) : list Z -> list (list Z) -> Prop :=
| split_last p : ~ In sep p -> split_at sep p [p]
| split_more p s ps : ~ In sep p -> split_at sep s ps -> split_at sep (p ++ sep :: s) (p :: ps).

(** All syllables of a text replaced by their parts: what NFD does to them. *)
Definition parts_of (x : Z * Z * Z) : list Z :=
  let '(l, m, t) := x in if t =? 0 then [l; m] else [l; m; t].

(** Syllables and the characters below the conjoining jamo. *)
Definition low_char (r : Z) : Prop := 0 <= r < 0x1100 \/ is_syllable r.

(** A reader that, asked with room for at least one character, hands out the encoding of
    the characters [rs] in non-empty chunks of whole characters, and then [e]. *)
Inductive delivers_chars {RS : Type} (rd : RS -> Z -> list Z * option error * RS)
  : RS -> list Z -> error -> Prop :=
| delivers_chars_intro s rs e :
    (forall k chunk e' s', 2 <= k -> rd s k = (chunk, Some e', s') ->
       e' = e /\ zlen chunk <= k /\ decodes chunk rs) ->
    (forall k chunk s', 2 <= k -> rd s k = (chunk, None, s') ->
       chunk <> [] /\ zlen chunk <= k /\ exists r1 r2, decodes chunk r1 /\ rs = r1 ++ r2) ->
    (forall k chunk s' r1 r2, 2 <= k -> rd s k = (chunk, None, s') -> decodes chunk r1 -> rs = r1 ++ r2 ->
       delivers_chars rd s' r2 e) ->
    delivers_chars rd s rs e.
