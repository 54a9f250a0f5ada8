(** What strings.ReplaceAll and bytes.ReplaceAll do: [t] is [s] with the occurrences of [old],
    found from the left and not overlapping, replaced by [new].  Stated for lists of bytes and
    lists of characters alike; [old] is not empty. *)
From Coq Require Import ZArith List.
From Verif Require Import Spec.
Import ListNotations.

Inductive replaced (old new : list Z) : list Z -> list Z -> Prop :=
| rp_end : replaced old new [] []
| rp_hit s t : replaced old new s t -> replaced old new (old ++ s) (new ++ t)
| rp_miss c s t : ~ is_prefix old (c :: s) -> replaced old new s t -> replaced old new (c :: s) (c :: t).
