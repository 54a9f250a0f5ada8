(** Vocabulary for chains of Decoders and Encoders. *)
From Coq Require Import ZArith List.
From Verif Require Import Base Spec SpecCp949 SpecIO.
Import ListNotations.
Local Open Scope Z_scope.

Inductive coder : Type := Dec | Enc.
(** [f] gives the bytes that stand for a character. *)
Definition converts (f : Z -> list Z) (c : coder) (src out : list Z) : Prop :=
  match c with
  | Dec => exists rs, decodes src rs /\ out = utf8 rs
  | Enc => exists rs, reads_as src rs /\ out = flat_map f rs
  end.

(** What becomes of [src] in a chain: it is converted by one after the other; the k-th one finds
    a text that ends inside a character; or something between two of them does not fit into the
    buffer. *)
Inductive outcome : Type := Converted (out : list Z) | Failed (k : nat) | TooLong.
Inductive chained (f : Z -> list Z) (room : Z) : list coder -> list Z -> outcome -> Prop :=
| chained_last c src out : converts f c src out -> chained f room [c] src (Converted out)
| chained_cut cs src : truncated src -> chained f room (Dec :: cs) src (Failed 0)
| chained_long c d cs src mid : converts f c src mid -> room < zlen mid -> chained f room (c :: d :: cs) src TooLong
| chained_step c d cs src mid o : converts f c src mid -> zlen mid <= room -> chained f room (d :: cs) mid o ->
    chained f room (c :: d :: cs) src (match o with Failed k => Failed (S k) | _ => o end).

(** The content of dst, nDst, nSrc and err after a call of Transform. *)
Definition call_result {E} (dst src : list Z) (cut : E) (o : outcome) (r : list Z * Z * Z * option E) : Prop :=
  let '(d, nDst, nSrc, err) := r in
  match o with
  | Converted out =>
    nDst = zlen out /\ nSrc = zlen src /\ err = None /\ zlen d = zlen dst /\
    (zlen out <= zlen dst -> d = out ++ zdrop (zlen out) dst) /\ (zlen dst < zlen out -> is_prefix d out)
  | Failed k => d = dst /\ nDst = 0 /\ nSrc = (if (k =? 0)%nat then 0 else zlen src) /\ err = Some cut
  | TooLong => False
  end.
