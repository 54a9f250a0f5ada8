(** What readers made of others contain. *)
From Coq Require Import ZArith List.
From Verif Require Import Base Spec SpecIO Cp949Model ComposeModel.
Import ListNotations.
Local Open Scope Z_scope.

(** [content rd c bytes e]: the newly made reader [c] stands for the stream [bytes] that ends
    with the error [e]. *)
Inductive content {RS : Type} (rd : RS -> Z -> list Z * option error * RS) : composed RS -> list Z -> error -> Prop :=
| content_plain s bytes e : delivers rd s bytes e -> content rd (Plain s) bytes e
(* one after the other, up to the first that ends with an error other than EOF *)
| content_multi_none : content rd (Multi []) [] EOF
| content_multi_more c cs a b e : content rd c a EOF -> content rd (Multi cs) b e -> content rd (Multi (c :: cs)) (a ++ b) e
| content_multi_error c cs a e : content rd c a e -> e <> EOF -> content rd (Multi (c :: cs)) a e
(* the first N bytes; when these are all and followed by an error, whether that is seen
   depends on whether it comes with the last byte *)
| content_limit_less N c bytes e : content rd c bytes e -> N < zlen bytes -> content rd (Limit N c) (ztake N bytes) EOF
| content_limit_exact c bytes : content rd c bytes EOF -> content rd (Limit (zlen bytes) c) bytes EOF
| content_limit_more N c bytes e : content rd c bytes e -> zlen bytes < N -> content rd (Limit N c) bytes e
| content_tee c w bytes e : content rd c bytes e -> content rd (Tee c w) bytes e
| content_buffered size c bytes e : content rd c bytes e -> 0 < size -> content rd (Buffered size [] None c) bytes e
| content_one_byte c bytes e : content rd c bytes e -> content rd (OneByte c) bytes e
| content_half c bytes e : content rd c bytes e -> content rd (Half c) bytes e.

(** Handing the same bytes to several writers, in order, up to the first that fails. *)
Fixpoint to_each {WS : Type} (wr : WS -> list Z -> option error * WS) (dsts : list WS) (bs : list Z) : option error * list WS :=
  match dsts with
  | [] => (None, [])
  | d :: dsts =>
    let '(err, d) := wr d bs in
    match err with
    | Some _ => (err, d :: dsts)
    | None => let '(err, dsts) := to_each wr dsts bs in (err, d :: dsts)
    end
  end.
(** Some Writes, given each chunk and its encoding: an empty chunk reaches no writer. *)
Fixpoint writes_to_each {WS : Type} (wr : WS -> list Z -> option error * WS) (dsts : list WS) (chunks : list (list Z * list Z))
  : list (Z * option error) * list WS :=
  match chunks with
  | [] => ([], dsts)
  | (data, encoded) :: chunks =>
    let '(err, dsts) := match data with [] => (None, dsts) | _ => to_each wr dsts encoded end in
    let '(results, dsts) := writes_to_each wr dsts chunks in
    ((match err with Some _ => 0 | None => zlen data end, err) :: results, dsts)
  end.
