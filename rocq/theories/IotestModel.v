(** testing/iotest of the standard library: TestReader (NOT code of /repo; from its published
    source), applied to a Reader (encoding/cp949/public.go:41-94), which is no io.Seeker or
    io.ReaderAt, so that its checks of these do not apply. *)
From Coq Require Import ZArith List Bool.
From Verif Require Import Base Cp949Model StreamModel.
Import ListNotations.
Local Open Scope Z_scope.
Local Open Scope go_scope.

Section Reader.
Variable grow : Z -> Z -> Z.
Variable RS : Type.
Variable rd : RS -> Z -> list Z * option error * RS.

Definition nothing (bs : list Z) : bool := match bs with [] => true | _ => false end.
Definition is_EOF (e : option error) : bool := match e with Some EOF => true | _ => false end.
Fixpoint same_bytes (a b : list Z) : bool :=
  match a, b with
  | [], [] => true
  | x :: a, y :: b => (x =? y) && same_bytes a b
  | _, _ => false
  end.

(* The second and the third check: io.ReadAll, with reads of the given [sizes] (1, 2, 3, 1, ...;
   fewer where the buffer of io.ReadAll has less left), has to return the content, and another
   Read nothing and io.EOF.  The result is the number of the check that fails. *)
Definition TestReader_rest (fuel : nat) (r : reader RS) (content sizes : list Z) : res (option Z) :=
  let! (out, err, r) := read_seq grow RS rd fuel r sizes in
  match err with
  | None => Fuel                      (* not enough sizes *)
  | Some _ =>
    if negb (is_EOF err) then Ok (Some 2) else
    if negb (same_bytes out content) then Ok (Some 2) else
    let! (bs, err, r) := Read grow RS rd fuel r 10 in
    if negb (nothing bs) || negb (is_EOF err) then Ok (Some 3) else Ok None
  end.
(* The first check: if there is any content, Read(nil) has to return 0 and no error. *)
Definition TestReader (fuel : nat) (r : reader RS) (content sizes : list Z) : res (option Z) :=
  if nothing content then TestReader_rest fuel r content sizes
  else
    let! (bs, err, r) := Read grow RS rd fuel r 0 in
    match err with
    | Some _ => Ok (Some 1)
    | None => if nothing bs then TestReader_rest fuel r content sizes else Ok (Some 1)
    end.
End Reader.
