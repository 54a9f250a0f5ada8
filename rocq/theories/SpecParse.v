(** Programs that cut a text into pieces at certain bytes, such as encoding/csv, which read it
    byte by byte and treat all bytes alike but a few special ones. *)
From Coq Require Import ZArith List Bool.
Import ListNotations.
Local Open Scope Z_scope.
Local Open Scope list_scope.

(** What becomes of a special byte: it belongs to the piece, it is left out, or it ends the piece
    (with a mark, which may tell ends of fields from ends of records). *)
Inductive act : Type := Keep | Drop | Close (mark : Z).

(** A program with states [Q].  [None] is an error.  Bytes that are not special are kept or left
    out by the state alone; [at_end] says whether the rest counts as a piece. *)
Record parser (Q : Type) : Type := Parser {
  start : Q;
  special : Z -> bool;
  on_special : Q -> Z -> option (Q * act);
  on_other : Q -> option (Q * bool);
  at_end : Q -> option bool
}.
Arguments start {Q}. Arguments special {Q}. Arguments on_special {Q}. Arguments on_other {Q}. Arguments at_end {Q}.

(** A second byte that is not special is treated like the first. *)
Definition uniform {Q} (m : parser Q) : Prop :=
  forall q q' k, on_other m q = Some (q', k) -> on_other m q' = Some (q', k).

Definition piece_then (p : list Z * Z) (r : option (list (list Z * Z))) : option (list (list Z * Z)) :=
  match r with Some ps => Some (p :: ps) | None => None end.
(** The pieces, with their marks; [cur] is what the current piece has so far. *)
Fixpoint pieces {Q} (m : parser Q) (q : Q) (cur s : list Z) : option (list (list Z * Z)) :=
  match s with
  | [] => match at_end m q with Some true => Some [(cur, 0)] | Some false => Some [] | None => None end
  | b :: s' =>
    if special m b then
      match on_special m q b with
      | None => None
      | Some (q', Keep) => pieces m q' (cur ++ [b]) s'
      | Some (q', Drop) => pieces m q' cur s'
      | Some (q', Close k) => piece_then (cur, k) (pieces m q' [] s')
      end
    else
      match on_other m q with
      | None => None
      | Some (q', true) => pieces m q' (cur ++ [b]) s'
      | Some (q', false) => pieces m q' cur s'
      end
  end.
Definition parse {Q} (m : parser Q) (s : list Z) : option (list (list Z * Z)) := pieces m (start m) [] s.

(** Both fail, or both succeed with as many pieces, with the same marks, and with contents that
    are related. *)
Definition same_pieces (R : list Z -> list Z -> Prop) (a b : option (list (list Z * Z))) : Prop :=
  match a, b with
  | None, None => True
  | Some ps, Some ts => Forall2 (fun p t => snd p = snd t /\ R (fst p) (fst t)) ps ts
  | _, _ => False
  end.

(** Comma separated values with quoted fields, after RFC 4180: commas and line ends within
    quotation marks belong to the field, and two quotation marks stand for one. *)
Inductive csv_state := FieldStart | Plain | Quoted | QuoteSeen.
Definition csv : parser csv_state := {|
  start := FieldStart;
  special := fun b => (b =? 0x2C) || (b =? 0x22) || (b =? 0x0A);
  on_special := fun q b =>
    match q with
    | Quoted => if b =? 0x22 then Some (QuoteSeen, Drop) else Some (Quoted, Keep)
    | QuoteSeen => if b =? 0x22 then Some (Quoted, Keep) else Some (FieldStart, Close b)
    | FieldStart => if b =? 0x22 then Some (Quoted, Drop) else Some (FieldStart, Close b)
    | Plain => if b =? 0x22 then None else Some (FieldStart, Close b)
    end;
  on_other := fun q =>
    match q with
    | FieldStart | Plain => Some (Plain, true)
    | Quoted => Some (Quoted, true)
    | QuoteSeen => None
    end;
  at_end := fun q => match q with FieldStart => Some false | Quoted => None | _ => Some true end
|}.
