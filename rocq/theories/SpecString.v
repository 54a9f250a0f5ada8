(** What String returns for a text that is cut into blocks, without buffers and loops (C78). *)
From Coq Require Import ZArith List Bool.
From Verif Require Import Base Cp949Model.
Import ListNotations.
Local Open Scope Z_scope.
Local Open Scope go_scope.

Section Conv.
Variable conv : list Z -> res (list Z + error).     (* the conversion of a block *)

(** The blocks [bs] that follow the first one that was changed, when [got] has been made so far and
    there is room for [room] bytes in all. *)
Fixpoint after_change (room : Z) (got : list Z) (bs : list (list Z)) : res (list Z + error) :=
  if room <? zlen got then Panic
  else match bs with
       | [] => Ok (inl got)
       | b :: bs =>
         let! r := conv b in
         match r with inr e => Ok (inr e) | inl c => after_change room (got ++ c) bs end
       end.

(** The blocks [bs] of a text of [len] bytes, when the blocks before them, [same], came back unchanged:
    the room is fixed by the first block that is changed. *)
Fixpoint block_by_block (len : Z) (same : list Z) (bs : list (list Z)) : res (list Z + error) :=
  match bs with
  | [] => Ok (inl same)
  | b :: bs =>
    let! r := conv b in
    match r with
    | inr e => Ok (inr e)
    | inl c =>
      if list_eq_dec Z.eq_dec c b then block_by_block len (same ++ b) bs
      else if 128 <? zlen c then Panic
      else after_change (match same with [] => 128 | _ :: _ => len - zlen b + zlen c end) (same ++ c) bs
    end
  end.
End Conv.
