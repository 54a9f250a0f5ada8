(** Fast evaluation of [map_get] on large tables through binary trees. *)
From Coq Require Import ZArith List Bool Lia FMapPositive.
From Verif Require Import Base Spec Facts.
Import ListNotations.
Local Open Scope Z_scope.

Definition tree {V} (l : list (Z * V)) : PositiveMap.t V :=
  fold_right (fun kv t => PositiveMap.add (Z.to_pos (fst kv)) (snd kv) t) (PositiveMap.empty V) l.

Definition tget {V} (t : PositiveMap.t V) (k : Z) : option V :=
  match k with Zpos p => PositiveMap.find p t | _ => None end.

Lemma tree_get {V} (l : list (Z * V)) :
  forallb (fun kv => 0 <? fst kv) l = true ->
  forall k, tget (tree l) k = map_get l k.
Proof.
  induction l as [|[k' v] l IH]; cbn [forallb fst]; intros H k.
  - destruct k; cbn; try reflexivity. apply PositiveMap.gempty.
  - apply andb_true_iff in H as [H1 H2]. specialize (IH H2 k).
    destruct k' as [|k'|k']; try discriminate H1.
    cbn [tree fold_right fst snd map_get Z.to_pos]. fold (tree l).
    destruct (Z.eqb_spec (Zpos k') k) as [<-|Hne].
    + cbn [tget]. apply PositiveMap.gss.
    + destruct k as [|k|k]; try exact IH. cbn [tget] in *.
      rewrite PositiveMap.gso by congruence. exact IH.
Qed.

Lemma map_get_notin {V} (l : list (Z * V)) k : map_get l k = None <-> ~ In k (map fst l).
Proof.
  induction l as [|[k' v] l IH]; cbn [map_get map fst In]; [tauto|].
  destruct (Z.eqb_spec k' k) as [->|Hne].
  - split; [discriminate|tauto].
  - rewrite IH. tauto.
Qed.

(** NoDup of a list of keys, through a tree of the keys seen so far. *)
Fixpoint nodup_check (l : list Z) (t : PositiveMap.t unit) : bool :=
  match l with
  | [] => true
  | Zpos p :: l' =>
    match PositiveMap.find p t with
    | Some _ => false
    | None => nodup_check l' (PositiveMap.add p tt t)
    end
  | _ => false
  end.
Lemma nodup_check_correct l : forall t, nodup_check l t = true ->
  NoDup l /\ forall p, PositiveMap.find p t <> None -> ~ In (Zpos p) l.
Proof.
  induction l as [|k l IH]; intros t H.
  - split; [constructor|]. intros p _ [].
  - cbn [nodup_check] in H. destruct k as [|p|p]; try discriminate.
    destruct (PositiveMap.find p t) eqn:E; [discriminate|].
    apply IH in H as [Hn Hp]. split.
    + constructor; [|exact Hn]. apply Hp. rewrite PositiveMap.gss. discriminate.
    + intros q Hq [Eq|Hin].
      * injection Eq as ->. congruence.
      * revert Hin. apply Hp. destruct (Pos.eq_dec q p) as [->|Hne].
        -- rewrite PositiveMap.gss. discriminate.
        -- rewrite PositiveMap.gso by exact Hne. exact Hq.
Qed.
Lemma nodup_by_check l : nodup_check l (PositiveMap.empty unit) = true -> NoDup l.
Proof. intros H. apply nodup_check_correct in H. tauto. Qed.
