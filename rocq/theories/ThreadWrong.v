(** Goroutines that share what must not be shared: proofs for PropThreads.v. *)
From Coq Require Import String ZArith List Bool Lia.
From Verif Require Import Base Cp949Model GoLang GoSource GoThreads SourceSpec SpecThreads.
Import ListNotations.
Local Open Scope Z_scope.
Local Open Scope list_scope.
Local Open Scope go_scope.

Section Sched.
Context {E : Type}.
Variable rd : nat -> E -> Z -> Z * list Z * option error * E.
Variable wr : nat -> E -> list Z -> Z * option error * E.

(** Let the processes take steps in the given order; those that are done are skipped. *)
Fixpoint sched (is : list nat) (c : pool E) : option (nat * pool E) :=
  match is with
  | [] => Some (0%nat, c)
  | i :: is =>
    match nth_error (p_procs E c) i with
    | Some (p, x) =>
      if is_done p then sched is c else
      match one E rd wr p (mkState E (p_arrs E c) (p_objs E c) x) with
      | Ok (p', s') =>
        match sched is (mkPool E (arrs E s') (objs E s') (set_nth i (p', ext E s') (p_procs E c))) with
        | Some (n, c') => Some (S n, c')
        | None => None
        end
      | _ => None
      end
    | None => None
    end
  end.
Lemma sched_steps is : forall c n c', sched is c = Some (n, c') -> pool_steps E rd wr n c c'.
Proof.
  induction is as [|i is IH]; intros c n c' H; cbn [sched] in H; [injection H as <- <-; constructor|].
  destruct (nth_error (p_procs E c) i) as [[p x]|] eqn:Hi; [|discriminate]. destruct (is_done p) eqn:Hd; [auto|].
  destruct (one E rd wr p _) as [[p' s']| |] eqn:Ho; try discriminate. destruct (sched is _) as [[m c1]|] eqn:Hs; [|discriminate].
  injection H as <- <-. econstructor; [|apply IH; exact Hs]. destruct c as [A O ts]. cbn [p_arrs p_objs p_procs] in *. econstructor; eassumption.
Qed.

Definition result (p : proc val) : option val := match p with Done (Ok v) => Some v | _ => None end.
Lemma results_done (c : pool E) (vs : list val) : map (fun y => result (fst y)) (p_procs E c) = map Some vs ->
  finished c /\ map fst (p_procs E c) = map (fun v => Done (Ok v)) vs.
Proof.
  intros H. assert (H' : map fst (p_procs E c) = map (fun v => Done (Ok v)) vs).
  { revert vs H. induction (p_procs E c) as [|[p x] l IH]; intros [|v vs] H; try discriminate; [reflexivity|]. cbn [map fst] in *.
    injection H as H1 H2. f_equal; [|auto]. destruct p as [[| |]| | | | | | | |]; try discriminate H1. cbn in H1. congruence. }
  split; [|exact H']. intros p x Hin. apply (in_map fst) in Hin. rewrite H' in Hin. apply in_map_iff in Hin. destruct Hin as (v & Hv & _). cbn in Hv. subst p. reflexivity.
Qed.

Definition next (p : proc val) : option (place * bool) :=
  match p with
  | Load l _ n _ => if 0 <? n then Some (PArr l, false) else None
  | Save l _ (_ :: _) _ => Some (PArr l, true)
  | GetObj l _ => Some (PObj l, false)
  | SetField l _ _ _ => Some (PObj l, true)
  | _ => None
  end.
Lemma next_about p pl b : next p = Some (pl, b) -> about_to p pl b.
Proof.
  destruct p; cbn [next]; try discriminate.
  - destruct (Z.ltb_spec 0 n); [|discriminate]. intros [= <- <-]. now constructor.
  - destruct bs; [discriminate|]. intros [= <- <-]. now constructor.
  - intros [= <- <-]. constructor.
  - intros [= <- <-]. constructor.
Qed.
Lemma next_race (c : pool E) pl a b : map (fun y => next (fst y)) (p_procs E c) = [Some (pl, a); Some (pl, b)] -> a || b = true -> race c.
Proof.
  intros H Hab. destruct (p_procs E c) as [|[p x] [|[q y] [|]]] eqn:Hc; try discriminate. injection H as H1 H2.
  exists 0%nat, 1%nat, p, q, x, y, a, b, pl. rewrite Hc. repeat split; auto; now apply next_about.
Qed.
End Sched.

(** ** One Reader, two goroutines *)
Definition s_of {E} (r : res (val * state E)) (d : state E) : state E := match r with Ok (_, s) => s | _ => d end.
Definition v_of {E} (r : res (val * state E)) : option val := match r with Ok (v, _) => Some v | _ => None end.
Lemma ok_of {E} (r : res (val * state E)) d v : v_of r = Some v -> r = Ok (v, s_of r d).
Proof. destruct r as [[u s]| |]; cbn; congruence. Qed.
Definition d0 : state (list Z) := mkState (list Z) [] [] [].
Notation after_first m := (alone dbl (list Z) str_rd str_wr 40 (open_and_read m) [] (mkState (list Z) (reader_memory m) [] [0xB0; 0xA1])).
Notation bufs A := (map (fun i => array A (buffer i)) [0; 1; 2]%nat).
Definition alternate (n : nat) : list nat := flat_map (fun _ => [0; 1]%nat) (seq 0 n).

Definition shown {E} (x : option (nat * pool E)) : option (nat * list (option val) * list (option (place * bool)) * list (list Z)) :=
  match x with
  | Some (n, c) => Some (n, map (fun y => result (fst y)) (p_procs E c), map (fun y => next (fst y)) (p_procs E c), bufs (p_arrs E c))
  | None => None
  end.
Lemma shown_inv {E} (x : option (nat * pool E)) n rs ns bs : shown x = Some (n, rs, ns, bs) ->
  exists c, x = Some (n, c) /\ map (fun y => result (fst y)) (p_procs E c) = rs /\ map (fun y => next (fst y)) (p_procs E c) = ns /\ bufs (p_arrs E c) = bs.
Proof. destruct x as [[m c]|]; [|discriminate]. cbn. intros [= <- <- <- <-]. eauto. Qed.

Lemma shared_reader :
  exists s, after_first 1 = Ok (VTuple [VTuple [VPtr 1; VErr None]; VTuple [VInt 1; VErr None]], s) /\ bufs (arrs _ s) = [[0xEA]; [0]; [0]] /\
  (exists s', alone dbl (list Z) str_rd str_wr 40 [read_into 1 1; read_into 1 2] [] s =
     Ok (VTuple [VTuple [VInt 1; VErr None]; VTuple [VInt 1; VErr None]], s') /\ bufs (arrs _ s') = [[0xEA]; [0xB0]; [0x80]]) /\
  (exists k c, pool_steps (list Z) str_rd str_wr k (start dbl 40 (arrs _ s) (objs _ s) (two_readers 1 (ext _ s))) c /\
     finished c /\ map fst (p_procs _ c) = [Done (Ok (VTuple [VTuple [VInt 1; VErr None]])); Done (Ok (VTuple [VTuple [VInt 1; VErr None]]))] /\
     bufs (p_arrs _ c) = [[0xEA]; [0xB0]; [0xB0]]) /\
  (exists k c, pool_steps (list Z) str_rd str_wr k (start dbl 40 (arrs _ s) (objs _ s) (two_readers 1 (ext _ s))) c /\ race c).
Proof.
  exists (s_of (after_first 1) d0). split; [apply ok_of; vm_compute; reflexivity|]. split; [vm_compute; reflexivity|]. split; [|split].
  - eexists. split; [apply (ok_of _ d0); vm_compute; reflexivity|]. vm_compute. reflexivity.
  - match goal with |- exists k c, pool_steps _ _ _ k ?p c /\ _ => 
      assert (H : shown (sched str_rd str_wr (alternate 6) p) = Some (12%nat, map Some [VTuple [VTuple [VInt 1; VErr None]]; VTuple [VTuple [VInt 1; VErr None]]], [None; None], [[0xEA]; [0xB0]; [0xB0]]))
        by (vm_compute; reflexivity) end.
    apply shown_inv in H. destruct H as (c & Hc & Hr & _ & Hb). exists 12%nat, c. split; [eapply sched_steps; exact Hc|].
    destruct (results_done _ _ Hr) as [Hf Hm]. split; [exact Hf|]. split; [exact Hm|exact Hb].
  - match goal with |- exists k c, pool_steps _ _ _ k ?p c /\ _ => 
      assert (H : shown (sched str_rd str_wr [0; 0; 0; 0; 0]%nat p) = Some (5%nat, [None; None], [Some (PObj 1, true); Some (PObj 1, false)], [[0xEA]; [0xB0]; [0]]))
        by (vm_compute; reflexivity) end.
    apply shown_inv in H. destruct H as (c & Hc & _ & Hn & _). exists 5%nat, c. split; [eapply sched_steps; exact Hc|].
    eapply next_race; [exact Hn|reflexivity].
Qed.
Definition panicked (p : proc val) : bool := match p with Done Panic => true | _ => false end.
Definition panics {E} (x : option (nat * pool E)) : list bool :=
  match x with Some (_, c) => map (fun y => panicked (fst y)) (p_procs E c) | None => [] end.
Lemma panics_inv {E} (o : option (nat * pool E)) a : panics o = [a; true] ->
  exists k c x, o = Some (k, c) /\ nth_error (p_procs E c) 1 = Some (Done Panic, x).
Proof.
  destruct o as [[k c]|]; [|discriminate]. cbn [panics]. intros H. exists k, c.
  destruct (p_procs E c) as [|y [|[q x] [|]]]; try discriminate H. injection H as _ Hq. exists x. split; [reflexivity|].
  destruct q as [[| |]| | | | | | | |]; try discriminate Hq. reflexivity.
Qed.
Lemma shared_reader_panic :
  exists s, after_first 2 = Ok (VTuple [VTuple [VPtr 1; VErr None]; VTuple [VInt 2; VErr None]], s) /\ bufs (arrs _ s) = [[0xEA; 0xB0]; [0]; [0]] /\
  (exists s', alone dbl (list Z) str_rd str_wr 40 [read_into 1 1; read_into 1 2] [] s =
     Ok (VTuple [VTuple [VInt 1; VErr None]; VTuple [VInt 0; VErr (Some EOF)]], s') /\ bufs (arrs _ s') = [[0xEA; 0xB0]; [0x80]; [0]]) /\
  exists k c x, pool_steps (list Z) str_rd str_wr k (start dbl 40 (arrs _ s) (objs _ s) (two_readers 1 (ext _ s))) c /\
     nth_error (p_procs _ c) 1 = Some (Done Panic, x).
Proof.
  exists (s_of (after_first 2) d0). split; [apply ok_of; vm_compute; reflexivity|]. split; [vm_compute; reflexivity|]. split.
  - eexists. split; [apply (ok_of _ d0); vm_compute; reflexivity|]. vm_compute. reflexivity.
  - match goal with |- exists k c x, pool_steps _ _ _ k ?p c /\ _ => 
      assert (H : panics (sched str_rd str_wr (alternate 4 ++ [0; 0; 0; 1; 1; 1])%nat p) = [false; true]) by (vm_compute; reflexivity) end.
    apply panics_inv in H. destruct H as (k & c & x & Hc & Hp). exists k, c, x. split; [eapply sched_steps; exact Hc|exact Hp].
Qed.

(** ** The map of package hangul *)
Lemma shared_map :
  let A := [] :: map snd m_multiElements in
  (exists s, alone dbl unit no_rd no_wr 40 count_strokes [] (mkState unit A [] tt) = Ok (VTuple [VInt 2], s)) /\
  (exists k c, pool_steps unit no_rd no_wr k (start dbl 40 A [] (split_beside_stroke tt)) c /\ race c) /\
  exists k c, pool_steps unit no_rd no_wr k (start dbl 40 A [] (split_beside_stroke tt)) c /\
    finished c /\ map fst (p_procs _ c) = [Done (Ok (VTuple [VTuple [VSlice 1 0 2 2; VBool true]; VNil])); Done (Ok (VTuple [VInt 4]))].
Proof.
  cbv zeta. split; [|split].
  - eexists. apply (ok_of _ (mkState unit [] [] tt)). vm_compute. reflexivity.
  - match goal with |- exists k c, pool_steps _ _ _ k ?p c /\ _ =>
      assert (H : shown (sched no_rd no_wr [] p) = Some (0%nat, [None; None], [Some (PArr 1, true); Some (PArr 1, false)], [[]; []; []]))
        by (vm_compute; reflexivity) end.
    apply shown_inv in H. destruct H as (c & Hc & _ & Hn & _). exists 0%nat, c. split; [eapply sched_steps; exact Hc|].
    eapply next_race; [exact Hn|reflexivity].
  - match goal with |- exists k c, pool_steps _ _ _ k ?p c /\ _ =>
      assert (H : shown (sched no_rd no_wr [0; 1; 1]%nat p) =
        Some (3%nat, map Some [VTuple [VTuple [VSlice 1 0 2 2; VBool true]; VNil]; VTuple [VInt 4]], [None; None], [[]; []; []]))
        by (vm_compute; reflexivity) end.
    apply shown_inv in H. destruct H as (c & Hc & Hr & _ & _). exists 3%nat, c. split; [eapply sched_steps; exact Hc|]. exact (results_done _ _ Hr).
Qed.
