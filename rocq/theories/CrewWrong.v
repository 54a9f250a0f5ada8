(** Readers of two goroutines over one reader that divides a character: proofs for PropCrewRead.v. *)
From Coq Require Import String ZArith List Bool Lia.
From Verif Require Import Base Spec SpecCp949 SpecIO Cp949Model GoLang GoSource GoThreads SourceSpec SpecThreads SpecCells SpecAgents SpecCrew SpecCrewRead ThreadWrong Cp949Facts2.
Import ListNotations.
Local Open Scope list_scope.
Local Open Scope Z_scope.

Section Schedule.
Context {E : Type}.
Variable rd : nat -> E -> Z -> Z * list Z * option error * E.
Variable wr : nat -> E -> list Z -> Z * option error * E.
(** The execution in which goroutine [i] goes on for at most [n] steps, until it has made [k] calls. *)
Fixpoint advance (n : nat) (i : nat) (k : nat) (c : crew E) : nat * list (entry E) * crew E :=
  match n, nth_error (c_procs c) i with
  | S n, Some q =>
    if is_done q then (0%nat, [], c) else
    match one E rd wr q (mkState E (c_arrs c) (c_objs c) (c_ext c)) with
    | Ok (q', s') =>
      let l := map (mkEntry i (c_ext c)) (asks q) in
      let c' := mkCrew (arrs E s') (objs E s') (ext E s') (set_nth i q' (c_procs c)) in
      match asks q, k with
      | [], _ => let '(m, l', c2) := advance n i k c' in (S m, l ++ l', c2)
      | _, S (S k) => let '(m, l', c2) := advance n i (S k) c' in (S m, l ++ l', c2)
      | _, _ => (1%nat, l ++ [], c')
      end
    | _ => (0%nat, [], c)
    end
  | _, _ => (0%nat, [], c)
  end.
Lemma advance_steps n i : forall k c m l c', advance n i k c = (m, l, c') -> crew_steps E rd wr m c l c'.
Proof.
  induction n as [|n IH]; intros k c m l c' H; cbn [advance] in H; [injection H as <- <- <-; constructor|].
  destruct (nth_error (c_procs c) i) as [q|] eqn:Hq; [|injection H as <- <- <-; constructor].
  destruct (is_done q) eqn:Hd; [injection H as <- <- <-; constructor|].
  destruct (one E rd wr q _) as [[q' s']| |] eqn:Ho; try (injection H as <- <- <-; constructor).
  assert (Hs : crew_step E rd wr c (map (mkEntry i (c_ext c)) (asks q)) (mkCrew (arrs E s') (objs E s') (ext E s') (set_nth i q' (c_procs c)))).
  { destruct c as [A O x qs]. cbn [c_arrs c_objs c_ext c_procs] in *. econstructor; eassumption. }
  cbv zeta in H. destruct (asks q) as [|a l0] eqn:Ea.
  - destruct (advance n i k _) as [[m1 l1] c1] eqn:E1. injection H as <- <- <-. exact (crew_steps_S _ _ _ _ _ _ _ _ _ Hs (IH _ _ _ _ _ E1)).
  - destruct k as [|[|k]].
    + injection H as <- <- <-. exact (crew_steps_S _ _ _ _ _ _ _ _ _ Hs (crew_steps_0 _ _ _ _)).
    + injection H as <- <- <-. exact (crew_steps_S _ _ _ _ _ _ _ _ _ Hs (crew_steps_0 _ _ _ _)).
    + destruct (advance n i (S k) _) as [[m1 l1] c1] eqn:E1. injection H as <- <- <-. exact (crew_steps_S _ _ _ _ _ _ _ _ _ Hs (IH _ _ _ _ _ E1)).
Qed.
Lemma steps_app m1 : forall c l1 c1 m2 l2 c2, crew_steps E rd wr m1 c l1 c1 -> crew_steps E rd wr m2 c1 l2 c2 -> crew_steps E rd wr (m1 + m2) c (l1 ++ l2) c2.
Proof.
  induction m1 as [|m1 IH]; intros c l1 c1 m2 l2 c2 H1 H2; inversion H1; subst; [exact H2|]. cbn [plus]. rewrite <- app_assoc. econstructor; [eassumption|]. eapply IH; eassumption.
Qed.
Fixpoint perform (n : nat) (plan : list (nat * nat)) (c : crew E) : nat * list (entry E) * crew E :=
  match plan with
  | [] => (0%nat, [], c)
  | (i, k) :: plan =>
    let '(m, l, c1) := advance n i k c in
    let '(m', l', c2) := perform n plan c1 in
    ((m + m')%nat, l ++ l', c2)
  end.
Lemma perform_steps n plan : forall c m l c', perform n plan c = (m, l, c') -> crew_steps E rd wr m c l c'.
Proof.
  induction plan as [|[i k] plan IH]; intros c m l c' H; cbn [perform] in H; [injection H as <- <- <-; constructor|].
  destruct (advance n i k c) as [[m1 l1] c1] eqn:E1. destruct (perform n plan c1) as [[m2 l2] c2] eqn:E2. injection H as <- <- <-.
  eapply steps_app; [eapply advance_steps, E1|eapply IH, E2].
Qed.
End Schedule.

Definition halves : messages := [([0xB0], []); ([0xA1], [])].
Definition quiet_wr (i : nat) (q : messages) (bs : list Z) : Z * option error * messages := (zlen bs, None, q).
Definition place : nat := S (length m_multiElements).
Definition memory : list (list Z) := ([] :: map snd m_multiElements) ++ [[0; 0; 0; 0; 0; 0; 0; 0]].
Definition pair_of_readers : list (list (nat * (Z * Z)) * (nat * list val)) :=
  [([(place, (0, 4))], (0%nat, [VSlice place 0 4 4])); ([(place, (4, 8))], (0%nat, [VSlice place 4 4 4]))].
Definition result (q : proc val) : option val := match q with Done (Ok (VTuple (_ :: vs))) => Some (VTuple vs) | _ => None end.
Definition run_halves (fuel : nat) : nat * list (entry messages) * crew messages :=
  perform (message_rd EOF) quiet_wr 3000 [(0, 1); (1, 1); (1, 2); (0, 9); (1, 9)]%nat (start_crew dbl fuel memory [] halves (reader_crew pair_of_readers)).
Lemma run_halves_steps fuel m l c : run_halves fuel = (m, l, c) ->
  crew_steps messages (message_rd EOF) quiet_wr m (start_crew dbl fuel memory [] halves (reader_crew pair_of_readers)) l c.
Proof. unfold run_halves. apply perform_steps. Qed.
Lemma halves_lost : exists q text grow n A (gs : list (list (nat * (Z * Z)) * (nat * list val))) m log c,
  decodes (concat (map fst q)) text /\ text <> [] /\
  separate_parts A [] (map fst (reader_crew gs)) /\ (2 <= length gs)%nat /\
  crew_steps messages (message_rd EOF) quiet_wr m (start_crew grow n A [] q (reader_crew gs)) log c /\ crew_finished c /\ c_ext c = [] /\
  Forall (fun x => exists p, x = Done (Ok (VTuple (VTuple [VPtr p; VErr None] :: flat_map seen_read [([], Some EOF)])))) (c_procs c).
Proof.
  remember (run_halves 60) as r eqn:Hrun. symmetry in Hrun. destruct r as [[m log] c].
  exists halves, [0xAC00], dbl, 60%nat, memory, pair_of_readers, m, log, c.
  assert (Hl : (length m_multiElements < place < length memory)%nat) by (vm_compute; lia).
  assert (Hz : zlen (array memory place) = 8) by (vm_compute; reflexivity).
  split; [cbn [halves map fst concat app]; apply dec_code; [lia|lia|apply assigned_by; vm_compute; reflexivity|constructor]|]. split; [discriminate|]. split; [|split].
  - clear Hrun. split; [exists [[0; 0; 0; 0; 0; 0; 0; 0]]; reflexivity|].
    split.
    { intros [|[|[|i]]] [|[|[|j]]] t u l z Hij; cbn [nth_error map reader_crew pair_of_readers fst]; try (intros; discriminate || contradiction);
        intros [= <-] [= <-] (lo & hi & [Ha|[]] & Hz1) (lo' & hi' & [Hb|[]] & Hz2); injection Ha as _ ? ?; injection Hb as _ ? ?; lia. }
    split; [constructor|].
    intros t [<-|[<-|[]]]; cbn [k_parts k_objs k_ops fst]; (split; [intros l lo hi [[= <- <- <-]|[]]; rewrite Hz; lia|]); (split; [intros l []|constructor]).
  - apply le_n.
  - split; [exact (run_halves_steps _ _ _ _ Hrun)|].
    assert (Hc : (let '(_, _, c) := run_halves 60 in (c_procs c, c_ext c)) =
      ([Done (Ok (VTuple (VTuple [VPtr 1; VErr None] :: flat_map seen_read [([], Some EOF)])));
        Done (Ok (VTuple (VTuple [VPtr 3; VErr None] :: flat_map seen_read [([], Some EOF)])))], [])) by (vm_compute; reflexivity).
    rewrite Hrun in Hc. injection Hc as Hp Hx. unfold crew_finished. rewrite Hp, Hx. split; [|split; [reflexivity|]].
    + intros x [<-|[<-|[]]]; reflexivity.
    + repeat constructor; eexists; reflexivity.
Qed.
