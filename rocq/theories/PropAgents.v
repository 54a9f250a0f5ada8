(** Properties of goroutines that decide what to do next by what they have seen (SpecAgents.v). *)
From Coq Require Import String ZArith List Bool Lia.
From Verif Require Import Base Spec Cp949Model GoLang GoSource GoThreads SourceSpec SpecThreads SpecCells SpecAgents
  ThreadWrong AgentFacts.
Import ListNotations.
Local Open Scope list_scope.
Local Open Scope Z_scope.
Local Open Scope go_scope.

(** * C151 Goroutines that react to what they see behave as if they were alone *)
Theorem C151_agents_independent : forall E rd wr grow n A O (cs : list (worker E * code)) outs,
  separate_parts A O (map fst cs) ->
  Forall (fun x => code_usable A O (map fst cs) (fst x) [] (snd x)) cs ->
  Forall2 (fun x out => code_alone grow E rd wr n (snd x) [] (mkState E A O (k_ext (fst x))) = out /\ out <> Fuel) cs outs ->
  exists N, forall k c, pool_steps E rd wr k (start_agents grow n A O cs) c ->
    (k <= N)%nat /\ (finished c \/ exists c', pool_step E rd wr c c') /\ ~ cell_race c /\
    (length A <= length (p_arrs E c))%nat /\
    (forall l, (l < length A)%nat -> zlen (array (p_arrs E c) l) = zlen (array A l) /\
       forall z, ~ owned (map fst cs) l z -> zget (array (p_arrs E c) l) z = zget (array A l) z) /\
    (finished c -> forall i t out, nth_error cs i = Some t -> nth_error outs i = Some out ->
       match out with
       | Ok (v, s) => exists v', nth_error (p_procs E c) i = Some (Done (Ok v'), ext E s) /\
           looks_same_in (length A) (fun l z => owns (fst t) l z \/ ~ owned (map fst cs) l z) (fun l => In l (k_objs (fst t)) \/ fieldless O l)
             (arrs E s) (objs E s) v (p_arrs E c) (p_objs E c) v'
       | _ => exists x, nth_error (p_procs E c) i = Some (Done Panic, x)
       end).
Proof. exact agents_independent. Qed.
Print Assumptions C151_agents_independent.
(** Three goroutines read streams into the three parts of one array, each until there is an
    error (at most 9 times); after each Read they look at their part.  The first finishes after
    two Reads, the second after three; the third reads from a reader that claims to have read
    more than was asked for, and panics. *)
Definition ex_thirds : nat := S (length m_multiElements).
Definition ex_zeros : list Z := [0; 0; 0; 0; 0; 0; 0; 0; 0; 0; 0; 0].
Definition ex_array : list (list Z) := ([] :: map snd m_multiElements) ++ [ex_zeros].
Fixpoint ex_drain (v : val) (k : nat) : code :=
  match k with
  | O => Stop
  | S k => Act (CallOp Cp949 "cp949Reader.Read" [Prev 0 0; Const v])
      (fun r => match r with VTuple [VInt _; VErr None] => Act (PeekOp (Const v)) (fun _ => ex_drain v k) | _ => Stop end)
  end.
Definition ex_loop (i : nat) (v : val) : code := Act (CallOp Cp949 "NewReader" [Const (VExt i)]) (fun _ => ex_drain v 9).
Definition ex_rd (i : nat) (e : list Z) (n : Z) : Z * list Z * option error * list Z :=
  match i with O => str_rd i e n | _ => (n + 1, [], None, e) end.
Definition ex_agents : list (worker (list Z) * code) :=
  [(mkWorker [] [(ex_thirds, (0, 4))] [] [0xB0; 0xA1], ex_loop 0 (VSlice ex_thirds 0 4 8));
   (mkWorker [] [(ex_thirds, (4, 8))] [] [0xB0; 0xA1; 0x41; 0x42], ex_loop 0 (VSlice ex_thirds 4 4 4));
   (mkWorker [] [(ex_thirds, (8, 12))] [] [], ex_loop 1 (VSlice ex_thirds 8 4 4))].
Definition ex_result (r : res (val * state (list Z))) : res val := match r with Ok (v, _) => Ok v | Panic => Panic | Fuel => Fuel end.
Lemma ex_loop_usable t lo : In (ex_thirds, (lo, lo + 4)) (k_parts t) -> 0 <= lo -> forall i c, 4 <= c ->
  code_usable ex_array [] (map fst ex_agents) t [] (ex_loop i (VSlice ex_thirds lo 4 c)).
Proof.
  intros Hp Hlo i c Hc. assert (Hl : (ex_thirds < length ex_array)%nat) by (vm_compute; lia).
  assert (Hv : forall u, u <> Own -> may_use ex_array [] (map fst ex_agents) t u (VSlice ex_thirds lo 4 c)).
  { intros u Hu. split; [exact Hl|]. split; [lia|]. split; [lia|]. left. exists lo, (lo + 4). split; [exact Hp|]. destruct u; cbn [extent]; [contradiction|lia|lia]. }
  apply cu_act with (u := Own); [exists [Own]; split; [reflexivity|repeat constructor]|]. intros _. cbn [app].
  change [Own] with (Own :: []). generalize (@nil use) as us. generalize 9%nat as k. induction k as [|k IH]; intros us; cbn [ex_drain]; [constructor|].
  apply cu_act with (u := Own).
  - exists [Own; Dst]. split; [reflexivity|]. constructor; [exists Own; split; [reflexivity|exact I]|]. constructor; [now apply Hv|constructor].
  - intros w. destruct w as [| | | | | | | | | |[|[] [|[| | |[e|]| | | | | | |] [|]]]]; try constructor.
    apply cu_act with (u := Own); [split; [now apply Hv|reflexivity]|]. intros _. cbn [app]. apply IH.
Qed.
Example C151_case :
  separate_parts ex_array [] (map fst ex_agents) /\
  Forall (fun x => code_usable ex_array [] (map fst ex_agents) (fst x) [] (snd x)) ex_agents /\
  map (fun x => ex_result (code_alone dbl (list Z) ex_rd str_wr 40 (snd x) [] (mkState (list Z) ex_array [] (k_ext (fst x))))) ex_agents =
    [Ok (VTuple [VTuple [VPtr 1; VErr None]; VTuple [VInt 3; VErr None]; VStr [234; 176; 128; 0]; VTuple [VInt 0; VErr (Some EOF)]]);
     Ok (VTuple [VTuple [VPtr 1; VErr None]; VTuple [VInt 4; VErr None]; VStr [234; 176; 128; 65]; VTuple [VInt 1; VErr None];
       VStr [66; 176; 128; 65]; VTuple [VInt 0; VErr (Some EOF)]]);
     Panic].
Proof.
  split; [|split].
  - split; [exists [ex_zeros]; reflexivity|].
    assert (Hl : (length m_multiElements < ex_thirds < length ex_array)%nat) by (vm_compute; lia).
    assert (Hz : zlen (array ex_array ex_thirds) = 12) by (vm_compute; reflexivity).
    split.
    { intros [|[|[|[|i]]]] [|[|[|[|j]]]] t u l z Hij; cbn [nth_error map ex_agents fst]; try (intros; discriminate || contradiction);
        intros [= <-] [= <-] (lo & hi & [Ha|[]] & Hz1) (lo' & hi' & [Hb|[]] & Hz2); injection Ha as _ ? ?; injection Hb as _ ? ?; lia. }
    split; [constructor|].
    intros t [<-|[<-|[<-|[]]]]; cbn [k_parts k_objs k_ops fst]; (split; [intros l lo hi [[= <- <- <-]|[]]; rewrite Hz; lia|]); (split; [intros l []|constructor]).
  - constructor; [|constructor; [|constructor; [|constructor]]]; apply ex_loop_usable; cbn; auto; lia.
  - vm_compute. reflexivity.
Qed.
