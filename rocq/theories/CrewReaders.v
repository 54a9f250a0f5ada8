(** Readers of several goroutines on top of one reader of messages: proofs for PropCrewRead.v. *)
From Coq Require Import String ZArith List Bool Lia.
From Verif Require Import Base Utf8 SortSearch TableFrom TableTo Cp949Model GoLang GoSource GoFacts GoHeap GoCp949 StreamModel StreamModel3 TransformModel Facts Utf8Facts SliceFacts
  Spec SpecCp949 TableFacts Cp949Facts StreamFacts GoStream SpecIO GoThreads ThreadFacts SourceSpec SourceFacts SourceFacts2 SpecThreads SpecCells SpecAgents SpecCrew GoroutineFacts CrewFacts StreamFacts5 PipeFacts2 SpecReads ReadsFacts ShareFacts ProgFacts CrewWriters SpecCrewRead.
Import ListNotations.
Local Open Scope string_scope.
Local Open Scope list_scope.
Local Open Scope Z_scope.
Local Open Scope go_scope.
Local Opaque fromTable toTable.
Local Arguments Z.add : simpl never.
Local Arguments Z.sub : simpl never.
Local Arguments Z.leb : simpl never.
Local Arguments Z.ltb : simpl never.
Local Arguments Z.geb : simpl never.
Local Arguments Z.gtb : simpl never.
Local Arguments Z.eqb : simpl never.
Local Arguments Z.lor : simpl never.
Local Arguments Z.land : simpl never.
Local Arguments Z.shiftl : simpl never.
Local Arguments Z.shiftr : simpl never.
Local Arguments to_u16 : simpl never.
Local Arguments to_u8 : simpl never.
Local Arguments Search : simpl never.
Local Arguments DecodeRune : simpl never.
Local Arguments run : simpl never.
Local Arguments zwrite : simpl never.
Local Arguments go_div : simpl never.
Local Arguments append_to : simpl never.
Local Arguments slice_of : simpl never.
Local Arguments index_of : simpl never.
Local Arguments copy_to : simpl never.
Local Arguments field_of : simpl never.
Local Arguments set_field : simpl never.
Local Arguments store : simpl never.
Local Arguments scap : simpl never.
Local Arguments go_append : simpl never.
Local Arguments cells : simpl never.


(** ** Executions that call the reader at most once *)
Section Probe.
Variable ans : Z -> Z * list Z * option error.
Definition probe_rd (i : nat) (y : list ask) (n : Z) : Z * list Z * option error * list ask := let '(c, bs, e) := ans n in (c, bs, e, y ++ [AskRead i n]).
Definition probe_wr (i : nat) (y : list ask) (bs : list Z) : Z * option error * list ask := (0, None, y ++ [AskWrite i bs]).
Notation F := (finish (list ask) probe_rd probe_wr).
Lemma probe_mono {A} (q : proc A) : forall s a s', F q s = Ok (a, s') -> exists more, ext _ s' = ext _ s ++ more.
Proof.
  induction q as [r|l o n k IH|l o bs k IH|a0 k IH|l k IH|l f v k IH|T fs k IH|i n k IH|i bs k IH]; intros s a s' H; cbn [finish] in H.
  - destruct r; try discriminate H. injection H as _ <-. exists []. now rewrite app_nil_r.
  - apply IH in H. exact H.
  - apply IH in H. exact H.
  - unfold new_arr in H. apply IH in H. exact H.
  - destruct (the _); try discriminate H. cbn [bind] in H. apply IH in H. exact H.
  - unfold set_field in H. destruct (the (nth_error (objs _ s) l)) as [[T fs]| |]; try discriminate H. cbn [bind] in H.
    destruct (the (get f fs)); try discriminate H. cbn [bind] in H. apply IH in H. exact H.
  - apply IH in H. exact H.
  - unfold probe_rd in H. destruct (ans n) as [[c bs] e]. apply IH in H. destruct H as [more H]. cbn [set_ext ext] in H. rewrite <- app_assoc in H. eauto.
  - unfold probe_wr in H. apply IH in H. destruct H as [more H]. cbn [set_ext ext] in H. rewrite <- app_assoc in H. eauto.
Qed.
Lemma probe_none {A} (q : proc A) : forall M O X a s', F q (mkState _ M O X) = Ok (a, s') -> ext _ s' = X ->
  forall E rd wr Y, finish E rd wr q (mkState E M O Y) = Ok (a, mkState E (arrs _ s') (objs _ s') Y).
Proof.
  induction q as [r|l o n k IH|l o bs k IH|a0 k IH|l k IH|l f v k IH|T fs k IH|i n k IH|i bs k IH]; intros M O X a s' H HX E rd wr Y; cbn [finish] in *.
  - destruct r; try discriminate H. injection H as -> <-. reflexivity.
  - eapply (IH _ M O X); eassumption.
  - eapply (IH (arrs _ (store _ (mkState _ M O X) l o bs)) O X); eassumption.
  - unfold new_arr in *. cbn [arrs objs ext] in *. eapply (IH _ _ O X); eassumption.
  - cbn [objs] in *. destruct (the (nth_error O l)); try discriminate H. cbn [bind] in *. eapply (IH _ M O X); eassumption.
  - unfold set_field in *. cbn [arrs objs ext] in *. destruct (the (nth_error O l)) as [[T fs]| |]; try discriminate H. cbn [bind] in *.
    destruct (the (get f fs)); try discriminate H. cbn [bind] in *. eapply (IH M _ X); eassumption.
  - cbn [arrs objs ext] in *. eapply (IH _ M _ X); eassumption.
  - exfalso. unfold probe_rd in H. destruct (ans n) as [[c bs] e]. apply probe_mono in H. destruct H as [more H]. cbn [set_ext ext] in H. rewrite H in HX.
    apply (f_equal (@length _)) in HX. rewrite !app_length in HX. cbn in HX. lia.
  - exfalso. unfold probe_wr in H. apply probe_mono in H. destruct H as [more H]. cbn [set_ext ext] in H. rewrite H in HX.
    apply (f_equal (@length _)) in HX. rewrite !app_length in HX. cbn in HX. lia.
Qed.
Lemma app_cut {A} (X : list A) a b more : X ++ [a] = (X ++ [b]) ++ more -> a = b /\ more = [].
Proof. rewrite <- app_assoc. intros H. apply app_inv_head in H. injection H as -> H. destruct more; [auto|discriminate]. Qed.
Lemma probe_once {A} (q : proc A) : forall M O X a s' i n, F q (mkState _ M O X) = Ok (a, s') -> ext _ s' = X ++ [AskRead i n] ->
  forall E rd wr Y Y', rd i Y n = (ans n, Y') -> finish E rd wr q (mkState E M O Y) = Ok (a, mkState E (arrs _ s') (objs _ s') Y').
Proof.
  induction q as [r|l o m k IH|l o bs k IH|a0 k IH|l k IH|l f v k IH|T fs k IH|j m k IH|j bs k IH]; intros M O X a s' i n H HX E rd wr Y Y' Hrd; cbn [finish] in *.
  - destruct r; try discriminate H. injection H as -> <-. cbn [ext] in HX. apply (f_equal (@length _)) in HX. rewrite app_length in HX. cbn in HX. lia.
  - eapply (IH _ M O X); eassumption.
  - eapply (IH (arrs _ (store _ (mkState _ M O X) l o bs)) O X); eassumption.
  - unfold new_arr in *. cbn [arrs objs ext] in *. eapply (IH _ _ O X); eassumption.
  - cbn [objs] in *. destruct (the (nth_error O l)); try discriminate H. cbn [bind] in *. eapply (IH _ M O X); eassumption.
  - unfold set_field in *. cbn [arrs objs ext] in *. destruct (the (nth_error O l)) as [[T fs]| |]; try discriminate H. cbn [bind] in *.
    destruct (the (get f fs)); try discriminate H. cbn [bind] in *. eapply (IH M _ X); eassumption.
  - cbn [arrs objs ext] in *. eapply (IH _ M _ X); eassumption.
  - unfold probe_rd in H. destruct (ans m) as [[c bs] e] eqn:Ha. pose proof (probe_mono _ _ _ _ H) as [more Hm]. cbn [set_ext ext] in Hm. rewrite HX in Hm.
    apply app_cut in Hm. destruct Hm as [[= -> ->] ->]. cbn [ext]. rewrite Hrd, Ha. unfold set_ext in *. cbn [arrs objs ext] in *.
    eapply probe_none; eassumption.
  - exfalso. unfold probe_wr in H. pose proof (probe_mono _ _ _ _ H) as [more Hm]. cbn [set_ext ext] in Hm. rewrite HX in Hm.
    apply app_cut in Hm. destruct Hm as [Hm _]. discriminate Hm.
Qed.
Lemma probe_run grow f args M O a s' n : run grow (list ask) probe_rd probe_wr prog_cp949 n f args (mkState _ M O []) = Ok (a, s') ->
  forall E rd wr X X',
  match ext _ s' with
  | [] => X' = X
  | [AskRead i k] => rd i X k = (ans k, X')
  | _ => False
  end -> run grow E rd wr prog_cp949 n f args (mkState E M O X) = Ok (a, mkState E (arrs _ s') (objs _ s') X').
Proof.
  intros H E rd wr X X' Hx. rewrite <- (finish_run grow E rd wr (source Cp949) (searches_source Cp949)). change prog_cp949 with (source Cp949) in H.
  rewrite <- (finish_run grow _ probe_rd probe_wr (source Cp949) (searches_source Cp949)) in H.
  destruct (ext _ s') as [|[i k|i bs] [|]] eqn:Hs; try contradiction Hx.
  - subst X'. eapply probe_none; [exact H|exact Hs].
  - eapply probe_once; [exact H|exact Hs|exact Hx].
Qed.
End Probe.

(** ** One Read, on a reader with the messages [x] *)
Definition good (room : Z) (x : messages) : Prop := Forall (fun m => decodes (fst m) (snd m) /\ snd m <> [] /\ zlen (fst m) <= room) x.
Definition step (e : error) (left : list Z) (ended : bool) (x : messages) (k : Z) : list Z * option error * list Z * bool * bool :=
  match left with
  | _ :: _ => (ztake k left, None, zdrop k left, ended, false)
  | [] => if ended then ([], Some e, [], true, false) else
    match x with
    | [] => ([], Some e, [], true, true)
    | m :: _ => (ztake k (utf8 (snd m)), None, zdrop k (utf8 (snd m)), false, true)
    end
  end.
Section One.
Variable grow : Z -> Z -> Z.
Variable e : error.
Variable kx : nat.
Variable room : Z.
Hypothesis Hroom : 0 < room.
Definition answer (x : messages) (n : Z) : Z * list Z * option error := fst (message_rd e kx x n).
Definition rd1 (x : messages) (y : list ask) (n : Z) : list Z * option error * list ask :=
  match x with [] => ([], Some e, y ++ [AskRead kx n]) | m :: _ => (ztake n (fst m), None, y ++ [AskRead kx n]) end.
Definition err_of (ended : bool) : option error := if ended then Some e else None.
Lemma rd1_fits x : good room x -> fits_buffer (rd1 x).
Proof.
  intros Hx y n Hn. destruct Hx as [|m x (Hd & _ & _) _]; cbn [rd1 fst]; [split; [exact Hn|constructor]|].
  split; [rewrite zlen_ztake by lia; lia|]. apply Forall_ztake. eapply decodes_bytes, Hd.
Qed.
Lemma rd1_starves x k n s u : good room x -> room <= k -> starves (rd1 x) k n [] s u -> n = O /\ s = [] /\ u = [].
Proof.
  intros Hx Hk H. remember (@nil ask) as s0 eqn:Hs0. induction H as [s|n s s1 u sp c s2 H IH Hsp E Hc Ht]; [auto|]. exfalso. destruct (IH Hs0) as (_ & -> & ->).
  cbn [app] in Ht. destruct Hx as [|m x (Hd & _ & Hl) _]; cbn [rd1] in E; [discriminate|]. injection E as <- <-. rewrite ztake_all in Ht by lia. exact (trunc_not _ _ Ht Hd).
Qed.
Lemma read_model x q left ended k : good room x -> room <= k -> between _ q ([], left, err_of ended) ->
  let '(bs, er, left', ended', used) := step e left ended x k in
  exists q' sp, Read grow _ (rd1 x) 2 q k = Ok (bs, er, q') /\ between _ q' (r_src _ q', left', err_of ended') /\ k <= sp /\
    r_src _ q' = if used then [AskRead kx sp] else [].
Proof.
  intros Hx Hk Hb. destruct (read_between grow _ (rd1 x) (rd1_fits x Hx) k 2 q _ ltac:(lia) Hb) as [[_ [Hz|(s & n & s' & u & E & Hst & Hle)]]|(bs & er & q' & st' & E & H1 & Hb')].
  - discriminate.
  - exfalso. injection E as <- _ _. destruct (rd1_starves x k n s' u Hx Hk Hst) as (-> & _). lia.
  - assert (Hsrc : r_src _ q' = fst (fst st')) by (destruct Hb' as (_ & _ & ->); reflexivity).
    inversion H1 as [s0 text0 err0 Ht|s0 x0|s0 n s1 u sp c er0 s2 r Hst Hsp Er Hdc Hne|s0 n s1 u sp c er0 s2 x0 Hst Hsp Er Hor Hfin]; subst; cbn [fst] in Hsrc.
    + destruct left as [|b left]; [congruence|]. cbn [step]. exists q', k. rewrite Hsrc. split; [exact E|]. split; [exact Hb'|]. split; [lia|reflexivity].
    + destruct ended; [|discriminate]. match goal with H : Some _ = err_of true |- _ => injection H as -> end. cbn [step]. exists q', k. rewrite Hsrc. split; [exact E|]. split; [exact Hb'|]. split; [lia|reflexivity].
    + destruct ended; [discriminate|]. destruct (rd1_starves x k n s1 u Hx Hk Hst) as (-> & -> & ->). cbn [step app] in *.
      destruct Hx as [|m x (Hd & Hm & Hl) _]; cbn [rd1] in Er; injection Er as <- <- <-.
      * exfalso. apply Hne. now inversion Hdc.
      * rewrite ztake_all in Hdc, Hb' by lia. rewrite (decodes_fun _ _ Hdc _ Hd) in *. exists q', sp. rewrite Hsrc. split; [exact E|]. split; [|split; [lia|reflexivity]].
        destruct (fst m) eqn:Em; [exfalso; apply Hm; now inversion Hd|]. exact Hb'.
    + destruct ended; [discriminate|]. destruct (rd1_starves x k n s1 u Hx Hk Hst) as (-> & -> & ->). cbn [step app] in *.
      destruct Hx as [|m x (Hd & Hm & Hl) _]; cbn [rd1] in Er; injection Er as <- <- <-.
      * cbn [final] in Hfin. injection Hfin as <-. exists q', sp. rewrite Hsrc. split; [exact E|]. split; [exact Hb'|]. split; [lia|reflexivity].
      * rewrite ztake_all in Hfin, Hor by lia. destruct (fst m) eqn:Em; [exfalso; apply Hm; now inversion Hd|]. discriminate Hfin.
Qed.

Definition holds_reader (A : heap) O p pt ls lr (left : list Z) (ended : bool) : Prop :=
  exists r q, is_reader (list ask) kx (mkState _ A O []) p pt ls lr r /\ r_src _ r = [] /\ alike _ _ eq r q /\ between _ q ([], left, err_of ended).
Lemma alike_src (r q : reader (list ask)) : alike _ _ eq r q -> alike _ _ eq (with_src r []) (with_src q []).
Proof. intros (_ & H). split; [reflexivity|exact H]. Qed.
Lemma read_heap A O p pt ls lr left ended x lb ob nb cb old :
  holds_reader A O p pt ls lr left ended -> good room x -> room <= nb -> input A lb ob nb cb old -> sep A lb ls -> sep A lb lr ->
  let '(bs, er, left', ended', used) := step e left ended x nb in
  exists A' O' ls' lr' sp N, holds_reader A' O' p pt ls' lr' left' ended' /\ zlen bs <= nb /\ nb <= sp /\
    (length A <= length A')%nat /\ (ls' = ls \/ (length A <= ls')%nat) /\ (lr' = lr \/ (length A <= lr')%nat) /\
    cell A' lb = zwrite (cell A lb) ob bs /\
    (forall j, (j < length A)%nat -> j <> lb -> sep A j ls -> sep A j lr -> cell A' j = cell A j) /\
    forall E rd wr X X' n, (N <= n)%nat -> (if used then rd kx X sp = (answer x sp, X') else X' = X) ->
      run grow E rd wr prog_cp949 n "cp949Reader.Read" [VPtr p; VSlice lb ob nb cb] (mkState E A O X) = Ok (VTuple [VInt (zlen bs); VErr er], mkState E A' O' X').
Proof.
  intros (r & q & Hr & Hsrc & Hal & Hbt) Hx Hnb Hin Hs1 Hs2. pose proof (read_model x q left ended nb Hx Hnb Hbt) as Hm.
  destruct (step e left ended x nb) as [[[[bs er] left'] ended'] used]. destruct Hm as (q' & sp & Hq & Hbt' & Hsp & Hask).
  assert (Hans : answers_alike _ _ (probe_rd (answer x) kx) (rd1 x) eq).
  { intros y s k <-. unfold rd1, probe_rd, answer. destruct x as [|m x]; cbn [message_rd fst]; exists [], (y ++ [AskRead kx k]); rewrite app_nil_r; auto. }
  pose proof (read_alike grow _ _ (probe_rd (answer x) kx) (rd1 x) eq Hans 2 r q nb Hal) as Hres. rewrite Hq in Hres.
  destruct (Read3 grow (list ask) (probe_rd (answer x) kx) 2 r nb) as [[[bs1 er1] r']| |] eqn:Hr3; cbn in Hres; try contradiction.
  destruct Hres as [[= -> ->] Hal']. cbn [snd] in Hal'.
  assert (Hby : forall y k, Forall is_byte (snd (fst (fst (probe_rd (answer x) kx y k))))).
  { intros y k. unfold probe_rd, answer. destruct Hx as [|m x (Hd & _) _]; cbn [message_rd fst snd]; [constructor|]. apply Forall_ztake. eapply decodes_bytes, Hd. }
  destruct (go_Read grow (list ask) (probe_rd (answer x)) probe_wr kx Hby 2 _ p pt ls lr r lb ob nb cb old bs er r' Hr (eq_sym Hsrc) Hin Hs1 Hs2 Hr3)
    as (s' & ls' & lr' & Hr' & Hext & _ & Hlen & H1 & H2 & H3 & H4 & H5 & _ & N & Hrun).
  assert (Hr'src : r_src _ r' = if used then [AskRead kx sp] else []) by (destruct Hal' as [-> _]; exact Hask).
  exists (arrs _ s'), (objs _ s'), ls', lr', sp, N. split; [|split; [exact Hlen|split; [exact Hsp|]]].
  - exists (with_src r' []), (with_src q' []). split; [|split; [reflexivity|split; [now apply alike_src|eapply between_src, Hbt']]].
    destruct Hr' as (Hne & cdv & Ho1 & Ho2 & Hi). split; [exact Hne|]. exists cdv. split; [exact Ho1|]. split; [exact Ho2|]. exact Hi.
  - cbn [arrs] in *. split; [exact H1|]. split; [exact H2|]. split; [exact H3|]. split; [exact H4|]. split; [exact H5|].
    intros E rd wr X X' n Hn HX. apply (probe_run (answer x) grow _ _ _ _ _ _ _ (Hrun n Hn) E rd wr X X'). rewrite Hext, Hr'src. destruct used; exact HX.
Qed.
End One.

(** ** The Reads of a goroutine *)
Fixpoint read_spec (e : error) (left : list Z) (ended : bool) (sizes : list Z) (look : nat -> messages) : list (list Z * option error) * nat :=
  match sizes with
  | [] => ([], O)
  | k :: sizes =>
    let '(bs, er, left', ended', used) := step e left ended (look O) k in
    let '(outs, j) := read_spec e left' ended' sizes (if used then fun j => look (S j) else look) in
    ((bs, er) :: outs, if used then S j else j)
  end.
Lemma read_spec_ext e sizes : forall left ended look look', (forall j, look j = look' j) -> read_spec e left ended sizes look = read_spec e left ended sizes look'.
Proof.
  induction sizes as [|k sizes IH]; intros left ended look look' H; [reflexivity|]. cbn [read_spec]. rewrite <- (H O).
  destruct (step e left ended (look O) k) as [[[[bs er] left'] ended'] used].
  rewrite (IH left' ended' (if used then fun j => look (S j) else look) (if used then fun j => look' (S j) else look')); [reflexivity|]. destruct used; auto.
Qed.
Lemma read_spec_results e sizes : forall left ended es x0, snd (read_spec e left ended sizes (fun j => nth j (map n_at es) x0)) = length es ->
  fst (read_spec e left ended sizes (fun j => nth j (map n_at es) x0)) = read_results e left ended sizes es /\ length (read_results e left ended sizes es) = length sizes.
Proof.
  induction sizes as [|k sizes IH]; intros left ended es x0 H; [split; reflexivity|]. cbn [read_spec read_results] in *. destruct left as [|b left]; cbn [step] in *.
  - destruct ended.
    + specialize (IH [] true es x0). destruct (read_spec e [] true sizes _) as [outs j]. cbn [fst snd length] in *. destruct (IH H) as [-> ->]. auto.
    + destruct es as [|call es].
      { exfalso. cbn [map nth] in H. destruct x0; destruct (read_spec _ _ _ _ _); discriminate H. }
      cbn [map nth] in *. destruct (n_at call) as [|m q].
      * specialize (IH [] true es x0). destruct (read_spec e [] true sizes _) as [outs j]. cbn [fst snd length] in *. injection H as H. destruct (IH H) as [-> ->]. auto.
      * specialize (IH (zdrop k (utf8 (snd m))) false es x0). destruct (read_spec e _ false sizes _) as [outs j]. cbn [fst snd length] in *. injection H as H. destruct (IH H) as [-> ->]. auto.
  - specialize (IH (zdrop k (b :: left)) ended es x0). destruct (read_spec e _ ended sizes _) as [outs j]. cbn [fst snd length] in *. destruct (IH H) as [-> ->]. auto.
Qed.
Notation show := seen_read.
Lemma sup {A} (P : A -> nat -> Prop) l : (forall x N N', (N <= N')%nat -> P x N -> P x N') -> Forall (fun x => exists N, P x N) l -> exists N, Forall (fun x => P x N) l.
Proof.
  intros Hm H. induction H as [|x l [N HN] _ [M IH]]; [exists O; constructor|]. exists (Nat.max N M). constructor; [eapply Hm; [|exact HN]; lia|].
  eapply Forall_impl; [|exact IH]. intros y Hy. eapply Hm; [|exact Hy]. lia.
Qed.
Lemma read_spec_least e sizes : forall left ended es call x0, snd (read_spec e left ended sizes (fun j => nth j (map n_at (es ++ [call])) x0)) = length (es ++ [call]) ->
  (length (read_results e left ended sizes es) < length sizes)%nat.
Proof.
  induction sizes as [|k sizes IH]; intros left ended es call x0 H; [rewrite app_length in H; cbn in H; lia|]. cbn [read_spec read_results] in *.
  destruct left as [|b left]; cbn [step] in *.
  - destruct ended; [specialize (IH [] true es call x0); destruct (read_spec _ _ _ _ _); cbn [snd length] in *; specialize (IH H); lia|].
    destruct es as [|c es]; [cbn [length]; lia|]. cbn [app map nth] in *. destruct (n_at c) as [|m q].
    + specialize (IH [] true es call x0). destruct (read_spec _ _ _ _ _). cbn [snd length] in *. injection H as H. specialize (IH H). lia.
    + specialize (IH (zdrop k (utf8 (snd m))) false es call x0). destruct (read_spec _ _ _ _ _). cbn [snd length] in *. injection H as H. specialize (IH H). lia.
  - specialize (IH (zdrop k (b :: left)) ended es call x0). destruct (read_spec _ _ _ _ _). cbn [snd length] in *. specialize (IH H). lia.
Qed.
Lemma received_cons call es : received (call :: es) = match n_ask call, n_at call with AskRead _ _, m :: _ => [m] | _, _ => [] end ++ received es.
Proof. reflexivity. Qed.
Lemma read_spec_ended e sizes : forall look, snd (read_spec e [] true sizes look) = O.
Proof. induction sizes as [|k sizes IH]; intros look; [reflexivity|]. cbn [read_spec step]. specialize (IH look). destruct (read_spec e [] true sizes look). exact IH. Qed.
Lemma utf8_some rs : rs <> [] -> utf8 rs <> [].
Proof. destruct rs as [|r rs]; [congruence|]. intros _ H. rewrite utf8_cons in H. apply app_eq_nil in H as [H _]. unfold utf8_char in H. repeat destruct (_ <? _) in H; discriminate. Qed.
Lemma read_spec_text e room sizes : Forall (fun k => 0 < k) sizes -> forall left ended es x0,
  Forall (fun call => good room (n_at call) /\ exists i sp, n_ask call = AskRead i sp) es -> (ended = true -> left = []) ->
  snd (read_spec e left ended sizes (fun j => nth j (map n_at es) x0)) = length es ->
  exists rest, left ++ utf8 (concat (map snd (received es))) = concat (map fst (fst (read_spec e left ended sizes (fun j => nth j (map n_at es) x0)))) ++ rest /\
    forall r, In r (fst (read_spec e left ended sizes (fun j => nth j (map n_at es) x0))) -> (snd r = None /\ fst r <> []) \/ (r = ([], Some e) /\ rest = []).
Proof.
  intros Hs. induction Hs as [|k sizes Hk _ IH]; intros left ended es x0 Hes Hle H.
  - exists left. cbn [read_spec fst snd] in *. destruct es; [|discriminate H]. cbn. rewrite app_nil_r. split; [reflexivity|]. intros r [].
  - assert (Htk : forall t : list Z, t <> [] -> ztake k t <> []).
    { intros [|x t] Ht E; [congruence|]. apply (f_equal zlen) in E. rewrite zlen_ztake, zlen_cons in E by lia. change (zlen []) with 0 in E. pose proof (zlen_nonneg t). lia. }
    cbn [read_spec] in *. destruct left as [|b left]; cbn [step] in *.
    + destruct ended.
      * pose proof (read_spec_ended e sizes (fun j => nth j (map n_at es) x0)) as Hz. specialize (IH [] true es x0 Hes Hle).
        destruct (read_spec e [] true sizes _) as [outs j]. cbn [fst snd map concat app] in *. destruct (IH H) as (rest & H1 & H2).
        assert (es = []) as -> by (destruct es; [reflexivity|cbn in H; lia]). cbn in H1. symmetry in H1. apply app_eq_nil in H1 as [H1 ->].
        exists []. cbn. rewrite H1. split; [reflexivity|]. intros r [<-|Hr]; auto.
      * destruct es as [|call es]; [exfalso; cbn [map nth] in H; destruct x0; destruct (read_spec _ _ _ _ _); discriminate H|].
        inversion Hes as [|? ? (Hg & i & sp & Hask) Hes']; subst. rewrite received_cons, Hask.
        cbn [map nth] in *. destruct (n_at call) as [|m q].
        -- pose proof (read_spec_ended e sizes (fun j => nth j (map n_at es) x0)) as Hz. specialize (IH [] true es x0 Hes' ltac:(auto)).
           destruct (read_spec e [] true sizes _) as [outs j]. cbn [fst snd map concat app length] in *. injection H as H. destruct (IH H) as (rest & H1 & H2).
           assert (es = []) as -> by (destruct es; [reflexivity|cbn in H; lia]). cbn in H1. symmetry in H1. apply app_eq_nil in H1 as [H1 ->].
           exists []. cbn. rewrite H1. split; [reflexivity|]. intros r [<-|Hr]; auto.
        -- specialize (IH (zdrop k (utf8 (snd m))) false es x0 Hes' ltac:(discriminate)). destruct (read_spec e _ false sizes _) as [outs j].
           cbn [fst snd map concat app length] in *. injection H as H. destruct (IH H) as (rest & H1 & H2). exists rest. rewrite utf8_app, <- app_assoc, <- H1, app_assoc, ztake_zdrop.
           split; [reflexivity|]. intros r [<-|Hr]; [|auto]. left. split; [reflexivity|]. apply Htk, utf8_some. inversion Hg as [|? ? (_ & Hm & _)]; assumption.
    + specialize (IH (zdrop k (b :: left)) ended es x0 Hes ltac:(intros He; discriminate (Hle He))). destruct (read_spec e _ ended sizes _) as [outs j].
      cbn [fst snd map concat] in *. destruct (IH H) as (rest & H1 & H2). exists rest. rewrite <- app_assoc, <- H1, app_assoc, ztake_zdrop.
      split; [reflexivity|]. intros r [<-|Hr]; [|auto]. left. split; [reflexivity|]. apply Htk. discriminate.
Qed.
Section Seq.
Variable grow : Z -> Z -> Z.
Variable e : error.
Variable kx : nat.
Variable room : Z.
Hypothesis Hroom : 0 < room.
Variable L : list messages.
Hypothesis HL : Forall (good room) L.
Variable x0 : messages.
Hypothesis Hx0 : In x0 L.
Variable wr : nat -> messages -> list Z -> Z * option error * messages.
Variable A0 : heap.
Hypothesis Hnil : nil_ok A0.
Definition inv (A : heap) O p pt left ended : Prop :=
  exists ls lr, holds_reader e kx A O p pt ls lr left ended /\ (ls = 0 \/ length A0 <= ls)%nat /\ (lr = 0 \/ length A0 <= lr)%nat /\
    (length A0 <= length A)%nat /\ cell A 0 = [] /\ forall l, (l < length A0)%nat -> zlen (cell A l) = zlen (cell A0 l).
Definition runs (vs : list val) (A : heap) O p left ended (x : messages) (N : nat) : Prop :=
  forall n states asked rs, (N <= n)%nat -> Forall (fun y => In y L) states -> nth_error rs 0 = Some (VTuple [VPtr p; VErr None]) -> nth (length asked) states x0 = x ->
  exists A' O' asks, code_alone grow _ (found_rd messages (message_rd e) x0) (found_wr messages wr x0) n (read_all vs) rs (mkState _ A O (states, asked)) =
    Ok (VTuple (rs ++ flat_map show (fst (read_spec e left ended (map len_of vs) (fun j => nth (length asked + j) states x0)))), mkState _ A' O' (states, asked ++ asks)) /\
    length asks = snd (read_spec e left ended (map len_of vs) (fun j => nth (length asked + j) states x0)) /\ Forall (fun a => exists sp, a = AskRead kx sp) asks.
Lemma nth_in states i : Forall (fun y => In y L) states -> In (nth i states x0) L.
Proof.
  intros H. destruct (Nat.lt_ge_cases i (length states)) as [Hi|Hi]; [|now rewrite nth_overflow]. rewrite Forall_forall in H. apply H, nth_In, Hi.
Qed.
Lemma read_seq_runs p pt vs : Forall (fun v => exists old, slice_holds A0 v old /\ room <= len_of v) vs ->
  forall A O left ended, inv A O p pt left ended -> exists N, forall x, In x L -> runs vs A O p left ended x N.
Proof.
  intros Hvs. induction Hvs as [|v vs (old & Hv & Hlen) _ IH]; intros A O left ended Hinv.
  - exists 0%nat. intros x _ n states asked rs _ _ _ _. exists A, O, []. cbn. rewrite !app_nil_r. auto.
  - destruct v as [| | | |lb ob nb cb| | | | | |]; try contradiction Hv. cbn [len_of] in Hlen.
    destruct (sup (runs (VSlice lb ob nb cb :: vs) A O p left ended) L) as [N HN].
    { intros x N N' HNN H n states asked rs Hn. apply H. lia. }
    { apply Forall_forall. intros x Hx. destruct Hinv as (ls & lr & Hr & Hls & Hlr & HA & H0 & Hz).
      assert (Hin : input A lb ob nb cb (ztake nb (zdrop ob (cell A lb)))).
      { destruct Hv as (H1 & H2 & H3 & H4 & H5). unfold input. rewrite (Hz lb H1). change (cell A0 lb) with (array A0 lb). repeat (split; [lia|]). reflexivity. }
      assert (Hlb : (0 < lb < length A0)%nat).
      { destruct Hv as (H1 & H2 & H3 & H4 & H5). destruct lb; [|lia]. exfalso. destruct Hnil as [_ Hc]. change (array A0 0) with (cell A0 0) in H4. rewrite Hc in H4. change (zlen (@nil Z)) with 0 in H4. lia. }
      assert (Hsep : forall l, (l = 0 \/ length A0 <= l)%nat -> sep A lb l) by (intros l Hl; left; lia).
      pose proof (read_heap grow e kx room Hroom A O p pt ls lr left ended x lb ob nb cb _ Hr (proj1 (Forall_forall _ _) HL x Hx) Hlen Hin (Hsep ls Hls) (Hsep lr Hlr)) as Hstep.
      destruct (step e left ended x nb) as [[[[bs er] left'] ended'] used] eqn:Est.
      destruct Hstep as (A' & O' & ls' & lr' & sp & N1 & Hr' & Hbs & Hsp & H1 & H2 & H3 & H4 & H5 & Hrun).
      assert (Hcell : forall j, (j < length A0)%nat -> j <> lb -> cell A' j = cell A j).
      { intros j Hj Hne. destruct (Nat.eq_dec j 0) as [->|]; [|apply H5; [lia|exact Hne|left; lia|left; lia]].
        apply H5; [lia|exact Hne|right; exact H0|right; exact H0]. }
      assert (Hzw : zlen (zwrite (cell A lb) ob bs) = zlen (cell A lb)).
      { destruct Hin as (_ & G2 & G3 & G4 & _). apply zlen_zwrite; lia. }
      assert (Hinv' : inv A' O' p pt left' ended').
      { exists ls', lr'. split; [exact Hr'|]. split; [lia|]. split; [lia|]. split; [lia|].
        split; [rewrite Hcell by lia; exact H0|]. intros l Hl. destruct (Nat.eq_dec l lb) as [->|Hne]; [rewrite H4, Hzw; auto|rewrite Hcell by assumption; auto]. }
      destruct (IH A' O' left' ended' Hinv') as [N2 HN2].
      exists (Nat.max N1 N2). intros n states asked rs Hn Hst Hrs Hfound.
      set (X' := (states, if used then asked ++ [AskRead kx sp] else asked) : list messages * list ask).
      assert (Hrd : if used then found_rd messages (message_rd e) x0 kx (states, asked) sp = (answer e kx x sp, X') else X' = (states, asked)).
      { unfold X'. destruct used; [|reflexivity]. unfold found_rd, answer. cbn [fst snd]. rewrite Hfound. destruct (message_rd e kx x sp) as [[[c b] er'] y]. reflexivity. }
      specialize (Hrun _ (found_rd messages (message_rd e) x0) (found_wr messages wr x0) _ X' n ltac:(lia) Hrd).
      set (rs' := (rs ++ [VTuple [VInt (zlen bs); VErr er]]) ++ [VStr bs]).
      destruct (HN2 (nth (length (snd X')) states x0) (nth_in _ _ Hst) n states (snd X') rs' ltac:(lia) Hst) as (A2 & O2 & asks & Hrest & Hcount & Hreads).
      { unfold rs'. destruct rs; [discriminate Hrs|]. exact Hrs. }
      { reflexivity. }
      exists A2, O2, (if used then AskRead kx sp :: asks else asks).
      assert (Hlook : read_spec e left' ended' (map len_of vs) (if used then fun j => nth (length asked + S j) states x0 else fun j => nth (length asked + j) states x0) =
        read_spec e left' ended' (map len_of vs) (fun j => nth (length (snd X') + j) states x0)).
      { apply read_spec_ext. intros j. unfold X'. destruct used; cbn [snd]; [rewrite app_length; cbn [length]; f_equal; lia|reflexivity]. }
      assert (Hspec : read_spec e left ended (map len_of (VSlice lb ob nb cb :: vs)) (fun j => nth (length asked + j) states x0) =
        ((bs, er) :: fst (read_spec e left' ended' (map len_of vs) (fun j => nth (length (snd X') + j) states x0)),
         let j := snd (read_spec e left' ended' (map len_of vs) (fun j => nth (length (snd X') + j) states x0)) in if used then S j else j)).
      { cbn [map read_spec len_of]. rewrite Nat.add_0_r, Hfound, Est.
        replace (if used then fun j => nth (length asked + S j) states x0 else fun j => nth (length asked + j) states x0)
          with (if used then (fun j => (fun j => nth (length asked + j) states x0) (S j)) else (fun j => nth (length asked + j) states x0)) in Hlook by (destruct used; reflexivity).
        rewrite Hlook. destruct (read_spec e left' ended' (map len_of vs) _) as [outs j]. reflexivity. }
      rewrite Hspec. cbn [fst snd]. split; [|split].
      - cbn [read_all code_alone op_alone source arg_vals arg_val]. rewrite Hrs. cbn [the bind component nth_error].
        rewrite Hrun. cbn [bind seen map].
        pose proof (zlen_nonneg bs) as Hb0. replace ((0 <=? zlen bs) && (zlen bs <=? nb)) with true by lia.
        cbn [code_alone op_alone arg_val bind].
        assert (Hcells : cells _ (mkState _ A' O' X') lb ob (zlen bs) = bs).
        { unfold cells, arr_at. cbn [arrs]. fold (cell A' lb). rewrite H4. destruct Hin as (_ & G2 & G3 & G4 & _). apply zwrite_take; lia. }
        rewrite Hcells. fold rs'. replace X' with ((states, snd X') : list messages * list ask) by reflexivity. rewrite Hrest. f_equal. f_equal.
        + f_equal. unfold rs'. cbn [flat_map seen_read fst snd]. rewrite <- !app_assoc. reflexivity.
        + f_equal. f_equal. unfold X'. destruct used; cbn [snd]; [rewrite <- app_assoc|]; reflexivity.
      - destruct used; cbn [length]; lia.
      - destruct used; [constructor; eauto|assumption]. }
    exists N. intros x Hx. rewrite Forall_forall in HN. now apply HN.
Qed.
End Seq.

(** ** From NewReader on *)
Lemma reading_runs grow e kx room : 0 < room -> forall L, Forall (good room) L -> forall x0, In x0 L -> forall wr A O, nil_ok A -> forall vs,
  Forall (fun v => exists old, slice_holds A v old /\ room <= len_of v) vs ->
  exists N p, forall n states, (N <= n)%nat -> Forall (fun y => In y L) states -> exists A' O' asks,
    with_others messages (message_rd e) wr x0 grow n A O (reading kx vs) states =
      Ok (VTuple (VTuple [VPtr p; VErr None] :: flat_map show (fst (read_spec e [] false (map len_of vs) (fun j => nth j states x0)))), mkState _ A' O' (states, asks)) /\
    length asks = snd (read_spec e [] false (map len_of vs) (fun j => nth j states x0)) /\ Forall (fun a => exists sp, a = AskRead kx sp) asks.
Proof.
  intros Hroom L HL x0 Hx0 wr A O Hnil vs Hvs.
  destruct (go_NewReader grow (list ask) (probe_rd (fun _ => (0, [], None))) probe_wr kx A O [] Hnil) as (s & Hr & Hx & HA & _ & _ & Hrun).
  destruct s as [A1 O1 X1]. cbn [arrs objs ext] in *. subst A1 X1.
  assert (Hinv : inv e kx A A O1 (S (length O)) (length O) [] false).
  { exists 0%nat, 0%nat. split; [|repeat split; auto; apply Hnil]. exists (NewReader []), (NewReader []). split; [exact Hr|]. split; [reflexivity|].
    split; [now apply new_alike|apply between_new]. }
  destruct (read_seq_runs grow e kx room Hroom L HL x0 Hx0 wr A Hnil _ _ vs Hvs A O1 [] false Hinv) as [N HN].
  exists (Nat.max 2 N), (S (length O)). intros n states Hn Hst. destruct n as [|[|n]]; try lia.
  pose proof (probe_run _ grow _ _ _ _ _ _ _ (Hrun n) _ (found_rd messages (message_rd e) x0) (found_wr messages wr x0) (states, []) (states, []) eq_refl) as Hq. cbn [arrs objs] in Hq.
  destruct (HN _ (nth_in L x0 Hx0 states 0%nat Hst) (S (S n)) states [] [VTuple [VPtr (S (length O)); VErr None]] ltac:(lia) Hst eq_refl eq_refl) as (A' & O' & asks & H1 & H2 & H3).
  exists A', O', asks. unfold with_others, reading. cbn [code_alone op_alone source arg_vals arg_val bind]. rewrite Hq. cbn [bind app]. cbn [length plus app] in *.
  rewrite H1. auto.
Qed.

(** ** The messages not received yet *)
Definition tails (q : messages) : list messages := map (fun i => skipn i q) (seq 0 (S (length q))).
Lemma tails_self q : In q (tails q).
Proof. apply in_map_iff. exists 0%nat. split; [reflexivity|]. apply in_seq. lia. Qed.
Lemma skipn_tl {A} i (q : list A) m x : skipn i q = m :: x -> skipn (S i) q = x.
Proof. revert q. induction i as [|i IH]; intros [|a q] H; try discriminate H; [cbn in *; congruence|]. cbn [skipn] in *. exact (IH _ H). Qed.
Lemma tails_next q m x : In (m :: x) (tails q) -> In x (tails q).
Proof.
  unfold tails. rewrite !in_map_iff. intros (i & Hi & Hin). apply in_seq in Hin. exists (S i). split; [eapply skipn_tl, Hi|]. apply in_seq.
  destruct (Nat.eq_dec i (length q)) as [->|]; [rewrite skipn_all in Hi; discriminate Hi|]. lia.
Qed.
Lemma tails_good room q : good room q -> Forall (good room) (tails q).
Proof.
  intros H. apply Forall_forall. intros x Hx. apply in_map_iff in Hx. destruct Hx as (i & <- & _). unfold good in *. rewrite <- (firstn_skipn i q) in H. apply Forall_app in H. apply H.
Qed.
Lemma tails_after e wr q x a : (forall i y bs, snd (wr i y bs) = y) -> In x (tails q) -> In (after messages (message_rd e) wr x a) (tails q).
Proof.
  intros Hw Hx. destruct a as [i n|i bs]; cbn [after].
  - destruct x as [|m x]; cbn [message_rd]; [exact Hx|eapply tails_next, Hx].
  - specialize (Hw i x bs). destruct (wr i x bs) as [[c er] y]. cbn [snd] in Hw. now subst.
Qed.
Lemma conversation_tails e wr q log : (forall i y bs, snd (wr i y bs) = y) -> forall x x', In x (tails q) -> conversation messages (message_rd e) wr x log x' ->
  Forall (fun call => In (n_at call) (tails q)) log /\ received log ++ x' = x.
Proof.
  intros Hw. induction log as [|call log IH]; intros x x' Hx H; cbn [conversation] in H; [subst; split; [constructor|reflexivity]|].
  destruct H as [Hat H]. destruct (IH _ _ (tails_after e wr q x (n_ask call) Hw Hx) H) as [H1 H2]. split; [constructor; [now rewrite Hat|exact H1]|].
  rewrite received_cons, <- app_assoc, H2, Hat. destruct (n_ask call) as [i n|i bs]; cbn [after].
  - destruct x; reflexivity.
  - specialize (Hw i x bs). destruct (wr i x bs) as [[c er] y]. cbn [snd] in Hw. now subst.
Qed.

(** ** The theorem *)
Lemma usable_reads A O (ts : list (worker unit)) t vs : Forall (fun v => may_use A O ts t Dst v) vs -> forall us, nth_error us 0 = Some Own -> code_usable A O ts t us (read_all vs).
Proof.
  intros Hvs. induction Hvs as [|v vs Hv _ IH]; intros us Hus; cbn [read_all]; [constructor|].
  apply cu_act with (u := Own).
  - exists [Own; Dst]. split; [reflexivity|]. constructor; [exists Own; split; [exact Hus|exact I]|]. constructor; [exact Hv|constructor].
  - intros w. destruct v as [| | | |l o n c| | | | | |]; try constructor. destruct w as [| | | | | | | | | |[|[k| | | | | | | | | |] [|b [|]]]]; try constructor.
    destruct ((0 <=? k) && (k <=? n)) eqn:Hk; [|constructor]. apply andb_prop in Hk. destruct Hk as [Hk1 Hk2]. apply Z.leb_le in Hk1, Hk2.
    apply cu_act with (u := Own); [|intros _; apply IH; destruct us; [discriminate Hus|exact Hus]].
    split; [|reflexivity]. cbn [arg_usable may_use] in *. unfold slice_usable in *. cbn [extent] in *. destruct Hv as (H1 & H2 & H3 & Hv).
    split; [exact H1|]. split; [exact H2|]. split; [lia|]. destruct Hv as [(lo & hi & Hin & H4 & H5)|[Hz|[Hd _]]]; [|right; left; lia|discriminate Hd].
    left. exists lo, hi. split; [exact Hin|]. lia.
Qed.
Lemma corr_reads ca co outs : forall vs', (fix all (vs vs' : list val) : Prop :=
       match vs, vs' with
       | [], [] => True
       | v :: vs, v' :: vs' => corresponds ca co v v' /\ all vs vs'
       | _, _ => False
       end) (flat_map show outs) vs' -> vs' = flat_map show outs.
Proof.
  induction outs as [|[bs er] outs IH]; intros [|v' [|w' vs']] H; cbn [flat_map seen_read app fst snd] in *; try tauto. destruct H as (H1 & H2 & H3).
  rewrite (IH _ H3). cbn [corresponds] in H2. subst w'. f_equal.
  destruct v' as [| | | | | | | | | |[|a [|b [|]]]]; cbn in H1; try contradiction H1; try tauto. destruct H1 as (<- & <- & _). reflexivity.
Qed.
Theorem shared_readers : forall grow e wr room A O q (gs : list (list (nat * (Z * Z)) * (nat * list val))),
  0 < room -> Forall (fun m => decodes (fst m) (snd m) /\ snd m <> [] /\ zlen (fst m) <= room) q ->
  (forall i y bs, snd (wr i y bs) = y) ->
  separate_parts A O (map fst (reader_crew gs)) ->
  Forall (fun g => Forall (fun v => (exists old, slice_holds A v old) /\ room <= len_of v /\
    may_use A O (map fst (reader_crew gs)) (mkWorker [] (fst g) [] tt) Dst v) (snd (snd g))) gs ->
  exists N, forall n, (N <= n)%nat -> exists bound, forall m log c,
    crew_steps messages (message_rd e) wr m (start_crew grow n A O q (reader_crew gs)) log c ->
    (m <= bound)%nat /\ (crew_finished c \/ exists l c', crew_step messages (message_rd e) wr c l c') /\ ~ crew_race c /\
    received log ++ c_ext c = q /\
    (forall l, (l < length A)%nat -> zlen (array (c_arrs c) l) = zlen (array A l) /\
       forall z, ~ owned (map fst (reader_crew gs)) l z -> zget (array (c_arrs c) l) z = zget (array A l) z) /\
    (crew_finished c -> forall i g, nth_error gs i = Some g -> exists p outs rest,
       nth_error (c_procs c) i = Some (Done (Ok (VTuple (VTuple [VPtr p; VErr None] :: flat_map seen_read outs)))) /\
       outs = read_results e [] false (map len_of (snd (snd g))) (calls_of i log) /\
       length outs = length (snd (snd g)) /\
       (forall es call, calls_of i log = es ++ [call] -> (length (read_results e [] false (map len_of (snd (snd g))) es) < length (snd (snd g)))%nat) /\
       utf8 (concat (map snd (received (calls_of i log)))) = concat (map fst outs) ++ rest /\
       (forall bs er, In (bs, er) outs -> (er = None /\ bs <> []) \/ (er = Some e /\ bs = [] /\ rest = []))).
Proof.
  intros grow e wr room A O q gs Hroom Hq Hwr Hsep Hgs. fold (good room q) in Hq.
  assert (Hnil : nil_ok A). { destruct Hsep as [[rest ->] _]. split; [cbn; lia|reflexivity]. }
  assert (Hall : exists N, forall g, In g gs -> exists p, forall n states, (N <= n)%nat -> Forall (fun y => In y (tails q)) states -> exists A' O' asks,
    with_others messages (message_rd e) wr q grow n A O (reading (fst (snd g)) (snd (snd g))) states =
      Ok (VTuple (VTuple [VPtr p; VErr None] :: flat_map show (fst (read_spec e [] false (map len_of (snd (snd g))) (fun j => nth j states q)))), mkState _ A' O' (states, asks)) /\
    length asks = snd (read_spec e [] false (map len_of (snd (snd g))) (fun j => nth j states q)) /\ Forall (fun a => exists sp, a = AskRead (fst (snd g)) sp) asks).
  { clear -Hgs Hnil Hroom Hq. revert Hgs. generalize (map fst (reader_crew gs)). intros ts Hgs. induction Hgs as [|g gs Hg _ [N IH]]; [exists 0%nat; intros g []|].
    assert (Hvs : Forall (fun v => exists old, slice_holds A v old /\ room <= len_of v) (snd (snd g))).
    { eapply Forall_impl; [|exact Hg]. intros v ([old Ho] & Hl & _). eauto. }
    destruct (reading_runs grow e (fst (snd g)) room Hroom (tails q) (tails_good _ _ Hq) q (tails_self q) wr A O Hnil _ Hvs) as (M & p & HM).
    exists (Nat.max N M). intros g' [<-|Hin].
    - exists p. intros n states Hn. apply HM. lia.
    - destruct (IH g' Hin) as [p' Hp']. exists p'. intros n states Hn. apply Hp'. lia. }
  destruct Hall as [N Hall]. exists N. intros n Hn.
  assert (Hat : forall i t, nth_error (reader_crew gs) i = Some t -> exists g, nth_error gs i = Some g /\ In g gs /\ t = (mkWorker [] (fst g) [] tt, reading (fst (snd g)) (snd (snd g)))).
  { unfold reader_crew. intros i t Ht. rewrite nth_error_map in Ht. destruct (nth_error gs i) as [g|] eqn:Hg; [|discriminate]. injection Ht as <-. exists g. split; [reflexivity|]. split; [eapply nth_error_In, Hg|reflexivity]. }
  destruct (shared_independent messages (message_rd e) wr grow n A O q (fun x => In x (tails q)) (reader_crew gs) (tails_self q) (fun x a => tails_after e wr q x a Hwr) Hsep) as [bound Hsh].
  - apply Forall_forall. intros t Ht. apply In_nth_error in Ht. destruct Ht as [i Hi]. destruct (Hat i t Hi) as (g & _ & Hin & ->). cbn [fst snd].
    unfold reading. apply cu_act with (u := Own); [exists [Own]; split; [reflexivity|]; repeat constructor|]. intros _. cbn [app].
    apply usable_reads; [|reflexivity]. rewrite Forall_forall in Hgs. eapply Forall_impl; [|exact (Hgs g Hin)]. intros v (_ & _ & H). exact H.
  - intros t states Ht Hst. apply In_nth_error in Ht. destruct Ht as [i Hi]. destruct (Hat i t Hi) as (g & _ & Hin & ->). cbn [snd].
    destruct (Hall g Hin) as [p Hp]. destruct (Hp n states Hn Hst) as (A' & O' & asks & Hr & _). rewrite Hr. discriminate.
  - exists bound. intros m log c Hm. destruct (Hsh m log c Hm) as (H1 & H2 & H3 & H4 & H5 & H6 & H7). clear Hsh.
    destruct (conversation_tails e wr q log Hwr q (c_ext c) (tails_self q) H4) as [Htl Hrec].
    do 3 (split; [assumption|]). split; [exact Hrec|]. split; [exact H6|].
    intros Hf i g Hg. assert (Hi : nth_error (reader_crew gs) i = Some (mkWorker [] (fst g) [] tt, reading (fst (snd g)) (snd (snd g)))) by (unfold reader_crew; now rewrite nth_error_map, Hg).
    specialize (H7 Hf i _ Hi). assert (Hin : In g gs) by (eapply nth_error_In, Hg).
    assert (Htl' : Forall (fun call => In (n_at call) (tails q)) (calls_of i log)).
    { unfold calls_of. rewrite Forall_forall in *. intros x Hx. apply filter_In in Hx. now apply Htl. }
    destruct (Hall g Hin) as [p Hp]. destruct (Hp n (map n_at (calls_of i log)) Hn) as (A' & O' & asks & Hr & Hcount & Hreads); [now apply Forall_map|].
    cbn [snd] in H7. rewrite Hr in H7. destruct H7 as (Hasks & v' & Hv' & ca & co & _ & _ & _ & _ & _ & _ & Hcorr). cbn [ext snd] in Hasks.
    assert (Hlen : snd (read_spec e [] false (map len_of (snd (snd g))) (fun j => nth j (map n_at (calls_of i log)) q)) = length (calls_of i log)).
    { rewrite <- Hcount, Hasks. now rewrite map_length. }
    destruct (read_spec_results e _ [] false _ q Hlen) as [Hres Hreslen].
    destruct (read_spec_text e room (map len_of (snd (snd g)))) with (left := @nil Z) (ended := false) (es := calls_of i log) (x0 := q) as (rest & Htext & Hkinds).
    + apply Forall_map. rewrite Forall_forall in Hgs. eapply Forall_impl; [|exact (Hgs g Hin)]. intros v (_ & H & _). lia.
    + rewrite Hasks, Forall_map in Hreads. pose proof (tails_good _ _ Hq) as Hgood. rewrite Forall_forall in *. intros call Hcall. split; [apply Hgood, Htl', Hcall|].
      destruct (Hreads call Hcall) as [sp Hspx]. eauto.
    + discriminate.
    + exact Hlen.
    + rewrite Hres in *. cbn [app] in Htext.
      assert (exists p', v' = VTuple (VTuple [VPtr p'; VErr None] :: flat_map show (read_results e [] false (map len_of (snd (snd g))) (calls_of i log)))) as [p' ->].
      { destruct v' as [| | | | | | | | | |[|v1 vs1]]; cbn [corresponds] in Hcorr; try contradiction Hcorr. destruct Hcorr as [Hc1 Hc2].
        destruct v1 as [| | | | | | | | | |[|a [|b [|]]]]; try contradiction Hc1; try tauto. destruct Hc1 as (Ha & <- & _).
        destruct a; try contradiction Ha. eexists. f_equal. f_equal. now apply (corr_reads ca co). }
      eexists p', _, rest. split; [exact Hv'|]. split; [reflexivity|]. split; [rewrite Hreslen; apply map_length|].
      split; [intros es call Hes; rewrite Hes in Hlen; rewrite <- (map_length len_of); exact (read_spec_least e _ [] false es call q Hlen)|]. split; [exact Htext|].
      intros bs er Hb. destruct (Hkinds _ Hb) as [[H8 H9]|[H8 H9]]; cbn [fst snd] in *; [left; auto|right]. injection H8 as -> ->. auto.
Qed.
