(** Lemmas for PropNfc.v: readings of normalised hanja and the order of KS X 1001. *)
From Coq Require Import ZArith List Bool Lia ZifyBool.
From Verif Require Import Base Spec Facts SpecCp949 SpecIO SpecTable SpecNfc TableFrom TableNfc TableReadings HanjaModel Cp949Model Utf8Facts HanjaFacts Cp949Facts Cp949Facts2
  TableFacts TableFacts2 PMapFacts NfcFacts.
Import ListNotations.
Local Open Scope Z_scope.
Local Open Scope list_scope.

Definition nfc_reading_of (u : Z) : Z := reading (nfc_char u).
Definition in_order2 (u : Z) : bool := in_order u || existsb (Z.eqb u) well_filed.
Definition read_items2 := filter (fun it => in_order2 (ucs2 it)) fromTable.
Lemma read_items2_order :
  sortedb (map cp949 read_items2) = true /\ le_sortedb (map (fun it => nfc_reading_of (ucs2 it)) read_items2) = true.
Proof. split; vm_compute; reflexivity. Qed.
Lemma read_items2_In c u : assigned c u -> (is_hanja u /\ ~ In u filed_elsewhere) \/ In u well_filed -> In (It c u) read_items2.
Proof.
  intros Ha H. unfold read_items2. apply filter_In. split; [exact Ha|]. cbn [ucs2]. unfold in_order2. apply orb_true_iff.
  destruct H as [H|H]; [left; apply in_order_iff; exact H|right; apply existsb_In; exact H].
Qed.
Local Opaque read_items2.
Lemma nfc_one r h : in_repertoire r -> is_scalar h -> Convert (utf8 (nfc [r])) = utf8_char h -> h = nfc_reading_of r.
Proof.
  intros Hr Hh E. cbn [nfc map] in E. unfold nfc_reading_of.
  assert (E' : utf8 [nfc_char r] = utf8_char (nfc_char r)) by (rewrite utf8_cons; apply app_nil_r). rewrite E' in E.
  symmetry. symmetry. apply Convert_one in E; [congruence|apply nfc_scalar; exact Hr|exact Hh].
Qed.
Lemma nfc_order c u h c' u' h' : assigned c u -> assigned c' u' ->
  (is_hanja u /\ ~ In u filed_elsewhere) \/ In u well_filed -> (is_hanja u' /\ ~ In u' filed_elsewhere) \/ In u' well_filed ->
  is_scalar h -> is_scalar h' -> Convert (utf8 (nfc [u])) = utf8_char h -> Convert (utf8 (nfc [u'])) = utf8_char h' ->
  c < c' -> h <= h'.
Proof.
  intros Ha Ha' Hu Hu' Hh Hh' E E' Hlt. apply nfc_one in E; [|right; eauto|exact Hh]. apply nfc_one in E'; [|right; eauto|exact Hh']. subst h h'.
  destruct read_items2_order as [S1 S2].
  apply (key_order cp949 (fun it => nfc_reading_of (ucs2 it)) read_items2 S1 S2 (It c u) (It c' u')).
  - exact (read_items2_In c u Ha Hu).
  - exact (read_items2_In c' u' Ha' Hu').
  - exact Hlt.
Qed.

Definition wrong_b (p : Z * Z) : bool :=
  match tget enc_tree (fst p), tget enc_tree (snd p) with
  | Some c, Some c' => (c <? c') && (reading (snd p) <? nfc_reading_of (fst p)) || (c' <? c) && (nfc_reading_of (fst p) <? reading (snd p))
  | _, _ => false
  end && in_order (snd p).
Lemma wrong_check : forallb wrong_b wrongly_filed = true.
Proof. vm_compute. reflexivity. Qed.
Lemma nfc_wrong u v : In (u, v) wrongly_filed -> exists c c' h h', assigned c u /\ assigned c' v /\ is_hanja v /\ ~ In v filed_elsewhere /\
  is_scalar h /\ is_scalar h' /\ Convert (utf8 (nfc [u])) = utf8_char h /\ Convert (utf8_char v) = utf8_char h' /\
  (c < c' /\ h' < h \/ c' < c /\ h < h').
Proof.
  intros Hin. pose proof wrong_check as H. rewrite forallb_forall in H. specialize (H (u, v) Hin). unfold wrong_b in H. cbn [fst snd] in H.
  apply andb_true_iff in H as [H Ho]. apply in_order_iff in Ho as [Hv Hn].
  destruct (tget enc_tree u) as [c|] eqn:Ec; [|discriminate]. destruct (tget enc_tree v) as [c'|] eqn:Ec'; [|discriminate].
  apply assigned_enc in Ec, Ec'. exists c, c', (nfc_reading_of u), (reading v). repeat (split; [assumption|]).
  assert (Hu : is_scalar (nfc_char u)) by (apply nfc_scalar; right; eauto).
  split; [apply reading_scalar; exact Hu|]. split; [apply reading_scalar; eapply assigned_scalar; exact Ec'|].
  split. { cbn [nfc map]. rewrite utf8_cons. cbn [utf8 flat_map]. rewrite app_nil_r. apply Convert_reading. exact Hu. }
  split; [apply Convert_reading; eapply assigned_scalar; exact Ec'|]. lia.
Qed.
Lemma filed_cases : (forall u, In u well_filed \/ In u (map fst wrongly_filed) <-> 0xF900 <= u <= 0xFA0B) /\
  length well_filed = 12%nat /\ length wrongly_filed = 256%nat /\ (forall u, In u well_filed -> In (nfc_char u) filed_elsewhere).
Proof.
  split; [|split; [reflexivity|split; [reflexivity|]]].
  - intros u. split.
    + assert (H : forallb (fun u => (0xF900 <=? u) && (u <=? 0xFA0B)) (well_filed ++ map fst wrongly_filed) = true) by (vm_compute; reflexivity).
      rewrite forallb_forall in H. intros Hin. specialize (H u ltac:(apply in_or_app; exact Hin)). lia.
    + intros Hu.
      assert (H : forallb (fun i => existsb (Z.eqb (0xF900 + Z.of_nat i)) (well_filed ++ map fst wrongly_filed)) (seq 0 268) = true) by (vm_compute; reflexivity).
      rewrite forallb_forall in H. specialize (H (Z.to_nat (u - 0xF900)) ltac:(apply in_seq; lia)).
      rewrite Z2Nat.id in H by lia. replace (0xF900 + (u - 0xF900)) with u in H by lia. apply existsb_In in H. apply in_app_or. exact H.
  - assert (H : forallb (fun u => existsb (Z.eqb (nfc_char u)) filed_elsewhere) well_filed = true) by (vm_compute; reflexivity).
    rewrite forallb_forall in H. intros u Hu. apply existsb_In, H, Hu.
Qed.
Lemma nfc_order_refuted : exists c u h c' u' h', assigned c u /\ assigned c' u' /\ chinese u /\ is_hanja u' /\ ~ In u' filed_elsewhere /\
  is_scalar h /\ is_scalar h' /\ Convert (utf8 (nfc [u])) = utf8_char h /\ Convert (utf8 (nfc [u'])) = utf8_char h' /\
  c < c' /\ h' < h.
Proof.
  assert (F : fold_right (fun p b => match tget enc_tree (fst p), tget enc_tree (snd p) with
    | Some c, Some c' => ((c <? c') && (reading (snd p) <? nfc_reading_of (fst p)) && (nfc_char (snd p) =? snd p) && in_order (snd p)) || b | _, _ => b end)
    false wrongly_filed = true) by (vm_compute; reflexivity).
  assert (E : exists u v, In (u, v) wrongly_filed /\ match tget enc_tree u, tget enc_tree v with
    | Some c, Some c' => (c <? c') && (reading v <? nfc_reading_of u) && (nfc_char v =? v) && in_order v = true | _, _ => False end).
  { revert F. generalize wrongly_filed. intros l. induction l as [|[u v] l IH]; [discriminate|]. cbn [fold_right fst snd].
    destruct (tget enc_tree u) as [c|] eqn:Eu, (tget enc_tree v) as [c'|] eqn:Ev;
      try (intros F; destruct (IH F) as (u' & v' & H & H'); exists u', v'; split; [right; exact H|exact H']).
    intros F. apply orb_true_iff in F as [F|F].
    - exists u, v. split; [left; reflexivity|]. rewrite Eu, Ev. exact F.
    - destruct (IH F) as (u' & v' & H & H'). exists u', v'. split; [right; exact H|exact H']. }
  clear F. destruct E as (u & v & Hin & E). destruct (tget enc_tree u) as [c|] eqn:Eu; [|destruct E]. destruct (tget enc_tree v) as [c'|] eqn:Ev; [|destruct E].
  apply assigned_enc in Eu, Ev. apply andb_true_iff in E as [E Ho]. apply andb_true_iff in E as [E Ev']. apply andb_true_iff in E as [E1 E2].
  apply in_order_iff in Ho as [Hv Hn]. apply Z.eqb_eq in Ev'. apply Z.ltb_lt in E1, E2.
  assert (Hu : is_scalar (nfc_char u)) by (apply nfc_scalar; right; eauto).
  assert (Hs : is_scalar v) by (eapply assigned_scalar; exact Ev).
  assert (Hc : 0xF900 <= u <= 0xFA0B) by (apply filed_cases; right; apply (in_map fst) in Hin; exact Hin).
  exists c, u, (nfc_reading_of u), c', v, (reading v). split; [exact Eu|]. split; [exact Ev|]. split; [unfold chinese; lia|].
  split; [exact Hv|]. split; [exact Hn|]. split; [apply reading_scalar; exact Hu|]. split; [apply reading_scalar; exact Hs|].
  cbn [nfc map]. rewrite !utf8_one. split; [apply Convert_reading; exact Hu|]. rewrite Ev'. split; [apply Convert_reading; exact Hs|]. split; assumption.
Qed.
