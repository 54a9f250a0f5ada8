(** Lemmas for PropNfc.v. *)
From Coq Require Import ZArith List Bool Lia.
From Verif Require Import Base Spec SpecCp949 SpecIO SpecNfc TableNfc HanjaModel Cp949Model Utf8Facts HanjaFacts Cp949Facts Cp949Facts2 TableFacts PMapFacts.
Import ListNotations.
Local Open Scope Z_scope.
Local Open Scope list_scope.

Lemma chinese_range c u : assigned c u -> chinese u -> 0x4E00 <= u <= 0x9FA5 \/ 0xF900 <= u <= 0xFA0B.
Proof.
  intros H Hn.
  assert (E : (u <? 0x3400) || (0x4E00 <=? u) && (u <=? 0x9FA5) || (0x9FFF <? u) && (u <? 0xF900) || (0xF900 <=? u) && (u <=? 0xFA0B) || (0xFAFF <? u) = true).
  { clear Hn. revert c u H. apply assigned_forall. vm_compute. reflexivity. }
  rewrite !orb_true_iff, !andb_true_iff, !Z.leb_le, !Z.ltb_lt in E. unfold chinese in Hn. lia.
Qed.
Lemma equivalents_unified : forallb (fun n => (0x4E00 <=? n) && (n <=? 0x9FA5)) equivalents = true.
Proof. vm_compute. reflexivity. Qed.
Lemma equivalents_length : length equivalents = 268%nat.
Proof. reflexivity. Qed.
Lemma nfc_compat r : 0xF900 <= r <= 0xFA0B -> 0x4E00 <= nfc_char r <= 0x9FA5.
Proof.
  intros H. unfold nfc_char. replace ((0xF900 <=? r) && (r <=? 0xFA0B)) with true by lia.
  pose proof equivalents_unified as E. rewrite forallb_forall in E.
  specialize (E (nth (Z.to_nat (r - 0xF900)) equivalents r) ltac:(apply nth_In; rewrite equivalents_length; lia)). lia.
Qed.
Lemma nfc_other r : ~ (0xF900 <= r <= 0xFA0B) -> r <> 0x212B -> r <> 0x2126 -> nfc_char r = r.
Proof.
  intros H1 H2 H3. unfold nfc_char. replace ((0xF900 <=? r) && (r <=? 0xFA0B)) with false by lia.
  rewrite (proj2 (Z.eqb_neq _ _) H2), (proj2 (Z.eqb_neq _ _) H3). reflexivity.
Qed.

(** What becomes of a character: its reading, or itself. *)
Lemma nfc_reading r : in_repertoire r -> chinese r -> is_hanja (nfc_char r) /\ is_syllable (convert_rune (nfc_char r)).
Proof.
  intros [H|[c H]] Hc; [unfold chinese in Hc; lia|].
  assert (Hh : is_hanja (nfc_char r)).
  { destruct (chinese_range c r H Hc) as [Hr|Hr].
    - rewrite nfc_other by lia. unfold is_hanja. lia.
    - pose proof (nfc_compat r Hr). unfold is_hanja. lia. }
  split; [exact Hh|]. apply convert_rune_hanja, IsHanja_iff. exact Hh.
Qed.
Lemma nfc_stays r : in_repertoire r -> ~ chinese r -> nfc_char r = (if r =? 0x212B then 0xC5 else if r =? 0x2126 then 0x3A9 else r) /\
  convert_rune (nfc_char r) = nfc_char r.
Proof.
  intros Hr Hn. assert (E : nfc_char r = (if r =? 0x212B then 0xC5 else if r =? 0x2126 then 0x3A9 else r)).
  { unfold nfc_char. replace ((0xF900 <=? r) && (r <=? 0xFA0B)) with false by (unfold chinese in Hn; lia). reflexivity. }
  split; [exact E|]. apply convert_rune_other. destruct (IsHanja (nfc_char r)) eqn:Eh; [exfalso|reflexivity].
  apply IsHanja_iff in Eh. rewrite E in Eh.
  destruct (Z.eqb_spec r 0x212B); [|destruct (Z.eqb_spec r 0x2126)]; unfold is_hanja, unified_in_compat_block, In in Eh; unfold chinese in Hn; lia.
Qed.
Lemma nfc_scalar r : in_repertoire r -> is_scalar (nfc_char r).
Proof.
  intros H. pose proof (repertoire_scalar r H) as Hs. unfold nfc_char.
  destruct ((0xF900 <=? r) && (r <=? 0xFA0B)) eqn:E.
  - pose proof (nfc_compat r ltac:(lia)) as Hn. unfold nfc_char in Hn. rewrite E in Hn. unfold is_scalar. lia.
  - destruct (r =? 0x212B); [unfold is_scalar; lia|]. destruct (r =? 0x2126); [unfold is_scalar; lia|exact Hs].
Qed.

Lemma nfc_convert rs : Forall in_repertoire rs -> exists rs', Convert (utf8 (nfc rs)) = utf8 rs' /\
  Forall2 (fun r r' => (chinese r -> is_hanja (nfc_char r) /\ is_syllable r') /\ (~ chinese r -> r' = nfc_char r)) rs rs' /\
  Forall (fun r' => ~ chinese r') rs'.
Proof.
  intros H. exists (map convert_rune (nfc rs)). split.
  { apply Convert_utf8. unfold nfc. apply Forall_map. eapply Forall_impl; [|exact H]. exact nfc_scalar. }
  unfold nfc. rewrite map_map. induction H as [|r rs Hr H [IH1 IH2]]; [split; constructor|]. cbn [map].
  assert (Hd : chinese r \/ ~ chinese r) by (unfold chinese; lia).
  split; constructor; auto.
  - split; intros Hc; [apply nfc_reading; assumption|apply nfc_stays; assumption].
  - destruct Hd as [Hc|Hc].
    + destruct (nfc_reading r Hr Hc) as [_ Hs]. unfold is_syllable in Hs. unfold chinese. lia.
    + destruct (nfc_stays r Hr Hc) as [E ->]. rewrite E. unfold chinese in *.
      destruct (Z.eqb_spec r 0x212B); [lia|]. destruct (Z.eqb_spec r 0x2126); lia.
Qed.

(** * Which characters stay encodable *)
Lemma equivalents_encodable : forallb (fun i => (match tget enc_tree (nth i equivalents 0) with Some _ => true | None => false end)
  || Nat.eqb i 0x2C || Nat.eqb i 0xB8) (seq 0 268) = true.
Proof. vm_compute. reflexivity. Qed.
Lemma nfc_value r d : 0xF900 <= r <= 0xFA0B -> nfc_char r = nth (Z.to_nat (r - 0xF900)) equivalents d.
Proof.
  intros H. unfold nfc_char. replace ((0xF900 <=? r) && (r <=? 0xFA0B)) with true by lia.
  apply nth_indep. rewrite equivalents_length. lia.
Qed.
Lemma not_encodable r : In r [0x212B; 0xF92C; 0xF9B8] -> ~ in_repertoire (nfc_char r).
Proof.
  intros H. apply not_repertoire; destruct H as [<-|[<-|[<-|[]]]]; vm_compute; (reflexivity || discriminate).
Qed.
Lemma nfc_repertoire r : in_repertoire r -> (in_repertoire (nfc_char r) <-> ~ In r [0x212B; 0xF92C; 0xF9B8]).
Proof.
  intros Hr. split; [intros H Hin; exact (not_encodable r Hin H)|]. intros Hn.
  assert (Hd : 0xF900 <= r <= 0xFA0B \/ ~ (0xF900 <= r <= 0xFA0B)) by lia. destruct Hd as [H|H].
  - rewrite (nfc_value r 0 H). pose proof equivalents_encodable as E. rewrite forallb_forall in E.
    specialize (E (Z.to_nat (r - 0xF900)) ltac:(apply in_seq; lia)).
    destruct (tget enc_tree (nth (Z.to_nat (r - 0xF900)) equivalents 0)) as [c|] eqn:Ec.
    + right. exists c. apply assigned_enc. exact Ec.
    + cbn [orb] in E. exfalso. apply Hn. apply orb_true_iff in E as [E|E]; apply Nat.eqb_eq in E.
      * right. left. lia.
      * right. right. left. lia.
  - destruct (Z.eq_dec r 0x2126) as [->|H2].
    + right. exists 0xA5D8. apply assigned_by. vm_compute. reflexivity.
    + rewrite nfc_other; auto. intros ->. apply Hn. left. reflexivity.
Qed.
Lemma nfc_encodable grow rs : Forall in_repertoire rs -> ~ In 0x212B rs ->
  exists rs' bs, Convert (utf8 (nfc rs)) = utf8 rs' /\ encodes rs' bs /\ To grow (utf8 rs') = Ok (inl bs) /\ From grow bs = Ok (inl (utf8 rs')).
Proof.
  intros H Hn. exists (map convert_rune (nfc rs)).
  assert (Hr : Forall in_repertoire (map convert_rune (nfc rs))).
  { unfold nfc. rewrite map_map. apply Forall_map. rewrite Forall_forall in *. intros r Hin. specialize (H r Hin).
    assert (Hd : chinese r \/ ~ chinese r) by (unfold chinese; lia). destruct Hd as [Hc|Hc].
    - right. apply syllable_assigned. apply nfc_reading; assumption.
    - destruct (nfc_stays r H Hc) as [_ ->]. apply nfc_repertoire; [exact H|].
      unfold chinese in Hc. intros [E|[E|[E|[]]]]; subst r; [exact (Hn Hin)|lia|lia]. }
  destruct (C28_lemma grow _ Hr) as (bs & H1 & H2 & H3). exists bs. split; [|auto].
  apply Convert_utf8. unfold nfc. apply Forall_map. eapply Forall_impl; [|exact H]. exact nfc_scalar.
Qed.
Lemma nfc_lost : in_repertoire 0x212B /\ Convert (utf8 (nfc [0x212B])) = utf8 [0xC5] /\ ~ in_repertoire 0xC5 /\
  in_repertoire 0xF92C /\ ~ in_repertoire (nfc_char 0xF92C).
Proof.
  split; [right; exists 0xA1CA; apply assigned_by; vm_compute; reflexivity|]. split.
  { rewrite Convert_utf8 by (repeat constructor; unfold is_scalar; cbn; lia). cbn [nfc map].
    destruct (nfc_stays 0x212B) as [E1 E2]; [right; exists 0xA1CA; apply assigned_by; vm_compute; reflexivity|unfold chinese; lia|].
    rewrite E2, E1. reflexivity. }
  split; [exact (not_encodable 0x212B (or_introl eq_refl))|].
  split; [right|exact (not_encodable 0xF92C (or_intror (or_introl eq_refl)))].
  exists 0xD2AB. apply assigned_by. vm_compute. reflexivity.
Qed.
Lemma nfc_lost_ex : (exists r r', in_repertoire r /\ Convert (utf8 (nfc [r])) = utf8 [r'] /\ ~ in_repertoire r') /\
  (exists r, in_repertoire r /\ chinese r /\ ~ in_repertoire (nfc_char r)).
Proof.
  destruct nfc_lost as (H1 & H2 & H3 & H4 & H5). split; [exists 0x212B, 0xC5; auto|].
  exists 0xF92C. split; [exact H4|]. split; [unfold chinese; lia|exact H5].
Qed.
