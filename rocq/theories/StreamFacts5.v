(** Read over a wrapped reader of any kind (StreamModel3.v) and over one that stores exactly the
    bytes it reports (StreamModel.v). *)
From Coq Require Import ZArith List Bool Lia.
From Coq Require Import ZifyBool.
From Verif Require Import Base Spec Facts Utf8 SortSearch TableFrom TableTo
  Cp949Model StreamModel StreamModel3 SliceFacts PipeFacts2.
Import ListNotations.
Local Open Scope Z_scope.
Local Opaque fromTable toTable.

Section Sim.
Variable grow : Z -> Z -> Z.
Variables (R1 R2 : Type).
Variable rd3 : R1 -> Z -> Z * list Z * option error * R1.
Variable rd : R2 -> Z -> list Z * option error * R2.
(** States of the two wrapped readers that correspond to each other. *)
Variable Q : R1 -> R2 -> Prop.
Definition answers_alike : Prop := forall x s k, Q x s ->
  let '(bs, e, s') := rd s k in exists junk x', rd3 x k = (zlen bs, bs ++ junk, e, x') /\ Q x' s'.
Hypothesis Halike : answers_alike.

Definition alike (r : reader R1) (q : reader R2) : Prop :=
  Q (r_src _ r) (r_src _ q) /\ r_scratch _ r = r_scratch _ q /\ r_cdata_lo _ r = r_cdata_lo _ q /\
  r_cdata_hi _ r = r_cdata_hi _ q /\ r_err _ r = r_err _ q /\ same_slice (r_rdata _ r) (r_rdata _ q).
Definition alike_res {A B} (R : A -> B -> Prop) (x : res A) (y : res B) : Prop :=
  match x, y with
  | Ok a, Ok b => R a b
  | Panic, Panic => True
  | Fuel, Fuel => True
  | _, _ => False
  end.

Lemma fill_alike r q k : alike r q -> alike_res alike (fill3 R1 rd3 r k) (fill R2 rd q k).
Proof.
  intros (Es & Esc & Elo & Ehi & Ee & Hsl). unfold fill3, fill.
  assert (slen (r_rdata _ r) = slen (r_rdata _ q)) as El by apply Hsl. rewrite El.
  pose proof (ensureCap_same _ _ (slen (r_rdata _ q) + k) Hsl) as He.
  destruct (ensureCap (r_rdata _ r) _) as [b| |], (ensureCap (r_rdata _ q) _) as [c| |]; cbn in He;
    try contradiction; cbn [bind alike_res]; try exact I.
  destruct He as (Hb & Hc & Hcont & Hl & Hcap). rewrite Hl, Hcap.
  pose proof (Halike _ _ (scap c - slen c) Es) as Ha.
  destruct (rd (r_src _ q) (scap c - slen c)) as [[bs err] s']. destruct Ha as (j & x' & -> & HQ).
  pose proof (zlen_nonneg bs) as Hn. unfold slice_ok in *.
  assert (zlen (ztake (scap c - slen c) (bs ++ j)) <= scap c - slen c) as Hj.
  { unfold zlen, ztake. rewrite firstn_length. lia. }
  pose proof (zlen_nonneg (ztake (scap c - slen c) (bs ++ j))) as Hj1.
  assert (zlen (zwrite (arr b) (slen c) (ztake (scap c - slen c) (bs ++ j))) = scap c) as L1.
  { rewrite zlen_zwrite; unfold scap in *; lia. }
  destruct (Z.gtb_spec (slen c + zlen bs) (scap c)) as [Hx|Hx].
  { unfold reslice. cbn [arr]. unfold scap at 1. cbn [arr]. rewrite L1.
    replace ((0 <=? slen c + zlen bs) && (slen c + zlen bs <=? scap c)) with false by lia. exact I. }
  assert (exists j', ztake (scap c - slen c) (bs ++ j) = bs ++ j') as [j' Ej].
  { exists (ztake (scap c - slen c - zlen bs) j). rewrite ztake_app_r by lia. reflexivity. }
  rewrite Ej in *. rewrite zlen_app in Hj. pose proof (zlen_nonneg j') as Hj0.
  assert (zlen (zwrite (arr c) (slen c) bs) = scap c) as L2.
  { rewrite zlen_zwrite; unfold scap in *; lia. }
  rewrite !reslice_spec by (unfold scap; cbn [arr]; unfold scap in *; lia). cbn [bind arr alike_res].
  unfold alike. cbn [r_src r_scratch r_cdata_lo r_cdata_hi r_rdata r_err].
  repeat (split; [solve [auto]|]). unfold same_slice, slice_ok, scap. cbn [arr slen].
  rewrite L1, L2. repeat (split; [lia|]). split; [|auto]. unfold contents. cbn [arr slen].
  rewrite (ztake_zwrite (arr c)) by (unfold scap in *; lia).
  unfold zwrite. rewrite <- app_assoc, app_assoc. rewrite ztake_app_exact.
  - f_equal. unfold contents in Hcont. rewrite Hl in Hcont. exact Hcont.
  - unfold scap in *. rewrite zlen_app, zlen_ztake by lia. lia.
Qed.

Lemma convert_alike r q : alike r q -> alike_res alike (convert grow R1 r) (convert grow R2 q).
Proof.
  intros (Es & Esc & Elo & Ehi & Ee & Hs & Ht & Hc & Hl & Hcap). unfold convert. rewrite Esc, Hc, Hl, Ee.
  destruct (from_Translate grow fromTable (r_scratch _ q) (contents (r_rdata _ q))) as [[[[nc cd] o] sc]| |];
    cbn [bind alike_res]; try exact I.
  set (n := match r_err R2 q with Some _ => _ | None => _ end).
  destruct (Z.gtb_spec n (slen (r_rdata _ q))) as [Hx|Hx]; [exact I|].
  set (rest := zdrop n (contents (r_rdata _ q))).
  assert (zlen rest <= slen (r_rdata _ q)) as Hr.
  { rewrite <- (contents_len _ Ht). unfold rest, zlen, zdrop. rewrite skipn_length. lia. }
  pose proof (zlen_nonneg rest) as Hr0. unfold slice_ok, scap in *.
  assert (zlen (zwrite (arr (r_rdata _ r)) 0 rest) = zlen (arr (r_rdata _ q))) as L1 by (rewrite zlen_zwrite; lia).
  assert (zlen (zwrite (arr (r_rdata _ q)) 0 rest) = zlen (arr (r_rdata _ q))) as L2 by (rewrite zlen_zwrite; lia).
  rewrite !reslice_spec by (unfold scap; cbn [arr]; lia). cbn [bind arr alike_res].
  unfold alike. cbn [r_src r_scratch r_cdata_lo r_cdata_hi r_rdata r_err].
  repeat (split; [solve [auto]|]). unfold same_slice, slice_ok, scap. cbn [arr slen].
  rewrite L1, L2. repeat (split; [lia|]). split; [|auto]. unfold contents. cbn [arr slen].
  change (zlen rest) with (0 + zlen rest). rewrite !ztake_zwrite by lia. rewrite !ztake_0. reflexivity.
Qed.

Definition alike_answer (x : list Z * option error * reader R1) (y : list Z * option error * reader R2) : Prop :=
  fst x = fst y /\ alike (snd x) (snd y).

Lemma read_alike fuel : forall r q k, alike r q ->
  alike_res alike_answer (Read3 grow R1 rd3 fuel r k) (Read grow R2 rd fuel q k).
Proof.
  induction fuel as [|fuel IH]; intros r q k H; [exact I|]. cbn [Read3 Read].
  pose proof H as (Es & Esc & Elo & Ehi & Ee & Hsl).
  assert (slen (r_rdata _ r) = slen (r_rdata _ q)) as El by apply Hsl.
  rewrite Elo, Ehi, Ee, El. destruct (_ >? 0).
  - cbn [alike_res]. split; cbn [fst snd].
    + unfold cdata. rewrite Elo, Ehi, Esc. reflexivity.
    + unfold alike. cbn [r_src r_scratch r_cdata_lo r_cdata_hi r_rdata r_err]. repeat (split; [assumption||reflexivity|]). exact Hsl.
  - destruct (r_err _ q) as [e|] eqn:Eq.
    + destruct (_ =? 0); [cbn; split; [reflexivity|exact H]|].
      pose proof (convert_alike r q H) as Hc.
      destruct (convert grow R1 r) as [r1| |], (convert grow R2 q) as [q1| |]; cbn in Hc; try contradiction;
        cbn [bind alike_res]; try exact I. apply IH, Hc.
    + pose proof (fill_alike r q k H) as Hf.
      destruct (fill3 R1 rd3 r k) as [r1| |], (fill R2 rd q k) as [q1| |]; cbn in Hf; try contradiction;
        cbn [bind alike_res]; try exact I.
      pose proof (convert_alike r1 q1 Hf) as Hc.
      destruct (convert grow R1 r1) as [r2| |], (convert grow R2 q1) as [q2| |]; cbn in Hc; try contradiction;
        cbn [bind alike_res]; try exact I. apply IH, Hc.
Qed.

Lemma new_alike x s : Q x s -> alike (NewReader x) (NewReader s).
Proof. intros H. split; [exact H|]. unfold same_slice, slice_ok, scap, NewReader. cbn. repeat split; lia. Qed.
End Sim.
