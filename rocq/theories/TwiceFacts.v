(** Lemmas for PropTwice.v. *)
From Coq Require Import ZArith List Bool Lia.
From Verif Require Import Base Spec SpecText SpecCp949 Facts Utf8 Utf8Facts Cp949Model Cp949Facts Cp949Facts2 TableFacts PMapFacts.
Import ListNotations.
Local Open Scope Z_scope.
Local Open Scope list_scope.

Lemma to_char_replacement : to_char replacement = [0x3F; 0x3F].
Proof. vm_compute. reflexivity. Qed.
Lemma reads_clean s rs : reads_as s rs -> ~ In replacement rs -> s = utf8 rs.
Proof.
  induction 1 as [|r s rs Hr H IH|b s rs Hbad H IH]; intros N; [reflexivity| |].
  - rewrite utf8_cons, <- IH; [reflexivity|]. intros Hi. apply N. right. exact Hi.
  - exfalso. apply N. left. reflexivity.
Qed.
Lemma twice_marks grow x : Forall is_byte x -> ~ valid_utf8 x -> exists y, To grow x = Ok (inl y) /\ occurs [0x3F; 0x3F] y.
Proof.
  intros Hx Hv. pose proof (string_to_runes_reads x Hx) as R. set (rs := string_to_runes x) in *.
  exists (flat_map to_char rs). split; [apply To_reads; assumption|].
  destruct (in_dec Z.eq_dec replacement rs) as [Hi|Hn].
  - apply in_split in Hi as (a & b & E). rewrite E. exists (flat_map to_char a), (flat_map to_char b).
    rewrite flat_map_app. cbn [flat_map]. rewrite to_char_replacement. reflexivity.
  - exfalso. apply Hv. exists rs. split; [eapply reads_as_scalar; exact R|apply reads_clean; assumption].
Qed.
Lemma twice_refuted : exists rs x, encodes rs x /\ (exists r, In r rs /\ 0x80 <= r) /\
  forall grow, exists y, To grow x = Ok (inl y) /\ ~ In 0x3F y.
Proof.
  exists [0xC9D5], [0xC2; 0xA1]. assert (A : assigned 0xC2A1 0xC9D5) by (apply assigned_by; vm_compute; reflexivity).
  assert (B : assigned 0xA2AE 0xA1) by (apply assigned_by; vm_compute; reflexivity).
  split; [apply (enc_code 0xC2A1 0xC9D5 [] [] A); constructor|]. split; [exists 0xC9D5; split; [left; reflexivity|lia]|].
  intros grow. exists [0xA2; 0xAE]. split; [|cbn; lia]. change [0xC2; 0xA1] with (utf8 [0xA1]).
  apply To_encodes, (enc_code 0xA2AE 0xA1 [] [] B). constructor.
Qed.
