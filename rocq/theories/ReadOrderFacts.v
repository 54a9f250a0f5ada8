(** Lemmas for PropReadOrder.v. *)
From Coq Require Import ZArith List Bool Lia.
From Verif Require Import Base Spec SpecText SpecCp949 SpecInPlace Facts Utf8 Utf8Facts Cp949Model Cp949Facts Cp949Facts2 Cp949Facts3 TableFacts PMapFacts
  HanjaModel HanjaFacts InPlaceFacts.
Import ListNotations.
Local Open Scope Z_scope.
Local Open Scope list_scope.

Definition sortable (r : Z) : Prop := ks_text_char r \/ IsHanja r = true /\ ~ In r read_cd40.
Lemma sortable_scalar r : sortable r -> is_scalar r.
Proof. intros [H|[H _]]; [|apply hanja_scalar, H]. unfold ks_text_char, is_scalar, is_syllable in *. lia. Qed.
Lemma sortable_read r : sortable r -> ks_text_char (convert_rune r).
Proof.
  intros [H|[H N]].
  - rewrite convert_rune_other; [exact H|]. destruct (IsHanja r) eqn:E; [|reflexivity]. exfalso.
    apply IsHanja_iff in E. unfold is_hanja, unified_in_compat_block in E. cbn [In] in E. unfold ks_text_char, is_syllable in H. lia.
  - destruct (reading_ks r H N) as (d & Hd & Kd). pose proof (convert_rune_hanja r H) as S.
    unfold ks_text_char. right. split; [exact S|]. exists d. split; [exact Hd|]. unfold ks_syllable_code in Kd. unfold ks_code. lia.
Qed.
Lemma read_order grow a b x y : Forall sortable a -> Forall sortable b ->
  To grow (Convert (utf8 a)) = Ok (inl x) -> To grow (Convert (utf8 b)) = Ok (inl y) ->
  (lex_lt x y <-> lex_lt (Convert (utf8 a)) (Convert (utf8 b))).
Proof.
  intros Ha Hb. assert (S : forall l, Forall sortable l -> Forall is_scalar l) by (intros l Hl; eapply Forall_impl; [exact sortable_scalar|exact Hl]).
  assert (K : forall l, Forall sortable l -> Forall ks_text_char (map convert_rune l))
    by (intros l Hl; apply Forall_map; eapply Forall_impl; [exact sortable_read|exact Hl]).
  rewrite !Convert_utf8 by (apply S; assumption). intros Ex Ey.
  exact (proj1 (C77_To_lemma grow _ _ x y (K a Ha) (K b Hb) Ex Ey)).
Qed.
Lemma read_order_refuted : exists a b x y, Forall (fun r => IsHanja r = true) a /\ Forall (fun r => IsHanja r = true) b /\
  encodes a x /\ encodes b y /\ lex_lt x y /\ lex_lt (Convert (utf8 b)) (Convert (utf8 a)).
Proof.
  exists [0x4F3D; 0x5927], [0x4F73; 0x4F73], [0xCA; 0xA1; 0xD3; 0xDE], [0xCA; 0xA2; 0xCA; 0xA2].
  assert (A : assigned 0xCAA1 0x4F3D) by (apply assigned_by; vm_compute; reflexivity).
  assert (B : assigned 0xD3DE 0x5927) by (apply assigned_by; vm_compute; reflexivity).
  assert (C : assigned 0xCAA2 0x4F73) by (apply assigned_by; vm_compute; reflexivity).
  split; [repeat (constructor; [vm_compute; reflexivity|]); constructor|]. split; [repeat (constructor; [vm_compute; reflexivity|]); constructor|].
  split; [apply (enc_code 0xCAA1 0x4F3D [0x5927] [0xD3; 0xDE] A), (enc_code 0xD3DE 0x5927 [] [] B); constructor|].
  split; [apply (enc_code 0xCAA2 0x4F73 [0x4F73] [0xCA; 0xA2] C), (enc_code 0xCAA2 0x4F73 [] [] C); constructor|].
  split; [apply lex_tail, lex_less; lia|].
  replace (Convert (utf8 [0x4F73; 0x4F73])) with (utf8 [0xAC00; 0xAC00]) by (vm_compute; reflexivity).
  replace (Convert (utf8 [0x4F3D; 0x5927])) with (utf8 [0xAC00; 0xB300]) by (vm_compute; reflexivity).
  refine (proj1 (utf8_lex [0xAC00; 0xAC00] [0xAC00; 0xB300] _ _) _); [repeat (constructor; [unfold is_scalar; lia|]); constructor..|].
  apply lex_tail, lex_less. lia.
Qed.
