(** Sorting words with hanja. *)
From Coq Require Import ZArith List Bool Lia.
From Verif Require Import Base Spec SpecText SpecCp949 SpecTable SpecInPlace Cp949Model Cp949Facts2 TableFacts PMapFacts HanjaModel ReadOrderFacts ReadFirstFacts.
Import ListNotations.
Local Open Scope Z_scope.
Local Open Scope list_scope.

(** * C195 Sorting words with hanja
    False: hanja with the same reading have different codes, so that the rest of the word does not matter. *)
Theorem C195_refuted : exists a b x y, Forall (fun r => IsHanja r = true) a /\ Forall (fun r => IsHanja r = true) b /\
  encodes a x /\ encodes b y /\ lex_lt x y /\ lex_lt (Convert (utf8 b)) (Convert (utf8 a)).
Proof. exact read_order_refuted. Qed.
Print Assumptions C195_refuted.
(** True if the words are converted first. *)
Theorem C195_partial : forall grow a b x y,
  Forall (fun r => ks_text_char r \/ IsHanja r = true /\ ~ In r read_cd40) a ->
  Forall (fun r => ks_text_char r \/ IsHanja r = true /\ ~ In r read_cd40) b ->
  To grow (Convert (utf8 a)) = Ok (inl x) -> To grow (Convert (utf8 b)) = Ok (inl y) ->
  (lex_lt x y <-> lex_lt (Convert (utf8 a)) (Convert (utf8 b))).
Proof. exact read_order. Qed.
Print Assumptions C195_partial.

(** A hanja with a syllable, and two hanja. *)
Example C195_case : Forall (fun r => ks_text_char r \/ IsHanja r = true /\ ~ In r read_cd40) [0x4F3D; 0xB300] /\
  Forall (fun r => ks_text_char r \/ IsHanja r = true /\ ~ In r read_cd40) [0x4F73; 0x4F73] /\
  (forall grow, To grow (Convert (utf8 [0x4F3D; 0xB300])) = Ok (inl [0xB0; 0xA1; 0xB4; 0xEB])) /\
  (forall grow, To grow (Convert (utf8 [0x4F73; 0x4F73])) = Ok (inl [0xB0; 0xA1; 0xB0; 0xA1])) /\
  lex_lt [0xB0; 0xA1; 0xB0; 0xA1] [0xB0; 0xA1; 0xB4; 0xEB].
Proof.
  assert (A : assigned 0xB0A1 0xAC00) by (apply assigned_by; vm_compute; reflexivity).
  assert (B : assigned 0xB4EB 0xB300) by (apply assigned_by; vm_compute; reflexivity).
  split. { constructor; [right; split; [vm_compute; reflexivity|cbn; lia]|]. constructor; [|constructor].
    left. right. split; [unfold is_syllable; lia|]. exists 0xB4EB. split; [exact B|]. split; vm_compute; discriminate. }
  split; [repeat (constructor; [right; split; [vm_compute; reflexivity|cbn; lia]|]); constructor|].
  split. { intros grow. replace (Convert (utf8 [0x4F3D; 0xB300])) with (utf8 [0xAC00; 0xB300]) by (vm_compute; reflexivity).
    apply To_encodes, (enc_code 0xB0A1 0xAC00 [0xB300] [0xB4; 0xEB] A), (enc_code 0xB4EB 0xB300 [] [] B). constructor. }
  split. { intros grow. replace (Convert (utf8 [0x4F73; 0x4F73])) with (utf8 [0xAC00; 0xAC00]) by (vm_compute; reflexivity).
    apply To_encodes, (enc_code 0xB0A1 0xAC00 [0xAC00] [0xB0; 0xA1] A), (enc_code 0xB0A1 0xAC00 [] [] A). constructor. }
  do 2 apply lex_tail. apply lex_less. lia.
Qed.

(** True without converting them if the first characters in which the words differ are hanja with
    different readings, and not among the thirteen of C67. *)
Theorem C195_first_partial : forall p u a v b x y, is_hanja u -> is_hanja v -> ~ In u filed_elsewhere -> ~ In v filed_elsewhere ->
  Convert (utf8 [u]) <> Convert (utf8 [v]) -> encodes (p ++ u :: a) x -> encodes (p ++ v :: b) y ->
  (lex_lt x y <-> lex_lt (Convert (utf8 (p ++ u :: a))) (Convert (utf8 (p ++ v :: b)))).
Proof. exact read_first. Qed.
Print Assumptions C195_first_partial.

(** U+5927 before U+53EF and U+520A. *)
Example C195_first_case : is_hanja 0x53EF /\ is_hanja 0x520A /\ ~ In 0x53EF filed_elsewhere /\ ~ In 0x520A filed_elsewhere /\
  Convert (utf8 [0x53EF]) <> Convert (utf8 [0x520A]) /\
  encodes ([0x5927] ++ 0x53EF :: []) [0xD3; 0xDE; 0xCA; 0xA6] /\ encodes ([0x5927] ++ 0x520A :: []) [0xD3; 0xDE; 0xCA; 0xCA] /\
  lex_lt [0xD3; 0xDE; 0xCA; 0xA6] [0xD3; 0xDE; 0xCA; 0xCA].
Proof.
  assert (A : assigned 0xD3DE 0x5927) by (apply assigned_by; vm_compute; reflexivity).
  assert (B : assigned 0xCAA6 0x53EF) by (apply assigned_by; vm_compute; reflexivity).
  assert (C : assigned 0xCACA 0x520A) by (apply assigned_by; vm_compute; reflexivity).
  split; [unfold is_hanja; lia|]. split; [unfold is_hanja; lia|].
  split; [cbn; lia|]. split; [cbn; lia|]. split; [vm_compute; discriminate|].
  split; [apply (enc_code 0xD3DE 0x5927 [0x53EF] [0xCA; 0xA6] A), (enc_code 0xCAA6 0x53EF [] [] B); constructor|].
  split; [apply (enc_code 0xD3DE 0x5927 [0x520A] [0xCA; 0xCA] A), (enc_code 0xCACA 0x520A [] [] C); constructor|].
  do 3 apply lex_tail. apply lex_less. lia.
Qed.
