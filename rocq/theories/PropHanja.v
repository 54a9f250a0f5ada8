(** Properties C22-C26 and C61 of package hanja. *)
From Coq Require Import ZArith List Bool.
From Verif Require Import Base Spec Utf8 TableHanja HanjaModel HangulModel HanjaFacts.
Import ListNotations.
Local Open Scope Z_scope.

(** * C22 Convert is a per-character substitution *)
Theorem C22_Convert_per_character : exists f : Z -> Z,
  (forall r, IsHanja r = true -> is_syllable (f r) /\ In (r, f r) table) /\
  (forall r, IsHanja r = false -> f r = r) /\
  (forall s rs, Forall is_byte s -> reads_as s rs ->
     Convert s = utf8 (map f rs) /\ reads_as (Convert s) (map f rs)).
Proof. exact C22_lemma. Qed.
Print Assumptions C22_Convert_per_character.
(* 大韓民國 (a) -> 대한민국 (a) *)
Example C22_case :
  Convert (utf8 [0x5927; 0x97D3; 0x6C11; 0x570B; 0x61]) = utf8 [0xB300; 0xD55C; 0xBBFC; 0xAD6D; 0x61].
Proof. vm_compute. reflexivity. Qed.

(** * C23 Convert leaves no hanja and is idempotent *)
Theorem C23_Convert_idempotent : forall s, Forall is_byte s ->
  (forall rs, reads_as (Convert s) rs -> Forall (fun r => IsHanja r = false) rs) /\
  Convert (Convert s) = Convert s.
Proof. exact C23_lemma. Qed.
Print Assumptions C23_Convert_idempotent.
Example C23_case : Convert (utf8 [0x5927; 0xAC00]) <> utf8 [0x5927; 0xAC00].
Proof. vm_compute. discriminate. Qed.

(** * C24 Convert produces valid UTF-8 and fixes exactly hanja-free text *)
Theorem C24_Convert_valid : forall s, Forall is_byte s ->
  valid_utf8 (Convert s) /\
  (Convert s = s <->
   exists rs, Forall is_scalar rs /\ Forall (fun r => IsHanja r = false) rs /\ s = utf8 rs).
Proof. exact C24_lemma. Qed.
Print Assumptions C24_Convert_valid.
(* an invalid byte becomes U+FFFD *)
Example C24_case : Convert [0xFF; 0x41] = utf8 [0xFFFD; 0x41].
Proof. vm_compute. reflexivity. Qed.

(** * C25 Convert distributes over concatenation
    Also when only the second part starts at a character boundary. *)
Theorem C25_Convert_concat : forall a b,
  Forall is_byte a -> Forall is_byte b -> (valid_utf8 a \/ boundary b) ->
  Convert (a ++ b) = Convert a ++ Convert b.
Proof. exact C25_lemma. Qed.
Print Assumptions C25_Convert_concat.
(* the hypothesis is needed: a character cut in two *)
Example C25_case : boundary (utf8 [0x5927]) /\ ~ boundary [0xA4] /\
  Convert ([0xE5] ++ [0xA4; 0xA7]) <> Convert [0xE5] ++ Convert [0xA4; 0xA7].
Proof. split; [|split]; vm_compute; intuition discriminate. Qed.

(** * C26 IsHanja coverage *)
Theorem C26_IsHanja_coverage :
  (forall r, IsHanja r = true <-> is_hanja r) /\
  (forall r h, In (r, h) table -> is_syllable h) /\
  NoDup (map fst table).
Proof. exact C26_lemma. Qed.
Print Assumptions C26_IsHanja_coverage.
Example C26_case : IsHanja 0x3400 = true /\ IsHanja 0x4DB6 = false /\ IsHanja 0x9FA5 = true /\
                   IsHanja 0x9FA6 = false /\ IsHanja 0xFA29 = true /\ IsHanja 0xF900 = false.
Proof. vm_compute. repeat split. Qed.

(** * C61 Particles after hanja words *)
Theorem C61_LastConsonant_of_hanja : forall pre r, Forall is_byte pre -> IsHanja r = true ->
  exists h l m t, In (r, h) table /\ is_syllable h /\ Split h = (l, m, t) /\
    (t = 0 \/ is_tail_jamo t) /\
    LastConsonant (Convert (pre ++ utf8_char r)) = Ok t.
Proof. exact C61_lemma'. Qed.
Print Assumptions C61_LastConsonant_of_hanja.
(* 江 reads 강, which ends in the consonant 0x11BC *)
Example C61_case : LastConsonant (Convert (utf8 [0x6F22; 0x6C5F])) = Ok 0x11BC.
Proof. vm_compute. reflexivity. Qed.
