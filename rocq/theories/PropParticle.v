(** Properties C141-C143: particles after words that do not end with a syllable, and letters in CP949. *)
From Coq Require Import ZArith List Bool.
From Verif Require Import Base Spec Utf8 SpecCp949 SpecJamo HangulModel Cp949Model HangulFacts5 JamoFacts.
Import ListNotations.
Local Open Scope Z_scope.

(** * C141 Particles after words that do not end in Hangul
    False as stated: after the letter A every particle but "으로" ([utf8 [0xC73C; 0xB85C]]) is
    the one for consonants. *)
Theorem C141_refuted : exists r, is_scalar r /\ ~ is_syllable r /\ forall pre with_ without, Forall is_byte pre ->
  with_ <> utf8 [0xC73C; 0xB85C] -> AppendPostposition (pre ++ utf8_char r) with_ without = Ok (pre ++ utf8_char r ++ with_).
Proof. exact C141_refuted_lemma. Qed.
Print Assumptions C141_refuted.
(** Which particle every word gets: that depends on the last character [r] (U+FFFD if the word
    ends with a byte that belongs to no character) and its distance from U+AC00 only. *)
Theorem C141_exact_partial : forall word with_ without, Forall is_byte word -> word <> [] ->
  exists r, is_scalar r /\
    ((exists pre, word = pre ++ utf8_char r) \/
     r = 0xFFFD /\ forall pre r', is_scalar r' -> word <> pre ++ utf8_char r') /\
    let k := (r - 0xAC00) mod 28 in
    let open := k = 0 \/ with_ = utf8 [0xC73C; 0xB85C] /\ 0xAC00 <= r /\ k = 8 in
    (open -> AppendPostposition word with_ without = Ok (word ++ without)) /\
    (~ open -> AppendPostposition word with_ without = Ok (word ++ with_)).
Proof. exact C141_exact_lemma. Qed.
Print Assumptions C141_exact_partial.
(* A + 을/를, H + 을/를, the fullwidth comma + 으로/로 *)
Example C141_case :
  AppendPostposition [0x41] (utf8 [0xC744]) (utf8 [0xB97C]) = Ok (utf8 [0x41; 0xC744]) /\
  AppendPostposition [0x48] (utf8 [0xC744]) (utf8 [0xB97C]) = Ok (utf8 [0x48; 0xB97C]) /\
  AppendPostposition (utf8 [0xFF0C]) (utf8 [0xC73C; 0xB85C]) (utf8 [0xB85C]) = Ok (utf8 [0xFF0C; 0xB85C]).
Proof. repeat split. Qed.

(** * C142 Words in decomposed form
    False as stated: 나 gets the other particle when decomposed. *)
Theorem C142_refuted : exists c l m, is_syllable c /\ Split c = (l, m, 0) /\ forall pre with_ without, Forall is_byte pre ->
  AppendPostposition (pre ++ utf8_char c) with_ without = Ok ((pre ++ utf8_char c) ++ without) /\
  AppendPostposition (pre ++ utf8 [l; m]) with_ without = Ok ((pre ++ utf8 [l; m]) ++ with_).
Proof. exact C142_refuted_lemma. Qed.
Print Assumptions C142_refuted.
(** The particle of every decomposed word: the one for vowels after U+1174 (YI) and U+11AC
    (NIEUN-CIEUC) only. *)
Theorem C142_exact_partial : forall pre l m t with_ without, Forall is_byte pre -> wf_triple (l, m, t) ->
  let word := pre ++ utf8 (if t =? 0 then [l; m] else [l; m; t]) in
  let last := if t =? 0 then m else t in
  (last = 0x1174 \/ last = 0x11AC -> AppendPostposition word with_ without = Ok (word ++ without)) /\
  (last <> 0x1174 -> last <> 0x11AC -> AppendPostposition word with_ without = Ok (word ++ with_)).
Proof. exact C142_exact_lemma. Qed.
Print Assumptions C142_exact_partial.
(* 의 and 앉, decomposed *)
Example C142_case : wf_triple (0x110B, 0x1174, 0) /\ wf_triple (0x110B, 0x1161, 0x11AC) /\
  AppendPostposition (utf8 [0x110B; 0x1174]) (utf8 [0xC744]) (utf8 [0xB97C]) = Ok (utf8 [0x110B; 0x1174; 0xB97C]) /\
  AppendPostposition (utf8 [0x110B; 0x1161; 0x11AC]) (utf8 [0xC744]) (utf8 [0xB97C]) = Ok (utf8 [0x110B; 0x1161; 0x11AC; 0xB97C]).
Proof. repeat split; try (intros H; discriminate H); [left; reflexivity|right; split; intros H; discriminate H]. Qed.

(** * C143 Syllables taken apart, in CP949
    False of Split: its letters are not in CP949. *)
Theorem C143_Split_refuted : exists c, is_syllable c /\ forall grow,
  To grow (utf8 (present (Split c))) = Ok (inl [0x3F; 0x3F]) /\ From grow [0x3F; 0x3F] = Ok (inl [0x3F; 0x3F]).
Proof. exact C143_refuted_lemma. Qed.
Print Assumptions C143_Split_refuted.
(** Every letter of every syllable is lost, and so is every other character of the block Hangul
    Jamo; one question mark for each. *)
Theorem C143_Split_partial : forall grow cs, Forall is_syllable cs ->
  let parts := flat_map (fun c => present (Split c)) cs in
  To grow (utf8 parts) = Ok (inl (repeat 0x3F (length parts))).
Proof. exact C143_Split_lemma. Qed.
Print Assumptions C143_Split_partial.
Theorem C143_block_partial : forall grow rs, Forall (fun r => 0x1100 <= r <= 0x11FF) rs ->
  To grow (utf8 rs) = Ok (inl (repeat 0x3F (length rs))).
Proof. exact C143_marks_lemma. Qed.
Print Assumptions C143_block_partial.
(** True of SplitCompat. *)
Theorem C143_SplitCompat_partial : forall grow cs, Forall is_syllable cs ->
  let parts := flat_map (fun c => present (SplitCompat c)) cs in
  exists bs, encodes parts bs /\ To grow (utf8 parts) = Ok (inl bs) /\ From grow bs = Ok (inl (utf8 parts)).
Proof. exact C143_SplitCompat_lemma. Qed.
Print Assumptions C143_SplitCompat_partial.
(* 각가 *)
Example C143_case :
  To Z.max (utf8 (flat_map (fun c => present (Split c)) [0xAC01; 0xAC00])) = Ok (inl [0x3F; 0x3F; 0x3F; 0x3F; 0x3F]) /\
  To Z.max (utf8 (flat_map (fun c => present (SplitCompat c)) [0xAC01; 0xAC00])) =
    Ok (inl [0xA4; 0xA1; 0xA4; 0xBF; 0xA4; 0xA1; 0xA4; 0xA1; 0xA4; 0xBF]).
Proof. split; vm_compute; reflexivity. Qed.
