(** Properties C01-C21 of package hangul.  Only statements: every proof is a lemma of
    HangulFacts*.v.  The Examples show that hypotheses are met by concrete cases. *)
From Coq Require Import ZArith List Bool.
From Verif Require Import Base Spec Utf8 HangulModel HangulFacts HangulFacts2 HangulFacts3 HangulFacts4 HangulFacts5.
Import ListNotations.
Local Open Scope Z_scope.

(** * C01 Join undoes Split *)
Theorem C01_Join_undoes_Split : forall c,
  is_syllable c -> let '(l, m, t) := Split c in Join l m t = c.
Proof. exact Join_Split. Qed.
Print Assumptions C01_Join_undoes_Split.
Example C01_case : is_syllable 0xD55C /\ Split 0xD55C = (0x1112, 0x1161, 0x11AB)
                   /\ Join 0x1112 0x1161 0x11AB = 0xD55C.
Proof. repeat split; discriminate. Qed.

(** * C02 Split undoes Join *)
Theorem C02_Split_undoes_Join : forall l m t,
  wf_triple (l, m, t) -> is_syllable (Join l m t) /\ Split (Join l m t) = (l, m, t).
Proof. exact Split_Join. Qed.
Print Assumptions C02_Split_undoes_Join.
Theorem C02_Join_injective : forall l m t l' m' t',
  wf_triple (l, m, t) -> wf_triple (l', m', t') ->
  Join l m t = Join l' m' t' -> (l, m, t) = (l', m', t').
Proof. exact Join_injective. Qed.
Print Assumptions C02_Join_injective.
Example C02_case : wf_triple (0x1100, 0x1161, 0) /\ wf_triple (0x1112, 0x1175, 0x11C2)
                   /\ Join 0x1112 0x1175 0x11C2 = 0xD7A3.
Proof. repeat split; try discriminate; cbv; auto; right; split; discriminate. Qed.

(** * C03 Split is the Unicode canonical decomposition *)
Theorem C03_Split_enumerates :
  map Split (zseq 0xAC00 (Z.to_nat 11172)) = all_triples /\
  NoDup all_triples /\ (forall x, In x all_triples <-> wf_triple x).
Proof. exact (conj Split_enumerates (conj all_triples_NoDup all_triples_wf)). Qed.
Print Assumptions C03_Split_enumerates.
Example C03_case : length all_triples = Z.to_nat (19 * 21 * 28)
                   /\ nth_error all_triples 29 = Some (0x1100, 0x1162, 0x11A8).
Proof. split; vm_compute; reflexivity. Qed.

(** * C04 Split recognises syllables *)
Theorem C04_Split_recognises_syllables : forall c,
  is_int32 c -> (wf_triple (Split c) <-> is_syllable c).
Proof. exact Split_wf. Qed.
Print Assumptions C04_Split_recognises_syllables.
(* a rune for which c - 0xAC00 overflows, and one just below the block *)
Example C04_case : is_int32 (-0x80000000) /\ Split (-0x80000000) = (3656460, 4453, 0)
                   /\ Split 0xABFF = (0x1100, 0x1161, 0x11A6).
Proof. repeat split; discriminate. Qed.

(** * C05 Join accepts compatibility and conjoining jamo alike *)
Theorem C05_Join_role_forms : forall l l' m m' t t',
  (l = l' \/ exists f, as_lead l f /\ as_lead l' f) ->
  (m = m' \/ exists f, as_medial m f /\ as_medial m' f) ->
  (t = t' \/ exists f, as_tail t f /\ as_tail t' f) ->
  Join l m t = Join l' m' t'.
Proof. exact C05_lemma. Qed.
Print Assumptions C05_Join_role_forms.
Theorem C05_Join_undoes_SplitCompat : forall c,
  is_syllable c -> let '(l, m, t) := SplitCompat c in Join l m t = c.
Proof. exact SplitCompat_Join. Qed.
Print Assumptions C05_Join_undoes_SplitCompat.
(** SplitCompat gives the compatibility forms of the very letters Split gives. *)
Theorem C05_SplitCompat_letters : forall c, is_syllable c ->
  exists xl xm, let '(l, m, t) := Split c in
  lead_form xl = Some l /\ medial_form xm = Some m /\
  ((t = 0 /\ SplitCompat c = (compat_form xl, compat_form xm, 0)) \/
   exists xt, tail_form xt = Some t /\
              SplitCompat c = (compat_form xl, compat_form xm, compat_form xt)).
Proof. exact SplitCompat_value. Qed.
Print Assumptions C05_SplitCompat_letters.
Example C05_case : as_lead 0x3147 0x110B /\ as_lead 0x110B 0x110B /\ as_tail 0x3147 0x11BC
                   /\ SplitCompat 0xD55C = (0x314E, 0x314F, 0x3134).
Proof.
  split; [exists L_IEUNG; split; [reflexivity|right; reflexivity]|].
  split; [exists L_IEUNG; split; [reflexivity|left; reflexivity]|].
  split; [exists L_IEUNG; split; [reflexivity|right; reflexivity]|reflexivity].
Qed.

(** * C06 Join signals invalid parts
    False as stated: a tail that is not usable as a tail is silently dropped. *)
Theorem C06_refuted : exists l m t,
  (exists f, as_lead l f) /\ (exists f, as_medial m f) /\ t <> 0 /\ (forall f, ~ as_tail t f) /\
  Join l m t <> 0xFFFD.
Proof. exact C06_refuted_lemma. Qed.
Print Assumptions C06_refuted.
(** What holds (missing: U+FFFD for an unusable non-zero tail). *)
Theorem C06_Join_invalid_partial : forall l m t,
  ((exists f, as_lead l f) -> (exists f, as_medial m f) -> is_syllable (Join l m t)) /\
  ((forall f, ~ as_lead l f) -> Join l m t = 0xFFFD) /\
  ((forall f, ~ as_medial m f) -> Join l m t = 0xFFFD) /\
  ((forall f, ~ as_tail t f) -> Join l m t = Join l m 0) /\
  (forall fl fm ft, as_lead l fl -> as_medial m fm -> as_tail t ft ->
     Split (Join l m t) = (fl, fm, ft)) /\
  (forall fl fm, as_lead l fl -> as_medial m fm -> Split (Join l m 0) = (fl, fm, 0)).
Proof. exact C06_lemma. Qed.
Print Assumptions C06_Join_invalid_partial.
Example C06_case : Join 0x1100 0x1161 0x3138 = 0xAC00 /\ (forall f, ~ as_tail 0x3138 f)
                   /\ Join 0x3133 0x1161 0 = 0xFFFD /\ Join 0x1100 0x1100 0 = 0xFFFD.
Proof. exact (conj eq_refl (conj no_tail_form_DD (conj eq_refl eq_refl))). Qed.

(** * C07 IsHangul classification *)
Theorem C07_classification : forall r,
  (IsLead r = true <-> is_lead_jamo r) /\
  (IsMedial r = true <-> is_medial_jamo r) /\
  (IsTail r = true <-> is_tail_jamo r) /\
  (IsJaeum r = true <-> is_compat_jaeum r \/ is_lead_jamo r \/ is_tail_jamo r) /\
  (IsMoeum r = true <-> is_compat_moeum r \/ is_medial_jamo r) /\
  (IsHangul r = true <-> is_syllable r \/ is_lead_jamo r \/ is_medial_jamo r
                         \/ is_tail_jamo r \/ is_compat_jaeum r \/ is_compat_moeum r).
Proof.
  exact (fun r => conj (IsLead_iff r) (conj (IsMedial_iff r) (conj (IsTail_iff r)
          (conj (IsJaeum_iff r) (conj (IsMoeum_iff r) (IsHangul_iff r)))))).
Qed.
Print Assumptions C07_classification.
Theorem C07_disjoint_classes : forall r,
  ~ (IsLead r = true /\ IsMedial r = true) /\ ~ (IsLead r = true /\ IsTail r = true) /\
  ~ (IsMedial r = true /\ IsTail r = true) /\ ~ (IsJaeum r = true /\ IsMoeum r = true).
Proof. exact C07_disjoint. Qed.
Print Assumptions C07_disjoint_classes.
Example C07_case : IsHangul 0xAC00 = true /\ IsHangul 0x1113 = false /\ IsHangul 0x3164 = false
                   /\ IsHangul (-1) = false.
Proof. repeat split. Qed.

(** * C08 CompatJamo is total on jamo and idempotent *)
Theorem C08_CompatJamo_total : forall r,
  (CompatJamo r = 0 <-> IsJaeum r = false /\ IsMoeum r = false) /\
  ((IsJaeum r = true -> is_compat_jaeum (CompatJamo r)) /\
   (IsMoeum r = true -> is_compat_moeum (CompatJamo r))) /\
  CompatJamo (CompatJamo r) = CompatJamo r.
Proof. exact (fun r => conj (CompatJamo_zero_iff r) (conj (CompatJamo_class r) (CompatJamo_idem r))). Qed.
Print Assumptions C08_CompatJamo_total.
Example C08_case : IsJaeum 0x11C2 = true /\ CompatJamo 0x11C2 = 0x314E
                   /\ IsMoeum 0x1175 = true /\ CompatJamo 0x1175 = 0x3163.
Proof. repeat split. Qed.

(** * C09 Conversions preserve the letter *)
Theorem C09_conversions_preserve_letter : forall r,
  (forall x, form_of x r -> CompatJamo r = compat_form x) /\
  ((forall x, ~ form_of x r) -> CompatJamo r = 0) /\
  (forall f, as_lead r f -> Lead r = f) /\ ((forall f, ~ as_lead r f) -> Lead r = 0) /\
  (forall f, as_medial r f -> Medial r = f) /\ ((forall f, ~ as_medial r f) -> Medial r = 0) /\
  (forall f, as_tail r f -> Tail r = f) /\ ((forall f, ~ as_tail r f) -> Tail r = 0).
Proof. exact C09_lemma. Qed.
Print Assumptions C09_conversions_preserve_letter.
Example C09_case : form_of L_RIEUL_KIYEOK 0x11B0 /\ CompatJamo 0x11B0 = 0x313A
                   /\ as_lead 0x3132 0x1101 /\ (forall f, ~ as_tail 0x3138 f).
Proof.
  split; [right; right; right; reflexivity|]. split; [reflexivity|].
  split; [exists L_SSANGKIYEOK; split; [reflexivity|right; reflexivity]|exact no_tail_form_DD].
Qed.

(** * C10 Lead/Medial/Tail invert CompatJamo *)
Theorem C10_inverses : forall r,
  (IsLead r = true -> Lead (CompatJamo r) = r) /\
  (IsMedial r = true -> Medial (CompatJamo r) = r) /\
  (IsTail r = true -> Tail (CompatJamo r) = r) /\
  (is_compat_jaeum r \/ is_compat_moeum r ->
     (Lead r <> 0 -> CompatJamo (Lead r) = r) /\
     (Medial r <> 0 -> CompatJamo (Medial r) = r) /\
     (Tail r <> 0 -> CompatJamo (Tail r) = r)).
Proof. exact C10_lemma. Qed.
Print Assumptions C10_inverses.
Example C10_case : IsTail 0x11BC = true /\ CompatJamo 0x11BC = 0x3147 /\ Tail 0x3147 = 0x11BC
                   /\ Lead 0x3147 = 0x110B.
Proof. repeat split. Qed.

(** * C11 Lead, Medial and Tail yield only well-formed results *)
Theorem C11_well_formed_roles : forall r,
  (Lead r = 0 \/ IsLead (Lead r) = true) /\ (Medial r = 0 \/ IsMedial (Medial r) = true) /\
  (Tail r = 0 \/ IsTail (Tail r) = true) /\
  Lead (Lead r) = Lead r /\ Medial (Medial r) = Medial r /\ Tail (Tail r) = Tail r.
Proof. exact C11_lemma. Qed.
Print Assumptions C11_well_formed_roles.
Example C11_case : Lead 0x314E = 0x1112 /\ Medial 0x3163 = 0x1175 /\ Tail 0x314E = 0x11C2.
Proof. repeat split. Qed.

(** * C12 SplitMultiElement recognises composite letters *)
Theorem C12_SplitMultiElement_composites :
  (forall r, snd (SplitMultiElement r) = true <-> exists x, composite x /\ form_of x r) /\
  (forall x r r', form_of x r -> form_of x r' -> SplitMultiElement r = SplitMultiElement r') /\
  (forall x r, form_of x r -> composite x ->
     (2 <= length (fst (SplitMultiElement r)))%nat /\
     (consonant x -> Forall is_compat_jaeum (fst (SplitMultiElement r))) /\
     (vowel x -> Forall is_compat_moeum (fst (SplitMultiElement r)))) /\
  (forall r, snd (SplitMultiElement r) = false -> fst (SplitMultiElement r) = []).
Proof. exact C12_lemma. Qed.
Print Assumptions C12_SplitMultiElement_composites.
Example C12_case : composite L_RIEUL_KIYEOK /\ form_of L_RIEUL_KIYEOK 0x11B0
                   /\ SplitMultiElement 0x11B0 = ([0x3139; 0x3131], true)
                   /\ SplitMultiElement 0x11AF = ([], false).
Proof. repeat split; try discriminate. right; right; right; reflexivity. Qed.

(** * C13 SplitMultiElement yields basic elements
    False as stated: the elements given for WE are U and the composite E. *)
Theorem C13_refuted : exists x r e,
  form_of x r /\ composite x /\ In e (fst (SplitMultiElement r)) /\
  snd (SplitMultiElement e) = true /\
  fst (SplitMultiElement r) <> map compat_form (elements x).
Proof. exact C13_refuted_lemma. Qed.
Print Assumptions C13_refuted.
(** It holds for every composite letter but WE. *)
Theorem C13_basic_elements_partial : forall x r,
  form_of x r -> composite x -> x <> L_WE ->
  SplitMultiElement r = (map compat_form (elements x), true) /\
  forall e, In e (fst (SplitMultiElement r)) -> SplitMultiElement e = ([], false).
Proof. exact C13_lemma. Qed.
Print Assumptions C13_basic_elements_partial.
Example C13_case : form_of L_WAE 0x116B /\ composite L_WAE /\ L_WAE <> L_WE
                   /\ SplitMultiElement 0x116B = ([0x3157; 0x314F; 0x3163], true)
                   /\ SplitMultiElement 0x315E = ([0x315C; 0x3154], true)
                   /\ SplitMultiElement 0x3154 = ([0x3153; 0x3163], true).
Proof. repeat split; try discriminate. right; right; left; reflexivity. Qed.

(** * C14 Stroke is additive over a syllable *)
Theorem C14_Stroke_additive_Split : forall c, is_syllable c ->
  let '(l, m, t) := Split c in
  exists a b d, Stroke l = Ok a /\ Stroke m = Ok b /\ Stroke t = Ok d /\ Stroke c = Ok (a + b + d).
Proof. exact Stroke_split. Qed.
Print Assumptions C14_Stroke_additive_Split.
Theorem C14_Stroke_additive_Join : forall l m t l' m' t',
  as_lead l l' -> as_medial m m' -> (t = 0 /\ t' = 0 \/ as_tail t t') ->
  exists a b d, Stroke l = Ok a /\ Stroke m = Ok b /\ Stroke t = Ok d
                /\ Stroke (Join l m t) = Ok (a + b + d).
Proof. exact Stroke_Join. Qed.
Print Assumptions C14_Stroke_additive_Join.
(** A tail that is not usable as one is dropped by Join (C06) and so does not count. *)
Theorem C14_Stroke_dropped_tail : forall l m t l' m',
  as_lead l l' -> as_medial m m' -> (forall f, ~ as_tail t f) ->
  exists a b, Stroke l = Ok a /\ Stroke m = Ok b /\ Stroke (Join l m t) = Ok (a + b).
Proof. exact Stroke_dropped. Qed.
Print Assumptions C14_Stroke_dropped_tail.
Example C14_case : Stroke 0xD55C = Ok 6 /\ Stroke 0x1112 = Ok 3 /\ Stroke 0x1161 = Ok 2
                   /\ Stroke 0x11AB = Ok 1.
Proof. repeat split. Qed.
(* SSANGTIKEUT is no tail: its 4 strokes do not count *)
Example C14_dropped_case : (forall f, ~ as_tail 0x3138 f) /\ Stroke 0x3138 = Ok 4 /\
  Stroke (Join 0x1112 0x1161 0x3138) = Ok 5.
Proof. split; [exact no_tail_form_DD|]. split; reflexivity. Qed.

(** * C15 Stroke counts the strokes of the letter
    False as stated for WE, and so for every syllable whose vowel is WE. *)
Theorem C15_refuted : exists x r, form_of x r /\ Stroke r <> Ok (letter_strokes x).
Proof. exact C15_refuted_lemma. Qed.
Print Assumptions C15_refuted.
Theorem C15_Stroke_letter_partial : forall x r,
  form_of x r -> x <> L_WE -> Stroke r = Ok (letter_strokes x).
Proof. exact C15_letter. Qed.
Print Assumptions C15_Stroke_letter_partial.
Theorem C15_Stroke_syllable_partial : forall c xl xm, is_syllable c ->
  let '(l, m, t) := Split c in
  lead_form xl = Some l -> medial_form xm = Some m -> xm <> L_WE ->
  (t = 0 -> Stroke c = Ok (letter_strokes xl + letter_strokes xm)) /\
  (forall xt, tail_form xt = Some t ->
     Stroke c = Ok (letter_strokes xl + letter_strokes xm + letter_strokes xt)).
Proof. exact C15_syllable. Qed.
Print Assumptions C15_Stroke_syllable_partial.
(** The exact error for the missing letter. *)
Theorem C15_Stroke_WE : forall r,
  form_of L_WE r -> Stroke r = Ok 2 /\ letter_strokes L_WE = 5.
Proof. exact C15_WE. Qed.
Print Assumptions C15_Stroke_WE.
Example C15_case : form_of L_SSANGPIEUP 0x1108 /\ letter_strokes L_SSANGPIEUP = 8
                   /\ Stroke 0x1108 = Ok 8 /\ Stroke 0xBDC1 = Ok 10.
Proof. repeat split. right; left; reflexivity. Qed.

(** * C16 Stroke is total, terminates, and is positive exactly on Hangul
    [fuel] bounds the recursion depth of the model; every bound from 2 up gives the same
    value, so the recursion of the code ends at depth at most 2. *)
Theorem C16_Stroke_total : forall r,
  exists n, Stroke r = Ok n /\ 0 <= n /\ (0 < n <-> IsHangul r = true) /\
            forall fuel, (2 <= fuel)%nat -> Stroke_in multiElements fuel r = Ok n.
Proof. exact C16_lemma. Qed.
Print Assumptions C16_Stroke_total.
Example C16_case : Stroke 0x41 = Ok 0 /\ Stroke 0xC6EC = Ok 4 /\ Stroke (-5) = Ok 0.
Proof. repeat split. Qed.

(** * C17 LastConsonant and EndsWithConsonant on Hangul words *)
Theorem C17_LastConsonant :
  LastConsonant [] = Ok 0 /\ EndsWithConsonant [] = Ok false /\
  (forall word, Forall is_byte word ->
     exists t, LastConsonant word = Ok t /\ EndsWithConsonant word = Ok (negb (t =? 0))) /\
  (forall pre c, Forall is_byte pre -> is_syllable c ->
     exists l m t, Split c = (l, m, t) /\ (t = 0 \/ is_tail_jamo t) /\
       LastConsonant (pre ++ utf8_char c) = Ok t /\
       (EndsWithConsonant (pre ++ utf8_char c) = Ok true <-> is_tail_jamo t) /\
       (EndsWithConsonant (pre ++ utf8_char c) = Ok false <-> t = 0)).
Proof. exact C17_lemma. Qed.
Print Assumptions C17_LastConsonant.
(* a prefix that is not valid UTF-8, then 강 *)
Example C17_case : Forall is_byte [0xEA; 0xB0] /\ is_syllable 0xAC15
                   /\ LastConsonant ([0xEA; 0xB0] ++ utf8_char 0xAC15) = Ok 0x11BC.
Proof. repeat split; repeat constructor; discriminate. Qed.

(** * C18 LastConsonant returns 0 or a tail
    False as stated: Split is applied to any last character. *)
Theorem C18_refuted :
  (exists word t, Forall is_byte word /\ LastConsonant word = Ok t /\ t <> 0 /\ ~ is_tail_jamo t) /\
  (exists r, is_scalar r /\ ~ is_syllable r /\ EndsWithConsonant (utf8_char r) = Ok true).
Proof. exact C18_refuted_lemma. Qed.
Print Assumptions C18_refuted.
(** The exact value for every word: that of its last character [r] (U+FFFD if the word ends
    with a byte that belongs to no character): 0 or a tail from U+AC00 on; below it a number
    that is no tail unless the distance to U+AC00 is a multiple of 28. *)
Theorem C18_LastConsonant_partial : forall word, Forall is_byte word -> word <> [] ->
  exists r t, is_scalar r /\ LastConsonant word = Ok t /\
    ((exists pre, word = pre ++ utf8_char r) \/
     r = 0xFFFD /\ forall pre r', is_scalar r' -> word <> pre ++ utf8_char r') /\
    ((r - 0xAC00) mod 28 = 0 -> t = 0) /\
    ((r - 0xAC00) mod 28 <> 0 -> 0xAC00 <= r -> t = 0x11A7 + (r - 0xAC00) mod 28) /\
    ((r - 0xAC00) mod 28 <> 0 -> r < 0xAC00 -> t = 0x11A7 - (0xAC00 - r) mod 28).
Proof. exact C18_exact_lemma. Qed.
Print Assumptions C18_LastConsonant_partial.
Example C18_case : LastConsonant [0x61] = Ok 0x11A4 /\ EndsWithConsonant [0x61] = Ok true
                   /\ LastConsonant (utf8_char 0xFF21) = Ok 0x11A8 /\ LastConsonant [0x61; 0x80] = Ok 0x11C0.
Proof. repeat split. Qed.

(** * C19 AppendPostposition picks the right particle
    [utf8 [0xC73C; 0xB85C]] is the string "으로"; U+11AF is the tail RIEUL. *)
Theorem C19_AppendPostposition :
  (forall word with_ without, Forall is_byte word ->
     AppendPostposition word with_ without = Ok (word ++ with_) \/
     AppendPostposition word with_ without = Ok (word ++ without)) /\
  (forall with_ without, AppendPostposition [] with_ without = Ok without) /\
  (forall pre c with_ without, Forall is_byte pre -> is_syllable c ->
     let word := pre ++ utf8_char c in
     let '(_, _, t) := Split c in
     (t = 0 -> AppendPostposition word with_ without = Ok (word ++ without)) /\
     (t <> 0 -> t <> 0x11AF -> AppendPostposition word with_ without = Ok (word ++ with_)) /\
     (t = 0x11AF -> with_ = utf8 [0xC73C; 0xB85C] ->
        AppendPostposition word with_ without = Ok (word ++ without)) /\
     (t = 0x11AF -> with_ <> utf8 [0xC73C; 0xB85C] ->
        AppendPostposition word with_ without = Ok (word ++ with_))).
Proof. exact C19_lemma. Qed.
Print Assumptions C19_AppendPostposition.
(* 강+을/를, 서울+으로/로, 서울+은/는 *)
Example C19_case :
  AppendPostposition (utf8 [0xAC15]) (utf8 [0xC744]) (utf8 [0xB97C]) = Ok (utf8 [0xAC15; 0xC744]) /\
  AppendPostposition (utf8 [0xC11C; 0xC6B8]) (utf8 [0xC73C; 0xB85C]) (utf8 [0xB85C])
    = Ok (utf8 [0xC11C; 0xC6B8; 0xB85C]) /\
  AppendPostposition (utf8 [0xC11C; 0xC6B8]) (utf8 [0xC740]) (utf8 [0xB294])
    = Ok (utf8 [0xC11C; 0xC6B8; 0xC740]).
Proof. repeat split. Qed.

(** * C20 Results do not depend on call history
    [hangul_run hangul_init os] is the list of results of the calls [os] made in a fresh
    program. *)
Theorem C20_history_independence : forall os o,
  (forall o', In o' (os ++ [o]) -> forall r i v, o' <> OpStore r i v) ->
  hangul_run hangul_init (os ++ [o]) = hangul_run hangul_init os ++ hangul_run hangul_init [o].
Proof. exact C20_lemma. Qed.
Print Assumptions C20_history_independence.
Example C20_case :
  hangul_run hangul_init [OpStroke 0xD55C; OpSplitMulti 0x3132]
  = [OutStroke (Ok 6); OutSplitMulti [0x3131; 0x3131] true].
Proof. reflexivity. Qed.

(** * C21 Callers cannot corrupt the package
    False as stated: the returned slice aliases the package's table. *)
Theorem C21_refuted : exists os o,
  hangul_run hangul_init (os ++ [o]) <> hangul_run hangul_init os ++ hangul_run hangul_init [o].
Proof. exact C21_refuted_lemma. Qed.
Print Assumptions C21_refuted.
(** What no caller can change: which letters split, into how many elements, that Stroke
    returns; and results for letters whose own slice was not assigned to. *)
Theorem C21_corruption_confined_partial : forall os,
  (forall r, exists es, hangul_run hangul_init (os ++ [OpSplitMulti r]) =
     hangul_run hangul_init os ++ [OutSplitMulti es (snd (SplitMultiElement r))] /\
     length es = length (fst (SplitMultiElement r))) /\
  (forall r, exists n, hangul_run hangul_init (os ++ [OpStroke r]) =
     hangul_run hangul_init os ++ [OutStroke (Ok n)]) /\
  (forall r, (forall r' i v, In (OpStore r' i v) os -> CompatJamo r' <> CompatJamo r) ->
     hangul_run hangul_init (os ++ [OpSplitMulti r]) =
       hangul_run hangul_init os ++ hangul_run hangul_init [OpSplitMulti r] /\
     (~ is_syllable r ->
      hangul_run hangul_init (os ++ [OpStroke r]) =
        hangul_run hangul_init os ++ hangul_run hangul_init [OpStroke r])).
Proof. exact C21_lemma. Qed.
Print Assumptions C21_corruption_confined_partial.
Example C21_case :
  hangul_run hangul_init [OpStore 0x3132 0 0x314E; OpSplitMulti 0x1101; OpStroke 0xAE4C; OpSplitMulti 0x3133]
  = [OutStored; OutSplitMulti [0x314E; 0x3131] true; OutStroke (Ok 6);
     OutSplitMulti [0x3131; 0x3145] true].
Proof. reflexivity. Qed.
