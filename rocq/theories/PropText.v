(** Properties C73-C77: cutting, telling apart, searching and sorting encoded text. *)
From Coq Require Import ZArith List Bool.
From Verif Require Import Base Spec Utf8 SpecCp949 SpecText Cp949Model Cp949Facts2 Cp949Facts3.
Import ListNotations.
Local Open Scope Z_scope.

(* the growth policy used in the examples *)
Local Definition double (old need : Z) : Z := Z.max need (2 * old).

(** * C73 Cutting a text short *)
Theorem C73_From_cut : forall grow s out k, Forall is_byte s -> From grow s = Ok (inl out) ->
  (exists out', From grow (ztake k s) = Ok (inl out') /\ is_prefix out' out) \/
  (From grow (ztake k s) = Ok (inr ErrCP949UnexpectedStream) /\ 0 < k /\
   exists out', From grow (ztake (k - 1) s) = Ok (inl out') /\ is_prefix out' out).
Proof. exact C73_From_lemma. Qed.
Print Assumptions C73_From_cut.
(** [j] dangling bytes become [2 * j] question marks. *)
Theorem C73_To_cut : forall grow rs k, Forall is_scalar rs -> 0 <= k <= zlen (utf8 rs) ->
  exists whole rest x j, rs = whole ++ rest /\ To grow (utf8 whole) = Ok (inl x) /\
    To grow (ztake k (utf8 rs)) = Ok (inl (x ++ repeat 0x3F (2 * j))) /\
    zlen (utf8 whole) + Z.of_nat j = k /\
    (j = 0%nat \/ exists r rest', rest = r :: rest' /\ Z.of_nat j < zlen (utf8_char r)).
Proof. exact C73_To_lemma. Qed.
Print Assumptions C73_To_cut.
Example C73_case : From double (ztake 3 [0xB0; 0xA1; 0xB0; 0xA1]) = Ok (inr ErrCP949UnexpectedStream) /\
  From double (ztake 2 [0xB0; 0xA1; 0xB0; 0xA1]) = Ok (inl (utf8 [0xAC00])) /\
  To double (ztake 5 (utf8 [0xAC00; 0xAC00])) = Ok (inl [0xB0; 0xA1; 0x3F; 0x3F; 0x3F; 0x3F]).
Proof. vm_compute. repeat split. Qed.

(** * C74 Different inputs give different results *)
Theorem C74_From_injective : forall grow s s' out, Forall is_byte s -> Forall is_byte s' ->
  From grow s = Ok (inl out) -> From grow s' = Ok (inl out) ->
  length s = length s' /\ (~ occurs (utf8_char replacement) out -> s = s').
Proof. exact C74_From_lemma. Qed.
Print Assumptions C74_From_injective.
Theorem C74_To_injective : forall grow rs rs' x, Forall in_repertoire rs -> Forall in_repertoire rs' ->
  To grow (utf8 rs) = Ok (inl x) -> To grow (utf8 rs') = Ok (inl x) -> rs = rs'.
Proof. exact C74_To_lemma. Qed.
Print Assumptions C74_To_injective.
(* the side condition can be met, and is needed *)
Example C74_case : ~ occurs (utf8_char replacement) (utf8 [0xAC00]).
Proof. exact C74_case_lemma. Qed.
Example C74_needed : From double [0xFF; 0x41] = From double [0xFF; 0x42].
Proof. vm_compute. reflexivity. Qed.

(** * C75 Prefix test on encoded text *)
Theorem C75_prefix : forall grow a b x y, Forall in_repertoire a -> Forall in_repertoire b ->
  To grow (utf8 a) = Ok (inl x) -> To grow (utf8 b) = Ok (inl y) -> (is_prefix x y <-> is_prefix a b).
Proof. exact C75_To_lemma. Qed.
Print Assumptions C75_prefix.
Example C75_case : Forall in_repertoire [0x41; 0xAC00; 0xD7A3] /\ is_prefix [0x41; 0xAC00] [0x41; 0xAC00; 0xD7A3] /\
  To double (utf8 [0x41; 0xAC00]) = Ok (inl [0x41; 0xB0; 0xA1]).
Proof.
  split; [exact (proj1 C28_case_lemma)|]. split; [exists [0xD7A3]; reflexivity|vm_compute; reflexivity].
Qed.

(** * C76 Searching encoded text
    False as stated: 활 is found in the encoding of 걷가. *)
Theorem C76_refuted : exists a b x y, Forall is_syllable a /\ Forall is_syllable b /\
  To double (utf8 a) = Ok (inl x) /\ To double (utf8 b) = Ok (inl y) /\ occurs x y /\ ~ occurs a b.
Proof. exact C76_refuted_lemma. Qed.
Print Assumptions C76_refuted.
(** Nothing is missed; *)
Theorem C76_complete_partial : forall grow a b x y, Forall in_repertoire a -> Forall in_repertoire b ->
  To grow (utf8 a) = Ok (inl x) -> To grow (utf8 b) = Ok (inl y) -> occurs a b -> occurs x y.
Proof. exact C76_To_occurs_lemma. Qed.
Print Assumptions C76_complete_partial.
(** a hit at an offset where the text before it decodes is genuine; *)
Theorem C76_aligned_partial : forall grow a b x y u v d, Forall in_repertoire a -> Forall in_repertoire b ->
  To grow (utf8 a) = Ok (inl x) -> To grow (utf8 b) = Ok (inl y) ->
  y = u ++ x ++ v -> From grow u = Ok (inl d) -> occurs a b.
Proof. exact C76_To_aligned_lemma. Qed.
Print Assumptions C76_aligned_partial.
(** and so is any hit of a pattern starting with an ASCII character other than a letter. *)
Theorem C76_nonletter_partial : forall grow p a b x y, ascii_nonletter p = true ->
  Forall in_repertoire (p :: a) -> Forall in_repertoire b ->
  To grow (utf8 (p :: a)) = Ok (inl x) -> To grow (utf8 b) = Ok (inl y) ->
  (occurs x y <-> occurs (p :: a) b).
Proof. exact C76_To_nonletter_lemma. Qed.
Print Assumptions C76_nonletter_partial.
Example C76_case : ascii_nonletter 0x22 = true /\
  To double (utf8 [0x22; 0xAC00]) = Ok (inl [0x22; 0xB0; 0xA1]) /\
  To double (utf8 [0xAC02; 0x22; 0xAC00]) = Ok (inl ([0x81; 0x41] ++ [0x22; 0xB0; 0xA1] ++ [])).
Proof. vm_compute. repeat split. Qed.

(** * C77 Sorting encoded Korean text
    False as stated: 가 sorts before 갂, but its encoding sorts after. *)
Theorem C77_refuted : exists a b x y, Forall is_syllable a /\ Forall is_syllable b /\
  To double (utf8 a) = Ok (inl x) /\ To double (utf8 b) = Ok (inl y) /\
  lex_lt (utf8 a) (utf8 b) /\ lex_lt y x.
Proof. exact C77_refuted_lemma. Qed.
Print Assumptions C77_refuted.
(** True of texts of ASCII and KS X 1001 syllables. *)
Theorem C77_ks_sorted_partial : forall grow a b x y, Forall ks_text_char a -> Forall ks_text_char b ->
  To grow (utf8 a) = Ok (inl x) -> To grow (utf8 b) = Ok (inl y) ->
  (lex_lt x y <-> lex_lt (utf8 a) (utf8 b)) /\ (lex_lt x y <-> lex_lt a b).
Proof. exact C77_To_lemma. Qed.
Print Assumptions C77_ks_sorted_partial.
Example C77_case : Forall ks_text_char [0xAC00; 0x41] /\ Forall ks_text_char [0xD558] /\
  lex_lt (utf8 [0xAC00; 0x41]) (utf8 [0xD558]) /\
  To double (utf8 [0xAC00; 0x41]) = Ok (inl [0xB0; 0xA1; 0x41]) /\ To double (utf8 [0xD558]) = Ok (inl [0xC7; 0xCF]).
Proof. exact C77_case_lemma. Qed.
