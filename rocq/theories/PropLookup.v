(** Looking up words by the letters they begin with. *)
From Coq Require Import ZArith List Bool Lia.
From Verif Require Import Base Spec SpecText SpecCp949 HangulModel Cp949Model Cp949Facts2 TableFacts PMapFacts LookupFacts.
Import ListNotations.
Local Open Scope Z_scope.
Local Open Scope list_scope.

(** * C174 Looking up words by their first letters *)
Theorem C174_lead : forall p x l w, Forall is_scalar p -> Forall is_scalar w -> as_lead x l ->
  ((~ lex_lt (utf8 w) (utf8 (p ++ [Join x 0x1161 0])) /\ lex_lt (utf8 w) (utf8 (p ++ [Join x 0x1175 0x11C2 + 1]))) <->
   exists c rest, w = p ++ c :: rest /\ is_syllable c /\ fst (fst (Split c)) = l).
Proof. exact lookup_lead. Qed.
Print Assumptions C174_lead.
Theorem C174_medial : forall p x l y m w, Forall is_scalar p -> Forall is_scalar w -> as_lead x l -> as_medial y m ->
  ((~ lex_lt (utf8 w) (utf8 (p ++ [Join x y 0])) /\ lex_lt (utf8 w) (utf8 (p ++ [Join x y 0x11C2 + 1]))) <->
   exists c rest t, w = p ++ c :: rest /\ is_syllable c /\ Split c = (l, m, t)).
Proof. exact lookup_medial. Qed.
Print Assumptions C174_medial.
(* the words that begin with the syllable U+D55C and then the compatibility letter kiyeok, or kiyeok and u *)
Example C174_case : as_lead 0x3131 0x1100 /\ as_medial 0x315C 0x116E /\
  Join 0x3131 0x1161 0 = 0xAC00 /\ Join 0x3131 0x1175 0x11C2 = 0xAE4B /\ Join 0x3131 0x315C 0 = 0xAD6C /\ Join 0x3131 0x315C 0x11C2 = 0xAD87 /\
  Forall is_scalar [0xD55C; 0xAD6D] /\ Split 0xAD6D = (0x1100, 0x116E, 0x11A8) /\
  lex_lt (utf8 [0xD55C; 0xAD6D]) (utf8 ([0xD55C] ++ [0xAD88])).
Proof.
  split; [exists L_KIYEOK; split; [reflexivity|right; reflexivity]|]. split; [exists L_U; split; [reflexivity|right; reflexivity]|].
  do 4 (split; [vm_compute; reflexivity|]). split; [repeat (constructor; [unfold is_scalar; lia|]); constructor|].
  split; [vm_compute; reflexivity|]. cbn. repeat (apply lex_tail || (apply lex_less; lia)).
Qed.

(** * C175 Looking up encoded words by their first letter (refuted for every letter) *)
Theorem C175_refuted : forall l, is_lead_jamo l -> exists w a b, is_syllable w /\ fst (fst (Split w)) = l /\
  (forall grow, To grow (utf8 [w]) = Ok (inl a) /\ To grow (utf8 [Join l 0x1161 0]) = Ok (inl b)) /\ lex_lt a b.
Proof. exact encoded_refuted. Qed.
Print Assumptions C175_refuted.
(** True of words of KS X 1001. *)
Theorem C175_partial : forall grow p l w a b c, Forall ks_text_char p -> Forall ks_text_char w -> is_lead_jamo l -> is_lead_jamo (l + 1) ->
  To grow (utf8 (p ++ [Join l 0x1161 0])) = Ok (inl a) -> To grow (utf8 (p ++ [Join (l + 1) 0x1161 0])) = Ok (inl b) ->
  To grow (utf8 w) = Ok (inl c) ->
  ((~ lex_lt c a /\ lex_lt c b) <-> exists s rest, w = p ++ s :: rest /\ is_syllable s /\ fst (fst (Split s)) = l).
Proof. exact encoded_ks. Qed.
Print Assumptions C175_partial.
Theorem C175_last_partial : forall grow p w a b c, Forall ks_text_char p -> Forall ks_text_char w ->
  To grow (utf8 (p ++ [Join 0x1112 0x1161 0])) = Ok (inl a) -> To grow (utf8 p) = Ok (inl b) -> To grow (utf8 w) = Ok (inl c) ->
  ((~ lex_lt c a /\ lex_lt c (b ++ [0xC9])) <-> exists s rest, w = p ++ s :: rest /\ is_syllable s /\ fst (fst (Split s)) = 0x1112).
Proof. exact encoded_ks_last. Qed.
Print Assumptions C175_last_partial.
Example C175_case : Forall ks_text_char [0x41] /\ Forall ks_text_char [0x41; 0xAC00] /\ is_lead_jamo 0x1100 /\ is_lead_jamo (0x1100 + 1) /\
  To wgrow (utf8 ([0x41] ++ [Join 0x1100 0x1161 0])) = Ok (inl [0x41; 0xB0; 0xA1]) /\
  To wgrow (utf8 ([0x41] ++ [Join 0x1101 0x1161 0])) = Ok (inl [0x41; 0xB1; 0xEE]) /\
  fst (fst (Split 0xAC00)) = 0x1100.
Proof.
  assert (A : ks_text_char 0x41) by (left; lia).
  assert (K : ks_text_char 0xAC00).
  { right. split; [unfold is_syllable; lia|]. exists 0xB0A1. split; [apply assigned_by; vm_compute; reflexivity|split; vm_compute; discriminate]. }
  split; [constructor; [exact A|constructor]|]. split; [constructor; [exact A|constructor; [exact K|constructor]]|].
  split; [unfold is_lead_jamo; lia|]. split; [unfold is_lead_jamo; lia|]. split; [vm_compute; reflexivity|]. split; vm_compute; reflexivity.
Qed.
(* the last lead: an A and then the syllable U+D55C *)
Example C175_last_case : Forall ks_text_char [0x41] /\ Forall ks_text_char [0x41; 0xD55C] /\
  To wgrow (utf8 ([0x41] ++ [Join 0x1112 0x1161 0])) = Ok (inl [0x41; 0xC7; 0xCF]) /\ To wgrow (utf8 [0x41]) = Ok (inl [0x41]) /\
  To wgrow (utf8 [0x41; 0xD55C]) = Ok (inl [0x41; 0xC7; 0xD1]) /\ lex_lt [0x41; 0xC7; 0xD1] ([0x41] ++ [0xC9]) /\
  fst (fst (Split 0xD55C)) = 0x1112.
Proof.
  assert (A : ks_text_char 0x41) by (left; lia).
  assert (K : ks_text_char 0xD55C).
  { right. split; [unfold is_syllable; lia|]. exists 0xC7D1. split; [apply assigned_by; vm_compute; reflexivity|split; vm_compute; discriminate]. }
  split; [constructor; [exact A|constructor]|]. split; [constructor; [exact A|constructor; [exact K|constructor]]|].
  do 3 (split; [vm_compute; reflexivity|]). split; [cbn; apply lex_tail; apply lex_less; lia|]. vm_compute. reflexivity.
Qed.
