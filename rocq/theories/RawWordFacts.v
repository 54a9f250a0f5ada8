(** Lemmas for PropRawWord.v. *)
From Coq Require Import ZArith List Bool Lia ZifyBool.
From Verif Require Import Base Spec SpecCp949 Facts Utf8 Utf8Facts HangulModel HangulFacts3 HangulFacts5 Cp949Model Cp949Facts Cp949Facts2 TableFacts PMapFacts.
Import ListNotations.
Local Open Scope Z_scope.
Local Open Scope list_scope.

Lemma char_last_byte r pre b : is_scalar r -> utf8_char r = pre ++ [b] -> b < 0xC0.
Proof.
  intros Hr E. apply (f_equal (fun l => last l 0)) in E. rewrite last_last in E.
  destruct (utf8_char_cases r Hr) as [[? K]|[[? K]|[[? [? K]]|[? K]]]]; rewrite K in E; cbn [last] in E; subst b; clear K;
    Z.div_mod_to_equations; lia.
Qed.
Lemma raw_end x b : Forall is_byte (x ++ [b]) -> 0xC0 <= b -> LastConsonant (x ++ [b]) = Ok 0x11C0.
Proof.
  intros Hx Hb. destruct (LastConsonant_runes (x ++ [b]) Hx) as (rs & r & E & Hr & ->); [destruct x; discriminate|].
  pose proof (string_to_runes_reads _ Hx) as R. rewrite E in R.
  destruct (reads_as_end _ _ R rs r eq_refl) as [(pre & Ep)| ->]; [|vm_compute; reflexivity]. exfalso.
  destruct (exists_last (utf8_char_nonempty r)) as (p & b' & Eb). pose proof (char_last_byte r p b' Hr Eb) as L.
  rewrite Eb, app_assoc in Ep. apply app_inj_tail in Ep as [_ Ep]. lia.
Qed.
Lemma raw_letter x b : Forall is_byte x -> 0 <= b < 0x80 -> LastConsonant (x ++ [b]) = Ok (snd (Split b)).
Proof. intros Hx Hb. rewrite <- (utf8_char_ascii b Hb). apply LastConsonant_last; [exact Hx|unfold is_scalar; lia]. Qed.
Lemma letter_tail b : 0x41 <= b <= 0x7A -> b <> 0x48 -> b <> 0x64 -> snd (Split b) <> 0 /\ snd (Split b) <> 0x11AF.
Proof.
  intros Hb H1 H2. pose proof (Split_tail_exact b ltac:(unfold is_scalar; lia)) as (_ & _ & H). cbv zeta in H.
  assert (N : (b - 0xAC00) mod 28 <> 0) by (Z.div_mod_to_equations; lia).
  specialize (H N ltac:(lia)). rewrite H. pose proof (Z.mod_pos_bound (0xAC00 - b) 28 eq_refl). lia.
Qed.
Lemma letter_none b : b = 0x48 \/ b = 0x64 -> snd (Split b) = 0.
Proof. intros [-> | ->]; vm_compute; reflexivity. Qed.

Lemma char_last_two r pre a b : is_scalar r -> pre ++ utf8_char r = a -> forall x h, a = x ++ [h; b] -> 0x80 <= b -> 0xC0 <= h -> 0xC2 <= h <= 0xDF.
Proof.
  intros Hr <- x h E Hb Hh. change [h; b] with ([h] ++ [b]) in E. rewrite app_assoc in E.
  destruct (utf8_char_cases r Hr) as [[? K]|[[? K]|[[? [? K]]|[? K]]]]; rewrite K in E; clear K.
  - apply app_inj_tail in E as [_ E]. lia.
  - match type of E with _ ++ [?u; ?v] = _ => change [u; v] with ([u] ++ [v]) in E end.
    rewrite app_assoc in E. apply app_inj_tail in E as [E _]. apply app_inj_tail in E as [_ E]. subst h. Z.div_mod_to_equations. lia.
  - match type of E with _ ++ [?t; ?u; ?v] = _ => change [t; u; v] with ([t] ++ [u] ++ [v]) in E end.
    rewrite !app_assoc in E. apply app_inj_tail in E as [E _]. apply app_inj_tail in E as [_ E]. subst h. Z.div_mod_to_equations. lia.
  - match type of E with _ ++ [?s; ?t; ?u; ?v] = _ => change [s; t; u; v] with ([s] ++ [t] ++ [u] ++ [v]) in E end.
    rewrite !app_assoc in E. apply app_inj_tail in E as [E _]. apply app_inj_tail in E as [_ E]. subst h. Z.div_mod_to_equations. lia.
Qed.
Lemma raw_end2 x a b : Forall is_byte (x ++ [a; b]) -> 0xC0 <= a -> ~ (0xC2 <= a <= 0xDF) -> 0x80 <= b -> LastConsonant (x ++ [a; b]) = Ok 0x11C0.
Proof.
  intros Hx Ha Hn Hb. destruct (LastConsonant_runes (x ++ [a; b]) Hx) as (rs & r & E & Hr & ->); [destruct x; discriminate|].
  pose proof (string_to_runes_reads _ Hx) as R. rewrite E in R.
  destruct (reads_as_end _ _ R rs r eq_refl) as [(pre & Ep)| ->]; [|vm_compute; reflexivity]. exfalso.
  exact (Hn (char_last_two r pre _ b Hr (eq_sym Ep) x a eq_refl Hb Ha)).
Qed.
Lemma raw_end3 x a b : Forall is_byte (x ++ [a; b]) -> 0x80 <= a <= 0xBF -> 0x80 <= b ->
  (forall y d, x = y ++ [d] -> d < 0x80 \/ 0xC0 <= d <= 0xDF) -> LastConsonant (x ++ [a; b]) = Ok 0x11C0.
Proof.
  intros Hx Ha Hb Hd. destruct (LastConsonant_runes (x ++ [a; b]) Hx) as (rs & r & E & Hr & ->); [destruct x; discriminate|].
  pose proof (string_to_runes_reads _ Hx) as R. rewrite E in R.
  destruct (reads_as_end _ _ R rs r eq_refl) as [(pre & Ep)| ->]; [|vm_compute; reflexivity]. exfalso.
  change [a; b] with ([a] ++ [b]) in Ep. rewrite app_assoc in Ep.
  destruct (utf8_char_cases r Hr) as [[? K]|[[? K]|[[? [? K]]|[? K]]]]; rewrite K in Ep; clear K.
  - apply app_inj_tail in Ep as [_ Ep]. lia.
  - match type of Ep with _ = _ ++ [?u; ?v] => change [u; v] with ([u] ++ [v]) in Ep end.
    rewrite app_assoc in Ep. apply app_inj_tail in Ep as [Ep _]. apply app_inj_tail in Ep as [_ Ep]. subst a. Z.div_mod_to_equations. lia.
  - match type of Ep with _ = _ ++ [?t; ?u; ?v] => change [t; u; v] with ([t] ++ [u] ++ [v]) in Ep end.
    rewrite !app_assoc in Ep. apply app_inj_tail in Ep as [Ep _]. apply app_inj_tail in Ep as [Ep _].
    destruct (Hd _ _ Ep); Z.div_mod_to_equations; lia.
  - match type of Ep with _ = _ ++ [?s; ?t; ?u; ?v] => change [s; t; u; v] with ([s] ++ [t] ++ [u] ++ [v]) in Ep end.
    rewrite !app_assoc in Ep. apply app_inj_tail in Ep as [Ep _]. apply app_inj_tail in Ep as [Ep _].
    destruct (Hd _ _ Ep); Z.div_mod_to_equations; lia.
Qed.
Lemma two_bytes a b : 0xC2 <= a <= 0xDF -> 0x80 <= b <= 0xBF -> [a; b] = utf8_char ((a - 0xC0) * 64 + (b - 0x80)).
Proof.
  intros Ha Hb. set (r := (a - 0xC0) * 64 + (b - 0x80)). assert (Hr : 0x80 <= r < 0x800) by (subst r; lia).
  destruct (utf8_char_cases r) as [[? K]|[[? K]|[[? [? K]]|[? K]]]]; [unfold is_scalar; lia|lia| |lia|lia]. rewrite K.
  assert (r / 64 = a - 0xC0 /\ r mod 64 = b - 0x80) as [E1 E2] by (subst r; Z.div_mod_to_equations; lia).
  f_equal; [lia|]. f_equal. lia.
Qed.

Section Word.
Variables (rs x : list Z) (c r : Z) (with_ without : list Z).
Hypothesis He : encodes rs x.
Hypothesis Ha : assigned c r.
Lemma word_bytes : Forall is_byte x /\ Forall is_byte (x ++ [c / 256]).
Proof.
  pose proof (decodes_bytes _ _ (encodes_decodes rs x He)) as B. split; [exact B|]. apply Forall_app. split; [exact B|].
  pose proof (code_trail c r Ha) as (H & _). constructor; [unfold is_byte; lia|constructor].
Qed.
Lemma raw_consonant : 0xC0 <= c mod 256 \/ (is_letter_byte (c mod 256) = true /\ c mod 256 <> 0x48 /\ c mod 256 <> 0x64) ->
  AppendPostposition (x ++ code_bytes c) with_ without = Ok ((x ++ code_bytes c) ++ with_).
Proof.
  destruct word_bytes as [Bx B1]. assert (E : x ++ code_bytes c = (x ++ [c / 256]) ++ [c mod 256]) by (unfold code_bytes; rewrite <- app_assoc; reflexivity).
  pose proof (Z.mod_pos_bound c 256 eq_refl) as M. rewrite E. intros [H|(H & H1 & H2)].
  - rewrite (Append_value _ _ _ 0x11C0); [cbn; rewrite andb_false_r; reflexivity|].
    apply raw_end; [|exact H]. apply Forall_app. split; [exact B1|]. constructor; [unfold is_byte; lia|constructor].
  - assert (K : 0x41 <= c mod 256 <= 0x7A) by (unfold is_letter_byte in H; lia).
    rewrite (Append_value _ _ _ (snd (Split (c mod 256)))); [|apply raw_letter; [exact B1|lia]].
    destruct (letter_tail _ K H1 H2) as [T1 T2]. apply Z.eqb_neq in T1, T2. rewrite T1, T2, andb_false_r. reflexivity.
Qed.
Lemma raw_vowel : c mod 256 = 0x48 \/ c mod 256 = 0x64 ->
  AppendPostposition (x ++ code_bytes c) with_ without = Ok ((x ++ code_bytes c) ++ without).
Proof.
  destruct word_bytes as [Bx B1]. assert (E : x ++ code_bytes c = (x ++ [c / 256]) ++ [c mod 256]) by (unfold code_bytes; rewrite <- app_assoc; reflexivity).
  rewrite E. intros H. rewrite (Append_value _ _ _ 0); [reflexivity|]. rewrite <- (letter_none _ H). apply raw_letter; [exact B1|lia].
Qed.
Lemma raw_lead : 0x80 <= c mod 256 -> 0xC0 <= c / 256 -> ~ (0xC2 <= c / 256 <= 0xDF) ->
  AppendPostposition (x ++ code_bytes c) with_ without = Ok ((x ++ code_bytes c) ++ with_).
Proof.
  destruct word_bytes as [Bx B1]. pose proof (Z.mod_pos_bound c 256 eq_refl) as M. pose proof (code_trail c r Ha) as (L & _). intros H1 H2 H3.
  unfold code_bytes. rewrite (Append_value _ _ _ 0x11C0); [cbn; rewrite andb_false_r; reflexivity|].
  apply raw_end2; try assumption. apply Forall_app. split; [exact Bx|]. constructor; [unfold is_byte; lia|]. constructor; [unfold is_byte; lia|constructor].
Qed.
Lemma raw_start : 0x80 <= c mod 256 -> c / 256 <= 0xBF -> (forall y d, x = y ++ [d] -> d < 0x80 \/ 0xC0 <= d <= 0xDF) ->
  AppendPostposition (x ++ code_bytes c) with_ without = Ok ((x ++ code_bytes c) ++ with_).
Proof.
  destruct word_bytes as [Bx B1]. pose proof (Z.mod_pos_bound c 256 eq_refl) as M. pose proof (code_trail c r Ha) as (L & _). intros H1 H2 H3.
  unfold code_bytes. rewrite (Append_value _ _ _ 0x11C0); [cbn; rewrite andb_false_r; reflexivity|].
  apply raw_end3; try assumption; [|lia]. apply Forall_app. split; [exact Bx|]. constructor; [unfold is_byte; lia|]. constructor; [unfold is_byte; lia|constructor].
Qed.
Lemma raw_two : 0x80 <= c mod 256 <= 0xBF -> 0xC2 <= c / 256 <= 0xDF ->
  AppendPostposition (x ++ code_bytes c) with_ without =
    Ok ((x ++ code_bytes c) ++ if (0xAC00 - ((c / 256 - 0xC0) * 64 + (c mod 256 - 0x80))) mod 28 =? 0 then without else with_).
Proof.
  intros H1 H2. destruct word_bytes as [Bx B1]. unfold code_bytes. rewrite (two_bytes _ _ H2 H1).
  set (u := (c / 256 - 0xC0) * 64 + (c mod 256 - 0x80)) in *. assert (Hu : 0x80 <= u < 0x800) by (subst u; lia).
  assert (Hs : is_scalar u) by (unfold is_scalar; lia).
  rewrite (Append_value _ _ _ (snd (Split u))); [|apply LastConsonant_last; assumption].
  pose proof (Split_tail_exact u Hs) as (T0 & _ & T1). cbv zeta in T0, T1.
  destruct (Z.eqb_spec ((0xAC00 - u) mod 28) 0) as [N|N].
  - rewrite T0 by (Z.div_mod_to_equations; lia). reflexivity.
  - rewrite T1 by (Z.div_mod_to_equations; lia). pose proof (Z.mod_pos_bound (0xAC00 - u) 28 eq_refl).
    destruct (Z.eqb_spec (0x11A7 - (0xAC00 - u) mod 28) 0); [lia|]. destruct (Z.eqb_spec (0x11A7 - (0xAC00 - u) mod 28) 0x11AF); [lia|].
    rewrite andb_false_r. reflexivity.
Qed.
End Word.
Lemma raw_refuted : exists word with_ without x y t, encodes word x /\ forall grow,
  AppendPostposition (utf8 word) (utf8 with_) (utf8 without) = Ok (utf8 t) /\ To grow (utf8 t) = Ok (inl y) /\
  exists w1 w2, encodes with_ w1 /\ encodes without w2 /\ AppendPostposition x w1 w2 <> Ok y.
Proof.
  exists [0xB098], [0xC740], [0xB294], [0xB3; 0xAA], [0xB3; 0xAA; 0xB4; 0xC2], [0xB098; 0xB294].
  assert (A : assigned 0xB3AA 0xB098) by (apply assigned_by; vm_compute; reflexivity).
  assert (B : assigned 0xC0BA 0xC740) by (apply assigned_by; vm_compute; reflexivity).
  assert (C : assigned 0xB4C2 0xB294) by (apply assigned_by; vm_compute; reflexivity).
  assert (C' : encodes [0xB294] [0xB4; 0xC2]) by (apply (enc_code 0xB4C2 0xB294 [] [] C); constructor).
  split; [apply (enc_code 0xB3AA 0xB098 [] [] A); constructor|]. intros grow. split; [vm_compute; reflexivity|].
  split; [apply To_encodes, (enc_code 0xB3AA 0xB098 [0xB294] [0xB4; 0xC2] A C')|].
  exists [0xC0; 0xBA], [0xB4; 0xC2]. split; [apply (enc_code 0xC0BA 0xC740 [] [] B); constructor|]. split; [exact C'|]. vm_compute. discriminate.
Qed.
