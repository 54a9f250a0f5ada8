(** Properties C70-C72, found while modelling. *)
From Coq Require Import ZArith List Bool.
From Verif Require Import Base Spec Utf8 SpecCp949 SpecIO HangulModel Cp949Model StreamModel
  HangulFacts4 StreamFacts4.
Import ListNotations.
Local Open Scope Z_scope.

(* the growth policy used in the examples *)
Local Definition double (old need : Z) : Z := Z.max need (2 * old).

(** * C70 SplitCompat recognises syllables
    False as stated: U+ABFF, which is unassigned, splits like 가. *)
Theorem C70_refuted : exists c,
  is_scalar c /\ ~ is_syllable c /\ SplitCompat c = SplitCompat 0xAC00.
Proof. exact C70_refuted_lemma. Qed.
Print Assumptions C70_refuted.
(** The exact set of runes whose parts look like those of a syllable. *)
Theorem C70_exact_partial : forall c, is_int32 c ->
  ((let '(l, m, t) := SplitCompat c in
    is_compat_jaeum l /\ is_compat_moeum m /\ (t = 0 \/ is_compat_jaeum t)) <->
   is_syllable c \/ 0xABE5 <= c <= 0xABFF \/
   0xAC00 + 588 * (0x11A8 - 0x1100) <= c < 0xAC00 + 588 * (0x11C3 - 0x1100) \/
   0xAC00 + 588 * (0x3131 - 0x1100) <= c < 0xAC00 + 588 * (0x314F - 0x1100)).
Proof. exact C70_lemma. Qed.
Print Assumptions C70_exact_partial.
(** On syllables SplitCompat is one to one. *)
Theorem C70_injective : forall c c', is_syllable c -> is_syllable c' ->
  SplitCompat c = SplitCompat c' -> c = c'.
Proof. exact SplitCompat_injective. Qed.
Print Assumptions C70_injective.
Example C70_case : is_syllable 0xAC01 /\ SplitCompat 0xAC01 = (0x3131, 0x314F, 0x3131).
Proof. split; [unfold is_syllable; split; intros H; discriminate H|vm_compute; reflexivity]. Qed.

(** * C71 Nothing is held back
    While no error was returned, all that the wrapped reader has handed out is decoded; what
    is not delivered yet is delivered next, without calling the wrapped reader. *)
Theorem C71_nothing_held_back :
  forall grow (RS : Type) (rd : RS -> Z -> list Z * option error * RS),
  (forall s k, Forall is_byte (fst (fst (rd s k)))) ->
  forall s fuel sizes out r, Forall (fun k => 0 <= k) sizes ->
  read_seq grow _ (logged rd) fuel (NewReader (s, [])) sizes = Ok (out, None, r) ->
  exists rs pending, decodes (concat (snd (r_src _ r))) rs /\ utf8 rs = out ++ pending /\
    forall k fuel', 0 <= k -> pending <> [] ->
      exists r', Read grow _ (logged rd) (S fuel') r k = Ok (ztake k pending, None, r') /\ r_src _ r' = r_src _ r.
Proof. exact C71_lemma. Qed.
Print Assumptions C71_nothing_held_back.
(* one character was read (and two bytes of its three were delivered) *)
Example C71_case : exists r,
  read_seq double _ (logged bytes_rd) 9 (NewReader ([0xB0; 0xA1; 0x41], [])) [2]
    = Ok ([0xEA; 0xB0], None, r) /\ concat (snd (r_src _ r)) = [0xB0; 0xA1].
Proof. eexists. vm_compute. split; reflexivity. Qed.

(** * C72 How the wrapped reader is called
    For every wrapped reader: the calls made during one Read offer at least as much room as
    the caller's buffer, and no call ever follows one that returned an error or no data. *)
Theorem C72_wrapped_calls :
  forall grow (RS : Type) (rd : RS -> Z -> list Z * option error * RS) s fuel sizes k out err r p err' r',
  read_seq grow _ (witnessed rd) fuel (NewReader (s, [])) sizes = Ok (out, err, r) ->
  Read grow _ (witnessed rd) fuel r k = Ok (p, err', r') ->
  exists new, snd (r_src _ r') = snd (r_src _ r) ++ new /\ Forall (fun c => k <= fst (fst c)) new /\
    (forall before c after, snd (r_src _ r') = before ++ c :: after -> after <> [] ->
       snd c = None /\ snd (fst c) <> []).
Proof. exact C72_lemma. Qed.
Print Assumptions C72_wrapped_calls.
(* the first Read makes two calls, the second Read one more *)
Example C72_case :
  match read_seq double _ (witnessed one_rd) 9 (NewReader ([0xB0; 0xA1], [])) [3] with
  | Ok (out, err, r) =>
    out = utf8 [0xAC00] /\ err = None /\ map (fun c => snd (fst c)) (snd (r_src _ r)) = [[0xB0]; [0xA1]] /\
    match Read double _ (witnessed one_rd) 9 r 4 with
    | Ok (p, err', r') => p = [] /\ err' = Some EOF /\ length (snd (r_src _ r')) = 3%nat
    | _ => False
    end
  | _ => False
  end.
Proof. vm_compute. repeat split. Qed.
