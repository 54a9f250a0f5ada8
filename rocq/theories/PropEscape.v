(** Escaping before or after a conversion. *)
From Coq Require Import ZArith List Bool Lia.
From Verif Require Import Base Spec SpecCp949 SpecText2 SpecEscape Cp949Model Cp949Facts2 TableFacts PMapFacts HanjaModel EscapeFacts.
Import ListNotations.
Local Open Scope Z_scope.
Local Open Scope list_scope.

(** * C185 Escaping before or after a conversion *)
Theorem C185_To : forall f grow rs y, escapes ascii_mark f -> Forall is_scalar rs -> To grow (utf8 rs) = Ok (inl y) ->
  To grow (escaped f (utf8 rs)) = Ok (inl (escaped f y)).
Proof. exact escape_To. Qed.
Print Assumptions C185_To.
Theorem C185_From : forall f grow rs s, escapes ascii_nonletter f -> encodes rs s ->
  exists u, From grow s = Ok (inl u) /\ From grow (escaped f s) = Ok (inl (escaped f u)) /\ To grow (escaped f u) = Ok (inl (escaped f s)).
Proof. exact escape_From. Qed.
Print Assumptions C185_From.
Theorem C185_Convert : forall f rs, escapes (fun b => (0 <=? b) && (b <? 0x80)) f -> Forall is_scalar rs ->
  Convert (escaped f (utf8 rs)) = escaped f (Convert (utf8 rs)).
Proof. exact escape_Convert_all. Qed.
Print Assumptions C185_Convert.
Theorem C185_html : escapes ascii_mark html_escape /\ escapes ascii_nonletter html_escape.
Proof. exact (conj html_escapes (mark_nonletter _ html_escapes)). Qed.
Print Assumptions C185_html.

(** The less-than sign and a syllable, escaped for HTML. *)
Example C185_case : encodes [0x3C; 0xAC02] [0x3C; 0x81; 0x41] /\
  escaped html_escape [0x3C; 0x81; 0x41] = [0x26; 0x6C; 0x74; 0x3B; 0x81; 0x41] /\
  (forall grow, From grow [0x26; 0x6C; 0x74; 0x3B; 0x81; 0x41] = Ok (inl ([0x26; 0x6C; 0x74; 0x3B] ++ utf8_char 0xAC02))).
Proof.
  assert (A : assigned 0x8141 0xAC02) by (apply assigned_by; vm_compute; reflexivity).
  assert (He : encodes [0x3C; 0xAC02] [0x3C; 0x81; 0x41]) by (apply enc_ascii; [lia|]; apply (enc_code 0x8141 0xAC02 [] []); [exact A|constructor]).
  split; [exact He|]. split; [reflexivity|]. intros grow.
  destruct (escape_From html_escape grow _ _ (mark_nonletter _ html_escapes) He) as (u & E1 & E2 & _).
  pose proof (proj1 (C29_lemma grow _ _ He)) as E3. rewrite E3 in E1. injection E1 as <-. exact E2.
Qed.
