(** Lemmas for PropDamage.v: how far a changed byte is felt. *)
From Coq Require Import ZArith List Bool Lia.
From Verif Require Import Base Spec SpecCp949 SpecIO Cp949Model Cp949Facts Cp949Facts2 ReadsFacts TableFacts PMapFacts.
Import ListNotations.
Local Open Scope Z_scope.
Local Open Scope list_scope.

Section Damage.
Variable grow : Z -> Z -> Z.

Lemma after_text a s x : Forall is_byte a -> Forall is_byte s -> From grow a = Ok (inl x) ->
  (forall y, From grow s = Ok (inl y) -> From grow (a ++ s) = Ok (inl (x ++ y))) /\
  (forall e, From grow s = Ok (inr e) -> From grow (a ++ s) = Ok (inr e)).
Proof. intros Ha Hs E. destruct (C36_lemma grow a s x Ha Hs E) as (H1 & H2 & _). auto. Qed.

Lemma truncated_byte m b : truncated m -> is_byte b -> exists rs, decodes (m ++ [b]) rs.
Proof.
  intros (a & b0 & Hb0 & -> & rs & Hd) Hb. rewrite <- app_assoc. cbn [app].
  destruct (assigned_cases (b0 * 256 + b)) as [[u Hu]|Hu].
  - exists (rs ++ [u]). apply decodes_app; [exact Hd|]. apply dec_code; auto. constructor.
  - exists (rs ++ [replacement]). apply decodes_app; [exact Hd|]. apply dec_unassigned; auto. constructor.
Qed.

(** The damaged part either is text of its own, or takes one byte of what follows. *)
Lemma damage p z m : Forall is_byte p -> From grow p = Ok (inl z) -> Forall is_byte m ->
  (exists x, From grow m = Ok (inl x) /\ forall s, Forall is_byte s ->
     (forall y, From grow s = Ok (inl y) -> From grow (p ++ m ++ s) = Ok (inl (z ++ x ++ y))) /\
     (forall e, From grow s = Ok (inr e) -> From grow (p ++ m ++ s) = Ok (inr e))) \/
  (From grow m = Ok (inr ErrCP949UnexpectedStream) /\
   forall b, is_byte b -> exists x, From grow (m ++ [b]) = Ok (inl x) /\ forall s, Forall is_byte s ->
     (forall y, From grow s = Ok (inl y) -> From grow (p ++ m ++ b :: s) = Ok (inl (z ++ x ++ y))) /\
     (forall e, From grow s = Ok (inr e) -> From grow (p ++ m ++ b :: s) = Ok (inr e))).
Proof.
  intros Hp Ez Hm.
  assert (Hall : forall m x, Forall is_byte m -> From grow m = Ok (inl x) -> forall s, Forall is_byte s ->
     (forall y, From grow s = Ok (inl y) -> From grow (p ++ m ++ s) = Ok (inl (z ++ x ++ y))) /\
     (forall e, From grow s = Ok (inr e) -> From grow (p ++ m ++ s) = Ok (inr e))).
  { clear m Hm. intros m x Hm Ex s Hs. destruct (after_text m s x Hm Hs Ex) as [H1 H2].
    destruct (after_text p (m ++ s) z Hp ltac:(apply Forall_app; auto) Ez) as [H3 H4]. auto. }
  destruct (C30_lemma grow m Hm) as ([[[rs Hd] _]|[Ht _]] & H1 & H2).
  - left. exists (utf8 rs). split; [apply H1; exact Hd|]. apply Hall; [exact Hm|apply H1; exact Hd].
  - right. split; [apply H2; exact Ht|]. intros b Hb. destruct (truncated_byte m b Ht Hb) as [rs Hd].
    exists (utf8 rs). split; [apply From_decodes; exact Hd|]. intros s Hs.
    replace (m ++ b :: s) with ((m ++ [b]) ++ s) by (rewrite <- app_assoc; reflexivity).
    apply Hall; [apply Forall_app; auto|apply From_decodes; exact Hd|exact Hs].
Qed.

Lemma damage_ascii p z m c : Forall is_byte p -> From grow p = Ok (inl z) -> Forall is_byte m -> 0 <= c < 0x80 ->
  exists x, From grow (m ++ [c]) = Ok (inl x) /\ forall s, Forall is_byte s ->
     (forall y, From grow s = Ok (inl y) -> From grow (p ++ m ++ c :: s) = Ok (inl (z ++ x ++ y))) /\
     (forall e, From grow s = Ok (inr e) -> From grow (p ++ m ++ c :: s) = Ok (inr e)).
Proof.
  intros Hp Ez Hm Hc. assert (Hb : is_byte c) by (unfold is_byte; lia).
  destruct (damage p z m Hp Ez Hm) as [(x & Ex & H)|[_ H]]; [|apply H; exact Hb].
  assert (Ec : From grow [c] = Ok (inl (utf8 [c]))) by (apply From_decodes, dec_ascii; [exact Hc|constructor]).
  exists (x ++ utf8 [c]). split.
  { apply (after_text m [c] x Hm ltac:(auto) Ex). exact Ec. }
  intros s Hs. destruct (after_text [c] s _ ltac:(auto) Hs Ec) as [H1 H2].
  destruct (H (c :: s) ltac:(auto)) as [H3 H4]. split.
  - intros y Ey. rewrite <- app_assoc. apply H3, H1. exact Ey.
  - intros e Ee. apply H4, H2. exact Ee.
Qed.

Lemma damage_utf8 p m s : Forall is_byte p -> Forall is_byte m -> Forall is_byte s ->
  valid_utf8 p \/ boundary (m ++ s) -> boundary s ->
  exists z x y, To grow p = Ok (inl z) /\ To grow m = Ok (inl x) /\ To grow s = Ok (inl y) /\
    To grow (p ++ m ++ s) = Ok (inl (z ++ x ++ y)).
Proof.
  intros Hp Hm Hs Hv Hb.
  destruct (C37_lemma grow m s Hm Hs (or_intror Hb)) as (x & y & Ex & Ey & E1).
  destruct (C37_lemma grow p (m ++ s) Hp ltac:(apply Forall_app; auto) Hv) as (z & w & Ez & Ew & E2).
  exists z, x, y. rewrite E1 in Ew. injection Ew as <-. auto.
Qed.
End Damage.

(** * One byte that changes everything *)
Fixpoint times (n : nat) (bs : list Z) : list Z := match n with O => [] | S n => bs ++ times n bs end.
Lemma times_shift n : 0xA1 :: times n [0xB0; 0xA1] = times n [0xA1; 0xB0] ++ [0xA1].
Proof. induction n as [|n IH]; [reflexivity|]. cbn [times app] in *. rewrite IH. reflexivity. Qed.
Lemma times_decodes n b0 b1 u s rs : 0x80 <= b0 < 256 -> 0 <= b1 < 256 -> assigned (b0 * 256 + b1) u -> decodes s rs ->
  decodes (times n [b0; b1] ++ s) (repeat u n ++ rs).
Proof. intros H0 H1 Hu Hs. induction n as [|n IH]; [exact Hs|]. cbn [times app repeat]. apply dec_code; auto. Qed.
Lemma times_bytes n bs : Forall is_byte bs -> Forall is_byte (times n bs).
Proof. intros H. induction n as [|n IH]; [constructor|]. cbn [times]. apply Forall_app. auto. Qed.

Lemma no_code_A10A u : ~ assigned (0xA1 * 256 + 0x0A) u.
Proof.
  intros H. apply assigned_dec in H. revert H.
  replace (tget dec_tree (0xA1 * 256 + 0x0A)) with (@None Z) by (vm_compute; reflexivity). discriminate.
Qed.
Lemma spoiled n : exists b b' s rs rs', is_byte b /\ is_byte b' /\ Forall is_byte s /\ length rs = S (S n) /\
  decodes (b :: s) rs /\ decodes (b' :: s) rs' /\ (forall r, In r rs -> ~ In r rs').
Proof.
  assert (Ha : exists u, tget dec_tree (0xA1 * 256 + 0xB0) = Some u /\ u <> 0xAC00 /\ u <> 0x0A).
  { eexists. split; [vm_compute; reflexivity|]. split; discriminate. }
  destruct Ha as (u & Hu & Hu1 & Hu2). apply assigned_by in Hu.
  assert (Hg : assigned (0xB0 * 256 + 0xA1) 0xAC00) by (apply assigned_by; vm_compute; reflexivity).
  exists 0xB0, 0x41, (0xA1 :: times n [0xB0; 0xA1] ++ [0x0A]), (repeat 0xAC00 (S n) ++ [0x0A]), (0x41 :: repeat u n ++ [replacement]).
  split; [unfold is_byte; lia|]. split; [unfold is_byte; lia|]. split.
  { constructor; [unfold is_byte; lia|]. apply Forall_app. split; [apply times_bytes|]; repeat constructor; unfold is_byte; lia. }
  split; [rewrite app_length, repeat_length; cbn [length]; lia|].
  split. { apply (times_decodes (S n) 0xB0 0xA1 0xAC00 [0x0A] [0x0A]); [lia|lia|exact Hg|]. apply dec_ascii; [lia|constructor]. }
  split.
  { apply dec_ascii; [lia|]. change (0xA1 :: times n [0xB0; 0xA1] ++ [0x0A]) with ((0xA1 :: times n [0xB0; 0xA1]) ++ [0x0A]).
    rewrite times_shift, <- app_assoc. apply times_decodes; [lia|lia|exact Hu|]. cbn [app].
    apply dec_unassigned; [lia|lia|apply no_code_A10A|constructor]. }
  intros r Hr [<-|Hr'].
  - apply in_app_or in Hr. destruct Hr as [Hr|[Hr|[]]]; [apply repeat_spec in Hr|]; discriminate.
  - apply in_app_or in Hr'. apply in_app_or in Hr.
    assert (Hr1 : r = 0xAC00 \/ r = 0x0A) by (destruct Hr as [Hr|[<-|[]]]; [left; apply repeat_spec in Hr; exact Hr|right; reflexivity]).
    destruct Hr' as [Hr'|[<-|[]]]; [apply repeat_spec in Hr'; subst r; lia|]. unfold replacement in Hr1. lia.
Qed.
Lemma spoiled_From n : exists b b' s rs rs', is_byte b /\ is_byte b' /\ Forall is_byte s /\ length rs = S (S n) /\
  (forall grow, From grow (b :: s) = Ok (inl (utf8 rs)) /\ From grow (b' :: s) = Ok (inl (utf8 rs'))) /\
  Forall is_scalar rs /\ Forall is_scalar rs' /\ (forall r, In r rs -> ~ In r rs').
Proof.
  destruct (spoiled n) as (b & b' & s & rs & rs' & Hb & Hb' & Hs & Hl & Hd & Hd' & Hn).
  exists b, b', s, rs, rs'. repeat (split; [assumption|]).
  split; [intros grow; split; apply From_decodes; assumption|].
  split; [|split; [|exact Hn]].
  - apply (C30_lemma (fun _ n => n) (b :: s) ltac:(auto)). exact Hd.
  - apply (C30_lemma (fun _ n => n) (b' :: s) ltac:(auto)). exact Hd'.
Qed.
