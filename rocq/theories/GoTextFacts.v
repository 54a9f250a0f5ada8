(** The texts of the Go files (SourceText.v), read by GoLexer.v, GoParser.v and GoElab.v, are
    the programs of GoSource.v. *)
From Coq Require Import String ZArith List Bool.
From Verif Require Import Base Spec SpecCp949 Cp949Model GoLang GoElab SourceText GoSource
  SourceSpec SourceFacts SourceFacts2.
Import ListNotations.
Local Open Scope string_scope.

(** The error variables of the packages, and the errors of the model. *)
Definition errs (x : string) : option error :=
  match x with "ErrCP949UnexpectedStream" => Some ErrCP949UnexpectedStream | _ => None end.

Lemma hangul_text : read_package "hangul" errs text_hangul = Some prog_hangul.
Proof. vm_cast_no_check (eq_refl (Some prog_hangul)). Qed.
Lemma hanja_text : read_package "hanja" errs text_hanja = Some prog_hanja.
Proof. vm_cast_no_check (eq_refl (Some prog_hanja)). Qed.
Lemma cp949_text : read_package "cp949" errs text_cp949 = Some prog_cp949.
Proof. vm_cast_no_check (eq_refl (Some prog_cp949)). Qed.

Lemma some_inj {A} (x y : A) : Some x = Some y -> x = y.
Proof. intros H. exact (f_equal (fun o => match o with Some z => z | None => x end) H). Qed.
Lemma hangul_read p : read_package "hangul" errs text_hangul = Some p -> prog_hangul = p.
Proof. intros H. exact (some_inj _ _ (eq_trans (eq_sym hangul_text) H)). Qed.
Lemma hanja_read p : read_package "hanja" errs text_hanja = Some p -> prog_hanja = p.
Proof. intros H. exact (some_inj _ _ (eq_trans (eq_sym hanja_text) H)). Qed.
Lemma cp949_read p : read_package "cp949" errs text_cp949 = Some p -> prog_cp949 = p.
Proof. intros H. exact (some_inj _ _ (eq_trans (eq_sym cp949_text) H)). Qed.

Lemma text_From : forall p, read_package "cp949" errs text_cp949 = Some p ->
  forall grow E rd wr s v data,
  has_nil (arrs E s) -> slice_holds (arrs E s) v data -> Forall is_byte data ->
  exists out err s' o, calls grow E rd wr p "From" [v] s (VTuple [out; VErr err]) s' /\
    kept (arrs E s) (arrs E s') /\ (objs E s' = objs E s ++ [o])%list /\ ext E s' = ext E s /\
    ((exists rs, decodes data rs /\ err = None /\ slice_holds (arrs E s') out (utf8 rs) /\ fresh (arrs E s) out) \/
     (truncated data /\ err = Some ErrCP949UnexpectedStream /\ out = VSlice 0 0 0 0)).
Proof. intros p H. destruct (cp949_read p H). exact source_From. Qed.
Lemma text_hangul_pure : forall p, read_package "hangul" errs text_hangul = Some p ->
  exists F : string * list val -> val,
  forall grow E rd wr cs s, Forall hangul_call cs -> hangul_memory (arrs E s) ->
  exists s', calls_seq grow E rd wr p cs s (map F cs) s' /\
    kept (arrs E s) (arrs E s') /\ objs E s' = objs E s /\ ext E s' = ext E s.
Proof. intros p H. destruct (hangul_read p H). exact source_hangul_pure. Qed.
Lemma text_hanja_pure : forall p, read_package "hanja" errs text_hanja = Some p ->
  exists F : string * list val -> val,
  forall grow E rd wr cs s, Forall hanja_call cs ->
  exists s', calls_seq grow E rd wr p cs s (map F cs) s' /\
    kept (arrs E s) (arrs E s') /\ objs E s' = objs E s /\ ext E s' = ext E s.
Proof. intros p H. destruct (hanja_read p H). exact source_hanja_pure. Qed.
