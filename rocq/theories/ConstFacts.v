(** Lemmas for PropConst.v. *)
From Coq Require Import ZArith List String.
From Verif Require Import Spec SpecNames ConstModel.
Import ListNotations.
Local Open Scope Z_scope.

Lemma constants_lemma : forall x,
  constant (short_name x) = Some (compat_form x) /\
  constant ("Lead" ++ lead_name x) = lead_form x /\
  constant ("Medial" ++ short_name x) = medial_form x /\
  constant ("Tail" ++ tail_name x) = tail_form x /\
  constant (tail_name x) = Some (compat_form x).
Proof. destruct x; vm_compute; repeat split. Qed.

Lemma lookup_in l n c : lookup l n = Some c -> In n (map fst l).
Proof.
  induction l as [|[m v] l IH]; cbn; [discriminate|].
  destruct (String.eqb_spec m n); [left; assumption|right; auto].
Qed.

Definition letters : list letter :=
  [L_KIYEOK; L_SSANGKIYEOK; L_KIYEOK_SIOS; L_NIEUN; L_NIEUN_CIEUC; L_NIEUN_HIEUH; L_TIKEUT;
   L_SSANGTIKEUT; L_RIEUL; L_RIEUL_KIYEOK; L_RIEUL_MIEUM; L_RIEUL_PIEUP; L_RIEUL_SIOS;
   L_RIEUL_THIEUTH; L_RIEUL_PHIEUPH; L_RIEUL_HIEUH; L_MIEUM; L_PIEUP; L_SSANGPIEUP;
   L_PIEUP_SIOS; L_SIOS; L_SSANGSIOS; L_IEUNG; L_CIEUC; L_SSANGCIEUC; L_CHIEUCH; L_KHIEUKH;
   L_THIEUTH; L_PHIEUPH; L_HIEUH; L_A; L_AE; L_YA; L_YAE; L_EO; L_E; L_YEO; L_YE; L_O; L_WA;
   L_WAE; L_OE; L_YO; L_U; L_WEO; L_WE; L_WI; L_YU; L_EU; L_YI; L_I].

Definition named (n : string) (x : letter) : bool :=
  String.eqb n (short_name x) || String.eqb n (tail_name x) ||
  String.eqb n ("Lead" ++ lead_name x) || String.eqb n ("Medial" ++ short_name x) ||
  String.eqb n ("Tail" ++ tail_name x).

Lemma all_named : forallb (fun n => existsb (named n) letters) (map fst exported) = true.
Proof. vm_compute. reflexivity. Qed.

Lemma constants_only_lemma : forall n c, constant n = Some c -> exists x,
  n = short_name x \/ n = tail_name x \/ n = ("Lead" ++ lead_name x)%string \/
  n = ("Medial" ++ short_name x)%string \/ n = ("Tail" ++ tail_name x)%string.
Proof.
  intros n c H. apply lookup_in in H.
  pose proof (proj1 (forallb_forall _ _) all_named n H) as E.
  apply existsb_exists in E. destruct E as (x & _ & E). exists x. unfold named in E.
  repeat (apply Bool.orb_true_iff in E; destruct E as [E|E]);
    apply String.eqb_eq in E; tauto.
Qed.
