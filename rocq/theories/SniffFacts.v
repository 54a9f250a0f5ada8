(** Lemmas for PropSniff.v. *)
From Coq Require Import ZArith List Bool Lia.
From Verif Require Import Base Spec SpecCp949 SpecText Facts Utf8 Cp949Model Cp949Facts Cp949Facts2 Cp949Facts3 TableFacts PMapFacts ReplaceFacts.
Import ListNotations.
Local Open Scope Z_scope.
Local Open Scope list_scope.

Lemma hanja_efbb : assigned 0xEFBB 0x7664.
Proof. apply assigned_by. vm_compute. reflexivity. Qed.
Lemma head_eq (a b : Z) (x y : list Z) : a :: x = b :: y -> a = b /\ x = y.
Proof. intros E. split; [exact (f_equal (hd 0) E)|exact (f_equal (@tl Z) E)]. Qed.
Lemma sniff_iff rs x : encodes rs x -> (is_prefix [0xEF; 0xBB; 0xBF] x <-> exists c r rest, rs = 0x7664 :: r :: rest /\ assigned c r /\ c / 256 = 0xBF).
Proof.
  intros He. split.
  - intros (q & E). destruct He as [|r rs bs Hr He|c r rs bs Ha He]; [discriminate|apply head_eq in E as [E _]; lia|].
    unfold code_bytes in E. cbn [app] in E. apply head_eq in E as [E1 E]. apply head_eq in E as [E2 E].
    assert (c = 0xEFBB) by (Z.div_mod_to_equations; lia). subst c. rewrite (assigned_fun _ _ _ Ha hanja_efbb).
    destruct He as [|r' rs bs Hr He|c r' rs bs Hb He]; [discriminate|apply head_eq in E as [E _]; lia|].
    unfold code_bytes in E. cbn [app] in E. apply head_eq in E as [E _]. exists c, r', rs. auto.
  - intros (c & r & rest & -> & Hr & Hc). apply encodes_to_char in He. 
    assert (R : exists t, x = code_bytes 0xEFBB ++ code_bytes c ++ t).
    { exists (flat_map to_char rest). rewrite <- He. cbn [flat_map]. 
      rewrite (to_char_code _ _ hanja_efbb), (to_char_code _ _ Hr). reflexivity. }
    destruct R as (t & ->). exists (c mod 256 :: t). unfold code_bytes. rewrite Hc. reflexivity.
Qed.
Lemma encodes_no_ff rs x : encodes rs x -> ~ In 0xFF x.
Proof.
  induction 1 as [|r rs bs Hr H IH|c r rs bs Ha H IH]; [intros []|..].
  - intros [E|E]; [lia|exact (IH E)].
  - pose proof (code_trail c r Ha) as (A & B). unfold code_bytes. cbn [app]. intros [E|[E|E]]; [lia| |exact (IH E)].
    rewrite E in B. destruct B as [B|B]; [discriminate|lia].
Qed.
Lemma sniff_To grow s bs : Forall is_byte s -> To grow s = Ok (inl bs) -> ~ In 0xFF bs.
Proof.
  intros Hs E. destruct (C35_lemma grow s Hs) as (bs' & rs & E' & He & _). assert (bs' = bs) by congruence. subst bs'. exact (encodes_no_ff rs bs He).
Qed.
Lemma sniff_refuted : exists r, forall grow, exists bs, encodes [0x7664; r] bs /\ To grow (utf8 [0x7664; r]) = Ok (inl bs) /\ is_prefix [0xEF; 0xBB; 0xBF] bs.
Proof.
  exists 0xC5FC. intros grow. assert (A : assigned 0xBFB0 0xC5FC) by (apply assigned_by; vm_compute; reflexivity).
  assert (He : encodes [0x7664; 0xC5FC] [0xEF; 0xBB; 0xBF; 0xB0]).
  { apply (enc_code 0xEFBB 0x7664 [0xC5FC] [0xBF; 0xB0] hanja_efbb). apply (enc_code 0xBFB0 0xC5FC [] [] A). constructor. }
  exists [0xEF; 0xBB; 0xBF; 0xB0]. split; [exact He|]. split; [apply To_encodes; exact He|]. exists [0xB0]. reflexivity.
Qed.
