(** Lemmas for PropFilter.v. *)
From Coq Require Import ZArith List Bool Lia.
From Verif Require Import Base Spec SpecIO SpecReads SpecCp949 SpecInPlace SpecFilter SpecLines Facts Utf8 Utf8Facts Cp949Model Cp949Facts Cp949Facts2 StreamModel StreamFacts StreamFacts2 StreamFacts3
  BufioModel BufioFacts2 BufioFacts3 HanjaModel HanjaFacts InPlaceFacts TableFacts.
Import ListNotations.
Local Open Scope Z_scope.
Local Open Scope list_scope.

Lemma concat_converted rs : Forall is_scalar rs -> concat (map Convert (map utf8_char rs)) = Convert (utf8 rs).
Proof.
  intros H. rewrite (Convert_utf8 rs H). induction H as [|r rs Hr H IH]; [reflexivity|]. cbn [map concat]. rewrite IH, utf8_cons. f_equal.
  apply Convert_char. exact Hr.
Qed.
Lemma encodes_length rs s : encodes rs s -> (length (utf8 rs) <= 2 * length s)%nat.
Proof.
  intros He. induction He as [|r rs bs Hr H IH|c r rs bs Ha H IH]; [cbn; lia|..]; rewrite utf8_cons, app_length.
  - rewrite utf8_char_ascii by exact Hr. cbn [length]. lia.
  - apply assigned_ranges in Ha. assert (length (utf8_char r) <= 3)%nat.
    { unfold utf8_char. destruct (r <? 0x80); [cbn; lia|]. destruct (r <? 0x800); [cbn; lia|].
      destruct (Z.ltb_spec r 0x10000); [cbn; lia|lia]. }
    rewrite app_length. cbn [code_bytes length]. lia.
Qed.
Lemma runes_filter grow (RS : Type) (rd : RS -> Z -> list Z * option error * RS) s stream e fuel fuel' :
  delivers rd s stream e -> (exists rs, encodes rs stream) -> (length stream + 4 <= fuel)%nat -> (2 * length stream + 2 < fuel')%nat ->
  exists out, filter_runes grow RS rd fuel fuel' s = Ok (match e with EOF => None | _ => Some e end, out) /\ hanja_replaced stream out.
Proof.
  intros Hd (rs & He) Hf Hf'. pose proof (encodes_repertoire rs stream He) as R. pose proof (Forall_repertoire_scalar _ R) as S.
  pose proof (encodes_length rs stream He) as L.
  pose proof (runes_lemma grow RS rd s stream e rs fuel fuel' Hd (encodes_decodes rs stream He) Hf ltac:(lia)) as E.
  destruct (replaced_ex rs stream He) as (out & H1 & H2). exists out. split; [|exact H2].
  destruct (C51_lemma grow (map Convert (map utf8_char rs))) as (w & bs & T & W & D).
  - clear - S. induction S as [|r rs Hr S IH]; cbn [map]; constructor; [|exact IH].
    rewrite Convert_char by exact Hr. apply utf8_char_bytes, convert_rune_scalar, Hr.
  - left. clear - S. induction S as [|r rs Hr S IH]; cbn [map]; constructor; [|exact IH].
    rewrite Convert_char by exact Hr. exists [convert_rune r]. split; [constructor; [apply convert_rune_scalar, Hr|constructor]|].
    cbn [utf8 flat_map]. rewrite app_nil_r. reflexivity.
  - unfold filter_runes. rewrite E. cbn [bind]. rewrite W. cbn [bind]. rewrite D. f_equal. f_equal.
    rewrite concat_converted, Convert_utf8 in T by exact S. rewrite (To_encodes grow _ _ H1) in T. congruence.
Qed.
Lemma in_utf8_ascii b rs : Forall is_scalar rs -> b < 0x80 -> In b (utf8 rs) -> In b rs.
Proof.
  intros S Hb. induction S as [|r rs Hr S IH]; [intros []|]. rewrite utf8_cons, in_app_iff. intros [H|H]; [|right; apply IH, H]. left.
  destruct (Z_lt_ge_dec r 0x80) as [L|L].
  - rewrite utf8_char_ascii in H by (unfold is_scalar in Hr; lia). destruct H as [H|[]]. exact H.
  - exfalso. pose proof (utf8_char_bytes r Hr) as B. unfold is_scalar in Hr. unfold utf8_char in H.
    destruct (Z.ltb_spec r 0x80); [lia|]. 
    destruct (r <? 0x800); [|destruct (r <? 0x10000)]; cbn [In] in H; repeat destruct H as [H|H]; try contradiction; Z.div_mod_to_equations; lia.
Qed.
Definition line_ok (l : list Z) : Prop := ~ In 10 l /\ ~ In 13 l /\ zlen (utf8 l) < 65536.
Lemma utf8_lines ls : Forall is_scalar (flat_map (fun l => l ++ [10]) ls) -> Forall line_ok ls ->
  is_lines (utf8 (flat_map (fun l => l ++ [10]) ls)) (map utf8 ls) /\ Forall2 without_cr (map utf8 ls) (map utf8 ls) /\
  Forall (fun l => zlen l < 65536) (map utf8 ls) /\
  concat (map (fun t => Convert t ++ [10]) (map utf8 ls)) = Convert (utf8 (flat_map (fun l => l ++ [10]) ls)) /\
  Forall valid_utf8 (map (fun t => Convert t ++ [10]) (map utf8 ls)).
Proof.
  intros S H. induction H as [|l ls (H10 & H13 & HL) H IH]; [cbn; repeat constructor|].
  cbn [flat_map map concat] in *. apply Forall_app in S as [S1 S2]. destruct (IH S2) as (A1 & A2 & A3 & A4 & A5).
  assert (S1' := S1). apply Forall_app in S1 as [Sl _].
  assert (E10 : utf8 (l ++ [10]) = utf8 l ++ [10]) by apply utf8_app.
  assert (C10 : Convert (utf8 l) ++ [10] = utf8 (map convert_rune (l ++ [10]))).
  { rewrite Convert_utf8, map_app, utf8_app by exact Sl. f_equal. }
  split; [|split; [|split; [|split]]].
  - rewrite utf8_app, E10, <- app_assoc. apply lines_more; [|exact A1]. intros Hi. apply H10, in_utf8_ascii; [exact Sl|lia|exact Hi].
  - constructor; [|exact A2]. apply no_cr. intros l' E. apply H13, in_utf8_ascii; [exact Sl|lia|]. rewrite E, in_app_iff. right. left. reflexivity.
  - constructor; assumption.
  - rewrite A4, C10. rewrite (Convert_utf8 (flat_map _ ls)) by exact S2.
    rewrite (Convert_utf8 ((l ++ [10]) ++ _)) by (apply Forall_app; split; assumption). rewrite <- utf8_app, <- map_app. reflexivity.
  - constructor; [|exact A5]. rewrite C10. eexists. split; [|reflexivity]. apply Forall_map. eapply Forall_impl; [|exact S1']. intros r Hr. apply convert_rune_scalar, Hr.
Qed.
Lemma valid_bytes s : valid_utf8 s -> Forall is_byte s.
Proof.
  intros (rs & S & ->). induction S as [|r rs Hr S IH]; [constructor|]. rewrite utf8_cons. apply Forall_app. split; [apply utf8_char_bytes, Hr|exact IH].
Qed.
Lemma lines_filter grow (RS : Type) (rd : RS -> Z -> list Z * option error * RS) s stream e ls fuel fuel' :
  delivers rd s stream e -> encodes (flat_map (fun l => l ++ [10]) ls) stream ->
  Forall (fun l => ~ In 10 l /\ ~ In 13 l /\ zlen (utf8 l) < 65536) ls -> (length stream + 4 <= fuel)%nat -> (2 * length stream + 2 < fuel')%nat ->
  exists out, filter_lines grow RS rd fuel fuel' s = Ok (match e with EOF => None | _ => Some e end, out) /\ hanja_replaced stream out.
Proof.
  intros Hd He Hl Hf Hf'. set (rs := flat_map (fun l => l ++ [10]) ls) in *.
  pose proof (encodes_repertoire rs stream He) as R. pose proof (Forall_repertoire_scalar _ R) as S.
  pose proof (encodes_length rs stream He) as L.
  destruct (utf8_lines ls S Hl) as (A1 & A2 & A3 & A4 & A5). fold rs in A1, A4.
  pose proof (C29_lemma grow rs stream He) as [EF _].
  pose proof (lines_lemma grow RS rd s stream (utf8 rs) e (map utf8 ls) (map utf8 ls) fuel fuel' (decodes_bytes _ _ (encodes_decodes rs stream He)) Hd EF A1 A2 A3 Hf ltac:(lia)) as E.
  destruct (replaced_ex rs stream He) as (out & H1 & H2). exists out. split; [|exact H2].
  destruct (C51_lemma grow (map (fun t => Convert t ++ [10]) (map utf8 ls))) as (w & bs & T & W & D).
  - eapply Forall_impl; [|exact A5]. apply valid_bytes.
  - left. exact A5.
  - unfold filter_lines. rewrite E. cbn [bind]. rewrite W. cbn [bind]. rewrite D. f_equal. f_equal.
    rewrite A4, Convert_utf8 in T by exact S. rewrite (To_encodes grow _ _ H1) in T. congruence.
Qed.
Definition dbl (old need : Z) : Z := Z.max need (2 * old).
Lemma reads_filter_refuted : exists stream sizes out, (exists rs, encodes rs stream) /\ delivers bytes_rd stream stream EOF /\
  filter_reads dbl (list Z) bytes_rd 10 stream sizes = Ok out /\ ~ hanja_replaced stream out.
Proof.
  exists [0xD3; 0xDE], [2; 2], (repeat 0x3F 6).
  assert (B : assigned 0xD3DE 0x5927) by (apply assigned_by; vm_compute; reflexivity).
  split; [exists [0x5927]; apply (enc_code 0xD3DE 0x5927 [] []); [exact B|constructor]|].
  split; [apply bytes_rd_delivers|]. split; [vm_compute; reflexivity|].
  intros H. apply replaced_length in H. discriminate.
Qed.
