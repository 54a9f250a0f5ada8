(** Property C159: reading from a Reader word by word with bufio.Scanner (WordModel.v). *)
From Coq Require Import ZArith List Bool Lia.
From Verif Require Import Base Spec Utf8 SpecCp949 SpecIO SpecWords Cp949Model StreamModel BufioModel WordModel
  StreamFacts3 TransformFacts3 Cp949Facts2 WordFacts.
Import ListNotations.
Local Open Scope Z_scope.

(** * C159 bufio.Scanner with ScanWords yields the words of the stream *)
Theorem C159_words :
  forall grow (RS : Type) (rd : RS -> Z -> list Z * option error * RS) s stream e rs ws fuel fuel',
  delivers rd s stream e -> decodes stream rs -> is_words rs ws -> Forall (fun w => zlen (utf8 w) <= 65533) ws ->
  (length stream + 4 <= fuel)%nat -> (length (utf8 rs) + 2 < fuel')%nat ->
  ScanAll (reader RS) (Read grow RS rd fuel) ScanWords fuel' (NewScanner _ (NewReader s)) =
    Ok (map utf8 ws, match e with EOF => None | _ => Some e end).
Proof. exact words_lemma. Qed.
Print Assumptions C159_words.
(** A word of 65536 bytes or more ends it, with an error. *)
Theorem C159_long_word :
  forall grow (RS : Type) (rd : RS -> Z -> list Z * option error * RS) s stream e rs ws1 w ws2 fuel fuel',
  delivers rd s stream e -> decodes stream rs -> is_words rs (ws1 ++ w :: ws2) -> Forall (fun w => zlen (utf8 w) <= 65533) ws1 ->
  65536 <= zlen (utf8 w) -> (length stream + 4 <= fuel)%nat -> (length (utf8 rs) + 2 < fuel')%nat ->
  ScanAll (reader RS) (Read grow RS rd fuel) ScanWords fuel' (NewScanner _ (NewReader s)) = Ok (map utf8 ws1, Some ErrTooLong).
Proof. exact long_word_lemma. Qed.
Print Assumptions C159_long_word.
(** Two words with two ordinary spaces before and an ideographic one between them. *)
Example C159_case : let stream := [32; 32; 0xB0; 0xA1; 0x41; 0xA1; 0xA1; 0xB0; 0xA2; 10] in
  delivers one_rd stream stream EOF /\ decodes stream [32; 32; 0xAC00; 0x41; 0x3000; 0xAC01; 10] /\
  is_words [32; 32; 0xAC00; 0x41; 0x3000; 0xAC01; 10] [[0xAC00; 0x41]; [0xAC01]] /\
  ScanAll _ (Read (fun old need => Z.max need (2 * old)) _ one_rd 15) ScanWords 20 (NewScanner _ (NewReader stream)) =
    Ok ([[0xEA; 0xB0; 0x80; 0x41]; [0xEA; 0xB0; 0x81]], None).
Proof.
  cbv zeta. split; [apply one_rd_delivers|]. split; [|split].
  - do 2 (apply dec_ascii; [lia|]). apply dec_code; [lia|lia|apply assigned_by; vm_compute; reflexivity|].
    apply dec_ascii; [lia|]. do 2 (apply dec_code; [lia|lia|apply assigned_by; vm_compute; reflexivity|]). apply dec_ascii; [lia|]. constructor.
  - apply (words_more [32; 32] [0xAC00; 0x41] 0x3000 [0xAC01; 10]); [repeat constructor; unfold white; lia|discriminate|repeat constructor; unfold white; lia|unfold white; lia|].
    apply (words_more [] [0xAC01] 10 []); [constructor|discriminate|repeat constructor; unfold white; lia|unfold white; lia|]. apply words_none. constructor.
  - vm_compute. reflexivity.
Qed.
(** A word of 65536 letters, after a short one. *)
Example C159_long_case : exists stream w, decodes stream stream /\ is_words stream ([[0x61]] ++ w :: [[0x62]]) /\ 65536 <= zlen (utf8 w).
Proof.
  exists ([0x61] ++ 32 :: repeat 0x61 (Z.to_nat 65536) ++ 32 :: [0x62]), (repeat 0x61 (Z.to_nat 65536)).
  assert (Hw : forall n, Forall (fun r => ~ white r) (repeat 0x61 n)) by (intros n; apply Forall_forall; intros r Hr; apply repeat_spec in Hr; subst r; unfold white; lia).
  split; [|split].
  - apply dec_ascii; [lia|]. apply dec_ascii; [lia|]. generalize (Z.to_nat 65536). induction n as [|n IH]; cbn [repeat app]; [do 2 (apply dec_ascii; [lia|]); constructor|]. apply dec_ascii; [lia|exact IH].
  - apply (words_more [] [0x61] 32 (repeat 0x61 (Z.to_nat 65536) ++ 32 :: [0x62])); [constructor|discriminate|repeat constructor; unfold white; lia|unfold white; lia|].
    apply (words_more [] (repeat 0x61 (Z.to_nat 65536)) 32 [0x62]); [constructor|intros H; apply (f_equal (@length Z)) in H; rewrite repeat_length in H; change (length []) with 0%nat in H; lia|apply Hw|unfold white; lia|].
    apply (words_last [] [0x62]); [constructor|discriminate|repeat constructor; unfold white; lia].
  - enough (H : forall n, zlen (utf8 (repeat 0x61 n)) = Z.of_nat n) by (rewrite H; lia).
    induction n as [|n IH]; [reflexivity|]. cbn [repeat]. change (utf8 (0x61 :: repeat 0x61 n)) with (0x61 :: utf8 (repeat 0x61 n)). unfold zlen in *. cbn [length]. lia.
Qed.
