(** Property of fmt.Fscan over a Reader. *)
From Coq Require Import ZArith List Bool Lia.
From Verif Require Import Base Spec SpecCp949 SpecIO SpecWords Cp949Model StreamModel FscanModel TableFacts Cp949Facts2 StreamFacts3 TransformFacts3 FscanFacts.
Import ListNotations.
Local Open Scope Z_scope.
Local Open Scope list_scope.

(** * C170 Reading words with fmt.Fscan *)
Theorem C170_words :
  forall grow (RS : Type) (rd : RS -> Z -> list Z * option error * RS) no_word s stream rs ws fuel rfuel f m,
  delivers rd s stream EOF -> decodes stream rs -> is_words rs ws ->
  (length stream + 4 <= fuel)%nat -> (2 <= rfuel)%nat -> (length rs < f)%nat -> (length ws < m)%nat ->
  fscan_all (reader RS) (Read grow RS rd fuel) rfuel no_word m f (NewReader s) = Ok (map utf8 ws, no_word).
Proof. exact C170_eof_lemma. Qed.
Print Assumptions C170_words.
(** After another error than io.EOF: the words [ws] of the text up to its last space, and not [w],
    which the error has interrupted. *)
Theorem C170_error :
  forall grow (RS : Type) (rd : RS -> Z -> list Z * option error * RS) no_word s stream e rs ws w fuel rfuel f m,
  delivers rd s stream e -> e <> EOF -> decodes stream (rs ++ w) -> is_words rs ws ->
  (forall a x, rs = a ++ [x] -> white x) -> Forall (fun r => ~ white r) w ->
  (length stream + 4 <= fuel)%nat -> (2 <= rfuel)%nat -> (length (rs ++ w) < f)%nat -> (length ws < m)%nat ->
  fscan_all (reader RS) (Read grow RS rd fuel) rfuel no_word m f (NewReader s) = Ok (map utf8 ws, e).
Proof. exact C170_error_lemma. Qed.
Print Assumptions C170_error.
(** Two words with line ends before and an ideographic space between them. *)
Definition err_rd (s : list Z) (sp : Z) : list Z * option error * list Z :=
  if sp <=? 0 then ([], None, s) else match s with [] => ([], Some (ErrOther 7), []) | b :: s' => ([b], None, s') end.
Definition ex_grow (old need : Z) : Z := Z.max need (2 * old).
Example C170_case : let stream := [13; 10; 13; 0xB0; 0xA1; 0x41; 0xA1; 0xA1; 0xB0; 0xA2] in
  delivers one_rd stream stream EOF /\ decodes stream [13; 10; 13; 0xAC00; 0x41; 0x3000; 0xAC01] /\
  is_words [13; 10; 13; 0xAC00; 0x41; 0x3000; 0xAC01] [[0xAC00; 0x41]; [0xAC01]] /\
  fscan_all _ (Read ex_grow _ one_rd 15) 2 EOF 3 8 (NewReader stream) = Ok ([[0xEA; 0xB0; 0x80; 0x41]; [0xEA; 0xB0; 0x81]], EOF) /\
  fscan_all _ (Read ex_grow _ err_rd 15) 2 EOF 3 8 (NewReader stream) = Ok ([[0xEA; 0xB0; 0x80; 0x41]], ErrOther 7).
Proof.
  cbv zeta. split; [apply one_rd_delivers|]. split; [|split; [|split; vm_compute; reflexivity]].
  - do 3 (apply dec_ascii; [lia|]). apply dec_code; [lia|lia|apply assigned_by; vm_compute; reflexivity|].
    apply dec_ascii; [lia|]. do 2 (apply dec_code; [lia|lia|apply assigned_by; vm_compute; reflexivity|]). constructor.
  - apply (words_more [13; 10; 13] [0xAC00; 0x41] 0x3000 [0xAC01] [[0xAC01]]).
    + repeat (constructor; [unfold white; lia|]). constructor.
    + discriminate.
    + repeat (constructor; [unfold white; lia|]). constructor.
    + unfold white. lia.
    + apply (words_last [] [0xAC01]); [constructor|discriminate|]. constructor; [unfold white; lia|constructor].
Qed.
