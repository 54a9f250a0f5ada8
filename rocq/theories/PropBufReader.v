(** Properties C144 and C145: reading from a Reader with the methods of bufio.Reader
    (BufReaderModel.v). *)
From Coq Require Import ZArith List Bool Lia.
From Verif Require Import Base Spec Utf8 SpecCp949 SpecIO SpecPieces Cp949Model StreamModel IoModel BufioModel
  BufReaderModel StreamFacts3 TransformFacts3 Cp949Facts2 BufReaderFacts.
Import ListNotations.
Local Open Scope Z_scope.

(** * C144 ReadString and ReadBytes yield the text divided after each delimiter *)
Theorem C144_ReadString :
  forall grow (RS : Type) (rd : RS -> Z -> list Z * option error * RS) s stream text e fuel size n fuel' d,
  Forall is_byte stream -> delivers rd s stream e -> From grow stream = Ok (inl text) ->
  (length stream + 4 <= fuel)%nat -> 16 <= size -> e <> ErrBufferFull ->
  (length text + 2 <= fuel')%nat -> (length text + 1 <= n)%nat ->
  exists pieces, is_pieces d text pieces /\
    ReadStrings _ (as_reader (Read grow RS rd fuel)) n fuel' d (NewBufReader size (NewReader s)) = Ok (pieces, Some e).
Proof. exact C144_lemma. Qed.
Print Assumptions C144_ReadString.
(** There is only one such division. *)
Theorem C144_unique :
  forall d text pieces pieces', is_pieces d text pieces -> is_pieces d text pieces' -> pieces = pieces'.
Proof. exact pieces_fun. Qed.
Print Assumptions C144_unique.
Definition double (old need : Z) : Z := Z.max need (2 * old).
Definition ex_line : list Z := flat_map (fun _ => [0xB0; 0xA1]) (repeat tt 7) ++ [10; 0xB0; 0xA2].
Definition ex_text : list Z := flat_map (fun _ => [0xEA; 0xB0; 0x80]) (repeat tt 7) ++ [10; 0xEA; 0xB0; 0x81].
(** The first line has 22 bytes of UTF-8, more than the buffer of 16. *)
Example C144_case : delivers one_rd ex_line ex_line EOF /\ From double ex_line = Ok (inl ex_text) /\
  ReadStrings _ (as_reader (Read double _ one_rd 30)) 40 40 10 (NewBufReader 16 (NewReader ex_line)) =
    Ok ([flat_map (fun _ => [0xEA; 0xB0; 0x80]) (repeat tt 7) ++ [10]; [0xEA; 0xB0; 0x81]], Some EOF).
Proof. split; [apply one_rd_delivers|]. split; vm_compute; reflexivity. Qed.

(** * C145 ReadRune yields the characters, ReadByte the bytes *)
Theorem C145_ReadRune :
  forall grow (RS : Type) (rd : RS -> Z -> list Z * option error * RS) s stream rs e fuel size n fuel',
  delivers rd s stream e -> decodes stream rs -> (length stream + 4 <= fuel)%nat ->
  16 <= size -> (length (utf8 rs) + 2 <= fuel')%nat -> (length rs + 1 <= n)%nat ->
  ReadRunes _ (as_reader (Read grow RS rd fuel)) n fuel' (NewBufReader size (NewReader s)) =
    Ok (map (fun r => (r, zlen (utf8_char r))) rs, Some e).
Proof. exact C145_lemma. Qed.
Print Assumptions C145_ReadRune.
Theorem C145_ReadByte :
  forall grow (RS : Type) (rd : RS -> Z -> list Z * option error * RS) s stream text e fuel size n fuel',
  Forall is_byte stream -> delivers rd s stream e -> From grow stream = Ok (inl text) -> (length stream + 4 <= fuel)%nat ->
  16 <= size -> (length text + 2 <= fuel')%nat -> (length text + 1 <= n)%nat ->
  ReadBytes1 _ (as_reader (Read grow RS rd fuel)) n fuel' (NewBufReader size (NewReader s)) = Ok (text, Some e).
Proof. exact C145_bytes_lemma. Qed.
Print Assumptions C145_ReadByte.
(** The sixth character lies across the end of the buffer of 16 bytes. *)
Example C145_case : delivers one_rd ex_line ex_line EOF /\ decodes ex_line (repeat 0xAC00 7 ++ [10; 0xAC01]) /\
  ReadRunes _ (as_reader (Read double _ one_rd 30)) 40 40 (NewBufReader 16 (NewReader ex_line)) =
    Ok (repeat (0xAC00, 3) 7 ++ [(10, 1); (0xAC01, 3)], Some EOF) /\
  ReadBytes1 _ (as_reader (Read double _ one_rd 30)) 40 40 (NewBufReader 16 (NewReader ex_line)) = Ok (ex_text, Some EOF).
Proof.
  split; [apply one_rd_delivers|]. split; [|split; vm_compute; reflexivity]. unfold ex_line. cbn [flat_map repeat app].
  do 7 (apply dec_code; [lia|lia|apply assigned_by; vm_compute; reflexivity|]).
  apply dec_ascii; [lia|]. apply dec_code; [lia|lia|apply assigned_by; vm_compute; reflexivity|]. constructor.
Qed.
