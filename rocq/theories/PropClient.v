(** Properties C85-C94 and a supplement to C50: what clients of the packages rely on. *)
From Coq Require Import ZArith List Bool Lia.
From Verif Require Import Base Spec Utf8 SpecCp949 SpecText SpecText2 SpecIO HanjaModel HangulModel Cp949Model
  StreamModel IoModel TransformModel ClientModel StreamFacts3 TransformFacts3 Cp949Facts2 TextFacts2 EmptyFacts ClientFacts.
Import ListNotations.
Local Open Scope Z_scope.

Definition double (old need : Z) : Z := Z.max need (2 * old).

(** * C50 (supplement) An empty read is harmless
    Not only on a fresh reader is it harmful: here the second Read drops three characters. *)
Theorem C50_later_refuted : exists stream text, From double stream = Ok (inl text) /\
  delivers bytes_rd stream stream EOF /\
  (exists r, read_seq double (list Z) bytes_rd 9 (NewReader stream) [2; 16; 16] = Ok (text, Some EOF, r)) /\
  (exists r, read_seq double (list Z) bytes_rd 9 (NewReader stream) [2; 0; 16; 16] = Ok ([0x41; 0x42], Some EOF, r)).
Proof. exact C50_later_refuted_lemma. Qed.
Print Assumptions C50_later_refuted.
(** After a first Read with room for a character, any number of empty reads between the
    others is harmless, if the wrapped reader hands out whole characters. *)
Theorem C50_after_first_partial :
  forall grow (RS : Type) (rd : RS -> Z -> list Z * option error * RS) e s rs fuel k sizes,
  delivers_chars rd s rs e -> 2 <= k -> Forall (fun k => 0 <= k) sizes -> (2 <= fuel)%nat ->
  exists out err r' rest, read_seq grow RS rd fuel (NewReader s) (k :: sizes) = Ok (out, err, r') /\
    utf8 rs = out ++ rest /\
    match err with
    | Some e' => e' = e /\ rest = []
    | None => zlen (filter (fun k => 0 <? k) sizes) < zlen out
    end.
Proof. exact C50_after_lemma. Qed.
Print Assumptions C50_after_first_partial.
Example C50_after_case : delivers_chars syllables 2%nat [0xAC00; 0xAC00] EOF /\
  exists r, read_seq double _ syllables 9 (NewReader 2%nat) [2; 0; 1; 0; 0; 16; 0; 16; 2] =
    Ok (utf8 [0xAC00; 0xAC00], Some EOF, r).
Proof. split; [exact (syllables_deliver 2)|]. eexists. vm_compute. reflexivity. Qed.

(** * C85 Convert keeps the length of the text in bytes *)
Theorem C85_Convert_length : forall s, Forall is_byte s ->
  zlen s <= zlen (Convert s) <= 3 * zlen s /\ (zlen (Convert s) = zlen s <-> valid_utf8 s).
Proof. exact C85_lemma. Qed.
Print Assumptions C85_Convert_length.
Theorem C85_Convert_encoded_length : forall grow rs x y, Forall in_repertoire rs ->
  To grow (utf8 rs) = Ok (inl x) -> To grow (Convert (utf8 rs)) = Ok (inl y) -> zlen y = zlen x.
Proof. exact C85_To_lemma. Qed.
Print Assumptions C85_Convert_encoded_length.
Example C85_case : zlen (utf8 [0x5927; 0x61]) = 4 /\ Convert (utf8 [0x5927; 0x61]) = utf8 [0xB300; 0x61] /\
  zlen (utf8 [0xB300; 0x61]) = 4 /\ zlen (Convert [0xFF]) = 3 /\
  To double (utf8 [0x5927]) = Ok (inl [0xD3; 0xDE]) /\ To double (utf8 [0xB300]) = Ok (inl [0xB4; 0xEB]).
Proof. vm_compute. repeat split. Qed.

(** * C86 Converting line by line
    False for arbitrary input of From: an unfinished character swallows the separator. *)
Theorem C86_refuted : exists s ps, Forall is_byte s /\ split_at 0x0A s ps /\
  forall grow, exists out, From grow s = Ok (inl out) /\
    forall ts, split_at 0x0A out ts -> ~ Forall2 (fun p t => From grow p = Ok (inl t)) ps ts.
Proof. exact C86_refuted_lemma. Qed.
Print Assumptions C86_refuted.
(** True of From on valid CP949, for every separator that is ASCII and not a letter. *)
Theorem C86_From_partial : forall grow sep rs x ps, ascii_nonletter sep = true -> encodes rs x -> split_at sep x ps ->
  exists ts, Forall2 (fun p t => From grow p = Ok (inl t)) ps ts /\ split_at sep (utf8 rs) ts.
Proof. exact C86_From_lemma. Qed.
Print Assumptions C86_From_partial.
(** True of To on every byte string, for these separators other than the question mark. *)
Theorem C86_To : forall grow sep x ps out, ascii_mark sep = true -> Forall is_byte x -> split_at sep x ps ->
  To grow x = Ok (inl out) ->
  exists os, Forall2 (fun p o => To grow p = Ok (inl o)) ps os /\ split_at sep out os.
Proof. exact C86_To_lemma. Qed.
Print Assumptions C86_To.
(* 가 newline A newline *)
Example C86_case : encodes [0xAC00; 0x0A; 0x41; 0x0A] [0xB0; 0xA1; 0x0A; 0x41; 0x0A] /\
  split_at 0x0A [0xB0; 0xA1; 0x0A; 0x41; 0x0A] [[0xB0; 0xA1]; [0x41]; []].
Proof. exact C86_case_lemma. Qed.

(** * C87 From neither invents nor swallows ASCII
    It invents none: the ASCII bytes of the result occur in the input, in this order. *)
Theorem C87_From_invents_no_ascii : forall grow s out, Forall is_byte s -> From grow s = Ok (inl out) ->
  subsequence (filter ascii_b out) (filter ascii_b s).
Proof. exact C87_lemma. Qed.
Print Assumptions C87_From_invents_no_ascii.
(** But a quotation mark after an unfinished character is swallowed. *)
Theorem C87_refuted : exists s, Forall is_byte s /\ In 0x22 s /\
  forall grow, exists out, From grow s = Ok (inl out) /\ ~ In 0x22 out.
Proof. exact C87_refuted_lemma. Qed.
Print Assumptions C87_refuted.
(** In valid CP949 all ASCII other than letters is kept. *)
Theorem C87_valid_partial : forall grow rs x, encodes rs x -> exists out, From grow x = Ok (inl out) /\
  filter ascii_nonletter out = filter ascii_nonletter x.
Proof. exact C87_valid_lemma. Qed.
Print Assumptions C87_valid_partial.
Example C87_case : From double [0x41; 0x22; 0xB0; 0xA1; 0x42] = Ok (inl (utf8 [0x41; 0x22; 0xAC00; 0x42])) /\
  filter ascii_b (utf8 [0x41; 0x22; 0xAC00; 0x42]) = [0x41; 0x22; 0x42].
Proof. vm_compute. split; reflexivity. Qed.

(** * C88 To neither invents nor swallows ASCII punctuation, on any byte string *)
Theorem C88_To_keeps_ascii : forall grow x, Forall is_byte x -> exists out, To grow x = Ok (inl out) /\
  filter ascii_mark out = filter ascii_mark x.
Proof. exact C88_lemma. Qed.
Print Assumptions C88_To_keeps_ascii.
(* 갂 is encoded as 0x81 0x41; an invalid byte as two question marks *)
Example C88_case : To double (utf8 [0x22; 0xAC02; 0x3B] ++ [0xFF; 0x2F]) =
    Ok (inl [0x22; 0x81; 0x41; 0x3B; 0x3F; 0x3F; 0x2F]) /\
  filter ascii_mark [0x22; 0x81; 0x41; 0x3B; 0x3F; 0x3F; 0x2F] = [0x22; 0x3B; 0x2F].
Proof. vm_compute. split; reflexivity. Qed.

(** * C89 The Encoder reports characters it cannot encode
    False: it substitutes silently, whatever the character. *)
Theorem C89_refuted : exists r, is_scalar r /\ ~ in_repertoire r /\
  forall grow dst atEOF, exists d,
    enc_Transform grow dst (utf8_char r) atEOF = Ok (d, 1, zlen (utf8_char r), None).
Proof. exact C89_refuted_lemma. Qed.
Print Assumptions C89_refuted.
Theorem C89_never_reports_partial : forall grow dst src atEOF, Forall is_byte src ->
  exists d n m, enc_Transform grow dst src atEOF = Ok (d, n, m, None) /\ m = zlen src.
Proof. exact C89_exact_lemma. Qed.
Print Assumptions C89_never_reports_partial.
Example C89_case : enc_Transform double [0; 0; 0] (utf8 [0xFF; 0x41]) true = Ok ([0x3F; 0x41; 0], 2, 3, None).
Proof. vm_compute. reflexivity. Qed.

(** * C90 HTMLEscapeUnsupported and ReplaceUnsupported
    False: as the Encoder reports no error the wrappers have no effect, whatever the handler
    of unencodable characters and whatever counts as an error of the repertoire. *)
Theorem C90_refuted : exists r d, is_scalar r /\ ~ in_repertoire r /\ forall rep fuel,
  handled_Transform (enc_Transform double) rep html_escape fuel (zeros 8) (utf8_char r) true =
    Ok (d, 1, zlen (utf8_char r), None) /\
  ztake 1 d <> ztake 1 (html_escape r 0x3F).
Proof. exact C90_refuted_lemma. Qed.
Print Assumptions C90_refuted.
Theorem C90_no_effect_partial : forall grow rep handler fuel dst src atEOF, Forall is_byte src ->
  handled_Transform (enc_Transform grow) rep handler fuel dst src atEOF = enc_Transform grow dst src atEOF.
Proof. exact C90_exact_lemma. Qed.
Print Assumptions C90_no_effect_partial.
(* what an encoder that does report would give: the handler at work *)
Example C90_case :
  handled_Transform (fun dst src _ => match src with
                     | 0xC3 :: _ => Ok (dst, 0, 0, Some (ErrOther 7))
                     | _ => Ok (go_copy dst src, zlen src, zlen src, None) end)
    (fun _ => Some 0x1A) html_escape 9 (zeros 8) (utf8 [0xFF; 0x41]) true =
  Ok ([0x26; 0x23; 0x32; 0x35; 0x35; 0x3B; 0x41; 0], 7, 3, None).
Proof. vm_compute. reflexivity. Qed.

(** * C91 io.ReadAll over a Reader *)
Theorem C91_ReadAll :
  forall grow (RS : Type) (rd : RS -> Z -> list Z * option error * RS) s stream text e fuel fuel',
  Forall is_byte stream -> delivers rd s stream e -> From grow stream = Ok (inl text) ->
  (length stream + 4 <= fuel)%nat -> (length text < fuel')%nat ->
  ReadAll (reader RS) (Read grow RS rd fuel) grow fuel' (NewReader s) =
    Ok (text, match e with EOF => None | _ => Some e end).
Proof. exact C91_lemma. Qed.
Print Assumptions C91_ReadAll.
(** On a truncated stream it returns, without an error, a prefix of the complete part. *)
Theorem C91_ReadAll_truncated :
  forall grow (RS : Type) (rd : RS -> Z -> list Z * option error * RS) s stream a rs e fuel fuel',
  delivers rd s stream e -> cut_after a stream -> decodes a rs ->
  (length stream + 4 <= fuel)%nat -> (length (utf8 rs) < fuel')%nat ->
  exists out, ReadAll (reader RS) (Read grow RS rd fuel) grow fuel' (NewReader s) =
    Ok (out, match e with EOF => None | _ => Some e end) /\ is_prefix out (utf8 rs).
Proof. exact C91_truncated_lemma. Qed.
Print Assumptions C91_ReadAll_truncated.
Example C91_case :
  ReadAll _ (Read double _ one_rd 9) double 9 (NewReader [0xB0; 0xA1; 0x41]) = Ok (utf8 [0xAC00; 0x41], None) /\
  ReadAll _ (Read double _ bytes_rd 9) double 9 (NewReader [0x41; 0x42; 0xB0]) = Ok ([], None).
Proof. vm_compute. split; reflexivity. Qed.

(** * C92 io.ReadFull over a Reader
    It stores exactly the first [len] bytes of the text, or reports that there are fewer,
    and what follows can be read afterwards. *)
Theorem C92_ReadFull :
  forall grow (RS : Type) (rd : RS -> Z -> list Z * option error * RS) s stream text e fuel fuel' len,
  Forall is_byte stream -> delivers rd s stream e -> From grow stream = Ok (inl text) ->
  (length stream + 4 <= fuel)%nat -> (length text + 1 < fuel')%nat -> 0 <= len ->
  exists r', ReadFull (reader RS) (Read grow RS rd fuel) fuel' (NewReader s) len =
    Ok (ztake len text,
        if len <=? zlen text then None
        else match e with EOF => if 0 <? zlen text then Some ErrUnexpectedEOF else Some EOF | _ => Some e end,
        r') /\
    (len <= zlen text -> forall fuel2, (length (zdrop len text) < fuel2)%nat ->
       ReadAll (reader RS) (Read grow RS rd fuel) grow fuel2 r' =
         Ok (zdrop len text, match e with EOF => None | _ => Some e end)).
Proof. exact C92_lemma. Qed.
Print Assumptions C92_ReadFull.
Example C92_case :
  match ReadFull _ (Read double _ one_rd 9) 9 (NewReader [0xB0; 0xA1; 0x41]) 2 with
  | Ok (p, e, r) => p = [0xEA; 0xB0] /\ e = None /\
      ReadAll _ (Read double _ one_rd 9) double 9 r = Ok ([0x80; 0x41], None)
  | _ => False end /\
  match ReadFull _ (Read double _ one_rd 9) 9 (NewReader [0xB0; 0xA1; 0x41]) 5 with
  | Ok (p, e, r) => p = [0xEA; 0xB0; 0x80; 0x41] /\ e = Some ErrUnexpectedEOF | _ => False end.
Proof. vm_compute. repeat split. Qed.

(** * C93 Decomposing keeps the order of texts
    Replacing every syllable by the parts Split returns keeps the order (and so the identity)
    of texts of syllables and of characters below U+1100. *)
Theorem C93_decomposed_order : forall a b, Forall low_char a -> Forall low_char b ->
  (lex_lt a b <-> lex_lt (decompose a) (decompose b)).
Proof. exact C93_lemma. Qed.
Print Assumptions C93_decomposed_order.
Theorem C93_decomposed_unique : forall a b, Forall low_char a -> Forall low_char b ->
  decompose a = decompose b -> a = b.
Proof. exact C93_unique_lemma. Qed.
Print Assumptions C93_decomposed_unique.
(* 가나 before 각: the second part of 가나 is not a tail *)
Example C93_case : Forall low_char [0xAC00; 0xB098] /\ Forall low_char [0xAC01] /\
  decompose [0xAC00; 0xB098] = [0x1100; 0x1161; 0x1102; 0x1161] /\ decompose [0xAC01] = [0x1100; 0x1161; 0x11A8].
Proof.
  unfold low_char, is_syllable.
  repeat (split; [repeat constructor; lia|]). split; reflexivity.
Qed.

(** * C94 The Decoder does not fail, and replaces each byte it cannot decode
    False: a stream that ends inside a character is an error, and two bytes that form no code
    are replaced by one U+FFFD. *)
Theorem C94_refuted :
  (forall grow dst, dec_Transform grow dst [0xB0] true = Ok (dst, 0, 0, Some ErrCP949UnexpectedStream)) /\
  (forall grow, (forall u, ~ assigned (0xFE * 256 + 0xFF) u) /\
     dec_Transform grow (zeros 6) [0xFE; 0xFF] true = Ok (utf8_char replacement ++ zeros 3, 3, 2, None)).
Proof. exact C94_refuted_lemma. Qed.
Print Assumptions C94_refuted.
(** It fails exactly on truncated input. *)
Theorem C94_fails_iff_truncated_partial : forall grow dst src atEOF, Forall is_byte src ->
  (truncated src -> dec_Transform grow dst src atEOF = Ok (dst, 0, 0, Some ErrCP949UnexpectedStream)) /\
  (~ truncated src -> exists rs, decodes src rs /\
     (zlen (utf8 rs) <= zlen dst -> dec_Transform grow dst src atEOF =
        Ok (utf8 rs ++ zdrop (zlen (utf8 rs)) dst, zlen (utf8 rs), zlen src, None))).
Proof. exact C94_exact_lemma. Qed.
Print Assumptions C94_fails_iff_truncated_partial.
Example C94_case : truncated [0x41; 0xB0] /\ dec_Transform double (zeros 2) [0x41] false = Ok ([0x41; 0], 1, 1, None).
Proof. split; [exact C94_case_lemma|]. vm_compute. reflexivity. Qed.
