{
 "claims": [
  {
   "property": "C01",
   "status": "proved",
   "theorems": [
    "C01_Join_undoes_Split"
   ],
   "note": "proved as stated"
  },
  {
   "property": "C02",
   "status": "proved",
   "theorems": [
    "C02_Split_undoes_Join",
    "C02_Join_injective"
   ],
   "note": "proved as stated"
  },
  {
   "property": "C03",
   "status": "proved",
   "theorems": [
    "C03_Split_enumerates"
   ],
   "note": "proved as stated"
  },
  {
   "property": "C04",
   "status": "proved",
   "theorems": [
    "C04_Split_recognises_syllables"
   ],
   "note": "proved as stated"
  },
  {
   "property": "C05",
   "status": "proved",
   "theorems": [
    "C05_Join_role_forms",
    "C05_Join_undoes_SplitCompat",
    "C05_SplitCompat_letters"
   ],
   "note": "proved as stated"
  },
  {
   "property": "C06",
   "status": "partial",
   "theorems": [
    "C06_refuted",
    "C06_Join_invalid_partial"
   ],
   "note": "False of the code as stated: an unusable non-zero tail is silently dropped (Join(0x1100,0x1161,0x3138) = 0xAC00), witnessed by C06_refuted. The partial theorem gives the exact behaviour for all arguments."
  },
  {
   "property": "C07",
   "status": "proved",
   "theorems": [
    "C07_classification",
    "C07_disjoint_classes"
   ],
   "note": "proved as stated"
  },
  {
   "property": "C08",
   "status": "proved",
   "theorems": [
    "C08_CompatJamo_total"
   ],
   "note": "proved as stated"
  },
  {
   "property": "C09",
   "status": "proved",
   "theorems": [
    "C09_conversions_preserve_letter"
   ],
   "note": "proved as stated"
  },
  {
   "property": "C10",
   "status": "proved",
   "theorems": [
    "C10_inverses"
   ],
   "note": "proved as stated"
  },
  {
   "property": "C11",
   "status": "proved",
   "theorems": [
    "C11_well_formed_roles"
   ],
   "note": "proved as stated"
  },
  {
   "property": "C12",
   "status": "proved",
   "theorems": [
    "C12_SplitMultiElement_composites"
   ],
   "note": "proved as stated"
  },
  {
   "property": "C13",
   "status": "partial",
   "theorems": [
    "C13_refuted",
    "C13_basic_elements_partial"
   ],
   "note": "False of the code for the letter WE (elements U, E; E is itself composite), witnessed by C13_refuted; proved for every other letter."
  },
  {
   "property": "C14",
   "status": "proved",
   "theorems": [
    "C14_Stroke_additive_Split",
    "C14_Stroke_additive_Join",
    "C14_Stroke_dropped_tail"
   ],
   "note": "proved as stated"
  },
  {
   "property": "C15",
   "status": "partial",
   "theorems": [
    "C15_refuted",
    "C15_Stroke_letter_partial",
    "C15_Stroke_syllable_partial",
    "C15_Stroke_WE"
   ],
   "note": "False of the code for WE (Stroke 2 instead of 5), witnessed by C15_refuted; proved for every other letter and every syllable without WE; C15_Stroke_WE gives the exact error."
  },
  {
   "property": "C16",
   "status": "proved",
   "theorems": [
    "C16_Stroke_total"
   ],
   "note": "proved as stated; the recursion depth of the code is bounded by 2"
  },
  {
   "property": "C17",
   "status": "proved",
   "theorems": [
    "C17_LastConsonant"
   ],
   "note": "proved as stated"
  },
  {
   "property": "C18",
   "status": "partial",
   "theorems": [
    "C18_refuted",
    "C18_LastConsonant_partial"
   ],
   "note": "False of the code: LastConsonant(\"a\") = 0x11A4, witnessed by C18_refuted. The partial theorem gives the exact result for every word."
  },
  {
   "property": "C19",
   "status": "proved",
   "theorems": [
    "C19_AppendPostposition"
   ],
   "note": "proved as stated"
  },
  {
   "property": "C20",
   "status": "proved",
   "theorems": [
    "C20_history_independence"
   ],
   "note": "proved as stated"
  },
  {
   "property": "C21",
   "status": "partial",
   "theorems": [
    "C21_refuted",
    "C21_corruption_confined_partial",
    "C21_source_refuted"
   ],
   "note": "False of the code: SplitMultiElement returns the slice stored in the package table, witnessed by C21_refuted. The partial theorem confines the damage to the letter assigned to."
  },
  {
   "property": "C22",
   "status": "proved",
   "theorems": [
    "C22_Convert_per_character"
   ],
   "note": "proved as stated"
  },
  {
   "property": "C23",
   "status": "proved",
   "theorems": [
    "C23_Convert_idempotent"
   ],
   "note": "proved as stated"
  },
  {
   "property": "C24",
   "status": "proved",
   "theorems": [
    "C24_Convert_valid"
   ],
   "note": "proved as stated"
  },
  {
   "property": "C25",
   "status": "proved",
   "theorems": [
    "C25_Convert_concat"
   ],
   "note": "proved as stated"
  },
  {
   "property": "C26",
   "status": "proved",
   "theorems": [
    "C26_IsHanja_coverage"
   ],
   "note": "proved as stated"
  },
  {
   "property": "C27",
   "status": "partial",
   "theorems": [
    "C27_refuted",
    "C27_unified_hanja_convert_partial",
    "C27_compatibility_count_partial"
   ],
   "note": "False of the code: the 268 compatibility ideographs of KS X 1001 (U+F900..FA0B) have no reading, witnessed by C27_refuted. The partial theorems show that every other ideograph a CP949 text can contain is converted, that none of the compatibility ones is, and that there are exactly 268."
  },
  {
   "property": "C28",
   "status": "proved",
   "theorems": [
    "C28_decode_encode"
   ],
   "note": "proved as stated"
  },
  {
   "property": "C29",
   "status": "proved",
   "theorems": [
    "C29_encode_decode"
   ],
   "note": "proved as stated"
  },
  {
   "property": "C30",
   "status": "proved",
   "theorems": [
    "C30_From_decodes"
   ],
   "note": "proved as stated"
  },
  {
   "property": "C31",
   "status": "proved",
   "theorems": [
    "C31_To_encodes"
   ],
   "note": "proved as stated"
  },
  {
   "property": "C32",
   "status": "partial",
   "theorems": [
    "C32_double_mark_refuted",
    "C32_wrong_character_refuted",
    "C32_unencodable_partial"
   ],
   "note": "False of the code in two ways: characters above U+FFE6 (and every invalid byte) become two question marks, and characters beyond U+FFFF are truncated to 16 bits and may be written as an unrelated character. The partial theorem gives the exact output for every character outside the repertoire."
  },
  {
   "property": "C33",
   "status": "proved",
   "theorems": [
    "C33_ascii"
   ],
   "note": "proved as stated"
  },
  {
   "property": "C34",
   "status": "proved",
   "theorems": [
    "C34_From_valid"
   ],
   "note": "proved as stated"
  },
  {
   "property": "C35",
   "status": "proved",
   "theorems": [
    "C35_To_decodable"
   ],
   "note": "proved as stated"
  },
  {
   "property": "C36",
   "status": "proved",
   "theorems": [
    "C36_From_concat"
   ],
   "note": "proved as stated"
  },
  {
   "property": "C37",
   "status": "proved",
   "theorems": [
    "C37_To_concat"
   ],
   "note": "proved as stated"
  },
  {
   "property": "C38",
   "status": "proved",
   "theorems": [
    "C38_tables"
   ],
   "note": "proved as stated"
  },
  {
   "property": "C39",
   "status": "proved",
   "theorems": [
    "C39_syllables"
   ],
   "note": "proved as stated"
  },
  {
   "property": "C40",
   "status": "proved",
   "theorems": [
    "C40_punctuation",
    "C40_code_bytes"
   ],
   "note": "proved as stated"
  },
  {
   "property": "C41",
   "status": "proved",
   "theorems": [
    "C41_From_size",
    "C41_To_size"
   ],
   "note": "proved as stated"
  },
  {
   "property": "C42",
   "status": "proved",
   "theorems": [
    "C42_total"
   ],
   "note": "proved as stated"
  },
  {
   "property": "C43",
   "status": "proved",
   "theorems": [
    "C43_growth"
   ],
   "note": "proved as stated"
  },
  {
   "property": "C44",
   "status": "proved",
   "theorems": [
    "C44_from_reuse",
    "C44_to_reuse"
   ],
   "note": "proved as stated"
  },
  {
   "property": "C45",
   "status": "proved",
   "theorems": [
    "C45_Reader_chunking"
   ],
   "note": "proved as stated"
  },
  {
   "property": "C46",
   "status": "partial",
   "theorems": [
    "C46_refuted",
    "C46_delivered_partial"
   ],
   "note": "False of the code: reading {0x41,0xB0} into a 16-byte buffer delivers nothing and a clean EOF, witnessed by C46_refuted. C46_delivered_partial states for every wrapped reader exactly what is delivered (the chunks up to the last character-aligned chunk end) and what is lost."
  },
  {
   "property": "C47",
   "status": "proved",
   "theorems": [
    "C47_Reader_prefix"
   ],
   "note": "proved as stated"
  },
  {
   "property": "C48",
   "status": "proved",
   "theorems": [
    "C48_Read_progress"
   ],
   "note": "proved as stated"
  },
  {
   "property": "C49",
   "status": "proved",
   "theorems": [
    "C49_sticky"
   ],
   "note": "proved as stated"
  },
  {
   "property": "C50",
   "status": "partial",
   "theorems": [
    "C50_later_refuted",
    "C50_after_first_partial",
    "C50_refuted",
    "C50_empty_read_partial"
   ],
   "note": "False of the code: on a fresh Reader an empty Read ends the stream (C50_refuted), and later ones can drop characters (C50_later_refuted). Proved: it is harmless while converted data is pending and after an error, and always after a first Read with room for a character when the wrapped reader hands out whole characters (C50_after_first_partial). C126 has the exact behaviour."
  },
  {
   "property": "C51",
   "status": "proved",
   "theorems": [
    "C51_Writer_chunking"
   ],
   "note": "proved as stated"
  },
  {
   "property": "C52",
   "status": "partial",
   "theorems": [
    "C52_refuted",
    "C52_per_chunk_partial"
   ],
   "note": "False of the code: a character split between two Writes is destroyed, witnessed by C52_refuted. The partial theorem gives the exact output for every split: the concatenation of To of each chunk. C51 is the positive result."
  },
  {
   "property": "C53",
   "status": "proved",
   "theorems": [
    "C53_Writer_errors"
   ],
   "note": "proved as stated"
  },
  {
   "property": "C54",
   "status": "proved",
   "theorems": [
    "C54_round_trip"
   ],
   "note": "proved as stated"
  },
  {
   "property": "C55",
   "status": "proved",
   "theorems": [
    "C55_Decoder",
    "C55_Encoder"
   ],
   "note": "proved as stated"
  },
  {
   "property": "C56",
   "status": "partial",
   "theorems": [
    "C56_refuted",
    "C56_Decoder_partial",
    "C56_Encoder_partial"
   ],
   "note": "False of the code in every clause (C56_refuted). The partial theorems state exactly what both Transform methods do for every dst, src and atEOF."
  },
  {
   "property": "C57",
   "status": "partial",
   "theorems": [
    "C57_refuted",
    "C57_Decoder_partial",
    "C57_Encoder_partial"
   ],
   "note": "False of the code: both panic when the result is longer than the input, e.g. on any CP949 input with a Korean character (C57_refuted). The partial theorems give the outcome for every input; Encoder.Bytes is right on all valid UTF-8. Rests on the reading of x/text's transform.Bytes given in TransformModel.v."
  },
  {
   "property": "C58",
   "status": "partial",
   "theorems": [
    "C58_exact_partial",
    "C58_panic_refuted",
    "C58_split_refuted",
    "C58_whole_chunks_partial"
   ],
   "note": "False of the code: panic when one read decodes to more than 4096 bytes, error when a read ends inside a character. Proved for chunks of whole characters decoding to at most 4096 bytes, and the exact outcome for all chunks. Rests on the reading of x/text's transform.Reader given in TransformModel.v."
  },
  {
   "property": "C59",
   "status": "proved",
   "theorems": [
    "C59_Convert_encodable"
   ],
   "note": "proved as stated"
  },
  {
   "property": "C60",
   "status": "proved",
   "theorems": [
    "C60_Join_encodable"
   ],
   "note": "proved as stated"
  },
  {
   "property": "C61",
   "status": "proved",
   "theorems": [
    "C61_LastConsonant_of_hanja"
   ],
   "note": "proved as stated"
  },
  {
   "property": "C62",
   "status": "partial",
   "theorems": [
    "C62_refuted",
    "C62_no_data_is_EOF_partial"
   ],
   "note": "False of the code: witnessed by C62_refuted; the partial theorem shows that with nothing pending it is always reported as EOF. C126 has the exact behaviour."
  },
  {
   "property": "C63",
   "status": "partial",
   "theorems": [
    "C63_refuted",
    "C63_whole_characters_partial"
   ],
   "note": "False of the code: a conforming never-ending reader whose chunks always end inside a character makes Read loop for ever (C63_refuted, for every buffer size >= 2 and any number of iterations); proved when the chunk holds whole characters. For streams that end, see C48. C126 has the exact behaviour."
  },
  {
   "property": "C64",
   "status": "proved",
   "theorems": [
    "C64_EOF_means_complete"
   ],
   "note": "Rests on the reading of x/text's transform.Reader given in TransformModel.v."
  },
  {
   "property": "C65",
   "status": "partial",
   "theorems": [
    "C65_refuted",
    "C65_small_writes_partial",
    "C65_exact_partial"
   ],
   "note": "False of the code: a Write whose encoding exceeds 4096 bytes panics (C65_refuted). Proved for writes of at most 4096 bytes; C65_exact_partial gives the outcome for every sequence of chunks. Rests on the reading of x/text's transform.Writer given in TransformModel.v."
  },
  {
   "property": "C66",
   "status": "proved",
   "theorems": [
    "C66_extension_layout"
   ],
   "note": "proved as stated"
  },
  {
   "property": "C67",
   "status": "partial",
   "theorems": [
    "C67_refuted",
    "C67_reading_order_partial",
    "C67_exceptions_partial"
   ],
   "note": "False of the tables for thirteen hanja (listed in SpecTable.v), witnessed by C67_refuted; proved for all others, and each of the thirteen is shown to be a genuine exception."
  },
  {
   "property": "C68",
   "status": "proved",
   "theorems": [
    "C68_reference",
    "C68_assigned"
   ],
   "note": "proved as stated"
  },
  {
   "property": "C69",
   "status": "proved",
   "theorems": [
    "C69_rows"
   ],
   "note": "proved as stated"
  },
  {
   "property": "C70",
   "status": "partial",
   "theorems": [
    "C70_refuted",
    "C70_exact_partial",
    "C70_injective"
   ],
   "note": "False of the code: SplitCompat(0xABFF) = SplitCompat(0xAC00), witnessed by C70_refuted. C70_exact_partial gives the exact set of runes for which the parts look like a syllable's; C70_injective proves the second half as stated."
  },
  {
   "property": "C71",
   "status": "proved",
   "theorems": [
    "C71_nothing_held_back"
   ],
   "note": "proved as stated"
  },
  {
   "property": "C72",
   "status": "proved",
   "theorems": [
    "C72_wrapped_calls"
   ],
   "note": "proved as stated"
  },
  {
   "property": "C73",
   "status": "proved",
   "theorems": [
    "C73_From_cut",
    "C73_To_cut"
   ],
   "note": "proved as stated"
  },
  {
   "property": "C74",
   "status": "proved",
   "theorems": [
    "C74_From_injective",
    "C74_To_injective"
   ],
   "note": "proved as stated"
  },
  {
   "property": "C75",
   "status": "proved",
   "theorems": [
    "C75_prefix"
   ],
   "note": "proved as stated"
  },
  {
   "property": "C76",
   "status": "partial",
   "theorems": [
    "C76_word_partial",
    "C76_refuted",
    "C76_complete_partial",
    "C76_aligned_partial",
    "C76_nonletter_partial"
   ],
   "note": "False of CP949: the second byte of one character and the first of the next can form a third (C76_refuted). Proved: nothing is missed; a hit at an offset where the text before it decodes is genuine; so is any hit of a pattern that starts with an ASCII character other than a letter, or with a word of characters of KS X 1001 before such a character (C76_word_partial)."
  },
  {
   "property": "C77",
   "status": "partial",
   "theorems": [
    "C77_refuted",
    "C77_ks_sorted_partial"
   ],
   "note": "False of CP949: syllables outside KS X 1001 have smaller codes than those inside (C77_refuted). Proved for texts of ASCII and KS X 1001 syllables."
  },
  {
   "property": "C78",
   "status": "partial",
   "theorems": [
    "C78_refuted",
    "C78_Decoder_sound_partial",
    "C78_Encoder_blocks_partial",
    "C78_Decoder_short_partial",
    "C78_Encoder_short_partial",
    "C78_ascii_partial",
    "C78_ends_partial",
    "C78_Decoder_limit_partial",
    "C78_Encoder_limit_partial",
    "C78_Decoder_exact_partial",
    "C78_Encoder_exact_partial"
   ],
   "note": "False of the code: Decoder.String panics or reports an error on valid text, Encoder.String silently encodes wrongly (C78_refuted). Proved: a successful Decoder.String is right; a successful Encoder.String is the blockwise encoding; the exact outcome for every text (C78_Decoder_exact_partial, C78_Encoder_exact_partial) and, spelled out, up to 128 bytes; ASCII of any length; termination; nothing longer than 128 bytes is returned once the first block was changed. Rests on the reading of x/text's transform.String given in TransformModel2.v."
  },
  {
   "property": "C79",
   "status": "proved",
   "theorems": [
    "C79_Reader_contract"
   ],
   "note": "as_reader turns a panic or a Read that does not end into an answer that breaks the contract, so the theorem excludes both."
  },
  {
   "property": "C80",
   "status": "proved",
   "theorems": [
    "C80_Copy_out"
   ],
   "note": "Rests on the reading of io.Copy given in IoModel.v."
  },
  {
   "property": "C81",
   "status": "partial",
   "theorems": [
    "C81_refuted",
    "C81_exact_partial",
    "C81_fits",
    "C81_ascii"
   ],
   "note": "False of the code: io.Copy's 32768-byte buffer cuts the 10923rd syllable of a text of three-byte characters and the Writer replaces both halves by question marks, with no error (C81_refuted). Proved: what arrives in general (C81_exact_partial); the stream is reproduced when its UTF-8 form fits the buffer, however the wrapped reader splits it, and for ASCII of any length. Rests on the reading of io.Copy given in IoModel.v."
  },
  {
   "property": "C82",
   "status": "partial",
   "theorems": [
    "C82_refuted",
    "C82_exact_partial",
    "C82_fits"
   ],
   "note": "False of the code for the same reason (C82_refuted). Proved: the concatenation of To of each chunk arrives, in general; right when the text fits the buffer and the source fills it, as a file does. Rests on the reading of io.Copy given in IoModel.v."
  },
  {
   "property": "C83",
   "status": "partial",
   "theorems": [
    "C83_refuted",
    "C83_whole_partial"
   ],
   "note": "False of the code: as long as the chunks of the wrapped reader end inside a character a single Read goes on reading, and swallows a finite stream of any length (C83_refuted). Proved for wrapped readers that hand out whole characters: at most one call per Read, with a buffer shorter than twice the longest buffer of the client."
  },
  {
   "property": "C84",
   "status": "proved",
   "theorems": [
    "C84_scratch"
   ],
   "note": "proved as stated"
  },
  {
   "property": "C85",
   "status": "proved",
   "theorems": [
    "C85_Convert_length",
    "C85_Convert_encoded_length"
   ],
   "note": "proved as stated"
  },
  {
   "property": "C86",
   "status": "partial",
   "theorems": [
    "C86_refuted",
    "C86_From_partial",
    "C86_To"
   ],
   "note": "False of From on malformed input: an unfinished character swallows the separator (C86_refuted). Proved: true of From on valid CP949 and of To on every byte string (with separators other than the question mark, which To uses as a substitute)."
  },
  {
   "property": "C87",
   "status": "partial",
   "theorems": [
    "C87_From_invents_no_ascii",
    "C87_refuted",
    "C87_valid_partial"
   ],
   "note": "False of the code: a lead byte that starts no code swallows the ASCII byte after it, e.g. a quotation mark (C87_refuted). Proved: no ASCII is ever invented; on valid CP949 all ASCII other than letters is kept."
  },
  {
   "property": "C88",
   "status": "proved",
   "theorems": [
    "C88_To_keeps_ascii"
   ],
   "note": "proved as stated"
  },
  {
   "property": "C89",
   "status": "partial",
   "theorems": [
    "C89_refuted",
    "C89_never_reports_partial"
   ],
   "note": "False of the code: characters outside the repertoire are replaced silently (C89_refuted); the Encoder never reports an error (C89_never_reports_partial)."
  },
  {
   "property": "C90",
   "status": "partial",
   "theorems": [
    "C90_refuted",
    "C90_no_effect_partial"
   ],
   "note": "False of the code, as the Encoder reports no error (C90_refuted): the wrappers have no effect at all, whatever their handler (C90_no_effect_partial). Rests on the reading of x/text's errorHandler given in ClientModel.v."
  },
  {
   "property": "C91",
   "status": "proved",
   "theorems": [
    "C91_ReadAll",
    "C91_ReadAll_truncated"
   ],
   "note": "Rests on the reading of io.ReadAll given in ClientModel.v."
  },
  {
   "property": "C92",
   "status": "proved",
   "theorems": [
    "C92_ReadFull"
   ],
   "note": "Rests on the reading of io.ReadFull given in ClientModel.v."
  },
  {
   "property": "C93",
   "status": "proved",
   "theorems": [
    "C93_decomposed_order",
    "C93_decomposed_unique"
   ],
   "note": "proved as stated"
  },
  {
   "property": "C94",
   "status": "partial",
   "theorems": [
    "C94_refuted",
    "C94_fails_iff_truncated_partial"
   ],
   "note": "False of the code in both parts (C94_refuted). Proved: it fails exactly on truncated input, and otherwise yields the decoding in which a pair of bytes that is no code counts as one U+FFFD (C94_fails_iff_truncated_partial)."
  },
  {
   "property": "C95",
   "status": "proved",
   "theorems": [
    "C95_source_From"
   ],
   "note": "The theorem is about the execution of the syntax trees generated from the Go sources (GoSource.v, GoLang.v)."
  },
  {
   "property": "C96",
   "status": "proved",
   "theorems": [
    "C96_source_To"
   ],
   "note": "The theorem is about the execution of the syntax trees generated from the Go sources (GoSource.v, GoLang.v). The values for characters outside the repertoire are those of C32."
  },
  {
   "property": "C97",
   "status": "proved",
   "theorems": [
    "C97_source_Reader",
    "C97_source_Reader_model",
    "C97_source_Reader_any"
   ],
   "note": "The theorem is about the execution of the syntax trees generated from the Go sources (GoSource.v, GoLang.v)."
  },
  {
   "property": "C98",
   "status": "proved",
   "theorems": [
    "C98_source_Writer"
   ],
   "note": "The theorem is about the execution of the syntax trees generated from the Go sources (GoSource.v, GoLang.v)."
  },
  {
   "property": "C99",
   "status": "proved",
   "theorems": [
    "C99_source_Decoder",
    "C99_source_Encoder"
   ],
   "note": "The theorem is about the execution of the syntax trees generated from the Go sources (GoSource.v, GoLang.v). Where dst is too short the claim of C56 fails as described there; the theorem says what is stored."
  },
  {
   "property": "C100",
   "status": "proved",
   "theorems": [
    "C100_source_hangul_pure",
    "C100_source_hangul_model"
   ],
   "note": "The theorem is about the execution of the syntax trees generated from the Go sources (GoSource.v, GoLang.v)."
  },
  {
   "property": "C101",
   "status": "proved",
   "theorems": [
    "C101_source_hanja_pure",
    "C101_source_hanja_model"
   ],
   "note": "The theorem is about the execution of the syntax trees generated from the Go sources (GoSource.v, GoLang.v)."
  },
  {
   "property": "C102",
   "status": "proved",
   "theorems": [
    "C102_source_constructors"
   ],
   "note": "The theorem is about the execution of the syntax trees generated from the Go sources (GoSource.v, GoLang.v)."
  },
  {
   "property": "C103",
   "status": "proved",
   "theorems": [
    "C103_programs"
   ],
   "note": "The theorem is about the execution of the syntax trees generated from the Go sources (GoSource.v, GoLang.v); ProgSpec.v says what each request should do. Readers are opened over any streams, also ones that end inside a character. A Read has a non-empty buffer."
  },
  {
   "property": "C104",
   "status": "partial",
   "theorems": [
    "C104_refuted",
    "C104_counts_partial",
    "C104_first_partial"
   ],
   "note": "Refuted as stated: a negative count that takes back no more than what is still unconverted goes unnoticed and loses data. Proved: a Read that returns has seen no count larger than the buffer and no negative count exceeding the bytes delivered before; on the first Read every impossible count panics."
  },
  {
   "property": "C105",
   "status": "partial",
   "theorems": [
    "C105_count_refuted",
    "C105_short_refuted",
    "C105_honest_partial"
   ],
   "note": "Refuted as stated: with an error the count is 0 although a part was written, and a short write without an error is not noticed. Proved over writers that keep the contract of io.Writer: without an error everything was written, with an error some prefix of it."
  },
  {
   "property": "C106",
   "status": "partial",
   "theorems": [
    "C106_cut_refuted",
    "C106_panic_refuted",
    "C106_whole_chunks_partial",
    "C106_exact_partial"
   ],
   "note": "Refuted as stated: characters cut by the 4096-byte buffer become question marks, and more than 2048 bytes of invalid UTF-8 panic. Proved for chunks of whole characters, and the exact outcome for all chunks."
  },
  {
   "property": "C107",
   "status": "partial",
   "theorems": [
    "C107_split_refuted",
    "C107_panic_refuted",
    "C107_whole_chunks_partial",
    "C107_exact_partial"
   ],
   "note": "Refuted as stated: a character split between two Writes is refused, and a Write that decodes to more than 4096 bytes panics. Proved for chunks of whole characters of at most 4096 decoded bytes, and the exact outcome for all chunks."
  },
  {
   "property": "C108",
   "status": "proved",
   "theorems": [
    "C108_goroutines_independent"
   ],
   "note": "Proved as stated. An access to several cells of one array is one step, which is faithful because of the absence of data races that is part of the claim."
  },
  {
   "property": "C109",
   "status": "proved",
   "theorems": [
    "C109_concurrent_conversions"
   ],
   "note": "proved as stated"
  },
  {
   "property": "C110",
   "status": "proved",
   "theorems": [
    "C110_concurrent_pure"
   ],
   "note": "proved as stated"
  },
  {
   "property": "C111",
   "status": "partial",
   "theorems": [
    "C111_shared_reader_refuted",
    "C111_shared_reader_panics_refuted"
   ],
   "note": "Refuted: two Reads can both deliver the same bytes, and a Read can panic. Proved for separate Readers in C108."
  },
  {
   "property": "C112",
   "status": "partial",
   "theorems": [
    "C112_shared_map_refuted"
   ],
   "note": "Refuted: writing into the result of SplitMultiElement is a data race with Stroke and changes its result. For all other functions that return slices it holds, by C108."
  },
  {
   "property": "C113",
   "status": "proved",
   "theorems": [
    "C113_lines",
    "C113_long_line"
   ],
   "note": "Rests on the reading of bufio.Scanner given in BufioModel.v."
  },
  {
   "property": "C114",
   "status": "proved",
   "theorems": [
    "C114_runes"
   ],
   "note": "Rests on the reading of bufio.Scanner given in BufioModel.v."
  },
  {
   "property": "C115",
   "status": "partial",
   "theorems": [
    "C115_string_refuted",
    "C115_write_refuted",
    "C115_exact_partial",
    "C115_fits",
    "C115_ascii"
   ],
   "note": "False of the code: the buffer is flushed when it is full, and the Writer does not wait for the rest of a character, so 4095 letters and a syllable in one WriteString, or in two Writes, end in question marks (both refuted theorems). Proved: what arrives in general; right when the text fits the buffer, and for ASCII. Rests on the reading of bufio.Writer given in BufioModel.v."
  },
  {
   "property": "C116",
   "status": "proved",
   "theorems": [
    "C116_runes"
   ],
   "note": "Rests on the reading of bufio.Writer given in BufioModel.v."
  },
  {
   "property": "C117",
   "status": "proved",
   "theorems": [
    "C117_constants",
    "C117_only"
   ],
   "note": "proved as stated"
  },
  {
   "property": "C118",
   "status": "proved",
   "theorems": [
    "C118_platform_hangul",
    "C118_platform_hanja",
    "C118_platform_From",
    "C118_platform_To",
    "C118_platform_Decoder",
    "C118_platform_Encoder",
    "C118_platform_Reader",
    "C118_platform_Reader_any",
    "C118_platform_Writer"
   ],
   "note": "GoPlatform.v retypes the syntax trees of GoSource.v; the constructors and Reset, which do no arithmetic, are not repeated. The bounds are sufficient, not claimed to be necessary."
  },
  {
   "property": "C119",
   "status": "proved",
   "theorems": [
    "C119_text_hangul",
    "C119_text_hanja",
    "C119_text_cp949",
    "C119_text_From",
    "C119_text_hangul_pure",
    "C119_text_hanja_pure"
   ],
   "note": "The reading covers the part of Go that the files use and rejects the rest; what is imported (io, utf8, sort, x/text) is given in GoElab.v. The order of the files, which Go does not care about, is one in which constants come before their uses."
  },
  {
   "property": "C120",
   "status": "proved",
   "theorems": [
    "C120_From",
    "C120_To",
    "C120_runtime"
   ],
   "note": "Memory is what the interpreter of GoLang.v allocates for slices; stack frames and the fixed-size objects of the package are not counted. C120_runtime proves the condition for the growth rule of the Go runtime, without the rounding to size classes."
  },
  {
   "property": "C121",
   "status": "proved",
   "theorems": [
    "C121_Writer"
   ],
   "note": "Memory is counted as in C120; the bound does not depend on the number of Writes. A Writer needs a translator and itself besides, of fixed size."
  },
  {
   "property": "C122",
   "status": "partial",
   "theorems": [
    "C122_Reader_refuted",
    "C122_Reader_whole_partial",
    "C122_Reader_stream_partial",
    "C122_Reader_any_partial"
   ],
   "note": "False: C122_Reader_refuted gives streams of two-byte pieces, each ending inside a character, one Read of which allocates more than any given amount, whatever the buffer. True when the pieces are whole characters (at most 84B + 384 bytes for Reads of up to B bytes); otherwise at most 48 bytes per byte of the stream, 12B and 384."
  },
  {
   "property": "C123",
   "status": "proved",
   "theorems": [
    "C123_Writer_steady"
   ],
   "note": "No condition on the growth policy. Writes are compared by the length of their encoded form."
  },
  {
   "property": "C124",
   "status": "proved",
   "theorems": [
    "C124_shared_transformers"
   ],
   "note": "Proved as stated. The receiver is any struct without fields, which is what NewDecoder and NewEncoder wrap (C102)."
  },
  {
   "property": "C125",
   "status": "partial",
   "theorems": [
    "C125_shared_writer_refuted"
   ],
   "note": "Refuted: both Writes convert into one scratch buffer, and the wrapped writer can receive the second text twice and the first never, although both calls report success. Proved for separate Writers in C108."
  },
  {
   "property": "C126",
   "status": "proved",
   "theorems": [
    "C126_Reads_exact",
    "C126_Reads_determined"
   ],
   "note": "Proved for all sequences of Reads, also after errors and with empty buffers; a second theorem shows that the description leaves no choice when the answers of the wrapped reader do not depend on the buffer size. It is the exact form of C50, C62, C63 and C83."
  },
  {
   "property": "C127",
   "status": "partial",
   "theorems": [
    "C127_refuted",
    "C127_same_Read",
    "C127_exact_partial",
    "C127_whole_partial"
   ],
   "note": "Refuted: after each chunk that ends inside a character a Read converts again everything it has collected, so its work grows with the square of the stream. Proved: the exact amount for every wrapped reader (the first chunk, then the first two, ...), and that every byte is converted once when the chunks are whole characters, for buffers of two bytes or any other least size from which on they are."
  },
  {
   "property": "C128",
   "status": "proved",
   "theorems": [
    "C128_From",
    "C128_To"
   ],
   "note": "Steps are counted on the executions of GoLang.v by GoTime.v; a lookup in one of Go's maps counts as one step and what the caller's readers and writers do as none. The state may hold any objects whose fields called table are the package's tables."
  },
  {
   "property": "C129",
   "status": "proved",
   "theorems": [
    "C129_Decoder",
    "C129_Encoder",
    "C129_Writer"
   ],
   "note": "Steps as in C128; what the wrapped writer does is not counted."
  },
  {
   "property": "C130",
   "status": "proved",
   "theorems": [
    "C130_characters",
    "C130_Join",
    "C130_words",
    "C130_hanja"
   ],
   "note": "Steps as in C128; a map lookup is one step. The contents of the slices that SplitMultiElement hands out do not matter."
  },
  {
   "property": "C131",
   "status": "proved",
   "theorems": [
    "C131_Reader_work",
    "C131_Reader_stream",
    "C131_Reader_whole"
   ],
   "note": "Steps as in C128. The first theorem needs no assumption on append and holds for every wrapped reader for which the Reads return. C132 shows that the square cannot be avoided."
  },
  {
   "property": "C132",
   "status": "partial",
   "theorems": [
    "C132_Reader_linear_refuted",
    "C132_Reader_least_partial"
   ],
   "note": "Refuted: over a wrapped reader whose pieces end inside characters one Read takes steps in proportion to the square of the stream. Proved instead: for every wrapped reader the Reads take at least as many steps as they hand bytes to the conversion, without the last conversion of each Read; C131 is the matching upper bound."
  },
  {
   "property": "C133",
   "status": "proved",
   "theorems": [
    "C133_Writers_as_one",
    "C133_Writers_buffer"
   ],
   "note": "proved as stated"
  },
  {
   "property": "C134",
   "status": "partial",
   "theorems": [
    "C134_refuted",
    "C134_queue_partial"
   ],
   "note": "Refuted: after a Read has found the buffer empty, every later Read reports the end, whatever is written. Proved instead, for texts of encodable characters: the answers are those of a queue of bytes up to the first Read that finds it empty, and the end ever after; every Read before it returns something."
  },
  {
   "property": "C135",
   "status": "partial",
   "theorems": [
    "C135_order_refuted",
    "C135_end_refuted",
    "C135_exact_partial",
    "C135_pieces_partial"
   ],
   "note": "Refuted: a Reader keeps the decoded text that did not fit, and another Reader goes on after it, so that text is out of order, or the end is reported before everything is delivered. Proved instead: exactly what each Read returns over every reader that stays within its buffer (each Reader with its own rest and error, all with one stream), and the claim itself over readers that hand out pieces of whole characters which, decoded, fit every Read."
  },
  {
   "property": "C136",
   "status": "proved",
   "theorems": [
    "C136_under_Reader",
    "C136_over_Reader",
    "C136_contract"
   ],
   "note": "proved as stated"
  },
  {
   "property": "C137",
   "status": "proved",
   "theorems": [
    "C137_Tee"
   ],
   "note": "proved as stated"
  },
  {
   "property": "C138",
   "status": "proved",
   "theorems": [
    "C138_MultiWriter",
    "C138_buffers"
   ],
   "note": "proved as stated"
  },
  {
   "property": "C139",
   "status": "proved",
   "theorems": [
    "C139_pipe",
    "C139_round_trip"
   ],
   "note": "proved as stated"
  },
  {
   "property": "C140",
   "status": "partial",
   "theorems": [
    "C140_refuted",
    "C140_nonempty_partial",
    "C140_empty_partial"
   ],
   "note": "Refuted: an empty Write is answered by a Read of no bytes without error, which the Reader takes for the end of the stream; everything after it is lost. Proved instead: the claim when no Write is empty, and that otherwise the Reader delivers From of what comes before the first empty Write and then reports EOF."
  },
  {
   "property": "C141",
   "status": "partial",
   "theorems": [
    "C141_refuted",
    "C141_exact_partial"
   ],
   "note": "Refuted: LastConsonant applies Split to any character, and Split to characters outside the syllables gives a nonzero tail unless the distance from U+AC00 is a multiple of 28; after the letter A the form for consonants is appended. Proved instead: which form every word gets."
  },
  {
   "property": "C142",
   "status": "partial",
   "theorems": [
    "C142_refuted",
    "C142_exact_partial"
   ],
   "note": "Refuted: the decomposed form of 나 gets the particle for consonants. Proved instead: a decomposed word gets the one for consonants unless its last letter is U+1174 or U+11AC."
  },
  {
   "property": "C143",
   "status": "partial",
   "theorems": [
    "C143_Split_refuted",
    "C143_Split_partial",
    "C143_block_partial",
    "C143_SplitCompat_partial"
   ],
   "note": "Refuted for Split: conjoining jamo are not in CP949. Proved instead: To turns each of them into one question mark, and the claim for SplitCompat."
  },
  {
   "property": "C144",
   "status": "proved",
   "theorems": [
    "C144_ReadString",
    "C144_unique"
   ],
   "note": "proved as stated"
  },
  {
   "property": "C145",
   "status": "proved",
   "theorems": [
    "C145_ReadRune",
    "C145_ReadByte"
   ],
   "note": "proved as stated"
  },
  {
   "property": "C146",
   "status": "proved",
   "theorems": [
    "C146_locked_reader"
   ],
   "note": "proved as stated"
  },
  {
   "property": "C147",
   "status": "proved",
   "theorems": [
    "C147_locked_writer"
   ],
   "note": "proved as stated"
  },
  {
   "property": "C148",
   "status": "proved",
   "theorems": [
    "C148_parts_independent"
   ],
   "note": "proved as stated"
  },
  {
   "property": "C149",
   "status": "proved",
   "theorems": [
    "C149_concurrent_transforms"
   ],
   "note": "proved as stated"
  },
  {
   "property": "C150",
   "status": "partial",
   "theorems": [
    "C150_refuted",
    "C150_chain_partial"
   ],
   "note": "False: the result of one Transformer must fit into the 4096 bytes of the buffer before the next, otherwise the call panics, since Transform reports more bytes than it stored (C150_refuted: 1366 syllables through a Decoder and an Encoder). C150_chain_partial gives the outcome of every sequence of calls on every chain: the conversions in sequence, the error, or the panic exactly when something between two Transformers is longer than 4096 bytes. After an error beyond the first Transformer all of src counts as consumed."
  },
  {
   "property": "C151",
   "status": "proved",
   "theorems": [
    "C151_agents_independent"
   ],
   "note": "proved as stated"
  },
  {
   "property": "C152",
   "status": "proved",
   "theorems": [
    "C152_compose",
    "C152_unique"
   ],
   "note": "proved as stated"
  },
  {
   "property": "C153",
   "status": "partial",
   "theorems": [
    "C153_refuted",
    "C153_exact_partial",
    "C153_simple_partial"
   ],
   "note": "False: 각가 and 가까 are both ㄱㅏㄱㄱㅏ (C153_refuted). C153_exact_partial says exactly which texts coincide: those that arise from one another by moving half of a doubled lead to the end of the tail before it, where that gives a tail, and back, any number of times. C153_simple_partial: two texts without syllables with a doubled lead coincide only if they are equal."
  },
  {
   "property": "C154",
   "status": "proved",
   "theorems": [
    "C154_shared_independent"
   ],
   "note": "proved as stated"
  },
  {
   "property": "C155",
   "status": "proved",
   "theorems": [
    "C155_shared_writers"
   ],
   "note": "proved as stated"
  },
  {
   "property": "C156",
   "status": "proved",
   "theorems": [
    "C156_writer_may_keep"
   ],
   "note": "proved as stated"
  },
  {
   "property": "C157",
   "status": "proved",
   "theorems": [
    "C157_reader_may_scribble"
   ],
   "note": "proved as stated"
  },
  {
   "property": "C158",
   "status": "partial",
   "theorems": [
    "C158_reader_keeps_refuted",
    "C158_reader_keeps_partial"
   ],
   "note": "False: the first byte of an incomplete character stays in memory that an earlier call of the wrapped reader was given, and can be overwritten before the second byte arrives (C158_reader_keeps_refuted, with Reads of 4 and 3 bytes). Proved instead: the claim for readers that hand out whole characters for the buffers that come up."
  },
  {
   "property": "C159",
   "status": "proved",
   "theorems": [
    "C159_words",
    "C159_long_word"
   ],
   "note": "proved as stated"
  },
  {
   "property": "C160",
   "status": "proved",
   "theorems": [
    "C160_shared_readers"
   ],
   "note": "proved as stated"
  },
  {
   "property": "C161",
   "status": "partial",
   "theorems": [
    "C161_refuted",
    "C161_partial"
   ],
   "note": "False: two Readers over one stream may each receive one byte of a two-byte character, and then both report the end of the stream and nobody reads the character (C161_refuted). Proved instead (C161_partial), for all streams, divisions into pieces, buffers and interleavings: every byte of the stream goes to one Reader in order, and each goroutine reads the text of the bytes its Reader received, except for those since the last whole character boundary if its Reader meets the end inside a character. C160 is the claim for readers that hand out whole characters."
  },
  {
   "property": "C162",
   "status": "partial",
   "theorems": [
    "C162_refuted",
    "C162_From_partial",
    "C162_ascii_partial",
    "C162_To"
   ],
   "note": "False for From: for every n there is a text of n+2 characters in which one changed byte leaves no character as it was (C162_refuted), since the bytes of all pairs after it are paired anew. Proved instead, for every text and every replacement of any part of it: the characters before come out as before; those after it do so if the new part is a text of its own, otherwise it takes one byte of what follows (C162_From_partial); after the next ASCII byte everything comes out as before in any case (C162_ascii_partial). For To the claim holds, for parts of any length (C162_To)."
  },
  {
   "property": "C163",
   "status": "proved",
   "theorems": [
    "C163_utf8",
    "C163_cp949"
   ],
   "note": "proved as stated"
  },
  {
   "property": "C164",
   "status": "partial",
   "theorems": [
    "C164_refuted",
    "C164_partial"
   ],
   "note": "False for TrimSpace: the code C2A0 of the syllable U+D63B is the UTF-8 encoding of the no-break space, so the syllable itself is trimmed off (C164_refuted). The claim for sets of ASCII characters that are not letters is proved in full, in both directions (C164_partial)."
  },
  {
   "property": "C165",
   "status": "partial",
   "theorems": [
    "C165_refuted",
    "C165_exact_partial",
    "C165_partial",
    "C165_first_partial"
   ],
   "note": "False: for every length there are texts of syllables (U+C9D5, code C2A1) whose encoding is valid UTF-8 (C165_refuted). Proved instead for texts without Chinese characters: the encoding is valid UTF-8 exactly if every character beyond ASCII has a code with lead byte C2 or more and trail byte 80..BF (C165_exact_partial), so never if the text contains a character with a code below C200 (C165_partial). With Chinese characters, whose codes may combine to longer UTF-8 sequences, it is enough that the first character beyond ASCII has a code below C200 (C165_first_partial); an exact description is missing there."
  },
  {
   "property": "C166",
   "status": "partial",
   "theorems": [
    "C166_refuted",
    "C166_converted",
    "C166_exceptions_partial",
    "C166_encodable_partial"
   ],
   "note": "The first half is proved (C166_converted). Encodability is false (C166_refuted): NFC turns the angstrom sign U+212B into U+00C5, and U+F92C and U+F9B8 into ideographs that CP949 lacks; NFC keeps every other encodable character encodable (C166_exceptions_partial), and Convert(NFC(text)) is encodable for every encodable text without the angstrom sign (C166_encodable_partial)."
  },
  {
   "property": "C167",
   "status": "partial",
   "theorems": [
    "C167_refuted",
    "C167_needed_partial",
    "C167_exceptions_partial",
    "C167_partial"
   ],
   "note": "False (C167_refuted): 256 of the 268 compatibility ideographs are each on the wrong side of some hanja (C167_needed_partial, C167_exceptions_partial), because Convert knows one reading per character. The order holds for the other twelve together with all hanja but the thirteen of C67 (C167_partial); the twelve are second copies of twelve of these thirteen."
  },
  {
   "property": "C168",
   "status": "partial",
   "theorems": [
    "C168_refuted",
    "C168_To_partial",
    "C168_From"
   ],
   "note": "The half about From is proved for all byte strings (C168_From). The half about To is false for characters that cannot be encoded, which become one byte in most cases (C168_refuted); it holds for encodable texts, and for all others the length is between the number of characters and that of columns (C168_To_partial)."
  },
  {
   "property": "C169",
   "status": "partial",
   "theorems": [
    "C169_refuted",
    "C169_exact_partial",
    "C169_partial"
   ],
   "note": "False: the second byte of a code may be a letter, and one syllable becomes another (C169_refuted). It holds exactly for the texts without a code whose second byte changes (C169_exact_partial), among them all texts of KS X 1001 (C169_partial)."
  },
  {
   "property": "C170",
   "status": "proved",
   "theorems": [
    "C170_words",
    "C170_error"
   ],
   "note": "proved as stated"
  },
  {
   "property": "C171",
   "status": "partial",
   "theorems": [
    "C171_refuted",
    "C171_syllable_refuted",
    "C171_partial",
    "C171_every_partial",
    "C171_word_partial",
    "C171_word_every_partial"
   ],
   "note": "False: a letter is found inside of syllables, a syllable between two others, and the result is Korean text still (refuted). Proved for every old that begins with an ASCII character that is not a letter. The same is proved if characters of KS X 1001 precede that character (C171_word_partial)."
  },
  {
   "property": "C172",
   "status": "proved",
   "theorems": [
    "C172_From",
    "C172_cut"
   ],
   "note": "proved as stated"
  },
  {
   "property": "C173",
   "status": "partial",
   "theorems": [
    "C173_refuted",
    "C173_partial"
   ],
   "note": "False for every distance: two texts of syllables have the same bytes for so long around a position, at which a character begins in one and not in the other (refuted). Proved: the bytes back to the nearest one below 0x80 tell."
  },
  {
   "property": "C174",
   "status": "proved",
   "theorems": [
    "C174_lead",
    "C174_medial"
   ],
   "note": "proved as stated"
  },
  {
   "property": "C175",
   "status": "partial",
   "theorems": [
    "C175_refuted",
    "C175_partial",
    "C175_last_partial"
   ],
   "note": "False for every lead consonant: there is a syllable with it, outside of KS X 1001, that is sorted before (refuted). Proved for words of ASCII and the syllables of KS X 1001, also after a common beginning; the range of the last lead ends at the byte 0xC9."
  },
  {
   "property": "C176",
   "status": "proved",
   "theorems": [
    "C176_cut",
    "C176_pad",
    "C176_take"
   ],
   "note": "proved as stated"
  },
  {
   "property": "C177",
   "status": "proved",
   "theorems": [
    "C177_From",
    "C177_To",
    "C177_Convert"
   ],
   "note": "proved as stated"
  },
  {
   "property": "C178",
   "status": "partial",
   "theorems": [
    "C178_Decoder_refuted",
    "C178_Encoder_refuted",
    "C178_Decoder_partial",
    "C178_Encoder_partial"
   ],
   "note": "False: a result longer than the room panics, since Transform reports more bytes than it stored. The room is the free capacity of dst, or the length of src if it has none; so a Decoder panics on a syllable with an empty dst, and an Encoder on two letters with room for one (both refuted). Proved: the exact outcome for every destination and source, with the contents of the array of dst afterwards; an Encoder with a full dst succeeds on all valid UTF-8. Rests on the reading of x/text's Append given in AppendModel.v."
  },
  {
   "property": "C179",
   "status": "partial",
   "theorems": [
    "C179_letters",
    "C179_refuted",
    "C179_differ_partial",
    "C179_filled_partial"
   ],
   "note": "The order of letters is proved (C179_letters). For texts it is false: 가나 comes before 간, but its letters after those of 간 (refuted). Proved instead: which of two texts comes first by its letters, at the first syllables that differ (only a tail that one lacks can disturb the order); and that the order is kept if a missing tail is kept as 0."
  },
  {
   "property": "C180",
   "status": "partial",
   "theorems": [
    "C180_refuted",
    "C180_fails_partial",
    "C180_rest_partial",
    "C180_empty_partial"
   ],
   "note": "False: Read(nil) on a fresh Reader reports the end of the stream (refuted), for every content that is not empty and every wrapped reader that stores nothing in an empty buffer (C180_fails_partial). Proved: the other two checks pass for every conforming wrapped reader, and all of them for an empty stream. Rests on the reading of TestReader given in IotestModel.v."
  },
  {
   "property": "C181",
   "status": "partial",
   "theorems": [
    "C181_refuted",
    "C181_complete_partial",
    "C181_letterless_partial",
    "C181_ks_partial"
   ],
   "note": "False: the bytes of some syllables end with that of the letter A (refuted, both ways). Proved: the bytes of a suffix are a suffix; the test is exact for texts without ASCII letters, and for a suffix of characters of KS X 1001 in any text. Not claimed: suffixes with characters of the extension in texts with letters."
  },
  {
   "property": "C182",
   "status": "proved",
   "theorems": [
    "C182_in_place"
   ],
   "note": "proved as stated"
  },
  {
   "property": "C183",
   "status": "partial",
   "theorems": [
    "C183_refuted",
    "C183_partial",
    "C183_five_partial"
   ],
   "note": "False: U+5550 and four others are read U+CD40, a syllable of the extension (refuted). Proved: it is so of every other hanja, and the five are not in CP949."
  },
  {
   "property": "C184",
   "status": "partial",
   "theorems": [
    "C184_refuted",
    "C184_To_partial",
    "C184_From_partial",
    "C184_From_alone_partial",
    "C184_From_none_partial",
    "C184_Convert_partial"
   ],
   "note": "False of To and From (refuted). Proved what happens instead, for all texts: To puts a question mark in front; From puts U+7664 in front and pairs the third byte with the next one (or fails if there is none); From never yields a mark. Convert keeps it."
  },
  {
   "property": "C185",
   "status": "proved",
   "theorems": [
    "C185_To",
    "C185_From",
    "C185_Convert",
    "C185_html"
   ],
   "note": "proved as stated"
  },
  {
   "property": "C186",
   "status": "proved",
   "theorems": [
    "C186_To",
    "C186_From",
    "C186_letters"
   ],
   "note": "proved as stated"
  },
  {
   "property": "C187",
   "status": "partial",
   "theorems": [
    "C187_refuted",
    "C187_partial",
    "C187_old_partial"
   ],
   "note": "False: the filler and the old letters U+3164..318E are in CP949 and IsHangul does not hold of them (refuted; C187_old_partial for all of these). Proved: among the characters of CP949 it holds exactly of the syllables and of U+3131..3163."
  },
  {
   "property": "C188",
   "status": "proved",
   "theorems": [
    "C188_disjoint",
    "C188_Convert"
   ],
   "note": "proved as stated"
  },
  {
   "property": "C189",
   "status": "partial",
   "theorems": [
    "C189_refuted",
    "C189_runes_partial",
    "C189_lines_partial"
   ],
   "note": "False of pieces as Read returns them: a piece may end inside of a character, and the hanja 0xD3DE read in pieces of two bytes becomes six question marks (refuted). Proved: character by character, with a bufio.Scanner and ScanRunes, for all texts of the tables and all sources. Also proved line by line, with ScanLines, for lines of fewer than 65536 bytes of UTF-8 that are all ended by a newline and contain no carriage return."
  },
  {
   "property": "C190",
   "status": "proved",
   "theorems": [
    "C190_kept",
    "C190_origin"
   ],
   "note": "proved as stated"
  },
  {
   "property": "C191",
   "status": "partial",
   "theorems": [
    "C191_refuted",
    "C191_utf8_partial",
    "C191_utf16_partial"
   ],
   "note": "False for UTF-8: U+7664 followed by a character whose code begins with 0xBF, such as U+C5FC, is encoded as the mark and one more byte (refuted). Proved: these are the only texts of encodable characters that begin with it, and the result of To contains no byte 0xFF, hence no mark of UTF-16, for all inputs."
  },
  {
   "property": "C192",
   "status": "partial",
   "theorems": [
    "C192_refuted",
    "C192_consonant_partial",
    "C192_vowel_partial",
    "C192_lead_partial",
    "C192_two_partial",
    "C192_start_partial"
   ],
   "note": "False: U+B098 gets the particle for consonants (refuted). Proved instead, for every word, which particle is chosen, by the bytes of the last code alone: the one for consonants if the second byte is 0xC0 or more, an ASCII letter other than H and d, or follows a first byte of 0xC0, 0xC1, or 0xE0 and more; the other one for H and d; for codes that are UTF-8 by accident, by the character they read as. Codes with both bytes in 0x80..0xBF, such as that of U+AC00, give the particle for consonants at the start of a text, behind ASCII and behind a byte from C0 to DF; left out are these codes behind other bytes, with which they may form a character of UTF-8."
  },
  {
   "property": "C193",
   "status": "partial",
   "theorems": [
    "C193_refuted",
    "C193_partial"
   ],
   "note": "False: U+C9D5 is encoded as C2 A1, of which To makes A2 AE, the code of U+00A1 (refuted). Proved: whatever is not valid UTF-8, encoded or not, gives two question marks in a row; C165 says which encoded texts without Chinese characters are valid UTF-8."
  },
  {
   "property": "C194",
   "status": "partial",
   "theorems": [
    "C194_refuted",
    "C194_exact_partial"
   ],
   "note": "False: U+AC01 twice becomes three other characters (refuted). Proved for all texts when there is an error: exactly if an odd number of characters behind the last ASCII character take three bytes. Left out: which texts give replacement characters."
  },
  {
   "property": "C195",
   "status": "partial",
   "theorems": [
    "C195_refuted",
    "C195_partial",
    "C195_first_partial"
   ],
   "note": "False: hanja with the same reading have different codes, which decide before the rest of the word (refuted). Proved for words whose first different characters are hanja with different readings, outside the thirteen that C67 excepts; and for all words that are converted before they are encoded, if their characters are ASCII, syllables of KS X 1001, or hanja whose reading is not U+CD40. Left out: other characters."
  }
 ]
}