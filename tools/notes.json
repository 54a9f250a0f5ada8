{
 "C06": "False of the code as stated: an unusable non-zero tail is silently dropped (Join(0x1100,0x1161,0x3138) = 0xAC00), witnessed by C06_refuted. The partial theorem gives the exact behaviour for all arguments.",
 "C13": "False of the code for the letter WE (elements U, E; E is itself composite), witnessed by C13_refuted; proved for every other letter.",
 "C15": "False of the code for WE (Stroke 2 instead of 5), witnessed by C15_refuted; proved for every other letter and every syllable without WE; C15_Stroke_WE gives the exact error.",
 "C18": "False of the code: LastConsonant(\"a\") = 0x11A4, witnessed by C18_refuted. The partial theorem gives the exact result for every word.",
 "C21": "False of the code: SplitMultiElement returns the slice stored in the package table, witnessed by C21_refuted. The partial theorem confines the damage to the letter assigned to.",
 "C16": "proved as stated; the recursion depth of the code is bounded by 2",
 "C27": "False of the code: the 268 compatibility ideographs of KS X 1001 (U+F900..FA0B) have no reading, witnessed by C27_refuted. The partial theorems show that every other ideograph a CP949 text can contain is converted, that none of the compatibility ones is, and that there are exactly 268.",
 "C32": "False of the code in two ways: characters above U+FFE6 (and every invalid byte) become two question marks, and characters beyond U+FFFF are truncated to 16 bits and may be written as an unrelated character. The partial theorem gives the exact output for every character outside the repertoire.",
 "C46": "False of the code: reading {0x41,0xB0} into a 16-byte buffer delivers nothing and a clean EOF, witnessed by C46_refuted. C46_delivered_partial states for every wrapped reader exactly what is delivered (the chunks up to the last character-aligned chunk end) and what is lost.",
 "C50": "False of the code: on a fresh Reader an empty Read ends the stream (C50_refuted), and later ones can drop characters (C50_later_refuted). Proved: it is harmless while converted data is pending and after an error, and always after a first Read with room for a character when the wrapped reader hands out whole characters (C50_after_first_partial). C126 has the exact behaviour.",
 "C52": "False of the code: a character split between two Writes is destroyed, witnessed by C52_refuted. The partial theorem gives the exact output for every split: the concatenation of To of each chunk. C51 is the positive result.",
 "C62": "False of the code: witnessed by C62_refuted; the partial theorem shows that with nothing pending it is always reported as EOF. C126 has the exact behaviour.",
 "C63": "False of the code: a conforming never-ending reader whose chunks always end inside a character makes Read loop for ever (C63_refuted, for every buffer size >= 2 and any number of iterations); proved when the chunk holds whole characters. For streams that end, see C48. C126 has the exact behaviour.",
 "C56": "False of the code in every clause (C56_refuted). The partial theorems state exactly what both Transform methods do for every dst, src and atEOF.",
 "C57": "False of the code: both panic when the result is longer than the input, e.g. on any CP949 input with a Korean character (C57_refuted). The partial theorems give the outcome for every input; Encoder.Bytes is right on all valid UTF-8. Rests on the reading of x/text's transform.Bytes given in TransformModel.v.",
 "C58": "False of the code: panic when one read decodes to more than 4096 bytes, error when a read ends inside a character. Proved for chunks of whole characters decoding to at most 4096 bytes, and the exact outcome for all chunks. Rests on the reading of x/text's transform.Reader given in TransformModel.v.",
 "C64": "Rests on the reading of x/text's transform.Reader given in TransformModel.v.",
 "C65": "False of the code: a Write whose encoding exceeds 4096 bytes panics (C65_refuted). Proved for writes of at most 4096 bytes; C65_exact_partial gives the outcome for every sequence of chunks. Rests on the reading of x/text's transform.Writer given in TransformModel.v.",
 "C67": "False of the tables for thirteen hanja (listed in SpecTable.v), witnessed by C67_refuted; proved for all others, and each of the thirteen is shown to be a genuine exception.",
 "C70": "False of the code: SplitCompat(0xABFF) = SplitCompat(0xAC00), witnessed by C70_refuted. C70_exact_partial gives the exact set of runes for which the parts look like a syllable's; C70_injective proves the second half as stated.",
 "C76": "False of CP949: the second byte of one character and the first of the next can form a third (C76_refuted). Proved: nothing is missed; a hit at an offset where the text before it decodes is genuine; so is any hit of a pattern that starts with an ASCII character other than a letter, or with a word of characters of KS X 1001 before such a character (C76_word_partial).",
 "C77": "False of CP949: syllables outside KS X 1001 have smaller codes than those inside (C77_refuted). Proved for texts of ASCII and KS X 1001 syllables.",
 "C78": "False of the code: Decoder.String panics or reports an error on valid text, Encoder.String silently encodes wrongly (C78_refuted). Proved: a successful Decoder.String is right; a successful Encoder.String is the blockwise encoding; the exact outcome for every text (C78_Decoder_exact_partial, C78_Encoder_exact_partial) and, spelled out, up to 128 bytes; ASCII of any length; termination; nothing longer than 128 bytes is returned once the first block was changed. Rests on the reading of x/text's transform.String given in TransformModel2.v.",
 "C81": "False of the code: io.Copy's 32768-byte buffer cuts the 10923rd syllable of a text of three-byte characters and the Writer replaces both halves by question marks, with no error (C81_refuted). Proved: what arrives in general (C81_exact_partial); the stream is reproduced when its UTF-8 form fits the buffer, however the wrapped reader splits it, and for ASCII of any length. Rests on the reading of io.Copy given in IoModel.v.",
 "C82": "False of the code for the same reason (C82_refuted). Proved: the concatenation of To of each chunk arrives, in general; right when the text fits the buffer and the source fills it, as a file does. Rests on the reading of io.Copy given in IoModel.v.",
 "C83": "False of the code: as long as the chunks of the wrapped reader end inside a character a single Read goes on reading, and swallows a finite stream of any length (C83_refuted). Proved for wrapped readers that hand out whole characters: at most one call per Read, with a buffer shorter than twice the longest buffer of the client.",
 "C79": "as_reader turns a panic or a Read that does not end into an answer that breaks the contract, so the theorem excludes both.",
 "C80": "Rests on the reading of io.Copy given in IoModel.v.",
 "C86": "False of From on malformed input: an unfinished character swallows the separator (C86_refuted). Proved: true of From on valid CP949 and of To on every byte string (with separators other than the question mark, which To uses as a substitute).",
 "C87": "False of the code: a lead byte that starts no code swallows the ASCII byte after it, e.g. a quotation mark (C87_refuted). Proved: no ASCII is ever invented; on valid CP949 all ASCII other than letters is kept.",
 "C89": "False of the code: characters outside the repertoire are replaced silently (C89_refuted); the Encoder never reports an error (C89_never_reports_partial).",
 "C90": "False of the code, as the Encoder reports no error (C90_refuted): the wrappers have no effect at all, whatever their handler (C90_no_effect_partial). Rests on the reading of x/text's errorHandler given in ClientModel.v.",
 "C94": "False of the code in both parts (C94_refuted). Proved: it fails exactly on truncated input, and otherwise yields the decoding in which a pair of bytes that is no code counts as one U+FFFD (C94_fails_iff_truncated_partial).",
 "C91": "Rests on the reading of io.ReadAll given in ClientModel.v.",
 "C92": "Rests on the reading of io.ReadFull given in ClientModel.v.",
 "C95": "The theorem is about the execution of the syntax trees generated from the Go sources (GoSource.v, GoLang.v).",
 "C96": "The theorem is about the execution of the syntax trees generated from the Go sources (GoSource.v, GoLang.v). The values for characters outside the repertoire are those of C32.",
 "C97": "The theorem is about the execution of the syntax trees generated from the Go sources (GoSource.v, GoLang.v).",
 "C98": "The theorem is about the execution of the syntax trees generated from the Go sources (GoSource.v, GoLang.v).",
 "C99": "The theorem is about the execution of the syntax trees generated from the Go sources (GoSource.v, GoLang.v). Where dst is too short the claim of C56 fails as described there; the theorem says what is stored.",
 "C100": "The theorem is about the execution of the syntax trees generated from the Go sources (GoSource.v, GoLang.v).",
 "C101": "The theorem is about the execution of the syntax trees generated from the Go sources (GoSource.v, GoLang.v).",
 "C102": "The theorem is about the execution of the syntax trees generated from the Go sources (GoSource.v, GoLang.v).",
 "C103": "The theorem is about the execution of the syntax trees generated from the Go sources (GoSource.v, GoLang.v); ProgSpec.v says what each request should do. Readers are opened over any streams, also ones that end inside a character. A Read has a non-empty buffer.",
 "C104": "Refuted as stated: a negative count that takes back no more than what is still unconverted goes unnoticed and loses data. Proved: a Read that returns has seen no count larger than the buffer and no negative count exceeding the bytes delivered before; on the first Read every impossible count panics.",
 "C105": "Refuted as stated: with an error the count is 0 although a part was written, and a short write without an error is not noticed. Proved over writers that keep the contract of io.Writer: without an error everything was written, with an error some prefix of it.",
 "C106": "Refuted as stated: characters cut by the 4096-byte buffer become question marks, and more than 2048 bytes of invalid UTF-8 panic. Proved for chunks of whole characters, and the exact outcome for all chunks.",
 "C107": "Refuted as stated: a character split between two Writes is refused, and a Write that decodes to more than 4096 bytes panics. Proved for chunks of whole characters of at most 4096 decoded bytes, and the exact outcome for all chunks.",
 "C108": "Proved as stated. An access to several cells of one array is one step, which is faithful because of the absence of data races that is part of the claim.",
 "C111": "Refuted: two Reads can both deliver the same bytes, and a Read can panic. Proved for separate Readers in C108.",
 "C112": "Refuted: writing into the result of SplitMultiElement is a data race with Stroke and changes its result. For all other functions that return slices it holds, by C108.",
 "C113": "Rests on the reading of bufio.Scanner given in BufioModel.v.",
 "C114": "Rests on the reading of bufio.Scanner given in BufioModel.v.",
 "C115": "False of the code: the buffer is flushed when it is full, and the Writer does not wait for the rest of a character, so 4095 letters and a syllable in one WriteString, or in two Writes, end in question marks (both refuted theorems). Proved: what arrives in general; right when the text fits the buffer, and for ASCII. Rests on the reading of bufio.Writer given in BufioModel.v.",
 "C116": "Rests on the reading of bufio.Writer given in BufioModel.v.",
 "C118": "GoPlatform.v retypes the syntax trees of GoSource.v; the constructors and Reset, which do no arithmetic, are not repeated. The bounds are sufficient, not claimed to be necessary.",
 "C119": "The reading covers the part of Go that the files use and rejects the rest; what is imported (io, utf8, sort, x/text) is given in GoElab.v. The order of the files, which Go does not care about, is one in which constants come before their uses.",
 "C120": "Memory is what the interpreter of GoLang.v allocates for slices; stack frames and the fixed-size objects of the package are not counted. C120_runtime proves the condition for the growth rule of the Go runtime, without the rounding to size classes.",
 "C121": "Memory is counted as in C120; the bound does not depend on the number of Writes. A Writer needs a translator and itself besides, of fixed size.",
 "C122": "False: C122_Reader_refuted gives streams of two-byte pieces, each ending inside a character, one Read of which allocates more than any given amount, whatever the buffer. True when the pieces are whole characters (at most 84B + 384 bytes for Reads of up to B bytes); otherwise at most 48 bytes per byte of the stream, 12B and 384.",
 "C123": "No condition on the growth policy. Writes are compared by the length of their encoded form.",
 "C124": "Proved as stated. The receiver is any struct without fields, which is what NewDecoder and NewEncoder wrap (C102).",
 "C125": "Refuted: both Writes convert into one scratch buffer, and the wrapped writer can receive the second text twice and the first never, although both calls report success. Proved for separate Writers in C108.",
 "C126": "Proved for all sequences of Reads, also after errors and with empty buffers; a second theorem shows that the description leaves no choice when the answers of the wrapped reader do not depend on the buffer size. It is the exact form of C50, C62, C63 and C83.",
 "C127": "Refuted: after each chunk that ends inside a character a Read converts again everything it has collected, so its work grows with the square of the stream. Proved: the exact amount for every wrapped reader (the first chunk, then the first two, ...), and that every byte is converted once when the chunks are whole characters, for buffers of two bytes or any other least size from which on they are.",
 "C128": "Steps are counted on the executions of GoLang.v by GoTime.v; a lookup in one of Go's maps counts as one step and what the caller's readers and writers do as none. The state may hold any objects whose fields called table are the package's tables.",
 "C129": "Steps as in C128; what the wrapped writer does is not counted.",
 "C130": "Steps as in C128; a map lookup is one step. The contents of the slices that SplitMultiElement hands out do not matter.",
 "C131": "Steps as in C128. The first theorem needs no assumption on append and holds for every wrapped reader for which the Reads return. C132 shows that the square cannot be avoided.",
 "C132": "Refuted: over a wrapped reader whose pieces end inside characters one Read takes steps in proportion to the square of the stream. Proved instead: for every wrapped reader the Reads take at least as many steps as they hand bytes to the conversion, without the last conversion of each Read; C131 is the matching upper bound.",
 "C134": "Refuted: after a Read has found the buffer empty, every later Read reports the end, whatever is written. Proved instead, for texts of encodable characters: the answers are those of a queue of bytes up to the first Read that finds it empty, and the end ever after; every Read before it returns something.",
 "C135": "Refuted: a Reader keeps the decoded text that did not fit, and another Reader goes on after it, so that text is out of order, or the end is reported before everything is delivered. Proved instead: exactly what each Read returns over every reader that stays within its buffer (each Reader with its own rest and error, all with one stream), and the claim itself over readers that hand out pieces of whole characters which, decoded, fit every Read.",
 "C140": "Refuted: an empty Write is answered by a Read of no bytes without error, which the Reader takes for the end of the stream; everything after it is lost. Proved instead: the claim when no Write is empty, and that otherwise the Reader delivers From of what comes before the first empty Write and then reports EOF.",
 "C141": "Refuted: LastConsonant applies Split to any character, and Split to characters outside the syllables gives a nonzero tail unless the distance from U+AC00 is a multiple of 28; after the letter A the form for consonants is appended. Proved instead: which form every word gets.",
 "C142": "Refuted: the decomposed form of 나 gets the particle for consonants. Proved instead: a decomposed word gets the one for consonants unless its last letter is U+1174 or U+11AC.",
 "C143": "Refuted for Split: conjoining jamo are not in CP949. Proved instead: To turns each of them into one question mark, and the claim for SplitCompat.",
 "C150": "False: the result of one Transformer must fit into the 4096 bytes of the buffer before the next, otherwise the call panics, since Transform reports more bytes than it stored (C150_refuted: 1366 syllables through a Decoder and an Encoder). C150_chain_partial gives the outcome of every sequence of calls on every chain: the conversions in sequence, the error, or the panic exactly when something between two Transformers is longer than 4096 bytes. After an error beyond the first Transformer all of src counts as consumed.",
 "C153": "False: 각가 and 가까 are both ㄱㅏㄱㄱㅏ (C153_refuted). C153_exact_partial says exactly which texts coincide: those that arise from one another by moving half of a doubled lead to the end of the tail before it, where that gives a tail, and back, any number of times. C153_simple_partial: two texts without syllables with a doubled lead coincide only if they are equal.",
 "C158": "False: the first byte of an incomplete character stays in memory that an earlier call of the wrapped reader was given, and can be overwritten before the second byte arrives (C158_reader_keeps_refuted, with Reads of 4 and 3 bytes). Proved instead: the claim for readers that hand out whole characters for the buffers that come up.",
 "C161": "False: two Readers over one stream may each receive one byte of a two-byte character, and then both report the end of the stream and nobody reads the character (C161_refuted). Proved instead (C161_partial), for all streams, divisions into pieces, buffers and interleavings: every byte of the stream goes to one Reader in order, and each goroutine reads the text of the bytes its Reader received, except for those since the last whole character boundary if its Reader meets the end inside a character. C160 is the claim for readers that hand out whole characters.",
 "C162": "False for From: for every n there is a text of n+2 characters in which one changed byte leaves no character as it was (C162_refuted), since the bytes of all pairs after it are paired anew. Proved instead, for every text and every replacement of any part of it: the characters before come out as before; those after it do so if the new part is a text of its own, otherwise it takes one byte of what follows (C162_From_partial); after the next ASCII byte everything comes out as before in any case (C162_ascii_partial). For To the claim holds, for parts of any length (C162_To).",
 "C164": "False for TrimSpace: the code C2A0 of the syllable U+D63B is the UTF-8 encoding of the no-break space, so the syllable itself is trimmed off (C164_refuted). The claim for sets of ASCII characters that are not letters is proved in full, in both directions (C164_partial).",
 "C165": "False: for every length there are texts of syllables (U+C9D5, code C2A1) whose encoding is valid UTF-8 (C165_refuted). Proved instead for texts without Chinese characters: the encoding is valid UTF-8 exactly if every character beyond ASCII has a code with lead byte C2 or more and trail byte 80..BF (C165_exact_partial), so never if the text contains a character with a code below C200 (C165_partial). With Chinese characters, whose codes may combine to longer UTF-8 sequences, it is enough that the first character beyond ASCII has a code below C200 (C165_first_partial); an exact description is missing there.",
 "C166": "The first half is proved (C166_converted). Encodability is false (C166_refuted): NFC turns the angstrom sign U+212B into U+00C5, and U+F92C and U+F9B8 into ideographs that CP949 lacks; NFC keeps every other encodable character encodable (C166_exceptions_partial), and Convert(NFC(text)) is encodable for every encodable text without the angstrom sign (C166_encodable_partial).",
 "C167": "False (C167_refuted): 256 of the 268 compatibility ideographs are each on the wrong side of some hanja (C167_needed_partial, C167_exceptions_partial), because Convert knows one reading per character. The order holds for the other twelve together with all hanja but the thirteen of C67 (C167_partial); the twelve are second copies of twelve of these thirteen.",
 "C168": "The half about From is proved for all byte strings (C168_From). The half about To is false for characters that cannot be encoded, which become one byte in most cases (C168_refuted); it holds for encodable texts, and for all others the length is between the number of characters and that of columns (C168_To_partial).",
 "C169": "False: the second byte of a code may be a letter, and one syllable becomes another (C169_refuted). It holds exactly for the texts without a code whose second byte changes (C169_exact_partial), among them all texts of KS X 1001 (C169_partial).",
 "C171": "False: a letter is found inside of syllables, a syllable between two others, and the result is Korean text still (refuted). Proved for every old that begins with an ASCII character that is not a letter. The same is proved if characters of KS X 1001 precede that character (C171_word_partial).",
 "C173": "False for every distance: two texts of syllables have the same bytes for so long around a position, at which a character begins in one and not in the other (refuted). Proved: the bytes back to the nearest one below 0x80 tell.",
 "C175": "False for every lead consonant: there is a syllable with it, outside of KS X 1001, that is sorted before (refuted). Proved for words of ASCII and the syllables of KS X 1001, also after a common beginning; the range of the last lead ends at the byte 0xC9.",
 "C178": "False: a result longer than the room panics, since Transform reports more bytes than it stored. The room is the free capacity of dst, or the length of src if it has none; so a Decoder panics on a syllable with an empty dst, and an Encoder on two letters with room for one (both refuted). Proved: the exact outcome for every destination and source, with the contents of the array of dst afterwards; an Encoder with a full dst succeeds on all valid UTF-8. Rests on the reading of x/text's Append given in AppendModel.v.",
 "C179": "The order of letters is proved (C179_letters). For texts it is false: 가나 comes before 간, but its letters after those of 간 (refuted). Proved instead: which of two texts comes first by its letters, at the first syllables that differ (only a tail that one lacks can disturb the order); and that the order is kept if a missing tail is kept as 0.",
 "C180": "False: Read(nil) on a fresh Reader reports the end of the stream (refuted), for every content that is not empty and every wrapped reader that stores nothing in an empty buffer (C180_fails_partial). Proved: the other two checks pass for every conforming wrapped reader, and all of them for an empty stream. Rests on the reading of TestReader given in IotestModel.v.",
 "C181": "False: the bytes of some syllables end with that of the letter A (refuted, both ways). Proved: the bytes of a suffix are a suffix; the test is exact for texts without ASCII letters, and for a suffix of characters of KS X 1001 in any text. Not claimed: suffixes with characters of the extension in texts with letters.",
 "C183": "False: U+5550 and four others are read U+CD40, a syllable of the extension (refuted). Proved: it is so of every other hanja, and the five are not in CP949.",
 "C184": "False of To and From (refuted). Proved what happens instead, for all texts: To puts a question mark in front; From puts U+7664 in front and pairs the third byte with the next one (or fails if there is none); From never yields a mark. Convert keeps it.",
 "C187": "False: the filler and the old letters U+3164..318E are in CP949 and IsHangul does not hold of them (refuted; C187_old_partial for all of these). Proved: among the characters of CP949 it holds exactly of the syllables and of U+3131..3163.",
 "C189": "False of pieces as Read returns them: a piece may end inside of a character, and the hanja 0xD3DE read in pieces of two bytes becomes six question marks (refuted). Proved: character by character, with a bufio.Scanner and ScanRunes, for all texts of the tables and all sources. Also proved line by line, with ScanLines, for lines of fewer than 65536 bytes of UTF-8 that are all ended by a newline and contain no carriage return.",
 "C191": "False for UTF-8: U+7664 followed by a character whose code begins with 0xBF, such as U+C5FC, is encoded as the mark and one more byte (refuted). Proved: these are the only texts of encodable characters that begin with it, and the result of To contains no byte 0xFF, hence no mark of UTF-16, for all inputs.",
 "C192": "False: U+B098 gets the particle for consonants (refuted). Proved instead, for every word, which particle is chosen, by the bytes of the last code alone: the one for consonants if the second byte is 0xC0 or more, an ASCII letter other than H and d, or follows a first byte of 0xC0, 0xC1, or 0xE0 and more; the other one for H and d; for codes that are UTF-8 by accident, by the character they read as. Codes with both bytes in 0x80..0xBF, such as that of U+AC00, give the particle for consonants at the start of a text, behind ASCII and behind a byte from C0 to DF; left out are these codes behind other bytes, with which they may form a character of UTF-8.",
 "C193": "False: U+C9D5 is encoded as C2 A1, of which To makes A2 AE, the code of U+00A1 (refuted). Proved: whatever is not valid UTF-8, encoded or not, gives two question marks in a row; C165 says which encoded texts without Chinese characters are valid UTF-8.",
 "C194": "False: U+AC01 twice becomes three other characters (refuted). Proved for all texts when there is an error: exactly if an odd number of characters behind the last ASCII character take three bytes. Left out: which texts give replacement characters.",
 "C195": "False: hanja with the same reading have different codes, which decide before the rest of the word (refuted). Proved for words whose first different characters are hanja with different readings, outside the thirteen that C67 excepts; and for all words that are converted before they are encoded, if their characters are ASCII, syllables of KS X 1001, or hanja whose reading is not U+CD40. Left out: other characters."
}