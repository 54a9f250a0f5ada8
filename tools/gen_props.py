#!/usr/bin/env python3
import json, os
P=[]
def p(title, statement, quantifier, why, anchors):
    P.append(dict(id='C%02d'%(len(P)+1), title=title, statement=statement, quantifier=quantifier, why_tests_cant=why, anchors=anchors))
ALLR='a test tries a handful of runes; the claim is about every int32 rune, including the boundaries of every jamo block and negative values'
ALLS='a test tries a few strings; the claim ranges over every byte string of every length'
# --- hangul
p('Join undoes Split','For every precomposed Hangul syllable c (U+AC00..U+D7A3), Join(Split(c)) == c.','every syllable',ALLR,['hangul.go: Join, Split'])
p('Split undoes Join','For every lead consonant l, medial vowel m and tail t (a conjoining tail or 0), Join(l,m,t) is a syllable and Split of it is exactly (l,m,t); so Join is injective on such triples.','every (lead, medial, tail-or-0) triple','a test tries a few triples; the claim is about all 19*21*28 of them and about every result being in range',['hangul.go: Join, Split'])
p('Split is the Unicode canonical decomposition','Listing the syllables U+AC00, U+AC01, ... in code point order, Split enumerates all (lead, medial, tail) combinations in dictionary order (lead major, tail minor, no tail first), each exactly once.','every syllable','needs the whole 11172-element enumeration, not samples',['hangul.go: Split','constant.go'])
p('Split recognises syllables','For every rune c: Split(c) is a well-formed (lead, medial, tail-or-0) triple if and only if c is a precomposed syllable; no other rune, not even one for which c-0xAC00 overflows int32, produces a well-formed triple.','every int32 rune',ALLR,['hangul.go: Split'])
p('Join accepts compatibility and conjoining jamo alike','For every l, m, t: replacing any argument by another code point for the same letter in the same role (e.g. compatibility KIYEOK for lead KIYEOK) does not change Join(l,m,t); and Join(SplitCompat(c)) == c for every syllable.','every rune triple',ALLR,['hangul.go: Join, SplitCompat','jamo.go: Lead, Medial, Tail'])
p('Join signals invalid parts','Join(l,m,t) returns U+FFFD exactly when l is not usable as a lead, or m not as a medial, or t is neither 0 nor usable as a tail; otherwise a syllable.','every rune triple',ALLR,['hangul.go: Join','jamo.go: leadIdx, medialIdx, tailIdx, Tail'])
p('IsHangul classification','IsHangul(r) holds exactly for the syllables U+AC00..U+D7A3, conjoining leads U+1100..1112, medials U+1161..1175, tails U+11A8..11C2 and compatibility jamo U+3131..3163; IsLead, IsMedial, IsTail, IsJaeum, IsMoeum hold exactly on their Unicode ranges; the three conjoining classes are disjoint, and IsJaeum and IsMoeum are disjoint.','every rune',ALLR,['hangul.go: IsHangul','jamo.go: IsLead, IsMedial, IsTail, IsJaeum, IsMoeum'])
p('CompatJamo is total on jamo and idempotent','For every rune r: CompatJamo(r) is 0 if and only if r is neither jaeum nor moeum; otherwise the result is a compatibility jamo of the same class (consonant/vowel); and CompatJamo(CompatJamo(r)) == CompatJamo(r).','every rune',ALLR,['jamo.go: CompatJamo, toCompatJamo'])
p('Conversions preserve the letter','CompatJamo, Lead, Medial and Tail map each code point to the code point of the same Hangul letter in the target role, as named by the Unicode charts, and to 0 exactly when the letter has no form in that role.','every rune and every Hangul letter',ALLR,['jamo.go: CompatJamo, Lead, Medial, Tail and their maps','constant.go'])
p('Lead/Medial/Tail invert CompatJamo','For every rune r: IsLead(r) implies Lead(CompatJamo(r)) == r; IsMedial(r) implies Medial(CompatJamo(r)) == r; IsTail(r) implies Tail(CompatJamo(r)) == r; and for every compatibility jamo c, whenever Lead(c) (Medial, Tail) is non-zero CompatJamo of it is c.','every rune',ALLR,['jamo.go: CompatJamo, Lead, Medial, Tail'])
p('Lead, Medial and Tail yield only well-formed results','For every rune c: Lead(c) is 0 or satisfies IsLead, Medial(c) is 0 or satisfies IsMedial, Tail(c) is 0 or satisfies IsTail, and each function is idempotent.','every rune',ALLR,['jamo.go: Lead, Medial, Tail'])
p('SplitMultiElement recognises composite letters','SplitMultiElement(r) succeeds exactly when r is any form (compatibility, lead, medial, tail) of a composite letter; the result depends only on the letter; the elements are compatibility jamo of the same class, at least two of them; on failure the slice is empty.','every rune',ALLR,['jamo.go: SplitMultiElement, multiElements'])
p('SplitMultiElement yields basic elements','The elements returned by SplitMultiElement are the basic letters (none of which can be split further) that make up the composite letter.','every rune',ALLR,['jamo.go: multiElements (WE entry)'])
p('Stroke is additive over a syllable','For every syllable, Stroke(c) is the sum of Stroke over Split(c); for every usable lead l, medial m and tail t (in any form; or t = 0), Stroke(Join(l,m,t)) == Stroke(l)+Stroke(m)+Stroke(t); for any other t, which Join drops, it is Stroke(l)+Stroke(m).','every syllable and triple',ALLR,['stroke.go: Stroke','hangul.go: Split, Join'])
p('Stroke counts the strokes of the letter','For every jamo r, in whichever form, Stroke(r) is the sum of the stroke counts of the basic letters composing it.','every jamo rune',ALLR,['stroke.go: Stroke, strokes','jamo.go: multiElements'])
p('Stroke is total, terminates, and is positive exactly on Hangul','For every rune r, Stroke(r) returns (the recursion ends), is >= 0, and is > 0 if and only if IsHangul(r).','every int32 rune',ALLR,['stroke.go: Stroke'])
p('LastConsonant and EndsWithConsonant on Hangul words','For every word whose last character is a Hangul syllable (whatever bytes precede it), LastConsonant is the tail of that syllable, or 0, and EndsWithConsonant says whether there is one; both are 0/false for the empty word; they never panic, for any byte string.','every byte string and every final syllable',ALLS,['hangul.go: LastConsonant, EndsWithConsonant'])
p('LastConsonant returns 0 or a tail','For every word, LastConsonant returns 0 or a tail consonant, and 0 (EndsWithConsonant false) when the last character is not a Hangul syllable.','every byte string',ALLS,['hangul.go: LastConsonant, Split'])
p('AppendPostposition picks the right particle','For every word, with, without: the result is word followed by exactly one of the two particles; for a word ending in a Hangul syllable it is `with` iff the syllable has a tail, except that a final RIEUL takes `without` when `with` is exactly "으로"; for an empty word it is `without`.','every triple of strings',ALLS,['hangul.go: AppendPostposition'])
p('Results do not depend on call history','In any program that does not write into returned slices, the result of every SplitMultiElement or Stroke call depends only on its argument, not on earlier calls.','every finite history of calls','tests run calls in one order; this is about all histories',['jamo.go: SplitMultiElement','stroke.go: Stroke'])
p('Callers cannot corrupt the package','Whatever a caller does with the slice returned by SplitMultiElement, later results of SplitMultiElement and Stroke are unaffected.','every finite history of calls and element assignments','needs quantification over all histories including writes through returned slices',['jamo.go: SplitMultiElement, multiElements'])
# --- hanja
p('Convert is a per-character substitution','For every string, Convert reads it as a sequence of characters, replaces each character for which IsHanja holds by one Hangul syllable that depends only on that character, leaves every other character unchanged, and keeps their number and order.','every byte string',ALLS,['hanja/hanja.go: Convert','hanja/table.go'])
p('Convert leaves no hanja and is idempotent','For every string s, no character of Convert(s) satisfies IsHanja, and Convert(Convert(s)) == Convert(s).','every byte string',ALLS,['hanja/hanja.go: Convert','hanja/table.go'])
p('Convert produces valid UTF-8 and fixes exactly hanja-free text','For every byte string s, Convert(s) is valid UTF-8; Convert(s) == s if and only if s is valid UTF-8 without hanja.','every byte string',ALLS,['hanja/hanja.go: Convert'])
p('Convert distributes over concatenation','For valid UTF-8 a and any b, Convert(a+b) == Convert(a)+Convert(b).','every valid UTF-8 prefix and every suffix',ALLS,['hanja/hanja.go: Convert'])
p('IsHanja coverage','IsHanja holds exactly on U+3400..4DB5, U+4E00..9FA5 and the twelve unified ideographs of the compatibility block (U+FA0E, FA0F, FA11, FA13, FA14, FA1F, FA21, FA23, FA24, FA27, FA28, FA29); every reading is a precomposed Hangul syllable; no key occurs twice.','every rune',ALLR,['hanja/hanja.go: IsHanja','hanja/table.go'])
p('Every CP949 hanja can be converted','Every CJK ideograph that CP949 text can contain (every result of cp949.From in U+3400..9FFF or U+F900..FAFF) satisfies IsHanja.','every double-byte CP949 code','ranges over the whole code table',['hanja/table.go','encoding/cp949/lookup_from.go'])
# --- cp949 whole buffer
p('Encoding then decoding is the identity on encodable text','For every text made of ASCII and characters in the CP949 repertoire, To succeeds and From(To(text)) == text.','every encodable text of any length',ALLS,['encoding/cp949/public.go: From, To','lookup_from.go','lookup_to.go'])
p('Decoding then encoding is the identity on valid CP949','For every byte string made of ASCII bytes and assigned double-byte codes, From succeeds and To(From(b)) == b.','every valid CP949 string',ALLS,['encoding/cp949/public.go: From, To'])
p('From decodes character by character','For every byte string: bytes below 0x80 decode to themselves, a byte >= 0x80 and its successor decode to the character assigned to that code, or to one U+FFFD if none is assigned; From returns the UTF-8 encoding of exactly these characters in order, and returns ErrCP949UnexpectedStream (and no bytes) exactly when a byte >= 0x80 has no successor.','every byte string',ALLS,['encoding/cp949/cp949.go: translateFromCp949.Translate','encoding/cp949/public.go: From'])
p('To encodes character by character','For every byte string, To never fails and processes it character by character: ASCII unchanged, a BMP character of the repertoire as its two-byte code.','every byte string',ALLS,['encoding/cp949/cp949.go: translateToCp949.Translate','encoding/cp949/public.go: To'])
p('To replaces an unencodable character by one question mark','Every character (or invalid byte) of the input that is not in the CP949 repertoire becomes exactly one "?".','every byte string',ALLS,['encoding/cp949/cp949.go: translateToCp949.Translate lines 84, 92-94'])
p('ASCII transparency','Every pure ASCII string is unchanged by From and by To.','every ASCII string',ALLS,['encoding/cp949/cp949.go: Translate'])
p('From yields valid UTF-8','Whenever From succeeds its result is valid UTF-8.','every byte string',ALLS,['encoding/cp949/cp949.go: appendRune'])
p('To yields decodable CP949','For every byte string x, From(To(x)) succeeds and contains no U+FFFD: To never emits an unassigned code or a dangling byte.','every byte string',ALLS,['encoding/cp949/cp949.go: translateToCp949.Translate'])
p('From distributes over concatenation','If From(a) succeeds then From(a+b) succeeds iff From(b) does, and From(a+b) == From(a)+From(b).','every pair of byte strings',ALLS,['encoding/cp949/public.go: From'])
p('To distributes over concatenation','For valid UTF-8 a and any b, To(a+b) == To(a)+To(b).','every pair',ALLS,['encoding/cp949/public.go: To'])
p('The two tables are mutually inverse','The decoding and encoding tables contain the same pairs; each code has one character and each character one code; both are sorted as the binary search requires, and the search finds an entry exactly when it is present.','every 16-bit code and every 16-bit character','a test samples entries',['encoding/cp949/lookup_from.go','encoding/cp949/lookup_to.go','encoding/cp949/cp949.go: sort.Search calls'])
p('All Hangul syllables are encodable','Every precomposed syllable has a CP949 code; the 2350 syllables of KS X 1001 (both bytes >= 0xA1) are in code point order, and so are the 8822 extension syllables.','every syllable','ranges over all 11172 syllables',['encoding/cp949/lookup_to.go'])
p('Trail bytes never collide with ASCII punctuation','In To(text) for encodable text, every byte that is an ASCII byte other than a letter (control character, digit, quote, slash, backslash, ...) is the encoding of that very ASCII character; double-byte codes consist of a lead byte 0x81..0xFE and a trail byte in A-Z, a-z or 0x81..0xFE.','every encodable text',ALLS,['encoding/cp949/lookup_to.go'])
p('Output size bounds','len(From(b)) <= 3/2 len(b) and len(To(x)) <= 2 len(x), with len(To(x)) <= len(x) for valid UTF-8.','every byte string',ALLS,['encoding/cp949/cp949.go'])
p('Conversions never panic or hang','From and To return for every byte string, whatever capacities the runtime picks when slices grow.','every byte string and every growth policy','slice growth depends on runtime history',['encoding/cp949/cp949.go: ensureCap, appendRune, Translate'])
p('Buffer growth keeps content','ensureCap returns a slice with the same content and capacity >= n, less than twice what is needed when it grows a non-empty buffer; appendRune appends exactly the UTF-8 encoding of the rune.','every slice, n and rune','all capacities and contents',['encoding/cp949/cp949.go: ensureCap, appendRune'])
p('A reused translator leaks nothing between calls','The output of a conversion depends only on its input, not on what the reused output buffer held before.','every previous buffer content and capacity','histories of buffer reuse',['encoding/cp949/cp949.go: Translate (scratch)'])
# --- streaming
p('Reader is independent of chunking','For every complete CP949 stream, every way the wrapped reader splits it into reads and every sequence of non-empty buffers used by the caller, the bytes delivered until the first error are exactly From(stream), and that error is the wrapped reader\'s final error.','every stream, chunk schedule and buffer-size sequence','schedules cannot be enumerated by tests',['encoding/cp949/public.go: cp949Reader.Read'])
p('Reader reports truncated streams','If the stream ends in the middle of a character, draining the reader delivers all complete characters before it and then reports a conversion error rather than a clean EOF.','every truncated stream and schedule','schedules and stream lengths are unbounded',['encoding/cp949/public.go: cp949Reader.Read lines 78-88'])
p('Reader never delivers wrong bytes','Even for a truncated stream, under every schedule, the bytes delivered are a prefix of the decoding of the stream\'s complete characters.','every stream, schedule and buffer-size sequence','schedules cannot be enumerated by tests',['encoding/cp949/public.go: cp949Reader.Read'])
p('Read makes progress','With a wrapped reader that obeys the io.Reader contract and ends, Read on a non-empty buffer returns (no infinite loop, no panic), with 0 < n <= len(buf) and a nil error, or n == 0 and a non-nil error.','every reader state and schedule','non-termination and panics under unusual schedules',['encoding/cp949/public.go: cp949Reader.Read'])
p('Reader errors are sticky','Once Read has returned an error, every later Read returns no data and the same error.','every history','all histories after an error',['encoding/cp949/public.go: cp949Reader.Read'])
p('An empty read is harmless','Read with an empty buffer returns 0 bytes and does not change what later reads deliver.','every reader state','state-dependent',['encoding/cp949/public.go: cp949Reader.Read lines 67-72'])
p('Writer is independent of chunking at character boundaries','For any split of a text into chunks that does not cut a character, if no underlying write fails, the bytes the wrapped writer receives, concatenated, are To(text), and each Write returns (len(chunk), nil).','every text and every split at character boundaries','splits cannot be enumerated by tests',['encoding/cp949/public.go: cp949Writer.Write'])
p('Writer is independent of chunking at every split','For any split of a text into chunks, also in the middle of a character, the bytes the wrapped writer receives are To(text).','every text and split','splits cannot be enumerated by tests',['encoding/cp949/public.go: cp949Writer.Write'])
p('Writer error handling','If the wrapped writer fails, Write returns (0, that error); an empty Write does not call the wrapped writer; each non-empty Write calls it exactly once, with the encoding of that chunk alone.','every history of writes and failures','all histories',['encoding/cp949/public.go: cp949Writer.Write'])
p('Streaming round trip','Encodable text written through NewWriter in whole-character chunks and read back through NewReader under any schedule is the original text.','every encodable text, split, schedule and buffer-size sequence','product of schedules',['encoding/cp949/public.go'])
# --- transform
p('Transform converts when the destination is large enough','For every src that From (To) converts to a result fitting in dst, Transform writes exactly that result at the start of dst, leaves the rest of dst alone and returns its length, len(src) and nil.','every dst, src and atEOF',ALLS,['encoding/cp949/encoding.go: Transform'])
p('Transform honours the Transformer contract','nDst <= len(dst) always; if the result does not fit, ErrShortDst is returned; if src may be continued (atEOF false) and ends inside a character, ErrShortSrc is returned.','every dst, src and atEOF',ALLS,['encoding/cp949/encoding.go: Transform'])
p('Decoder.Bytes and Encoder.Bytes','NewDecoder().Bytes(b) returns From(b) and NewEncoder().Bytes(x) returns To(x).','every byte string',ALLS,['encoding/cp949/encoding.go: NewDecoder, NewEncoder, Transform'])
p('Decoder.Reader streams like From','Reading a complete CP949 stream through NewDecoder().Reader delivers From(stream) under every schedule.','every stream and schedule','schedules cannot be enumerated by tests',['encoding/cp949/encoding.go: cp949Decoder.Transform'])
# --- cross package
p('Converted text stays encodable','If a text is encodable in CP949 then so is hanja.Convert(text), and To/From round-trips it.','every encodable text',ALLS,['hanja/hanja.go: Convert','encoding/cp949/public.go'])
p('Every Join result survives CP949','Whenever Join(l,m,t) is not U+FFFD, the resulting syllable is encoded by To as one two-byte code that From decodes back to it.','every rune triple',ALLR,['hangul.go: Join','encoding/cp949/public.go'])
p('Particles after hanja words','For every word whose last character satisfies IsHanja, LastConsonant(hanja.Convert(word)) is 0 or a tail consonant, namely the tail of that hanja\'s reading.','every word ending in hanja',ALLS,['hanja/hanja.go: Convert','hangul.go: LastConsonant'])
# --- streaming, found while modelling
p('A read without data is not the end of the stream','If the wrapped reader returns 0 bytes and no error (which the io.Reader contract allows and says is not end of file), the Reader does not report end of file.','every reader state and schedule','such answers are rare and timing dependent',['encoding/cp949/public.go: cp949Reader.Read lines 70-74'])
p('Read returns when characters have arrived','Read with a non-empty buffer returns data once the wrapped reader has delivered a complete character, for never-ending streams too.','every reader state and schedule','non-termination on infinite streams',['encoding/cp949/public.go: cp949Reader.Read lines 58-90'])
p('Decoder.Reader reports end of file only when everything was delivered','For every wrapped reader and schedule: when reading through NewDecoder().Reader ends with an error, what was delivered is the decoding of all chunks read, except possibly the last one; if a chunk was dropped it ended inside a character and the error is not io.EOF.','every wrapped reader, schedule and buffer-size sequence','schedules cannot be enumerated by tests',['encoding/cp949/encoding.go: cp949Decoder.Transform'])
p('Encoder.Writer writes To(text)','For any split of a text into chunks that does not cut a character, writing them through NewEncoder().Writer makes the wrapped writer receive To(text) and each Write returns (len(chunk), nil).','every text and every split at character boundaries','splits cannot be enumerated by tests',['encoding/cp949/encoding.go: cp949Encoder.Transform'])
# --- data tables
p('Layout of the CP949 extension','The codes outside KS X 1001 are, in code order, the extension positions 0x8141..0xC652 (lead 0x81..0xA0 with trails A-Z, a-z, 0x81..0xFE; lead 0xA1..0xC6 with trails A-Z, a-z, 0x81..0xA0), and they are assigned in order to the 8822 syllables that have no KS X 1001 code, in code point order, leaving no gap.','every code and every character','ranges over the whole code space',['encoding/cp949/lookup_from.go','encoding/cp949/lookup_to.go'])
p('Hanja are filed by reading','KS X 1001 files hanja by Korean reading: if one hanja has a smaller code than another, its reading according to hanja.Convert is not after the other\'s.','every pair of hanja in the repertoire','pairs over two independent tables',['hanja/table.go','encoding/cp949/lookup_from.go'])
p('The code assignment is that of the reference','From and To implement exactly the mapping of the reference CP949 table (as published by Microsoft and shipped with CPython): the same 17048 codes, the same characters, everything else undefined.','every code and every character','a test samples entries',['encoding/cp949/lookup_from.go','encoding/cp949/lookup_to.go','encoding/cp949/public.go: From, To'])
p('Rows of KS X 1001','Row 4 holds the compatibility jamo in code point order, row 3 full-width ASCII (with the won sign and overline exceptions), rows 10 and 11 the kana, rows 16-40 exactly the KS X 1001 syllables and rows 42-93 exactly the ideographs, without gaps.','every code and every character','ranges over all rows',['encoding/cp949/lookup_from.go'])
# --- more
p('SplitCompat recognises syllables','If SplitCompat(c) looks like the parts of a syllable (consonant, vowel, nothing or consonant) then c is a precomposed syllable; different syllables have different parts.','every rune',ALLR,['hangul.go: SplitCompat, Split'])
p('Nothing is held back','As long as Read has returned no error, everything the wrapped reader has handed out so far decodes, and is already delivered or is delivered by the next Reads before the wrapped reader is called again.','every wrapped reader, schedule and buffer-size sequence','schedules cannot be enumerated by tests',['encoding/cp949/public.go: cp949Reader.Read'])
p('How the wrapped reader is called','During Read(buf) the wrapped reader is only called with at least len(buf) bytes of room, and it is never called again after it returned an error or no data.','every wrapped reader, schedule and buffer-size sequence','histories cannot be enumerated by tests',['encoding/cp949/public.go: cp949Reader.Read lines 58-90'])
# --- encoded text as byte strings
p('Cutting a text short','If a CP949 text is cut anywhere, From of the cut text is a prefix of From of the whole, or fails and succeeds with one byte less. If a UTF-8 text is cut anywhere, To of the cut text is the encoding of the whole characters before the cut, followed by two question marks for each dangling byte.','every text and cut position',ALLS,['encoding/cp949/public.go: From, To'])
p('Different inputs give different results','Two byte strings with the same decoding have the same length, and are equal if the decoding contains no replacement character. Two encodable texts with the same encoding are equal.','every pair of byte strings','pairs of unbounded inputs',['encoding/cp949/public.go: From, To'])
p('Prefix test on encoded text','For encodable texts a and b: To(a) is a prefix of To(b) exactly when a is a prefix of b.','every pair of encodable texts','pairs of unbounded inputs',['encoding/cp949/public.go: To'])
p('Searching encoded text','For encodable texts a and b: bytes.Contains(To(b), To(a)) exactly when b contains a.','every pair of encodable texts','pairs of unbounded inputs',['encoding/cp949/public.go: To','encoding/cp949/lookup_to.go'])
p('Sorting encoded Korean text','For texts a and b of ASCII and hangul syllables: comparing To(a) with To(b) bytewise gives the same order as comparing a with b.','every pair of such texts','pairs of unbounded inputs',['encoding/cp949/public.go: To','encoding/cp949/lookup_to.go'])
p('Decoder.String and Encoder.String','NewDecoder().String(s) returns From(s) and NewEncoder().String(x) returns To(x).','every string',ALLS,['encoding/cp949/encoding.go: NewDecoder, NewEncoder, Transform'])
# --- pipelines
p('The Reader can be wrapped in turn','Over any well-behaved wrapped reader that delivers a complete CP949 stream and then an error e (io.EOF or another), the value returned by NewReader is itself a well-behaved io.Reader of From(stream): every Read with a non-empty buffer stores a non-empty prefix of the rest that fits the buffer, or ends with e once everything was delivered.','every stream, wrapped reader, schedule and sequence of buffer sizes','schedules cannot be enumerated by tests',['encoding/cp949/public.go: NewReader, cp949Reader.Read'])
p('Copying out of a Reader','io.Copy(w, NewReader(r)) appends exactly From(stream) to w and returns its length, and nil when r ended with io.EOF or r\'s error otherwise, for every buffer size.','every stream, wrapped reader, schedule and buffer size','schedules cannot be enumerated by tests',['encoding/cp949/public.go: NewReader, cp949Reader.Read'])
p('Copying from a Reader to a Writer','io.Copy(NewWriter(w), NewReader(r)) reproduces every valid CP949 stream in w.','every stream and schedule','only streams longer than io.Copy\'s buffer show it',['encoding/cp949/public.go: cp949Reader.Read, cp949Writer.Write'])
p('Copying UTF-8 into a Writer','io.Copy(NewWriter(w), r) makes w receive To(everything r delivers).','every text, reader, schedule and buffer size','only texts longer than io.Copy\'s buffer, or particular schedules, show it',['encoding/cp949/public.go: NewWriter, cp949Writer.Write'])
p('Read-ahead is bounded','One Read takes from the wrapped reader an amount of data bounded by the size of the caller\'s buffer.','every reader state and schedule','schedules cannot be enumerated by tests',['encoding/cp949/public.go: cp949Reader.Read','encoding/cp949/cp949.go: ensureCap'])
p('The wrapped reader may scribble on its buffer','What a sequence of Reads returns does not depend on what the wrapped reader stores in its buffer behind the bytes it reports (the contract of io.Reader allows it to use the whole buffer as scratch space).','every wrapped reader, schedule, sequence of buffer sizes and stored junk','schedules cannot be enumerated by tests',['encoding/cp949/public.go: cp949Reader.Read lines 66-90'])
# --- clients
p('Convert keeps the length of the text','For every valid UTF-8 s, len(Convert(s)) == len(s), so byte offsets stay valid; for any other byte string the result is longer, at most three times as long. For encodable text, To(Convert(text)) is as long as To(text).','every byte string',ALLS,['hanja/hanja.go: Convert','hanja/table.go'])
p('Converting line by line','Splitting at a separator that is ASCII and not a letter and then converting each piece with From (To) gives the pieces of the converted text.','every text and separator',ALLS,['encoding/cp949/public.go: From, To'])
p('From neither invents nor swallows ASCII','The ASCII characters of From(b), other than letters, are exactly those of b, in the same order; no ASCII character at all appears that was not in b.','every byte string','malformed input is unbounded',['encoding/cp949/cp949.go: cp949FromTranslator.Translate'])
p('To neither invents nor swallows ASCII punctuation','For every byte string x, the ASCII characters of To(x) other than letters and question marks are exactly those of x, in the same order.','every byte string','malformed input is unbounded',['encoding/cp949/cp949.go: cp949ToTranslator.Translate','encoding/cp949/lookup_to.go'])
p('The Encoder reports characters it cannot encode','As golang.org/x/text/encoding documents for Encoders, transforming a character outside the CP949 repertoire results in an error, and nothing from that character on is consumed.','every character outside the repertoire',ALLS,['encoding/cp949/encoding.go: cp949Encoder.Transform'])
p('HTMLEscapeUnsupported and ReplaceUnsupported','encoding.HTMLEscapeUnsupported(NewEncoder()) writes an HTML escape for every character outside the CP949 repertoire.','every text',ALLS,['encoding/cp949/encoding.go: NewEncoder, cp949Encoder.Transform'])
p('Reading everything','io.ReadAll(NewReader(r)) returns From(stream), and nil when r ended with io.EOF or r\'s error otherwise; on a truncated stream a prefix of the decoding of its complete characters.','every stream, wrapped reader, schedule and growth policy','schedules cannot be enumerated by tests',['encoding/cp949/public.go: NewReader, cp949Reader.Read'])
p('Reading a given number of bytes','io.ReadFull(NewReader(r), buf) stores exactly the first len(buf) bytes of From(stream), also when this cuts a character, or reports io.ErrUnexpectedEOF or io.EOF when there are fewer; io.ReadAll afterwards returns exactly the rest.','every stream, wrapped reader, schedule and buffer size','schedules cannot be enumerated by tests',['encoding/cp949/public.go: NewReader, cp949Reader.Read'])
p('Decomposing keeps the order of texts','Replacing every syllable of a text by the parts Split returns (what NFD does) keeps the order of texts made of syllables and characters below U+1100, and tells different texts apart.','every pair of such texts','pairs of unbounded inputs',['hangul.go: Split'])
p('The Decoder does not fail and replaces each byte it cannot decode','As golang.org/x/text/encoding documents for Decoders, source bytes that are not CP949 do not result in an error, and each of them is represented by one U+FFFD.','every byte string','malformed input is unbounded',['encoding/cp949/encoding.go: cp949Decoder.Transform'])
# --- memory
MEM='aliasing and retention show only with particular layouts of slices in memory'
p('From leaves memory alone','From terminates without panic on every slice of any array, returns the decoded text or, on truncated input, nil and an error, modifies no array that existed before the call, and its result shares no memory with any such array.','every memory, slice, content and growth policy',MEM,['encoding/cp949/public.go: From','encoding/cp949/cp949.go: cp949FromTranslator.Translate'])
p('To leaves memory alone','To terminates without panic or error on every slice of any array, returns the encoded text, modifies no array that existed before the call, and its result shares no memory with any such array.','every memory, slice, content and growth policy',MEM,['encoding/cp949/public.go: To','encoding/cp949/cp949.go: cp949ToTranslator.Translate'])
p('A Reader does not retain or overrun buffers','A client reads a complete CP949 stream through NewReader(r) into non-empty slices of its own arrays, which may overlap and have spare capacity, and between Reads overwrites its arrays and allocates others at will: each Read changes only the bytes it reports, in the buffer of that call; nothing the client does to its arrays changes what later Reads deliver; the pieces delivered are successive parts of From(stream).','every stream, wrapped reader, schedule, memory and sequence of client actions',MEM,['encoding/cp949/public.go: NewReader, cp949Reader.Read'])
p('A Writer does not modify or retain the data','A client writes slices of its own arrays through NewWriter(w), and between Writes overwrites its arrays and allocates others at will: no Write changes any of the arrays, w receives To(chunk) for the content each chunk had when it was passed, and the result of each Write is as for a single one.','every underlying writer, memory and sequence of client actions',MEM,['encoding/cp949/public.go: NewWriter, cp949Writer.Write'])
p('Transform with overlapping buffers','Transform of the Decoder and of the Encoder changes no cell of memory outside dst (in particular not its spare capacity), and gives the same result when dst and src overlap as when they do not.','every memory, pair of slices, content and end-of-file flag',MEM,['encoding/cp949/encoding.go: cp949Decoder.Transform, cp949Encoder.Transform'])
p('The functions of package hangul are pure','In any sequence of calls of the exported functions of package hangul, with any arguments, every call returns a value that depends only on the function and its arguments, and changes no memory, provided the program does not itself write to slices obtained from SplitMultiElement.','every sequence of calls, arguments and memory','histories are unbounded',['hangul.go','jamo.go','stroke.go'])
p('The functions of package hanja are pure','In any sequence of calls of IsHanja and Convert every call returns a value that depends only on its argument, and changes no memory.','every sequence of calls and arguments','histories are unbounded',['hanja/hanja.go: IsHanja, Convert'])
p('Constructors allocate independent stateless objects','NewCP949Encoding, NewDecoder and NewEncoder each return a newly allocated object without state, and change nothing else; Reset changes nothing.','every state of the program','states cannot be enumerated by tests',['encoding/cp949/encoding.go: NewCP949Encoding, NewDecoder, NewEncoder, Reset'])
p('Programs with many streams','A program owns arrays, opens any number of Readers and Writers over readers and writers of its own (each wrapped once), and mixes Read, Write, From, To, Transform of Decoders and Encoders, stores into its arrays and allocations in any order, choosing each request by the answers so far. Every execution ends without panic and gives the same answers; each answer, the arrays and what the wrapped writers received are as if every stream and call worked alone: a Reader delivers successive pieces of From(its stream) into the buffer and then its error (if the stream ends inside a character: of a beginning of what From gives for the characters before it), a Writer hands To(chunk) to its writer, nothing else in memory changes.','every program, memory, set of wrapped readers and writers, schedule and growth policy','interleavings and layouts of memory cannot be enumerated by tests',['encoding/cp949/public.go','encoding/cp949/encoding.go','encoding/cp949/cp949.go'])
# --- broken contracts
p('Impossible counts are caught','Read panics whenever the wrapped reader breaks the contract of io.Reader by reporting a negative count or a count larger than its buffer.','every wrapped reader, schedule and sequence of buffer sizes','faulty wrapped readers are not what tests use',['encoding/cp949/public.go: cp949Reader.Read'])
p('The result of Write says what was written','Over every wrapped writer: when Write returns no error the wrapped writer took all of To(data), and when it returns an error the count says how much of data was written.','every wrapped writer and sequence of chunks','partial writes need a failing device',['encoding/cp949/public.go: cp949Writer.Write'])
# --- the Transformers in the other direction
p('Encoding while reading','Reading a UTF-8 text through transform.NewReader(r, NewEncoder()) delivers To(text) under every schedule, and then r\'s error.','every text, wrapped reader, schedule and sequence of buffer sizes','schedules cannot be enumerated by tests',['encoding/cp949/encoding.go: NewEncoder, cp949Encoder.Transform'])
p('Decoding while writing','For any split of a CP949 stream into chunks, writing them through transform.NewWriter(w, NewDecoder()) and closing it makes w receive From(stream), and each Write returns (len(chunk), nil).','every stream and split','splits cannot be enumerated by tests',['encoding/cp949/encoding.go: NewDecoder, cp949Decoder.Transform'])
# --- goroutines
SCH='interleavings cannot be enumerated by tests, and the race detector sees only the executions that happen'
p('Goroutines that share nothing writable do not disturb each other','Several goroutines each perform a sequence of calls of the exported functions and methods (with arguments known beforehand or results of earlier operations), stores into slices of their own, and reads of slices. They share no array that one of them writes and no Reader or Writer; CP949Encodings, and the Transformers of Decoders and Encoders, may be shared, since these structs have no fields; arrays nobody writes may be shared and passed to From, To, Write and as src of Transform. If each would return when executed alone, then in every interleaving: no two goroutines are ever about to access the same cells with one of them writing, none blocks or panics, all end after a bounded number of steps, and results, buffers and streams of each are as if it had run alone.','every number of goroutines, sequence of operations, memory, set of streams, interleaving and growth policy',SCH,['encoding/cp949/public.go','encoding/cp949/encoding.go','encoding/cp949/cp949.go','hangul.go','jamo.go','stroke.go','hanja/hanja.go'])
p('From and To may be called at the same time, on the same bytes','Any number of goroutines call From or To on slices that may overlap or be the same. In every interleaving there is no data race, no array that existed before changes, and each call returns what it returns alone: the decoded (encoded) text, or the error for truncated input.','every number of calls, memory, content, interleaving and growth policy',SCH,['encoding/cp949/public.go: From, To','encoding/cp949/cp949.go'])
p('Packages hangul and hanja may be used at the same time','Any number of goroutines perform any sequences of calls of the exported functions of packages hangul and hanja. In every interleaving there is no data race, and every call returns the value that depends only on the function and its arguments.','every number of goroutines, sequences of calls and interleaving',SCH,['hangul.go','jamo.go','stroke.go','hanja/hanja.go'])
p('One Reader may be shared by goroutines','When two goroutines call Read of one Reader at the same time, each byte of the decoded stream is delivered once, and neither panics.','every interleaving',SCH,['encoding/cp949/public.go: cp949Reader.Read'])
p('Results belong to the caller','A goroutine may write into a slice it got from the package without disturbing other goroutines.','every function returning a slice, and interleaving',SCH,['jamo.go: SplitMultiElement','stroke.go: Stroke'])
# --- bufio
p('Reading line by line','A bufio.Scanner over a NewReader yields exactly the lines of From(stream), without their line ends, however the wrapped reader splits the stream; at the end Err is nil, or the wrapped reader\'s error. If a line has 65536 bytes or more of UTF-8 it yields the lines before it and then ErrTooLong.','every stream that From accepts, wrapped reader and growth policy','lines and characters meet the borders of three buffers (wrapped reader, Reader, Scanner) in combinations that tests hit by accident',['encoding/cp949/public.go: NewReader, cp949Reader.Read'])
p('Reading character by character','A bufio.Scanner with ScanRunes over a NewReader yields exactly the characters of the stream, one by one, although the Reader itself may hand out parts of characters.','every stream of whole characters, assigned or not, wrapped reader and growth policy','a character is split only for some buffer positions',['encoding/cp949/public.go: NewReader, cp949Reader.Read'])
p('Writing through a bufio.Writer','Text written to a bufio.Writer over a NewWriter by Write and WriteString, and flushed, arrives as To(text).','every text, division into pieces, buffer size and growth policy','only texts longer than the buffer (4096 bytes) with a character across its end show the error',['encoding/cp949/public.go: NewWriter, cp949Writer.Write'])
p('Writing character by character through a bufio.Writer','Text written with WriteRune to a bufio.Writer over a NewWriter, and flushed, arrives as To(text): WriteRune never leaves a part of a character in the buffer.','every text of Unicode scalar values, buffer of at least 4 bytes and growth policy','as above',['encoding/cp949/public.go: NewWriter, cp949Writer.Write'])
# --- constants
p('Constants name the Unicode jamo','The exported constants are named after Unicode\'s short names of the letters: the constant of a letter is its compatibility form (U+3131..U+3163), Lead/Medial/Tail followed by the name is its conjoining form in that role, and there is no such constant exactly where Unicode has no such form. NG is a second name of ZS. There are no other exported constants.','every letter, and every identifier','the test of the constants compares a few of them; one shifted iota moves all that follow',['constant.go: 4-58','constant.go: 68-151'])
# --- machine integers
p('The same results with 32-bit and 64-bit integers','Compiled for machines whose int has 32 or 64 bits and wraps around, every exported function and method returns the same values and leaves the same memory as with unlimited integers, provided that the texts decoded, and for a Reader the whole stream and the buffers, are not longer than a quarter of 2^31 (2^63) bytes, and the texts encoded, and words, are shorter than 2^31 (2^63) bytes.','both widths, every call or session of a Reader or Writer, memory and growth policy','texts near the limits do not fit into a test, and tests run on 64-bit machines',['encoding/cp949/cp949.go: ensureCap, appendRune','encoding/cp949/public.go: cp949Reader.Read','hangul.go','stroke.go'])
# --- source text
p('The text of the packages is the program','Every Go file of the three packages except the tests, taken character by character, is read by the lexical, syntactic and typing rules of the Go Specification (a lexer, parser and type checker written in Coq): the texts are accepted, and the program they denote - every function, method, constant, map and table entry - is the one the other properties are about. So these hold of whatever the texts say, for instance what From, the functions of hangul and those of hanja do.','the complete text, and every call for the consequences','a test compiles the text but says nothing about a model; a slip in transcribing 62000 table entries or in an operator would go unnoticed',['constant.go','jamo.go','hangul.go','stroke.go','hanja/hanja.go','hanja/table.go','encoding/cp949/cp949.go','encoding/cp949/encoding.go','encoding/cp949/err.go','encoding/cp949/lookup_from.go','encoding/cp949/lookup_to.go','encoding/cp949/public.go'])
# --- memory used
MU='tests check results, and a leak or a quadratic cost shows only on large inputs'
p('From and To allocate in proportion to their input','A call of From or To on n bytes allocates at most 36n + 384 bytes of memory in total, garbage included, provided that append grows slices by a fifth at least and to three times the need plus 64 at most, as Go\'s does.','every memory, slice, content and growth policy of that kind',MU,['encoding/cp949/cp949.go: ensureCap, appendRune, Translate','encoding/cp949/public.go: From, To'])
p('A Writer needs memory for its longest Write only','However many Writes a client makes through one NewWriter, everything the Writer allocates in its life is at most 36W + 384 bytes, W being the length of the longest Write, under the same condition on append.','every sequence of Writes and other client actions, wrapped writer and growth policy of that kind',MU,['encoding/cp949/public.go: NewWriter, cp949Writer.Write'])
p('A Reader needs memory for its largest Read only','Everything a Reader allocates in its life is bounded by a function of its largest Read, however long the stream.','every stream, wrapped reader, schedule and growth policy','memory grows only if pieces of the stream end inside characters again and again',['encoding/cp949/public.go: NewReader, cp949Reader.Read'])
p('A Writer with a large enough buffer allocates nothing','Once a Writer has converted some Write, later Writes whose encoded form is not longer allocate no memory at all.','every sequence of Writes and other client actions, wrapped writer and growth policy',MU,['encoding/cp949/public.go: cp949Writer.Write','encoding/cp949/cp949.go: cp949ToTranslator.Translate'])
# --- sharing
p('One Decoder or Encoder may be shared by goroutines','Any number of goroutines call Transform of Decoders and Encoders, possibly of the same one, on slices that may be the same, each with a destination of its own. In every interleaving there is no data race, nothing but the destinations changes, and each call has the results and writes the bytes that it does alone.','every number of calls, memory, contents, interleaving and growth policy',SCH,['encoding/cp949/encoding.go: cp949Decoder.Transform, cp949Encoder.Transform'])
p('One Writer may be shared by goroutines','When two goroutines call Write of one Writer at the same time and both calls succeed, the wrapped writer has received what each of them wrote, in some order.','every interleaving',SCH,['encoding/cp949/public.go: cp949Writer.Write'])
p("What each Read returns",
  "Over every wrapped reader that stays within its buffer, Reads on a Reader are determined as follows. What is left of the text decoded last is handed over first, without calling the wrapped reader. Otherwise an error seen before is reported again. Otherwise the wrapped reader is called until the bytes collected by this Read are complete characters, or an error or an empty answer arrives; then the beginning of their conversion is returned and the rest kept, or, if they end inside a character, they are dropped and the error is returned. A Read that does not return is one for which every chunk so far has ended inside a character.",
  "every wrapped reader that stays within its buffer, every sequence of buffer sizes, every number of rounds",
  SCH, ["encoding/cp949/public.go: NewReader, Read"])
p("The work of a Reader is proportional to the stream",
  "There is a constant c such that the Reads on a Reader hand at most c times as many bytes to the conversion as the wrapped reader has delivered.",
  "every wrapped reader and every sequence of buffer sizes",
  SCH, ["encoding/cp949/public.go: Read"])
# --- time
p('From and To take time in proportion to their input','A call of From on n bytes takes at most 681n + 2561 steps and a call of To at most 541n + 2421, provided that append grows slices by a fifth at least and to three times the need plus 64 at most, as Go\'s does. A step is the evaluation of one operator, variable, literal or statement of the source, one round of a loop, or one byte copied or cleared by append, copy or make.','every memory, slice, content and growth policy of that kind','a run time that is quadratic only for some contents or growth policies shows on long inputs only, and a test cannot tell a slow machine from a slow program',['encoding/cp949/cp949.go: ensureCap, appendRune, Translate','encoding/cp949/public.go: From, To'])
p('Transform and Write take time in proportion to their input','Under the same condition on append, a call of Transform on a source of n bytes takes at most 717n + 3005 steps for a Decoder and 577n + 2865 for an Encoder, whatever the destination. All Writes that a client makes on one Writer take at most 361b + 561k + 180W + 1920 steps together, b being the bytes written, k the number of Writes and W the length of the longest.','every memory, slice, content, sequence of Writes and other client actions, wrapped writer and growth policy of that kind','the cost of a Write could depend on everything written before, as that of a Read does; only long sessions would show it',['encoding/cp949/encoding.go: cp949Decoder.Transform, cp949Encoder.Transform','encoding/cp949/public.go: NewWriter, cp949Writer.Write'])
p('The functions on characters and words take constant and linear time','Every exported function of package hangul on characters returns for every rune after a constant number of steps: 14 for IsLead, IsMedial and IsTail, up to 669 for Stroke, which calls itself for the letters of a syllable. LastConsonant, EndsWithConsonant and AppendPostposition on a word of n bytes take at most 2n + 90, 2n + 105 and 3n + 140 steps plus the bytes of the postpositions. IsHanja takes at most 10 steps and Convert on n bytes at most 22n + 20.','every rune (in and out of range), word, string, memory and growth policy','that a recursion always ends, and soon, cannot be seen from the runes tried',['jamo.go','hangul.go','stroke.go: Stroke','hanja/hanja.go'])
p('Reads take time by what they convert','All Reads that a client makes on one Reader take at most 502w + 1000c + d + 80k steps and 5 for every byte the Reader allocates, w being the bytes handed to the conversion and c the number of conversions (C127), d the bytes delivered and k the number of Reads. Under the condition on append of C128 that is at most 502s² + 1744s + 80k + 60B + 2920 for every stream of s bytes and Reads of at most B bytes, and at most 2488n + 80k + 60B + 3924 when the wrapped reader hands out whole characters, n in number.','every wrapped reader, schedule, stream, memory, sequence of Reads and other client actions, and growth policy of that kind','the cost of a Read depends on how the wrapped reader divides the stream; only long streams would show it',['encoding/cp949/public.go: NewReader, cp949Reader.Read'])
p('A Reader takes time in proportion to the stream','There is a constant c such that the Reads a client makes on one Reader take at most c steps for each byte of the stream, each Read, and each byte of the largest Read.','every wrapped reader, schedule, stream, memory, sequence of Reads and growth policy','only a long stream whose pieces end inside characters shows the excess',['encoding/cp949/public.go: NewReader, cp949Reader.Read'])
# --- several streams over one device
p('Several Writers over one writer','A program opens any number of Writers over one writer and uses them in turn, in any order: every Write has the result, and the writer receives the bytes, that it would if all were made through a single Writer. A Writer keeps nothing back between Writes.','every writer (failing ones included), number of Writers, order and contents of Writes and growth policy',SCH,['encoding/cp949/public.go: NewWriter, cp949Writer.Write'])
p('Writing and reading back through one buffer','A program writes texts to a bytes.Buffer through NewWriter and reads them back through NewReader over the same buffer, in any order: all that has been written and not yet read is there to be read.','every text, sequence of Writes and Reads, buffer sizes and growth policy',SCH,['encoding/cp949/public.go: NewReader, NewWriter, cp949Reader.Read, cp949Writer.Write'])
p('Several Readers over one reader','A program opens any number of Readers over one reader and uses them in turn: the Reads together deliver, in order, the text of the stream, and report the end when all of it has been delivered.','every reader, number of Readers, order and sizes of Reads',SCH,['encoding/cp949/public.go: NewReader, cp949Reader.Read'])
# --- readers and writers made of others
COMP='the places where one part ends and the next begins, inside a character, meet the sizes of buffers in combinations that tests hit by accident'
p('Readers made of others','A Reader over any nesting of io.MultiReader, io.LimitReader, io.TeeReader, bufio.Reader, iotest.OneByteReader and iotest.HalfReader delivers From of the stream that the nesting stands for (the parts joined, a beginning of it, the same stream), even where a part ends inside a character, and then its error. A Reader in turn may be a part of such a nesting, and stands there for From of its own stream.','every nesting and its parts, contents, schedules, sequence of buffer sizes and growth policy',COMP,['encoding/cp949/public.go: NewReader, cp949Reader.Read'])
p('A TeeReader below a Reader','A TeeReader that a Reader reads from has written to its writer a beginning of the stream, and exactly the stream when the Reader reports the end.','every reader, nested or not, content, schedule, sequence of buffer sizes and growth policy',COMP,['encoding/cp949/public.go: NewReader, cp949Reader.Read'])
p('Writing to several Writers at once','A Write to an io.MultiWriter over several Writers, each over a writer of its own, hands To(data) to these in order up to the first that fails, and returns (len(data), nil), or 0 and the error of that one; an empty Write reaches none of them. Over bytes.Buffers every one has received To of the chunks, one after the other.','every number of Writers, their writers (failing ones included), sequence of Writes and growth policy',COMP,['encoding/cp949/public.go: NewWriter, cp949Writer.Write'])
p('From a Writer to a Reader through a pipe','One goroutine writes chunks of text through a Writer into an io.Pipe and closes it, another one reads through a Reader from the pipe: it gets From of what the chunks are encoded as, then the error the pipe was closed with. If the chunks consist of whole encodable characters it gets the text written, empty chunks or not.','every sequence of chunks, sequence of buffer sizes and growth policy',COMP,['encoding/cp949/public.go: NewReader, NewWriter, cp949Reader.Read, cp949Writer.Write'])
p('CP949 text through a pipe','One goroutine writes pieces of CP949 text into an io.Pipe and closes it, another one reads through a Reader from the pipe: it gets From of the text.','every text, division into Writes, sequence of buffer sizes and growth policy',COMP,['encoding/cp949/public.go: NewReader, cp949Reader.Read'])
# --- words that do not end with a syllable, letters in CP949
p('Particles after words that do not end in Hangul','AppendPostposition appends the form for vowels (without) to a word whose last character is not a Hangul syllable.','every word and pair of particles','tests use Korean words',['hangul.go: AppendPostposition, LastConsonant, Split'])
p('Words in decomposed form','AppendPostposition chooses the same particle for a word and for the canonically equivalent word with the last syllable decomposed into conjoining jamo (as in file names of some systems).','every word, syllable and pair of particles','tests use precomposed words',['hangul.go: AppendPostposition, LastConsonant, Split'])
p('Syllables taken apart, in CP949','The letters that Split or SplitCompat returns for the syllables of a text can be encoded with To and decoded with From.','every text of syllables','a test shows it for some letters',['hangul.go: Split, SplitCompat','encoding/cp949/public.go: To, From','encoding/cp949/lookup_to.go'])
# --- bufio.Reader
p('Reading up to a delimiter','ReadString and ReadBytes of a bufio.Reader over a NewReader, called until there is an error, yield From(stream) divided after each delimiter: every piece but the last ends with the delimiter, and no piece contains another one. The last piece, possibly empty, comes with the error of the wrapped reader. Pieces may be longer than the buffer.','every stream that From accepts, delimiter, size of the buffer (16 or more), wrapped reader (whose error is not bufio.ErrBufferFull) and growth policy',COMP,['encoding/cp949/public.go: NewReader, cp949Reader.Read'])
p('Reading characters and bytes one at a time','ReadRune of a bufio.Reader over a NewReader, called until there is an error, yields the characters of the stream with the lengths of their UTF-8 forms, although the Reader may hand out parts of characters; ReadByte yields the bytes of From(stream). Then both report the error of the wrapped reader.','every stream of whole characters, assigned or not (ReadByte: that From accepts), size of the buffer (16 or more), wrapped reader and growth policy',COMP,['encoding/cp949/public.go: NewReader, cp949Reader.Read'])
# --- a lock around each call
p('A Reader may be shared under a lock','Goroutines that call Read of one Reader, each call protected by one sync.Mutex, and otherwise overwrite their own buffers at any time, cause no data race, deadlock or panic and come to an end. Their events have an order in which each does its own in sequence, such that the Reads, in this order, deliver From(stream) piece by piece and then the error of the wrapped reader; every goroutine finds in its buffers the pieces its Reads delivered.','every number of goroutines with buffers of their own (none shared), sequence of Reads of at least one byte and stores of each, interleaving of the memory accesses, stream that From accepts, wrapped reader and growth policy',SCH,['encoding/cp949/public.go: NewReader, cp949Reader.Read'])
p('A Writer may be shared under a lock','Goroutines that call Write of one Writer, each call protected by one sync.Mutex, cause no data race, deadlock or panic and come to an end. In the order of the calls the wrapped writer receives To of each chunk, whole; the calls of each goroutine come in its order with the chunks it meant to write, and each gets its length and nil or 0 and the error of the wrapped writer for this chunk. The memory of the callers is left alone.','every number of goroutines, which may write from the same arrays if none changes them, sequence of Writes and stores of each, interleaving of the memory accesses, wrapped writer (failing ones included) and growth policy',SCH,['encoding/cp949/public.go: NewWriter, cp949Writer.Write'])
# --- parts of one array
p('Goroutines may use different parts of one array','Several goroutines each perform a sequence of calls of the exported functions and methods, stores into slices and reads of slices. Each may read and write some parts of arrays, which do not overlap the parts of the others although they may belong to the same arrays, and may read what is in no part. A buffer passed to Read or Transform must lie in a part up to its length only: its spare capacity may reach into the parts of others, since the functions neither use it nor keep the buffer. If each would return when executed alone, then in every interleaving no two goroutines are ever about to access the same byte with one of them writing, none blocks or panics, all end after a bounded number of steps, no byte outside the parts changes, and the results, parts and streams of each are as if it had run alone.','every number of goroutines, sequence of operations, memory and division of it, set of streams, interleaving and growth policy',SCH,['encoding/cp949/public.go','encoding/cp949/encoding.go','encoding/cp949/cp949.go','hangul.go','jamo.go','stroke.go','hanja/hanja.go'])
p('Calls of Transform that fill parts of one buffer','Any number of goroutines call Transform, of Decoders or Encoders that may be shared, at the same time. No destination has a byte in common with the destination or the source of another call (the sources may overlap each other, and spare capacities anything); the source of a call is apart from its own destination or inside it. In every interleaving there is no data race, no byte outside the destinations changes, and every call returns, and leaves in its destination, what it does alone.','every number of calls, memory, slices, content, interleaving and growth policy',SCH,['encoding/cp949/encoding.go: cp949Decoder.Transform, cp949Encoder.Transform','encoding/cp949/cp949.go'])

# --- chains of Transformers
p('Chains of Decoders and Encoders','Transform of a transform.Chain of the Transformers of any Decoders and Encoders converts src by one after the other, in every call of a sequence; when one of them finds a text that ends inside a character, the call reports this, stores nothing, and does not disturb the next call.','every non-empty sequence of Decoders and Encoders, sequence of calls, dst, src and growth policy',COMP,['encoding/cp949/encoding.go: NewDecoder, NewEncoder, cp949Decoder.Transform, cp949Encoder.Transform'])

# --- goroutines that react
p('Goroutines that react to what they see','C148 for goroutines that choose each operation by the results and the contents of buffers they have seen so far, loops included, and may panic: no interleaving gives rise to a data race, a block, or a panic that a goroutine does not have alone, each goroutine comes to the end it comes to alone (returning or panicking), and one that returns has the results, parts and streams it has alone.','every number of goroutines and way of reacting (that does not depend on addresses, and in which every path is finite), memory and division of it, set of streams (also over readers and writers that misbehave), interleaving and growth policy',SCH,['encoding/cp949/public.go','encoding/cp949/encoding.go','encoding/cp949/cp949.go','hangul.go','jamo.go','stroke.go','hanja/hanja.go'])

# --- texts as letters
p('A text can be put together again from its letters','If every syllable of a text is replaced by the letters that SplitCompat returns for it, the text can be put together again with Join: a consonant before a vowel begins a syllable, a consonant after the vowel that is not before a vowel itself ends it. So no two texts have the same letters. The text may contain anything but loose Hangul letters.','every text of syllables and characters that are not Hangul','which of two syllables a consonant belongs to depends on the neighbours; a test shows some sequences of syllables',['hangul.go: SplitCompat, Join','jamo.go: IsJaeum, IsMoeum'])
p('A text as it is typed','If, moreover, every letter with several elements is replaced by the elements SplitMultiElement returns for it (a text as it is typed on a keyboard with the simple letters only), different texts still give different sequences.','every pair of texts of syllables and characters that are not Hangul','the texts that coincide are pairs that a test must think of',['hangul.go: SplitCompat','jamo.go: SplitMultiElement, multiElements'])

# --- shared readers and writers
p('Goroutines over the same readers and writers','C151 for goroutines whose Readers and Writers are over the same readers and writers, which may be called by several goroutines at a time: there is no data race on the memory, and each goroutine makes the calls of the readers and writers, and has the results and buffers, that it has alone if its calls find the readers and writers in the same states. Nothing else passes from one goroutine to the other.','every number of goroutines and way of reacting, memory and division of it, readers and writers with any common state (also misbehaving ones), interleaving and growth policy',SCH,['encoding/cp949/public.go','encoding/cp949/encoding.go','encoding/cp949/cp949.go','hangul.go','jamo.go','stroke.go','hanja/hanja.go'])
p('Writers of several goroutines over one writer','Goroutines that each write chunks through a NewWriter of their own, over one underlying writer or several, cause no data race, block or panic and come to an end, whatever the interleaving. The underlying writer receives To(chunk) of every non-empty chunk in a single call, so that the encoded chunks of different goroutines never mix; those of one goroutine come in its order. Each Write returns the length of the chunk and nil, or 0 and the error that this call of the underlying writer returned. The memory of the callers is left alone.','every number of goroutines, chunks (which may share memory), underlying writers with any common state (failing ones included), interleaving and growth policy',SCH,['encoding/cp949/public.go: NewWriter, cp949Writer.Write'])

# --- wrapped readers and writers that keep slices
p('A wrapped writer may keep and change what it is given','A Writer works over a writer that, against the contract of io.Writer, changes the bytes it is given during the call, keeps the slice, and changes its array at any time between Writes: every Write has the result, and the wrapped writer receives the bytes, that it would otherwise.','every writer (failing ones included), change, sequence of Writes and growth policy',MEM,['encoding/cp949/public.go: NewWriter, cp949Writer.Write','encoding/cp949/cp949.go: Translate'])
p('A wrapped reader may use all of its buffer','Whatever a wrapped reader stores during its call into the buffer beyond the bytes it reports (which the contract of io.Reader allows), all Reads return the same, and call the wrapped reader in the same way.','every reader (even one that reports too much), stored contents, sequence of Reads and growth policy',MEM,['encoding/cp949/public.go: NewReader, cp949Reader.Read'])
p('A wrapped reader may keep its buffers','Whatever a wrapped reader that keeps the buffers it has been given stores into them in later calls or between Reads, all Reads return the same.','every reader, stored contents, sequence of Reads and growth policy',MEM,['encoding/cp949/public.go: NewReader, cp949Reader.Read'])
# --- words
p('Reading word by word','A bufio.Scanner with bufio.ScanWords over a NewReader yields the words of the decoded stream, that is the longest runs of characters without the Unicode property White_Space (the ideographic space of CP949 separates words as well), as long as these take at most 65533 bytes in UTF-8, and then stops without error at io.EOF, else with the error of the wrapped reader. A word of 65536 bytes or more makes it stop there with bufio.ErrTooLong, after the words before it.','every stream of whole characters, assigned or not, wrapped reader (its schedule and its error) and growth policy',COMP,['encoding/cp949/public.go: NewReader, cp949Reader.Read'])
# --- readers of several goroutines
p('Readers of several goroutines over one reader','Goroutines that each call Read on a NewReader of their own, all over one underlying reader that hands out messages (as a datagram socket or a queue does), into buffers that do not overlap those of the others, cause no data race, block or panic and come to an end, whatever the interleaving. Every message is received by exactly one Reader. What a goroutine reads is From of the messages its Reader received, in their order and nothing left out; a Read gives at least a byte, or, when all of that has been read and the reader has reported its error, this error; it calls the reader only when nothing is left, and never after the error.','every sequence of non-empty messages of whole characters (assigned or not), every number of goroutines, every sequence of buffers with room for the longest message (a shorter one would lose bytes in the reader), every error, growth policy and interleaving',SCH,['encoding/cp949/public.go: NewReader, cp949Reader.Read','encoding/cp949/cp949.go: translateFromCp949'])
p('Readers of several goroutines over one stream','Goroutines that each call Read on a NewReader of their own, all over one underlying stream, read its whole text between them when they read until the end: every character is read by one of them.','every stream, division into pieces, number of goroutines and interleaving',SCH,['encoding/cp949/public.go: NewReader, cp949Reader.Read'])
# --- damaged texts
p('A changed byte is felt locally','If one byte of a text is changed, the conversion changes only where the characters are that contained the byte before or contain it now; all other characters come out as before. This holds for From and for To.','every text, place and value of the changed byte, and growth policy','how far a change is felt depends on all bytes after it; a test changes a few bytes of a few texts',['encoding/cp949/public.go: From, To','encoding/cp949/cp949.go: translateFromCp949, translateToCp949'])
p('Converting there and back','From(To(x)) is a text of which To makes To(x) again, so converting there and back a second time changes nothing; it is x exactly if x is a UTF-8 text of characters in the repertoire. Where From(s) succeeds, To(From(s)) has the same property, and its text is From(s) with two question marks for every replacement character; it is s exactly if all codes of s are assigned.','every byte string x and s, valid or not, and growth policy',COMP,['encoding/cp949/public.go: From, To','encoding/cp949/cp949.go: translateFromCp949, translateToCp949'])
p('Trimming encoded text','Trimming an encoded text gives the encoding of the trimmed text: bytes.Trim(To(text), set) == To(strings.Trim(text, set)) for a set of ASCII characters that are not letters, and bytes.TrimSpace(To(text)) == To(strings.TrimSpace(text)).','every encodable text, every such set, every growth policy','the codes at the ends of a text decide; one of some 8800 codes in the extension looks like a space in UTF-8',['encoding/cp949/public.go: From, To','encoding/cp949/lookup_to.go'])
p('Telling the encodings apart','An encoded text that contains a character beyond ASCII is not valid UTF-8, so utf8.Valid tells encoded texts from UTF-8.','every encodable text and growth policy','whether all bytes of a text happen to form UTF-8 sequences depends on all its characters; tests have a few texts',['encoding/cp949/public.go: To','encoding/cp949/lookup_to.go'])
p('Normalising first','hanja.Convert leaves the compatibility ideographs of KS X 1001 alone. Putting an encodable text into Unicode normalisation form NFC first cures this: Convert(NFC(text)) contains no Chinese character, every Chinese character has become a syllable and nothing else has changed but by NFC, and both NFC(text) and Convert(NFC(text)) are encodable again.','every encodable text and growth policy','it needs the equivalents of all 268 compatibility ideographs next to the tables of hanja and CP949; no test has a compatibility ideograph',['hanja/hanja.go: Convert','hanja/table.go','encoding/cp949/lookup_to.go'])
p('Readings of the compatibility ideographs','KS X 1001 has a Chinese character several times if it has several readings, once under each. Convert(NFC(c)) is the reading under which c is filed: of two Chinese characters the one with the smaller code has no later reading.','every two Chinese characters of KS X 1001','a claim about the order of all pairs of Chinese characters, of which tests convert a handful',['hanja/hanja.go: Convert','hanja/table.go','encoding/cp949/lookup_from.go'])
p('Columns','The number of bytes of an encoded text is the number of columns it takes, one for an ASCII character and two for any other one: of To(x) for every UTF-8 text x, and of b for every b that From accepts, counted in the decoded text.','every text, byte string and growth policy','the lengths depend on every character, encodable or not; tests compare a few encoded words',['encoding/cp949/public.go: From, To','encoding/cp949/lookup_to.go'])
p('Changing the case of encoded text','Changing the case of the ASCII letters byte by byte (to lower case or to upper case) in To(text) gives To of the text with the case changed.','every encodable text and growth policy','it holds for the characters that tests contain and fails for others',['encoding/cp949/public.go: To','encoding/cp949/lookup_to.go'])
p('Reading words with fmt.Fscan','Calling fmt.Fscan(r, &s) over r = NewReader(...) until there is an error yields the words of the decoded stream, that is the longest runs of characters without the Unicode property White_Space, however long they are and however the wrapped reader splits the stream; the character after a word, which Fscan loses between the calls, is always a space. If the wrapped reader ends with another error than io.EOF, Fscan returns this error, after all words but the one that the error interrupts.','every complete stream, schedule of the wrapped reader and growth policy',SCH,['encoding/cp949/public.go: NewReader, Read'])
p('Replacing in encoded text','Replacing in an encoded text gives the encoding of the replaced text: bytes.ReplaceAll(To(text), To(old), To(new)) == To(strings.ReplaceAll(text, old, new)) for encodable texts, old not empty.','every encodable text, old and new','it holds for most short texts; the bytes that make it fail have to be known',['encoding/cp949/public.go','encoding/cp949/lookup_to.go'])
p('When From fails','From(s) fails exactly if s ends in an odd number of bytes of 0x80 or more. So where From(s) succeeds, a character begins at a position exactly if the number of such bytes just before it is even: From of the two parts then gives the two parts of the text. Otherwise From of the first part fails, and a character begins one byte later.','every byte string and position in it','the rule is about all byte strings, also those with unassigned codes',['encoding/cp949/public.go','encoding/cp949/cp949.go'])
p('Seeing where a character begins','Whether a character of an encoded Korean text begins at a position can be told from the bytes around it, up to some distance that does not depend on the text.','every distance','tests do not try long runs of similar bytes',['encoding/cp949/public.go','encoding/cp949/lookup_to.go'])
p('Looking up words by their first letters','In a list of words sorted as Go compares strings, the words that begin with a given text and then a syllable with the lead consonant l are neighbours: they are the words w with text+Join(l, U+1161, 0) <= w < text+(Join(l, U+1175, U+11C2)+1). Those that begin with the text and a syllable with lead l and vowel m are the words from text+Join(l, m, 0) up to before text+(Join(l, m, U+11C2)+1). The letters may be given as conjoining or as compatibility letters.','every text, word, lead consonant and vowel','there are too many words and letters to try',['hangul.go','jamo.go'])
p('Looking up encoded words by their first letter','The same in a list of words encoded with To and sorted bytewise: the words whose first syllable has the lead consonant l are those from To(Join(l, U+1161, 0)) up to before the same of the next lead consonant.','every lead consonant and word','tests use the common syllables, for which it holds',['encoding/cp949/lookup_to.go','hangul.go'])
p('Fields of a given width','With one column for an ASCII character and two for any other one, as in records with fields of a fixed number of bytes: the longest beginning of an encodable text that fits into n columns is encoded as the first n bytes of To(text), or n-1 if these end in an odd number of bytes of 0x80 or more. Filled up with spaces to n columns, a text takes n bytes. The field that takes the columns i to j of a text is From(To(text)[i:j]).','every encodable text, width and field','cutting characters in two shows only at some widths',['encoding/cp949/public.go','encoding/cp949/lookup_to.go'])
p('Parsing before or after a conversion','Take a program that cuts a text into pieces and reads it byte by byte, such as a reader of comma separated values with quoted fields: for special bytes it may do what it likes (keep them, drop them, end a piece, fail), depending on any state; all other bytes it treats alike. If no special byte is a letter or 0x80 or more, then to parse an encoded text and to convert the pieces with From gives the same as to parse From of it: the same failures, as many pieces, the same marks and the same contents. The same is true of To, for every valid text, if the question mark is not special either; and of Convert, for all ASCII special bytes.','every such program with any states, every encodable (From) or valid (To, Convert) text','it depends on every second byte of a code and on each state of the program; and programs cannot be enumerated',['encoding/cp949/public.go','encoding/cp949/lookup_from.go','hanja/hanja.go'])
p('transform.Append','transform.Append(t, dst, src), with a Decoder as t, returns dst followed by From(src), the number of bytes of src and no error, or dst and the error of From; with an Encoder, dst followed by To(src). It does so for every dst. The result is stored in the free capacity of dst if it has any; a dst without leaves its array as it was.','every destination, capacity and source','whether it panics depends on the capacity of the destination and on the length of the result; no test of the package uses Append',['encoding/cp949/encoding.go'])
p('Order of compatibility letters','CompatJamo keeps the order of leads, of medials and of tails. So texts of syllables that are taken apart with SplitCompat into letters, without the zeros for missing tails, are sorted by these as they were by the syllables.','every pair of letters and of texts of syllables','a text is misplaced only beside particular others',['jamo.go','hangul.go'])
p('iotest.TestReader','The checks of testing/iotest.TestReader pass for a Reader over any reader that keeps the contract of io.Reader and delivers a stream, with From(stream) as the content: Read(nil) on a fresh Reader returns 0 and no error if there is content, reading everything by pieces of one to three bytes gives the content, and a further Read returns 0 and io.EOF.','every stream that From converts and every wrapped reader','the package has no such test; it holds or fails for all wrapped readers only by reasoning about the loop of Read',['encoding/cp949/public.go'])
p('Comparing the ends of encoded texts','For encodable texts a and b: bytes.HasSuffix(To(b), To(a)) exactly when strings.HasSuffix(b, a).','all pairs of texts of characters of the repertoire','needs every way in which a match can begin at the second byte of a character',['encoding/cp949/cp949.go','encoding/cp949/public.go','encoding/cp949/lookup_to.go'])
p('Replacing the hanja of CP949 text','For every CP949 text s of ASCII characters and assigned codes, To(Convert(From(s))) is s with the two bytes of each hanja replaced by the two bytes of a KS X 1001 syllable, its reading; all other bytes stay where they are, and EUC-KR text stays EUC-KR text.','all such texts','a claim about every hanja of the table and every position',['encoding/cp949/public.go','hanja/hanja.go','hanja/table.go'])
p('Hanja are read as syllables of KS X 1001','The reading that Convert gives to a hanja is one of the 2350 syllables of KS X 1001, so that converted text fits EUC-KR.','all hanja of the table','the table has more than 27000 entries, and the tests look at a few',['hanja/hanja.go','hanja/table.go'])
p('Byte order marks','A UTF-8 byte order mark (EF BB BF) in front of a text does no harm: To and From give the same with it as without, and Convert keeps it.','all byte strings behind the mark','the tests have no text with a mark, and its third byte may meet any byte',['encoding/cp949/cp949.go','encoding/cp949/public.go','hanja/hanja.go'])
p('Escaping before or after a conversion','Take a function that escapes a text byte by byte, as html.EscapeString does: each byte is kept or replaced by ASCII characters, and no letter and no byte of 0x80 or more is replaced. To escape and to convert may be done in either order: of From for every text of ASCII characters and assigned codes; of To for every valid text, if question marks are kept too; and of Convert for every valid text, even if letters are replaced.','all such functions and all texts','a statement about all escaping functions; the second bytes of all codes have to be considered',['encoding/cp949/cp949.go','encoding/cp949/public.go','hanja/hanja.go'])
p('EUC-KR text','For an encodable text, To(text) is EUC-KR (ASCII, and pairs of bytes of 0xA1 and more) exactly if all of its characters are ASCII or in KS X 1001; From of any EUC-KR byte string succeeds and yields only such characters and U+FFFD. A text with any of the 11172 syllables (and no loose letters) fits if each syllable is replaced by the letters that SplitCompat returns, and can be put together again with Join after From.','all encodable texts and all byte strings','covers every syllable in every position',['encoding/cp949/cp949.go','encoding/cp949/public.go','encoding/cp949/lookup_to.go','hangul.go'])
p('IsHangul and the Hangul of CP949','Every Hangul letter and syllable that CP949 text can contain (U+3131..318E, U+AC00..D7A3) satisfies IsHangul, and no other character of CP949 does.','all characters of the tables','ranges over all characters of CP949',['hangul.go','jamo.go','encoding/cp949/lookup_from.go'])
p('Hangul and hanja of a text','No character satisfies both IsHangul and IsHanja. Convert(s) has as many characters that satisfy IsHangul as s has characters that satisfy IsHangul or IsHanja, none that satisfies IsHanja, and the same other characters in the same order.','all characters and all byte strings','ranges over all characters and all texts',['hangul.go','hanja/hanja.go','hanja/table.go'])
p('Filters that replace hanja','A loop that reads CP949 text from a Reader, converts each piece it gets with Convert and writes it to a Writer, replaces each hanja of the text by its reading and leaves the rest as it is, however the pieces are cut.','all texts of the tables, all sources and all sizes of the buffers','pieces end inside of characters only for some sizes; ranges over all texts and sources',['encoding/cp949/public.go','encoding/cp949/encoding.go','hanja/hanja.go'])
p('Searching converted text','Let w be non-empty valid UTF-8. Wherever w occurs in a byte string s, Convert(w) occurs in Convert(s), between what Convert makes of the parts before and after. Wherever w occurs in Convert(s), s consists of three parts that Convert turns into what is before w, w itself, and what is after it; if s is valid UTF-8 the parts are at the same offsets.','all non-empty valid w, all byte strings and all occurrences','ranges over all texts and positions',['hanja/hanja.go','hanja/table.go'])
p('Taking encoded text for Unicode','What To returns never begins with the byte order mark of UTF-8 (EF BB BF) or of UTF-16 (FE FF, FF FE), so that programs that look for one do not take CP949 text for Unicode.','all texts','needs the one hanja whose code begins the mark, and ranges over all texts',['encoding/cp949/public.go','encoding/cp949/cp949.go','encoding/cp949/lookup_to.go'])
p('Particles after encoded words','AppendPostposition applied to a word and particles in CP949 returns the CP949 encoding of what it returns for the same word and particles in UTF-8.','all encodable words and particles','the outcome depends on how the bytes of the last character happen to read as UTF-8',['hangul.go','encoding/cp949/public.go'])
p('Encoding twice','Applying To to text that is in CP949 already, and contains a character beyond ASCII, is noticed: the result contains question marks.','all encoded texts','needs codes that are UTF-8 by accident, and ranges over all texts',['encoding/cp949/public.go','encoding/cp949/cp949.go','encoding/cp949/lookup_to.go'])
p('Decoding UTF-8','Applying From to text that is in UTF-8 already, and contains a syllable, is noticed: it returns an error, or text with replacement characters.','all texts','whether it is noticed depends on the number of characters at the end and on which pairs of bytes are codes',['encoding/cp949/public.go','encoding/cp949/cp949.go','encoding/cp949/lookup_from.go'])
p('Sorting words with hanja','Sorting encoded words that contain hanja by their bytes puts them into the order of their readings, the results of Convert.','all words','whether the orders agree depends on the codes of all hanja and on all their readings',['encoding/cp949/public.go','encoding/cp949/cp949.go','encoding/cp949/lookup_to.go','hanja/hanja.go','hanja/table.go'])
import sys
with open(os.path.join(os.path.dirname(os.path.dirname(os.path.abspath(__file__))),'properties.jsonl'),'w') as f:
    for x in P: f.write(json.dumps(x,ensure_ascii=False)+'\n')
for x in P: print(x['id'],x['title'])
