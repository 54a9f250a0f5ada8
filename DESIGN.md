# go_hangul: formal model and proofs

## What is modelled

| /repo file | model file | remarks |
|---|---|---|
| constant.go, jamo.go, hangul.go, stroke.go | `HangulModel.v` | every function; runes are `Z` with explicit int32 wrap-around; the package-level map whose slices are handed out (`multiElements`) is also modelled as mutable state (`hangul_step`) |
| hanja/hanja.go | `HanjaModel.v` | both functions |
| hanja/table.go | `TableHanja.v` | all 27496 entries, transcribed by `tools/gen_tables.py` |
| encoding/cp949/cp949.go, err.go | `Cp949Model.v` | every function, at the level of slices with backing array, length and capacity; run-time panics (index, slice bounds) are explicit outcomes |
| encoding/cp949/lookup_from.go, lookup_to.go | `TableFrom.v`, `TableTo.v` | all 17048 entries each, transcribed by `tools/gen_tables.py` |
| encoding/cp949/public.go | `Cp949Model.v` (From, To), `StreamModel.v` (Reader, Writer), `StreamModel2.v` (Reader over a wrapped reader that scribbles on its buffer), `StreamModel3.v` (the same, and it may report any count) | the wrapped io.Reader/io.Writer is an arbitrary state machine |
| encoding/cp949/encoding.go | `TransformModel.v`, `TransformModel2.v`, `TransformModel3.v` | both Transform methods; the x/text clients Bytes, Reader and Writer (first file), String (second) and the Reader and Writer in the other direction (third) |
| all Go files but the tests, a second time | `GoSource.v` | syntax trees of every function, written by the parser `tools/gen_ast.py`; executed by the interpreter of `GoLang.v`, in a memory where slices can share arrays; proved to compute what the files above say (`GoHangul.v`, `GoHanja.v`, `GoCp949.v`, `GoStream.v`) |
| all Go files but the tests, a third time | `SourceText.v`, `TextTable.v`, `TextLookupFrom.v`, `TextLookupTo.v` | their text, character for character, written by `tools/gen_text.py`; read by a lexer (`GoLexer.v`), a parser (`GoParser.v`) and a type checker that yields syntax trees (`GoElab.v`); the outcome is proved to be `GoSource.v` with all tables (C119) |
| the five test files | `Validation.v` | their expectations, evaluated on the model; generated by `tools/gen_validation.py`; no theorem depends on it |

Go's type `int` is the unbounded `Z` in all of these files.  `GoPlatform.v` retypes the
syntax trees for 32-bit and 64-bit ints that wrap around, and C118 proves that the results
are the same while the sizes stay below a quarter of 2^31 or 2^63 (To, the Encoder and the
Writer: below the limit itself).  `len`, `cap`, loop counters and the inside of sort.Search are
not wrapped; they stay below the length of a slice.

Not modelled: memory exhaustion, sizes beyond those of C118.  Retention of buffers by a
misbehaving wrapped reader or writer is modelled for C156 and C158 only (`KeepModel.v`): it may
store into the memory it was given during its calls and between calls of Read and Write.

`GoThreads.v` is the interpreter a second time, producing the tree of accesses to memory
instead of performing them, so that the accesses of several goroutines can be interleaved;
`ThreadFacts.v` proves that performing all accesses of one call in a row is `GoLang.v`'s
execution.  One step reads or writes consecutive cells of one array, or reads a struct or
writes one of its fields; Go does not promise that much atomicity, but only for accesses
that race, and C108 says that there are none.  Goroutines start together, do not
synchronise, and perform straight-line sequences of operations, which C108 quantifies over.
Steps of a goroutine do not interleave with the inside of its own wrapped reader or writer.
C151 also covers goroutines that react to what they see, and ones that panic.
Ownership is per array in C108 and per cell in C148, C151 and C154.  The wrapped readers and
writers belong to one goroutine each, except in C154, C155, C160 and C161, where a call of a shared one is one step.

`GoTime.v` counts the steps of an execution by `GoLang.v`: one per syntax node evaluated, per
round of a loop, per parameter, and per byte touched by append, copy, make and the operations
on strings.  A lookup in a map is one step; the caller's readers and writers and the garbage
collector are free.  That compiled code takes a bounded time per step is not modelled.

Simplifications of `GoLang.v` with respect to Go: `:=` always introduces new variables (in
the sources every redeclared one is dead afterwards or shadows as in Go); a nil slice is the
empty slice of the empty array at position 0; an effect of the function passed to sort.Search
would be dropped (the ones in /repo have none); the map of slices of lookup.go has its slices
in the memory from the start.  The wrapped readers and writers of a program are numbered and
share one state (a product of states, when they are independent).  A wrapped reader may store
anything in its buffer and report any count, a wrapped writer gets the bytes and may report
any count; neither gets the slice itself, so neither can keep it (but see `KeepModel.v`).

### Library code that is modelled but is not in /repo (trusted reading)

* `Utf8.v`: unicode/utf8 `DecodeRune`, `EncodeRune`, `[]rune(s)`, `string(rs)`.
  Proved to agree with the Unicode definition of UTF-8 in `Spec.v` (`Utf8Facts.v`).
* `SortSearch.v`: `sort.Search`, loop by loop.
* `Base.v`: maps, slices, `append` (new capacity after reallocation = arbitrary function
  `grow`, universally quantified except in concrete witnesses), truncated division.
* `TransformModel.v`, section Clients: golang.org/x/text/transform v0.14.0.  The sandbox has
  no copy of it; it is written from its published source.  Only C57, C58, C64, C65,
  C106 and C107 depend on it.
* `AppendModel.v`: transform.Append of the same package; only C178 depends on it.
* `IotestModel.v`: testing/iotest.TestReader, written from its published source; only C180 depends
  on it.
* `TransformModel2.v`: `transform.String` of the same package, with the same caveat.  Only
  C78 depends on it.
* `TransformModel3.v`: transform.Writer with Close, and the Readers and Writers of C106 and
  C107, with the same caveat.  Only these two depend on it.
* `BufioModel.v`: bufio.Scanner with ScanLines and ScanRunes, bufio.Writer; written from their
  published source.  Only C113-C116 and C159 depend on it.
* `WordModel.v`: bufio.ScanWords, written from its published source.  Only C159 depends on it (and C170 on its isSpace).
* `FscanModel.v`: fmt.Fscan with one operand of type string, written from memory of its published source, without its limit of 2^30
  characters for one call; which error it reports when there is no word left is a parameter.  It shares isSpace, which lists the
  same characters in both packages, with `WordModel.v`.  Only C170 depends on it.
* `IoModel.v`: the loop of io.Copy, written from its published source.  Only C80-C82 depend
  on it.
* `ShareModel.v`: programs that use several Readers and Writers over one reader, writer or
  bytes.Buffer, for C133-C135 only.
* `ComposeModel.v`: the readers and writers of the standard library that are made of others
  (io.MultiReader, LimitReader, TeeReader, MultiWriter, Pipe, bufio.Reader, iotest.OneByteReader,
  HalfReader), for C136-C140 only. The goroutines of a pipe are taken to do nothing but write
  and read, so that the order of events is the one the pipe enforces.
* `BufReaderModel.v`: ReadByte, ReadRune, ReadSlice and ReadString of bufio.Reader, for C144 and
  C145 only.
* `SpecLock.v`: goroutines that lock and unlock a sync.Mutex around calls, for C146 and C147 only.
  Lock waits until the mutex is free and is one step, as is Unlock.
* `SpecCells.v`: which parts of arrays goroutines may use, and races on single cells, for C148 and C149 only.  A
  multi-byte access (copy, conversion of a slice, append) is one step that touches each of its cells.
* `ChainModel.v`: transform.Chain, for C150 only, written from its published source; `SpecChain.v` says what a chain
  is to do.
* `SpecAgents.v`: goroutines whose next operation depends on what they have seen (everything but addresses), for
  C151 only.  When one panics the others go on; in Go the program ends there, which is a prefix of such an execution.
* `SpecLetters.v`: texts taken apart with SplitCompat and SplitMultiElement and put together with Join, as a client
  would do it, for C152 and C153 only.
* `KeepModel.v`: Read and Write over readers and writers that store into the slices they were given, at any time, for C156-C158 only.
* `SpecCrew.v`: goroutines whose Readers and Writers are over the same readers and writers, for C154 and C155 only.
* `SpecSuffix.v`: suffixes and the characters of KS X 1001 (C181, C76).
* `SpecInPlace.v`: CP949 text with its hanja replaced, the form of EUC-KR text (C182, C183,
  C186).
* `SpecEscape.v`: functions that escape bytes; html.EscapeString as an example (C185).
* `SpecFilter.v`: client programs that read from a Reader, convert each piece with Convert and write
  it to a Writer (C189); they are not in /repo.
* `SpecEnds.v`: the number of bytes of 0x80 and more at the end of a byte string.
* `SpecAppend.v`: the room for the result of transform.Append.
* `SpecParse.v`: programs that cut a byte string into pieces at special bytes; comma separated
  values as an example.
* `SpecReplace.v`: what `ReplaceAll` of strings and bytes does, as a relation.
* `SpecField.v`: columns, and the case of ASCII letters, for C168 and C169 only.
* `SpecNfc.v`: normalisation form NFC of texts of CP949 characters, with the data file `TableNfc.v`, for C166 and C167 only. That NFC
  replaces such characters one by one, and by which, is checked by `tools/gen_nfc.py`, not proved. `TableReadings.v` lists the
  exceptions of C167.
* `SpecGuess.v`: Chinese characters, and codes that look like UTF-8, for C165 only.
* `SpecTrim.v`: what bytes.Trim and strings.Trim leave, for C164 only.
* `SpecCrewRead.v`: goroutines whose Readers are over one reader of messages, or one stream, for C160 and C161 only.
  A call of a shared reader or writer takes effect at one moment, as with a file or a buffer behind a lock.
* `ClientModel.v`: io.ReadAll and io.ReadFull (C91, C92 only) and the errorHandler of
  golang.org/x/text/encoding (C90 only), written from their published sources.

## Trusted base

* Coq's kernel (8.16.1), including its virtual machine: table facts are proved with
  `vm_compute`.  No kernel check is switched off, `native_compute` is not used.
* `Print Assumptions` follows every property theorem in the Prop*.v files, and prints
  "Closed under the global context" for each of them: no axiom, own or library, is used.
* A scan of everything loaded lists seven parameters of the standard library's module
  `Coq.ssr.ssrunder.Under_rel` (`Under_rel`, `Under_rel_from_rel`, `Under_relE`,
  `under_rel_done`, `Over_rel`, `over_rel`, `over_rel_done`).  They come with `ZifyBool`
  (which requires ssreflect) and no theorem depends on them.
* That the strings of `SourceText.v`, `TextTable.v`, `TextLookupFrom.v` and `TextLookupTo.v`
  are the Go files; they are copies in which only `"` is doubled, so that a textual comparison
  shows it.
* The grammar and typing rules of `GoLexer.v`, `GoParser.v` and `GoElab.v`, for the part of Go
  the files use, and the meaning of the syntax trees given in `GoLang.v`.  `GoSource.v`, written
  by the Python parser `tools/gen_ast.py`, and the tables, written by `tools/gen_tables.py`, are
  proved to be what these rules make of the texts (C119), so that those two programs need not be
  trusted.  The model files named above, transcribed by hand with the lines they transcribe, are
  proved to agree with the executed trees (C95-C103, and the lemmas of Go*.v they come from), so
  that they need not be trusted for the functions of packages hangul, hanja and cp949.  The
  clients outside /repo are hand-written only, and so is `StreamModel2.v` (C84), whose claim
  C97_source_Reader_model gives again for the executed trees.
* The reading of the Go library described above (UTF-8, sort.Search, append) and of x/text.
* The specification files below, including two data files: `TableRef.v`, the CP949 mapping
  of CPython's codec, written by `tools/gen_ref.py`, on which only C68 depends; and
  `TableNfc.v`, canonical equivalents from the Unicode Character Database, written by
  `tools/gen_nfc.py`, on which only C166 and C167 depend.

## Specification files

* `Spec.v`: Unicode Hangul ranges, the 51 letters with their code points in each role, UTF-8.
* `SpecNames.v`: the names of the letters (C117 only).
* `SpecCp949.v`: what decoding and encoding mean, relative to the code assignment given by
  the decode table.
* `SpecIO.v`: the io.Reader contract (`delivers`, `witnessed`).
* `SpecTable.v`: the layout of CP949, the hanja out of reading order, and the reference
  mapping (data in `TableRef.v`).
* `SpecText.v`: substring, lexicographic order, cutting into blocks.
* `SpecText2.v`: ASCII parts of a text, the parts of a syllable, readers of whole characters.

* `SourceSpec.v`: when a call of an executed function returns, which memory it leaves alone,
  clients of a Reader or Writer that have memory of their own.

* `SpecLines.v`: the lines of a text.
* `SpecPieces.v`, `SpecWords.v`, `SpecJamo.v`: a text divided after each delimiter, the words of a
  text, the letters of a syllable.
* `SpecTrans.v`, `SpecWrong.v`: the chunks a wrapped reader hands out; wrapped readers and writers
  that break their contract.
* `SpecShared.v`: goroutines that share a Decoder, an Encoder or a Writer.
* `ProgSpec.v`: client programs with many streams, and what each request should do.
* `TimeSpec.v`: the number of steps the executed sources take.
* `SpecThreads.v`: what a goroutine does, whose memory is whose, data races, outcomes that
  differ only in addresses.

They do not mention model functions, apart from `SourceSpec.v`, `SpecThreads.v`, `SpecShared.v`, `ProgSpec.v`
and `TimeSpec.v`, which use the interpreter or the models to say what a call does; `SpecIO.v`, `SpecTrans.v` and
`SpecWrong.v` use the model's type of errors, `IoModel.v` holds a few more example readers.

## Plan per property

Finite-domain facts about runes are proved by a kernel-evaluated sweep over the jamo blocks
or the syllable block, lifted by a lemma to all integers, with everything outside the blocks
handled symbolically.  Table facts are kernel-evaluated sweeps over the whole tables.  Byte
string facts are inductions; stream facts are inductions over the delivery of the wrapped
reader with an invariant on the reader state.

* C01, C02, C03: sweep over 11172 syllables / 11172 triples against `all_triples`.
* C04: arithmetic on truncated division, for all int32 including the wrap region.
* C05, C06: case analysis on Lead/Medial/Tail.  C06 is expected to fail: an unusable tail is
  silently dropped because Tail returns 0 for it; refutation plus the exact behaviour.
* C07-C12: sweeps over 0x1100-0x11FF and 0x3130-0x318F lifted to all integers.
* C13, C15: expected to fail for WE (its elements are U, E; E is itself composite and has no
  stroke count); refutation plus the theorem for all other letters.
* C14 (with the tails Join drops, C14_Stroke_dropped_tail), C16: from Split/Join facts and sweeps.
* C17-C19: from UTF-8 facts; C18 is expected to fail for words ending in other characters
  (Split is applied without a range check); refutation plus exact statement.
* C20: induction over histories.  C21: expected to fail (returned slice aliases the table).
* C22-C26: UTF-8 facts plus sweep over the 27496-entry table.  C27: expected to fail for the
  268 compatibility ideographs; refutation plus exact characterisation.
* C28-C44: correctness of sort.Search on sorted tables, sortedness and mutual inversion of the
  tables by kernel evaluation, induction on the input.  C32 is expected to fail ("??" for
  characters above U+FFE6 and for invalid bytes; characters above U+FFFF are truncated to 16
  bits and may become an unrelated character); refutations plus the exact per-character result.
* C45-C50: invariant on reader states, induction on the contract predicate `delivers`.  C46 is
  expected to fail (pending bytes are dropped and EOF reported), as is C50 (an empty first
  read makes the reader report EOF for ever).
* C51-C54: induction over the chunks.  C52 is expected to fail (To consumes an incomplete
  character as invalid bytes).
* C55-C58: Transform and clients; C56 is expected to fail in all three clauses, C57 for the
  decoder (panic), C58 for streams whose decoding of one read exceeds 4096 bytes (panic) and
  for reads ending inside a character (spurious error); `PropTrans.v` has
  its exact outcome for all chunks.
* C59-C61: combination of the above.
* C62: expected to fail (public.go:70-72 turns it into EOF).  C63: invariant and induction.
* C64: invariant over the chunks read.  C65: expected to fail for large writes.
* C66, C68, C69: kernel-evaluated comparison of the tables with lists generated from the
  description.  C67: same; fails for thirteen hanja, which are listed.
* C70: case analysis over all integers; fails for U+ABFF.
* C71, C72: invariants over the interaction with the wrapped reader.
* C73-C75: induction along the decoding.  C76, C77: fail, being properties CP949 does not
  have; what holds instead is proved.
* C78: a generic result for transformers that convert each source on its own, instantiated
  with From and To; fails beyond 128 bytes.  The exact outcome: both loops are shown to compute
  `block_by_block` (SpecString.v), a description over the blocks without buffers and offsets.
* C79: induction on the rest of the stream with the reader invariant of C45.  C80: a generic
  lemma on io.Copy over any source with an invariant.  C81, C82: the same lemma; expected to
  fail as C52 does, with io.Copy's own buffer cutting a character; proved when the text fits.
* C83: fails (chunks that end inside a character make Read go on); proved for whole characters.
* C84: simulation between the two models of the Reader.
* C50 (supplement): an empty Read after a successful one; fails in general, proved for wrapped
  readers that hand out whole characters.
* C85, C93: case analysis over the syllables.  C86-C88: induction along the decoding; the
  claims that fail do so at an unassigned lead byte followed by an ASCII byte.
* C89, C90, C94: from the exact behaviour of both Transform methods (C55, C56).
* C91, C92: from the reader contract of C79, by induction on the rest of the stream.
* C95-C102: for each syntax tree, execution by the interpreter equals the model function
  (loop invariants on the memory), with what happens to memory; then the results above.
  C97 and C98 by induction on the client's actions.  C103: an invariant separates the arrays
  of the program from the private ones of each stream; each request preserves it
  (`ProgFacts.v`).  A Reader over a stream that ends inside a character is a stream of its
  own kind there, which delivers some beginning of the text.  C21 is refuted a second time, by
  executing the sources.
* C104, C105: wrapped readers with arbitrary (also negative) counts in the model of
  `StreamModel3.v`, and wrapped writers with counts; both fail, the partial theorems give what
  is noticed.
* C106, C107: transform.Reader over the Encoder and transform.Writer (with Close,
  `TransformModel3.v`, a reading of x/text) over the Decoder; expected to fail as C58 and C65
  do, because the Transform methods know no ErrShortSrc or ErrShortDst.  The exact outcome by
  induction on the chunks.

* C108-C112: the sources pass a check (`OwnFacts.v`, `check`) that every value written through
  or stored in a struct is the goroutine's own; for any program that passes it, executions
  on memories that correspond stay in correspondence access by access.  Hence an interleaved
  execution simulates each goroutine's execution alone (`PoolFacts.v`, `GoroutineFacts.v`).
  C109 and C110 from this and C95, C96, C100, C101.  C111 and C112 by giving a schedule.
* C113-C116: invariants of the Scanner (what is in the buffer and still to come is the rest of
  the text) and of the bufio.Writer (what was flushed, in blocks, and what is in the buffer),
  over the Reader's invariant behind C41 and the Writer's behind C52.
* C117: `ConstModel.v` lists the exported identifiers; case analysis over the 51 letters and
  the identifiers.
* C118: the refinement proofs of `GoHangul.v`, `GoCp949.v` and `GoStream.v` repeated with the
  width of int as a parameter (`GoHangulW.v`, `GoCp949W.v`, `GoStreamW.v`), adding bounds of every
  intermediate number; for the Reader the bound needs the invariant that what is buffered and
  what may still come stays below the total.  `SourceFactsW.v` for whole sessions.
* C119: computation.  Recursion in lexer, parser and type checker is bounded by fuel computed
  from the length of the text; running out of it would be a rejection.
* C120-C123: the storage of GoLang.v keeps every array, so the sum of the lengths of all arrays
  is what was allocated, garbage included.  The refinement lemmas of GoCp949.v and GoStream.v
  (source against model) carry an account along: each buffer went through a chain of larger and
  larger arrays (`regrows` of GoHeap.v), whose lengths add up to what was allocated.  Under a
  condition on append (`amortised` of MemorySpec.v) a chain costs at most six times its last
  capacity, and capacities of the model are bounded by induction over the conversions
  (MemoryFacts.v).  For C122 the budget argument of C118 bounds the Reader's read-ahead, and the
  source of C83 refutes a bound that depends on the Reads only.
* C124, C125: `separate` of C108 allows structs without fields to be shared; the invariant behind
  it lets worlds of two goroutines overlap in such structs, since a store into one would not
  have succeeded alone.  C124 from this and C99; C125 by giving a schedule.
* C126: the whole behaviour of a Reader as a small relation over the answers of the wrapped
  reader (`SpecReads.v`), in which the only state between Reads is the undelivered text and
  the error; induction on the rounds of a Read.
* C127: Read with a record of the lengths converted (`SpecWork.v`, shown to give the results of
  Read); expected to fail, since public.go:78 converts all of rdata after each chunk.
* C128: `GoTime.v` follows an execution of `run` and counts the syntax nodes evaluated, the rounds
  of loops and the bytes that append, copy and make touch. `TimeFacts.v` proves, by induction over
  the syntax, that code without loops takes at most a number of steps read off its syntax plus
  five per byte allocated. The loops of `ensureCap` and `Translate` are bounded by hand
  (`TimeCp949.v`): the first doubles, the second has one round per input byte at most. C120 bounds
  the bytes allocated.
* C129: the same, following Transform and Write statement by statement (`TimeStream.v`). The sum
  over a client's Writes is an induction over its events that repeats the one of C121, because the
  allocations of all Writes together are bounded, not those of each.
* C130: symbolic execution of the step counter along with the interpreter (`TimeHangul.v`, `TimeHanja.v`), using the
  results of the calls proved in `GoHangul.v` and `GoHanja.v`; Stroke recurs on jamo, which are not syllables.
* C131: the rounds of Read one by one (`TimeReader.v`): each costs a constant, at most 502 steps per
  byte it converts and five per byte it allocates; the conversions are those recorded for C127, and the
  allocations those of C122 (`TimeReader2.v`).
* C132: expected to fail, as C127. No statement takes a negative number of steps (induction over the
  syntax, `TimeLower.v`), so a round of Read takes at least the steps of the copy in public.go:91, which
  moves all that the conversion left over; over a reader that cuts characters that is everything so far.
* C133: a Writer carries nothing but its buffer from one Write to the next, and Write does not read the buffer's
  contents (`Write_spec`), so the results do not depend on which Writer is used (`ShareFacts.v`; the programs are
  in `ShareModel.v`, the vocabulary in `SpecShare.v`).
* C134: expected to fail: the Reader keeps the error. The invariant of the partial result: bytes of the buffer and
  text left over in the Reader are together the queue, or the Reader has its error and nothing is left over.
* C135: expected to fail: each Reader has its own left-over text. The exact result is C126's read by read, with one
  state of the reader for all; over pieces of whole characters no Reader has anything left over.
* C136: by induction on the nesting, every such reader keeps the contract of io.Reader for the stream it stands
  for (`SpecCompose.v`); then C45 and C79.
* C137: C136, and that what a TeeReader has written is what was taken from the reader below it.
* C138: one Write of a Writer is the encoding handed over at once (`Write_spec`); induction on the Writers.
* C139: the pipe is a reader whose state contains the writing goroutine; it keeps the contract since a Writer
  hands over nothing empty. The round trip because encoding is undone by decoding (C28).
* C140: expected to fail for empty Writes, which the contract of io.Reader only discourages. Exact in both cases.
* C141, C142: expected to fail, as C18. The exact results from the value of Split's tail on every scalar
  (`HangulFacts5.v`); which jamo are a multiple of 28 away from U+AC00 by arithmetic.
* C143: expected to fail for conjoining jamo, which KS X 1001 lacks: all 256 characters of the block are looked up in
  the table by computation (`JamoFacts.v`), and the 94 compatibility jamo likewise.
* C144: expected to hold, since C79 makes a Reader one that keeps the contract of io.Reader; what the buffer holds
  and the reader still delivers is an invariant of every method, and each ReadString takes the beginning of it up to
  the delimiter.
* C145: expected to hold by the same invariant; ReadRune refills until the first character of the buffer is whole.
* C146, C147: expected to hold. Between lock and unlock the memory of the Reader is touched by one goroutine only, so
  a call goes as it would alone: its steps are related by the invariant of C108 to those of the sequential execution in
  which the stores of the others come before or after it (`LockFacts.v`). C146 from this and C97, C147 from it and C98.
* C148, C149: expected to hold. The sources pass a stricter check than that of C108 (`CellFacts.v`, `check`): a slice
  passed as buffer or source is neither kept nor used beyond its length, so that the invariant of C108 can speak of
  ranges of cells instead of whole arrays (`CellPool.v`, `CellGoroutines.v`). C149 from this and C99.
* C150: expected to fail for long texts, since Transform reports more bytes than fit. The loop of Chain visits each
  Transformer once, as none asks for more; an invariant on the links gives the outcome of every call.
* C151: expected to hold. Results related by the invariant of C148 look the same but for addresses, so a reacting
  goroutine takes the same path as alone (`AgentFacts.v`); panics are related as well.
* C152: expected to hold. Sweeps over the 11,172 syllables give what SplitCompat and Join do to each, induction over
  the text the rest (`LettersSweep.v`, `LettersFacts.v`).
* C153: expected to fail where a tail and the next lead meet. Runs of consonants end at vowels, so only the place
  where a tail ends is open: at most half of a doubled lead further (`LettersFacts.v`, `run_longer`).
* C154: expected to hold. An execution over shared readers and writers is one over private ones that give the same
  answers, namely those of the states the calls found (`CrewFacts.v`), so C151 applies.
* C155: expected to hold. C154, and the fact that a Write calls the writer at most once (`CrewWriters.v`).
* C156: expected to hold. To overwrites the translator's memory from its beginning (`KeepFacts.v`).
* C157: expected to hold. Simulation: what is in the spare part of the Reader's memory is never looked at.
* C158: expected to fail, since the bytes of an incomplete character stay in memory the wrapped reader has been given.
  Simulation for the case that none stay.
* C159: expected to hold for words that fit the buffer. As C113, with a split function that also skips bytes (`WordScan.v`);
  a buffer may end inside a character, also inside a space of several bytes.
* C160: expected to hold. C154; the set of states the queue of messages can be in is finite, so one amount of interpreter fuel is
  enough for all of them; a Read calls the reader at most once, so what it does is the same over any reader that gives the same
  answer (`CrewReaders.v`).
* C161: expected to fail, since each Reader keeps the first byte of a character for itself. A schedule is executed by a function whose
  steps are steps of the model (`CrewWrong.v`).  What holds instead (`CrewStream.v`): the states the calls of one goroutine find
  increase until the end of the stream, so they are finitely many sequences up to repetitions of the end, and one amount of fuel is
  enough; C126 describes the Reads for each of them.
* C162: expected to fail for From, whose characters are pairs of bytes that are not recognisable as first and second; a family of
  texts of every length is constructed. What holds follows from C30, C36 and C37: a part that ends inside a character takes exactly
  one more byte (`DamageFacts.v`).
* C163: from C28, C30 and C35, with an induction over the characters of an arbitrary decodable byte string (`RepairFacts.v`).
* C164: for ASCII sets by C40's facts on trail bytes: what is trimmed off the bytes are whole characters, and the ends of what is left
  are not in the set, as bytes or as characters (`TrimFacts.v`). For white space expected to fail, since bytes.TrimSpace takes the
  bytes for UTF-8; `trim` of `SpecTrim.v` is applied to the characters that the bytes are in UTF-8.
* C165: expected to fail, like C164. Exact for texts without Chinese characters, by induction over the text: their codes have lead
  bytes up to C8 (a check of the table), which can begin sequences of two bytes only, so codes and sequences stay aligned
  (`GuessFacts.v`).
* C166: NFC of a text of CP949 characters replaces characters one by one (`SpecNfc.v`), so the claims reduce to single characters by the
  description of Convert (C22) and the round trip (C28); the 268 compatibility ideographs are checked by evaluation (`NfcFacts.v`).
* C167: expected to fail, as the ideographs were coded twice because of different readings. Like C67: sortedness of the table without
  the exceptions, and for each exception a hanja that contradicts the order, found by `tools/gen_readings.py` and verified (`NfcFacts2.v`).
* C168: by induction over the characters, with C30 for From and the description of To on all characters (`FieldFacts.v`).
* C169: expected to fail because of the letters among the second bytes; exact by induction over the encoding (`FieldFacts.v`).
* C170: fmt.Fscan (`FscanModel.v`) reads byte by byte; the invariant of the Reader (C45) says what each of these Reads delivers, an
  invariant on top of it what characters are left with the one that was put back, and the words follow by induction (`FscanFacts.v`).
* C171: an occurrence of an encoded text that begins with an ASCII character other than a
  letter starts at a character, in CP949 as in UTF-8, so the replacement of characters gives
  both replacements of bytes (`ReplaceFacts.v`); refuted by U+AC02, whose second byte is `A`,
  and by a syllable made of the inner bytes of two others.
* C172, C173: by induction from the end of the string; a byte below 0x80 always ends a
  character, and after it the bytes of 0x80 and more pair up (`EndsFacts.v`).  C173 is
  refuted by long runs of the byte 0xB1.
* C174, C175: texts between p+x and p+y begin with p and a character between x and y; the
  syllables with one lead, or lead and vowel, have consecutive code points.  For encoded words
  a table of one extension syllable for each lead refutes it; for KS X 1001 by C77
  (`LookupFacts.v`).
* C176: from C168 and C172; an encodable text is split where its encoding is
  (`WidthFacts.v`).
* C177: a run of bytes that are not special acts like one of them; so the parse of a text in any
  encoding in which special characters stand for themselves and others are non-empty runs of
  bytes that are not special is the encoded parse of its characters (`ParseFacts.v`).
* C178: one round of transform.Append, as Transform never reports ErrShortDst; all outcomes by
  comparing the length of the result with the room (`AppendModel.v`, `AppendFacts.v`).
* C179: each of the three rows of letters rises from one letter to the next (evaluation); texts by
  the first syllables that differ (`LetterOrderFacts.v`).
* C180: the first check by evaluating Read on a fresh Reader (any wrapped reader); the others by
  C45 and C49 (`IotestModel.v`, `IotestFacts.v`).
* C181: where an encoded text is cut, the rest begins with a character or with a second byte; in the
  second case the two parses disagree up to the end, which needs a letter of the alphabet. The same
  argument gives C76_word_partial (`SuffixFacts.v`).
* C182, C183: one pass over the hanja table checks that each reading has a code of rows 16 to 40, or
  belongs to one of five hanja that are not in CP949; then induction on the text (`InPlaceFacts.v`).
* C184: C36, C37 and C25 with the mark as the first part, extended by one byte for From
  (`BomFacts.v`).
* C185: escaping commutes with any coding that keeps ASCII and whose other codes contain no byte
  that is escaped; UTF-8 and CP949 (code_trail) are such (`EscapeFacts.v`).
* C186: induction on the text (the pairs of EUC-KR are those of CP949); row 4 (C69) and C152 for the
  letters (`EucKrFacts.v`).
* C171_word_partial: as C171_partial, with the argument of C181 for hits inside of characters
  (`WordReplaceFacts.v`).
* C187: the ranges of IsHangul (C07), row 4 (C69), and a check that no conjoining letter has a code;
  C188: C07, C26 and C22, by induction on the text (`KindsFacts.v`).
* C189: C114 and C113 for the characters and lines that the Scanner yields, C51 for the Writer and C182 for the result
  (`FilterFacts.v`); the refutation is computed.
* C190: C25 for one half; for the other, no character of UTF-8 begins inside of another, so that an
  occurrence consists of whole characters (`FindFacts.v`).
* C191: the code of U+7664, read off the table, and the ranges of the bytes of a code
  (`SniffFacts.v`).
* C192: no character of UTF-8 ends in a byte of 0xC0 or more, so that the last one is read as U+FFFD;
  letters are read as themselves (C18) (`RawWordFacts.v`).
* C193: invalid UTF-8 is read with a replacement character, of which To makes two question marks
  (`TwiceFacts.v`).
* C194: C172, and the lengths of characters in UTF-8 (`RedecodeFacts.v`).
* C195: C77 for the converted words, and the codes of readings (`ReadOrderFacts.v`); C67 for the
  first different characters (`ReadFirstFacts.v`).

## Outcome

MANIFEST.json gives the theorems per property.  "partial" there means that the claim as
stated is false of the code or was proved with a restriction: a theorem `..._refuted` gives
the counterexample, and theorems `..._partial` give what does hold.

## Checks on the theorems

`seeded/LOG.jsonl` records deliberate bugs put into a copy of the model, with the theorems
that no longer hold.  A theorem counts as failed there when it depends on a lemma whose
proof no longer goes through.
