(** GENERATED by tools/gen_text.py from the Go sources; do not edit.
    The text of the Go files, unchanged except that a double quote is written twice. *)
From Coq Require Import String List.
From Verif Require Import TextTable TextLookupFrom TextLookupTo.
Import ListNotations.
Local Open Scope string_scope.

(* constant.go *)
Definition text_hangul_constant : string :=
"package hangul

// Hangul Compatibility Jamo. Range: 3130-318F
const (
	_   = 0x3130 + iota
	G   // HANGUL LETTER KIYEOK
	GG  // HANGUL LETTER SSANGKIYEOK
	GS  // HANGUL LETTER KIYEOK-SIOS
	N   // HANGUL LETTER NIEUN
	NJ  // HANGUL LETTER NIEUN-CIEUC
	NH  // HANGUL LETTER NIEUN-HIEUH
	D   // HANGUL LETTER TIKEUT
	DD  // HANGUL LETTER SSANGTIKEUT
	L   // HANGUL LETTER RIEUL
	LG  // HANGUL LETTER RIEUL-KIYEOK
	LM  // HANGUL LETTER RIEUL-MIEUM
	LB  // HANGUL LETTER RIEUL-PIEUP
	LS  // HANGUL LETTER RIEUL-SIOS
	LT  // HANGUL LETTER RIEUL-THIEUTH
	LP  // HANGUL LETTER RIEUL-PHIEUPH
	LH  // HANGUL LETTER RIEUL-HIEUH
	M   // HANGUL LETTER MIEUM
	B   // HANGUL LETTER PIEUP
	BB  // HANGUL LETTER SSANGPIEUP
	BS  // HANGUL LETTER PIEUP-SIOS
	S   // HANGUL LETTER SIOS
	SS  // HANGUL LETTER SSANGSIOS
	ZS  // HANGUL LETTER IEUNG (zero sound)
	J   // HANGUL LETTER CIEUC
	JJ  // HANGUL LETTER SSANGCIEUC
	C   // HANGUL LETTER CHIEUCH
	K   // HANGUL LETTER KHIEUKH
	T   // HANGUL LETTER THIEUTH
	P   // HANGUL LETTER PHIEUPH
	H   // HANGUL LETTER HIEUH
	A   // HANGUL LETTER A
	AE  // HANGUL LETTER AE
	YA  // HANGUL LETTER YA
	YAE // HANGUL LETTER YAE
	EO  // HANGUL LETTER EO
	E   // HANGUL LETTER E
	YEO // HANGUL LETTER YEO
	YE  // HANGUL LETTER YE
	O   // HANGUL LETTER O
	WA  // HANGUL LETTER WA
	WAE // HANGUL LETTER WAE
	OE  // HANGUL LETTER OE
	YO  // HANGUL LETTER YO
	U   // HANGUL LETTER U
	WEO // HANGUL LETTER WEO
	WE  // HANGUL LETTER WE
	WI  // HANGUL LETTER WI
	YU  // HANGUL LETTER YU
	EU  // HANGUL LETTER EU
	YI  // HANGUL LETTER YI
	I   // HANGUL LETTER I
	NG  = ZS
)

// Hangul Jamo. Range 1100-11FF
const (
	leadBase   = 0x1100 // HANGUL CHOSEONG KIYEOK
	medialBase = 0x1161 // HANGUL JUNGSEONG A
	tailBase   = 0x11A8 // HANGUL JONGSEONG KIYEOK
)

// Initial consonants 초성
const (
	_      = (leadBase - 1) + iota
	LeadG  // HANGUL CHOSEONG KIYEOK
	LeadGG // HANGUL CHOSEONG SSANGKIYEOK
	LeadN  // HANGUL CHOSEONG NIEUN
	LeadD  // HANGUL CHOSEONG TIKEUT
	LeadDD // HANGUL CHOSEONG SSANGTIKEUT
	LeadR  // HANGUL CHOSEONG RIEUL
	LeadM  // HANGUL CHOSEONG MIEUM
	LeadB  // HANGUL CHOSEONG PIEUP
	LeadBB // HANGUL CHOSEONG SSANGPIEUP
	LeadS  // HANGUL CHOSEONG SIOS
	LeadSS // HANGUL CHOSEONG SSANGSIOS
	LeadZS // HANGUL CHOSEONG IEUNG (zero sound)
	LeadJ  // HANGUL CHOSEONG CIEUC
	LeadJJ // HANGUL CHOSEONG SSANGCIEUC
	LeadC  // HANGUL CHOSEONG CHIEUCH
	LeadK  // HANGUL CHOSEONG KHIEUKH
	LeadT  // HANGUL CHOSEONG THIEUTH
	LeadP  // HANGUL CHOSEONG PHIEUPH
	LeadH  // HANGUL CHOSEONG HIEUH
)
const maxLeadIdx = LeadH - LeadG

// Medial vowels 중성
const (
	_         = (medialBase - 1) + iota
	MedialA   // HANGUL JUNGSEONG A
	MedialAE  // HANGUL JUNGSEONG AE
	MedialYA  // HANGUL JUNGSEONG YA
	MedialYAE // HANGUL JUNGSEONG YAE
	MedialEO  // HANGUL JUNGSEONG EO
	MedialE   // HANGUL JUNGSEONG E
	MedialYEO // HANGUL JUNGSEONG YEO
	MedialYE  // HANGUL JUNGSEONG YE
	MedialO   // HANGUL JUNGSEONG O
	MedialWA  // HANGUL JUNGSEONG WA
	MedialWAE // HANGUL JUNGSEONG WAE
	MedialOE  // HANGUL JUNGSEONG OE
	MedialYO  // HANGUL JUNGSEONG YO
	MedialU   // HANGUL JUNGSEONG U
	MedialWEO // HANGUL JUNGSEONG WEO
	MedialWE  // HANGUL JUNGSEONG WE
	MedialWI  // HANGUL JUNGSEONG WI
	MedialYU  // HANGUL JUNGSEONG YU
	MedialEU  // HANGUL JUNGSEONG EU
	MedialYI  // HANGUL JUNGSEONG YI
	MedialI   // HANGUL JUNGSEONG I
)
const maxMedialIdx = MedialI - MedialA

// Final consonants 종성
const (
	_      = (tailBase - 1) + iota
	TailG  // HANGUL JONGSEONG KIYEOK
	TailGG // HANGUL JONGSEONG SSANGKIYEOK
	TailGS // HANGUL JONGSEONG KIYEOK-SIOS
	TailN  // HANGUL JONGSEONG NIEUN
	TailNJ // HANGUL JONGSEONG NIEUN-CIEUC
	TailNH // HANGUL JONGSEONG NIEUN-HIEUH
	TailD  // HANGUL JONGSEONG TIKEUT
	TailL  // HANGUL JONGSEONG RIEUL
	TailLG // HANGUL JONGSEONG RIEUL-KIYEOK
	TailLM // HANGUL JONGSEONG RIEUL-MIEUM
	TailLB // HANGUL JONGSEONG RIEUL-PIEUP
	TailLS // HANGUL JONGSEONG RIEUL-SIOS
	TailLT // HANGUL JONGSEONG RIEUL-THIEUTH
	TailLP // HANGUL JONGSEONG RIEUL-PHIEUPH
	TailLH // HANGUL JONGSEONG RIEUL-HIEUH
	TailM  // HANGUL JONGSEONG MIEUM
	TailB  // HANGUL JONGSEONG PIEUP
	TailBS // HANGUL JONGSEONG PIEUP-SIOS
	TailS  // HANGUL JONGSEONG SIOS
	TailSS // HANGUL JONGSEONG SSANGSIOS
	TailNG // HANGUL JONGSEONG IEUNG
	TailJ  // HANGUL JONGSEONG CIEUC
	TailC  // HANGUL JONGSEONG CHIEUCH
	TailK  // HANGUL JONGSEONG KHIEUKH
	TailT  // HANGUL JONGSEONG THIEUTH
	TailP  // HANGUL JONGSEONG PHIEUPH
	TailH  // HANGUL JONGSEONG HIEUH
)
const maxTailIdx = TailH - TailG
".

(* jamo.go *)
Definition text_hangul_jamo : string :=
"// Copyright 2012, Homin Lee <homin.lee@suapapa.net>. All rights reserved.
// Use of this source code is governed by a BSD-style
// license that can be found in the LICENSE file.

package hangul

// IsLead checks given rune is lead consonant
func IsLead(r rune) bool {
	if LeadG <= r && r <= LeadH {
		return true
	}
	return false
}

// IsMedial checks given rune is medial vowel
func IsMedial(r rune) bool {
	if MedialA <= r && r <= MedialI {
		return true
	}
	return false
}

// IsTail checks given rune is tail consonant
func IsTail(r rune) bool {
	if TailG <= r && r <= TailH {
		return true
	}
	return false
}

// IsJaeum checks given rune is Hangul Jaeum
func IsJaeum(r rune) bool {
	switch {
	case G <= r && r <= H:
		return true
	case IsLead(r):
		return true
	case IsTail(r):
		return true
	}
	return false
}

// IsMoeum checks given rune is Hangul Moeum
func IsMoeum(r rune) bool {
	switch {
	case A <= r && r <= I:
		return true
	case IsMedial(r):
		return true
	}
	return false
}

var multiElements = map[rune][]rune{
	GG:  []rune{G, G},
	GS:  []rune{G, S},
	NJ:  []rune{N, J},
	NH:  []rune{N, H},
	DD:  []rune{D, D},
	LG:  []rune{L, G},
	LM:  []rune{L, M},
	LB:  []rune{L, B},
	LS:  []rune{L, S},
	LT:  []rune{L, T},
	LP:  []rune{L, P},
	LH:  []rune{L, H},
	BB:  []rune{B, B},
	BS:  []rune{B, S},
	SS:  []rune{S, S},
	JJ:  []rune{J, J},
	AE:  []rune{A, I},
	E:   []rune{EO, I},
	YAE: []rune{YA, I},
	YE:  []rune{YEO, I},
	WA:  []rune{O, A},
	WAE: []rune{O, A, I},
	OE:  []rune{O, I},
	WEO: []rune{U, EO},
	WE:  []rune{U, E},
	WI:  []rune{U, I},
	YI:  []rune{EU, I},
}

// SplitMultiElement splits multi-element compatibility jamo
func SplitMultiElement(r rune) ([]rune, bool) {
	r = CompatJamo(r)
	es, ok := multiElements[r]
	return es, ok
}

var toCompatJamo = map[rune]rune{
	LeadG:  G,
	TailG:  G,
	LeadGG: GG,
	TailGG: GG,
	TailGS: GS,
	LeadN:  N,
	TailN:  N,
	TailNJ: NJ,
	TailNH: NH,
	LeadD:  D,
	TailD:  D,
	LeadDD: DD,
	LeadR:  L,
	TailL:  L,
	TailLG: LG,
	TailLM: LM,
	TailLB: LB,
	TailLS: LS,
	TailLT: LT,
	TailLP: LP,
	TailLH: LH,
	LeadM:  M,
	TailM:  M,
	LeadB:  B,
	TailB:  B,
	LeadBB: BB,
	TailBS: BS,
	LeadS:  S,
	TailS:  S,
	LeadSS: SS,
	TailSS: SS,
	LeadZS: ZS,
	TailNG: ZS,
	LeadJ:  J,
	TailJ:  J,
	LeadJJ: JJ,
	LeadC:  C,
	TailC:  C,
	LeadK:  K,
	TailK:  K,
	LeadT:  T,
	TailT:  T,
	LeadP:  P,
	TailP:  P,
	LeadH:  H,
	TailH:  H,
}

// CompatJamo converts lead, medial, tail to compatibility jamo
func CompatJamo(r rune) rune {
	switch {
	case G <= r && r <= H:
		return r
	case A <= r && r <= I:
		return r
	case MedialA <= r && r <= MedialI:
		return r - medialBase + A
	}
	if c, ok := toCompatJamo[r]; ok {
		return c
	}

	return 0
}

var toLead = map[rune]rune{
	G:  LeadG,
	GG: LeadGG,
	N:  LeadN,
	D:  LeadD,
	DD: LeadDD,
	L:  LeadR,
	M:  LeadM,
	B:  LeadB,
	BB: LeadBB,
	S:  LeadS,
	SS: LeadSS,
	ZS: LeadZS,
	J:  LeadJ,
	JJ: LeadJJ,
	C:  LeadC,
	K:  LeadK,
	T:  LeadT,
	P:  LeadP,
	H:  LeadH,
}

// Lead converts compatibility jaeum to corresponding lead consonant
func Lead(c rune) rune {
	if LeadG <= c && c <= LeadH {
		return c
	}
	if l, ok := toLead[c]; ok {
		return l
	}

	return 0
}

// Medial converts compatibility moeum to corresponding medial vowel
func Medial(c rune) rune {
	switch {
	case MedialA <= c && c <= MedialI:
		return c
	case A <= c && c <= I:
		return c - A + medialBase
	}

	return 0
}

var toTail = map[rune]rune{
	G:  TailG,
	GG: TailGG,
	GS: TailGS,
	N:  TailN,
	NJ: TailNJ,
	NH: TailNH,
	D:  TailD,
	L:  TailL,
	LG: TailLG,
	LM: TailLM,
	LB: TailLB,
	LS: TailLS,
	LT: TailLT,
	LP: TailLP,
	LH: TailLH,
	M:  TailM,
	B:  TailB,
	BS: TailBS,
	S:  TailS,
	SS: TailSS,
	ZS: TailNG,
	J:  TailJ,
	C:  TailC,
	K:  TailK,
	T:  TailT,
	P:  TailP,
	H:  TailH,
}

// Tail converts compatibility jaeum to corresponding tail consonant
func Tail(c rune) rune {
	if TailG <= c && c <= TailH {
		return c
	}
	if t, ok := toTail[c]; ok {
		return t
	}

	return 0
}

func leadIdx(l rune) (int, bool) {
	i := int(l) - leadBase
	if 0 > i || i > maxLeadIdx {
		return 0, false
	}
	return i, true
}

func medialIdx(v rune) (int, bool) {
	i := int(v) - medialBase
	if 0 > i || i > maxMedialIdx {
		return 0, false
	}
	return i, true
}

func tailIdx(t rune) (int, bool) {
	if t == 0 {
		// A hangul syllable can have no tail consonent.
		return 0, true
	}
	i := int(t) - tailBase
	if 0 > i || i > maxTailIdx {
		return 0, false
	}
	return i + 1, true
}
".

(* hangul.go *)
Definition text_hangul_hangul : string :=
"// Copyright 2012, Homin Lee <homin.lee@suapapa.net>. All rights reserved.
// Use of this source code is governed by a BSD-style
// license that can be found in the LICENSE file.

// Package hangul provide handy tools for manipulate korean character:
//    - Provide shorthands for korean consonants and vowels
//    - Convert between jamo and compatibility-jamo
//    - Split a character to it's three elements
//    - Split multi element
//    - Stroke count
package hangul

// IsHangul checks given rune is Hangul
func IsHangul(r rune) bool {
	switch {
	case 0xAC00 <= r && r <= 0xD7A3:
		return true
	case IsJaeum(r):
		return true
	case IsMoeum(r):
		return true
	}

	return false
}

// Join converts NFD to NFC
func Join(l, m, t rune) rune {
	// Convert if given rune is compatibility jamo
	li, ok := leadIdx(Lead(l))
	if !ok {
		return rune(0xFFFD)
	}

	mi, ok := medialIdx(Medial(m))
	if !ok {
		return rune(0xFFFD)
	}

	ti, ok := tailIdx(Tail(t))
	if !ok {
		return rune(0xFFFD)
	}

	return rune(0xAC00 + (li*21+mi)*28 + ti)
}

// Split converts NFC to NFD
func Split(c rune) (l, m, t rune) {
	t = (c - 0xAC00) % 28
	m = ((c - 0xAC00 - t) % 588) / 28
	l = (c - 0xAC00) / 588

	l += leadBase
	m += medialBase
	if t != 0 {
		t += tailBase - 1
	}

	return
}

// SplitCompat splits and returns l, m, t in compatibility jamo
func SplitCompat(c rune) (l, m, t rune) {
	l, m, t = Split(c)
	l = CompatJamo(l)
	m = CompatJamo(m)
	t = CompatJamo(t)
	return
}

// EndsWithConsonant returns true if the given word ends with
// consonant(종성), false otherwise.
func EndsWithConsonant(word string) bool {
	if LastConsonant(word) == 0 {
		return false
	}

	return true
}

// LastConsonant returns last consonant(종성).
// It returns 0 if last consonant not exists.
func LastConsonant(word string) rune {
	if word == """" {
		return 0
	}
	runes := []rune(word)
	_, _, t := Split(runes[len(runes)-1])
	return t
}

// AppendPostposition returns word with postposition(조사).
// The 'with' will be appended to a word that ends with consonant, and
// the 'without' will be appended to a word that does not end with
// consonant.
func AppendPostposition(word, with, without string) string {
	lastTail := LastConsonant(word)
	if with == ""으로"" && lastTail == TailL {
		return word + without // 로
	}
	if lastTail != 0 {
		return word + with
	}
	return word + without
}
".

(* stroke.go *)
Definition text_hangul_stroke : string :=
"// Copyright 2012, Homin Lee <homin.lee@suapapa.net>. All rights reserved.
// Use of this source code is governed by a BSD-style
// license that can be found in the LICENSE file.

package hangul

var strokes = map[rune]int{
	G:   1,
	N:   1,
	D:   2,
	L:   3,
	M:   3,
	B:   4,
	S:   2,
	ZS:  1,
	J:   3,
	C:   4,
	K:   2,
	T:   3,
	P:   4,
	H:   3,
	A:   2,
	YA:  3,
	EO:  2,
	YEO: 3,
	O:   2,
	YO:  3,
	U:   2,
	YU:  3,
	EU:  1,
	I:   1,
}

// Stroke returns stroke count of given jamo.
func Stroke(r rune) (c int) {
	if 0xAC00 <= r && r <= 0xD7A3 {
		i, m, f := Split(r)
		c += Stroke(i)
		c += Stroke(m)
		c += Stroke(f)
		return
	}

	jm := CompatJamo(r)
	if es, ok := SplitMultiElement(jm); ok {
		for _, e := range es {
			c += strokes[e]
		}
	} else {
		c = strokes[jm]
	}
	return
}
".

Definition text_hangul : list string :=
  [text_hangul_constant; text_hangul_jamo; text_hangul_hangul; text_hangul_stroke].

(* hanja/hanja.go *)
Definition text_hanja_hanja : string :=
"// Copyright 2013, Homin Lee <homin.lee@suapapa.net>. All rights reserved.
// Use of this source code is governed by a BSD-style
// license that can be found in the LICENSE file.

package hanja

// Convert hanjas in hangul string to hangul
func Convert(h string) string {
	rh := []rune(h)

	for i, c := range rh {
		h, ok := table[c]
		if ok {
			rh[i] = h
		}
	}

	return string(rh)
}

// Return true if can convert given hanja rune to hangul.
func IsHanja(c rune) bool {
	_, ok := table[c]
	return ok
}
".

Definition text_hanja : list string :=
  [text_hanja_hanja; text_hanja_table].

(* encoding/cp949/doc.go *)
Definition text_cp949_doc : string :=
"// Copyright 2013-2015, Homin Lee. All rights reserved.
// Use of this source code is governed by a BSD-style
// license that can be found in the LICENSE file.

// Package cp949 provide support for CP949 character encoding,
// It's degault encoding in Korean MS Windows. *sigh*
package cp949
".

(* encoding/cp949/err.go *)
Definition text_cp949_err : string :=
"// Copyright 2013-2015, Homin Lee. All rights reserved.
// Use of this source code is governed by a BSD-style
// license that can be found in the LICENSE file.

package cp949

import ""errors""

// ErrCP949UnexpectedStream show unexpected cp949 stream
var ErrCP949UnexpectedStream = errors.New(""unexpected cp949 stream"")
".

(* encoding/cp949/cp949.go *)
Definition text_cp949_cp949 : string :=
"// Copyright 2013-2015, Homin Lee. All rights reserved.
// Use of this source code is governed by a BSD-style
// license that can be found in the LICENSE file.

package cp949

import (
	""sort""
	""unicode/utf8""
)

type lookupItem struct {
	cp949, ucs2 uint16
}

type lookupTable []lookupItem

type translator interface {
	Translate(data []byte) (int, []byte, error)
}

// use same struct to from-translator and to-translator.
// each translators use sort.Search() to find corresponding code.
// And, the lookup table is sorted by a filed which have
// same encoding of input data.
type translateCp949 struct {
	table   lookupTable // lookup table
	scratch []byte      // buffer for output
}

// from cp949 to unicode translator
type translateFromCp949 translateCp949

func (p *translateFromCp949) Translate(data []byte) (int, []byte, error) {
	p.scratch = p.scratch[:0]
	c := 0
	for len(data) > 0 {
		if data[0]&0x80 == 0 {
			p.scratch = append(p.scratch, data[0])
			data = data[1:]
			c++
			continue
		}

		if len(data) < 2 {
			return 0, nil, ErrCP949UnexpectedStream
		}

		n := uint16(data[0])<<8 | uint16(data[1])
		fi := sort.Search(len(p.table), func(i int) bool {
			if n <= p.table[i].cp949 {
				return true
			}
			return false
		})

		if fi < len(p.table) && n == p.table[fi].cp949 {
			f := p.table[fi]
			p.scratch = appendRune(p.scratch, rune(f.ucs2))
		} else {
			p.scratch = appendRune(p.scratch, utf8.RuneError)
		}
		data = data[2:]
		c += 2
	}
	return c, p.scratch, nil
}

// from unicode to cp949 translator
type translateToCp949 translateCp949

func (p *translateToCp949) Translate(data []byte) (int, []byte, error) {
	p.scratch = p.scratch[:0]
	c := 0
	for len(data) > 0 {
		if data[0]&0x80 == 0 {
			p.scratch = append(p.scratch, data[0])
			data = data[1:]
			c++
			continue
		}

		r, s := utf8.DecodeRune(data)
		rUcs2 := uint16(r)
		fi := sort.Search(len(p.table), func(i int) bool {
			if rUcs2 <= p.table[i].ucs2 {
				return true
			}
			return false
		})

		if fi >= len(p.table) {
			p.scratch = append(p.scratch, '?')
		}

		if fi < len(p.table) && rUcs2 == p.table[fi].ucs2 {
			f := p.table[fi]
			p.scratch = append(p.scratch,
				byte(f.cp949>>8), byte(f.cp949&0xff))
		} else {
			p.scratch = append(p.scratch, '?')
		}

		data = data[s:]
		c += s
	}
	return c, p.scratch, nil
}

func fromCp949() (translator, error) {
	return &translateFromCp949{table: fromTable}, nil
}

func toCp949() (translator, error) {
	return &translateToCp949{table: toTable}, nil
}

// ensureCap returns s with a capacity of at least n bytes.
// If cap(s) < n, then it returns a new copy of s with the
// required capacity.
func ensureCap(s []byte, n int) []byte {
	if n <= cap(s) {
		return s
	}
	// logic adapted from appendslice1 in runtime
	m := cap(s)
	if m == 0 {
		m = n
	} else {
		for {
			if m < 1024 {
				m += m
			} else {
				m += m / 4
			}
			if m >= n {
				break
			}
		}
	}
	t := make([]byte, len(s), m)
	copy(t, s)
	return t
}

// XXX: can it be simpler?
func appendRune(buf []byte, r rune) []byte {
	n := len(buf)
	buf = ensureCap(buf, n+utf8.UTFMax)
	nu := utf8.EncodeRune(buf[n:n+utf8.UTFMax], r)
	return buf[0 : n+nu]
}
".

(* encoding/cp949/public.go *)
Definition text_cp949_public : string :=
"// Copyright 2013-2015, Homin Lee. All rights reserved.
// Use of this source code is governed by a BSD-style
// license that can be found in the LICENSE file.

package cp949

import (
	""io""
)

// From converts cp949 stream to utf-8 stream
func From(in []byte) ([]byte, error) {
	tr, err := fromCp949()
	if err != nil {
		return nil, err
	}

	_, out, err := tr.Translate(in)
	if err != nil {
		return nil, err
	}

	return out, nil
}

// To converts utf-8 stream to cp949 stream
func To(in []byte) ([]byte, error) {
	tr, err := toCp949()
	if err != nil {
		return nil, err
	}

	_, out, err := tr.Translate(in)
	if err != nil {
		return nil, err
	}

	return out, nil
}

type cp949Reader struct {
	r     io.Reader
	tr    translator
	cdata []byte // unconsumed data from converter.
	rdata []byte // unconverted data from reader.
	err   error  // final error from reader.
}

// NewReader creates io.Reader which read cp949 source to utf-8
func NewReader(r io.Reader) (io.Reader, error) {
	tr, err := fromCp949()
	if err != nil {
		return nil, err
	}

	return &cp949Reader{r: r, tr: tr}, nil
}

func (r *cp949Reader) Read(buf []byte) (int, error) {
	for {
		if len(r.cdata) > 0 {
			n := copy(buf, r.cdata)
			r.cdata = r.cdata[n:]
			return n, nil
		}
		if r.err == nil {
			r.rdata = ensureCap(r.rdata, len(r.rdata)+len(buf))
			n, err := r.r.Read(r.rdata[len(r.rdata):cap(r.rdata)])
			// Guard against non-compliant Readers.
			if n == 0 && err == nil {
				err = io.EOF
			}
			r.rdata = r.rdata[0 : len(r.rdata)+n]
			r.err = err
		} else if len(r.rdata) == 0 {
			break
		}
		nc, cdata, cvterr := r.tr.Translate(r.rdata)
		if cvterr != nil {
			// TODO
		}
		r.cdata = cdata

		// Ensure that we consume all bytes at eof
		// if the converter refuses them.
		if nc == 0 && r.err != nil {
			nc = len(r.rdata)
		}

		// Copy unconsumed data to the start of the rdata buffer.
		r.rdata = r.rdata[0:copy(r.rdata, r.rdata[nc:])]
	}
	return 0, r.err
}

type cp949Writer struct {
	w   io.Writer
	tr  translator
	buf []byte // unconsumed data from writer.
}

// NewWriter creaters io.Writer which write utf8 input src to cp949
func NewWriter(w io.Writer) (io.Writer, error) {
	tr, err := toCp949()
	if err != nil {
		return nil, err
	}

	return &cp949Writer{w: w, tr: tr}, nil
}

func (w *cp949Writer) Write(data []byte) (int, error) {
	wdata := data
	if len(w.buf) > 0 {
		w.buf = append(w.buf, data...)
		wdata = w.buf
	}
	n, cdata, err := w.tr.Translate(wdata)
	if err != nil {
		// TODO
	}
	if n > 0 {
		_, err = w.w.Write(cdata)
		if err != nil {
			return 0, err
		}
	}
	w.buf = w.buf[:0]
	if n < len(wdata) {
		w.buf = append(w.buf, wdata[n:]...)
	}
	return len(data), nil
}
".

(* encoding/cp949/encoding.go *)
Definition text_cp949_encoding : string :=
"package cp949

import (
	""golang.org/x/text/encoding""
)

// CP949Encoding provides the Encoding interface for CP949 encoding.
type CP949Encoding struct{}

// NewCP949Encoding creates a new CP949Encoding.
func NewCP949Encoding() *CP949Encoding {
	return &CP949Encoding{}
}

// NewDecoder returns a Decoder for CP949 encoding.
func (e *CP949Encoding) NewDecoder() *encoding.Decoder {
	return &encoding.Decoder{Transformer: new(cp949Decoder)}
}

// NewEncoder returns an Encoder for CP949 encoding.
func (e *CP949Encoding) NewEncoder() *encoding.Encoder {
	return &encoding.Encoder{Transformer: new(cp949Encoder)}
}

type cp949Decoder struct{}

// Transform converts data from CP949 to UTF-8.
func (d *cp949Decoder) Transform(dst, src []byte, atEOF bool) (nDst, nSrc int, err error) {
	// Use the From function to convert CP949 to UTF-8.
	converted, err := From(src)
	if err != nil {
		return 0, 0, err
	}

	// Copy the converted data to dst.
	copy(dst, converted)
	return len(converted), len(src), nil
}

type cp949Encoder struct{}

// Transform converts data from UTF-8 to CP949.
func (e *cp949Encoder) Transform(dst, src []byte, atEOF bool) (nDst, nSrc int, err error) {
	// Use the To function to convert UTF-8 to CP949.
	converted, err := To(src)
	if err != nil {
		return 0, 0, err
	}

	// Copy the converted data to dst.
	copy(dst, converted)
	return len(converted), len(src), nil
}

// Reset resets the state of the Transformer.
func (d *cp949Decoder) Reset() {}
func (e *cp949Encoder) Reset() {}
".

Definition text_cp949 : list string :=
  [text_cp949_doc; text_cp949_err; text_cp949_cp949; text_cp949_public; text_cp949_encoding; text_cp949_lookup_from; text_cp949_lookup_to].
