(** GENERATED by tools/gen_text.py from the Go sources; do not edit.
    The text of encoding/cp949/lookup_to.go, in pieces of 250 lines, unchanged except that a double quote is written twice. *)
From Coq Require Import String List.
Import ListNotations.
Local Open Scope string_scope.

Definition text_cp949_lookup_to_000 : string :=
"// Copyright 2013, Homin Lee. All rights reserved.
// Use of this source code is governed by a BSD-style
// license that can be found in the LICENSE file.

package cp949

var (
	toTable = lookupTable{
		lookupItem{ucs2: 0x00a1, cp949: 0xa2ae},
		lookupItem{ucs2: 0x00a4, cp949: 0xa2b4},
		lookupItem{ucs2: 0x00a7, cp949: 0xa1d7},
		lookupItem{ucs2: 0x00a8, cp949: 0xa1a7},
		lookupItem{ucs2: 0x00aa, cp949: 0xa8a3},
		lookupItem{ucs2: 0x00ad, cp949: 0xa1a9},
		lookupItem{ucs2: 0x00ae, cp949: 0xa2e7},
		lookupItem{ucs2: 0x00b0, cp949: 0xa1c6},
		lookupItem{ucs2: 0x00b1, cp949: 0xa1be},
		lookupItem{ucs2: 0x00b2, cp949: 0xa9f7},
		lookupItem{ucs2: 0x00b3, cp949: 0xa9f8},
		lookupItem{ucs2: 0x00b4, cp949: 0xa2a5},
		lookupItem{ucs2: 0x00b6, cp949: 0xa2d2},
		lookupItem{ucs2: 0x00b7, cp949: 0xa1a4},
		lookupItem{ucs2: 0x00b8, cp949: 0xa2ac},
		lookupItem{ucs2: 0x00b9, cp949: 0xa9f6},
		lookupItem{ucs2: 0x00ba, cp949: 0xa8ac},
		lookupItem{ucs2: 0x00bc, cp949: 0xa8f9},
		lookupItem{ucs2: 0x00bd, cp949: 0xa8f6},
		lookupItem{ucs2: 0x00be, cp949: 0xa8fa},
		lookupItem{ucs2: 0x00bf, cp949: 0xa2af},
		lookupItem{ucs2: 0x00c6, cp949: 0xa8a1},
		lookupItem{ucs2: 0x00d0, cp949: 0xa8a2},
		lookupItem{ucs2: 0x00d7, cp949: 0xa1bf},
		lookupItem{ucs2: 0x00d8, cp949: 0xa8aa},
		lookupItem{ucs2: 0x00de, cp949: 0xa8ad},
		lookupItem{ucs2: 0x00df, cp949: 0xa9ac},
		lookupItem{ucs2: 0x00e6, cp949: 0xa9a1},
		lookupItem{ucs2: 0x00f0, cp949: 0xa9a3},
		lookupItem{ucs2: 0x00f7, cp949: 0xa1c0},
		lookupItem{ucs2: 0x00f8, cp949: 0xa9aa},
		lookupItem{ucs2: 0x00fe, cp949: 0xa9ad},
		lookupItem{ucs2: 0x0111, cp949: 0xa9a2},
		lookupItem{ucs2: 0x0126, cp949: 0xa8a4},
		lookupItem{ucs2: 0x0127, cp949: 0xa9a4},
		lookupItem{ucs2: 0x0131, cp949: 0xa9a5},
		lookupItem{ucs2: 0x0132, cp949: 0xa8a6},
		lookupItem{ucs2: 0x0133, cp949: 0xa9a6},
		lookupItem{ucs2: 0x0138, cp949: 0xa9a7},
		lookupItem{ucs2: 0x013f, cp949: 0xa8a8},
		lookupItem{ucs2: 0x0140, cp949: 0xa9a8},
		lookupItem{ucs2: 0x0141, cp949: 0xa8a9},
		lookupItem{ucs2: 0x0142, cp949: 0xa9a9},
		lookupItem{ucs2: 0x0149, cp949: 0xa9b0},
		lookupItem{ucs2: 0x014a, cp949: 0xa8af},
		lookupItem{ucs2: 0x014b, cp949: 0xa9af},
		lookupItem{ucs2: 0x0152, cp949: 0xa8ab},
		lookupItem{ucs2: 0x0153, cp949: 0xa9ab},
		lookupItem{ucs2: 0x0166, cp949: 0xa8ae},
		lookupItem{ucs2: 0x0167, cp949: 0xa9ae},
		lookupItem{ucs2: 0x02c7, cp949: 0xa2a7},
		lookupItem{ucs2: 0x02d0, cp949: 0xa2b0},
		lookupItem{ucs2: 0x02d8, cp949: 0xa2a8},
		lookupItem{ucs2: 0x02d9, cp949: 0xa2ab},
		lookupItem{ucs2: 0x02da, cp949: 0xa2aa},
		lookupItem{ucs2: 0x02db, cp949: 0xa2ad},
		lookupItem{ucs2: 0x02dd, cp949: 0xa2a9},
		lookupItem{ucs2: 0x0391, cp949: 0xa5c1},
		lookupItem{ucs2: 0x0392, cp949: 0xa5c2},
		lookupItem{ucs2: 0x0393, cp949: 0xa5c3},
		lookupItem{ucs2: 0x0394, cp949: 0xa5c4},
		lookupItem{ucs2: 0x0395, cp949: 0xa5c5},
		lookupItem{ucs2: 0x0396, cp949: 0xa5c6},
		lookupItem{ucs2: 0x0397, cp949: 0xa5c7},
		lookupItem{ucs2: 0x0398, cp949: 0xa5c8},
		lookupItem{ucs2: 0x0399, cp949: 0xa5c9},
		lookupItem{ucs2: 0x039a, cp949: 0xa5ca},
		lookupItem{ucs2: 0x039b, cp949: 0xa5cb},
		lookupItem{ucs2: 0x039c, cp949: 0xa5cc},
		lookupItem{ucs2: 0x039d, cp949: 0xa5cd},
		lookupItem{ucs2: 0x039e, cp949: 0xa5ce},
		lookupItem{ucs2: 0x039f, cp949: 0xa5cf},
		lookupItem{ucs2: 0x03a0, cp949: 0xa5d0},
		lookupItem{ucs2: 0x03a1, cp949: 0xa5d1},
		lookupItem{ucs2: 0x03a3, cp949: 0xa5d2},
		lookupItem{ucs2: 0x03a4, cp949: 0xa5d3},
		lookupItem{ucs2: 0x03a5, cp949: 0xa5d4},
		lookupItem{ucs2: 0x03a6, cp949: 0xa5d5},
		lookupItem{ucs2: 0x03a7, cp949: 0xa5d6},
		lookupItem{ucs2: 0x03a8, cp949: 0xa5d7},
		lookupItem{ucs2: 0x03a9, cp949: 0xa5d8},
		lookupItem{ucs2: 0x03b1, cp949: 0xa5e1},
		lookupItem{ucs2: 0x03b2, cp949: 0xa5e2},
		lookupItem{ucs2: 0x03b3, cp949: 0xa5e3},
		lookupItem{ucs2: 0x03b4, cp949: 0xa5e4},
		lookupItem{ucs2: 0x03b5, cp949: 0xa5e5},
		lookupItem{ucs2: 0x03b6, cp949: 0xa5e6},
		lookupItem{ucs2: 0x03b7, cp949: 0xa5e7},
		lookupItem{ucs2: 0x03b8, cp949: 0xa5e8},
		lookupItem{ucs2: 0x03b9, cp949: 0xa5e9},
		lookupItem{ucs2: 0x03ba, cp949: 0xa5ea},
		lookupItem{ucs2: 0x03bb, cp949: 0xa5eb},
		lookupItem{ucs2: 0x03bc, cp949: 0xa5ec},
		lookupItem{ucs2: 0x03bd, cp949: 0xa5ed},
		lookupItem{ucs2: 0x03be, cp949: 0xa5ee},
		lookupItem{ucs2: 0x03bf, cp949: 0xa5ef},
		lookupItem{ucs2: 0x03c0, cp949: 0xa5f0},
		lookupItem{ucs2: 0x03c1, cp949: 0xa5f1},
		lookupItem{ucs2: 0x03c3, cp949: 0xa5f2},
		lookupItem{ucs2: 0x03c4, cp949: 0xa5f3},
		lookupItem{ucs2: 0x03c5, cp949: 0xa5f4},
		lookupItem{ucs2: 0x03c6, cp949: 0xa5f5},
		lookupItem{ucs2: 0x03c7, cp949: 0xa5f6},
		lookupItem{ucs2: 0x03c8, cp949: 0xa5f7},
		lookupItem{ucs2: 0x03c9, cp949: 0xa5f8},
		lookupItem{ucs2: 0x0401, cp949: 0xaca7},
		lookupItem{ucs2: 0x0410, cp949: 0xaca1},
		lookupItem{ucs2: 0x0411, cp949: 0xaca2},
		lookupItem{ucs2: 0x0412, cp949: 0xaca3},
		lookupItem{ucs2: 0x0413, cp949: 0xaca4},
		lookupItem{ucs2: 0x0414, cp949: 0xaca5},
		lookupItem{ucs2: 0x0415, cp949: 0xaca6},
		lookupItem{ucs2: 0x0416, cp949: 0xaca8},
		lookupItem{ucs2: 0x0417, cp949: 0xaca9},
		lookupItem{ucs2: 0x0418, cp949: 0xacaa},
		lookupItem{ucs2: 0x0419, cp949: 0xacab},
		lookupItem{ucs2: 0x041a, cp949: 0xacac},
		lookupItem{ucs2: 0x041b, cp949: 0xacad},
		lookupItem{ucs2: 0x041c, cp949: 0xacae},
		lookupItem{ucs2: 0x041d, cp949: 0xacaf},
		lookupItem{ucs2: 0x041e, cp949: 0xacb0},
		lookupItem{ucs2: 0x041f, cp949: 0xacb1},
		lookupItem{ucs2: 0x0420, cp949: 0xacb2},
		lookupItem{ucs2: 0x0421, cp949: 0xacb3},
		lookupItem{ucs2: 0x0422, cp949: 0xacb4},
		lookupItem{ucs2: 0x0423, cp949: 0xacb5},
		lookupItem{ucs2: 0x0424, cp949: 0xacb6},
		lookupItem{ucs2: 0x0425, cp949: 0xacb7},
		lookupItem{ucs2: 0x0426, cp949: 0xacb8},
		lookupItem{ucs2: 0x0427, cp949: 0xacb9},
		lookupItem{ucs2: 0x0428, cp949: 0xacba},
		lookupItem{ucs2: 0x0429, cp949: 0xacbb},
		lookupItem{ucs2: 0x042a, cp949: 0xacbc},
		lookupItem{ucs2: 0x042b, cp949: 0xacbd},
		lookupItem{ucs2: 0x042c, cp949: 0xacbe},
		lookupItem{ucs2: 0x042d, cp949: 0xacbf},
		lookupItem{ucs2: 0x042e, cp949: 0xacc0},
		lookupItem{ucs2: 0x042f, cp949: 0xacc1},
		lookupItem{ucs2: 0x0430, cp949: 0xacd1},
		lookupItem{ucs2: 0x0431, cp949: 0xacd2},
		lookupItem{ucs2: 0x0432, cp949: 0xacd3},
		lookupItem{ucs2: 0x0433, cp949: 0xacd4},
		lookupItem{ucs2: 0x0434, cp949: 0xacd5},
		lookupItem{ucs2: 0x0435, cp949: 0xacd6},
		lookupItem{ucs2: 0x0436, cp949: 0xacd8},
		lookupItem{ucs2: 0x0437, cp949: 0xacd9},
		lookupItem{ucs2: 0x0438, cp949: 0xacda},
		lookupItem{ucs2: 0x0439, cp949: 0xacdb},
		lookupItem{ucs2: 0x043a, cp949: 0xacdc},
		lookupItem{ucs2: 0x043b, cp949: 0xacdd},
		lookupItem{ucs2: 0x043c, cp949: 0xacde},
		lookupItem{ucs2: 0x043d, cp949: 0xacdf},
		lookupItem{ucs2: 0x043e, cp949: 0xace0},
		lookupItem{ucs2: 0x043f, cp949: 0xace1},
		lookupItem{ucs2: 0x0440, cp949: 0xace2},
		lookupItem{ucs2: 0x0441, cp949: 0xace3},
		lookupItem{ucs2: 0x0442, cp949: 0xace4},
		lookupItem{ucs2: 0x0443, cp949: 0xace5},
		lookupItem{ucs2: 0x0444, cp949: 0xace6},
		lookupItem{ucs2: 0x0445, cp949: 0xace7},
		lookupItem{ucs2: 0x0446, cp949: 0xace8},
		lookupItem{ucs2: 0x0447, cp949: 0xace9},
		lookupItem{ucs2: 0x0448, cp949: 0xacea},
		lookupItem{ucs2: 0x0449, cp949: 0xaceb},
		lookupItem{ucs2: 0x044a, cp949: 0xacec},
		lookupItem{ucs2: 0x044b, cp949: 0xaced},
		lookupItem{ucs2: 0x044c, cp949: 0xacee},
		lookupItem{ucs2: 0x044d, cp949: 0xacef},
		lookupItem{ucs2: 0x044e, cp949: 0xacf0},
		lookupItem{ucs2: 0x044f, cp949: 0xacf1},
		lookupItem{ucs2: 0x0451, cp949: 0xacd7},
		lookupItem{ucs2: 0x2015, cp949: 0xa1aa},
		lookupItem{ucs2: 0x2018, cp949: 0xa1ae},
		lookupItem{ucs2: 0x2019, cp949: 0xa1af},
		lookupItem{ucs2: 0x201c, cp949: 0xa1b0},
		lookupItem{ucs2: 0x201d, cp949: 0xa1b1},
		lookupItem{ucs2: 0x2020, cp949: 0xa2d3},
		lookupItem{ucs2: 0x2021, cp949: 0xa2d4},
		lookupItem{ucs2: 0x2025, cp949: 0xa1a5},
		lookupItem{ucs2: 0x2026, cp949: 0xa1a6},
		lookupItem{ucs2: 0x2030, cp949: 0xa2b6},
		lookupItem{ucs2: 0x2032, cp949: 0xa1c7},
		lookupItem{ucs2: 0x2033, cp949: 0xa1c8},
		lookupItem{ucs2: 0x203b, cp949: 0xa1d8},
		lookupItem{ucs2: 0x2074, cp949: 0xa9f9},
		lookupItem{ucs2: 0x207f, cp949: 0xa9fa},
		lookupItem{ucs2: 0x2081, cp949: 0xa9fb},
		lookupItem{ucs2: 0x2082, cp949: 0xa9fc},
		lookupItem{ucs2: 0x2083, cp949: 0xa9fd},
		lookupItem{ucs2: 0x2084, cp949: 0xa9fe},
		lookupItem{ucs2: 0x20ac, cp949: 0xa2e6},
		lookupItem{ucs2: 0x2103, cp949: 0xa1c9},
		lookupItem{ucs2: 0x2109, cp949: 0xa2b5},
		lookupItem{ucs2: 0x2113, cp949: 0xa7a4},
		lookupItem{ucs2: 0x2116, cp949: 0xa2e0},
		lookupItem{ucs2: 0x2121, cp949: 0xa2e5},
		lookupItem{ucs2: 0x2122, cp949: 0xa2e2},
		lookupItem{ucs2: 0x2126, cp949: 0xa7d9},
		lookupItem{ucs2: 0x212b, cp949: 0xa1ca},
		lookupItem{ucs2: 0x2153, cp949: 0xa8f7},
		lookupItem{ucs2: 0x2154, cp949: 0xa8f8},
		lookupItem{ucs2: 0x215b, cp949: 0xa8fb},
		lookupItem{ucs2: 0x215c, cp949: 0xa8fc},
		lookupItem{ucs2: 0x215d, cp949: 0xa8fd},
		lookupItem{ucs2: 0x215e, cp949: 0xa8fe},
		lookupItem{ucs2: 0x2160, cp949: 0xa5b0},
		lookupItem{ucs2: 0x2161, cp949: 0xa5b1},
		lookupItem{ucs2: 0x2162, cp949: 0xa5b2},
		lookupItem{ucs2: 0x2163, cp949: 0xa5b3},
		lookupItem{ucs2: 0x2164, cp949: 0xa5b4},
		lookupItem{ucs2: 0x2165, cp949: 0xa5b5},
		lookupItem{ucs2: 0x2166, cp949: 0xa5b6},
		lookupItem{ucs2: 0x2167, cp949: 0xa5b7},
		lookupItem{ucs2: 0x2168, cp949: 0xa5b8},
		lookupItem{ucs2: 0x2169, cp949: 0xa5b9},
		lookupItem{ucs2: 0x2170, cp949: 0xa5a1},
		lookupItem{ucs2: 0x2171, cp949: 0xa5a2},
		lookupItem{ucs2: 0x2172, cp949: 0xa5a3},
		lookupItem{ucs2: 0x2173, cp949: 0xa5a4},
		lookupItem{ucs2: 0x2174, cp949: 0xa5a5},
		lookupItem{ucs2: 0x2175, cp949: 0xa5a6},
		lookupItem{ucs2: 0x2176, cp949: 0xa5a7},
		lookupItem{ucs2: 0x2177, cp949: 0xa5a8},
		lookupItem{ucs2: 0x2178, cp949: 0xa5a9},
		lookupItem{ucs2: 0x2179, cp949: 0xa5aa},
		lookupItem{ucs2: 0x2190, cp949: 0xa1e7},
		lookupItem{ucs2: 0x2191, cp949: 0xa1e8},
		lookupItem{ucs2: 0x2192, cp949: 0xa1e6},
		lookupItem{ucs2: 0x2193, cp949: 0xa1e9},
		lookupItem{ucs2: 0x2194, cp949: 0xa1ea},
		lookupItem{ucs2: 0x2195, cp949: 0xa2d5},
		lookupItem{ucs2: 0x2196, cp949: 0xa2d8},
		lookupItem{ucs2: 0x2197, cp949: 0xa2d6},
		lookupItem{ucs2: 0x2198, cp949: 0xa2d9},
		lookupItem{ucs2: 0x2199, cp949: 0xa2d7},
		lookupItem{ucs2: 0x21d2, cp949: 0xa2a1},
		lookupItem{ucs2: 0x21d4, cp949: 0xa2a2},
		lookupItem{ucs2: 0x2200, cp949: 0xa2a3},
		lookupItem{ucs2: 0x2202, cp949: 0xa1d3},
		lookupItem{ucs2: 0x2203, cp949: 0xa2a4},
		lookupItem{ucs2: 0x2207, cp949: 0xa1d4},
		lookupItem{ucs2: 0x2208, cp949: 0xa1f4},
".
Definition text_cp949_lookup_to_001 : string :=
"		lookupItem{ucs2: 0x220b, cp949: 0xa1f5},
		lookupItem{ucs2: 0x220f, cp949: 0xa2b3},
		lookupItem{ucs2: 0x2211, cp949: 0xa2b2},
		lookupItem{ucs2: 0x221a, cp949: 0xa1ee},
		lookupItem{ucs2: 0x221d, cp949: 0xa1f0},
		lookupItem{ucs2: 0x221e, cp949: 0xa1c4},
		lookupItem{ucs2: 0x2220, cp949: 0xa1d0},
		lookupItem{ucs2: 0x2225, cp949: 0xa1ab},
		lookupItem{ucs2: 0x2227, cp949: 0xa1fc},
		lookupItem{ucs2: 0x2228, cp949: 0xa1fd},
		lookupItem{ucs2: 0x2229, cp949: 0xa1fb},
		lookupItem{ucs2: 0x222a, cp949: 0xa1fa},
		lookupItem{ucs2: 0x222b, cp949: 0xa1f2},
		lookupItem{ucs2: 0x222c, cp949: 0xa1f3},
		lookupItem{ucs2: 0x222e, cp949: 0xa2b1},
		lookupItem{ucs2: 0x2234, cp949: 0xa1c5},
		lookupItem{ucs2: 0x2235, cp949: 0xa1f1},
		lookupItem{ucs2: 0x223c, cp949: 0xa1ad},
		lookupItem{ucs2: 0x223d, cp949: 0xa1ef},
		lookupItem{ucs2: 0x2252, cp949: 0xa1d6},
		lookupItem{ucs2: 0x2260, cp949: 0xa1c1},
		lookupItem{ucs2: 0x2261, cp949: 0xa1d5},
		lookupItem{ucs2: 0x2264, cp949: 0xa1c2},
		lookupItem{ucs2: 0x2265, cp949: 0xa1c3},
		lookupItem{ucs2: 0x226a, cp949: 0xa1ec},
		lookupItem{ucs2: 0x226b, cp949: 0xa1ed},
		lookupItem{ucs2: 0x2282, cp949: 0xa1f8},
		lookupItem{ucs2: 0x2283, cp949: 0xa1f9},
		lookupItem{ucs2: 0x2286, cp949: 0xa1f6},
		lookupItem{ucs2: 0x2287, cp949: 0xa1f7},
		lookupItem{ucs2: 0x2299, cp949: 0xa2c1},
		lookupItem{ucs2: 0x22a5, cp949: 0xa1d1},
		lookupItem{ucs2: 0x2312, cp949: 0xa1d2},
		lookupItem{ucs2: 0x2460, cp949: 0xa8e7},
		lookupItem{ucs2: 0x2461, cp949: 0xa8e8},
		lookupItem{ucs2: 0x2462, cp949: 0xa8e9},
		lookupItem{ucs2: 0x2463, cp949: 0xa8ea},
		lookupItem{ucs2: 0x2464, cp949: 0xa8eb},
		lookupItem{ucs2: 0x2465, cp949: 0xa8ec},
		lookupItem{ucs2: 0x2466, cp949: 0xa8ed},
		lookupItem{ucs2: 0x2467, cp949: 0xa8ee},
		lookupItem{ucs2: 0x2468, cp949: 0xa8ef},
		lookupItem{ucs2: 0x2469, cp949: 0xa8f0},
		lookupItem{ucs2: 0x246a, cp949: 0xa8f1},
		lookupItem{ucs2: 0x246b, cp949: 0xa8f2},
		lookupItem{ucs2: 0x246c, cp949: 0xa8f3},
		lookupItem{ucs2: 0x246d, cp949: 0xa8f4},
		lookupItem{ucs2: 0x246e, cp949: 0xa8f5},
		lookupItem{ucs2: 0x2474, cp949: 0xa9e7},
		lookupItem{ucs2: 0x2475, cp949: 0xa9e8},
		lookupItem{ucs2: 0x2476, cp949: 0xa9e9},
		lookupItem{ucs2: 0x2477, cp949: 0xa9ea},
		lookupItem{ucs2: 0x2478, cp949: 0xa9eb},
		lookupItem{ucs2: 0x2479, cp949: 0xa9ec},
		lookupItem{ucs2: 0x247a, cp949: 0xa9ed},
		lookupItem{ucs2: 0x247b, cp949: 0xa9ee},
		lookupItem{ucs2: 0x247c, cp949: 0xa9ef},
		lookupItem{ucs2: 0x247d, cp949: 0xa9f0},
		lookupItem{ucs2: 0x247e, cp949: 0xa9f1},
		lookupItem{ucs2: 0x247f, cp949: 0xa9f2},
		lookupItem{ucs2: 0x2480, cp949: 0xa9f3},
		lookupItem{ucs2: 0x2481, cp949: 0xa9f4},
		lookupItem{ucs2: 0x2482, cp949: 0xa9f5},
		lookupItem{ucs2: 0x249c, cp949: 0xa9cd},
		lookupItem{ucs2: 0x249d, cp949: 0xa9ce},
		lookupItem{ucs2: 0x249e, cp949: 0xa9cf},
		lookupItem{ucs2: 0x249f, cp949: 0xa9d0},
		lookupItem{ucs2: 0x24a0, cp949: 0xa9d1},
		lookupItem{ucs2: 0x24a1, cp949: 0xa9d2},
		lookupItem{ucs2: 0x24a2, cp949: 0xa9d3},
		lookupItem{ucs2: 0x24a3, cp949: 0xa9d4},
		lookupItem{ucs2: 0x24a4, cp949: 0xa9d5},
		lookupItem{ucs2: 0x24a5, cp949: 0xa9d6},
		lookupItem{ucs2: 0x24a6, cp949: 0xa9d7},
		lookupItem{ucs2: 0x24a7, cp949: 0xa9d8},
		lookupItem{ucs2: 0x24a8, cp949: 0xa9d9},
		lookupItem{ucs2: 0x24a9, cp949: 0xa9da},
		lookupItem{ucs2: 0x24aa, cp949: 0xa9db},
		lookupItem{ucs2: 0x24ab, cp949: 0xa9dc},
		lookupItem{ucs2: 0x24ac, cp949: 0xa9dd},
		lookupItem{ucs2: 0x24ad, cp949: 0xa9de},
		lookupItem{ucs2: 0x24ae, cp949: 0xa9df},
		lookupItem{ucs2: 0x24af, cp949: 0xa9e0},
		lookupItem{ucs2: 0x24b0, cp949: 0xa9e1},
		lookupItem{ucs2: 0x24b1, cp949: 0xa9e2},
		lookupItem{ucs2: 0x24b2, cp949: 0xa9e3},
		lookupItem{ucs2: 0x24b3, cp949: 0xa9e4},
		lookupItem{ucs2: 0x24b4, cp949: 0xa9e5},
		lookupItem{ucs2: 0x24b5, cp949: 0xa9e6},
		lookupItem{ucs2: 0x24d0, cp949: 0xa8cd},
		lookupItem{ucs2: 0x24d1, cp949: 0xa8ce},
		lookupItem{ucs2: 0x24d2, cp949: 0xa8cf},
		lookupItem{ucs2: 0x24d3, cp949: 0xa8d0},
		lookupItem{ucs2: 0x24d4, cp949: 0xa8d1},
		lookupItem{ucs2: 0x24d5, cp949: 0xa8d2},
		lookupItem{ucs2: 0x24d6, cp949: 0xa8d3},
		lookupItem{ucs2: 0x24d7, cp949: 0xa8d4},
		lookupItem{ucs2: 0x24d8, cp949: 0xa8d5},
		lookupItem{ucs2: 0x24d9, cp949: 0xa8d6},
		lookupItem{ucs2: 0x24da, cp949: 0xa8d7},
		lookupItem{ucs2: 0x24db, cp949: 0xa8d8},
		lookupItem{ucs2: 0x24dc, cp949: 0xa8d9},
		lookupItem{ucs2: 0x24dd, cp949: 0xa8da},
		lookupItem{ucs2: 0x24de, cp949: 0xa8db},
		lookupItem{ucs2: 0x24df, cp949: 0xa8dc},
		lookupItem{ucs2: 0x24e0, cp949: 0xa8dd},
		lookupItem{ucs2: 0x24e1, cp949: 0xa8de},
		lookupItem{ucs2: 0x24e2, cp949: 0xa8df},
		lookupItem{ucs2: 0x24e3, cp949: 0xa8e0},
		lookupItem{ucs2: 0x24e4, cp949: 0xa8e1},
		lookupItem{ucs2: 0x24e5, cp949: 0xa8e2},
		lookupItem{ucs2: 0x24e6, cp949: 0xa8e3},
		lookupItem{ucs2: 0x24e7, cp949: 0xa8e4},
		lookupItem{ucs2: 0x24e8, cp949: 0xa8e5},
		lookupItem{ucs2: 0x24e9, cp949: 0xa8e6},
		lookupItem{ucs2: 0x2500, cp949: 0xa6a1},
		lookupItem{ucs2: 0x2501, cp949: 0xa6ac},
		lookupItem{ucs2: 0x2502, cp949: 0xa6a2},
		lookupItem{ucs2: 0x2503, cp949: 0xa6ad},
		lookupItem{ucs2: 0x250c, cp949: 0xa6a3},
		lookupItem{ucs2: 0x250d, cp949: 0xa6c8},
		lookupItem{ucs2: 0x250e, cp949: 0xa6c7},
		lookupItem{ucs2: 0x250f, cp949: 0xa6ae},
		lookupItem{ucs2: 0x2510, cp949: 0xa6a4},
		lookupItem{ucs2: 0x2511, cp949: 0xa6c2},
		lookupItem{ucs2: 0x2512, cp949: 0xa6c1},
		lookupItem{ucs2: 0x2513, cp949: 0xa6af},
		lookupItem{ucs2: 0x2514, cp949: 0xa6a6},
		lookupItem{ucs2: 0x2515, cp949: 0xa6c6},
		lookupItem{ucs2: 0x2516, cp949: 0xa6c5},
		lookupItem{ucs2: 0x2517, cp949: 0xa6b1},
		lookupItem{ucs2: 0x2518, cp949: 0xa6a5},
		lookupItem{ucs2: 0x2519, cp949: 0xa6c4},
		lookupItem{ucs2: 0x251a, cp949: 0xa6c3},
		lookupItem{ucs2: 0x251b, cp949: 0xa6b0},
		lookupItem{ucs2: 0x251c, cp949: 0xa6a7},
		lookupItem{ucs2: 0x251d, cp949: 0xa6bc},
		lookupItem{ucs2: 0x251e, cp949: 0xa6c9},
		lookupItem{ucs2: 0x251f, cp949: 0xa6ca},
		lookupItem{ucs2: 0x2520, cp949: 0xa6b7},
		lookupItem{ucs2: 0x2521, cp949: 0xa6cb},
		lookupItem{ucs2: 0x2522, cp949: 0xa6cc},
		lookupItem{ucs2: 0x2523, cp949: 0xa6b2},
		lookupItem{ucs2: 0x2524, cp949: 0xa6a9},
		lookupItem{ucs2: 0x2525, cp949: 0xa6be},
		lookupItem{ucs2: 0x2526, cp949: 0xa6cd},
		lookupItem{ucs2: 0x2527, cp949: 0xa6ce},
		lookupItem{ucs2: 0x2528, cp949: 0xa6b9},
		lookupItem{ucs2: 0x2529, cp949: 0xa6cf},
		lookupItem{ucs2: 0x252a, cp949: 0xa6d0},
		lookupItem{ucs2: 0x252b, cp949: 0xa6b4},
		lookupItem{ucs2: 0x252c, cp949: 0xa6a8},
		lookupItem{ucs2: 0x252d, cp949: 0xa6d1},
		lookupItem{ucs2: 0x252e, cp949: 0xa6d2},
		lookupItem{ucs2: 0x252f, cp949: 0xa6b8},
		lookupItem{ucs2: 0x2530, cp949: 0xa6bd},
		lookupItem{ucs2: 0x2531, cp949: 0xa6d3},
		lookupItem{ucs2: 0x2532, cp949: 0xa6d4},
		lookupItem{ucs2: 0x2533, cp949: 0xa6b3},
		lookupItem{ucs2: 0x2534, cp949: 0xa6aa},
		lookupItem{ucs2: 0x2535, cp949: 0xa6d5},
		lookupItem{ucs2: 0x2536, cp949: 0xa6d6},
		lookupItem{ucs2: 0x2537, cp949: 0xa6ba},
		lookupItem{ucs2: 0x2538, cp949: 0xa6bf},
		lookupItem{ucs2: 0x2539, cp949: 0xa6d7},
		lookupItem{ucs2: 0x253a, cp949: 0xa6d8},
		lookupItem{ucs2: 0x253b, cp949: 0xa6b5},
		lookupItem{ucs2: 0x253c, cp949: 0xa6ab},
		lookupItem{ucs2: 0x253d, cp949: 0xa6d9},
		lookupItem{ucs2: 0x253e, cp949: 0xa6da},
		lookupItem{ucs2: 0x253f, cp949: 0xa6bb},
		lookupItem{ucs2: 0x2540, cp949: 0xa6db},
		lookupItem{ucs2: 0x2541, cp949: 0xa6dc},
		lookupItem{ucs2: 0x2542, cp949: 0xa6c0},
		lookupItem{ucs2: 0x2543, cp949: 0xa6dd},
		lookupItem{ucs2: 0x2544, cp949: 0xa6de},
		lookupItem{ucs2: 0x2545, cp949: 0xa6df},
		lookupItem{ucs2: 0x2546, cp949: 0xa6e0},
		lookupItem{ucs2: 0x2547, cp949: 0xa6e1},
		lookupItem{ucs2: 0x2548, cp949: 0xa6e2},
		lookupItem{ucs2: 0x2549, cp949: 0xa6e3},
		lookupItem{ucs2: 0x254a, cp949: 0xa6e4},
		lookupItem{ucs2: 0x254b, cp949: 0xa6b6},
		lookupItem{ucs2: 0x2592, cp949: 0xa2c6},
		lookupItem{ucs2: 0x25a0, cp949: 0xa1e1},
		lookupItem{ucs2: 0x25a1, cp949: 0xa1e0},
		lookupItem{ucs2: 0x25a3, cp949: 0xa2c3},
		lookupItem{ucs2: 0x25a4, cp949: 0xa2c7},
		lookupItem{ucs2: 0x25a5, cp949: 0xa2c8},
		lookupItem{ucs2: 0x25a6, cp949: 0xa2cb},
		lookupItem{ucs2: 0x25a7, cp949: 0xa2ca},
		lookupItem{ucs2: 0x25a8, cp949: 0xa2c9},
		lookupItem{ucs2: 0x25a9, cp949: 0xa2cc},
		lookupItem{ucs2: 0x25b2, cp949: 0xa1e3},
		lookupItem{ucs2: 0x25b3, cp949: 0xa1e2},
		lookupItem{ucs2: 0x25b6, cp949: 0xa2ba},
		lookupItem{ucs2: 0x25b7, cp949: 0xa2b9},
		lookupItem{ucs2: 0x25bc, cp949: 0xa1e5},
		lookupItem{ucs2: 0x25bd, cp949: 0xa1e4},
		lookupItem{ucs2: 0x25c0, cp949: 0xa2b8},
		lookupItem{ucs2: 0x25c1, cp949: 0xa2b7},
		lookupItem{ucs2: 0x25c6, cp949: 0xa1df},
		lookupItem{ucs2: 0x25c7, cp949: 0xa1de},
		lookupItem{ucs2: 0x25c8, cp949: 0xa2c2},
		lookupItem{ucs2: 0x25cb, cp949: 0xa1db},
		lookupItem{ucs2: 0x25ce, cp949: 0xa1dd},
		lookupItem{ucs2: 0x25cf, cp949: 0xa1dc},
		lookupItem{ucs2: 0x25d0, cp949: 0xa2c4},
		lookupItem{ucs2: 0x25d1, cp949: 0xa2c5},
		lookupItem{ucs2: 0x2605, cp949: 0xa1da},
		lookupItem{ucs2: 0x2606, cp949: 0xa1d9},
		lookupItem{ucs2: 0x260e, cp949: 0xa2cf},
		lookupItem{ucs2: 0x260f, cp949: 0xa2ce},
		lookupItem{ucs2: 0x261c, cp949: 0xa2d0},
		lookupItem{ucs2: 0x261e, cp949: 0xa2d1},
		lookupItem{ucs2: 0x2640, cp949: 0xa1cf},
		lookupItem{ucs2: 0x2642, cp949: 0xa1ce},
		lookupItem{ucs2: 0x2660, cp949: 0xa2bc},
		lookupItem{ucs2: 0x2661, cp949: 0xa2bd},
		lookupItem{ucs2: 0x2663, cp949: 0xa2c0},
		lookupItem{ucs2: 0x2664, cp949: 0xa2bb},
		lookupItem{ucs2: 0x2665, cp949: 0xa2be},
		lookupItem{ucs2: 0x2667, cp949: 0xa2bf},
		lookupItem{ucs2: 0x2668, cp949: 0xa2cd},
		lookupItem{ucs2: 0x2669, cp949: 0xa2db},
		lookupItem{ucs2: 0x266a, cp949: 0xa2dc},
		lookupItem{ucs2: 0x266c, cp949: 0xa2dd},
		lookupItem{ucs2: 0x266d, cp949: 0xa2da},
		lookupItem{ucs2: 0x3000, cp949: 0xa1a1},
		lookupItem{ucs2: 0x3001, cp949: 0xa1a2},
		lookupItem{ucs2: 0x3002, cp949: 0xa1a3},
		lookupItem{ucs2: 0x3003, cp949: 0xa1a8},
		lookupItem{ucs2: 0x3008, cp949: 0xa1b4},
		lookupItem{ucs2: 0x3009, cp949: 0xa1b5},
		lookupItem{ucs2: 0x300a, cp949: 0xa1b6},
		lookupItem{ucs2: 0x300b, cp949: 0xa1b7},
		lookupItem{ucs2: 0x300c, cp949: 0xa1b8},
		lookupItem{ucs2: 0x300d, cp949: 0xa1b9},
		lookupItem{ucs2: 0x300e, cp949: 0xa1ba},
		lookupItem{ucs2: 0x300f, cp949: 0xa1bb},
		lookupItem{ucs2: 0x3010, cp949: 0xa1bc},
		lookupItem{ucs2: 0x3011, cp949: 0xa1bd},
		lookupItem{ucs2: 0x3013, cp949: 0xa1eb},
		lookupItem{ucs2: 0x3014, cp949: 0xa1b2},
		lookupItem{ucs2: 0x3015, cp949: 0xa1b3},
		lookupItem{ucs2: 0x3041, cp949: 0xaaa1},
		lookupItem{ucs2: 0x3042, cp949: 0xaaa2},
		lookupItem{ucs2: 0x3043, cp949: 0xaaa3},
		lookupItem{ucs2: 0x3044, cp949: 0xaaa4},
		lookupItem{ucs2: 0x3045, cp949: 0xaaa5},
".
Definition text_cp949_lookup_to_002 : string :=
"		lookupItem{ucs2: 0x3046, cp949: 0xaaa6},
		lookupItem{ucs2: 0x3047, cp949: 0xaaa7},
		lookupItem{ucs2: 0x3048, cp949: 0xaaa8},
		lookupItem{ucs2: 0x3049, cp949: 0xaaa9},
		lookupItem{ucs2: 0x304a, cp949: 0xaaaa},
		lookupItem{ucs2: 0x304b, cp949: 0xaaab},
		lookupItem{ucs2: 0x304c, cp949: 0xaaac},
		lookupItem{ucs2: 0x304d, cp949: 0xaaad},
		lookupItem{ucs2: 0x304e, cp949: 0xaaae},
		lookupItem{ucs2: 0x304f, cp949: 0xaaaf},
		lookupItem{ucs2: 0x3050, cp949: 0xaab0},
		lookupItem{ucs2: 0x3051, cp949: 0xaab1},
		lookupItem{ucs2: 0x3052, cp949: 0xaab2},
		lookupItem{ucs2: 0x3053, cp949: 0xaab3},
		lookupItem{ucs2: 0x3054, cp949: 0xaab4},
		lookupItem{ucs2: 0x3055, cp949: 0xaab5},
		lookupItem{ucs2: 0x3056, cp949: 0xaab6},
		lookupItem{ucs2: 0x3057, cp949: 0xaab7},
		lookupItem{ucs2: 0x3058, cp949: 0xaab8},
		lookupItem{ucs2: 0x3059, cp949: 0xaab9},
		lookupItem{ucs2: 0x305a, cp949: 0xaaba},
		lookupItem{ucs2: 0x305b, cp949: 0xaabb},
		lookupItem{ucs2: 0x305c, cp949: 0xaabc},
		lookupItem{ucs2: 0x305d, cp949: 0xaabd},
		lookupItem{ucs2: 0x305e, cp949: 0xaabe},
		lookupItem{ucs2: 0x305f, cp949: 0xaabf},
		lookupItem{ucs2: 0x3060, cp949: 0xaac0},
		lookupItem{ucs2: 0x3061, cp949: 0xaac1},
		lookupItem{ucs2: 0x3062, cp949: 0xaac2},
		lookupItem{ucs2: 0x3063, cp949: 0xaac3},
		lookupItem{ucs2: 0x3064, cp949: 0xaac4},
		lookupItem{ucs2: 0x3065, cp949: 0xaac5},
		lookupItem{ucs2: 0x3066, cp949: 0xaac6},
		lookupItem{ucs2: 0x3067, cp949: 0xaac7},
		lookupItem{ucs2: 0x3068, cp949: 0xaac8},
		lookupItem{ucs2: 0x3069, cp949: 0xaac9},
		lookupItem{ucs2: 0x306a, cp949: 0xaaca},
		lookupItem{ucs2: 0x306b, cp949: 0xaacb},
		lookupItem{ucs2: 0x306c, cp949: 0xaacc},
		lookupItem{ucs2: 0x306d, cp949: 0xaacd},
		lookupItem{ucs2: 0x306e, cp949: 0xaace},
		lookupItem{ucs2: 0x306f, cp949: 0xaacf},
		lookupItem{ucs2: 0x3070, cp949: 0xaad0},
		lookupItem{ucs2: 0x3071, cp949: 0xaad1},
		lookupItem{ucs2: 0x3072, cp949: 0xaad2},
		lookupItem{ucs2: 0x3073, cp949: 0xaad3},
		lookupItem{ucs2: 0x3074, cp949: 0xaad4},
		lookupItem{ucs2: 0x3075, cp949: 0xaad5},
		lookupItem{ucs2: 0x3076, cp949: 0xaad6},
		lookupItem{ucs2: 0x3077, cp949: 0xaad7},
		lookupItem{ucs2: 0x3078, cp949: 0xaad8},
		lookupItem{ucs2: 0x3079, cp949: 0xaad9},
		lookupItem{ucs2: 0x307a, cp949: 0xaada},
		lookupItem{ucs2: 0x307b, cp949: 0xaadb},
		lookupItem{ucs2: 0x307c, cp949: 0xaadc},
		lookupItem{ucs2: 0x307d, cp949: 0xaadd},
		lookupItem{ucs2: 0x307e, cp949: 0xaade},
		lookupItem{ucs2: 0x307f, cp949: 0xaadf},
		lookupItem{ucs2: 0x3080, cp949: 0xaae0},
		lookupItem{ucs2: 0x3081, cp949: 0xaae1},
		lookupItem{ucs2: 0x3082, cp949: 0xaae2},
		lookupItem{ucs2: 0x3083, cp949: 0xaae3},
		lookupItem{ucs2: 0x3084, cp949: 0xaae4},
		lookupItem{ucs2: 0x3085, cp949: 0xaae5},
		lookupItem{ucs2: 0x3086, cp949: 0xaae6},
		lookupItem{ucs2: 0x3087, cp949: 0xaae7},
		lookupItem{ucs2: 0x3088, cp949: 0xaae8},
		lookupItem{ucs2: 0x3089, cp949: 0xaae9},
		lookupItem{ucs2: 0x308a, cp949: 0xaaea},
		lookupItem{ucs2: 0x308b, cp949: 0xaaeb},
		lookupItem{ucs2: 0x308c, cp949: 0xaaec},
		lookupItem{ucs2: 0x308d, cp949: 0xaaed},
		lookupItem{ucs2: 0x308e, cp949: 0xaaee},
		lookupItem{ucs2: 0x308f, cp949: 0xaaef},
		lookupItem{ucs2: 0x3090, cp949: 0xaaf0},
		lookupItem{ucs2: 0x3091, cp949: 0xaaf1},
		lookupItem{ucs2: 0x3092, cp949: 0xaaf2},
		lookupItem{ucs2: 0x3093, cp949: 0xaaf3},
		lookupItem{ucs2: 0x30a1, cp949: 0xaba1},
		lookupItem{ucs2: 0x30a2, cp949: 0xaba2},
		lookupItem{ucs2: 0x30a3, cp949: 0xaba3},
		lookupItem{ucs2: 0x30a4, cp949: 0xaba4},
		lookupItem{ucs2: 0x30a5, cp949: 0xaba5},
		lookupItem{ucs2: 0x30a6, cp949: 0xaba6},
		lookupItem{ucs2: 0x30a7, cp949: 0xaba7},
		lookupItem{ucs2: 0x30a8, cp949: 0xaba8},
		lookupItem{ucs2: 0x30a9, cp949: 0xaba9},
		lookupItem{ucs2: 0x30aa, cp949: 0xabaa},
		lookupItem{ucs2: 0x30ab, cp949: 0xabab},
		lookupItem{ucs2: 0x30ac, cp949: 0xabac},
		lookupItem{ucs2: 0x30ad, cp949: 0xabad},
		lookupItem{ucs2: 0x30ae, cp949: 0xabae},
		lookupItem{ucs2: 0x30af, cp949: 0xabaf},
		lookupItem{ucs2: 0x30b0, cp949: 0xabb0},
		lookupItem{ucs2: 0x30b1, cp949: 0xabb1},
		lookupItem{ucs2: 0x30b2, cp949: 0xabb2},
		lookupItem{ucs2: 0x30b3, cp949: 0xabb3},
		lookupItem{ucs2: 0x30b4, cp949: 0xabb4},
		lookupItem{ucs2: 0x30b5, cp949: 0xabb5},
		lookupItem{ucs2: 0x30b6, cp949: 0xabb6},
		lookupItem{ucs2: 0x30b7, cp949: 0xabb7},
		lookupItem{ucs2: 0x30b8, cp949: 0xabb8},
		lookupItem{ucs2: 0x30b9, cp949: 0xabb9},
		lookupItem{ucs2: 0x30ba, cp949: 0xabba},
		lookupItem{ucs2: 0x30bb, cp949: 0xabbb},
		lookupItem{ucs2: 0x30bc, cp949: 0xabbc},
		lookupItem{ucs2: 0x30bd, cp949: 0xabbd},
		lookupItem{ucs2: 0x30be, cp949: 0xabbe},
		lookupItem{ucs2: 0x30bf, cp949: 0xabbf},
		lookupItem{ucs2: 0x30c0, cp949: 0xabc0},
		lookupItem{ucs2: 0x30c1, cp949: 0xabc1},
		lookupItem{ucs2: 0x30c2, cp949: 0xabc2},
		lookupItem{ucs2: 0x30c3, cp949: 0xabc3},
		lookupItem{ucs2: 0x30c4, cp949: 0xabc4},
		lookupItem{ucs2: 0x30c5, cp949: 0xabc5},
		lookupItem{ucs2: 0x30c6, cp949: 0xabc6},
		lookupItem{ucs2: 0x30c7, cp949: 0xabc7},
		lookupItem{ucs2: 0x30c8, cp949: 0xabc8},
		lookupItem{ucs2: 0x30c9, cp949: 0xabc9},
		lookupItem{ucs2: 0x30ca, cp949: 0xabca},
		lookupItem{ucs2: 0x30cb, cp949: 0xabcb},
		lookupItem{ucs2: 0x30cc, cp949: 0xabcc},
		lookupItem{ucs2: 0x30cd, cp949: 0xabcd},
		lookupItem{ucs2: 0x30ce, cp949: 0xabce},
		lookupItem{ucs2: 0x30cf, cp949: 0xabcf},
		lookupItem{ucs2: 0x30d0, cp949: 0xabd0},
		lookupItem{ucs2: 0x30d1, cp949: 0xabd1},
		lookupItem{ucs2: 0x30d2, cp949: 0xabd2},
		lookupItem{ucs2: 0x30d3, cp949: 0xabd3},
		lookupItem{ucs2: 0x30d4, cp949: 0xabd4},
		lookupItem{ucs2: 0x30d5, cp949: 0xabd5},
		lookupItem{ucs2: 0x30d6, cp949: 0xabd6},
		lookupItem{ucs2: 0x30d7, cp949: 0xabd7},
		lookupItem{ucs2: 0x30d8, cp949: 0xabd8},
		lookupItem{ucs2: 0x30d9, cp949: 0xabd9},
		lookupItem{ucs2: 0x30da, cp949: 0xabda},
		lookupItem{ucs2: 0x30db, cp949: 0xabdb},
		lookupItem{ucs2: 0x30dc, cp949: 0xabdc},
		lookupItem{ucs2: 0x30dd, cp949: 0xabdd},
		lookupItem{ucs2: 0x30de, cp949: 0xabde},
		lookupItem{ucs2: 0x30df, cp949: 0xabdf},
		lookupItem{ucs2: 0x30e0, cp949: 0xabe0},
		lookupItem{ucs2: 0x30e1, cp949: 0xabe1},
		lookupItem{ucs2: 0x30e2, cp949: 0xabe2},
		lookupItem{ucs2: 0x30e3, cp949: 0xabe3},
		lookupItem{ucs2: 0x30e4, cp949: 0xabe4},
		lookupItem{ucs2: 0x30e5, cp949: 0xabe5},
		lookupItem{ucs2: 0x30e6, cp949: 0xabe6},
		lookupItem{ucs2: 0x30e7, cp949: 0xabe7},
		lookupItem{ucs2: 0x30e8, cp949: 0xabe8},
		lookupItem{ucs2: 0x30e9, cp949: 0xabe9},
		lookupItem{ucs2: 0x30ea, cp949: 0xabea},
		lookupItem{ucs2: 0x30eb, cp949: 0xabeb},
		lookupItem{ucs2: 0x30ec, cp949: 0xabec},
		lookupItem{ucs2: 0x30ed, cp949: 0xabed},
		lookupItem{ucs2: 0x30ee, cp949: 0xabee},
		lookupItem{ucs2: 0x30ef, cp949: 0xabef},
		lookupItem{ucs2: 0x30f0, cp949: 0xabf0},
		lookupItem{ucs2: 0x30f1, cp949: 0xabf1},
		lookupItem{ucs2: 0x30f2, cp949: 0xabf2},
		lookupItem{ucs2: 0x30f3, cp949: 0xabf3},
		lookupItem{ucs2: 0x30f4, cp949: 0xabf4},
		lookupItem{ucs2: 0x30f5, cp949: 0xabf5},
		lookupItem{ucs2: 0x30f6, cp949: 0xabf6},
		lookupItem{ucs2: 0x3131, cp949: 0xa4a1},
		lookupItem{ucs2: 0x3132, cp949: 0xa4a2},
		lookupItem{ucs2: 0x3133, cp949: 0xa4a3},
		lookupItem{ucs2: 0x3134, cp949: 0xa4a4},
		lookupItem{ucs2: 0x3135, cp949: 0xa4a5},
		lookupItem{ucs2: 0x3136, cp949: 0xa4a6},
		lookupItem{ucs2: 0x3137, cp949: 0xa4a7},
		lookupItem{ucs2: 0x3138, cp949: 0xa4a8},
		lookupItem{ucs2: 0x3139, cp949: 0xa4a9},
		lookupItem{ucs2: 0x313a, cp949: 0xa4aa},
		lookupItem{ucs2: 0x313b, cp949: 0xa4ab},
		lookupItem{ucs2: 0x313c, cp949: 0xa4ac},
		lookupItem{ucs2: 0x313d, cp949: 0xa4ad},
		lookupItem{ucs2: 0x313e, cp949: 0xa4ae},
		lookupItem{ucs2: 0x313f, cp949: 0xa4af},
		lookupItem{ucs2: 0x3140, cp949: 0xa4b0},
		lookupItem{ucs2: 0x3141, cp949: 0xa4b1},
		lookupItem{ucs2: 0x3142, cp949: 0xa4b2},
		lookupItem{ucs2: 0x3143, cp949: 0xa4b3},
		lookupItem{ucs2: 0x3144, cp949: 0xa4b4},
		lookupItem{ucs2: 0x3145, cp949: 0xa4b5},
		lookupItem{ucs2: 0x3146, cp949: 0xa4b6},
		lookupItem{ucs2: 0x3147, cp949: 0xa4b7},
		lookupItem{ucs2: 0x3148, cp949: 0xa4b8},
		lookupItem{ucs2: 0x3149, cp949: 0xa4b9},
		lookupItem{ucs2: 0x314a, cp949: 0xa4ba},
		lookupItem{ucs2: 0x314b, cp949: 0xa4bb},
		lookupItem{ucs2: 0x314c, cp949: 0xa4bc},
		lookupItem{ucs2: 0x314d, cp949: 0xa4bd},
		lookupItem{ucs2: 0x314e, cp949: 0xa4be},
		lookupItem{ucs2: 0x314f, cp949: 0xa4bf},
		lookupItem{ucs2: 0x3150, cp949: 0xa4c0},
		lookupItem{ucs2: 0x3151, cp949: 0xa4c1},
		lookupItem{ucs2: 0x3152, cp949: 0xa4c2},
		lookupItem{ucs2: 0x3153, cp949: 0xa4c3},
		lookupItem{ucs2: 0x3154, cp949: 0xa4c4},
		lookupItem{ucs2: 0x3155, cp949: 0xa4c5},
		lookupItem{ucs2: 0x3156, cp949: 0xa4c6},
		lookupItem{ucs2: 0x3157, cp949: 0xa4c7},
		lookupItem{ucs2: 0x3158, cp949: 0xa4c8},
		lookupItem{ucs2: 0x3159, cp949: 0xa4c9},
		lookupItem{ucs2: 0x315a, cp949: 0xa4ca},
		lookupItem{ucs2: 0x315b, cp949: 0xa4cb},
		lookupItem{ucs2: 0x315c, cp949: 0xa4cc},
		lookupItem{ucs2: 0x315d, cp949: 0xa4cd},
		lookupItem{ucs2: 0x315e, cp949: 0xa4ce},
		lookupItem{ucs2: 0x315f, cp949: 0xa4cf},
		lookupItem{ucs2: 0x3160, cp949: 0xa4d0},
		lookupItem{ucs2: 0x3161, cp949: 0xa4d1},
		lookupItem{ucs2: 0x3162, cp949: 0xa4d2},
		lookupItem{ucs2: 0x3163, cp949: 0xa4d3},
		lookupItem{ucs2: 0x3164, cp949: 0xa4d4},
		lookupItem{ucs2: 0x3165, cp949: 0xa4d5},
		lookupItem{ucs2: 0x3166, cp949: 0xa4d6},
		lookupItem{ucs2: 0x3167, cp949: 0xa4d7},
		lookupItem{ucs2: 0x3168, cp949: 0xa4d8},
		lookupItem{ucs2: 0x3169, cp949: 0xa4d9},
		lookupItem{ucs2: 0x316a, cp949: 0xa4da},
		lookupItem{ucs2: 0x316b, cp949: 0xa4db},
		lookupItem{ucs2: 0x316c, cp949: 0xa4dc},
		lookupItem{ucs2: 0x316d, cp949: 0xa4dd},
		lookupItem{ucs2: 0x316e, cp949: 0xa4de},
		lookupItem{ucs2: 0x316f, cp949: 0xa4df},
		lookupItem{ucs2: 0x3170, cp949: 0xa4e0},
		lookupItem{ucs2: 0x3171, cp949: 0xa4e1},
		lookupItem{ucs2: 0x3172, cp949: 0xa4e2},
		lookupItem{ucs2: 0x3173, cp949: 0xa4e3},
		lookupItem{ucs2: 0x3174, cp949: 0xa4e4},
		lookupItem{ucs2: 0x3175, cp949: 0xa4e5},
		lookupItem{ucs2: 0x3176, cp949: 0xa4e6},
		lookupItem{ucs2: 0x3177, cp949: 0xa4e7},
		lookupItem{ucs2: 0x3178, cp949: 0xa4e8},
		lookupItem{ucs2: 0x3179, cp949: 0xa4e9},
		lookupItem{ucs2: 0x317a, cp949: 0xa4ea},
		lookupItem{ucs2: 0x317b, cp949: 0xa4eb},
		lookupItem{ucs2: 0x317c, cp949: 0xa4ec},
		lookupItem{ucs2: 0x317d, cp949: 0xa4ed},
		lookupItem{ucs2: 0x317e, cp949: 0xa4ee},
		lookupItem{ucs2: 0x317f, cp949: 0xa4ef},
		lookupItem{ucs2: 0x3180, cp949: 0xa4f0},
		lookupItem{ucs2: 0x3181, cp949: 0xa4f1},
		lookupItem{ucs2: 0x3182, cp949: 0xa4f2},
		lookupItem{ucs2: 0x3183, cp949: 0xa4f3},
		lookupItem{ucs2: 0x3184, cp949: 0xa4f4},
		lookupItem{ucs2: 0x3185, cp949: 0xa4f5},
		lookupItem{ucs2: 0x3186, cp949: 0xa4f6},
".
Definition text_cp949_lookup_to_003 : string :=
"		lookupItem{ucs2: 0x3187, cp949: 0xa4f7},
		lookupItem{ucs2: 0x3188, cp949: 0xa4f8},
		lookupItem{ucs2: 0x3189, cp949: 0xa4f9},
		lookupItem{ucs2: 0x318a, cp949: 0xa4fa},
		lookupItem{ucs2: 0x318b, cp949: 0xa4fb},
		lookupItem{ucs2: 0x318c, cp949: 0xa4fc},
		lookupItem{ucs2: 0x318d, cp949: 0xa4fd},
		lookupItem{ucs2: 0x318e, cp949: 0xa4fe},
		lookupItem{ucs2: 0x3200, cp949: 0xa9b1},
		lookupItem{ucs2: 0x3201, cp949: 0xa9b2},
		lookupItem{ucs2: 0x3202, cp949: 0xa9b3},
		lookupItem{ucs2: 0x3203, cp949: 0xa9b4},
		lookupItem{ucs2: 0x3204, cp949: 0xa9b5},
		lookupItem{ucs2: 0x3205, cp949: 0xa9b6},
		lookupItem{ucs2: 0x3206, cp949: 0xa9b7},
		lookupItem{ucs2: 0x3207, cp949: 0xa9b8},
		lookupItem{ucs2: 0x3208, cp949: 0xa9b9},
		lookupItem{ucs2: 0x3209, cp949: 0xa9ba},
		lookupItem{ucs2: 0x320a, cp949: 0xa9bb},
		lookupItem{ucs2: 0x320b, cp949: 0xa9bc},
		lookupItem{ucs2: 0x320c, cp949: 0xa9bd},
		lookupItem{ucs2: 0x320d, cp949: 0xa9be},
		lookupItem{ucs2: 0x320e, cp949: 0xa9bf},
		lookupItem{ucs2: 0x320f, cp949: 0xa9c0},
		lookupItem{ucs2: 0x3210, cp949: 0xa9c1},
		lookupItem{ucs2: 0x3211, cp949: 0xa9c2},
		lookupItem{ucs2: 0x3212, cp949: 0xa9c3},
		lookupItem{ucs2: 0x3213, cp949: 0xa9c4},
		lookupItem{ucs2: 0x3214, cp949: 0xa9c5},
		lookupItem{ucs2: 0x3215, cp949: 0xa9c6},
		lookupItem{ucs2: 0x3216, cp949: 0xa9c7},
		lookupItem{ucs2: 0x3217, cp949: 0xa9c8},
		lookupItem{ucs2: 0x3218, cp949: 0xa9c9},
		lookupItem{ucs2: 0x3219, cp949: 0xa9ca},
		lookupItem{ucs2: 0x321a, cp949: 0xa9cb},
		lookupItem{ucs2: 0x321b, cp949: 0xa9cc},
		lookupItem{ucs2: 0x321c, cp949: 0xa2df},
		lookupItem{ucs2: 0x3260, cp949: 0xa8b1},
		lookupItem{ucs2: 0x3261, cp949: 0xa8b2},
		lookupItem{ucs2: 0x3262, cp949: 0xa8b3},
		lookupItem{ucs2: 0x3263, cp949: 0xa8b4},
		lookupItem{ucs2: 0x3264, cp949: 0xa8b5},
		lookupItem{ucs2: 0x3265, cp949: 0xa8b6},
		lookupItem{ucs2: 0x3266, cp949: 0xa8b7},
		lookupItem{ucs2: 0x3267, cp949: 0xa8b8},
		lookupItem{ucs2: 0x3268, cp949: 0xa8b9},
		lookupItem{ucs2: 0x3269, cp949: 0xa8ba},
		lookupItem{ucs2: 0x326a, cp949: 0xa8bb},
		lookupItem{ucs2: 0x326b, cp949: 0xa8bc},
		lookupItem{ucs2: 0x326c, cp949: 0xa8bd},
		lookupItem{ucs2: 0x326d, cp949: 0xa8be},
		lookupItem{ucs2: 0x326e, cp949: 0xa8bf},
		lookupItem{ucs2: 0x326f, cp949: 0xa8c0},
		lookupItem{ucs2: 0x3270, cp949: 0xa8c1},
		lookupItem{ucs2: 0x3271, cp949: 0xa8c2},
		lookupItem{ucs2: 0x3272, cp949: 0xa8c3},
		lookupItem{ucs2: 0x3273, cp949: 0xa8c4},
		lookupItem{ucs2: 0x3274, cp949: 0xa8c5},
		lookupItem{ucs2: 0x3275, cp949: 0xa8c6},
		lookupItem{ucs2: 0x3276, cp949: 0xa8c7},
		lookupItem{ucs2: 0x3277, cp949: 0xa8c8},
		lookupItem{ucs2: 0x3278, cp949: 0xa8c9},
		lookupItem{ucs2: 0x3279, cp949: 0xa8ca},
		lookupItem{ucs2: 0x327a, cp949: 0xa8cb},
		lookupItem{ucs2: 0x327b, cp949: 0xa8cc},
		lookupItem{ucs2: 0x327f, cp949: 0xa2de},
		lookupItem{ucs2: 0x3380, cp949: 0xa7c9},
		lookupItem{ucs2: 0x3381, cp949: 0xa7ca},
		lookupItem{ucs2: 0x3382, cp949: 0xa7cb},
		lookupItem{ucs2: 0x3383, cp949: 0xa7cc},
		lookupItem{ucs2: 0x3384, cp949: 0xa7cd},
		lookupItem{ucs2: 0x3388, cp949: 0xa7ba},
		lookupItem{ucs2: 0x3389, cp949: 0xa7bb},
		lookupItem{ucs2: 0x338a, cp949: 0xa7dc},
		lookupItem{ucs2: 0x338b, cp949: 0xa7dd},
		lookupItem{ucs2: 0x338c, cp949: 0xa7de},
		lookupItem{ucs2: 0x338d, cp949: 0xa7b6},
		lookupItem{ucs2: 0x338e, cp949: 0xa7b7},
		lookupItem{ucs2: 0x338f, cp949: 0xa7b8},
		lookupItem{ucs2: 0x3390, cp949: 0xa7d4},
		lookupItem{ucs2: 0x3391, cp949: 0xa7d5},
		lookupItem{ucs2: 0x3392, cp949: 0xa7d6},
		lookupItem{ucs2: 0x3393, cp949: 0xa7d7},
		lookupItem{ucs2: 0x3394, cp949: 0xa7d8},
		lookupItem{ucs2: 0x3395, cp949: 0xa7a1},
		lookupItem{ucs2: 0x3396, cp949: 0xa7a2},
		lookupItem{ucs2: 0x3397, cp949: 0xa7a3},
		lookupItem{ucs2: 0x3398, cp949: 0xa7a5},
		lookupItem{ucs2: 0x3399, cp949: 0xa7ab},
		lookupItem{ucs2: 0x339a, cp949: 0xa7ac},
		lookupItem{ucs2: 0x339b, cp949: 0xa7ad},
		lookupItem{ucs2: 0x339c, cp949: 0xa7ae},
		lookupItem{ucs2: 0x339d, cp949: 0xa7af},
		lookupItem{ucs2: 0x339e, cp949: 0xa7b0},
		lookupItem{ucs2: 0x339f, cp949: 0xa7b1},
		lookupItem{ucs2: 0x33a0, cp949: 0xa7b2},
		lookupItem{ucs2: 0x33a1, cp949: 0xa7b3},
		lookupItem{ucs2: 0x33a2, cp949: 0xa7b4},
		lookupItem{ucs2: 0x33a3, cp949: 0xa7a7},
		lookupItem{ucs2: 0x33a4, cp949: 0xa7a8},
		lookupItem{ucs2: 0x33a5, cp949: 0xa7a9},
		lookupItem{ucs2: 0x33a6, cp949: 0xa7aa},
		lookupItem{ucs2: 0x33a7, cp949: 0xa7bd},
		lookupItem{ucs2: 0x33a8, cp949: 0xa7be},
		lookupItem{ucs2: 0x33a9, cp949: 0xa7e5},
		lookupItem{ucs2: 0x33aa, cp949: 0xa7e6},
		lookupItem{ucs2: 0x33ab, cp949: 0xa7e7},
		lookupItem{ucs2: 0x33ac, cp949: 0xa7e8},
		lookupItem{ucs2: 0x33ad, cp949: 0xa7e1},
		lookupItem{ucs2: 0x33ae, cp949: 0xa7e2},
		lookupItem{ucs2: 0x33af, cp949: 0xa7e3},
		lookupItem{ucs2: 0x33b0, cp949: 0xa7bf},
		lookupItem{ucs2: 0x33b1, cp949: 0xa7c0},
		lookupItem{ucs2: 0x33b2, cp949: 0xa7c1},
		lookupItem{ucs2: 0x33b3, cp949: 0xa7c2},
		lookupItem{ucs2: 0x33b4, cp949: 0xa7c3},
		lookupItem{ucs2: 0x33b5, cp949: 0xa7c4},
		lookupItem{ucs2: 0x33b6, cp949: 0xa7c5},
		lookupItem{ucs2: 0x33b7, cp949: 0xa7c6},
		lookupItem{ucs2: 0x33b8, cp949: 0xa7c7},
		lookupItem{ucs2: 0x33b9, cp949: 0xa7c8},
		lookupItem{ucs2: 0x33ba, cp949: 0xa7ce},
		lookupItem{ucs2: 0x33bb, cp949: 0xa7cf},
		lookupItem{ucs2: 0x33bc, cp949: 0xa7d0},
		lookupItem{ucs2: 0x33bd, cp949: 0xa7d1},
		lookupItem{ucs2: 0x33be, cp949: 0xa7d2},
		lookupItem{ucs2: 0x33bf, cp949: 0xa7d3},
		lookupItem{ucs2: 0x33c0, cp949: 0xa7da},
		lookupItem{ucs2: 0x33c1, cp949: 0xa7db},
		lookupItem{ucs2: 0x33c2, cp949: 0xa2e3},
		lookupItem{ucs2: 0x33c3, cp949: 0xa7ec},
		lookupItem{ucs2: 0x33c4, cp949: 0xa7a6},
		lookupItem{ucs2: 0x33c5, cp949: 0xa7e0},
		lookupItem{ucs2: 0x33c6, cp949: 0xa7ef},
		lookupItem{ucs2: 0x33c7, cp949: 0xa2e1},
		lookupItem{ucs2: 0x33c8, cp949: 0xa7bc},
		lookupItem{ucs2: 0x33c9, cp949: 0xa7ed},
		lookupItem{ucs2: 0x33ca, cp949: 0xa7b5},
		lookupItem{ucs2: 0x33cf, cp949: 0xa7b9},
		lookupItem{ucs2: 0x33d0, cp949: 0xa7ea},
		lookupItem{ucs2: 0x33d3, cp949: 0xa7eb},
		lookupItem{ucs2: 0x33d6, cp949: 0xa7df},
		lookupItem{ucs2: 0x33d8, cp949: 0xa2e4},
		lookupItem{ucs2: 0x33db, cp949: 0xa7e4},
		lookupItem{ucs2: 0x33dc, cp949: 0xa7ee},
		lookupItem{ucs2: 0x33dd, cp949: 0xa7e9},
		lookupItem{ucs2: 0x4e00, cp949: 0xece9},
		lookupItem{ucs2: 0x4e01, cp949: 0xefcb},
		lookupItem{ucs2: 0x4e03, cp949: 0xf6d2},
		lookupItem{ucs2: 0x4e07, cp949: 0xd8b2},
		lookupItem{ucs2: 0x4e08, cp949: 0xeddb},
		lookupItem{ucs2: 0x4e09, cp949: 0xdfb2},
		lookupItem{ucs2: 0x4e0a, cp949: 0xdfbe},
		lookupItem{ucs2: 0x4e0b, cp949: 0xf9bb},
		lookupItem{ucs2: 0x4e0d, cp949: 0xdcf4},
		lookupItem{ucs2: 0x4e11, cp949: 0xf5e4},
		lookupItem{ucs2: 0x4e14, cp949: 0xf3a6},
		lookupItem{ucs2: 0x4e15, cp949: 0xdde0},
		lookupItem{ucs2: 0x4e16, cp949: 0xe1a6},
		lookupItem{ucs2: 0x4e18, cp949: 0xcef8},
		lookupItem{ucs2: 0x4e19, cp949: 0xdcb0},
		lookupItem{ucs2: 0x4e1e, cp949: 0xe3aa},
		lookupItem{ucs2: 0x4e2d, cp949: 0xf1e9},
		lookupItem{ucs2: 0x4e32, cp949: 0xcdfa},
		lookupItem{ucs2: 0x4e38, cp949: 0xfcaf},
		lookupItem{ucs2: 0x4e39, cp949: 0xd3a1},
		lookupItem{ucs2: 0x4e3b, cp949: 0xf1ab},
		lookupItem{ucs2: 0x4e42, cp949: 0xe7d1},
		lookupItem{ucs2: 0x4e43, cp949: 0xd2ac},
		lookupItem{ucs2: 0x4e45, cp949: 0xcef9},
		lookupItem{ucs2: 0x4e4b, cp949: 0xf1fd},
		lookupItem{ucs2: 0x4e4d, cp949: 0xdebf},
		lookupItem{ucs2: 0x4e4e, cp949: 0xfbba},
		lookupItem{ucs2: 0x4e4f, cp949: 0xf9b9},
		lookupItem{ucs2: 0x4e56, cp949: 0xced2},
		lookupItem{ucs2: 0x4e58, cp949: 0xe3ab},
		lookupItem{ucs2: 0x4e59, cp949: 0xebe0},
		lookupItem{ucs2: 0x4e5d, cp949: 0xcefa},
		lookupItem{ucs2: 0x4e5e, cp949: 0xcbf7},
		lookupItem{ucs2: 0x4e5f, cp949: 0xe5a5},
		lookupItem{ucs2: 0x4e6b, cp949: 0xcae1},
		lookupItem{ucs2: 0x4e6d, cp949: 0xd4cc},
		lookupItem{ucs2: 0x4e73, cp949: 0xeae1},
		lookupItem{ucs2: 0x4e76, cp949: 0xdce3},
		lookupItem{ucs2: 0x4e77, cp949: 0xdfad},
		lookupItem{ucs2: 0x4e7e, cp949: 0xcbeb},
		lookupItem{ucs2: 0x4e82, cp949: 0xd5af},
		lookupItem{ucs2: 0x4e86, cp949: 0xd6f5},
		lookupItem{ucs2: 0x4e88, cp949: 0xe5f8},
		lookupItem{ucs2: 0x4e8b, cp949: 0xdec0},
		lookupItem{ucs2: 0x4e8c, cp949: 0xeca3},
		lookupItem{ucs2: 0x4e8e, cp949: 0xe9cd},
		lookupItem{ucs2: 0x4e90, cp949: 0xeaa7},
		lookupItem{ucs2: 0x4e91, cp949: 0xe9f6},
		lookupItem{ucs2: 0x4e92, cp949: 0xfbbb},
		lookupItem{ucs2: 0x4e94, cp949: 0xe7e9},
		lookupItem{ucs2: 0x4e95, cp949: 0xefcc},
		lookupItem{ucs2: 0x4e98, cp949: 0xd0e6},
		lookupItem{ucs2: 0x4e9b, cp949: 0xdec1},
		lookupItem{ucs2: 0x4e9e, cp949: 0xe4ac},
		lookupItem{ucs2: 0x4ea1, cp949: 0xd8cc},
		lookupItem{ucs2: 0x4ea2, cp949: 0xf9f1},
		lookupItem{ucs2: 0x4ea4, cp949: 0xcedf},
		lookupItem{ucs2: 0x4ea5, cp949: 0xfaa4},
		lookupItem{ucs2: 0x4ea6, cp949: 0xe6b2},
		lookupItem{ucs2: 0x4ea8, cp949: 0xfafb},
		lookupItem{ucs2: 0x4eab, cp949: 0xfabd},
		lookupItem{ucs2: 0x4eac, cp949: 0xccc8},
		lookupItem{ucs2: 0x4ead, cp949: 0xefcd},
		lookupItem{ucs2: 0x4eae, cp949: 0xd5d5},
		lookupItem{ucs2: 0x4eb6, cp949: 0xd3a2},
		lookupItem{ucs2: 0x4eba, cp949: 0xecd1},
		lookupItem{ucs2: 0x4ec0, cp949: 0xe4a7},
		lookupItem{ucs2: 0x4ec1, cp949: 0xecd2},
		lookupItem{ucs2: 0x4ec4, cp949: 0xf6b1},
		lookupItem{ucs2: 0x4ec7, cp949: 0xcefb},
		lookupItem{ucs2: 0x4eca, cp949: 0xd0d1},
		lookupItem{ucs2: 0x4ecb, cp949: 0xcbbf},
		lookupItem{ucs2: 0x4ecd, cp949: 0xeda4},
		lookupItem{ucs2: 0x4ed4, cp949: 0xeda8},
		lookupItem{ucs2: 0x4ed5, cp949: 0xdec2},
		lookupItem{ucs2: 0x4ed6, cp949: 0xf6e2},
		lookupItem{ucs2: 0x4ed7, cp949: 0xeddc},
		lookupItem{ucs2: 0x4ed8, cp949: 0xdcf5},
		lookupItem{ucs2: 0x4ed9, cp949: 0xe0b9},
		lookupItem{ucs2: 0x4edd, cp949: 0xd4ce},
		lookupItem{ucs2: 0x4edf, cp949: 0xf4b5},
		lookupItem{ucs2: 0x4ee3, cp949: 0xd3db},
		lookupItem{ucs2: 0x4ee4, cp949: 0xd6b5},
		lookupItem{ucs2: 0x4ee5, cp949: 0xeca4},
		lookupItem{ucs2: 0x4ef0, cp949: 0xe4e6},
		lookupItem{ucs2: 0x4ef2, cp949: 0xf1ea},
		lookupItem{ucs2: 0x4ef6, cp949: 0xcbec},
		lookupItem{ucs2: 0x4ef7, cp949: 0xcbc0},
		lookupItem{ucs2: 0x4efb, cp949: 0xecf2},
		lookupItem{ucs2: 0x4f01, cp949: 0xd0ea},
		lookupItem{ucs2: 0x4f09, cp949: 0xf9f2},
		lookupItem{ucs2: 0x4f0a, cp949: 0xeca5},
		lookupItem{ucs2: 0x4f0b, cp949: 0xd0df},
		lookupItem{ucs2: 0x4f0d, cp949: 0xe7ea},
		lookupItem{ucs2: 0x4f0e, cp949: 0xd0eb},
		lookupItem{ucs2: 0x4f0f, cp949: 0xdcd1},
		lookupItem{ucs2: 0x4f10, cp949: 0xdbe9},
		lookupItem{ucs2: 0x4f11, cp949: 0xfdcc},
		lookupItem{ucs2: 0x4f2f, cp949: 0xdbd7},
		lookupItem{ucs2: 0x4f34, cp949: 0xdae1},
		lookupItem{ucs2: 0x4f36, cp949: 0xd6b6},
		lookupItem{ucs2: 0x4f38, cp949: 0xe3df},
		lookupItem{ucs2: 0x4f3a, cp949: 0xdec3},
		lookupItem{ucs2: 0x4f3c, cp949: 0xdec4},
".
Definition text_cp949_lookup_to_004 : string :=
"		lookupItem{ucs2: 0x4f3d, cp949: 0xcaa1},
		lookupItem{ucs2: 0x4f43, cp949: 0xeeec},
		lookupItem{ucs2: 0x4f46, cp949: 0xd3a3},
		lookupItem{ucs2: 0x4f47, cp949: 0xeeb7},
		lookupItem{ucs2: 0x4f48, cp949: 0xf8cf},
		lookupItem{ucs2: 0x4f4d, cp949: 0xeac8},
		lookupItem{ucs2: 0x4f4e, cp949: 0xeeb8},
		lookupItem{ucs2: 0x4f4f, cp949: 0xf1ac},
		lookupItem{ucs2: 0x4f50, cp949: 0xf1a5},
		lookupItem{ucs2: 0x4f51, cp949: 0xe9ce},
		lookupItem{ucs2: 0x4f55, cp949: 0xf9bc},
		lookupItem{ucs2: 0x4f59, cp949: 0xe5f9},
		lookupItem{ucs2: 0x4f5a, cp949: 0xecea},
		lookupItem{ucs2: 0x4f5b, cp949: 0xddd6},
		lookupItem{ucs2: 0x4f5c, cp949: 0xedc2},
		lookupItem{ucs2: 0x4f69, cp949: 0xf8a5},
		lookupItem{ucs2: 0x4f6f, cp949: 0xe5ba},
		lookupItem{ucs2: 0x4f70, cp949: 0xdbd8},
		lookupItem{ucs2: 0x4f73, cp949: 0xcaa2},
		lookupItem{ucs2: 0x4f76, cp949: 0xd1cd},
		lookupItem{ucs2: 0x4f7a, cp949: 0xeeed},
		lookupItem{ucs2: 0x4f7e, cp949: 0xeceb},
		lookupItem{ucs2: 0x4f7f, cp949: 0xdec5},
		lookupItem{ucs2: 0x4f81, cp949: 0xe3e0},
		lookupItem{ucs2: 0x4f83, cp949: 0xcac9},
		lookupItem{ucs2: 0x4f84, cp949: 0xf2e9},
		lookupItem{ucs2: 0x4f86, cp949: 0xd5ce},
		lookupItem{ucs2: 0x4f88, cp949: 0xf6b6},
		lookupItem{ucs2: 0x4f8a, cp949: 0xcec2},
		lookupItem{ucs2: 0x4f8b, cp949: 0xd6c7},
		lookupItem{ucs2: 0x4f8d, cp949: 0xe3b4},
		lookupItem{ucs2: 0x4f8f, cp949: 0xf1ad},
		lookupItem{ucs2: 0x4f91, cp949: 0xeae2},
		lookupItem{ucs2: 0x4f96, cp949: 0xd7c2},
		lookupItem{ucs2: 0x4f98, cp949: 0xf3a7},
		lookupItem{ucs2: 0x4f9b, cp949: 0xcdea},
		lookupItem{ucs2: 0x4f9d, cp949: 0xebee},
		lookupItem{ucs2: 0x4fae, cp949: 0xd9b2},
		lookupItem{ucs2: 0x4faf, cp949: 0xfda5},
		lookupItem{ucs2: 0x4fb5, cp949: 0xf6d5},
		lookupItem{ucs2: 0x4fb6, cp949: 0xd5e2},
		lookupItem{ucs2: 0x4fbf, cp949: 0xf8b5},
		lookupItem{ucs2: 0x4fc2, cp949: 0xccf5},
		lookupItem{ucs2: 0x4fc3, cp949: 0xf5b5},
		lookupItem{ucs2: 0x4fc4, cp949: 0xe4ad},
		lookupItem{ucs2: 0x4fc9, cp949: 0xe7eb},
		lookupItem{ucs2: 0x4fca, cp949: 0xf1d5},
		lookupItem{ucs2: 0x4fce, cp949: 0xf0bb},
		lookupItem{ucs2: 0x4fd1, cp949: 0xe9b5},
		lookupItem{ucs2: 0x4fd3, cp949: 0xccc9},
		lookupItem{ucs2: 0x4fd4, cp949: 0xfad5},
		lookupItem{ucs2: 0x4fd7, cp949: 0xe1d4},
		lookupItem{ucs2: 0x4fda, cp949: 0xd7d6},
		lookupItem{ucs2: 0x4fdd, cp949: 0xdcc1},
		lookupItem{ucs2: 0x4fdf, cp949: 0xdec6},
		lookupItem{ucs2: 0x4fe0, cp949: 0xfaef},
		lookupItem{ucs2: 0x4fe1, cp949: 0xe3e1},
		lookupItem{ucs2: 0x4fee, cp949: 0xe1f3},
		lookupItem{ucs2: 0x4fef, cp949: 0xdcf6},
		lookupItem{ucs2: 0x4ff1, cp949: 0xcefc},
		lookupItem{ucs2: 0x4ff3, cp949: 0xdbc4},
		lookupItem{ucs2: 0x4ff5, cp949: 0xf8f1},
		lookupItem{ucs2: 0x4ff8, cp949: 0xdce4},
		lookupItem{ucs2: 0x4ffa, cp949: 0xe5ef},
		lookupItem{ucs2: 0x5002, cp949: 0xdcb1},
		lookupItem{ucs2: 0x5006, cp949: 0xd5d6},
		lookupItem{ucs2: 0x5009, cp949: 0xf3da},
		lookupItem{ucs2: 0x500b, cp949: 0xcbc1},
		lookupItem{ucs2: 0x500d, cp949: 0xdbc3},
		lookupItem{ucs2: 0x5011, cp949: 0xd9fa},
		lookupItem{ucs2: 0x5012, cp949: 0xd3ee},
		lookupItem{ucs2: 0x5016, cp949: 0xfab8},
		lookupItem{ucs2: 0x5019, cp949: 0xfda6},
		lookupItem{ucs2: 0x501a, cp949: 0xebef},
		lookupItem{ucs2: 0x501c, cp949: 0xf4a6},
		lookupItem{ucs2: 0x501e, cp949: 0xccca},
		lookupItem{ucs2: 0x501f, cp949: 0xf3a8},
		lookupItem{ucs2: 0x5021, cp949: 0xf3db},
		lookupItem{ucs2: 0x5023, cp949: 0xdba7},
		lookupItem{ucs2: 0x5024, cp949: 0xf6b7},
		lookupItem{ucs2: 0x5026, cp949: 0xcfe6},
		lookupItem{ucs2: 0x5027, cp949: 0xf0f2},
		lookupItem{ucs2: 0x5028, cp949: 0xcbda},
		lookupItem{ucs2: 0x502a, cp949: 0xe7d2},
		lookupItem{ucs2: 0x502b, cp949: 0xd7c3},
		lookupItem{ucs2: 0x502c, cp949: 0xf6f0},
		lookupItem{ucs2: 0x502d, cp949: 0xe8de},
		lookupItem{ucs2: 0x503b, cp949: 0xe5a6},
		lookupItem{ucs2: 0x5043, cp949: 0xe5e7},
		lookupItem{ucs2: 0x5047, cp949: 0xcaa3},
		lookupItem{ucs2: 0x5048, cp949: 0xcca7},
		lookupItem{ucs2: 0x5049, cp949: 0xeac9},
		lookupItem{ucs2: 0x504f, cp949: 0xf8b6},
		lookupItem{ucs2: 0x5055, cp949: 0xfaa5},
		lookupItem{ucs2: 0x505a, cp949: 0xf1ae},
		lookupItem{ucs2: 0x505c, cp949: 0xefce},
		lookupItem{ucs2: 0x5065, cp949: 0xcbed},
		lookupItem{ucs2: 0x5074, cp949: 0xf6b0},
		lookupItem{ucs2: 0x5075, cp949: 0xefcf},
		lookupItem{ucs2: 0x5076, cp949: 0xe9cf},
		lookupItem{ucs2: 0x5078, cp949: 0xf7de},
		lookupItem{ucs2: 0x5080, cp949: 0xced3},
		lookupItem{ucs2: 0x5085, cp949: 0xdcf7},
		lookupItem{ucs2: 0x508d, cp949: 0xdba8},
		lookupItem{ucs2: 0x5091, cp949: 0xcbf8},
		lookupItem{ucs2: 0x5098, cp949: 0xdfa1},
		lookupItem{ucs2: 0x5099, cp949: 0xdde1},
		lookupItem{ucs2: 0x50ac, cp949: 0xf5ca},
		lookupItem{ucs2: 0x50ad, cp949: 0xe9b6},
		lookupItem{ucs2: 0x50b2, cp949: 0xe7ec},
		lookupItem{ucs2: 0x50b3, cp949: 0xeeee},
		lookupItem{ucs2: 0x50b5, cp949: 0xf3f0},
		lookupItem{ucs2: 0x50b7, cp949: 0xdfbf},
		lookupItem{ucs2: 0x50be, cp949: 0xcccb},
		lookupItem{ucs2: 0x50c5, cp949: 0xd0c1},
		lookupItem{ucs2: 0x50c9, cp949: 0xf4d2},
		lookupItem{ucs2: 0x50ca, cp949: 0xe0ba},
		lookupItem{ucs2: 0x50cf, cp949: 0xdfc0},
		lookupItem{ucs2: 0x50d1, cp949: 0xcee0},
		lookupItem{ucs2: 0x50d5, cp949: 0xdcd2},
		lookupItem{ucs2: 0x50d6, cp949: 0xfdea},
		lookupItem{ucs2: 0x50da, cp949: 0xd6f6},
		lookupItem{ucs2: 0x50de, cp949: 0xeaca},
		lookupItem{ucs2: 0x50e5, cp949: 0xe8e9},
		lookupItem{ucs2: 0x50e7, cp949: 0xe3ac},
		lookupItem{ucs2: 0x50ed, cp949: 0xf3d0},
		lookupItem{ucs2: 0x50f9, cp949: 0xcaa4},
		lookupItem{ucs2: 0x50fb, cp949: 0xdbf8},
		lookupItem{ucs2: 0x50ff, cp949: 0xdec7},
		lookupItem{ucs2: 0x5100, cp949: 0xebf0},
		lookupItem{ucs2: 0x5101, cp949: 0xf1d6},
		lookupItem{ucs2: 0x5104, cp949: 0xe5e2},
		lookupItem{ucs2: 0x5106, cp949: 0xcccc},
		lookupItem{ucs2: 0x5109, cp949: 0xcbfb},
		lookupItem{ucs2: 0x5112, cp949: 0xeae3},
		lookupItem{ucs2: 0x511f, cp949: 0xdfc1},
		lookupItem{ucs2: 0x5121, cp949: 0xd6ed},
		lookupItem{ucs2: 0x512a, cp949: 0xe9d0},
		lookupItem{ucs2: 0x5132, cp949: 0xeeb9},
		lookupItem{ucs2: 0x5137, cp949: 0xd5e3},
		lookupItem{ucs2: 0x513a, cp949: 0xd1d3},
		lookupItem{ucs2: 0x513c, cp949: 0xe5f0},
		lookupItem{ucs2: 0x5140, cp949: 0xe8b4},
		lookupItem{ucs2: 0x5141, cp949: 0xebc3},
		lookupItem{ucs2: 0x5143, cp949: 0xeaaa},
		lookupItem{ucs2: 0x5144, cp949: 0xfafc},
		lookupItem{ucs2: 0x5145, cp949: 0xf5f6},
		lookupItem{ucs2: 0x5146, cp949: 0xf0bc},
		lookupItem{ucs2: 0x5147, cp949: 0xfdd4},
		lookupItem{ucs2: 0x5148, cp949: 0xe0bb},
		lookupItem{ucs2: 0x5149, cp949: 0xcec3},
		lookupItem{ucs2: 0x514b, cp949: 0xd0ba},
		lookupItem{ucs2: 0x514c, cp949: 0xf7ba},
		lookupItem{ucs2: 0x514d, cp949: 0xd8f3},
		lookupItem{ucs2: 0x514e, cp949: 0xf7cd},
		lookupItem{ucs2: 0x5152, cp949: 0xe4ae},
		lookupItem{ucs2: 0x515c, cp949: 0xd4df},
		lookupItem{ucs2: 0x5162, cp949: 0xd0e7},
		lookupItem{ucs2: 0x5165, cp949: 0xecfd},
		lookupItem{ucs2: 0x5167, cp949: 0xd2ae},
		lookupItem{ucs2: 0x5168, cp949: 0xeeef},
		lookupItem{ucs2: 0x5169, cp949: 0xd5d7},
		lookupItem{ucs2: 0x516a, cp949: 0xeae4},
		lookupItem{ucs2: 0x516b, cp949: 0xf8a2},
		lookupItem{ucs2: 0x516c, cp949: 0xcdeb},
		lookupItem{ucs2: 0x516d, cp949: 0xd7bf},
		lookupItem{ucs2: 0x516e, cp949: 0xfbb1},
		lookupItem{ucs2: 0x5171, cp949: 0xcdec},
		lookupItem{ucs2: 0x5175, cp949: 0xdcb2},
		lookupItem{ucs2: 0x5176, cp949: 0xd0ec},
		lookupItem{ucs2: 0x5177, cp949: 0xcefd},
		lookupItem{ucs2: 0x5178, cp949: 0xeef0},
		lookupItem{ucs2: 0x517c, cp949: 0xccc2},
		lookupItem{ucs2: 0x5180, cp949: 0xd0ed},
		lookupItem{ucs2: 0x5186, cp949: 0xe5f7},
		lookupItem{ucs2: 0x518a, cp949: 0xf3fc},
		lookupItem{ucs2: 0x518d, cp949: 0xeea2},
		lookupItem{ucs2: 0x5192, cp949: 0xd9b3},
		lookupItem{ucs2: 0x5195, cp949: 0xd8f4},
		lookupItem{ucs2: 0x5197, cp949: 0xe9b7},
		lookupItem{ucs2: 0x51a0, cp949: 0xceae},
		lookupItem{ucs2: 0x51a5, cp949: 0xd9a2},
		lookupItem{ucs2: 0x51aa, cp949: 0xd8f1},
		lookupItem{ucs2: 0x51ac, cp949: 0xd4cf},
		lookupItem{ucs2: 0x51b6, cp949: 0xe5a7},
		lookupItem{ucs2: 0x51b7, cp949: 0xd5d2},
		lookupItem{ucs2: 0x51bd, cp949: 0xd6a9},
		lookupItem{ucs2: 0x51c4, cp949: 0xf4a2},
		lookupItem{ucs2: 0x51c6, cp949: 0xf1d7},
		lookupItem{ucs2: 0x51c9, cp949: 0xd5d8},
		lookupItem{ucs2: 0x51cb, cp949: 0xf0bd},
		lookupItem{ucs2: 0x51cc, cp949: 0xd7d0},
		lookupItem{ucs2: 0x51cd, cp949: 0xd4d0},
		lookupItem{ucs2: 0x51dc, cp949: 0xd7cf},
		lookupItem{ucs2: 0x51dd, cp949: 0xebea},
		lookupItem{ucs2: 0x51de, cp949: 0xfdeb},
		lookupItem{ucs2: 0x51e1, cp949: 0xdbed},
		lookupItem{ucs2: 0x51f0, cp949: 0xfcc5},
		lookupItem{ucs2: 0x51f1, cp949: 0xcbc2},
		lookupItem{ucs2: 0x51f6, cp949: 0xfdd5},
		lookupItem{ucs2: 0x51f8, cp949: 0xf4c8},
		lookupItem{ucs2: 0x51f9, cp949: 0xe8ea},
		lookupItem{ucs2: 0x51fa, cp949: 0xf5f3},
		lookupItem{ucs2: 0x51fd, cp949: 0xf9de},
		lookupItem{ucs2: 0x5200, cp949: 0xd3ef},
		lookupItem{ucs2: 0x5203, cp949: 0xecd3},
		lookupItem{ucs2: 0x5206, cp949: 0xddc2},
		lookupItem{ucs2: 0x5207, cp949: 0xefb7},
		lookupItem{ucs2: 0x5208, cp949: 0xe7d4},
		lookupItem{ucs2: 0x520a, cp949: 0xcaca},
		lookupItem{ucs2: 0x520e, cp949: 0xd9fb},
		lookupItem{ucs2: 0x5211, cp949: 0xfafd},
		lookupItem{ucs2: 0x5217, cp949: 0xd6aa},
		lookupItem{ucs2: 0x521d, cp949: 0xf4f8},
		lookupItem{ucs2: 0x5224, cp949: 0xf7f7},
		lookupItem{ucs2: 0x5225, cp949: 0xdcac},
		lookupItem{ucs2: 0x5229, cp949: 0xd7d7},
		lookupItem{ucs2: 0x522a, cp949: 0xdfa2},
		lookupItem{ucs2: 0x522e, cp949: 0xcebe},
		lookupItem{ucs2: 0x5230, cp949: 0xd3f0},
		lookupItem{ucs2: 0x5236, cp949: 0xf0a4},
		lookupItem{ucs2: 0x5237, cp949: 0xe1ec},
		lookupItem{ucs2: 0x5238, cp949: 0xcfe7},
		lookupItem{ucs2: 0x5239, cp949: 0xf3cb},
		lookupItem{ucs2: 0x523a, cp949: 0xeda9},
		lookupItem{ucs2: 0x523b, cp949: 0xcabe},
		lookupItem{ucs2: 0x5243, cp949: 0xf4ef},
		lookupItem{ucs2: 0x5247, cp949: 0xf6ce},
		lookupItem{ucs2: 0x524a, cp949: 0xdefb},
		lookupItem{ucs2: 0x524b, cp949: 0xd0bb},
		lookupItem{ucs2: 0x524c, cp949: 0xd5b7},
		lookupItem{ucs2: 0x524d, cp949: 0xeef1},
		lookupItem{ucs2: 0x5254, cp949: 0xf4a8},
		lookupItem{ucs2: 0x5256, cp949: 0xdcf8},
		lookupItem{ucs2: 0x525b, cp949: 0xcba7},
		lookupItem{ucs2: 0x525d, cp949: 0xdace},
		lookupItem{ucs2: 0x5261, cp949: 0xe0e6},
		lookupItem{ucs2: 0x5269, cp949: 0xeda5},
		lookupItem{ucs2: 0x526a, cp949: 0xeef2},
		lookupItem{ucs2: 0x526f, cp949: 0xdcf9},
		lookupItem{ucs2: 0x5272, cp949: 0xf9dc},
		lookupItem{ucs2: 0x5275, cp949: 0xf3dc},
		lookupItem{ucs2: 0x527d, cp949: 0xf8f2},
		lookupItem{ucs2: 0x527f, cp949: 0xf4f9},
		lookupItem{ucs2: 0x5283, cp949: 0xfcf1},
		lookupItem{ucs2: 0x5287, cp949: 0xd0bc},
		lookupItem{ucs2: 0x5288, cp949: 0xdbf9},
		lookupItem{ucs2: 0x5289, cp949: 0xd7b1},
		lookupItem{ucs2: 0x528d, cp949: 0xcbfc},
		lookupItem{ucs2: 0x5291, cp949: 0xf0a5},
".
Definition text_cp949_lookup_to_005 : string :=
"		lookupItem{ucs2: 0x5292, cp949: 0xcbfd},
		lookupItem{ucs2: 0x529b, cp949: 0xd5f4},
		lookupItem{ucs2: 0x529f, cp949: 0xcded},
		lookupItem{ucs2: 0x52a0, cp949: 0xcaa5},
		lookupItem{ucs2: 0x52a3, cp949: 0xd6ab},
		lookupItem{ucs2: 0x52a4, cp949: 0xd0c2},
		lookupItem{ucs2: 0x52a9, cp949: 0xf0be},
		lookupItem{ucs2: 0x52aa, cp949: 0xd2bd},
		lookupItem{ucs2: 0x52ab, cp949: 0xcca4},
		lookupItem{ucs2: 0x52be, cp949: 0xfab6},
		lookupItem{ucs2: 0x52c1, cp949: 0xcccd},
		lookupItem{ucs2: 0x52c3, cp949: 0xdafa},
		lookupItem{ucs2: 0x52c5, cp949: 0xf6cf},
		lookupItem{ucs2: 0x52c7, cp949: 0xe9b8},
		lookupItem{ucs2: 0x52c9, cp949: 0xd8f5},
		lookupItem{ucs2: 0x52cd, cp949: 0xccce},
		lookupItem{ucs2: 0x52d2, cp949: 0xd7cd},
		lookupItem{ucs2: 0x52d5, cp949: 0xd4d1},
		lookupItem{ucs2: 0x52d6, cp949: 0xe9ed},
		lookupItem{ucs2: 0x52d8, cp949: 0xcaeb},
		lookupItem{ucs2: 0x52d9, cp949: 0xd9e2},
		lookupItem{ucs2: 0x52db, cp949: 0xfdb2},
		lookupItem{ucs2: 0x52dd, cp949: 0xe3ad},
		lookupItem{ucs2: 0x52de, cp949: 0xd6cc},
		lookupItem{ucs2: 0x52df, cp949: 0xd9b4},
		lookupItem{ucs2: 0x52e2, cp949: 0xe1a7},
		lookupItem{ucs2: 0x52e3, cp949: 0xeed3},
		lookupItem{ucs2: 0x52e4, cp949: 0xd0c3},
		lookupItem{ucs2: 0x52f3, cp949: 0xfdb3},
		lookupItem{ucs2: 0x52f5, cp949: 0xd5e4},
		lookupItem{ucs2: 0x52f8, cp949: 0xcfe8},
		lookupItem{ucs2: 0x52fa, cp949: 0xedc3},
		lookupItem{ucs2: 0x52fb, cp949: 0xd0b2},
		lookupItem{ucs2: 0x52fe, cp949: 0xcefe},
		lookupItem{ucs2: 0x52ff, cp949: 0xdaa8},
		lookupItem{ucs2: 0x5305, cp949: 0xf8d0},
		lookupItem{ucs2: 0x5308, cp949: 0xfdd6},
		lookupItem{ucs2: 0x530d, cp949: 0xf8d1},
		lookupItem{ucs2: 0x530f, cp949: 0xf8d2},
		lookupItem{ucs2: 0x5310, cp949: 0xdcd3},
		lookupItem{ucs2: 0x5315, cp949: 0xdde2},
		lookupItem{ucs2: 0x5316, cp949: 0xfbf9},
		lookupItem{ucs2: 0x5317, cp949: 0xddc1},
		lookupItem{ucs2: 0x5319, cp949: 0xe3b5},
		lookupItem{ucs2: 0x5320, cp949: 0xeddd},
		lookupItem{ucs2: 0x5321, cp949: 0xcec4},
		lookupItem{ucs2: 0x5323, cp949: 0xcba1},
		lookupItem{ucs2: 0x532a, cp949: 0xdde3},
		lookupItem{ucs2: 0x532f, cp949: 0xfcdd},
		lookupItem{ucs2: 0x5339, cp949: 0xf9af},
		lookupItem{ucs2: 0x533f, cp949: 0xd2fb},
		lookupItem{ucs2: 0x5340, cp949: 0xcfa1},
		lookupItem{ucs2: 0x5341, cp949: 0xe4a8},
		lookupItem{ucs2: 0x5343, cp949: 0xf4b6},
		lookupItem{ucs2: 0x5344, cp949: 0xecfe},
		lookupItem{ucs2: 0x5347, cp949: 0xe3ae},
		lookupItem{ucs2: 0x5348, cp949: 0xe7ed},
		lookupItem{ucs2: 0x5349, cp949: 0xfdc1},
		lookupItem{ucs2: 0x534a, cp949: 0xdae2},
		lookupItem{ucs2: 0x534d, cp949: 0xd8b3},
		lookupItem{ucs2: 0x5351, cp949: 0xdde4},
		lookupItem{ucs2: 0x5352, cp949: 0xf0ef},
		lookupItem{ucs2: 0x5353, cp949: 0xf6f1},
		lookupItem{ucs2: 0x5354, cp949: 0xfaf0},
		lookupItem{ucs2: 0x5357, cp949: 0xd1f5},
		lookupItem{ucs2: 0x535a, cp949: 0xdacf},
		lookupItem{ucs2: 0x535c, cp949: 0xdcd4},
		lookupItem{ucs2: 0x535e, cp949: 0xdca6},
		lookupItem{ucs2: 0x5360, cp949: 0xefbf},
		lookupItem{ucs2: 0x5366, cp949: 0xcecf},
		lookupItem{ucs2: 0x5368, cp949: 0xe0d9},
		lookupItem{ucs2: 0x536f, cp949: 0xd9d6},
		lookupItem{ucs2: 0x5370, cp949: 0xecd4},
		lookupItem{ucs2: 0x5371, cp949: 0xeacb},
		lookupItem{ucs2: 0x5374, cp949: 0xcabf},
		lookupItem{ucs2: 0x5375, cp949: 0xd5b0},
		lookupItem{ucs2: 0x5377, cp949: 0xcfe9},
		lookupItem{ucs2: 0x537d, cp949: 0xf1ed},
		lookupItem{ucs2: 0x537f, cp949: 0xcccf},
		lookupItem{ucs2: 0x5384, cp949: 0xe4f8},
		lookupItem{ucs2: 0x5393, cp949: 0xe4ed},
		lookupItem{ucs2: 0x5398, cp949: 0xd7d8},
		lookupItem{ucs2: 0x539a, cp949: 0xfda7},
		lookupItem{ucs2: 0x539f, cp949: 0xeaab},
		lookupItem{ucs2: 0x53a0, cp949: 0xf6b2},
		lookupItem{ucs2: 0x53a5, cp949: 0xcff0},
		lookupItem{ucs2: 0x53a6, cp949: 0xf9bd},
		lookupItem{ucs2: 0x53ad, cp949: 0xe6f4},
		lookupItem{ucs2: 0x53bb, cp949: 0xcbdb},
		lookupItem{ucs2: 0x53c3, cp949: 0xf3d1},
		lookupItem{ucs2: 0x53c8, cp949: 0xe9d1},
		lookupItem{ucs2: 0x53c9, cp949: 0xf3a9},
		lookupItem{ucs2: 0x53ca, cp949: 0xd0e0},
		lookupItem{ucs2: 0x53cb, cp949: 0xe9d2},
		lookupItem{ucs2: 0x53cd, cp949: 0xdae3},
		lookupItem{ucs2: 0x53d4, cp949: 0xe2d2},
		lookupItem{ucs2: 0x53d6, cp949: 0xf6a2},
		lookupItem{ucs2: 0x53d7, cp949: 0xe1f4},
		lookupItem{ucs2: 0x53db, cp949: 0xdae4},
		lookupItem{ucs2: 0x53e1, cp949: 0xe7d5},
		lookupItem{ucs2: 0x53e2, cp949: 0xf5bf},
		lookupItem{ucs2: 0x53e3, cp949: 0xcfa2},
		lookupItem{ucs2: 0x53e4, cp949: 0xcdaf},
		lookupItem{ucs2: 0x53e5, cp949: 0xcfa3},
		lookupItem{ucs2: 0x53e9, cp949: 0xcdb0},
		lookupItem{ucs2: 0x53ea, cp949: 0xf1fe},
		lookupItem{ucs2: 0x53eb, cp949: 0xd0a3},
		lookupItem{ucs2: 0x53ec, cp949: 0xe1af},
		lookupItem{ucs2: 0x53ed, cp949: 0xf8a3},
		lookupItem{ucs2: 0x53ef, cp949: 0xcaa6},
		lookupItem{ucs2: 0x53f0, cp949: 0xf7bb},
		lookupItem{ucs2: 0x53f1, cp949: 0xf2ea},
		lookupItem{ucs2: 0x53f2, cp949: 0xdec8},
		lookupItem{ucs2: 0x53f3, cp949: 0xe9d3},
		lookupItem{ucs2: 0x53f8, cp949: 0xdec9},
		lookupItem{ucs2: 0x5403, cp949: 0xfdde},
		lookupItem{ucs2: 0x5404, cp949: 0xcac0},
		lookupItem{ucs2: 0x5408, cp949: 0xf9ea},
		lookupItem{ucs2: 0x5409, cp949: 0xd1ce},
		lookupItem{ucs2: 0x540a, cp949: 0xeed4},
		lookupItem{ucs2: 0x540c, cp949: 0xd4d2},
		lookupItem{ucs2: 0x540d, cp949: 0xd9a3},
		lookupItem{ucs2: 0x540e, cp949: 0xfda8},
		lookupItem{ucs2: 0x540f, cp949: 0xd7d9},
		lookupItem{ucs2: 0x5410, cp949: 0xf7ce},
		lookupItem{ucs2: 0x5411, cp949: 0xfabe},
		lookupItem{ucs2: 0x541b, cp949: 0xcfd6},
		lookupItem{ucs2: 0x541d, cp949: 0xd7f0},
		lookupItem{ucs2: 0x541f, cp949: 0xebe1},
		lookupItem{ucs2: 0x5420, cp949: 0xf8c5},
		lookupItem{ucs2: 0x5426, cp949: 0xdcfa},
		lookupItem{ucs2: 0x5429, cp949: 0xddc3},
		lookupItem{ucs2: 0x542b, cp949: 0xf9df},
		lookupItem{ucs2: 0x5433, cp949: 0xe7ef},
		lookupItem{ucs2: 0x5438, cp949: 0xfde5},
		lookupItem{ucs2: 0x5439, cp949: 0xf6a3},
		lookupItem{ucs2: 0x543b, cp949: 0xd9fc},
		lookupItem{ucs2: 0x543c, cp949: 0xfda9},
		lookupItem{ucs2: 0x543e, cp949: 0xe7ee},
		lookupItem{ucs2: 0x5442, cp949: 0xd5e5},
		lookupItem{ucs2: 0x5448, cp949: 0xefd0},
		lookupItem{ucs2: 0x544a, cp949: 0xcdb1},
		lookupItem{ucs2: 0x5451, cp949: 0xf7a2},
		lookupItem{ucs2: 0x5468, cp949: 0xf1b2},
		lookupItem{ucs2: 0x546a, cp949: 0xf1b1},
		lookupItem{ucs2: 0x5471, cp949: 0xcdb2},
		lookupItem{ucs2: 0x5473, cp949: 0xdaab},
		lookupItem{ucs2: 0x5475, cp949: 0xcaa7},
		lookupItem{ucs2: 0x547b, cp949: 0xe3e2},
		lookupItem{ucs2: 0x547c, cp949: 0xfbbc},
		lookupItem{ucs2: 0x547d, cp949: 0xd9a4},
		lookupItem{ucs2: 0x5480, cp949: 0xeeba},
		lookupItem{ucs2: 0x5486, cp949: 0xf8d3},
		lookupItem{ucs2: 0x548c, cp949: 0xfbfa},
		lookupItem{ucs2: 0x548e, cp949: 0xcfa4},
		lookupItem{ucs2: 0x5490, cp949: 0xdcfb},
		lookupItem{ucs2: 0x54a4, cp949: 0xf6e3},
		lookupItem{ucs2: 0x54a8, cp949: 0xedaa},
		lookupItem{ucs2: 0x54ab, cp949: 0xf2a1},
		lookupItem{ucs2: 0x54ac, cp949: 0xcee1},
		lookupItem{ucs2: 0x54b3, cp949: 0xfaa6},
		lookupItem{ucs2: 0x54b8, cp949: 0xf9e0},
		lookupItem{ucs2: 0x54bd, cp949: 0xecd6},
		lookupItem{ucs2: 0x54c0, cp949: 0xe4ee},
		lookupItem{ucs2: 0x54c1, cp949: 0xf9a1},
		lookupItem{ucs2: 0x54c4, cp949: 0xfbef},
		lookupItem{ucs2: 0x54c8, cp949: 0xf9eb},
		lookupItem{ucs2: 0x54c9, cp949: 0xeea3},
		lookupItem{ucs2: 0x54e1, cp949: 0xeaac},
		lookupItem{ucs2: 0x54e5, cp949: 0xcaa8},
		lookupItem{ucs2: 0x54e8, cp949: 0xf4fa},
		lookupItem{ucs2: 0x54ed, cp949: 0xcdd6},
		lookupItem{ucs2: 0x54ee, cp949: 0xfcf6},
		lookupItem{ucs2: 0x54f2, cp949: 0xf4c9},
		lookupItem{ucs2: 0x54fa, cp949: 0xf8d4},
		lookupItem{ucs2: 0x5504, cp949: 0xf8a6},
		lookupItem{ucs2: 0x5506, cp949: 0xdeca},
		lookupItem{ucs2: 0x5507, cp949: 0xf2c6},
		lookupItem{ucs2: 0x550e, cp949: 0xd7da},
		lookupItem{ucs2: 0x5510, cp949: 0xd3d0},
		lookupItem{ucs2: 0x551c, cp949: 0xd8c5},
		lookupItem{ucs2: 0x552f, cp949: 0xeae6},
		lookupItem{ucs2: 0x5531, cp949: 0xf3dd},
		lookupItem{ucs2: 0x5535, cp949: 0xe4da},
		lookupItem{ucs2: 0x553e, cp949: 0xf6e4},
		lookupItem{ucs2: 0x5544, cp949: 0xf6f2},
		lookupItem{ucs2: 0x5546, cp949: 0xdfc2},
		lookupItem{ucs2: 0x554f, cp949: 0xd9fd},
		lookupItem{ucs2: 0x5553, cp949: 0xccf6},
		lookupItem{ucs2: 0x5556, cp949: 0xd3ba},
		lookupItem{ucs2: 0x555e, cp949: 0xe4af},
		lookupItem{ucs2: 0x5563, cp949: 0xf9e1},
		lookupItem{ucs2: 0x557c, cp949: 0xf0a6},
		lookupItem{ucs2: 0x5580, cp949: 0xcbd3},
		lookupItem{ucs2: 0x5584, cp949: 0xe0bc},
		lookupItem{ucs2: 0x5586, cp949: 0xf4ca},
		lookupItem{ucs2: 0x5587, cp949: 0xd4fa},
		lookupItem{ucs2: 0x5589, cp949: 0xfdaa},
		lookupItem{ucs2: 0x558a, cp949: 0xf9e2},
		lookupItem{ucs2: 0x5598, cp949: 0xf4b7},
		lookupItem{ucs2: 0x5599, cp949: 0xfdc2},
		lookupItem{ucs2: 0x559a, cp949: 0xfcb0},
		lookupItem{ucs2: 0x559c, cp949: 0xfdec},
		lookupItem{ucs2: 0x559d, cp949: 0xcae2},
		lookupItem{ucs2: 0x55a7, cp949: 0xfdbd},
		lookupItem{ucs2: 0x55a9, cp949: 0xeae7},
		lookupItem{ucs2: 0x55aa, cp949: 0xdfc3},
		lookupItem{ucs2: 0x55ab, cp949: 0xd1d2},
		lookupItem{ucs2: 0x55ac, cp949: 0xcee2},
		lookupItem{ucs2: 0x55ae, cp949: 0xd3a4},
		lookupItem{ucs2: 0x55c5, cp949: 0xfdab},
		lookupItem{ucs2: 0x55c7, cp949: 0xdfe0},
		lookupItem{ucs2: 0x55d4, cp949: 0xf2c7},
		lookupItem{ucs2: 0x55da, cp949: 0xe7f0},
		lookupItem{ucs2: 0x55dc, cp949: 0xd0ee},
		lookupItem{ucs2: 0x55df, cp949: 0xf3aa},
		lookupItem{ucs2: 0x55e3, cp949: 0xdecb},
		lookupItem{ucs2: 0x55e4, cp949: 0xf6b8},
		lookupItem{ucs2: 0x55fd, cp949: 0xe1f5},
		lookupItem{ucs2: 0x55fe, cp949: 0xf1b3},
		lookupItem{ucs2: 0x5606, cp949: 0xf7a3},
		lookupItem{ucs2: 0x5609, cp949: 0xcaa9},
		lookupItem{ucs2: 0x5614, cp949: 0xcfa5},
		lookupItem{ucs2: 0x5617, cp949: 0xdfc4},
		lookupItem{ucs2: 0x562f, cp949: 0xe1b0},
		lookupItem{ucs2: 0x5632, cp949: 0xf0bf},
		lookupItem{ucs2: 0x5634, cp949: 0xf6a4},
		lookupItem{ucs2: 0x5636, cp949: 0xe3b6},
		lookupItem{ucs2: 0x5653, cp949: 0xfac6},
		lookupItem{ucs2: 0x5668, cp949: 0xd0ef},
		lookupItem{ucs2: 0x566b, cp949: 0xfded},
		lookupItem{ucs2: 0x5674, cp949: 0xddc4},
		lookupItem{ucs2: 0x5686, cp949: 0xfcf7},
		lookupItem{ucs2: 0x56a5, cp949: 0xe6bf},
		lookupItem{ucs2: 0x56ac, cp949: 0xdead},
		lookupItem{ucs2: 0x56ae, cp949: 0xfabf},
		lookupItem{ucs2: 0x56b4, cp949: 0xe5f1},
		lookupItem{ucs2: 0x56bc, cp949: 0xedc4},
		lookupItem{ucs2: 0x56ca, cp949: 0xd2a5},
		lookupItem{ucs2: 0x56cd, cp949: 0xfdee},
		lookupItem{ucs2: 0x56d1, cp949: 0xf5b6},
		lookupItem{ucs2: 0x56da, cp949: 0xe1f6},
		lookupItem{ucs2: 0x56db, cp949: 0xdecc},
		lookupItem{ucs2: 0x56de, cp949: 0xfcde},
		lookupItem{ucs2: 0x56e0, cp949: 0xecd7},
		lookupItem{ucs2: 0x56f0, cp949: 0xcddd},
		lookupItem{ucs2: 0x56f9, cp949: 0xd6b7},
		lookupItem{ucs2: 0x56fa, cp949: 0xcdb3},
		lookupItem{ucs2: 0x5703, cp949: 0xf8d5},
		lookupItem{ucs2: 0x5704, cp949: 0xe5d8},
".
Definition text_cp949_lookup_to_006 : string :=
"		lookupItem{ucs2: 0x5708, cp949: 0xcfea},
		lookupItem{ucs2: 0x570b, cp949: 0xcfd0},
		lookupItem{ucs2: 0x570d, cp949: 0xeacc},
		lookupItem{ucs2: 0x5712, cp949: 0xeaae},
		lookupItem{ucs2: 0x5713, cp949: 0xeaad},
		lookupItem{ucs2: 0x5716, cp949: 0xd3f1},
		lookupItem{ucs2: 0x5718, cp949: 0xd3a5},
		lookupItem{ucs2: 0x571f, cp949: 0xf7cf},
		lookupItem{ucs2: 0x5728, cp949: 0xeea4},
		lookupItem{ucs2: 0x572d, cp949: 0xd0a4},
		lookupItem{ucs2: 0x5730, cp949: 0xf2a2},
		lookupItem{ucs2: 0x573b, cp949: 0xd0f0},
		lookupItem{ucs2: 0x5740, cp949: 0xf2a3},
		lookupItem{ucs2: 0x5742, cp949: 0xf7f8},
		lookupItem{ucs2: 0x5747, cp949: 0xd0b3},
		lookupItem{ucs2: 0x574a, cp949: 0xdba9},
		lookupItem{ucs2: 0x574d, cp949: 0xd3bb},
		lookupItem{ucs2: 0x574e, cp949: 0xcaec},
		lookupItem{ucs2: 0x5750, cp949: 0xf1a6},
		lookupItem{ucs2: 0x5751, cp949: 0xcbd5},
		lookupItem{ucs2: 0x5761, cp949: 0xf7e7},
		lookupItem{ucs2: 0x5764, cp949: 0xcdde},
		lookupItem{ucs2: 0x5766, cp949: 0xf7a4},
		lookupItem{ucs2: 0x576a, cp949: 0xf8c0},
		lookupItem{ucs2: 0x576e, cp949: 0xd3dd},
		lookupItem{ucs2: 0x5770, cp949: 0xccd0},
		lookupItem{ucs2: 0x5775, cp949: 0xcfa6},
		lookupItem{ucs2: 0x577c, cp949: 0xf6f3},
		lookupItem{ucs2: 0x5782, cp949: 0xe1f7},
		lookupItem{ucs2: 0x5788, cp949: 0xd3dc},
		lookupItem{ucs2: 0x578b, cp949: 0xfafe},
		lookupItem{ucs2: 0x5793, cp949: 0xfaa7},
		lookupItem{ucs2: 0x57a0, cp949: 0xebd9},
		lookupItem{ucs2: 0x57a2, cp949: 0xcfa7},
		lookupItem{ucs2: 0x57a3, cp949: 0xeaaf},
		lookupItem{ucs2: 0x57c3, cp949: 0xe4ef},
		lookupItem{ucs2: 0x57c7, cp949: 0xe9b9},
		lookupItem{ucs2: 0x57c8, cp949: 0xf1d8},
		lookupItem{ucs2: 0x57cb, cp949: 0xd8d8},
		lookupItem{ucs2: 0x57ce, cp949: 0xe0f2},
		lookupItem{ucs2: 0x57df, cp949: 0xe6b4},
		lookupItem{ucs2: 0x57e0, cp949: 0xdcfc},
		lookupItem{ucs2: 0x57f0, cp949: 0xf3f1},
		lookupItem{ucs2: 0x57f4, cp949: 0xe3d0},
		lookupItem{ucs2: 0x57f7, cp949: 0xf2fb},
		lookupItem{ucs2: 0x57f9, cp949: 0xdbc6},
		lookupItem{ucs2: 0x57fa, cp949: 0xd0f1},
		lookupItem{ucs2: 0x57fc, cp949: 0xd0f2},
		lookupItem{ucs2: 0x5800, cp949: 0xcfdc},
		lookupItem{ucs2: 0x5802, cp949: 0xd3d1},
		lookupItem{ucs2: 0x5805, cp949: 0xccb1},
		lookupItem{ucs2: 0x5806, cp949: 0xf7d8},
		lookupItem{ucs2: 0x5808, cp949: 0xcba8},
		lookupItem{ucs2: 0x5809, cp949: 0xebbc},
		lookupItem{ucs2: 0x580a, cp949: 0xe4be},
		lookupItem{ucs2: 0x581e, cp949: 0xf4dc},
		lookupItem{ucs2: 0x5821, cp949: 0xdcc2},
		lookupItem{ucs2: 0x5824, cp949: 0xf0a7},
		lookupItem{ucs2: 0x5827, cp949: 0xe6c0},
		lookupItem{ucs2: 0x582a, cp949: 0xcaed},
		lookupItem{ucs2: 0x582f, cp949: 0xe8eb},
		lookupItem{ucs2: 0x5830, cp949: 0xe5e8},
		lookupItem{ucs2: 0x5831, cp949: 0xdcc3},
		lookupItem{ucs2: 0x5834, cp949: 0xedde},
		lookupItem{ucs2: 0x5835, cp949: 0xd3f2},
		lookupItem{ucs2: 0x583a, cp949: 0xccf7},
		lookupItem{ucs2: 0x584a, cp949: 0xced4},
		lookupItem{ucs2: 0x584b, cp949: 0xe7ab},
		lookupItem{ucs2: 0x584f, cp949: 0xcbc3},
		lookupItem{ucs2: 0x5851, cp949: 0xe1b1},
		lookupItem{ucs2: 0x5854, cp949: 0xf7b2},
		lookupItem{ucs2: 0x5857, cp949: 0xd3f3},
		lookupItem{ucs2: 0x5858, cp949: 0xd3d2},
		lookupItem{ucs2: 0x585a, cp949: 0xf5c0},
		lookupItem{ucs2: 0x585e, cp949: 0xdfdd},
		lookupItem{ucs2: 0x5861, cp949: 0xeef3},
		lookupItem{ucs2: 0x5862, cp949: 0xe7f1},
		lookupItem{ucs2: 0x5864, cp949: 0xfdb4},
		lookupItem{ucs2: 0x5875, cp949: 0xf2c8},
		lookupItem{ucs2: 0x5879, cp949: 0xf3d2},
		lookupItem{ucs2: 0x587c, cp949: 0xeef4},
		lookupItem{ucs2: 0x587e, cp949: 0xe2d3},
		lookupItem{ucs2: 0x5883, cp949: 0xccd1},
		lookupItem{ucs2: 0x5885, cp949: 0xdfea},
		lookupItem{ucs2: 0x5889, cp949: 0xe9ba},
		lookupItem{ucs2: 0x5893, cp949: 0xd9d7},
		lookupItem{ucs2: 0x589c, cp949: 0xf5cd},
		lookupItem{ucs2: 0x589e, cp949: 0xf1f2},
		lookupItem{ucs2: 0x589f, cp949: 0xfac7},
		lookupItem{ucs2: 0x58a8, cp949: 0xd9f8},
		lookupItem{ucs2: 0x58a9, cp949: 0xd4c2},
		lookupItem{ucs2: 0x58ae, cp949: 0xf6e5},
		lookupItem{ucs2: 0x58b3, cp949: 0xddc5},
		lookupItem{ucs2: 0x58ba, cp949: 0xe7f2},
		lookupItem{ucs2: 0x58bb, cp949: 0xeddf},
		lookupItem{ucs2: 0x58be, cp949: 0xcacb},
		lookupItem{ucs2: 0x58c1, cp949: 0xdbfa},
		lookupItem{ucs2: 0x58c5, cp949: 0xe8b5},
		lookupItem{ucs2: 0x58c7, cp949: 0xd3a6},
		lookupItem{ucs2: 0x58ce, cp949: 0xfdb5},
		lookupItem{ucs2: 0x58d1, cp949: 0xf9c9},
		lookupItem{ucs2: 0x58d3, cp949: 0xe4e2},
		lookupItem{ucs2: 0x58d5, cp949: 0xfbbd},
		lookupItem{ucs2: 0x58d8, cp949: 0xd7a4},
		lookupItem{ucs2: 0x58d9, cp949: 0xcec5},
		lookupItem{ucs2: 0x58de, cp949: 0xced5},
		lookupItem{ucs2: 0x58df, cp949: 0xd6e6},
		lookupItem{ucs2: 0x58e4, cp949: 0xe5bd},
		lookupItem{ucs2: 0x58eb, cp949: 0xdecd},
		lookupItem{ucs2: 0x58ec, cp949: 0xecf3},
		lookupItem{ucs2: 0x58ef, cp949: 0xede0},
		lookupItem{ucs2: 0x58f9, cp949: 0xecec},
		lookupItem{ucs2: 0x58fa, cp949: 0xfbbe},
		lookupItem{ucs2: 0x58fb, cp949: 0xdfeb},
		lookupItem{ucs2: 0x58fd, cp949: 0xe1f8},
		lookupItem{ucs2: 0x590f, cp949: 0xf9be},
		lookupItem{ucs2: 0x5914, cp949: 0xd0f3},
		lookupItem{ucs2: 0x5915, cp949: 0xe0aa},
		lookupItem{ucs2: 0x5916, cp949: 0xe8e2},
		lookupItem{ucs2: 0x5919, cp949: 0xe2d4},
		lookupItem{ucs2: 0x591a, cp949: 0xd2fd},
		lookupItem{ucs2: 0x591c, cp949: 0xe5a8},
		lookupItem{ucs2: 0x5922, cp949: 0xd9d3},
		lookupItem{ucs2: 0x5927, cp949: 0xd3de},
		lookupItem{ucs2: 0x5929, cp949: 0xf4b8},
		lookupItem{ucs2: 0x592a, cp949: 0xf7bc},
		lookupItem{ucs2: 0x592b, cp949: 0xdcfd},
		lookupItem{ucs2: 0x592d, cp949: 0xe8ec},
		lookupItem{ucs2: 0x592e, cp949: 0xe4e7},
		lookupItem{ucs2: 0x5931, cp949: 0xe3f7},
		lookupItem{ucs2: 0x5937, cp949: 0xeca8},
		lookupItem{ucs2: 0x593e, cp949: 0xfaf1},
		lookupItem{ucs2: 0x5944, cp949: 0xe5f2},
		lookupItem{ucs2: 0x5947, cp949: 0xd0f4},
		lookupItem{ucs2: 0x5948, cp949: 0xd2af},
		lookupItem{ucs2: 0x5949, cp949: 0xdce5},
		lookupItem{ucs2: 0x594e, cp949: 0xd0a5},
		lookupItem{ucs2: 0x594f, cp949: 0xf1b4},
		lookupItem{ucs2: 0x5950, cp949: 0xfcb1},
		lookupItem{ucs2: 0x5951, cp949: 0xccf8},
		lookupItem{ucs2: 0x5954, cp949: 0xddc6},
		lookupItem{ucs2: 0x5955, cp949: 0xfad1},
		lookupItem{ucs2: 0x5957, cp949: 0xf7df},
		lookupItem{ucs2: 0x595a, cp949: 0xfaa8},
		lookupItem{ucs2: 0x5960, cp949: 0xeef5},
		lookupItem{ucs2: 0x5962, cp949: 0xdece},
		lookupItem{ucs2: 0x5967, cp949: 0xe7f3},
		lookupItem{ucs2: 0x596a, cp949: 0xf7ac},
		lookupItem{ucs2: 0x596b, cp949: 0xebc4},
		lookupItem{ucs2: 0x596c, cp949: 0xede1},
		lookupItem{ucs2: 0x596d, cp949: 0xe0ab},
		lookupItem{ucs2: 0x596e, cp949: 0xddc7},
		lookupItem{ucs2: 0x5973, cp949: 0xd2b3},
		lookupItem{ucs2: 0x5974, cp949: 0xd2bf},
		lookupItem{ucs2: 0x5978, cp949: 0xcacc},
		lookupItem{ucs2: 0x597d, cp949: 0xfbbf},
		lookupItem{ucs2: 0x5982, cp949: 0xe5fd},
		lookupItem{ucs2: 0x5983, cp949: 0xdde5},
		lookupItem{ucs2: 0x5984, cp949: 0xd8cd},
		lookupItem{ucs2: 0x598a, cp949: 0xecf4},
		lookupItem{ucs2: 0x5993, cp949: 0xd0f5},
		lookupItem{ucs2: 0x5996, cp949: 0xe8ed},
		lookupItem{ucs2: 0x5997, cp949: 0xd0d2},
		lookupItem{ucs2: 0x5999, cp949: 0xd9d8},
		lookupItem{ucs2: 0x59a5, cp949: 0xf6e6},
		lookupItem{ucs2: 0x59a8, cp949: 0xdbaa},
		lookupItem{ucs2: 0x59ac, cp949: 0xf7e0},
		lookupItem{ucs2: 0x59b9, cp949: 0xd8d9},
		lookupItem{ucs2: 0x59bb, cp949: 0xf4a3},
		lookupItem{ucs2: 0x59be, cp949: 0xf4dd},
		lookupItem{ucs2: 0x59c3, cp949: 0xefd1},
		lookupItem{ucs2: 0x59c6, cp949: 0xd9b5},
		lookupItem{ucs2: 0x59c9, cp949: 0xedab},
		lookupItem{ucs2: 0x59cb, cp949: 0xe3b7},
		lookupItem{ucs2: 0x59d0, cp949: 0xeebb},
		lookupItem{ucs2: 0x59d1, cp949: 0xcdb4},
		lookupItem{ucs2: 0x59d3, cp949: 0xe0f3},
		lookupItem{ucs2: 0x59d4, cp949: 0xeacd},
		lookupItem{ucs2: 0x59d9, cp949: 0xecf5},
		lookupItem{ucs2: 0x59da, cp949: 0xe8ee},
		lookupItem{ucs2: 0x59dc, cp949: 0xcba9},
		lookupItem{ucs2: 0x59dd, cp949: 0xf1af},
		lookupItem{ucs2: 0x59e6, cp949: 0xcacd},
		lookupItem{ucs2: 0x59e8, cp949: 0xeca9},
		lookupItem{ucs2: 0x59ea, cp949: 0xf2eb},
		lookupItem{ucs2: 0x59ec, cp949: 0xfdef},
		lookupItem{ucs2: 0x59ee, cp949: 0xf9f3},
		lookupItem{ucs2: 0x59f8, cp949: 0xe6c1},
		lookupItem{ucs2: 0x59fb, cp949: 0xecd8},
		lookupItem{ucs2: 0x59ff, cp949: 0xedac},
		lookupItem{ucs2: 0x5a01, cp949: 0xeace},
		lookupItem{ucs2: 0x5a03, cp949: 0xe8df},
		lookupItem{ucs2: 0x5a11, cp949: 0xdecf},
		lookupItem{ucs2: 0x5a18, cp949: 0xd2a6},
		lookupItem{ucs2: 0x5a1b, cp949: 0xe7f4},
		lookupItem{ucs2: 0x5a1c, cp949: 0xd1d6},
		lookupItem{ucs2: 0x5a1f, cp949: 0xe6c2},
		lookupItem{ucs2: 0x5a20, cp949: 0xe3e3},
		lookupItem{ucs2: 0x5a25, cp949: 0xe4b0},
		lookupItem{ucs2: 0x5a29, cp949: 0xd8b4},
		lookupItem{ucs2: 0x5a36, cp949: 0xf6a5},
		lookupItem{ucs2: 0x5a3c, cp949: 0xf3de},
		lookupItem{ucs2: 0x5a41, cp949: 0xd7a5},
		lookupItem{ucs2: 0x5a46, cp949: 0xf7e8},
		lookupItem{ucs2: 0x5a49, cp949: 0xe8c6},
		lookupItem{ucs2: 0x5a5a, cp949: 0xfbe6},
		lookupItem{ucs2: 0x5a62, cp949: 0xdde6},
		lookupItem{ucs2: 0x5a66, cp949: 0xdcfe},
		lookupItem{ucs2: 0x5a92, cp949: 0xd8da},
		lookupItem{ucs2: 0x5a9a, cp949: 0xdaac},
		lookupItem{ucs2: 0x5a9b, cp949: 0xeab0},
		lookupItem{ucs2: 0x5aa4, cp949: 0xe3b8},
		lookupItem{ucs2: 0x5ac1, cp949: 0xcaaa},
		lookupItem{ucs2: 0x5ac2, cp949: 0xe1f9},
		lookupItem{ucs2: 0x5ac4, cp949: 0xeab1},
		lookupItem{ucs2: 0x5ac9, cp949: 0xf2ec},
		lookupItem{ucs2: 0x5acc, cp949: 0xfaee},
		lookupItem{ucs2: 0x5ae1, cp949: 0xeed5},
		lookupItem{ucs2: 0x5ae6, cp949: 0xf9f4},
		lookupItem{ucs2: 0x5ae9, cp949: 0xd2ec},
		lookupItem{ucs2: 0x5b05, cp949: 0xfbfb},
		lookupItem{ucs2: 0x5b09, cp949: 0xfdf0},
		lookupItem{ucs2: 0x5b0b, cp949: 0xe0bd},
		lookupItem{ucs2: 0x5b0c, cp949: 0xcee3},
		lookupItem{ucs2: 0x5b16, cp949: 0xf8c6},
		lookupItem{ucs2: 0x5b2a, cp949: 0xdeae},
		lookupItem{ucs2: 0x5b40, cp949: 0xdfc5},
		lookupItem{ucs2: 0x5b43, cp949: 0xe5be},
		lookupItem{ucs2: 0x5b50, cp949: 0xedad},
		lookupItem{ucs2: 0x5b51, cp949: 0xfaea},
		lookupItem{ucs2: 0x5b54, cp949: 0xcdee},
		lookupItem{ucs2: 0x5b55, cp949: 0xeda6},
		lookupItem{ucs2: 0x5b57, cp949: 0xedae},
		lookupItem{ucs2: 0x5b58, cp949: 0xf0ed},
		lookupItem{ucs2: 0x5b5a, cp949: 0xdda1},
		lookupItem{ucs2: 0x5b5c, cp949: 0xedaf},
		lookupItem{ucs2: 0x5b5d, cp949: 0xfcf8},
		lookupItem{ucs2: 0x5b5f, cp949: 0xd8eb},
		lookupItem{ucs2: 0x5b63, cp949: 0xccf9},
		lookupItem{ucs2: 0x5b64, cp949: 0xcdb5},
		lookupItem{ucs2: 0x5b69, cp949: 0xfaa9},
		lookupItem{ucs2: 0x5b6b, cp949: 0xe1dd},
		lookupItem{ucs2: 0x5b70, cp949: 0xe2d5},
		lookupItem{ucs2: 0x5b71, cp949: 0xedcf},
		lookupItem{ucs2: 0x5b75, cp949: 0xdda2},
		lookupItem{ucs2: 0x5b78, cp949: 0xf9ca},
		lookupItem{ucs2: 0x5b7a, cp949: 0xeae8},
		lookupItem{ucs2: 0x5b7c, cp949: 0xe5ed},
		lookupItem{ucs2: 0x5b85, cp949: 0xd3eb},
		lookupItem{ucs2: 0x5b87, cp949: 0xe9d4},
".
Definition text_cp949_lookup_to_007 : string :=
"		lookupItem{ucs2: 0x5b88, cp949: 0xe1fa},
		lookupItem{ucs2: 0x5b89, cp949: 0xe4cc},
		lookupItem{ucs2: 0x5b8b, cp949: 0xe1e4},
		lookupItem{ucs2: 0x5b8c, cp949: 0xe8c7},
		lookupItem{ucs2: 0x5b8f, cp949: 0xcedb},
		lookupItem{ucs2: 0x5b93, cp949: 0xdcd5},
		lookupItem{ucs2: 0x5b95, cp949: 0xf7b5},
		lookupItem{ucs2: 0x5b96, cp949: 0xfcf3},
		lookupItem{ucs2: 0x5b97, cp949: 0xf0f3},
		lookupItem{ucs2: 0x5b98, cp949: 0xceaf},
		lookupItem{ucs2: 0x5b99, cp949: 0xf1b5},
		lookupItem{ucs2: 0x5b9a, cp949: 0xefd2},
		lookupItem{ucs2: 0x5b9b, cp949: 0xe8c8},
		lookupItem{ucs2: 0x5b9c, cp949: 0xebf1},
		lookupItem{ucs2: 0x5ba2, cp949: 0xcbd4},
		lookupItem{ucs2: 0x5ba3, cp949: 0xe0be},
		lookupItem{ucs2: 0x5ba4, cp949: 0xe3f8},
		lookupItem{ucs2: 0x5ba5, cp949: 0xeae9},
		lookupItem{ucs2: 0x5ba6, cp949: 0xfcb2},
		lookupItem{ucs2: 0x5bac, cp949: 0xe0f4},
		lookupItem{ucs2: 0x5bae, cp949: 0xcfe0},
		lookupItem{ucs2: 0x5bb0, cp949: 0xeea5},
		lookupItem{ucs2: 0x5bb3, cp949: 0xfaaa},
		lookupItem{ucs2: 0x5bb4, cp949: 0xe6c3},
		lookupItem{ucs2: 0x5bb5, cp949: 0xe1b2},
		lookupItem{ucs2: 0x5bb6, cp949: 0xcaab},
		lookupItem{ucs2: 0x5bb8, cp949: 0xe3e4},
		lookupItem{ucs2: 0x5bb9, cp949: 0xe9bb},
		lookupItem{ucs2: 0x5bbf, cp949: 0xe2d6},
		lookupItem{ucs2: 0x5bc0, cp949: 0xf3f2},
		lookupItem{ucs2: 0x5bc2, cp949: 0xeed6},
		lookupItem{ucs2: 0x5bc3, cp949: 0xeab2},
		lookupItem{ucs2: 0x5bc4, cp949: 0xd0f6},
		lookupItem{ucs2: 0x5bc5, cp949: 0xecd9},
		lookupItem{ucs2: 0x5bc6, cp949: 0xdacb},
		lookupItem{ucs2: 0x5bc7, cp949: 0xcfa8},
		lookupItem{ucs2: 0x5bcc, cp949: 0xdda3},
		lookupItem{ucs2: 0x5bd0, cp949: 0xd8db},
		lookupItem{ucs2: 0x5bd2, cp949: 0xf9ce},
		lookupItem{ucs2: 0x5bd3, cp949: 0xe9d5},
		lookupItem{ucs2: 0x5bd4, cp949: 0xe3d1},
		lookupItem{ucs2: 0x5bd7, cp949: 0xd2bc},
		lookupItem{ucs2: 0x5bde, cp949: 0xd8ac},
		lookupItem{ucs2: 0x5bdf, cp949: 0xf3cc},
		lookupItem{ucs2: 0x5be1, cp949: 0xcdfb},
		lookupItem{ucs2: 0x5be2, cp949: 0xf6d6},
		lookupItem{ucs2: 0x5be4, cp949: 0xe7f5},
		lookupItem{ucs2: 0x5be5, cp949: 0xe8ef},
		lookupItem{ucs2: 0x5be6, cp949: 0xe3f9},
		lookupItem{ucs2: 0x5be7, cp949: 0xd2bb},
		lookupItem{ucs2: 0x5be8, cp949: 0xf3f3},
		lookupItem{ucs2: 0x5be9, cp949: 0xe3fb},
		lookupItem{ucs2: 0x5beb, cp949: 0xded0},
		lookupItem{ucs2: 0x5bec, cp949: 0xceb0},
		lookupItem{ucs2: 0x5bee, cp949: 0xd6f7},
		lookupItem{ucs2: 0x5bef, cp949: 0xf1d9},
		lookupItem{ucs2: 0x5bf5, cp949: 0xf5c1},
		lookupItem{ucs2: 0x5bf6, cp949: 0xdcc4},
		lookupItem{ucs2: 0x5bf8, cp949: 0xf5bb},
		lookupItem{ucs2: 0x5bfa, cp949: 0xded1},
		lookupItem{ucs2: 0x5c01, cp949: 0xdce6},
		lookupItem{ucs2: 0x5c04, cp949: 0xded2},
		lookupItem{ucs2: 0x5c07, cp949: 0xede2},
		lookupItem{ucs2: 0x5c08, cp949: 0xeef6},
		lookupItem{ucs2: 0x5c09, cp949: 0xeacf},
		lookupItem{ucs2: 0x5c0a, cp949: 0xf0ee},
		lookupItem{ucs2: 0x5c0b, cp949: 0xe3fc},
		lookupItem{ucs2: 0x5c0d, cp949: 0xd3df},
		lookupItem{ucs2: 0x5c0e, cp949: 0xd3f4},
		lookupItem{ucs2: 0x5c0f, cp949: 0xe1b3},
		lookupItem{ucs2: 0x5c11, cp949: 0xe1b4},
		lookupItem{ucs2: 0x5c16, cp949: 0xf4d3},
		lookupItem{ucs2: 0x5c19, cp949: 0xdfc6},
		lookupItem{ucs2: 0x5c24, cp949: 0xe9d6},
		lookupItem{ucs2: 0x5c28, cp949: 0xdbab},
		lookupItem{ucs2: 0x5c31, cp949: 0xf6a6},
		lookupItem{ucs2: 0x5c38, cp949: 0xe3b9},
		lookupItem{ucs2: 0x5c39, cp949: 0xebc5},
		lookupItem{ucs2: 0x5c3a, cp949: 0xf4a9},
		lookupItem{ucs2: 0x5c3b, cp949: 0xcdb6},
		lookupItem{ucs2: 0x5c3c, cp949: 0xd2f9},
		lookupItem{ucs2: 0x5c3e, cp949: 0xdaad},
		lookupItem{ucs2: 0x5c3f, cp949: 0xd2e3},
		lookupItem{ucs2: 0x5c40, cp949: 0xcfd1},
		lookupItem{ucs2: 0x5c45, cp949: 0xcbdc},
		lookupItem{ucs2: 0x5c46, cp949: 0xccfa},
		lookupItem{ucs2: 0x5c48, cp949: 0xcfdd},
		lookupItem{ucs2: 0x5c4b, cp949: 0xe8a9},
		lookupItem{ucs2: 0x5c4d, cp949: 0xe3bb},
		lookupItem{ucs2: 0x5c4e, cp949: 0xe3ba},
		lookupItem{ucs2: 0x5c51, cp949: 0xe0da},
		lookupItem{ucs2: 0x5c55, cp949: 0xeef7},
		lookupItem{ucs2: 0x5c5b, cp949: 0xdcb3},
		lookupItem{ucs2: 0x5c60, cp949: 0xd3f5},
		lookupItem{ucs2: 0x5c62, cp949: 0xd7a6},
		lookupItem{ucs2: 0x5c64, cp949: 0xf6b5},
		lookupItem{ucs2: 0x5c65, cp949: 0xd7db},
		lookupItem{ucs2: 0x5c6c, cp949: 0xe1d5},
		lookupItem{ucs2: 0x5c6f, cp949: 0xd4ea},
		lookupItem{ucs2: 0x5c71, cp949: 0xdfa3},
		lookupItem{ucs2: 0x5c79, cp949: 0xfddf},
		lookupItem{ucs2: 0x5c90, cp949: 0xd0f7},
		lookupItem{ucs2: 0x5c91, cp949: 0xedd4},
		lookupItem{ucs2: 0x5ca1, cp949: 0xcbaa},
		lookupItem{ucs2: 0x5ca9, cp949: 0xe4db},
		lookupItem{ucs2: 0x5cab, cp949: 0xe1fb},
		lookupItem{ucs2: 0x5cac, cp949: 0xcba2},
		lookupItem{ucs2: 0x5cb1, cp949: 0xd3e0},
		lookupItem{ucs2: 0x5cb3, cp949: 0xe4bf},
		lookupItem{ucs2: 0x5cb5, cp949: 0xfbc0},
		lookupItem{ucs2: 0x5cb7, cp949: 0xdabe},
		lookupItem{ucs2: 0x5cb8, cp949: 0xe4cd},
		lookupItem{ucs2: 0x5cba, cp949: 0xd6b9},
		lookupItem{ucs2: 0x5cbe, cp949: 0xefc0},
		lookupItem{ucs2: 0x5cc0, cp949: 0xe1fc},
		lookupItem{ucs2: 0x5cd9, cp949: 0xf6b9},
		lookupItem{ucs2: 0x5ce0, cp949: 0xdfc7},
		lookupItem{ucs2: 0x5ce8, cp949: 0xe4b1},
		lookupItem{ucs2: 0x5cef, cp949: 0xdce7},
		lookupItem{ucs2: 0x5cf0, cp949: 0xdce8},
		lookupItem{ucs2: 0x5cf4, cp949: 0xfad6},
		lookupItem{ucs2: 0x5cf6, cp949: 0xd3f6},
		lookupItem{ucs2: 0x5cfb, cp949: 0xf1da},
		lookupItem{ucs2: 0x5cfd, cp949: 0xfaf2},
		lookupItem{ucs2: 0x5d07, cp949: 0xe2fd},
		lookupItem{ucs2: 0x5d0d, cp949: 0xd5cf},
		lookupItem{ucs2: 0x5d0e, cp949: 0xd0f8},
		lookupItem{ucs2: 0x5d11, cp949: 0xcddf},
		lookupItem{ucs2: 0x5d14, cp949: 0xf5cb},
		lookupItem{ucs2: 0x5d16, cp949: 0xe4f0},
		lookupItem{ucs2: 0x5d17, cp949: 0xcbab},
		lookupItem{ucs2: 0x5d19, cp949: 0xd7c4},
		lookupItem{ucs2: 0x5d27, cp949: 0xe2fe},
		lookupItem{ucs2: 0x5d29, cp949: 0xddda},
		lookupItem{ucs2: 0x5d4b, cp949: 0xdaae},
		lookupItem{ucs2: 0x5d4c, cp949: 0xcaee},
		lookupItem{ucs2: 0x5d50, cp949: 0xd5b9},
		lookupItem{ucs2: 0x5d69, cp949: 0xe3a1},
		lookupItem{ucs2: 0x5d6c, cp949: 0xe8e3},
		lookupItem{ucs2: 0x5d6f, cp949: 0xf3ab},
		lookupItem{ucs2: 0x5d87, cp949: 0xcfa9},
		lookupItem{ucs2: 0x5d8b, cp949: 0xd3f7},
		lookupItem{ucs2: 0x5d9d, cp949: 0xd4f1},
		lookupItem{ucs2: 0x5da0, cp949: 0xcee4},
		lookupItem{ucs2: 0x5da2, cp949: 0xe8f2},
		lookupItem{ucs2: 0x5daa, cp949: 0xe5f5},
		lookupItem{ucs2: 0x5db8, cp949: 0xe7ae},
		lookupItem{ucs2: 0x5dba, cp949: 0xd6ba},
		lookupItem{ucs2: 0x5dbc, cp949: 0xdfec},
		lookupItem{ucs2: 0x5dbd, cp949: 0xe4c0},
		lookupItem{ucs2: 0x5dcd, cp949: 0xe8e4},
		lookupItem{ucs2: 0x5dd2, cp949: 0xd8b5},
		lookupItem{ucs2: 0x5dd6, cp949: 0xe4dc},
		lookupItem{ucs2: 0x5ddd, cp949: 0xf4b9},
		lookupItem{ucs2: 0x5dde, cp949: 0xf1b6},
		lookupItem{ucs2: 0x5de1, cp949: 0xe2de},
		lookupItem{ucs2: 0x5de2, cp949: 0xe1b5},
		lookupItem{ucs2: 0x5de5, cp949: 0xcdef},
		lookupItem{ucs2: 0x5de6, cp949: 0xf1a7},
		lookupItem{ucs2: 0x5de7, cp949: 0xcee5},
		lookupItem{ucs2: 0x5de8, cp949: 0xcbdd},
		lookupItem{ucs2: 0x5deb, cp949: 0xd9e3},
		lookupItem{ucs2: 0x5dee, cp949: 0xf3ac},
		lookupItem{ucs2: 0x5df1, cp949: 0xd0f9},
		lookupItem{ucs2: 0x5df2, cp949: 0xecab},
		lookupItem{ucs2: 0x5df3, cp949: 0xded3},
		lookupItem{ucs2: 0x5df4, cp949: 0xf7e9},
		lookupItem{ucs2: 0x5df7, cp949: 0xf9f5},
		lookupItem{ucs2: 0x5dfd, cp949: 0xe1de},
		lookupItem{ucs2: 0x5dfe, cp949: 0xcbee},
		lookupItem{ucs2: 0x5e02, cp949: 0xe3bc},
		lookupItem{ucs2: 0x5e03, cp949: 0xf8d6},
		lookupItem{ucs2: 0x5e06, cp949: 0xdbee},
		lookupItem{ucs2: 0x5e0c, cp949: 0xfdf1},
		lookupItem{ucs2: 0x5e11, cp949: 0xf7b6},
		lookupItem{ucs2: 0x5e16, cp949: 0xf4de},
		lookupItem{ucs2: 0x5e19, cp949: 0xf2ed},
		lookupItem{ucs2: 0x5e1b, cp949: 0xdbd9},
		lookupItem{ucs2: 0x5e1d, cp949: 0xf0a8},
		lookupItem{ucs2: 0x5e25, cp949: 0xe1fd},
		lookupItem{ucs2: 0x5e2b, cp949: 0xded4},
		lookupItem{ucs2: 0x5e2d, cp949: 0xe0ac},
		lookupItem{ucs2: 0x5e33, cp949: 0xede3},
		lookupItem{ucs2: 0x5e36, cp949: 0xd3e1},
		lookupItem{ucs2: 0x5e38, cp949: 0xdfc8},
		lookupItem{ucs2: 0x5e3d, cp949: 0xd9b6},
		lookupItem{ucs2: 0x5e3f, cp949: 0xfdac},
		lookupItem{ucs2: 0x5e40, cp949: 0xefd3},
		lookupItem{ucs2: 0x5e44, cp949: 0xe4c1},
		lookupItem{ucs2: 0x5e45, cp949: 0xf8eb},
		lookupItem{ucs2: 0x5e47, cp949: 0xdbac},
		lookupItem{ucs2: 0x5e4c, cp949: 0xfcc6},
		lookupItem{ucs2: 0x5e55, cp949: 0xd8ad},
		lookupItem{ucs2: 0x5e5f, cp949: 0xf6ba},
		lookupItem{ucs2: 0x5e61, cp949: 0xdbdf},
		lookupItem{ucs2: 0x5e62, cp949: 0xd3d3},
		lookupItem{ucs2: 0x5e63, cp949: 0xf8c7},
		lookupItem{ucs2: 0x5e72, cp949: 0xcace},
		lookupItem{ucs2: 0x5e73, cp949: 0xf8c1},
		lookupItem{ucs2: 0x5e74, cp949: 0xd2b4},
		lookupItem{ucs2: 0x5e77, cp949: 0xdcb4},
		lookupItem{ucs2: 0x5e78, cp949: 0xfab9},
		lookupItem{ucs2: 0x5e79, cp949: 0xcacf},
		lookupItem{ucs2: 0x5e7b, cp949: 0xfcb3},
		lookupItem{ucs2: 0x5e7c, cp949: 0xeaea},
		lookupItem{ucs2: 0x5e7d, cp949: 0xeaeb},
		lookupItem{ucs2: 0x5e7e, cp949: 0xd0fa},
		lookupItem{ucs2: 0x5e84, cp949: 0xede4},
		lookupItem{ucs2: 0x5e87, cp949: 0xdde7},
		lookupItem{ucs2: 0x5e8a, cp949: 0xdfc9},
		lookupItem{ucs2: 0x5e8f, cp949: 0xdfed},
		lookupItem{ucs2: 0x5e95, cp949: 0xeebc},
		lookupItem{ucs2: 0x5e97, cp949: 0xefc1},
		lookupItem{ucs2: 0x5e9a, cp949: 0xccd2},
		lookupItem{ucs2: 0x5e9c, cp949: 0xdda4},
		lookupItem{ucs2: 0x5ea0, cp949: 0xdfca},
		lookupItem{ucs2: 0x5ea6, cp949: 0xd3f8},
		lookupItem{ucs2: 0x5ea7, cp949: 0xf1a8},
		lookupItem{ucs2: 0x5eab, cp949: 0xcdb7},
		lookupItem{ucs2: 0x5ead, cp949: 0xefd4},
		lookupItem{ucs2: 0x5eb5, cp949: 0xe4dd},
		lookupItem{ucs2: 0x5eb6, cp949: 0xdfee},
		lookupItem{ucs2: 0x5eb7, cp949: 0xcbac},
		lookupItem{ucs2: 0x5eb8, cp949: 0xe9bc},
		lookupItem{ucs2: 0x5ebe, cp949: 0xeaec},
		lookupItem{ucs2: 0x5ec2, cp949: 0xdfcb},
		lookupItem{ucs2: 0x5ec8, cp949: 0xf9bf},
		lookupItem{ucs2: 0x5ec9, cp949: 0xd6af},
		lookupItem{ucs2: 0x5eca, cp949: 0xd5c6},
		lookupItem{ucs2: 0x5ed0, cp949: 0xcfaa},
		lookupItem{ucs2: 0x5ed3, cp949: 0xcea9},
		lookupItem{ucs2: 0x5ed6, cp949: 0xd6f8},
		lookupItem{ucs2: 0x5eda, cp949: 0xf1b7},
		lookupItem{ucs2: 0x5edb, cp949: 0xeef8},
		lookupItem{ucs2: 0x5edf, cp949: 0xd9d9},
		lookupItem{ucs2: 0x5ee0, cp949: 0xf3df},
		lookupItem{ucs2: 0x5ee2, cp949: 0xf8c8},
		lookupItem{ucs2: 0x5ee3, cp949: 0xcec6},
		lookupItem{ucs2: 0x5eec, cp949: 0xd5e6},
		lookupItem{ucs2: 0x5ef3, cp949: 0xf4e6},
		lookupItem{ucs2: 0x5ef6, cp949: 0xe6c5},
		lookupItem{ucs2: 0x5ef7, cp949: 0xefd5},
		lookupItem{ucs2: 0x5efa, cp949: 0xcbef},
		lookupItem{ucs2: 0x5efb, cp949: 0xfcdf},
		lookupItem{ucs2: 0x5f01, cp949: 0xdca7},
		lookupItem{ucs2: 0x5f04, cp949: 0xd6e7},
		lookupItem{ucs2: 0x5f0a, cp949: 0xf8c9},
		lookupItem{ucs2: 0x5f0f, cp949: 0xe3d2},
		lookupItem{ucs2: 0x5f11, cp949: 0xe3bd},
		lookupItem{ucs2: 0x5f13, cp949: 0xcfe1},
".
Definition text_cp949_lookup_to_008 : string :=
"		lookupItem{ucs2: 0x5f14, cp949: 0xf0c0},
		lookupItem{ucs2: 0x5f15, cp949: 0xecda},
		lookupItem{ucs2: 0x5f17, cp949: 0xddd7},
		lookupItem{ucs2: 0x5f18, cp949: 0xfbf0},
		lookupItem{ucs2: 0x5f1b, cp949: 0xecac},
		lookupItem{ucs2: 0x5f1f, cp949: 0xf0a9},
		lookupItem{ucs2: 0x5f26, cp949: 0xfad7},
		lookupItem{ucs2: 0x5f27, cp949: 0xfbc1},
		lookupItem{ucs2: 0x5f29, cp949: 0xd2c0},
		lookupItem{ucs2: 0x5f31, cp949: 0xe5b0},
		lookupItem{ucs2: 0x5f35, cp949: 0xede5},
		lookupItem{ucs2: 0x5f3a, cp949: 0xcbad},
		lookupItem{ucs2: 0x5f3c, cp949: 0xf9b0},
		lookupItem{ucs2: 0x5f48, cp949: 0xf7a5},
		lookupItem{ucs2: 0x5f4a, cp949: 0xcbae},
		lookupItem{ucs2: 0x5f4c, cp949: 0xdaaf},
		lookupItem{ucs2: 0x5f4e, cp949: 0xd8b6},
		lookupItem{ucs2: 0x5f56, cp949: 0xd3a7},
		lookupItem{ucs2: 0x5f57, cp949: 0xfbb2},
		lookupItem{ucs2: 0x5f59, cp949: 0xfdc4},
		lookupItem{ucs2: 0x5f5b, cp949: 0xecad},
		lookupItem{ucs2: 0x5f62, cp949: 0xfba1},
		lookupItem{ucs2: 0x5f66, cp949: 0xe5e9},
		lookupItem{ucs2: 0x5f67, cp949: 0xe9ee},
		lookupItem{ucs2: 0x5f69, cp949: 0xf3f4},
		lookupItem{ucs2: 0x5f6a, cp949: 0xf8f3},
		lookupItem{ucs2: 0x5f6b, cp949: 0xf0c1},
		lookupItem{ucs2: 0x5f6c, cp949: 0xdeaf},
		lookupItem{ucs2: 0x5f6d, cp949: 0xf8b0},
		lookupItem{ucs2: 0x5f70, cp949: 0xf3e0},
		lookupItem{ucs2: 0x5f71, cp949: 0xe7af},
		lookupItem{ucs2: 0x5f77, cp949: 0xdbad},
		lookupItem{ucs2: 0x5f79, cp949: 0xe6b5},
		lookupItem{ucs2: 0x5f7c, cp949: 0xf9a8},
		lookupItem{ucs2: 0x5f7f, cp949: 0xddd8},
		lookupItem{ucs2: 0x5f80, cp949: 0xe8d9},
		lookupItem{ucs2: 0x5f81, cp949: 0xefd6},
		lookupItem{ucs2: 0x5f85, cp949: 0xd3e2},
		lookupItem{ucs2: 0x5f87, cp949: 0xe2df},
		lookupItem{ucs2: 0x5f8a, cp949: 0xfce0},
		lookupItem{ucs2: 0x5f8b, cp949: 0xd7c8},
		lookupItem{ucs2: 0x5f8c, cp949: 0xfdad},
		lookupItem{ucs2: 0x5f90, cp949: 0xdfef},
		lookupItem{ucs2: 0x5f91, cp949: 0xccd3},
		lookupItem{ucs2: 0x5f92, cp949: 0xd3f9},
		lookupItem{ucs2: 0x5f97, cp949: 0xd4f0},
		lookupItem{ucs2: 0x5f98, cp949: 0xdbc7},
		lookupItem{ucs2: 0x5f99, cp949: 0xded5},
		lookupItem{ucs2: 0x5f9e, cp949: 0xf0f4},
		lookupItem{ucs2: 0x5fa0, cp949: 0xd5d0},
		lookupItem{ucs2: 0x5fa1, cp949: 0xe5d9},
		lookupItem{ucs2: 0x5fa8, cp949: 0xfcc7},
		lookupItem{ucs2: 0x5fa9, cp949: 0xdcd6},
		lookupItem{ucs2: 0x5faa, cp949: 0xe2e0},
		lookupItem{ucs2: 0x5fae, cp949: 0xdab0},
		lookupItem{ucs2: 0x5fb5, cp949: 0xf3a3},
		lookupItem{ucs2: 0x5fb7, cp949: 0xd3ec},
		lookupItem{ucs2: 0x5fb9, cp949: 0xf4cb},
		lookupItem{ucs2: 0x5fbd, cp949: 0xfdc5},
		lookupItem{ucs2: 0x5fc3, cp949: 0xe3fd},
		lookupItem{ucs2: 0x5fc5, cp949: 0xf9b1},
		lookupItem{ucs2: 0x5fcc, cp949: 0xd0fb},
		lookupItem{ucs2: 0x5fcd, cp949: 0xecdb},
		lookupItem{ucs2: 0x5fd6, cp949: 0xf5bc},
		lookupItem{ucs2: 0x5fd7, cp949: 0xf2a4},
		lookupItem{ucs2: 0x5fd8, cp949: 0xd8ce},
		lookupItem{ucs2: 0x5fd9, cp949: 0xd8cf},
		lookupItem{ucs2: 0x5fe0, cp949: 0xf5f7},
		lookupItem{ucs2: 0x5feb, cp949: 0xf6e1},
		lookupItem{ucs2: 0x5ff5, cp949: 0xd2b7},
		lookupItem{ucs2: 0x5ffd, cp949: 0xfbec},
		lookupItem{ucs2: 0x5fff, cp949: 0xddc8},
		lookupItem{ucs2: 0x600f, cp949: 0xe4e8},
		lookupItem{ucs2: 0x6012, cp949: 0xd2c1},
		lookupItem{ucs2: 0x6016, cp949: 0xf8d7},
		lookupItem{ucs2: 0x601c, cp949: 0xd6bb},
		lookupItem{ucs2: 0x601d, cp949: 0xded6},
		lookupItem{ucs2: 0x6020, cp949: 0xf7bd},
		lookupItem{ucs2: 0x6021, cp949: 0xecae},
		lookupItem{ucs2: 0x6025, cp949: 0xd0e1},
		lookupItem{ucs2: 0x6027, cp949: 0xe0f5},
		lookupItem{ucs2: 0x6028, cp949: 0xeab3},
		lookupItem{ucs2: 0x602a, cp949: 0xced6},
		lookupItem{ucs2: 0x602f, cp949: 0xcca5},
		lookupItem{ucs2: 0x6041, cp949: 0xecf6},
		lookupItem{ucs2: 0x6042, cp949: 0xe2e1},
		lookupItem{ucs2: 0x6043, cp949: 0xe3be},
		lookupItem{ucs2: 0x604d, cp949: 0xfcc8},
		lookupItem{ucs2: 0x6050, cp949: 0xcdf0},
		lookupItem{ucs2: 0x6052, cp949: 0xf9f6},
		lookupItem{ucs2: 0x6055, cp949: 0xdff0},
		lookupItem{ucs2: 0x6059, cp949: 0xe5bf},
		lookupItem{ucs2: 0x605d, cp949: 0xcebf},
		lookupItem{ucs2: 0x6062, cp949: 0xfce1},
		lookupItem{ucs2: 0x6063, cp949: 0xedb0},
		lookupItem{ucs2: 0x6064, cp949: 0xfdd1},
		lookupItem{ucs2: 0x6065, cp949: 0xf6bb},
		lookupItem{ucs2: 0x6068, cp949: 0xf9cf},
		lookupItem{ucs2: 0x6069, cp949: 0xebda},
		lookupItem{ucs2: 0x606a, cp949: 0xcac1},
		lookupItem{ucs2: 0x606c, cp949: 0xd2b8},
		lookupItem{ucs2: 0x606d, cp949: 0xcdf1},
		lookupItem{ucs2: 0x606f, cp949: 0xe3d3},
		lookupItem{ucs2: 0x6070, cp949: 0xfde6},
		lookupItem{ucs2: 0x6085, cp949: 0xe6ed},
		lookupItem{ucs2: 0x6089, cp949: 0xe3fa},
		lookupItem{ucs2: 0x608c, cp949: 0xf0aa},
		lookupItem{ucs2: 0x608d, cp949: 0xf9d0},
		lookupItem{ucs2: 0x6094, cp949: 0xfce2},
		lookupItem{ucs2: 0x6096, cp949: 0xf8a7},
		lookupItem{ucs2: 0x609a, cp949: 0xe1e5},
		lookupItem{ucs2: 0x609b, cp949: 0xeef9},
		lookupItem{ucs2: 0x609f, cp949: 0xe7f6},
		lookupItem{ucs2: 0x60a0, cp949: 0xeaed},
		lookupItem{ucs2: 0x60a3, cp949: 0xfcb4},
		lookupItem{ucs2: 0x60a4, cp949: 0xf5c2},
		lookupItem{ucs2: 0x60a7, cp949: 0xd7dc},
		lookupItem{ucs2: 0x60b0, cp949: 0xf0f5},
		lookupItem{ucs2: 0x60b2, cp949: 0xdde8},
		lookupItem{ucs2: 0x60b3, cp949: 0xd3ed},
		lookupItem{ucs2: 0x60b4, cp949: 0xf5fc},
		lookupItem{ucs2: 0x60b6, cp949: 0xdabf},
		lookupItem{ucs2: 0x60b8, cp949: 0xccfb},
		lookupItem{ucs2: 0x60bc, cp949: 0xd3fa},
		lookupItem{ucs2: 0x60bd, cp949: 0xf4a4},
		lookupItem{ucs2: 0x60c5, cp949: 0xefd7},
		lookupItem{ucs2: 0x60c7, cp949: 0xd4c3},
		lookupItem{ucs2: 0x60d1, cp949: 0xfbe3},
		lookupItem{ucs2: 0x60da, cp949: 0xfbed},
		lookupItem{ucs2: 0x60dc, cp949: 0xe0ad},
		lookupItem{ucs2: 0x60df, cp949: 0xeaee},
		lookupItem{ucs2: 0x60e0, cp949: 0xfbb3},
		lookupItem{ucs2: 0x60e1, cp949: 0xe4c2},
		lookupItem{ucs2: 0x60f0, cp949: 0xf6e7},
		lookupItem{ucs2: 0x60f1, cp949: 0xd2dd},
		lookupItem{ucs2: 0x60f3, cp949: 0xdfcc},
		lookupItem{ucs2: 0x60f6, cp949: 0xfcc9},
		lookupItem{ucs2: 0x60f9, cp949: 0xe5a9},
		lookupItem{ucs2: 0x60fa, cp949: 0xe0f6},
		lookupItem{ucs2: 0x60fb, cp949: 0xf6b3},
		lookupItem{ucs2: 0x6101, cp949: 0xe1fe},
		lookupItem{ucs2: 0x6106, cp949: 0xcbf0},
		lookupItem{ucs2: 0x6108, cp949: 0xeaef},
		lookupItem{ucs2: 0x6109, cp949: 0xeaf0},
		lookupItem{ucs2: 0x610d, cp949: 0xdac0},
		lookupItem{ucs2: 0x610e, cp949: 0xf8b4},
		lookupItem{ucs2: 0x610f, cp949: 0xebf2},
		lookupItem{ucs2: 0x6115, cp949: 0xe4c3},
		lookupItem{ucs2: 0x611a, cp949: 0xe9d7},
		lookupItem{ucs2: 0x611b, cp949: 0xe4f1},
		lookupItem{ucs2: 0x611f, cp949: 0xcaef},
		lookupItem{ucs2: 0x6127, cp949: 0xced7},
		lookupItem{ucs2: 0x6130, cp949: 0xfcca},
		lookupItem{ucs2: 0x6134, cp949: 0xf3e1},
		lookupItem{ucs2: 0x6137, cp949: 0xcbc4},
		lookupItem{ucs2: 0x613c, cp949: 0xe3e5},
		lookupItem{ucs2: 0x613e, cp949: 0xcbc5},
		lookupItem{ucs2: 0x613f, cp949: 0xeab4},
		lookupItem{ucs2: 0x6142, cp949: 0xe9bd},
		lookupItem{ucs2: 0x6144, cp949: 0xd7c9},
		lookupItem{ucs2: 0x6147, cp949: 0xebdb},
		lookupItem{ucs2: 0x6148, cp949: 0xedb1},
		lookupItem{ucs2: 0x614a, cp949: 0xccc3},
		lookupItem{ucs2: 0x614b, cp949: 0xf7be},
		lookupItem{ucs2: 0x614c, cp949: 0xfccb},
		lookupItem{ucs2: 0x6153, cp949: 0xf8f4},
		lookupItem{ucs2: 0x6155, cp949: 0xd9b7},
		lookupItem{ucs2: 0x6158, cp949: 0xf3d3},
		lookupItem{ucs2: 0x6159, cp949: 0xf3d4},
		lookupItem{ucs2: 0x615d, cp949: 0xf7e4},
		lookupItem{ucs2: 0x615f, cp949: 0xf7d1},
		lookupItem{ucs2: 0x6162, cp949: 0xd8b7},
		lookupItem{ucs2: 0x6163, cp949: 0xceb1},
		lookupItem{ucs2: 0x6164, cp949: 0xcac2},
		lookupItem{ucs2: 0x6167, cp949: 0xfbb4},
		lookupItem{ucs2: 0x6168, cp949: 0xcbc6},
		lookupItem{ucs2: 0x616b, cp949: 0xf0f6},
		lookupItem{ucs2: 0x616e, cp949: 0xd5e7},
		lookupItem{ucs2: 0x6170, cp949: 0xead0},
		lookupItem{ucs2: 0x6176, cp949: 0xccd4},
		lookupItem{ucs2: 0x6177, cp949: 0xcbaf},
		lookupItem{ucs2: 0x617d, cp949: 0xf4aa},
		lookupItem{ucs2: 0x617e, cp949: 0xe9af},
		lookupItem{ucs2: 0x6181, cp949: 0xf5c3},
		lookupItem{ucs2: 0x6182, cp949: 0xe9d8},
		lookupItem{ucs2: 0x618a, cp949: 0xdde9},
		lookupItem{ucs2: 0x618e, cp949: 0xf1f3},
		lookupItem{ucs2: 0x6190, cp949: 0xd5fb},
		lookupItem{ucs2: 0x6191, cp949: 0xdebb},
		lookupItem{ucs2: 0x6194, cp949: 0xf4fb},
		lookupItem{ucs2: 0x6198, cp949: 0xfdf3},
		lookupItem{ucs2: 0x6199, cp949: 0xfdf2},
		lookupItem{ucs2: 0x619a, cp949: 0xf7a6},
		lookupItem{ucs2: 0x61a4, cp949: 0xddc9},
		lookupItem{ucs2: 0x61a7, cp949: 0xd4d3},
		lookupItem{ucs2: 0x61a9, cp949: 0xcca8},
		lookupItem{ucs2: 0x61ab, cp949: 0xdac1},
		lookupItem{ucs2: 0x61ac, cp949: 0xccd5},
		lookupItem{ucs2: 0x61ae, cp949: 0xd9e4},
		lookupItem{ucs2: 0x61b2, cp949: 0xfaca},
		lookupItem{ucs2: 0x61b6, cp949: 0xe5e3},
		lookupItem{ucs2: 0x61ba, cp949: 0xd3bc},
		lookupItem{ucs2: 0x61be, cp949: 0xcaf0},
		lookupItem{ucs2: 0x61c3, cp949: 0xd0c4},
		lookupItem{ucs2: 0x61c7, cp949: 0xcad0},
		lookupItem{ucs2: 0x61c8, cp949: 0xfaab},
		lookupItem{ucs2: 0x61c9, cp949: 0xebeb},
		lookupItem{ucs2: 0x61ca, cp949: 0xe7f8},
		lookupItem{ucs2: 0x61cb, cp949: 0xd9e5},
		lookupItem{ucs2: 0x61e6, cp949: 0xd1d7},
		lookupItem{ucs2: 0x61f2, cp949: 0xf3a4},
		lookupItem{ucs2: 0x61f6, cp949: 0xd4fb},
		lookupItem{ucs2: 0x61f7, cp949: 0xfce3},
		lookupItem{ucs2: 0x61f8, cp949: 0xfad8},
		lookupItem{ucs2: 0x61fa, cp949: 0xf3d5},
		lookupItem{ucs2: 0x61fc, cp949: 0xcfab},
		lookupItem{ucs2: 0x61ff, cp949: 0xebf3},
		lookupItem{ucs2: 0x6200, cp949: 0xd5fc},
		lookupItem{ucs2: 0x6207, cp949: 0xd3d4},
		lookupItem{ucs2: 0x6208, cp949: 0xcdfc},
		lookupItem{ucs2: 0x620a, cp949: 0xd9e6},
		lookupItem{ucs2: 0x620c, cp949: 0xe2f9},
		lookupItem{ucs2: 0x620d, cp949: 0xe2a1},
		lookupItem{ucs2: 0x620e, cp949: 0xebd4},
		lookupItem{ucs2: 0x6210, cp949: 0xe0f7},
		lookupItem{ucs2: 0x6211, cp949: 0xe4b2},
		lookupItem{ucs2: 0x6212, cp949: 0xccfc},
		lookupItem{ucs2: 0x6216, cp949: 0xfbe4},
		lookupItem{ucs2: 0x621a, cp949: 0xf4ab},
		lookupItem{ucs2: 0x621f, cp949: 0xd0bd},
		lookupItem{ucs2: 0x6221, cp949: 0xcaf1},
		lookupItem{ucs2: 0x622a, cp949: 0xefb8},
		lookupItem{ucs2: 0x622e, cp949: 0xd7c0},
		lookupItem{ucs2: 0x6230, cp949: 0xeefa},
		lookupItem{ucs2: 0x6231, cp949: 0xfdf4},
		lookupItem{ucs2: 0x6234, cp949: 0xd3e3},
		lookupItem{ucs2: 0x6236, cp949: 0xfbc2},
		lookupItem{ucs2: 0x623e, cp949: 0xd5e8},
		lookupItem{ucs2: 0x623f, cp949: 0xdbae},
		lookupItem{ucs2: 0x6240, cp949: 0xe1b6},
		lookupItem{ucs2: 0x6241, cp949: 0xf8b7},
		lookupItem{ucs2: 0x6247, cp949: 0xe0bf},
		lookupItem{ucs2: 0x6248, cp949: 0xfbc3},
		lookupItem{ucs2: 0x6249, cp949: 0xddea},
		lookupItem{ucs2: 0x624b, cp949: 0xe2a2},
		lookupItem{ucs2: 0x624d, cp949: 0xeea6},
		lookupItem{ucs2: 0x6253, cp949: 0xf6e8},
		lookupItem{ucs2: 0x6258, cp949: 0xf6f5},
		lookupItem{ucs2: 0x626e, cp949: 0xddca},
		lookupItem{ucs2: 0x6271, cp949: 0xd0e2},
".
Definition text_cp949_lookup_to_009 : string :=
"		lookupItem{ucs2: 0x6276, cp949: 0xdda6},
		lookupItem{ucs2: 0x6279, cp949: 0xddeb},
		lookupItem{ucs2: 0x627c, cp949: 0xe4f9},
		lookupItem{ucs2: 0x627f, cp949: 0xe3af},
		lookupItem{ucs2: 0x6280, cp949: 0xd0fc},
		lookupItem{ucs2: 0x6284, cp949: 0xf4fc},
		lookupItem{ucs2: 0x6289, cp949: 0xccbc},
		lookupItem{ucs2: 0x628a, cp949: 0xf7ea},
		lookupItem{ucs2: 0x6291, cp949: 0xe5e4},
		lookupItem{ucs2: 0x6292, cp949: 0xdff1},
		lookupItem{ucs2: 0x6295, cp949: 0xf7e1},
		lookupItem{ucs2: 0x6297, cp949: 0xf9f7},
		lookupItem{ucs2: 0x6298, cp949: 0xefb9},
		lookupItem{ucs2: 0x629b, cp949: 0xf8d8},
		lookupItem{ucs2: 0x62ab, cp949: 0xf9a9},
		lookupItem{ucs2: 0x62b1, cp949: 0xf8d9},
		lookupItem{ucs2: 0x62b5, cp949: 0xeebd},
		lookupItem{ucs2: 0x62b9, cp949: 0xd8c6},
		lookupItem{ucs2: 0x62bc, cp949: 0xe4e3},
		lookupItem{ucs2: 0x62bd, cp949: 0xf5ce},
		lookupItem{ucs2: 0x62c2, cp949: 0xddd9},
		lookupItem{ucs2: 0x62c7, cp949: 0xd9e7},
		lookupItem{ucs2: 0x62c8, cp949: 0xd2b9},
		lookupItem{ucs2: 0x62c9, cp949: 0xd5c3},
		lookupItem{ucs2: 0x62cc, cp949: 0xdae5},
		lookupItem{ucs2: 0x62cd, cp949: 0xdad0},
		lookupItem{ucs2: 0x62cf, cp949: 0xd1d9},
		lookupItem{ucs2: 0x62d0, cp949: 0xced8},
		lookupItem{ucs2: 0x62d2, cp949: 0xcbde},
		lookupItem{ucs2: 0x62d3, cp949: 0xf4ac},
		lookupItem{ucs2: 0x62d4, cp949: 0xdafb},
		lookupItem{ucs2: 0x62d6, cp949: 0xf6e9},
		lookupItem{ucs2: 0x62d7, cp949: 0xe8f3},
		lookupItem{ucs2: 0x62d8, cp949: 0xcfac},
		lookupItem{ucs2: 0x62d9, cp949: 0xf0f0},
		lookupItem{ucs2: 0x62db, cp949: 0xf4fd},
		lookupItem{ucs2: 0x62dc, cp949: 0xdbc8},
		lookupItem{ucs2: 0x62ec, cp949: 0xcec0},
		lookupItem{ucs2: 0x62ed, cp949: 0xe3d4},
		lookupItem{ucs2: 0x62ee, cp949: 0xd1cf},
		lookupItem{ucs2: 0x62ef, cp949: 0xf1f5},
		lookupItem{ucs2: 0x62f1, cp949: 0xcdf2},
		lookupItem{ucs2: 0x62f3, cp949: 0xcfeb},
		lookupItem{ucs2: 0x62f7, cp949: 0xcdb8},
		lookupItem{ucs2: 0x62fe, cp949: 0xe3a6},
		lookupItem{ucs2: 0x62ff, cp949: 0xd1da},
		lookupItem{ucs2: 0x6301, cp949: 0xf2a5},
		lookupItem{ucs2: 0x6307, cp949: 0xf2a6},
		lookupItem{ucs2: 0x6309, cp949: 0xe4ce},
		lookupItem{ucs2: 0x6311, cp949: 0xd3fb},
		lookupItem{ucs2: 0x632b, cp949: 0xf1a9},
		lookupItem{ucs2: 0x632f, cp949: 0xf2c9},
		lookupItem{ucs2: 0x633a, cp949: 0xefd8},
		lookupItem{ucs2: 0x633b, cp949: 0xe6c9},
		lookupItem{ucs2: 0x633d, cp949: 0xd8b8},
		lookupItem{ucs2: 0x633e, cp949: 0xfaf3},
		lookupItem{ucs2: 0x6349, cp949: 0xf3b5},
		lookupItem{ucs2: 0x634c, cp949: 0xf8a4},
		lookupItem{ucs2: 0x634f, cp949: 0xd1f3},
		lookupItem{ucs2: 0x6350, cp949: 0xe6c8},
		lookupItem{ucs2: 0x6355, cp949: 0xf8da},
		lookupItem{ucs2: 0x6367, cp949: 0xdce9},
		lookupItem{ucs2: 0x6368, cp949: 0xded7},
		lookupItem{ucs2: 0x636e, cp949: 0xcbdf},
		lookupItem{ucs2: 0x6372, cp949: 0xcfec},
		lookupItem{ucs2: 0x6377, cp949: 0xf4df},
		lookupItem{ucs2: 0x637a, cp949: 0xd1f4},
		lookupItem{ucs2: 0x637b, cp949: 0xd2ba},
		lookupItem{ucs2: 0x637f, cp949: 0xdff2},
		lookupItem{ucs2: 0x6383, cp949: 0xe1b7},
		lookupItem{ucs2: 0x6388, cp949: 0xe2a3},
		lookupItem{ucs2: 0x6389, cp949: 0xd3fc},
		lookupItem{ucs2: 0x638c, cp949: 0xede6},
		lookupItem{ucs2: 0x6392, cp949: 0xdbc9},
		lookupItem{ucs2: 0x6396, cp949: 0xe4fa},
		lookupItem{ucs2: 0x6398, cp949: 0xcfde},
		lookupItem{ucs2: 0x639b, cp949: 0xced0},
		lookupItem{ucs2: 0x63a0, cp949: 0xd5d3},
		lookupItem{ucs2: 0x63a1, cp949: 0xf3f5},
		lookupItem{ucs2: 0x63a2, cp949: 0xf7ae},
		lookupItem{ucs2: 0x63a5, cp949: 0xefc8},
		lookupItem{ucs2: 0x63a7, cp949: 0xcdf3},
		lookupItem{ucs2: 0x63a8, cp949: 0xf5cf},
		lookupItem{ucs2: 0x63a9, cp949: 0xe5f3},
		lookupItem{ucs2: 0x63aa, cp949: 0xf0c2},
		lookupItem{ucs2: 0x63c0, cp949: 0xcad1},
		lookupItem{ucs2: 0x63c4, cp949: 0xeaf1},
		lookupItem{ucs2: 0x63c6, cp949: 0xd0a6},
		lookupItem{ucs2: 0x63cf, cp949: 0xd9da},
		lookupItem{ucs2: 0x63d0, cp949: 0xf0ab},
		lookupItem{ucs2: 0x63d6, cp949: 0xebe7},
		lookupItem{ucs2: 0x63da, cp949: 0xe5c0},
		lookupItem{ucs2: 0x63db, cp949: 0xfcb5},
		lookupItem{ucs2: 0x63e1, cp949: 0xe4c4},
		lookupItem{ucs2: 0x63ed, cp949: 0xcca9},
		lookupItem{ucs2: 0x63ee, cp949: 0xfdc6},
		lookupItem{ucs2: 0x63f4, cp949: 0xeab5},
		lookupItem{ucs2: 0x63f6, cp949: 0xe5aa},
		lookupItem{ucs2: 0x63f7, cp949: 0xdfba},
		lookupItem{ucs2: 0x640d, cp949: 0xe1df},
		lookupItem{ucs2: 0x640f, cp949: 0xdad1},
		lookupItem{ucs2: 0x6414, cp949: 0xe1b8},
		lookupItem{ucs2: 0x6416, cp949: 0xe8f4},
		lookupItem{ucs2: 0x6417, cp949: 0xd3fd},
		lookupItem{ucs2: 0x641c, cp949: 0xe2a4},
		lookupItem{ucs2: 0x6422, cp949: 0xf2ca},
		lookupItem{ucs2: 0x642c, cp949: 0xdae6},
		lookupItem{ucs2: 0x642d, cp949: 0xf7b3},
		lookupItem{ucs2: 0x643a, cp949: 0xfdcd},
		lookupItem{ucs2: 0x643e, cp949: 0xf3b6},
		lookupItem{ucs2: 0x6458, cp949: 0xeed7},
		lookupItem{ucs2: 0x6460, cp949: 0xf5c4},
		lookupItem{ucs2: 0x6469, cp949: 0xd8a4},
		lookupItem{ucs2: 0x646f, cp949: 0xf2a7},
		lookupItem{ucs2: 0x6478, cp949: 0xd9b8},
		lookupItem{ucs2: 0x6479, cp949: 0xd9b9},
		lookupItem{ucs2: 0x647a, cp949: 0xefc9},
		lookupItem{ucs2: 0x6488, cp949: 0xd6ce},
		lookupItem{ucs2: 0x6491, cp949: 0xf7cb},
		lookupItem{ucs2: 0x6492, cp949: 0xdfae},
		lookupItem{ucs2: 0x6493, cp949: 0xe8f5},
		lookupItem{ucs2: 0x649a, cp949: 0xd2b5},
		lookupItem{ucs2: 0x649e, cp949: 0xd3d5},
		lookupItem{ucs2: 0x64a4, cp949: 0xf4cc},
		lookupItem{ucs2: 0x64a5, cp949: 0xdafc},
		lookupItem{ucs2: 0x64ab, cp949: 0xd9e8},
		lookupItem{ucs2: 0x64ad, cp949: 0xf7eb},
		lookupItem{ucs2: 0x64ae, cp949: 0xf5c9},
		lookupItem{ucs2: 0x64b0, cp949: 0xf3bc},
		lookupItem{ucs2: 0x64b2, cp949: 0xdad2},
		lookupItem{ucs2: 0x64bb, cp949: 0xd3b5},
		lookupItem{ucs2: 0x64c1, cp949: 0xe8b6},
		lookupItem{ucs2: 0x64c4, cp949: 0xd6cf},
		lookupItem{ucs2: 0x64c5, cp949: 0xf4ba},
		lookupItem{ucs2: 0x64c7, cp949: 0xf7c9},
		lookupItem{ucs2: 0x64ca, cp949: 0xccaa},
		lookupItem{ucs2: 0x64cd, cp949: 0xf0c3},
		lookupItem{ucs2: 0x64ce, cp949: 0xccd6},
		lookupItem{ucs2: 0x64d2, cp949: 0xd0d3},
		lookupItem{ucs2: 0x64d4, cp949: 0xd3bd},
		lookupItem{ucs2: 0x64d8, cp949: 0xdbfb},
		lookupItem{ucs2: 0x64da, cp949: 0xcbe0},
		lookupItem{ucs2: 0x64e1, cp949: 0xd3e4},
		lookupItem{ucs2: 0x64e2, cp949: 0xf6f7},
		lookupItem{ucs2: 0x64e5, cp949: 0xd5ba},
		lookupItem{ucs2: 0x64e6, cp949: 0xf3cd},
		lookupItem{ucs2: 0x64e7, cp949: 0xcbe1},
		lookupItem{ucs2: 0x64ec, cp949: 0xebf4},
		lookupItem{ucs2: 0x64f2, cp949: 0xf4ad},
		lookupItem{ucs2: 0x64f4, cp949: 0xfcaa},
		lookupItem{ucs2: 0x64fa, cp949: 0xf7ec},
		lookupItem{ucs2: 0x64fe, cp949: 0xe8f6},
		lookupItem{ucs2: 0x6500, cp949: 0xdae7},
		lookupItem{ucs2: 0x6504, cp949: 0xf7cc},
		lookupItem{ucs2: 0x6518, cp949: 0xe5c1},
		lookupItem{ucs2: 0x651d, cp949: 0xe0ee},
		lookupItem{ucs2: 0x6523, cp949: 0xd5fd},
		lookupItem{ucs2: 0x652a, cp949: 0xcee6},
		lookupItem{ucs2: 0x652b, cp949: 0xfcab},
		lookupItem{ucs2: 0x652c, cp949: 0xd5bb},
		lookupItem{ucs2: 0x652f, cp949: 0xf2a8},
		lookupItem{ucs2: 0x6536, cp949: 0xe2a5},
		lookupItem{ucs2: 0x6537, cp949: 0xcdb9},
		lookupItem{ucs2: 0x6538, cp949: 0xeaf2},
		lookupItem{ucs2: 0x6539, cp949: 0xcbc7},
		lookupItem{ucs2: 0x653b, cp949: 0xcdf4},
		lookupItem{ucs2: 0x653e, cp949: 0xdbaf},
		lookupItem{ucs2: 0x653f, cp949: 0xefd9},
		lookupItem{ucs2: 0x6545, cp949: 0xcdba},
		lookupItem{ucs2: 0x6548, cp949: 0xfcf9},
		lookupItem{ucs2: 0x654d, cp949: 0xdff3},
		lookupItem{ucs2: 0x654e, cp949: 0xcee7},
		lookupItem{ucs2: 0x654f, cp949: 0xdac2},
		lookupItem{ucs2: 0x6551, cp949: 0xcfad},
		lookupItem{ucs2: 0x6556, cp949: 0xe7f9},
		lookupItem{ucs2: 0x6557, cp949: 0xf8a8},
		lookupItem{ucs2: 0x655e, cp949: 0xf3e2},
		lookupItem{ucs2: 0x6562, cp949: 0xcaf2},
		lookupItem{ucs2: 0x6563, cp949: 0xdfa4},
		lookupItem{ucs2: 0x6566, cp949: 0xd4c4},
		lookupItem{ucs2: 0x656c, cp949: 0xccd7},
		lookupItem{ucs2: 0x656d, cp949: 0xe5c2},
		lookupItem{ucs2: 0x6572, cp949: 0xcdbb},
		lookupItem{ucs2: 0x6574, cp949: 0xefda},
		lookupItem{ucs2: 0x6575, cp949: 0xeed8},
		lookupItem{ucs2: 0x6577, cp949: 0xdda7},
		lookupItem{ucs2: 0x6578, cp949: 0xe2a6},
		lookupItem{ucs2: 0x657e, cp949: 0xe0c0},
		lookupItem{ucs2: 0x6582, cp949: 0xd6b0},
		lookupItem{ucs2: 0x6583, cp949: 0xf8ca},
		lookupItem{ucs2: 0x6585, cp949: 0xfcfa},
		lookupItem{ucs2: 0x6587, cp949: 0xd9fe},
		lookupItem{ucs2: 0x658c, cp949: 0xdeb0},
		lookupItem{ucs2: 0x6590, cp949: 0xddec},
		lookupItem{ucs2: 0x6591, cp949: 0xdae8},
		lookupItem{ucs2: 0x6597, cp949: 0xd4e0},
		lookupItem{ucs2: 0x6599, cp949: 0xd6f9},
		lookupItem{ucs2: 0x659b, cp949: 0xcdd7},
		lookupItem{ucs2: 0x659c, cp949: 0xded8},
		lookupItem{ucs2: 0x659f, cp949: 0xf2f8},
		lookupItem{ucs2: 0x65a1, cp949: 0xe4d6},
		lookupItem{ucs2: 0x65a4, cp949: 0xd0c5},
		lookupItem{ucs2: 0x65a5, cp949: 0xf4ae},
		lookupItem{ucs2: 0x65a7, cp949: 0xdda8},
		lookupItem{ucs2: 0x65ab, cp949: 0xedc5},
		lookupItem{ucs2: 0x65ac, cp949: 0xf3d6},
		lookupItem{ucs2: 0x65af, cp949: 0xded9},
		lookupItem{ucs2: 0x65b0, cp949: 0xe3e6},
		lookupItem{ucs2: 0x65b7, cp949: 0xd3a8},
		lookupItem{ucs2: 0x65b9, cp949: 0xdbb0},
		lookupItem{ucs2: 0x65bc, cp949: 0xe5da},
		lookupItem{ucs2: 0x65bd, cp949: 0xe3bf},
		lookupItem{ucs2: 0x65c1, cp949: 0xdbb1},
		lookupItem{ucs2: 0x65c5, cp949: 0xd5e9},
		lookupItem{ucs2: 0x65cb, cp949: 0xe0c1},
		lookupItem{ucs2: 0x65cc, cp949: 0xefdb},
		lookupItem{ucs2: 0x65cf, cp949: 0xf0e9},
		lookupItem{ucs2: 0x65d2, cp949: 0xd7b2},
		lookupItem{ucs2: 0x65d7, cp949: 0xd0fd},
		lookupItem{ucs2: 0x65e0, cp949: 0xd9e9},
		lookupItem{ucs2: 0x65e3, cp949: 0xd0fe},
		lookupItem{ucs2: 0x65e5, cp949: 0xeced},
		lookupItem{ucs2: 0x65e6, cp949: 0xd3a9},
		lookupItem{ucs2: 0x65e8, cp949: 0xf2a9},
		lookupItem{ucs2: 0x65e9, cp949: 0xf0c4},
		lookupItem{ucs2: 0x65ec, cp949: 0xe2e2},
		lookupItem{ucs2: 0x65ed, cp949: 0xe9ef},
		lookupItem{ucs2: 0x65f1, cp949: 0xf9d1},
		lookupItem{ucs2: 0x65f4, cp949: 0xe9d9},
		lookupItem{ucs2: 0x65fa, cp949: 0xe8da},
		lookupItem{ucs2: 0x65fb, cp949: 0xdac3},
		lookupItem{ucs2: 0x65fc, cp949: 0xdac4},
		lookupItem{ucs2: 0x65fd, cp949: 0xd4c5},
		lookupItem{ucs2: 0x65ff, cp949: 0xe7fa},
		lookupItem{ucs2: 0x6606, cp949: 0xcde0},
		lookupItem{ucs2: 0x6607, cp949: 0xe3b0},
		lookupItem{ucs2: 0x6609, cp949: 0xdbb2},
		lookupItem{ucs2: 0x660a, cp949: 0xfbc4},
		lookupItem{ucs2: 0x660c, cp949: 0xf3e3},
		lookupItem{ucs2: 0x660e, cp949: 0xd9a5},
		lookupItem{ucs2: 0x660f, cp949: 0xfbe7},
		lookupItem{ucs2: 0x6610, cp949: 0xddcb},
		lookupItem{ucs2: 0x6611, cp949: 0xd0d4},
		lookupItem{ucs2: 0x6613, cp949: 0xe6b6},
		lookupItem{ucs2: 0x6614, cp949: 0xe0ae},
		lookupItem{ucs2: 0x6615, cp949: 0xfdda},
		lookupItem{ucs2: 0x661e, cp949: 0xdcb5},
		lookupItem{ucs2: 0x661f, cp949: 0xe0f8},
		lookupItem{ucs2: 0x6620, cp949: 0xe7b1},
		lookupItem{ucs2: 0x6625, cp949: 0xf5f0},
".
Definition text_cp949_lookup_to_010 : string :=
"		lookupItem{ucs2: 0x6627, cp949: 0xd8dc},
		lookupItem{ucs2: 0x6628, cp949: 0xedc6},
		lookupItem{ucs2: 0x662d, cp949: 0xe1b9},
		lookupItem{ucs2: 0x662f, cp949: 0xe3c0},
		lookupItem{ucs2: 0x6630, cp949: 0xf9c0},
		lookupItem{ucs2: 0x6631, cp949: 0xe9f0},
		lookupItem{ucs2: 0x6634, cp949: 0xd9db},
		lookupItem{ucs2: 0x6636, cp949: 0xf3e4},
		lookupItem{ucs2: 0x663a, cp949: 0xdcb6},
		lookupItem{ucs2: 0x663b, cp949: 0xe4e9},
		lookupItem{ucs2: 0x6641, cp949: 0xf0c5},
		lookupItem{ucs2: 0x6642, cp949: 0xe3c1},
		lookupItem{ucs2: 0x6643, cp949: 0xfccc},
		lookupItem{ucs2: 0x6644, cp949: 0xfccd},
		lookupItem{ucs2: 0x6649, cp949: 0xf2cb},
		lookupItem{ucs2: 0x664b, cp949: 0xf2cc},
		lookupItem{ucs2: 0x664f, cp949: 0xe4cf},
		lookupItem{ucs2: 0x6659, cp949: 0xf1db},
		lookupItem{ucs2: 0x665b, cp949: 0xfad9},
		lookupItem{ucs2: 0x665d, cp949: 0xf1b8},
		lookupItem{ucs2: 0x665e, cp949: 0xfdf5},
		lookupItem{ucs2: 0x665f, cp949: 0xe0f9},
		lookupItem{ucs2: 0x6664, cp949: 0xe7fb},
		lookupItem{ucs2: 0x6665, cp949: 0xfcb7},
		lookupItem{ucs2: 0x6666, cp949: 0xfce4},
		lookupItem{ucs2: 0x6667, cp949: 0xfbc5},
		lookupItem{ucs2: 0x6668, cp949: 0xe3e7},
		lookupItem{ucs2: 0x6669, cp949: 0xd8b9},
		lookupItem{ucs2: 0x666b, cp949: 0xf6f8},
		lookupItem{ucs2: 0x666e, cp949: 0xdcc5},
		lookupItem{ucs2: 0x666f, cp949: 0xccd8},
		lookupItem{ucs2: 0x6673, cp949: 0xe0af},
		lookupItem{ucs2: 0x6674, cp949: 0xf4e7},
		lookupItem{ucs2: 0x6676, cp949: 0xefdc},
		lookupItem{ucs2: 0x6677, cp949: 0xcffc},
		lookupItem{ucs2: 0x6678, cp949: 0xefdd},
		lookupItem{ucs2: 0x667a, cp949: 0xf2aa},
		lookupItem{ucs2: 0x6684, cp949: 0xfdbe},
		lookupItem{ucs2: 0x6687, cp949: 0xcaac},
		lookupItem{ucs2: 0x6688, cp949: 0xfdbb},
		lookupItem{ucs2: 0x6689, cp949: 0xfdc7},
		lookupItem{ucs2: 0x668e, cp949: 0xe7b2},
		lookupItem{ucs2: 0x6690, cp949: 0xead1},
		lookupItem{ucs2: 0x6691, cp949: 0xdff4},
		lookupItem{ucs2: 0x6696, cp949: 0xd1ec},
		lookupItem{ucs2: 0x6697, cp949: 0xe4de},
		lookupItem{ucs2: 0x6698, cp949: 0xe5c3},
		lookupItem{ucs2: 0x669d, cp949: 0xd9a6},
		lookupItem{ucs2: 0x66a0, cp949: 0xcdbc},
		lookupItem{ucs2: 0x66a2, cp949: 0xf3e5},
		lookupItem{ucs2: 0x66ab, cp949: 0xedd5},
		lookupItem{ucs2: 0x66ae, cp949: 0xd9ba},
		lookupItem{ucs2: 0x66b2, cp949: 0xede7},
		lookupItem{ucs2: 0x66b3, cp949: 0xfbb5},
		lookupItem{ucs2: 0x66b4, cp949: 0xf8ec},
		lookupItem{ucs2: 0x66b9, cp949: 0xe0e7},
		lookupItem{ucs2: 0x66bb, cp949: 0xccd9},
		lookupItem{ucs2: 0x66be, cp949: 0xd4c6},
		lookupItem{ucs2: 0x66c4, cp949: 0xe7a5},
		lookupItem{ucs2: 0x66c6, cp949: 0xd5f5},
		lookupItem{ucs2: 0x66c7, cp949: 0xd3be},
		lookupItem{ucs2: 0x66c9, cp949: 0xfcfb},
		lookupItem{ucs2: 0x66d6, cp949: 0xe4f2},
		lookupItem{ucs2: 0x66d9, cp949: 0xdff5},
		lookupItem{ucs2: 0x66dc, cp949: 0xe8f8},
		lookupItem{ucs2: 0x66dd, cp949: 0xf8ed},
		lookupItem{ucs2: 0x66e0, cp949: 0xcec7},
		lookupItem{ucs2: 0x66e6, cp949: 0xfdf6},
		lookupItem{ucs2: 0x66f0, cp949: 0xe8d8},
		lookupItem{ucs2: 0x66f2, cp949: 0xcdd8},
		lookupItem{ucs2: 0x66f3, cp949: 0xe7d6},
		lookupItem{ucs2: 0x66f4, cp949: 0xccda},
		lookupItem{ucs2: 0x66f7, cp949: 0xcae3},
		lookupItem{ucs2: 0x66f8, cp949: 0xdff6},
		lookupItem{ucs2: 0x66f9, cp949: 0xf0c7},
		lookupItem{ucs2: 0x66fa, cp949: 0xf0c6},
		lookupItem{ucs2: 0x66fc, cp949: 0xd8ba},
		lookupItem{ucs2: 0x66fe, cp949: 0xf1f4},
		lookupItem{ucs2: 0x66ff, cp949: 0xf4f0},
		lookupItem{ucs2: 0x6700, cp949: 0xf5cc},
		lookupItem{ucs2: 0x6703, cp949: 0xfce5},
		lookupItem{ucs2: 0x6708, cp949: 0xeac5},
		lookupItem{ucs2: 0x6709, cp949: 0xeaf3},
		lookupItem{ucs2: 0x670b, cp949: 0xdddb},
		lookupItem{ucs2: 0x670d, cp949: 0xdcd7},
		lookupItem{ucs2: 0x6714, cp949: 0xdefd},
		lookupItem{ucs2: 0x6715, cp949: 0xf2f9},
		lookupItem{ucs2: 0x6717, cp949: 0xd5c7},
		lookupItem{ucs2: 0x671b, cp949: 0xd8d0},
		lookupItem{ucs2: 0x671d, cp949: 0xf0c8},
		lookupItem{ucs2: 0x671e, cp949: 0xd1a1},
		lookupItem{ucs2: 0x671f, cp949: 0xd1a2},
		lookupItem{ucs2: 0x6726, cp949: 0xd9d4},
		lookupItem{ucs2: 0x6727, cp949: 0xd6e8},
		lookupItem{ucs2: 0x6728, cp949: 0xd9ca},
		lookupItem{ucs2: 0x672a, cp949: 0xdab1},
		lookupItem{ucs2: 0x672b, cp949: 0xd8c7},
		lookupItem{ucs2: 0x672c, cp949: 0xdce2},
		lookupItem{ucs2: 0x672d, cp949: 0xf3ce},
		lookupItem{ucs2: 0x672e, cp949: 0xf5f4},
		lookupItem{ucs2: 0x6731, cp949: 0xf1b9},
		lookupItem{ucs2: 0x6734, cp949: 0xdad3},
		lookupItem{ucs2: 0x6736, cp949: 0xf6ea},
		lookupItem{ucs2: 0x673a, cp949: 0xcff5},
		lookupItem{ucs2: 0x673d, cp949: 0xfdae},
		lookupItem{ucs2: 0x6746, cp949: 0xcad2},
		lookupItem{ucs2: 0x6749, cp949: 0xdfb4},
		lookupItem{ucs2: 0x674e, cp949: 0xd7dd},
		lookupItem{ucs2: 0x674f, cp949: 0xfaba},
		lookupItem{ucs2: 0x6750, cp949: 0xeea7},
		lookupItem{ucs2: 0x6751, cp949: 0xf5bd},
		lookupItem{ucs2: 0x6753, cp949: 0xf8f5},
		lookupItem{ucs2: 0x6756, cp949: 0xede8},
		lookupItem{ucs2: 0x675c, cp949: 0xd4e1},
		lookupItem{ucs2: 0x675e, cp949: 0xd1a3},
		lookupItem{ucs2: 0x675f, cp949: 0xe1d6},
		lookupItem{ucs2: 0x676d, cp949: 0xf9f8},
		lookupItem{ucs2: 0x676f, cp949: 0xdbca},
		lookupItem{ucs2: 0x6770, cp949: 0xcbf9},
		lookupItem{ucs2: 0x6771, cp949: 0xd4d4},
		lookupItem{ucs2: 0x6773, cp949: 0xd9dc},
		lookupItem{ucs2: 0x6775, cp949: 0xeebe},
		lookupItem{ucs2: 0x6777, cp949: 0xf7ed},
		lookupItem{ucs2: 0x677b, cp949: 0xd2ee},
		lookupItem{ucs2: 0x677e, cp949: 0xe1e6},
		lookupItem{ucs2: 0x677f, cp949: 0xf7f9},
		lookupItem{ucs2: 0x6787, cp949: 0xdded},
		lookupItem{ucs2: 0x6789, cp949: 0xe8db},
		lookupItem{ucs2: 0x678b, cp949: 0xdbb3},
		lookupItem{ucs2: 0x678f, cp949: 0xd1f7},
		lookupItem{ucs2: 0x6790, cp949: 0xe0b0},
		lookupItem{ucs2: 0x6793, cp949: 0xd4e2},
		lookupItem{ucs2: 0x6795, cp949: 0xf6d7},
		lookupItem{ucs2: 0x6797, cp949: 0xd7f9},
		lookupItem{ucs2: 0x679a, cp949: 0xd8dd},
		lookupItem{ucs2: 0x679c, cp949: 0xcdfd},
		lookupItem{ucs2: 0x679d, cp949: 0xf2ab},
		lookupItem{ucs2: 0x67af, cp949: 0xcdbd},
		lookupItem{ucs2: 0x67b0, cp949: 0xf8c2},
		lookupItem{ucs2: 0x67b3, cp949: 0xf2ac},
		lookupItem{ucs2: 0x67b6, cp949: 0xcaad},
		lookupItem{ucs2: 0x67b7, cp949: 0xcaae},
		lookupItem{ucs2: 0x67b8, cp949: 0xcfae},
		lookupItem{ucs2: 0x67be, cp949: 0xe3c2},
		lookupItem{ucs2: 0x67c4, cp949: 0xdcb7},
		lookupItem{ucs2: 0x67cf, cp949: 0xdbda},
		lookupItem{ucs2: 0x67d0, cp949: 0xd9bb},
		lookupItem{ucs2: 0x67d1, cp949: 0xcaf3},
		lookupItem{ucs2: 0x67d2, cp949: 0xf6d3},
		lookupItem{ucs2: 0x67d3, cp949: 0xe6f8},
		lookupItem{ucs2: 0x67d4, cp949: 0xeaf5},
		lookupItem{ucs2: 0x67da, cp949: 0xeaf6},
		lookupItem{ucs2: 0x67dd, cp949: 0xf6f9},
		lookupItem{ucs2: 0x67e9, cp949: 0xcfaf},
		lookupItem{ucs2: 0x67ec, cp949: 0xcad3},
		lookupItem{ucs2: 0x67ef, cp949: 0xcaaf},
		lookupItem{ucs2: 0x67f0, cp949: 0xd2b0},
		lookupItem{ucs2: 0x67f1, cp949: 0xf1ba},
		lookupItem{ucs2: 0x67f3, cp949: 0xd7b3},
		lookupItem{ucs2: 0x67f4, cp949: 0xe3c3},
		lookupItem{ucs2: 0x67f5, cp949: 0xf3fd},
		lookupItem{ucs2: 0x67f6, cp949: 0xdeda},
		lookupItem{ucs2: 0x67fb, cp949: 0xdedb},
		lookupItem{ucs2: 0x67fe, cp949: 0xefde},
		lookupItem{ucs2: 0x6812, cp949: 0xe2e3},
		lookupItem{ucs2: 0x6813, cp949: 0xeefb},
		lookupItem{ucs2: 0x6816, cp949: 0xdff7},
		lookupItem{ucs2: 0x6817, cp949: 0xd7ca},
		lookupItem{ucs2: 0x6821, cp949: 0xcee8},
		lookupItem{ucs2: 0x6822, cp949: 0xdbdb},
		lookupItem{ucs2: 0x682a, cp949: 0xf1bb},
		lookupItem{ucs2: 0x682f, cp949: 0xe9f1},
		lookupItem{ucs2: 0x6838, cp949: 0xfab7},
		lookupItem{ucs2: 0x6839, cp949: 0xd0c6},
		lookupItem{ucs2: 0x683c, cp949: 0xccab},
		lookupItem{ucs2: 0x683d, cp949: 0xeea8},
		lookupItem{ucs2: 0x6840, cp949: 0xcbfa},
		lookupItem{ucs2: 0x6841, cp949: 0xf9f9},
		lookupItem{ucs2: 0x6842, cp949: 0xccfd},
		lookupItem{ucs2: 0x6843, cp949: 0xd3fe},
		lookupItem{ucs2: 0x6848, cp949: 0xe4d0},
		lookupItem{ucs2: 0x684e, cp949: 0xf2ee},
		lookupItem{ucs2: 0x6850, cp949: 0xd4d5},
		lookupItem{ucs2: 0x6851, cp949: 0xdfcd},
		lookupItem{ucs2: 0x6853, cp949: 0xfcb8},
		lookupItem{ucs2: 0x6854, cp949: 0xd1d0},
		lookupItem{ucs2: 0x686d, cp949: 0xf2cd},
		lookupItem{ucs2: 0x6876, cp949: 0xf7d2},
		lookupItem{ucs2: 0x687f, cp949: 0xcad4},
		lookupItem{ucs2: 0x6881, cp949: 0xd5d9},
		lookupItem{ucs2: 0x6885, cp949: 0xd8de},
		lookupItem{ucs2: 0x688f, cp949: 0xcdd9},
		lookupItem{ucs2: 0x6893, cp949: 0xeea9},
		lookupItem{ucs2: 0x6894, cp949: 0xf6bc},
		lookupItem{ucs2: 0x6897, cp949: 0xccdb},
		lookupItem{ucs2: 0x689d, cp949: 0xf0c9},
		lookupItem{ucs2: 0x689f, cp949: 0xfcfc},
		lookupItem{ucs2: 0x68a1, cp949: 0xe8c9},
		lookupItem{ucs2: 0x68a2, cp949: 0xf4fe},
		lookupItem{ucs2: 0x68a7, cp949: 0xe7fc},
		lookupItem{ucs2: 0x68a8, cp949: 0xd7de},
		lookupItem{ucs2: 0x68ad, cp949: 0xdedc},
		lookupItem{ucs2: 0x68af, cp949: 0xf0ac},
		lookupItem{ucs2: 0x68b0, cp949: 0xccfe},
		lookupItem{ucs2: 0x68b1, cp949: 0xcde1},
		lookupItem{ucs2: 0x68b3, cp949: 0xe1ba},
		lookupItem{ucs2: 0x68b5, cp949: 0xdbef},
		lookupItem{ucs2: 0x68b6, cp949: 0xdab2},
		lookupItem{ucs2: 0x68c4, cp949: 0xd1a5},
		lookupItem{ucs2: 0x68c5, cp949: 0xdcb8},
		lookupItem{ucs2: 0x68c9, cp949: 0xd8f6},
		lookupItem{ucs2: 0x68cb, cp949: 0xd1a4},
		lookupItem{ucs2: 0x68cd, cp949: 0xcde2},
		lookupItem{ucs2: 0x68d2, cp949: 0xdcea},
		lookupItem{ucs2: 0x68d5, cp949: 0xf0f7},
		lookupItem{ucs2: 0x68d7, cp949: 0xf0ca},
		lookupItem{ucs2: 0x68d8, cp949: 0xd0be},
		lookupItem{ucs2: 0x68da, cp949: 0xdddc},
		lookupItem{ucs2: 0x68df, cp949: 0xd4d6},
		lookupItem{ucs2: 0x68e0, cp949: 0xd3d6},
		lookupItem{ucs2: 0x68e7, cp949: 0xedd0},
		lookupItem{ucs2: 0x68e8, cp949: 0xcda1},
		lookupItem{ucs2: 0x68ee, cp949: 0xdfb5},
		lookupItem{ucs2: 0x68f2, cp949: 0xdff8},
		lookupItem{ucs2: 0x68f9, cp949: 0xd4a1},
		lookupItem{ucs2: 0x68fa, cp949: 0xceb2},
		lookupItem{ucs2: 0x6900, cp949: 0xe8ca},
		lookupItem{ucs2: 0x6905, cp949: 0xebf5},
		lookupItem{ucs2: 0x690d, cp949: 0xe3d5},
		lookupItem{ucs2: 0x690e, cp949: 0xf5d0},
		lookupItem{ucs2: 0x6912, cp949: 0xf5a1},
		lookupItem{ucs2: 0x6927, cp949: 0xd9a7},
		lookupItem{ucs2: 0x6930, cp949: 0xe5ab},
		lookupItem{ucs2: 0x693d, cp949: 0xe6cb},
		lookupItem{ucs2: 0x693f, cp949: 0xf5f1},
		lookupItem{ucs2: 0x694a, cp949: 0xe5c5},
		lookupItem{ucs2: 0x6953, cp949: 0xf9a3},
		lookupItem{ucs2: 0x6954, cp949: 0xe0db},
		lookupItem{ucs2: 0x6955, cp949: 0xf6eb},
		lookupItem{ucs2: 0x6957, cp949: 0xcbf1},
		lookupItem{ucs2: 0x6959, cp949: 0xd9ea},
		lookupItem{ucs2: 0x695a, cp949: 0xf5a2},
		lookupItem{ucs2: 0x695e, cp949: 0xd7d1},
		lookupItem{ucs2: 0x6960, cp949: 0xd1f8},
		lookupItem{ucs2: 0x6961, cp949: 0xeaf8},
		lookupItem{ucs2: 0x6962, cp949: 0xeaf9},
		lookupItem{ucs2: 0x6963, cp949: 0xdab3},
		lookupItem{ucs2: 0x6968, cp949: 0xefdf},
		lookupItem{ucs2: 0x696b, cp949: 0xf1ef},
		lookupItem{ucs2: 0x696d, cp949: 0xe5f6},
".
Definition text_cp949_lookup_to_011 : string :=
"		lookupItem{ucs2: 0x696e, cp949: 0xeebf},
		lookupItem{ucs2: 0x696f, cp949: 0xe2e4},
		lookupItem{ucs2: 0x6975, cp949: 0xd0bf},
		lookupItem{ucs2: 0x6977, cp949: 0xfaac},
		lookupItem{ucs2: 0x6978, cp949: 0xf5d1},
		lookupItem{ucs2: 0x6979, cp949: 0xe7b3},
		lookupItem{ucs2: 0x6995, cp949: 0xe9be},
		lookupItem{ucs2: 0x699b, cp949: 0xf2ce},
		lookupItem{ucs2: 0x699c, cp949: 0xdbb4},
		lookupItem{ucs2: 0x69a5, cp949: 0xfcce},
		lookupItem{ucs2: 0x69a7, cp949: 0xddee},
		lookupItem{ucs2: 0x69ae, cp949: 0xe7b4},
		lookupItem{ucs2: 0x69b4, cp949: 0xd7b4},
		lookupItem{ucs2: 0x69bb, cp949: 0xf7b4},
		lookupItem{ucs2: 0x69c1, cp949: 0xcdbe},
		lookupItem{ucs2: 0x69c3, cp949: 0xdae9},
		lookupItem{ucs2: 0x69cb, cp949: 0xcfb0},
		lookupItem{ucs2: 0x69cc, cp949: 0xf7d9},
		lookupItem{ucs2: 0x69cd, cp949: 0xf3e6},
		lookupItem{ucs2: 0x69d0, cp949: 0xced9},
		lookupItem{ucs2: 0x69e8, cp949: 0xceaa},
		lookupItem{ucs2: 0x69ea, cp949: 0xcbc8},
		lookupItem{ucs2: 0x69fb, cp949: 0xd0a7},
		lookupItem{ucs2: 0x69fd, cp949: 0xf0cb},
		lookupItem{ucs2: 0x69ff, cp949: 0xd0c7},
		lookupItem{ucs2: 0x6a02, cp949: 0xe4c5},
		lookupItem{ucs2: 0x6a0a, cp949: 0xdbe0},
		lookupItem{ucs2: 0x6a11, cp949: 0xd5da},
		lookupItem{ucs2: 0x6a13, cp949: 0xd7a7},
		lookupItem{ucs2: 0x6a17, cp949: 0xeec0},
		lookupItem{ucs2: 0x6a19, cp949: 0xf8f6},
		lookupItem{ucs2: 0x6a1e, cp949: 0xf5d2},
		lookupItem{ucs2: 0x6a1f, cp949: 0xede9},
		lookupItem{ucs2: 0x6a21, cp949: 0xd9bc},
		lookupItem{ucs2: 0x6a23, cp949: 0xe5c6},
		lookupItem{ucs2: 0x6a35, cp949: 0xf5a3},
		lookupItem{ucs2: 0x6a38, cp949: 0xdad4},
		lookupItem{ucs2: 0x6a39, cp949: 0xe2a7},
		lookupItem{ucs2: 0x6a3a, cp949: 0xfbfc},
		lookupItem{ucs2: 0x6a3d, cp949: 0xf1dc},
		lookupItem{ucs2: 0x6a44, cp949: 0xcaf4},
		lookupItem{ucs2: 0x6a48, cp949: 0xe8fa},
		lookupItem{ucs2: 0x6a4b, cp949: 0xcee9},
		lookupItem{ucs2: 0x6a52, cp949: 0xe9f8},
		lookupItem{ucs2: 0x6a53, cp949: 0xe2e5},
		lookupItem{ucs2: 0x6a58, cp949: 0xd0b9},
		lookupItem{ucs2: 0x6a59, cp949: 0xd4f2},
		lookupItem{ucs2: 0x6a5f, cp949: 0xd1a6},
		lookupItem{ucs2: 0x6a61, cp949: 0xdfce},
		lookupItem{ucs2: 0x6a6b, cp949: 0xfcf4},
		lookupItem{ucs2: 0x6a80, cp949: 0xd3aa},
		lookupItem{ucs2: 0x6a84, cp949: 0xccac},
		lookupItem{ucs2: 0x6a89, cp949: 0xefe0},
		lookupItem{ucs2: 0x6a8d, cp949: 0xe5e5},
		lookupItem{ucs2: 0x6a8e, cp949: 0xd0d5},
		lookupItem{ucs2: 0x6a97, cp949: 0xdbfc},
		lookupItem{ucs2: 0x6a9c, cp949: 0xfce6},
		lookupItem{ucs2: 0x6aa2, cp949: 0xcbfe},
		lookupItem{ucs2: 0x6aa3, cp949: 0xedea},
		lookupItem{ucs2: 0x6ab3, cp949: 0xdeb1},
		lookupItem{ucs2: 0x6abb, cp949: 0xf9e3},
		lookupItem{ucs2: 0x6ac2, cp949: 0xd4a2},
		lookupItem{ucs2: 0x6ac3, cp949: 0xcff6},
		lookupItem{ucs2: 0x6ad3, cp949: 0xd6d0},
		lookupItem{ucs2: 0x6ada, cp949: 0xd5ea},
		lookupItem{ucs2: 0x6adb, cp949: 0xf1ee},
		lookupItem{ucs2: 0x6af6, cp949: 0xfacb},
		lookupItem{ucs2: 0x6afb, cp949: 0xe5a1},
		lookupItem{ucs2: 0x6b04, cp949: 0xd5b1},
		lookupItem{ucs2: 0x6b0a, cp949: 0xcfed},
		lookupItem{ucs2: 0x6b0c, cp949: 0xedeb},
		lookupItem{ucs2: 0x6b12, cp949: 0xd5b2},
		lookupItem{ucs2: 0x6b16, cp949: 0xd5bc},
		lookupItem{ucs2: 0x6b20, cp949: 0xfde2},
		lookupItem{ucs2: 0x6b21, cp949: 0xf3ad},
		lookupItem{ucs2: 0x6b23, cp949: 0xfddb},
		lookupItem{ucs2: 0x6b32, cp949: 0xe9b0},
		lookupItem{ucs2: 0x6b3a, cp949: 0xd1a7},
		lookupItem{ucs2: 0x6b3d, cp949: 0xfde3},
		lookupItem{ucs2: 0x6b3e, cp949: 0xceb3},
		lookupItem{ucs2: 0x6b46, cp949: 0xfde4},
		lookupItem{ucs2: 0x6b47, cp949: 0xface},
		lookupItem{ucs2: 0x6b4c, cp949: 0xcab0},
		lookupItem{ucs2: 0x6b4e, cp949: 0xf7a7},
		lookupItem{ucs2: 0x6b50, cp949: 0xcfb1},
		lookupItem{ucs2: 0x6b5f, cp949: 0xe6a2},
		lookupItem{ucs2: 0x6b61, cp949: 0xfcb6},
		lookupItem{ucs2: 0x6b62, cp949: 0xf2ad},
		lookupItem{ucs2: 0x6b63, cp949: 0xefe1},
		lookupItem{ucs2: 0x6b64, cp949: 0xf3ae},
		lookupItem{ucs2: 0x6b65, cp949: 0xdcc6},
		lookupItem{ucs2: 0x6b66, cp949: 0xd9eb},
		lookupItem{ucs2: 0x6b6a, cp949: 0xe8e0},
		lookupItem{ucs2: 0x6b72, cp949: 0xe1a8},
		lookupItem{ucs2: 0x6b77, cp949: 0xd5f6},
		lookupItem{ucs2: 0x6b78, cp949: 0xcffd},
		lookupItem{ucs2: 0x6b7b, cp949: 0xdedd},
		lookupItem{ucs2: 0x6b7f, cp949: 0xd9d1},
		lookupItem{ucs2: 0x6b83, cp949: 0xe4ea},
		lookupItem{ucs2: 0x6b84, cp949: 0xf2cf},
		lookupItem{ucs2: 0x6b86, cp949: 0xf7bf},
		lookupItem{ucs2: 0x6b89, cp949: 0xe2e6},
		lookupItem{ucs2: 0x6b8a, cp949: 0xe2a8},
		lookupItem{ucs2: 0x6b96, cp949: 0xe3d6},
		lookupItem{ucs2: 0x6b98, cp949: 0xedd1},
		lookupItem{ucs2: 0x6b9e, cp949: 0xe9f9},
		lookupItem{ucs2: 0x6bae, cp949: 0xd6b1},
		lookupItem{ucs2: 0x6baf, cp949: 0xdeb2},
		lookupItem{ucs2: 0x6bb2, cp949: 0xe0e8},
		lookupItem{ucs2: 0x6bb5, cp949: 0xd3ab},
		lookupItem{ucs2: 0x6bb7, cp949: 0xebdc},
		lookupItem{ucs2: 0x6bba, cp949: 0xdfaf},
		lookupItem{ucs2: 0x6bbc, cp949: 0xcac3},
		lookupItem{ucs2: 0x6bbf, cp949: 0xeefc},
		lookupItem{ucs2: 0x6bc1, cp949: 0xfdc3},
		lookupItem{ucs2: 0x6bc5, cp949: 0xebf6},
		lookupItem{ucs2: 0x6bc6, cp949: 0xcfb2},
		lookupItem{ucs2: 0x6bcb, cp949: 0xd9ec},
		lookupItem{ucs2: 0x6bcd, cp949: 0xd9bd},
		lookupItem{ucs2: 0x6bcf, cp949: 0xd8df},
		lookupItem{ucs2: 0x6bd2, cp949: 0xd4b8},
		lookupItem{ucs2: 0x6bd3, cp949: 0xebbe},
		lookupItem{ucs2: 0x6bd4, cp949: 0xddef},
		lookupItem{ucs2: 0x6bd6, cp949: 0xddf0},
		lookupItem{ucs2: 0x6bd7, cp949: 0xddf1},
		lookupItem{ucs2: 0x6bd8, cp949: 0xddf2},
		lookupItem{ucs2: 0x6bdb, cp949: 0xd9be},
		lookupItem{ucs2: 0x6beb, cp949: 0xfbc6},
		lookupItem{ucs2: 0x6bec, cp949: 0xcfb3},
		lookupItem{ucs2: 0x6c08, cp949: 0xeefd},
		lookupItem{ucs2: 0x6c0f, cp949: 0xe4ab},
		lookupItem{ucs2: 0x6c11, cp949: 0xdac5},
		lookupItem{ucs2: 0x6c13, cp949: 0xd8ec},
		lookupItem{ucs2: 0x6c23, cp949: 0xd1a8},
		lookupItem{ucs2: 0x6c34, cp949: 0xe2a9},
		lookupItem{ucs2: 0x6c37, cp949: 0xdebc},
		lookupItem{ucs2: 0x6c38, cp949: 0xe7b5},
		lookupItem{ucs2: 0x6c3e, cp949: 0xdbf0},
		lookupItem{ucs2: 0x6c40, cp949: 0xefe2},
		lookupItem{ucs2: 0x6c41, cp949: 0xf1f0},
		lookupItem{ucs2: 0x6c42, cp949: 0xcfb4},
		lookupItem{ucs2: 0x6c4e, cp949: 0xdbf1},
		lookupItem{ucs2: 0x6c50, cp949: 0xe0b1},
		lookupItem{ucs2: 0x6c55, cp949: 0xdfa5},
		lookupItem{ucs2: 0x6c57, cp949: 0xf9d2},
		lookupItem{ucs2: 0x6c5a, cp949: 0xe7fd},
		lookupItem{ucs2: 0x6c5d, cp949: 0xe6a3},
		lookupItem{ucs2: 0x6c5e, cp949: 0xfbf1},
		lookupItem{ucs2: 0x6c5f, cp949: 0xcbb0},
		lookupItem{ucs2: 0x6c60, cp949: 0xf2ae},
		lookupItem{ucs2: 0x6c68, cp949: 0xcde7},
		lookupItem{ucs2: 0x6c6a, cp949: 0xe8dc},
		lookupItem{ucs2: 0x6c6d, cp949: 0xe7d7},
		lookupItem{ucs2: 0x6c70, cp949: 0xf7c0},
		lookupItem{ucs2: 0x6c72, cp949: 0xd0e3},
		lookupItem{ucs2: 0x6c76, cp949: 0xdaa1},
		lookupItem{ucs2: 0x6c7a, cp949: 0xccbd},
		lookupItem{ucs2: 0x6c7d, cp949: 0xd1a9},
		lookupItem{ucs2: 0x6c7e, cp949: 0xddcc},
		lookupItem{ucs2: 0x6c81, cp949: 0xe3fe},
		lookupItem{ucs2: 0x6c82, cp949: 0xd1aa},
		lookupItem{ucs2: 0x6c83, cp949: 0xe8aa},
		lookupItem{ucs2: 0x6c85, cp949: 0xeab6},
		lookupItem{ucs2: 0x6c86, cp949: 0xf9fa},
		lookupItem{ucs2: 0x6c87, cp949: 0xe6cc},
		lookupItem{ucs2: 0x6c88, cp949: 0xf6d8},
		lookupItem{ucs2: 0x6c8c, cp949: 0xd4c7},
		lookupItem{ucs2: 0x6c90, cp949: 0xd9cb},
		lookupItem{ucs2: 0x6c92, cp949: 0xd9d2},
		lookupItem{ucs2: 0x6c93, cp949: 0xd3cb},
		lookupItem{ucs2: 0x6c94, cp949: 0xd8f7},
		lookupItem{ucs2: 0x6c95, cp949: 0xdaa9},
		lookupItem{ucs2: 0x6c96, cp949: 0xf5f8},
		lookupItem{ucs2: 0x6c99, cp949: 0xdede},
		lookupItem{ucs2: 0x6c9a, cp949: 0xf2af},
		lookupItem{ucs2: 0x6c9b, cp949: 0xf8a9},
		lookupItem{ucs2: 0x6cab, cp949: 0xd8c8},
		lookupItem{ucs2: 0x6cae, cp949: 0xeec1},
		lookupItem{ucs2: 0x6cb3, cp949: 0xf9c1},
		lookupItem{ucs2: 0x6cb8, cp949: 0xddf3},
		lookupItem{ucs2: 0x6cb9, cp949: 0xeafa},
		lookupItem{ucs2: 0x6cbb, cp949: 0xf6bd},
		lookupItem{ucs2: 0x6cbc, cp949: 0xe1bb},
		lookupItem{ucs2: 0x6cbd, cp949: 0xcdbf},
		lookupItem{ucs2: 0x6cbe, cp949: 0xf4d4},
		lookupItem{ucs2: 0x6cbf, cp949: 0xe6cd},
		lookupItem{ucs2: 0x6cc1, cp949: 0xfccf},
		lookupItem{ucs2: 0x6cc2, cp949: 0xfba2},
		lookupItem{ucs2: 0x6cc4, cp949: 0xe0dc},
		lookupItem{ucs2: 0x6cc9, cp949: 0xf4bb},
		lookupItem{ucs2: 0x6cca, cp949: 0xdad5},
		lookupItem{ucs2: 0x6ccc, cp949: 0xf9b2},
		lookupItem{ucs2: 0x6cd3, cp949: 0xfbf2},
		lookupItem{ucs2: 0x6cd5, cp949: 0xdbf6},
		lookupItem{ucs2: 0x6cd7, cp949: 0xdedf},
		lookupItem{ucs2: 0x6cdb, cp949: 0xdbf2},
		lookupItem{ucs2: 0x6ce1, cp949: 0xf8dc},
		lookupItem{ucs2: 0x6ce2, cp949: 0xf7ee},
		lookupItem{ucs2: 0x6ce3, cp949: 0xebe8},
		lookupItem{ucs2: 0x6ce5, cp949: 0xd2fa},
		lookupItem{ucs2: 0x6ce8, cp949: 0xf1bc},
		lookupItem{ucs2: 0x6ceb, cp949: 0xfada},
		lookupItem{ucs2: 0x6cee, cp949: 0xdaea},
		lookupItem{ucs2: 0x6cef, cp949: 0xdac6},
		lookupItem{ucs2: 0x6cf0, cp949: 0xf7c1},
		lookupItem{ucs2: 0x6cf3, cp949: 0xe7b6},
		lookupItem{ucs2: 0x6d0b, cp949: 0xe5c7},
		lookupItem{ucs2: 0x6d0c, cp949: 0xd6ac},
		lookupItem{ucs2: 0x6d11, cp949: 0xdcc7},
		lookupItem{ucs2: 0x6d17, cp949: 0xe1a9},
		lookupItem{ucs2: 0x6d19, cp949: 0xe2aa},
		lookupItem{ucs2: 0x6d1b, cp949: 0xd5a6},
		lookupItem{ucs2: 0x6d1e, cp949: 0xd4d7},
		lookupItem{ucs2: 0x6d25, cp949: 0xf2d0},
		lookupItem{ucs2: 0x6d27, cp949: 0xeafb},
		lookupItem{ucs2: 0x6d29, cp949: 0xe0dd},
		lookupItem{ucs2: 0x6d2a, cp949: 0xfbf3},
		lookupItem{ucs2: 0x6d32, cp949: 0xf1bd},
		lookupItem{ucs2: 0x6d35, cp949: 0xe2e7},
		lookupItem{ucs2: 0x6d36, cp949: 0xfdd7},
		lookupItem{ucs2: 0x6d38, cp949: 0xcec8},
		lookupItem{ucs2: 0x6d39, cp949: 0xeab7},
		lookupItem{ucs2: 0x6d3b, cp949: 0xfcc0},
		lookupItem{ucs2: 0x6d3d, cp949: 0xfde7},
		lookupItem{ucs2: 0x6d3e, cp949: 0xf7ef},
		lookupItem{ucs2: 0x6d41, cp949: 0xd7b5},
		lookupItem{ucs2: 0x6d59, cp949: 0xefba},
		lookupItem{ucs2: 0x6d5a, cp949: 0xf1dd},
		lookupItem{ucs2: 0x6d5c, cp949: 0xdeb3},
		lookupItem{ucs2: 0x6d63, cp949: 0xe8cb},
		lookupItem{ucs2: 0x6d66, cp949: 0xf8dd},
		lookupItem{ucs2: 0x6d69, cp949: 0xfbc7},
		lookupItem{ucs2: 0x6d6a, cp949: 0xd5c8},
		lookupItem{ucs2: 0x6d6c, cp949: 0xd7df},
		lookupItem{ucs2: 0x6d6e, cp949: 0xdda9},
		lookupItem{ucs2: 0x6d74, cp949: 0xe9b1},
		lookupItem{ucs2: 0x6d77, cp949: 0xfaad},
		lookupItem{ucs2: 0x6d78, cp949: 0xf6d9},
		lookupItem{ucs2: 0x6d79, cp949: 0xfaf4},
		lookupItem{ucs2: 0x6d7f, cp949: 0xf8aa},
		lookupItem{ucs2: 0x6d85, cp949: 0xe6ee},
		lookupItem{ucs2: 0x6d87, cp949: 0xccdc},
		lookupItem{ucs2: 0x6d88, cp949: 0xe1bc},
		lookupItem{ucs2: 0x6d89, cp949: 0xe0ef},
		lookupItem{ucs2: 0x6d8c, cp949: 0xe9bf},
		lookupItem{ucs2: 0x6d8d, cp949: 0xfcfd},
		lookupItem{ucs2: 0x6d8e, cp949: 0xe6ce},
		lookupItem{ucs2: 0x6d91, cp949: 0xe1d7},
		lookupItem{ucs2: 0x6d93, cp949: 0xe6cf},
		lookupItem{ucs2: 0x6d95, cp949: 0xf4f1},
".
Definition text_cp949_lookup_to_012 : string :=
"		lookupItem{ucs2: 0x6daf, cp949: 0xe4f3},
		lookupItem{ucs2: 0x6db2, cp949: 0xe4fb},
		lookupItem{ucs2: 0x6db5, cp949: 0xf9e4},
		lookupItem{ucs2: 0x6dc0, cp949: 0xefe3},
		lookupItem{ucs2: 0x6dc3, cp949: 0xcfee},
		lookupItem{ucs2: 0x6dc4, cp949: 0xf6be},
		lookupItem{ucs2: 0x6dc5, cp949: 0xe0b2},
		lookupItem{ucs2: 0x6dc6, cp949: 0xfcfe},
		lookupItem{ucs2: 0x6dc7, cp949: 0xd1ab},
		lookupItem{ucs2: 0x6dcb, cp949: 0xd7fa},
		lookupItem{ucs2: 0x6dcf, cp949: 0xfbc8},
		lookupItem{ucs2: 0x6dd1, cp949: 0xe2d7},
		lookupItem{ucs2: 0x6dd8, cp949: 0xd4a3},
		lookupItem{ucs2: 0x6dd9, cp949: 0xf0f8},
		lookupItem{ucs2: 0x6dda, cp949: 0xd7a8},
		lookupItem{ucs2: 0x6dde, cp949: 0xe1e7},
		lookupItem{ucs2: 0x6de1, cp949: 0xd3bf},
		lookupItem{ucs2: 0x6de8, cp949: 0xefe4},
		lookupItem{ucs2: 0x6dea, cp949: 0xd7c5},
		lookupItem{ucs2: 0x6deb, cp949: 0xebe2},
		lookupItem{ucs2: 0x6dee, cp949: 0xfce7},
		lookupItem{ucs2: 0x6df1, cp949: 0xe4a2},
		lookupItem{ucs2: 0x6df3, cp949: 0xe2e8},
		lookupItem{ucs2: 0x6df5, cp949: 0xe6d0},
		lookupItem{ucs2: 0x6df7, cp949: 0xfbe8},
		lookupItem{ucs2: 0x6df8, cp949: 0xf4e8},
		lookupItem{ucs2: 0x6df9, cp949: 0xe5f4},
		lookupItem{ucs2: 0x6dfa, cp949: 0xf4bc},
		lookupItem{ucs2: 0x6dfb, cp949: 0xf4d5},
		lookupItem{ucs2: 0x6e17, cp949: 0xdfb6},
		lookupItem{ucs2: 0x6e19, cp949: 0xfcb9},
		lookupItem{ucs2: 0x6e1a, cp949: 0xeec2},
		lookupItem{ucs2: 0x6e1b, cp949: 0xcaf5},
		lookupItem{ucs2: 0x6e1f, cp949: 0xefe5},
		lookupItem{ucs2: 0x6e20, cp949: 0xcbe2},
		lookupItem{ucs2: 0x6e21, cp949: 0xd4a4},
		lookupItem{ucs2: 0x6e23, cp949: 0xdee0},
		lookupItem{ucs2: 0x6e24, cp949: 0xdafd},
		lookupItem{ucs2: 0x6e25, cp949: 0xe4c6},
		lookupItem{ucs2: 0x6e26, cp949: 0xe8be},
		lookupItem{ucs2: 0x6e2b, cp949: 0xe0de},
		lookupItem{ucs2: 0x6e2c, cp949: 0xf6b4},
		lookupItem{ucs2: 0x6e2d, cp949: 0xead2},
		lookupItem{ucs2: 0x6e2f, cp949: 0xf9fb},
		lookupItem{ucs2: 0x6e32, cp949: 0xe0c2},
		lookupItem{ucs2: 0x6e34, cp949: 0xcae4},
		lookupItem{ucs2: 0x6e36, cp949: 0xe7b7},
		lookupItem{ucs2: 0x6e38, cp949: 0xeafd},
		lookupItem{ucs2: 0x6e3a, cp949: 0xd9dd},
		lookupItem{ucs2: 0x6e3c, cp949: 0xdab4},
		lookupItem{ucs2: 0x6e3d, cp949: 0xeeaa},
		lookupItem{ucs2: 0x6e3e, cp949: 0xfbe9},
		lookupItem{ucs2: 0x6e43, cp949: 0xdbcb},
		lookupItem{ucs2: 0x6e44, cp949: 0xdab5},
		lookupItem{ucs2: 0x6e4a, cp949: 0xf1be},
		lookupItem{ucs2: 0x6e4d, cp949: 0xd3ac},
		lookupItem{ucs2: 0x6e56, cp949: 0xfbc9},
		lookupItem{ucs2: 0x6e58, cp949: 0xdfcf},
		lookupItem{ucs2: 0x6e5b, cp949: 0xd3c0},
		lookupItem{ucs2: 0x6e5c, cp949: 0xe3d7},
		lookupItem{ucs2: 0x6e5e, cp949: 0xefe6},
		lookupItem{ucs2: 0x6e5f, cp949: 0xfcd0},
		lookupItem{ucs2: 0x6e67, cp949: 0xe9c0},
		lookupItem{ucs2: 0x6e6b, cp949: 0xf5d3},
		lookupItem{ucs2: 0x6e6e, cp949: 0xecdc},
		lookupItem{ucs2: 0x6e6f, cp949: 0xf7b7},
		lookupItem{ucs2: 0x6e72, cp949: 0xeab8},
		lookupItem{ucs2: 0x6e73, cp949: 0xd1f9},
		lookupItem{ucs2: 0x6e7a, cp949: 0xdcc8},
		lookupItem{ucs2: 0x6e90, cp949: 0xeab9},
		lookupItem{ucs2: 0x6e96, cp949: 0xf1de},
		lookupItem{ucs2: 0x6e9c, cp949: 0xd7b6},
		lookupItem{ucs2: 0x6e9d, cp949: 0xcfb5},
		lookupItem{ucs2: 0x6e9f, cp949: 0xd9a8},
		lookupItem{ucs2: 0x6ea2, cp949: 0xecee},
		lookupItem{ucs2: 0x6ea5, cp949: 0xddaa},
		lookupItem{ucs2: 0x6eaa, cp949: 0xcda2},
		lookupItem{ucs2: 0x6eab, cp949: 0xe8ae},
		lookupItem{ucs2: 0x6eaf, cp949: 0xe1bd},
		lookupItem{ucs2: 0x6eb1, cp949: 0xf2d1},
		lookupItem{ucs2: 0x6eb6, cp949: 0xe9c1},
		lookupItem{ucs2: 0x6eba, cp949: 0xd2fc},
		lookupItem{ucs2: 0x6ec2, cp949: 0xdbb5},
		lookupItem{ucs2: 0x6ec4, cp949: 0xf3e7},
		lookupItem{ucs2: 0x6ec5, cp949: 0xd8fe},
		lookupItem{ucs2: 0x6ec9, cp949: 0xfcd1},
		lookupItem{ucs2: 0x6ecb, cp949: 0xedb2},
		lookupItem{ucs2: 0x6ecc, cp949: 0xf4af},
		lookupItem{ucs2: 0x6ece, cp949: 0xfba3},
		lookupItem{ucs2: 0x6ed1, cp949: 0xfcc1},
		lookupItem{ucs2: 0x6ed3, cp949: 0xeeab},
		lookupItem{ucs2: 0x6ed4, cp949: 0xd4a5},
		lookupItem{ucs2: 0x6eef, cp949: 0xf4f2},
		lookupItem{ucs2: 0x6ef4, cp949: 0xeed9},
		lookupItem{ucs2: 0x6ef8, cp949: 0xfbca},
		lookupItem{ucs2: 0x6efe, cp949: 0xcde3},
		lookupItem{ucs2: 0x6eff, cp949: 0xd8bb},
		lookupItem{ucs2: 0x6f01, cp949: 0xe5db},
		lookupItem{ucs2: 0x6f02, cp949: 0xf8f7},
		lookupItem{ucs2: 0x6f06, cp949: 0xf6d4},
		lookupItem{ucs2: 0x6f0f, cp949: 0xd7a9},
		lookupItem{ucs2: 0x6f11, cp949: 0xcbc9},
		lookupItem{ucs2: 0x6f14, cp949: 0xe6d1},
		lookupItem{ucs2: 0x6f15, cp949: 0xf0cc},
		lookupItem{ucs2: 0x6f20, cp949: 0xd8ae},
		lookupItem{ucs2: 0x6f22, cp949: 0xf9d3},
		lookupItem{ucs2: 0x6f23, cp949: 0xd5fe},
		lookupItem{ucs2: 0x6f2b, cp949: 0xd8bc},
		lookupItem{ucs2: 0x6f2c, cp949: 0xf2b0},
		lookupItem{ucs2: 0x6f31, cp949: 0xe2ab},
		lookupItem{ucs2: 0x6f32, cp949: 0xf3e8},
		lookupItem{ucs2: 0x6f38, cp949: 0xefc2},
		lookupItem{ucs2: 0x6f3f, cp949: 0xedec},
		lookupItem{ucs2: 0x6f41, cp949: 0xe7b8},
		lookupItem{ucs2: 0x6f51, cp949: 0xdafe},
		lookupItem{ucs2: 0x6f54, cp949: 0xccbe},
		lookupItem{ucs2: 0x6f57, cp949: 0xf2fc},
		lookupItem{ucs2: 0x6f58, cp949: 0xdaeb},
		lookupItem{ucs2: 0x6f5a, cp949: 0xe2d8},
		lookupItem{ucs2: 0x6f5b, cp949: 0xedd6},
		lookupItem{ucs2: 0x6f5e, cp949: 0xd6d1},
		lookupItem{ucs2: 0x6f5f, cp949: 0xe0b3},
		lookupItem{ucs2: 0x6f62, cp949: 0xfcd2},
		lookupItem{ucs2: 0x6f64, cp949: 0xebc8},
		lookupItem{ucs2: 0x6f6d, cp949: 0xd3c1},
		lookupItem{ucs2: 0x6f6e, cp949: 0xf0cd},
		lookupItem{ucs2: 0x6f70, cp949: 0xcff7},
		lookupItem{ucs2: 0x6f7a, cp949: 0xedd2},
		lookupItem{ucs2: 0x6f7c, cp949: 0xd4d8},
		lookupItem{ucs2: 0x6f7d, cp949: 0xdcc9},
		lookupItem{ucs2: 0x6f7e, cp949: 0xd7f1},
		lookupItem{ucs2: 0x6f81, cp949: 0xdfbb},
		lookupItem{ucs2: 0x6f84, cp949: 0xf3a5},
		lookupItem{ucs2: 0x6f88, cp949: 0xf4cd},
		lookupItem{ucs2: 0x6f8d, cp949: 0xf1bf},
		lookupItem{ucs2: 0x6f8e, cp949: 0xf8b1},
		lookupItem{ucs2: 0x6f90, cp949: 0xe9fa},
		lookupItem{ucs2: 0x6f94, cp949: 0xfbcb},
		lookupItem{ucs2: 0x6f97, cp949: 0xcad5},
		lookupItem{ucs2: 0x6fa3, cp949: 0xf9d4},
		lookupItem{ucs2: 0x6fa4, cp949: 0xf7ca},
		lookupItem{ucs2: 0x6fa7, cp949: 0xd6c8},
		lookupItem{ucs2: 0x6fae, cp949: 0xfce8},
		lookupItem{ucs2: 0x6faf, cp949: 0xf3bd},
		lookupItem{ucs2: 0x6fb1, cp949: 0xeefe},
		lookupItem{ucs2: 0x6fb3, cp949: 0xe7fe},
		lookupItem{ucs2: 0x6fb9, cp949: 0xd3c2},
		lookupItem{ucs2: 0x6fbe, cp949: 0xd3b6},
		lookupItem{ucs2: 0x6fc0, cp949: 0xccad},
		lookupItem{ucs2: 0x6fc1, cp949: 0xf6fa},
		lookupItem{ucs2: 0x6fc2, cp949: 0xd6b2},
		lookupItem{ucs2: 0x6fc3, cp949: 0xd2d8},
		lookupItem{ucs2: 0x6fca, cp949: 0xe7d8},
		lookupItem{ucs2: 0x6fd5, cp949: 0xe3a5},
		lookupItem{ucs2: 0x6fda, cp949: 0xe7b9},
		lookupItem{ucs2: 0x6fdf, cp949: 0xf0ad},
		lookupItem{ucs2: 0x6fe0, cp949: 0xfbcc},
		lookupItem{ucs2: 0x6fe1, cp949: 0xeba1},
		lookupItem{ucs2: 0x6fe4, cp949: 0xd4a6},
		lookupItem{ucs2: 0x6fe9, cp949: 0xfbcd},
		lookupItem{ucs2: 0x6feb, cp949: 0xd5bd},
		lookupItem{ucs2: 0x6fec, cp949: 0xf1df},
		lookupItem{ucs2: 0x6fef, cp949: 0xf6fb},
		lookupItem{ucs2: 0x6ff1, cp949: 0xdeb4},
		lookupItem{ucs2: 0x6ffe, cp949: 0xd5eb},
		lookupItem{ucs2: 0x7001, cp949: 0xe5c8},
		lookupItem{ucs2: 0x7005, cp949: 0xfba4},
		lookupItem{ucs2: 0x7006, cp949: 0xd4b9},
		lookupItem{ucs2: 0x7009, cp949: 0xdee1},
		lookupItem{ucs2: 0x700b, cp949: 0xe4a3},
		lookupItem{ucs2: 0x700f, cp949: 0xd7b7},
		lookupItem{ucs2: 0x7011, cp949: 0xf8ee},
		lookupItem{ucs2: 0x7015, cp949: 0xdeb5},
		lookupItem{ucs2: 0x7018, cp949: 0xd6d2},
		lookupItem{ucs2: 0x701a, cp949: 0xf9d5},
		lookupItem{ucs2: 0x701b, cp949: 0xe7ba},
		lookupItem{ucs2: 0x701c, cp949: 0xebd5},
		lookupItem{ucs2: 0x701d, cp949: 0xd5f7},
		lookupItem{ucs2: 0x701e, cp949: 0xefe7},
		lookupItem{ucs2: 0x701f, cp949: 0xe1be},
		lookupItem{ucs2: 0x7023, cp949: 0xfaae},
		lookupItem{ucs2: 0x7027, cp949: 0xd6e9},
		lookupItem{ucs2: 0x7028, cp949: 0xd6ee},
		lookupItem{ucs2: 0x702f, cp949: 0xe7bb},
		lookupItem{ucs2: 0x7037, cp949: 0xeccb},
		lookupItem{ucs2: 0x703e, cp949: 0xd5b3},
		lookupItem{ucs2: 0x704c, cp949: 0xceb4},
		lookupItem{ucs2: 0x7050, cp949: 0xfba5},
		lookupItem{ucs2: 0x7051, cp949: 0xe1ee},
		lookupItem{ucs2: 0x7058, cp949: 0xf7a8},
		lookupItem{ucs2: 0x705d, cp949: 0xfbce},
		lookupItem{ucs2: 0x7063, cp949: 0xd8bd},
		lookupItem{ucs2: 0x706b, cp949: 0xfbfd},
		lookupItem{ucs2: 0x7070, cp949: 0xfce9},
		lookupItem{ucs2: 0x7078, cp949: 0xcfb6},
		lookupItem{ucs2: 0x707c, cp949: 0xedc7},
		lookupItem{ucs2: 0x707d, cp949: 0xeeac},
		lookupItem{ucs2: 0x7085, cp949: 0xccdd},
		lookupItem{ucs2: 0x708a, cp949: 0xf6a7},
		lookupItem{ucs2: 0x708e, cp949: 0xe6fa},
		lookupItem{ucs2: 0x7092, cp949: 0xf5a4},
		lookupItem{ucs2: 0x7098, cp949: 0xfddc},
		lookupItem{ucs2: 0x7099, cp949: 0xedb3},
		lookupItem{ucs2: 0x709a, cp949: 0xcec9},
		lookupItem{ucs2: 0x70a1, cp949: 0xefe8},
		lookupItem{ucs2: 0x70a4, cp949: 0xe1bf},
		lookupItem{ucs2: 0x70ab, cp949: 0xfadb},
		lookupItem{ucs2: 0x70ac, cp949: 0xcbe3},
		lookupItem{ucs2: 0x70ad, cp949: 0xf7a9},
		lookupItem{ucs2: 0x70af, cp949: 0xfba6},
		lookupItem{ucs2: 0x70b3, cp949: 0xdcb9},
		lookupItem{ucs2: 0x70b7, cp949: 0xf1c0},
		lookupItem{ucs2: 0x70b8, cp949: 0xedc8},
		lookupItem{ucs2: 0x70b9, cp949: 0xefc3},
		lookupItem{ucs2: 0x70c8, cp949: 0xd6ad},
		lookupItem{ucs2: 0x70cb, cp949: 0xfdce},
		lookupItem{ucs2: 0x70cf, cp949: 0xe8a1},
		lookupItem{ucs2: 0x70d8, cp949: 0xfbf4},
		lookupItem{ucs2: 0x70d9, cp949: 0xd5a7},
		lookupItem{ucs2: 0x70dd, cp949: 0xf1f6},
		lookupItem{ucs2: 0x70df, cp949: 0xe6d3},
		lookupItem{ucs2: 0x70f1, cp949: 0xccde},
		lookupItem{ucs2: 0x70f9, cp949: 0xf8b2},
		lookupItem{ucs2: 0x70fd, cp949: 0xdceb},
		lookupItem{ucs2: 0x7104, cp949: 0xfdb6},
		lookupItem{ucs2: 0x7109, cp949: 0xe5ea},
		lookupItem{ucs2: 0x710c, cp949: 0xf1e0},
		lookupItem{ucs2: 0x7119, cp949: 0xdbcc},
		lookupItem{ucs2: 0x711a, cp949: 0xddcd},
		lookupItem{ucs2: 0x711e, cp949: 0xd4c8},
		lookupItem{ucs2: 0x7121, cp949: 0xd9ed},
		lookupItem{ucs2: 0x7126, cp949: 0xf5a5},
		lookupItem{ucs2: 0x7130, cp949: 0xe6fb},
		lookupItem{ucs2: 0x7136, cp949: 0xe6d4},
		lookupItem{ucs2: 0x7147, cp949: 0xfdc8},
		lookupItem{ucs2: 0x7149, cp949: 0xd6a1},
		lookupItem{ucs2: 0x714a, cp949: 0xfdbf},
		lookupItem{ucs2: 0x714c, cp949: 0xfcd3},
		lookupItem{ucs2: 0x714e, cp949: 0xefa1},
		lookupItem{ucs2: 0x7150, cp949: 0xe7bc},
		lookupItem{ucs2: 0x7156, cp949: 0xd1ee},
		lookupItem{ucs2: 0x7159, cp949: 0xe6d5},
		lookupItem{ucs2: 0x715c, cp949: 0xe9f2},
		lookupItem{ucs2: 0x715e, cp949: 0xdfb0},
		lookupItem{ucs2: 0x7164, cp949: 0xd8e0},
		lookupItem{ucs2: 0x7165, cp949: 0xfcba},
		lookupItem{ucs2: 0x7166, cp949: 0xfdaf},
		lookupItem{ucs2: 0x7167, cp949: 0xf0ce},
		lookupItem{ucs2: 0x7169, cp949: 0xdbe1},
		lookupItem{ucs2: 0x716c, cp949: 0xe5c9},
".
Definition text_cp949_lookup_to_013 : string :=
"		lookupItem{ucs2: 0x716e, cp949: 0xedb4},
		lookupItem{ucs2: 0x717d, cp949: 0xe0c3},
		lookupItem{ucs2: 0x7184, cp949: 0xe3d8},
		lookupItem{ucs2: 0x7189, cp949: 0xe9fb},
		lookupItem{ucs2: 0x718a, cp949: 0xeaa8},
		lookupItem{ucs2: 0x718f, cp949: 0xfdb7},
		lookupItem{ucs2: 0x7192, cp949: 0xfba7},
		lookupItem{ucs2: 0x7194, cp949: 0xe9c2},
		lookupItem{ucs2: 0x7199, cp949: 0xfdf7},
		lookupItem{ucs2: 0x719f, cp949: 0xe2d9},
		lookupItem{ucs2: 0x71a2, cp949: 0xdcec},
		lookupItem{ucs2: 0x71ac, cp949: 0xe8a2},
		lookupItem{ucs2: 0x71b1, cp949: 0xe6f0},
		lookupItem{ucs2: 0x71b9, cp949: 0xfdf8},
		lookupItem{ucs2: 0x71ba, cp949: 0xfdf9},
		lookupItem{ucs2: 0x71be, cp949: 0xf6bf},
		lookupItem{ucs2: 0x71c1, cp949: 0xe7a7},
		lookupItem{ucs2: 0x71c3, cp949: 0xe6d7},
		lookupItem{ucs2: 0x71c8, cp949: 0xd4f3},
		lookupItem{ucs2: 0x71c9, cp949: 0xd4c9},
		lookupItem{ucs2: 0x71ce, cp949: 0xd6fa},
		lookupItem{ucs2: 0x71d0, cp949: 0xd7f2},
		lookupItem{ucs2: 0x71d2, cp949: 0xe1c0},
		lookupItem{ucs2: 0x71d4, cp949: 0xdbe2},
		lookupItem{ucs2: 0x71d5, cp949: 0xe6d8},
		lookupItem{ucs2: 0x71df, cp949: 0xe7bd},
		lookupItem{ucs2: 0x71e5, cp949: 0xf0cf},
		lookupItem{ucs2: 0x71e6, cp949: 0xf3be},
		lookupItem{ucs2: 0x71e7, cp949: 0xe2ac},
		lookupItem{ucs2: 0x71ed, cp949: 0xf5b7},
		lookupItem{ucs2: 0x71ee, cp949: 0xe0f0},
		lookupItem{ucs2: 0x71fb, cp949: 0xfdb8},
		lookupItem{ucs2: 0x71fc, cp949: 0xe3e8},
		lookupItem{ucs2: 0x71fe, cp949: 0xd4a7},
		lookupItem{ucs2: 0x71ff, cp949: 0xe8fc},
		lookupItem{ucs2: 0x7200, cp949: 0xfad2},
		lookupItem{ucs2: 0x7206, cp949: 0xf8ef},
		lookupItem{ucs2: 0x7210, cp949: 0xd6d3},
		lookupItem{ucs2: 0x721b, cp949: 0xd5b4},
		lookupItem{ucs2: 0x722a, cp949: 0xf0d0},
		lookupItem{ucs2: 0x722c, cp949: 0xf7f0},
		lookupItem{ucs2: 0x722d, cp949: 0xeeb3},
		lookupItem{ucs2: 0x7230, cp949: 0xeaba},
		lookupItem{ucs2: 0x7232, cp949: 0xead3},
		lookupItem{ucs2: 0x7235, cp949: 0xedc9},
		lookupItem{ucs2: 0x7236, cp949: 0xddab},
		lookupItem{ucs2: 0x723a, cp949: 0xe5ac},
		lookupItem{ucs2: 0x723b, cp949: 0xfda1},
		lookupItem{ucs2: 0x723d, cp949: 0xdfd0},
		lookupItem{ucs2: 0x723e, cp949: 0xecb3},
		lookupItem{ucs2: 0x7240, cp949: 0xdfd1},
		lookupItem{ucs2: 0x7246, cp949: 0xeded},
		lookupItem{ucs2: 0x7247, cp949: 0xf8b8},
		lookupItem{ucs2: 0x7248, cp949: 0xf7fa},
		lookupItem{ucs2: 0x724c, cp949: 0xf8ab},
		lookupItem{ucs2: 0x7252, cp949: 0xf4e0},
		lookupItem{ucs2: 0x7258, cp949: 0xd4ba},
		lookupItem{ucs2: 0x7259, cp949: 0xe4b3},
		lookupItem{ucs2: 0x725b, cp949: 0xe9da},
		lookupItem{ucs2: 0x725d, cp949: 0xdeb6},
		lookupItem{ucs2: 0x725f, cp949: 0xd9bf},
		lookupItem{ucs2: 0x7261, cp949: 0xd9c0},
		lookupItem{ucs2: 0x7262, cp949: 0xd6ef},
		lookupItem{ucs2: 0x7267, cp949: 0xd9cc},
		lookupItem{ucs2: 0x7269, cp949: 0xdaaa},
		lookupItem{ucs2: 0x7272, cp949: 0xdfe5},
		lookupItem{ucs2: 0x7279, cp949: 0xf7e5},
		lookupItem{ucs2: 0x727d, cp949: 0xccb2},
		lookupItem{ucs2: 0x7280, cp949: 0xdff9},
		lookupItem{ucs2: 0x7281, cp949: 0xd7e0},
		lookupItem{ucs2: 0x72a2, cp949: 0xd4bb},
		lookupItem{ucs2: 0x72a7, cp949: 0xfdfa},
		lookupItem{ucs2: 0x72ac, cp949: 0xccb3},
		lookupItem{ucs2: 0x72af, cp949: 0xdbf3},
		lookupItem{ucs2: 0x72c0, cp949: 0xdfd2},
		lookupItem{ucs2: 0x72c2, cp949: 0xceca},
		lookupItem{ucs2: 0x72c4, cp949: 0xeeda},
		lookupItem{ucs2: 0x72ce, cp949: 0xe4e4},
		lookupItem{ucs2: 0x72d0, cp949: 0xfbcf},
		lookupItem{ucs2: 0x72d7, cp949: 0xcfb7},
		lookupItem{ucs2: 0x72d9, cp949: 0xeec3},
		lookupItem{ucs2: 0x72e1, cp949: 0xceea},
		lookupItem{ucs2: 0x72e9, cp949: 0xe2ad},
		lookupItem{ucs2: 0x72f8, cp949: 0xd7e1},
		lookupItem{ucs2: 0x72f9, cp949: 0xfaf5},
		lookupItem{ucs2: 0x72fc, cp949: 0xd5c9},
		lookupItem{ucs2: 0x72fd, cp949: 0xf8ac},
		lookupItem{ucs2: 0x730a, cp949: 0xe7d9},
		lookupItem{ucs2: 0x7316, cp949: 0xf3e9},
		lookupItem{ucs2: 0x731b, cp949: 0xd8ed},
		lookupItem{ucs2: 0x731c, cp949: 0xe3c4},
		lookupItem{ucs2: 0x731d, cp949: 0xf0f1},
		lookupItem{ucs2: 0x7325, cp949: 0xe8e5},
		lookupItem{ucs2: 0x7329, cp949: 0xe0fa},
		lookupItem{ucs2: 0x732a, cp949: 0xeec4},
		lookupItem{ucs2: 0x732b, cp949: 0xd9de},
		lookupItem{ucs2: 0x7336, cp949: 0xeba2},
		lookupItem{ucs2: 0x7337, cp949: 0xeba3},
		lookupItem{ucs2: 0x733e, cp949: 0xfcc2},
		lookupItem{ucs2: 0x733f, cp949: 0xeabb},
		lookupItem{ucs2: 0x7344, cp949: 0xe8ab},
		lookupItem{ucs2: 0x7345, cp949: 0xdee2},
		lookupItem{ucs2: 0x7350, cp949: 0xedef},
		lookupItem{ucs2: 0x7352, cp949: 0xe8a3},
		lookupItem{ucs2: 0x7357, cp949: 0xcff1},
		lookupItem{ucs2: 0x7368, cp949: 0xd4bc},
		lookupItem{ucs2: 0x736a, cp949: 0xfcea},
		lookupItem{ucs2: 0x7370, cp949: 0xe7be},
		lookupItem{ucs2: 0x7372, cp949: 0xfcf2},
		lookupItem{ucs2: 0x7375, cp949: 0xd6b4},
		lookupItem{ucs2: 0x7378, cp949: 0xe2ae},
		lookupItem{ucs2: 0x737a, cp949: 0xd3b7},
		lookupItem{ucs2: 0x737b, cp949: 0xfacc},
		lookupItem{ucs2: 0x7384, cp949: 0xfadc},
		lookupItem{ucs2: 0x7386, cp949: 0xedb5},
		lookupItem{ucs2: 0x7387, cp949: 0xe1e3},
		lookupItem{ucs2: 0x7389, cp949: 0xe8ac},
		lookupItem{ucs2: 0x738b, cp949: 0xe8dd},
		lookupItem{ucs2: 0x738e, cp949: 0xefe9},
		lookupItem{ucs2: 0x7394, cp949: 0xf4bd},
		lookupItem{ucs2: 0x7396, cp949: 0xcfb8},
		lookupItem{ucs2: 0x7397, cp949: 0xe9db},
		lookupItem{ucs2: 0x7398, cp949: 0xd1ac},
		lookupItem{ucs2: 0x739f, cp949: 0xdac7},
		lookupItem{ucs2: 0x73a7, cp949: 0xebc9},
		lookupItem{ucs2: 0x73a9, cp949: 0xe8cc},
		lookupItem{ucs2: 0x73ad, cp949: 0xdeb7},
		lookupItem{ucs2: 0x73b2, cp949: 0xd6bc},
		lookupItem{ucs2: 0x73b3, cp949: 0xd3e5},
		lookupItem{ucs2: 0x73b9, cp949: 0xfadd},
		lookupItem{ucs2: 0x73c0, cp949: 0xdad6},
		lookupItem{ucs2: 0x73c2, cp949: 0xcab1},
		lookupItem{ucs2: 0x73c9, cp949: 0xdac8},
		lookupItem{ucs2: 0x73ca, cp949: 0xdfa6},
		lookupItem{ucs2: 0x73cc, cp949: 0xf9b3},
		lookupItem{ucs2: 0x73cd, cp949: 0xf2d2},
		lookupItem{ucs2: 0x73cf, cp949: 0xcac4},
		lookupItem{ucs2: 0x73d6, cp949: 0xcecb},
		lookupItem{ucs2: 0x73d9, cp949: 0xcdf5},
		lookupItem{ucs2: 0x73dd, cp949: 0xfdb0},
		lookupItem{ucs2: 0x73de, cp949: 0xd5a8},
		lookupItem{ucs2: 0x73e0, cp949: 0xf1c1},
		lookupItem{ucs2: 0x73e3, cp949: 0xe2e9},
		lookupItem{ucs2: 0x73e4, cp949: 0xdcca},
		lookupItem{ucs2: 0x73e5, cp949: 0xecb4},
		lookupItem{ucs2: 0x73e6, cp949: 0xfac0},
		lookupItem{ucs2: 0x73e9, cp949: 0xfba8},
		lookupItem{ucs2: 0x73ea, cp949: 0xd0a8},
		lookupItem{ucs2: 0x73ed, cp949: 0xdaec},
		lookupItem{ucs2: 0x73f7, cp949: 0xd9ee},
		lookupItem{ucs2: 0x73f9, cp949: 0xe0fb},
		lookupItem{ucs2: 0x73fd, cp949: 0xefea},
		lookupItem{ucs2: 0x73fe, cp949: 0xfade},
		lookupItem{ucs2: 0x7401, cp949: 0xe0c4},
		lookupItem{ucs2: 0x7403, cp949: 0xcfb9},
		lookupItem{ucs2: 0x7405, cp949: 0xd5ca},
		lookupItem{ucs2: 0x7406, cp949: 0xd7e2},
		lookupItem{ucs2: 0x7407, cp949: 0xe2af},
		lookupItem{ucs2: 0x7409, cp949: 0xd7b8},
		lookupItem{ucs2: 0x7413, cp949: 0xe8cd},
		lookupItem{ucs2: 0x741b, cp949: 0xf6da},
		lookupItem{ucs2: 0x7420, cp949: 0xefa2},
		lookupItem{ucs2: 0x7421, cp949: 0xe2da},
		lookupItem{ucs2: 0x7422, cp949: 0xf6fc},
		lookupItem{ucs2: 0x7425, cp949: 0xfbd0},
		lookupItem{ucs2: 0x7426, cp949: 0xd1ad},
		lookupItem{ucs2: 0x7428, cp949: 0xcde4},
		lookupItem{ucs2: 0x742a, cp949: 0xd1ae},
		lookupItem{ucs2: 0x742b, cp949: 0xdced},
		lookupItem{ucs2: 0x742c, cp949: 0xe8ce},
		lookupItem{ucs2: 0x742e, cp949: 0xf0f9},
		lookupItem{ucs2: 0x742f, cp949: 0xceb5},
		lookupItem{ucs2: 0x7430, cp949: 0xe6fc},
		lookupItem{ucs2: 0x7433, cp949: 0xd7fb},
		lookupItem{ucs2: 0x7434, cp949: 0xd0d6},
		lookupItem{ucs2: 0x7435, cp949: 0xddf5},
		lookupItem{ucs2: 0x7436, cp949: 0xf7f1},
		lookupItem{ucs2: 0x7438, cp949: 0xf6fd},
		lookupItem{ucs2: 0x743a, cp949: 0xdbf7},
		lookupItem{ucs2: 0x743f, cp949: 0xfbea},
		lookupItem{ucs2: 0x7440, cp949: 0xe9dc},
		lookupItem{ucs2: 0x7441, cp949: 0xd9c1},
		lookupItem{ucs2: 0x7443, cp949: 0xf5f2},
		lookupItem{ucs2: 0x7444, cp949: 0xe0c5},
		lookupItem{ucs2: 0x744b, cp949: 0xead4},
		lookupItem{ucs2: 0x7455, cp949: 0xf9c2},
		lookupItem{ucs2: 0x7457, cp949: 0xeabc},
		lookupItem{ucs2: 0x7459, cp949: 0xd2c5},
		lookupItem{ucs2: 0x745a, cp949: 0xfbd1},
		lookupItem{ucs2: 0x745b, cp949: 0xe7c0},
		lookupItem{ucs2: 0x745c, cp949: 0xeba5},
		lookupItem{ucs2: 0x745e, cp949: 0xdffa},
		lookupItem{ucs2: 0x745f, cp949: 0xe3a2},
		lookupItem{ucs2: 0x7460, cp949: 0xd7b9},
		lookupItem{ucs2: 0x7462, cp949: 0xe9c3},
		lookupItem{ucs2: 0x7464, cp949: 0xe8fd},
		lookupItem{ucs2: 0x7465, cp949: 0xe8af},
		lookupItem{ucs2: 0x7468, cp949: 0xf2d3},
		lookupItem{ucs2: 0x7469, cp949: 0xfba9},
		lookupItem{ucs2: 0x746a, cp949: 0xd8a5},
		lookupItem{ucs2: 0x746f, cp949: 0xd5cb},
		lookupItem{ucs2: 0x747e, cp949: 0xd0c8},
		lookupItem{ucs2: 0x7482, cp949: 0xd1af},
		lookupItem{ucs2: 0x7483, cp949: 0xd7e3},
		lookupItem{ucs2: 0x7487, cp949: 0xe0c6},
		lookupItem{ucs2: 0x7489, cp949: 0xd6a2},
		lookupItem{ucs2: 0x748b, cp949: 0xedf0},
		lookupItem{ucs2: 0x7498, cp949: 0xd7f3},
		lookupItem{ucs2: 0x749c, cp949: 0xfcd4},
		lookupItem{ucs2: 0x749e, cp949: 0xdad7},
		lookupItem{ucs2: 0x749f, cp949: 0xccdf},
		lookupItem{ucs2: 0x74a1, cp949: 0xf2d4},
		lookupItem{ucs2: 0x74a3, cp949: 0xd1b0},
		lookupItem{ucs2: 0x74a5, cp949: 0xcce0},
		lookupItem{ucs2: 0x74a7, cp949: 0xdbfd},
		lookupItem{ucs2: 0x74a8, cp949: 0xf3bf},
		lookupItem{ucs2: 0x74aa, cp949: 0xf0d1},
		lookupItem{ucs2: 0x74b0, cp949: 0xfcbb},
		lookupItem{ucs2: 0x74b2, cp949: 0xe2b0},
		lookupItem{ucs2: 0x74b5, cp949: 0xe6a5},
		lookupItem{ucs2: 0x74b9, cp949: 0xe2db},
		lookupItem{ucs2: 0x74bd, cp949: 0xdfde},
		lookupItem{ucs2: 0x74bf, cp949: 0xe0c7},
		lookupItem{ucs2: 0x74c6, cp949: 0xf2ef},
		lookupItem{ucs2: 0x74ca, cp949: 0xcce1},
		lookupItem{ucs2: 0x74cf, cp949: 0xd6ea},
		lookupItem{ucs2: 0x74d4, cp949: 0xe7c2},
		lookupItem{ucs2: 0x74d8, cp949: 0xceb6},
		lookupItem{ucs2: 0x74da, cp949: 0xf3c0},
		lookupItem{ucs2: 0x74dc, cp949: 0xcdfe},
		lookupItem{ucs2: 0x74e0, cp949: 0xfbd2},
		lookupItem{ucs2: 0x74e2, cp949: 0xf8f8},
		lookupItem{ucs2: 0x74e3, cp949: 0xf7fb},
		lookupItem{ucs2: 0x74e6, cp949: 0xe8bf},
		lookupItem{ucs2: 0x74ee, cp949: 0xe8b7},
		lookupItem{ucs2: 0x74f7, cp949: 0xedb6},
		lookupItem{ucs2: 0x7501, cp949: 0xdcba},
		lookupItem{ucs2: 0x7504, cp949: 0xccb4},
		lookupItem{ucs2: 0x7511, cp949: 0xf1f7},
		lookupItem{ucs2: 0x7515, cp949: 0xe8b8},
		lookupItem{ucs2: 0x7518, cp949: 0xcaf6},
		lookupItem{ucs2: 0x751a, cp949: 0xe4a4},
		lookupItem{ucs2: 0x751b, cp949: 0xf4d6},
		lookupItem{ucs2: 0x751f, cp949: 0xdfe6},
		lookupItem{ucs2: 0x7523, cp949: 0xdfa7},
		lookupItem{ucs2: 0x7525, cp949: 0xdfe7},
		lookupItem{ucs2: 0x7526, cp949: 0xe1c1},
		lookupItem{ucs2: 0x7528, cp949: 0xe9c4},
		lookupItem{ucs2: 0x752b, cp949: 0xdccb},
		lookupItem{ucs2: 0x752c, cp949: 0xe9c5},
".
Definition text_cp949_lookup_to_014 : string :=
"		lookupItem{ucs2: 0x7530, cp949: 0xefa3},
		lookupItem{ucs2: 0x7531, cp949: 0xeba6},
		lookupItem{ucs2: 0x7532, cp949: 0xcba3},
		lookupItem{ucs2: 0x7533, cp949: 0xe3e9},
		lookupItem{ucs2: 0x7537, cp949: 0xd1fb},
		lookupItem{ucs2: 0x7538, cp949: 0xefa4},
		lookupItem{ucs2: 0x753a, cp949: 0xefeb},
		lookupItem{ucs2: 0x7547, cp949: 0xd0b4},
		lookupItem{ucs2: 0x754c, cp949: 0xcda3},
		lookupItem{ucs2: 0x754f, cp949: 0xe8e6},
		lookupItem{ucs2: 0x7551, cp949: 0xefa5},
		lookupItem{ucs2: 0x7553, cp949: 0xd3cc},
		lookupItem{ucs2: 0x7554, cp949: 0xdaed},
		lookupItem{ucs2: 0x7559, cp949: 0xd7ba},
		lookupItem{ucs2: 0x755b, cp949: 0xf2d5},
		lookupItem{ucs2: 0x755c, cp949: 0xf5e5},
		lookupItem{ucs2: 0x755d, cp949: 0xd9ef},
		lookupItem{ucs2: 0x7562, cp949: 0xf9b4},
		lookupItem{ucs2: 0x7565, cp949: 0xd5d4},
		lookupItem{ucs2: 0x7566, cp949: 0xfdcf},
		lookupItem{ucs2: 0x756a, cp949: 0xdbe3},
		lookupItem{ucs2: 0x756f, cp949: 0xf1e1},
		lookupItem{ucs2: 0x7570, cp949: 0xecb6},
		lookupItem{ucs2: 0x7575, cp949: 0xfbfe},
		lookupItem{ucs2: 0x7576, cp949: 0xd3d7},
		lookupItem{ucs2: 0x7578, cp949: 0xd1b1},
		lookupItem{ucs2: 0x757a, cp949: 0xcbb1},
		lookupItem{ucs2: 0x757f, cp949: 0xd1b2},
		lookupItem{ucs2: 0x7586, cp949: 0xcbb2},
		lookupItem{ucs2: 0x7587, cp949: 0xf1c2},
		lookupItem{ucs2: 0x758a, cp949: 0xf4e1},
		lookupItem{ucs2: 0x758b, cp949: 0xf9b5},
		lookupItem{ucs2: 0x758e, cp949: 0xe1c3},
		lookupItem{ucs2: 0x758f, cp949: 0xe1c2},
		lookupItem{ucs2: 0x7591, cp949: 0xebf7},
		lookupItem{ucs2: 0x759d, cp949: 0xdfa8},
		lookupItem{ucs2: 0x75a5, cp949: 0xcbca},
		lookupItem{ucs2: 0x75ab, cp949: 0xe6b9},
		lookupItem{ucs2: 0x75b1, cp949: 0xf8de},
		lookupItem{ucs2: 0x75b2, cp949: 0xf9aa},
		lookupItem{ucs2: 0x75b3, cp949: 0xcaf7},
		lookupItem{ucs2: 0x75b5, cp949: 0xedb7},
		lookupItem{ucs2: 0x75b8, cp949: 0xd3b8},
		lookupItem{ucs2: 0x75b9, cp949: 0xf2d6},
		lookupItem{ucs2: 0x75bc, cp949: 0xd4d9},
		lookupItem{ucs2: 0x75bd, cp949: 0xeec5},
		lookupItem{ucs2: 0x75be, cp949: 0xf2f0},
		lookupItem{ucs2: 0x75c2, cp949: 0xcab2},
		lookupItem{ucs2: 0x75c5, cp949: 0xdcbb},
		lookupItem{ucs2: 0x75c7, cp949: 0xf1f8},
		lookupItem{ucs2: 0x75cd, cp949: 0xecb7},
		lookupItem{ucs2: 0x75d2, cp949: 0xe5ca},
		lookupItem{ucs2: 0x75d4, cp949: 0xf6c0},
		lookupItem{ucs2: 0x75d5, cp949: 0xfddd},
		lookupItem{ucs2: 0x75d8, cp949: 0xd4e3},
		lookupItem{ucs2: 0x75d9, cp949: 0xcce2},
		lookupItem{ucs2: 0x75db, cp949: 0xf7d4},
		lookupItem{ucs2: 0x75e2, cp949: 0xd7e5},
		lookupItem{ucs2: 0x75f0, cp949: 0xd3c3},
		lookupItem{ucs2: 0x75f2, cp949: 0xd8a6},
		lookupItem{ucs2: 0x75f4, cp949: 0xf6c1},
		lookupItem{ucs2: 0x75fa, cp949: 0xddf6},
		lookupItem{ucs2: 0x75fc, cp949: 0xcdc0},
		lookupItem{ucs2: 0x7600, cp949: 0xe5dc},
		lookupItem{ucs2: 0x760d, cp949: 0xe5cb},
		lookupItem{ucs2: 0x7619, cp949: 0xe1c4},
		lookupItem{ucs2: 0x761f, cp949: 0xe8b0},
		lookupItem{ucs2: 0x7620, cp949: 0xf4b0},
		lookupItem{ucs2: 0x7621, cp949: 0xf3ea},
		lookupItem{ucs2: 0x7622, cp949: 0xdaee},
		lookupItem{ucs2: 0x7624, cp949: 0xd7bb},
		lookupItem{ucs2: 0x7626, cp949: 0xe2b1},
		lookupItem{ucs2: 0x763b, cp949: 0xd7aa},
		lookupItem{ucs2: 0x7642, cp949: 0xd6fb},
		lookupItem{ucs2: 0x764c, cp949: 0xe4df},
		lookupItem{ucs2: 0x764e, cp949: 0xcad6},
		lookupItem{ucs2: 0x7652, cp949: 0xeba8},
		lookupItem{ucs2: 0x7656, cp949: 0xdbfe},
		lookupItem{ucs2: 0x7661, cp949: 0xf6c2},
		lookupItem{ucs2: 0x7664, cp949: 0xefbb},
		lookupItem{ucs2: 0x7669, cp949: 0xd4fd},
		lookupItem{ucs2: 0x766c, cp949: 0xe0c8},
		lookupItem{ucs2: 0x7670, cp949: 0xe8b9},
		lookupItem{ucs2: 0x7672, cp949: 0xefa6},
		lookupItem{ucs2: 0x7678, cp949: 0xcda4},
		lookupItem{ucs2: 0x767b, cp949: 0xd4f4},
		lookupItem{ucs2: 0x767c, cp949: 0xdba1},
		lookupItem{ucs2: 0x767d, cp949: 0xdbdc},
		lookupItem{ucs2: 0x767e, cp949: 0xdbdd},
		lookupItem{ucs2: 0x7684, cp949: 0xeedc},
		lookupItem{ucs2: 0x7686, cp949: 0xcbcb},
		lookupItem{ucs2: 0x7687, cp949: 0xfcd5},
		lookupItem{ucs2: 0x768e, cp949: 0xceeb},
		lookupItem{ucs2: 0x7690, cp949: 0xcdc1},
		lookupItem{ucs2: 0x7693, cp949: 0xfbd3},
		lookupItem{ucs2: 0x76ae, cp949: 0xf9ab},
		lookupItem{ucs2: 0x76ba, cp949: 0xf5d4},
		lookupItem{ucs2: 0x76bf, cp949: 0xd9a9},
		lookupItem{ucs2: 0x76c2, cp949: 0xe9dd},
		lookupItem{ucs2: 0x76c3, cp949: 0xdbcd},
		lookupItem{ucs2: 0x76c6, cp949: 0xddce},
		lookupItem{ucs2: 0x76c8, cp949: 0xe7c3},
		lookupItem{ucs2: 0x76ca, cp949: 0xeccc},
		lookupItem{ucs2: 0x76d2, cp949: 0xf9ec},
		lookupItem{ucs2: 0x76d6, cp949: 0xcbcc},
		lookupItem{ucs2: 0x76db, cp949: 0xe0fc},
		lookupItem{ucs2: 0x76dc, cp949: 0xd4a8},
		lookupItem{ucs2: 0x76de, cp949: 0xedd3},
		lookupItem{ucs2: 0x76df, cp949: 0xd8ef},
		lookupItem{ucs2: 0x76e1, cp949: 0xf2d7},
		lookupItem{ucs2: 0x76e3, cp949: 0xcaf8},
		lookupItem{ucs2: 0x76e4, cp949: 0xdaef},
		lookupItem{ucs2: 0x76e7, cp949: 0xd6d4},
		lookupItem{ucs2: 0x76ee, cp949: 0xd9cd},
		lookupItem{ucs2: 0x76f2, cp949: 0xd8ee},
		lookupItem{ucs2: 0x76f4, cp949: 0xf2c1},
		lookupItem{ucs2: 0x76f8, cp949: 0xdfd3},
		lookupItem{ucs2: 0x76fc, cp949: 0xdaf0},
		lookupItem{ucs2: 0x76fe, cp949: 0xe2ea},
		lookupItem{ucs2: 0x7701, cp949: 0xe0fd},
		lookupItem{ucs2: 0x7704, cp949: 0xd8f8},
		lookupItem{ucs2: 0x7708, cp949: 0xf7af},
		lookupItem{ucs2: 0x7709, cp949: 0xdab6},
		lookupItem{ucs2: 0x770b, cp949: 0xcad7},
		lookupItem{ucs2: 0x771e, cp949: 0xf2d8},
		lookupItem{ucs2: 0x7720, cp949: 0xd8f9},
		lookupItem{ucs2: 0x7729, cp949: 0xfadf},
		lookupItem{ucs2: 0x7737, cp949: 0xcfef},
		lookupItem{ucs2: 0x7738, cp949: 0xd9c2},
		lookupItem{ucs2: 0x773a, cp949: 0xf0d2},
		lookupItem{ucs2: 0x773c, cp949: 0xe4d1},
		lookupItem{ucs2: 0x7740, cp949: 0xf3b7},
		lookupItem{ucs2: 0x774d, cp949: 0xfae0},
		lookupItem{ucs2: 0x775b, cp949: 0xefec},
		lookupItem{ucs2: 0x7761, cp949: 0xe2b2},
		lookupItem{ucs2: 0x7763, cp949: 0xd4bd},
		lookupItem{ucs2: 0x7766, cp949: 0xd9ce},
		lookupItem{ucs2: 0x776b, cp949: 0xf4e2},
		lookupItem{ucs2: 0x7779, cp949: 0xd4a9},
		lookupItem{ucs2: 0x777e, cp949: 0xcdc2},
		lookupItem{ucs2: 0x777f, cp949: 0xe7da},
		lookupItem{ucs2: 0x778b, cp949: 0xf2d9},
		lookupItem{ucs2: 0x7791, cp949: 0xd9aa},
		lookupItem{ucs2: 0x779e, cp949: 0xd8be},
		lookupItem{ucs2: 0x77a5, cp949: 0xdcad},
		lookupItem{ucs2: 0x77ac, cp949: 0xe2eb},
		lookupItem{ucs2: 0x77ad, cp949: 0xd6fc},
		lookupItem{ucs2: 0x77b0, cp949: 0xcaf9},
		lookupItem{ucs2: 0x77b3, cp949: 0xd4da},
		lookupItem{ucs2: 0x77bb, cp949: 0xf4d7},
		lookupItem{ucs2: 0x77bc, cp949: 0xcca1},
		lookupItem{ucs2: 0x77bf, cp949: 0xcfba},
		lookupItem{ucs2: 0x77d7, cp949: 0xf5b8},
		lookupItem{ucs2: 0x77db, cp949: 0xd9c3},
		lookupItem{ucs2: 0x77dc, cp949: 0xd0e8},
		lookupItem{ucs2: 0x77e2, cp949: 0xe3c5},
		lookupItem{ucs2: 0x77e3, cp949: 0xebf8},
		lookupItem{ucs2: 0x77e5, cp949: 0xf2b1},
		lookupItem{ucs2: 0x77e9, cp949: 0xcfbb},
		lookupItem{ucs2: 0x77ed, cp949: 0xd3ad},
		lookupItem{ucs2: 0x77ee, cp949: 0xe8e1},
		lookupItem{ucs2: 0x77ef, cp949: 0xceec},
		lookupItem{ucs2: 0x77f3, cp949: 0xe0b4},
		lookupItem{ucs2: 0x7802, cp949: 0xdee3},
		lookupItem{ucs2: 0x7812, cp949: 0xddf7},
		lookupItem{ucs2: 0x7825, cp949: 0xf2b2},
		lookupItem{ucs2: 0x7826, cp949: 0xf3f6},
		lookupItem{ucs2: 0x7827, cp949: 0xf6db},
		lookupItem{ucs2: 0x782c, cp949: 0xd7fe},
		lookupItem{ucs2: 0x7832, cp949: 0xf8df},
		lookupItem{ucs2: 0x7834, cp949: 0xf7f2},
		lookupItem{ucs2: 0x7845, cp949: 0xd0a9},
		lookupItem{ucs2: 0x784f, cp949: 0xe6da},
		lookupItem{ucs2: 0x785d, cp949: 0xf5a6},
		lookupItem{ucs2: 0x786b, cp949: 0xd7bc},
		lookupItem{ucs2: 0x786c, cp949: 0xcce3},
		lookupItem{ucs2: 0x786f, cp949: 0xe6db},
		lookupItem{ucs2: 0x787c, cp949: 0xdddd},
		lookupItem{ucs2: 0x7881, cp949: 0xd1b3},
		lookupItem{ucs2: 0x7887, cp949: 0xefed},
		lookupItem{ucs2: 0x788c, cp949: 0xd6de},
		lookupItem{ucs2: 0x788d, cp949: 0xe4f4},
		lookupItem{ucs2: 0x788e, cp949: 0xe1ef},
		lookupItem{ucs2: 0x7891, cp949: 0xddf8},
		lookupItem{ucs2: 0x7897, cp949: 0xe8cf},
		lookupItem{ucs2: 0x78a3, cp949: 0xcae5},
		lookupItem{ucs2: 0x78a7, cp949: 0xdca1},
		lookupItem{ucs2: 0x78a9, cp949: 0xe0b5},
		lookupItem{ucs2: 0x78ba, cp949: 0xfcac},
		lookupItem{ucs2: 0x78bb, cp949: 0xfcad},
		lookupItem{ucs2: 0x78bc, cp949: 0xd8a7},
		lookupItem{ucs2: 0x78c1, cp949: 0xedb8},
		lookupItem{ucs2: 0x78c5, cp949: 0xdbb6},
		lookupItem{ucs2: 0x78ca, cp949: 0xd6f0},
		lookupItem{ucs2: 0x78cb, cp949: 0xf3af},
		lookupItem{ucs2: 0x78ce, cp949: 0xcda5},
		lookupItem{ucs2: 0x78d0, cp949: 0xdaf1},
		lookupItem{ucs2: 0x78e8, cp949: 0xd8a8},
		lookupItem{ucs2: 0x78ec, cp949: 0xcce4},
		lookupItem{ucs2: 0x78ef, cp949: 0xd1b4},
		lookupItem{ucs2: 0x78f5, cp949: 0xcad8},
		lookupItem{ucs2: 0x78fb, cp949: 0xdaf2},
		lookupItem{ucs2: 0x7901, cp949: 0xf5a7},
		lookupItem{ucs2: 0x790e, cp949: 0xf5a8},
		lookupItem{ucs2: 0x7916, cp949: 0xe6a6},
		lookupItem{ucs2: 0x792a, cp949: 0xd5ec},
		lookupItem{ucs2: 0x792b, cp949: 0xd5f8},
		lookupItem{ucs2: 0x792c, cp949: 0xdaf3},
		lookupItem{ucs2: 0x793a, cp949: 0xe3c6},
		lookupItem{ucs2: 0x793e, cp949: 0xdee4},
		lookupItem{ucs2: 0x7940, cp949: 0xdee5},
		lookupItem{ucs2: 0x7941, cp949: 0xd1b5},
		lookupItem{ucs2: 0x7947, cp949: 0xd1b6},
		lookupItem{ucs2: 0x7948, cp949: 0xd1b7},
		lookupItem{ucs2: 0x7949, cp949: 0xf2b3},
		lookupItem{ucs2: 0x7950, cp949: 0xe9de},
		lookupItem{ucs2: 0x7956, cp949: 0xf0d3},
		lookupItem{ucs2: 0x7957, cp949: 0xf2b4},
		lookupItem{ucs2: 0x795a, cp949: 0xf0d4},
		lookupItem{ucs2: 0x795b, cp949: 0xcbe4},
		lookupItem{ucs2: 0x795c, cp949: 0xfbd4},
		lookupItem{ucs2: 0x795d, cp949: 0xf5e6},
		lookupItem{ucs2: 0x795e, cp949: 0xe3ea},
		lookupItem{ucs2: 0x7960, cp949: 0xdee6},
		lookupItem{ucs2: 0x7965, cp949: 0xdfd4},
		lookupItem{ucs2: 0x7968, cp949: 0xf8f9},
		lookupItem{ucs2: 0x796d, cp949: 0xf0ae},
		lookupItem{ucs2: 0x797a, cp949: 0xd1b8},
		lookupItem{ucs2: 0x797f, cp949: 0xd6df},
		lookupItem{ucs2: 0x7981, cp949: 0xd0d7},
		lookupItem{ucs2: 0x798d, cp949: 0xfca1},
		lookupItem{ucs2: 0x798e, cp949: 0xefee},
		lookupItem{ucs2: 0x798f, cp949: 0xdcd8},
		lookupItem{ucs2: 0x7991, cp949: 0xe9df},
		lookupItem{ucs2: 0x79a6, cp949: 0xe5dd},
		lookupItem{ucs2: 0x79a7, cp949: 0xfdfb},
		lookupItem{ucs2: 0x79aa, cp949: 0xe0c9},
		lookupItem{ucs2: 0x79ae, cp949: 0xd6c9},
		lookupItem{ucs2: 0x79b1, cp949: 0xd4aa},
		lookupItem{ucs2: 0x79b3, cp949: 0xe5cc},
		lookupItem{ucs2: 0x79b9, cp949: 0xe9e0},
		lookupItem{ucs2: 0x79bd, cp949: 0xd0d8},
		lookupItem{ucs2: 0x79be, cp949: 0xfca2},
		lookupItem{ucs2: 0x79bf, cp949: 0xd4be},
		lookupItem{ucs2: 0x79c0, cp949: 0xe2b3},
		lookupItem{ucs2: 0x79c1, cp949: 0xdee7},
		lookupItem{ucs2: 0x79c9, cp949: 0xdcbc},
		lookupItem{ucs2: 0x79ca, cp949: 0xd2b6},
		lookupItem{ucs2: 0x79cb, cp949: 0xf5d5},
		lookupItem{ucs2: 0x79d1, cp949: 0xcea1},
".
Definition text_cp949_lookup_to_015 : string :=
"		lookupItem{ucs2: 0x79d2, cp949: 0xf5a9},
		lookupItem{ucs2: 0x79d5, cp949: 0xddf9},
		lookupItem{ucs2: 0x79d8, cp949: 0xddfa},
		lookupItem{ucs2: 0x79df, cp949: 0xf0d5},
		lookupItem{ucs2: 0x79e4, cp949: 0xf6df},
		lookupItem{ucs2: 0x79e6, cp949: 0xf2da},
		lookupItem{ucs2: 0x79e7, cp949: 0xe4eb},
		lookupItem{ucs2: 0x79e9, cp949: 0xf2f1},
		lookupItem{ucs2: 0x79fb, cp949: 0xecb9},
		lookupItem{ucs2: 0x7a00, cp949: 0xfdfc},
		lookupItem{ucs2: 0x7a05, cp949: 0xe1aa},
		lookupItem{ucs2: 0x7a08, cp949: 0xcad9},
		lookupItem{ucs2: 0x7a0b, cp949: 0xefef},
		lookupItem{ucs2: 0x7a0d, cp949: 0xf5aa},
		lookupItem{ucs2: 0x7a14, cp949: 0xecf9},
		lookupItem{ucs2: 0x7a17, cp949: 0xf8ad},
		lookupItem{ucs2: 0x7a19, cp949: 0xf2c2},
		lookupItem{ucs2: 0x7a1a, cp949: 0xf6c3},
		lookupItem{ucs2: 0x7a1c, cp949: 0xd7d2},
		lookupItem{ucs2: 0x7a1f, cp949: 0xf9a2},
		lookupItem{ucs2: 0x7a20, cp949: 0xf0d6},
		lookupItem{ucs2: 0x7a2e, cp949: 0xf0fa},
		lookupItem{ucs2: 0x7a31, cp949: 0xf6e0},
		lookupItem{ucs2: 0x7a36, cp949: 0xe9f3},
		lookupItem{ucs2: 0x7a37, cp949: 0xf2c3},
		lookupItem{ucs2: 0x7a3b, cp949: 0xd4ab},
		lookupItem{ucs2: 0x7a3c, cp949: 0xcab3},
		lookupItem{ucs2: 0x7a3d, cp949: 0xcda6},
		lookupItem{ucs2: 0x7a3f, cp949: 0xcdc3},
		lookupItem{ucs2: 0x7a40, cp949: 0xcdda},
		lookupItem{ucs2: 0x7a46, cp949: 0xd9cf},
		lookupItem{ucs2: 0x7a49, cp949: 0xf6c4},
		lookupItem{ucs2: 0x7a4d, cp949: 0xeedd},
		lookupItem{ucs2: 0x7a4e, cp949: 0xe7c4},
		lookupItem{ucs2: 0x7a57, cp949: 0xe2b4},
		lookupItem{ucs2: 0x7a61, cp949: 0xdfe2},
		lookupItem{ucs2: 0x7a62, cp949: 0xe7db},
		lookupItem{ucs2: 0x7a69, cp949: 0xe8b1},
		lookupItem{ucs2: 0x7a6b, cp949: 0xfcae},
		lookupItem{ucs2: 0x7a70, cp949: 0xe5cd},
		lookupItem{ucs2: 0x7a74, cp949: 0xfaeb},
		lookupItem{ucs2: 0x7a76, cp949: 0xcfbc},
		lookupItem{ucs2: 0x7a79, cp949: 0xcfe2},
		lookupItem{ucs2: 0x7a7a, cp949: 0xcdf6},
		lookupItem{ucs2: 0x7a7d, cp949: 0xeff0},
		lookupItem{ucs2: 0x7a7f, cp949: 0xf4be},
		lookupItem{ucs2: 0x7a81, cp949: 0xd4cd},
		lookupItem{ucs2: 0x7a84, cp949: 0xf3b8},
		lookupItem{ucs2: 0x7a88, cp949: 0xe9a1},
		lookupItem{ucs2: 0x7a92, cp949: 0xf2f2},
		lookupItem{ucs2: 0x7a93, cp949: 0xf3eb},
		lookupItem{ucs2: 0x7a95, cp949: 0xf0d7},
		lookupItem{ucs2: 0x7a98, cp949: 0xcfd7},
		lookupItem{ucs2: 0x7a9f, cp949: 0xcfdf},
		lookupItem{ucs2: 0x7aa9, cp949: 0xe8c0},
		lookupItem{ucs2: 0x7aaa, cp949: 0xe8c1},
		lookupItem{ucs2: 0x7aae, cp949: 0xcfe3},
		lookupItem{ucs2: 0x7aaf, cp949: 0xe9a2},
		lookupItem{ucs2: 0x7aba, cp949: 0xd0aa},
		lookupItem{ucs2: 0x7ac4, cp949: 0xf3c1},
		lookupItem{ucs2: 0x7ac5, cp949: 0xd0ab},
		lookupItem{ucs2: 0x7ac7, cp949: 0xd4e4},
		lookupItem{ucs2: 0x7aca, cp949: 0xefbc},
		lookupItem{ucs2: 0x7acb, cp949: 0xd8a1},
		lookupItem{ucs2: 0x7ad7, cp949: 0xd9df},
		lookupItem{ucs2: 0x7ad9, cp949: 0xf3d7},
		lookupItem{ucs2: 0x7add, cp949: 0xdcbd},
		lookupItem{ucs2: 0x7adf, cp949: 0xcce5},
		lookupItem{ucs2: 0x7ae0, cp949: 0xedf1},
		lookupItem{ucs2: 0x7ae3, cp949: 0xf1e2},
		lookupItem{ucs2: 0x7ae5, cp949: 0xd4db},
		lookupItem{ucs2: 0x7aea, cp949: 0xe2b5},
		lookupItem{ucs2: 0x7aed, cp949: 0xcae6},
		lookupItem{ucs2: 0x7aef, cp949: 0xd3ae},
		lookupItem{ucs2: 0x7af6, cp949: 0xcce6},
		lookupItem{ucs2: 0x7af9, cp949: 0xf1d3},
		lookupItem{ucs2: 0x7afa, cp949: 0xf5e7},
		lookupItem{ucs2: 0x7aff, cp949: 0xcada},
		lookupItem{ucs2: 0x7b0f, cp949: 0xfbee},
		lookupItem{ucs2: 0x7b11, cp949: 0xe1c5},
		lookupItem{ucs2: 0x7b19, cp949: 0xdfe9},
		lookupItem{ucs2: 0x7b1b, cp949: 0xeede},
		lookupItem{ucs2: 0x7b1e, cp949: 0xf7c2},
		lookupItem{ucs2: 0x7b20, cp949: 0xd8a2},
		lookupItem{ucs2: 0x7b26, cp949: 0xddac},
		lookupItem{ucs2: 0x7b2c, cp949: 0xf0af},
		lookupItem{ucs2: 0x7b2d, cp949: 0xd6bd},
		lookupItem{ucs2: 0x7b39, cp949: 0xe1ab},
		lookupItem{ucs2: 0x7b46, cp949: 0xf9b6},
		lookupItem{ucs2: 0x7b49, cp949: 0xd4f5},
		lookupItem{ucs2: 0x7b4b, cp949: 0xd0c9},
		lookupItem{ucs2: 0x7b4c, cp949: 0xefa7},
		lookupItem{ucs2: 0x7b4d, cp949: 0xe2ec},
		lookupItem{ucs2: 0x7b4f, cp949: 0xdbea},
		lookupItem{ucs2: 0x7b50, cp949: 0xcecc},
		lookupItem{ucs2: 0x7b51, cp949: 0xf5e8},
		lookupItem{ucs2: 0x7b52, cp949: 0xf7d5},
		lookupItem{ucs2: 0x7b54, cp949: 0xd3cd},
		lookupItem{ucs2: 0x7b56, cp949: 0xf3fe},
		lookupItem{ucs2: 0x7b60, cp949: 0xd0b5},
		lookupItem{ucs2: 0x7b6c, cp949: 0xe0fe},
		lookupItem{ucs2: 0x7b6e, cp949: 0xdffb},
		lookupItem{ucs2: 0x7b75, cp949: 0xe6dd},
		lookupItem{ucs2: 0x7b7d, cp949: 0xe8a4},
		lookupItem{ucs2: 0x7b87, cp949: 0xcbcd},
		lookupItem{ucs2: 0x7b8b, cp949: 0xefa8},
		lookupItem{ucs2: 0x7b8f, cp949: 0xeeb4},
		lookupItem{ucs2: 0x7b94, cp949: 0xdad8},
		lookupItem{ucs2: 0x7b95, cp949: 0xd1b9},
		lookupItem{ucs2: 0x7b97, cp949: 0xdfa9},
		lookupItem{ucs2: 0x7b9a, cp949: 0xf3b0},
		lookupItem{ucs2: 0x7b9d, cp949: 0xccc4},
		lookupItem{ucs2: 0x7ba1, cp949: 0xceb7},
		lookupItem{ucs2: 0x7bad, cp949: 0xefa9},
		lookupItem{ucs2: 0x7bb1, cp949: 0xdfd5},
		lookupItem{ucs2: 0x7bb4, cp949: 0xedd7},
		lookupItem{ucs2: 0x7bb8, cp949: 0xeec6},
		lookupItem{ucs2: 0x7bc0, cp949: 0xefbd},
		lookupItem{ucs2: 0x7bc1, cp949: 0xfcd6},
		lookupItem{ucs2: 0x7bc4, cp949: 0xdbf4},
		lookupItem{ucs2: 0x7bc6, cp949: 0xefaa},
		lookupItem{ucs2: 0x7bc7, cp949: 0xf8b9},
		lookupItem{ucs2: 0x7bc9, cp949: 0xf5e9},
		lookupItem{ucs2: 0x7bd2, cp949: 0xe3d9},
		lookupItem{ucs2: 0x7be0, cp949: 0xe1c6},
		lookupItem{ucs2: 0x7be4, cp949: 0xd4bf},
		lookupItem{ucs2: 0x7be9, cp949: 0xdee8},
		lookupItem{ucs2: 0x7c07, cp949: 0xf0ea},
		lookupItem{ucs2: 0x7c12, cp949: 0xf3c2},
		lookupItem{ucs2: 0x7c1e, cp949: 0xd3af},
		lookupItem{ucs2: 0x7c21, cp949: 0xcadb},
		lookupItem{ucs2: 0x7c27, cp949: 0xfcd7},
		lookupItem{ucs2: 0x7c2a, cp949: 0xedd8},
		lookupItem{ucs2: 0x7c2b, cp949: 0xe1c7},
		lookupItem{ucs2: 0x7c3d, cp949: 0xf4d8},
		lookupItem{ucs2: 0x7c3e, cp949: 0xd6b3},
		lookupItem{ucs2: 0x7c3f, cp949: 0xddad},
		lookupItem{ucs2: 0x7c43, cp949: 0xd5be},
		lookupItem{ucs2: 0x7c4c, cp949: 0xf1c3},
		lookupItem{ucs2: 0x7c4d, cp949: 0xeedf},
		lookupItem{ucs2: 0x7c60, cp949: 0xd6eb},
		lookupItem{ucs2: 0x7c64, cp949: 0xf4d9},
		lookupItem{ucs2: 0x7c6c, cp949: 0xd7e6},
		lookupItem{ucs2: 0x7c73, cp949: 0xdab7},
		lookupItem{ucs2: 0x7c83, cp949: 0xddfb},
		lookupItem{ucs2: 0x7c89, cp949: 0xddcf},
		lookupItem{ucs2: 0x7c92, cp949: 0xd8a3},
		lookupItem{ucs2: 0x7c95, cp949: 0xdad9},
		lookupItem{ucs2: 0x7c97, cp949: 0xf0d8},
		lookupItem{ucs2: 0x7c98, cp949: 0xefc4},
		lookupItem{ucs2: 0x7c9f, cp949: 0xe1d8},
		lookupItem{ucs2: 0x7ca5, cp949: 0xf1d4},
		lookupItem{ucs2: 0x7ca7, cp949: 0xedf2},
		lookupItem{ucs2: 0x7cae, cp949: 0xd5db},
		lookupItem{ucs2: 0x7cb1, cp949: 0xd5dc},
		lookupItem{ucs2: 0x7cb2, cp949: 0xf3c4},
		lookupItem{ucs2: 0x7cb3, cp949: 0xcbd7},
		lookupItem{ucs2: 0x7cb9, cp949: 0xe2b6},
		lookupItem{ucs2: 0x7cbe, cp949: 0xeff1},
		lookupItem{ucs2: 0x7cca, cp949: 0xfbd5},
		lookupItem{ucs2: 0x7cd6, cp949: 0xd3d8},
		lookupItem{ucs2: 0x7cde, cp949: 0xddd0},
		lookupItem{ucs2: 0x7cdf, cp949: 0xf0d9},
		lookupItem{ucs2: 0x7ce0, cp949: 0xcbb3},
		lookupItem{ucs2: 0x7ce7, cp949: 0xd5dd},
		lookupItem{ucs2: 0x7cfb, cp949: 0xcda7},
		lookupItem{ucs2: 0x7cfe, cp949: 0xd0ac},
		lookupItem{ucs2: 0x7d00, cp949: 0xd1ba},
		lookupItem{ucs2: 0x7d02, cp949: 0xf1c4},
		lookupItem{ucs2: 0x7d04, cp949: 0xe5b3},
		lookupItem{ucs2: 0x7d05, cp949: 0xfbf5},
		lookupItem{ucs2: 0x7d06, cp949: 0xe9e1},
		lookupItem{ucs2: 0x7d07, cp949: 0xfde0},
		lookupItem{ucs2: 0x7d08, cp949: 0xfcbc},
		lookupItem{ucs2: 0x7d0a, cp949: 0xdaa2},
		lookupItem{ucs2: 0x7d0b, cp949: 0xdaa3},
		lookupItem{ucs2: 0x7d0d, cp949: 0xd2a1},
		lookupItem{ucs2: 0x7d10, cp949: 0xd2ef},
		lookupItem{ucs2: 0x7d14, cp949: 0xe2ed},
		lookupItem{ucs2: 0x7d17, cp949: 0xdee9},
		lookupItem{ucs2: 0x7d18, cp949: 0xcedc},
		lookupItem{ucs2: 0x7d19, cp949: 0xf2b5},
		lookupItem{ucs2: 0x7d1a, cp949: 0xd0e4},
		lookupItem{ucs2: 0x7d1b, cp949: 0xddd1},
		lookupItem{ucs2: 0x7d20, cp949: 0xe1c8},
		lookupItem{ucs2: 0x7d21, cp949: 0xdbb7},
		lookupItem{ucs2: 0x7d22, cp949: 0xdfe3},
		lookupItem{ucs2: 0x7d2b, cp949: 0xedb9},
		lookupItem{ucs2: 0x7d2c, cp949: 0xf1c5},
		lookupItem{ucs2: 0x7d2e, cp949: 0xf3cf},
		lookupItem{ucs2: 0x7d2f, cp949: 0xd7ab},
		lookupItem{ucs2: 0x7d30, cp949: 0xe1ac},
		lookupItem{ucs2: 0x7d33, cp949: 0xe3eb},
		lookupItem{ucs2: 0x7d35, cp949: 0xeec7},
		lookupItem{ucs2: 0x7d39, cp949: 0xe1c9},
		lookupItem{ucs2: 0x7d3a, cp949: 0xcafa},
		lookupItem{ucs2: 0x7d42, cp949: 0xf0fb},
		lookupItem{ucs2: 0x7d43, cp949: 0xfae1},
		lookupItem{ucs2: 0x7d44, cp949: 0xf0da},
		lookupItem{ucs2: 0x7d45, cp949: 0xcce7},
		lookupItem{ucs2: 0x7d46, cp949: 0xdaf4},
		lookupItem{ucs2: 0x7d50, cp949: 0xccbf},
		lookupItem{ucs2: 0x7d5e, cp949: 0xceed},
		lookupItem{ucs2: 0x7d61, cp949: 0xd5a9},
		lookupItem{ucs2: 0x7d62, cp949: 0xfae2},
		lookupItem{ucs2: 0x7d66, cp949: 0xd0e5},
		lookupItem{ucs2: 0x7d68, cp949: 0xebd6},
		lookupItem{ucs2: 0x7d6a, cp949: 0xecdf},
		lookupItem{ucs2: 0x7d6e, cp949: 0xdffc},
		lookupItem{ucs2: 0x7d71, cp949: 0xf7d6},
		lookupItem{ucs2: 0x7d72, cp949: 0xdeea},
		lookupItem{ucs2: 0x7d73, cp949: 0xcbb4},
		lookupItem{ucs2: 0x7d76, cp949: 0xefbe},
		lookupItem{ucs2: 0x7d79, cp949: 0xccb5},
		lookupItem{ucs2: 0x7d7f, cp949: 0xcfbd},
		lookupItem{ucs2: 0x7d8e, cp949: 0xeff2},
		lookupItem{ucs2: 0x7d8f, cp949: 0xe2b7},
		lookupItem{ucs2: 0x7d93, cp949: 0xcce8},
		lookupItem{ucs2: 0x7d9c, cp949: 0xf0fc},
		lookupItem{ucs2: 0x7da0, cp949: 0xd6e0},
		lookupItem{ucs2: 0x7da2, cp949: 0xf1c6},
		lookupItem{ucs2: 0x7dac, cp949: 0xe2b8},
		lookupItem{ucs2: 0x7dad, cp949: 0xebab},
		lookupItem{ucs2: 0x7db1, cp949: 0xcbb5},
		lookupItem{ucs2: 0x7db2, cp949: 0xd8d1},
		lookupItem{ucs2: 0x7db4, cp949: 0xf4ce},
		lookupItem{ucs2: 0x7db5, cp949: 0xf3f7},
		lookupItem{ucs2: 0x7db8, cp949: 0xd7c6},
		lookupItem{ucs2: 0x7dba, cp949: 0xd1bb},
		lookupItem{ucs2: 0x7dbb, cp949: 0xf7aa},
		lookupItem{ucs2: 0x7dbd, cp949: 0xedca},
		lookupItem{ucs2: 0x7dbe, cp949: 0xd7d3},
		lookupItem{ucs2: 0x7dbf, cp949: 0xd8fa},
		lookupItem{ucs2: 0x7dc7, cp949: 0xf6c5},
		lookupItem{ucs2: 0x7dca, cp949: 0xd1cc},
		lookupItem{ucs2: 0x7dcb, cp949: 0xddfc},
		lookupItem{ucs2: 0x7dd6, cp949: 0xdffd},
		lookupItem{ucs2: 0x7dd8, cp949: 0xf9e5},
		lookupItem{ucs2: 0x7dda, cp949: 0xe0ca},
		lookupItem{ucs2: 0x7ddd, cp949: 0xf2fd},
		lookupItem{ucs2: 0x7dde, cp949: 0xd3b0},
		lookupItem{ucs2: 0x7de0, cp949: 0xf4f3},
		lookupItem{ucs2: 0x7de1, cp949: 0xdac9},
		lookupItem{ucs2: 0x7de3, cp949: 0xe6de},
		lookupItem{ucs2: 0x7de8, cp949: 0xf8ba},
		lookupItem{ucs2: 0x7de9, cp949: 0xe8d0},
		lookupItem{ucs2: 0x7dec, cp949: 0xd8fb},
		lookupItem{ucs2: 0x7def, cp949: 0xead5},
		lookupItem{ucs2: 0x7df4, cp949: 0xd6a3},
		lookupItem{ucs2: 0x7dfb, cp949: 0xf6c6},
".
Definition text_cp949_lookup_to_016 : string :=
"		lookupItem{ucs2: 0x7e09, cp949: 0xf2db},
		lookupItem{ucs2: 0x7e0a, cp949: 0xe4fc},
		lookupItem{ucs2: 0x7e15, cp949: 0xe8b2},
		lookupItem{ucs2: 0x7e1b, cp949: 0xdada},
		lookupItem{ucs2: 0x7e1d, cp949: 0xf2dc},
		lookupItem{ucs2: 0x7e1e, cp949: 0xfbd6},
		lookupItem{ucs2: 0x7e1f, cp949: 0xe9b2},
		lookupItem{ucs2: 0x7e21, cp949: 0xeead},
		lookupItem{ucs2: 0x7e23, cp949: 0xfae3},
		lookupItem{ucs2: 0x7e2b, cp949: 0xdcee},
		lookupItem{ucs2: 0x7e2e, cp949: 0xf5ea},
		lookupItem{ucs2: 0x7e2f, cp949: 0xe6e0},
		lookupItem{ucs2: 0x7e31, cp949: 0xf0fd},
		lookupItem{ucs2: 0x7e37, cp949: 0xd7ac},
		lookupItem{ucs2: 0x7e3d, cp949: 0xf5c5},
		lookupItem{ucs2: 0x7e3e, cp949: 0xeee0},
		lookupItem{ucs2: 0x7e41, cp949: 0xdbe5},
		lookupItem{ucs2: 0x7e43, cp949: 0xddde},
		lookupItem{ucs2: 0x7e46, cp949: 0xd9f0},
		lookupItem{ucs2: 0x7e47, cp949: 0xe9a3},
		lookupItem{ucs2: 0x7e52, cp949: 0xf1f9},
		lookupItem{ucs2: 0x7e54, cp949: 0xf2c4},
		lookupItem{ucs2: 0x7e55, cp949: 0xe0cb},
		lookupItem{ucs2: 0x7e5e, cp949: 0xe9a4},
		lookupItem{ucs2: 0x7e61, cp949: 0xe2b9},
		lookupItem{ucs2: 0x7e69, cp949: 0xe3b1},
		lookupItem{ucs2: 0x7e6a, cp949: 0xfceb},
		lookupItem{ucs2: 0x7e6b, cp949: 0xcda8},
		lookupItem{ucs2: 0x7e6d, cp949: 0xccb6},
		lookupItem{ucs2: 0x7e70, cp949: 0xf0db},
		lookupItem{ucs2: 0x7e79, cp949: 0xe6ba},
		lookupItem{ucs2: 0x7e7c, cp949: 0xcda9},
		lookupItem{ucs2: 0x7e82, cp949: 0xf3c3},
		lookupItem{ucs2: 0x7e8c, cp949: 0xe1d9},
		lookupItem{ucs2: 0x7e8f, cp949: 0xefab},
		lookupItem{ucs2: 0x7e93, cp949: 0xe7c5},
		lookupItem{ucs2: 0x7e96, cp949: 0xe0e9},
		lookupItem{ucs2: 0x7e98, cp949: 0xf3c5},
		lookupItem{ucs2: 0x7e9b, cp949: 0xd4c0},
		lookupItem{ucs2: 0x7e9c, cp949: 0xd5bf},
		lookupItem{ucs2: 0x7f36, cp949: 0xddae},
		lookupItem{ucs2: 0x7f38, cp949: 0xf9fc},
		lookupItem{ucs2: 0x7f3a, cp949: 0xccc0},
		lookupItem{ucs2: 0x7f4c, cp949: 0xe5a2},
		lookupItem{ucs2: 0x7f50, cp949: 0xceb8},
		lookupItem{ucs2: 0x7f54, cp949: 0xd8d2},
		lookupItem{ucs2: 0x7f55, cp949: 0xf9d6},
		lookupItem{ucs2: 0x7f6a, cp949: 0xf1aa},
		lookupItem{ucs2: 0x7f6b, cp949: 0xced1},
		lookupItem{ucs2: 0x7f6e, cp949: 0xf6c7},
		lookupItem{ucs2: 0x7f70, cp949: 0xdbeb},
		lookupItem{ucs2: 0x7f72, cp949: 0xdffe},
		lookupItem{ucs2: 0x7f75, cp949: 0xd8e1},
		lookupItem{ucs2: 0x7f77, cp949: 0xf7f3},
		lookupItem{ucs2: 0x7f79, cp949: 0xd7e7},
		lookupItem{ucs2: 0x7f85, cp949: 0xd4fe},
		lookupItem{ucs2: 0x7f88, cp949: 0xd1bc},
		lookupItem{ucs2: 0x7f8a, cp949: 0xe5cf},
		lookupItem{ucs2: 0x7f8c, cp949: 0xcbb6},
		lookupItem{ucs2: 0x7f8e, cp949: 0xdab8},
		lookupItem{ucs2: 0x7f94, cp949: 0xcdc4},
		lookupItem{ucs2: 0x7f9a, cp949: 0xd6be},
		lookupItem{ucs2: 0x7f9e, cp949: 0xe2ba},
		lookupItem{ucs2: 0x7fa4, cp949: 0xcfd8},
		lookupItem{ucs2: 0x7fa8, cp949: 0xe0cc},
		lookupItem{ucs2: 0x7fa9, cp949: 0xebf9},
		lookupItem{ucs2: 0x7fb2, cp949: 0xfdfd},
		lookupItem{ucs2: 0x7fb8, cp949: 0xd7e8},
		lookupItem{ucs2: 0x7fb9, cp949: 0xcbd8},
		lookupItem{ucs2: 0x7fbd, cp949: 0xe9e2},
		lookupItem{ucs2: 0x7fc1, cp949: 0xe8ba},
		lookupItem{ucs2: 0x7fc5, cp949: 0xe3c7},
		lookupItem{ucs2: 0x7fca, cp949: 0xeccd},
		lookupItem{ucs2: 0x7fcc, cp949: 0xecce},
		lookupItem{ucs2: 0x7fce, cp949: 0xd6bf},
		lookupItem{ucs2: 0x7fd2, cp949: 0xe3a7},
		lookupItem{ucs2: 0x7fd4, cp949: 0xdfd6},
		lookupItem{ucs2: 0x7fd5, cp949: 0xfde8},
		lookupItem{ucs2: 0x7fdf, cp949: 0xeee1},
		lookupItem{ucs2: 0x7fe0, cp949: 0xf6a8},
		lookupItem{ucs2: 0x7fe1, cp949: 0xddfd},
		lookupItem{ucs2: 0x7fe9, cp949: 0xf8bb},
		lookupItem{ucs2: 0x7feb, cp949: 0xe8d1},
		lookupItem{ucs2: 0x7ff0, cp949: 0xf9d7},
		lookupItem{ucs2: 0x7ff9, cp949: 0xceee},
		lookupItem{ucs2: 0x7ffc, cp949: 0xeccf},
		lookupItem{ucs2: 0x8000, cp949: 0xe9a5},
		lookupItem{ucs2: 0x8001, cp949: 0xd6d5},
		lookupItem{ucs2: 0x8003, cp949: 0xcdc5},
		lookupItem{ucs2: 0x8005, cp949: 0xedba},
		lookupItem{ucs2: 0x8006, cp949: 0xd1bd},
		lookupItem{ucs2: 0x8009, cp949: 0xcfbe},
		lookupItem{ucs2: 0x800c, cp949: 0xecbb},
		lookupItem{ucs2: 0x8010, cp949: 0xd2b1},
		lookupItem{ucs2: 0x8015, cp949: 0xcce9},
		lookupItem{ucs2: 0x8017, cp949: 0xd9c4},
		lookupItem{ucs2: 0x8018, cp949: 0xe9fc},
		lookupItem{ucs2: 0x802d, cp949: 0xd1be},
		lookupItem{ucs2: 0x8033, cp949: 0xecbc},
		lookupItem{ucs2: 0x8036, cp949: 0xe5ad},
		lookupItem{ucs2: 0x803d, cp949: 0xf7b0},
		lookupItem{ucs2: 0x803f, cp949: 0xccea},
		lookupItem{ucs2: 0x8043, cp949: 0xd3c4},
		lookupItem{ucs2: 0x8046, cp949: 0xd6c0},
		lookupItem{ucs2: 0x804a, cp949: 0xd6fd},
		lookupItem{ucs2: 0x8056, cp949: 0xe1a1},
		lookupItem{ucs2: 0x8058, cp949: 0xdebd},
		lookupItem{ucs2: 0x805a, cp949: 0xf6a9},
		lookupItem{ucs2: 0x805e, cp949: 0xdaa4},
		lookupItem{ucs2: 0x806f, cp949: 0xd6a4},
		lookupItem{ucs2: 0x8070, cp949: 0xf5c6},
		lookupItem{ucs2: 0x8072, cp949: 0xe1a2},
		lookupItem{ucs2: 0x8073, cp949: 0xe9c6},
		lookupItem{ucs2: 0x8077, cp949: 0xf2c5},
		lookupItem{ucs2: 0x807d, cp949: 0xf4e9},
		lookupItem{ucs2: 0x807e, cp949: 0xd6ec},
		lookupItem{ucs2: 0x807f, cp949: 0xebd3},
		lookupItem{ucs2: 0x8084, cp949: 0xecbd},
		lookupItem{ucs2: 0x8085, cp949: 0xe2dc},
		lookupItem{ucs2: 0x8086, cp949: 0xdeeb},
		lookupItem{ucs2: 0x8087, cp949: 0xf0dc},
		lookupItem{ucs2: 0x8089, cp949: 0xebbf},
		lookupItem{ucs2: 0x808b, cp949: 0xd7ce},
		lookupItem{ucs2: 0x808c, cp949: 0xd1bf},
		lookupItem{ucs2: 0x8096, cp949: 0xf5ab},
		lookupItem{ucs2: 0x809b, cp949: 0xf9fd},
		lookupItem{ucs2: 0x809d, cp949: 0xcadc},
		lookupItem{ucs2: 0x80a1, cp949: 0xcdc6},
		lookupItem{ucs2: 0x80a2, cp949: 0xf2b6},
		lookupItem{ucs2: 0x80a5, cp949: 0xddfe},
		lookupItem{ucs2: 0x80a9, cp949: 0xccb7},
		lookupItem{ucs2: 0x80aa, cp949: 0xdbb8},
		lookupItem{ucs2: 0x80af, cp949: 0xd0e9},
		lookupItem{ucs2: 0x80b1, cp949: 0xcedd},
		lookupItem{ucs2: 0x80b2, cp949: 0xebc0},
		lookupItem{ucs2: 0x80b4, cp949: 0xfda2},
		lookupItem{ucs2: 0x80ba, cp949: 0xf8cb},
		lookupItem{ucs2: 0x80c3, cp949: 0xead6},
		lookupItem{ucs2: 0x80c4, cp949: 0xf1b0},
		lookupItem{ucs2: 0x80cc, cp949: 0xdbce},
		lookupItem{ucs2: 0x80ce, cp949: 0xf7c3},
		lookupItem{ucs2: 0x80da, cp949: 0xdbcf},
		lookupItem{ucs2: 0x80db, cp949: 0xcba4},
		lookupItem{ucs2: 0x80de, cp949: 0xf8e0},
		lookupItem{ucs2: 0x80e1, cp949: 0xfbd7},
		lookupItem{ucs2: 0x80e4, cp949: 0xebca},
		lookupItem{ucs2: 0x80e5, cp949: 0xe0a1},
		lookupItem{ucs2: 0x80f1, cp949: 0xcecd},
		lookupItem{ucs2: 0x80f4, cp949: 0xd4dc},
		lookupItem{ucs2: 0x80f8, cp949: 0xfdd8},
		lookupItem{ucs2: 0x80fd, cp949: 0xd2f6},
		lookupItem{ucs2: 0x8102, cp949: 0xf2b7},
		lookupItem{ucs2: 0x8105, cp949: 0xfaf6},
		lookupItem{ucs2: 0x8106, cp949: 0xf6aa},
		lookupItem{ucs2: 0x8107, cp949: 0xfaf7},
		lookupItem{ucs2: 0x8108, cp949: 0xd8e6},
		lookupItem{ucs2: 0x810a, cp949: 0xf4b1},
		lookupItem{ucs2: 0x8118, cp949: 0xe8d2},
		lookupItem{ucs2: 0x811a, cp949: 0xcac5},
		lookupItem{ucs2: 0x811b, cp949: 0xcceb},
		lookupItem{ucs2: 0x8123, cp949: 0xe2ee},
		lookupItem{ucs2: 0x8129, cp949: 0xe2bb},
		lookupItem{ucs2: 0x812b, cp949: 0xf7ad},
		lookupItem{ucs2: 0x812f, cp949: 0xf8e1},
		lookupItem{ucs2: 0x8139, cp949: 0xf3ec},
		lookupItem{ucs2: 0x813e, cp949: 0xdea1},
		lookupItem{ucs2: 0x814b, cp949: 0xe4fd},
		lookupItem{ucs2: 0x814e, cp949: 0xe3ec},
		lookupItem{ucs2: 0x8150, cp949: 0xddaf},
		lookupItem{ucs2: 0x8151, cp949: 0xddb0},
		lookupItem{ucs2: 0x8154, cp949: 0xcbb7},
		lookupItem{ucs2: 0x8155, cp949: 0xe8d3},
		lookupItem{ucs2: 0x8165, cp949: 0xe1a3},
		lookupItem{ucs2: 0x8166, cp949: 0xd2e0},
		lookupItem{ucs2: 0x816b, cp949: 0xf0fe},
		lookupItem{ucs2: 0x8170, cp949: 0xe9a6},
		lookupItem{ucs2: 0x8171, cp949: 0xcbf2},
		lookupItem{ucs2: 0x8178, cp949: 0xedf3},
		lookupItem{ucs2: 0x8179, cp949: 0xdcd9},
		lookupItem{ucs2: 0x817a, cp949: 0xe0cd},
		lookupItem{ucs2: 0x817f, cp949: 0xf7da},
		lookupItem{ucs2: 0x8180, cp949: 0xdbb9},
		lookupItem{ucs2: 0x8188, cp949: 0xccae},
		lookupItem{ucs2: 0x818a, cp949: 0xdadb},
		lookupItem{ucs2: 0x818f, cp949: 0xcdc7},
		lookupItem{ucs2: 0x819a, cp949: 0xddb1},
		lookupItem{ucs2: 0x819c, cp949: 0xd8af},
		lookupItem{ucs2: 0x819d, cp949: 0xe3a3},
		lookupItem{ucs2: 0x81a0, cp949: 0xceef},
		lookupItem{ucs2: 0x81a3, cp949: 0xf2f3},
		lookupItem{ucs2: 0x81a8, cp949: 0xf8b3},
		lookupItem{ucs2: 0x81b3, cp949: 0xe0ce},
		lookupItem{ucs2: 0x81b5, cp949: 0xf5fd},
		lookupItem{ucs2: 0x81ba, cp949: 0xebec},
		lookupItem{ucs2: 0x81bd, cp949: 0xd3c5},
		lookupItem{ucs2: 0x81be, cp949: 0xfcec},
		lookupItem{ucs2: 0x81bf, cp949: 0xd2db},
		lookupItem{ucs2: 0x81c0, cp949: 0xd4eb},
		lookupItem{ucs2: 0x81c2, cp949: 0xdea2},
		lookupItem{ucs2: 0x81c6, cp949: 0xe5e6},
		lookupItem{ucs2: 0x81cd, cp949: 0xf0b0},
		lookupItem{ucs2: 0x81d8, cp949: 0xd5c4},
		lookupItem{ucs2: 0x81df, cp949: 0xedf4},
		lookupItem{ucs2: 0x81e3, cp949: 0xe3ed},
		lookupItem{ucs2: 0x81e5, cp949: 0xe8c2},
		lookupItem{ucs2: 0x81e7, cp949: 0xedf5},
		lookupItem{ucs2: 0x81e8, cp949: 0xd7fc},
		lookupItem{ucs2: 0x81ea, cp949: 0xedbb},
		lookupItem{ucs2: 0x81ed, cp949: 0xf6ab},
		lookupItem{ucs2: 0x81f3, cp949: 0xf2b8},
		lookupItem{ucs2: 0x81f4, cp949: 0xf6c8},
		lookupItem{ucs2: 0x81fa, cp949: 0xd3e6},
		lookupItem{ucs2: 0x81fb, cp949: 0xf2dd},
		lookupItem{ucs2: 0x81fc, cp949: 0xcfbf},
		lookupItem{ucs2: 0x81fe, cp949: 0xebac},
		lookupItem{ucs2: 0x8205, cp949: 0xcfc0},
		lookupItem{ucs2: 0x8207, cp949: 0xe6a8},
		lookupItem{ucs2: 0x8208, cp949: 0xfde9},
		lookupItem{ucs2: 0x820a, cp949: 0xcfc1},
		lookupItem{ucs2: 0x820c, cp949: 0xe0df},
		lookupItem{ucs2: 0x820d, cp949: 0xdeec},
		lookupItem{ucs2: 0x8212, cp949: 0xe0a2},
		lookupItem{ucs2: 0x821b, cp949: 0xf4bf},
		lookupItem{ucs2: 0x821c, cp949: 0xe2ef},
		lookupItem{ucs2: 0x821e, cp949: 0xd9f1},
		lookupItem{ucs2: 0x821f, cp949: 0xf1c7},
		lookupItem{ucs2: 0x8221, cp949: 0xcbb8},
		lookupItem{ucs2: 0x822a, cp949: 0xf9fe},
		lookupItem{ucs2: 0x822b, cp949: 0xdbba},
		lookupItem{ucs2: 0x822c, cp949: 0xdaf5},
		lookupItem{ucs2: 0x8235, cp949: 0xf6ec},
		lookupItem{ucs2: 0x8236, cp949: 0xdadc},
		lookupItem{ucs2: 0x8237, cp949: 0xfae4},
		lookupItem{ucs2: 0x8239, cp949: 0xe0cf},
		lookupItem{ucs2: 0x8240, cp949: 0xddb2},
		lookupItem{ucs2: 0x8245, cp949: 0xe6a9},
		lookupItem{ucs2: 0x8247, cp949: 0xeff3},
		lookupItem{ucs2: 0x8259, cp949: 0xf3ed},
		lookupItem{ucs2: 0x8264, cp949: 0xebfa},
		lookupItem{ucs2: 0x8266, cp949: 0xf9e6},
		lookupItem{ucs2: 0x826e, cp949: 0xcadd},
		lookupItem{ucs2: 0x826f, cp949: 0xd5de},
		lookupItem{ucs2: 0x8271, cp949: 0xcade},
		lookupItem{ucs2: 0x8272, cp949: 0xdfe4},
		lookupItem{ucs2: 0x8276, cp949: 0xe6fd},
		lookupItem{ucs2: 0x8278, cp949: 0xf5ac},
		lookupItem{ucs2: 0x827e, cp949: 0xe4f5},
		lookupItem{ucs2: 0x828b, cp949: 0xe9e3},
		lookupItem{ucs2: 0x828d, cp949: 0xedcb},
		lookupItem{ucs2: 0x828e, cp949: 0xcfe4},
".
Definition text_cp949_lookup_to_017 : string :=
"		lookupItem{ucs2: 0x8292, cp949: 0xd8d3},
		lookupItem{ucs2: 0x8299, cp949: 0xddb3},
		lookupItem{ucs2: 0x829a, cp949: 0xd4ec},
		lookupItem{ucs2: 0x829d, cp949: 0xf2b9},
		lookupItem{ucs2: 0x829f, cp949: 0xdfb7},
		lookupItem{ucs2: 0x82a5, cp949: 0xcbce},
		lookupItem{ucs2: 0x82a6, cp949: 0xfbd8},
		lookupItem{ucs2: 0x82a9, cp949: 0xd0d9},
		lookupItem{ucs2: 0x82ac, cp949: 0xddd2},
		lookupItem{ucs2: 0x82ad, cp949: 0xf7f4},
		lookupItem{ucs2: 0x82ae, cp949: 0xe7dc},
		lookupItem{ucs2: 0x82af, cp949: 0xe4a5},
		lookupItem{ucs2: 0x82b1, cp949: 0xfca3},
		lookupItem{ucs2: 0x82b3, cp949: 0xdbbb},
		lookupItem{ucs2: 0x82b7, cp949: 0xf2ba},
		lookupItem{ucs2: 0x82b8, cp949: 0xe9fd},
		lookupItem{ucs2: 0x82b9, cp949: 0xd0ca},
		lookupItem{ucs2: 0x82bb, cp949: 0xf5d6},
		lookupItem{ucs2: 0x82bc, cp949: 0xd9c5},
		lookupItem{ucs2: 0x82bd, cp949: 0xe4b4},
		lookupItem{ucs2: 0x82bf, cp949: 0xeda7},
		lookupItem{ucs2: 0x82d1, cp949: 0xeabd},
		lookupItem{ucs2: 0x82d2, cp949: 0xe6fe},
		lookupItem{ucs2: 0x82d4, cp949: 0xf7c4},
		lookupItem{ucs2: 0x82d5, cp949: 0xf5ad},
		lookupItem{ucs2: 0x82d7, cp949: 0xd9e0},
		lookupItem{ucs2: 0x82db, cp949: 0xcab4},
		lookupItem{ucs2: 0x82de, cp949: 0xf8e2},
		lookupItem{ucs2: 0x82df, cp949: 0xcfc2},
		lookupItem{ucs2: 0x82e1, cp949: 0xecbe},
		lookupItem{ucs2: 0x82e5, cp949: 0xe5b4},
		lookupItem{ucs2: 0x82e6, cp949: 0xcdc8},
		lookupItem{ucs2: 0x82e7, cp949: 0xeec8},
		lookupItem{ucs2: 0x82f1, cp949: 0xe7c8},
		lookupItem{ucs2: 0x82fd, cp949: 0xcdc9},
		lookupItem{ucs2: 0x82fe, cp949: 0xf9b7},
		lookupItem{ucs2: 0x8301, cp949: 0xf1e8},
		lookupItem{ucs2: 0x8302, cp949: 0xd9f2},
		lookupItem{ucs2: 0x8303, cp949: 0xdbf5},
		lookupItem{ucs2: 0x8304, cp949: 0xcab5},
		lookupItem{ucs2: 0x8305, cp949: 0xd9c6},
		lookupItem{ucs2: 0x8309, cp949: 0xd8c9},
		lookupItem{ucs2: 0x8317, cp949: 0xd9ab},
		lookupItem{ucs2: 0x8328, cp949: 0xedbc},
		lookupItem{ucs2: 0x832b, cp949: 0xd8d4},
		lookupItem{ucs2: 0x832f, cp949: 0xdcda},
		lookupItem{ucs2: 0x8331, cp949: 0xe2bc},
		lookupItem{ucs2: 0x8334, cp949: 0xfced},
		lookupItem{ucs2: 0x8335, cp949: 0xece0},
		lookupItem{ucs2: 0x8336, cp949: 0xd2fe},
		lookupItem{ucs2: 0x8338, cp949: 0xe9c7},
		lookupItem{ucs2: 0x8339, cp949: 0xe6aa},
		lookupItem{ucs2: 0x8340, cp949: 0xe2f0},
		lookupItem{ucs2: 0x8347, cp949: 0xfabb},
		lookupItem{ucs2: 0x8349, cp949: 0xf5ae},
		lookupItem{ucs2: 0x834a, cp949: 0xfbaa},
		lookupItem{ucs2: 0x834f, cp949: 0xecfb},
		lookupItem{ucs2: 0x8351, cp949: 0xecbf},
		lookupItem{ucs2: 0x8352, cp949: 0xfcd8},
		lookupItem{ucs2: 0x8373, cp949: 0xd4e5},
		lookupItem{ucs2: 0x8377, cp949: 0xf9c3},
		lookupItem{ucs2: 0x837b, cp949: 0xeee2},
		lookupItem{ucs2: 0x8389, cp949: 0xd7e9},
		lookupItem{ucs2: 0x838a, cp949: 0xedf6},
		lookupItem{ucs2: 0x838e, cp949: 0xdeed},
		lookupItem{ucs2: 0x8396, cp949: 0xccec},
		lookupItem{ucs2: 0x8398, cp949: 0xe3ee},
		lookupItem{ucs2: 0x839e, cp949: 0xe8d4},
		lookupItem{ucs2: 0x83a2, cp949: 0xfaf8},
		lookupItem{ucs2: 0x83a9, cp949: 0xddb4},
		lookupItem{ucs2: 0x83aa, cp949: 0xe4b5},
		lookupItem{ucs2: 0x83ab, cp949: 0xd8b0},
		lookupItem{ucs2: 0x83bd, cp949: 0xd8d5},
		lookupItem{ucs2: 0x83c1, cp949: 0xf4ea},
		lookupItem{ucs2: 0x83c5, cp949: 0xceb9},
		lookupItem{ucs2: 0x83c9, cp949: 0xd6e1},
		lookupItem{ucs2: 0x83ca, cp949: 0xcfd2},
		lookupItem{ucs2: 0x83cc, cp949: 0xd0b6},
		lookupItem{ucs2: 0x83d3, cp949: 0xcea2},
		lookupItem{ucs2: 0x83d6, cp949: 0xf3ee},
		lookupItem{ucs2: 0x83dc, cp949: 0xf3f8},
		lookupItem{ucs2: 0x83e9, cp949: 0xdccc},
		lookupItem{ucs2: 0x83eb, cp949: 0xd0cb},
		lookupItem{ucs2: 0x83ef, cp949: 0xfca4},
		lookupItem{ucs2: 0x83f0, cp949: 0xcdca},
		lookupItem{ucs2: 0x83f1, cp949: 0xd7d4},
		lookupItem{ucs2: 0x83f2, cp949: 0xdea3},
		lookupItem{ucs2: 0x83f4, cp949: 0xe4e0},
		lookupItem{ucs2: 0x83f9, cp949: 0xeec9},
		lookupItem{ucs2: 0x83fd, cp949: 0xe2dd},
		lookupItem{ucs2: 0x8403, cp949: 0xf5fe},
		lookupItem{ucs2: 0x8404, cp949: 0xd4ac},
		lookupItem{ucs2: 0x840a, cp949: 0xd5d1},
		lookupItem{ucs2: 0x840c, cp949: 0xd8f0},
		lookupItem{ucs2: 0x840d, cp949: 0xf8c3},
		lookupItem{ucs2: 0x840e, cp949: 0xead7},
		lookupItem{ucs2: 0x8429, cp949: 0xf5d7},
		lookupItem{ucs2: 0x842c, cp949: 0xd8bf},
		lookupItem{ucs2: 0x8431, cp949: 0xfdc0},
		lookupItem{ucs2: 0x8438, cp949: 0xebad},
		lookupItem{ucs2: 0x843d, cp949: 0xd5aa},
		lookupItem{ucs2: 0x8449, cp949: 0xe7a8},
		lookupItem{ucs2: 0x8457, cp949: 0xeeca},
		lookupItem{ucs2: 0x845b, cp949: 0xcae7},
		lookupItem{ucs2: 0x8461, cp949: 0xf8e3},
		lookupItem{ucs2: 0x8463, cp949: 0xd4dd},
		lookupItem{ucs2: 0x8466, cp949: 0xead8},
		lookupItem{ucs2: 0x846b, cp949: 0xfbd9},
		lookupItem{ucs2: 0x846c, cp949: 0xedf7},
		lookupItem{ucs2: 0x846f, cp949: 0xe5b5},
		lookupItem{ucs2: 0x8475, cp949: 0xd0ad},
		lookupItem{ucs2: 0x847a, cp949: 0xf1f1},
		lookupItem{ucs2: 0x8490, cp949: 0xe2bd},
		lookupItem{ucs2: 0x8494, cp949: 0xe3c8},
		lookupItem{ucs2: 0x8499, cp949: 0xd9d5},
		lookupItem{ucs2: 0x849c, cp949: 0xdfaa},
		lookupItem{ucs2: 0x84a1, cp949: 0xdbbc},
		lookupItem{ucs2: 0x84b2, cp949: 0xf8e4},
		lookupItem{ucs2: 0x84b8, cp949: 0xf1fa},
		lookupItem{ucs2: 0x84bb, cp949: 0xe5b6},
		lookupItem{ucs2: 0x84bc, cp949: 0xf3ef},
		lookupItem{ucs2: 0x84bf, cp949: 0xfbda},
		lookupItem{ucs2: 0x84c0, cp949: 0xe1e0},
		lookupItem{ucs2: 0x84c2, cp949: 0xd9ac},
		lookupItem{ucs2: 0x84c4, cp949: 0xf5eb},
		lookupItem{ucs2: 0x84c6, cp949: 0xe0b6},
		lookupItem{ucs2: 0x84c9, cp949: 0xe9c8},
		lookupItem{ucs2: 0x84cb, cp949: 0xcbcf},
		lookupItem{ucs2: 0x84cd, cp949: 0xe3c9},
		lookupItem{ucs2: 0x84d1, cp949: 0xdeee},
		lookupItem{ucs2: 0x84da, cp949: 0xe2be},
		lookupItem{ucs2: 0x84ec, cp949: 0xdcef},
		lookupItem{ucs2: 0x84ee, cp949: 0xd6a5},
		lookupItem{ucs2: 0x84f4, cp949: 0xe2f1},
		lookupItem{ucs2: 0x84fc, cp949: 0xd6fe},
		lookupItem{ucs2: 0x8511, cp949: 0xd9a1},
		lookupItem{ucs2: 0x8513, cp949: 0xd8c0},
		lookupItem{ucs2: 0x8514, cp949: 0xdcdb},
		lookupItem{ucs2: 0x8517, cp949: 0xedbd},
		lookupItem{ucs2: 0x8518, cp949: 0xdfb8},
		lookupItem{ucs2: 0x851a, cp949: 0xeaa5},
		lookupItem{ucs2: 0x851e, cp949: 0xd7ad},
		lookupItem{ucs2: 0x8521, cp949: 0xf3f9},
		lookupItem{ucs2: 0x8523, cp949: 0xedf8},
		lookupItem{ucs2: 0x8525, cp949: 0xf5c7},
		lookupItem{ucs2: 0x852c, cp949: 0xe1ca},
		lookupItem{ucs2: 0x852d, cp949: 0xebe3},
		lookupItem{ucs2: 0x852f, cp949: 0xf2de},
		lookupItem{ucs2: 0x853d, cp949: 0xf8cc},
		lookupItem{ucs2: 0x853f, cp949: 0xead9},
		lookupItem{ucs2: 0x8541, cp949: 0xd3c6},
		lookupItem{ucs2: 0x8543, cp949: 0xdbe6},
		lookupItem{ucs2: 0x8549, cp949: 0xf5af},
		lookupItem{ucs2: 0x854e, cp949: 0xcef0},
		lookupItem{ucs2: 0x8553, cp949: 0xe9fe},
		lookupItem{ucs2: 0x8559, cp949: 0xfbb6},
		lookupItem{ucs2: 0x8563, cp949: 0xe2f2},
		lookupItem{ucs2: 0x8568, cp949: 0xcff2},
		lookupItem{ucs2: 0x8569, cp949: 0xf7b9},
		lookupItem{ucs2: 0x856a, cp949: 0xd9f3},
		lookupItem{ucs2: 0x856d, cp949: 0xe1cb},
		lookupItem{ucs2: 0x8584, cp949: 0xdadd},
		lookupItem{ucs2: 0x8587, cp949: 0xdab9},
		lookupItem{ucs2: 0x858f, cp949: 0xebfb},
		lookupItem{ucs2: 0x8591, cp949: 0xcbb9},
		lookupItem{ucs2: 0x8594, cp949: 0xedf9},
		lookupItem{ucs2: 0x859b, cp949: 0xe0e0},
		lookupItem{ucs2: 0x85a6, cp949: 0xf4c0},
		lookupItem{ucs2: 0x85a8, cp949: 0xfdbc},
		lookupItem{ucs2: 0x85a9, cp949: 0xdfb1},
		lookupItem{ucs2: 0x85aa, cp949: 0xe3ef},
		lookupItem{ucs2: 0x85af, cp949: 0xe0a3},
		lookupItem{ucs2: 0x85b0, cp949: 0xfdb9},
		lookupItem{ucs2: 0x85ba, cp949: 0xf0b1},
		lookupItem{ucs2: 0x85c1, cp949: 0xcdcb},
		lookupItem{ucs2: 0x85c9, cp949: 0xedbe},
		lookupItem{ucs2: 0x85cd, cp949: 0xd5c0},
		lookupItem{ucs2: 0x85ce, cp949: 0xe3f0},
		lookupItem{ucs2: 0x85cf, cp949: 0xedfa},
		lookupItem{ucs2: 0x85d5, cp949: 0xe9e4},
		lookupItem{ucs2: 0x85dc, cp949: 0xd5ed},
		lookupItem{ucs2: 0x85dd, cp949: 0xe7dd},
		lookupItem{ucs2: 0x85e4, cp949: 0xd4f6},
		lookupItem{ucs2: 0x85e5, cp949: 0xe5b7},
		lookupItem{ucs2: 0x85e9, cp949: 0xdbe7},
		lookupItem{ucs2: 0x85ea, cp949: 0xe2bf},
		lookupItem{ucs2: 0x85f7, cp949: 0xeecb},
		lookupItem{ucs2: 0x85fa, cp949: 0xd7f4},
		lookupItem{ucs2: 0x85fb, cp949: 0xf0dd},
		lookupItem{ucs2: 0x85ff, cp949: 0xceab},
		lookupItem{ucs2: 0x8602, cp949: 0xe7de},
		lookupItem{ucs2: 0x8606, cp949: 0xd6d6},
		lookupItem{ucs2: 0x8607, cp949: 0xe1cc},
		lookupItem{ucs2: 0x860a, cp949: 0xe8b3},
		lookupItem{ucs2: 0x8616, cp949: 0xe5ee},
		lookupItem{ucs2: 0x8617, cp949: 0xdca2},
		lookupItem{ucs2: 0x861a, cp949: 0xe0d0},
		lookupItem{ucs2: 0x862d, cp949: 0xd5b5},
		lookupItem{ucs2: 0x863f, cp949: 0xd5a1},
		lookupItem{ucs2: 0x864e, cp949: 0xfbdb},
		lookupItem{ucs2: 0x8650, cp949: 0xf9cb},
		lookupItem{ucs2: 0x8654, cp949: 0xcbf3},
		lookupItem{ucs2: 0x8655, cp949: 0xf4a5},
		lookupItem{ucs2: 0x865b, cp949: 0xfac8},
		lookupItem{ucs2: 0x865c, cp949: 0xd6d7},
		lookupItem{ucs2: 0x865e, cp949: 0xe9e5},
		lookupItem{ucs2: 0x865f, cp949: 0xfbdc},
		lookupItem{ucs2: 0x8667, cp949: 0xfdd0},
		lookupItem{ucs2: 0x8679, cp949: 0xfbf6},
		lookupItem{ucs2: 0x868a, cp949: 0xdaa5},
		lookupItem{ucs2: 0x868c, cp949: 0xdbbd},
		lookupItem{ucs2: 0x8693, cp949: 0xece2},
		lookupItem{ucs2: 0x86a3, cp949: 0xcdf7},
		lookupItem{ucs2: 0x86a4, cp949: 0xf0de},
		lookupItem{ucs2: 0x86a9, cp949: 0xf6c9},
		lookupItem{ucs2: 0x86c7, cp949: 0xdeef},
		lookupItem{ucs2: 0x86cb, cp949: 0xd3b1},
		lookupItem{ucs2: 0x86d4, cp949: 0xfcee},
		lookupItem{ucs2: 0x86d9, cp949: 0xe8c3},
		lookupItem{ucs2: 0x86db, cp949: 0xf1c8},
		lookupItem{ucs2: 0x86df, cp949: 0xcef1},
		lookupItem{ucs2: 0x86e4, cp949: 0xf9ed},
		lookupItem{ucs2: 0x86ed, cp949: 0xf2f4},
		lookupItem{ucs2: 0x86fe, cp949: 0xe4b6},
		lookupItem{ucs2: 0x8700, cp949: 0xf5b9},
		lookupItem{ucs2: 0x8702, cp949: 0xdcf0},
		lookupItem{ucs2: 0x8703, cp949: 0xe3f1},
		lookupItem{ucs2: 0x8708, cp949: 0xe8a5},
		lookupItem{ucs2: 0x8718, cp949: 0xf2bb},
		lookupItem{ucs2: 0x871a, cp949: 0xdea4},
		lookupItem{ucs2: 0x871c, cp949: 0xdacc},
		lookupItem{ucs2: 0x874e, cp949: 0xcae9},
		lookupItem{ucs2: 0x8755, cp949: 0xe3da},
		lookupItem{ucs2: 0x8757, cp949: 0xfcd9},
		lookupItem{ucs2: 0x875f, cp949: 0xeada},
		lookupItem{ucs2: 0x8766, cp949: 0xf9c4},
		lookupItem{ucs2: 0x8768, cp949: 0xe3a4},
		lookupItem{ucs2: 0x8774, cp949: 0xfbdd},
		lookupItem{ucs2: 0x8776, cp949: 0xefca},
		lookupItem{ucs2: 0x8778, cp949: 0xe8c4},
		lookupItem{ucs2: 0x8782, cp949: 0xd5cc},
		lookupItem{ucs2: 0x878d, cp949: 0xebd7},
		lookupItem{ucs2: 0x879f, cp949: 0xd9ad},
		lookupItem{ucs2: 0x87a2, cp949: 0xfbab},
		lookupItem{ucs2: 0x87b3, cp949: 0xd3d9},
		lookupItem{ucs2: 0x87ba, cp949: 0xd5a2},
		lookupItem{ucs2: 0x87c4, cp949: 0xf6de},
		lookupItem{ucs2: 0x87e0, cp949: 0xdaf6},
		lookupItem{ucs2: 0x87ec, cp949: 0xe0d1},
		lookupItem{ucs2: 0x87ef, cp949: 0xe9a8},
".
Definition text_cp949_lookup_to_018 : string :=
"		lookupItem{ucs2: 0x87f2, cp949: 0xf5f9},
		lookupItem{ucs2: 0x87f9, cp949: 0xfaaf},
		lookupItem{ucs2: 0x87fb, cp949: 0xebfc},
		lookupItem{ucs2: 0x87fe, cp949: 0xe0ea},
		lookupItem{ucs2: 0x8805, cp949: 0xe3b2},
		lookupItem{ucs2: 0x881f, cp949: 0xd5c5},
		lookupItem{ucs2: 0x8822, cp949: 0xf1e3},
		lookupItem{ucs2: 0x8823, cp949: 0xd5ee},
		lookupItem{ucs2: 0x8831, cp949: 0xcdcc},
		lookupItem{ucs2: 0x8836, cp949: 0xedd9},
		lookupItem{ucs2: 0x883b, cp949: 0xd8c1},
		lookupItem{ucs2: 0x8840, cp949: 0xfaec},
		lookupItem{ucs2: 0x8846, cp949: 0xf1eb},
		lookupItem{ucs2: 0x884c, cp949: 0xfabc},
		lookupItem{ucs2: 0x884d, cp949: 0xe6e2},
		lookupItem{ucs2: 0x8852, cp949: 0xfae5},
		lookupItem{ucs2: 0x8853, cp949: 0xe2fa},
		lookupItem{ucs2: 0x8857, cp949: 0xcab6},
		lookupItem{ucs2: 0x8859, cp949: 0xe4b7},
		lookupItem{ucs2: 0x885b, cp949: 0xeadb},
		lookupItem{ucs2: 0x885d, cp949: 0xf5fa},
		lookupItem{ucs2: 0x8861, cp949: 0xfbac},
		lookupItem{ucs2: 0x8862, cp949: 0xcfc3},
		lookupItem{ucs2: 0x8863, cp949: 0xebfd},
		lookupItem{ucs2: 0x8868, cp949: 0xf8fa},
		lookupItem{ucs2: 0x886b, cp949: 0xdfb9},
		lookupItem{ucs2: 0x8870, cp949: 0xe1f1},
		lookupItem{ucs2: 0x8872, cp949: 0xd2a4},
		lookupItem{ucs2: 0x8877, cp949: 0xf5fb},
		lookupItem{ucs2: 0x887e, cp949: 0xd0da},
		lookupItem{ucs2: 0x887f, cp949: 0xd0db},
		lookupItem{ucs2: 0x8881, cp949: 0xeabe},
		lookupItem{ucs2: 0x8882, cp949: 0xd9b1},
		lookupItem{ucs2: 0x8888, cp949: 0xcab7},
		lookupItem{ucs2: 0x888b, cp949: 0xd3e7},
		lookupItem{ucs2: 0x888d, cp949: 0xf8e5},
		lookupItem{ucs2: 0x8892, cp949: 0xd3b2},
		lookupItem{ucs2: 0x8896, cp949: 0xe2c0},
		lookupItem{ucs2: 0x8897, cp949: 0xf2df},
		lookupItem{ucs2: 0x889e, cp949: 0xcde5},
		lookupItem{ucs2: 0x88ab, cp949: 0xf9ac},
		lookupItem{ucs2: 0x88b4, cp949: 0xcdcd},
		lookupItem{ucs2: 0x88c1, cp949: 0xeeae},
		lookupItem{ucs2: 0x88c2, cp949: 0xd6ae},
		lookupItem{ucs2: 0x88cf, cp949: 0xd7ea},
		lookupItem{ucs2: 0x88d4, cp949: 0xe7e0},
		lookupItem{ucs2: 0x88d5, cp949: 0xebae},
		lookupItem{ucs2: 0x88d9, cp949: 0xcfd9},
		lookupItem{ucs2: 0x88dc, cp949: 0xdccd},
		lookupItem{ucs2: 0x88dd, cp949: 0xedfb},
		lookupItem{ucs2: 0x88df, cp949: 0xdef0},
		lookupItem{ucs2: 0x88e1, cp949: 0xd7eb},
		lookupItem{ucs2: 0x88e8, cp949: 0xdea5},
		lookupItem{ucs2: 0x88f3, cp949: 0xdfd7},
		lookupItem{ucs2: 0x88f4, cp949: 0xdbd0},
		lookupItem{ucs2: 0x88f5, cp949: 0xdbd1},
		lookupItem{ucs2: 0x88f8, cp949: 0xd5a3},
		lookupItem{ucs2: 0x88fd, cp949: 0xf0b2},
		lookupItem{ucs2: 0x8907, cp949: 0xdcdc},
		lookupItem{ucs2: 0x8910, cp949: 0xcae8},
		lookupItem{ucs2: 0x8912, cp949: 0xf8e6},
		lookupItem{ucs2: 0x8913, cp949: 0xdcce},
		lookupItem{ucs2: 0x8918, cp949: 0xeadc},
		lookupItem{ucs2: 0x8919, cp949: 0xdbd2},
		lookupItem{ucs2: 0x8925, cp949: 0xe9b3},
		lookupItem{ucs2: 0x892a, cp949: 0xf7db},
		lookupItem{ucs2: 0x8936, cp949: 0xe3a8},
		lookupItem{ucs2: 0x8938, cp949: 0xd7ae},
		lookupItem{ucs2: 0x893b, cp949: 0xe0e1},
		lookupItem{ucs2: 0x8941, cp949: 0xcbba},
		lookupItem{ucs2: 0x8944, cp949: 0xe5d1},
		lookupItem{ucs2: 0x895f, cp949: 0xd0dc},
		lookupItem{ucs2: 0x8964, cp949: 0xd5c1},
		lookupItem{ucs2: 0x896a, cp949: 0xd8ca},
		lookupItem{ucs2: 0x8972, cp949: 0xe3a9},
		lookupItem{ucs2: 0x897f, cp949: 0xe0a4},
		lookupItem{ucs2: 0x8981, cp949: 0xe9a9},
		lookupItem{ucs2: 0x8983, cp949: 0xd3c7},
		lookupItem{ucs2: 0x8986, cp949: 0xdcdd},
		lookupItem{ucs2: 0x8987, cp949: 0xf8ae},
		lookupItem{ucs2: 0x898b, cp949: 0xccb8},
		lookupItem{ucs2: 0x898f, cp949: 0xd0ae},
		lookupItem{ucs2: 0x8993, cp949: 0xd8f2},
		lookupItem{ucs2: 0x8996, cp949: 0xe3ca},
		lookupItem{ucs2: 0x89a1, cp949: 0xccaf},
		lookupItem{ucs2: 0x89a9, cp949: 0xd4ad},
		lookupItem{ucs2: 0x89aa, cp949: 0xf6d1},
		lookupItem{ucs2: 0x89b2, cp949: 0xd0cc},
		lookupItem{ucs2: 0x89ba, cp949: 0xcac6},
		lookupItem{ucs2: 0x89bd, cp949: 0xd5c2},
		lookupItem{ucs2: 0x89c0, cp949: 0xceba},
		lookupItem{ucs2: 0x89d2, cp949: 0xcac7},
		lookupItem{ucs2: 0x89e3, cp949: 0xfab0},
		lookupItem{ucs2: 0x89f4, cp949: 0xdfd8},
		lookupItem{ucs2: 0x89f8, cp949: 0xf5ba},
		lookupItem{ucs2: 0x8a00, cp949: 0xe5eb},
		lookupItem{ucs2: 0x8a02, cp949: 0xeff4},
		lookupItem{ucs2: 0x8a03, cp949: 0xddb5},
		lookupItem{ucs2: 0x8a08, cp949: 0xcdaa},
		lookupItem{ucs2: 0x8a0a, cp949: 0xe3f2},
		lookupItem{ucs2: 0x8a0c, cp949: 0xfbf7},
		lookupItem{ucs2: 0x8a0e, cp949: 0xf7d0},
		lookupItem{ucs2: 0x8a13, cp949: 0xfdba},
		lookupItem{ucs2: 0x8a16, cp949: 0xfde1},
		lookupItem{ucs2: 0x8a17, cp949: 0xf6fe},
		lookupItem{ucs2: 0x8a18, cp949: 0xd1c0},
		lookupItem{ucs2: 0x8a1b, cp949: 0xe8c5},
		lookupItem{ucs2: 0x8a1d, cp949: 0xe4b8},
		lookupItem{ucs2: 0x8a1f, cp949: 0xe1e8},
		lookupItem{ucs2: 0x8a23, cp949: 0xccc1},
		lookupItem{ucs2: 0x8a25, cp949: 0xd2ed},
		lookupItem{ucs2: 0x8a2a, cp949: 0xdbbe},
		lookupItem{ucs2: 0x8a2d, cp949: 0xe0e2},
		lookupItem{ucs2: 0x8a31, cp949: 0xfac9},
		lookupItem{ucs2: 0x8a34, cp949: 0xe1cd},
		lookupItem{ucs2: 0x8a36, cp949: 0xcab8},
		lookupItem{ucs2: 0x8a3a, cp949: 0xf2e0},
		lookupItem{ucs2: 0x8a3b, cp949: 0xf1c9},
		lookupItem{ucs2: 0x8a50, cp949: 0xdef1},
		lookupItem{ucs2: 0x8a54, cp949: 0xf0df},
		lookupItem{ucs2: 0x8a55, cp949: 0xf8c4},
		lookupItem{ucs2: 0x8a5b, cp949: 0xeecc},
		lookupItem{ucs2: 0x8a5e, cp949: 0xdef2},
		lookupItem{ucs2: 0x8a60, cp949: 0xe7c9},
		lookupItem{ucs2: 0x8a62, cp949: 0xe2f3},
		lookupItem{ucs2: 0x8a63, cp949: 0xe7e1},
		lookupItem{ucs2: 0x8a66, cp949: 0xe3cb},
		lookupItem{ucs2: 0x8a69, cp949: 0xe3cc},
		lookupItem{ucs2: 0x8a6d, cp949: 0xcff8},
		lookupItem{ucs2: 0x8a6e, cp949: 0xefac},
		lookupItem{ucs2: 0x8a70, cp949: 0xfdfe},
		lookupItem{ucs2: 0x8a71, cp949: 0xfca5},
		lookupItem{ucs2: 0x8a72, cp949: 0xfab1},
		lookupItem{ucs2: 0x8a73, cp949: 0xdfd9},
		lookupItem{ucs2: 0x8a75, cp949: 0xe0d2},
		lookupItem{ucs2: 0x8a79, cp949: 0xf4da},
		lookupItem{ucs2: 0x8a85, cp949: 0xf1ca},
		lookupItem{ucs2: 0x8a87, cp949: 0xcea3},
		lookupItem{ucs2: 0x8a8c, cp949: 0xf2bc},
		lookupItem{ucs2: 0x8a8d, cp949: 0xece3},
		lookupItem{ucs2: 0x8a93, cp949: 0xe0a5},
		lookupItem{ucs2: 0x8a95, cp949: 0xf7ab},
		lookupItem{ucs2: 0x8a98, cp949: 0xebaf},
		lookupItem{ucs2: 0x8a9e, cp949: 0xe5de},
		lookupItem{ucs2: 0x8aa0, cp949: 0xe1a4},
		lookupItem{ucs2: 0x8aa1, cp949: 0xcdab},
		lookupItem{ucs2: 0x8aa3, cp949: 0xd9f4},
		lookupItem{ucs2: 0x8aa4, cp949: 0xe8a6},
		lookupItem{ucs2: 0x8aa5, cp949: 0xcdce},
		lookupItem{ucs2: 0x8aa6, cp949: 0xe1e9},
		lookupItem{ucs2: 0x8aa8, cp949: 0xfcef},
		lookupItem{ucs2: 0x8aaa, cp949: 0xe0e3},
		lookupItem{ucs2: 0x8ab0, cp949: 0xe2c1},
		lookupItem{ucs2: 0x8ab2, cp949: 0xcea4},
		lookupItem{ucs2: 0x8ab9, cp949: 0xdea6},
		lookupItem{ucs2: 0x8abc, cp949: 0xebfe},
		lookupItem{ucs2: 0x8abe, cp949: 0xebdd},
		lookupItem{ucs2: 0x8abf, cp949: 0xf0e0},
		lookupItem{ucs2: 0x8ac2, cp949: 0xf4db},
		lookupItem{ucs2: 0x8ac4, cp949: 0xe2f4},
		lookupItem{ucs2: 0x8ac7, cp949: 0xd3c8},
		lookupItem{ucs2: 0x8acb, cp949: 0xf4eb},
		lookupItem{ucs2: 0x8acd, cp949: 0xeeb5},
		lookupItem{ucs2: 0x8acf, cp949: 0xf5d8},
		lookupItem{ucs2: 0x8ad2, cp949: 0xd5df},
		lookupItem{ucs2: 0x8ad6, cp949: 0xd6e5},
		lookupItem{ucs2: 0x8adb, cp949: 0xebb0},
		lookupItem{ucs2: 0x8adc, cp949: 0xf4e3},
		lookupItem{ucs2: 0x8ae1, cp949: 0xe3cd},
		lookupItem{ucs2: 0x8ae6, cp949: 0xf4f4},
		lookupItem{ucs2: 0x8ae7, cp949: 0xfab2},
		lookupItem{ucs2: 0x8aea, cp949: 0xeff5},
		lookupItem{ucs2: 0x8aeb, cp949: 0xcadf},
		lookupItem{ucs2: 0x8aed, cp949: 0xebb1},
		lookupItem{ucs2: 0x8aee, cp949: 0xedbf},
		lookupItem{ucs2: 0x8af1, cp949: 0xfdc9},
		lookupItem{ucs2: 0x8af6, cp949: 0xe4a6},
		lookupItem{ucs2: 0x8af7, cp949: 0xf9a4},
		lookupItem{ucs2: 0x8af8, cp949: 0xf0b3},
		lookupItem{ucs2: 0x8afa, cp949: 0xe5ec},
		lookupItem{ucs2: 0x8afe, cp949: 0xd1e7},
		lookupItem{ucs2: 0x8b00, cp949: 0xd9c7},
		lookupItem{ucs2: 0x8b01, cp949: 0xe4d7},
		lookupItem{ucs2: 0x8b02, cp949: 0xeadd},
		lookupItem{ucs2: 0x8b04, cp949: 0xd4f7},
		lookupItem{ucs2: 0x8b0e, cp949: 0xdaba},
		lookupItem{ucs2: 0x8b10, cp949: 0xdacd},
		lookupItem{ucs2: 0x8b14, cp949: 0xf9cc},
		lookupItem{ucs2: 0x8b16, cp949: 0xe1da},
		lookupItem{ucs2: 0x8b17, cp949: 0xdbbf},
		lookupItem{ucs2: 0x8b19, cp949: 0xccc5},
		lookupItem{ucs2: 0x8b1a, cp949: 0xecd0},
		lookupItem{ucs2: 0x8b1b, cp949: 0xcbbb},
		lookupItem{ucs2: 0x8b1d, cp949: 0xdef3},
		lookupItem{ucs2: 0x8b20, cp949: 0xe9aa},
		lookupItem{ucs2: 0x8b28, cp949: 0xd9c8},
		lookupItem{ucs2: 0x8b2b, cp949: 0xeee3},
		lookupItem{ucs2: 0x8b2c, cp949: 0xd7bd},
		lookupItem{ucs2: 0x8b33, cp949: 0xcfc4},
		lookupItem{ucs2: 0x8b39, cp949: 0xd0cd},
		lookupItem{ucs2: 0x8b41, cp949: 0xfca6},
		lookupItem{ucs2: 0x8b49, cp949: 0xf1fb},
		lookupItem{ucs2: 0x8b4e, cp949: 0xfdd2},
		lookupItem{ucs2: 0x8b4f, cp949: 0xd1c1},
		lookupItem{ucs2: 0x8b58, cp949: 0xe3db},
		lookupItem{ucs2: 0x8b5a, cp949: 0xd3c9},
		lookupItem{ucs2: 0x8b5c, cp949: 0xdccf},
		lookupItem{ucs2: 0x8b66, cp949: 0xcced},
		lookupItem{ucs2: 0x8b6c, cp949: 0xdea7},
		lookupItem{ucs2: 0x8b6f, cp949: 0xe6bb},
		lookupItem{ucs2: 0x8b70, cp949: 0xeca1},
		lookupItem{ucs2: 0x8b74, cp949: 0xccb9},
		lookupItem{ucs2: 0x8b77, cp949: 0xfbde},
		lookupItem{ucs2: 0x8b7d, cp949: 0xe7e2},
		lookupItem{ucs2: 0x8b80, cp949: 0xd4c1},
		lookupItem{ucs2: 0x8b8a, cp949: 0xdca8},
		lookupItem{ucs2: 0x8b90, cp949: 0xe2c2},
		lookupItem{ucs2: 0x8b92, cp949: 0xf3d8},
		lookupItem{ucs2: 0x8b93, cp949: 0xe5d3},
		lookupItem{ucs2: 0x8b96, cp949: 0xf3d9},
		lookupItem{ucs2: 0x8b9a, cp949: 0xf3c6},
		lookupItem{ucs2: 0x8c37, cp949: 0xcddb},
		lookupItem{ucs2: 0x8c3f, cp949: 0xcdac},
		lookupItem{ucs2: 0x8c41, cp949: 0xfcc3},
		lookupItem{ucs2: 0x8c46, cp949: 0xd4e7},
		lookupItem{ucs2: 0x8c48, cp949: 0xd1c2},
		lookupItem{ucs2: 0x8c4a, cp949: 0xf9a5},
		lookupItem{ucs2: 0x8c4c, cp949: 0xe8d5},
		lookupItem{ucs2: 0x8c55, cp949: 0xe3ce},
		lookupItem{ucs2: 0x8c5a, cp949: 0xd4ca},
		lookupItem{ucs2: 0x8c61, cp949: 0xdfda},
		lookupItem{ucs2: 0x8c6a, cp949: 0xfbdf},
		lookupItem{ucs2: 0x8c6b, cp949: 0xe7e3},
		lookupItem{ucs2: 0x8c79, cp949: 0xf8fb},
		lookupItem{ucs2: 0x8c7a, cp949: 0xe3cf},
		lookupItem{ucs2: 0x8c82, cp949: 0xf5b0},
		lookupItem{ucs2: 0x8c8a, cp949: 0xd8e7},
		lookupItem{ucs2: 0x8c8c, cp949: 0xd9c9},
		lookupItem{ucs2: 0x8c9d, cp949: 0xf8af},
		lookupItem{ucs2: 0x8c9e, cp949: 0xeff6},
		lookupItem{ucs2: 0x8ca0, cp949: 0xddb6},
		lookupItem{ucs2: 0x8ca1, cp949: 0xeeaf},
		lookupItem{ucs2: 0x8ca2, cp949: 0xcdf8},
		lookupItem{ucs2: 0x8ca7, cp949: 0xdeb8},
		lookupItem{ucs2: 0x8ca8, cp949: 0xfca7},
		lookupItem{ucs2: 0x8ca9, cp949: 0xf7fc},
		lookupItem{ucs2: 0x8caa, cp949: 0xf7b1},
		lookupItem{ucs2: 0x8cab, cp949: 0xcebb},
		lookupItem{ucs2: 0x8cac, cp949: 0xf4a1},
		lookupItem{ucs2: 0x8caf, cp949: 0xeecd},
".
Definition text_cp949_lookup_to_019 : string :=
"		lookupItem{ucs2: 0x8cb0, cp949: 0xe1ae},
		lookupItem{ucs2: 0x8cb3, cp949: 0xecc3},
		lookupItem{ucs2: 0x8cb4, cp949: 0xcffe},
		lookupItem{ucs2: 0x8cb6, cp949: 0xf8bf},
		lookupItem{ucs2: 0x8cb7, cp949: 0xd8e2},
		lookupItem{ucs2: 0x8cb8, cp949: 0xd3e8},
		lookupItem{ucs2: 0x8cbb, cp949: 0xdea8},
		lookupItem{ucs2: 0x8cbc, cp949: 0xf4e4},
		lookupItem{ucs2: 0x8cbd, cp949: 0xecc2},
		lookupItem{ucs2: 0x8cbf, cp949: 0xd9f5},
		lookupItem{ucs2: 0x8cc0, cp949: 0xf9c5},
		lookupItem{ucs2: 0x8cc1, cp949: 0xddd3},
		lookupItem{ucs2: 0x8cc2, cp949: 0xd6f1},
		lookupItem{ucs2: 0x8cc3, cp949: 0xecfc},
		lookupItem{ucs2: 0x8cc4, cp949: 0xfcf0},
		lookupItem{ucs2: 0x8cc7, cp949: 0xedc0},
		lookupItem{ucs2: 0x8cc8, cp949: 0xcab9},
		lookupItem{ucs2: 0x8cca, cp949: 0xeee4},
		lookupItem{ucs2: 0x8cd1, cp949: 0xf2e1},
		lookupItem{ucs2: 0x8cd3, cp949: 0xdeb9},
		lookupItem{ucs2: 0x8cda, cp949: 0xd6f2},
		lookupItem{ucs2: 0x8cdc, cp949: 0xdef4},
		lookupItem{ucs2: 0x8cde, cp949: 0xdfdb},
		lookupItem{ucs2: 0x8ce0, cp949: 0xdbd3},
		lookupItem{ucs2: 0x8ce2, cp949: 0xfae7},
		lookupItem{ucs2: 0x8ce3, cp949: 0xd8e3},
		lookupItem{ucs2: 0x8ce4, cp949: 0xf4c1},
		lookupItem{ucs2: 0x8ce6, cp949: 0xddb7},
		lookupItem{ucs2: 0x8cea, cp949: 0xf2f5},
		lookupItem{ucs2: 0x8ced, cp949: 0xd4ae},
		lookupItem{ucs2: 0x8cf4, cp949: 0xd6f3},
		lookupItem{ucs2: 0x8cfb, cp949: 0xddb8},
		lookupItem{ucs2: 0x8cfc, cp949: 0xcfc5},
		lookupItem{ucs2: 0x8cfd, cp949: 0xdfdf},
		lookupItem{ucs2: 0x8d04, cp949: 0xf2be},
		lookupItem{ucs2: 0x8d05, cp949: 0xf6a1},
		lookupItem{ucs2: 0x8d07, cp949: 0xebcb},
		lookupItem{ucs2: 0x8d08, cp949: 0xf1fc},
		lookupItem{ucs2: 0x8d0a, cp949: 0xf3c7},
		lookupItem{ucs2: 0x8d0d, cp949: 0xe0eb},
		lookupItem{ucs2: 0x8d13, cp949: 0xedfc},
		lookupItem{ucs2: 0x8d16, cp949: 0xe1db},
		lookupItem{ucs2: 0x8d64, cp949: 0xeee5},
		lookupItem{ucs2: 0x8d66, cp949: 0xdef5},
		lookupItem{ucs2: 0x8d6b, cp949: 0xfad3},
		lookupItem{ucs2: 0x8d70, cp949: 0xf1cb},
		lookupItem{ucs2: 0x8d73, cp949: 0xd0af},
		lookupItem{ucs2: 0x8d74, cp949: 0xddb9},
		lookupItem{ucs2: 0x8d77, cp949: 0xd1c3},
		lookupItem{ucs2: 0x8d85, cp949: 0xf5b1},
		lookupItem{ucs2: 0x8d8a, cp949: 0xeac6},
		lookupItem{ucs2: 0x8d99, cp949: 0xf0e1},
		lookupItem{ucs2: 0x8da3, cp949: 0xf6ac},
		lookupItem{ucs2: 0x8da8, cp949: 0xf5d9},
		lookupItem{ucs2: 0x8db3, cp949: 0xf0eb},
		lookupItem{ucs2: 0x8dba, cp949: 0xddba},
		lookupItem{ucs2: 0x8dbe, cp949: 0xf2bf},
		lookupItem{ucs2: 0x8dc6, cp949: 0xf7c5},
		lookupItem{ucs2: 0x8dcb, cp949: 0xdba2},
		lookupItem{ucs2: 0x8dcc, cp949: 0xf2f6},
		lookupItem{ucs2: 0x8dcf, cp949: 0xcaba},
		lookupItem{ucs2: 0x8ddb, cp949: 0xf7f5},
		lookupItem{ucs2: 0x8ddd, cp949: 0xcbe5},
		lookupItem{ucs2: 0x8de1, cp949: 0xeee6},
		lookupItem{ucs2: 0x8de3, cp949: 0xe0d3},
		lookupItem{ucs2: 0x8de8, cp949: 0xcea5},
		lookupItem{ucs2: 0x8def, cp949: 0xd6d8},
		lookupItem{ucs2: 0x8df3, cp949: 0xd4af},
		lookupItem{ucs2: 0x8e0a, cp949: 0xe9c9},
		lookupItem{ucs2: 0x8e0f, cp949: 0xd3ce},
		lookupItem{ucs2: 0x8e10, cp949: 0xf4c2},
		lookupItem{ucs2: 0x8e1e, cp949: 0xcbe6},
		lookupItem{ucs2: 0x8e2a, cp949: 0xf1a1},
		lookupItem{ucs2: 0x8e30, cp949: 0xebb2},
		lookupItem{ucs2: 0x8e35, cp949: 0xf1a2},
		lookupItem{ucs2: 0x8e42, cp949: 0xebb3},
		lookupItem{ucs2: 0x8e44, cp949: 0xf0b4},
		lookupItem{ucs2: 0x8e47, cp949: 0xcbf4},
		lookupItem{ucs2: 0x8e48, cp949: 0xd4b0},
		lookupItem{ucs2: 0x8e49, cp949: 0xf3b2},
		lookupItem{ucs2: 0x8e4a, cp949: 0xfbb7},
		lookupItem{ucs2: 0x8e59, cp949: 0xf5ec},
		lookupItem{ucs2: 0x8e5f, cp949: 0xeee7},
		lookupItem{ucs2: 0x8e60, cp949: 0xf4b2},
		lookupItem{ucs2: 0x8e74, cp949: 0xf5ed},
		lookupItem{ucs2: 0x8e76, cp949: 0xcff3},
		lookupItem{ucs2: 0x8e81, cp949: 0xf0e2},
		lookupItem{ucs2: 0x8e87, cp949: 0xeece},
		lookupItem{ucs2: 0x8e8a, cp949: 0xf1cc},
		lookupItem{ucs2: 0x8e8d, cp949: 0xe5b8},
		lookupItem{ucs2: 0x8eaa, cp949: 0xd7f5},
		lookupItem{ucs2: 0x8eab, cp949: 0xe3f3},
		lookupItem{ucs2: 0x8eac, cp949: 0xcfe5},
		lookupItem{ucs2: 0x8ec0, cp949: 0xcfc6},
		lookupItem{ucs2: 0x8eca, cp949: 0xf3b3},
		lookupItem{ucs2: 0x8ecb, cp949: 0xe4d8},
		lookupItem{ucs2: 0x8ecc, cp949: 0xcff9},
		lookupItem{ucs2: 0x8ecd, cp949: 0xcfda},
		lookupItem{ucs2: 0x8ed2, cp949: 0xfacd},
		lookupItem{ucs2: 0x8edf, cp949: 0xe6e3},
		lookupItem{ucs2: 0x8eeb, cp949: 0xf2e2},
		lookupItem{ucs2: 0x8ef8, cp949: 0xf5ee},
		lookupItem{ucs2: 0x8efb, cp949: 0xcabb},
		lookupItem{ucs2: 0x8efe, cp949: 0xe3dc},
		lookupItem{ucs2: 0x8f03, cp949: 0xcef2},
		lookupItem{ucs2: 0x8f05, cp949: 0xd6d9},
		lookupItem{ucs2: 0x8f09, cp949: 0xeeb0},
		lookupItem{ucs2: 0x8f12, cp949: 0xf4e5},
		lookupItem{ucs2: 0x8f13, cp949: 0xd8c2},
		lookupItem{ucs2: 0x8f14, cp949: 0xdcd0},
		lookupItem{ucs2: 0x8f15, cp949: 0xccee},
		lookupItem{ucs2: 0x8f1b, cp949: 0xd5e0},
		lookupItem{ucs2: 0x8f1c, cp949: 0xf6ca},
		lookupItem{ucs2: 0x8f1d, cp949: 0xfdca},
		lookupItem{ucs2: 0x8f1e, cp949: 0xd8d6},
		lookupItem{ucs2: 0x8f1f, cp949: 0xf4cf},
		lookupItem{ucs2: 0x8f26, cp949: 0xd6a6},
		lookupItem{ucs2: 0x8f27, cp949: 0xdcbe},
		lookupItem{ucs2: 0x8f29, cp949: 0xdbd4},
		lookupItem{ucs2: 0x8f2a, cp949: 0xd7c7},
		lookupItem{ucs2: 0x8f2f, cp949: 0xf2fe},
		lookupItem{ucs2: 0x8f33, cp949: 0xf1cd},
		lookupItem{ucs2: 0x8f38, cp949: 0xe2c3},
		lookupItem{ucs2: 0x8f39, cp949: 0xdcde},
		lookupItem{ucs2: 0x8f3b, cp949: 0xdcdf},
		lookupItem{ucs2: 0x8f3e, cp949: 0xefad},
		lookupItem{ucs2: 0x8f3f, cp949: 0xe6ab},
		lookupItem{ucs2: 0x8f44, cp949: 0xf9dd},
		lookupItem{ucs2: 0x8f45, cp949: 0xeabf},
		lookupItem{ucs2: 0x8f49, cp949: 0xefae},
		lookupItem{ucs2: 0x8f4d, cp949: 0xf4d0},
		lookupItem{ucs2: 0x8f4e, cp949: 0xcef3},
		lookupItem{ucs2: 0x8f5d, cp949: 0xe6ac},
		lookupItem{ucs2: 0x8f5f, cp949: 0xcede},
		lookupItem{ucs2: 0x8f62, cp949: 0xd5f9},
		lookupItem{ucs2: 0x8f9b, cp949: 0xe3f4},
		lookupItem{ucs2: 0x8f9c, cp949: 0xcdd0},
		lookupItem{ucs2: 0x8fa3, cp949: 0xd5b8},
		lookupItem{ucs2: 0x8fa6, cp949: 0xf7fd},
		lookupItem{ucs2: 0x8fa8, cp949: 0xdca9},
		lookupItem{ucs2: 0x8fad, cp949: 0xdef6},
		lookupItem{ucs2: 0x8faf, cp949: 0xdcaa},
		lookupItem{ucs2: 0x8fb0, cp949: 0xf2e3},
		lookupItem{ucs2: 0x8fb1, cp949: 0xe9b4},
		lookupItem{ucs2: 0x8fb2, cp949: 0xd2dc},
		lookupItem{ucs2: 0x8fc2, cp949: 0xe9e6},
		lookupItem{ucs2: 0x8fc5, cp949: 0xe3f6},
		lookupItem{ucs2: 0x8fce, cp949: 0xe7ca},
		lookupItem{ucs2: 0x8fd1, cp949: 0xd0ce},
		lookupItem{ucs2: 0x8fd4, cp949: 0xdaf7},
		lookupItem{ucs2: 0x8fe6, cp949: 0xcabc},
		lookupItem{ucs2: 0x8fea, cp949: 0xeee8},
		lookupItem{ucs2: 0x8feb, cp949: 0xdade},
		lookupItem{ucs2: 0x8fed, cp949: 0xf2f7},
		lookupItem{ucs2: 0x8ff0, cp949: 0xe2fb},
		lookupItem{ucs2: 0x8ff2, cp949: 0xcca6},
		lookupItem{ucs2: 0x8ff7, cp949: 0xdabb},
		lookupItem{ucs2: 0x8ff9, cp949: 0xeee9},
		lookupItem{ucs2: 0x8ffd, cp949: 0xf5da},
		lookupItem{ucs2: 0x9000, cp949: 0xf7dc},
		lookupItem{ucs2: 0x9001, cp949: 0xe1ea},
		lookupItem{ucs2: 0x9002, cp949: 0xcec1},
		lookupItem{ucs2: 0x9003, cp949: 0xd4b1},
		lookupItem{ucs2: 0x9005, cp949: 0xfdb1},
		lookupItem{ucs2: 0x9006, cp949: 0xe6bd},
		lookupItem{ucs2: 0x9008, cp949: 0xfbad},
		lookupItem{ucs2: 0x900b, cp949: 0xf8e7},
		lookupItem{ucs2: 0x900d, cp949: 0xe1ce},
		lookupItem{ucs2: 0x900f, cp949: 0xf7e2},
		lookupItem{ucs2: 0x9010, cp949: 0xf5ef},
		lookupItem{ucs2: 0x9011, cp949: 0xcfc7},
		lookupItem{ucs2: 0x9014, cp949: 0xd4b2},
		lookupItem{ucs2: 0x9015, cp949: 0xccef},
		lookupItem{ucs2: 0x9017, cp949: 0xd4e8},
		lookupItem{ucs2: 0x9019, cp949: 0xeecf},
		lookupItem{ucs2: 0x901a, cp949: 0xf7d7},
		lookupItem{ucs2: 0x901d, cp949: 0xe0a6},
		lookupItem{ucs2: 0x901e, cp949: 0xd6c1},
		lookupItem{ucs2: 0x901f, cp949: 0xe1dc},
		lookupItem{ucs2: 0x9020, cp949: 0xf0e3},
		lookupItem{ucs2: 0x9021, cp949: 0xf1e4},
		lookupItem{ucs2: 0x9022, cp949: 0xdcf1},
		lookupItem{ucs2: 0x9023, cp949: 0xd6a7},
		lookupItem{ucs2: 0x902e, cp949: 0xf4f5},
		lookupItem{ucs2: 0x9031, cp949: 0xf1ce},
		lookupItem{ucs2: 0x9032, cp949: 0xf2e4},
		lookupItem{ucs2: 0x9035, cp949: 0xd0b0},
		lookupItem{ucs2: 0x9038, cp949: 0xecef},
		lookupItem{ucs2: 0x903c, cp949: 0xf9ba},
		lookupItem{ucs2: 0x903e, cp949: 0xebb5},
		lookupItem{ucs2: 0x9041, cp949: 0xd4ed},
		lookupItem{ucs2: 0x9042, cp949: 0xe2c4},
		lookupItem{ucs2: 0x9047, cp949: 0xe9e7},
		lookupItem{ucs2: 0x904a, cp949: 0xebb4},
		lookupItem{ucs2: 0x904b, cp949: 0xeaa1},
		lookupItem{ucs2: 0x904d, cp949: 0xf8bc},
		lookupItem{ucs2: 0x904e, cp949: 0xcea6},
		lookupItem{ucs2: 0x9050, cp949: 0xf9c6},
		lookupItem{ucs2: 0x9051, cp949: 0xfcda},
		lookupItem{ucs2: 0x9053, cp949: 0xd4b3},
		lookupItem{ucs2: 0x9054, cp949: 0xd3b9},
		lookupItem{ucs2: 0x9055, cp949: 0xeade},
		lookupItem{ucs2: 0x9059, cp949: 0xe9ab},
		lookupItem{ucs2: 0x905c, cp949: 0xe1e1},
		lookupItem{ucs2: 0x905d, cp949: 0xd3cf},
		lookupItem{ucs2: 0x905e, cp949: 0xf4f6},
		lookupItem{ucs2: 0x9060, cp949: 0xeac0},
		lookupItem{ucs2: 0x9061, cp949: 0xe1cf},
		lookupItem{ucs2: 0x9063, cp949: 0xccba},
		lookupItem{ucs2: 0x9069, cp949: 0xeeea},
		lookupItem{ucs2: 0x906d, cp949: 0xf0e4},
		lookupItem{ucs2: 0x906e, cp949: 0xf3b4},
		lookupItem{ucs2: 0x906f, cp949: 0xd4ee},
		lookupItem{ucs2: 0x9072, cp949: 0xf2c0},
		lookupItem{ucs2: 0x9075, cp949: 0xf1e5},
		lookupItem{ucs2: 0x9077, cp949: 0xf4c3},
		lookupItem{ucs2: 0x9078, cp949: 0xe0d4},
		lookupItem{ucs2: 0x907a, cp949: 0xebb6},
		lookupItem{ucs2: 0x907c, cp949: 0xd7a1},
		lookupItem{ucs2: 0x907d, cp949: 0xcbe8},
		lookupItem{ucs2: 0x907f, cp949: 0xf9ad},
		lookupItem{ucs2: 0x9080, cp949: 0xe9ad},
		lookupItem{ucs2: 0x9081, cp949: 0xd8e4},
		lookupItem{ucs2: 0x9082, cp949: 0xfab3},
		lookupItem{ucs2: 0x9083, cp949: 0xe2c5},
		lookupItem{ucs2: 0x9084, cp949: 0xfcbd},
		lookupItem{ucs2: 0x9087, cp949: 0xecc4},
		lookupItem{ucs2: 0x9088, cp949: 0xd8b1},
		lookupItem{ucs2: 0x908a, cp949: 0xdcab},
		lookupItem{ucs2: 0x908f, cp949: 0xd5a4},
		lookupItem{ucs2: 0x9091, cp949: 0xebe9},
		lookupItem{ucs2: 0x9095, cp949: 0xe8bb},
		lookupItem{ucs2: 0x9099, cp949: 0xd8d7},
		lookupItem{ucs2: 0x90a2, cp949: 0xfbae},
		lookupItem{ucs2: 0x90a3, cp949: 0xd1e1},
		lookupItem{ucs2: 0x90a6, cp949: 0xdbc0},
		lookupItem{ucs2: 0x90a8, cp949: 0xf5be},
		lookupItem{ucs2: 0x90aa, cp949: 0xdef7},
		lookupItem{ucs2: 0x90af, cp949: 0xcafb},
		lookupItem{ucs2: 0x90b0, cp949: 0xf7c6},
		lookupItem{ucs2: 0x90b1, cp949: 0xcfc8},
		lookupItem{ucs2: 0x90b5, cp949: 0xe1d0},
		lookupItem{ucs2: 0x90b8, cp949: 0xeed0},
		lookupItem{ucs2: 0x90c1, cp949: 0xe9f4},
		lookupItem{ucs2: 0x90ca, cp949: 0xcef4},
		lookupItem{ucs2: 0x90de, cp949: 0xd5cd},
		lookupItem{ucs2: 0x90e1, cp949: 0xcfdb},
		lookupItem{ucs2: 0x90e8, cp949: 0xddbb},
		lookupItem{ucs2: 0x90ed, cp949: 0xceac},
		lookupItem{ucs2: 0x90f5, cp949: 0xe9e8},
".
Definition text_cp949_lookup_to_020 : string :=
"		lookupItem{ucs2: 0x90fd, cp949: 0xd4b4},
		lookupItem{ucs2: 0x9102, cp949: 0xe4c7},
		lookupItem{ucs2: 0x9112, cp949: 0xf5db},
		lookupItem{ucs2: 0x9115, cp949: 0xfac1},
		lookupItem{ucs2: 0x9119, cp949: 0xdea9},
		lookupItem{ucs2: 0x9127, cp949: 0xd4f8},
		lookupItem{ucs2: 0x912d, cp949: 0xeff7},
		lookupItem{ucs2: 0x9132, cp949: 0xd3b3},
		lookupItem{ucs2: 0x9149, cp949: 0xebb7},
		lookupItem{ucs2: 0x914a, cp949: 0xeff8},
		lookupItem{ucs2: 0x914b, cp949: 0xf5dc},
		lookupItem{ucs2: 0x914c, cp949: 0xedcc},
		lookupItem{ucs2: 0x914d, cp949: 0xdbd5},
		lookupItem{ucs2: 0x914e, cp949: 0xf1cf},
		lookupItem{ucs2: 0x9152, cp949: 0xf1d0},
		lookupItem{ucs2: 0x9162, cp949: 0xf5b2},
		lookupItem{ucs2: 0x9169, cp949: 0xd9ae},
		lookupItem{ucs2: 0x916a, cp949: 0xd5ac},
		lookupItem{ucs2: 0x916c, cp949: 0xe2c6},
		lookupItem{ucs2: 0x9175, cp949: 0xfda3},
		lookupItem{ucs2: 0x9177, cp949: 0xfbe5},
		lookupItem{ucs2: 0x9178, cp949: 0xdfab},
		lookupItem{ucs2: 0x9187, cp949: 0xe2f5},
		lookupItem{ucs2: 0x9189, cp949: 0xf6ad},
		lookupItem{ucs2: 0x918b, cp949: 0xf5b3},
		lookupItem{ucs2: 0x918d, cp949: 0xf0b5},
		lookupItem{ucs2: 0x9192, cp949: 0xe1a5},
		lookupItem{ucs2: 0x919c, cp949: 0xf5dd},
		lookupItem{ucs2: 0x91ab, cp949: 0xeca2},
		lookupItem{ucs2: 0x91ac, cp949: 0xedfd},
		lookupItem{ucs2: 0x91ae, cp949: 0xf5b4},
		lookupItem{ucs2: 0x91af, cp949: 0xfbb8},
		lookupItem{ucs2: 0x91b1, cp949: 0xdba3},
		lookupItem{ucs2: 0x91b4, cp949: 0xd6ca},
		lookupItem{ucs2: 0x91b5, cp949: 0xcbd9},
		lookupItem{ucs2: 0x91c0, cp949: 0xe5d4},
		lookupItem{ucs2: 0x91c7, cp949: 0xf3fa},
		lookupItem{ucs2: 0x91c9, cp949: 0xebb8},
		lookupItem{ucs2: 0x91cb, cp949: 0xe0b7},
		lookupItem{ucs2: 0x91cc, cp949: 0xd7ec},
		lookupItem{ucs2: 0x91cd, cp949: 0xf1ec},
		lookupItem{ucs2: 0x91ce, cp949: 0xe5af},
		lookupItem{ucs2: 0x91cf, cp949: 0xd5e1},
		lookupItem{ucs2: 0x91d0, cp949: 0xd7ed},
		lookupItem{ucs2: 0x91d1, cp949: 0xd1d1},
		lookupItem{ucs2: 0x91d7, cp949: 0xe1f2},
		lookupItem{ucs2: 0x91d8, cp949: 0xeff9},
		lookupItem{ucs2: 0x91dc, cp949: 0xddbc},
		lookupItem{ucs2: 0x91dd, cp949: 0xf6dc},
		lookupItem{ucs2: 0x91e3, cp949: 0xf0e5},
		lookupItem{ucs2: 0x91e7, cp949: 0xf4c4},
		lookupItem{ucs2: 0x91ea, cp949: 0xe9e9},
		lookupItem{ucs2: 0x91f5, cp949: 0xf3fb},
		lookupItem{ucs2: 0x920d, cp949: 0xd4ef},
		lookupItem{ucs2: 0x9210, cp949: 0xcca2},
		lookupItem{ucs2: 0x9211, cp949: 0xf7fe},
		lookupItem{ucs2: 0x9212, cp949: 0xdfbc},
		lookupItem{ucs2: 0x9217, cp949: 0xebcd},
		lookupItem{ucs2: 0x921e, cp949: 0xd0b7},
		lookupItem{ucs2: 0x9234, cp949: 0xd6c2},
		lookupItem{ucs2: 0x923a, cp949: 0xe8ad},
		lookupItem{ucs2: 0x923f, cp949: 0xefaf},
		lookupItem{ucs2: 0x9240, cp949: 0xcba5},
		lookupItem{ucs2: 0x9245, cp949: 0xcbe9},
		lookupItem{ucs2: 0x9249, cp949: 0xfae8},
		lookupItem{ucs2: 0x9257, cp949: 0xccc6},
		lookupItem{ucs2: 0x925b, cp949: 0xe6e7},
		lookupItem{ucs2: 0x925e, cp949: 0xeac7},
		lookupItem{ucs2: 0x9262, cp949: 0xdba4},
		lookupItem{ucs2: 0x9264, cp949: 0xcfc9},
		lookupItem{ucs2: 0x9265, cp949: 0xe2fc},
		lookupItem{ucs2: 0x9266, cp949: 0xeffa},
		lookupItem{ucs2: 0x9280, cp949: 0xebde},
		lookupItem{ucs2: 0x9283, cp949: 0xf5c8},
		lookupItem{ucs2: 0x9285, cp949: 0xd4de},
		lookupItem{ucs2: 0x9291, cp949: 0xe0d5},
		lookupItem{ucs2: 0x9293, cp949: 0xefb0},
		lookupItem{ucs2: 0x9296, cp949: 0xe2c7},
		lookupItem{ucs2: 0x9298, cp949: 0xd9af},
		lookupItem{ucs2: 0x929c, cp949: 0xf9e7},
		lookupItem{ucs2: 0x92b3, cp949: 0xe7e5},
		lookupItem{ucs2: 0x92b6, cp949: 0xcfca},
		lookupItem{ucs2: 0x92b7, cp949: 0xe1d1},
		lookupItem{ucs2: 0x92b9, cp949: 0xe2c8},
		lookupItem{ucs2: 0x92cc, cp949: 0xeffb},
		lookupItem{ucs2: 0x92cf, cp949: 0xfaf9},
		lookupItem{ucs2: 0x92d2, cp949: 0xdcf2},
		lookupItem{ucs2: 0x92e4, cp949: 0xe0a7},
		lookupItem{ucs2: 0x92ea, cp949: 0xf8e8},
		lookupItem{ucs2: 0x92f8, cp949: 0xcbea},
		lookupItem{ucs2: 0x92fc, cp949: 0xcbbc},
		lookupItem{ucs2: 0x9304, cp949: 0xd6e2},
		lookupItem{ucs2: 0x9310, cp949: 0xf5de},
		lookupItem{ucs2: 0x9318, cp949: 0xf5df},
		lookupItem{ucs2: 0x931a, cp949: 0xeeb6},
		lookupItem{ucs2: 0x931e, cp949: 0xe2f6},
		lookupItem{ucs2: 0x931f, cp949: 0xd3ca},
		lookupItem{ucs2: 0x9320, cp949: 0xeffc},
		lookupItem{ucs2: 0x9321, cp949: 0xd1c4},
		lookupItem{ucs2: 0x9322, cp949: 0xefb1},
		lookupItem{ucs2: 0x9324, cp949: 0xd1c5},
		lookupItem{ucs2: 0x9326, cp949: 0xd0de},
		lookupItem{ucs2: 0x9328, cp949: 0xd9e1},
		lookupItem{ucs2: 0x932b, cp949: 0xe0b8},
		lookupItem{ucs2: 0x932e, cp949: 0xcdd1},
		lookupItem{ucs2: 0x932f, cp949: 0xf3b9},
		lookupItem{ucs2: 0x9348, cp949: 0xe7cc},
		lookupItem{ucs2: 0x934a, cp949: 0xd6a8},
		lookupItem{ucs2: 0x934b, cp949: 0xcea7},
		lookupItem{ucs2: 0x934d, cp949: 0xd4b5},
		lookupItem{ucs2: 0x9354, cp949: 0xe4c8},
		lookupItem{ucs2: 0x935b, cp949: 0xd3b4},
		lookupItem{ucs2: 0x936e, cp949: 0xebb9},
		lookupItem{ucs2: 0x9375, cp949: 0xcbf5},
		lookupItem{ucs2: 0x937c, cp949: 0xf6dd},
		lookupItem{ucs2: 0x937e, cp949: 0xf1a3},
		lookupItem{ucs2: 0x938c, cp949: 0xccc7},
		lookupItem{ucs2: 0x9394, cp949: 0xe9ca},
		lookupItem{ucs2: 0x9396, cp949: 0xe1f0},
		lookupItem{ucs2: 0x939a, cp949: 0xf5e0},
		lookupItem{ucs2: 0x93a3, cp949: 0xfbaf},
		lookupItem{ucs2: 0x93a7, cp949: 0xcbd1},
		lookupItem{ucs2: 0x93ac, cp949: 0xfbe0},
		lookupItem{ucs2: 0x93ad, cp949: 0xf2e5},
		lookupItem{ucs2: 0x93b0, cp949: 0xecf0},
		lookupItem{ucs2: 0x93c3, cp949: 0xf0ec},
		lookupItem{ucs2: 0x93d1, cp949: 0xeeeb},
		lookupItem{ucs2: 0x93de, cp949: 0xe9cb},
		lookupItem{ucs2: 0x93e1, cp949: 0xccf0},
		lookupItem{ucs2: 0x93e4, cp949: 0xd7af},
		lookupItem{ucs2: 0x93f6, cp949: 0xf3a1},
		lookupItem{ucs2: 0x9404, cp949: 0xfcf5},
		lookupItem{ucs2: 0x9418, cp949: 0xf1a4},
		lookupItem{ucs2: 0x9425, cp949: 0xe0d6},
		lookupItem{ucs2: 0x942b, cp949: 0xefb2},
		lookupItem{ucs2: 0x9435, cp949: 0xf4d1},
		lookupItem{ucs2: 0x9438, cp949: 0xf7a1},
		lookupItem{ucs2: 0x9444, cp949: 0xf1d1},
		lookupItem{ucs2: 0x9451, cp949: 0xcafc},
		lookupItem{ucs2: 0x9452, cp949: 0xcafd},
		lookupItem{ucs2: 0x945b, cp949: 0xcece},
		lookupItem{ucs2: 0x947d, cp949: 0xf3c8},
		lookupItem{ucs2: 0x947f, cp949: 0xf3ba},
		lookupItem{ucs2: 0x9577, cp949: 0xedfe},
		lookupItem{ucs2: 0x9580, cp949: 0xdaa6},
		lookupItem{ucs2: 0x9583, cp949: 0xe0ec},
		lookupItem{ucs2: 0x9589, cp949: 0xf8cd},
		lookupItem{ucs2: 0x958b, cp949: 0xcbd2},
		lookupItem{ucs2: 0x958f, cp949: 0xebce},
		lookupItem{ucs2: 0x9591, cp949: 0xf9d8},
		lookupItem{ucs2: 0x9592, cp949: 0xf9d9},
		lookupItem{ucs2: 0x9593, cp949: 0xcae0},
		lookupItem{ucs2: 0x9594, cp949: 0xdaca},
		lookupItem{ucs2: 0x9598, cp949: 0xcba6},
		lookupItem{ucs2: 0x95a3, cp949: 0xcac8},
		lookupItem{ucs2: 0x95a4, cp949: 0xf9ee},
		lookupItem{ucs2: 0x95a5, cp949: 0xdbec},
		lookupItem{ucs2: 0x95a8, cp949: 0xd0b1},
		lookupItem{ucs2: 0x95ad, cp949: 0xd5ef},
		lookupItem{ucs2: 0x95b1, cp949: 0xe6f3},
		lookupItem{ucs2: 0x95bb, cp949: 0xe7a2},
		lookupItem{ucs2: 0x95bc, cp949: 0xe4d9},
		lookupItem{ucs2: 0x95c7, cp949: 0xe4e1},
		lookupItem{ucs2: 0x95ca, cp949: 0xfcc4},
		lookupItem{ucs2: 0x95d4, cp949: 0xf9ef},
		lookupItem{ucs2: 0x95d5, cp949: 0xcff4},
		lookupItem{ucs2: 0x95d6, cp949: 0xf7e6},
		lookupItem{ucs2: 0x95dc, cp949: 0xcebc},
		lookupItem{ucs2: 0x95e1, cp949: 0xf4c5},
		lookupItem{ucs2: 0x95e2, cp949: 0xdca3},
		lookupItem{ucs2: 0x961c, cp949: 0xddbd},
		lookupItem{ucs2: 0x9621, cp949: 0xf4c6},
		lookupItem{ucs2: 0x962a, cp949: 0xf8a1},
		lookupItem{ucs2: 0x962e, cp949: 0xe8d6},
		lookupItem{ucs2: 0x9632, cp949: 0xdbc1},
		lookupItem{ucs2: 0x963b, cp949: 0xf0e6},
		lookupItem{ucs2: 0x963f, cp949: 0xe4b9},
		lookupItem{ucs2: 0x9640, cp949: 0xf6ed},
		lookupItem{ucs2: 0x9642, cp949: 0xf9ae},
		lookupItem{ucs2: 0x9644, cp949: 0xddbe},
		lookupItem{ucs2: 0x964b, cp949: 0xd7b0},
		lookupItem{ucs2: 0x964c, cp949: 0xd8e8},
		lookupItem{ucs2: 0x964d, cp949: 0xcbbd},
		lookupItem{ucs2: 0x9650, cp949: 0xf9da},
		lookupItem{ucs2: 0x965b, cp949: 0xf8ce},
		lookupItem{ucs2: 0x965c, cp949: 0xf9f0},
		lookupItem{ucs2: 0x965d, cp949: 0xe0ed},
		lookupItem{ucs2: 0x965e, cp949: 0xe3b3},
		lookupItem{ucs2: 0x965f, cp949: 0xf4b3},
		lookupItem{ucs2: 0x9662, cp949: 0xeac2},
		lookupItem{ucs2: 0x9663, cp949: 0xf2e6},
		lookupItem{ucs2: 0x9664, cp949: 0xf0b6},
		lookupItem{ucs2: 0x966a, cp949: 0xdbd6},
		lookupItem{ucs2: 0x9670, cp949: 0xebe4},
		lookupItem{ucs2: 0x9673, cp949: 0xf2e7},
		lookupItem{ucs2: 0x9675, cp949: 0xd7d5},
		lookupItem{ucs2: 0x9676, cp949: 0xd4b6},
		lookupItem{ucs2: 0x9677, cp949: 0xf9e8},
		lookupItem{ucs2: 0x9678, cp949: 0xd7c1},
		lookupItem{ucs2: 0x967d, cp949: 0xe5d5},
		lookupItem{ucs2: 0x9685, cp949: 0xe9ea},
		lookupItem{ucs2: 0x9686, cp949: 0xd7cc},
		lookupItem{ucs2: 0x968a, cp949: 0xd3e9},
		lookupItem{ucs2: 0x968b, cp949: 0xe2c9},
		lookupItem{ucs2: 0x968d, cp949: 0xfcdb},
		lookupItem{ucs2: 0x968e, cp949: 0xcdad},
		lookupItem{ucs2: 0x9694, cp949: 0xccb0},
		lookupItem{ucs2: 0x9695, cp949: 0xeaa2},
		lookupItem{ucs2: 0x9698, cp949: 0xe4f6},
		lookupItem{ucs2: 0x9699, cp949: 0xd0c0},
		lookupItem{ucs2: 0x969b, cp949: 0xf0b7},
		lookupItem{ucs2: 0x969c, cp949: 0xeea1},
		lookupItem{ucs2: 0x96a3, cp949: 0xd7f6},
		lookupItem{ucs2: 0x96a7, cp949: 0xe2ca},
		lookupItem{ucs2: 0x96a8, cp949: 0xe2cb},
		lookupItem{ucs2: 0x96aa, cp949: 0xfacf},
		lookupItem{ucs2: 0x96b1, cp949: 0xebdf},
		lookupItem{ucs2: 0x96b7, cp949: 0xd6cb},
		lookupItem{ucs2: 0x96bb, cp949: 0xf4b4},
		lookupItem{ucs2: 0x96c0, cp949: 0xedcd},
		lookupItem{ucs2: 0x96c1, cp949: 0xe4d2},
		lookupItem{ucs2: 0x96c4, cp949: 0xeaa9},
		lookupItem{ucs2: 0x96c5, cp949: 0xe4ba},
		lookupItem{ucs2: 0x96c6, cp949: 0xf3a2},
		lookupItem{ucs2: 0x96c7, cp949: 0xcdd2},
		lookupItem{ucs2: 0x96c9, cp949: 0xf6cb},
		lookupItem{ucs2: 0x96cb, cp949: 0xf1e6},
		lookupItem{ucs2: 0x96cc, cp949: 0xedc1},
		lookupItem{ucs2: 0x96cd, cp949: 0xe8bc},
		lookupItem{ucs2: 0x96ce, cp949: 0xeed1},
		lookupItem{ucs2: 0x96d5, cp949: 0xf0e7},
		lookupItem{ucs2: 0x96d6, cp949: 0xe2cc},
		lookupItem{ucs2: 0x96d9, cp949: 0xe4aa},
		lookupItem{ucs2: 0x96db, cp949: 0xf5e1},
		lookupItem{ucs2: 0x96dc, cp949: 0xedda},
		lookupItem{ucs2: 0x96e2, cp949: 0xd7ee},
		lookupItem{ucs2: 0x96e3, cp949: 0xd1f1},
		lookupItem{ucs2: 0x96e8, cp949: 0xe9eb},
		lookupItem{ucs2: 0x96e9, cp949: 0xe9ec},
		lookupItem{ucs2: 0x96ea, cp949: 0xe0e4},
		lookupItem{ucs2: 0x96ef, cp949: 0xdaa7},
		lookupItem{ucs2: 0x96f0, cp949: 0xddd4},
		lookupItem{ucs2: 0x96f2, cp949: 0xeaa3},
		lookupItem{ucs2: 0x96f6, cp949: 0xd6c3},
		lookupItem{ucs2: 0x96f7, cp949: 0xd6f4},
		lookupItem{ucs2: 0x96f9, cp949: 0xdadf},
		lookupItem{ucs2: 0x96fb, cp949: 0xefb3},
		lookupItem{ucs2: 0x9700, cp949: 0xe2cd},
		lookupItem{ucs2: 0x9706, cp949: 0xeffd},
		lookupItem{ucs2: 0x9707, cp949: 0xf2e8},
".
Definition text_cp949_lookup_to_021 : string :=
"		lookupItem{ucs2: 0x9711, cp949: 0xefc5},
		lookupItem{ucs2: 0x9713, cp949: 0xe7e7},
		lookupItem{ucs2: 0x9716, cp949: 0xd7fd},
		lookupItem{ucs2: 0x9719, cp949: 0xe7ce},
		lookupItem{ucs2: 0x971c, cp949: 0xdfdc},
		lookupItem{ucs2: 0x971e, cp949: 0xf9c7},
		lookupItem{ucs2: 0x9727, cp949: 0xd9f6},
		lookupItem{ucs2: 0x9730, cp949: 0xdfac},
		lookupItem{ucs2: 0x9732, cp949: 0xd6da},
		lookupItem{ucs2: 0x9739, cp949: 0xdca4},
		lookupItem{ucs2: 0x973d, cp949: 0xf0b8},
		lookupItem{ucs2: 0x9742, cp949: 0xd5fa},
		lookupItem{ucs2: 0x9744, cp949: 0xe4f7},
		lookupItem{ucs2: 0x9748, cp949: 0xd6c4},
		lookupItem{ucs2: 0x9751, cp949: 0xf4ec},
		lookupItem{ucs2: 0x9756, cp949: 0xeffe},
		lookupItem{ucs2: 0x975c, cp949: 0xf0a1},
		lookupItem{ucs2: 0x975e, cp949: 0xdeaa},
		lookupItem{ucs2: 0x9761, cp949: 0xdabc},
		lookupItem{ucs2: 0x9762, cp949: 0xd8fc},
		lookupItem{ucs2: 0x9769, cp949: 0xfad4},
		lookupItem{ucs2: 0x976d, cp949: 0xece5},
		lookupItem{ucs2: 0x9774, cp949: 0xfca8},
		lookupItem{ucs2: 0x9777, cp949: 0xece6},
		lookupItem{ucs2: 0x977a, cp949: 0xd8cb},
		lookupItem{ucs2: 0x978b, cp949: 0xfbb9},
		lookupItem{ucs2: 0x978d, cp949: 0xe4d3},
		lookupItem{ucs2: 0x978f, cp949: 0xcdf9},
		lookupItem{ucs2: 0x97a0, cp949: 0xcfd3},
		lookupItem{ucs2: 0x97a8, cp949: 0xcaea},
		lookupItem{ucs2: 0x97ab, cp949: 0xcfd4},
		lookupItem{ucs2: 0x97ad, cp949: 0xf8bd},
		lookupItem{ucs2: 0x97c6, cp949: 0xf4c7},
		lookupItem{ucs2: 0x97cb, cp949: 0xeadf},
		lookupItem{ucs2: 0x97d3, cp949: 0xf9db},
		lookupItem{ucs2: 0x97dc, cp949: 0xd4b7},
		lookupItem{ucs2: 0x97f3, cp949: 0xebe5},
		lookupItem{ucs2: 0x97f6, cp949: 0xe1d2},
		lookupItem{ucs2: 0x97fb, cp949: 0xeaa4},
		lookupItem{ucs2: 0x97ff, cp949: 0xfac2},
		lookupItem{ucs2: 0x9800, cp949: 0xfbe1},
		lookupItem{ucs2: 0x9801, cp949: 0xfaed},
		lookupItem{ucs2: 0x9802, cp949: 0xf0a2},
		lookupItem{ucs2: 0x9803, cp949: 0xccf1},
		lookupItem{ucs2: 0x9805, cp949: 0xfaa3},
		lookupItem{ucs2: 0x9806, cp949: 0xe2f7},
		lookupItem{ucs2: 0x9808, cp949: 0xe2ce},
		lookupItem{ucs2: 0x980a, cp949: 0xe9f5},
		lookupItem{ucs2: 0x980c, cp949: 0xe1eb},
		lookupItem{ucs2: 0x9810, cp949: 0xe7e8},
		lookupItem{ucs2: 0x9811, cp949: 0xe8d7},
		lookupItem{ucs2: 0x9812, cp949: 0xdaf8},
		lookupItem{ucs2: 0x9813, cp949: 0xd4cb},
		lookupItem{ucs2: 0x9817, cp949: 0xf7f6},
		lookupItem{ucs2: 0x9818, cp949: 0xd6c5},
		lookupItem{ucs2: 0x982d, cp949: 0xd4e9},
		lookupItem{ucs2: 0x9830, cp949: 0xfafa},
		lookupItem{ucs2: 0x9838, cp949: 0xccf2},
		lookupItem{ucs2: 0x9839, cp949: 0xf7dd},
		lookupItem{ucs2: 0x983b, cp949: 0xdeba},
		lookupItem{ucs2: 0x9846, cp949: 0xcea8},
		lookupItem{ucs2: 0x984c, cp949: 0xf0b9},
		lookupItem{ucs2: 0x984d, cp949: 0xe4fe},
		lookupItem{ucs2: 0x984e, cp949: 0xe4c9},
		lookupItem{ucs2: 0x9854, cp949: 0xe4d4},
		lookupItem{ucs2: 0x9858, cp949: 0xeac3},
		lookupItem{ucs2: 0x985a, cp949: 0xefb4},
		lookupItem{ucs2: 0x985e, cp949: 0xd7be},
		lookupItem{ucs2: 0x9865, cp949: 0xfbe2},
		lookupItem{ucs2: 0x9867, cp949: 0xcdd3},
		lookupItem{ucs2: 0x986b, cp949: 0xefb5},
		lookupItem{ucs2: 0x986f, cp949: 0xfae9},
		lookupItem{ucs2: 0x98a8, cp949: 0xf9a6},
		lookupItem{ucs2: 0x98af, cp949: 0xdfbd},
		lookupItem{ucs2: 0x98b1, cp949: 0xf7c7},
		lookupItem{ucs2: 0x98c4, cp949: 0xf8fd},
		lookupItem{ucs2: 0x98c7, cp949: 0xf8fc},
		lookupItem{ucs2: 0x98db, cp949: 0xdeab},
		lookupItem{ucs2: 0x98dc, cp949: 0xdbe8},
		lookupItem{ucs2: 0x98df, cp949: 0xe3dd},
		lookupItem{ucs2: 0x98e1, cp949: 0xe1e2},
		lookupItem{ucs2: 0x98e2, cp949: 0xd1c6},
		lookupItem{ucs2: 0x98ed, cp949: 0xf6d0},
		lookupItem{ucs2: 0x98ee, cp949: 0xebe6},
		lookupItem{ucs2: 0x98ef, cp949: 0xdaf9},
		lookupItem{ucs2: 0x98f4, cp949: 0xecc7},
		lookupItem{ucs2: 0x98fc, cp949: 0xdef8},
		lookupItem{ucs2: 0x98fd, cp949: 0xf8e9},
		lookupItem{ucs2: 0x98fe, cp949: 0xe3de},
		lookupItem{ucs2: 0x9903, cp949: 0xcef5},
		lookupItem{ucs2: 0x9909, cp949: 0xfac3},
		lookupItem{ucs2: 0x990a, cp949: 0xe5d7},
		lookupItem{ucs2: 0x990c, cp949: 0xecc8},
		lookupItem{ucs2: 0x9910, cp949: 0xf3c9},
		lookupItem{ucs2: 0x9913, cp949: 0xe4bb},
		lookupItem{ucs2: 0x9918, cp949: 0xe6ae},
		lookupItem{ucs2: 0x991e, cp949: 0xefb6},
		lookupItem{ucs2: 0x9920, cp949: 0xdcbf},
		lookupItem{ucs2: 0x9928, cp949: 0xcebd},
		lookupItem{ucs2: 0x9945, cp949: 0xd8c3},
		lookupItem{ucs2: 0x9949, cp949: 0xd0cf},
		lookupItem{ucs2: 0x994b, cp949: 0xcffa},
		lookupItem{ucs2: 0x994c, cp949: 0xf3ca},
		lookupItem{ucs2: 0x994d, cp949: 0xe0d7},
		lookupItem{ucs2: 0x9951, cp949: 0xd1c7},
		lookupItem{ucs2: 0x9952, cp949: 0xe9ae},
		lookupItem{ucs2: 0x9954, cp949: 0xe8bd},
		lookupItem{ucs2: 0x9957, cp949: 0xfac4},
		lookupItem{ucs2: 0x9996, cp949: 0xe2cf},
		lookupItem{ucs2: 0x9999, cp949: 0xfac5},
		lookupItem{ucs2: 0x999d, cp949: 0xf9b8},
		lookupItem{ucs2: 0x99a5, cp949: 0xdce0},
		lookupItem{ucs2: 0x99a8, cp949: 0xfbb0},
		lookupItem{ucs2: 0x99ac, cp949: 0xd8a9},
		lookupItem{ucs2: 0x99ad, cp949: 0xe5df},
		lookupItem{ucs2: 0x99ae, cp949: 0xf9a7},
		lookupItem{ucs2: 0x99b1, cp949: 0xf6ee},
		lookupItem{ucs2: 0x99b3, cp949: 0xf6cc},
		lookupItem{ucs2: 0x99b4, cp949: 0xe2f8},
		lookupItem{ucs2: 0x99b9, cp949: 0xecf1},
		lookupItem{ucs2: 0x99c1, cp949: 0xdae0},
		lookupItem{ucs2: 0x99d0, cp949: 0xf1d2},
		lookupItem{ucs2: 0x99d1, cp949: 0xd2cc},
		lookupItem{ucs2: 0x99d2, cp949: 0xcfcb},
		lookupItem{ucs2: 0x99d5, cp949: 0xcabd},
		lookupItem{ucs2: 0x99d9, cp949: 0xddbf},
		lookupItem{ucs2: 0x99dd, cp949: 0xf6ef},
		lookupItem{ucs2: 0x99df, cp949: 0xdef9},
		lookupItem{ucs2: 0x99ed, cp949: 0xfab4},
		lookupItem{ucs2: 0x99f1, cp949: 0xd5ad},
		lookupItem{ucs2: 0x99ff, cp949: 0xf1e7},
		lookupItem{ucs2: 0x9a01, cp949: 0xdebe},
		lookupItem{ucs2: 0x9a08, cp949: 0xdcc0},
		lookupItem{ucs2: 0x9a0e, cp949: 0xd1c8},
		lookupItem{ucs2: 0x9a0f, cp949: 0xd1c9},
		lookupItem{ucs2: 0x9a19, cp949: 0xf8be},
		lookupItem{ucs2: 0x9a2b, cp949: 0xcbf6},
		lookupItem{ucs2: 0x9a30, cp949: 0xd4f9},
		lookupItem{ucs2: 0x9a36, cp949: 0xf5e2},
		lookupItem{ucs2: 0x9a37, cp949: 0xe1d3},
		lookupItem{ucs2: 0x9a40, cp949: 0xd8e9},
		lookupItem{ucs2: 0x9a43, cp949: 0xf8fe},
		lookupItem{ucs2: 0x9a45, cp949: 0xcfcc},
		lookupItem{ucs2: 0x9a4d, cp949: 0xfda4},
		lookupItem{ucs2: 0x9a55, cp949: 0xcef6},
		lookupItem{ucs2: 0x9a57, cp949: 0xfad0},
		lookupItem{ucs2: 0x9a5a, cp949: 0xccf3},
		lookupItem{ucs2: 0x9a5b, cp949: 0xe6be},
		lookupItem{ucs2: 0x9a5f, cp949: 0xf6ae},
		lookupItem{ucs2: 0x9a62, cp949: 0xd5f0},
		lookupItem{ucs2: 0x9a65, cp949: 0xd1ca},
		lookupItem{ucs2: 0x9a69, cp949: 0xfcbe},
		lookupItem{ucs2: 0x9a6a, cp949: 0xd5f1},
		lookupItem{ucs2: 0x9aa8, cp949: 0xcde9},
		lookupItem{ucs2: 0x9ab8, cp949: 0xfab5},
		lookupItem{ucs2: 0x9ad3, cp949: 0xe2d0},
		lookupItem{ucs2: 0x9ad4, cp949: 0xf4f7},
		lookupItem{ucs2: 0x9ad8, cp949: 0xcdd4},
		lookupItem{ucs2: 0x9ae5, cp949: 0xe7a3},
		lookupItem{ucs2: 0x9aee, cp949: 0xdba5},
		lookupItem{ucs2: 0x9b1a, cp949: 0xe2d1},
		lookupItem{ucs2: 0x9b27, cp949: 0xd7a2},
		lookupItem{ucs2: 0x9b2a, cp949: 0xf7e3},
		lookupItem{ucs2: 0x9b31, cp949: 0xeaa6},
		lookupItem{ucs2: 0x9b3c, cp949: 0xd0a1},
		lookupItem{ucs2: 0x9b41, cp949: 0xceda},
		lookupItem{ucs2: 0x9b42, cp949: 0xfbeb},
		lookupItem{ucs2: 0x9b43, cp949: 0xdba6},
		lookupItem{ucs2: 0x9b44, cp949: 0xdbde},
		lookupItem{ucs2: 0x9b45, cp949: 0xd8e5},
		lookupItem{ucs2: 0x9b4f, cp949: 0xeae0},
		lookupItem{ucs2: 0x9b54, cp949: 0xd8aa},
		lookupItem{ucs2: 0x9b5a, cp949: 0xe5e0},
		lookupItem{ucs2: 0x9b6f, cp949: 0xd6db},
		lookupItem{ucs2: 0x9b8e, cp949: 0xefc6},
		lookupItem{ucs2: 0x9b91, cp949: 0xf8ea},
		lookupItem{ucs2: 0x9b9f, cp949: 0xe4d5},
		lookupItem{ucs2: 0x9bab, cp949: 0xcef7},
		lookupItem{ucs2: 0x9bae, cp949: 0xe0d8},
		lookupItem{ucs2: 0x9bc9, cp949: 0xd7ef},
		lookupItem{ucs2: 0x9bd6, cp949: 0xf4ed},
		lookupItem{ucs2: 0x9be4, cp949: 0xcde6},
		lookupItem{ucs2: 0x9be8, cp949: 0xccf4},
		lookupItem{ucs2: 0x9c0d, cp949: 0xf5e3},
		lookupItem{ucs2: 0x9c10, cp949: 0xe4ca},
		lookupItem{ucs2: 0x9c12, cp949: 0xdce1},
		lookupItem{ucs2: 0x9c15, cp949: 0xf9c8},
		lookupItem{ucs2: 0x9c25, cp949: 0xfcbf},
		lookupItem{ucs2: 0x9c32, cp949: 0xe8a7},
		lookupItem{ucs2: 0x9c3b, cp949: 0xd8c4},
		lookupItem{ucs2: 0x9c47, cp949: 0xcbbe},
		lookupItem{ucs2: 0x9c49, cp949: 0xdcae},
		lookupItem{ucs2: 0x9c57, cp949: 0xd7f7},
		lookupItem{ucs2: 0x9ce5, cp949: 0xf0e8},
		lookupItem{ucs2: 0x9ce7, cp949: 0xddc0},
		lookupItem{ucs2: 0x9ce9, cp949: 0xcfcd},
		lookupItem{ucs2: 0x9cf3, cp949: 0xdcf3},
		lookupItem{ucs2: 0x9cf4, cp949: 0xd9b0},
		lookupItem{ucs2: 0x9cf6, cp949: 0xe6e9},
		lookupItem{ucs2: 0x9d09, cp949: 0xe4bc},
		lookupItem{ucs2: 0x9d1b, cp949: 0xeac4},
		lookupItem{ucs2: 0x9d26, cp949: 0xe4ec},
		lookupItem{ucs2: 0x9d28, cp949: 0xe4e5},
		lookupItem{ucs2: 0x9d3b, cp949: 0xfbf8},
		lookupItem{ucs2: 0x9d51, cp949: 0xccbb},
		lookupItem{ucs2: 0x9d5d, cp949: 0xe4bd},
		lookupItem{ucs2: 0x9d60, cp949: 0xcddc},
		lookupItem{ucs2: 0x9d61, cp949: 0xd9f7},
		lookupItem{ucs2: 0x9d6c, cp949: 0xdddf},
		lookupItem{ucs2: 0x9d72, cp949: 0xedce},
		lookupItem{ucs2: 0x9da9, cp949: 0xd9d0},
		lookupItem{ucs2: 0x9daf, cp949: 0xe5a3},
		lookupItem{ucs2: 0x9db4, cp949: 0xf9cd},
		lookupItem{ucs2: 0x9dc4, cp949: 0xcdae},
		lookupItem{ucs2: 0x9dd7, cp949: 0xcfce},
		lookupItem{ucs2: 0x9df2, cp949: 0xf6af},
		lookupItem{ucs2: 0x9df8, cp949: 0xfdd3},
		lookupItem{ucs2: 0x9df9, cp949: 0xebed},
		lookupItem{ucs2: 0x9dfa, cp949: 0xd6dc},
		lookupItem{ucs2: 0x9e1a, cp949: 0xe5a4},
		lookupItem{ucs2: 0x9e1e, cp949: 0xd5b6},
		lookupItem{ucs2: 0x9e75, cp949: 0xd6dd},
		lookupItem{ucs2: 0x9e79, cp949: 0xf9e9},
		lookupItem{ucs2: 0x9e7d, cp949: 0xe7a4},
		lookupItem{ucs2: 0x9e7f, cp949: 0xd6e3},
		lookupItem{ucs2: 0x9e92, cp949: 0xd1cb},
		lookupItem{ucs2: 0x9e93, cp949: 0xd6e4},
		lookupItem{ucs2: 0x9e97, cp949: 0xd5f2},
		lookupItem{ucs2: 0x9e9d, cp949: 0xdefa},
		lookupItem{ucs2: 0x9e9f, cp949: 0xd7f8},
		lookupItem{ucs2: 0x9ea5, cp949: 0xd8ea},
		lookupItem{ucs2: 0x9eb4, cp949: 0xcfd5},
		lookupItem{ucs2: 0x9eb5, cp949: 0xd8fd},
		lookupItem{ucs2: 0x9ebb, cp949: 0xd8ab},
		lookupItem{ucs2: 0x9ebe, cp949: 0xfdcb},
		lookupItem{ucs2: 0x9ec3, cp949: 0xfcdc},
		lookupItem{ucs2: 0x9ecd, cp949: 0xe0a8},
		lookupItem{ucs2: 0x9ece, cp949: 0xd5f3},
		lookupItem{ucs2: 0x9ed1, cp949: 0xfdd9},
		lookupItem{ucs2: 0x9ed4, cp949: 0xcca3},
		lookupItem{ucs2: 0x9ed8, cp949: 0xd9f9},
		lookupItem{ucs2: 0x9edb, cp949: 0xd3ea},
		lookupItem{ucs2: 0x9edc, cp949: 0xf5f5},
		lookupItem{ucs2: 0x9ede, cp949: 0xefc7},
		lookupItem{ucs2: 0x9ee8, cp949: 0xd3da},
		lookupItem{ucs2: 0x9ef4, cp949: 0xdabd},
		lookupItem{ucs2: 0x9f07, cp949: 0xe8a8},
		lookupItem{ucs2: 0x9f08, cp949: 0xdcaf},
		lookupItem{ucs2: 0x9f0e, cp949: 0xf0a3},
		lookupItem{ucs2: 0x9f13, cp949: 0xcdd5},
".
Definition text_cp949_lookup_to_022 : string :=
"		lookupItem{ucs2: 0x9f20, cp949: 0xe0a9},
		lookupItem{ucs2: 0x9f3b, cp949: 0xdeac},
		lookupItem{ucs2: 0x9f4a, cp949: 0xf0ba},
		lookupItem{ucs2: 0x9f4b, cp949: 0xeeb1},
		lookupItem{ucs2: 0x9f4e, cp949: 0xeeb2},
		lookupItem{ucs2: 0x9f52, cp949: 0xf6cd},
		lookupItem{ucs2: 0x9f5f, cp949: 0xeed2},
		lookupItem{ucs2: 0x9f61, cp949: 0xd6c6},
		lookupItem{ucs2: 0x9f67, cp949: 0xe0e5},
		lookupItem{ucs2: 0x9f6a, cp949: 0xf3bb},
		lookupItem{ucs2: 0x9f6c, cp949: 0xe5e1},
		lookupItem{ucs2: 0x9f77, cp949: 0xe4cb},
		lookupItem{ucs2: 0x9f8d, cp949: 0xd7a3},
		lookupItem{ucs2: 0x9f90, cp949: 0xdbc2},
		lookupItem{ucs2: 0x9f95, cp949: 0xcafe},
		lookupItem{ucs2: 0x9f9c, cp949: 0xcfcf},
		lookupItem{ucs2: 0xac00, cp949: 0xb0a1},
		lookupItem{ucs2: 0xac01, cp949: 0xb0a2},
		lookupItem{ucs2: 0xac02, cp949: 0x8141},
		lookupItem{ucs2: 0xac03, cp949: 0x8142},
		lookupItem{ucs2: 0xac04, cp949: 0xb0a3},
		lookupItem{ucs2: 0xac05, cp949: 0x8143},
		lookupItem{ucs2: 0xac06, cp949: 0x8144},
		lookupItem{ucs2: 0xac07, cp949: 0xb0a4},
		lookupItem{ucs2: 0xac08, cp949: 0xb0a5},
		lookupItem{ucs2: 0xac09, cp949: 0xb0a6},
		lookupItem{ucs2: 0xac0a, cp949: 0xb0a7},
		lookupItem{ucs2: 0xac0b, cp949: 0x8145},
		lookupItem{ucs2: 0xac0c, cp949: 0x8146},
		lookupItem{ucs2: 0xac0d, cp949: 0x8147},
		lookupItem{ucs2: 0xac0e, cp949: 0x8148},
		lookupItem{ucs2: 0xac0f, cp949: 0x8149},
		lookupItem{ucs2: 0xac10, cp949: 0xb0a8},
		lookupItem{ucs2: 0xac11, cp949: 0xb0a9},
		lookupItem{ucs2: 0xac12, cp949: 0xb0aa},
		lookupItem{ucs2: 0xac13, cp949: 0xb0ab},
		lookupItem{ucs2: 0xac14, cp949: 0xb0ac},
		lookupItem{ucs2: 0xac15, cp949: 0xb0ad},
		lookupItem{ucs2: 0xac16, cp949: 0xb0ae},
		lookupItem{ucs2: 0xac17, cp949: 0xb0af},
		lookupItem{ucs2: 0xac18, cp949: 0x814a},
		lookupItem{ucs2: 0xac19, cp949: 0xb0b0},
		lookupItem{ucs2: 0xac1a, cp949: 0xb0b1},
		lookupItem{ucs2: 0xac1b, cp949: 0xb0b2},
		lookupItem{ucs2: 0xac1c, cp949: 0xb0b3},
		lookupItem{ucs2: 0xac1d, cp949: 0xb0b4},
		lookupItem{ucs2: 0xac1e, cp949: 0x814b},
		lookupItem{ucs2: 0xac1f, cp949: 0x814c},
		lookupItem{ucs2: 0xac20, cp949: 0xb0b5},
		lookupItem{ucs2: 0xac21, cp949: 0x814d},
		lookupItem{ucs2: 0xac22, cp949: 0x814e},
		lookupItem{ucs2: 0xac23, cp949: 0x814f},
		lookupItem{ucs2: 0xac24, cp949: 0xb0b6},
		lookupItem{ucs2: 0xac25, cp949: 0x8150},
		lookupItem{ucs2: 0xac26, cp949: 0x8151},
		lookupItem{ucs2: 0xac27, cp949: 0x8152},
		lookupItem{ucs2: 0xac28, cp949: 0x8153},
		lookupItem{ucs2: 0xac29, cp949: 0x8154},
		lookupItem{ucs2: 0xac2a, cp949: 0x8155},
		lookupItem{ucs2: 0xac2b, cp949: 0x8156},
		lookupItem{ucs2: 0xac2c, cp949: 0xb0b7},
		lookupItem{ucs2: 0xac2d, cp949: 0xb0b8},
		lookupItem{ucs2: 0xac2e, cp949: 0x8157},
		lookupItem{ucs2: 0xac2f, cp949: 0xb0b9},
		lookupItem{ucs2: 0xac30, cp949: 0xb0ba},
		lookupItem{ucs2: 0xac31, cp949: 0xb0bb},
		lookupItem{ucs2: 0xac32, cp949: 0x8158},
		lookupItem{ucs2: 0xac33, cp949: 0x8159},
		lookupItem{ucs2: 0xac34, cp949: 0x815a},
		lookupItem{ucs2: 0xac35, cp949: 0x8161},
		lookupItem{ucs2: 0xac36, cp949: 0x8162},
		lookupItem{ucs2: 0xac37, cp949: 0x8163},
		lookupItem{ucs2: 0xac38, cp949: 0xb0bc},
		lookupItem{ucs2: 0xac39, cp949: 0xb0bd},
		lookupItem{ucs2: 0xac3a, cp949: 0x8164},
		lookupItem{ucs2: 0xac3b, cp949: 0x8165},
		lookupItem{ucs2: 0xac3c, cp949: 0xb0be},
		lookupItem{ucs2: 0xac3d, cp949: 0x8166},
		lookupItem{ucs2: 0xac3e, cp949: 0x8167},
		lookupItem{ucs2: 0xac3f, cp949: 0x8168},
		lookupItem{ucs2: 0xac40, cp949: 0xb0bf},
		lookupItem{ucs2: 0xac41, cp949: 0x8169},
		lookupItem{ucs2: 0xac42, cp949: 0x816a},
		lookupItem{ucs2: 0xac43, cp949: 0x816b},
		lookupItem{ucs2: 0xac44, cp949: 0x816c},
		lookupItem{ucs2: 0xac45, cp949: 0x816d},
		lookupItem{ucs2: 0xac46, cp949: 0x816e},
		lookupItem{ucs2: 0xac47, cp949: 0x816f},
		lookupItem{ucs2: 0xac48, cp949: 0x8170},
		lookupItem{ucs2: 0xac49, cp949: 0x8171},
		lookupItem{ucs2: 0xac4a, cp949: 0x8172},
		lookupItem{ucs2: 0xac4b, cp949: 0xb0c0},
		lookupItem{ucs2: 0xac4c, cp949: 0x8173},
		lookupItem{ucs2: 0xac4d, cp949: 0xb0c1},
		lookupItem{ucs2: 0xac4e, cp949: 0x8174},
		lookupItem{ucs2: 0xac4f, cp949: 0x8175},
		lookupItem{ucs2: 0xac50, cp949: 0x8176},
		lookupItem{ucs2: 0xac51, cp949: 0x8177},
		lookupItem{ucs2: 0xac52, cp949: 0x8178},
		lookupItem{ucs2: 0xac53, cp949: 0x8179},
		lookupItem{ucs2: 0xac54, cp949: 0xb0c2},
		lookupItem{ucs2: 0xac55, cp949: 0x817a},
		lookupItem{ucs2: 0xac56, cp949: 0x8181},
		lookupItem{ucs2: 0xac57, cp949: 0x8182},
		lookupItem{ucs2: 0xac58, cp949: 0xb0c3},
		lookupItem{ucs2: 0xac59, cp949: 0x8183},
		lookupItem{ucs2: 0xac5a, cp949: 0x8184},
		lookupItem{ucs2: 0xac5b, cp949: 0x8185},
		lookupItem{ucs2: 0xac5c, cp949: 0xb0c4},
		lookupItem{ucs2: 0xac5d, cp949: 0x8186},
		lookupItem{ucs2: 0xac5e, cp949: 0x8187},
		lookupItem{ucs2: 0xac5f, cp949: 0x8188},
		lookupItem{ucs2: 0xac60, cp949: 0x8189},
		lookupItem{ucs2: 0xac61, cp949: 0x818a},
		lookupItem{ucs2: 0xac62, cp949: 0x818b},
		lookupItem{ucs2: 0xac63, cp949: 0x818c},
		lookupItem{ucs2: 0xac64, cp949: 0x818d},
		lookupItem{ucs2: 0xac65, cp949: 0x818e},
		lookupItem{ucs2: 0xac66, cp949: 0x818f},
		lookupItem{ucs2: 0xac67, cp949: 0x8190},
		lookupItem{ucs2: 0xac68, cp949: 0x8191},
		lookupItem{ucs2: 0xac69, cp949: 0x8192},
		lookupItem{ucs2: 0xac6a, cp949: 0x8193},
		lookupItem{ucs2: 0xac6b, cp949: 0x8194},
		lookupItem{ucs2: 0xac6c, cp949: 0x8195},
		lookupItem{ucs2: 0xac6d, cp949: 0x8196},
		lookupItem{ucs2: 0xac6e, cp949: 0x8197},
		lookupItem{ucs2: 0xac6f, cp949: 0x8198},
		lookupItem{ucs2: 0xac70, cp949: 0xb0c5},
		lookupItem{ucs2: 0xac71, cp949: 0xb0c6},
		lookupItem{ucs2: 0xac72, cp949: 0x8199},
		lookupItem{ucs2: 0xac73, cp949: 0x819a},
		lookupItem{ucs2: 0xac74, cp949: 0xb0c7},
		lookupItem{ucs2: 0xac75, cp949: 0x819b},
		lookupItem{ucs2: 0xac76, cp949: 0x819c},
		lookupItem{ucs2: 0xac77, cp949: 0xb0c8},
		lookupItem{ucs2: 0xac78, cp949: 0xb0c9},
		lookupItem{ucs2: 0xac79, cp949: 0x819d},
		lookupItem{ucs2: 0xac7a, cp949: 0xb0ca},
		lookupItem{ucs2: 0xac7b, cp949: 0x819e},
		lookupItem{ucs2: 0xac7c, cp949: 0x819f},
		lookupItem{ucs2: 0xac7d, cp949: 0x81a0},
		lookupItem{ucs2: 0xac7e, cp949: 0x81a1},
		lookupItem{ucs2: 0xac7f, cp949: 0x81a2},
		lookupItem{ucs2: 0xac80, cp949: 0xb0cb},
		lookupItem{ucs2: 0xac81, cp949: 0xb0cc},
		lookupItem{ucs2: 0xac82, cp949: 0x81a3},
		lookupItem{ucs2: 0xac83, cp949: 0xb0cd},
		lookupItem{ucs2: 0xac84, cp949: 0xb0ce},
		lookupItem{ucs2: 0xac85, cp949: 0xb0cf},
		lookupItem{ucs2: 0xac86, cp949: 0xb0d0},
		lookupItem{ucs2: 0xac87, cp949: 0x81a4},
		lookupItem{ucs2: 0xac88, cp949: 0x81a5},
		lookupItem{ucs2: 0xac89, cp949: 0xb0d1},
		lookupItem{ucs2: 0xac8a, cp949: 0xb0d2},
		lookupItem{ucs2: 0xac8b, cp949: 0xb0d3},
		lookupItem{ucs2: 0xac8c, cp949: 0xb0d4},
		lookupItem{ucs2: 0xac8d, cp949: 0x81a6},
		lookupItem{ucs2: 0xac8e, cp949: 0x81a7},
		lookupItem{ucs2: 0xac8f, cp949: 0x81a8},
		lookupItem{ucs2: 0xac90, cp949: 0xb0d5},
		lookupItem{ucs2: 0xac91, cp949: 0x81a9},
		lookupItem{ucs2: 0xac92, cp949: 0x81aa},
		lookupItem{ucs2: 0xac93, cp949: 0x81ab},
		lookupItem{ucs2: 0xac94, cp949: 0xb0d6},
		lookupItem{ucs2: 0xac95, cp949: 0x81ac},
		lookupItem{ucs2: 0xac96, cp949: 0x81ad},
		lookupItem{ucs2: 0xac97, cp949: 0x81ae},
		lookupItem{ucs2: 0xac98, cp949: 0x81af},
		lookupItem{ucs2: 0xac99, cp949: 0x81b0},
		lookupItem{ucs2: 0xac9a, cp949: 0x81b1},
		lookupItem{ucs2: 0xac9b, cp949: 0x81b2},
		lookupItem{ucs2: 0xac9c, cp949: 0xb0d7},
		lookupItem{ucs2: 0xac9d, cp949: 0xb0d8},
		lookupItem{ucs2: 0xac9e, cp949: 0x81b3},
		lookupItem{ucs2: 0xac9f, cp949: 0xb0d9},
		lookupItem{ucs2: 0xaca0, cp949: 0xb0da},
		lookupItem{ucs2: 0xaca1, cp949: 0xb0db},
		lookupItem{ucs2: 0xaca2, cp949: 0x81b4},
		lookupItem{ucs2: 0xaca3, cp949: 0x81b5},
		lookupItem{ucs2: 0xaca4, cp949: 0x81b6},
		lookupItem{ucs2: 0xaca5, cp949: 0x81b7},
		lookupItem{ucs2: 0xaca6, cp949: 0x81b8},
		lookupItem{ucs2: 0xaca7, cp949: 0x81b9},
		lookupItem{ucs2: 0xaca8, cp949: 0xb0dc},
		lookupItem{ucs2: 0xaca9, cp949: 0xb0dd},
		lookupItem{ucs2: 0xacaa, cp949: 0xb0de},
		lookupItem{ucs2: 0xacab, cp949: 0x81ba},
		lookupItem{ucs2: 0xacac, cp949: 0xb0df},
		lookupItem{ucs2: 0xacad, cp949: 0x81bb},
		lookupItem{ucs2: 0xacae, cp949: 0x81bc},
		lookupItem{ucs2: 0xacaf, cp949: 0xb0e0},
		lookupItem{ucs2: 0xacb0, cp949: 0xb0e1},
		lookupItem{ucs2: 0xacb1, cp949: 0x81bd},
		lookupItem{ucs2: 0xacb2, cp949: 0x81be},
		lookupItem{ucs2: 0xacb3, cp949: 0x81bf},
		lookupItem{ucs2: 0xacb4, cp949: 0x81c0},
		lookupItem{ucs2: 0xacb5, cp949: 0x81c1},
		lookupItem{ucs2: 0xacb6, cp949: 0x81c2},
		lookupItem{ucs2: 0xacb7, cp949: 0x81c3},
		lookupItem{ucs2: 0xacb8, cp949: 0xb0e2},
		lookupItem{ucs2: 0xacb9, cp949: 0xb0e3},
		lookupItem{ucs2: 0xacba, cp949: 0x81c4},
		lookupItem{ucs2: 0xacbb, cp949: 0xb0e4},
		lookupItem{ucs2: 0xacbc, cp949: 0xb0e5},
		lookupItem{ucs2: 0xacbd, cp949: 0xb0e6},
		lookupItem{ucs2: 0xacbe, cp949: 0x81c5},
		lookupItem{ucs2: 0xacbf, cp949: 0x81c6},
		lookupItem{ucs2: 0xacc0, cp949: 0x81c7},
		lookupItem{ucs2: 0xacc1, cp949: 0xb0e7},
		lookupItem{ucs2: 0xacc2, cp949: 0x81c8},
		lookupItem{ucs2: 0xacc3, cp949: 0x81c9},
		lookupItem{ucs2: 0xacc4, cp949: 0xb0e8},
		lookupItem{ucs2: 0xacc5, cp949: 0x81ca},
		lookupItem{ucs2: 0xacc6, cp949: 0x81cb},
		lookupItem{ucs2: 0xacc7, cp949: 0x81cc},
		lookupItem{ucs2: 0xacc8, cp949: 0xb0e9},
		lookupItem{ucs2: 0xacc9, cp949: 0x81cd},
		lookupItem{ucs2: 0xacca, cp949: 0x81ce},
		lookupItem{ucs2: 0xaccb, cp949: 0x81cf},
		lookupItem{ucs2: 0xaccc, cp949: 0xb0ea},
		lookupItem{ucs2: 0xaccd, cp949: 0x81d0},
		lookupItem{ucs2: 0xacce, cp949: 0x81d1},
		lookupItem{ucs2: 0xaccf, cp949: 0x81d2},
		lookupItem{ucs2: 0xacd0, cp949: 0x81d3},
		lookupItem{ucs2: 0xacd1, cp949: 0x81d4},
		lookupItem{ucs2: 0xacd2, cp949: 0x81d5},
		lookupItem{ucs2: 0xacd3, cp949: 0x81d6},
		lookupItem{ucs2: 0xacd4, cp949: 0x81d7},
		lookupItem{ucs2: 0xacd5, cp949: 0xb0eb},
		lookupItem{ucs2: 0xacd6, cp949: 0x81d8},
		lookupItem{ucs2: 0xacd7, cp949: 0xb0ec},
		lookupItem{ucs2: 0xacd8, cp949: 0x81d9},
		lookupItem{ucs2: 0xacd9, cp949: 0x81da},
		lookupItem{ucs2: 0xacda, cp949: 0x81db},
		lookupItem{ucs2: 0xacdb, cp949: 0x81dc},
		lookupItem{ucs2: 0xacdc, cp949: 0x81dd},
		lookupItem{ucs2: 0xacdd, cp949: 0x81de},
		lookupItem{ucs2: 0xacde, cp949: 0x81df},
		lookupItem{ucs2: 0xacdf, cp949: 0x81e0},
		lookupItem{ucs2: 0xace0, cp949: 0xb0ed},
		lookupItem{ucs2: 0xace1, cp949: 0xb0ee},
		lookupItem{ucs2: 0xace2, cp949: 0x81e1},
		lookupItem{ucs2: 0xace3, cp949: 0x81e2},
		lookupItem{ucs2: 0xace4, cp949: 0xb0ef},
		lookupItem{ucs2: 0xace5, cp949: 0x81e3},
		lookupItem{ucs2: 0xace6, cp949: 0x81e4},
		lookupItem{ucs2: 0xace7, cp949: 0xb0f0},
		lookupItem{ucs2: 0xace8, cp949: 0xb0f1},
		lookupItem{ucs2: 0xace9, cp949: 0x81e5},
".
Definition text_cp949_lookup_to_023 : string :=
"		lookupItem{ucs2: 0xacea, cp949: 0xb0f2},
		lookupItem{ucs2: 0xaceb, cp949: 0x81e6},
		lookupItem{ucs2: 0xacec, cp949: 0xb0f3},
		lookupItem{ucs2: 0xaced, cp949: 0x81e7},
		lookupItem{ucs2: 0xacee, cp949: 0x81e8},
		lookupItem{ucs2: 0xacef, cp949: 0xb0f4},
		lookupItem{ucs2: 0xacf0, cp949: 0xb0f5},
		lookupItem{ucs2: 0xacf1, cp949: 0xb0f6},
		lookupItem{ucs2: 0xacf2, cp949: 0x81e9},
		lookupItem{ucs2: 0xacf3, cp949: 0xb0f7},
		lookupItem{ucs2: 0xacf4, cp949: 0x81ea},
		lookupItem{ucs2: 0xacf5, cp949: 0xb0f8},
		lookupItem{ucs2: 0xacf6, cp949: 0xb0f9},
		lookupItem{ucs2: 0xacf7, cp949: 0x81eb},
		lookupItem{ucs2: 0xacf8, cp949: 0x81ec},
		lookupItem{ucs2: 0xacf9, cp949: 0x81ed},
		lookupItem{ucs2: 0xacfa, cp949: 0x81ee},
		lookupItem{ucs2: 0xacfb, cp949: 0x81ef},
		lookupItem{ucs2: 0xacfc, cp949: 0xb0fa},
		lookupItem{ucs2: 0xacfd, cp949: 0xb0fb},
		lookupItem{ucs2: 0xacfe, cp949: 0x81f0},
		lookupItem{ucs2: 0xacff, cp949: 0x81f1},
		lookupItem{ucs2: 0xad00, cp949: 0xb0fc},
		lookupItem{ucs2: 0xad01, cp949: 0x81f2},
		lookupItem{ucs2: 0xad02, cp949: 0x81f3},
		lookupItem{ucs2: 0xad03, cp949: 0x81f4},
		lookupItem{ucs2: 0xad04, cp949: 0xb0fd},
		lookupItem{ucs2: 0xad05, cp949: 0x81f5},
		lookupItem{ucs2: 0xad06, cp949: 0xb0fe},
		lookupItem{ucs2: 0xad07, cp949: 0x81f6},
		lookupItem{ucs2: 0xad08, cp949: 0x81f7},
		lookupItem{ucs2: 0xad09, cp949: 0x81f8},
		lookupItem{ucs2: 0xad0a, cp949: 0x81f9},
		lookupItem{ucs2: 0xad0b, cp949: 0x81fa},
		lookupItem{ucs2: 0xad0c, cp949: 0xb1a1},
		lookupItem{ucs2: 0xad0d, cp949: 0xb1a2},
		lookupItem{ucs2: 0xad0e, cp949: 0x81fb},
		lookupItem{ucs2: 0xad0f, cp949: 0xb1a3},
		lookupItem{ucs2: 0xad10, cp949: 0x81fc},
		lookupItem{ucs2: 0xad11, cp949: 0xb1a4},
		lookupItem{ucs2: 0xad12, cp949: 0x81fd},
		lookupItem{ucs2: 0xad13, cp949: 0x81fe},
		lookupItem{ucs2: 0xad14, cp949: 0x8241},
		lookupItem{ucs2: 0xad15, cp949: 0x8242},
		lookupItem{ucs2: 0xad16, cp949: 0x8243},
		lookupItem{ucs2: 0xad17, cp949: 0x8244},
		lookupItem{ucs2: 0xad18, cp949: 0xb1a5},
		lookupItem{ucs2: 0xad19, cp949: 0x8245},
		lookupItem{ucs2: 0xad1a, cp949: 0x8246},
		lookupItem{ucs2: 0xad1b, cp949: 0x8247},
		lookupItem{ucs2: 0xad1c, cp949: 0xb1a6},
		lookupItem{ucs2: 0xad1d, cp949: 0x8248},
		lookupItem{ucs2: 0xad1e, cp949: 0x8249},
		lookupItem{ucs2: 0xad1f, cp949: 0x824a},
		lookupItem{ucs2: 0xad20, cp949: 0xb1a7},
		lookupItem{ucs2: 0xad21, cp949: 0x824b},
		lookupItem{ucs2: 0xad22, cp949: 0x824c},
		lookupItem{ucs2: 0xad23, cp949: 0x824d},
		lookupItem{ucs2: 0xad24, cp949: 0x824e},
		lookupItem{ucs2: 0xad25, cp949: 0x824f},
		lookupItem{ucs2: 0xad26, cp949: 0x8250},
		lookupItem{ucs2: 0xad27, cp949: 0x8251},
		lookupItem{ucs2: 0xad28, cp949: 0x8252},
		lookupItem{ucs2: 0xad29, cp949: 0xb1a8},
		lookupItem{ucs2: 0xad2a, cp949: 0x8253},
		lookupItem{ucs2: 0xad2b, cp949: 0x8254},
		lookupItem{ucs2: 0xad2c, cp949: 0xb1a9},
		lookupItem{ucs2: 0xad2d, cp949: 0xb1aa},
		lookupItem{ucs2: 0xad2e, cp949: 0x8255},
		lookupItem{ucs2: 0xad2f, cp949: 0x8256},
		lookupItem{ucs2: 0xad30, cp949: 0x8257},
		lookupItem{ucs2: 0xad31, cp949: 0x8258},
		lookupItem{ucs2: 0xad32, cp949: 0x8259},
		lookupItem{ucs2: 0xad33, cp949: 0x825a},
		lookupItem{ucs2: 0xad34, cp949: 0xb1ab},
		lookupItem{ucs2: 0xad35, cp949: 0xb1ac},
		lookupItem{ucs2: 0xad36, cp949: 0x8261},
		lookupItem{ucs2: 0xad37, cp949: 0x8262},
		lookupItem{ucs2: 0xad38, cp949: 0xb1ad},
		lookupItem{ucs2: 0xad39, cp949: 0x8263},
		lookupItem{ucs2: 0xad3a, cp949: 0x8264},
		lookupItem{ucs2: 0xad3b, cp949: 0x8265},
		lookupItem{ucs2: 0xad3c, cp949: 0xb1ae},
		lookupItem{ucs2: 0xad3d, cp949: 0x8266},
		lookupItem{ucs2: 0xad3e, cp949: 0x8267},
		lookupItem{ucs2: 0xad3f, cp949: 0x8268},
		lookupItem{ucs2: 0xad40, cp949: 0x8269},
		lookupItem{ucs2: 0xad41, cp949: 0x826a},
		lookupItem{ucs2: 0xad42, cp949: 0x826b},
		lookupItem{ucs2: 0xad43, cp949: 0x826c},
		lookupItem{ucs2: 0xad44, cp949: 0xb1af},
		lookupItem{ucs2: 0xad45, cp949: 0xb1b0},
		lookupItem{ucs2: 0xad46, cp949: 0x826d},
		lookupItem{ucs2: 0xad47, cp949: 0xb1b1},
		lookupItem{ucs2: 0xad48, cp949: 0x826e},
		lookupItem{ucs2: 0xad49, cp949: 0xb1b2},
		lookupItem{ucs2: 0xad4a, cp949: 0x826f},
		lookupItem{ucs2: 0xad4b, cp949: 0x8270},
		lookupItem{ucs2: 0xad4c, cp949: 0x8271},
		lookupItem{ucs2: 0xad4d, cp949: 0x8272},
		lookupItem{ucs2: 0xad4e, cp949: 0x8273},
		lookupItem{ucs2: 0xad4f, cp949: 0x8274},
		lookupItem{ucs2: 0xad50, cp949: 0xb1b3},
		lookupItem{ucs2: 0xad51, cp949: 0x8275},
		lookupItem{ucs2: 0xad52, cp949: 0x8276},
		lookupItem{ucs2: 0xad53, cp949: 0x8277},
		lookupItem{ucs2: 0xad54, cp949: 0xb1b4},
		lookupItem{ucs2: 0xad55, cp949: 0x8278},
		lookupItem{ucs2: 0xad56, cp949: 0x8279},
		lookupItem{ucs2: 0xad57, cp949: 0x827a},
		lookupItem{ucs2: 0xad58, cp949: 0xb1b5},
		lookupItem{ucs2: 0xad59, cp949: 0x8281},
		lookupItem{ucs2: 0xad5a, cp949: 0x8282},
		lookupItem{ucs2: 0xad5b, cp949: 0x8283},
		lookupItem{ucs2: 0xad5c, cp949: 0x8284},
		lookupItem{ucs2: 0xad5d, cp949: 0x8285},
		lookupItem{ucs2: 0xad5e, cp949: 0x8286},
		lookupItem{ucs2: 0xad5f, cp949: 0x8287},
		lookupItem{ucs2: 0xad60, cp949: 0x8288},
		lookupItem{ucs2: 0xad61, cp949: 0xb1b6},
		lookupItem{ucs2: 0xad62, cp949: 0x8289},
		lookupItem{ucs2: 0xad63, cp949: 0xb1b7},
		lookupItem{ucs2: 0xad64, cp949: 0x828a},
		lookupItem{ucs2: 0xad65, cp949: 0x828b},
		lookupItem{ucs2: 0xad66, cp949: 0x828c},
		lookupItem{ucs2: 0xad67, cp949: 0x828d},
		lookupItem{ucs2: 0xad68, cp949: 0x828e},
		lookupItem{ucs2: 0xad69, cp949: 0x828f},
		lookupItem{ucs2: 0xad6a, cp949: 0x8290},
		lookupItem{ucs2: 0xad6b, cp949: 0x8291},
		lookupItem{ucs2: 0xad6c, cp949: 0xb1b8},
		lookupItem{ucs2: 0xad6d, cp949: 0xb1b9},
		lookupItem{ucs2: 0xad6e, cp949: 0x8292},
		lookupItem{ucs2: 0xad6f, cp949: 0x8293},
		lookupItem{ucs2: 0xad70, cp949: 0xb1ba},
		lookupItem{ucs2: 0xad71, cp949: 0x8294},
		lookupItem{ucs2: 0xad72, cp949: 0x8295},
		lookupItem{ucs2: 0xad73, cp949: 0xb1bb},
		lookupItem{ucs2: 0xad74, cp949: 0xb1bc},
		lookupItem{ucs2: 0xad75, cp949: 0xb1bd},
		lookupItem{ucs2: 0xad76, cp949: 0xb1be},
		lookupItem{ucs2: 0xad77, cp949: 0x8296},
		lookupItem{ucs2: 0xad78, cp949: 0x8297},
		lookupItem{ucs2: 0xad79, cp949: 0x8298},
		lookupItem{ucs2: 0xad7a, cp949: 0x8299},
		lookupItem{ucs2: 0xad7b, cp949: 0xb1bf},
		lookupItem{ucs2: 0xad7c, cp949: 0xb1c0},
		lookupItem{ucs2: 0xad7d, cp949: 0xb1c1},
		lookupItem{ucs2: 0xad7e, cp949: 0x829a},
		lookupItem{ucs2: 0xad7f, cp949: 0xb1c2},
		lookupItem{ucs2: 0xad80, cp949: 0x829b},
		lookupItem{ucs2: 0xad81, cp949: 0xb1c3},
		lookupItem{ucs2: 0xad82, cp949: 0xb1c4},
		lookupItem{ucs2: 0xad83, cp949: 0x829c},
		lookupItem{ucs2: 0xad84, cp949: 0x829d},
		lookupItem{ucs2: 0xad85, cp949: 0x829e},
		lookupItem{ucs2: 0xad86, cp949: 0x829f},
		lookupItem{ucs2: 0xad87, cp949: 0x82a0},
		lookupItem{ucs2: 0xad88, cp949: 0xb1c5},
		lookupItem{ucs2: 0xad89, cp949: 0xb1c6},
		lookupItem{ucs2: 0xad8a, cp949: 0x82a1},
		lookupItem{ucs2: 0xad8b, cp949: 0x82a2},
		lookupItem{ucs2: 0xad8c, cp949: 0xb1c7},
		lookupItem{ucs2: 0xad8d, cp949: 0x82a3},
		lookupItem{ucs2: 0xad8e, cp949: 0x82a4},
		lookupItem{ucs2: 0xad8f, cp949: 0x82a5},
		lookupItem{ucs2: 0xad90, cp949: 0xb1c8},
		lookupItem{ucs2: 0xad91, cp949: 0x82a6},
		lookupItem{ucs2: 0xad92, cp949: 0x82a7},
		lookupItem{ucs2: 0xad93, cp949: 0x82a8},
		lookupItem{ucs2: 0xad94, cp949: 0x82a9},
		lookupItem{ucs2: 0xad95, cp949: 0x82aa},
		lookupItem{ucs2: 0xad96, cp949: 0x82ab},
		lookupItem{ucs2: 0xad97, cp949: 0x82ac},
		lookupItem{ucs2: 0xad98, cp949: 0x82ad},
		lookupItem{ucs2: 0xad99, cp949: 0x82ae},
		lookupItem{ucs2: 0xad9a, cp949: 0x82af},
		lookupItem{ucs2: 0xad9b, cp949: 0x82b0},
		lookupItem{ucs2: 0xad9c, cp949: 0xb1c9},
		lookupItem{ucs2: 0xad9d, cp949: 0xb1ca},
		lookupItem{ucs2: 0xad9e, cp949: 0x82b1},
		lookupItem{ucs2: 0xad9f, cp949: 0x82b2},
		lookupItem{ucs2: 0xada0, cp949: 0x82b3},
		lookupItem{ucs2: 0xada1, cp949: 0x82b4},
		lookupItem{ucs2: 0xada2, cp949: 0x82b5},
		lookupItem{ucs2: 0xada3, cp949: 0x82b6},
		lookupItem{ucs2: 0xada4, cp949: 0xb1cb},
		lookupItem{ucs2: 0xada5, cp949: 0x82b7},
		lookupItem{ucs2: 0xada6, cp949: 0x82b8},
		lookupItem{ucs2: 0xada7, cp949: 0x82b9},
		lookupItem{ucs2: 0xada8, cp949: 0x82ba},
		lookupItem{ucs2: 0xada9, cp949: 0x82bb},
		lookupItem{ucs2: 0xadaa, cp949: 0x82bc},
		lookupItem{ucs2: 0xadab, cp949: 0x82bd},
		lookupItem{ucs2: 0xadac, cp949: 0x82be},
		lookupItem{ucs2: 0xadad, cp949: 0x82bf},
		lookupItem{ucs2: 0xadae, cp949: 0x82c0},
		lookupItem{ucs2: 0xadaf, cp949: 0x82c1},
		lookupItem{ucs2: 0xadb0, cp949: 0x82c2},
		lookupItem{ucs2: 0xadb1, cp949: 0x82c3},
		lookupItem{ucs2: 0xadb2, cp949: 0x82c4},
		lookupItem{ucs2: 0xadb3, cp949: 0x82c5},
		lookupItem{ucs2: 0xadb4, cp949: 0x82c6},
		lookupItem{ucs2: 0xadb5, cp949: 0x82c7},
		lookupItem{ucs2: 0xadb6, cp949: 0x82c8},
		lookupItem{ucs2: 0xadb7, cp949: 0xb1cc},
		lookupItem{ucs2: 0xadb8, cp949: 0x82c9},
		lookupItem{ucs2: 0xadb9, cp949: 0x82ca},
		lookupItem{ucs2: 0xadba, cp949: 0x82cb},
		lookupItem{ucs2: 0xadbb, cp949: 0x82cc},
		lookupItem{ucs2: 0xadbc, cp949: 0x82cd},
		lookupItem{ucs2: 0xadbd, cp949: 0x82ce},
		lookupItem{ucs2: 0xadbe, cp949: 0x82cf},
		lookupItem{ucs2: 0xadbf, cp949: 0x82d0},
		lookupItem{ucs2: 0xadc0, cp949: 0xb1cd},
		lookupItem{ucs2: 0xadc1, cp949: 0xb1ce},
		lookupItem{ucs2: 0xadc2, cp949: 0x82d1},
		lookupItem{ucs2: 0xadc3, cp949: 0x82d2},
		lookupItem{ucs2: 0xadc4, cp949: 0xb1cf},
		lookupItem{ucs2: 0xadc5, cp949: 0x82d3},
		lookupItem{ucs2: 0xadc6, cp949: 0x82d4},
		lookupItem{ucs2: 0xadc7, cp949: 0x82d5},
		lookupItem{ucs2: 0xadc8, cp949: 0xb1d0},
		lookupItem{ucs2: 0xadc9, cp949: 0x82d6},
		lookupItem{ucs2: 0xadca, cp949: 0x82d7},
		lookupItem{ucs2: 0xadcb, cp949: 0x82d8},
		lookupItem{ucs2: 0xadcc, cp949: 0x82d9},
		lookupItem{ucs2: 0xadcd, cp949: 0x82da},
		lookupItem{ucs2: 0xadce, cp949: 0x82db},
		lookupItem{ucs2: 0xadcf, cp949: 0x82dc},
		lookupItem{ucs2: 0xadd0, cp949: 0xb1d1},
		lookupItem{ucs2: 0xadd1, cp949: 0xb1d2},
		lookupItem{ucs2: 0xadd2, cp949: 0x82dd},
		lookupItem{ucs2: 0xadd3, cp949: 0xb1d3},
		lookupItem{ucs2: 0xadd4, cp949: 0x82de},
		lookupItem{ucs2: 0xadd5, cp949: 0x82df},
		lookupItem{ucs2: 0xadd6, cp949: 0x82e0},
		lookupItem{ucs2: 0xadd7, cp949: 0x82e1},
		lookupItem{ucs2: 0xadd8, cp949: 0x82e2},
		lookupItem{ucs2: 0xadd9, cp949: 0x82e3},
		lookupItem{ucs2: 0xadda, cp949: 0x82e4},
		lookupItem{ucs2: 0xaddb, cp949: 0x82e5},
		lookupItem{ucs2: 0xaddc, cp949: 0xb1d4},
		lookupItem{ucs2: 0xaddd, cp949: 0x82e6},
		lookupItem{ucs2: 0xadde, cp949: 0x82e7},
		lookupItem{ucs2: 0xaddf, cp949: 0x82e8},
		lookupItem{ucs2: 0xade0, cp949: 0xb1d5},
		lookupItem{ucs2: 0xade1, cp949: 0x82e9},
		lookupItem{ucs2: 0xade2, cp949: 0x82ea},
		lookupItem{ucs2: 0xade3, cp949: 0x82eb},
".
Definition text_cp949_lookup_to_024 : string :=
"		lookupItem{ucs2: 0xade4, cp949: 0xb1d6},
		lookupItem{ucs2: 0xade5, cp949: 0x82ec},
		lookupItem{ucs2: 0xade6, cp949: 0x82ed},
		lookupItem{ucs2: 0xade7, cp949: 0x82ee},
		lookupItem{ucs2: 0xade8, cp949: 0x82ef},
		lookupItem{ucs2: 0xade9, cp949: 0x82f0},
		lookupItem{ucs2: 0xadea, cp949: 0x82f1},
		lookupItem{ucs2: 0xadeb, cp949: 0x82f2},
		lookupItem{ucs2: 0xadec, cp949: 0x82f3},
		lookupItem{ucs2: 0xaded, cp949: 0x82f4},
		lookupItem{ucs2: 0xadee, cp949: 0x82f5},
		lookupItem{ucs2: 0xadef, cp949: 0x82f6},
		lookupItem{ucs2: 0xadf0, cp949: 0x82f7},
		lookupItem{ucs2: 0xadf1, cp949: 0x82f8},
		lookupItem{ucs2: 0xadf2, cp949: 0x82f9},
		lookupItem{ucs2: 0xadf3, cp949: 0x82fa},
		lookupItem{ucs2: 0xadf4, cp949: 0x82fb},
		lookupItem{ucs2: 0xadf5, cp949: 0x82fc},
		lookupItem{ucs2: 0xadf6, cp949: 0x82fd},
		lookupItem{ucs2: 0xadf7, cp949: 0x82fe},
		lookupItem{ucs2: 0xadf8, cp949: 0xb1d7},
		lookupItem{ucs2: 0xadf9, cp949: 0xb1d8},
		lookupItem{ucs2: 0xadfa, cp949: 0x8341},
		lookupItem{ucs2: 0xadfb, cp949: 0x8342},
		lookupItem{ucs2: 0xadfc, cp949: 0xb1d9},
		lookupItem{ucs2: 0xadfd, cp949: 0x8343},
		lookupItem{ucs2: 0xadfe, cp949: 0x8344},
		lookupItem{ucs2: 0xadff, cp949: 0xb1da},
		lookupItem{ucs2: 0xae00, cp949: 0xb1db},
		lookupItem{ucs2: 0xae01, cp949: 0xb1dc},
		lookupItem{ucs2: 0xae02, cp949: 0x8345},
		lookupItem{ucs2: 0xae03, cp949: 0x8346},
		lookupItem{ucs2: 0xae04, cp949: 0x8347},
		lookupItem{ucs2: 0xae05, cp949: 0x8348},
		lookupItem{ucs2: 0xae06, cp949: 0x8349},
		lookupItem{ucs2: 0xae07, cp949: 0x834a},
		lookupItem{ucs2: 0xae08, cp949: 0xb1dd},
		lookupItem{ucs2: 0xae09, cp949: 0xb1de},
		lookupItem{ucs2: 0xae0a, cp949: 0x834b},
		lookupItem{ucs2: 0xae0b, cp949: 0xb1df},
		lookupItem{ucs2: 0xae0c, cp949: 0x834c},
		lookupItem{ucs2: 0xae0d, cp949: 0xb1e0},
		lookupItem{ucs2: 0xae0e, cp949: 0x834d},
		lookupItem{ucs2: 0xae0f, cp949: 0x834e},
		lookupItem{ucs2: 0xae10, cp949: 0x834f},
		lookupItem{ucs2: 0xae11, cp949: 0x8350},
		lookupItem{ucs2: 0xae12, cp949: 0x8351},
		lookupItem{ucs2: 0xae13, cp949: 0x8352},
		lookupItem{ucs2: 0xae14, cp949: 0xb1e1},
		lookupItem{ucs2: 0xae15, cp949: 0x8353},
		lookupItem{ucs2: 0xae16, cp949: 0x8354},
		lookupItem{ucs2: 0xae17, cp949: 0x8355},
		lookupItem{ucs2: 0xae18, cp949: 0x8356},
		lookupItem{ucs2: 0xae19, cp949: 0x8357},
		lookupItem{ucs2: 0xae1a, cp949: 0x8358},
		lookupItem{ucs2: 0xae1b, cp949: 0x8359},
		lookupItem{ucs2: 0xae1c, cp949: 0x835a},
		lookupItem{ucs2: 0xae1d, cp949: 0x8361},
		lookupItem{ucs2: 0xae1e, cp949: 0x8362},
		lookupItem{ucs2: 0xae1f, cp949: 0x8363},
		lookupItem{ucs2: 0xae20, cp949: 0x8364},
		lookupItem{ucs2: 0xae21, cp949: 0x8365},
		lookupItem{ucs2: 0xae22, cp949: 0x8366},
		lookupItem{ucs2: 0xae23, cp949: 0x8367},
		lookupItem{ucs2: 0xae24, cp949: 0x8368},
		lookupItem{ucs2: 0xae25, cp949: 0x8369},
		lookupItem{ucs2: 0xae26, cp949: 0x836a},
		lookupItem{ucs2: 0xae27, cp949: 0x836b},
		lookupItem{ucs2: 0xae28, cp949: 0x836c},
		lookupItem{ucs2: 0xae29, cp949: 0x836d},
		lookupItem{ucs2: 0xae2a, cp949: 0x836e},
		lookupItem{ucs2: 0xae2b, cp949: 0x836f},
		lookupItem{ucs2: 0xae2c, cp949: 0x8370},
		lookupItem{ucs2: 0xae2d, cp949: 0x8371},
		lookupItem{ucs2: 0xae2e, cp949: 0x8372},
		lookupItem{ucs2: 0xae2f, cp949: 0x8373},
		lookupItem{ucs2: 0xae30, cp949: 0xb1e2},
		lookupItem{ucs2: 0xae31, cp949: 0xb1e3},
		lookupItem{ucs2: 0xae32, cp949: 0x8374},
		lookupItem{ucs2: 0xae33, cp949: 0x8375},
		lookupItem{ucs2: 0xae34, cp949: 0xb1e4},
		lookupItem{ucs2: 0xae35, cp949: 0x8376},
		lookupItem{ucs2: 0xae36, cp949: 0x8377},
		lookupItem{ucs2: 0xae37, cp949: 0xb1e5},
		lookupItem{ucs2: 0xae38, cp949: 0xb1e6},
		lookupItem{ucs2: 0xae39, cp949: 0x8378},
		lookupItem{ucs2: 0xae3a, cp949: 0xb1e7},
		lookupItem{ucs2: 0xae3b, cp949: 0x8379},
		lookupItem{ucs2: 0xae3c, cp949: 0x837a},
		lookupItem{ucs2: 0xae3d, cp949: 0x8381},
		lookupItem{ucs2: 0xae3e, cp949: 0x8382},
		lookupItem{ucs2: 0xae3f, cp949: 0x8383},
		lookupItem{ucs2: 0xae40, cp949: 0xb1e8},
		lookupItem{ucs2: 0xae41, cp949: 0xb1e9},
		lookupItem{ucs2: 0xae42, cp949: 0x8384},
		lookupItem{ucs2: 0xae43, cp949: 0xb1ea},
		lookupItem{ucs2: 0xae44, cp949: 0x8385},
		lookupItem{ucs2: 0xae45, cp949: 0xb1eb},
		lookupItem{ucs2: 0xae46, cp949: 0xb1ec},
		lookupItem{ucs2: 0xae47, cp949: 0x8386},
		lookupItem{ucs2: 0xae48, cp949: 0x8387},
		lookupItem{ucs2: 0xae49, cp949: 0x8388},
		lookupItem{ucs2: 0xae4a, cp949: 0xb1ed},
		lookupItem{ucs2: 0xae4b, cp949: 0x8389},
		lookupItem{ucs2: 0xae4c, cp949: 0xb1ee},
		lookupItem{ucs2: 0xae4d, cp949: 0xb1ef},
		lookupItem{ucs2: 0xae4e, cp949: 0xb1f0},
		lookupItem{ucs2: 0xae4f, cp949: 0x838a},
		lookupItem{ucs2: 0xae50, cp949: 0xb1f1},
		lookupItem{ucs2: 0xae51, cp949: 0x838b},
		lookupItem{ucs2: 0xae52, cp949: 0x838c},
		lookupItem{ucs2: 0xae53, cp949: 0x838d},
		lookupItem{ucs2: 0xae54, cp949: 0xb1f2},
		lookupItem{ucs2: 0xae55, cp949: 0x838e},
		lookupItem{ucs2: 0xae56, cp949: 0xb1f3},
		lookupItem{ucs2: 0xae57, cp949: 0x838f},
		lookupItem{ucs2: 0xae58, cp949: 0x8390},
		lookupItem{ucs2: 0xae59, cp949: 0x8391},
		lookupItem{ucs2: 0xae5a, cp949: 0x8392},
		lookupItem{ucs2: 0xae5b, cp949: 0x8393},
		lookupItem{ucs2: 0xae5c, cp949: 0xb1f4},
		lookupItem{ucs2: 0xae5d, cp949: 0xb1f5},
		lookupItem{ucs2: 0xae5e, cp949: 0x8394},
		lookupItem{ucs2: 0xae5f, cp949: 0xb1f6},
		lookupItem{ucs2: 0xae60, cp949: 0xb1f7},
		lookupItem{ucs2: 0xae61, cp949: 0xb1f8},
		lookupItem{ucs2: 0xae62, cp949: 0x8395},
		lookupItem{ucs2: 0xae63, cp949: 0x8396},
		lookupItem{ucs2: 0xae64, cp949: 0x8397},
		lookupItem{ucs2: 0xae65, cp949: 0xb1f9},
		lookupItem{ucs2: 0xae66, cp949: 0x8398},
		lookupItem{ucs2: 0xae67, cp949: 0x8399},
		lookupItem{ucs2: 0xae68, cp949: 0xb1fa},
		lookupItem{ucs2: 0xae69, cp949: 0xb1fb},
		lookupItem{ucs2: 0xae6a, cp949: 0x839a},
		lookupItem{ucs2: 0xae6b, cp949: 0x839b},
		lookupItem{ucs2: 0xae6c, cp949: 0xb1fc},
		lookupItem{ucs2: 0xae6d, cp949: 0x839c},
		lookupItem{ucs2: 0xae6e, cp949: 0x839d},
		lookupItem{ucs2: 0xae6f, cp949: 0x839e},
		lookupItem{ucs2: 0xae70, cp949: 0xb1fd},
		lookupItem{ucs2: 0xae71, cp949: 0x839f},
		lookupItem{ucs2: 0xae72, cp949: 0x83a0},
		lookupItem{ucs2: 0xae73, cp949: 0x83a1},
		lookupItem{ucs2: 0xae74, cp949: 0x83a2},
		lookupItem{ucs2: 0xae75, cp949: 0x83a3},
		lookupItem{ucs2: 0xae76, cp949: 0x83a4},
		lookupItem{ucs2: 0xae77, cp949: 0x83a5},
		lookupItem{ucs2: 0xae78, cp949: 0xb1fe},
		lookupItem{ucs2: 0xae79, cp949: 0xb2a1},
		lookupItem{ucs2: 0xae7a, cp949: 0x83a6},
		lookupItem{ucs2: 0xae7b, cp949: 0xb2a2},
		lookupItem{ucs2: 0xae7c, cp949: 0xb2a3},
		lookupItem{ucs2: 0xae7d, cp949: 0xb2a4},
		lookupItem{ucs2: 0xae7e, cp949: 0x83a7},
		lookupItem{ucs2: 0xae7f, cp949: 0x83a8},
		lookupItem{ucs2: 0xae80, cp949: 0x83a9},
		lookupItem{ucs2: 0xae81, cp949: 0x83aa},
		lookupItem{ucs2: 0xae82, cp949: 0x83ab},
		lookupItem{ucs2: 0xae83, cp949: 0x83ac},
		lookupItem{ucs2: 0xae84, cp949: 0xb2a5},
		lookupItem{ucs2: 0xae85, cp949: 0xb2a6},
		lookupItem{ucs2: 0xae86, cp949: 0x83ad},
		lookupItem{ucs2: 0xae87, cp949: 0x83ae},
		lookupItem{ucs2: 0xae88, cp949: 0x83af},
		lookupItem{ucs2: 0xae89, cp949: 0x83b0},
		lookupItem{ucs2: 0xae8a, cp949: 0x83b1},
		lookupItem{ucs2: 0xae8b, cp949: 0x83b2},
		lookupItem{ucs2: 0xae8c, cp949: 0xb2a7},
		lookupItem{ucs2: 0xae8d, cp949: 0x83b3},
		lookupItem{ucs2: 0xae8e, cp949: 0x83b4},
		lookupItem{ucs2: 0xae8f, cp949: 0x83b5},
		lookupItem{ucs2: 0xae90, cp949: 0x83b6},
		lookupItem{ucs2: 0xae91, cp949: 0x83b7},
		lookupItem{ucs2: 0xae92, cp949: 0x83b8},
		lookupItem{ucs2: 0xae93, cp949: 0x83b9},
		lookupItem{ucs2: 0xae94, cp949: 0x83ba},
		lookupItem{ucs2: 0xae95, cp949: 0x83bb},
		lookupItem{ucs2: 0xae96, cp949: 0x83bc},
		lookupItem{ucs2: 0xae97, cp949: 0x83bd},
		lookupItem{ucs2: 0xae98, cp949: 0x83be},
		lookupItem{ucs2: 0xae99, cp949: 0x83bf},
		lookupItem{ucs2: 0xae9a, cp949: 0x83c0},
		lookupItem{ucs2: 0xae9b, cp949: 0x83c1},
		lookupItem{ucs2: 0xae9c, cp949: 0x83c2},
		lookupItem{ucs2: 0xae9d, cp949: 0x83c3},
		lookupItem{ucs2: 0xae9e, cp949: 0x83c4},
		lookupItem{ucs2: 0xae9f, cp949: 0x83c5},
		lookupItem{ucs2: 0xaea0, cp949: 0x83c6},
		lookupItem{ucs2: 0xaea1, cp949: 0x83c7},
		lookupItem{ucs2: 0xaea2, cp949: 0x83c8},
		lookupItem{ucs2: 0xaea3, cp949: 0x83c9},
		lookupItem{ucs2: 0xaea4, cp949: 0x83ca},
		lookupItem{ucs2: 0xaea5, cp949: 0x83cb},
		lookupItem{ucs2: 0xaea6, cp949: 0x83cc},
		lookupItem{ucs2: 0xaea7, cp949: 0x83cd},
		lookupItem{ucs2: 0xaea8, cp949: 0x83ce},
		lookupItem{ucs2: 0xaea9, cp949: 0x83cf},
		lookupItem{ucs2: 0xaeaa, cp949: 0x83d0},
		lookupItem{ucs2: 0xaeab, cp949: 0x83d1},
		lookupItem{ucs2: 0xaeac, cp949: 0x83d2},
		lookupItem{ucs2: 0xaead, cp949: 0x83d3},
		lookupItem{ucs2: 0xaeae, cp949: 0x83d4},
		lookupItem{ucs2: 0xaeaf, cp949: 0x83d5},
		lookupItem{ucs2: 0xaeb0, cp949: 0x83d6},
		lookupItem{ucs2: 0xaeb1, cp949: 0x83d7},
		lookupItem{ucs2: 0xaeb2, cp949: 0x83d8},
		lookupItem{ucs2: 0xaeb3, cp949: 0x83d9},
		lookupItem{ucs2: 0xaeb4, cp949: 0x83da},
		lookupItem{ucs2: 0xaeb5, cp949: 0x83db},
		lookupItem{ucs2: 0xaeb6, cp949: 0x83dc},
		lookupItem{ucs2: 0xaeb7, cp949: 0x83dd},
		lookupItem{ucs2: 0xaeb8, cp949: 0x83de},
		lookupItem{ucs2: 0xaeb9, cp949: 0x83df},
		lookupItem{ucs2: 0xaeba, cp949: 0x83e0},
		lookupItem{ucs2: 0xaebb, cp949: 0x83e1},
		lookupItem{ucs2: 0xaebc, cp949: 0xb2a8},
		lookupItem{ucs2: 0xaebd, cp949: 0xb2a9},
		lookupItem{ucs2: 0xaebe, cp949: 0xb2aa},
		lookupItem{ucs2: 0xaebf, cp949: 0x83e2},
		lookupItem{ucs2: 0xaec0, cp949: 0xb2ab},
		lookupItem{ucs2: 0xaec1, cp949: 0x83e3},
		lookupItem{ucs2: 0xaec2, cp949: 0x83e4},
		lookupItem{ucs2: 0xaec3, cp949: 0x83e5},
		lookupItem{ucs2: 0xaec4, cp949: 0xb2ac},
		lookupItem{ucs2: 0xaec5, cp949: 0x83e6},
		lookupItem{ucs2: 0xaec6, cp949: 0x83e7},
		lookupItem{ucs2: 0xaec7, cp949: 0x83e8},
		lookupItem{ucs2: 0xaec8, cp949: 0x83e9},
		lookupItem{ucs2: 0xaec9, cp949: 0x83ea},
		lookupItem{ucs2: 0xaeca, cp949: 0x83eb},
		lookupItem{ucs2: 0xaecb, cp949: 0x83ec},
		lookupItem{ucs2: 0xaecc, cp949: 0xb2ad},
		lookupItem{ucs2: 0xaecd, cp949: 0xb2ae},
		lookupItem{ucs2: 0xaece, cp949: 0x83ed},
		lookupItem{ucs2: 0xaecf, cp949: 0xb2af},
		lookupItem{ucs2: 0xaed0, cp949: 0xb2b0},
		lookupItem{ucs2: 0xaed1, cp949: 0xb2b1},
		lookupItem{ucs2: 0xaed2, cp949: 0x83ee},
		lookupItem{ucs2: 0xaed3, cp949: 0x83ef},
		lookupItem{ucs2: 0xaed4, cp949: 0x83f0},
		lookupItem{ucs2: 0xaed5, cp949: 0x83f1},
		lookupItem{ucs2: 0xaed6, cp949: 0x83f2},
		lookupItem{ucs2: 0xaed7, cp949: 0x83f3},
		lookupItem{ucs2: 0xaed8, cp949: 0xb2b2},
		lookupItem{ucs2: 0xaed9, cp949: 0xb2b3},
		lookupItem{ucs2: 0xaeda, cp949: 0x83f4},
		lookupItem{ucs2: 0xaedb, cp949: 0x83f5},
		lookupItem{ucs2: 0xaedc, cp949: 0xb2b4},
		lookupItem{ucs2: 0xaedd, cp949: 0x83f6},
".
Definition text_cp949_lookup_to_025 : string :=
"		lookupItem{ucs2: 0xaede, cp949: 0x83f7},
		lookupItem{ucs2: 0xaedf, cp949: 0x83f8},
		lookupItem{ucs2: 0xaee0, cp949: 0x83f9},
		lookupItem{ucs2: 0xaee1, cp949: 0x83fa},
		lookupItem{ucs2: 0xaee2, cp949: 0x83fb},
		lookupItem{ucs2: 0xaee3, cp949: 0x83fc},
		lookupItem{ucs2: 0xaee4, cp949: 0x83fd},
		lookupItem{ucs2: 0xaee5, cp949: 0x83fe},
		lookupItem{ucs2: 0xaee6, cp949: 0x8441},
		lookupItem{ucs2: 0xaee7, cp949: 0x8442},
		lookupItem{ucs2: 0xaee8, cp949: 0xb2b5},
		lookupItem{ucs2: 0xaee9, cp949: 0x8443},
		lookupItem{ucs2: 0xaeea, cp949: 0x8444},
		lookupItem{ucs2: 0xaeeb, cp949: 0xb2b6},
		lookupItem{ucs2: 0xaeec, cp949: 0x8445},
		lookupItem{ucs2: 0xaeed, cp949: 0xb2b7},
		lookupItem{ucs2: 0xaeee, cp949: 0x8446},
		lookupItem{ucs2: 0xaeef, cp949: 0x8447},
		lookupItem{ucs2: 0xaef0, cp949: 0x8448},
		lookupItem{ucs2: 0xaef1, cp949: 0x8449},
		lookupItem{ucs2: 0xaef2, cp949: 0x844a},
		lookupItem{ucs2: 0xaef3, cp949: 0x844b},
		lookupItem{ucs2: 0xaef4, cp949: 0xb2b8},
		lookupItem{ucs2: 0xaef5, cp949: 0x844c},
		lookupItem{ucs2: 0xaef6, cp949: 0x844d},
		lookupItem{ucs2: 0xaef7, cp949: 0x844e},
		lookupItem{ucs2: 0xaef8, cp949: 0xb2b9},
		lookupItem{ucs2: 0xaef9, cp949: 0x844f},
		lookupItem{ucs2: 0xaefa, cp949: 0x8450},
		lookupItem{ucs2: 0xaefb, cp949: 0x8451},
		lookupItem{ucs2: 0xaefc, cp949: 0xb2ba},
		lookupItem{ucs2: 0xaefd, cp949: 0x8452},
		lookupItem{ucs2: 0xaefe, cp949: 0x8453},
		lookupItem{ucs2: 0xaeff, cp949: 0x8454},
		lookupItem{ucs2: 0xaf00, cp949: 0x8455},
		lookupItem{ucs2: 0xaf01, cp949: 0x8456},
		lookupItem{ucs2: 0xaf02, cp949: 0x8457},
		lookupItem{ucs2: 0xaf03, cp949: 0x8458},
		lookupItem{ucs2: 0xaf04, cp949: 0x8459},
		lookupItem{ucs2: 0xaf05, cp949: 0x845a},
		lookupItem{ucs2: 0xaf06, cp949: 0x8461},
		lookupItem{ucs2: 0xaf07, cp949: 0xb2bb},
		lookupItem{ucs2: 0xaf08, cp949: 0xb2bc},
		lookupItem{ucs2: 0xaf09, cp949: 0x8462},
		lookupItem{ucs2: 0xaf0a, cp949: 0x8463},
		lookupItem{ucs2: 0xaf0b, cp949: 0x8464},
		lookupItem{ucs2: 0xaf0c, cp949: 0x8465},
		lookupItem{ucs2: 0xaf0d, cp949: 0xb2bd},
		lookupItem{ucs2: 0xaf0e, cp949: 0x8466},
		lookupItem{ucs2: 0xaf0f, cp949: 0x8467},
		lookupItem{ucs2: 0xaf10, cp949: 0xb2be},
		lookupItem{ucs2: 0xaf11, cp949: 0x8468},
		lookupItem{ucs2: 0xaf12, cp949: 0x8469},
		lookupItem{ucs2: 0xaf13, cp949: 0x846a},
		lookupItem{ucs2: 0xaf14, cp949: 0x846b},
		lookupItem{ucs2: 0xaf15, cp949: 0x846c},
		lookupItem{ucs2: 0xaf16, cp949: 0x846d},
		lookupItem{ucs2: 0xaf17, cp949: 0x846e},
		lookupItem{ucs2: 0xaf18, cp949: 0x846f},
		lookupItem{ucs2: 0xaf19, cp949: 0x8470},
		lookupItem{ucs2: 0xaf1a, cp949: 0x8471},
		lookupItem{ucs2: 0xaf1b, cp949: 0x8472},
		lookupItem{ucs2: 0xaf1c, cp949: 0x8473},
		lookupItem{ucs2: 0xaf1d, cp949: 0x8474},
		lookupItem{ucs2: 0xaf1e, cp949: 0x8475},
		lookupItem{ucs2: 0xaf1f, cp949: 0x8476},
		lookupItem{ucs2: 0xaf20, cp949: 0x8477},
		lookupItem{ucs2: 0xaf21, cp949: 0x8478},
		lookupItem{ucs2: 0xaf22, cp949: 0x8479},
		lookupItem{ucs2: 0xaf23, cp949: 0x847a},
		lookupItem{ucs2: 0xaf24, cp949: 0x8481},
		lookupItem{ucs2: 0xaf25, cp949: 0x8482},
		lookupItem{ucs2: 0xaf26, cp949: 0x8483},
		lookupItem{ucs2: 0xaf27, cp949: 0x8484},
		lookupItem{ucs2: 0xaf28, cp949: 0x8485},
		lookupItem{ucs2: 0xaf29, cp949: 0x8486},
		lookupItem{ucs2: 0xaf2a, cp949: 0x8487},
		lookupItem{ucs2: 0xaf2b, cp949: 0x8488},
		lookupItem{ucs2: 0xaf2c, cp949: 0xb2bf},
		lookupItem{ucs2: 0xaf2d, cp949: 0xb2c0},
		lookupItem{ucs2: 0xaf2e, cp949: 0x8489},
		lookupItem{ucs2: 0xaf2f, cp949: 0x848a},
		lookupItem{ucs2: 0xaf30, cp949: 0xb2c1},
		lookupItem{ucs2: 0xaf31, cp949: 0x848b},
		lookupItem{ucs2: 0xaf32, cp949: 0xb2c2},
		lookupItem{ucs2: 0xaf33, cp949: 0x848c},
		lookupItem{ucs2: 0xaf34, cp949: 0xb2c3},
		lookupItem{ucs2: 0xaf35, cp949: 0x848d},
		lookupItem{ucs2: 0xaf36, cp949: 0x848e},
		lookupItem{ucs2: 0xaf37, cp949: 0x848f},
		lookupItem{ucs2: 0xaf38, cp949: 0x8490},
		lookupItem{ucs2: 0xaf39, cp949: 0x8491},
		lookupItem{ucs2: 0xaf3a, cp949: 0x8492},
		lookupItem{ucs2: 0xaf3b, cp949: 0x8493},
		lookupItem{ucs2: 0xaf3c, cp949: 0xb2c4},
		lookupItem{ucs2: 0xaf3d, cp949: 0xb2c5},
		lookupItem{ucs2: 0xaf3e, cp949: 0x8494},
		lookupItem{ucs2: 0xaf3f, cp949: 0xb2c6},
		lookupItem{ucs2: 0xaf40, cp949: 0x8495},
		lookupItem{ucs2: 0xaf41, cp949: 0xb2c7},
		lookupItem{ucs2: 0xaf42, cp949: 0xb2c8},
		lookupItem{ucs2: 0xaf43, cp949: 0xb2c9},
		lookupItem{ucs2: 0xaf44, cp949: 0x8496},
		lookupItem{ucs2: 0xaf45, cp949: 0x8497},
		lookupItem{ucs2: 0xaf46, cp949: 0x8498},
		lookupItem{ucs2: 0xaf47, cp949: 0x8499},
		lookupItem{ucs2: 0xaf48, cp949: 0xb2ca},
		lookupItem{ucs2: 0xaf49, cp949: 0xb2cb},
		lookupItem{ucs2: 0xaf4a, cp949: 0x849a},
		lookupItem{ucs2: 0xaf4b, cp949: 0x849b},
		lookupItem{ucs2: 0xaf4c, cp949: 0x849c},
		lookupItem{ucs2: 0xaf4d, cp949: 0x849d},
		lookupItem{ucs2: 0xaf4e, cp949: 0x849e},
		lookupItem{ucs2: 0xaf4f, cp949: 0x849f},
		lookupItem{ucs2: 0xaf50, cp949: 0xb2cc},
		lookupItem{ucs2: 0xaf51, cp949: 0x84a0},
		lookupItem{ucs2: 0xaf52, cp949: 0x84a1},
		lookupItem{ucs2: 0xaf53, cp949: 0x84a2},
		lookupItem{ucs2: 0xaf54, cp949: 0x84a3},
		lookupItem{ucs2: 0xaf55, cp949: 0x84a4},
		lookupItem{ucs2: 0xaf56, cp949: 0x84a5},
		lookupItem{ucs2: 0xaf57, cp949: 0x84a6},
		lookupItem{ucs2: 0xaf58, cp949: 0x84a7},
		lookupItem{ucs2: 0xaf59, cp949: 0x84a8},
		lookupItem{ucs2: 0xaf5a, cp949: 0x84a9},
		lookupItem{ucs2: 0xaf5b, cp949: 0x84aa},
		lookupItem{ucs2: 0xaf5c, cp949: 0xb2cd},
		lookupItem{ucs2: 0xaf5d, cp949: 0xb2ce},
		lookupItem{ucs2: 0xaf5e, cp949: 0x84ab},
		lookupItem{ucs2: 0xaf5f, cp949: 0x84ac},
		lookupItem{ucs2: 0xaf60, cp949: 0x84ad},
		lookupItem{ucs2: 0xaf61, cp949: 0x84ae},
		lookupItem{ucs2: 0xaf62, cp949: 0x84af},
		lookupItem{ucs2: 0xaf63, cp949: 0x84b0},
		lookupItem{ucs2: 0xaf64, cp949: 0xb2cf},
		lookupItem{ucs2: 0xaf65, cp949: 0xb2d0},
		lookupItem{ucs2: 0xaf66, cp949: 0x84b1},
		lookupItem{ucs2: 0xaf67, cp949: 0x84b2},
		lookupItem{ucs2: 0xaf68, cp949: 0x84b3},
		lookupItem{ucs2: 0xaf69, cp949: 0x84b4},
		lookupItem{ucs2: 0xaf6a, cp949: 0x84b5},
		lookupItem{ucs2: 0xaf6b, cp949: 0x84b6},
		lookupItem{ucs2: 0xaf6c, cp949: 0x84b7},
		lookupItem{ucs2: 0xaf6d, cp949: 0x84b8},
		lookupItem{ucs2: 0xaf6e, cp949: 0x84b9},
		lookupItem{ucs2: 0xaf6f, cp949: 0x84ba},
		lookupItem{ucs2: 0xaf70, cp949: 0x84bb},
		lookupItem{ucs2: 0xaf71, cp949: 0x84bc},
		lookupItem{ucs2: 0xaf72, cp949: 0x84bd},
		lookupItem{ucs2: 0xaf73, cp949: 0x84be},
		lookupItem{ucs2: 0xaf74, cp949: 0x84bf},
		lookupItem{ucs2: 0xaf75, cp949: 0x84c0},
		lookupItem{ucs2: 0xaf76, cp949: 0x84c1},
		lookupItem{ucs2: 0xaf77, cp949: 0x84c2},
		lookupItem{ucs2: 0xaf78, cp949: 0x84c3},
		lookupItem{ucs2: 0xaf79, cp949: 0xb2d1},
		lookupItem{ucs2: 0xaf7a, cp949: 0x84c4},
		lookupItem{ucs2: 0xaf7b, cp949: 0x84c5},
		lookupItem{ucs2: 0xaf7c, cp949: 0x84c6},
		lookupItem{ucs2: 0xaf7d, cp949: 0x84c7},
		lookupItem{ucs2: 0xaf7e, cp949: 0x84c8},
		lookupItem{ucs2: 0xaf7f, cp949: 0x84c9},
		lookupItem{ucs2: 0xaf80, cp949: 0xb2d2},
		lookupItem{ucs2: 0xaf81, cp949: 0x84ca},
		lookupItem{ucs2: 0xaf82, cp949: 0x84cb},
		lookupItem{ucs2: 0xaf83, cp949: 0x84cc},
		lookupItem{ucs2: 0xaf84, cp949: 0xb2d3},
		lookupItem{ucs2: 0xaf85, cp949: 0x84cd},
		lookupItem{ucs2: 0xaf86, cp949: 0x84ce},
		lookupItem{ucs2: 0xaf87, cp949: 0x84cf},
		lookupItem{ucs2: 0xaf88, cp949: 0xb2d4},
		lookupItem{ucs2: 0xaf89, cp949: 0x84d0},
		lookupItem{ucs2: 0xaf8a, cp949: 0x84d1},
		lookupItem{ucs2: 0xaf8b, cp949: 0x84d2},
		lookupItem{ucs2: 0xaf8c, cp949: 0x84d3},
		lookupItem{ucs2: 0xaf8d, cp949: 0x84d4},
		lookupItem{ucs2: 0xaf8e, cp949: 0x84d5},
		lookupItem{ucs2: 0xaf8f, cp949: 0x84d6},
		lookupItem{ucs2: 0xaf90, cp949: 0xb2d5},
		lookupItem{ucs2: 0xaf91, cp949: 0xb2d6},
		lookupItem{ucs2: 0xaf92, cp949: 0x84d7},
		lookupItem{ucs2: 0xaf93, cp949: 0x84d8},
		lookupItem{ucs2: 0xaf94, cp949: 0x84d9},
		lookupItem{ucs2: 0xaf95, cp949: 0xb2d7},
		lookupItem{ucs2: 0xaf96, cp949: 0x84da},
		lookupItem{ucs2: 0xaf97, cp949: 0x84db},
		lookupItem{ucs2: 0xaf98, cp949: 0x84dc},
		lookupItem{ucs2: 0xaf99, cp949: 0x84dd},
		lookupItem{ucs2: 0xaf9a, cp949: 0x84de},
		lookupItem{ucs2: 0xaf9b, cp949: 0x84df},
		lookupItem{ucs2: 0xaf9c, cp949: 0xb2d8},
		lookupItem{ucs2: 0xaf9d, cp949: 0x84e0},
		lookupItem{ucs2: 0xaf9e, cp949: 0x84e1},
		lookupItem{ucs2: 0xaf9f, cp949: 0x84e2},
		lookupItem{ucs2: 0xafa0, cp949: 0x84e3},
		lookupItem{ucs2: 0xafa1, cp949: 0x84e4},
		lookupItem{ucs2: 0xafa2, cp949: 0x84e5},
		lookupItem{ucs2: 0xafa3, cp949: 0x84e6},
		lookupItem{ucs2: 0xafa4, cp949: 0x84e7},
		lookupItem{ucs2: 0xafa5, cp949: 0x84e8},
		lookupItem{ucs2: 0xafa6, cp949: 0x84e9},
		lookupItem{ucs2: 0xafa7, cp949: 0x84ea},
		lookupItem{ucs2: 0xafa8, cp949: 0x84eb},
		lookupItem{ucs2: 0xafa9, cp949: 0x84ec},
		lookupItem{ucs2: 0xafaa, cp949: 0x84ed},
		lookupItem{ucs2: 0xafab, cp949: 0x84ee},
		lookupItem{ucs2: 0xafac, cp949: 0x84ef},
		lookupItem{ucs2: 0xafad, cp949: 0x84f0},
		lookupItem{ucs2: 0xafae, cp949: 0x84f1},
		lookupItem{ucs2: 0xafaf, cp949: 0x84f2},
		lookupItem{ucs2: 0xafb0, cp949: 0x84f3},
		lookupItem{ucs2: 0xafb1, cp949: 0x84f4},
		lookupItem{ucs2: 0xafb2, cp949: 0x84f5},
		lookupItem{ucs2: 0xafb3, cp949: 0x84f6},
		lookupItem{ucs2: 0xafb4, cp949: 0x84f7},
		lookupItem{ucs2: 0xafb5, cp949: 0x84f8},
		lookupItem{ucs2: 0xafb6, cp949: 0x84f9},
		lookupItem{ucs2: 0xafb7, cp949: 0x84fa},
		lookupItem{ucs2: 0xafb8, cp949: 0xb2d9},
		lookupItem{ucs2: 0xafb9, cp949: 0xb2da},
		lookupItem{ucs2: 0xafba, cp949: 0x84fb},
		lookupItem{ucs2: 0xafbb, cp949: 0x84fc},
		lookupItem{ucs2: 0xafbc, cp949: 0xb2db},
		lookupItem{ucs2: 0xafbd, cp949: 0x84fd},
		lookupItem{ucs2: 0xafbe, cp949: 0x84fe},
		lookupItem{ucs2: 0xafbf, cp949: 0x8541},
		lookupItem{ucs2: 0xafc0, cp949: 0xb2dc},
		lookupItem{ucs2: 0xafc1, cp949: 0x8542},
		lookupItem{ucs2: 0xafc2, cp949: 0x8543},
		lookupItem{ucs2: 0xafc3, cp949: 0x8544},
		lookupItem{ucs2: 0xafc4, cp949: 0x8545},
		lookupItem{ucs2: 0xafc5, cp949: 0x8546},
		lookupItem{ucs2: 0xafc6, cp949: 0x8547},
		lookupItem{ucs2: 0xafc7, cp949: 0xb2dd},
		lookupItem{ucs2: 0xafc8, cp949: 0xb2de},
		lookupItem{ucs2: 0xafc9, cp949: 0xb2df},
		lookupItem{ucs2: 0xafca, cp949: 0x8548},
		lookupItem{ucs2: 0xafcb, cp949: 0xb2e0},
		lookupItem{ucs2: 0xafcc, cp949: 0x8549},
		lookupItem{ucs2: 0xafcd, cp949: 0xb2e1},
		lookupItem{ucs2: 0xafce, cp949: 0xb2e2},
		lookupItem{ucs2: 0xafcf, cp949: 0x854a},
		lookupItem{ucs2: 0xafd0, cp949: 0x854b},
		lookupItem{ucs2: 0xafd1, cp949: 0x854c},
		lookupItem{ucs2: 0xafd2, cp949: 0x854d},
		lookupItem{ucs2: 0xafd3, cp949: 0x854e},
		lookupItem{ucs2: 0xafd4, cp949: 0xb2e3},
		lookupItem{ucs2: 0xafd5, cp949: 0x854f},
		lookupItem{ucs2: 0xafd6, cp949: 0x8550},
		lookupItem{ucs2: 0xafd7, cp949: 0x8551},
".
Definition text_cp949_lookup_to_026 : string :=
"		lookupItem{ucs2: 0xafd8, cp949: 0x8552},
		lookupItem{ucs2: 0xafd9, cp949: 0x8553},
		lookupItem{ucs2: 0xafda, cp949: 0x8554},
		lookupItem{ucs2: 0xafdb, cp949: 0x8555},
		lookupItem{ucs2: 0xafdc, cp949: 0xb2e4},
		lookupItem{ucs2: 0xafdd, cp949: 0x8556},
		lookupItem{ucs2: 0xafde, cp949: 0x8557},
		lookupItem{ucs2: 0xafdf, cp949: 0x8558},
		lookupItem{ucs2: 0xafe0, cp949: 0x8559},
		lookupItem{ucs2: 0xafe1, cp949: 0x855a},
		lookupItem{ucs2: 0xafe2, cp949: 0x8561},
		lookupItem{ucs2: 0xafe3, cp949: 0x8562},
		lookupItem{ucs2: 0xafe4, cp949: 0x8563},
		lookupItem{ucs2: 0xafe5, cp949: 0x8564},
		lookupItem{ucs2: 0xafe6, cp949: 0x8565},
		lookupItem{ucs2: 0xafe7, cp949: 0x8566},
		lookupItem{ucs2: 0xafe8, cp949: 0xb2e5},
		lookupItem{ucs2: 0xafe9, cp949: 0xb2e6},
		lookupItem{ucs2: 0xafea, cp949: 0x8567},
		lookupItem{ucs2: 0xafeb, cp949: 0x8568},
		lookupItem{ucs2: 0xafec, cp949: 0x8569},
		lookupItem{ucs2: 0xafed, cp949: 0x856a},
		lookupItem{ucs2: 0xafee, cp949: 0x856b},
		lookupItem{ucs2: 0xafef, cp949: 0x856c},
		lookupItem{ucs2: 0xaff0, cp949: 0xb2e7},
		lookupItem{ucs2: 0xaff1, cp949: 0xb2e8},
		lookupItem{ucs2: 0xaff2, cp949: 0x856d},
		lookupItem{ucs2: 0xaff3, cp949: 0x856e},
		lookupItem{ucs2: 0xaff4, cp949: 0xb2e9},
		lookupItem{ucs2: 0xaff5, cp949: 0x856f},
		lookupItem{ucs2: 0xaff6, cp949: 0x8570},
		lookupItem{ucs2: 0xaff7, cp949: 0x8571},
		lookupItem{ucs2: 0xaff8, cp949: 0xb2ea},
		lookupItem{ucs2: 0xaff9, cp949: 0x8572},
		lookupItem{ucs2: 0xaffa, cp949: 0x8573},
		lookupItem{ucs2: 0xaffb, cp949: 0x8574},
		lookupItem{ucs2: 0xaffc, cp949: 0x8575},
		lookupItem{ucs2: 0xaffd, cp949: 0x8576},
		lookupItem{ucs2: 0xaffe, cp949: 0x8577},
		lookupItem{ucs2: 0xafff, cp949: 0x8578},
		lookupItem{ucs2: 0xb000, cp949: 0xb2eb},
		lookupItem{ucs2: 0xb001, cp949: 0xb2ec},
		lookupItem{ucs2: 0xb002, cp949: 0x8579},
		lookupItem{ucs2: 0xb003, cp949: 0x857a},
		lookupItem{ucs2: 0xb004, cp949: 0xb2ed},
		lookupItem{ucs2: 0xb005, cp949: 0x8581},
		lookupItem{ucs2: 0xb006, cp949: 0x8582},
		lookupItem{ucs2: 0xb007, cp949: 0x8583},
		lookupItem{ucs2: 0xb008, cp949: 0x8584},
		lookupItem{ucs2: 0xb009, cp949: 0x8585},
		lookupItem{ucs2: 0xb00a, cp949: 0x8586},
		lookupItem{ucs2: 0xb00b, cp949: 0x8587},
		lookupItem{ucs2: 0xb00c, cp949: 0xb2ee},
		lookupItem{ucs2: 0xb00d, cp949: 0x8588},
		lookupItem{ucs2: 0xb00e, cp949: 0x8589},
		lookupItem{ucs2: 0xb00f, cp949: 0x858a},
		lookupItem{ucs2: 0xb010, cp949: 0xb2ef},
		lookupItem{ucs2: 0xb011, cp949: 0x858b},
		lookupItem{ucs2: 0xb012, cp949: 0x858c},
		lookupItem{ucs2: 0xb013, cp949: 0x858d},
		lookupItem{ucs2: 0xb014, cp949: 0xb2f0},
		lookupItem{ucs2: 0xb015, cp949: 0x858e},
		lookupItem{ucs2: 0xb016, cp949: 0x858f},
		lookupItem{ucs2: 0xb017, cp949: 0x8590},
		lookupItem{ucs2: 0xb018, cp949: 0x8591},
		lookupItem{ucs2: 0xb019, cp949: 0x8592},
		lookupItem{ucs2: 0xb01a, cp949: 0x8593},
		lookupItem{ucs2: 0xb01b, cp949: 0x8594},
		lookupItem{ucs2: 0xb01c, cp949: 0xb2f1},
		lookupItem{ucs2: 0xb01d, cp949: 0xb2f2},
		lookupItem{ucs2: 0xb01e, cp949: 0x8595},
		lookupItem{ucs2: 0xb01f, cp949: 0x8596},
		lookupItem{ucs2: 0xb020, cp949: 0x8597},
		lookupItem{ucs2: 0xb021, cp949: 0x8598},
		lookupItem{ucs2: 0xb022, cp949: 0x8599},
		lookupItem{ucs2: 0xb023, cp949: 0x859a},
		lookupItem{ucs2: 0xb024, cp949: 0x859b},
		lookupItem{ucs2: 0xb025, cp949: 0x859c},
		lookupItem{ucs2: 0xb026, cp949: 0x859d},
		lookupItem{ucs2: 0xb027, cp949: 0x859e},
		lookupItem{ucs2: 0xb028, cp949: 0xb2f3},
		lookupItem{ucs2: 0xb029, cp949: 0x859f},
		lookupItem{ucs2: 0xb02a, cp949: 0x85a0},
		lookupItem{ucs2: 0xb02b, cp949: 0x85a1},
		lookupItem{ucs2: 0xb02c, cp949: 0x85a2},
		lookupItem{ucs2: 0xb02d, cp949: 0x85a3},
		lookupItem{ucs2: 0xb02e, cp949: 0x85a4},
		lookupItem{ucs2: 0xb02f, cp949: 0x85a5},
		lookupItem{ucs2: 0xb030, cp949: 0x85a6},
		lookupItem{ucs2: 0xb031, cp949: 0x85a7},
		lookupItem{ucs2: 0xb032, cp949: 0x85a8},
		lookupItem{ucs2: 0xb033, cp949: 0x85a9},
		lookupItem{ucs2: 0xb034, cp949: 0x85aa},
		lookupItem{ucs2: 0xb035, cp949: 0x85ab},
		lookupItem{ucs2: 0xb036, cp949: 0x85ac},
		lookupItem{ucs2: 0xb037, cp949: 0x85ad},
		lookupItem{ucs2: 0xb038, cp949: 0x85ae},
		lookupItem{ucs2: 0xb039, cp949: 0x85af},
		lookupItem{ucs2: 0xb03a, cp949: 0x85b0},
		lookupItem{ucs2: 0xb03b, cp949: 0x85b1},
		lookupItem{ucs2: 0xb03c, cp949: 0x85b2},
		lookupItem{ucs2: 0xb03d, cp949: 0x85b3},
		lookupItem{ucs2: 0xb03e, cp949: 0x85b4},
		lookupItem{ucs2: 0xb03f, cp949: 0x85b5},
		lookupItem{ucs2: 0xb040, cp949: 0x85b6},
		lookupItem{ucs2: 0xb041, cp949: 0x85b7},
		lookupItem{ucs2: 0xb042, cp949: 0x85b8},
		lookupItem{ucs2: 0xb043, cp949: 0x85b9},
		lookupItem{ucs2: 0xb044, cp949: 0xb2f4},
		lookupItem{ucs2: 0xb045, cp949: 0xb2f5},
		lookupItem{ucs2: 0xb046, cp949: 0x85ba},
		lookupItem{ucs2: 0xb047, cp949: 0x85bb},
		lookupItem{ucs2: 0xb048, cp949: 0xb2f6},
		lookupItem{ucs2: 0xb049, cp949: 0x85bc},
		lookupItem{ucs2: 0xb04a, cp949: 0xb2f7},
		lookupItem{ucs2: 0xb04b, cp949: 0x85bd},
		lookupItem{ucs2: 0xb04c, cp949: 0xb2f8},
		lookupItem{ucs2: 0xb04d, cp949: 0x85be},
		lookupItem{ucs2: 0xb04e, cp949: 0xb2f9},
		lookupItem{ucs2: 0xb04f, cp949: 0x85bf},
		lookupItem{ucs2: 0xb050, cp949: 0x85c0},
		lookupItem{ucs2: 0xb051, cp949: 0x85c1},
		lookupItem{ucs2: 0xb052, cp949: 0x85c2},
		lookupItem{ucs2: 0xb053, cp949: 0xb2fa},
		lookupItem{ucs2: 0xb054, cp949: 0xb2fb},
		lookupItem{ucs2: 0xb055, cp949: 0xb2fc},
		lookupItem{ucs2: 0xb056, cp949: 0x85c3},
		lookupItem{ucs2: 0xb057, cp949: 0xb2fd},
		lookupItem{ucs2: 0xb058, cp949: 0x85c4},
		lookupItem{ucs2: 0xb059, cp949: 0xb2fe},
		lookupItem{ucs2: 0xb05a, cp949: 0x85c5},
		lookupItem{ucs2: 0xb05b, cp949: 0x85c6},
		lookupItem{ucs2: 0xb05c, cp949: 0x85c7},
		lookupItem{ucs2: 0xb05d, cp949: 0xb3a1},
		lookupItem{ucs2: 0xb05e, cp949: 0x85c8},
		lookupItem{ucs2: 0xb05f, cp949: 0x85c9},
		lookupItem{ucs2: 0xb060, cp949: 0x85ca},
		lookupItem{ucs2: 0xb061, cp949: 0x85cb},
		lookupItem{ucs2: 0xb062, cp949: 0x85cc},
		lookupItem{ucs2: 0xb063, cp949: 0x85cd},
		lookupItem{ucs2: 0xb064, cp949: 0x85ce},
		lookupItem{ucs2: 0xb065, cp949: 0x85cf},
		lookupItem{ucs2: 0xb066, cp949: 0x85d0},
		lookupItem{ucs2: 0xb067, cp949: 0x85d1},
		lookupItem{ucs2: 0xb068, cp949: 0x85d2},
		lookupItem{ucs2: 0xb069, cp949: 0x85d3},
		lookupItem{ucs2: 0xb06a, cp949: 0x85d4},
		lookupItem{ucs2: 0xb06b, cp949: 0x85d5},
		lookupItem{ucs2: 0xb06c, cp949: 0x85d6},
		lookupItem{ucs2: 0xb06d, cp949: 0x85d7},
		lookupItem{ucs2: 0xb06e, cp949: 0x85d8},
		lookupItem{ucs2: 0xb06f, cp949: 0x85d9},
		lookupItem{ucs2: 0xb070, cp949: 0x85da},
		lookupItem{ucs2: 0xb071, cp949: 0x85db},
		lookupItem{ucs2: 0xb072, cp949: 0x85dc},
		lookupItem{ucs2: 0xb073, cp949: 0x85dd},
		lookupItem{ucs2: 0xb074, cp949: 0x85de},
		lookupItem{ucs2: 0xb075, cp949: 0x85df},
		lookupItem{ucs2: 0xb076, cp949: 0x85e0},
		lookupItem{ucs2: 0xb077, cp949: 0x85e1},
		lookupItem{ucs2: 0xb078, cp949: 0x85e2},
		lookupItem{ucs2: 0xb079, cp949: 0x85e3},
		lookupItem{ucs2: 0xb07a, cp949: 0x85e4},
		lookupItem{ucs2: 0xb07b, cp949: 0x85e5},
		lookupItem{ucs2: 0xb07c, cp949: 0xb3a2},
		lookupItem{ucs2: 0xb07d, cp949: 0xb3a3},
		lookupItem{ucs2: 0xb07e, cp949: 0x85e6},
		lookupItem{ucs2: 0xb07f, cp949: 0x85e7},
		lookupItem{ucs2: 0xb080, cp949: 0xb3a4},
		lookupItem{ucs2: 0xb081, cp949: 0x85e8},
		lookupItem{ucs2: 0xb082, cp949: 0x85e9},
		lookupItem{ucs2: 0xb083, cp949: 0x85ea},
		lookupItem{ucs2: 0xb084, cp949: 0xb3a5},
		lookupItem{ucs2: 0xb085, cp949: 0x85eb},
		lookupItem{ucs2: 0xb086, cp949: 0x85ec},
		lookupItem{ucs2: 0xb087, cp949: 0x85ed},
		lookupItem{ucs2: 0xb088, cp949: 0x85ee},
		lookupItem{ucs2: 0xb089, cp949: 0x85ef},
		lookupItem{ucs2: 0xb08a, cp949: 0x85f0},
		lookupItem{ucs2: 0xb08b, cp949: 0x85f1},
		lookupItem{ucs2: 0xb08c, cp949: 0xb3a6},
		lookupItem{ucs2: 0xb08d, cp949: 0xb3a7},
		lookupItem{ucs2: 0xb08e, cp949: 0x85f2},
		lookupItem{ucs2: 0xb08f, cp949: 0xb3a8},
		lookupItem{ucs2: 0xb090, cp949: 0x85f3},
		lookupItem{ucs2: 0xb091, cp949: 0xb3a9},
		lookupItem{ucs2: 0xb092, cp949: 0x85f4},
		lookupItem{ucs2: 0xb093, cp949: 0x85f5},
		lookupItem{ucs2: 0xb094, cp949: 0x85f6},
		lookupItem{ucs2: 0xb095, cp949: 0x85f7},
		lookupItem{ucs2: 0xb096, cp949: 0x85f8},
		lookupItem{ucs2: 0xb097, cp949: 0x85f9},
		lookupItem{ucs2: 0xb098, cp949: 0xb3aa},
		lookupItem{ucs2: 0xb099, cp949: 0xb3ab},
		lookupItem{ucs2: 0xb09a, cp949: 0xb3ac},
		lookupItem{ucs2: 0xb09b, cp949: 0x85fa},
		lookupItem{ucs2: 0xb09c, cp949: 0xb3ad},
		lookupItem{ucs2: 0xb09d, cp949: 0x85fb},
		lookupItem{ucs2: 0xb09e, cp949: 0x85fc},
		lookupItem{ucs2: 0xb09f, cp949: 0xb3ae},
		lookupItem{ucs2: 0xb0a0, cp949: 0xb3af},
		lookupItem{ucs2: 0xb0a1, cp949: 0xb3b0},
		lookupItem{ucs2: 0xb0a2, cp949: 0xb3b1},
		lookupItem{ucs2: 0xb0a3, cp949: 0x85fd},
		lookupItem{ucs2: 0xb0a4, cp949: 0x85fe},
		lookupItem{ucs2: 0xb0a5, cp949: 0x8641},
		lookupItem{ucs2: 0xb0a6, cp949: 0x8642},
		lookupItem{ucs2: 0xb0a7, cp949: 0x8643},
		lookupItem{ucs2: 0xb0a8, cp949: 0xb3b2},
		lookupItem{ucs2: 0xb0a9, cp949: 0xb3b3},
		lookupItem{ucs2: 0xb0aa, cp949: 0x8644},
		lookupItem{ucs2: 0xb0ab, cp949: 0xb3b4},
		lookupItem{ucs2: 0xb0ac, cp949: 0xb3b5},
		lookupItem{ucs2: 0xb0ad, cp949: 0xb3b6},
		lookupItem{ucs2: 0xb0ae, cp949: 0xb3b7},
		lookupItem{ucs2: 0xb0af, cp949: 0xb3b8},
		lookupItem{ucs2: 0xb0b0, cp949: 0x8645},
		lookupItem{ucs2: 0xb0b1, cp949: 0xb3b9},
		lookupItem{ucs2: 0xb0b2, cp949: 0x8646},
		lookupItem{ucs2: 0xb0b3, cp949: 0xb3ba},
		lookupItem{ucs2: 0xb0b4, cp949: 0xb3bb},
		lookupItem{ucs2: 0xb0b5, cp949: 0xb3bc},
		lookupItem{ucs2: 0xb0b6, cp949: 0x8647},
		lookupItem{ucs2: 0xb0b7, cp949: 0x8648},
		lookupItem{ucs2: 0xb0b8, cp949: 0xb3bd},
		lookupItem{ucs2: 0xb0b9, cp949: 0x8649},
		lookupItem{ucs2: 0xb0ba, cp949: 0x864a},
		lookupItem{ucs2: 0xb0bb, cp949: 0x864b},
		lookupItem{ucs2: 0xb0bc, cp949: 0xb3be},
		lookupItem{ucs2: 0xb0bd, cp949: 0x864c},
		lookupItem{ucs2: 0xb0be, cp949: 0x864d},
		lookupItem{ucs2: 0xb0bf, cp949: 0x864e},
		lookupItem{ucs2: 0xb0c0, cp949: 0x864f},
		lookupItem{ucs2: 0xb0c1, cp949: 0x8650},
		lookupItem{ucs2: 0xb0c2, cp949: 0x8651},
		lookupItem{ucs2: 0xb0c3, cp949: 0x8652},
		lookupItem{ucs2: 0xb0c4, cp949: 0xb3bf},
		lookupItem{ucs2: 0xb0c5, cp949: 0xb3c0},
		lookupItem{ucs2: 0xb0c6, cp949: 0x8653},
		lookupItem{ucs2: 0xb0c7, cp949: 0xb3c1},
		lookupItem{ucs2: 0xb0c8, cp949: 0xb3c2},
		lookupItem{ucs2: 0xb0c9, cp949: 0xb3c3},
		lookupItem{ucs2: 0xb0ca, cp949: 0x8654},
		lookupItem{ucs2: 0xb0cb, cp949: 0x8655},
		lookupItem{ucs2: 0xb0cc, cp949: 0x8656},
		lookupItem{ucs2: 0xb0cd, cp949: 0x8657},
		lookupItem{ucs2: 0xb0ce, cp949: 0x8658},
		lookupItem{ucs2: 0xb0cf, cp949: 0x8659},
		lookupItem{ucs2: 0xb0d0, cp949: 0xb3c4},
		lookupItem{ucs2: 0xb0d1, cp949: 0xb3c5},
".
Definition text_cp949_lookup_to_027 : string :=
"		lookupItem{ucs2: 0xb0d2, cp949: 0x865a},
		lookupItem{ucs2: 0xb0d3, cp949: 0x8661},
		lookupItem{ucs2: 0xb0d4, cp949: 0xb3c6},
		lookupItem{ucs2: 0xb0d5, cp949: 0x8662},
		lookupItem{ucs2: 0xb0d6, cp949: 0x8663},
		lookupItem{ucs2: 0xb0d7, cp949: 0x8664},
		lookupItem{ucs2: 0xb0d8, cp949: 0xb3c7},
		lookupItem{ucs2: 0xb0d9, cp949: 0x8665},
		lookupItem{ucs2: 0xb0da, cp949: 0x8666},
		lookupItem{ucs2: 0xb0db, cp949: 0x8667},
		lookupItem{ucs2: 0xb0dc, cp949: 0x8668},
		lookupItem{ucs2: 0xb0dd, cp949: 0x8669},
		lookupItem{ucs2: 0xb0de, cp949: 0x866a},
		lookupItem{ucs2: 0xb0df, cp949: 0x866b},
		lookupItem{ucs2: 0xb0e0, cp949: 0xb3c8},
		lookupItem{ucs2: 0xb0e1, cp949: 0x866c},
		lookupItem{ucs2: 0xb0e2, cp949: 0x866d},
		lookupItem{ucs2: 0xb0e3, cp949: 0x866e},
		lookupItem{ucs2: 0xb0e4, cp949: 0x866f},
		lookupItem{ucs2: 0xb0e5, cp949: 0xb3c9},
		lookupItem{ucs2: 0xb0e6, cp949: 0x8670},
		lookupItem{ucs2: 0xb0e7, cp949: 0x8671},
		lookupItem{ucs2: 0xb0e8, cp949: 0x8672},
		lookupItem{ucs2: 0xb0e9, cp949: 0x8673},
		lookupItem{ucs2: 0xb0ea, cp949: 0x8674},
		lookupItem{ucs2: 0xb0eb, cp949: 0x8675},
		lookupItem{ucs2: 0xb0ec, cp949: 0x8676},
		lookupItem{ucs2: 0xb0ed, cp949: 0x8677},
		lookupItem{ucs2: 0xb0ee, cp949: 0x8678},
		lookupItem{ucs2: 0xb0ef, cp949: 0x8679},
		lookupItem{ucs2: 0xb0f0, cp949: 0x867a},
		lookupItem{ucs2: 0xb0f1, cp949: 0x8681},
		lookupItem{ucs2: 0xb0f2, cp949: 0x8682},
		lookupItem{ucs2: 0xb0f3, cp949: 0x8683},
		lookupItem{ucs2: 0xb0f4, cp949: 0x8684},
		lookupItem{ucs2: 0xb0f5, cp949: 0x8685},
		lookupItem{ucs2: 0xb0f6, cp949: 0x8686},
		lookupItem{ucs2: 0xb0f7, cp949: 0x8687},
		lookupItem{ucs2: 0xb0f8, cp949: 0x8688},
		lookupItem{ucs2: 0xb0f9, cp949: 0x8689},
		lookupItem{ucs2: 0xb0fa, cp949: 0x868a},
		lookupItem{ucs2: 0xb0fb, cp949: 0x868b},
		lookupItem{ucs2: 0xb0fc, cp949: 0x868c},
		lookupItem{ucs2: 0xb0fd, cp949: 0x868d},
		lookupItem{ucs2: 0xb0fe, cp949: 0x868e},
		lookupItem{ucs2: 0xb0ff, cp949: 0x868f},
		lookupItem{ucs2: 0xb100, cp949: 0x8690},
		lookupItem{ucs2: 0xb101, cp949: 0x8691},
		lookupItem{ucs2: 0xb102, cp949: 0x8692},
		lookupItem{ucs2: 0xb103, cp949: 0x8693},
		lookupItem{ucs2: 0xb104, cp949: 0x8694},
		lookupItem{ucs2: 0xb105, cp949: 0x8695},
		lookupItem{ucs2: 0xb106, cp949: 0x8696},
		lookupItem{ucs2: 0xb107, cp949: 0x8697},
		lookupItem{ucs2: 0xb108, cp949: 0xb3ca},
		lookupItem{ucs2: 0xb109, cp949: 0xb3cb},
		lookupItem{ucs2: 0xb10a, cp949: 0x8698},
		lookupItem{ucs2: 0xb10b, cp949: 0xb3cc},
		lookupItem{ucs2: 0xb10c, cp949: 0xb3cd},
		lookupItem{ucs2: 0xb10d, cp949: 0x8699},
		lookupItem{ucs2: 0xb10e, cp949: 0x869a},
		lookupItem{ucs2: 0xb10f, cp949: 0x869b},
		lookupItem{ucs2: 0xb110, cp949: 0xb3ce},
		lookupItem{ucs2: 0xb111, cp949: 0x869c},
		lookupItem{ucs2: 0xb112, cp949: 0xb3cf},
		lookupItem{ucs2: 0xb113, cp949: 0xb3d0},
		lookupItem{ucs2: 0xb114, cp949: 0x869d},
		lookupItem{ucs2: 0xb115, cp949: 0x869e},
		lookupItem{ucs2: 0xb116, cp949: 0x869f},
		lookupItem{ucs2: 0xb117, cp949: 0x86a0},
		lookupItem{ucs2: 0xb118, cp949: 0xb3d1},
		lookupItem{ucs2: 0xb119, cp949: 0xb3d2},
		lookupItem{ucs2: 0xb11a, cp949: 0x86a1},
		lookupItem{ucs2: 0xb11b, cp949: 0xb3d3},
		lookupItem{ucs2: 0xb11c, cp949: 0xb3d4},
		lookupItem{ucs2: 0xb11d, cp949: 0xb3d5},
		lookupItem{ucs2: 0xb11e, cp949: 0x86a2},
		lookupItem{ucs2: 0xb11f, cp949: 0x86a3},
		lookupItem{ucs2: 0xb120, cp949: 0x86a4},
		lookupItem{ucs2: 0xb121, cp949: 0x86a5},
		lookupItem{ucs2: 0xb122, cp949: 0x86a6},
		lookupItem{ucs2: 0xb123, cp949: 0xb3d6},
		lookupItem{ucs2: 0xb124, cp949: 0xb3d7},
		lookupItem{ucs2: 0xb125, cp949: 0xb3d8},
		lookupItem{ucs2: 0xb126, cp949: 0x86a7},
		lookupItem{ucs2: 0xb127, cp949: 0x86a8},
		lookupItem{ucs2: 0xb128, cp949: 0xb3d9},
		lookupItem{ucs2: 0xb129, cp949: 0x86a9},
		lookupItem{ucs2: 0xb12a, cp949: 0x86aa},
		lookupItem{ucs2: 0xb12b, cp949: 0x86ab},
		lookupItem{ucs2: 0xb12c, cp949: 0xb3da},
		lookupItem{ucs2: 0xb12d, cp949: 0x86ac},
		lookupItem{ucs2: 0xb12e, cp949: 0x86ad},
		lookupItem{ucs2: 0xb12f, cp949: 0x86ae},
		lookupItem{ucs2: 0xb130, cp949: 0x86af},
		lookupItem{ucs2: 0xb131, cp949: 0x86b0},
		lookupItem{ucs2: 0xb132, cp949: 0x86b1},
		lookupItem{ucs2: 0xb133, cp949: 0x86b2},
		lookupItem{ucs2: 0xb134, cp949: 0xb3db},
		lookupItem{ucs2: 0xb135, cp949: 0xb3dc},
		lookupItem{ucs2: 0xb136, cp949: 0x86b3},
		lookupItem{ucs2: 0xb137, cp949: 0xb3dd},
		lookupItem{ucs2: 0xb138, cp949: 0xb3de},
		lookupItem{ucs2: 0xb139, cp949: 0xb3df},
		lookupItem{ucs2: 0xb13a, cp949: 0x86b4},
		lookupItem{ucs2: 0xb13b, cp949: 0x86b5},
		lookupItem{ucs2: 0xb13c, cp949: 0x86b6},
		lookupItem{ucs2: 0xb13d, cp949: 0x86b7},
		lookupItem{ucs2: 0xb13e, cp949: 0x86b8},
		lookupItem{ucs2: 0xb13f, cp949: 0x86b9},
		lookupItem{ucs2: 0xb140, cp949: 0xb3e0},
		lookupItem{ucs2: 0xb141, cp949: 0xb3e1},
		lookupItem{ucs2: 0xb142, cp949: 0x86ba},
		lookupItem{ucs2: 0xb143, cp949: 0x86bb},
		lookupItem{ucs2: 0xb144, cp949: 0xb3e2},
		lookupItem{ucs2: 0xb145, cp949: 0x86bc},
		lookupItem{ucs2: 0xb146, cp949: 0x86bd},
		lookupItem{ucs2: 0xb147, cp949: 0x86be},
		lookupItem{ucs2: 0xb148, cp949: 0xb3e3},
		lookupItem{ucs2: 0xb149, cp949: 0x86bf},
		lookupItem{ucs2: 0xb14a, cp949: 0x86c0},
		lookupItem{ucs2: 0xb14b, cp949: 0x86c1},
		lookupItem{ucs2: 0xb14c, cp949: 0x86c2},
		lookupItem{ucs2: 0xb14d, cp949: 0x86c3},
		lookupItem{ucs2: 0xb14e, cp949: 0x86c4},
		lookupItem{ucs2: 0xb14f, cp949: 0x86c5},
		lookupItem{ucs2: 0xb150, cp949: 0xb3e4},
		lookupItem{ucs2: 0xb151, cp949: 0xb3e5},
		lookupItem{ucs2: 0xb152, cp949: 0x86c6},
		lookupItem{ucs2: 0xb153, cp949: 0x86c7},
		lookupItem{ucs2: 0xb154, cp949: 0xb3e6},
		lookupItem{ucs2: 0xb155, cp949: 0xb3e7},
		lookupItem{ucs2: 0xb156, cp949: 0x86c8},
		lookupItem{ucs2: 0xb157, cp949: 0x86c9},
		lookupItem{ucs2: 0xb158, cp949: 0xb3e8},
		lookupItem{ucs2: 0xb159, cp949: 0x86ca},
		lookupItem{ucs2: 0xb15a, cp949: 0x86cb},
		lookupItem{ucs2: 0xb15b, cp949: 0x86cc},
		lookupItem{ucs2: 0xb15c, cp949: 0xb3e9},
		lookupItem{ucs2: 0xb15d, cp949: 0x86cd},
		lookupItem{ucs2: 0xb15e, cp949: 0x86ce},
		lookupItem{ucs2: 0xb15f, cp949: 0x86cf},
		lookupItem{ucs2: 0xb160, cp949: 0xb3ea},
		lookupItem{ucs2: 0xb161, cp949: 0x86d0},
		lookupItem{ucs2: 0xb162, cp949: 0x86d1},
		lookupItem{ucs2: 0xb163, cp949: 0x86d2},
		lookupItem{ucs2: 0xb164, cp949: 0x86d3},
		lookupItem{ucs2: 0xb165, cp949: 0x86d4},
		lookupItem{ucs2: 0xb166, cp949: 0x86d5},
		lookupItem{ucs2: 0xb167, cp949: 0x86d6},
		lookupItem{ucs2: 0xb168, cp949: 0x86d7},
		lookupItem{ucs2: 0xb169, cp949: 0x86d8},
		lookupItem{ucs2: 0xb16a, cp949: 0x86d9},
		lookupItem{ucs2: 0xb16b, cp949: 0x86da},
		lookupItem{ucs2: 0xb16c, cp949: 0x86db},
		lookupItem{ucs2: 0xb16d, cp949: 0x86dc},
		lookupItem{ucs2: 0xb16e, cp949: 0x86dd},
		lookupItem{ucs2: 0xb16f, cp949: 0x86de},
		lookupItem{ucs2: 0xb170, cp949: 0x86df},
		lookupItem{ucs2: 0xb171, cp949: 0x86e0},
		lookupItem{ucs2: 0xb172, cp949: 0x86e1},
		lookupItem{ucs2: 0xb173, cp949: 0x86e2},
		lookupItem{ucs2: 0xb174, cp949: 0x86e3},
		lookupItem{ucs2: 0xb175, cp949: 0x86e4},
		lookupItem{ucs2: 0xb176, cp949: 0x86e5},
		lookupItem{ucs2: 0xb177, cp949: 0x86e6},
		lookupItem{ucs2: 0xb178, cp949: 0xb3eb},
		lookupItem{ucs2: 0xb179, cp949: 0xb3ec},
		lookupItem{ucs2: 0xb17a, cp949: 0x86e7},
		lookupItem{ucs2: 0xb17b, cp949: 0x86e8},
		lookupItem{ucs2: 0xb17c, cp949: 0xb3ed},
		lookupItem{ucs2: 0xb17d, cp949: 0x86e9},
		lookupItem{ucs2: 0xb17e, cp949: 0x86ea},
		lookupItem{ucs2: 0xb17f, cp949: 0x86eb},
		lookupItem{ucs2: 0xb180, cp949: 0xb3ee},
		lookupItem{ucs2: 0xb181, cp949: 0x86ec},
		lookupItem{ucs2: 0xb182, cp949: 0xb3ef},
		lookupItem{ucs2: 0xb183, cp949: 0x86ed},
		lookupItem{ucs2: 0xb184, cp949: 0x86ee},
		lookupItem{ucs2: 0xb185, cp949: 0x86ef},
		lookupItem{ucs2: 0xb186, cp949: 0x86f0},
		lookupItem{ucs2: 0xb187, cp949: 0x86f1},
		lookupItem{ucs2: 0xb188, cp949: 0xb3f0},
		lookupItem{ucs2: 0xb189, cp949: 0xb3f1},
		lookupItem{ucs2: 0xb18a, cp949: 0x86f2},
		lookupItem{ucs2: 0xb18b, cp949: 0xb3f2},
		lookupItem{ucs2: 0xb18c, cp949: 0x86f3},
		lookupItem{ucs2: 0xb18d, cp949: 0xb3f3},
		lookupItem{ucs2: 0xb18e, cp949: 0x86f4},
		lookupItem{ucs2: 0xb18f, cp949: 0x86f5},
		lookupItem{ucs2: 0xb190, cp949: 0x86f6},
		lookupItem{ucs2: 0xb191, cp949: 0x86f7},
		lookupItem{ucs2: 0xb192, cp949: 0xb3f4},
		lookupItem{ucs2: 0xb193, cp949: 0xb3f5},
		lookupItem{ucs2: 0xb194, cp949: 0xb3f6},
		lookupItem{ucs2: 0xb195, cp949: 0x86f8},
		lookupItem{ucs2: 0xb196, cp949: 0x86f9},
		lookupItem{ucs2: 0xb197, cp949: 0x86fa},
		lookupItem{ucs2: 0xb198, cp949: 0xb3f7},
		lookupItem{ucs2: 0xb199, cp949: 0x86fb},
		lookupItem{ucs2: 0xb19a, cp949: 0x86fc},
		lookupItem{ucs2: 0xb19b, cp949: 0x86fd},
		lookupItem{ucs2: 0xb19c, cp949: 0xb3f8},
		lookupItem{ucs2: 0xb19d, cp949: 0x86fe},
		lookupItem{ucs2: 0xb19e, cp949: 0x8741},
		lookupItem{ucs2: 0xb19f, cp949: 0x8742},
		lookupItem{ucs2: 0xb1a0, cp949: 0x8743},
		lookupItem{ucs2: 0xb1a1, cp949: 0x8744},
		lookupItem{ucs2: 0xb1a2, cp949: 0x8745},
		lookupItem{ucs2: 0xb1a3, cp949: 0x8746},
		lookupItem{ucs2: 0xb1a4, cp949: 0x8747},
		lookupItem{ucs2: 0xb1a5, cp949: 0x8748},
		lookupItem{ucs2: 0xb1a6, cp949: 0x8749},
		lookupItem{ucs2: 0xb1a7, cp949: 0x874a},
		lookupItem{ucs2: 0xb1a8, cp949: 0xb3f9},
		lookupItem{ucs2: 0xb1a9, cp949: 0x874b},
		lookupItem{ucs2: 0xb1aa, cp949: 0x874c},
		lookupItem{ucs2: 0xb1ab, cp949: 0x874d},
		lookupItem{ucs2: 0xb1ac, cp949: 0x874e},
		lookupItem{ucs2: 0xb1ad, cp949: 0x874f},
		lookupItem{ucs2: 0xb1ae, cp949: 0x8750},
		lookupItem{ucs2: 0xb1af, cp949: 0x8751},
		lookupItem{ucs2: 0xb1b0, cp949: 0x8752},
		lookupItem{ucs2: 0xb1b1, cp949: 0x8753},
		lookupItem{ucs2: 0xb1b2, cp949: 0x8754},
		lookupItem{ucs2: 0xb1b3, cp949: 0x8755},
		lookupItem{ucs2: 0xb1b4, cp949: 0x8756},
		lookupItem{ucs2: 0xb1b5, cp949: 0x8757},
		lookupItem{ucs2: 0xb1b6, cp949: 0x8758},
		lookupItem{ucs2: 0xb1b7, cp949: 0x8759},
		lookupItem{ucs2: 0xb1b8, cp949: 0x875a},
		lookupItem{ucs2: 0xb1b9, cp949: 0x8761},
		lookupItem{ucs2: 0xb1ba, cp949: 0x8762},
		lookupItem{ucs2: 0xb1bb, cp949: 0x8763},
		lookupItem{ucs2: 0xb1bc, cp949: 0x8764},
		lookupItem{ucs2: 0xb1bd, cp949: 0x8765},
		lookupItem{ucs2: 0xb1be, cp949: 0x8766},
		lookupItem{ucs2: 0xb1bf, cp949: 0x8767},
		lookupItem{ucs2: 0xb1c0, cp949: 0x8768},
		lookupItem{ucs2: 0xb1c1, cp949: 0x8769},
		lookupItem{ucs2: 0xb1c2, cp949: 0x876a},
		lookupItem{ucs2: 0xb1c3, cp949: 0x876b},
		lookupItem{ucs2: 0xb1c4, cp949: 0x876c},
		lookupItem{ucs2: 0xb1c5, cp949: 0x876d},
		lookupItem{ucs2: 0xb1c6, cp949: 0x876e},
		lookupItem{ucs2: 0xb1c7, cp949: 0x876f},
		lookupItem{ucs2: 0xb1c8, cp949: 0x8770},
		lookupItem{ucs2: 0xb1c9, cp949: 0x8771},
		lookupItem{ucs2: 0xb1ca, cp949: 0x8772},
		lookupItem{ucs2: 0xb1cb, cp949: 0x8773},
".
Definition text_cp949_lookup_to_028 : string :=
"		lookupItem{ucs2: 0xb1cc, cp949: 0xb3fa},
		lookupItem{ucs2: 0xb1cd, cp949: 0x8774},
		lookupItem{ucs2: 0xb1ce, cp949: 0x8775},
		lookupItem{ucs2: 0xb1cf, cp949: 0x8776},
		lookupItem{ucs2: 0xb1d0, cp949: 0xb3fb},
		lookupItem{ucs2: 0xb1d1, cp949: 0x8777},
		lookupItem{ucs2: 0xb1d2, cp949: 0x8778},
		lookupItem{ucs2: 0xb1d3, cp949: 0x8779},
		lookupItem{ucs2: 0xb1d4, cp949: 0xb3fc},
		lookupItem{ucs2: 0xb1d5, cp949: 0x877a},
		lookupItem{ucs2: 0xb1d6, cp949: 0x8781},
		lookupItem{ucs2: 0xb1d7, cp949: 0x8782},
		lookupItem{ucs2: 0xb1d8, cp949: 0x8783},
		lookupItem{ucs2: 0xb1d9, cp949: 0x8784},
		lookupItem{ucs2: 0xb1da, cp949: 0x8785},
		lookupItem{ucs2: 0xb1db, cp949: 0x8786},
		lookupItem{ucs2: 0xb1dc, cp949: 0xb3fd},
		lookupItem{ucs2: 0xb1dd, cp949: 0xb3fe},
		lookupItem{ucs2: 0xb1de, cp949: 0x8787},
		lookupItem{ucs2: 0xb1df, cp949: 0xb4a1},
		lookupItem{ucs2: 0xb1e0, cp949: 0x8788},
		lookupItem{ucs2: 0xb1e1, cp949: 0x8789},
		lookupItem{ucs2: 0xb1e2, cp949: 0x878a},
		lookupItem{ucs2: 0xb1e3, cp949: 0x878b},
		lookupItem{ucs2: 0xb1e4, cp949: 0x878c},
		lookupItem{ucs2: 0xb1e5, cp949: 0x878d},
		lookupItem{ucs2: 0xb1e6, cp949: 0x878e},
		lookupItem{ucs2: 0xb1e7, cp949: 0x878f},
		lookupItem{ucs2: 0xb1e8, cp949: 0xb4a2},
		lookupItem{ucs2: 0xb1e9, cp949: 0xb4a3},
		lookupItem{ucs2: 0xb1ea, cp949: 0x8790},
		lookupItem{ucs2: 0xb1eb, cp949: 0x8791},
		lookupItem{ucs2: 0xb1ec, cp949: 0xb4a4},
		lookupItem{ucs2: 0xb1ed, cp949: 0x8792},
		lookupItem{ucs2: 0xb1ee, cp949: 0x8793},
		lookupItem{ucs2: 0xb1ef, cp949: 0x8794},
		lookupItem{ucs2: 0xb1f0, cp949: 0xb4a5},
		lookupItem{ucs2: 0xb1f1, cp949: 0x8795},
		lookupItem{ucs2: 0xb1f2, cp949: 0x8796},
		lookupItem{ucs2: 0xb1f3, cp949: 0x8797},
		lookupItem{ucs2: 0xb1f4, cp949: 0x8798},
		lookupItem{ucs2: 0xb1f5, cp949: 0x8799},
		lookupItem{ucs2: 0xb1f6, cp949: 0x879a},
		lookupItem{ucs2: 0xb1f7, cp949: 0x879b},
		lookupItem{ucs2: 0xb1f8, cp949: 0x879c},
		lookupItem{ucs2: 0xb1f9, cp949: 0xb4a6},
		lookupItem{ucs2: 0xb1fa, cp949: 0x879d},
		lookupItem{ucs2: 0xb1fb, cp949: 0xb4a7},
		lookupItem{ucs2: 0xb1fc, cp949: 0x879e},
		lookupItem{ucs2: 0xb1fd, cp949: 0xb4a8},
		lookupItem{ucs2: 0xb1fe, cp949: 0x879f},
		lookupItem{ucs2: 0xb1ff, cp949: 0x87a0},
		lookupItem{ucs2: 0xb200, cp949: 0x87a1},
		lookupItem{ucs2: 0xb201, cp949: 0x87a2},
		lookupItem{ucs2: 0xb202, cp949: 0x87a3},
		lookupItem{ucs2: 0xb203, cp949: 0x87a4},
		lookupItem{ucs2: 0xb204, cp949: 0xb4a9},
		lookupItem{ucs2: 0xb205, cp949: 0xb4aa},
		lookupItem{ucs2: 0xb206, cp949: 0x87a5},
		lookupItem{ucs2: 0xb207, cp949: 0x87a6},
		lookupItem{ucs2: 0xb208, cp949: 0xb4ab},
		lookupItem{ucs2: 0xb209, cp949: 0x87a7},
		lookupItem{ucs2: 0xb20a, cp949: 0x87a8},
		lookupItem{ucs2: 0xb20b, cp949: 0xb4ac},
		lookupItem{ucs2: 0xb20c, cp949: 0xb4ad},
		lookupItem{ucs2: 0xb20d, cp949: 0x87a9},
		lookupItem{ucs2: 0xb20e, cp949: 0x87aa},
		lookupItem{ucs2: 0xb20f, cp949: 0x87ab},
		lookupItem{ucs2: 0xb210, cp949: 0x87ac},
		lookupItem{ucs2: 0xb211, cp949: 0x87ad},
		lookupItem{ucs2: 0xb212, cp949: 0x87ae},
		lookupItem{ucs2: 0xb213, cp949: 0x87af},
		lookupItem{ucs2: 0xb214, cp949: 0xb4ae},
		lookupItem{ucs2: 0xb215, cp949: 0xb4af},
		lookupItem{ucs2: 0xb216, cp949: 0x87b0},
		lookupItem{ucs2: 0xb217, cp949: 0xb4b0},
		lookupItem{ucs2: 0xb218, cp949: 0x87b1},
		lookupItem{ucs2: 0xb219, cp949: 0xb4b1},
		lookupItem{ucs2: 0xb21a, cp949: 0x87b2},
		lookupItem{ucs2: 0xb21b, cp949: 0x87b3},
		lookupItem{ucs2: 0xb21c, cp949: 0x87b4},
		lookupItem{ucs2: 0xb21d, cp949: 0x87b5},
		lookupItem{ucs2: 0xb21e, cp949: 0x87b6},
		lookupItem{ucs2: 0xb21f, cp949: 0x87b7},
		lookupItem{ucs2: 0xb220, cp949: 0xb4b2},
		lookupItem{ucs2: 0xb221, cp949: 0x87b8},
		lookupItem{ucs2: 0xb222, cp949: 0x87b9},
		lookupItem{ucs2: 0xb223, cp949: 0x87ba},
		lookupItem{ucs2: 0xb224, cp949: 0x87bb},
		lookupItem{ucs2: 0xb225, cp949: 0x87bc},
		lookupItem{ucs2: 0xb226, cp949: 0x87bd},
		lookupItem{ucs2: 0xb227, cp949: 0x87be},
		lookupItem{ucs2: 0xb228, cp949: 0x87bf},
		lookupItem{ucs2: 0xb229, cp949: 0x87c0},
		lookupItem{ucs2: 0xb22a, cp949: 0x87c1},
		lookupItem{ucs2: 0xb22b, cp949: 0x87c2},
		lookupItem{ucs2: 0xb22c, cp949: 0x87c3},
		lookupItem{ucs2: 0xb22d, cp949: 0x87c4},
		lookupItem{ucs2: 0xb22e, cp949: 0x87c5},
		lookupItem{ucs2: 0xb22f, cp949: 0x87c6},
		lookupItem{ucs2: 0xb230, cp949: 0x87c7},
		lookupItem{ucs2: 0xb231, cp949: 0x87c8},
		lookupItem{ucs2: 0xb232, cp949: 0x87c9},
		lookupItem{ucs2: 0xb233, cp949: 0x87ca},
		lookupItem{ucs2: 0xb234, cp949: 0xb4b3},
		lookupItem{ucs2: 0xb235, cp949: 0x87cb},
		lookupItem{ucs2: 0xb236, cp949: 0x87cc},
		lookupItem{ucs2: 0xb237, cp949: 0x87cd},
		lookupItem{ucs2: 0xb238, cp949: 0x87ce},
		lookupItem{ucs2: 0xb239, cp949: 0x87cf},
		lookupItem{ucs2: 0xb23a, cp949: 0x87d0},
		lookupItem{ucs2: 0xb23b, cp949: 0x87d1},
		lookupItem{ucs2: 0xb23c, cp949: 0xb4b4},
		lookupItem{ucs2: 0xb23d, cp949: 0x87d2},
		lookupItem{ucs2: 0xb23e, cp949: 0x87d3},
		lookupItem{ucs2: 0xb23f, cp949: 0x87d4},
		lookupItem{ucs2: 0xb240, cp949: 0x87d5},
		lookupItem{ucs2: 0xb241, cp949: 0x87d6},
		lookupItem{ucs2: 0xb242, cp949: 0x87d7},
		lookupItem{ucs2: 0xb243, cp949: 0x87d8},
		lookupItem{ucs2: 0xb244, cp949: 0x87d9},
		lookupItem{ucs2: 0xb245, cp949: 0x87da},
		lookupItem{ucs2: 0xb246, cp949: 0x87db},
		lookupItem{ucs2: 0xb247, cp949: 0x87dc},
		lookupItem{ucs2: 0xb248, cp949: 0x87dd},
		lookupItem{ucs2: 0xb249, cp949: 0x87de},
		lookupItem{ucs2: 0xb24a, cp949: 0x87df},
		lookupItem{ucs2: 0xb24b, cp949: 0x87e0},
		lookupItem{ucs2: 0xb24c, cp949: 0x87e1},
		lookupItem{ucs2: 0xb24d, cp949: 0x87e2},
		lookupItem{ucs2: 0xb24e, cp949: 0x87e3},
		lookupItem{ucs2: 0xb24f, cp949: 0x87e4},
		lookupItem{ucs2: 0xb250, cp949: 0x87e5},
		lookupItem{ucs2: 0xb251, cp949: 0x87e6},
		lookupItem{ucs2: 0xb252, cp949: 0x87e7},
		lookupItem{ucs2: 0xb253, cp949: 0x87e8},
		lookupItem{ucs2: 0xb254, cp949: 0x87e9},
		lookupItem{ucs2: 0xb255, cp949: 0x87ea},
		lookupItem{ucs2: 0xb256, cp949: 0x87eb},
		lookupItem{ucs2: 0xb257, cp949: 0x87ec},
		lookupItem{ucs2: 0xb258, cp949: 0xb4b5},
		lookupItem{ucs2: 0xb259, cp949: 0x87ed},
		lookupItem{ucs2: 0xb25a, cp949: 0x87ee},
		lookupItem{ucs2: 0xb25b, cp949: 0x87ef},
		lookupItem{ucs2: 0xb25c, cp949: 0xb4b6},
		lookupItem{ucs2: 0xb25d, cp949: 0x87f0},
		lookupItem{ucs2: 0xb25e, cp949: 0x87f1},
		lookupItem{ucs2: 0xb25f, cp949: 0x87f2},
		lookupItem{ucs2: 0xb260, cp949: 0xb4b7},
		lookupItem{ucs2: 0xb261, cp949: 0x87f3},
		lookupItem{ucs2: 0xb262, cp949: 0x87f4},
		lookupItem{ucs2: 0xb263, cp949: 0x87f5},
		lookupItem{ucs2: 0xb264, cp949: 0x87f6},
		lookupItem{ucs2: 0xb265, cp949: 0x87f7},
		lookupItem{ucs2: 0xb266, cp949: 0x87f8},
		lookupItem{ucs2: 0xb267, cp949: 0x87f9},
		lookupItem{ucs2: 0xb268, cp949: 0xb4b8},
		lookupItem{ucs2: 0xb269, cp949: 0xb4b9},
		lookupItem{ucs2: 0xb26a, cp949: 0x87fa},
		lookupItem{ucs2: 0xb26b, cp949: 0x87fb},
		lookupItem{ucs2: 0xb26c, cp949: 0x87fc},
		lookupItem{ucs2: 0xb26d, cp949: 0x87fd},
		lookupItem{ucs2: 0xb26e, cp949: 0x87fe},
		lookupItem{ucs2: 0xb26f, cp949: 0x8841},
		lookupItem{ucs2: 0xb270, cp949: 0x8842},
		lookupItem{ucs2: 0xb271, cp949: 0x8843},
		lookupItem{ucs2: 0xb272, cp949: 0x8844},
		lookupItem{ucs2: 0xb273, cp949: 0x8845},
		lookupItem{ucs2: 0xb274, cp949: 0xb4ba},
		lookupItem{ucs2: 0xb275, cp949: 0xb4bb},
		lookupItem{ucs2: 0xb276, cp949: 0x8846},
		lookupItem{ucs2: 0xb277, cp949: 0x8847},
		lookupItem{ucs2: 0xb278, cp949: 0x8848},
		lookupItem{ucs2: 0xb279, cp949: 0x8849},
		lookupItem{ucs2: 0xb27a, cp949: 0x884a},
		lookupItem{ucs2: 0xb27b, cp949: 0x884b},
		lookupItem{ucs2: 0xb27c, cp949: 0xb4bc},
		lookupItem{ucs2: 0xb27d, cp949: 0x884c},
		lookupItem{ucs2: 0xb27e, cp949: 0x884d},
		lookupItem{ucs2: 0xb27f, cp949: 0x884e},
		lookupItem{ucs2: 0xb280, cp949: 0x884f},
		lookupItem{ucs2: 0xb281, cp949: 0x8850},
		lookupItem{ucs2: 0xb282, cp949: 0x8851},
		lookupItem{ucs2: 0xb283, cp949: 0x8852},
		lookupItem{ucs2: 0xb284, cp949: 0xb4bd},
		lookupItem{ucs2: 0xb285, cp949: 0xb4be},
		lookupItem{ucs2: 0xb286, cp949: 0x8853},
		lookupItem{ucs2: 0xb287, cp949: 0x8854},
		lookupItem{ucs2: 0xb288, cp949: 0x8855},
		lookupItem{ucs2: 0xb289, cp949: 0xb4bf},
		lookupItem{ucs2: 0xb28a, cp949: 0x8856},
		lookupItem{ucs2: 0xb28b, cp949: 0x8857},
		lookupItem{ucs2: 0xb28c, cp949: 0x8858},
		lookupItem{ucs2: 0xb28d, cp949: 0x8859},
		lookupItem{ucs2: 0xb28e, cp949: 0x885a},
		lookupItem{ucs2: 0xb28f, cp949: 0x8861},
		lookupItem{ucs2: 0xb290, cp949: 0xb4c0},
		lookupItem{ucs2: 0xb291, cp949: 0xb4c1},
		lookupItem{ucs2: 0xb292, cp949: 0x8862},
		lookupItem{ucs2: 0xb293, cp949: 0x8863},
		lookupItem{ucs2: 0xb294, cp949: 0xb4c2},
		lookupItem{ucs2: 0xb295, cp949: 0x8864},
		lookupItem{ucs2: 0xb296, cp949: 0x8865},
		lookupItem{ucs2: 0xb297, cp949: 0x8866},
		lookupItem{ucs2: 0xb298, cp949: 0xb4c3},
		lookupItem{ucs2: 0xb299, cp949: 0xb4c4},
		lookupItem{ucs2: 0xb29a, cp949: 0xb4c5},
		lookupItem{ucs2: 0xb29b, cp949: 0x8867},
		lookupItem{ucs2: 0xb29c, cp949: 0x8868},
		lookupItem{ucs2: 0xb29d, cp949: 0x8869},
		lookupItem{ucs2: 0xb29e, cp949: 0x886a},
		lookupItem{ucs2: 0xb29f, cp949: 0x886b},
		lookupItem{ucs2: 0xb2a0, cp949: 0xb4c6},
		lookupItem{ucs2: 0xb2a1, cp949: 0xb4c7},
		lookupItem{ucs2: 0xb2a2, cp949: 0x886c},
		lookupItem{ucs2: 0xb2a3, cp949: 0xb4c8},
		lookupItem{ucs2: 0xb2a4, cp949: 0x886d},
		lookupItem{ucs2: 0xb2a5, cp949: 0xb4c9},
		lookupItem{ucs2: 0xb2a6, cp949: 0xb4ca},
		lookupItem{ucs2: 0xb2a7, cp949: 0x886e},
		lookupItem{ucs2: 0xb2a8, cp949: 0x886f},
		lookupItem{ucs2: 0xb2a9, cp949: 0x8870},
		lookupItem{ucs2: 0xb2aa, cp949: 0xb4cb},
		lookupItem{ucs2: 0xb2ab, cp949: 0x8871},
		lookupItem{ucs2: 0xb2ac, cp949: 0xb4cc},
		lookupItem{ucs2: 0xb2ad, cp949: 0x8872},
		lookupItem{ucs2: 0xb2ae, cp949: 0x8873},
		lookupItem{ucs2: 0xb2af, cp949: 0x8874},
		lookupItem{ucs2: 0xb2b0, cp949: 0xb4cd},
		lookupItem{ucs2: 0xb2b1, cp949: 0x8875},
		lookupItem{ucs2: 0xb2b2, cp949: 0x8876},
		lookupItem{ucs2: 0xb2b3, cp949: 0x8877},
		lookupItem{ucs2: 0xb2b4, cp949: 0xb4ce},
		lookupItem{ucs2: 0xb2b5, cp949: 0x8878},
		lookupItem{ucs2: 0xb2b6, cp949: 0x8879},
		lookupItem{ucs2: 0xb2b7, cp949: 0x887a},
		lookupItem{ucs2: 0xb2b8, cp949: 0x8881},
		lookupItem{ucs2: 0xb2b9, cp949: 0x8882},
		lookupItem{ucs2: 0xb2ba, cp949: 0x8883},
		lookupItem{ucs2: 0xb2bb, cp949: 0x8884},
		lookupItem{ucs2: 0xb2bc, cp949: 0x8885},
		lookupItem{ucs2: 0xb2bd, cp949: 0x8886},
		lookupItem{ucs2: 0xb2be, cp949: 0x8887},
		lookupItem{ucs2: 0xb2bf, cp949: 0x8888},
		lookupItem{ucs2: 0xb2c0, cp949: 0x8889},
		lookupItem{ucs2: 0xb2c1, cp949: 0x888a},
		lookupItem{ucs2: 0xb2c2, cp949: 0x888b},
		lookupItem{ucs2: 0xb2c3, cp949: 0x888c},
		lookupItem{ucs2: 0xb2c4, cp949: 0x888d},
		lookupItem{ucs2: 0xb2c5, cp949: 0x888e},
".
Definition text_cp949_lookup_to_029 : string :=
"		lookupItem{ucs2: 0xb2c6, cp949: 0x888f},
		lookupItem{ucs2: 0xb2c7, cp949: 0x8890},
		lookupItem{ucs2: 0xb2c8, cp949: 0xb4cf},
		lookupItem{ucs2: 0xb2c9, cp949: 0xb4d0},
		lookupItem{ucs2: 0xb2ca, cp949: 0x8891},
		lookupItem{ucs2: 0xb2cb, cp949: 0x8892},
		lookupItem{ucs2: 0xb2cc, cp949: 0xb4d1},
		lookupItem{ucs2: 0xb2cd, cp949: 0x8893},
		lookupItem{ucs2: 0xb2ce, cp949: 0x8894},
		lookupItem{ucs2: 0xb2cf, cp949: 0x8895},
		lookupItem{ucs2: 0xb2d0, cp949: 0xb4d2},
		lookupItem{ucs2: 0xb2d1, cp949: 0x8896},
		lookupItem{ucs2: 0xb2d2, cp949: 0xb4d3},
		lookupItem{ucs2: 0xb2d3, cp949: 0x8897},
		lookupItem{ucs2: 0xb2d4, cp949: 0x8898},
		lookupItem{ucs2: 0xb2d5, cp949: 0x8899},
		lookupItem{ucs2: 0xb2d6, cp949: 0x889a},
		lookupItem{ucs2: 0xb2d7, cp949: 0x889b},
		lookupItem{ucs2: 0xb2d8, cp949: 0xb4d4},
		lookupItem{ucs2: 0xb2d9, cp949: 0xb4d5},
		lookupItem{ucs2: 0xb2da, cp949: 0x889c},
		lookupItem{ucs2: 0xb2db, cp949: 0xb4d6},
		lookupItem{ucs2: 0xb2dc, cp949: 0x889d},
		lookupItem{ucs2: 0xb2dd, cp949: 0xb4d7},
		lookupItem{ucs2: 0xb2de, cp949: 0x889e},
		lookupItem{ucs2: 0xb2df, cp949: 0x889f},
		lookupItem{ucs2: 0xb2e0, cp949: 0x88a0},
		lookupItem{ucs2: 0xb2e1, cp949: 0x88a1},
		lookupItem{ucs2: 0xb2e2, cp949: 0xb4d8},
		lookupItem{ucs2: 0xb2e3, cp949: 0x88a2},
		lookupItem{ucs2: 0xb2e4, cp949: 0xb4d9},
		lookupItem{ucs2: 0xb2e5, cp949: 0xb4da},
		lookupItem{ucs2: 0xb2e6, cp949: 0xb4db},
		lookupItem{ucs2: 0xb2e7, cp949: 0x88a3},
		lookupItem{ucs2: 0xb2e8, cp949: 0xb4dc},
		lookupItem{ucs2: 0xb2e9, cp949: 0x88a4},
		lookupItem{ucs2: 0xb2ea, cp949: 0x88a5},
		lookupItem{ucs2: 0xb2eb, cp949: 0xb4dd},
		lookupItem{ucs2: 0xb2ec, cp949: 0xb4de},
		lookupItem{ucs2: 0xb2ed, cp949: 0xb4df},
		lookupItem{ucs2: 0xb2ee, cp949: 0xb4e0},
		lookupItem{ucs2: 0xb2ef, cp949: 0xb4e1},
		lookupItem{ucs2: 0xb2f0, cp949: 0x88a6},
		lookupItem{ucs2: 0xb2f1, cp949: 0x88a7},
		lookupItem{ucs2: 0xb2f2, cp949: 0x88a8},
		lookupItem{ucs2: 0xb2f3, cp949: 0xb4e2},
		lookupItem{ucs2: 0xb2f4, cp949: 0xb4e3},
		lookupItem{ucs2: 0xb2f5, cp949: 0xb4e4},
		lookupItem{ucs2: 0xb2f6, cp949: 0x88a9},
		lookupItem{ucs2: 0xb2f7, cp949: 0xb4e5},
		lookupItem{ucs2: 0xb2f8, cp949: 0xb4e6},
		lookupItem{ucs2: 0xb2f9, cp949: 0xb4e7},
		lookupItem{ucs2: 0xb2fa, cp949: 0xb4e8},
		lookupItem{ucs2: 0xb2fb, cp949: 0xb4e9},
		lookupItem{ucs2: 0xb2fc, cp949: 0x88aa},
		lookupItem{ucs2: 0xb2fd, cp949: 0x88ab},
		lookupItem{ucs2: 0xb2fe, cp949: 0x88ac},
		lookupItem{ucs2: 0xb2ff, cp949: 0xb4ea},
		lookupItem{ucs2: 0xb300, cp949: 0xb4eb},
		lookupItem{ucs2: 0xb301, cp949: 0xb4ec},
		lookupItem{ucs2: 0xb302, cp949: 0x88ad},
		lookupItem{ucs2: 0xb303, cp949: 0x88ae},
		lookupItem{ucs2: 0xb304, cp949: 0xb4ed},
		lookupItem{ucs2: 0xb305, cp949: 0x88af},
		lookupItem{ucs2: 0xb306, cp949: 0x88b0},
		lookupItem{ucs2: 0xb307, cp949: 0x88b1},
		lookupItem{ucs2: 0xb308, cp949: 0xb4ee},
		lookupItem{ucs2: 0xb309, cp949: 0x88b2},
		lookupItem{ucs2: 0xb30a, cp949: 0x88b3},
		lookupItem{ucs2: 0xb30b, cp949: 0x88b4},
		lookupItem{ucs2: 0xb30c, cp949: 0x88b5},
		lookupItem{ucs2: 0xb30d, cp949: 0x88b6},
		lookupItem{ucs2: 0xb30e, cp949: 0x88b7},
		lookupItem{ucs2: 0xb30f, cp949: 0x88b8},
		lookupItem{ucs2: 0xb310, cp949: 0xb4ef},
		lookupItem{ucs2: 0xb311, cp949: 0xb4f0},
		lookupItem{ucs2: 0xb312, cp949: 0x88b9},
		lookupItem{ucs2: 0xb313, cp949: 0xb4f1},
		lookupItem{ucs2: 0xb314, cp949: 0xb4f2},
		lookupItem{ucs2: 0xb315, cp949: 0xb4f3},
		lookupItem{ucs2: 0xb316, cp949: 0x88ba},
		lookupItem{ucs2: 0xb317, cp949: 0x88bb},
		lookupItem{ucs2: 0xb318, cp949: 0x88bc},
		lookupItem{ucs2: 0xb319, cp949: 0x88bd},
		lookupItem{ucs2: 0xb31a, cp949: 0x88be},
		lookupItem{ucs2: 0xb31b, cp949: 0x88bf},
		lookupItem{ucs2: 0xb31c, cp949: 0xb4f4},
		lookupItem{ucs2: 0xb31d, cp949: 0x88c0},
		lookupItem{ucs2: 0xb31e, cp949: 0x88c1},
		lookupItem{ucs2: 0xb31f, cp949: 0x88c2},
		lookupItem{ucs2: 0xb320, cp949: 0x88c3},
		lookupItem{ucs2: 0xb321, cp949: 0x88c4},
		lookupItem{ucs2: 0xb322, cp949: 0x88c5},
		lookupItem{ucs2: 0xb323, cp949: 0x88c6},
		lookupItem{ucs2: 0xb324, cp949: 0x88c7},
		lookupItem{ucs2: 0xb325, cp949: 0x88c8},
		lookupItem{ucs2: 0xb326, cp949: 0x88c9},
		lookupItem{ucs2: 0xb327, cp949: 0x88ca},
		lookupItem{ucs2: 0xb328, cp949: 0x88cb},
		lookupItem{ucs2: 0xb329, cp949: 0x88cc},
		lookupItem{ucs2: 0xb32a, cp949: 0x88cd},
		lookupItem{ucs2: 0xb32b, cp949: 0x88ce},
		lookupItem{ucs2: 0xb32c, cp949: 0x88cf},
		lookupItem{ucs2: 0xb32d, cp949: 0x88d0},
		lookupItem{ucs2: 0xb32e, cp949: 0x88d1},
		lookupItem{ucs2: 0xb32f, cp949: 0x88d2},
		lookupItem{ucs2: 0xb330, cp949: 0x88d3},
		lookupItem{ucs2: 0xb331, cp949: 0x88d4},
		lookupItem{ucs2: 0xb332, cp949: 0x88d5},
		lookupItem{ucs2: 0xb333, cp949: 0x88d6},
		lookupItem{ucs2: 0xb334, cp949: 0x88d7},
		lookupItem{ucs2: 0xb335, cp949: 0x88d8},
		lookupItem{ucs2: 0xb336, cp949: 0x88d9},
		lookupItem{ucs2: 0xb337, cp949: 0x88da},
		lookupItem{ucs2: 0xb338, cp949: 0x88db},
		lookupItem{ucs2: 0xb339, cp949: 0x88dc},
		lookupItem{ucs2: 0xb33a, cp949: 0x88dd},
		lookupItem{ucs2: 0xb33b, cp949: 0x88de},
		lookupItem{ucs2: 0xb33c, cp949: 0x88df},
		lookupItem{ucs2: 0xb33d, cp949: 0x88e0},
		lookupItem{ucs2: 0xb33e, cp949: 0x88e1},
		lookupItem{ucs2: 0xb33f, cp949: 0x88e2},
		lookupItem{ucs2: 0xb340, cp949: 0x88e3},
		lookupItem{ucs2: 0xb341, cp949: 0x88e4},
		lookupItem{ucs2: 0xb342, cp949: 0x88e5},
		lookupItem{ucs2: 0xb343, cp949: 0x88e6},
		lookupItem{ucs2: 0xb344, cp949: 0x88e7},
		lookupItem{ucs2: 0xb345, cp949: 0x88e8},
		lookupItem{ucs2: 0xb346, cp949: 0x88e9},
		lookupItem{ucs2: 0xb347, cp949: 0x88ea},
		lookupItem{ucs2: 0xb348, cp949: 0x88eb},
		lookupItem{ucs2: 0xb349, cp949: 0x88ec},
		lookupItem{ucs2: 0xb34a, cp949: 0x88ed},
		lookupItem{ucs2: 0xb34b, cp949: 0x88ee},
		lookupItem{ucs2: 0xb34c, cp949: 0x88ef},
		lookupItem{ucs2: 0xb34d, cp949: 0x88f0},
		lookupItem{ucs2: 0xb34e, cp949: 0x88f1},
		lookupItem{ucs2: 0xb34f, cp949: 0x88f2},
		lookupItem{ucs2: 0xb350, cp949: 0x88f3},
		lookupItem{ucs2: 0xb351, cp949: 0x88f4},
		lookupItem{ucs2: 0xb352, cp949: 0x88f5},
		lookupItem{ucs2: 0xb353, cp949: 0x88f6},
		lookupItem{ucs2: 0xb354, cp949: 0xb4f5},
		lookupItem{ucs2: 0xb355, cp949: 0xb4f6},
		lookupItem{ucs2: 0xb356, cp949: 0xb4f7},
		lookupItem{ucs2: 0xb357, cp949: 0x88f7},
		lookupItem{ucs2: 0xb358, cp949: 0xb4f8},
		lookupItem{ucs2: 0xb359, cp949: 0x88f8},
		lookupItem{ucs2: 0xb35a, cp949: 0x88f9},
		lookupItem{ucs2: 0xb35b, cp949: 0xb4f9},
		lookupItem{ucs2: 0xb35c, cp949: 0xb4fa},
		lookupItem{ucs2: 0xb35d, cp949: 0x88fa},
		lookupItem{ucs2: 0xb35e, cp949: 0xb4fb},
		lookupItem{ucs2: 0xb35f, cp949: 0xb4fc},
		lookupItem{ucs2: 0xb360, cp949: 0x88fb},
		lookupItem{ucs2: 0xb361, cp949: 0x88fc},
		lookupItem{ucs2: 0xb362, cp949: 0x88fd},
		lookupItem{ucs2: 0xb363, cp949: 0x88fe},
		lookupItem{ucs2: 0xb364, cp949: 0xb4fd},
		lookupItem{ucs2: 0xb365, cp949: 0xb4fe},
		lookupItem{ucs2: 0xb366, cp949: 0x8941},
		lookupItem{ucs2: 0xb367, cp949: 0xb5a1},
		lookupItem{ucs2: 0xb368, cp949: 0x8942},
		lookupItem{ucs2: 0xb369, cp949: 0xb5a2},
		lookupItem{ucs2: 0xb36a, cp949: 0x8943},
		lookupItem{ucs2: 0xb36b, cp949: 0xb5a3},
		lookupItem{ucs2: 0xb36c, cp949: 0x8944},
		lookupItem{ucs2: 0xb36d, cp949: 0x8945},
		lookupItem{ucs2: 0xb36e, cp949: 0xb5a4},
		lookupItem{ucs2: 0xb36f, cp949: 0x8946},
		lookupItem{ucs2: 0xb370, cp949: 0xb5a5},
		lookupItem{ucs2: 0xb371, cp949: 0xb5a6},
		lookupItem{ucs2: 0xb372, cp949: 0x8947},
		lookupItem{ucs2: 0xb373, cp949: 0x8948},
		lookupItem{ucs2: 0xb374, cp949: 0xb5a7},
		lookupItem{ucs2: 0xb375, cp949: 0x8949},
		lookupItem{ucs2: 0xb376, cp949: 0x894a},
		lookupItem{ucs2: 0xb377, cp949: 0x894b},
		lookupItem{ucs2: 0xb378, cp949: 0xb5a8},
		lookupItem{ucs2: 0xb379, cp949: 0x894c},
		lookupItem{ucs2: 0xb37a, cp949: 0x894d},
		lookupItem{ucs2: 0xb37b, cp949: 0x894e},
		lookupItem{ucs2: 0xb37c, cp949: 0x894f},
		lookupItem{ucs2: 0xb37d, cp949: 0x8950},
		lookupItem{ucs2: 0xb37e, cp949: 0x8951},
		lookupItem{ucs2: 0xb37f, cp949: 0x8952},
		lookupItem{ucs2: 0xb380, cp949: 0xb5a9},
		lookupItem{ucs2: 0xb381, cp949: 0xb5aa},
		lookupItem{ucs2: 0xb382, cp949: 0x8953},
		lookupItem{ucs2: 0xb383, cp949: 0xb5ab},
		lookupItem{ucs2: 0xb384, cp949: 0xb5ac},
		lookupItem{ucs2: 0xb385, cp949: 0xb5ad},
		lookupItem{ucs2: 0xb386, cp949: 0x8954},
		lookupItem{ucs2: 0xb387, cp949: 0x8955},
		lookupItem{ucs2: 0xb388, cp949: 0x8956},
		lookupItem{ucs2: 0xb389, cp949: 0x8957},
		lookupItem{ucs2: 0xb38a, cp949: 0x8958},
		lookupItem{ucs2: 0xb38b, cp949: 0x8959},
		lookupItem{ucs2: 0xb38c, cp949: 0xb5ae},
		lookupItem{ucs2: 0xb38d, cp949: 0x895a},
		lookupItem{ucs2: 0xb38e, cp949: 0x8961},
		lookupItem{ucs2: 0xb38f, cp949: 0x8962},
		lookupItem{ucs2: 0xb390, cp949: 0xb5af},
		lookupItem{ucs2: 0xb391, cp949: 0x8963},
		lookupItem{ucs2: 0xb392, cp949: 0x8964},
		lookupItem{ucs2: 0xb393, cp949: 0x8965},
		lookupItem{ucs2: 0xb394, cp949: 0xb5b0},
		lookupItem{ucs2: 0xb395, cp949: 0x8966},
		lookupItem{ucs2: 0xb396, cp949: 0x8967},
		lookupItem{ucs2: 0xb397, cp949: 0x8968},
		lookupItem{ucs2: 0xb398, cp949: 0x8969},
		lookupItem{ucs2: 0xb399, cp949: 0x896a},
		lookupItem{ucs2: 0xb39a, cp949: 0x896b},
		lookupItem{ucs2: 0xb39b, cp949: 0x896c},
		lookupItem{ucs2: 0xb39c, cp949: 0x896d},
		lookupItem{ucs2: 0xb39d, cp949: 0x896e},
		lookupItem{ucs2: 0xb39e, cp949: 0x896f},
		lookupItem{ucs2: 0xb39f, cp949: 0x8970},
		lookupItem{ucs2: 0xb3a0, cp949: 0xb5b1},
		lookupItem{ucs2: 0xb3a1, cp949: 0xb5b2},
		lookupItem{ucs2: 0xb3a2, cp949: 0x8971},
		lookupItem{ucs2: 0xb3a3, cp949: 0x8972},
		lookupItem{ucs2: 0xb3a4, cp949: 0x8973},
		lookupItem{ucs2: 0xb3a5, cp949: 0x8974},
		lookupItem{ucs2: 0xb3a6, cp949: 0x8975},
		lookupItem{ucs2: 0xb3a7, cp949: 0x8976},
		lookupItem{ucs2: 0xb3a8, cp949: 0xb5b3},
		lookupItem{ucs2: 0xb3a9, cp949: 0x8977},
		lookupItem{ucs2: 0xb3aa, cp949: 0x8978},
		lookupItem{ucs2: 0xb3ab, cp949: 0x8979},
		lookupItem{ucs2: 0xb3ac, cp949: 0xb5b4},
		lookupItem{ucs2: 0xb3ad, cp949: 0x897a},
		lookupItem{ucs2: 0xb3ae, cp949: 0x8981},
		lookupItem{ucs2: 0xb3af, cp949: 0x8982},
		lookupItem{ucs2: 0xb3b0, cp949: 0x8983},
		lookupItem{ucs2: 0xb3b1, cp949: 0x8984},
		lookupItem{ucs2: 0xb3b2, cp949: 0x8985},
		lookupItem{ucs2: 0xb3b3, cp949: 0x8986},
		lookupItem{ucs2: 0xb3b4, cp949: 0x8987},
		lookupItem{ucs2: 0xb3b5, cp949: 0x8988},
		lookupItem{ucs2: 0xb3b6, cp949: 0x8989},
		lookupItem{ucs2: 0xb3b7, cp949: 0x898a},
		lookupItem{ucs2: 0xb3b8, cp949: 0x898b},
		lookupItem{ucs2: 0xb3b9, cp949: 0x898c},
		lookupItem{ucs2: 0xb3ba, cp949: 0x898d},
		lookupItem{ucs2: 0xb3bb, cp949: 0x898e},
		lookupItem{ucs2: 0xb3bc, cp949: 0x898f},
		lookupItem{ucs2: 0xb3bd, cp949: 0x8990},
		lookupItem{ucs2: 0xb3be, cp949: 0x8991},
		lookupItem{ucs2: 0xb3bf, cp949: 0x8992},
".
Definition text_cp949_lookup_to_030 : string :=
"		lookupItem{ucs2: 0xb3c0, cp949: 0x8993},
		lookupItem{ucs2: 0xb3c1, cp949: 0x8994},
		lookupItem{ucs2: 0xb3c2, cp949: 0x8995},
		lookupItem{ucs2: 0xb3c3, cp949: 0x8996},
		lookupItem{ucs2: 0xb3c4, cp949: 0xb5b5},
		lookupItem{ucs2: 0xb3c5, cp949: 0xb5b6},
		lookupItem{ucs2: 0xb3c6, cp949: 0x8997},
		lookupItem{ucs2: 0xb3c7, cp949: 0x8998},
		lookupItem{ucs2: 0xb3c8, cp949: 0xb5b7},
		lookupItem{ucs2: 0xb3c9, cp949: 0x8999},
		lookupItem{ucs2: 0xb3ca, cp949: 0x899a},
		lookupItem{ucs2: 0xb3cb, cp949: 0xb5b8},
		lookupItem{ucs2: 0xb3cc, cp949: 0xb5b9},
		lookupItem{ucs2: 0xb3cd, cp949: 0x899b},
		lookupItem{ucs2: 0xb3ce, cp949: 0xb5ba},
		lookupItem{ucs2: 0xb3cf, cp949: 0x899c},
		lookupItem{ucs2: 0xb3d0, cp949: 0xb5bb},
		lookupItem{ucs2: 0xb3d1, cp949: 0x899d},
		lookupItem{ucs2: 0xb3d2, cp949: 0x899e},
		lookupItem{ucs2: 0xb3d3, cp949: 0x899f},
		lookupItem{ucs2: 0xb3d4, cp949: 0xb5bc},
		lookupItem{ucs2: 0xb3d5, cp949: 0xb5bd},
		lookupItem{ucs2: 0xb3d6, cp949: 0x89a0},
		lookupItem{ucs2: 0xb3d7, cp949: 0xb5be},
		lookupItem{ucs2: 0xb3d8, cp949: 0x89a1},
		lookupItem{ucs2: 0xb3d9, cp949: 0xb5bf},
		lookupItem{ucs2: 0xb3da, cp949: 0x89a2},
		lookupItem{ucs2: 0xb3db, cp949: 0xb5c0},
		lookupItem{ucs2: 0xb3dc, cp949: 0x89a3},
		lookupItem{ucs2: 0xb3dd, cp949: 0xb5c1},
		lookupItem{ucs2: 0xb3de, cp949: 0x89a4},
		lookupItem{ucs2: 0xb3df, cp949: 0x89a5},
		lookupItem{ucs2: 0xb3e0, cp949: 0xb5c2},
		lookupItem{ucs2: 0xb3e1, cp949: 0x89a6},
		lookupItem{ucs2: 0xb3e2, cp949: 0x89a7},
		lookupItem{ucs2: 0xb3e3, cp949: 0x89a8},
		lookupItem{ucs2: 0xb3e4, cp949: 0xb5c3},
		lookupItem{ucs2: 0xb3e5, cp949: 0x89a9},
		lookupItem{ucs2: 0xb3e6, cp949: 0x89aa},
		lookupItem{ucs2: 0xb3e7, cp949: 0x89ab},
		lookupItem{ucs2: 0xb3e8, cp949: 0xb5c4},
		lookupItem{ucs2: 0xb3e9, cp949: 0x89ac},
		lookupItem{ucs2: 0xb3ea, cp949: 0x89ad},
		lookupItem{ucs2: 0xb3eb, cp949: 0x89ae},
		lookupItem{ucs2: 0xb3ec, cp949: 0x89af},
		lookupItem{ucs2: 0xb3ed, cp949: 0x89b0},
		lookupItem{ucs2: 0xb3ee, cp949: 0x89b1},
		lookupItem{ucs2: 0xb3ef, cp949: 0x89b2},
		lookupItem{ucs2: 0xb3f0, cp949: 0x89b3},
		lookupItem{ucs2: 0xb3f1, cp949: 0x89b4},
		lookupItem{ucs2: 0xb3f2, cp949: 0x89b5},
		lookupItem{ucs2: 0xb3f3, cp949: 0x89b6},
		lookupItem{ucs2: 0xb3f4, cp949: 0x89b7},
		lookupItem{ucs2: 0xb3f5, cp949: 0x89b8},
		lookupItem{ucs2: 0xb3f6, cp949: 0x89b9},
		lookupItem{ucs2: 0xb3f7, cp949: 0x89ba},
		lookupItem{ucs2: 0xb3f8, cp949: 0x89bb},
		lookupItem{ucs2: 0xb3f9, cp949: 0x89bc},
		lookupItem{ucs2: 0xb3fa, cp949: 0x89bd},
		lookupItem{ucs2: 0xb3fb, cp949: 0x89be},
		lookupItem{ucs2: 0xb3fc, cp949: 0xb5c5},
		lookupItem{ucs2: 0xb3fd, cp949: 0x89bf},
		lookupItem{ucs2: 0xb3fe, cp949: 0x89c0},
		lookupItem{ucs2: 0xb3ff, cp949: 0x89c1},
		lookupItem{ucs2: 0xb400, cp949: 0x89c2},
		lookupItem{ucs2: 0xb401, cp949: 0x89c3},
		lookupItem{ucs2: 0xb402, cp949: 0x89c4},
		lookupItem{ucs2: 0xb403, cp949: 0x89c5},
		lookupItem{ucs2: 0xb404, cp949: 0x89c6},
		lookupItem{ucs2: 0xb405, cp949: 0x89c7},
		lookupItem{ucs2: 0xb406, cp949: 0x89c8},
		lookupItem{ucs2: 0xb407, cp949: 0x89c9},
		lookupItem{ucs2: 0xb408, cp949: 0x89ca},
		lookupItem{ucs2: 0xb409, cp949: 0x89cb},
		lookupItem{ucs2: 0xb40a, cp949: 0x89cc},
		lookupItem{ucs2: 0xb40b, cp949: 0x89cd},
		lookupItem{ucs2: 0xb40c, cp949: 0x89ce},
		lookupItem{ucs2: 0xb40d, cp949: 0x89cf},
		lookupItem{ucs2: 0xb40e, cp949: 0x89d0},
		lookupItem{ucs2: 0xb40f, cp949: 0x89d1},
		lookupItem{ucs2: 0xb410, cp949: 0xb5c6},
		lookupItem{ucs2: 0xb411, cp949: 0x89d2},
		lookupItem{ucs2: 0xb412, cp949: 0x89d3},
		lookupItem{ucs2: 0xb413, cp949: 0x89d4},
		lookupItem{ucs2: 0xb414, cp949: 0x89d5},
		lookupItem{ucs2: 0xb415, cp949: 0x89d6},
		lookupItem{ucs2: 0xb416, cp949: 0x89d7},
		lookupItem{ucs2: 0xb417, cp949: 0x89d8},
		lookupItem{ucs2: 0xb418, cp949: 0xb5c7},
		lookupItem{ucs2: 0xb419, cp949: 0x89d9},
		lookupItem{ucs2: 0xb41a, cp949: 0x89da},
		lookupItem{ucs2: 0xb41b, cp949: 0x89db},
		lookupItem{ucs2: 0xb41c, cp949: 0xb5c8},
		lookupItem{ucs2: 0xb41d, cp949: 0x89dc},
		lookupItem{ucs2: 0xb41e, cp949: 0x89dd},
		lookupItem{ucs2: 0xb41f, cp949: 0x89de},
		lookupItem{ucs2: 0xb420, cp949: 0xb5c9},
		lookupItem{ucs2: 0xb421, cp949: 0x89df},
		lookupItem{ucs2: 0xb422, cp949: 0x89e0},
		lookupItem{ucs2: 0xb423, cp949: 0x89e1},
		lookupItem{ucs2: 0xb424, cp949: 0x89e2},
		lookupItem{ucs2: 0xb425, cp949: 0x89e3},
		lookupItem{ucs2: 0xb426, cp949: 0x89e4},
		lookupItem{ucs2: 0xb427, cp949: 0x89e5},
		lookupItem{ucs2: 0xb428, cp949: 0xb5ca},
		lookupItem{ucs2: 0xb429, cp949: 0xb5cb},
		lookupItem{ucs2: 0xb42a, cp949: 0x89e6},
		lookupItem{ucs2: 0xb42b, cp949: 0xb5cc},
		lookupItem{ucs2: 0xb42c, cp949: 0x89e7},
		lookupItem{ucs2: 0xb42d, cp949: 0x89e8},
		lookupItem{ucs2: 0xb42e, cp949: 0x89e9},
		lookupItem{ucs2: 0xb42f, cp949: 0x89ea},
		lookupItem{ucs2: 0xb430, cp949: 0x89eb},
		lookupItem{ucs2: 0xb431, cp949: 0x89ec},
		lookupItem{ucs2: 0xb432, cp949: 0x89ed},
		lookupItem{ucs2: 0xb433, cp949: 0x89ee},
		lookupItem{ucs2: 0xb434, cp949: 0xb5cd},
		lookupItem{ucs2: 0xb435, cp949: 0x89ef},
		lookupItem{ucs2: 0xb436, cp949: 0x89f0},
		lookupItem{ucs2: 0xb437, cp949: 0x89f1},
		lookupItem{ucs2: 0xb438, cp949: 0x89f2},
		lookupItem{ucs2: 0xb439, cp949: 0x89f3},
		lookupItem{ucs2: 0xb43a, cp949: 0x89f4},
		lookupItem{ucs2: 0xb43b, cp949: 0x89f5},
		lookupItem{ucs2: 0xb43c, cp949: 0x89f6},
		lookupItem{ucs2: 0xb43d, cp949: 0x89f7},
		lookupItem{ucs2: 0xb43e, cp949: 0x89f8},
		lookupItem{ucs2: 0xb43f, cp949: 0x89f9},
		lookupItem{ucs2: 0xb440, cp949: 0x89fa},
		lookupItem{ucs2: 0xb441, cp949: 0x89fb},
		lookupItem{ucs2: 0xb442, cp949: 0x89fc},
		lookupItem{ucs2: 0xb443, cp949: 0x89fd},
		lookupItem{ucs2: 0xb444, cp949: 0x89fe},
		lookupItem{ucs2: 0xb445, cp949: 0x8a41},
		lookupItem{ucs2: 0xb446, cp949: 0x8a42},
		lookupItem{ucs2: 0xb447, cp949: 0x8a43},
		lookupItem{ucs2: 0xb448, cp949: 0x8a44},
		lookupItem{ucs2: 0xb449, cp949: 0x8a45},
		lookupItem{ucs2: 0xb44a, cp949: 0x8a46},
		lookupItem{ucs2: 0xb44b, cp949: 0x8a47},
		lookupItem{ucs2: 0xb44c, cp949: 0x8a48},
		lookupItem{ucs2: 0xb44d, cp949: 0x8a49},
		lookupItem{ucs2: 0xb44e, cp949: 0x8a4a},
		lookupItem{ucs2: 0xb44f, cp949: 0x8a4b},
		lookupItem{ucs2: 0xb450, cp949: 0xb5ce},
		lookupItem{ucs2: 0xb451, cp949: 0xb5cf},
		lookupItem{ucs2: 0xb452, cp949: 0x8a4c},
		lookupItem{ucs2: 0xb453, cp949: 0x8a4d},
		lookupItem{ucs2: 0xb454, cp949: 0xb5d0},
		lookupItem{ucs2: 0xb455, cp949: 0x8a4e},
		lookupItem{ucs2: 0xb456, cp949: 0x8a4f},
		lookupItem{ucs2: 0xb457, cp949: 0x8a50},
		lookupItem{ucs2: 0xb458, cp949: 0xb5d1},
		lookupItem{ucs2: 0xb459, cp949: 0x8a51},
		lookupItem{ucs2: 0xb45a, cp949: 0x8a52},
		lookupItem{ucs2: 0xb45b, cp949: 0x8a53},
		lookupItem{ucs2: 0xb45c, cp949: 0x8a54},
		lookupItem{ucs2: 0xb45d, cp949: 0x8a55},
		lookupItem{ucs2: 0xb45e, cp949: 0x8a56},
		lookupItem{ucs2: 0xb45f, cp949: 0x8a57},
		lookupItem{ucs2: 0xb460, cp949: 0xb5d2},
		lookupItem{ucs2: 0xb461, cp949: 0xb5d3},
		lookupItem{ucs2: 0xb462, cp949: 0x8a58},
		lookupItem{ucs2: 0xb463, cp949: 0xb5d4},
		lookupItem{ucs2: 0xb464, cp949: 0x8a59},
		lookupItem{ucs2: 0xb465, cp949: 0xb5d5},
		lookupItem{ucs2: 0xb466, cp949: 0x8a5a},
		lookupItem{ucs2: 0xb467, cp949: 0x8a61},
		lookupItem{ucs2: 0xb468, cp949: 0x8a62},
		lookupItem{ucs2: 0xb469, cp949: 0x8a63},
		lookupItem{ucs2: 0xb46a, cp949: 0x8a64},
		lookupItem{ucs2: 0xb46b, cp949: 0x8a65},
		lookupItem{ucs2: 0xb46c, cp949: 0xb5d6},
		lookupItem{ucs2: 0xb46d, cp949: 0x8a66},
		lookupItem{ucs2: 0xb46e, cp949: 0x8a67},
		lookupItem{ucs2: 0xb46f, cp949: 0x8a68},
		lookupItem{ucs2: 0xb470, cp949: 0x8a69},
		lookupItem{ucs2: 0xb471, cp949: 0x8a6a},
		lookupItem{ucs2: 0xb472, cp949: 0x8a6b},
		lookupItem{ucs2: 0xb473, cp949: 0x8a6c},
		lookupItem{ucs2: 0xb474, cp949: 0x8a6d},
		lookupItem{ucs2: 0xb475, cp949: 0x8a6e},
		lookupItem{ucs2: 0xb476, cp949: 0x8a6f},
		lookupItem{ucs2: 0xb477, cp949: 0x8a70},
		lookupItem{ucs2: 0xb478, cp949: 0x8a71},
		lookupItem{ucs2: 0xb479, cp949: 0x8a72},
		lookupItem{ucs2: 0xb47a, cp949: 0x8a73},
		lookupItem{ucs2: 0xb47b, cp949: 0x8a74},
		lookupItem{ucs2: 0xb47c, cp949: 0x8a75},
		lookupItem{ucs2: 0xb47d, cp949: 0x8a76},
		lookupItem{ucs2: 0xb47e, cp949: 0x8a77},
		lookupItem{ucs2: 0xb47f, cp949: 0x8a78},
		lookupItem{ucs2: 0xb480, cp949: 0xb5d7},
		lookupItem{ucs2: 0xb481, cp949: 0x8a79},
		lookupItem{ucs2: 0xb482, cp949: 0x8a7a},
		lookupItem{ucs2: 0xb483, cp949: 0x8a81},
		lookupItem{ucs2: 0xb484, cp949: 0x8a82},
		lookupItem{ucs2: 0xb485, cp949: 0x8a83},
		lookupItem{ucs2: 0xb486, cp949: 0x8a84},
		lookupItem{ucs2: 0xb487, cp949: 0x8a85},
		lookupItem{ucs2: 0xb488, cp949: 0xb5d8},
		lookupItem{ucs2: 0xb489, cp949: 0x8a86},
		lookupItem{ucs2: 0xb48a, cp949: 0x8a87},
		lookupItem{ucs2: 0xb48b, cp949: 0x8a88},
		lookupItem{ucs2: 0xb48c, cp949: 0x8a89},
		lookupItem{ucs2: 0xb48d, cp949: 0x8a8a},
		lookupItem{ucs2: 0xb48e, cp949: 0x8a8b},
		lookupItem{ucs2: 0xb48f, cp949: 0x8a8c},
		lookupItem{ucs2: 0xb490, cp949: 0x8a8d},
		lookupItem{ucs2: 0xb491, cp949: 0x8a8e},
		lookupItem{ucs2: 0xb492, cp949: 0x8a8f},
		lookupItem{ucs2: 0xb493, cp949: 0x8a90},
		lookupItem{ucs2: 0xb494, cp949: 0x8a91},
		lookupItem{ucs2: 0xb495, cp949: 0x8a92},
		lookupItem{ucs2: 0xb496, cp949: 0x8a93},
		lookupItem{ucs2: 0xb497, cp949: 0x8a94},
		lookupItem{ucs2: 0xb498, cp949: 0x8a95},
		lookupItem{ucs2: 0xb499, cp949: 0x8a96},
		lookupItem{ucs2: 0xb49a, cp949: 0x8a97},
		lookupItem{ucs2: 0xb49b, cp949: 0x8a98},
		lookupItem{ucs2: 0xb49c, cp949: 0x8a99},
		lookupItem{ucs2: 0xb49d, cp949: 0xb5d9},
		lookupItem{ucs2: 0xb49e, cp949: 0x8a9a},
		lookupItem{ucs2: 0xb49f, cp949: 0x8a9b},
		lookupItem{ucs2: 0xb4a0, cp949: 0x8a9c},
		lookupItem{ucs2: 0xb4a1, cp949: 0x8a9d},
		lookupItem{ucs2: 0xb4a2, cp949: 0x8a9e},
		lookupItem{ucs2: 0xb4a3, cp949: 0x8a9f},
		lookupItem{ucs2: 0xb4a4, cp949: 0xb5da},
		lookupItem{ucs2: 0xb4a5, cp949: 0x8aa0},
		lookupItem{ucs2: 0xb4a6, cp949: 0x8aa1},
		lookupItem{ucs2: 0xb4a7, cp949: 0x8aa2},
		lookupItem{ucs2: 0xb4a8, cp949: 0xb5db},
		lookupItem{ucs2: 0xb4a9, cp949: 0x8aa3},
		lookupItem{ucs2: 0xb4aa, cp949: 0x8aa4},
		lookupItem{ucs2: 0xb4ab, cp949: 0x8aa5},
		lookupItem{ucs2: 0xb4ac, cp949: 0xb5dc},
		lookupItem{ucs2: 0xb4ad, cp949: 0x8aa6},
		lookupItem{ucs2: 0xb4ae, cp949: 0x8aa7},
		lookupItem{ucs2: 0xb4af, cp949: 0x8aa8},
		lookupItem{ucs2: 0xb4b0, cp949: 0x8aa9},
		lookupItem{ucs2: 0xb4b1, cp949: 0x8aaa},
		lookupItem{ucs2: 0xb4b2, cp949: 0x8aab},
		lookupItem{ucs2: 0xb4b3, cp949: 0x8aac},
		lookupItem{ucs2: 0xb4b4, cp949: 0x8aad},
		lookupItem{ucs2: 0xb4b5, cp949: 0xb5dd},
		lookupItem{ucs2: 0xb4b6, cp949: 0x8aae},
		lookupItem{ucs2: 0xb4b7, cp949: 0xb5de},
		lookupItem{ucs2: 0xb4b8, cp949: 0x8aaf},
		lookupItem{ucs2: 0xb4b9, cp949: 0xb5df},
".
Definition text_cp949_lookup_to_031 : string :=
"		lookupItem{ucs2: 0xb4ba, cp949: 0x8ab0},
		lookupItem{ucs2: 0xb4bb, cp949: 0x8ab1},
		lookupItem{ucs2: 0xb4bc, cp949: 0x8ab2},
		lookupItem{ucs2: 0xb4bd, cp949: 0x8ab3},
		lookupItem{ucs2: 0xb4be, cp949: 0x8ab4},
		lookupItem{ucs2: 0xb4bf, cp949: 0x8ab5},
		lookupItem{ucs2: 0xb4c0, cp949: 0xb5e0},
		lookupItem{ucs2: 0xb4c1, cp949: 0x8ab6},
		lookupItem{ucs2: 0xb4c2, cp949: 0x8ab7},
		lookupItem{ucs2: 0xb4c3, cp949: 0x8ab8},
		lookupItem{ucs2: 0xb4c4, cp949: 0xb5e1},
		lookupItem{ucs2: 0xb4c5, cp949: 0x8ab9},
		lookupItem{ucs2: 0xb4c6, cp949: 0x8aba},
		lookupItem{ucs2: 0xb4c7, cp949: 0x8abb},
		lookupItem{ucs2: 0xb4c8, cp949: 0xb5e2},
		lookupItem{ucs2: 0xb4c9, cp949: 0x8abc},
		lookupItem{ucs2: 0xb4ca, cp949: 0x8abd},
		lookupItem{ucs2: 0xb4cb, cp949: 0x8abe},
		lookupItem{ucs2: 0xb4cc, cp949: 0x8abf},
		lookupItem{ucs2: 0xb4cd, cp949: 0x8ac0},
		lookupItem{ucs2: 0xb4ce, cp949: 0x8ac1},
		lookupItem{ucs2: 0xb4cf, cp949: 0x8ac2},
		lookupItem{ucs2: 0xb4d0, cp949: 0xb5e3},
		lookupItem{ucs2: 0xb4d1, cp949: 0x8ac3},
		lookupItem{ucs2: 0xb4d2, cp949: 0x8ac4},
		lookupItem{ucs2: 0xb4d3, cp949: 0x8ac5},
		lookupItem{ucs2: 0xb4d4, cp949: 0x8ac6},
		lookupItem{ucs2: 0xb4d5, cp949: 0xb5e4},
		lookupItem{ucs2: 0xb4d6, cp949: 0x8ac7},
		lookupItem{ucs2: 0xb4d7, cp949: 0x8ac8},
		lookupItem{ucs2: 0xb4d8, cp949: 0x8ac9},
		lookupItem{ucs2: 0xb4d9, cp949: 0x8aca},
		lookupItem{ucs2: 0xb4da, cp949: 0x8acb},
		lookupItem{ucs2: 0xb4db, cp949: 0x8acc},
		lookupItem{ucs2: 0xb4dc, cp949: 0xb5e5},
		lookupItem{ucs2: 0xb4dd, cp949: 0xb5e6},
		lookupItem{ucs2: 0xb4de, cp949: 0x8acd},
		lookupItem{ucs2: 0xb4df, cp949: 0x8ace},
		lookupItem{ucs2: 0xb4e0, cp949: 0xb5e7},
		lookupItem{ucs2: 0xb4e1, cp949: 0x8acf},
		lookupItem{ucs2: 0xb4e2, cp949: 0x8ad0},
		lookupItem{ucs2: 0xb4e3, cp949: 0xb5e8},
		lookupItem{ucs2: 0xb4e4, cp949: 0xb5e9},
		lookupItem{ucs2: 0xb4e5, cp949: 0x8ad1},
		lookupItem{ucs2: 0xb4e6, cp949: 0xb5ea},
		lookupItem{ucs2: 0xb4e7, cp949: 0x8ad2},
		lookupItem{ucs2: 0xb4e8, cp949: 0x8ad3},
		lookupItem{ucs2: 0xb4e9, cp949: 0x8ad4},
		lookupItem{ucs2: 0xb4ea, cp949: 0x8ad5},
		lookupItem{ucs2: 0xb4eb, cp949: 0x8ad6},
		lookupItem{ucs2: 0xb4ec, cp949: 0xb5eb},
		lookupItem{ucs2: 0xb4ed, cp949: 0xb5ec},
		lookupItem{ucs2: 0xb4ee, cp949: 0x8ad7},
		lookupItem{ucs2: 0xb4ef, cp949: 0xb5ed},
		lookupItem{ucs2: 0xb4f0, cp949: 0x8ad8},
		lookupItem{ucs2: 0xb4f1, cp949: 0xb5ee},
		lookupItem{ucs2: 0xb4f2, cp949: 0x8ad9},
		lookupItem{ucs2: 0xb4f3, cp949: 0x8ada},
		lookupItem{ucs2: 0xb4f4, cp949: 0x8adb},
		lookupItem{ucs2: 0xb4f5, cp949: 0x8adc},
		lookupItem{ucs2: 0xb4f6, cp949: 0x8add},
		lookupItem{ucs2: 0xb4f7, cp949: 0x8ade},
		lookupItem{ucs2: 0xb4f8, cp949: 0xb5ef},
		lookupItem{ucs2: 0xb4f9, cp949: 0x8adf},
		lookupItem{ucs2: 0xb4fa, cp949: 0x8ae0},
		lookupItem{ucs2: 0xb4fb, cp949: 0x8ae1},
		lookupItem{ucs2: 0xb4fc, cp949: 0x8ae2},
		lookupItem{ucs2: 0xb4fd, cp949: 0x8ae3},
		lookupItem{ucs2: 0xb4fe, cp949: 0x8ae4},
		lookupItem{ucs2: 0xb4ff, cp949: 0x8ae5},
		lookupItem{ucs2: 0xb500, cp949: 0x8ae6},
		lookupItem{ucs2: 0xb501, cp949: 0x8ae7},
		lookupItem{ucs2: 0xb502, cp949: 0x8ae8},
		lookupItem{ucs2: 0xb503, cp949: 0x8ae9},
		lookupItem{ucs2: 0xb504, cp949: 0x8aea},
		lookupItem{ucs2: 0xb505, cp949: 0x8aeb},
		lookupItem{ucs2: 0xb506, cp949: 0x8aec},
		lookupItem{ucs2: 0xb507, cp949: 0x8aed},
		lookupItem{ucs2: 0xb508, cp949: 0x8aee},
		lookupItem{ucs2: 0xb509, cp949: 0x8aef},
		lookupItem{ucs2: 0xb50a, cp949: 0x8af0},
		lookupItem{ucs2: 0xb50b, cp949: 0x8af1},
		lookupItem{ucs2: 0xb50c, cp949: 0x8af2},
		lookupItem{ucs2: 0xb50d, cp949: 0x8af3},
		lookupItem{ucs2: 0xb50e, cp949: 0x8af4},
		lookupItem{ucs2: 0xb50f, cp949: 0x8af5},
		lookupItem{ucs2: 0xb510, cp949: 0x8af6},
		lookupItem{ucs2: 0xb511, cp949: 0x8af7},
		lookupItem{ucs2: 0xb512, cp949: 0x8af8},
		lookupItem{ucs2: 0xb513, cp949: 0x8af9},
		lookupItem{ucs2: 0xb514, cp949: 0xb5f0},
		lookupItem{ucs2: 0xb515, cp949: 0xb5f1},
		lookupItem{ucs2: 0xb516, cp949: 0x8afa},
		lookupItem{ucs2: 0xb517, cp949: 0x8afb},
		lookupItem{ucs2: 0xb518, cp949: 0xb5f2},
		lookupItem{ucs2: 0xb519, cp949: 0x8afc},
		lookupItem{ucs2: 0xb51a, cp949: 0x8afd},
		lookupItem{ucs2: 0xb51b, cp949: 0xb5f3},
		lookupItem{ucs2: 0xb51c, cp949: 0xb5f4},
		lookupItem{ucs2: 0xb51d, cp949: 0x8afe},
		lookupItem{ucs2: 0xb51e, cp949: 0x8b41},
		lookupItem{ucs2: 0xb51f, cp949: 0x8b42},
		lookupItem{ucs2: 0xb520, cp949: 0x8b43},
		lookupItem{ucs2: 0xb521, cp949: 0x8b44},
		lookupItem{ucs2: 0xb522, cp949: 0x8b45},
		lookupItem{ucs2: 0xb523, cp949: 0x8b46},
		lookupItem{ucs2: 0xb524, cp949: 0xb5f5},
		lookupItem{ucs2: 0xb525, cp949: 0xb5f6},
		lookupItem{ucs2: 0xb526, cp949: 0x8b47},
		lookupItem{ucs2: 0xb527, cp949: 0xb5f7},
		lookupItem{ucs2: 0xb528, cp949: 0xb5f8},
		lookupItem{ucs2: 0xb529, cp949: 0xb5f9},
		lookupItem{ucs2: 0xb52a, cp949: 0xb5fa},
		lookupItem{ucs2: 0xb52b, cp949: 0x8b48},
		lookupItem{ucs2: 0xb52c, cp949: 0x8b49},
		lookupItem{ucs2: 0xb52d, cp949: 0x8b4a},
		lookupItem{ucs2: 0xb52e, cp949: 0x8b4b},
		lookupItem{ucs2: 0xb52f, cp949: 0x8b4c},
		lookupItem{ucs2: 0xb530, cp949: 0xb5fb},
		lookupItem{ucs2: 0xb531, cp949: 0xb5fc},
		lookupItem{ucs2: 0xb532, cp949: 0x8b4d},
		lookupItem{ucs2: 0xb533, cp949: 0x8b4e},
		lookupItem{ucs2: 0xb534, cp949: 0xb5fd},
		lookupItem{ucs2: 0xb535, cp949: 0x8b4f},
		lookupItem{ucs2: 0xb536, cp949: 0x8b50},
		lookupItem{ucs2: 0xb537, cp949: 0x8b51},
		lookupItem{ucs2: 0xb538, cp949: 0xb5fe},
		lookupItem{ucs2: 0xb539, cp949: 0x8b52},
		lookupItem{ucs2: 0xb53a, cp949: 0x8b53},
		lookupItem{ucs2: 0xb53b, cp949: 0x8b54},
		lookupItem{ucs2: 0xb53c, cp949: 0x8b55},
		lookupItem{ucs2: 0xb53d, cp949: 0x8b56},
		lookupItem{ucs2: 0xb53e, cp949: 0x8b57},
		lookupItem{ucs2: 0xb53f, cp949: 0x8b58},
		lookupItem{ucs2: 0xb540, cp949: 0xb6a1},
		lookupItem{ucs2: 0xb541, cp949: 0xb6a2},
		lookupItem{ucs2: 0xb542, cp949: 0x8b59},
		lookupItem{ucs2: 0xb543, cp949: 0xb6a3},
		lookupItem{ucs2: 0xb544, cp949: 0xb6a4},
		lookupItem{ucs2: 0xb545, cp949: 0xb6a5},
		lookupItem{ucs2: 0xb546, cp949: 0x8b5a},
		lookupItem{ucs2: 0xb547, cp949: 0x8b61},
		lookupItem{ucs2: 0xb548, cp949: 0x8b62},
		lookupItem{ucs2: 0xb549, cp949: 0x8b63},
		lookupItem{ucs2: 0xb54a, cp949: 0x8b64},
		lookupItem{ucs2: 0xb54b, cp949: 0xb6a6},
		lookupItem{ucs2: 0xb54c, cp949: 0xb6a7},
		lookupItem{ucs2: 0xb54d, cp949: 0xb6a8},
		lookupItem{ucs2: 0xb54e, cp949: 0x8b65},
		lookupItem{ucs2: 0xb54f, cp949: 0x8b66},
		lookupItem{ucs2: 0xb550, cp949: 0xb6a9},
		lookupItem{ucs2: 0xb551, cp949: 0x8b67},
		lookupItem{ucs2: 0xb552, cp949: 0x8b68},
		lookupItem{ucs2: 0xb553, cp949: 0x8b69},
		lookupItem{ucs2: 0xb554, cp949: 0xb6aa},
		lookupItem{ucs2: 0xb555, cp949: 0x8b6a},
		lookupItem{ucs2: 0xb556, cp949: 0x8b6b},
		lookupItem{ucs2: 0xb557, cp949: 0x8b6c},
		lookupItem{ucs2: 0xb558, cp949: 0x8b6d},
		lookupItem{ucs2: 0xb559, cp949: 0x8b6e},
		lookupItem{ucs2: 0xb55a, cp949: 0x8b6f},
		lookupItem{ucs2: 0xb55b, cp949: 0x8b70},
		lookupItem{ucs2: 0xb55c, cp949: 0xb6ab},
		lookupItem{ucs2: 0xb55d, cp949: 0xb6ac},
		lookupItem{ucs2: 0xb55e, cp949: 0x8b71},
		lookupItem{ucs2: 0xb55f, cp949: 0xb6ad},
		lookupItem{ucs2: 0xb560, cp949: 0xb6ae},
		lookupItem{ucs2: 0xb561, cp949: 0xb6af},
		lookupItem{ucs2: 0xb562, cp949: 0x8b72},
		lookupItem{ucs2: 0xb563, cp949: 0x8b73},
		lookupItem{ucs2: 0xb564, cp949: 0x8b74},
		lookupItem{ucs2: 0xb565, cp949: 0x8b75},
		lookupItem{ucs2: 0xb566, cp949: 0x8b76},
		lookupItem{ucs2: 0xb567, cp949: 0x8b77},
		lookupItem{ucs2: 0xb568, cp949: 0x8b78},
		lookupItem{ucs2: 0xb569, cp949: 0x8b79},
		lookupItem{ucs2: 0xb56a, cp949: 0x8b7a},
		lookupItem{ucs2: 0xb56b, cp949: 0x8b81},
		lookupItem{ucs2: 0xb56c, cp949: 0x8b82},
		lookupItem{ucs2: 0xb56d, cp949: 0x8b83},
		lookupItem{ucs2: 0xb56e, cp949: 0x8b84},
		lookupItem{ucs2: 0xb56f, cp949: 0x8b85},
		lookupItem{ucs2: 0xb570, cp949: 0x8b86},
		lookupItem{ucs2: 0xb571, cp949: 0x8b87},
		lookupItem{ucs2: 0xb572, cp949: 0x8b88},
		lookupItem{ucs2: 0xb573, cp949: 0x8b89},
		lookupItem{ucs2: 0xb574, cp949: 0x8b8a},
		lookupItem{ucs2: 0xb575, cp949: 0x8b8b},
		lookupItem{ucs2: 0xb576, cp949: 0x8b8c},
		lookupItem{ucs2: 0xb577, cp949: 0x8b8d},
		lookupItem{ucs2: 0xb578, cp949: 0x8b8e},
		lookupItem{ucs2: 0xb579, cp949: 0x8b8f},
		lookupItem{ucs2: 0xb57a, cp949: 0x8b90},
		lookupItem{ucs2: 0xb57b, cp949: 0x8b91},
		lookupItem{ucs2: 0xb57c, cp949: 0x8b92},
		lookupItem{ucs2: 0xb57d, cp949: 0x8b93},
		lookupItem{ucs2: 0xb57e, cp949: 0x8b94},
		lookupItem{ucs2: 0xb57f, cp949: 0x8b95},
		lookupItem{ucs2: 0xb580, cp949: 0x8b96},
		lookupItem{ucs2: 0xb581, cp949: 0x8b97},
		lookupItem{ucs2: 0xb582, cp949: 0x8b98},
		lookupItem{ucs2: 0xb583, cp949: 0x8b99},
		lookupItem{ucs2: 0xb584, cp949: 0x8b9a},
		lookupItem{ucs2: 0xb585, cp949: 0x8b9b},
		lookupItem{ucs2: 0xb586, cp949: 0x8b9c},
		lookupItem{ucs2: 0xb587, cp949: 0x8b9d},
		lookupItem{ucs2: 0xb588, cp949: 0x8b9e},
		lookupItem{ucs2: 0xb589, cp949: 0x8b9f},
		lookupItem{ucs2: 0xb58a, cp949: 0x8ba0},
		lookupItem{ucs2: 0xb58b, cp949: 0x8ba1},
		lookupItem{ucs2: 0xb58c, cp949: 0x8ba2},
		lookupItem{ucs2: 0xb58d, cp949: 0x8ba3},
		lookupItem{ucs2: 0xb58e, cp949: 0x8ba4},
		lookupItem{ucs2: 0xb58f, cp949: 0x8ba5},
		lookupItem{ucs2: 0xb590, cp949: 0x8ba6},
		lookupItem{ucs2: 0xb591, cp949: 0x8ba7},
		lookupItem{ucs2: 0xb592, cp949: 0x8ba8},
		lookupItem{ucs2: 0xb593, cp949: 0x8ba9},
		lookupItem{ucs2: 0xb594, cp949: 0x8baa},
		lookupItem{ucs2: 0xb595, cp949: 0x8bab},
		lookupItem{ucs2: 0xb596, cp949: 0x8bac},
		lookupItem{ucs2: 0xb597, cp949: 0x8bad},
		lookupItem{ucs2: 0xb598, cp949: 0x8bae},
		lookupItem{ucs2: 0xb599, cp949: 0x8baf},
		lookupItem{ucs2: 0xb59a, cp949: 0x8bb0},
		lookupItem{ucs2: 0xb59b, cp949: 0x8bb1},
		lookupItem{ucs2: 0xb59c, cp949: 0x8bb2},
		lookupItem{ucs2: 0xb59d, cp949: 0x8bb3},
		lookupItem{ucs2: 0xb59e, cp949: 0x8bb4},
		lookupItem{ucs2: 0xb59f, cp949: 0x8bb5},
		lookupItem{ucs2: 0xb5a0, cp949: 0xb6b0},
		lookupItem{ucs2: 0xb5a1, cp949: 0xb6b1},
		lookupItem{ucs2: 0xb5a2, cp949: 0x8bb6},
		lookupItem{ucs2: 0xb5a3, cp949: 0x8bb7},
		lookupItem{ucs2: 0xb5a4, cp949: 0xb6b2},
		lookupItem{ucs2: 0xb5a5, cp949: 0x8bb8},
		lookupItem{ucs2: 0xb5a6, cp949: 0x8bb9},
		lookupItem{ucs2: 0xb5a7, cp949: 0x8bba},
		lookupItem{ucs2: 0xb5a8, cp949: 0xb6b3},
		lookupItem{ucs2: 0xb5a9, cp949: 0x8bbb},
		lookupItem{ucs2: 0xb5aa, cp949: 0xb6b4},
		lookupItem{ucs2: 0xb5ab, cp949: 0xb6b5},
		lookupItem{ucs2: 0xb5ac, cp949: 0x8bbc},
		lookupItem{ucs2: 0xb5ad, cp949: 0x8bbd},
		lookupItem{ucs2: 0xb5ae, cp949: 0x8bbe},
		lookupItem{ucs2: 0xb5af, cp949: 0x8bbf},
		lookupItem{ucs2: 0xb5b0, cp949: 0xb6b6},
		lookupItem{ucs2: 0xb5b1, cp949: 0xb6b7},
		lookupItem{ucs2: 0xb5b2, cp949: 0x8bc0},
		lookupItem{ucs2: 0xb5b3, cp949: 0xb6b8},
".
Definition text_cp949_lookup_to_032 : string :=
"		lookupItem{ucs2: 0xb5b4, cp949: 0xb6b9},
		lookupItem{ucs2: 0xb5b5, cp949: 0xb6ba},
		lookupItem{ucs2: 0xb5b6, cp949: 0x8bc1},
		lookupItem{ucs2: 0xb5b7, cp949: 0x8bc2},
		lookupItem{ucs2: 0xb5b8, cp949: 0x8bc3},
		lookupItem{ucs2: 0xb5b9, cp949: 0x8bc4},
		lookupItem{ucs2: 0xb5ba, cp949: 0x8bc5},
		lookupItem{ucs2: 0xb5bb, cp949: 0xb6bb},
		lookupItem{ucs2: 0xb5bc, cp949: 0xb6bc},
		lookupItem{ucs2: 0xb5bd, cp949: 0xb6bd},
		lookupItem{ucs2: 0xb5be, cp949: 0x8bc6},
		lookupItem{ucs2: 0xb5bf, cp949: 0x8bc7},
		lookupItem{ucs2: 0xb5c0, cp949: 0xb6be},
		lookupItem{ucs2: 0xb5c1, cp949: 0x8bc8},
		lookupItem{ucs2: 0xb5c2, cp949: 0x8bc9},
		lookupItem{ucs2: 0xb5c3, cp949: 0x8bca},
		lookupItem{ucs2: 0xb5c4, cp949: 0xb6bf},
		lookupItem{ucs2: 0xb5c5, cp949: 0x8bcb},
		lookupItem{ucs2: 0xb5c6, cp949: 0x8bcc},
		lookupItem{ucs2: 0xb5c7, cp949: 0x8bcd},
		lookupItem{ucs2: 0xb5c8, cp949: 0x8bce},
		lookupItem{ucs2: 0xb5c9, cp949: 0x8bcf},
		lookupItem{ucs2: 0xb5ca, cp949: 0x8bd0},
		lookupItem{ucs2: 0xb5cb, cp949: 0x8bd1},
		lookupItem{ucs2: 0xb5cc, cp949: 0xb6c0},
		lookupItem{ucs2: 0xb5cd, cp949: 0xb6c1},
		lookupItem{ucs2: 0xb5ce, cp949: 0x8bd2},
		lookupItem{ucs2: 0xb5cf, cp949: 0xb6c2},
		lookupItem{ucs2: 0xb5d0, cp949: 0xb6c3},
		lookupItem{ucs2: 0xb5d1, cp949: 0xb6c4},
		lookupItem{ucs2: 0xb5d2, cp949: 0x8bd3},
		lookupItem{ucs2: 0xb5d3, cp949: 0x8bd4},
		lookupItem{ucs2: 0xb5d4, cp949: 0x8bd5},
		lookupItem{ucs2: 0xb5d5, cp949: 0x8bd6},
		lookupItem{ucs2: 0xb5d6, cp949: 0x8bd7},
		lookupItem{ucs2: 0xb5d7, cp949: 0x8bd8},
		lookupItem{ucs2: 0xb5d8, cp949: 0xb6c5},
		lookupItem{ucs2: 0xb5d9, cp949: 0x8bd9},
		lookupItem{ucs2: 0xb5da, cp949: 0x8bda},
		lookupItem{ucs2: 0xb5db, cp949: 0x8bdb},
		lookupItem{ucs2: 0xb5dc, cp949: 0x8bdc},
		lookupItem{ucs2: 0xb5dd, cp949: 0x8bdd},
		lookupItem{ucs2: 0xb5de, cp949: 0x8bde},
		lookupItem{ucs2: 0xb5df, cp949: 0x8bdf},
		lookupItem{ucs2: 0xb5e0, cp949: 0x8be0},
		lookupItem{ucs2: 0xb5e1, cp949: 0x8be1},
		lookupItem{ucs2: 0xb5e2, cp949: 0x8be2},
		lookupItem{ucs2: 0xb5e3, cp949: 0x8be3},
		lookupItem{ucs2: 0xb5e4, cp949: 0x8be4},
		lookupItem{ucs2: 0xb5e5, cp949: 0x8be5},
		lookupItem{ucs2: 0xb5e6, cp949: 0x8be6},
		lookupItem{ucs2: 0xb5e7, cp949: 0x8be7},
		lookupItem{ucs2: 0xb5e8, cp949: 0x8be8},
		lookupItem{ucs2: 0xb5e9, cp949: 0x8be9},
		lookupItem{ucs2: 0xb5ea, cp949: 0x8bea},
		lookupItem{ucs2: 0xb5eb, cp949: 0x8beb},
		lookupItem{ucs2: 0xb5ec, cp949: 0xb6c6},
		lookupItem{ucs2: 0xb5ed, cp949: 0x8bec},
		lookupItem{ucs2: 0xb5ee, cp949: 0x8bed},
		lookupItem{ucs2: 0xb5ef, cp949: 0x8bee},
		lookupItem{ucs2: 0xb5f0, cp949: 0x8bef},
		lookupItem{ucs2: 0xb5f1, cp949: 0x8bf0},
		lookupItem{ucs2: 0xb5f2, cp949: 0x8bf1},
		lookupItem{ucs2: 0xb5f3, cp949: 0x8bf2},
		lookupItem{ucs2: 0xb5f4, cp949: 0x8bf3},
		lookupItem{ucs2: 0xb5f5, cp949: 0x8bf4},
		lookupItem{ucs2: 0xb5f6, cp949: 0x8bf5},
		lookupItem{ucs2: 0xb5f7, cp949: 0x8bf6},
		lookupItem{ucs2: 0xb5f8, cp949: 0x8bf7},
		lookupItem{ucs2: 0xb5f9, cp949: 0x8bf8},
		lookupItem{ucs2: 0xb5fa, cp949: 0x8bf9},
		lookupItem{ucs2: 0xb5fb, cp949: 0x8bfa},
		lookupItem{ucs2: 0xb5fc, cp949: 0x8bfb},
		lookupItem{ucs2: 0xb5fd, cp949: 0x8bfc},
		lookupItem{ucs2: 0xb5fe, cp949: 0x8bfd},
		lookupItem{ucs2: 0xb5ff, cp949: 0x8bfe},
		lookupItem{ucs2: 0xb600, cp949: 0x8c41},
		lookupItem{ucs2: 0xb601, cp949: 0x8c42},
		lookupItem{ucs2: 0xb602, cp949: 0x8c43},
		lookupItem{ucs2: 0xb603, cp949: 0x8c44},
		lookupItem{ucs2: 0xb604, cp949: 0x8c45},
		lookupItem{ucs2: 0xb605, cp949: 0x8c46},
		lookupItem{ucs2: 0xb606, cp949: 0x8c47},
		lookupItem{ucs2: 0xb607, cp949: 0x8c48},
		lookupItem{ucs2: 0xb608, cp949: 0x8c49},
		lookupItem{ucs2: 0xb609, cp949: 0x8c4a},
		lookupItem{ucs2: 0xb60a, cp949: 0x8c4b},
		lookupItem{ucs2: 0xb60b, cp949: 0x8c4c},
		lookupItem{ucs2: 0xb60c, cp949: 0x8c4d},
		lookupItem{ucs2: 0xb60d, cp949: 0x8c4e},
		lookupItem{ucs2: 0xb60e, cp949: 0x8c4f},
		lookupItem{ucs2: 0xb60f, cp949: 0x8c50},
		lookupItem{ucs2: 0xb610, cp949: 0xb6c7},
		lookupItem{ucs2: 0xb611, cp949: 0xb6c8},
		lookupItem{ucs2: 0xb612, cp949: 0x8c51},
		lookupItem{ucs2: 0xb613, cp949: 0x8c52},
		lookupItem{ucs2: 0xb614, cp949: 0xb6c9},
		lookupItem{ucs2: 0xb615, cp949: 0x8c53},
		lookupItem{ucs2: 0xb616, cp949: 0x8c54},
		lookupItem{ucs2: 0xb617, cp949: 0x8c55},
		lookupItem{ucs2: 0xb618, cp949: 0xb6ca},
		lookupItem{ucs2: 0xb619, cp949: 0x8c56},
		lookupItem{ucs2: 0xb61a, cp949: 0x8c57},
		lookupItem{ucs2: 0xb61b, cp949: 0x8c58},
		lookupItem{ucs2: 0xb61c, cp949: 0x8c59},
		lookupItem{ucs2: 0xb61d, cp949: 0x8c5a},
		lookupItem{ucs2: 0xb61e, cp949: 0x8c61},
		lookupItem{ucs2: 0xb61f, cp949: 0x8c62},
		lookupItem{ucs2: 0xb620, cp949: 0x8c63},
		lookupItem{ucs2: 0xb621, cp949: 0x8c64},
		lookupItem{ucs2: 0xb622, cp949: 0x8c65},
		lookupItem{ucs2: 0xb623, cp949: 0x8c66},
		lookupItem{ucs2: 0xb624, cp949: 0x8c67},
		lookupItem{ucs2: 0xb625, cp949: 0xb6cb},
		lookupItem{ucs2: 0xb626, cp949: 0x8c68},
		lookupItem{ucs2: 0xb627, cp949: 0x8c69},
		lookupItem{ucs2: 0xb628, cp949: 0x8c6a},
		lookupItem{ucs2: 0xb629, cp949: 0x8c6b},
		lookupItem{ucs2: 0xb62a, cp949: 0x8c6c},
		lookupItem{ucs2: 0xb62b, cp949: 0x8c6d},
		lookupItem{ucs2: 0xb62c, cp949: 0xb6cc},
		lookupItem{ucs2: 0xb62d, cp949: 0x8c6e},
		lookupItem{ucs2: 0xb62e, cp949: 0x8c6f},
		lookupItem{ucs2: 0xb62f, cp949: 0x8c70},
		lookupItem{ucs2: 0xb630, cp949: 0x8c71},
		lookupItem{ucs2: 0xb631, cp949: 0x8c72},
		lookupItem{ucs2: 0xb632, cp949: 0x8c73},
		lookupItem{ucs2: 0xb633, cp949: 0x8c74},
		lookupItem{ucs2: 0xb634, cp949: 0xb6cd},
		lookupItem{ucs2: 0xb635, cp949: 0x8c75},
		lookupItem{ucs2: 0xb636, cp949: 0x8c76},
		lookupItem{ucs2: 0xb637, cp949: 0x8c77},
		lookupItem{ucs2: 0xb638, cp949: 0x8c78},
		lookupItem{ucs2: 0xb639, cp949: 0x8c79},
		lookupItem{ucs2: 0xb63a, cp949: 0x8c7a},
		lookupItem{ucs2: 0xb63b, cp949: 0x8c81},
		lookupItem{ucs2: 0xb63c, cp949: 0x8c82},
		lookupItem{ucs2: 0xb63d, cp949: 0x8c83},
		lookupItem{ucs2: 0xb63e, cp949: 0x8c84},
		lookupItem{ucs2: 0xb63f, cp949: 0x8c85},
		lookupItem{ucs2: 0xb640, cp949: 0x8c86},
		lookupItem{ucs2: 0xb641, cp949: 0x8c87},
		lookupItem{ucs2: 0xb642, cp949: 0x8c88},
		lookupItem{ucs2: 0xb643, cp949: 0x8c89},
		lookupItem{ucs2: 0xb644, cp949: 0x8c8a},
		lookupItem{ucs2: 0xb645, cp949: 0x8c8b},
		lookupItem{ucs2: 0xb646, cp949: 0x8c8c},
		lookupItem{ucs2: 0xb647, cp949: 0x8c8d},
		lookupItem{ucs2: 0xb648, cp949: 0xb6ce},
		lookupItem{ucs2: 0xb649, cp949: 0x8c8e},
		lookupItem{ucs2: 0xb64a, cp949: 0x8c8f},
		lookupItem{ucs2: 0xb64b, cp949: 0x8c90},
		lookupItem{ucs2: 0xb64c, cp949: 0x8c91},
		lookupItem{ucs2: 0xb64d, cp949: 0x8c92},
		lookupItem{ucs2: 0xb64e, cp949: 0x8c93},
		lookupItem{ucs2: 0xb64f, cp949: 0x8c94},
		lookupItem{ucs2: 0xb650, cp949: 0x8c95},
		lookupItem{ucs2: 0xb651, cp949: 0x8c96},
		lookupItem{ucs2: 0xb652, cp949: 0x8c97},
		lookupItem{ucs2: 0xb653, cp949: 0x8c98},
		lookupItem{ucs2: 0xb654, cp949: 0x8c99},
		lookupItem{ucs2: 0xb655, cp949: 0x8c9a},
		lookupItem{ucs2: 0xb656, cp949: 0x8c9b},
		lookupItem{ucs2: 0xb657, cp949: 0x8c9c},
		lookupItem{ucs2: 0xb658, cp949: 0x8c9d},
		lookupItem{ucs2: 0xb659, cp949: 0x8c9e},
		lookupItem{ucs2: 0xb65a, cp949: 0x8c9f},
		lookupItem{ucs2: 0xb65b, cp949: 0x8ca0},
		lookupItem{ucs2: 0xb65c, cp949: 0x8ca1},
		lookupItem{ucs2: 0xb65d, cp949: 0x8ca2},
		lookupItem{ucs2: 0xb65e, cp949: 0x8ca3},
		lookupItem{ucs2: 0xb65f, cp949: 0x8ca4},
		lookupItem{ucs2: 0xb660, cp949: 0x8ca5},
		lookupItem{ucs2: 0xb661, cp949: 0x8ca6},
		lookupItem{ucs2: 0xb662, cp949: 0x8ca7},
		lookupItem{ucs2: 0xb663, cp949: 0x8ca8},
		lookupItem{ucs2: 0xb664, cp949: 0xb6cf},
		lookupItem{ucs2: 0xb665, cp949: 0x8ca9},
		lookupItem{ucs2: 0xb666, cp949: 0x8caa},
		lookupItem{ucs2: 0xb667, cp949: 0x8cab},
		lookupItem{ucs2: 0xb668, cp949: 0xb6d0},
		lookupItem{ucs2: 0xb669, cp949: 0x8cac},
		lookupItem{ucs2: 0xb66a, cp949: 0x8cad},
		lookupItem{ucs2: 0xb66b, cp949: 0x8cae},
		lookupItem{ucs2: 0xb66c, cp949: 0x8caf},
		lookupItem{ucs2: 0xb66d, cp949: 0x8cb0},
		lookupItem{ucs2: 0xb66e, cp949: 0x8cb1},
		lookupItem{ucs2: 0xb66f, cp949: 0x8cb2},
		lookupItem{ucs2: 0xb670, cp949: 0x8cb3},
		lookupItem{ucs2: 0xb671, cp949: 0x8cb4},
		lookupItem{ucs2: 0xb672, cp949: 0x8cb5},
		lookupItem{ucs2: 0xb673, cp949: 0x8cb6},
		lookupItem{ucs2: 0xb674, cp949: 0x8cb7},
		lookupItem{ucs2: 0xb675, cp949: 0x8cb8},
		lookupItem{ucs2: 0xb676, cp949: 0x8cb9},
		lookupItem{ucs2: 0xb677, cp949: 0x8cba},
		lookupItem{ucs2: 0xb678, cp949: 0x8cbb},
		lookupItem{ucs2: 0xb679, cp949: 0x8cbc},
		lookupItem{ucs2: 0xb67a, cp949: 0x8cbd},
		lookupItem{ucs2: 0xb67b, cp949: 0x8cbe},
		lookupItem{ucs2: 0xb67c, cp949: 0x8cbf},
		lookupItem{ucs2: 0xb67d, cp949: 0x8cc0},
		lookupItem{ucs2: 0xb67e, cp949: 0x8cc1},
		lookupItem{ucs2: 0xb67f, cp949: 0x8cc2},
		lookupItem{ucs2: 0xb680, cp949: 0x8cc3},
		lookupItem{ucs2: 0xb681, cp949: 0x8cc4},
		lookupItem{ucs2: 0xb682, cp949: 0x8cc5},
		lookupItem{ucs2: 0xb683, cp949: 0x8cc6},
		lookupItem{ucs2: 0xb684, cp949: 0x8cc7},
		lookupItem{ucs2: 0xb685, cp949: 0x8cc8},
		lookupItem{ucs2: 0xb686, cp949: 0x8cc9},
		lookupItem{ucs2: 0xb687, cp949: 0x8cca},
		lookupItem{ucs2: 0xb688, cp949: 0x8ccb},
		lookupItem{ucs2: 0xb689, cp949: 0x8ccc},
		lookupItem{ucs2: 0xb68a, cp949: 0x8ccd},
		lookupItem{ucs2: 0xb68b, cp949: 0x8cce},
		lookupItem{ucs2: 0xb68c, cp949: 0x8ccf},
		lookupItem{ucs2: 0xb68d, cp949: 0x8cd0},
		lookupItem{ucs2: 0xb68e, cp949: 0x8cd1},
		lookupItem{ucs2: 0xb68f, cp949: 0x8cd2},
		lookupItem{ucs2: 0xb690, cp949: 0x8cd3},
		lookupItem{ucs2: 0xb691, cp949: 0x8cd4},
		lookupItem{ucs2: 0xb692, cp949: 0x8cd5},
		lookupItem{ucs2: 0xb693, cp949: 0x8cd6},
		lookupItem{ucs2: 0xb694, cp949: 0x8cd7},
		lookupItem{ucs2: 0xb695, cp949: 0x8cd8},
		lookupItem{ucs2: 0xb696, cp949: 0x8cd9},
		lookupItem{ucs2: 0xb697, cp949: 0x8cda},
		lookupItem{ucs2: 0xb698, cp949: 0x8cdb},
		lookupItem{ucs2: 0xb699, cp949: 0x8cdc},
		lookupItem{ucs2: 0xb69a, cp949: 0x8cdd},
		lookupItem{ucs2: 0xb69b, cp949: 0x8cde},
		lookupItem{ucs2: 0xb69c, cp949: 0xb6d1},
		lookupItem{ucs2: 0xb69d, cp949: 0xb6d2},
		lookupItem{ucs2: 0xb69e, cp949: 0x8cdf},
		lookupItem{ucs2: 0xb69f, cp949: 0x8ce0},
		lookupItem{ucs2: 0xb6a0, cp949: 0xb6d3},
		lookupItem{ucs2: 0xb6a1, cp949: 0x8ce1},
		lookupItem{ucs2: 0xb6a2, cp949: 0x8ce2},
		lookupItem{ucs2: 0xb6a3, cp949: 0x8ce3},
		lookupItem{ucs2: 0xb6a4, cp949: 0xb6d4},
		lookupItem{ucs2: 0xb6a5, cp949: 0x8ce4},
		lookupItem{ucs2: 0xb6a6, cp949: 0x8ce5},
		lookupItem{ucs2: 0xb6a7, cp949: 0x8ce6},
		lookupItem{ucs2: 0xb6a8, cp949: 0x8ce7},
		lookupItem{ucs2: 0xb6a9, cp949: 0x8ce8},
		lookupItem{ucs2: 0xb6aa, cp949: 0x8ce9},
		lookupItem{ucs2: 0xb6ab, cp949: 0xb6d5},
		lookupItem{ucs2: 0xb6ac, cp949: 0xb6d6},
		lookupItem{ucs2: 0xb6ad, cp949: 0x8cea},
".
Definition text_cp949_lookup_to_033 : string :=
"		lookupItem{ucs2: 0xb6ae, cp949: 0x8ceb},
		lookupItem{ucs2: 0xb6af, cp949: 0x8cec},
		lookupItem{ucs2: 0xb6b0, cp949: 0x8ced},
		lookupItem{ucs2: 0xb6b1, cp949: 0xb6d7},
		lookupItem{ucs2: 0xb6b2, cp949: 0x8cee},
		lookupItem{ucs2: 0xb6b3, cp949: 0x8cef},
		lookupItem{ucs2: 0xb6b4, cp949: 0x8cf0},
		lookupItem{ucs2: 0xb6b5, cp949: 0x8cf1},
		lookupItem{ucs2: 0xb6b6, cp949: 0x8cf2},
		lookupItem{ucs2: 0xb6b7, cp949: 0x8cf3},
		lookupItem{ucs2: 0xb6b8, cp949: 0x8cf4},
		lookupItem{ucs2: 0xb6b9, cp949: 0x8cf5},
		lookupItem{ucs2: 0xb6ba, cp949: 0x8cf6},
		lookupItem{ucs2: 0xb6bb, cp949: 0x8cf7},
		lookupItem{ucs2: 0xb6bc, cp949: 0x8cf8},
		lookupItem{ucs2: 0xb6bd, cp949: 0x8cf9},
		lookupItem{ucs2: 0xb6be, cp949: 0x8cfa},
		lookupItem{ucs2: 0xb6bf, cp949: 0x8cfb},
		lookupItem{ucs2: 0xb6c0, cp949: 0x8cfc},
		lookupItem{ucs2: 0xb6c1, cp949: 0x8cfd},
		lookupItem{ucs2: 0xb6c2, cp949: 0x8cfe},
		lookupItem{ucs2: 0xb6c3, cp949: 0x8d41},
		lookupItem{ucs2: 0xb6c4, cp949: 0x8d42},
		lookupItem{ucs2: 0xb6c5, cp949: 0x8d43},
		lookupItem{ucs2: 0xb6c6, cp949: 0x8d44},
		lookupItem{ucs2: 0xb6c7, cp949: 0x8d45},
		lookupItem{ucs2: 0xb6c8, cp949: 0x8d46},
		lookupItem{ucs2: 0xb6c9, cp949: 0x8d47},
		lookupItem{ucs2: 0xb6ca, cp949: 0x8d48},
		lookupItem{ucs2: 0xb6cb, cp949: 0x8d49},
		lookupItem{ucs2: 0xb6cc, cp949: 0x8d4a},
		lookupItem{ucs2: 0xb6cd, cp949: 0x8d4b},
		lookupItem{ucs2: 0xb6ce, cp949: 0x8d4c},
		lookupItem{ucs2: 0xb6cf, cp949: 0x8d4d},
		lookupItem{ucs2: 0xb6d0, cp949: 0x8d4e},
		lookupItem{ucs2: 0xb6d1, cp949: 0x8d4f},
		lookupItem{ucs2: 0xb6d2, cp949: 0x8d50},
		lookupItem{ucs2: 0xb6d3, cp949: 0x8d51},
		lookupItem{ucs2: 0xb6d4, cp949: 0xb6d8},
		lookupItem{ucs2: 0xb6d5, cp949: 0x8d52},
		lookupItem{ucs2: 0xb6d6, cp949: 0x8d53},
		lookupItem{ucs2: 0xb6d7, cp949: 0x8d54},
		lookupItem{ucs2: 0xb6d8, cp949: 0x8d55},
		lookupItem{ucs2: 0xb6d9, cp949: 0x8d56},
		lookupItem{ucs2: 0xb6da, cp949: 0x8d57},
		lookupItem{ucs2: 0xb6db, cp949: 0x8d58},
		lookupItem{ucs2: 0xb6dc, cp949: 0x8d59},
		lookupItem{ucs2: 0xb6dd, cp949: 0x8d5a},
		lookupItem{ucs2: 0xb6de, cp949: 0x8d61},
		lookupItem{ucs2: 0xb6df, cp949: 0x8d62},
		lookupItem{ucs2: 0xb6e0, cp949: 0x8d63},
		lookupItem{ucs2: 0xb6e1, cp949: 0x8d64},
		lookupItem{ucs2: 0xb6e2, cp949: 0x8d65},
		lookupItem{ucs2: 0xb6e3, cp949: 0x8d66},
		lookupItem{ucs2: 0xb6e4, cp949: 0x8d67},
		lookupItem{ucs2: 0xb6e5, cp949: 0x8d68},
		lookupItem{ucs2: 0xb6e6, cp949: 0x8d69},
		lookupItem{ucs2: 0xb6e7, cp949: 0x8d6a},
		lookupItem{ucs2: 0xb6e8, cp949: 0x8d6b},
		lookupItem{ucs2: 0xb6e9, cp949: 0x8d6c},
		lookupItem{ucs2: 0xb6ea, cp949: 0x8d6d},
		lookupItem{ucs2: 0xb6eb, cp949: 0x8d6e},
		lookupItem{ucs2: 0xb6ec, cp949: 0x8d6f},
		lookupItem{ucs2: 0xb6ed, cp949: 0x8d70},
		lookupItem{ucs2: 0xb6ee, cp949: 0x8d71},
		lookupItem{ucs2: 0xb6ef, cp949: 0x8d72},
		lookupItem{ucs2: 0xb6f0, cp949: 0xb6d9},
		lookupItem{ucs2: 0xb6f1, cp949: 0x8d73},
		lookupItem{ucs2: 0xb6f2, cp949: 0x8d74},
		lookupItem{ucs2: 0xb6f3, cp949: 0x8d75},
		lookupItem{ucs2: 0xb6f4, cp949: 0xb6da},
		lookupItem{ucs2: 0xb6f5, cp949: 0x8d76},
		lookupItem{ucs2: 0xb6f6, cp949: 0x8d77},
		lookupItem{ucs2: 0xb6f7, cp949: 0x8d78},
		lookupItem{ucs2: 0xb6f8, cp949: 0xb6db},
		lookupItem{ucs2: 0xb6f9, cp949: 0x8d79},
		lookupItem{ucs2: 0xb6fa, cp949: 0x8d7a},
		lookupItem{ucs2: 0xb6fb, cp949: 0x8d81},
		lookupItem{ucs2: 0xb6fc, cp949: 0x8d82},
		lookupItem{ucs2: 0xb6fd, cp949: 0x8d83},
		lookupItem{ucs2: 0xb6fe, cp949: 0x8d84},
		lookupItem{ucs2: 0xb6ff, cp949: 0x8d85},
		lookupItem{ucs2: 0xb700, cp949: 0xb6dc},
		lookupItem{ucs2: 0xb701, cp949: 0xb6dd},
		lookupItem{ucs2: 0xb702, cp949: 0x8d86},
		lookupItem{ucs2: 0xb703, cp949: 0x8d87},
		lookupItem{ucs2: 0xb704, cp949: 0x8d88},
		lookupItem{ucs2: 0xb705, cp949: 0xb6de},
		lookupItem{ucs2: 0xb706, cp949: 0x8d89},
		lookupItem{ucs2: 0xb707, cp949: 0x8d8a},
		lookupItem{ucs2: 0xb708, cp949: 0x8d8b},
		lookupItem{ucs2: 0xb709, cp949: 0x8d8c},
		lookupItem{ucs2: 0xb70a, cp949: 0x8d8d},
		lookupItem{ucs2: 0xb70b, cp949: 0x8d8e},
		lookupItem{ucs2: 0xb70c, cp949: 0x8d8f},
		lookupItem{ucs2: 0xb70d, cp949: 0x8d90},
		lookupItem{ucs2: 0xb70e, cp949: 0x8d91},
		lookupItem{ucs2: 0xb70f, cp949: 0x8d92},
		lookupItem{ucs2: 0xb710, cp949: 0x8d93},
		lookupItem{ucs2: 0xb711, cp949: 0x8d94},
		lookupItem{ucs2: 0xb712, cp949: 0x8d95},
		lookupItem{ucs2: 0xb713, cp949: 0x8d96},
		lookupItem{ucs2: 0xb714, cp949: 0x8d97},
		lookupItem{ucs2: 0xb715, cp949: 0x8d98},
		lookupItem{ucs2: 0xb716, cp949: 0x8d99},
		lookupItem{ucs2: 0xb717, cp949: 0x8d9a},
		lookupItem{ucs2: 0xb718, cp949: 0x8d9b},
		lookupItem{ucs2: 0xb719, cp949: 0x8d9c},
		lookupItem{ucs2: 0xb71a, cp949: 0x8d9d},
		lookupItem{ucs2: 0xb71b, cp949: 0x8d9e},
		lookupItem{ucs2: 0xb71c, cp949: 0x8d9f},
		lookupItem{ucs2: 0xb71d, cp949: 0x8da0},
		lookupItem{ucs2: 0xb71e, cp949: 0x8da1},
		lookupItem{ucs2: 0xb71f, cp949: 0x8da2},
		lookupItem{ucs2: 0xb720, cp949: 0x8da3},
		lookupItem{ucs2: 0xb721, cp949: 0x8da4},
		lookupItem{ucs2: 0xb722, cp949: 0x8da5},
		lookupItem{ucs2: 0xb723, cp949: 0x8da6},
		lookupItem{ucs2: 0xb724, cp949: 0x8da7},
		lookupItem{ucs2: 0xb725, cp949: 0x8da8},
		lookupItem{ucs2: 0xb726, cp949: 0x8da9},
		lookupItem{ucs2: 0xb727, cp949: 0x8daa},
		lookupItem{ucs2: 0xb728, cp949: 0xb6df},
		lookupItem{ucs2: 0xb729, cp949: 0xb6e0},
		lookupItem{ucs2: 0xb72a, cp949: 0x8dab},
		lookupItem{ucs2: 0xb72b, cp949: 0x8dac},
		lookupItem{ucs2: 0xb72c, cp949: 0xb6e1},
		lookupItem{ucs2: 0xb72d, cp949: 0x8dad},
		lookupItem{ucs2: 0xb72e, cp949: 0x8dae},
		lookupItem{ucs2: 0xb72f, cp949: 0xb6e2},
		lookupItem{ucs2: 0xb730, cp949: 0xb6e3},
		lookupItem{ucs2: 0xb731, cp949: 0x8daf},
		lookupItem{ucs2: 0xb732, cp949: 0x8db0},
		lookupItem{ucs2: 0xb733, cp949: 0x8db1},
		lookupItem{ucs2: 0xb734, cp949: 0x8db2},
		lookupItem{ucs2: 0xb735, cp949: 0x8db3},
		lookupItem{ucs2: 0xb736, cp949: 0x8db4},
		lookupItem{ucs2: 0xb737, cp949: 0x8db5},
		lookupItem{ucs2: 0xb738, cp949: 0xb6e4},
		lookupItem{ucs2: 0xb739, cp949: 0xb6e5},
		lookupItem{ucs2: 0xb73a, cp949: 0x8db6},
		lookupItem{ucs2: 0xb73b, cp949: 0xb6e6},
		lookupItem{ucs2: 0xb73c, cp949: 0x8db7},
		lookupItem{ucs2: 0xb73d, cp949: 0x8db8},
		lookupItem{ucs2: 0xb73e, cp949: 0x8db9},
		lookupItem{ucs2: 0xb73f, cp949: 0x8dba},
		lookupItem{ucs2: 0xb740, cp949: 0x8dbb},
		lookupItem{ucs2: 0xb741, cp949: 0x8dbc},
		lookupItem{ucs2: 0xb742, cp949: 0x8dbd},
		lookupItem{ucs2: 0xb743, cp949: 0x8dbe},
		lookupItem{ucs2: 0xb744, cp949: 0xb6e7},
		lookupItem{ucs2: 0xb745, cp949: 0x8dbf},
		lookupItem{ucs2: 0xb746, cp949: 0x8dc0},
		lookupItem{ucs2: 0xb747, cp949: 0x8dc1},
		lookupItem{ucs2: 0xb748, cp949: 0xb6e8},
		lookupItem{ucs2: 0xb749, cp949: 0x8dc2},
		lookupItem{ucs2: 0xb74a, cp949: 0x8dc3},
		lookupItem{ucs2: 0xb74b, cp949: 0x8dc4},
		lookupItem{ucs2: 0xb74c, cp949: 0xb6e9},
		lookupItem{ucs2: 0xb74d, cp949: 0x8dc5},
		lookupItem{ucs2: 0xb74e, cp949: 0x8dc6},
		lookupItem{ucs2: 0xb74f, cp949: 0x8dc7},
		lookupItem{ucs2: 0xb750, cp949: 0x8dc8},
		lookupItem{ucs2: 0xb751, cp949: 0x8dc9},
		lookupItem{ucs2: 0xb752, cp949: 0x8dca},
		lookupItem{ucs2: 0xb753, cp949: 0x8dcb},
		lookupItem{ucs2: 0xb754, cp949: 0xb6ea},
		lookupItem{ucs2: 0xb755, cp949: 0xb6eb},
		lookupItem{ucs2: 0xb756, cp949: 0x8dcc},
		lookupItem{ucs2: 0xb757, cp949: 0x8dcd},
		lookupItem{ucs2: 0xb758, cp949: 0x8dce},
		lookupItem{ucs2: 0xb759, cp949: 0x8dcf},
		lookupItem{ucs2: 0xb75a, cp949: 0x8dd0},
		lookupItem{ucs2: 0xb75b, cp949: 0x8dd1},
		lookupItem{ucs2: 0xb75c, cp949: 0x8dd2},
		lookupItem{ucs2: 0xb75d, cp949: 0x8dd3},
		lookupItem{ucs2: 0xb75e, cp949: 0x8dd4},
		lookupItem{ucs2: 0xb75f, cp949: 0x8dd5},
		lookupItem{ucs2: 0xb760, cp949: 0xb6ec},
		lookupItem{ucs2: 0xb761, cp949: 0x8dd6},
		lookupItem{ucs2: 0xb762, cp949: 0x8dd7},
		lookupItem{ucs2: 0xb763, cp949: 0x8dd8},
		lookupItem{ucs2: 0xb764, cp949: 0xb6ed},
		lookupItem{ucs2: 0xb765, cp949: 0x8dd9},
		lookupItem{ucs2: 0xb766, cp949: 0x8dda},
		lookupItem{ucs2: 0xb767, cp949: 0x8ddb},
		lookupItem{ucs2: 0xb768, cp949: 0xb6ee},
		lookupItem{ucs2: 0xb769, cp949: 0x8ddc},
		lookupItem{ucs2: 0xb76a, cp949: 0x8ddd},
		lookupItem{ucs2: 0xb76b, cp949: 0x8dde},
		lookupItem{ucs2: 0xb76c, cp949: 0x8ddf},
		lookupItem{ucs2: 0xb76d, cp949: 0x8de0},
		lookupItem{ucs2: 0xb76e, cp949: 0x8de1},
		lookupItem{ucs2: 0xb76f, cp949: 0x8de2},
		lookupItem{ucs2: 0xb770, cp949: 0xb6ef},
		lookupItem{ucs2: 0xb771, cp949: 0xb6f0},
		lookupItem{ucs2: 0xb772, cp949: 0x8de3},
		lookupItem{ucs2: 0xb773, cp949: 0xb6f1},
		lookupItem{ucs2: 0xb774, cp949: 0x8de4},
		lookupItem{ucs2: 0xb775, cp949: 0xb6f2},
		lookupItem{ucs2: 0xb776, cp949: 0x8de5},
		lookupItem{ucs2: 0xb777, cp949: 0x8de6},
		lookupItem{ucs2: 0xb778, cp949: 0x8de7},
		lookupItem{ucs2: 0xb779, cp949: 0x8de8},
		lookupItem{ucs2: 0xb77a, cp949: 0x8de9},
		lookupItem{ucs2: 0xb77b, cp949: 0x8dea},
		lookupItem{ucs2: 0xb77c, cp949: 0xb6f3},
		lookupItem{ucs2: 0xb77d, cp949: 0xb6f4},
		lookupItem{ucs2: 0xb77e, cp949: 0x8deb},
		lookupItem{ucs2: 0xb77f, cp949: 0x8dec},
		lookupItem{ucs2: 0xb780, cp949: 0xb6f5},
		lookupItem{ucs2: 0xb781, cp949: 0x8ded},
		lookupItem{ucs2: 0xb782, cp949: 0x8dee},
		lookupItem{ucs2: 0xb783, cp949: 0x8def},
		lookupItem{ucs2: 0xb784, cp949: 0xb6f6},
		lookupItem{ucs2: 0xb785, cp949: 0x8df0},
		lookupItem{ucs2: 0xb786, cp949: 0x8df1},
		lookupItem{ucs2: 0xb787, cp949: 0x8df2},
		lookupItem{ucs2: 0xb788, cp949: 0x8df3},
		lookupItem{ucs2: 0xb789, cp949: 0x8df4},
		lookupItem{ucs2: 0xb78a, cp949: 0x8df5},
		lookupItem{ucs2: 0xb78b, cp949: 0x8df6},
		lookupItem{ucs2: 0xb78c, cp949: 0xb6f7},
		lookupItem{ucs2: 0xb78d, cp949: 0xb6f8},
		lookupItem{ucs2: 0xb78e, cp949: 0x8df7},
		lookupItem{ucs2: 0xb78f, cp949: 0xb6f9},
		lookupItem{ucs2: 0xb790, cp949: 0xb6fa},
		lookupItem{ucs2: 0xb791, cp949: 0xb6fb},
		lookupItem{ucs2: 0xb792, cp949: 0xb6fc},
		lookupItem{ucs2: 0xb793, cp949: 0x8df8},
		lookupItem{ucs2: 0xb794, cp949: 0x8df9},
		lookupItem{ucs2: 0xb795, cp949: 0x8dfa},
		lookupItem{ucs2: 0xb796, cp949: 0xb6fd},
		lookupItem{ucs2: 0xb797, cp949: 0xb6fe},
		lookupItem{ucs2: 0xb798, cp949: 0xb7a1},
		lookupItem{ucs2: 0xb799, cp949: 0xb7a2},
		lookupItem{ucs2: 0xb79a, cp949: 0x8dfb},
		lookupItem{ucs2: 0xb79b, cp949: 0x8dfc},
		lookupItem{ucs2: 0xb79c, cp949: 0xb7a3},
		lookupItem{ucs2: 0xb79d, cp949: 0x8dfd},
		lookupItem{ucs2: 0xb79e, cp949: 0x8dfe},
		lookupItem{ucs2: 0xb79f, cp949: 0x8e41},
		lookupItem{ucs2: 0xb7a0, cp949: 0xb7a4},
		lookupItem{ucs2: 0xb7a1, cp949: 0x8e42},
		lookupItem{ucs2: 0xb7a2, cp949: 0x8e43},
		lookupItem{ucs2: 0xb7a3, cp949: 0x8e44},
		lookupItem{ucs2: 0xb7a4, cp949: 0x8e45},
		lookupItem{ucs2: 0xb7a5, cp949: 0x8e46},
		lookupItem{ucs2: 0xb7a6, cp949: 0x8e47},
		lookupItem{ucs2: 0xb7a7, cp949: 0x8e48},
".
Definition text_cp949_lookup_to_034 : string :=
"		lookupItem{ucs2: 0xb7a8, cp949: 0xb7a5},
		lookupItem{ucs2: 0xb7a9, cp949: 0xb7a6},
		lookupItem{ucs2: 0xb7aa, cp949: 0x8e49},
		lookupItem{ucs2: 0xb7ab, cp949: 0xb7a7},
		lookupItem{ucs2: 0xb7ac, cp949: 0xb7a8},
		lookupItem{ucs2: 0xb7ad, cp949: 0xb7a9},
		lookupItem{ucs2: 0xb7ae, cp949: 0x8e4a},
		lookupItem{ucs2: 0xb7af, cp949: 0x8e4b},
		lookupItem{ucs2: 0xb7b0, cp949: 0x8e4c},
		lookupItem{ucs2: 0xb7b1, cp949: 0x8e4d},
		lookupItem{ucs2: 0xb7b2, cp949: 0x8e4e},
		lookupItem{ucs2: 0xb7b3, cp949: 0x8e4f},
		lookupItem{ucs2: 0xb7b4, cp949: 0xb7aa},
		lookupItem{ucs2: 0xb7b5, cp949: 0xb7ab},
		lookupItem{ucs2: 0xb7b6, cp949: 0x8e50},
		lookupItem{ucs2: 0xb7b7, cp949: 0x8e51},
		lookupItem{ucs2: 0xb7b8, cp949: 0xb7ac},
		lookupItem{ucs2: 0xb7b9, cp949: 0x8e52},
		lookupItem{ucs2: 0xb7ba, cp949: 0x8e53},
		lookupItem{ucs2: 0xb7bb, cp949: 0x8e54},
		lookupItem{ucs2: 0xb7bc, cp949: 0x8e55},
		lookupItem{ucs2: 0xb7bd, cp949: 0x8e56},
		lookupItem{ucs2: 0xb7be, cp949: 0x8e57},
		lookupItem{ucs2: 0xb7bf, cp949: 0x8e58},
		lookupItem{ucs2: 0xb7c0, cp949: 0x8e59},
		lookupItem{ucs2: 0xb7c1, cp949: 0x8e5a},
		lookupItem{ucs2: 0xb7c2, cp949: 0x8e61},
		lookupItem{ucs2: 0xb7c3, cp949: 0x8e62},
		lookupItem{ucs2: 0xb7c4, cp949: 0x8e63},
		lookupItem{ucs2: 0xb7c5, cp949: 0x8e64},
		lookupItem{ucs2: 0xb7c6, cp949: 0x8e65},
		lookupItem{ucs2: 0xb7c7, cp949: 0xb7ad},
		lookupItem{ucs2: 0xb7c8, cp949: 0x8e66},
		lookupItem{ucs2: 0xb7c9, cp949: 0xb7ae},
		lookupItem{ucs2: 0xb7ca, cp949: 0x8e67},
		lookupItem{ucs2: 0xb7cb, cp949: 0x8e68},
		lookupItem{ucs2: 0xb7cc, cp949: 0x8e69},
		lookupItem{ucs2: 0xb7cd, cp949: 0x8e6a},
		lookupItem{ucs2: 0xb7ce, cp949: 0x8e6b},
		lookupItem{ucs2: 0xb7cf, cp949: 0x8e6c},
		lookupItem{ucs2: 0xb7d0, cp949: 0x8e6d},
		lookupItem{ucs2: 0xb7d1, cp949: 0x8e6e},
		lookupItem{ucs2: 0xb7d2, cp949: 0x8e6f},
		lookupItem{ucs2: 0xb7d3, cp949: 0x8e70},
		lookupItem{ucs2: 0xb7d4, cp949: 0x8e71},
		lookupItem{ucs2: 0xb7d5, cp949: 0x8e72},
		lookupItem{ucs2: 0xb7d6, cp949: 0x8e73},
		lookupItem{ucs2: 0xb7d7, cp949: 0x8e74},
		lookupItem{ucs2: 0xb7d8, cp949: 0x8e75},
		lookupItem{ucs2: 0xb7d9, cp949: 0x8e76},
		lookupItem{ucs2: 0xb7da, cp949: 0x8e77},
		lookupItem{ucs2: 0xb7db, cp949: 0x8e78},
		lookupItem{ucs2: 0xb7dc, cp949: 0x8e79},
		lookupItem{ucs2: 0xb7dd, cp949: 0x8e7a},
		lookupItem{ucs2: 0xb7de, cp949: 0x8e81},
		lookupItem{ucs2: 0xb7df, cp949: 0x8e82},
		lookupItem{ucs2: 0xb7e0, cp949: 0x8e83},
		lookupItem{ucs2: 0xb7e1, cp949: 0x8e84},
		lookupItem{ucs2: 0xb7e2, cp949: 0x8e85},
		lookupItem{ucs2: 0xb7e3, cp949: 0x8e86},
		lookupItem{ucs2: 0xb7e4, cp949: 0x8e87},
		lookupItem{ucs2: 0xb7e5, cp949: 0x8e88},
		lookupItem{ucs2: 0xb7e6, cp949: 0x8e89},
		lookupItem{ucs2: 0xb7e7, cp949: 0x8e8a},
		lookupItem{ucs2: 0xb7e8, cp949: 0x8e8b},
		lookupItem{ucs2: 0xb7e9, cp949: 0x8e8c},
		lookupItem{ucs2: 0xb7ea, cp949: 0x8e8d},
		lookupItem{ucs2: 0xb7eb, cp949: 0x8e8e},
		lookupItem{ucs2: 0xb7ec, cp949: 0xb7af},
		lookupItem{ucs2: 0xb7ed, cp949: 0xb7b0},
		lookupItem{ucs2: 0xb7ee, cp949: 0x8e8f},
		lookupItem{ucs2: 0xb7ef, cp949: 0x8e90},
		lookupItem{ucs2: 0xb7f0, cp949: 0xb7b1},
		lookupItem{ucs2: 0xb7f1, cp949: 0x8e91},
		lookupItem{ucs2: 0xb7f2, cp949: 0x8e92},
		lookupItem{ucs2: 0xb7f3, cp949: 0x8e93},
		lookupItem{ucs2: 0xb7f4, cp949: 0xb7b2},
		lookupItem{ucs2: 0xb7f5, cp949: 0x8e94},
		lookupItem{ucs2: 0xb7f6, cp949: 0x8e95},
		lookupItem{ucs2: 0xb7f7, cp949: 0x8e96},
		lookupItem{ucs2: 0xb7f8, cp949: 0x8e97},
		lookupItem{ucs2: 0xb7f9, cp949: 0x8e98},
		lookupItem{ucs2: 0xb7fa, cp949: 0x8e99},
		lookupItem{ucs2: 0xb7fb, cp949: 0x8e9a},
		lookupItem{ucs2: 0xb7fc, cp949: 0xb7b3},
		lookupItem{ucs2: 0xb7fd, cp949: 0xb7b4},
		lookupItem{ucs2: 0xb7fe, cp949: 0x8e9b},
		lookupItem{ucs2: 0xb7ff, cp949: 0xb7b5},
		lookupItem{ucs2: 0xb800, cp949: 0xb7b6},
		lookupItem{ucs2: 0xb801, cp949: 0xb7b7},
		lookupItem{ucs2: 0xb802, cp949: 0x8e9c},
		lookupItem{ucs2: 0xb803, cp949: 0x8e9d},
		lookupItem{ucs2: 0xb804, cp949: 0x8e9e},
		lookupItem{ucs2: 0xb805, cp949: 0x8e9f},
		lookupItem{ucs2: 0xb806, cp949: 0x8ea0},
		lookupItem{ucs2: 0xb807, cp949: 0xb7b8},
		lookupItem{ucs2: 0xb808, cp949: 0xb7b9},
		lookupItem{ucs2: 0xb809, cp949: 0xb7ba},
		lookupItem{ucs2: 0xb80a, cp949: 0x8ea1},
		lookupItem{ucs2: 0xb80b, cp949: 0x8ea2},
		lookupItem{ucs2: 0xb80c, cp949: 0xb7bb},
		lookupItem{ucs2: 0xb80d, cp949: 0x8ea3},
		lookupItem{ucs2: 0xb80e, cp949: 0x8ea4},
		lookupItem{ucs2: 0xb80f, cp949: 0x8ea5},
		lookupItem{ucs2: 0xb810, cp949: 0xb7bc},
		lookupItem{ucs2: 0xb811, cp949: 0x8ea6},
		lookupItem{ucs2: 0xb812, cp949: 0x8ea7},
		lookupItem{ucs2: 0xb813, cp949: 0x8ea8},
		lookupItem{ucs2: 0xb814, cp949: 0x8ea9},
		lookupItem{ucs2: 0xb815, cp949: 0x8eaa},
		lookupItem{ucs2: 0xb816, cp949: 0x8eab},
		lookupItem{ucs2: 0xb817, cp949: 0x8eac},
		lookupItem{ucs2: 0xb818, cp949: 0xb7bd},
		lookupItem{ucs2: 0xb819, cp949: 0xb7be},
		lookupItem{ucs2: 0xb81a, cp949: 0x8ead},
		lookupItem{ucs2: 0xb81b, cp949: 0xb7bf},
		lookupItem{ucs2: 0xb81c, cp949: 0x8eae},
		lookupItem{ucs2: 0xb81d, cp949: 0xb7c0},
		lookupItem{ucs2: 0xb81e, cp949: 0x8eaf},
		lookupItem{ucs2: 0xb81f, cp949: 0x8eb0},
		lookupItem{ucs2: 0xb820, cp949: 0x8eb1},
		lookupItem{ucs2: 0xb821, cp949: 0x8eb2},
		lookupItem{ucs2: 0xb822, cp949: 0x8eb3},
		lookupItem{ucs2: 0xb823, cp949: 0x8eb4},
		lookupItem{ucs2: 0xb824, cp949: 0xb7c1},
		lookupItem{ucs2: 0xb825, cp949: 0xb7c2},
		lookupItem{ucs2: 0xb826, cp949: 0x8eb5},
		lookupItem{ucs2: 0xb827, cp949: 0x8eb6},
		lookupItem{ucs2: 0xb828, cp949: 0xb7c3},
		lookupItem{ucs2: 0xb829, cp949: 0x8eb7},
		lookupItem{ucs2: 0xb82a, cp949: 0x8eb8},
		lookupItem{ucs2: 0xb82b, cp949: 0x8eb9},
		lookupItem{ucs2: 0xb82c, cp949: 0xb7c4},
		lookupItem{ucs2: 0xb82d, cp949: 0x8eba},
		lookupItem{ucs2: 0xb82e, cp949: 0x8ebb},
		lookupItem{ucs2: 0xb82f, cp949: 0x8ebc},
		lookupItem{ucs2: 0xb830, cp949: 0x8ebd},
		lookupItem{ucs2: 0xb831, cp949: 0x8ebe},
		lookupItem{ucs2: 0xb832, cp949: 0x8ebf},
		lookupItem{ucs2: 0xb833, cp949: 0x8ec0},
		lookupItem{ucs2: 0xb834, cp949: 0xb7c5},
		lookupItem{ucs2: 0xb835, cp949: 0xb7c6},
		lookupItem{ucs2: 0xb836, cp949: 0x8ec1},
		lookupItem{ucs2: 0xb837, cp949: 0xb7c7},
		lookupItem{ucs2: 0xb838, cp949: 0xb7c8},
		lookupItem{ucs2: 0xb839, cp949: 0xb7c9},
		lookupItem{ucs2: 0xb83a, cp949: 0x8ec2},
		lookupItem{ucs2: 0xb83b, cp949: 0x8ec3},
		lookupItem{ucs2: 0xb83c, cp949: 0x8ec4},
		lookupItem{ucs2: 0xb83d, cp949: 0x8ec5},
		lookupItem{ucs2: 0xb83e, cp949: 0x8ec6},
		lookupItem{ucs2: 0xb83f, cp949: 0x8ec7},
		lookupItem{ucs2: 0xb840, cp949: 0xb7ca},
		lookupItem{ucs2: 0xb841, cp949: 0x8ec8},
		lookupItem{ucs2: 0xb842, cp949: 0x8ec9},
		lookupItem{ucs2: 0xb843, cp949: 0x8eca},
		lookupItem{ucs2: 0xb844, cp949: 0xb7cb},
		lookupItem{ucs2: 0xb845, cp949: 0x8ecb},
		lookupItem{ucs2: 0xb846, cp949: 0x8ecc},
		lookupItem{ucs2: 0xb847, cp949: 0x8ecd},
		lookupItem{ucs2: 0xb848, cp949: 0x8ece},
		lookupItem{ucs2: 0xb849, cp949: 0x8ecf},
		lookupItem{ucs2: 0xb84a, cp949: 0x8ed0},
		lookupItem{ucs2: 0xb84b, cp949: 0x8ed1},
		lookupItem{ucs2: 0xb84c, cp949: 0x8ed2},
		lookupItem{ucs2: 0xb84d, cp949: 0x8ed3},
		lookupItem{ucs2: 0xb84e, cp949: 0x8ed4},
		lookupItem{ucs2: 0xb84f, cp949: 0x8ed5},
		lookupItem{ucs2: 0xb850, cp949: 0x8ed6},
		lookupItem{ucs2: 0xb851, cp949: 0xb7cc},
		lookupItem{ucs2: 0xb852, cp949: 0x8ed7},
		lookupItem{ucs2: 0xb853, cp949: 0xb7cd},
		lookupItem{ucs2: 0xb854, cp949: 0x8ed8},
		lookupItem{ucs2: 0xb855, cp949: 0x8ed9},
		lookupItem{ucs2: 0xb856, cp949: 0x8eda},
		lookupItem{ucs2: 0xb857, cp949: 0x8edb},
		lookupItem{ucs2: 0xb858, cp949: 0x8edc},
		lookupItem{ucs2: 0xb859, cp949: 0x8edd},
		lookupItem{ucs2: 0xb85a, cp949: 0x8ede},
		lookupItem{ucs2: 0xb85b, cp949: 0x8edf},
		lookupItem{ucs2: 0xb85c, cp949: 0xb7ce},
		lookupItem{ucs2: 0xb85d, cp949: 0xb7cf},
		lookupItem{ucs2: 0xb85e, cp949: 0x8ee0},
		lookupItem{ucs2: 0xb85f, cp949: 0x8ee1},
		lookupItem{ucs2: 0xb860, cp949: 0xb7d0},
		lookupItem{ucs2: 0xb861, cp949: 0x8ee2},
		lookupItem{ucs2: 0xb862, cp949: 0x8ee3},
		lookupItem{ucs2: 0xb863, cp949: 0x8ee4},
		lookupItem{ucs2: 0xb864, cp949: 0xb7d1},
		lookupItem{ucs2: 0xb865, cp949: 0x8ee5},
		lookupItem{ucs2: 0xb866, cp949: 0x8ee6},
		lookupItem{ucs2: 0xb867, cp949: 0x8ee7},
		lookupItem{ucs2: 0xb868, cp949: 0x8ee8},
		lookupItem{ucs2: 0xb869, cp949: 0x8ee9},
		lookupItem{ucs2: 0xb86a, cp949: 0x8eea},
		lookupItem{ucs2: 0xb86b, cp949: 0x8eeb},
		lookupItem{ucs2: 0xb86c, cp949: 0xb7d2},
		lookupItem{ucs2: 0xb86d, cp949: 0xb7d3},
		lookupItem{ucs2: 0xb86e, cp949: 0x8eec},
		lookupItem{ucs2: 0xb86f, cp949: 0xb7d4},
		lookupItem{ucs2: 0xb870, cp949: 0x8eed},
		lookupItem{ucs2: 0xb871, cp949: 0xb7d5},
		lookupItem{ucs2: 0xb872, cp949: 0x8eee},
		lookupItem{ucs2: 0xb873, cp949: 0x8eef},
		lookupItem{ucs2: 0xb874, cp949: 0x8ef0},
		lookupItem{ucs2: 0xb875, cp949: 0x8ef1},
		lookupItem{ucs2: 0xb876, cp949: 0x8ef2},
		lookupItem{ucs2: 0xb877, cp949: 0x8ef3},
		lookupItem{ucs2: 0xb878, cp949: 0xb7d6},
		lookupItem{ucs2: 0xb879, cp949: 0x8ef4},
		lookupItem{ucs2: 0xb87a, cp949: 0x8ef5},
		lookupItem{ucs2: 0xb87b, cp949: 0x8ef6},
		lookupItem{ucs2: 0xb87c, cp949: 0xb7d7},
		lookupItem{ucs2: 0xb87d, cp949: 0x8ef7},
		lookupItem{ucs2: 0xb87e, cp949: 0x8ef8},
		lookupItem{ucs2: 0xb87f, cp949: 0x8ef9},
		lookupItem{ucs2: 0xb880, cp949: 0x8efa},
		lookupItem{ucs2: 0xb881, cp949: 0x8efb},
		lookupItem{ucs2: 0xb882, cp949: 0x8efc},
		lookupItem{ucs2: 0xb883, cp949: 0x8efd},
		lookupItem{ucs2: 0xb884, cp949: 0x8efe},
		lookupItem{ucs2: 0xb885, cp949: 0x8f41},
		lookupItem{ucs2: 0xb886, cp949: 0x8f42},
		lookupItem{ucs2: 0xb887, cp949: 0x8f43},
		lookupItem{ucs2: 0xb888, cp949: 0x8f44},
		lookupItem{ucs2: 0xb889, cp949: 0x8f45},
		lookupItem{ucs2: 0xb88a, cp949: 0x8f46},
		lookupItem{ucs2: 0xb88b, cp949: 0x8f47},
		lookupItem{ucs2: 0xb88c, cp949: 0x8f48},
		lookupItem{ucs2: 0xb88d, cp949: 0xb7d8},
		lookupItem{ucs2: 0xb88e, cp949: 0x8f49},
		lookupItem{ucs2: 0xb88f, cp949: 0x8f4a},
		lookupItem{ucs2: 0xb890, cp949: 0x8f4b},
		lookupItem{ucs2: 0xb891, cp949: 0x8f4c},
		lookupItem{ucs2: 0xb892, cp949: 0x8f4d},
		lookupItem{ucs2: 0xb893, cp949: 0x8f4e},
		lookupItem{ucs2: 0xb894, cp949: 0x8f4f},
		lookupItem{ucs2: 0xb895, cp949: 0x8f50},
		lookupItem{ucs2: 0xb896, cp949: 0x8f51},
		lookupItem{ucs2: 0xb897, cp949: 0x8f52},
		lookupItem{ucs2: 0xb898, cp949: 0x8f53},
		lookupItem{ucs2: 0xb899, cp949: 0x8f54},
		lookupItem{ucs2: 0xb89a, cp949: 0x8f55},
		lookupItem{ucs2: 0xb89b, cp949: 0x8f56},
		lookupItem{ucs2: 0xb89c, cp949: 0x8f57},
		lookupItem{ucs2: 0xb89d, cp949: 0x8f58},
		lookupItem{ucs2: 0xb89e, cp949: 0x8f59},
		lookupItem{ucs2: 0xb89f, cp949: 0x8f5a},
		lookupItem{ucs2: 0xb8a0, cp949: 0x8f61},
		lookupItem{ucs2: 0xb8a1, cp949: 0x8f62},
".
Definition text_cp949_lookup_to_035 : string :=
"		lookupItem{ucs2: 0xb8a2, cp949: 0x8f63},
		lookupItem{ucs2: 0xb8a3, cp949: 0x8f64},
		lookupItem{ucs2: 0xb8a4, cp949: 0x8f65},
		lookupItem{ucs2: 0xb8a5, cp949: 0x8f66},
		lookupItem{ucs2: 0xb8a6, cp949: 0x8f67},
		lookupItem{ucs2: 0xb8a7, cp949: 0x8f68},
		lookupItem{ucs2: 0xb8a8, cp949: 0xb7d9},
		lookupItem{ucs2: 0xb8a9, cp949: 0x8f69},
		lookupItem{ucs2: 0xb8aa, cp949: 0x8f6a},
		lookupItem{ucs2: 0xb8ab, cp949: 0x8f6b},
		lookupItem{ucs2: 0xb8ac, cp949: 0x8f6c},
		lookupItem{ucs2: 0xb8ad, cp949: 0x8f6d},
		lookupItem{ucs2: 0xb8ae, cp949: 0x8f6e},
		lookupItem{ucs2: 0xb8af, cp949: 0x8f6f},
		lookupItem{ucs2: 0xb8b0, cp949: 0xb7da},
		lookupItem{ucs2: 0xb8b1, cp949: 0x8f70},
		lookupItem{ucs2: 0xb8b2, cp949: 0x8f71},
		lookupItem{ucs2: 0xb8b3, cp949: 0x8f72},
		lookupItem{ucs2: 0xb8b4, cp949: 0xb7db},
		lookupItem{ucs2: 0xb8b5, cp949: 0x8f73},
		lookupItem{ucs2: 0xb8b6, cp949: 0x8f74},
		lookupItem{ucs2: 0xb8b7, cp949: 0x8f75},
		lookupItem{ucs2: 0xb8b8, cp949: 0xb7dc},
		lookupItem{ucs2: 0xb8b9, cp949: 0x8f76},
		lookupItem{ucs2: 0xb8ba, cp949: 0x8f77},
		lookupItem{ucs2: 0xb8bb, cp949: 0x8f78},
		lookupItem{ucs2: 0xb8bc, cp949: 0x8f79},
		lookupItem{ucs2: 0xb8bd, cp949: 0x8f7a},
		lookupItem{ucs2: 0xb8be, cp949: 0x8f81},
		lookupItem{ucs2: 0xb8bf, cp949: 0x8f82},
		lookupItem{ucs2: 0xb8c0, cp949: 0xb7dd},
		lookupItem{ucs2: 0xb8c1, cp949: 0xb7de},
		lookupItem{ucs2: 0xb8c2, cp949: 0x8f83},
		lookupItem{ucs2: 0xb8c3, cp949: 0xb7df},
		lookupItem{ucs2: 0xb8c4, cp949: 0x8f84},
		lookupItem{ucs2: 0xb8c5, cp949: 0xb7e0},
		lookupItem{ucs2: 0xb8c6, cp949: 0x8f85},
		lookupItem{ucs2: 0xb8c7, cp949: 0x8f86},
		lookupItem{ucs2: 0xb8c8, cp949: 0x8f87},
		lookupItem{ucs2: 0xb8c9, cp949: 0x8f88},
		lookupItem{ucs2: 0xb8ca, cp949: 0x8f89},
		lookupItem{ucs2: 0xb8cb, cp949: 0x8f8a},
		lookupItem{ucs2: 0xb8cc, cp949: 0xb7e1},
		lookupItem{ucs2: 0xb8cd, cp949: 0x8f8b},
		lookupItem{ucs2: 0xb8ce, cp949: 0x8f8c},
		lookupItem{ucs2: 0xb8cf, cp949: 0x8f8d},
		lookupItem{ucs2: 0xb8d0, cp949: 0xb7e2},
		lookupItem{ucs2: 0xb8d1, cp949: 0x8f8e},
		lookupItem{ucs2: 0xb8d2, cp949: 0x8f8f},
		lookupItem{ucs2: 0xb8d3, cp949: 0x8f90},
		lookupItem{ucs2: 0xb8d4, cp949: 0xb7e3},
		lookupItem{ucs2: 0xb8d5, cp949: 0x8f91},
		lookupItem{ucs2: 0xb8d6, cp949: 0x8f92},
		lookupItem{ucs2: 0xb8d7, cp949: 0x8f93},
		lookupItem{ucs2: 0xb8d8, cp949: 0x8f94},
		lookupItem{ucs2: 0xb8d9, cp949: 0x8f95},
		lookupItem{ucs2: 0xb8da, cp949: 0x8f96},
		lookupItem{ucs2: 0xb8db, cp949: 0x8f97},
		lookupItem{ucs2: 0xb8dc, cp949: 0x8f98},
		lookupItem{ucs2: 0xb8dd, cp949: 0xb7e4},
		lookupItem{ucs2: 0xb8de, cp949: 0x8f99},
		lookupItem{ucs2: 0xb8df, cp949: 0xb7e5},
		lookupItem{ucs2: 0xb8e0, cp949: 0x8f9a},
		lookupItem{ucs2: 0xb8e1, cp949: 0xb7e6},
		lookupItem{ucs2: 0xb8e2, cp949: 0x8f9b},
		lookupItem{ucs2: 0xb8e3, cp949: 0x8f9c},
		lookupItem{ucs2: 0xb8e4, cp949: 0x8f9d},
		lookupItem{ucs2: 0xb8e5, cp949: 0x8f9e},
		lookupItem{ucs2: 0xb8e6, cp949: 0x8f9f},
		lookupItem{ucs2: 0xb8e7, cp949: 0x8fa0},
		lookupItem{ucs2: 0xb8e8, cp949: 0xb7e7},
		lookupItem{ucs2: 0xb8e9, cp949: 0xb7e8},
		lookupItem{ucs2: 0xb8ea, cp949: 0x8fa1},
		lookupItem{ucs2: 0xb8eb, cp949: 0x8fa2},
		lookupItem{ucs2: 0xb8ec, cp949: 0xb7e9},
		lookupItem{ucs2: 0xb8ed, cp949: 0x8fa3},
		lookupItem{ucs2: 0xb8ee, cp949: 0x8fa4},
		lookupItem{ucs2: 0xb8ef, cp949: 0x8fa5},
		lookupItem{ucs2: 0xb8f0, cp949: 0xb7ea},
		lookupItem{ucs2: 0xb8f1, cp949: 0x8fa6},
		lookupItem{ucs2: 0xb8f2, cp949: 0x8fa7},
		lookupItem{ucs2: 0xb8f3, cp949: 0x8fa8},
		lookupItem{ucs2: 0xb8f4, cp949: 0x8fa9},
		lookupItem{ucs2: 0xb8f5, cp949: 0x8faa},
		lookupItem{ucs2: 0xb8f6, cp949: 0x8fab},
		lookupItem{ucs2: 0xb8f7, cp949: 0x8fac},
		lookupItem{ucs2: 0xb8f8, cp949: 0xb7eb},
		lookupItem{ucs2: 0xb8f9, cp949: 0xb7ec},
		lookupItem{ucs2: 0xb8fa, cp949: 0x8fad},
		lookupItem{ucs2: 0xb8fb, cp949: 0xb7ed},
		lookupItem{ucs2: 0xb8fc, cp949: 0x8fae},
		lookupItem{ucs2: 0xb8fd, cp949: 0xb7ee},
		lookupItem{ucs2: 0xb8fe, cp949: 0x8faf},
		lookupItem{ucs2: 0xb8ff, cp949: 0x8fb0},
		lookupItem{ucs2: 0xb900, cp949: 0x8fb1},
		lookupItem{ucs2: 0xb901, cp949: 0x8fb2},
		lookupItem{ucs2: 0xb902, cp949: 0x8fb3},
		lookupItem{ucs2: 0xb903, cp949: 0x8fb4},
		lookupItem{ucs2: 0xb904, cp949: 0xb7ef},
		lookupItem{ucs2: 0xb905, cp949: 0x8fb5},
		lookupItem{ucs2: 0xb906, cp949: 0x8fb6},
		lookupItem{ucs2: 0xb907, cp949: 0x8fb7},
		lookupItem{ucs2: 0xb908, cp949: 0x8fb8},
		lookupItem{ucs2: 0xb909, cp949: 0x8fb9},
		lookupItem{ucs2: 0xb90a, cp949: 0x8fba},
		lookupItem{ucs2: 0xb90b, cp949: 0x8fbb},
		lookupItem{ucs2: 0xb90c, cp949: 0x8fbc},
		lookupItem{ucs2: 0xb90d, cp949: 0x8fbd},
		lookupItem{ucs2: 0xb90e, cp949: 0x8fbe},
		lookupItem{ucs2: 0xb90f, cp949: 0x8fbf},
		lookupItem{ucs2: 0xb910, cp949: 0x8fc0},
		lookupItem{ucs2: 0xb911, cp949: 0x8fc1},
		lookupItem{ucs2: 0xb912, cp949: 0x8fc2},
		lookupItem{ucs2: 0xb913, cp949: 0x8fc3},
		lookupItem{ucs2: 0xb914, cp949: 0x8fc4},
		lookupItem{ucs2: 0xb915, cp949: 0x8fc5},
		lookupItem{ucs2: 0xb916, cp949: 0x8fc6},
		lookupItem{ucs2: 0xb917, cp949: 0x8fc7},
		lookupItem{ucs2: 0xb918, cp949: 0xb7f0},
		lookupItem{ucs2: 0xb919, cp949: 0x8fc8},
		lookupItem{ucs2: 0xb91a, cp949: 0x8fc9},
		lookupItem{ucs2: 0xb91b, cp949: 0x8fca},
		lookupItem{ucs2: 0xb91c, cp949: 0x8fcb},
		lookupItem{ucs2: 0xb91d, cp949: 0x8fcc},
		lookupItem{ucs2: 0xb91e, cp949: 0x8fcd},
		lookupItem{ucs2: 0xb91f, cp949: 0x8fce},
		lookupItem{ucs2: 0xb920, cp949: 0xb7f1},
		lookupItem{ucs2: 0xb921, cp949: 0x8fcf},
		lookupItem{ucs2: 0xb922, cp949: 0x8fd0},
		lookupItem{ucs2: 0xb923, cp949: 0x8fd1},
		lookupItem{ucs2: 0xb924, cp949: 0x8fd2},
		lookupItem{ucs2: 0xb925, cp949: 0x8fd3},
		lookupItem{ucs2: 0xb926, cp949: 0x8fd4},
		lookupItem{ucs2: 0xb927, cp949: 0x8fd5},
		lookupItem{ucs2: 0xb928, cp949: 0x8fd6},
		lookupItem{ucs2: 0xb929, cp949: 0x8fd7},
		lookupItem{ucs2: 0xb92a, cp949: 0x8fd8},
		lookupItem{ucs2: 0xb92b, cp949: 0x8fd9},
		lookupItem{ucs2: 0xb92c, cp949: 0x8fda},
		lookupItem{ucs2: 0xb92d, cp949: 0x8fdb},
		lookupItem{ucs2: 0xb92e, cp949: 0x8fdc},
		lookupItem{ucs2: 0xb92f, cp949: 0x8fdd},
		lookupItem{ucs2: 0xb930, cp949: 0x8fde},
		lookupItem{ucs2: 0xb931, cp949: 0x8fdf},
		lookupItem{ucs2: 0xb932, cp949: 0x8fe0},
		lookupItem{ucs2: 0xb933, cp949: 0x8fe1},
		lookupItem{ucs2: 0xb934, cp949: 0x8fe2},
		lookupItem{ucs2: 0xb935, cp949: 0x8fe3},
		lookupItem{ucs2: 0xb936, cp949: 0x8fe4},
		lookupItem{ucs2: 0xb937, cp949: 0x8fe5},
		lookupItem{ucs2: 0xb938, cp949: 0x8fe6},
		lookupItem{ucs2: 0xb939, cp949: 0x8fe7},
		lookupItem{ucs2: 0xb93a, cp949: 0x8fe8},
		lookupItem{ucs2: 0xb93b, cp949: 0x8fe9},
		lookupItem{ucs2: 0xb93c, cp949: 0xb7f2},
		lookupItem{ucs2: 0xb93d, cp949: 0xb7f3},
		lookupItem{ucs2: 0xb93e, cp949: 0x8fea},
		lookupItem{ucs2: 0xb93f, cp949: 0x8feb},
		lookupItem{ucs2: 0xb940, cp949: 0xb7f4},
		lookupItem{ucs2: 0xb941, cp949: 0x8fec},
		lookupItem{ucs2: 0xb942, cp949: 0x8fed},
		lookupItem{ucs2: 0xb943, cp949: 0x8fee},
		lookupItem{ucs2: 0xb944, cp949: 0xb7f5},
		lookupItem{ucs2: 0xb945, cp949: 0x8fef},
		lookupItem{ucs2: 0xb946, cp949: 0x8ff0},
		lookupItem{ucs2: 0xb947, cp949: 0x8ff1},
		lookupItem{ucs2: 0xb948, cp949: 0x8ff2},
		lookupItem{ucs2: 0xb949, cp949: 0x8ff3},
		lookupItem{ucs2: 0xb94a, cp949: 0x8ff4},
		lookupItem{ucs2: 0xb94b, cp949: 0x8ff5},
		lookupItem{ucs2: 0xb94c, cp949: 0xb7f6},
		lookupItem{ucs2: 0xb94d, cp949: 0x8ff6},
		lookupItem{ucs2: 0xb94e, cp949: 0x8ff7},
		lookupItem{ucs2: 0xb94f, cp949: 0xb7f7},
		lookupItem{ucs2: 0xb950, cp949: 0x8ff8},
		lookupItem{ucs2: 0xb951, cp949: 0xb7f8},
		lookupItem{ucs2: 0xb952, cp949: 0x8ff9},
		lookupItem{ucs2: 0xb953, cp949: 0x8ffa},
		lookupItem{ucs2: 0xb954, cp949: 0x8ffb},
		lookupItem{ucs2: 0xb955, cp949: 0x8ffc},
		lookupItem{ucs2: 0xb956, cp949: 0x8ffd},
		lookupItem{ucs2: 0xb957, cp949: 0x8ffe},
		lookupItem{ucs2: 0xb958, cp949: 0xb7f9},
		lookupItem{ucs2: 0xb959, cp949: 0xb7fa},
		lookupItem{ucs2: 0xb95a, cp949: 0x9041},
		lookupItem{ucs2: 0xb95b, cp949: 0x9042},
		lookupItem{ucs2: 0xb95c, cp949: 0xb7fb},
		lookupItem{ucs2: 0xb95d, cp949: 0x9043},
		lookupItem{ucs2: 0xb95e, cp949: 0x9044},
		lookupItem{ucs2: 0xb95f, cp949: 0x9045},
		lookupItem{ucs2: 0xb960, cp949: 0xb7fc},
		lookupItem{ucs2: 0xb961, cp949: 0x9046},
		lookupItem{ucs2: 0xb962, cp949: 0x9047},
		lookupItem{ucs2: 0xb963, cp949: 0x9048},
		lookupItem{ucs2: 0xb964, cp949: 0x9049},
		lookupItem{ucs2: 0xb965, cp949: 0x904a},
		lookupItem{ucs2: 0xb966, cp949: 0x904b},
		lookupItem{ucs2: 0xb967, cp949: 0x904c},
		lookupItem{ucs2: 0xb968, cp949: 0xb7fd},
		lookupItem{ucs2: 0xb969, cp949: 0xb7fe},
		lookupItem{ucs2: 0xb96a, cp949: 0x904d},
		lookupItem{ucs2: 0xb96b, cp949: 0xb8a1},
		lookupItem{ucs2: 0xb96c, cp949: 0x904e},
		lookupItem{ucs2: 0xb96d, cp949: 0xb8a2},
		lookupItem{ucs2: 0xb96e, cp949: 0x904f},
		lookupItem{ucs2: 0xb96f, cp949: 0x9050},
		lookupItem{ucs2: 0xb970, cp949: 0x9051},
		lookupItem{ucs2: 0xb971, cp949: 0x9052},
		lookupItem{ucs2: 0xb972, cp949: 0x9053},
		lookupItem{ucs2: 0xb973, cp949: 0x9054},
		lookupItem{ucs2: 0xb974, cp949: 0xb8a3},
		lookupItem{ucs2: 0xb975, cp949: 0xb8a4},
		lookupItem{ucs2: 0xb976, cp949: 0x9055},
		lookupItem{ucs2: 0xb977, cp949: 0x9056},
		lookupItem{ucs2: 0xb978, cp949: 0xb8a5},
		lookupItem{ucs2: 0xb979, cp949: 0x9057},
		lookupItem{ucs2: 0xb97a, cp949: 0x9058},
		lookupItem{ucs2: 0xb97b, cp949: 0x9059},
		lookupItem{ucs2: 0xb97c, cp949: 0xb8a6},
		lookupItem{ucs2: 0xb97d, cp949: 0x905a},
		lookupItem{ucs2: 0xb97e, cp949: 0x9061},
		lookupItem{ucs2: 0xb97f, cp949: 0x9062},
		lookupItem{ucs2: 0xb980, cp949: 0x9063},
		lookupItem{ucs2: 0xb981, cp949: 0x9064},
		lookupItem{ucs2: 0xb982, cp949: 0x9065},
		lookupItem{ucs2: 0xb983, cp949: 0x9066},
		lookupItem{ucs2: 0xb984, cp949: 0xb8a7},
		lookupItem{ucs2: 0xb985, cp949: 0xb8a8},
		lookupItem{ucs2: 0xb986, cp949: 0x9067},
		lookupItem{ucs2: 0xb987, cp949: 0xb8a9},
		lookupItem{ucs2: 0xb988, cp949: 0x9068},
		lookupItem{ucs2: 0xb989, cp949: 0xb8aa},
		lookupItem{ucs2: 0xb98a, cp949: 0xb8ab},
		lookupItem{ucs2: 0xb98b, cp949: 0x9069},
		lookupItem{ucs2: 0xb98c, cp949: 0x906a},
		lookupItem{ucs2: 0xb98d, cp949: 0xb8ac},
		lookupItem{ucs2: 0xb98e, cp949: 0xb8ad},
		lookupItem{ucs2: 0xb98f, cp949: 0x906b},
		lookupItem{ucs2: 0xb990, cp949: 0x906c},
		lookupItem{ucs2: 0xb991, cp949: 0x906d},
		lookupItem{ucs2: 0xb992, cp949: 0x906e},
		lookupItem{ucs2: 0xb993, cp949: 0x906f},
		lookupItem{ucs2: 0xb994, cp949: 0x9070},
		lookupItem{ucs2: 0xb995, cp949: 0x9071},
		lookupItem{ucs2: 0xb996, cp949: 0x9072},
		lookupItem{ucs2: 0xb997, cp949: 0x9073},
		lookupItem{ucs2: 0xb998, cp949: 0x9074},
		lookupItem{ucs2: 0xb999, cp949: 0x9075},
		lookupItem{ucs2: 0xb99a, cp949: 0x9076},
		lookupItem{ucs2: 0xb99b, cp949: 0x9077},
".
Definition text_cp949_lookup_to_036 : string :=
"		lookupItem{ucs2: 0xb99c, cp949: 0x9078},
		lookupItem{ucs2: 0xb99d, cp949: 0x9079},
		lookupItem{ucs2: 0xb99e, cp949: 0x907a},
		lookupItem{ucs2: 0xb99f, cp949: 0x9081},
		lookupItem{ucs2: 0xb9a0, cp949: 0x9082},
		lookupItem{ucs2: 0xb9a1, cp949: 0x9083},
		lookupItem{ucs2: 0xb9a2, cp949: 0x9084},
		lookupItem{ucs2: 0xb9a3, cp949: 0x9085},
		lookupItem{ucs2: 0xb9a4, cp949: 0x9086},
		lookupItem{ucs2: 0xb9a5, cp949: 0x9087},
		lookupItem{ucs2: 0xb9a6, cp949: 0x9088},
		lookupItem{ucs2: 0xb9a7, cp949: 0x9089},
		lookupItem{ucs2: 0xb9a8, cp949: 0x908a},
		lookupItem{ucs2: 0xb9a9, cp949: 0x908b},
		lookupItem{ucs2: 0xb9aa, cp949: 0x908c},
		lookupItem{ucs2: 0xb9ab, cp949: 0x908d},
		lookupItem{ucs2: 0xb9ac, cp949: 0xb8ae},
		lookupItem{ucs2: 0xb9ad, cp949: 0xb8af},
		lookupItem{ucs2: 0xb9ae, cp949: 0x908e},
		lookupItem{ucs2: 0xb9af, cp949: 0x908f},
		lookupItem{ucs2: 0xb9b0, cp949: 0xb8b0},
		lookupItem{ucs2: 0xb9b1, cp949: 0x9090},
		lookupItem{ucs2: 0xb9b2, cp949: 0x9091},
		lookupItem{ucs2: 0xb9b3, cp949: 0x9092},
		lookupItem{ucs2: 0xb9b4, cp949: 0xb8b1},
		lookupItem{ucs2: 0xb9b5, cp949: 0x9093},
		lookupItem{ucs2: 0xb9b6, cp949: 0x9094},
		lookupItem{ucs2: 0xb9b7, cp949: 0x9095},
		lookupItem{ucs2: 0xb9b8, cp949: 0x9096},
		lookupItem{ucs2: 0xb9b9, cp949: 0x9097},
		lookupItem{ucs2: 0xb9ba, cp949: 0x9098},
		lookupItem{ucs2: 0xb9bb, cp949: 0x9099},
		lookupItem{ucs2: 0xb9bc, cp949: 0xb8b2},
		lookupItem{ucs2: 0xb9bd, cp949: 0xb8b3},
		lookupItem{ucs2: 0xb9be, cp949: 0x909a},
		lookupItem{ucs2: 0xb9bf, cp949: 0xb8b4},
		lookupItem{ucs2: 0xb9c0, cp949: 0x909b},
		lookupItem{ucs2: 0xb9c1, cp949: 0xb8b5},
		lookupItem{ucs2: 0xb9c2, cp949: 0x909c},
		lookupItem{ucs2: 0xb9c3, cp949: 0x909d},
		lookupItem{ucs2: 0xb9c4, cp949: 0x909e},
		lookupItem{ucs2: 0xb9c5, cp949: 0x909f},
		lookupItem{ucs2: 0xb9c6, cp949: 0x90a0},
		lookupItem{ucs2: 0xb9c7, cp949: 0x90a1},
		lookupItem{ucs2: 0xb9c8, cp949: 0xb8b6},
		lookupItem{ucs2: 0xb9c9, cp949: 0xb8b7},
		lookupItem{ucs2: 0xb9ca, cp949: 0x90a2},
		lookupItem{ucs2: 0xb9cb, cp949: 0x90a3},
		lookupItem{ucs2: 0xb9cc, cp949: 0xb8b8},
		lookupItem{ucs2: 0xb9cd, cp949: 0x90a4},
		lookupItem{ucs2: 0xb9ce, cp949: 0xb8b9},
		lookupItem{ucs2: 0xb9cf, cp949: 0xb8ba},
		lookupItem{ucs2: 0xb9d0, cp949: 0xb8bb},
		lookupItem{ucs2: 0xb9d1, cp949: 0xb8bc},
		lookupItem{ucs2: 0xb9d2, cp949: 0xb8bd},
		lookupItem{ucs2: 0xb9d3, cp949: 0x90a5},
		lookupItem{ucs2: 0xb9d4, cp949: 0x90a6},
		lookupItem{ucs2: 0xb9d5, cp949: 0x90a7},
		lookupItem{ucs2: 0xb9d6, cp949: 0x90a8},
		lookupItem{ucs2: 0xb9d7, cp949: 0x90a9},
		lookupItem{ucs2: 0xb9d8, cp949: 0xb8be},
		lookupItem{ucs2: 0xb9d9, cp949: 0xb8bf},
		lookupItem{ucs2: 0xb9da, cp949: 0x90aa},
		lookupItem{ucs2: 0xb9db, cp949: 0xb8c0},
		lookupItem{ucs2: 0xb9dc, cp949: 0x90ab},
		lookupItem{ucs2: 0xb9dd, cp949: 0xb8c1},
		lookupItem{ucs2: 0xb9de, cp949: 0xb8c2},
		lookupItem{ucs2: 0xb9df, cp949: 0x90ac},
		lookupItem{ucs2: 0xb9e0, cp949: 0x90ad},
		lookupItem{ucs2: 0xb9e1, cp949: 0xb8c3},
		lookupItem{ucs2: 0xb9e2, cp949: 0x90ae},
		lookupItem{ucs2: 0xb9e3, cp949: 0xb8c4},
		lookupItem{ucs2: 0xb9e4, cp949: 0xb8c5},
		lookupItem{ucs2: 0xb9e5, cp949: 0xb8c6},
		lookupItem{ucs2: 0xb9e6, cp949: 0x90af},
		lookupItem{ucs2: 0xb9e7, cp949: 0x90b0},
		lookupItem{ucs2: 0xb9e8, cp949: 0xb8c7},
		lookupItem{ucs2: 0xb9e9, cp949: 0x90b1},
		lookupItem{ucs2: 0xb9ea, cp949: 0x90b2},
		lookupItem{ucs2: 0xb9eb, cp949: 0x90b3},
		lookupItem{ucs2: 0xb9ec, cp949: 0xb8c8},
		lookupItem{ucs2: 0xb9ed, cp949: 0x90b4},
		lookupItem{ucs2: 0xb9ee, cp949: 0x90b5},
		lookupItem{ucs2: 0xb9ef, cp949: 0x90b6},
		lookupItem{ucs2: 0xb9f0, cp949: 0x90b7},
		lookupItem{ucs2: 0xb9f1, cp949: 0x90b8},
		lookupItem{ucs2: 0xb9f2, cp949: 0x90b9},
		lookupItem{ucs2: 0xb9f3, cp949: 0x90ba},
		lookupItem{ucs2: 0xb9f4, cp949: 0xb8c9},
		lookupItem{ucs2: 0xb9f5, cp949: 0xb8ca},
		lookupItem{ucs2: 0xb9f6, cp949: 0x90bb},
		lookupItem{ucs2: 0xb9f7, cp949: 0xb8cb},
		lookupItem{ucs2: 0xb9f8, cp949: 0xb8cc},
		lookupItem{ucs2: 0xb9f9, cp949: 0xb8cd},
		lookupItem{ucs2: 0xb9fa, cp949: 0xb8ce},
		lookupItem{ucs2: 0xb9fb, cp949: 0x90bc},
		lookupItem{ucs2: 0xb9fc, cp949: 0x90bd},
		lookupItem{ucs2: 0xb9fd, cp949: 0x90be},
		lookupItem{ucs2: 0xb9fe, cp949: 0x90bf},
		lookupItem{ucs2: 0xb9ff, cp949: 0x90c0},
		lookupItem{ucs2: 0xba00, cp949: 0xb8cf},
		lookupItem{ucs2: 0xba01, cp949: 0xb8d0},
		lookupItem{ucs2: 0xba02, cp949: 0x90c1},
		lookupItem{ucs2: 0xba03, cp949: 0x90c2},
		lookupItem{ucs2: 0xba04, cp949: 0x90c3},
		lookupItem{ucs2: 0xba05, cp949: 0x90c4},
		lookupItem{ucs2: 0xba06, cp949: 0x90c5},
		lookupItem{ucs2: 0xba07, cp949: 0x90c6},
		lookupItem{ucs2: 0xba08, cp949: 0xb8d1},
		lookupItem{ucs2: 0xba09, cp949: 0x90c7},
		lookupItem{ucs2: 0xba0a, cp949: 0x90c8},
		lookupItem{ucs2: 0xba0b, cp949: 0x90c9},
		lookupItem{ucs2: 0xba0c, cp949: 0x90ca},
		lookupItem{ucs2: 0xba0d, cp949: 0x90cb},
		lookupItem{ucs2: 0xba0e, cp949: 0x90cc},
		lookupItem{ucs2: 0xba0f, cp949: 0x90cd},
		lookupItem{ucs2: 0xba10, cp949: 0x90ce},
		lookupItem{ucs2: 0xba11, cp949: 0x90cf},
		lookupItem{ucs2: 0xba12, cp949: 0x90d0},
		lookupItem{ucs2: 0xba13, cp949: 0x90d1},
		lookupItem{ucs2: 0xba14, cp949: 0x90d2},
		lookupItem{ucs2: 0xba15, cp949: 0xb8d2},
		lookupItem{ucs2: 0xba16, cp949: 0x90d3},
		lookupItem{ucs2: 0xba17, cp949: 0x90d4},
		lookupItem{ucs2: 0xba18, cp949: 0x90d5},
		lookupItem{ucs2: 0xba19, cp949: 0x90d6},
		lookupItem{ucs2: 0xba1a, cp949: 0x90d7},
		lookupItem{ucs2: 0xba1b, cp949: 0x90d8},
		lookupItem{ucs2: 0xba1c, cp949: 0x90d9},
		lookupItem{ucs2: 0xba1d, cp949: 0x90da},
		lookupItem{ucs2: 0xba1e, cp949: 0x90db},
		lookupItem{ucs2: 0xba1f, cp949: 0x90dc},
		lookupItem{ucs2: 0xba20, cp949: 0x90dd},
		lookupItem{ucs2: 0xba21, cp949: 0x90de},
		lookupItem{ucs2: 0xba22, cp949: 0x90df},
		lookupItem{ucs2: 0xba23, cp949: 0x90e0},
		lookupItem{ucs2: 0xba24, cp949: 0x90e1},
		lookupItem{ucs2: 0xba25, cp949: 0x90e2},
		lookupItem{ucs2: 0xba26, cp949: 0x90e3},
		lookupItem{ucs2: 0xba27, cp949: 0x90e4},
		lookupItem{ucs2: 0xba28, cp949: 0x90e5},
		lookupItem{ucs2: 0xba29, cp949: 0x90e6},
		lookupItem{ucs2: 0xba2a, cp949: 0x90e7},
		lookupItem{ucs2: 0xba2b, cp949: 0x90e8},
		lookupItem{ucs2: 0xba2c, cp949: 0x90e9},
		lookupItem{ucs2: 0xba2d, cp949: 0x90ea},
		lookupItem{ucs2: 0xba2e, cp949: 0x90eb},
		lookupItem{ucs2: 0xba2f, cp949: 0x90ec},
		lookupItem{ucs2: 0xba30, cp949: 0x90ed},
		lookupItem{ucs2: 0xba31, cp949: 0x90ee},
		lookupItem{ucs2: 0xba32, cp949: 0x90ef},
		lookupItem{ucs2: 0xba33, cp949: 0x90f0},
		lookupItem{ucs2: 0xba34, cp949: 0x90f1},
		lookupItem{ucs2: 0xba35, cp949: 0x90f2},
		lookupItem{ucs2: 0xba36, cp949: 0x90f3},
		lookupItem{ucs2: 0xba37, cp949: 0x90f4},
		lookupItem{ucs2: 0xba38, cp949: 0xb8d3},
		lookupItem{ucs2: 0xba39, cp949: 0xb8d4},
		lookupItem{ucs2: 0xba3a, cp949: 0x90f5},
		lookupItem{ucs2: 0xba3b, cp949: 0x90f6},
		lookupItem{ucs2: 0xba3c, cp949: 0xb8d5},
		lookupItem{ucs2: 0xba3d, cp949: 0x90f7},
		lookupItem{ucs2: 0xba3e, cp949: 0x90f8},
		lookupItem{ucs2: 0xba3f, cp949: 0x90f9},
		lookupItem{ucs2: 0xba40, cp949: 0xb8d6},
		lookupItem{ucs2: 0xba41, cp949: 0x90fa},
		lookupItem{ucs2: 0xba42, cp949: 0xb8d7},
		lookupItem{ucs2: 0xba43, cp949: 0x90fb},
		lookupItem{ucs2: 0xba44, cp949: 0x90fc},
		lookupItem{ucs2: 0xba45, cp949: 0x90fd},
		lookupItem{ucs2: 0xba46, cp949: 0x90fe},
		lookupItem{ucs2: 0xba47, cp949: 0x9141},
		lookupItem{ucs2: 0xba48, cp949: 0xb8d8},
		lookupItem{ucs2: 0xba49, cp949: 0xb8d9},
		lookupItem{ucs2: 0xba4a, cp949: 0x9142},
		lookupItem{ucs2: 0xba4b, cp949: 0xb8da},
		lookupItem{ucs2: 0xba4c, cp949: 0x9143},
		lookupItem{ucs2: 0xba4d, cp949: 0xb8db},
		lookupItem{ucs2: 0xba4e, cp949: 0xb8dc},
		lookupItem{ucs2: 0xba4f, cp949: 0x9144},
		lookupItem{ucs2: 0xba50, cp949: 0x9145},
		lookupItem{ucs2: 0xba51, cp949: 0x9146},
		lookupItem{ucs2: 0xba52, cp949: 0x9147},
		lookupItem{ucs2: 0xba53, cp949: 0xb8dd},
		lookupItem{ucs2: 0xba54, cp949: 0xb8de},
		lookupItem{ucs2: 0xba55, cp949: 0xb8df},
		lookupItem{ucs2: 0xba56, cp949: 0x9148},
		lookupItem{ucs2: 0xba57, cp949: 0x9149},
		lookupItem{ucs2: 0xba58, cp949: 0xb8e0},
		lookupItem{ucs2: 0xba59, cp949: 0x914a},
		lookupItem{ucs2: 0xba5a, cp949: 0x914b},
		lookupItem{ucs2: 0xba5b, cp949: 0x914c},
		lookupItem{ucs2: 0xba5c, cp949: 0xb8e1},
		lookupItem{ucs2: 0xba5d, cp949: 0x914d},
		lookupItem{ucs2: 0xba5e, cp949: 0x914e},
		lookupItem{ucs2: 0xba5f, cp949: 0x914f},
		lookupItem{ucs2: 0xba60, cp949: 0x9150},
		lookupItem{ucs2: 0xba61, cp949: 0x9151},
		lookupItem{ucs2: 0xba62, cp949: 0x9152},
		lookupItem{ucs2: 0xba63, cp949: 0x9153},
		lookupItem{ucs2: 0xba64, cp949: 0xb8e2},
		lookupItem{ucs2: 0xba65, cp949: 0xb8e3},
		lookupItem{ucs2: 0xba66, cp949: 0x9154},
		lookupItem{ucs2: 0xba67, cp949: 0xb8e4},
		lookupItem{ucs2: 0xba68, cp949: 0xb8e5},
		lookupItem{ucs2: 0xba69, cp949: 0xb8e6},
		lookupItem{ucs2: 0xba6a, cp949: 0x9155},
		lookupItem{ucs2: 0xba6b, cp949: 0x9156},
		lookupItem{ucs2: 0xba6c, cp949: 0x9157},
		lookupItem{ucs2: 0xba6d, cp949: 0x9158},
		lookupItem{ucs2: 0xba6e, cp949: 0x9159},
		lookupItem{ucs2: 0xba6f, cp949: 0x915a},
		lookupItem{ucs2: 0xba70, cp949: 0xb8e7},
		lookupItem{ucs2: 0xba71, cp949: 0xb8e8},
		lookupItem{ucs2: 0xba72, cp949: 0x9161},
		lookupItem{ucs2: 0xba73, cp949: 0x9162},
		lookupItem{ucs2: 0xba74, cp949: 0xb8e9},
		lookupItem{ucs2: 0xba75, cp949: 0x9163},
		lookupItem{ucs2: 0xba76, cp949: 0x9164},
		lookupItem{ucs2: 0xba77, cp949: 0x9165},
		lookupItem{ucs2: 0xba78, cp949: 0xb8ea},
		lookupItem{ucs2: 0xba79, cp949: 0x9166},
		lookupItem{ucs2: 0xba7a, cp949: 0x9167},
		lookupItem{ucs2: 0xba7b, cp949: 0x9168},
		lookupItem{ucs2: 0xba7c, cp949: 0x9169},
		lookupItem{ucs2: 0xba7d, cp949: 0x916a},
		lookupItem{ucs2: 0xba7e, cp949: 0x916b},
		lookupItem{ucs2: 0xba7f, cp949: 0x916c},
		lookupItem{ucs2: 0xba80, cp949: 0x916d},
		lookupItem{ucs2: 0xba81, cp949: 0x916e},
		lookupItem{ucs2: 0xba82, cp949: 0x916f},
		lookupItem{ucs2: 0xba83, cp949: 0xb8eb},
		lookupItem{ucs2: 0xba84, cp949: 0xb8ec},
		lookupItem{ucs2: 0xba85, cp949: 0xb8ed},
		lookupItem{ucs2: 0xba86, cp949: 0x9170},
		lookupItem{ucs2: 0xba87, cp949: 0xb8ee},
		lookupItem{ucs2: 0xba88, cp949: 0x9171},
		lookupItem{ucs2: 0xba89, cp949: 0x9172},
		lookupItem{ucs2: 0xba8a, cp949: 0x9173},
		lookupItem{ucs2: 0xba8b, cp949: 0x9174},
		lookupItem{ucs2: 0xba8c, cp949: 0xb8ef},
		lookupItem{ucs2: 0xba8d, cp949: 0x9175},
		lookupItem{ucs2: 0xba8e, cp949: 0x9176},
		lookupItem{ucs2: 0xba8f, cp949: 0x9177},
		lookupItem{ucs2: 0xba90, cp949: 0x9178},
		lookupItem{ucs2: 0xba91, cp949: 0x9179},
		lookupItem{ucs2: 0xba92, cp949: 0x917a},
		lookupItem{ucs2: 0xba93, cp949: 0x9181},
		lookupItem{ucs2: 0xba94, cp949: 0x9182},
		lookupItem{ucs2: 0xba95, cp949: 0x9183},
".
Definition text_cp949_lookup_to_037 : string :=
"		lookupItem{ucs2: 0xba96, cp949: 0x9184},
		lookupItem{ucs2: 0xba97, cp949: 0x9185},
		lookupItem{ucs2: 0xba98, cp949: 0x9186},
		lookupItem{ucs2: 0xba99, cp949: 0x9187},
		lookupItem{ucs2: 0xba9a, cp949: 0x9188},
		lookupItem{ucs2: 0xba9b, cp949: 0x9189},
		lookupItem{ucs2: 0xba9c, cp949: 0x918a},
		lookupItem{ucs2: 0xba9d, cp949: 0x918b},
		lookupItem{ucs2: 0xba9e, cp949: 0x918c},
		lookupItem{ucs2: 0xba9f, cp949: 0x918d},
		lookupItem{ucs2: 0xbaa0, cp949: 0x918e},
		lookupItem{ucs2: 0xbaa1, cp949: 0x918f},
		lookupItem{ucs2: 0xbaa2, cp949: 0x9190},
		lookupItem{ucs2: 0xbaa3, cp949: 0x9191},
		lookupItem{ucs2: 0xbaa4, cp949: 0x9192},
		lookupItem{ucs2: 0xbaa5, cp949: 0x9193},
		lookupItem{ucs2: 0xbaa6, cp949: 0x9194},
		lookupItem{ucs2: 0xbaa7, cp949: 0x9195},
		lookupItem{ucs2: 0xbaa8, cp949: 0xb8f0},
		lookupItem{ucs2: 0xbaa9, cp949: 0xb8f1},
		lookupItem{ucs2: 0xbaaa, cp949: 0x9196},
		lookupItem{ucs2: 0xbaab, cp949: 0xb8f2},
		lookupItem{ucs2: 0xbaac, cp949: 0xb8f3},
		lookupItem{ucs2: 0xbaad, cp949: 0x9197},
		lookupItem{ucs2: 0xbaae, cp949: 0x9198},
		lookupItem{ucs2: 0xbaaf, cp949: 0x9199},
		lookupItem{ucs2: 0xbab0, cp949: 0xb8f4},
		lookupItem{ucs2: 0xbab1, cp949: 0x919a},
		lookupItem{ucs2: 0xbab2, cp949: 0xb8f5},
		lookupItem{ucs2: 0xbab3, cp949: 0x919b},
		lookupItem{ucs2: 0xbab4, cp949: 0x919c},
		lookupItem{ucs2: 0xbab5, cp949: 0x919d},
		lookupItem{ucs2: 0xbab6, cp949: 0x919e},
		lookupItem{ucs2: 0xbab7, cp949: 0x919f},
		lookupItem{ucs2: 0xbab8, cp949: 0xb8f6},
		lookupItem{ucs2: 0xbab9, cp949: 0xb8f7},
		lookupItem{ucs2: 0xbaba, cp949: 0x91a0},
		lookupItem{ucs2: 0xbabb, cp949: 0xb8f8},
		lookupItem{ucs2: 0xbabc, cp949: 0x91a1},
		lookupItem{ucs2: 0xbabd, cp949: 0xb8f9},
		lookupItem{ucs2: 0xbabe, cp949: 0x91a2},
		lookupItem{ucs2: 0xbabf, cp949: 0x91a3},
		lookupItem{ucs2: 0xbac0, cp949: 0x91a4},
		lookupItem{ucs2: 0xbac1, cp949: 0x91a5},
		lookupItem{ucs2: 0xbac2, cp949: 0x91a6},
		lookupItem{ucs2: 0xbac3, cp949: 0x91a7},
		lookupItem{ucs2: 0xbac4, cp949: 0xb8fa},
		lookupItem{ucs2: 0xbac5, cp949: 0x91a8},
		lookupItem{ucs2: 0xbac6, cp949: 0x91a9},
		lookupItem{ucs2: 0xbac7, cp949: 0x91aa},
		lookupItem{ucs2: 0xbac8, cp949: 0xb8fb},
		lookupItem{ucs2: 0xbac9, cp949: 0x91ab},
		lookupItem{ucs2: 0xbaca, cp949: 0x91ac},
		lookupItem{ucs2: 0xbacb, cp949: 0x91ad},
		lookupItem{ucs2: 0xbacc, cp949: 0x91ae},
		lookupItem{ucs2: 0xbacd, cp949: 0x91af},
		lookupItem{ucs2: 0xbace, cp949: 0x91b0},
		lookupItem{ucs2: 0xbacf, cp949: 0x91b1},
		lookupItem{ucs2: 0xbad0, cp949: 0x91b2},
		lookupItem{ucs2: 0xbad1, cp949: 0x91b3},
		lookupItem{ucs2: 0xbad2, cp949: 0x91b4},
		lookupItem{ucs2: 0xbad3, cp949: 0x91b5},
		lookupItem{ucs2: 0xbad4, cp949: 0x91b6},
		lookupItem{ucs2: 0xbad5, cp949: 0x91b7},
		lookupItem{ucs2: 0xbad6, cp949: 0x91b8},
		lookupItem{ucs2: 0xbad7, cp949: 0x91b9},
		lookupItem{ucs2: 0xbad8, cp949: 0xb8fc},
		lookupItem{ucs2: 0xbad9, cp949: 0xb8fd},
		lookupItem{ucs2: 0xbada, cp949: 0x91ba},
		lookupItem{ucs2: 0xbadb, cp949: 0x91bb},
		lookupItem{ucs2: 0xbadc, cp949: 0x91bc},
		lookupItem{ucs2: 0xbadd, cp949: 0x91bd},
		lookupItem{ucs2: 0xbade, cp949: 0x91be},
		lookupItem{ucs2: 0xbadf, cp949: 0x91bf},
		lookupItem{ucs2: 0xbae0, cp949: 0x91c0},
		lookupItem{ucs2: 0xbae1, cp949: 0x91c1},
		lookupItem{ucs2: 0xbae2, cp949: 0x91c2},
		lookupItem{ucs2: 0xbae3, cp949: 0x91c3},
		lookupItem{ucs2: 0xbae4, cp949: 0x91c4},
		lookupItem{ucs2: 0xbae5, cp949: 0x91c5},
		lookupItem{ucs2: 0xbae6, cp949: 0x91c6},
		lookupItem{ucs2: 0xbae7, cp949: 0x91c7},
		lookupItem{ucs2: 0xbae8, cp949: 0x91c8},
		lookupItem{ucs2: 0xbae9, cp949: 0x91c9},
		lookupItem{ucs2: 0xbaea, cp949: 0x91ca},
		lookupItem{ucs2: 0xbaeb, cp949: 0x91cb},
		lookupItem{ucs2: 0xbaec, cp949: 0x91cc},
		lookupItem{ucs2: 0xbaed, cp949: 0x91cd},
		lookupItem{ucs2: 0xbaee, cp949: 0x91ce},
		lookupItem{ucs2: 0xbaef, cp949: 0x91cf},
		lookupItem{ucs2: 0xbaf0, cp949: 0x91d0},
		lookupItem{ucs2: 0xbaf1, cp949: 0x91d1},
		lookupItem{ucs2: 0xbaf2, cp949: 0x91d2},
		lookupItem{ucs2: 0xbaf3, cp949: 0x91d3},
		lookupItem{ucs2: 0xbaf4, cp949: 0x91d4},
		lookupItem{ucs2: 0xbaf5, cp949: 0x91d5},
		lookupItem{ucs2: 0xbaf6, cp949: 0x91d6},
		lookupItem{ucs2: 0xbaf7, cp949: 0x91d7},
		lookupItem{ucs2: 0xbaf8, cp949: 0x91d8},
		lookupItem{ucs2: 0xbaf9, cp949: 0x91d9},
		lookupItem{ucs2: 0xbafa, cp949: 0x91da},
		lookupItem{ucs2: 0xbafb, cp949: 0x91db},
		lookupItem{ucs2: 0xbafc, cp949: 0xb8fe},
		lookupItem{ucs2: 0xbafd, cp949: 0x91dc},
		lookupItem{ucs2: 0xbafe, cp949: 0x91dd},
		lookupItem{ucs2: 0xbaff, cp949: 0x91de},
		lookupItem{ucs2: 0xbb00, cp949: 0xb9a1},
		lookupItem{ucs2: 0xbb01, cp949: 0x91df},
		lookupItem{ucs2: 0xbb02, cp949: 0x91e0},
		lookupItem{ucs2: 0xbb03, cp949: 0x91e1},
		lookupItem{ucs2: 0xbb04, cp949: 0xb9a2},
		lookupItem{ucs2: 0xbb05, cp949: 0x91e2},
		lookupItem{ucs2: 0xbb06, cp949: 0x91e3},
		lookupItem{ucs2: 0xbb07, cp949: 0x91e4},
		lookupItem{ucs2: 0xbb08, cp949: 0x91e5},
		lookupItem{ucs2: 0xbb09, cp949: 0x91e6},
		lookupItem{ucs2: 0xbb0a, cp949: 0x91e7},
		lookupItem{ucs2: 0xbb0b, cp949: 0x91e8},
		lookupItem{ucs2: 0xbb0c, cp949: 0x91e9},
		lookupItem{ucs2: 0xbb0d, cp949: 0xb9a3},
		lookupItem{ucs2: 0xbb0e, cp949: 0x91ea},
		lookupItem{ucs2: 0xbb0f, cp949: 0xb9a4},
		lookupItem{ucs2: 0xbb10, cp949: 0x91eb},
		lookupItem{ucs2: 0xbb11, cp949: 0xb9a5},
		lookupItem{ucs2: 0xbb12, cp949: 0x91ec},
		lookupItem{ucs2: 0xbb13, cp949: 0x91ed},
		lookupItem{ucs2: 0xbb14, cp949: 0x91ee},
		lookupItem{ucs2: 0xbb15, cp949: 0x91ef},
		lookupItem{ucs2: 0xbb16, cp949: 0x91f0},
		lookupItem{ucs2: 0xbb17, cp949: 0x91f1},
		lookupItem{ucs2: 0xbb18, cp949: 0xb9a6},
		lookupItem{ucs2: 0xbb19, cp949: 0x91f2},
		lookupItem{ucs2: 0xbb1a, cp949: 0x91f3},
		lookupItem{ucs2: 0xbb1b, cp949: 0x91f4},
		lookupItem{ucs2: 0xbb1c, cp949: 0xb9a7},
		lookupItem{ucs2: 0xbb1d, cp949: 0x91f5},
		lookupItem{ucs2: 0xbb1e, cp949: 0x91f6},
		lookupItem{ucs2: 0xbb1f, cp949: 0x91f7},
		lookupItem{ucs2: 0xbb20, cp949: 0xb9a8},
		lookupItem{ucs2: 0xbb21, cp949: 0x91f8},
		lookupItem{ucs2: 0xbb22, cp949: 0x91f9},
		lookupItem{ucs2: 0xbb23, cp949: 0x91fa},
		lookupItem{ucs2: 0xbb24, cp949: 0x91fb},
		lookupItem{ucs2: 0xbb25, cp949: 0x91fc},
		lookupItem{ucs2: 0xbb26, cp949: 0x91fd},
		lookupItem{ucs2: 0xbb27, cp949: 0x91fe},
		lookupItem{ucs2: 0xbb28, cp949: 0x9241},
		lookupItem{ucs2: 0xbb29, cp949: 0xb9a9},
		lookupItem{ucs2: 0xbb2a, cp949: 0x9242},
		lookupItem{ucs2: 0xbb2b, cp949: 0xb9aa},
		lookupItem{ucs2: 0xbb2c, cp949: 0x9243},
		lookupItem{ucs2: 0xbb2d, cp949: 0x9244},
		lookupItem{ucs2: 0xbb2e, cp949: 0x9245},
		lookupItem{ucs2: 0xbb2f, cp949: 0x9246},
		lookupItem{ucs2: 0xbb30, cp949: 0x9247},
		lookupItem{ucs2: 0xbb31, cp949: 0x9248},
		lookupItem{ucs2: 0xbb32, cp949: 0x9249},
		lookupItem{ucs2: 0xbb33, cp949: 0x924a},
		lookupItem{ucs2: 0xbb34, cp949: 0xb9ab},
		lookupItem{ucs2: 0xbb35, cp949: 0xb9ac},
		lookupItem{ucs2: 0xbb36, cp949: 0xb9ad},
		lookupItem{ucs2: 0xbb37, cp949: 0x924b},
		lookupItem{ucs2: 0xbb38, cp949: 0xb9ae},
		lookupItem{ucs2: 0xbb39, cp949: 0x924c},
		lookupItem{ucs2: 0xbb3a, cp949: 0x924d},
		lookupItem{ucs2: 0xbb3b, cp949: 0xb9af},
		lookupItem{ucs2: 0xbb3c, cp949: 0xb9b0},
		lookupItem{ucs2: 0xbb3d, cp949: 0xb9b1},
		lookupItem{ucs2: 0xbb3e, cp949: 0xb9b2},
		lookupItem{ucs2: 0xbb3f, cp949: 0x924e},
		lookupItem{ucs2: 0xbb40, cp949: 0x924f},
		lookupItem{ucs2: 0xbb41, cp949: 0x9250},
		lookupItem{ucs2: 0xbb42, cp949: 0x9251},
		lookupItem{ucs2: 0xbb43, cp949: 0x9252},
		lookupItem{ucs2: 0xbb44, cp949: 0xb9b3},
		lookupItem{ucs2: 0xbb45, cp949: 0xb9b4},
		lookupItem{ucs2: 0xbb46, cp949: 0x9253},
		lookupItem{ucs2: 0xbb47, cp949: 0xb9b5},
		lookupItem{ucs2: 0xbb48, cp949: 0x9254},
		lookupItem{ucs2: 0xbb49, cp949: 0xb9b6},
		lookupItem{ucs2: 0xbb4a, cp949: 0x9255},
		lookupItem{ucs2: 0xbb4b, cp949: 0x9256},
		lookupItem{ucs2: 0xbb4c, cp949: 0x9257},
		lookupItem{ucs2: 0xbb4d, cp949: 0xb9b7},
		lookupItem{ucs2: 0xbb4e, cp949: 0x9258},
		lookupItem{ucs2: 0xbb4f, cp949: 0xb9b8},
		lookupItem{ucs2: 0xbb50, cp949: 0xb9b9},
		lookupItem{ucs2: 0xbb51, cp949: 0x9259},
		lookupItem{ucs2: 0xbb52, cp949: 0x925a},
		lookupItem{ucs2: 0xbb53, cp949: 0x9261},
		lookupItem{ucs2: 0xbb54, cp949: 0xb9ba},
		lookupItem{ucs2: 0xbb55, cp949: 0x9262},
		lookupItem{ucs2: 0xbb56, cp949: 0x9263},
		lookupItem{ucs2: 0xbb57, cp949: 0x9264},
		lookupItem{ucs2: 0xbb58, cp949: 0xb9bb},
		lookupItem{ucs2: 0xbb59, cp949: 0x9265},
		lookupItem{ucs2: 0xbb5a, cp949: 0x9266},
		lookupItem{ucs2: 0xbb5b, cp949: 0x9267},
		lookupItem{ucs2: 0xbb5c, cp949: 0x9268},
		lookupItem{ucs2: 0xbb5d, cp949: 0x9269},
		lookupItem{ucs2: 0xbb5e, cp949: 0x926a},
		lookupItem{ucs2: 0xbb5f, cp949: 0x926b},
		lookupItem{ucs2: 0xbb60, cp949: 0x926c},
		lookupItem{ucs2: 0xbb61, cp949: 0xb9bc},
		lookupItem{ucs2: 0xbb62, cp949: 0x926d},
		lookupItem{ucs2: 0xbb63, cp949: 0xb9bd},
		lookupItem{ucs2: 0xbb64, cp949: 0x926e},
		lookupItem{ucs2: 0xbb65, cp949: 0x926f},
		lookupItem{ucs2: 0xbb66, cp949: 0x9270},
		lookupItem{ucs2: 0xbb67, cp949: 0x9271},
		lookupItem{ucs2: 0xbb68, cp949: 0x9272},
		lookupItem{ucs2: 0xbb69, cp949: 0x9273},
		lookupItem{ucs2: 0xbb6a, cp949: 0x9274},
		lookupItem{ucs2: 0xbb6b, cp949: 0x9275},
		lookupItem{ucs2: 0xbb6c, cp949: 0xb9be},
		lookupItem{ucs2: 0xbb6d, cp949: 0x9276},
		lookupItem{ucs2: 0xbb6e, cp949: 0x9277},
		lookupItem{ucs2: 0xbb6f, cp949: 0x9278},
		lookupItem{ucs2: 0xbb70, cp949: 0x9279},
		lookupItem{ucs2: 0xbb71, cp949: 0x927a},
		lookupItem{ucs2: 0xbb72, cp949: 0x9281},
		lookupItem{ucs2: 0xbb73, cp949: 0x9282},
		lookupItem{ucs2: 0xbb74, cp949: 0x9283},
		lookupItem{ucs2: 0xbb75, cp949: 0x9284},
		lookupItem{ucs2: 0xbb76, cp949: 0x9285},
		lookupItem{ucs2: 0xbb77, cp949: 0x9286},
		lookupItem{ucs2: 0xbb78, cp949: 0x9287},
		lookupItem{ucs2: 0xbb79, cp949: 0x9288},
		lookupItem{ucs2: 0xbb7a, cp949: 0x9289},
		lookupItem{ucs2: 0xbb7b, cp949: 0x928a},
		lookupItem{ucs2: 0xbb7c, cp949: 0x928b},
		lookupItem{ucs2: 0xbb7d, cp949: 0x928c},
		lookupItem{ucs2: 0xbb7e, cp949: 0x928d},
		lookupItem{ucs2: 0xbb7f, cp949: 0x928e},
		lookupItem{ucs2: 0xbb80, cp949: 0x928f},
		lookupItem{ucs2: 0xbb81, cp949: 0x9290},
		lookupItem{ucs2: 0xbb82, cp949: 0x9291},
		lookupItem{ucs2: 0xbb83, cp949: 0x9292},
		lookupItem{ucs2: 0xbb84, cp949: 0x9293},
		lookupItem{ucs2: 0xbb85, cp949: 0x9294},
		lookupItem{ucs2: 0xbb86, cp949: 0x9295},
		lookupItem{ucs2: 0xbb87, cp949: 0x9296},
		lookupItem{ucs2: 0xbb88, cp949: 0xb9bf},
		lookupItem{ucs2: 0xbb89, cp949: 0x9297},
		lookupItem{ucs2: 0xbb8a, cp949: 0x9298},
		lookupItem{ucs2: 0xbb8b, cp949: 0x9299},
		lookupItem{ucs2: 0xbb8c, cp949: 0xb9c0},
		lookupItem{ucs2: 0xbb8d, cp949: 0x929a},
		lookupItem{ucs2: 0xbb8e, cp949: 0x929b},
		lookupItem{ucs2: 0xbb8f, cp949: 0x929c},
".
Definition text_cp949_lookup_to_038 : string :=
"		lookupItem{ucs2: 0xbb90, cp949: 0xb9c1},
		lookupItem{ucs2: 0xbb91, cp949: 0x929d},
		lookupItem{ucs2: 0xbb92, cp949: 0x929e},
		lookupItem{ucs2: 0xbb93, cp949: 0x929f},
		lookupItem{ucs2: 0xbb94, cp949: 0x92a0},
		lookupItem{ucs2: 0xbb95, cp949: 0x92a1},
		lookupItem{ucs2: 0xbb96, cp949: 0x92a2},
		lookupItem{ucs2: 0xbb97, cp949: 0x92a3},
		lookupItem{ucs2: 0xbb98, cp949: 0x92a4},
		lookupItem{ucs2: 0xbb99, cp949: 0x92a5},
		lookupItem{ucs2: 0xbb9a, cp949: 0x92a6},
		lookupItem{ucs2: 0xbb9b, cp949: 0x92a7},
		lookupItem{ucs2: 0xbb9c, cp949: 0x92a8},
		lookupItem{ucs2: 0xbb9d, cp949: 0x92a9},
		lookupItem{ucs2: 0xbb9e, cp949: 0x92aa},
		lookupItem{ucs2: 0xbb9f, cp949: 0x92ab},
		lookupItem{ucs2: 0xbba0, cp949: 0x92ac},
		lookupItem{ucs2: 0xbba1, cp949: 0x92ad},
		lookupItem{ucs2: 0xbba2, cp949: 0x92ae},
		lookupItem{ucs2: 0xbba3, cp949: 0x92af},
		lookupItem{ucs2: 0xbba4, cp949: 0xb9c2},
		lookupItem{ucs2: 0xbba5, cp949: 0x92b0},
		lookupItem{ucs2: 0xbba6, cp949: 0x92b1},
		lookupItem{ucs2: 0xbba7, cp949: 0x92b2},
		lookupItem{ucs2: 0xbba8, cp949: 0xb9c3},
		lookupItem{ucs2: 0xbba9, cp949: 0x92b3},
		lookupItem{ucs2: 0xbbaa, cp949: 0x92b4},
		lookupItem{ucs2: 0xbbab, cp949: 0x92b5},
		lookupItem{ucs2: 0xbbac, cp949: 0xb9c4},
		lookupItem{ucs2: 0xbbad, cp949: 0x92b6},
		lookupItem{ucs2: 0xbbae, cp949: 0x92b7},
		lookupItem{ucs2: 0xbbaf, cp949: 0x92b8},
		lookupItem{ucs2: 0xbbb0, cp949: 0x92b9},
		lookupItem{ucs2: 0xbbb1, cp949: 0x92ba},
		lookupItem{ucs2: 0xbbb2, cp949: 0x92bb},
		lookupItem{ucs2: 0xbbb3, cp949: 0x92bc},
		lookupItem{ucs2: 0xbbb4, cp949: 0xb9c5},
		lookupItem{ucs2: 0xbbb5, cp949: 0x92bd},
		lookupItem{ucs2: 0xbbb6, cp949: 0x92be},
		lookupItem{ucs2: 0xbbb7, cp949: 0xb9c6},
		lookupItem{ucs2: 0xbbb8, cp949: 0x92bf},
		lookupItem{ucs2: 0xbbb9, cp949: 0x92c0},
		lookupItem{ucs2: 0xbbba, cp949: 0x92c1},
		lookupItem{ucs2: 0xbbbb, cp949: 0x92c2},
		lookupItem{ucs2: 0xbbbc, cp949: 0x92c3},
		lookupItem{ucs2: 0xbbbd, cp949: 0x92c4},
		lookupItem{ucs2: 0xbbbe, cp949: 0x92c5},
		lookupItem{ucs2: 0xbbbf, cp949: 0x92c6},
		lookupItem{ucs2: 0xbbc0, cp949: 0xb9c7},
		lookupItem{ucs2: 0xbbc1, cp949: 0x92c7},
		lookupItem{ucs2: 0xbbc2, cp949: 0x92c8},
		lookupItem{ucs2: 0xbbc3, cp949: 0x92c9},
		lookupItem{ucs2: 0xbbc4, cp949: 0xb9c8},
		lookupItem{ucs2: 0xbbc5, cp949: 0x92ca},
		lookupItem{ucs2: 0xbbc6, cp949: 0x92cb},
		lookupItem{ucs2: 0xbbc7, cp949: 0x92cc},
		lookupItem{ucs2: 0xbbc8, cp949: 0xb9c9},
		lookupItem{ucs2: 0xbbc9, cp949: 0x92cd},
		lookupItem{ucs2: 0xbbca, cp949: 0x92ce},
		lookupItem{ucs2: 0xbbcb, cp949: 0x92cf},
		lookupItem{ucs2: 0xbbcc, cp949: 0x92d0},
		lookupItem{ucs2: 0xbbcd, cp949: 0x92d1},
		lookupItem{ucs2: 0xbbce, cp949: 0x92d2},
		lookupItem{ucs2: 0xbbcf, cp949: 0x92d3},
		lookupItem{ucs2: 0xbbd0, cp949: 0xb9ca},
		lookupItem{ucs2: 0xbbd1, cp949: 0x92d4},
		lookupItem{ucs2: 0xbbd2, cp949: 0x92d5},
		lookupItem{ucs2: 0xbbd3, cp949: 0xb9cb},
		lookupItem{ucs2: 0xbbd4, cp949: 0x92d6},
		lookupItem{ucs2: 0xbbd5, cp949: 0x92d7},
		lookupItem{ucs2: 0xbbd6, cp949: 0x92d8},
		lookupItem{ucs2: 0xbbd7, cp949: 0x92d9},
		lookupItem{ucs2: 0xbbd8, cp949: 0x92da},
		lookupItem{ucs2: 0xbbd9, cp949: 0x92db},
		lookupItem{ucs2: 0xbbda, cp949: 0x92dc},
		lookupItem{ucs2: 0xbbdb, cp949: 0x92dd},
		lookupItem{ucs2: 0xbbdc, cp949: 0x92de},
		lookupItem{ucs2: 0xbbdd, cp949: 0x92df},
		lookupItem{ucs2: 0xbbde, cp949: 0x92e0},
		lookupItem{ucs2: 0xbbdf, cp949: 0x92e1},
		lookupItem{ucs2: 0xbbe0, cp949: 0x92e2},
		lookupItem{ucs2: 0xbbe1, cp949: 0x92e3},
		lookupItem{ucs2: 0xbbe2, cp949: 0x92e4},
		lookupItem{ucs2: 0xbbe3, cp949: 0x92e5},
		lookupItem{ucs2: 0xbbe4, cp949: 0x92e6},
		lookupItem{ucs2: 0xbbe5, cp949: 0x92e7},
		lookupItem{ucs2: 0xbbe6, cp949: 0x92e8},
		lookupItem{ucs2: 0xbbe7, cp949: 0x92e9},
		lookupItem{ucs2: 0xbbe8, cp949: 0x92ea},
		lookupItem{ucs2: 0xbbe9, cp949: 0x92eb},
		lookupItem{ucs2: 0xbbea, cp949: 0x92ec},
		lookupItem{ucs2: 0xbbeb, cp949: 0x92ed},
		lookupItem{ucs2: 0xbbec, cp949: 0x92ee},
		lookupItem{ucs2: 0xbbed, cp949: 0x92ef},
		lookupItem{ucs2: 0xbbee, cp949: 0x92f0},
		lookupItem{ucs2: 0xbbef, cp949: 0x92f1},
		lookupItem{ucs2: 0xbbf0, cp949: 0x92f2},
		lookupItem{ucs2: 0xbbf1, cp949: 0x92f3},
		lookupItem{ucs2: 0xbbf2, cp949: 0x92f4},
		lookupItem{ucs2: 0xbbf3, cp949: 0x92f5},
		lookupItem{ucs2: 0xbbf4, cp949: 0x92f6},
		lookupItem{ucs2: 0xbbf5, cp949: 0x92f7},
		lookupItem{ucs2: 0xbbf6, cp949: 0x92f8},
		lookupItem{ucs2: 0xbbf7, cp949: 0x92f9},
		lookupItem{ucs2: 0xbbf8, cp949: 0xb9cc},
		lookupItem{ucs2: 0xbbf9, cp949: 0xb9cd},
		lookupItem{ucs2: 0xbbfa, cp949: 0x92fa},
		lookupItem{ucs2: 0xbbfb, cp949: 0x92fb},
		lookupItem{ucs2: 0xbbfc, cp949: 0xb9ce},
		lookupItem{ucs2: 0xbbfd, cp949: 0x92fc},
		lookupItem{ucs2: 0xbbfe, cp949: 0x92fd},
		lookupItem{ucs2: 0xbbff, cp949: 0xb9cf},
		lookupItem{ucs2: 0xbc00, cp949: 0xb9d0},
		lookupItem{ucs2: 0xbc01, cp949: 0x92fe},
		lookupItem{ucs2: 0xbc02, cp949: 0xb9d1},
		lookupItem{ucs2: 0xbc03, cp949: 0x9341},
		lookupItem{ucs2: 0xbc04, cp949: 0x9342},
		lookupItem{ucs2: 0xbc05, cp949: 0x9343},
		lookupItem{ucs2: 0xbc06, cp949: 0x9344},
		lookupItem{ucs2: 0xbc07, cp949: 0x9345},
		lookupItem{ucs2: 0xbc08, cp949: 0xb9d2},
		lookupItem{ucs2: 0xbc09, cp949: 0xb9d3},
		lookupItem{ucs2: 0xbc0a, cp949: 0x9346},
		lookupItem{ucs2: 0xbc0b, cp949: 0xb9d4},
		lookupItem{ucs2: 0xbc0c, cp949: 0xb9d5},
		lookupItem{ucs2: 0xbc0d, cp949: 0xb9d6},
		lookupItem{ucs2: 0xbc0e, cp949: 0x9347},
		lookupItem{ucs2: 0xbc0f, cp949: 0xb9d7},
		lookupItem{ucs2: 0xbc10, cp949: 0x9348},
		lookupItem{ucs2: 0xbc11, cp949: 0xb9d8},
		lookupItem{ucs2: 0xbc12, cp949: 0x9349},
		lookupItem{ucs2: 0xbc13, cp949: 0x934a},
		lookupItem{ucs2: 0xbc14, cp949: 0xb9d9},
		lookupItem{ucs2: 0xbc15, cp949: 0xb9da},
		lookupItem{ucs2: 0xbc16, cp949: 0xb9db},
		lookupItem{ucs2: 0xbc17, cp949: 0xb9dc},
		lookupItem{ucs2: 0xbc18, cp949: 0xb9dd},
		lookupItem{ucs2: 0xbc19, cp949: 0x934b},
		lookupItem{ucs2: 0xbc1a, cp949: 0x934c},
		lookupItem{ucs2: 0xbc1b, cp949: 0xb9de},
		lookupItem{ucs2: 0xbc1c, cp949: 0xb9df},
		lookupItem{ucs2: 0xbc1d, cp949: 0xb9e0},
		lookupItem{ucs2: 0xbc1e, cp949: 0xb9e1},
		lookupItem{ucs2: 0xbc1f, cp949: 0xb9e2},
		lookupItem{ucs2: 0xbc20, cp949: 0x934d},
		lookupItem{ucs2: 0xbc21, cp949: 0x934e},
		lookupItem{ucs2: 0xbc22, cp949: 0x934f},
		lookupItem{ucs2: 0xbc23, cp949: 0x9350},
		lookupItem{ucs2: 0xbc24, cp949: 0xb9e3},
		lookupItem{ucs2: 0xbc25, cp949: 0xb9e4},
		lookupItem{ucs2: 0xbc26, cp949: 0x9351},
		lookupItem{ucs2: 0xbc27, cp949: 0xb9e5},
		lookupItem{ucs2: 0xbc28, cp949: 0x9352},
		lookupItem{ucs2: 0xbc29, cp949: 0xb9e6},
		lookupItem{ucs2: 0xbc2a, cp949: 0x9353},
		lookupItem{ucs2: 0xbc2b, cp949: 0x9354},
		lookupItem{ucs2: 0xbc2c, cp949: 0x9355},
		lookupItem{ucs2: 0xbc2d, cp949: 0xb9e7},
		lookupItem{ucs2: 0xbc2e, cp949: 0x9356},
		lookupItem{ucs2: 0xbc2f, cp949: 0x9357},
		lookupItem{ucs2: 0xbc30, cp949: 0xb9e8},
		lookupItem{ucs2: 0xbc31, cp949: 0xb9e9},
		lookupItem{ucs2: 0xbc32, cp949: 0x9358},
		lookupItem{ucs2: 0xbc33, cp949: 0x9359},
		lookupItem{ucs2: 0xbc34, cp949: 0xb9ea},
		lookupItem{ucs2: 0xbc35, cp949: 0x935a},
		lookupItem{ucs2: 0xbc36, cp949: 0x9361},
		lookupItem{ucs2: 0xbc37, cp949: 0x9362},
		lookupItem{ucs2: 0xbc38, cp949: 0xb9eb},
		lookupItem{ucs2: 0xbc39, cp949: 0x9363},
		lookupItem{ucs2: 0xbc3a, cp949: 0x9364},
		lookupItem{ucs2: 0xbc3b, cp949: 0x9365},
		lookupItem{ucs2: 0xbc3c, cp949: 0x9366},
		lookupItem{ucs2: 0xbc3d, cp949: 0x9367},
		lookupItem{ucs2: 0xbc3e, cp949: 0x9368},
		lookupItem{ucs2: 0xbc3f, cp949: 0x9369},
		lookupItem{ucs2: 0xbc40, cp949: 0xb9ec},
		lookupItem{ucs2: 0xbc41, cp949: 0xb9ed},
		lookupItem{ucs2: 0xbc42, cp949: 0x936a},
		lookupItem{ucs2: 0xbc43, cp949: 0xb9ee},
		lookupItem{ucs2: 0xbc44, cp949: 0xb9ef},
		lookupItem{ucs2: 0xbc45, cp949: 0xb9f0},
		lookupItem{ucs2: 0xbc46, cp949: 0x936b},
		lookupItem{ucs2: 0xbc47, cp949: 0x936c},
		lookupItem{ucs2: 0xbc48, cp949: 0x936d},
		lookupItem{ucs2: 0xbc49, cp949: 0xb9f1},
		lookupItem{ucs2: 0xbc4a, cp949: 0x936e},
		lookupItem{ucs2: 0xbc4b, cp949: 0x936f},
		lookupItem{ucs2: 0xbc4c, cp949: 0xb9f2},
		lookupItem{ucs2: 0xbc4d, cp949: 0xb9f3},
		lookupItem{ucs2: 0xbc4e, cp949: 0x9370},
		lookupItem{ucs2: 0xbc4f, cp949: 0x9371},
		lookupItem{ucs2: 0xbc50, cp949: 0xb9f4},
		lookupItem{ucs2: 0xbc51, cp949: 0x9372},
		lookupItem{ucs2: 0xbc52, cp949: 0x9373},
		lookupItem{ucs2: 0xbc53, cp949: 0x9374},
		lookupItem{ucs2: 0xbc54, cp949: 0x9375},
		lookupItem{ucs2: 0xbc55, cp949: 0x9376},
		lookupItem{ucs2: 0xbc56, cp949: 0x9377},
		lookupItem{ucs2: 0xbc57, cp949: 0x9378},
		lookupItem{ucs2: 0xbc58, cp949: 0x9379},
		lookupItem{ucs2: 0xbc59, cp949: 0x937a},
		lookupItem{ucs2: 0xbc5a, cp949: 0x9381},
		lookupItem{ucs2: 0xbc5b, cp949: 0x9382},
		lookupItem{ucs2: 0xbc5c, cp949: 0x9383},
		lookupItem{ucs2: 0xbc5d, cp949: 0xb9f5},
		lookupItem{ucs2: 0xbc5e, cp949: 0x9384},
		lookupItem{ucs2: 0xbc5f, cp949: 0x9385},
		lookupItem{ucs2: 0xbc60, cp949: 0x9386},
		lookupItem{ucs2: 0xbc61, cp949: 0x9387},
		lookupItem{ucs2: 0xbc62, cp949: 0x9388},
		lookupItem{ucs2: 0xbc63, cp949: 0x9389},
		lookupItem{ucs2: 0xbc64, cp949: 0x938a},
		lookupItem{ucs2: 0xbc65, cp949: 0x938b},
		lookupItem{ucs2: 0xbc66, cp949: 0x938c},
		lookupItem{ucs2: 0xbc67, cp949: 0x938d},
		lookupItem{ucs2: 0xbc68, cp949: 0x938e},
		lookupItem{ucs2: 0xbc69, cp949: 0x938f},
		lookupItem{ucs2: 0xbc6a, cp949: 0x9390},
		lookupItem{ucs2: 0xbc6b, cp949: 0x9391},
		lookupItem{ucs2: 0xbc6c, cp949: 0x9392},
		lookupItem{ucs2: 0xbc6d, cp949: 0x9393},
		lookupItem{ucs2: 0xbc6e, cp949: 0x9394},
		lookupItem{ucs2: 0xbc6f, cp949: 0x9395},
		lookupItem{ucs2: 0xbc70, cp949: 0x9396},
		lookupItem{ucs2: 0xbc71, cp949: 0x9397},
		lookupItem{ucs2: 0xbc72, cp949: 0x9398},
		lookupItem{ucs2: 0xbc73, cp949: 0x9399},
		lookupItem{ucs2: 0xbc74, cp949: 0x939a},
		lookupItem{ucs2: 0xbc75, cp949: 0x939b},
		lookupItem{ucs2: 0xbc76, cp949: 0x939c},
		lookupItem{ucs2: 0xbc77, cp949: 0x939d},
		lookupItem{ucs2: 0xbc78, cp949: 0x939e},
		lookupItem{ucs2: 0xbc79, cp949: 0x939f},
		lookupItem{ucs2: 0xbc7a, cp949: 0x93a0},
		lookupItem{ucs2: 0xbc7b, cp949: 0x93a1},
		lookupItem{ucs2: 0xbc7c, cp949: 0x93a2},
		lookupItem{ucs2: 0xbc7d, cp949: 0x93a3},
		lookupItem{ucs2: 0xbc7e, cp949: 0x93a4},
		lookupItem{ucs2: 0xbc7f, cp949: 0x93a5},
		lookupItem{ucs2: 0xbc80, cp949: 0x93a6},
		lookupItem{ucs2: 0xbc81, cp949: 0x93a7},
		lookupItem{ucs2: 0xbc82, cp949: 0x93a8},
		lookupItem{ucs2: 0xbc83, cp949: 0x93a9},
		lookupItem{ucs2: 0xbc84, cp949: 0xb9f6},
		lookupItem{ucs2: 0xbc85, cp949: 0xb9f7},
		lookupItem{ucs2: 0xbc86, cp949: 0x93aa},
		lookupItem{ucs2: 0xbc87, cp949: 0x93ab},
		lookupItem{ucs2: 0xbc88, cp949: 0xb9f8},
		lookupItem{ucs2: 0xbc89, cp949: 0x93ac},
".
Definition text_cp949_lookup_to_039 : string :=
"		lookupItem{ucs2: 0xbc8a, cp949: 0x93ad},
		lookupItem{ucs2: 0xbc8b, cp949: 0xb9f9},
		lookupItem{ucs2: 0xbc8c, cp949: 0xb9fa},
		lookupItem{ucs2: 0xbc8d, cp949: 0x93ae},
		lookupItem{ucs2: 0xbc8e, cp949: 0xb9fb},
		lookupItem{ucs2: 0xbc8f, cp949: 0x93af},
		lookupItem{ucs2: 0xbc90, cp949: 0x93b0},
		lookupItem{ucs2: 0xbc91, cp949: 0x93b1},
		lookupItem{ucs2: 0xbc92, cp949: 0x93b2},
		lookupItem{ucs2: 0xbc93, cp949: 0x93b3},
		lookupItem{ucs2: 0xbc94, cp949: 0xb9fc},
		lookupItem{ucs2: 0xbc95, cp949: 0xb9fd},
		lookupItem{ucs2: 0xbc96, cp949: 0x93b4},
		lookupItem{ucs2: 0xbc97, cp949: 0xb9fe},
		lookupItem{ucs2: 0xbc98, cp949: 0x93b5},
		lookupItem{ucs2: 0xbc99, cp949: 0xbaa1},
		lookupItem{ucs2: 0xbc9a, cp949: 0xbaa2},
		lookupItem{ucs2: 0xbc9b, cp949: 0x93b6},
		lookupItem{ucs2: 0xbc9c, cp949: 0x93b7},
		lookupItem{ucs2: 0xbc9d, cp949: 0x93b8},
		lookupItem{ucs2: 0xbc9e, cp949: 0x93b9},
		lookupItem{ucs2: 0xbc9f, cp949: 0x93ba},
		lookupItem{ucs2: 0xbca0, cp949: 0xbaa3},
		lookupItem{ucs2: 0xbca1, cp949: 0xbaa4},
		lookupItem{ucs2: 0xbca2, cp949: 0x93bb},
		lookupItem{ucs2: 0xbca3, cp949: 0x93bc},
		lookupItem{ucs2: 0xbca4, cp949: 0xbaa5},
		lookupItem{ucs2: 0xbca5, cp949: 0x93bd},
		lookupItem{ucs2: 0xbca6, cp949: 0x93be},
		lookupItem{ucs2: 0xbca7, cp949: 0xbaa6},
		lookupItem{ucs2: 0xbca8, cp949: 0xbaa7},
		lookupItem{ucs2: 0xbca9, cp949: 0x93bf},
		lookupItem{ucs2: 0xbcaa, cp949: 0x93c0},
		lookupItem{ucs2: 0xbcab, cp949: 0x93c1},
		lookupItem{ucs2: 0xbcac, cp949: 0x93c2},
		lookupItem{ucs2: 0xbcad, cp949: 0x93c3},
		lookupItem{ucs2: 0xbcae, cp949: 0x93c4},
		lookupItem{ucs2: 0xbcaf, cp949: 0x93c5},
		lookupItem{ucs2: 0xbcb0, cp949: 0xbaa8},
		lookupItem{ucs2: 0xbcb1, cp949: 0xbaa9},
		lookupItem{ucs2: 0xbcb2, cp949: 0x93c6},
		lookupItem{ucs2: 0xbcb3, cp949: 0xbaaa},
		lookupItem{ucs2: 0xbcb4, cp949: 0xbaab},
		lookupItem{ucs2: 0xbcb5, cp949: 0xbaac},
		lookupItem{ucs2: 0xbcb6, cp949: 0x93c7},
		lookupItem{ucs2: 0xbcb7, cp949: 0x93c8},
		lookupItem{ucs2: 0xbcb8, cp949: 0x93c9},
		lookupItem{ucs2: 0xbcb9, cp949: 0x93ca},
		lookupItem{ucs2: 0xbcba, cp949: 0x93cb},
		lookupItem{ucs2: 0xbcbb, cp949: 0x93cc},
		lookupItem{ucs2: 0xbcbc, cp949: 0xbaad},
		lookupItem{ucs2: 0xbcbd, cp949: 0xbaae},
		lookupItem{ucs2: 0xbcbe, cp949: 0x93cd},
		lookupItem{ucs2: 0xbcbf, cp949: 0x93ce},
		lookupItem{ucs2: 0xbcc0, cp949: 0xbaaf},
		lookupItem{ucs2: 0xbcc1, cp949: 0x93cf},
		lookupItem{ucs2: 0xbcc2, cp949: 0x93d0},
		lookupItem{ucs2: 0xbcc3, cp949: 0x93d1},
		lookupItem{ucs2: 0xbcc4, cp949: 0xbab0},
		lookupItem{ucs2: 0xbcc5, cp949: 0x93d2},
		lookupItem{ucs2: 0xbcc6, cp949: 0x93d3},
		lookupItem{ucs2: 0xbcc7, cp949: 0x93d4},
		lookupItem{ucs2: 0xbcc8, cp949: 0x93d5},
		lookupItem{ucs2: 0xbcc9, cp949: 0x93d6},
		lookupItem{ucs2: 0xbcca, cp949: 0x93d7},
		lookupItem{ucs2: 0xbccb, cp949: 0x93d8},
		lookupItem{ucs2: 0xbccc, cp949: 0x93d9},
		lookupItem{ucs2: 0xbccd, cp949: 0xbab1},
		lookupItem{ucs2: 0xbcce, cp949: 0x93da},
		lookupItem{ucs2: 0xbccf, cp949: 0xbab2},
		lookupItem{ucs2: 0xbcd0, cp949: 0xbab3},
		lookupItem{ucs2: 0xbcd1, cp949: 0xbab4},
		lookupItem{ucs2: 0xbcd2, cp949: 0x93db},
		lookupItem{ucs2: 0xbcd3, cp949: 0x93dc},
		lookupItem{ucs2: 0xbcd4, cp949: 0x93dd},
		lookupItem{ucs2: 0xbcd5, cp949: 0xbab5},
		lookupItem{ucs2: 0xbcd6, cp949: 0x93de},
		lookupItem{ucs2: 0xbcd7, cp949: 0x93df},
		lookupItem{ucs2: 0xbcd8, cp949: 0xbab6},
		lookupItem{ucs2: 0xbcd9, cp949: 0x93e0},
		lookupItem{ucs2: 0xbcda, cp949: 0x93e1},
		lookupItem{ucs2: 0xbcdb, cp949: 0x93e2},
		lookupItem{ucs2: 0xbcdc, cp949: 0xbab7},
		lookupItem{ucs2: 0xbcdd, cp949: 0x93e3},
		lookupItem{ucs2: 0xbcde, cp949: 0x93e4},
		lookupItem{ucs2: 0xbcdf, cp949: 0x93e5},
		lookupItem{ucs2: 0xbce0, cp949: 0x93e6},
		lookupItem{ucs2: 0xbce1, cp949: 0x93e7},
		lookupItem{ucs2: 0xbce2, cp949: 0x93e8},
		lookupItem{ucs2: 0xbce3, cp949: 0x93e9},
		lookupItem{ucs2: 0xbce4, cp949: 0x93ea},
		lookupItem{ucs2: 0xbce5, cp949: 0x93eb},
		lookupItem{ucs2: 0xbce6, cp949: 0x93ec},
		lookupItem{ucs2: 0xbce7, cp949: 0x93ed},
		lookupItem{ucs2: 0xbce8, cp949: 0x93ee},
		lookupItem{ucs2: 0xbce9, cp949: 0x93ef},
		lookupItem{ucs2: 0xbcea, cp949: 0x93f0},
		lookupItem{ucs2: 0xbceb, cp949: 0x93f1},
		lookupItem{ucs2: 0xbcec, cp949: 0x93f2},
		lookupItem{ucs2: 0xbced, cp949: 0x93f3},
		lookupItem{ucs2: 0xbcee, cp949: 0x93f4},
		lookupItem{ucs2: 0xbcef, cp949: 0x93f5},
		lookupItem{ucs2: 0xbcf0, cp949: 0x93f6},
		lookupItem{ucs2: 0xbcf1, cp949: 0x93f7},
		lookupItem{ucs2: 0xbcf2, cp949: 0x93f8},
		lookupItem{ucs2: 0xbcf3, cp949: 0x93f9},
		lookupItem{ucs2: 0xbcf4, cp949: 0xbab8},
		lookupItem{ucs2: 0xbcf5, cp949: 0xbab9},
		lookupItem{ucs2: 0xbcf6, cp949: 0xbaba},
		lookupItem{ucs2: 0xbcf7, cp949: 0x93fa},
		lookupItem{ucs2: 0xbcf8, cp949: 0xbabb},
		lookupItem{ucs2: 0xbcf9, cp949: 0x93fb},
		lookupItem{ucs2: 0xbcfa, cp949: 0x93fc},
		lookupItem{ucs2: 0xbcfb, cp949: 0x93fd},
		lookupItem{ucs2: 0xbcfc, cp949: 0xbabc},
		lookupItem{ucs2: 0xbcfd, cp949: 0x93fe},
		lookupItem{ucs2: 0xbcfe, cp949: 0x9441},
		lookupItem{ucs2: 0xbcff, cp949: 0x9442},
		lookupItem{ucs2: 0xbd00, cp949: 0x9443},
		lookupItem{ucs2: 0xbd01, cp949: 0x9444},
		lookupItem{ucs2: 0xbd02, cp949: 0x9445},
		lookupItem{ucs2: 0xbd03, cp949: 0x9446},
		lookupItem{ucs2: 0xbd04, cp949: 0xbabd},
		lookupItem{ucs2: 0xbd05, cp949: 0xbabe},
		lookupItem{ucs2: 0xbd06, cp949: 0x9447},
		lookupItem{ucs2: 0xbd07, cp949: 0xbabf},
		lookupItem{ucs2: 0xbd08, cp949: 0x9448},
		lookupItem{ucs2: 0xbd09, cp949: 0xbac0},
		lookupItem{ucs2: 0xbd0a, cp949: 0x9449},
		lookupItem{ucs2: 0xbd0b, cp949: 0x944a},
		lookupItem{ucs2: 0xbd0c, cp949: 0x944b},
		lookupItem{ucs2: 0xbd0d, cp949: 0x944c},
		lookupItem{ucs2: 0xbd0e, cp949: 0x944d},
		lookupItem{ucs2: 0xbd0f, cp949: 0x944e},
		lookupItem{ucs2: 0xbd10, cp949: 0xbac1},
		lookupItem{ucs2: 0xbd11, cp949: 0x944f},
		lookupItem{ucs2: 0xbd12, cp949: 0x9450},
		lookupItem{ucs2: 0xbd13, cp949: 0x9451},
		lookupItem{ucs2: 0xbd14, cp949: 0xbac2},
		lookupItem{ucs2: 0xbd15, cp949: 0x9452},
		lookupItem{ucs2: 0xbd16, cp949: 0x9453},
		lookupItem{ucs2: 0xbd17, cp949: 0x9454},
		lookupItem{ucs2: 0xbd18, cp949: 0x9455},
		lookupItem{ucs2: 0xbd19, cp949: 0x9456},
		lookupItem{ucs2: 0xbd1a, cp949: 0x9457},
		lookupItem{ucs2: 0xbd1b, cp949: 0x9458},
		lookupItem{ucs2: 0xbd1c, cp949: 0x9459},
		lookupItem{ucs2: 0xbd1d, cp949: 0x945a},
		lookupItem{ucs2: 0xbd1e, cp949: 0x9461},
		lookupItem{ucs2: 0xbd1f, cp949: 0x9462},
		lookupItem{ucs2: 0xbd20, cp949: 0x9463},
		lookupItem{ucs2: 0xbd21, cp949: 0x9464},
		lookupItem{ucs2: 0xbd22, cp949: 0x9465},
		lookupItem{ucs2: 0xbd23, cp949: 0x9466},
		lookupItem{ucs2: 0xbd24, cp949: 0xbac3},
		lookupItem{ucs2: 0xbd25, cp949: 0x9467},
		lookupItem{ucs2: 0xbd26, cp949: 0x9468},
		lookupItem{ucs2: 0xbd27, cp949: 0x9469},
		lookupItem{ucs2: 0xbd28, cp949: 0x946a},
		lookupItem{ucs2: 0xbd29, cp949: 0x946b},
		lookupItem{ucs2: 0xbd2a, cp949: 0x946c},
		lookupItem{ucs2: 0xbd2b, cp949: 0x946d},
		lookupItem{ucs2: 0xbd2c, cp949: 0xbac4},
		lookupItem{ucs2: 0xbd2d, cp949: 0x946e},
		lookupItem{ucs2: 0xbd2e, cp949: 0x946f},
		lookupItem{ucs2: 0xbd2f, cp949: 0x9470},
		lookupItem{ucs2: 0xbd30, cp949: 0x9471},
		lookupItem{ucs2: 0xbd31, cp949: 0x9472},
		lookupItem{ucs2: 0xbd32, cp949: 0x9473},
		lookupItem{ucs2: 0xbd33, cp949: 0x9474},
		lookupItem{ucs2: 0xbd34, cp949: 0x9475},
		lookupItem{ucs2: 0xbd35, cp949: 0x9476},
		lookupItem{ucs2: 0xbd36, cp949: 0x9477},
		lookupItem{ucs2: 0xbd37, cp949: 0x9478},
		lookupItem{ucs2: 0xbd38, cp949: 0x9479},
		lookupItem{ucs2: 0xbd39, cp949: 0x947a},
		lookupItem{ucs2: 0xbd3a, cp949: 0x9481},
		lookupItem{ucs2: 0xbd3b, cp949: 0x9482},
		lookupItem{ucs2: 0xbd3c, cp949: 0x9483},
		lookupItem{ucs2: 0xbd3d, cp949: 0x9484},
		lookupItem{ucs2: 0xbd3e, cp949: 0x9485},
		lookupItem{ucs2: 0xbd3f, cp949: 0x9486},
		lookupItem{ucs2: 0xbd40, cp949: 0xbac5},
		lookupItem{ucs2: 0xbd41, cp949: 0x9487},
		lookupItem{ucs2: 0xbd42, cp949: 0x9488},
		lookupItem{ucs2: 0xbd43, cp949: 0x9489},
		lookupItem{ucs2: 0xbd44, cp949: 0x948a},
		lookupItem{ucs2: 0xbd45, cp949: 0x948b},
		lookupItem{ucs2: 0xbd46, cp949: 0x948c},
		lookupItem{ucs2: 0xbd47, cp949: 0x948d},
		lookupItem{ucs2: 0xbd48, cp949: 0xbac6},
		lookupItem{ucs2: 0xbd49, cp949: 0xbac7},
		lookupItem{ucs2: 0xbd4a, cp949: 0x948e},
		lookupItem{ucs2: 0xbd4b, cp949: 0x948f},
		lookupItem{ucs2: 0xbd4c, cp949: 0xbac8},
		lookupItem{ucs2: 0xbd4d, cp949: 0x9490},
		lookupItem{ucs2: 0xbd4e, cp949: 0x9491},
		lookupItem{ucs2: 0xbd4f, cp949: 0x9492},
		lookupItem{ucs2: 0xbd50, cp949: 0xbac9},
		lookupItem{ucs2: 0xbd51, cp949: 0x9493},
		lookupItem{ucs2: 0xbd52, cp949: 0x9494},
		lookupItem{ucs2: 0xbd53, cp949: 0x9495},
		lookupItem{ucs2: 0xbd54, cp949: 0x9496},
		lookupItem{ucs2: 0xbd55, cp949: 0x9497},
		lookupItem{ucs2: 0xbd56, cp949: 0x9498},
		lookupItem{ucs2: 0xbd57, cp949: 0x9499},
		lookupItem{ucs2: 0xbd58, cp949: 0xbaca},
		lookupItem{ucs2: 0xbd59, cp949: 0xbacb},
		lookupItem{ucs2: 0xbd5a, cp949: 0x949a},
		lookupItem{ucs2: 0xbd5b, cp949: 0x949b},
		lookupItem{ucs2: 0xbd5c, cp949: 0x949c},
		lookupItem{ucs2: 0xbd5d, cp949: 0x949d},
		lookupItem{ucs2: 0xbd5e, cp949: 0x949e},
		lookupItem{ucs2: 0xbd5f, cp949: 0x949f},
		lookupItem{ucs2: 0xbd60, cp949: 0x94a0},
		lookupItem{ucs2: 0xbd61, cp949: 0x94a1},
		lookupItem{ucs2: 0xbd62, cp949: 0x94a2},
		lookupItem{ucs2: 0xbd63, cp949: 0x94a3},
		lookupItem{ucs2: 0xbd64, cp949: 0xbacc},
		lookupItem{ucs2: 0xbd65, cp949: 0x94a4},
		lookupItem{ucs2: 0xbd66, cp949: 0x94a5},
		lookupItem{ucs2: 0xbd67, cp949: 0x94a6},
		lookupItem{ucs2: 0xbd68, cp949: 0xbacd},
		lookupItem{ucs2: 0xbd69, cp949: 0x94a7},
		lookupItem{ucs2: 0xbd6a, cp949: 0x94a8},
		lookupItem{ucs2: 0xbd6b, cp949: 0x94a9},
		lookupItem{ucs2: 0xbd6c, cp949: 0x94aa},
		lookupItem{ucs2: 0xbd6d, cp949: 0x94ab},
		lookupItem{ucs2: 0xbd6e, cp949: 0x94ac},
		lookupItem{ucs2: 0xbd6f, cp949: 0x94ad},
		lookupItem{ucs2: 0xbd70, cp949: 0x94ae},
		lookupItem{ucs2: 0xbd71, cp949: 0x94af},
		lookupItem{ucs2: 0xbd72, cp949: 0x94b0},
		lookupItem{ucs2: 0xbd73, cp949: 0x94b1},
		lookupItem{ucs2: 0xbd74, cp949: 0x94b2},
		lookupItem{ucs2: 0xbd75, cp949: 0x94b3},
		lookupItem{ucs2: 0xbd76, cp949: 0x94b4},
		lookupItem{ucs2: 0xbd77, cp949: 0x94b5},
		lookupItem{ucs2: 0xbd78, cp949: 0x94b6},
		lookupItem{ucs2: 0xbd79, cp949: 0x94b7},
		lookupItem{ucs2: 0xbd7a, cp949: 0x94b8},
		lookupItem{ucs2: 0xbd7b, cp949: 0x94b9},
		lookupItem{ucs2: 0xbd7c, cp949: 0x94ba},
		lookupItem{ucs2: 0xbd7d, cp949: 0x94bb},
		lookupItem{ucs2: 0xbd7e, cp949: 0x94bc},
		lookupItem{ucs2: 0xbd7f, cp949: 0x94bd},
		lookupItem{ucs2: 0xbd80, cp949: 0xbace},
		lookupItem{ucs2: 0xbd81, cp949: 0xbacf},
		lookupItem{ucs2: 0xbd82, cp949: 0x94be},
		lookupItem{ucs2: 0xbd83, cp949: 0x94bf},
".
Definition text_cp949_lookup_to_040 : string :=
"		lookupItem{ucs2: 0xbd84, cp949: 0xbad0},
		lookupItem{ucs2: 0xbd85, cp949: 0x94c0},
		lookupItem{ucs2: 0xbd86, cp949: 0x94c1},
		lookupItem{ucs2: 0xbd87, cp949: 0xbad1},
		lookupItem{ucs2: 0xbd88, cp949: 0xbad2},
		lookupItem{ucs2: 0xbd89, cp949: 0xbad3},
		lookupItem{ucs2: 0xbd8a, cp949: 0xbad4},
		lookupItem{ucs2: 0xbd8b, cp949: 0x94c2},
		lookupItem{ucs2: 0xbd8c, cp949: 0x94c3},
		lookupItem{ucs2: 0xbd8d, cp949: 0x94c4},
		lookupItem{ucs2: 0xbd8e, cp949: 0x94c5},
		lookupItem{ucs2: 0xbd8f, cp949: 0x94c6},
		lookupItem{ucs2: 0xbd90, cp949: 0xbad5},
		lookupItem{ucs2: 0xbd91, cp949: 0xbad6},
		lookupItem{ucs2: 0xbd92, cp949: 0x94c7},
		lookupItem{ucs2: 0xbd93, cp949: 0xbad7},
		lookupItem{ucs2: 0xbd94, cp949: 0x94c8},
		lookupItem{ucs2: 0xbd95, cp949: 0xbad8},
		lookupItem{ucs2: 0xbd96, cp949: 0x94c9},
		lookupItem{ucs2: 0xbd97, cp949: 0x94ca},
		lookupItem{ucs2: 0xbd98, cp949: 0x94cb},
		lookupItem{ucs2: 0xbd99, cp949: 0xbad9},
		lookupItem{ucs2: 0xbd9a, cp949: 0xbada},
		lookupItem{ucs2: 0xbd9b, cp949: 0x94cc},
		lookupItem{ucs2: 0xbd9c, cp949: 0xbadb},
		lookupItem{ucs2: 0xbd9d, cp949: 0x94cd},
		lookupItem{ucs2: 0xbd9e, cp949: 0x94ce},
		lookupItem{ucs2: 0xbd9f, cp949: 0x94cf},
		lookupItem{ucs2: 0xbda0, cp949: 0x94d0},
		lookupItem{ucs2: 0xbda1, cp949: 0x94d1},
		lookupItem{ucs2: 0xbda2, cp949: 0x94d2},
		lookupItem{ucs2: 0xbda3, cp949: 0x94d3},
		lookupItem{ucs2: 0xbda4, cp949: 0xbadc},
		lookupItem{ucs2: 0xbda5, cp949: 0x94d4},
		lookupItem{ucs2: 0xbda6, cp949: 0x94d5},
		lookupItem{ucs2: 0xbda7, cp949: 0x94d6},
		lookupItem{ucs2: 0xbda8, cp949: 0x94d7},
		lookupItem{ucs2: 0xbda9, cp949: 0x94d8},
		lookupItem{ucs2: 0xbdaa, cp949: 0x94d9},
		lookupItem{ucs2: 0xbdab, cp949: 0x94da},
		lookupItem{ucs2: 0xbdac, cp949: 0x94db},
		lookupItem{ucs2: 0xbdad, cp949: 0x94dc},
		lookupItem{ucs2: 0xbdae, cp949: 0x94dd},
		lookupItem{ucs2: 0xbdaf, cp949: 0x94de},
		lookupItem{ucs2: 0xbdb0, cp949: 0xbadd},
		lookupItem{ucs2: 0xbdb1, cp949: 0x94df},
		lookupItem{ucs2: 0xbdb2, cp949: 0x94e0},
		lookupItem{ucs2: 0xbdb3, cp949: 0x94e1},
		lookupItem{ucs2: 0xbdb4, cp949: 0x94e2},
		lookupItem{ucs2: 0xbdb5, cp949: 0x94e3},
		lookupItem{ucs2: 0xbdb6, cp949: 0x94e4},
		lookupItem{ucs2: 0xbdb7, cp949: 0x94e5},
		lookupItem{ucs2: 0xbdb8, cp949: 0xbade},
		lookupItem{ucs2: 0xbdb9, cp949: 0x94e6},
		lookupItem{ucs2: 0xbdba, cp949: 0x94e7},
		lookupItem{ucs2: 0xbdbb, cp949: 0x94e8},
		lookupItem{ucs2: 0xbdbc, cp949: 0x94e9},
		lookupItem{ucs2: 0xbdbd, cp949: 0x94ea},
		lookupItem{ucs2: 0xbdbe, cp949: 0x94eb},
		lookupItem{ucs2: 0xbdbf, cp949: 0x94ec},
		lookupItem{ucs2: 0xbdc0, cp949: 0x94ed},
		lookupItem{ucs2: 0xbdc1, cp949: 0x94ee},
		lookupItem{ucs2: 0xbdc2, cp949: 0x94ef},
		lookupItem{ucs2: 0xbdc3, cp949: 0x94f0},
		lookupItem{ucs2: 0xbdc4, cp949: 0x94f1},
		lookupItem{ucs2: 0xbdc5, cp949: 0x94f2},
		lookupItem{ucs2: 0xbdc6, cp949: 0x94f3},
		lookupItem{ucs2: 0xbdc7, cp949: 0x94f4},
		lookupItem{ucs2: 0xbdc8, cp949: 0x94f5},
		lookupItem{ucs2: 0xbdc9, cp949: 0x94f6},
		lookupItem{ucs2: 0xbdca, cp949: 0x94f7},
		lookupItem{ucs2: 0xbdcb, cp949: 0x94f8},
		lookupItem{ucs2: 0xbdcc, cp949: 0x94f9},
		lookupItem{ucs2: 0xbdcd, cp949: 0x94fa},
		lookupItem{ucs2: 0xbdce, cp949: 0x94fb},
		lookupItem{ucs2: 0xbdcf, cp949: 0x94fc},
		lookupItem{ucs2: 0xbdd0, cp949: 0x94fd},
		lookupItem{ucs2: 0xbdd1, cp949: 0x94fe},
		lookupItem{ucs2: 0xbdd2, cp949: 0x9541},
		lookupItem{ucs2: 0xbdd3, cp949: 0x9542},
		lookupItem{ucs2: 0xbdd4, cp949: 0xbadf},
		lookupItem{ucs2: 0xbdd5, cp949: 0xbae0},
		lookupItem{ucs2: 0xbdd6, cp949: 0x9543},
		lookupItem{ucs2: 0xbdd7, cp949: 0x9544},
		lookupItem{ucs2: 0xbdd8, cp949: 0xbae1},
		lookupItem{ucs2: 0xbdd9, cp949: 0x9545},
		lookupItem{ucs2: 0xbdda, cp949: 0x9546},
		lookupItem{ucs2: 0xbddb, cp949: 0x9547},
		lookupItem{ucs2: 0xbddc, cp949: 0xbae2},
		lookupItem{ucs2: 0xbddd, cp949: 0x9548},
		lookupItem{ucs2: 0xbdde, cp949: 0x9549},
		lookupItem{ucs2: 0xbddf, cp949: 0x954a},
		lookupItem{ucs2: 0xbde0, cp949: 0x954b},
		lookupItem{ucs2: 0xbde1, cp949: 0x954c},
		lookupItem{ucs2: 0xbde2, cp949: 0x954d},
		lookupItem{ucs2: 0xbde3, cp949: 0x954e},
		lookupItem{ucs2: 0xbde4, cp949: 0x954f},
		lookupItem{ucs2: 0xbde5, cp949: 0x9550},
		lookupItem{ucs2: 0xbde6, cp949: 0x9551},
		lookupItem{ucs2: 0xbde7, cp949: 0x9552},
		lookupItem{ucs2: 0xbde8, cp949: 0x9553},
		lookupItem{ucs2: 0xbde9, cp949: 0xbae3},
		lookupItem{ucs2: 0xbdea, cp949: 0x9554},
		lookupItem{ucs2: 0xbdeb, cp949: 0x9555},
		lookupItem{ucs2: 0xbdec, cp949: 0x9556},
		lookupItem{ucs2: 0xbded, cp949: 0x9557},
		lookupItem{ucs2: 0xbdee, cp949: 0x9558},
		lookupItem{ucs2: 0xbdef, cp949: 0x9559},
		lookupItem{ucs2: 0xbdf0, cp949: 0xbae4},
		lookupItem{ucs2: 0xbdf1, cp949: 0x955a},
		lookupItem{ucs2: 0xbdf2, cp949: 0x9561},
		lookupItem{ucs2: 0xbdf3, cp949: 0x9562},
		lookupItem{ucs2: 0xbdf4, cp949: 0xbae5},
		lookupItem{ucs2: 0xbdf5, cp949: 0x9563},
		lookupItem{ucs2: 0xbdf6, cp949: 0x9564},
		lookupItem{ucs2: 0xbdf7, cp949: 0x9565},
		lookupItem{ucs2: 0xbdf8, cp949: 0xbae6},
		lookupItem{ucs2: 0xbdf9, cp949: 0x9566},
		lookupItem{ucs2: 0xbdfa, cp949: 0x9567},
		lookupItem{ucs2: 0xbdfb, cp949: 0x9568},
		lookupItem{ucs2: 0xbdfc, cp949: 0x9569},
		lookupItem{ucs2: 0xbdfd, cp949: 0x956a},
		lookupItem{ucs2: 0xbdfe, cp949: 0x956b},
		lookupItem{ucs2: 0xbdff, cp949: 0x956c},
		lookupItem{ucs2: 0xbe00, cp949: 0xbae7},
		lookupItem{ucs2: 0xbe01, cp949: 0x956d},
		lookupItem{ucs2: 0xbe02, cp949: 0x956e},
		lookupItem{ucs2: 0xbe03, cp949: 0xbae8},
		lookupItem{ucs2: 0xbe04, cp949: 0x956f},
		lookupItem{ucs2: 0xbe05, cp949: 0xbae9},
		lookupItem{ucs2: 0xbe06, cp949: 0x9570},
		lookupItem{ucs2: 0xbe07, cp949: 0x9571},
		lookupItem{ucs2: 0xbe08, cp949: 0x9572},
		lookupItem{ucs2: 0xbe09, cp949: 0x9573},
		lookupItem{ucs2: 0xbe0a, cp949: 0x9574},
		lookupItem{ucs2: 0xbe0b, cp949: 0x9575},
		lookupItem{ucs2: 0xbe0c, cp949: 0xbaea},
		lookupItem{ucs2: 0xbe0d, cp949: 0xbaeb},
		lookupItem{ucs2: 0xbe0e, cp949: 0x9576},
		lookupItem{ucs2: 0xbe0f, cp949: 0x9577},
		lookupItem{ucs2: 0xbe10, cp949: 0xbaec},
		lookupItem{ucs2: 0xbe11, cp949: 0x9578},
		lookupItem{ucs2: 0xbe12, cp949: 0x9579},
		lookupItem{ucs2: 0xbe13, cp949: 0x957a},
		lookupItem{ucs2: 0xbe14, cp949: 0xbaed},
		lookupItem{ucs2: 0xbe15, cp949: 0x9581},
		lookupItem{ucs2: 0xbe16, cp949: 0x9582},
		lookupItem{ucs2: 0xbe17, cp949: 0x9583},
		lookupItem{ucs2: 0xbe18, cp949: 0x9584},
		lookupItem{ucs2: 0xbe19, cp949: 0x9585},
		lookupItem{ucs2: 0xbe1a, cp949: 0x9586},
		lookupItem{ucs2: 0xbe1b, cp949: 0x9587},
		lookupItem{ucs2: 0xbe1c, cp949: 0xbaee},
		lookupItem{ucs2: 0xbe1d, cp949: 0xbaef},
		lookupItem{ucs2: 0xbe1e, cp949: 0x9588},
		lookupItem{ucs2: 0xbe1f, cp949: 0xbaf0},
		lookupItem{ucs2: 0xbe20, cp949: 0x9589},
		lookupItem{ucs2: 0xbe21, cp949: 0x958a},
		lookupItem{ucs2: 0xbe22, cp949: 0x958b},
		lookupItem{ucs2: 0xbe23, cp949: 0x958c},
		lookupItem{ucs2: 0xbe24, cp949: 0x958d},
		lookupItem{ucs2: 0xbe25, cp949: 0x958e},
		lookupItem{ucs2: 0xbe26, cp949: 0x958f},
		lookupItem{ucs2: 0xbe27, cp949: 0x9590},
		lookupItem{ucs2: 0xbe28, cp949: 0x9591},
		lookupItem{ucs2: 0xbe29, cp949: 0x9592},
		lookupItem{ucs2: 0xbe2a, cp949: 0x9593},
		lookupItem{ucs2: 0xbe2b, cp949: 0x9594},
		lookupItem{ucs2: 0xbe2c, cp949: 0x9595},
		lookupItem{ucs2: 0xbe2d, cp949: 0x9596},
		lookupItem{ucs2: 0xbe2e, cp949: 0x9597},
		lookupItem{ucs2: 0xbe2f, cp949: 0x9598},
		lookupItem{ucs2: 0xbe30, cp949: 0x9599},
		lookupItem{ucs2: 0xbe31, cp949: 0x959a},
		lookupItem{ucs2: 0xbe32, cp949: 0x959b},
		lookupItem{ucs2: 0xbe33, cp949: 0x959c},
		lookupItem{ucs2: 0xbe34, cp949: 0x959d},
		lookupItem{ucs2: 0xbe35, cp949: 0x959e},
		lookupItem{ucs2: 0xbe36, cp949: 0x959f},
		lookupItem{ucs2: 0xbe37, cp949: 0x95a0},
		lookupItem{ucs2: 0xbe38, cp949: 0x95a1},
		lookupItem{ucs2: 0xbe39, cp949: 0x95a2},
		lookupItem{ucs2: 0xbe3a, cp949: 0x95a3},
		lookupItem{ucs2: 0xbe3b, cp949: 0x95a4},
		lookupItem{ucs2: 0xbe3c, cp949: 0x95a5},
		lookupItem{ucs2: 0xbe3d, cp949: 0x95a6},
		lookupItem{ucs2: 0xbe3e, cp949: 0x95a7},
		lookupItem{ucs2: 0xbe3f, cp949: 0x95a8},
		lookupItem{ucs2: 0xbe40, cp949: 0x95a9},
		lookupItem{ucs2: 0xbe41, cp949: 0x95aa},
		lookupItem{ucs2: 0xbe42, cp949: 0x95ab},
		lookupItem{ucs2: 0xbe43, cp949: 0x95ac},
		lookupItem{ucs2: 0xbe44, cp949: 0xbaf1},
		lookupItem{ucs2: 0xbe45, cp949: 0xbaf2},
		lookupItem{ucs2: 0xbe46, cp949: 0x95ad},
		lookupItem{ucs2: 0xbe47, cp949: 0x95ae},
		lookupItem{ucs2: 0xbe48, cp949: 0xbaf3},
		lookupItem{ucs2: 0xbe49, cp949: 0x95af},
		lookupItem{ucs2: 0xbe4a, cp949: 0x95b0},
		lookupItem{ucs2: 0xbe4b, cp949: 0x95b1},
		lookupItem{ucs2: 0xbe4c, cp949: 0xbaf4},
		lookupItem{ucs2: 0xbe4d, cp949: 0x95b2},
		lookupItem{ucs2: 0xbe4e, cp949: 0xbaf5},
		lookupItem{ucs2: 0xbe4f, cp949: 0x95b3},
		lookupItem{ucs2: 0xbe50, cp949: 0x95b4},
		lookupItem{ucs2: 0xbe51, cp949: 0x95b5},
		lookupItem{ucs2: 0xbe52, cp949: 0x95b6},
		lookupItem{ucs2: 0xbe53, cp949: 0x95b7},
		lookupItem{ucs2: 0xbe54, cp949: 0xbaf6},
		lookupItem{ucs2: 0xbe55, cp949: 0xbaf7},
		lookupItem{ucs2: 0xbe56, cp949: 0x95b8},
		lookupItem{ucs2: 0xbe57, cp949: 0xbaf8},
		lookupItem{ucs2: 0xbe58, cp949: 0x95b9},
		lookupItem{ucs2: 0xbe59, cp949: 0xbaf9},
		lookupItem{ucs2: 0xbe5a, cp949: 0xbafa},
		lookupItem{ucs2: 0xbe5b, cp949: 0xbafb},
		lookupItem{ucs2: 0xbe5c, cp949: 0x95ba},
		lookupItem{ucs2: 0xbe5d, cp949: 0x95bb},
		lookupItem{ucs2: 0xbe5e, cp949: 0x95bc},
		lookupItem{ucs2: 0xbe5f, cp949: 0x95bd},
		lookupItem{ucs2: 0xbe60, cp949: 0xbafc},
		lookupItem{ucs2: 0xbe61, cp949: 0xbafd},
		lookupItem{ucs2: 0xbe62, cp949: 0x95be},
		lookupItem{ucs2: 0xbe63, cp949: 0x95bf},
		lookupItem{ucs2: 0xbe64, cp949: 0xbafe},
		lookupItem{ucs2: 0xbe65, cp949: 0x95c0},
		lookupItem{ucs2: 0xbe66, cp949: 0x95c1},
		lookupItem{ucs2: 0xbe67, cp949: 0x95c2},
		lookupItem{ucs2: 0xbe68, cp949: 0xbba1},
		lookupItem{ucs2: 0xbe69, cp949: 0x95c3},
		lookupItem{ucs2: 0xbe6a, cp949: 0xbba2},
		lookupItem{ucs2: 0xbe6b, cp949: 0x95c4},
		lookupItem{ucs2: 0xbe6c, cp949: 0x95c5},
		lookupItem{ucs2: 0xbe6d, cp949: 0x95c6},
		lookupItem{ucs2: 0xbe6e, cp949: 0x95c7},
		lookupItem{ucs2: 0xbe6f, cp949: 0x95c8},
		lookupItem{ucs2: 0xbe70, cp949: 0xbba3},
		lookupItem{ucs2: 0xbe71, cp949: 0xbba4},
		lookupItem{ucs2: 0xbe72, cp949: 0x95c9},
		lookupItem{ucs2: 0xbe73, cp949: 0xbba5},
		lookupItem{ucs2: 0xbe74, cp949: 0xbba6},
		lookupItem{ucs2: 0xbe75, cp949: 0xbba7},
		lookupItem{ucs2: 0xbe76, cp949: 0x95ca},
		lookupItem{ucs2: 0xbe77, cp949: 0x95cb},
		lookupItem{ucs2: 0xbe78, cp949: 0x95cc},
		lookupItem{ucs2: 0xbe79, cp949: 0x95cd},
		lookupItem{ucs2: 0xbe7a, cp949: 0x95ce},
		lookupItem{ucs2: 0xbe7b, cp949: 0xbba8},
		lookupItem{ucs2: 0xbe7c, cp949: 0xbba9},
		lookupItem{ucs2: 0xbe7d, cp949: 0xbbaa},
".
Definition text_cp949_lookup_to_041 : string :=
"		lookupItem{ucs2: 0xbe7e, cp949: 0x95cf},
		lookupItem{ucs2: 0xbe7f, cp949: 0x95d0},
		lookupItem{ucs2: 0xbe80, cp949: 0xbbab},
		lookupItem{ucs2: 0xbe81, cp949: 0x95d1},
		lookupItem{ucs2: 0xbe82, cp949: 0x95d2},
		lookupItem{ucs2: 0xbe83, cp949: 0x95d3},
		lookupItem{ucs2: 0xbe84, cp949: 0xbbac},
		lookupItem{ucs2: 0xbe85, cp949: 0x95d4},
		lookupItem{ucs2: 0xbe86, cp949: 0x95d5},
		lookupItem{ucs2: 0xbe87, cp949: 0x95d6},
		lookupItem{ucs2: 0xbe88, cp949: 0x95d7},
		lookupItem{ucs2: 0xbe89, cp949: 0x95d8},
		lookupItem{ucs2: 0xbe8a, cp949: 0x95d9},
		lookupItem{ucs2: 0xbe8b, cp949: 0x95da},
		lookupItem{ucs2: 0xbe8c, cp949: 0xbbad},
		lookupItem{ucs2: 0xbe8d, cp949: 0xbbae},
		lookupItem{ucs2: 0xbe8e, cp949: 0x95db},
		lookupItem{ucs2: 0xbe8f, cp949: 0xbbaf},
		lookupItem{ucs2: 0xbe90, cp949: 0xbbb0},
		lookupItem{ucs2: 0xbe91, cp949: 0xbbb1},
		lookupItem{ucs2: 0xbe92, cp949: 0x95dc},
		lookupItem{ucs2: 0xbe93, cp949: 0x95dd},
		lookupItem{ucs2: 0xbe94, cp949: 0x95de},
		lookupItem{ucs2: 0xbe95, cp949: 0x95df},
		lookupItem{ucs2: 0xbe96, cp949: 0x95e0},
		lookupItem{ucs2: 0xbe97, cp949: 0x95e1},
		lookupItem{ucs2: 0xbe98, cp949: 0xbbb2},
		lookupItem{ucs2: 0xbe99, cp949: 0xbbb3},
		lookupItem{ucs2: 0xbe9a, cp949: 0x95e2},
		lookupItem{ucs2: 0xbe9b, cp949: 0x95e3},
		lookupItem{ucs2: 0xbe9c, cp949: 0x95e4},
		lookupItem{ucs2: 0xbe9d, cp949: 0x95e5},
		lookupItem{ucs2: 0xbe9e, cp949: 0x95e6},
		lookupItem{ucs2: 0xbe9f, cp949: 0x95e7},
		lookupItem{ucs2: 0xbea0, cp949: 0x95e8},
		lookupItem{ucs2: 0xbea1, cp949: 0x95e9},
		lookupItem{ucs2: 0xbea2, cp949: 0x95ea},
		lookupItem{ucs2: 0xbea3, cp949: 0x95eb},
		lookupItem{ucs2: 0xbea4, cp949: 0x95ec},
		lookupItem{ucs2: 0xbea5, cp949: 0x95ed},
		lookupItem{ucs2: 0xbea6, cp949: 0x95ee},
		lookupItem{ucs2: 0xbea7, cp949: 0x95ef},
		lookupItem{ucs2: 0xbea8, cp949: 0xbbb4},
		lookupItem{ucs2: 0xbea9, cp949: 0x95f0},
		lookupItem{ucs2: 0xbeaa, cp949: 0x95f1},
		lookupItem{ucs2: 0xbeab, cp949: 0x95f2},
		lookupItem{ucs2: 0xbeac, cp949: 0x95f3},
		lookupItem{ucs2: 0xbead, cp949: 0x95f4},
		lookupItem{ucs2: 0xbeae, cp949: 0x95f5},
		lookupItem{ucs2: 0xbeaf, cp949: 0x95f6},
		lookupItem{ucs2: 0xbeb0, cp949: 0x95f7},
		lookupItem{ucs2: 0xbeb1, cp949: 0x95f8},
		lookupItem{ucs2: 0xbeb2, cp949: 0x95f9},
		lookupItem{ucs2: 0xbeb3, cp949: 0x95fa},
		lookupItem{ucs2: 0xbeb4, cp949: 0x95fb},
		lookupItem{ucs2: 0xbeb5, cp949: 0x95fc},
		lookupItem{ucs2: 0xbeb6, cp949: 0x95fd},
		lookupItem{ucs2: 0xbeb7, cp949: 0x95fe},
		lookupItem{ucs2: 0xbeb8, cp949: 0x9641},
		lookupItem{ucs2: 0xbeb9, cp949: 0x9642},
		lookupItem{ucs2: 0xbeba, cp949: 0x9643},
		lookupItem{ucs2: 0xbebb, cp949: 0x9644},
		lookupItem{ucs2: 0xbebc, cp949: 0x9645},
		lookupItem{ucs2: 0xbebd, cp949: 0x9646},
		lookupItem{ucs2: 0xbebe, cp949: 0x9647},
		lookupItem{ucs2: 0xbebf, cp949: 0x9648},
		lookupItem{ucs2: 0xbec0, cp949: 0x9649},
		lookupItem{ucs2: 0xbec1, cp949: 0x964a},
		lookupItem{ucs2: 0xbec2, cp949: 0x964b},
		lookupItem{ucs2: 0xbec3, cp949: 0x964c},
		lookupItem{ucs2: 0xbec4, cp949: 0x964d},
		lookupItem{ucs2: 0xbec5, cp949: 0x964e},
		lookupItem{ucs2: 0xbec6, cp949: 0x964f},
		lookupItem{ucs2: 0xbec7, cp949: 0x9650},
		lookupItem{ucs2: 0xbec8, cp949: 0x9651},
		lookupItem{ucs2: 0xbec9, cp949: 0x9652},
		lookupItem{ucs2: 0xbeca, cp949: 0x9653},
		lookupItem{ucs2: 0xbecb, cp949: 0x9654},
		lookupItem{ucs2: 0xbecc, cp949: 0x9655},
		lookupItem{ucs2: 0xbecd, cp949: 0x9656},
		lookupItem{ucs2: 0xbece, cp949: 0x9657},
		lookupItem{ucs2: 0xbecf, cp949: 0x9658},
		lookupItem{ucs2: 0xbed0, cp949: 0xbbb5},
		lookupItem{ucs2: 0xbed1, cp949: 0xbbb6},
		lookupItem{ucs2: 0xbed2, cp949: 0x9659},
		lookupItem{ucs2: 0xbed3, cp949: 0x965a},
		lookupItem{ucs2: 0xbed4, cp949: 0xbbb7},
		lookupItem{ucs2: 0xbed5, cp949: 0x9661},
		lookupItem{ucs2: 0xbed6, cp949: 0x9662},
		lookupItem{ucs2: 0xbed7, cp949: 0xbbb8},
		lookupItem{ucs2: 0xbed8, cp949: 0xbbb9},
		lookupItem{ucs2: 0xbed9, cp949: 0x9663},
		lookupItem{ucs2: 0xbeda, cp949: 0x9664},
		lookupItem{ucs2: 0xbedb, cp949: 0x9665},
		lookupItem{ucs2: 0xbedc, cp949: 0x9666},
		lookupItem{ucs2: 0xbedd, cp949: 0x9667},
		lookupItem{ucs2: 0xbede, cp949: 0x9668},
		lookupItem{ucs2: 0xbedf, cp949: 0x9669},
		lookupItem{ucs2: 0xbee0, cp949: 0xbbba},
		lookupItem{ucs2: 0xbee1, cp949: 0x966a},
		lookupItem{ucs2: 0xbee2, cp949: 0x966b},
		lookupItem{ucs2: 0xbee3, cp949: 0xbbbb},
		lookupItem{ucs2: 0xbee4, cp949: 0xbbbc},
		lookupItem{ucs2: 0xbee5, cp949: 0xbbbd},
		lookupItem{ucs2: 0xbee6, cp949: 0x966c},
		lookupItem{ucs2: 0xbee7, cp949: 0x966d},
		lookupItem{ucs2: 0xbee8, cp949: 0x966e},
		lookupItem{ucs2: 0xbee9, cp949: 0x966f},
		lookupItem{ucs2: 0xbeea, cp949: 0x9670},
		lookupItem{ucs2: 0xbeeb, cp949: 0x9671},
		lookupItem{ucs2: 0xbeec, cp949: 0xbbbe},
		lookupItem{ucs2: 0xbeed, cp949: 0x9672},
		lookupItem{ucs2: 0xbeee, cp949: 0x9673},
		lookupItem{ucs2: 0xbeef, cp949: 0x9674},
		lookupItem{ucs2: 0xbef0, cp949: 0x9675},
		lookupItem{ucs2: 0xbef1, cp949: 0x9676},
		lookupItem{ucs2: 0xbef2, cp949: 0x9677},
		lookupItem{ucs2: 0xbef3, cp949: 0x9678},
		lookupItem{ucs2: 0xbef4, cp949: 0x9679},
		lookupItem{ucs2: 0xbef5, cp949: 0x967a},
		lookupItem{ucs2: 0xbef6, cp949: 0x9681},
		lookupItem{ucs2: 0xbef7, cp949: 0x9682},
		lookupItem{ucs2: 0xbef8, cp949: 0x9683},
		lookupItem{ucs2: 0xbef9, cp949: 0x9684},
		lookupItem{ucs2: 0xbefa, cp949: 0x9685},
		lookupItem{ucs2: 0xbefb, cp949: 0x9686},
		lookupItem{ucs2: 0xbefc, cp949: 0x9687},
		lookupItem{ucs2: 0xbefd, cp949: 0x9688},
		lookupItem{ucs2: 0xbefe, cp949: 0x9689},
		lookupItem{ucs2: 0xbeff, cp949: 0x968a},
		lookupItem{ucs2: 0xbf00, cp949: 0x968b},
		lookupItem{ucs2: 0xbf01, cp949: 0xbbbf},
		lookupItem{ucs2: 0xbf02, cp949: 0x968c},
		lookupItem{ucs2: 0xbf03, cp949: 0x968d},
		lookupItem{ucs2: 0xbf04, cp949: 0x968e},
		lookupItem{ucs2: 0xbf05, cp949: 0x968f},
		lookupItem{ucs2: 0xbf06, cp949: 0x9690},
		lookupItem{ucs2: 0xbf07, cp949: 0x9691},
		lookupItem{ucs2: 0xbf08, cp949: 0xbbc0},
		lookupItem{ucs2: 0xbf09, cp949: 0xbbc1},
		lookupItem{ucs2: 0xbf0a, cp949: 0x9692},
		lookupItem{ucs2: 0xbf0b, cp949: 0x9693},
		lookupItem{ucs2: 0xbf0c, cp949: 0x9694},
		lookupItem{ucs2: 0xbf0d, cp949: 0x9695},
		lookupItem{ucs2: 0xbf0e, cp949: 0x9696},
		lookupItem{ucs2: 0xbf0f, cp949: 0x9697},
		lookupItem{ucs2: 0xbf10, cp949: 0x9698},
		lookupItem{ucs2: 0xbf11, cp949: 0x9699},
		lookupItem{ucs2: 0xbf12, cp949: 0x969a},
		lookupItem{ucs2: 0xbf13, cp949: 0x969b},
		lookupItem{ucs2: 0xbf14, cp949: 0x969c},
		lookupItem{ucs2: 0xbf15, cp949: 0x969d},
		lookupItem{ucs2: 0xbf16, cp949: 0x969e},
		lookupItem{ucs2: 0xbf17, cp949: 0x969f},
		lookupItem{ucs2: 0xbf18, cp949: 0xbbc2},
		lookupItem{ucs2: 0xbf19, cp949: 0xbbc3},
		lookupItem{ucs2: 0xbf1a, cp949: 0x96a0},
		lookupItem{ucs2: 0xbf1b, cp949: 0xbbc4},
		lookupItem{ucs2: 0xbf1c, cp949: 0xbbc5},
		lookupItem{ucs2: 0xbf1d, cp949: 0xbbc6},
		lookupItem{ucs2: 0xbf1e, cp949: 0x96a1},
		lookupItem{ucs2: 0xbf1f, cp949: 0x96a2},
		lookupItem{ucs2: 0xbf20, cp949: 0x96a3},
		lookupItem{ucs2: 0xbf21, cp949: 0x96a4},
		lookupItem{ucs2: 0xbf22, cp949: 0x96a5},
		lookupItem{ucs2: 0xbf23, cp949: 0x96a6},
		lookupItem{ucs2: 0xbf24, cp949: 0x96a7},
		lookupItem{ucs2: 0xbf25, cp949: 0x96a8},
		lookupItem{ucs2: 0xbf26, cp949: 0x96a9},
		lookupItem{ucs2: 0xbf27, cp949: 0x96aa},
		lookupItem{ucs2: 0xbf28, cp949: 0x96ab},
		lookupItem{ucs2: 0xbf29, cp949: 0x96ac},
		lookupItem{ucs2: 0xbf2a, cp949: 0x96ad},
		lookupItem{ucs2: 0xbf2b, cp949: 0x96ae},
		lookupItem{ucs2: 0xbf2c, cp949: 0x96af},
		lookupItem{ucs2: 0xbf2d, cp949: 0x96b0},
		lookupItem{ucs2: 0xbf2e, cp949: 0x96b1},
		lookupItem{ucs2: 0xbf2f, cp949: 0x96b2},
		lookupItem{ucs2: 0xbf30, cp949: 0x96b3},
		lookupItem{ucs2: 0xbf31, cp949: 0x96b4},
		lookupItem{ucs2: 0xbf32, cp949: 0x96b5},
		lookupItem{ucs2: 0xbf33, cp949: 0x96b6},
		lookupItem{ucs2: 0xbf34, cp949: 0x96b7},
		lookupItem{ucs2: 0xbf35, cp949: 0x96b8},
		lookupItem{ucs2: 0xbf36, cp949: 0x96b9},
		lookupItem{ucs2: 0xbf37, cp949: 0x96ba},
		lookupItem{ucs2: 0xbf38, cp949: 0x96bb},
		lookupItem{ucs2: 0xbf39, cp949: 0x96bc},
		lookupItem{ucs2: 0xbf3a, cp949: 0x96bd},
		lookupItem{ucs2: 0xbf3b, cp949: 0x96be},
		lookupItem{ucs2: 0xbf3c, cp949: 0x96bf},
		lookupItem{ucs2: 0xbf3d, cp949: 0x96c0},
		lookupItem{ucs2: 0xbf3e, cp949: 0x96c1},
		lookupItem{ucs2: 0xbf3f, cp949: 0x96c2},
		lookupItem{ucs2: 0xbf40, cp949: 0xbbc7},
		lookupItem{ucs2: 0xbf41, cp949: 0xbbc8},
		lookupItem{ucs2: 0xbf42, cp949: 0x96c3},
		lookupItem{ucs2: 0xbf43, cp949: 0x96c4},
		lookupItem{ucs2: 0xbf44, cp949: 0xbbc9},
		lookupItem{ucs2: 0xbf45, cp949: 0x96c5},
		lookupItem{ucs2: 0xbf46, cp949: 0x96c6},
		lookupItem{ucs2: 0xbf47, cp949: 0x96c7},
		lookupItem{ucs2: 0xbf48, cp949: 0xbbca},
		lookupItem{ucs2: 0xbf49, cp949: 0x96c8},
		lookupItem{ucs2: 0xbf4a, cp949: 0x96c9},
		lookupItem{ucs2: 0xbf4b, cp949: 0x96ca},
		lookupItem{ucs2: 0xbf4c, cp949: 0x96cb},
		lookupItem{ucs2: 0xbf4d, cp949: 0x96cc},
		lookupItem{ucs2: 0xbf4e, cp949: 0x96cd},
		lookupItem{ucs2: 0xbf4f, cp949: 0x96ce},
		lookupItem{ucs2: 0xbf50, cp949: 0xbbcb},
		lookupItem{ucs2: 0xbf51, cp949: 0xbbcc},
		lookupItem{ucs2: 0xbf52, cp949: 0x96cf},
		lookupItem{ucs2: 0xbf53, cp949: 0x96d0},
		lookupItem{ucs2: 0xbf54, cp949: 0x96d1},
		lookupItem{ucs2: 0xbf55, cp949: 0xbbcd},
		lookupItem{ucs2: 0xbf56, cp949: 0x96d2},
		lookupItem{ucs2: 0xbf57, cp949: 0x96d3},
		lookupItem{ucs2: 0xbf58, cp949: 0x96d4},
		lookupItem{ucs2: 0xbf59, cp949: 0x96d5},
		lookupItem{ucs2: 0xbf5a, cp949: 0x96d6},
		lookupItem{ucs2: 0xbf5b, cp949: 0x96d7},
		lookupItem{ucs2: 0xbf5c, cp949: 0x96d8},
		lookupItem{ucs2: 0xbf5d, cp949: 0x96d9},
		lookupItem{ucs2: 0xbf5e, cp949: 0x96da},
		lookupItem{ucs2: 0xbf5f, cp949: 0x96db},
		lookupItem{ucs2: 0xbf60, cp949: 0x96dc},
		lookupItem{ucs2: 0xbf61, cp949: 0x96dd},
		lookupItem{ucs2: 0xbf62, cp949: 0x96de},
		lookupItem{ucs2: 0xbf63, cp949: 0x96df},
		lookupItem{ucs2: 0xbf64, cp949: 0x96e0},
		lookupItem{ucs2: 0xbf65, cp949: 0x96e1},
		lookupItem{ucs2: 0xbf66, cp949: 0x96e2},
		lookupItem{ucs2: 0xbf67, cp949: 0x96e3},
		lookupItem{ucs2: 0xbf68, cp949: 0x96e4},
		lookupItem{ucs2: 0xbf69, cp949: 0x96e5},
		lookupItem{ucs2: 0xbf6a, cp949: 0x96e6},
		lookupItem{ucs2: 0xbf6b, cp949: 0x96e7},
		lookupItem{ucs2: 0xbf6c, cp949: 0x96e8},
		lookupItem{ucs2: 0xbf6d, cp949: 0x96e9},
		lookupItem{ucs2: 0xbf6e, cp949: 0x96ea},
		lookupItem{ucs2: 0xbf6f, cp949: 0x96eb},
		lookupItem{ucs2: 0xbf70, cp949: 0x96ec},
		lookupItem{ucs2: 0xbf71, cp949: 0x96ed},
		lookupItem{ucs2: 0xbf72, cp949: 0x96ee},
		lookupItem{ucs2: 0xbf73, cp949: 0x96ef},
		lookupItem{ucs2: 0xbf74, cp949: 0x96f0},
		lookupItem{ucs2: 0xbf75, cp949: 0x96f1},
		lookupItem{ucs2: 0xbf76, cp949: 0x96f2},
		lookupItem{ucs2: 0xbf77, cp949: 0x96f3},
".
Definition text_cp949_lookup_to_042 : string :=
"		lookupItem{ucs2: 0xbf78, cp949: 0x96f4},
		lookupItem{ucs2: 0xbf79, cp949: 0x96f5},
		lookupItem{ucs2: 0xbf7a, cp949: 0x96f6},
		lookupItem{ucs2: 0xbf7b, cp949: 0x96f7},
		lookupItem{ucs2: 0xbf7c, cp949: 0x96f8},
		lookupItem{ucs2: 0xbf7d, cp949: 0x96f9},
		lookupItem{ucs2: 0xbf7e, cp949: 0x96fa},
		lookupItem{ucs2: 0xbf7f, cp949: 0x96fb},
		lookupItem{ucs2: 0xbf80, cp949: 0x96fc},
		lookupItem{ucs2: 0xbf81, cp949: 0x96fd},
		lookupItem{ucs2: 0xbf82, cp949: 0x96fe},
		lookupItem{ucs2: 0xbf83, cp949: 0x9741},
		lookupItem{ucs2: 0xbf84, cp949: 0x9742},
		lookupItem{ucs2: 0xbf85, cp949: 0x9743},
		lookupItem{ucs2: 0xbf86, cp949: 0x9744},
		lookupItem{ucs2: 0xbf87, cp949: 0x9745},
		lookupItem{ucs2: 0xbf88, cp949: 0x9746},
		lookupItem{ucs2: 0xbf89, cp949: 0x9747},
		lookupItem{ucs2: 0xbf8a, cp949: 0x9748},
		lookupItem{ucs2: 0xbf8b, cp949: 0x9749},
		lookupItem{ucs2: 0xbf8c, cp949: 0x974a},
		lookupItem{ucs2: 0xbf8d, cp949: 0x974b},
		lookupItem{ucs2: 0xbf8e, cp949: 0x974c},
		lookupItem{ucs2: 0xbf8f, cp949: 0x974d},
		lookupItem{ucs2: 0xbf90, cp949: 0x974e},
		lookupItem{ucs2: 0xbf91, cp949: 0x974f},
		lookupItem{ucs2: 0xbf92, cp949: 0x9750},
		lookupItem{ucs2: 0xbf93, cp949: 0x9751},
		lookupItem{ucs2: 0xbf94, cp949: 0xbbce},
		lookupItem{ucs2: 0xbf95, cp949: 0x9752},
		lookupItem{ucs2: 0xbf96, cp949: 0x9753},
		lookupItem{ucs2: 0xbf97, cp949: 0x9754},
		lookupItem{ucs2: 0xbf98, cp949: 0x9755},
		lookupItem{ucs2: 0xbf99, cp949: 0x9756},
		lookupItem{ucs2: 0xbf9a, cp949: 0x9757},
		lookupItem{ucs2: 0xbf9b, cp949: 0x9758},
		lookupItem{ucs2: 0xbf9c, cp949: 0x9759},
		lookupItem{ucs2: 0xbf9d, cp949: 0x975a},
		lookupItem{ucs2: 0xbf9e, cp949: 0x9761},
		lookupItem{ucs2: 0xbf9f, cp949: 0x9762},
		lookupItem{ucs2: 0xbfa0, cp949: 0x9763},
		lookupItem{ucs2: 0xbfa1, cp949: 0x9764},
		lookupItem{ucs2: 0xbfa2, cp949: 0x9765},
		lookupItem{ucs2: 0xbfa3, cp949: 0x9766},
		lookupItem{ucs2: 0xbfa4, cp949: 0x9767},
		lookupItem{ucs2: 0xbfa5, cp949: 0x9768},
		lookupItem{ucs2: 0xbfa6, cp949: 0x9769},
		lookupItem{ucs2: 0xbfa7, cp949: 0x976a},
		lookupItem{ucs2: 0xbfa8, cp949: 0x976b},
		lookupItem{ucs2: 0xbfa9, cp949: 0x976c},
		lookupItem{ucs2: 0xbfaa, cp949: 0x976d},
		lookupItem{ucs2: 0xbfab, cp949: 0x976e},
		lookupItem{ucs2: 0xbfac, cp949: 0x976f},
		lookupItem{ucs2: 0xbfad, cp949: 0x9770},
		lookupItem{ucs2: 0xbfae, cp949: 0x9771},
		lookupItem{ucs2: 0xbfaf, cp949: 0x9772},
		lookupItem{ucs2: 0xbfb0, cp949: 0xbbcf},
		lookupItem{ucs2: 0xbfb1, cp949: 0x9773},
		lookupItem{ucs2: 0xbfb2, cp949: 0x9774},
		lookupItem{ucs2: 0xbfb3, cp949: 0x9775},
		lookupItem{ucs2: 0xbfb4, cp949: 0x9776},
		lookupItem{ucs2: 0xbfb5, cp949: 0x9777},
		lookupItem{ucs2: 0xbfb6, cp949: 0x9778},
		lookupItem{ucs2: 0xbfb7, cp949: 0x9779},
		lookupItem{ucs2: 0xbfb8, cp949: 0x977a},
		lookupItem{ucs2: 0xbfb9, cp949: 0x9781},
		lookupItem{ucs2: 0xbfba, cp949: 0x9782},
		lookupItem{ucs2: 0xbfbb, cp949: 0x9783},
		lookupItem{ucs2: 0xbfbc, cp949: 0x9784},
		lookupItem{ucs2: 0xbfbd, cp949: 0x9785},
		lookupItem{ucs2: 0xbfbe, cp949: 0x9786},
		lookupItem{ucs2: 0xbfbf, cp949: 0x9787},
		lookupItem{ucs2: 0xbfc0, cp949: 0x9788},
		lookupItem{ucs2: 0xbfc1, cp949: 0x9789},
		lookupItem{ucs2: 0xbfc2, cp949: 0x978a},
		lookupItem{ucs2: 0xbfc3, cp949: 0x978b},
		lookupItem{ucs2: 0xbfc4, cp949: 0x978c},
		lookupItem{ucs2: 0xbfc5, cp949: 0xbbd0},
		lookupItem{ucs2: 0xbfc6, cp949: 0x978d},
		lookupItem{ucs2: 0xbfc7, cp949: 0x978e},
		lookupItem{ucs2: 0xbfc8, cp949: 0x978f},
		lookupItem{ucs2: 0xbfc9, cp949: 0x9790},
		lookupItem{ucs2: 0xbfca, cp949: 0x9791},
		lookupItem{ucs2: 0xbfcb, cp949: 0x9792},
		lookupItem{ucs2: 0xbfcc, cp949: 0xbbd1},
		lookupItem{ucs2: 0xbfcd, cp949: 0xbbd2},
		lookupItem{ucs2: 0xbfce, cp949: 0x9793},
		lookupItem{ucs2: 0xbfcf, cp949: 0x9794},
		lookupItem{ucs2: 0xbfd0, cp949: 0xbbd3},
		lookupItem{ucs2: 0xbfd1, cp949: 0x9795},
		lookupItem{ucs2: 0xbfd2, cp949: 0x9796},
		lookupItem{ucs2: 0xbfd3, cp949: 0x9797},
		lookupItem{ucs2: 0xbfd4, cp949: 0xbbd4},
		lookupItem{ucs2: 0xbfd5, cp949: 0x9798},
		lookupItem{ucs2: 0xbfd6, cp949: 0x9799},
		lookupItem{ucs2: 0xbfd7, cp949: 0x979a},
		lookupItem{ucs2: 0xbfd8, cp949: 0x979b},
		lookupItem{ucs2: 0xbfd9, cp949: 0x979c},
		lookupItem{ucs2: 0xbfda, cp949: 0x979d},
		lookupItem{ucs2: 0xbfdb, cp949: 0x979e},
		lookupItem{ucs2: 0xbfdc, cp949: 0xbbd5},
		lookupItem{ucs2: 0xbfdd, cp949: 0x979f},
		lookupItem{ucs2: 0xbfde, cp949: 0x97a0},
		lookupItem{ucs2: 0xbfdf, cp949: 0xbbd6},
		lookupItem{ucs2: 0xbfe0, cp949: 0x97a1},
		lookupItem{ucs2: 0xbfe1, cp949: 0xbbd7},
		lookupItem{ucs2: 0xbfe2, cp949: 0x97a2},
		lookupItem{ucs2: 0xbfe3, cp949: 0x97a3},
		lookupItem{ucs2: 0xbfe4, cp949: 0x97a4},
		lookupItem{ucs2: 0xbfe5, cp949: 0x97a5},
		lookupItem{ucs2: 0xbfe6, cp949: 0x97a6},
		lookupItem{ucs2: 0xbfe7, cp949: 0x97a7},
		lookupItem{ucs2: 0xbfe8, cp949: 0x97a8},
		lookupItem{ucs2: 0xbfe9, cp949: 0x97a9},
		lookupItem{ucs2: 0xbfea, cp949: 0x97aa},
		lookupItem{ucs2: 0xbfeb, cp949: 0x97ab},
		lookupItem{ucs2: 0xbfec, cp949: 0x97ac},
		lookupItem{ucs2: 0xbfed, cp949: 0x97ad},
		lookupItem{ucs2: 0xbfee, cp949: 0x97ae},
		lookupItem{ucs2: 0xbfef, cp949: 0x97af},
		lookupItem{ucs2: 0xbff0, cp949: 0x97b0},
		lookupItem{ucs2: 0xbff1, cp949: 0x97b1},
		lookupItem{ucs2: 0xbff2, cp949: 0x97b2},
		lookupItem{ucs2: 0xbff3, cp949: 0x97b3},
		lookupItem{ucs2: 0xbff4, cp949: 0x97b4},
		lookupItem{ucs2: 0xbff5, cp949: 0x97b5},
		lookupItem{ucs2: 0xbff6, cp949: 0x97b6},
		lookupItem{ucs2: 0xbff7, cp949: 0x97b7},
		lookupItem{ucs2: 0xbff8, cp949: 0x97b8},
		lookupItem{ucs2: 0xbff9, cp949: 0x97b9},
		lookupItem{ucs2: 0xbffa, cp949: 0x97ba},
		lookupItem{ucs2: 0xbffb, cp949: 0x97bb},
		lookupItem{ucs2: 0xbffc, cp949: 0x97bc},
		lookupItem{ucs2: 0xbffd, cp949: 0x97bd},
		lookupItem{ucs2: 0xbffe, cp949: 0x97be},
		lookupItem{ucs2: 0xbfff, cp949: 0x97bf},
		lookupItem{ucs2: 0xc000, cp949: 0x97c0},
		lookupItem{ucs2: 0xc001, cp949: 0x97c1},
		lookupItem{ucs2: 0xc002, cp949: 0x97c2},
		lookupItem{ucs2: 0xc003, cp949: 0x97c3},
		lookupItem{ucs2: 0xc004, cp949: 0x97c4},
		lookupItem{ucs2: 0xc005, cp949: 0x97c5},
		lookupItem{ucs2: 0xc006, cp949: 0x97c6},
		lookupItem{ucs2: 0xc007, cp949: 0x97c7},
		lookupItem{ucs2: 0xc008, cp949: 0x97c8},
		lookupItem{ucs2: 0xc009, cp949: 0x97c9},
		lookupItem{ucs2: 0xc00a, cp949: 0x97ca},
		lookupItem{ucs2: 0xc00b, cp949: 0x97cb},
		lookupItem{ucs2: 0xc00c, cp949: 0x97cc},
		lookupItem{ucs2: 0xc00d, cp949: 0x97cd},
		lookupItem{ucs2: 0xc00e, cp949: 0x97ce},
		lookupItem{ucs2: 0xc00f, cp949: 0x97cf},
		lookupItem{ucs2: 0xc010, cp949: 0x97d0},
		lookupItem{ucs2: 0xc011, cp949: 0x97d1},
		lookupItem{ucs2: 0xc012, cp949: 0x97d2},
		lookupItem{ucs2: 0xc013, cp949: 0x97d3},
		lookupItem{ucs2: 0xc014, cp949: 0x97d4},
		lookupItem{ucs2: 0xc015, cp949: 0x97d5},
		lookupItem{ucs2: 0xc016, cp949: 0x97d6},
		lookupItem{ucs2: 0xc017, cp949: 0x97d7},
		lookupItem{ucs2: 0xc018, cp949: 0x97d8},
		lookupItem{ucs2: 0xc019, cp949: 0x97d9},
		lookupItem{ucs2: 0xc01a, cp949: 0x97da},
		lookupItem{ucs2: 0xc01b, cp949: 0x97db},
		lookupItem{ucs2: 0xc01c, cp949: 0x97dc},
		lookupItem{ucs2: 0xc01d, cp949: 0x97dd},
		lookupItem{ucs2: 0xc01e, cp949: 0x97de},
		lookupItem{ucs2: 0xc01f, cp949: 0x97df},
		lookupItem{ucs2: 0xc020, cp949: 0x97e0},
		lookupItem{ucs2: 0xc021, cp949: 0x97e1},
		lookupItem{ucs2: 0xc022, cp949: 0x97e2},
		lookupItem{ucs2: 0xc023, cp949: 0x97e3},
		lookupItem{ucs2: 0xc024, cp949: 0x97e4},
		lookupItem{ucs2: 0xc025, cp949: 0x97e5},
		lookupItem{ucs2: 0xc026, cp949: 0x97e6},
		lookupItem{ucs2: 0xc027, cp949: 0x97e7},
		lookupItem{ucs2: 0xc028, cp949: 0x97e8},
		lookupItem{ucs2: 0xc029, cp949: 0x97e9},
		lookupItem{ucs2: 0xc02a, cp949: 0x97ea},
		lookupItem{ucs2: 0xc02b, cp949: 0x97eb},
		lookupItem{ucs2: 0xc02c, cp949: 0x97ec},
		lookupItem{ucs2: 0xc02d, cp949: 0x97ed},
		lookupItem{ucs2: 0xc02e, cp949: 0x97ee},
		lookupItem{ucs2: 0xc02f, cp949: 0x97ef},
		lookupItem{ucs2: 0xc030, cp949: 0x97f0},
		lookupItem{ucs2: 0xc031, cp949: 0x97f1},
		lookupItem{ucs2: 0xc032, cp949: 0x97f2},
		lookupItem{ucs2: 0xc033, cp949: 0x97f3},
		lookupItem{ucs2: 0xc034, cp949: 0x97f4},
		lookupItem{ucs2: 0xc035, cp949: 0x97f5},
		lookupItem{ucs2: 0xc036, cp949: 0x97f6},
		lookupItem{ucs2: 0xc037, cp949: 0x97f7},
		lookupItem{ucs2: 0xc038, cp949: 0x97f8},
		lookupItem{ucs2: 0xc039, cp949: 0x97f9},
		lookupItem{ucs2: 0xc03a, cp949: 0x97fa},
		lookupItem{ucs2: 0xc03b, cp949: 0x97fb},
		lookupItem{ucs2: 0xc03c, cp949: 0xbbd8},
		lookupItem{ucs2: 0xc03d, cp949: 0x97fc},
		lookupItem{ucs2: 0xc03e, cp949: 0x97fd},
		lookupItem{ucs2: 0xc03f, cp949: 0x97fe},
		lookupItem{ucs2: 0xc040, cp949: 0x9841},
		lookupItem{ucs2: 0xc041, cp949: 0x9842},
		lookupItem{ucs2: 0xc042, cp949: 0x9843},
		lookupItem{ucs2: 0xc043, cp949: 0x9844},
		lookupItem{ucs2: 0xc044, cp949: 0x9845},
		lookupItem{ucs2: 0xc045, cp949: 0x9846},
		lookupItem{ucs2: 0xc046, cp949: 0x9847},
		lookupItem{ucs2: 0xc047, cp949: 0x9848},
		lookupItem{ucs2: 0xc048, cp949: 0x9849},
		lookupItem{ucs2: 0xc049, cp949: 0x984a},
		lookupItem{ucs2: 0xc04a, cp949: 0x984b},
		lookupItem{ucs2: 0xc04b, cp949: 0x984c},
		lookupItem{ucs2: 0xc04c, cp949: 0x984d},
		lookupItem{ucs2: 0xc04d, cp949: 0x984e},
		lookupItem{ucs2: 0xc04e, cp949: 0x984f},
		lookupItem{ucs2: 0xc04f, cp949: 0x9850},
		lookupItem{ucs2: 0xc050, cp949: 0x9851},
		lookupItem{ucs2: 0xc051, cp949: 0xbbd9},
		lookupItem{ucs2: 0xc052, cp949: 0x9852},
		lookupItem{ucs2: 0xc053, cp949: 0x9853},
		lookupItem{ucs2: 0xc054, cp949: 0x9854},
		lookupItem{ucs2: 0xc055, cp949: 0x9855},
		lookupItem{ucs2: 0xc056, cp949: 0x9856},
		lookupItem{ucs2: 0xc057, cp949: 0x9857},
		lookupItem{ucs2: 0xc058, cp949: 0xbbda},
		lookupItem{ucs2: 0xc059, cp949: 0x9858},
		lookupItem{ucs2: 0xc05a, cp949: 0x9859},
		lookupItem{ucs2: 0xc05b, cp949: 0x985a},
		lookupItem{ucs2: 0xc05c, cp949: 0xbbdb},
		lookupItem{ucs2: 0xc05d, cp949: 0x9861},
		lookupItem{ucs2: 0xc05e, cp949: 0x9862},
		lookupItem{ucs2: 0xc05f, cp949: 0x9863},
		lookupItem{ucs2: 0xc060, cp949: 0xbbdc},
		lookupItem{ucs2: 0xc061, cp949: 0x9864},
		lookupItem{ucs2: 0xc062, cp949: 0x9865},
		lookupItem{ucs2: 0xc063, cp949: 0x9866},
		lookupItem{ucs2: 0xc064, cp949: 0x9867},
		lookupItem{ucs2: 0xc065, cp949: 0x9868},
		lookupItem{ucs2: 0xc066, cp949: 0x9869},
		lookupItem{ucs2: 0xc067, cp949: 0x986a},
		lookupItem{ucs2: 0xc068, cp949: 0xbbdd},
		lookupItem{ucs2: 0xc069, cp949: 0xbbde},
		lookupItem{ucs2: 0xc06a, cp949: 0x986b},
		lookupItem{ucs2: 0xc06b, cp949: 0x986c},
		lookupItem{ucs2: 0xc06c, cp949: 0x986d},
		lookupItem{ucs2: 0xc06d, cp949: 0x986e},
		lookupItem{ucs2: 0xc06e, cp949: 0x986f},
		lookupItem{ucs2: 0xc06f, cp949: 0x9870},
		lookupItem{ucs2: 0xc070, cp949: 0x9871},
		lookupItem{ucs2: 0xc071, cp949: 0x9872},
".
Definition text_cp949_lookup_to_043 : string :=
"		lookupItem{ucs2: 0xc072, cp949: 0x9873},
		lookupItem{ucs2: 0xc073, cp949: 0x9874},
		lookupItem{ucs2: 0xc074, cp949: 0x9875},
		lookupItem{ucs2: 0xc075, cp949: 0x9876},
		lookupItem{ucs2: 0xc076, cp949: 0x9877},
		lookupItem{ucs2: 0xc077, cp949: 0x9878},
		lookupItem{ucs2: 0xc078, cp949: 0x9879},
		lookupItem{ucs2: 0xc079, cp949: 0x987a},
		lookupItem{ucs2: 0xc07a, cp949: 0x9881},
		lookupItem{ucs2: 0xc07b, cp949: 0x9882},
		lookupItem{ucs2: 0xc07c, cp949: 0x9883},
		lookupItem{ucs2: 0xc07d, cp949: 0x9884},
		lookupItem{ucs2: 0xc07e, cp949: 0x9885},
		lookupItem{ucs2: 0xc07f, cp949: 0x9886},
		lookupItem{ucs2: 0xc080, cp949: 0x9887},
		lookupItem{ucs2: 0xc081, cp949: 0x9888},
		lookupItem{ucs2: 0xc082, cp949: 0x9889},
		lookupItem{ucs2: 0xc083, cp949: 0x988a},
		lookupItem{ucs2: 0xc084, cp949: 0x988b},
		lookupItem{ucs2: 0xc085, cp949: 0x988c},
		lookupItem{ucs2: 0xc086, cp949: 0x988d},
		lookupItem{ucs2: 0xc087, cp949: 0x988e},
		lookupItem{ucs2: 0xc088, cp949: 0x988f},
		lookupItem{ucs2: 0xc089, cp949: 0x9890},
		lookupItem{ucs2: 0xc08a, cp949: 0x9891},
		lookupItem{ucs2: 0xc08b, cp949: 0x9892},
		lookupItem{ucs2: 0xc08c, cp949: 0x9893},
		lookupItem{ucs2: 0xc08d, cp949: 0x9894},
		lookupItem{ucs2: 0xc08e, cp949: 0x9895},
		lookupItem{ucs2: 0xc08f, cp949: 0x9896},
		lookupItem{ucs2: 0xc090, cp949: 0xbbdf},
		lookupItem{ucs2: 0xc091, cp949: 0xbbe0},
		lookupItem{ucs2: 0xc092, cp949: 0x9897},
		lookupItem{ucs2: 0xc093, cp949: 0x9898},
		lookupItem{ucs2: 0xc094, cp949: 0xbbe1},
		lookupItem{ucs2: 0xc095, cp949: 0x9899},
		lookupItem{ucs2: 0xc096, cp949: 0x989a},
		lookupItem{ucs2: 0xc097, cp949: 0x989b},
		lookupItem{ucs2: 0xc098, cp949: 0xbbe2},
		lookupItem{ucs2: 0xc099, cp949: 0x989c},
		lookupItem{ucs2: 0xc09a, cp949: 0x989d},
		lookupItem{ucs2: 0xc09b, cp949: 0x989e},
		lookupItem{ucs2: 0xc09c, cp949: 0x989f},
		lookupItem{ucs2: 0xc09d, cp949: 0x98a0},
		lookupItem{ucs2: 0xc09e, cp949: 0x98a1},
		lookupItem{ucs2: 0xc09f, cp949: 0x98a2},
		lookupItem{ucs2: 0xc0a0, cp949: 0xbbe3},
		lookupItem{ucs2: 0xc0a1, cp949: 0xbbe4},
		lookupItem{ucs2: 0xc0a2, cp949: 0x98a3},
		lookupItem{ucs2: 0xc0a3, cp949: 0xbbe5},
		lookupItem{ucs2: 0xc0a4, cp949: 0x98a4},
		lookupItem{ucs2: 0xc0a5, cp949: 0xbbe6},
		lookupItem{ucs2: 0xc0a6, cp949: 0x98a5},
		lookupItem{ucs2: 0xc0a7, cp949: 0x98a6},
		lookupItem{ucs2: 0xc0a8, cp949: 0x98a7},
		lookupItem{ucs2: 0xc0a9, cp949: 0x98a8},
		lookupItem{ucs2: 0xc0aa, cp949: 0x98a9},
		lookupItem{ucs2: 0xc0ab, cp949: 0x98aa},
		lookupItem{ucs2: 0xc0ac, cp949: 0xbbe7},
		lookupItem{ucs2: 0xc0ad, cp949: 0xbbe8},
		lookupItem{ucs2: 0xc0ae, cp949: 0x98ab},
		lookupItem{ucs2: 0xc0af, cp949: 0xbbe9},
		lookupItem{ucs2: 0xc0b0, cp949: 0xbbea},
		lookupItem{ucs2: 0xc0b1, cp949: 0x98ac},
		lookupItem{ucs2: 0xc0b2, cp949: 0x98ad},
		lookupItem{ucs2: 0xc0b3, cp949: 0xbbeb},
		lookupItem{ucs2: 0xc0b4, cp949: 0xbbec},
		lookupItem{ucs2: 0xc0b5, cp949: 0xbbed},
		lookupItem{ucs2: 0xc0b6, cp949: 0xbbee},
		lookupItem{ucs2: 0xc0b7, cp949: 0x98ae},
		lookupItem{ucs2: 0xc0b8, cp949: 0x98af},
		lookupItem{ucs2: 0xc0b9, cp949: 0x98b0},
		lookupItem{ucs2: 0xc0ba, cp949: 0x98b1},
		lookupItem{ucs2: 0xc0bb, cp949: 0x98b2},
		lookupItem{ucs2: 0xc0bc, cp949: 0xbbef},
		lookupItem{ucs2: 0xc0bd, cp949: 0xbbf0},
		lookupItem{ucs2: 0xc0be, cp949: 0x98b3},
		lookupItem{ucs2: 0xc0bf, cp949: 0xbbf1},
		lookupItem{ucs2: 0xc0c0, cp949: 0xbbf2},
		lookupItem{ucs2: 0xc0c1, cp949: 0xbbf3},
		lookupItem{ucs2: 0xc0c2, cp949: 0x98b4},
		lookupItem{ucs2: 0xc0c3, cp949: 0x98b5},
		lookupItem{ucs2: 0xc0c4, cp949: 0x98b6},
		lookupItem{ucs2: 0xc0c5, cp949: 0xbbf4},
		lookupItem{ucs2: 0xc0c6, cp949: 0x98b7},
		lookupItem{ucs2: 0xc0c7, cp949: 0x98b8},
		lookupItem{ucs2: 0xc0c8, cp949: 0xbbf5},
		lookupItem{ucs2: 0xc0c9, cp949: 0xbbf6},
		lookupItem{ucs2: 0xc0ca, cp949: 0x98b9},
		lookupItem{ucs2: 0xc0cb, cp949: 0x98ba},
		lookupItem{ucs2: 0xc0cc, cp949: 0xbbf7},
		lookupItem{ucs2: 0xc0cd, cp949: 0x98bb},
		lookupItem{ucs2: 0xc0ce, cp949: 0x98bc},
		lookupItem{ucs2: 0xc0cf, cp949: 0x98bd},
		lookupItem{ucs2: 0xc0d0, cp949: 0xbbf8},
		lookupItem{ucs2: 0xc0d1, cp949: 0x98be},
		lookupItem{ucs2: 0xc0d2, cp949: 0x98bf},
		lookupItem{ucs2: 0xc0d3, cp949: 0x98c0},
		lookupItem{ucs2: 0xc0d4, cp949: 0x98c1},
		lookupItem{ucs2: 0xc0d5, cp949: 0x98c2},
		lookupItem{ucs2: 0xc0d6, cp949: 0x98c3},
		lookupItem{ucs2: 0xc0d7, cp949: 0x98c4},
		lookupItem{ucs2: 0xc0d8, cp949: 0xbbf9},
		lookupItem{ucs2: 0xc0d9, cp949: 0xbbfa},
		lookupItem{ucs2: 0xc0da, cp949: 0x98c5},
		lookupItem{ucs2: 0xc0db, cp949: 0xbbfb},
		lookupItem{ucs2: 0xc0dc, cp949: 0xbbfc},
		lookupItem{ucs2: 0xc0dd, cp949: 0xbbfd},
		lookupItem{ucs2: 0xc0de, cp949: 0x98c6},
		lookupItem{ucs2: 0xc0df, cp949: 0x98c7},
		lookupItem{ucs2: 0xc0e0, cp949: 0x98c8},
		lookupItem{ucs2: 0xc0e1, cp949: 0x98c9},
		lookupItem{ucs2: 0xc0e2, cp949: 0x98ca},
		lookupItem{ucs2: 0xc0e3, cp949: 0x98cb},
		lookupItem{ucs2: 0xc0e4, cp949: 0xbbfe},
		lookupItem{ucs2: 0xc0e5, cp949: 0xbca1},
		lookupItem{ucs2: 0xc0e6, cp949: 0x98cc},
		lookupItem{ucs2: 0xc0e7, cp949: 0x98cd},
		lookupItem{ucs2: 0xc0e8, cp949: 0xbca2},
		lookupItem{ucs2: 0xc0e9, cp949: 0x98ce},
		lookupItem{ucs2: 0xc0ea, cp949: 0x98cf},
		lookupItem{ucs2: 0xc0eb, cp949: 0x98d0},
		lookupItem{ucs2: 0xc0ec, cp949: 0xbca3},
		lookupItem{ucs2: 0xc0ed, cp949: 0x98d1},
		lookupItem{ucs2: 0xc0ee, cp949: 0x98d2},
		lookupItem{ucs2: 0xc0ef, cp949: 0x98d3},
		lookupItem{ucs2: 0xc0f0, cp949: 0x98d4},
		lookupItem{ucs2: 0xc0f1, cp949: 0x98d5},
		lookupItem{ucs2: 0xc0f2, cp949: 0x98d6},
		lookupItem{ucs2: 0xc0f3, cp949: 0x98d7},
		lookupItem{ucs2: 0xc0f4, cp949: 0xbca4},
		lookupItem{ucs2: 0xc0f5, cp949: 0xbca5},
		lookupItem{ucs2: 0xc0f6, cp949: 0x98d8},
		lookupItem{ucs2: 0xc0f7, cp949: 0xbca6},
		lookupItem{ucs2: 0xc0f8, cp949: 0x98d9},
		lookupItem{ucs2: 0xc0f9, cp949: 0xbca7},
		lookupItem{ucs2: 0xc0fa, cp949: 0x98da},
		lookupItem{ucs2: 0xc0fb, cp949: 0x98db},
		lookupItem{ucs2: 0xc0fc, cp949: 0x98dc},
		lookupItem{ucs2: 0xc0fd, cp949: 0x98dd},
		lookupItem{ucs2: 0xc0fe, cp949: 0x98de},
		lookupItem{ucs2: 0xc0ff, cp949: 0x98df},
		lookupItem{ucs2: 0xc100, cp949: 0xbca8},
		lookupItem{ucs2: 0xc101, cp949: 0x98e0},
		lookupItem{ucs2: 0xc102, cp949: 0x98e1},
		lookupItem{ucs2: 0xc103, cp949: 0x98e2},
		lookupItem{ucs2: 0xc104, cp949: 0xbca9},
		lookupItem{ucs2: 0xc105, cp949: 0x98e3},
		lookupItem{ucs2: 0xc106, cp949: 0x98e4},
		lookupItem{ucs2: 0xc107, cp949: 0x98e5},
		lookupItem{ucs2: 0xc108, cp949: 0xbcaa},
		lookupItem{ucs2: 0xc109, cp949: 0x98e6},
		lookupItem{ucs2: 0xc10a, cp949: 0x98e7},
		lookupItem{ucs2: 0xc10b, cp949: 0x98e8},
		lookupItem{ucs2: 0xc10c, cp949: 0x98e9},
		lookupItem{ucs2: 0xc10d, cp949: 0x98ea},
		lookupItem{ucs2: 0xc10e, cp949: 0x98eb},
		lookupItem{ucs2: 0xc10f, cp949: 0x98ec},
		lookupItem{ucs2: 0xc110, cp949: 0xbcab},
		lookupItem{ucs2: 0xc111, cp949: 0x98ed},
		lookupItem{ucs2: 0xc112, cp949: 0x98ee},
		lookupItem{ucs2: 0xc113, cp949: 0x98ef},
		lookupItem{ucs2: 0xc114, cp949: 0x98f0},
		lookupItem{ucs2: 0xc115, cp949: 0xbcac},
		lookupItem{ucs2: 0xc116, cp949: 0x98f1},
		lookupItem{ucs2: 0xc117, cp949: 0x98f2},
		lookupItem{ucs2: 0xc118, cp949: 0x98f3},
		lookupItem{ucs2: 0xc119, cp949: 0x98f4},
		lookupItem{ucs2: 0xc11a, cp949: 0x98f5},
		lookupItem{ucs2: 0xc11b, cp949: 0x98f6},
		lookupItem{ucs2: 0xc11c, cp949: 0xbcad},
		lookupItem{ucs2: 0xc11d, cp949: 0xbcae},
		lookupItem{ucs2: 0xc11e, cp949: 0xbcaf},
		lookupItem{ucs2: 0xc11f, cp949: 0xbcb0},
		lookupItem{ucs2: 0xc120, cp949: 0xbcb1},
		lookupItem{ucs2: 0xc121, cp949: 0x98f7},
		lookupItem{ucs2: 0xc122, cp949: 0x98f8},
		lookupItem{ucs2: 0xc123, cp949: 0xbcb2},
		lookupItem{ucs2: 0xc124, cp949: 0xbcb3},
		lookupItem{ucs2: 0xc125, cp949: 0x98f9},
		lookupItem{ucs2: 0xc126, cp949: 0xbcb4},
		lookupItem{ucs2: 0xc127, cp949: 0xbcb5},
		lookupItem{ucs2: 0xc128, cp949: 0x98fa},
		lookupItem{ucs2: 0xc129, cp949: 0x98fb},
		lookupItem{ucs2: 0xc12a, cp949: 0x98fc},
		lookupItem{ucs2: 0xc12b, cp949: 0x98fd},
		lookupItem{ucs2: 0xc12c, cp949: 0xbcb6},
		lookupItem{ucs2: 0xc12d, cp949: 0xbcb7},
		lookupItem{ucs2: 0xc12e, cp949: 0x98fe},
		lookupItem{ucs2: 0xc12f, cp949: 0xbcb8},
		lookupItem{ucs2: 0xc130, cp949: 0xbcb9},
		lookupItem{ucs2: 0xc131, cp949: 0xbcba},
		lookupItem{ucs2: 0xc132, cp949: 0x9941},
		lookupItem{ucs2: 0xc133, cp949: 0x9942},
		lookupItem{ucs2: 0xc134, cp949: 0x9943},
		lookupItem{ucs2: 0xc135, cp949: 0x9944},
		lookupItem{ucs2: 0xc136, cp949: 0xbcbb},
		lookupItem{ucs2: 0xc137, cp949: 0x9945},
		lookupItem{ucs2: 0xc138, cp949: 0xbcbc},
		lookupItem{ucs2: 0xc139, cp949: 0xbcbd},
		lookupItem{ucs2: 0xc13a, cp949: 0x9946},
		lookupItem{ucs2: 0xc13b, cp949: 0x9947},
		lookupItem{ucs2: 0xc13c, cp949: 0xbcbe},
		lookupItem{ucs2: 0xc13d, cp949: 0x9948},
		lookupItem{ucs2: 0xc13e, cp949: 0x9949},
		lookupItem{ucs2: 0xc13f, cp949: 0x994a},
		lookupItem{ucs2: 0xc140, cp949: 0xbcbf},
		lookupItem{ucs2: 0xc141, cp949: 0x994b},
		lookupItem{ucs2: 0xc142, cp949: 0x994c},
		lookupItem{ucs2: 0xc143, cp949: 0x994d},
		lookupItem{ucs2: 0xc144, cp949: 0x994e},
		lookupItem{ucs2: 0xc145, cp949: 0x994f},
		lookupItem{ucs2: 0xc146, cp949: 0x9950},
		lookupItem{ucs2: 0xc147, cp949: 0x9951},
		lookupItem{ucs2: 0xc148, cp949: 0xbcc0},
		lookupItem{ucs2: 0xc149, cp949: 0xbcc1},
		lookupItem{ucs2: 0xc14a, cp949: 0x9952},
		lookupItem{ucs2: 0xc14b, cp949: 0xbcc2},
		lookupItem{ucs2: 0xc14c, cp949: 0xbcc3},
		lookupItem{ucs2: 0xc14d, cp949: 0xbcc4},
		lookupItem{ucs2: 0xc14e, cp949: 0x9953},
		lookupItem{ucs2: 0xc14f, cp949: 0x9954},
		lookupItem{ucs2: 0xc150, cp949: 0x9955},
		lookupItem{ucs2: 0xc151, cp949: 0x9956},
		lookupItem{ucs2: 0xc152, cp949: 0x9957},
		lookupItem{ucs2: 0xc153, cp949: 0x9958},
		lookupItem{ucs2: 0xc154, cp949: 0xbcc5},
		lookupItem{ucs2: 0xc155, cp949: 0xbcc6},
		lookupItem{ucs2: 0xc156, cp949: 0x9959},
		lookupItem{ucs2: 0xc157, cp949: 0x995a},
		lookupItem{ucs2: 0xc158, cp949: 0xbcc7},
		lookupItem{ucs2: 0xc159, cp949: 0x9961},
		lookupItem{ucs2: 0xc15a, cp949: 0x9962},
		lookupItem{ucs2: 0xc15b, cp949: 0x9963},
		lookupItem{ucs2: 0xc15c, cp949: 0xbcc8},
		lookupItem{ucs2: 0xc15d, cp949: 0x9964},
		lookupItem{ucs2: 0xc15e, cp949: 0x9965},
		lookupItem{ucs2: 0xc15f, cp949: 0x9966},
		lookupItem{ucs2: 0xc160, cp949: 0x9967},
		lookupItem{ucs2: 0xc161, cp949: 0x9968},
		lookupItem{ucs2: 0xc162, cp949: 0x9969},
		lookupItem{ucs2: 0xc163, cp949: 0x996a},
		lookupItem{ucs2: 0xc164, cp949: 0xbcc9},
		lookupItem{ucs2: 0xc165, cp949: 0xbcca},
		lookupItem{ucs2: 0xc166, cp949: 0x996b},
		lookupItem{ucs2: 0xc167, cp949: 0xbccb},
		lookupItem{ucs2: 0xc168, cp949: 0xbccc},
		lookupItem{ucs2: 0xc169, cp949: 0xbccd},
		lookupItem{ucs2: 0xc16a, cp949: 0x996c},
		lookupItem{ucs2: 0xc16b, cp949: 0x996d},
".
Definition text_cp949_lookup_to_044 : string :=
"		lookupItem{ucs2: 0xc16c, cp949: 0x996e},
		lookupItem{ucs2: 0xc16d, cp949: 0x996f},
		lookupItem{ucs2: 0xc16e, cp949: 0x9970},
		lookupItem{ucs2: 0xc16f, cp949: 0x9971},
		lookupItem{ucs2: 0xc170, cp949: 0xbcce},
		lookupItem{ucs2: 0xc171, cp949: 0x9972},
		lookupItem{ucs2: 0xc172, cp949: 0x9973},
		lookupItem{ucs2: 0xc173, cp949: 0x9974},
		lookupItem{ucs2: 0xc174, cp949: 0xbccf},
		lookupItem{ucs2: 0xc175, cp949: 0x9975},
		lookupItem{ucs2: 0xc176, cp949: 0x9976},
		lookupItem{ucs2: 0xc177, cp949: 0x9977},
		lookupItem{ucs2: 0xc178, cp949: 0xbcd0},
		lookupItem{ucs2: 0xc179, cp949: 0x9978},
		lookupItem{ucs2: 0xc17a, cp949: 0x9979},
		lookupItem{ucs2: 0xc17b, cp949: 0x997a},
		lookupItem{ucs2: 0xc17c, cp949: 0x9981},
		lookupItem{ucs2: 0xc17d, cp949: 0x9982},
		lookupItem{ucs2: 0xc17e, cp949: 0x9983},
		lookupItem{ucs2: 0xc17f, cp949: 0x9984},
		lookupItem{ucs2: 0xc180, cp949: 0x9985},
		lookupItem{ucs2: 0xc181, cp949: 0x9986},
		lookupItem{ucs2: 0xc182, cp949: 0x9987},
		lookupItem{ucs2: 0xc183, cp949: 0x9988},
		lookupItem{ucs2: 0xc184, cp949: 0x9989},
		lookupItem{ucs2: 0xc185, cp949: 0xbcd1},
		lookupItem{ucs2: 0xc186, cp949: 0x998a},
		lookupItem{ucs2: 0xc187, cp949: 0x998b},
		lookupItem{ucs2: 0xc188, cp949: 0x998c},
		lookupItem{ucs2: 0xc189, cp949: 0x998d},
		lookupItem{ucs2: 0xc18a, cp949: 0x998e},
		lookupItem{ucs2: 0xc18b, cp949: 0x998f},
		lookupItem{ucs2: 0xc18c, cp949: 0xbcd2},
		lookupItem{ucs2: 0xc18d, cp949: 0xbcd3},
		lookupItem{ucs2: 0xc18e, cp949: 0xbcd4},
		lookupItem{ucs2: 0xc18f, cp949: 0x9990},
		lookupItem{ucs2: 0xc190, cp949: 0xbcd5},
		lookupItem{ucs2: 0xc191, cp949: 0x9991},
		lookupItem{ucs2: 0xc192, cp949: 0x9992},
		lookupItem{ucs2: 0xc193, cp949: 0x9993},
		lookupItem{ucs2: 0xc194, cp949: 0xbcd6},
		lookupItem{ucs2: 0xc195, cp949: 0x9994},
		lookupItem{ucs2: 0xc196, cp949: 0xbcd7},
		lookupItem{ucs2: 0xc197, cp949: 0x9995},
		lookupItem{ucs2: 0xc198, cp949: 0x9996},
		lookupItem{ucs2: 0xc199, cp949: 0x9997},
		lookupItem{ucs2: 0xc19a, cp949: 0x9998},
		lookupItem{ucs2: 0xc19b, cp949: 0x9999},
		lookupItem{ucs2: 0xc19c, cp949: 0xbcd8},
		lookupItem{ucs2: 0xc19d, cp949: 0xbcd9},
		lookupItem{ucs2: 0xc19e, cp949: 0x999a},
		lookupItem{ucs2: 0xc19f, cp949: 0xbcda},
		lookupItem{ucs2: 0xc1a0, cp949: 0x999b},
		lookupItem{ucs2: 0xc1a1, cp949: 0xbcdb},
		lookupItem{ucs2: 0xc1a2, cp949: 0x999c},
		lookupItem{ucs2: 0xc1a3, cp949: 0x999d},
		lookupItem{ucs2: 0xc1a4, cp949: 0x999e},
		lookupItem{ucs2: 0xc1a5, cp949: 0xbcdc},
		lookupItem{ucs2: 0xc1a6, cp949: 0x999f},
		lookupItem{ucs2: 0xc1a7, cp949: 0x99a0},
		lookupItem{ucs2: 0xc1a8, cp949: 0xbcdd},
		lookupItem{ucs2: 0xc1a9, cp949: 0xbcde},
		lookupItem{ucs2: 0xc1aa, cp949: 0x99a1},
		lookupItem{ucs2: 0xc1ab, cp949: 0x99a2},
		lookupItem{ucs2: 0xc1ac, cp949: 0xbcdf},
		lookupItem{ucs2: 0xc1ad, cp949: 0x99a3},
		lookupItem{ucs2: 0xc1ae, cp949: 0x99a4},
		lookupItem{ucs2: 0xc1af, cp949: 0x99a5},
		lookupItem{ucs2: 0xc1b0, cp949: 0xbce0},
		lookupItem{ucs2: 0xc1b1, cp949: 0x99a6},
		lookupItem{ucs2: 0xc1b2, cp949: 0x99a7},
		lookupItem{ucs2: 0xc1b3, cp949: 0x99a8},
		lookupItem{ucs2: 0xc1b4, cp949: 0x99a9},
		lookupItem{ucs2: 0xc1b5, cp949: 0x99aa},
		lookupItem{ucs2: 0xc1b6, cp949: 0x99ab},
		lookupItem{ucs2: 0xc1b7, cp949: 0x99ac},
		lookupItem{ucs2: 0xc1b8, cp949: 0x99ad},
		lookupItem{ucs2: 0xc1b9, cp949: 0x99ae},
		lookupItem{ucs2: 0xc1ba, cp949: 0x99af},
		lookupItem{ucs2: 0xc1bb, cp949: 0x99b0},
		lookupItem{ucs2: 0xc1bc, cp949: 0x99b1},
		lookupItem{ucs2: 0xc1bd, cp949: 0xbce1},
		lookupItem{ucs2: 0xc1be, cp949: 0x99b2},
		lookupItem{ucs2: 0xc1bf, cp949: 0x99b3},
		lookupItem{ucs2: 0xc1c0, cp949: 0x99b4},
		lookupItem{ucs2: 0xc1c1, cp949: 0x99b5},
		lookupItem{ucs2: 0xc1c2, cp949: 0x99b6},
		lookupItem{ucs2: 0xc1c3, cp949: 0x99b7},
		lookupItem{ucs2: 0xc1c4, cp949: 0xbce2},
		lookupItem{ucs2: 0xc1c5, cp949: 0x99b8},
		lookupItem{ucs2: 0xc1c6, cp949: 0x99b9},
		lookupItem{ucs2: 0xc1c7, cp949: 0x99ba},
		lookupItem{ucs2: 0xc1c8, cp949: 0xbce3},
		lookupItem{ucs2: 0xc1c9, cp949: 0x99bb},
		lookupItem{ucs2: 0xc1ca, cp949: 0x99bc},
		lookupItem{ucs2: 0xc1cb, cp949: 0x99bd},
		lookupItem{ucs2: 0xc1cc, cp949: 0xbce4},
		lookupItem{ucs2: 0xc1cd, cp949: 0x99be},
		lookupItem{ucs2: 0xc1ce, cp949: 0x99bf},
		lookupItem{ucs2: 0xc1cf, cp949: 0x99c0},
		lookupItem{ucs2: 0xc1d0, cp949: 0x99c1},
		lookupItem{ucs2: 0xc1d1, cp949: 0x99c2},
		lookupItem{ucs2: 0xc1d2, cp949: 0x99c3},
		lookupItem{ucs2: 0xc1d3, cp949: 0x99c4},
		lookupItem{ucs2: 0xc1d4, cp949: 0xbce5},
		lookupItem{ucs2: 0xc1d5, cp949: 0x99c5},
		lookupItem{ucs2: 0xc1d6, cp949: 0x99c6},
		lookupItem{ucs2: 0xc1d7, cp949: 0xbce6},
		lookupItem{ucs2: 0xc1d8, cp949: 0xbce7},
		lookupItem{ucs2: 0xc1d9, cp949: 0x99c7},
		lookupItem{ucs2: 0xc1da, cp949: 0x99c8},
		lookupItem{ucs2: 0xc1db, cp949: 0x99c9},
		lookupItem{ucs2: 0xc1dc, cp949: 0x99ca},
		lookupItem{ucs2: 0xc1dd, cp949: 0x99cb},
		lookupItem{ucs2: 0xc1de, cp949: 0x99cc},
		lookupItem{ucs2: 0xc1df, cp949: 0x99cd},
		lookupItem{ucs2: 0xc1e0, cp949: 0xbce8},
		lookupItem{ucs2: 0xc1e1, cp949: 0x99ce},
		lookupItem{ucs2: 0xc1e2, cp949: 0x99cf},
		lookupItem{ucs2: 0xc1e3, cp949: 0x99d0},
		lookupItem{ucs2: 0xc1e4, cp949: 0xbce9},
		lookupItem{ucs2: 0xc1e5, cp949: 0x99d1},
		lookupItem{ucs2: 0xc1e6, cp949: 0x99d2},
		lookupItem{ucs2: 0xc1e7, cp949: 0x99d3},
		lookupItem{ucs2: 0xc1e8, cp949: 0xbcea},
		lookupItem{ucs2: 0xc1e9, cp949: 0x99d4},
		lookupItem{ucs2: 0xc1ea, cp949: 0x99d5},
		lookupItem{ucs2: 0xc1eb, cp949: 0x99d6},
		lookupItem{ucs2: 0xc1ec, cp949: 0x99d7},
		lookupItem{ucs2: 0xc1ed, cp949: 0x99d8},
		lookupItem{ucs2: 0xc1ee, cp949: 0x99d9},
		lookupItem{ucs2: 0xc1ef, cp949: 0x99da},
		lookupItem{ucs2: 0xc1f0, cp949: 0xbceb},
		lookupItem{ucs2: 0xc1f1, cp949: 0xbcec},
		lookupItem{ucs2: 0xc1f2, cp949: 0x99db},
		lookupItem{ucs2: 0xc1f3, cp949: 0xbced},
		lookupItem{ucs2: 0xc1f4, cp949: 0x99dc},
		lookupItem{ucs2: 0xc1f5, cp949: 0x99dd},
		lookupItem{ucs2: 0xc1f6, cp949: 0x99de},
		lookupItem{ucs2: 0xc1f7, cp949: 0x99df},
		lookupItem{ucs2: 0xc1f8, cp949: 0x99e0},
		lookupItem{ucs2: 0xc1f9, cp949: 0x99e1},
		lookupItem{ucs2: 0xc1fa, cp949: 0x99e2},
		lookupItem{ucs2: 0xc1fb, cp949: 0x99e3},
		lookupItem{ucs2: 0xc1fc, cp949: 0xbcee},
		lookupItem{ucs2: 0xc1fd, cp949: 0xbcef},
		lookupItem{ucs2: 0xc1fe, cp949: 0x99e4},
		lookupItem{ucs2: 0xc1ff, cp949: 0x99e5},
		lookupItem{ucs2: 0xc200, cp949: 0xbcf0},
		lookupItem{ucs2: 0xc201, cp949: 0x99e6},
		lookupItem{ucs2: 0xc202, cp949: 0x99e7},
		lookupItem{ucs2: 0xc203, cp949: 0x99e8},
		lookupItem{ucs2: 0xc204, cp949: 0xbcf1},
		lookupItem{ucs2: 0xc205, cp949: 0x99e9},
		lookupItem{ucs2: 0xc206, cp949: 0x99ea},
		lookupItem{ucs2: 0xc207, cp949: 0x99eb},
		lookupItem{ucs2: 0xc208, cp949: 0x99ec},
		lookupItem{ucs2: 0xc209, cp949: 0x99ed},
		lookupItem{ucs2: 0xc20a, cp949: 0x99ee},
		lookupItem{ucs2: 0xc20b, cp949: 0x99ef},
		lookupItem{ucs2: 0xc20c, cp949: 0xbcf2},
		lookupItem{ucs2: 0xc20d, cp949: 0xbcf3},
		lookupItem{ucs2: 0xc20e, cp949: 0x99f0},
		lookupItem{ucs2: 0xc20f, cp949: 0xbcf4},
		lookupItem{ucs2: 0xc210, cp949: 0x99f1},
		lookupItem{ucs2: 0xc211, cp949: 0xbcf5},
		lookupItem{ucs2: 0xc212, cp949: 0x99f2},
		lookupItem{ucs2: 0xc213, cp949: 0x99f3},
		lookupItem{ucs2: 0xc214, cp949: 0x99f4},
		lookupItem{ucs2: 0xc215, cp949: 0x99f5},
		lookupItem{ucs2: 0xc216, cp949: 0x99f6},
		lookupItem{ucs2: 0xc217, cp949: 0x99f7},
		lookupItem{ucs2: 0xc218, cp949: 0xbcf6},
		lookupItem{ucs2: 0xc219, cp949: 0xbcf7},
		lookupItem{ucs2: 0xc21a, cp949: 0x99f8},
		lookupItem{ucs2: 0xc21b, cp949: 0x99f9},
		lookupItem{ucs2: 0xc21c, cp949: 0xbcf8},
		lookupItem{ucs2: 0xc21d, cp949: 0x99fa},
		lookupItem{ucs2: 0xc21e, cp949: 0x99fb},
		lookupItem{ucs2: 0xc21f, cp949: 0xbcf9},
		lookupItem{ucs2: 0xc220, cp949: 0xbcfa},
		lookupItem{ucs2: 0xc221, cp949: 0x99fc},
		lookupItem{ucs2: 0xc222, cp949: 0x99fd},
		lookupItem{ucs2: 0xc223, cp949: 0x99fe},
		lookupItem{ucs2: 0xc224, cp949: 0x9a41},
		lookupItem{ucs2: 0xc225, cp949: 0x9a42},
		lookupItem{ucs2: 0xc226, cp949: 0x9a43},
		lookupItem{ucs2: 0xc227, cp949: 0x9a44},
		lookupItem{ucs2: 0xc228, cp949: 0xbcfb},
		lookupItem{ucs2: 0xc229, cp949: 0xbcfc},
		lookupItem{ucs2: 0xc22a, cp949: 0x9a45},
		lookupItem{ucs2: 0xc22b, cp949: 0xbcfd},
		lookupItem{ucs2: 0xc22c, cp949: 0x9a46},
		lookupItem{ucs2: 0xc22d, cp949: 0xbcfe},
		lookupItem{ucs2: 0xc22e, cp949: 0x9a47},
		lookupItem{ucs2: 0xc22f, cp949: 0xbda1},
		lookupItem{ucs2: 0xc230, cp949: 0x9a48},
		lookupItem{ucs2: 0xc231, cp949: 0xbda2},
		lookupItem{ucs2: 0xc232, cp949: 0xbda3},
		lookupItem{ucs2: 0xc233, cp949: 0x9a49},
		lookupItem{ucs2: 0xc234, cp949: 0xbda4},
		lookupItem{ucs2: 0xc235, cp949: 0x9a4a},
		lookupItem{ucs2: 0xc236, cp949: 0x9a4b},
		lookupItem{ucs2: 0xc237, cp949: 0x9a4c},
		lookupItem{ucs2: 0xc238, cp949: 0x9a4d},
		lookupItem{ucs2: 0xc239, cp949: 0x9a4e},
		lookupItem{ucs2: 0xc23a, cp949: 0x9a4f},
		lookupItem{ucs2: 0xc23b, cp949: 0x9a50},
		lookupItem{ucs2: 0xc23c, cp949: 0x9a51},
		lookupItem{ucs2: 0xc23d, cp949: 0x9a52},
		lookupItem{ucs2: 0xc23e, cp949: 0x9a53},
		lookupItem{ucs2: 0xc23f, cp949: 0x9a54},
		lookupItem{ucs2: 0xc240, cp949: 0x9a55},
		lookupItem{ucs2: 0xc241, cp949: 0x9a56},
		lookupItem{ucs2: 0xc242, cp949: 0x9a57},
		lookupItem{ucs2: 0xc243, cp949: 0x9a58},
		lookupItem{ucs2: 0xc244, cp949: 0x9a59},
		lookupItem{ucs2: 0xc245, cp949: 0x9a5a},
		lookupItem{ucs2: 0xc246, cp949: 0x9a61},
		lookupItem{ucs2: 0xc247, cp949: 0x9a62},
		lookupItem{ucs2: 0xc248, cp949: 0xbda5},
		lookupItem{ucs2: 0xc249, cp949: 0x9a63},
		lookupItem{ucs2: 0xc24a, cp949: 0x9a64},
		lookupItem{ucs2: 0xc24b, cp949: 0x9a65},
		lookupItem{ucs2: 0xc24c, cp949: 0x9a66},
		lookupItem{ucs2: 0xc24d, cp949: 0x9a67},
		lookupItem{ucs2: 0xc24e, cp949: 0x9a68},
		lookupItem{ucs2: 0xc24f, cp949: 0x9a69},
		lookupItem{ucs2: 0xc250, cp949: 0xbda6},
		lookupItem{ucs2: 0xc251, cp949: 0xbda7},
		lookupItem{ucs2: 0xc252, cp949: 0x9a6a},
		lookupItem{ucs2: 0xc253, cp949: 0x9a6b},
		lookupItem{ucs2: 0xc254, cp949: 0xbda8},
		lookupItem{ucs2: 0xc255, cp949: 0x9a6c},
		lookupItem{ucs2: 0xc256, cp949: 0x9a6d},
		lookupItem{ucs2: 0xc257, cp949: 0x9a6e},
		lookupItem{ucs2: 0xc258, cp949: 0xbda9},
		lookupItem{ucs2: 0xc259, cp949: 0x9a6f},
		lookupItem{ucs2: 0xc25a, cp949: 0x9a70},
		lookupItem{ucs2: 0xc25b, cp949: 0x9a71},
		lookupItem{ucs2: 0xc25c, cp949: 0x9a72},
		lookupItem{ucs2: 0xc25d, cp949: 0x9a73},
		lookupItem{ucs2: 0xc25e, cp949: 0x9a74},
		lookupItem{ucs2: 0xc25f, cp949: 0x9a75},
		lookupItem{ucs2: 0xc260, cp949: 0xbdaa},
		lookupItem{ucs2: 0xc261, cp949: 0x9a76},
		lookupItem{ucs2: 0xc262, cp949: 0x9a77},
		lookupItem{ucs2: 0xc263, cp949: 0x9a78},
		lookupItem{ucs2: 0xc264, cp949: 0x9a79},
		lookupItem{ucs2: 0xc265, cp949: 0xbdab},
".
Definition text_cp949_lookup_to_045 : string :=
"		lookupItem{ucs2: 0xc266, cp949: 0x9a7a},
		lookupItem{ucs2: 0xc267, cp949: 0x9a81},
		lookupItem{ucs2: 0xc268, cp949: 0x9a82},
		lookupItem{ucs2: 0xc269, cp949: 0x9a83},
		lookupItem{ucs2: 0xc26a, cp949: 0x9a84},
		lookupItem{ucs2: 0xc26b, cp949: 0x9a85},
		lookupItem{ucs2: 0xc26c, cp949: 0xbdac},
		lookupItem{ucs2: 0xc26d, cp949: 0xbdad},
		lookupItem{ucs2: 0xc26e, cp949: 0x9a86},
		lookupItem{ucs2: 0xc26f, cp949: 0x9a87},
		lookupItem{ucs2: 0xc270, cp949: 0xbdae},
		lookupItem{ucs2: 0xc271, cp949: 0x9a88},
		lookupItem{ucs2: 0xc272, cp949: 0x9a89},
		lookupItem{ucs2: 0xc273, cp949: 0x9a8a},
		lookupItem{ucs2: 0xc274, cp949: 0xbdaf},
		lookupItem{ucs2: 0xc275, cp949: 0x9a8b},
		lookupItem{ucs2: 0xc276, cp949: 0x9a8c},
		lookupItem{ucs2: 0xc277, cp949: 0x9a8d},
		lookupItem{ucs2: 0xc278, cp949: 0x9a8e},
		lookupItem{ucs2: 0xc279, cp949: 0x9a8f},
		lookupItem{ucs2: 0xc27a, cp949: 0x9a90},
		lookupItem{ucs2: 0xc27b, cp949: 0x9a91},
		lookupItem{ucs2: 0xc27c, cp949: 0xbdb0},
		lookupItem{ucs2: 0xc27d, cp949: 0xbdb1},
		lookupItem{ucs2: 0xc27e, cp949: 0x9a92},
		lookupItem{ucs2: 0xc27f, cp949: 0xbdb2},
		lookupItem{ucs2: 0xc280, cp949: 0x9a93},
		lookupItem{ucs2: 0xc281, cp949: 0xbdb3},
		lookupItem{ucs2: 0xc282, cp949: 0x9a94},
		lookupItem{ucs2: 0xc283, cp949: 0x9a95},
		lookupItem{ucs2: 0xc284, cp949: 0x9a96},
		lookupItem{ucs2: 0xc285, cp949: 0x9a97},
		lookupItem{ucs2: 0xc286, cp949: 0x9a98},
		lookupItem{ucs2: 0xc287, cp949: 0x9a99},
		lookupItem{ucs2: 0xc288, cp949: 0xbdb4},
		lookupItem{ucs2: 0xc289, cp949: 0xbdb5},
		lookupItem{ucs2: 0xc28a, cp949: 0x9a9a},
		lookupItem{ucs2: 0xc28b, cp949: 0x9a9b},
		lookupItem{ucs2: 0xc28c, cp949: 0x9a9c},
		lookupItem{ucs2: 0xc28d, cp949: 0x9a9d},
		lookupItem{ucs2: 0xc28e, cp949: 0x9a9e},
		lookupItem{ucs2: 0xc28f, cp949: 0x9a9f},
		lookupItem{ucs2: 0xc290, cp949: 0xbdb6},
		lookupItem{ucs2: 0xc291, cp949: 0x9aa0},
		lookupItem{ucs2: 0xc292, cp949: 0x9aa1},
		lookupItem{ucs2: 0xc293, cp949: 0x9aa2},
		lookupItem{ucs2: 0xc294, cp949: 0x9aa3},
		lookupItem{ucs2: 0xc295, cp949: 0x9aa4},
		lookupItem{ucs2: 0xc296, cp949: 0x9aa5},
		lookupItem{ucs2: 0xc297, cp949: 0x9aa6},
		lookupItem{ucs2: 0xc298, cp949: 0xbdb7},
		lookupItem{ucs2: 0xc299, cp949: 0x9aa7},
		lookupItem{ucs2: 0xc29a, cp949: 0x9aa8},
		lookupItem{ucs2: 0xc29b, cp949: 0xbdb8},
		lookupItem{ucs2: 0xc29c, cp949: 0x9aa9},
		lookupItem{ucs2: 0xc29d, cp949: 0xbdb9},
		lookupItem{ucs2: 0xc29e, cp949: 0x9aaa},
		lookupItem{ucs2: 0xc29f, cp949: 0x9aab},
		lookupItem{ucs2: 0xc2a0, cp949: 0x9aac},
		lookupItem{ucs2: 0xc2a1, cp949: 0x9aad},
		lookupItem{ucs2: 0xc2a2, cp949: 0x9aae},
		lookupItem{ucs2: 0xc2a3, cp949: 0x9aaf},
		lookupItem{ucs2: 0xc2a4, cp949: 0xbdba},
		lookupItem{ucs2: 0xc2a5, cp949: 0xbdbb},
		lookupItem{ucs2: 0xc2a6, cp949: 0x9ab0},
		lookupItem{ucs2: 0xc2a7, cp949: 0x9ab1},
		lookupItem{ucs2: 0xc2a8, cp949: 0xbdbc},
		lookupItem{ucs2: 0xc2a9, cp949: 0x9ab2},
		lookupItem{ucs2: 0xc2aa, cp949: 0x9ab3},
		lookupItem{ucs2: 0xc2ab, cp949: 0x9ab4},
		lookupItem{ucs2: 0xc2ac, cp949: 0xbdbd},
		lookupItem{ucs2: 0xc2ad, cp949: 0xbdbe},
		lookupItem{ucs2: 0xc2ae, cp949: 0x9ab5},
		lookupItem{ucs2: 0xc2af, cp949: 0x9ab6},
		lookupItem{ucs2: 0xc2b0, cp949: 0x9ab7},
		lookupItem{ucs2: 0xc2b1, cp949: 0x9ab8},
		lookupItem{ucs2: 0xc2b2, cp949: 0x9ab9},
		lookupItem{ucs2: 0xc2b3, cp949: 0x9aba},
		lookupItem{ucs2: 0xc2b4, cp949: 0xbdbf},
		lookupItem{ucs2: 0xc2b5, cp949: 0xbdc0},
		lookupItem{ucs2: 0xc2b6, cp949: 0x9abb},
		lookupItem{ucs2: 0xc2b7, cp949: 0xbdc1},
		lookupItem{ucs2: 0xc2b8, cp949: 0x9abc},
		lookupItem{ucs2: 0xc2b9, cp949: 0xbdc2},
		lookupItem{ucs2: 0xc2ba, cp949: 0x9abd},
		lookupItem{ucs2: 0xc2bb, cp949: 0x9abe},
		lookupItem{ucs2: 0xc2bc, cp949: 0x9abf},
		lookupItem{ucs2: 0xc2bd, cp949: 0x9ac0},
		lookupItem{ucs2: 0xc2be, cp949: 0x9ac1},
		lookupItem{ucs2: 0xc2bf, cp949: 0x9ac2},
		lookupItem{ucs2: 0xc2c0, cp949: 0x9ac3},
		lookupItem{ucs2: 0xc2c1, cp949: 0x9ac4},
		lookupItem{ucs2: 0xc2c2, cp949: 0x9ac5},
		lookupItem{ucs2: 0xc2c3, cp949: 0x9ac6},
		lookupItem{ucs2: 0xc2c4, cp949: 0x9ac7},
		lookupItem{ucs2: 0xc2c5, cp949: 0x9ac8},
		lookupItem{ucs2: 0xc2c6, cp949: 0x9ac9},
		lookupItem{ucs2: 0xc2c7, cp949: 0x9aca},
		lookupItem{ucs2: 0xc2c8, cp949: 0x9acb},
		lookupItem{ucs2: 0xc2c9, cp949: 0x9acc},
		lookupItem{ucs2: 0xc2ca, cp949: 0x9acd},
		lookupItem{ucs2: 0xc2cb, cp949: 0x9ace},
		lookupItem{ucs2: 0xc2cc, cp949: 0x9acf},
		lookupItem{ucs2: 0xc2cd, cp949: 0x9ad0},
		lookupItem{ucs2: 0xc2ce, cp949: 0x9ad1},
		lookupItem{ucs2: 0xc2cf, cp949: 0x9ad2},
		lookupItem{ucs2: 0xc2d0, cp949: 0x9ad3},
		lookupItem{ucs2: 0xc2d1, cp949: 0x9ad4},
		lookupItem{ucs2: 0xc2d2, cp949: 0x9ad5},
		lookupItem{ucs2: 0xc2d3, cp949: 0x9ad6},
		lookupItem{ucs2: 0xc2d4, cp949: 0x9ad7},
		lookupItem{ucs2: 0xc2d5, cp949: 0x9ad8},
		lookupItem{ucs2: 0xc2d6, cp949: 0x9ad9},
		lookupItem{ucs2: 0xc2d7, cp949: 0x9ada},
		lookupItem{ucs2: 0xc2d8, cp949: 0x9adb},
		lookupItem{ucs2: 0xc2d9, cp949: 0x9adc},
		lookupItem{ucs2: 0xc2da, cp949: 0x9add},
		lookupItem{ucs2: 0xc2db, cp949: 0x9ade},
		lookupItem{ucs2: 0xc2dc, cp949: 0xbdc3},
		lookupItem{ucs2: 0xc2dd, cp949: 0xbdc4},
		lookupItem{ucs2: 0xc2de, cp949: 0x9adf},
		lookupItem{ucs2: 0xc2df, cp949: 0x9ae0},
		lookupItem{ucs2: 0xc2e0, cp949: 0xbdc5},
		lookupItem{ucs2: 0xc2e1, cp949: 0x9ae1},
		lookupItem{ucs2: 0xc2e2, cp949: 0x9ae2},
		lookupItem{ucs2: 0xc2e3, cp949: 0xbdc6},
		lookupItem{ucs2: 0xc2e4, cp949: 0xbdc7},
		lookupItem{ucs2: 0xc2e5, cp949: 0x9ae3},
		lookupItem{ucs2: 0xc2e6, cp949: 0x9ae4},
		lookupItem{ucs2: 0xc2e7, cp949: 0x9ae5},
		lookupItem{ucs2: 0xc2e8, cp949: 0x9ae6},
		lookupItem{ucs2: 0xc2e9, cp949: 0x9ae7},
		lookupItem{ucs2: 0xc2ea, cp949: 0x9ae8},
		lookupItem{ucs2: 0xc2eb, cp949: 0xbdc8},
		lookupItem{ucs2: 0xc2ec, cp949: 0xbdc9},
		lookupItem{ucs2: 0xc2ed, cp949: 0xbdca},
		lookupItem{ucs2: 0xc2ee, cp949: 0x9ae9},
		lookupItem{ucs2: 0xc2ef, cp949: 0xbdcb},
		lookupItem{ucs2: 0xc2f0, cp949: 0x9aea},
		lookupItem{ucs2: 0xc2f1, cp949: 0xbdcc},
		lookupItem{ucs2: 0xc2f2, cp949: 0x9aeb},
		lookupItem{ucs2: 0xc2f3, cp949: 0x9aec},
		lookupItem{ucs2: 0xc2f4, cp949: 0x9aed},
		lookupItem{ucs2: 0xc2f5, cp949: 0x9aee},
		lookupItem{ucs2: 0xc2f6, cp949: 0xbdcd},
		lookupItem{ucs2: 0xc2f7, cp949: 0x9aef},
		lookupItem{ucs2: 0xc2f8, cp949: 0xbdce},
		lookupItem{ucs2: 0xc2f9, cp949: 0xbdcf},
		lookupItem{ucs2: 0xc2fa, cp949: 0x9af0},
		lookupItem{ucs2: 0xc2fb, cp949: 0xbdd0},
		lookupItem{ucs2: 0xc2fc, cp949: 0xbdd1},
		lookupItem{ucs2: 0xc2fd, cp949: 0x9af1},
		lookupItem{ucs2: 0xc2fe, cp949: 0x9af2},
		lookupItem{ucs2: 0xc2ff, cp949: 0x9af3},
		lookupItem{ucs2: 0xc300, cp949: 0xbdd2},
		lookupItem{ucs2: 0xc301, cp949: 0x9af4},
		lookupItem{ucs2: 0xc302, cp949: 0x9af5},
		lookupItem{ucs2: 0xc303, cp949: 0x9af6},
		lookupItem{ucs2: 0xc304, cp949: 0x9af7},
		lookupItem{ucs2: 0xc305, cp949: 0x9af8},
		lookupItem{ucs2: 0xc306, cp949: 0x9af9},
		lookupItem{ucs2: 0xc307, cp949: 0x9afa},
		lookupItem{ucs2: 0xc308, cp949: 0xbdd3},
		lookupItem{ucs2: 0xc309, cp949: 0xbdd4},
		lookupItem{ucs2: 0xc30a, cp949: 0x9afb},
		lookupItem{ucs2: 0xc30b, cp949: 0x9afc},
		lookupItem{ucs2: 0xc30c, cp949: 0xbdd5},
		lookupItem{ucs2: 0xc30d, cp949: 0xbdd6},
		lookupItem{ucs2: 0xc30e, cp949: 0x9afd},
		lookupItem{ucs2: 0xc30f, cp949: 0x9afe},
		lookupItem{ucs2: 0xc310, cp949: 0x9b41},
		lookupItem{ucs2: 0xc311, cp949: 0x9b42},
		lookupItem{ucs2: 0xc312, cp949: 0x9b43},
		lookupItem{ucs2: 0xc313, cp949: 0xbdd7},
		lookupItem{ucs2: 0xc314, cp949: 0xbdd8},
		lookupItem{ucs2: 0xc315, cp949: 0xbdd9},
		lookupItem{ucs2: 0xc316, cp949: 0x9b44},
		lookupItem{ucs2: 0xc317, cp949: 0x9b45},
		lookupItem{ucs2: 0xc318, cp949: 0xbdda},
		lookupItem{ucs2: 0xc319, cp949: 0x9b46},
		lookupItem{ucs2: 0xc31a, cp949: 0x9b47},
		lookupItem{ucs2: 0xc31b, cp949: 0x9b48},
		lookupItem{ucs2: 0xc31c, cp949: 0xbddb},
		lookupItem{ucs2: 0xc31d, cp949: 0x9b49},
		lookupItem{ucs2: 0xc31e, cp949: 0x9b4a},
		lookupItem{ucs2: 0xc31f, cp949: 0x9b4b},
		lookupItem{ucs2: 0xc320, cp949: 0x9b4c},
		lookupItem{ucs2: 0xc321, cp949: 0x9b4d},
		lookupItem{ucs2: 0xc322, cp949: 0x9b4e},
		lookupItem{ucs2: 0xc323, cp949: 0x9b4f},
		lookupItem{ucs2: 0xc324, cp949: 0xbddc},
		lookupItem{ucs2: 0xc325, cp949: 0xbddd},
		lookupItem{ucs2: 0xc326, cp949: 0x9b50},
		lookupItem{ucs2: 0xc327, cp949: 0x9b51},
		lookupItem{ucs2: 0xc328, cp949: 0xbdde},
		lookupItem{ucs2: 0xc329, cp949: 0xbddf},
		lookupItem{ucs2: 0xc32a, cp949: 0x9b52},
		lookupItem{ucs2: 0xc32b, cp949: 0x9b53},
		lookupItem{ucs2: 0xc32c, cp949: 0x9b54},
		lookupItem{ucs2: 0xc32d, cp949: 0x9b55},
		lookupItem{ucs2: 0xc32e, cp949: 0x9b56},
		lookupItem{ucs2: 0xc32f, cp949: 0x9b57},
		lookupItem{ucs2: 0xc330, cp949: 0x9b58},
		lookupItem{ucs2: 0xc331, cp949: 0x9b59},
		lookupItem{ucs2: 0xc332, cp949: 0x9b5a},
		lookupItem{ucs2: 0xc333, cp949: 0x9b61},
		lookupItem{ucs2: 0xc334, cp949: 0x9b62},
		lookupItem{ucs2: 0xc335, cp949: 0x9b63},
		lookupItem{ucs2: 0xc336, cp949: 0x9b64},
		lookupItem{ucs2: 0xc337, cp949: 0x9b65},
		lookupItem{ucs2: 0xc338, cp949: 0x9b66},
		lookupItem{ucs2: 0xc339, cp949: 0x9b67},
		lookupItem{ucs2: 0xc33a, cp949: 0x9b68},
		lookupItem{ucs2: 0xc33b, cp949: 0x9b69},
		lookupItem{ucs2: 0xc33c, cp949: 0x9b6a},
		lookupItem{ucs2: 0xc33d, cp949: 0x9b6b},
		lookupItem{ucs2: 0xc33e, cp949: 0x9b6c},
		lookupItem{ucs2: 0xc33f, cp949: 0x9b6d},
		lookupItem{ucs2: 0xc340, cp949: 0x9b6e},
		lookupItem{ucs2: 0xc341, cp949: 0x9b6f},
		lookupItem{ucs2: 0xc342, cp949: 0x9b70},
		lookupItem{ucs2: 0xc343, cp949: 0x9b71},
		lookupItem{ucs2: 0xc344, cp949: 0x9b72},
		lookupItem{ucs2: 0xc345, cp949: 0xbde0},
		lookupItem{ucs2: 0xc346, cp949: 0x9b73},
		lookupItem{ucs2: 0xc347, cp949: 0x9b74},
		lookupItem{ucs2: 0xc348, cp949: 0x9b75},
		lookupItem{ucs2: 0xc349, cp949: 0x9b76},
		lookupItem{ucs2: 0xc34a, cp949: 0x9b77},
		lookupItem{ucs2: 0xc34b, cp949: 0x9b78},
		lookupItem{ucs2: 0xc34c, cp949: 0x9b79},
		lookupItem{ucs2: 0xc34d, cp949: 0x9b7a},
		lookupItem{ucs2: 0xc34e, cp949: 0x9b81},
		lookupItem{ucs2: 0xc34f, cp949: 0x9b82},
		lookupItem{ucs2: 0xc350, cp949: 0x9b83},
		lookupItem{ucs2: 0xc351, cp949: 0x9b84},
		lookupItem{ucs2: 0xc352, cp949: 0x9b85},
		lookupItem{ucs2: 0xc353, cp949: 0x9b86},
		lookupItem{ucs2: 0xc354, cp949: 0x9b87},
		lookupItem{ucs2: 0xc355, cp949: 0x9b88},
		lookupItem{ucs2: 0xc356, cp949: 0x9b89},
		lookupItem{ucs2: 0xc357, cp949: 0x9b8a},
		lookupItem{ucs2: 0xc358, cp949: 0x9b8b},
		lookupItem{ucs2: 0xc359, cp949: 0x9b8c},
		lookupItem{ucs2: 0xc35a, cp949: 0x9b8d},
		lookupItem{ucs2: 0xc35b, cp949: 0x9b8e},
		lookupItem{ucs2: 0xc35c, cp949: 0x9b8f},
		lookupItem{ucs2: 0xc35d, cp949: 0x9b90},
		lookupItem{ucs2: 0xc35e, cp949: 0x9b91},
		lookupItem{ucs2: 0xc35f, cp949: 0x9b92},
".
Definition text_cp949_lookup_to_046 : string :=
"		lookupItem{ucs2: 0xc360, cp949: 0x9b93},
		lookupItem{ucs2: 0xc361, cp949: 0x9b94},
		lookupItem{ucs2: 0xc362, cp949: 0x9b95},
		lookupItem{ucs2: 0xc363, cp949: 0x9b96},
		lookupItem{ucs2: 0xc364, cp949: 0x9b97},
		lookupItem{ucs2: 0xc365, cp949: 0x9b98},
		lookupItem{ucs2: 0xc366, cp949: 0x9b99},
		lookupItem{ucs2: 0xc367, cp949: 0x9b9a},
		lookupItem{ucs2: 0xc368, cp949: 0xbde1},
		lookupItem{ucs2: 0xc369, cp949: 0xbde2},
		lookupItem{ucs2: 0xc36a, cp949: 0x9b9b},
		lookupItem{ucs2: 0xc36b, cp949: 0x9b9c},
		lookupItem{ucs2: 0xc36c, cp949: 0xbde3},
		lookupItem{ucs2: 0xc36d, cp949: 0x9b9d},
		lookupItem{ucs2: 0xc36e, cp949: 0x9b9e},
		lookupItem{ucs2: 0xc36f, cp949: 0x9b9f},
		lookupItem{ucs2: 0xc370, cp949: 0xbde4},
		lookupItem{ucs2: 0xc371, cp949: 0x9ba0},
		lookupItem{ucs2: 0xc372, cp949: 0xbde5},
		lookupItem{ucs2: 0xc373, cp949: 0x9ba1},
		lookupItem{ucs2: 0xc374, cp949: 0x9ba2},
		lookupItem{ucs2: 0xc375, cp949: 0x9ba3},
		lookupItem{ucs2: 0xc376, cp949: 0x9ba4},
		lookupItem{ucs2: 0xc377, cp949: 0x9ba5},
		lookupItem{ucs2: 0xc378, cp949: 0xbde6},
		lookupItem{ucs2: 0xc379, cp949: 0xbde7},
		lookupItem{ucs2: 0xc37a, cp949: 0x9ba6},
		lookupItem{ucs2: 0xc37b, cp949: 0x9ba7},
		lookupItem{ucs2: 0xc37c, cp949: 0xbde8},
		lookupItem{ucs2: 0xc37d, cp949: 0xbde9},
		lookupItem{ucs2: 0xc37e, cp949: 0x9ba8},
		lookupItem{ucs2: 0xc37f, cp949: 0x9ba9},
		lookupItem{ucs2: 0xc380, cp949: 0x9baa},
		lookupItem{ucs2: 0xc381, cp949: 0x9bab},
		lookupItem{ucs2: 0xc382, cp949: 0x9bac},
		lookupItem{ucs2: 0xc383, cp949: 0x9bad},
		lookupItem{ucs2: 0xc384, cp949: 0xbdea},
		lookupItem{ucs2: 0xc385, cp949: 0x9bae},
		lookupItem{ucs2: 0xc386, cp949: 0x9baf},
		lookupItem{ucs2: 0xc387, cp949: 0x9bb0},
		lookupItem{ucs2: 0xc388, cp949: 0xbdeb},
		lookupItem{ucs2: 0xc389, cp949: 0x9bb1},
		lookupItem{ucs2: 0xc38a, cp949: 0x9bb2},
		lookupItem{ucs2: 0xc38b, cp949: 0x9bb3},
		lookupItem{ucs2: 0xc38c, cp949: 0xbdec},
		lookupItem{ucs2: 0xc38d, cp949: 0x9bb4},
		lookupItem{ucs2: 0xc38e, cp949: 0x9bb5},
		lookupItem{ucs2: 0xc38f, cp949: 0x9bb6},
		lookupItem{ucs2: 0xc390, cp949: 0x9bb7},
		lookupItem{ucs2: 0xc391, cp949: 0x9bb8},
		lookupItem{ucs2: 0xc392, cp949: 0x9bb9},
		lookupItem{ucs2: 0xc393, cp949: 0x9bba},
		lookupItem{ucs2: 0xc394, cp949: 0x9bbb},
		lookupItem{ucs2: 0xc395, cp949: 0x9bbc},
		lookupItem{ucs2: 0xc396, cp949: 0x9bbd},
		lookupItem{ucs2: 0xc397, cp949: 0x9bbe},
		lookupItem{ucs2: 0xc398, cp949: 0x9bbf},
		lookupItem{ucs2: 0xc399, cp949: 0x9bc0},
		lookupItem{ucs2: 0xc39a, cp949: 0x9bc1},
		lookupItem{ucs2: 0xc39b, cp949: 0x9bc2},
		lookupItem{ucs2: 0xc39c, cp949: 0x9bc3},
		lookupItem{ucs2: 0xc39d, cp949: 0x9bc4},
		lookupItem{ucs2: 0xc39e, cp949: 0x9bc5},
		lookupItem{ucs2: 0xc39f, cp949: 0x9bc6},
		lookupItem{ucs2: 0xc3a0, cp949: 0x9bc7},
		lookupItem{ucs2: 0xc3a1, cp949: 0x9bc8},
		lookupItem{ucs2: 0xc3a2, cp949: 0x9bc9},
		lookupItem{ucs2: 0xc3a3, cp949: 0x9bca},
		lookupItem{ucs2: 0xc3a4, cp949: 0x9bcb},
		lookupItem{ucs2: 0xc3a5, cp949: 0x9bcc},
		lookupItem{ucs2: 0xc3a6, cp949: 0x9bcd},
		lookupItem{ucs2: 0xc3a7, cp949: 0x9bce},
		lookupItem{ucs2: 0xc3a8, cp949: 0x9bcf},
		lookupItem{ucs2: 0xc3a9, cp949: 0x9bd0},
		lookupItem{ucs2: 0xc3aa, cp949: 0x9bd1},
		lookupItem{ucs2: 0xc3ab, cp949: 0x9bd2},
		lookupItem{ucs2: 0xc3ac, cp949: 0x9bd3},
		lookupItem{ucs2: 0xc3ad, cp949: 0x9bd4},
		lookupItem{ucs2: 0xc3ae, cp949: 0x9bd5},
		lookupItem{ucs2: 0xc3af, cp949: 0x9bd6},
		lookupItem{ucs2: 0xc3b0, cp949: 0x9bd7},
		lookupItem{ucs2: 0xc3b1, cp949: 0x9bd8},
		lookupItem{ucs2: 0xc3b2, cp949: 0x9bd9},
		lookupItem{ucs2: 0xc3b3, cp949: 0x9bda},
		lookupItem{ucs2: 0xc3b4, cp949: 0x9bdb},
		lookupItem{ucs2: 0xc3b5, cp949: 0x9bdc},
		lookupItem{ucs2: 0xc3b6, cp949: 0x9bdd},
		lookupItem{ucs2: 0xc3b7, cp949: 0x9bde},
		lookupItem{ucs2: 0xc3b8, cp949: 0x9bdf},
		lookupItem{ucs2: 0xc3b9, cp949: 0x9be0},
		lookupItem{ucs2: 0xc3ba, cp949: 0x9be1},
		lookupItem{ucs2: 0xc3bb, cp949: 0x9be2},
		lookupItem{ucs2: 0xc3bc, cp949: 0x9be3},
		lookupItem{ucs2: 0xc3bd, cp949: 0x9be4},
		lookupItem{ucs2: 0xc3be, cp949: 0x9be5},
		lookupItem{ucs2: 0xc3bf, cp949: 0x9be6},
		lookupItem{ucs2: 0xc3c0, cp949: 0xbded},
		lookupItem{ucs2: 0xc3c1, cp949: 0x9be7},
		lookupItem{ucs2: 0xc3c2, cp949: 0x9be8},
		lookupItem{ucs2: 0xc3c3, cp949: 0x9be9},
		lookupItem{ucs2: 0xc3c4, cp949: 0x9bea},
		lookupItem{ucs2: 0xc3c5, cp949: 0x9beb},
		lookupItem{ucs2: 0xc3c6, cp949: 0x9bec},
		lookupItem{ucs2: 0xc3c7, cp949: 0x9bed},
		lookupItem{ucs2: 0xc3c8, cp949: 0x9bee},
		lookupItem{ucs2: 0xc3c9, cp949: 0x9bef},
		lookupItem{ucs2: 0xc3ca, cp949: 0x9bf0},
		lookupItem{ucs2: 0xc3cb, cp949: 0x9bf1},
		lookupItem{ucs2: 0xc3cc, cp949: 0x9bf2},
		lookupItem{ucs2: 0xc3cd, cp949: 0x9bf3},
		lookupItem{ucs2: 0xc3ce, cp949: 0x9bf4},
		lookupItem{ucs2: 0xc3cf, cp949: 0x9bf5},
		lookupItem{ucs2: 0xc3d0, cp949: 0x9bf6},
		lookupItem{ucs2: 0xc3d1, cp949: 0x9bf7},
		lookupItem{ucs2: 0xc3d2, cp949: 0x9bf8},
		lookupItem{ucs2: 0xc3d3, cp949: 0x9bf9},
		lookupItem{ucs2: 0xc3d4, cp949: 0x9bfa},
		lookupItem{ucs2: 0xc3d5, cp949: 0x9bfb},
		lookupItem{ucs2: 0xc3d6, cp949: 0x9bfc},
		lookupItem{ucs2: 0xc3d7, cp949: 0x9bfd},
		lookupItem{ucs2: 0xc3d8, cp949: 0xbdee},
		lookupItem{ucs2: 0xc3d9, cp949: 0xbdef},
		lookupItem{ucs2: 0xc3da, cp949: 0x9bfe},
		lookupItem{ucs2: 0xc3db, cp949: 0x9c41},
		lookupItem{ucs2: 0xc3dc, cp949: 0xbdf0},
		lookupItem{ucs2: 0xc3dd, cp949: 0x9c42},
		lookupItem{ucs2: 0xc3de, cp949: 0x9c43},
		lookupItem{ucs2: 0xc3df, cp949: 0xbdf1},
		lookupItem{ucs2: 0xc3e0, cp949: 0xbdf2},
		lookupItem{ucs2: 0xc3e1, cp949: 0x9c44},
		lookupItem{ucs2: 0xc3e2, cp949: 0xbdf3},
		lookupItem{ucs2: 0xc3e3, cp949: 0x9c45},
		lookupItem{ucs2: 0xc3e4, cp949: 0x9c46},
		lookupItem{ucs2: 0xc3e5, cp949: 0x9c47},
		lookupItem{ucs2: 0xc3e6, cp949: 0x9c48},
		lookupItem{ucs2: 0xc3e7, cp949: 0x9c49},
		lookupItem{ucs2: 0xc3e8, cp949: 0xbdf4},
		lookupItem{ucs2: 0xc3e9, cp949: 0xbdf5},
		lookupItem{ucs2: 0xc3ea, cp949: 0x9c4a},
		lookupItem{ucs2: 0xc3eb, cp949: 0x9c4b},
		lookupItem{ucs2: 0xc3ec, cp949: 0x9c4c},
		lookupItem{ucs2: 0xc3ed, cp949: 0xbdf6},
		lookupItem{ucs2: 0xc3ee, cp949: 0x9c4d},
		lookupItem{ucs2: 0xc3ef, cp949: 0x9c4e},
		lookupItem{ucs2: 0xc3f0, cp949: 0x9c4f},
		lookupItem{ucs2: 0xc3f1, cp949: 0x9c50},
		lookupItem{ucs2: 0xc3f2, cp949: 0x9c51},
		lookupItem{ucs2: 0xc3f3, cp949: 0x9c52},
		lookupItem{ucs2: 0xc3f4, cp949: 0xbdf7},
		lookupItem{ucs2: 0xc3f5, cp949: 0xbdf8},
		lookupItem{ucs2: 0xc3f6, cp949: 0x9c53},
		lookupItem{ucs2: 0xc3f7, cp949: 0x9c54},
		lookupItem{ucs2: 0xc3f8, cp949: 0xbdf9},
		lookupItem{ucs2: 0xc3f9, cp949: 0x9c55},
		lookupItem{ucs2: 0xc3fa, cp949: 0x9c56},
		lookupItem{ucs2: 0xc3fb, cp949: 0x9c57},
		lookupItem{ucs2: 0xc3fc, cp949: 0x9c58},
		lookupItem{ucs2: 0xc3fd, cp949: 0x9c59},
		lookupItem{ucs2: 0xc3fe, cp949: 0x9c5a},
		lookupItem{ucs2: 0xc3ff, cp949: 0x9c61},
		lookupItem{ucs2: 0xc400, cp949: 0x9c62},
		lookupItem{ucs2: 0xc401, cp949: 0x9c63},
		lookupItem{ucs2: 0xc402, cp949: 0x9c64},
		lookupItem{ucs2: 0xc403, cp949: 0x9c65},
		lookupItem{ucs2: 0xc404, cp949: 0x9c66},
		lookupItem{ucs2: 0xc405, cp949: 0x9c67},
		lookupItem{ucs2: 0xc406, cp949: 0x9c68},
		lookupItem{ucs2: 0xc407, cp949: 0x9c69},
		lookupItem{ucs2: 0xc408, cp949: 0xbdfa},
		lookupItem{ucs2: 0xc409, cp949: 0x9c6a},
		lookupItem{ucs2: 0xc40a, cp949: 0x9c6b},
		lookupItem{ucs2: 0xc40b, cp949: 0x9c6c},
		lookupItem{ucs2: 0xc40c, cp949: 0x9c6d},
		lookupItem{ucs2: 0xc40d, cp949: 0x9c6e},
		lookupItem{ucs2: 0xc40e, cp949: 0x9c6f},
		lookupItem{ucs2: 0xc40f, cp949: 0x9c70},
		lookupItem{ucs2: 0xc410, cp949: 0xbdfb},
		lookupItem{ucs2: 0xc411, cp949: 0x9c71},
		lookupItem{ucs2: 0xc412, cp949: 0x9c72},
		lookupItem{ucs2: 0xc413, cp949: 0x9c73},
		lookupItem{ucs2: 0xc414, cp949: 0x9c74},
		lookupItem{ucs2: 0xc415, cp949: 0x9c75},
		lookupItem{ucs2: 0xc416, cp949: 0x9c76},
		lookupItem{ucs2: 0xc417, cp949: 0x9c77},
		lookupItem{ucs2: 0xc418, cp949: 0x9c78},
		lookupItem{ucs2: 0xc419, cp949: 0x9c79},
		lookupItem{ucs2: 0xc41a, cp949: 0x9c7a},
		lookupItem{ucs2: 0xc41b, cp949: 0x9c81},
		lookupItem{ucs2: 0xc41c, cp949: 0x9c82},
		lookupItem{ucs2: 0xc41d, cp949: 0x9c83},
		lookupItem{ucs2: 0xc41e, cp949: 0x9c84},
		lookupItem{ucs2: 0xc41f, cp949: 0x9c85},
		lookupItem{ucs2: 0xc420, cp949: 0x9c86},
		lookupItem{ucs2: 0xc421, cp949: 0x9c87},
		lookupItem{ucs2: 0xc422, cp949: 0x9c88},
		lookupItem{ucs2: 0xc423, cp949: 0x9c89},
		lookupItem{ucs2: 0xc424, cp949: 0xbdfc},
		lookupItem{ucs2: 0xc425, cp949: 0x9c8a},
		lookupItem{ucs2: 0xc426, cp949: 0x9c8b},
		lookupItem{ucs2: 0xc427, cp949: 0x9c8c},
		lookupItem{ucs2: 0xc428, cp949: 0x9c8d},
		lookupItem{ucs2: 0xc429, cp949: 0x9c8e},
		lookupItem{ucs2: 0xc42a, cp949: 0x9c8f},
		lookupItem{ucs2: 0xc42b, cp949: 0x9c90},
		lookupItem{ucs2: 0xc42c, cp949: 0xbdfd},
		lookupItem{ucs2: 0xc42d, cp949: 0x9c91},
		lookupItem{ucs2: 0xc42e, cp949: 0x9c92},
		lookupItem{ucs2: 0xc42f, cp949: 0x9c93},
		lookupItem{ucs2: 0xc430, cp949: 0xbdfe},
		lookupItem{ucs2: 0xc431, cp949: 0x9c94},
		lookupItem{ucs2: 0xc432, cp949: 0x9c95},
		lookupItem{ucs2: 0xc433, cp949: 0x9c96},
		lookupItem{ucs2: 0xc434, cp949: 0xbea1},
		lookupItem{ucs2: 0xc435, cp949: 0x9c97},
		lookupItem{ucs2: 0xc436, cp949: 0x9c98},
		lookupItem{ucs2: 0xc437, cp949: 0x9c99},
		lookupItem{ucs2: 0xc438, cp949: 0x9c9a},
		lookupItem{ucs2: 0xc439, cp949: 0x9c9b},
		lookupItem{ucs2: 0xc43a, cp949: 0x9c9c},
		lookupItem{ucs2: 0xc43b, cp949: 0x9c9d},
		lookupItem{ucs2: 0xc43c, cp949: 0xbea2},
		lookupItem{ucs2: 0xc43d, cp949: 0xbea3},
		lookupItem{ucs2: 0xc43e, cp949: 0x9c9e},
		lookupItem{ucs2: 0xc43f, cp949: 0x9c9f},
		lookupItem{ucs2: 0xc440, cp949: 0x9ca0},
		lookupItem{ucs2: 0xc441, cp949: 0x9ca1},
		lookupItem{ucs2: 0xc442, cp949: 0x9ca2},
		lookupItem{ucs2: 0xc443, cp949: 0x9ca3},
		lookupItem{ucs2: 0xc444, cp949: 0x9ca4},
		lookupItem{ucs2: 0xc445, cp949: 0x9ca5},
		lookupItem{ucs2: 0xc446, cp949: 0x9ca6},
		lookupItem{ucs2: 0xc447, cp949: 0x9ca7},
		lookupItem{ucs2: 0xc448, cp949: 0xbea4},
		lookupItem{ucs2: 0xc449, cp949: 0x9ca8},
		lookupItem{ucs2: 0xc44a, cp949: 0x9ca9},
		lookupItem{ucs2: 0xc44b, cp949: 0x9caa},
		lookupItem{ucs2: 0xc44c, cp949: 0x9cab},
		lookupItem{ucs2: 0xc44d, cp949: 0x9cac},
		lookupItem{ucs2: 0xc44e, cp949: 0x9cad},
		lookupItem{ucs2: 0xc44f, cp949: 0x9cae},
		lookupItem{ucs2: 0xc450, cp949: 0x9caf},
		lookupItem{ucs2: 0xc451, cp949: 0x9cb0},
		lookupItem{ucs2: 0xc452, cp949: 0x9cb1},
		lookupItem{ucs2: 0xc453, cp949: 0x9cb2},
		lookupItem{ucs2: 0xc454, cp949: 0x9cb3},
		lookupItem{ucs2: 0xc455, cp949: 0x9cb4},
		lookupItem{ucs2: 0xc456, cp949: 0x9cb5},
		lookupItem{ucs2: 0xc457, cp949: 0x9cb6},
		lookupItem{ucs2: 0xc458, cp949: 0x9cb7},
		lookupItem{ucs2: 0xc459, cp949: 0x9cb8},
".
Definition text_cp949_lookup_to_047 : string :=
"		lookupItem{ucs2: 0xc45a, cp949: 0x9cb9},
		lookupItem{ucs2: 0xc45b, cp949: 0x9cba},
		lookupItem{ucs2: 0xc45c, cp949: 0x9cbb},
		lookupItem{ucs2: 0xc45d, cp949: 0x9cbc},
		lookupItem{ucs2: 0xc45e, cp949: 0x9cbd},
		lookupItem{ucs2: 0xc45f, cp949: 0x9cbe},
		lookupItem{ucs2: 0xc460, cp949: 0x9cbf},
		lookupItem{ucs2: 0xc461, cp949: 0x9cc0},
		lookupItem{ucs2: 0xc462, cp949: 0x9cc1},
		lookupItem{ucs2: 0xc463, cp949: 0x9cc2},
		lookupItem{ucs2: 0xc464, cp949: 0xbea5},
		lookupItem{ucs2: 0xc465, cp949: 0xbea6},
		lookupItem{ucs2: 0xc466, cp949: 0x9cc3},
		lookupItem{ucs2: 0xc467, cp949: 0x9cc4},
		lookupItem{ucs2: 0xc468, cp949: 0xbea7},
		lookupItem{ucs2: 0xc469, cp949: 0x9cc5},
		lookupItem{ucs2: 0xc46a, cp949: 0x9cc6},
		lookupItem{ucs2: 0xc46b, cp949: 0x9cc7},
		lookupItem{ucs2: 0xc46c, cp949: 0xbea8},
		lookupItem{ucs2: 0xc46d, cp949: 0x9cc8},
		lookupItem{ucs2: 0xc46e, cp949: 0x9cc9},
		lookupItem{ucs2: 0xc46f, cp949: 0x9cca},
		lookupItem{ucs2: 0xc470, cp949: 0x9ccb},
		lookupItem{ucs2: 0xc471, cp949: 0x9ccc},
		lookupItem{ucs2: 0xc472, cp949: 0x9ccd},
		lookupItem{ucs2: 0xc473, cp949: 0x9cce},
		lookupItem{ucs2: 0xc474, cp949: 0xbea9},
		lookupItem{ucs2: 0xc475, cp949: 0xbeaa},
		lookupItem{ucs2: 0xc476, cp949: 0x9ccf},
		lookupItem{ucs2: 0xc477, cp949: 0x9cd0},
		lookupItem{ucs2: 0xc478, cp949: 0x9cd1},
		lookupItem{ucs2: 0xc479, cp949: 0xbeab},
		lookupItem{ucs2: 0xc47a, cp949: 0x9cd2},
		lookupItem{ucs2: 0xc47b, cp949: 0x9cd3},
		lookupItem{ucs2: 0xc47c, cp949: 0x9cd4},
		lookupItem{ucs2: 0xc47d, cp949: 0x9cd5},
		lookupItem{ucs2: 0xc47e, cp949: 0x9cd6},
		lookupItem{ucs2: 0xc47f, cp949: 0x9cd7},
		lookupItem{ucs2: 0xc480, cp949: 0xbeac},
		lookupItem{ucs2: 0xc481, cp949: 0x9cd8},
		lookupItem{ucs2: 0xc482, cp949: 0x9cd9},
		lookupItem{ucs2: 0xc483, cp949: 0x9cda},
		lookupItem{ucs2: 0xc484, cp949: 0x9cdb},
		lookupItem{ucs2: 0xc485, cp949: 0x9cdc},
		lookupItem{ucs2: 0xc486, cp949: 0x9cdd},
		lookupItem{ucs2: 0xc487, cp949: 0x9cde},
		lookupItem{ucs2: 0xc488, cp949: 0x9cdf},
		lookupItem{ucs2: 0xc489, cp949: 0x9ce0},
		lookupItem{ucs2: 0xc48a, cp949: 0x9ce1},
		lookupItem{ucs2: 0xc48b, cp949: 0x9ce2},
		lookupItem{ucs2: 0xc48c, cp949: 0x9ce3},
		lookupItem{ucs2: 0xc48d, cp949: 0x9ce4},
		lookupItem{ucs2: 0xc48e, cp949: 0x9ce5},
		lookupItem{ucs2: 0xc48f, cp949: 0x9ce6},
		lookupItem{ucs2: 0xc490, cp949: 0x9ce7},
		lookupItem{ucs2: 0xc491, cp949: 0x9ce8},
		lookupItem{ucs2: 0xc492, cp949: 0x9ce9},
		lookupItem{ucs2: 0xc493, cp949: 0x9cea},
		lookupItem{ucs2: 0xc494, cp949: 0xbead},
		lookupItem{ucs2: 0xc495, cp949: 0x9ceb},
		lookupItem{ucs2: 0xc496, cp949: 0x9cec},
		lookupItem{ucs2: 0xc497, cp949: 0x9ced},
		lookupItem{ucs2: 0xc498, cp949: 0x9cee},
		lookupItem{ucs2: 0xc499, cp949: 0x9cef},
		lookupItem{ucs2: 0xc49a, cp949: 0x9cf0},
		lookupItem{ucs2: 0xc49b, cp949: 0x9cf1},
		lookupItem{ucs2: 0xc49c, cp949: 0xbeae},
		lookupItem{ucs2: 0xc49d, cp949: 0x9cf2},
		lookupItem{ucs2: 0xc49e, cp949: 0x9cf3},
		lookupItem{ucs2: 0xc49f, cp949: 0x9cf4},
		lookupItem{ucs2: 0xc4a0, cp949: 0x9cf5},
		lookupItem{ucs2: 0xc4a1, cp949: 0x9cf6},
		lookupItem{ucs2: 0xc4a2, cp949: 0x9cf7},
		lookupItem{ucs2: 0xc4a3, cp949: 0x9cf8},
		lookupItem{ucs2: 0xc4a4, cp949: 0x9cf9},
		lookupItem{ucs2: 0xc4a5, cp949: 0x9cfa},
		lookupItem{ucs2: 0xc4a6, cp949: 0x9cfb},
		lookupItem{ucs2: 0xc4a7, cp949: 0x9cfc},
		lookupItem{ucs2: 0xc4a8, cp949: 0x9cfd},
		lookupItem{ucs2: 0xc4a9, cp949: 0x9cfe},
		lookupItem{ucs2: 0xc4aa, cp949: 0x9d41},
		lookupItem{ucs2: 0xc4ab, cp949: 0x9d42},
		lookupItem{ucs2: 0xc4ac, cp949: 0x9d43},
		lookupItem{ucs2: 0xc4ad, cp949: 0x9d44},
		lookupItem{ucs2: 0xc4ae, cp949: 0x9d45},
		lookupItem{ucs2: 0xc4af, cp949: 0x9d46},
		lookupItem{ucs2: 0xc4b0, cp949: 0x9d47},
		lookupItem{ucs2: 0xc4b1, cp949: 0x9d48},
		lookupItem{ucs2: 0xc4b2, cp949: 0x9d49},
		lookupItem{ucs2: 0xc4b3, cp949: 0x9d4a},
		lookupItem{ucs2: 0xc4b4, cp949: 0x9d4b},
		lookupItem{ucs2: 0xc4b5, cp949: 0x9d4c},
		lookupItem{ucs2: 0xc4b6, cp949: 0x9d4d},
		lookupItem{ucs2: 0xc4b7, cp949: 0x9d4e},
		lookupItem{ucs2: 0xc4b8, cp949: 0xbeaf},
		lookupItem{ucs2: 0xc4b9, cp949: 0x9d4f},
		lookupItem{ucs2: 0xc4ba, cp949: 0x9d50},
		lookupItem{ucs2: 0xc4bb, cp949: 0x9d51},
		lookupItem{ucs2: 0xc4bc, cp949: 0xbeb0},
		lookupItem{ucs2: 0xc4bd, cp949: 0x9d52},
		lookupItem{ucs2: 0xc4be, cp949: 0x9d53},
		lookupItem{ucs2: 0xc4bf, cp949: 0x9d54},
		lookupItem{ucs2: 0xc4c0, cp949: 0x9d55},
		lookupItem{ucs2: 0xc4c1, cp949: 0x9d56},
		lookupItem{ucs2: 0xc4c2, cp949: 0x9d57},
		lookupItem{ucs2: 0xc4c3, cp949: 0x9d58},
		lookupItem{ucs2: 0xc4c4, cp949: 0x9d59},
		lookupItem{ucs2: 0xc4c5, cp949: 0x9d5a},
		lookupItem{ucs2: 0xc4c6, cp949: 0x9d61},
		lookupItem{ucs2: 0xc4c7, cp949: 0x9d62},
		lookupItem{ucs2: 0xc4c8, cp949: 0x9d63},
		lookupItem{ucs2: 0xc4c9, cp949: 0x9d64},
		lookupItem{ucs2: 0xc4ca, cp949: 0x9d65},
		lookupItem{ucs2: 0xc4cb, cp949: 0x9d66},
		lookupItem{ucs2: 0xc4cc, cp949: 0x9d67},
		lookupItem{ucs2: 0xc4cd, cp949: 0x9d68},
		lookupItem{ucs2: 0xc4ce, cp949: 0x9d69},
		lookupItem{ucs2: 0xc4cf, cp949: 0x9d6a},
		lookupItem{ucs2: 0xc4d0, cp949: 0x9d6b},
		lookupItem{ucs2: 0xc4d1, cp949: 0x9d6c},
		lookupItem{ucs2: 0xc4d2, cp949: 0x9d6d},
		lookupItem{ucs2: 0xc4d3, cp949: 0x9d6e},
		lookupItem{ucs2: 0xc4d4, cp949: 0x9d6f},
		lookupItem{ucs2: 0xc4d5, cp949: 0x9d70},
		lookupItem{ucs2: 0xc4d6, cp949: 0x9d71},
		lookupItem{ucs2: 0xc4d7, cp949: 0x9d72},
		lookupItem{ucs2: 0xc4d8, cp949: 0x9d73},
		lookupItem{ucs2: 0xc4d9, cp949: 0x9d74},
		lookupItem{ucs2: 0xc4da, cp949: 0x9d75},
		lookupItem{ucs2: 0xc4db, cp949: 0x9d76},
		lookupItem{ucs2: 0xc4dc, cp949: 0x9d77},
		lookupItem{ucs2: 0xc4dd, cp949: 0x9d78},
		lookupItem{ucs2: 0xc4de, cp949: 0x9d79},
		lookupItem{ucs2: 0xc4df, cp949: 0x9d7a},
		lookupItem{ucs2: 0xc4e0, cp949: 0x9d81},
		lookupItem{ucs2: 0xc4e1, cp949: 0x9d82},
		lookupItem{ucs2: 0xc4e2, cp949: 0x9d83},
		lookupItem{ucs2: 0xc4e3, cp949: 0x9d84},
		lookupItem{ucs2: 0xc4e4, cp949: 0x9d85},
		lookupItem{ucs2: 0xc4e5, cp949: 0x9d86},
		lookupItem{ucs2: 0xc4e6, cp949: 0x9d87},
		lookupItem{ucs2: 0xc4e7, cp949: 0x9d88},
		lookupItem{ucs2: 0xc4e8, cp949: 0x9d89},
		lookupItem{ucs2: 0xc4e9, cp949: 0xbeb1},
		lookupItem{ucs2: 0xc4ea, cp949: 0x9d8a},
		lookupItem{ucs2: 0xc4eb, cp949: 0x9d8b},
		lookupItem{ucs2: 0xc4ec, cp949: 0x9d8c},
		lookupItem{ucs2: 0xc4ed, cp949: 0x9d8d},
		lookupItem{ucs2: 0xc4ee, cp949: 0x9d8e},
		lookupItem{ucs2: 0xc4ef, cp949: 0x9d8f},
		lookupItem{ucs2: 0xc4f0, cp949: 0xbeb2},
		lookupItem{ucs2: 0xc4f1, cp949: 0xbeb3},
		lookupItem{ucs2: 0xc4f2, cp949: 0x9d90},
		lookupItem{ucs2: 0xc4f3, cp949: 0x9d91},
		lookupItem{ucs2: 0xc4f4, cp949: 0xbeb4},
		lookupItem{ucs2: 0xc4f5, cp949: 0x9d92},
		lookupItem{ucs2: 0xc4f6, cp949: 0x9d93},
		lookupItem{ucs2: 0xc4f7, cp949: 0x9d94},
		lookupItem{ucs2: 0xc4f8, cp949: 0xbeb5},
		lookupItem{ucs2: 0xc4f9, cp949: 0x9d95},
		lookupItem{ucs2: 0xc4fa, cp949: 0xbeb6},
		lookupItem{ucs2: 0xc4fb, cp949: 0x9d96},
		lookupItem{ucs2: 0xc4fc, cp949: 0x9d97},
		lookupItem{ucs2: 0xc4fd, cp949: 0x9d98},
		lookupItem{ucs2: 0xc4fe, cp949: 0x9d99},
		lookupItem{ucs2: 0xc4ff, cp949: 0xbeb7},
		lookupItem{ucs2: 0xc500, cp949: 0xbeb8},
		lookupItem{ucs2: 0xc501, cp949: 0xbeb9},
		lookupItem{ucs2: 0xc502, cp949: 0x9d9a},
		lookupItem{ucs2: 0xc503, cp949: 0x9d9b},
		lookupItem{ucs2: 0xc504, cp949: 0x9d9c},
		lookupItem{ucs2: 0xc505, cp949: 0x9d9d},
		lookupItem{ucs2: 0xc506, cp949: 0x9d9e},
		lookupItem{ucs2: 0xc507, cp949: 0x9d9f},
		lookupItem{ucs2: 0xc508, cp949: 0x9da0},
		lookupItem{ucs2: 0xc509, cp949: 0x9da1},
		lookupItem{ucs2: 0xc50a, cp949: 0x9da2},
		lookupItem{ucs2: 0xc50b, cp949: 0x9da3},
		lookupItem{ucs2: 0xc50c, cp949: 0xbeba},
		lookupItem{ucs2: 0xc50d, cp949: 0x9da4},
		lookupItem{ucs2: 0xc50e, cp949: 0x9da5},
		lookupItem{ucs2: 0xc50f, cp949: 0x9da6},
		lookupItem{ucs2: 0xc510, cp949: 0xbebb},
		lookupItem{ucs2: 0xc511, cp949: 0x9da7},
		lookupItem{ucs2: 0xc512, cp949: 0x9da8},
		lookupItem{ucs2: 0xc513, cp949: 0x9da9},
		lookupItem{ucs2: 0xc514, cp949: 0xbebc},
		lookupItem{ucs2: 0xc515, cp949: 0x9daa},
		lookupItem{ucs2: 0xc516, cp949: 0x9dab},
		lookupItem{ucs2: 0xc517, cp949: 0x9dac},
		lookupItem{ucs2: 0xc518, cp949: 0x9dad},
		lookupItem{ucs2: 0xc519, cp949: 0x9dae},
		lookupItem{ucs2: 0xc51a, cp949: 0x9daf},
		lookupItem{ucs2: 0xc51b, cp949: 0x9db0},
		lookupItem{ucs2: 0xc51c, cp949: 0xbebd},
		lookupItem{ucs2: 0xc51d, cp949: 0x9db1},
		lookupItem{ucs2: 0xc51e, cp949: 0x9db2},
		lookupItem{ucs2: 0xc51f, cp949: 0x9db3},
		lookupItem{ucs2: 0xc520, cp949: 0x9db4},
		lookupItem{ucs2: 0xc521, cp949: 0x9db5},
		lookupItem{ucs2: 0xc522, cp949: 0x9db6},
		lookupItem{ucs2: 0xc523, cp949: 0x9db7},
		lookupItem{ucs2: 0xc524, cp949: 0x9db8},
		lookupItem{ucs2: 0xc525, cp949: 0x9db9},
		lookupItem{ucs2: 0xc526, cp949: 0x9dba},
		lookupItem{ucs2: 0xc527, cp949: 0x9dbb},
		lookupItem{ucs2: 0xc528, cp949: 0xbebe},
		lookupItem{ucs2: 0xc529, cp949: 0xbebf},
		lookupItem{ucs2: 0xc52a, cp949: 0x9dbc},
		lookupItem{ucs2: 0xc52b, cp949: 0x9dbd},
		lookupItem{ucs2: 0xc52c, cp949: 0xbec0},
		lookupItem{ucs2: 0xc52d, cp949: 0x9dbe},
		lookupItem{ucs2: 0xc52e, cp949: 0x9dbf},
		lookupItem{ucs2: 0xc52f, cp949: 0x9dc0},
		lookupItem{ucs2: 0xc530, cp949: 0xbec1},
		lookupItem{ucs2: 0xc531, cp949: 0x9dc1},
		lookupItem{ucs2: 0xc532, cp949: 0x9dc2},
		lookupItem{ucs2: 0xc533, cp949: 0x9dc3},
		lookupItem{ucs2: 0xc534, cp949: 0x9dc4},
		lookupItem{ucs2: 0xc535, cp949: 0x9dc5},
		lookupItem{ucs2: 0xc536, cp949: 0x9dc6},
		lookupItem{ucs2: 0xc537, cp949: 0x9dc7},
		lookupItem{ucs2: 0xc538, cp949: 0xbec2},
		lookupItem{ucs2: 0xc539, cp949: 0xbec3},
		lookupItem{ucs2: 0xc53a, cp949: 0x9dc8},
		lookupItem{ucs2: 0xc53b, cp949: 0xbec4},
		lookupItem{ucs2: 0xc53c, cp949: 0x9dc9},
		lookupItem{ucs2: 0xc53d, cp949: 0xbec5},
		lookupItem{ucs2: 0xc53e, cp949: 0x9dca},
		lookupItem{ucs2: 0xc53f, cp949: 0x9dcb},
		lookupItem{ucs2: 0xc540, cp949: 0x9dcc},
		lookupItem{ucs2: 0xc541, cp949: 0x9dcd},
		lookupItem{ucs2: 0xc542, cp949: 0x9dce},
		lookupItem{ucs2: 0xc543, cp949: 0x9dcf},
		lookupItem{ucs2: 0xc544, cp949: 0xbec6},
		lookupItem{ucs2: 0xc545, cp949: 0xbec7},
		lookupItem{ucs2: 0xc546, cp949: 0x9dd0},
		lookupItem{ucs2: 0xc547, cp949: 0x9dd1},
		lookupItem{ucs2: 0xc548, cp949: 0xbec8},
		lookupItem{ucs2: 0xc549, cp949: 0xbec9},
		lookupItem{ucs2: 0xc54a, cp949: 0xbeca},
		lookupItem{ucs2: 0xc54b, cp949: 0x9dd2},
		lookupItem{ucs2: 0xc54c, cp949: 0xbecb},
		lookupItem{ucs2: 0xc54d, cp949: 0xbecc},
		lookupItem{ucs2: 0xc54e, cp949: 0xbecd},
		lookupItem{ucs2: 0xc54f, cp949: 0x9dd3},
		lookupItem{ucs2: 0xc550, cp949: 0x9dd4},
		lookupItem{ucs2: 0xc551, cp949: 0x9dd5},
		lookupItem{ucs2: 0xc552, cp949: 0x9dd6},
		lookupItem{ucs2: 0xc553, cp949: 0xbece},
".
Definition text_cp949_lookup_to_048 : string :=
"		lookupItem{ucs2: 0xc554, cp949: 0xbecf},
		lookupItem{ucs2: 0xc555, cp949: 0xbed0},
		lookupItem{ucs2: 0xc556, cp949: 0x9dd7},
		lookupItem{ucs2: 0xc557, cp949: 0xbed1},
		lookupItem{ucs2: 0xc558, cp949: 0xbed2},
		lookupItem{ucs2: 0xc559, cp949: 0xbed3},
		lookupItem{ucs2: 0xc55a, cp949: 0x9dd8},
		lookupItem{ucs2: 0xc55b, cp949: 0x9dd9},
		lookupItem{ucs2: 0xc55c, cp949: 0x9dda},
		lookupItem{ucs2: 0xc55d, cp949: 0xbed4},
		lookupItem{ucs2: 0xc55e, cp949: 0xbed5},
		lookupItem{ucs2: 0xc55f, cp949: 0x9ddb},
		lookupItem{ucs2: 0xc560, cp949: 0xbed6},
		lookupItem{ucs2: 0xc561, cp949: 0xbed7},
		lookupItem{ucs2: 0xc562, cp949: 0x9ddc},
		lookupItem{ucs2: 0xc563, cp949: 0x9ddd},
		lookupItem{ucs2: 0xc564, cp949: 0xbed8},
		lookupItem{ucs2: 0xc565, cp949: 0x9dde},
		lookupItem{ucs2: 0xc566, cp949: 0x9ddf},
		lookupItem{ucs2: 0xc567, cp949: 0x9de0},
		lookupItem{ucs2: 0xc568, cp949: 0xbed9},
		lookupItem{ucs2: 0xc569, cp949: 0x9de1},
		lookupItem{ucs2: 0xc56a, cp949: 0x9de2},
		lookupItem{ucs2: 0xc56b, cp949: 0x9de3},
		lookupItem{ucs2: 0xc56c, cp949: 0x9de4},
		lookupItem{ucs2: 0xc56d, cp949: 0x9de5},
		lookupItem{ucs2: 0xc56e, cp949: 0x9de6},
		lookupItem{ucs2: 0xc56f, cp949: 0x9de7},
		lookupItem{ucs2: 0xc570, cp949: 0xbeda},
		lookupItem{ucs2: 0xc571, cp949: 0xbedb},
		lookupItem{ucs2: 0xc572, cp949: 0x9de8},
		lookupItem{ucs2: 0xc573, cp949: 0xbedc},
		lookupItem{ucs2: 0xc574, cp949: 0xbedd},
		lookupItem{ucs2: 0xc575, cp949: 0xbede},
		lookupItem{ucs2: 0xc576, cp949: 0x9de9},
		lookupItem{ucs2: 0xc577, cp949: 0x9dea},
		lookupItem{ucs2: 0xc578, cp949: 0x9deb},
		lookupItem{ucs2: 0xc579, cp949: 0x9dec},
		lookupItem{ucs2: 0xc57a, cp949: 0x9ded},
		lookupItem{ucs2: 0xc57b, cp949: 0x9dee},
		lookupItem{ucs2: 0xc57c, cp949: 0xbedf},
		lookupItem{ucs2: 0xc57d, cp949: 0xbee0},
		lookupItem{ucs2: 0xc57e, cp949: 0x9def},
		lookupItem{ucs2: 0xc57f, cp949: 0x9df0},
		lookupItem{ucs2: 0xc580, cp949: 0xbee1},
		lookupItem{ucs2: 0xc581, cp949: 0x9df1},
		lookupItem{ucs2: 0xc582, cp949: 0x9df2},
		lookupItem{ucs2: 0xc583, cp949: 0x9df3},
		lookupItem{ucs2: 0xc584, cp949: 0xbee2},
		lookupItem{ucs2: 0xc585, cp949: 0x9df4},
		lookupItem{ucs2: 0xc586, cp949: 0x9df5},
		lookupItem{ucs2: 0xc587, cp949: 0xbee3},
		lookupItem{ucs2: 0xc588, cp949: 0x9df6},
		lookupItem{ucs2: 0xc589, cp949: 0x9df7},
		lookupItem{ucs2: 0xc58a, cp949: 0x9df8},
		lookupItem{ucs2: 0xc58b, cp949: 0x9df9},
		lookupItem{ucs2: 0xc58c, cp949: 0xbee4},
		lookupItem{ucs2: 0xc58d, cp949: 0xbee5},
		lookupItem{ucs2: 0xc58e, cp949: 0x9dfa},
		lookupItem{ucs2: 0xc58f, cp949: 0xbee6},
		lookupItem{ucs2: 0xc590, cp949: 0x9dfb},
		lookupItem{ucs2: 0xc591, cp949: 0xbee7},
		lookupItem{ucs2: 0xc592, cp949: 0x9dfc},
		lookupItem{ucs2: 0xc593, cp949: 0x9dfd},
		lookupItem{ucs2: 0xc594, cp949: 0x9dfe},
		lookupItem{ucs2: 0xc595, cp949: 0xbee8},
		lookupItem{ucs2: 0xc596, cp949: 0x9e41},
		lookupItem{ucs2: 0xc597, cp949: 0xbee9},
		lookupItem{ucs2: 0xc598, cp949: 0xbeea},
		lookupItem{ucs2: 0xc599, cp949: 0x9e42},
		lookupItem{ucs2: 0xc59a, cp949: 0x9e43},
		lookupItem{ucs2: 0xc59b, cp949: 0x9e44},
		lookupItem{ucs2: 0xc59c, cp949: 0xbeeb},
		lookupItem{ucs2: 0xc59d, cp949: 0x9e45},
		lookupItem{ucs2: 0xc59e, cp949: 0x9e46},
		lookupItem{ucs2: 0xc59f, cp949: 0x9e47},
		lookupItem{ucs2: 0xc5a0, cp949: 0xbeec},
		lookupItem{ucs2: 0xc5a1, cp949: 0x9e48},
		lookupItem{ucs2: 0xc5a2, cp949: 0x9e49},
		lookupItem{ucs2: 0xc5a3, cp949: 0x9e4a},
		lookupItem{ucs2: 0xc5a4, cp949: 0x9e4b},
		lookupItem{ucs2: 0xc5a5, cp949: 0x9e4c},
		lookupItem{ucs2: 0xc5a6, cp949: 0x9e4d},
		lookupItem{ucs2: 0xc5a7, cp949: 0x9e4e},
		lookupItem{ucs2: 0xc5a8, cp949: 0x9e4f},
		lookupItem{ucs2: 0xc5a9, cp949: 0xbeed},
		lookupItem{ucs2: 0xc5aa, cp949: 0x9e50},
		lookupItem{ucs2: 0xc5ab, cp949: 0x9e51},
		lookupItem{ucs2: 0xc5ac, cp949: 0x9e52},
		lookupItem{ucs2: 0xc5ad, cp949: 0x9e53},
		lookupItem{ucs2: 0xc5ae, cp949: 0x9e54},
		lookupItem{ucs2: 0xc5af, cp949: 0x9e55},
		lookupItem{ucs2: 0xc5b0, cp949: 0x9e56},
		lookupItem{ucs2: 0xc5b1, cp949: 0x9e57},
		lookupItem{ucs2: 0xc5b2, cp949: 0x9e58},
		lookupItem{ucs2: 0xc5b3, cp949: 0x9e59},
		lookupItem{ucs2: 0xc5b4, cp949: 0xbeee},
		lookupItem{ucs2: 0xc5b5, cp949: 0xbeef},
		lookupItem{ucs2: 0xc5b6, cp949: 0x9e5a},
		lookupItem{ucs2: 0xc5b7, cp949: 0x9e61},
		lookupItem{ucs2: 0xc5b8, cp949: 0xbef0},
		lookupItem{ucs2: 0xc5b9, cp949: 0xbef1},
		lookupItem{ucs2: 0xc5ba, cp949: 0x9e62},
		lookupItem{ucs2: 0xc5bb, cp949: 0xbef2},
		lookupItem{ucs2: 0xc5bc, cp949: 0xbef3},
		lookupItem{ucs2: 0xc5bd, cp949: 0xbef4},
		lookupItem{ucs2: 0xc5be, cp949: 0xbef5},
		lookupItem{ucs2: 0xc5bf, cp949: 0x9e63},
		lookupItem{ucs2: 0xc5c0, cp949: 0x9e64},
		lookupItem{ucs2: 0xc5c1, cp949: 0x9e65},
		lookupItem{ucs2: 0xc5c2, cp949: 0x9e66},
		lookupItem{ucs2: 0xc5c3, cp949: 0x9e67},
		lookupItem{ucs2: 0xc5c4, cp949: 0xbef6},
		lookupItem{ucs2: 0xc5c5, cp949: 0xbef7},
		lookupItem{ucs2: 0xc5c6, cp949: 0xbef8},
		lookupItem{ucs2: 0xc5c7, cp949: 0xbef9},
		lookupItem{ucs2: 0xc5c8, cp949: 0xbefa},
		lookupItem{ucs2: 0xc5c9, cp949: 0xbefb},
		lookupItem{ucs2: 0xc5ca, cp949: 0xbefc},
		lookupItem{ucs2: 0xc5cb, cp949: 0x9e68},
		lookupItem{ucs2: 0xc5cc, cp949: 0xbefd},
		lookupItem{ucs2: 0xc5cd, cp949: 0x9e69},
		lookupItem{ucs2: 0xc5ce, cp949: 0xbefe},
		lookupItem{ucs2: 0xc5cf, cp949: 0x9e6a},
		lookupItem{ucs2: 0xc5d0, cp949: 0xbfa1},
		lookupItem{ucs2: 0xc5d1, cp949: 0xbfa2},
		lookupItem{ucs2: 0xc5d2, cp949: 0x9e6b},
		lookupItem{ucs2: 0xc5d3, cp949: 0x9e6c},
		lookupItem{ucs2: 0xc5d4, cp949: 0xbfa3},
		lookupItem{ucs2: 0xc5d5, cp949: 0x9e6d},
		lookupItem{ucs2: 0xc5d6, cp949: 0x9e6e},
		lookupItem{ucs2: 0xc5d7, cp949: 0x9e6f},
		lookupItem{ucs2: 0xc5d8, cp949: 0xbfa4},
		lookupItem{ucs2: 0xc5d9, cp949: 0x9e70},
		lookupItem{ucs2: 0xc5da, cp949: 0x9e71},
		lookupItem{ucs2: 0xc5db, cp949: 0x9e72},
		lookupItem{ucs2: 0xc5dc, cp949: 0x9e73},
		lookupItem{ucs2: 0xc5dd, cp949: 0x9e74},
		lookupItem{ucs2: 0xc5de, cp949: 0x9e75},
		lookupItem{ucs2: 0xc5df, cp949: 0x9e76},
		lookupItem{ucs2: 0xc5e0, cp949: 0xbfa5},
		lookupItem{ucs2: 0xc5e1, cp949: 0xbfa6},
		lookupItem{ucs2: 0xc5e2, cp949: 0x9e77},
		lookupItem{ucs2: 0xc5e3, cp949: 0xbfa7},
		lookupItem{ucs2: 0xc5e4, cp949: 0x9e78},
		lookupItem{ucs2: 0xc5e5, cp949: 0xbfa8},
		lookupItem{ucs2: 0xc5e6, cp949: 0x9e79},
		lookupItem{ucs2: 0xc5e7, cp949: 0x9e7a},
		lookupItem{ucs2: 0xc5e8, cp949: 0x9e81},
		lookupItem{ucs2: 0xc5e9, cp949: 0x9e82},
		lookupItem{ucs2: 0xc5ea, cp949: 0x9e83},
		lookupItem{ucs2: 0xc5eb, cp949: 0x9e84},
		lookupItem{ucs2: 0xc5ec, cp949: 0xbfa9},
		lookupItem{ucs2: 0xc5ed, cp949: 0xbfaa},
		lookupItem{ucs2: 0xc5ee, cp949: 0xbfab},
		lookupItem{ucs2: 0xc5ef, cp949: 0x9e85},
		lookupItem{ucs2: 0xc5f0, cp949: 0xbfac},
		lookupItem{ucs2: 0xc5f1, cp949: 0x9e86},
		lookupItem{ucs2: 0xc5f2, cp949: 0x9e87},
		lookupItem{ucs2: 0xc5f3, cp949: 0x9e88},
		lookupItem{ucs2: 0xc5f4, cp949: 0xbfad},
		lookupItem{ucs2: 0xc5f5, cp949: 0x9e89},
		lookupItem{ucs2: 0xc5f6, cp949: 0xbfae},
		lookupItem{ucs2: 0xc5f7, cp949: 0xbfaf},
		lookupItem{ucs2: 0xc5f8, cp949: 0x9e8a},
		lookupItem{ucs2: 0xc5f9, cp949: 0x9e8b},
		lookupItem{ucs2: 0xc5fa, cp949: 0x9e8c},
		lookupItem{ucs2: 0xc5fb, cp949: 0x9e8d},
		lookupItem{ucs2: 0xc5fc, cp949: 0xbfb0},
		lookupItem{ucs2: 0xc5fd, cp949: 0xbfb1},
		lookupItem{ucs2: 0xc5fe, cp949: 0xbfb2},
		lookupItem{ucs2: 0xc5ff, cp949: 0xbfb3},
		lookupItem{ucs2: 0xc600, cp949: 0xbfb4},
		lookupItem{ucs2: 0xc601, cp949: 0xbfb5},
		lookupItem{ucs2: 0xc602, cp949: 0x9e8e},
		lookupItem{ucs2: 0xc603, cp949: 0x9e8f},
		lookupItem{ucs2: 0xc604, cp949: 0x9e90},
		lookupItem{ucs2: 0xc605, cp949: 0xbfb6},
		lookupItem{ucs2: 0xc606, cp949: 0xbfb7},
		lookupItem{ucs2: 0xc607, cp949: 0xbfb8},
		lookupItem{ucs2: 0xc608, cp949: 0xbfb9},
		lookupItem{ucs2: 0xc609, cp949: 0x9e91},
		lookupItem{ucs2: 0xc60a, cp949: 0x9e92},
		lookupItem{ucs2: 0xc60b, cp949: 0x9e93},
		lookupItem{ucs2: 0xc60c, cp949: 0xbfba},
		lookupItem{ucs2: 0xc60d, cp949: 0x9e94},
		lookupItem{ucs2: 0xc60e, cp949: 0x9e95},
		lookupItem{ucs2: 0xc60f, cp949: 0x9e96},
		lookupItem{ucs2: 0xc610, cp949: 0xbfbb},
		lookupItem{ucs2: 0xc611, cp949: 0x9e97},
		lookupItem{ucs2: 0xc612, cp949: 0x9e98},
		lookupItem{ucs2: 0xc613, cp949: 0x9e99},
		lookupItem{ucs2: 0xc614, cp949: 0x9e9a},
		lookupItem{ucs2: 0xc615, cp949: 0x9e9b},
		lookupItem{ucs2: 0xc616, cp949: 0x9e9c},
		lookupItem{ucs2: 0xc617, cp949: 0x9e9d},
		lookupItem{ucs2: 0xc618, cp949: 0xbfbc},
		lookupItem{ucs2: 0xc619, cp949: 0xbfbd},
		lookupItem{ucs2: 0xc61a, cp949: 0x9e9e},
		lookupItem{ucs2: 0xc61b, cp949: 0xbfbe},
		lookupItem{ucs2: 0xc61c, cp949: 0xbfbf},
		lookupItem{ucs2: 0xc61d, cp949: 0x9e9f},
		lookupItem{ucs2: 0xc61e, cp949: 0x9ea0},
		lookupItem{ucs2: 0xc61f, cp949: 0x9ea1},
		lookupItem{ucs2: 0xc620, cp949: 0x9ea2},
		lookupItem{ucs2: 0xc621, cp949: 0x9ea3},
		lookupItem{ucs2: 0xc622, cp949: 0x9ea4},
		lookupItem{ucs2: 0xc623, cp949: 0x9ea5},
		lookupItem{ucs2: 0xc624, cp949: 0xbfc0},
		lookupItem{ucs2: 0xc625, cp949: 0xbfc1},
		lookupItem{ucs2: 0xc626, cp949: 0x9ea6},
		lookupItem{ucs2: 0xc627, cp949: 0x9ea7},
		lookupItem{ucs2: 0xc628, cp949: 0xbfc2},
		lookupItem{ucs2: 0xc629, cp949: 0x9ea8},
		lookupItem{ucs2: 0xc62a, cp949: 0x9ea9},
		lookupItem{ucs2: 0xc62b, cp949: 0x9eaa},
		lookupItem{ucs2: 0xc62c, cp949: 0xbfc3},
		lookupItem{ucs2: 0xc62d, cp949: 0xbfc4},
		lookupItem{ucs2: 0xc62e, cp949: 0xbfc5},
		lookupItem{ucs2: 0xc62f, cp949: 0x9eab},
		lookupItem{ucs2: 0xc630, cp949: 0xbfc6},
		lookupItem{ucs2: 0xc631, cp949: 0x9eac},
		lookupItem{ucs2: 0xc632, cp949: 0x9ead},
		lookupItem{ucs2: 0xc633, cp949: 0xbfc7},
		lookupItem{ucs2: 0xc634, cp949: 0xbfc8},
		lookupItem{ucs2: 0xc635, cp949: 0xbfc9},
		lookupItem{ucs2: 0xc636, cp949: 0x9eae},
		lookupItem{ucs2: 0xc637, cp949: 0xbfca},
		lookupItem{ucs2: 0xc638, cp949: 0x9eaf},
		lookupItem{ucs2: 0xc639, cp949: 0xbfcb},
		lookupItem{ucs2: 0xc63a, cp949: 0x9eb0},
		lookupItem{ucs2: 0xc63b, cp949: 0xbfcc},
		lookupItem{ucs2: 0xc63c, cp949: 0x9eb1},
		lookupItem{ucs2: 0xc63d, cp949: 0x9eb2},
		lookupItem{ucs2: 0xc63e, cp949: 0x9eb3},
		lookupItem{ucs2: 0xc63f, cp949: 0x9eb4},
		lookupItem{ucs2: 0xc640, cp949: 0xbfcd},
		lookupItem{ucs2: 0xc641, cp949: 0xbfce},
		lookupItem{ucs2: 0xc642, cp949: 0x9eb5},
		lookupItem{ucs2: 0xc643, cp949: 0x9eb6},
		lookupItem{ucs2: 0xc644, cp949: 0xbfcf},
		lookupItem{ucs2: 0xc645, cp949: 0x9eb7},
		lookupItem{ucs2: 0xc646, cp949: 0x9eb8},
		lookupItem{ucs2: 0xc647, cp949: 0x9eb9},
		lookupItem{ucs2: 0xc648, cp949: 0xbfd0},
		lookupItem{ucs2: 0xc649, cp949: 0x9eba},
		lookupItem{ucs2: 0xc64a, cp949: 0x9ebb},
		lookupItem{ucs2: 0xc64b, cp949: 0x9ebc},
		lookupItem{ucs2: 0xc64c, cp949: 0x9ebd},
		lookupItem{ucs2: 0xc64d, cp949: 0x9ebe},
".
Definition text_cp949_lookup_to_049 : string :=
"		lookupItem{ucs2: 0xc64e, cp949: 0x9ebf},
		lookupItem{ucs2: 0xc64f, cp949: 0x9ec0},
		lookupItem{ucs2: 0xc650, cp949: 0xbfd1},
		lookupItem{ucs2: 0xc651, cp949: 0xbfd2},
		lookupItem{ucs2: 0xc652, cp949: 0x9ec1},
		lookupItem{ucs2: 0xc653, cp949: 0xbfd3},
		lookupItem{ucs2: 0xc654, cp949: 0xbfd4},
		lookupItem{ucs2: 0xc655, cp949: 0xbfd5},
		lookupItem{ucs2: 0xc656, cp949: 0x9ec2},
		lookupItem{ucs2: 0xc657, cp949: 0x9ec3},
		lookupItem{ucs2: 0xc658, cp949: 0x9ec4},
		lookupItem{ucs2: 0xc659, cp949: 0x9ec5},
		lookupItem{ucs2: 0xc65a, cp949: 0x9ec6},
		lookupItem{ucs2: 0xc65b, cp949: 0x9ec7},
		lookupItem{ucs2: 0xc65c, cp949: 0xbfd6},
		lookupItem{ucs2: 0xc65d, cp949: 0xbfd7},
		lookupItem{ucs2: 0xc65e, cp949: 0x9ec8},
		lookupItem{ucs2: 0xc65f, cp949: 0x9ec9},
		lookupItem{ucs2: 0xc660, cp949: 0xbfd8},
		lookupItem{ucs2: 0xc661, cp949: 0x9eca},
		lookupItem{ucs2: 0xc662, cp949: 0x9ecb},
		lookupItem{ucs2: 0xc663, cp949: 0x9ecc},
		lookupItem{ucs2: 0xc664, cp949: 0x9ecd},
		lookupItem{ucs2: 0xc665, cp949: 0x9ece},
		lookupItem{ucs2: 0xc666, cp949: 0x9ecf},
		lookupItem{ucs2: 0xc667, cp949: 0x9ed0},
		lookupItem{ucs2: 0xc668, cp949: 0x9ed1},
		lookupItem{ucs2: 0xc669, cp949: 0x9ed2},
		lookupItem{ucs2: 0xc66a, cp949: 0x9ed3},
		lookupItem{ucs2: 0xc66b, cp949: 0x9ed4},
		lookupItem{ucs2: 0xc66c, cp949: 0xbfd9},
		lookupItem{ucs2: 0xc66d, cp949: 0x9ed5},
		lookupItem{ucs2: 0xc66e, cp949: 0x9ed6},
		lookupItem{ucs2: 0xc66f, cp949: 0xbfda},
		lookupItem{ucs2: 0xc670, cp949: 0x9ed7},
		lookupItem{ucs2: 0xc671, cp949: 0xbfdb},
		lookupItem{ucs2: 0xc672, cp949: 0x9ed8},
		lookupItem{ucs2: 0xc673, cp949: 0x9ed9},
		lookupItem{ucs2: 0xc674, cp949: 0x9eda},
		lookupItem{ucs2: 0xc675, cp949: 0x9edb},
		lookupItem{ucs2: 0xc676, cp949: 0x9edc},
		lookupItem{ucs2: 0xc677, cp949: 0x9edd},
		lookupItem{ucs2: 0xc678, cp949: 0xbfdc},
		lookupItem{ucs2: 0xc679, cp949: 0xbfdd},
		lookupItem{ucs2: 0xc67a, cp949: 0x9ede},
		lookupItem{ucs2: 0xc67b, cp949: 0x9edf},
		lookupItem{ucs2: 0xc67c, cp949: 0xbfde},
		lookupItem{ucs2: 0xc67d, cp949: 0x9ee0},
		lookupItem{ucs2: 0xc67e, cp949: 0x9ee1},
		lookupItem{ucs2: 0xc67f, cp949: 0x9ee2},
		lookupItem{ucs2: 0xc680, cp949: 0xbfdf},
		lookupItem{ucs2: 0xc681, cp949: 0x9ee3},
		lookupItem{ucs2: 0xc682, cp949: 0x9ee4},
		lookupItem{ucs2: 0xc683, cp949: 0x9ee5},
		lookupItem{ucs2: 0xc684, cp949: 0x9ee6},
		lookupItem{ucs2: 0xc685, cp949: 0x9ee7},
		lookupItem{ucs2: 0xc686, cp949: 0x9ee8},
		lookupItem{ucs2: 0xc687, cp949: 0x9ee9},
		lookupItem{ucs2: 0xc688, cp949: 0xbfe0},
		lookupItem{ucs2: 0xc689, cp949: 0xbfe1},
		lookupItem{ucs2: 0xc68a, cp949: 0x9eea},
		lookupItem{ucs2: 0xc68b, cp949: 0xbfe2},
		lookupItem{ucs2: 0xc68c, cp949: 0x9eeb},
		lookupItem{ucs2: 0xc68d, cp949: 0xbfe3},
		lookupItem{ucs2: 0xc68e, cp949: 0x9eec},
		lookupItem{ucs2: 0xc68f, cp949: 0x9eed},
		lookupItem{ucs2: 0xc690, cp949: 0x9eee},
		lookupItem{ucs2: 0xc691, cp949: 0x9eef},
		lookupItem{ucs2: 0xc692, cp949: 0x9ef0},
		lookupItem{ucs2: 0xc693, cp949: 0x9ef1},
		lookupItem{ucs2: 0xc694, cp949: 0xbfe4},
		lookupItem{ucs2: 0xc695, cp949: 0xbfe5},
		lookupItem{ucs2: 0xc696, cp949: 0x9ef2},
		lookupItem{ucs2: 0xc697, cp949: 0x9ef3},
		lookupItem{ucs2: 0xc698, cp949: 0xbfe6},
		lookupItem{ucs2: 0xc699, cp949: 0x9ef4},
		lookupItem{ucs2: 0xc69a, cp949: 0x9ef5},
		lookupItem{ucs2: 0xc69b, cp949: 0x9ef6},
		lookupItem{ucs2: 0xc69c, cp949: 0xbfe7},
		lookupItem{ucs2: 0xc69d, cp949: 0x9ef7},
		lookupItem{ucs2: 0xc69e, cp949: 0x9ef8},
		lookupItem{ucs2: 0xc69f, cp949: 0x9ef9},
		lookupItem{ucs2: 0xc6a0, cp949: 0x9efa},
		lookupItem{ucs2: 0xc6a1, cp949: 0x9efb},
		lookupItem{ucs2: 0xc6a2, cp949: 0x9efc},
		lookupItem{ucs2: 0xc6a3, cp949: 0x9efd},
		lookupItem{ucs2: 0xc6a4, cp949: 0xbfe8},
		lookupItem{ucs2: 0xc6a5, cp949: 0xbfe9},
		lookupItem{ucs2: 0xc6a6, cp949: 0x9efe},
		lookupItem{ucs2: 0xc6a7, cp949: 0xbfea},
		lookupItem{ucs2: 0xc6a8, cp949: 0x9f41},
		lookupItem{ucs2: 0xc6a9, cp949: 0xbfeb},
		lookupItem{ucs2: 0xc6aa, cp949: 0x9f42},
		lookupItem{ucs2: 0xc6ab, cp949: 0x9f43},
		lookupItem{ucs2: 0xc6ac, cp949: 0x9f44},
		lookupItem{ucs2: 0xc6ad, cp949: 0x9f45},
		lookupItem{ucs2: 0xc6ae, cp949: 0x9f46},
		lookupItem{ucs2: 0xc6af, cp949: 0x9f47},
		lookupItem{ucs2: 0xc6b0, cp949: 0xbfec},
		lookupItem{ucs2: 0xc6b1, cp949: 0xbfed},
		lookupItem{ucs2: 0xc6b2, cp949: 0x9f48},
		lookupItem{ucs2: 0xc6b3, cp949: 0x9f49},
		lookupItem{ucs2: 0xc6b4, cp949: 0xbfee},
		lookupItem{ucs2: 0xc6b5, cp949: 0x9f4a},
		lookupItem{ucs2: 0xc6b6, cp949: 0x9f4b},
		lookupItem{ucs2: 0xc6b7, cp949: 0x9f4c},
		lookupItem{ucs2: 0xc6b8, cp949: 0xbfef},
		lookupItem{ucs2: 0xc6b9, cp949: 0xbff0},
		lookupItem{ucs2: 0xc6ba, cp949: 0xbff1},
		lookupItem{ucs2: 0xc6bb, cp949: 0x9f4d},
		lookupItem{ucs2: 0xc6bc, cp949: 0x9f4e},
		lookupItem{ucs2: 0xc6bd, cp949: 0x9f4f},
		lookupItem{ucs2: 0xc6be, cp949: 0x9f50},
		lookupItem{ucs2: 0xc6bf, cp949: 0x9f51},
		lookupItem{ucs2: 0xc6c0, cp949: 0xbff2},
		lookupItem{ucs2: 0xc6c1, cp949: 0xbff3},
		lookupItem{ucs2: 0xc6c2, cp949: 0x9f52},
		lookupItem{ucs2: 0xc6c3, cp949: 0xbff4},
		lookupItem{ucs2: 0xc6c4, cp949: 0x9f53},
		lookupItem{ucs2: 0xc6c5, cp949: 0xbff5},
		lookupItem{ucs2: 0xc6c6, cp949: 0x9f54},
		lookupItem{ucs2: 0xc6c7, cp949: 0x9f55},
		lookupItem{ucs2: 0xc6c8, cp949: 0x9f56},
		lookupItem{ucs2: 0xc6c9, cp949: 0x9f57},
		lookupItem{ucs2: 0xc6ca, cp949: 0x9f58},
		lookupItem{ucs2: 0xc6cb, cp949: 0x9f59},
		lookupItem{ucs2: 0xc6cc, cp949: 0xbff6},
		lookupItem{ucs2: 0xc6cd, cp949: 0xbff7},
		lookupItem{ucs2: 0xc6ce, cp949: 0x9f5a},
		lookupItem{ucs2: 0xc6cf, cp949: 0x9f61},
		lookupItem{ucs2: 0xc6d0, cp949: 0xbff8},
		lookupItem{ucs2: 0xc6d1, cp949: 0x9f62},
		lookupItem{ucs2: 0xc6d2, cp949: 0x9f63},
		lookupItem{ucs2: 0xc6d3, cp949: 0x9f64},
		lookupItem{ucs2: 0xc6d4, cp949: 0xbff9},
		lookupItem{ucs2: 0xc6d5, cp949: 0x9f65},
		lookupItem{ucs2: 0xc6d6, cp949: 0x9f66},
		lookupItem{ucs2: 0xc6d7, cp949: 0x9f67},
		lookupItem{ucs2: 0xc6d8, cp949: 0x9f68},
		lookupItem{ucs2: 0xc6d9, cp949: 0x9f69},
		lookupItem{ucs2: 0xc6da, cp949: 0x9f6a},
		lookupItem{ucs2: 0xc6db, cp949: 0x9f6b},
		lookupItem{ucs2: 0xc6dc, cp949: 0xbffa},
		lookupItem{ucs2: 0xc6dd, cp949: 0xbffb},
		lookupItem{ucs2: 0xc6de, cp949: 0x9f6c},
		lookupItem{ucs2: 0xc6df, cp949: 0x9f6d},
		lookupItem{ucs2: 0xc6e0, cp949: 0xbffc},
		lookupItem{ucs2: 0xc6e1, cp949: 0xbffd},
		lookupItem{ucs2: 0xc6e2, cp949: 0x9f6e},
		lookupItem{ucs2: 0xc6e3, cp949: 0x9f6f},
		lookupItem{ucs2: 0xc6e4, cp949: 0x9f70},
		lookupItem{ucs2: 0xc6e5, cp949: 0x9f71},
		lookupItem{ucs2: 0xc6e6, cp949: 0x9f72},
		lookupItem{ucs2: 0xc6e7, cp949: 0x9f73},
		lookupItem{ucs2: 0xc6e8, cp949: 0xbffe},
		lookupItem{ucs2: 0xc6e9, cp949: 0xc0a1},
		lookupItem{ucs2: 0xc6ea, cp949: 0x9f74},
		lookupItem{ucs2: 0xc6eb, cp949: 0x9f75},
		lookupItem{ucs2: 0xc6ec, cp949: 0xc0a2},
		lookupItem{ucs2: 0xc6ed, cp949: 0x9f76},
		lookupItem{ucs2: 0xc6ee, cp949: 0x9f77},
		lookupItem{ucs2: 0xc6ef, cp949: 0x9f78},
		lookupItem{ucs2: 0xc6f0, cp949: 0xc0a3},
		lookupItem{ucs2: 0xc6f1, cp949: 0x9f79},
		lookupItem{ucs2: 0xc6f2, cp949: 0x9f7a},
		lookupItem{ucs2: 0xc6f3, cp949: 0x9f81},
		lookupItem{ucs2: 0xc6f4, cp949: 0x9f82},
		lookupItem{ucs2: 0xc6f5, cp949: 0x9f83},
		lookupItem{ucs2: 0xc6f6, cp949: 0x9f84},
		lookupItem{ucs2: 0xc6f7, cp949: 0x9f85},
		lookupItem{ucs2: 0xc6f8, cp949: 0xc0a4},
		lookupItem{ucs2: 0xc6f9, cp949: 0xc0a5},
		lookupItem{ucs2: 0xc6fa, cp949: 0x9f86},
		lookupItem{ucs2: 0xc6fb, cp949: 0x9f87},
		lookupItem{ucs2: 0xc6fc, cp949: 0x9f88},
		lookupItem{ucs2: 0xc6fd, cp949: 0xc0a6},
		lookupItem{ucs2: 0xc6fe, cp949: 0x9f89},
		lookupItem{ucs2: 0xc6ff, cp949: 0x9f8a},
		lookupItem{ucs2: 0xc700, cp949: 0x9f8b},
		lookupItem{ucs2: 0xc701, cp949: 0x9f8c},
		lookupItem{ucs2: 0xc702, cp949: 0x9f8d},
		lookupItem{ucs2: 0xc703, cp949: 0x9f8e},
		lookupItem{ucs2: 0xc704, cp949: 0xc0a7},
		lookupItem{ucs2: 0xc705, cp949: 0xc0a8},
		lookupItem{ucs2: 0xc706, cp949: 0x9f8f},
		lookupItem{ucs2: 0xc707, cp949: 0x9f90},
		lookupItem{ucs2: 0xc708, cp949: 0xc0a9},
		lookupItem{ucs2: 0xc709, cp949: 0x9f91},
		lookupItem{ucs2: 0xc70a, cp949: 0x9f92},
		lookupItem{ucs2: 0xc70b, cp949: 0x9f93},
		lookupItem{ucs2: 0xc70c, cp949: 0xc0aa},
		lookupItem{ucs2: 0xc70d, cp949: 0x9f94},
		lookupItem{ucs2: 0xc70e, cp949: 0x9f95},
		lookupItem{ucs2: 0xc70f, cp949: 0x9f96},
		lookupItem{ucs2: 0xc710, cp949: 0x9f97},
		lookupItem{ucs2: 0xc711, cp949: 0x9f98},
		lookupItem{ucs2: 0xc712, cp949: 0x9f99},
		lookupItem{ucs2: 0xc713, cp949: 0x9f9a},
		lookupItem{ucs2: 0xc714, cp949: 0xc0ab},
		lookupItem{ucs2: 0xc715, cp949: 0xc0ac},
		lookupItem{ucs2: 0xc716, cp949: 0x9f9b},
		lookupItem{ucs2: 0xc717, cp949: 0xc0ad},
		lookupItem{ucs2: 0xc718, cp949: 0x9f9c},
		lookupItem{ucs2: 0xc719, cp949: 0xc0ae},
		lookupItem{ucs2: 0xc71a, cp949: 0x9f9d},
		lookupItem{ucs2: 0xc71b, cp949: 0x9f9e},
		lookupItem{ucs2: 0xc71c, cp949: 0x9f9f},
		lookupItem{ucs2: 0xc71d, cp949: 0x9fa0},
		lookupItem{ucs2: 0xc71e, cp949: 0x9fa1},
		lookupItem{ucs2: 0xc71f, cp949: 0x9fa2},
		lookupItem{ucs2: 0xc720, cp949: 0xc0af},
		lookupItem{ucs2: 0xc721, cp949: 0xc0b0},
		lookupItem{ucs2: 0xc722, cp949: 0x9fa3},
		lookupItem{ucs2: 0xc723, cp949: 0x9fa4},
		lookupItem{ucs2: 0xc724, cp949: 0xc0b1},
		lookupItem{ucs2: 0xc725, cp949: 0x9fa5},
		lookupItem{ucs2: 0xc726, cp949: 0x9fa6},
		lookupItem{ucs2: 0xc727, cp949: 0x9fa7},
		lookupItem{ucs2: 0xc728, cp949: 0xc0b2},
		lookupItem{ucs2: 0xc729, cp949: 0x9fa8},
		lookupItem{ucs2: 0xc72a, cp949: 0x9fa9},
		lookupItem{ucs2: 0xc72b, cp949: 0x9faa},
		lookupItem{ucs2: 0xc72c, cp949: 0x9fab},
		lookupItem{ucs2: 0xc72d, cp949: 0x9fac},
		lookupItem{ucs2: 0xc72e, cp949: 0x9fad},
		lookupItem{ucs2: 0xc72f, cp949: 0x9fae},
		lookupItem{ucs2: 0xc730, cp949: 0xc0b3},
		lookupItem{ucs2: 0xc731, cp949: 0xc0b4},
		lookupItem{ucs2: 0xc732, cp949: 0x9faf},
		lookupItem{ucs2: 0xc733, cp949: 0xc0b5},
		lookupItem{ucs2: 0xc734, cp949: 0x9fb0},
		lookupItem{ucs2: 0xc735, cp949: 0xc0b6},
		lookupItem{ucs2: 0xc736, cp949: 0x9fb1},
		lookupItem{ucs2: 0xc737, cp949: 0xc0b7},
		lookupItem{ucs2: 0xc738, cp949: 0x9fb2},
		lookupItem{ucs2: 0xc739, cp949: 0x9fb3},
		lookupItem{ucs2: 0xc73a, cp949: 0x9fb4},
		lookupItem{ucs2: 0xc73b, cp949: 0x9fb5},
		lookupItem{ucs2: 0xc73c, cp949: 0xc0b8},
		lookupItem{ucs2: 0xc73d, cp949: 0xc0b9},
		lookupItem{ucs2: 0xc73e, cp949: 0x9fb6},
		lookupItem{ucs2: 0xc73f, cp949: 0x9fb7},
		lookupItem{ucs2: 0xc740, cp949: 0xc0ba},
		lookupItem{ucs2: 0xc741, cp949: 0x9fb8},
		lookupItem{ucs2: 0xc742, cp949: 0x9fb9},
		lookupItem{ucs2: 0xc743, cp949: 0x9fba},
		lookupItem{ucs2: 0xc744, cp949: 0xc0bb},
		lookupItem{ucs2: 0xc745, cp949: 0x9fbb},
		lookupItem{ucs2: 0xc746, cp949: 0x9fbc},
		lookupItem{ucs2: 0xc747, cp949: 0x9fbd},
".
Definition text_cp949_lookup_to_050 : string :=
"		lookupItem{ucs2: 0xc748, cp949: 0x9fbe},
		lookupItem{ucs2: 0xc749, cp949: 0x9fbf},
		lookupItem{ucs2: 0xc74a, cp949: 0xc0bc},
		lookupItem{ucs2: 0xc74b, cp949: 0x9fc0},
		lookupItem{ucs2: 0xc74c, cp949: 0xc0bd},
		lookupItem{ucs2: 0xc74d, cp949: 0xc0be},
		lookupItem{ucs2: 0xc74e, cp949: 0x9fc1},
		lookupItem{ucs2: 0xc74f, cp949: 0xc0bf},
		lookupItem{ucs2: 0xc750, cp949: 0x9fc2},
		lookupItem{ucs2: 0xc751, cp949: 0xc0c0},
		lookupItem{ucs2: 0xc752, cp949: 0xc0c1},
		lookupItem{ucs2: 0xc753, cp949: 0xc0c2},
		lookupItem{ucs2: 0xc754, cp949: 0xc0c3},
		lookupItem{ucs2: 0xc755, cp949: 0xc0c4},
		lookupItem{ucs2: 0xc756, cp949: 0xc0c5},
		lookupItem{ucs2: 0xc757, cp949: 0xc0c6},
		lookupItem{ucs2: 0xc758, cp949: 0xc0c7},
		lookupItem{ucs2: 0xc759, cp949: 0x9fc3},
		lookupItem{ucs2: 0xc75a, cp949: 0x9fc4},
		lookupItem{ucs2: 0xc75b, cp949: 0x9fc5},
		lookupItem{ucs2: 0xc75c, cp949: 0xc0c8},
		lookupItem{ucs2: 0xc75d, cp949: 0x9fc6},
		lookupItem{ucs2: 0xc75e, cp949: 0x9fc7},
		lookupItem{ucs2: 0xc75f, cp949: 0x9fc8},
		lookupItem{ucs2: 0xc760, cp949: 0xc0c9},
		lookupItem{ucs2: 0xc761, cp949: 0x9fc9},
		lookupItem{ucs2: 0xc762, cp949: 0x9fca},
		lookupItem{ucs2: 0xc763, cp949: 0x9fcb},
		lookupItem{ucs2: 0xc764, cp949: 0x9fcc},
		lookupItem{ucs2: 0xc765, cp949: 0x9fcd},
		lookupItem{ucs2: 0xc766, cp949: 0x9fce},
		lookupItem{ucs2: 0xc767, cp949: 0x9fcf},
		lookupItem{ucs2: 0xc768, cp949: 0xc0ca},
		lookupItem{ucs2: 0xc769, cp949: 0x9fd0},
		lookupItem{ucs2: 0xc76a, cp949: 0x9fd1},
		lookupItem{ucs2: 0xc76b, cp949: 0xc0cb},
		lookupItem{ucs2: 0xc76c, cp949: 0x9fd2},
		lookupItem{ucs2: 0xc76d, cp949: 0x9fd3},
		lookupItem{ucs2: 0xc76e, cp949: 0x9fd4},
		lookupItem{ucs2: 0xc76f, cp949: 0x9fd5},
		lookupItem{ucs2: 0xc770, cp949: 0x9fd6},
		lookupItem{ucs2: 0xc771, cp949: 0x9fd7},
		lookupItem{ucs2: 0xc772, cp949: 0x9fd8},
		lookupItem{ucs2: 0xc773, cp949: 0x9fd9},
		lookupItem{ucs2: 0xc774, cp949: 0xc0cc},
		lookupItem{ucs2: 0xc775, cp949: 0xc0cd},
		lookupItem{ucs2: 0xc776, cp949: 0x9fda},
		lookupItem{ucs2: 0xc777, cp949: 0x9fdb},
		lookupItem{ucs2: 0xc778, cp949: 0xc0ce},
		lookupItem{ucs2: 0xc779, cp949: 0x9fdc},
		lookupItem{ucs2: 0xc77a, cp949: 0x9fdd},
		lookupItem{ucs2: 0xc77b, cp949: 0x9fde},
		lookupItem{ucs2: 0xc77c, cp949: 0xc0cf},
		lookupItem{ucs2: 0xc77d, cp949: 0xc0d0},
		lookupItem{ucs2: 0xc77e, cp949: 0xc0d1},
		lookupItem{ucs2: 0xc77f, cp949: 0x9fdf},
		lookupItem{ucs2: 0xc780, cp949: 0x9fe0},
		lookupItem{ucs2: 0xc781, cp949: 0x9fe1},
		lookupItem{ucs2: 0xc782, cp949: 0x9fe2},
		lookupItem{ucs2: 0xc783, cp949: 0xc0d2},
		lookupItem{ucs2: 0xc784, cp949: 0xc0d3},
		lookupItem{ucs2: 0xc785, cp949: 0xc0d4},
		lookupItem{ucs2: 0xc786, cp949: 0x9fe3},
		lookupItem{ucs2: 0xc787, cp949: 0xc0d5},
		lookupItem{ucs2: 0xc788, cp949: 0xc0d6},
		lookupItem{ucs2: 0xc789, cp949: 0xc0d7},
		lookupItem{ucs2: 0xc78a, cp949: 0xc0d8},
		lookupItem{ucs2: 0xc78b, cp949: 0x9fe4},
		lookupItem{ucs2: 0xc78c, cp949: 0x9fe5},
		lookupItem{ucs2: 0xc78d, cp949: 0x9fe6},
		lookupItem{ucs2: 0xc78e, cp949: 0xc0d9},
		lookupItem{ucs2: 0xc78f, cp949: 0x9fe7},
		lookupItem{ucs2: 0xc790, cp949: 0xc0da},
		lookupItem{ucs2: 0xc791, cp949: 0xc0db},
		lookupItem{ucs2: 0xc792, cp949: 0x9fe8},
		lookupItem{ucs2: 0xc793, cp949: 0x9fe9},
		lookupItem{ucs2: 0xc794, cp949: 0xc0dc},
		lookupItem{ucs2: 0xc795, cp949: 0x9fea},
		lookupItem{ucs2: 0xc796, cp949: 0xc0dd},
		lookupItem{ucs2: 0xc797, cp949: 0xc0de},
		lookupItem{ucs2: 0xc798, cp949: 0xc0df},
		lookupItem{ucs2: 0xc799, cp949: 0x9feb},
		lookupItem{ucs2: 0xc79a, cp949: 0xc0e0},
		lookupItem{ucs2: 0xc79b, cp949: 0x9fec},
		lookupItem{ucs2: 0xc79c, cp949: 0x9fed},
		lookupItem{ucs2: 0xc79d, cp949: 0x9fee},
		lookupItem{ucs2: 0xc79e, cp949: 0x9fef},
		lookupItem{ucs2: 0xc79f, cp949: 0x9ff0},
		lookupItem{ucs2: 0xc7a0, cp949: 0xc0e1},
		lookupItem{ucs2: 0xc7a1, cp949: 0xc0e2},
		lookupItem{ucs2: 0xc7a2, cp949: 0x9ff1},
		lookupItem{ucs2: 0xc7a3, cp949: 0xc0e3},
		lookupItem{ucs2: 0xc7a4, cp949: 0xc0e4},
		lookupItem{ucs2: 0xc7a5, cp949: 0xc0e5},
		lookupItem{ucs2: 0xc7a6, cp949: 0xc0e6},
		lookupItem{ucs2: 0xc7a7, cp949: 0x9ff2},
		lookupItem{ucs2: 0xc7a8, cp949: 0x9ff3},
		lookupItem{ucs2: 0xc7a9, cp949: 0x9ff4},
		lookupItem{ucs2: 0xc7aa, cp949: 0x9ff5},
		lookupItem{ucs2: 0xc7ab, cp949: 0x9ff6},
		lookupItem{ucs2: 0xc7ac, cp949: 0xc0e7},
		lookupItem{ucs2: 0xc7ad, cp949: 0xc0e8},
		lookupItem{ucs2: 0xc7ae, cp949: 0x9ff7},
		lookupItem{ucs2: 0xc7af, cp949: 0x9ff8},
		lookupItem{ucs2: 0xc7b0, cp949: 0xc0e9},
		lookupItem{ucs2: 0xc7b1, cp949: 0x9ff9},
		lookupItem{ucs2: 0xc7b2, cp949: 0x9ffa},
		lookupItem{ucs2: 0xc7b3, cp949: 0x9ffb},
		lookupItem{ucs2: 0xc7b4, cp949: 0xc0ea},
		lookupItem{ucs2: 0xc7b5, cp949: 0x9ffc},
		lookupItem{ucs2: 0xc7b6, cp949: 0x9ffd},
		lookupItem{ucs2: 0xc7b7, cp949: 0x9ffe},
		lookupItem{ucs2: 0xc7b8, cp949: 0xa041},
		lookupItem{ucs2: 0xc7b9, cp949: 0xa042},
		lookupItem{ucs2: 0xc7ba, cp949: 0xa043},
		lookupItem{ucs2: 0xc7bb, cp949: 0xa044},
		lookupItem{ucs2: 0xc7bc, cp949: 0xc0eb},
		lookupItem{ucs2: 0xc7bd, cp949: 0xc0ec},
		lookupItem{ucs2: 0xc7be, cp949: 0xa045},
		lookupItem{ucs2: 0xc7bf, cp949: 0xc0ed},
		lookupItem{ucs2: 0xc7c0, cp949: 0xc0ee},
		lookupItem{ucs2: 0xc7c1, cp949: 0xc0ef},
		lookupItem{ucs2: 0xc7c2, cp949: 0xa046},
		lookupItem{ucs2: 0xc7c3, cp949: 0xa047},
		lookupItem{ucs2: 0xc7c4, cp949: 0xa048},
		lookupItem{ucs2: 0xc7c5, cp949: 0xa049},
		lookupItem{ucs2: 0xc7c6, cp949: 0xa04a},
		lookupItem{ucs2: 0xc7c7, cp949: 0xa04b},
		lookupItem{ucs2: 0xc7c8, cp949: 0xc0f0},
		lookupItem{ucs2: 0xc7c9, cp949: 0xc0f1},
		lookupItem{ucs2: 0xc7ca, cp949: 0xa04c},
		lookupItem{ucs2: 0xc7cb, cp949: 0xa04d},
		lookupItem{ucs2: 0xc7cc, cp949: 0xc0f2},
		lookupItem{ucs2: 0xc7cd, cp949: 0xa04e},
		lookupItem{ucs2: 0xc7ce, cp949: 0xc0f3},
		lookupItem{ucs2: 0xc7cf, cp949: 0xa04f},
		lookupItem{ucs2: 0xc7d0, cp949: 0xc0f4},
		lookupItem{ucs2: 0xc7d1, cp949: 0xa050},
		lookupItem{ucs2: 0xc7d2, cp949: 0xa051},
		lookupItem{ucs2: 0xc7d3, cp949: 0xa052},
		lookupItem{ucs2: 0xc7d4, cp949: 0xa053},
		lookupItem{ucs2: 0xc7d5, cp949: 0xa054},
		lookupItem{ucs2: 0xc7d6, cp949: 0xa055},
		lookupItem{ucs2: 0xc7d7, cp949: 0xa056},
		lookupItem{ucs2: 0xc7d8, cp949: 0xc0f5},
		lookupItem{ucs2: 0xc7d9, cp949: 0xa057},
		lookupItem{ucs2: 0xc7da, cp949: 0xa058},
		lookupItem{ucs2: 0xc7db, cp949: 0xa059},
		lookupItem{ucs2: 0xc7dc, cp949: 0xa05a},
		lookupItem{ucs2: 0xc7dd, cp949: 0xc0f6},
		lookupItem{ucs2: 0xc7de, cp949: 0xa061},
		lookupItem{ucs2: 0xc7df, cp949: 0xa062},
		lookupItem{ucs2: 0xc7e0, cp949: 0xa063},
		lookupItem{ucs2: 0xc7e1, cp949: 0xa064},
		lookupItem{ucs2: 0xc7e2, cp949: 0xa065},
		lookupItem{ucs2: 0xc7e3, cp949: 0xa066},
		lookupItem{ucs2: 0xc7e4, cp949: 0xc0f7},
		lookupItem{ucs2: 0xc7e5, cp949: 0xa067},
		lookupItem{ucs2: 0xc7e6, cp949: 0xa068},
		lookupItem{ucs2: 0xc7e7, cp949: 0xa069},
		lookupItem{ucs2: 0xc7e8, cp949: 0xc0f8},
		lookupItem{ucs2: 0xc7e9, cp949: 0xa06a},
		lookupItem{ucs2: 0xc7ea, cp949: 0xa06b},
		lookupItem{ucs2: 0xc7eb, cp949: 0xa06c},
		lookupItem{ucs2: 0xc7ec, cp949: 0xc0f9},
		lookupItem{ucs2: 0xc7ed, cp949: 0xa06d},
		lookupItem{ucs2: 0xc7ee, cp949: 0xa06e},
		lookupItem{ucs2: 0xc7ef, cp949: 0xa06f},
		lookupItem{ucs2: 0xc7f0, cp949: 0xa070},
		lookupItem{ucs2: 0xc7f1, cp949: 0xa071},
		lookupItem{ucs2: 0xc7f2, cp949: 0xa072},
		lookupItem{ucs2: 0xc7f3, cp949: 0xa073},
		lookupItem{ucs2: 0xc7f4, cp949: 0xa074},
		lookupItem{ucs2: 0xc7f5, cp949: 0xa075},
		lookupItem{ucs2: 0xc7f6, cp949: 0xa076},
		lookupItem{ucs2: 0xc7f7, cp949: 0xa077},
		lookupItem{ucs2: 0xc7f8, cp949: 0xa078},
		lookupItem{ucs2: 0xc7f9, cp949: 0xa079},
		lookupItem{ucs2: 0xc7fa, cp949: 0xa07a},
		lookupItem{ucs2: 0xc7fb, cp949: 0xa081},
		lookupItem{ucs2: 0xc7fc, cp949: 0xa082},
		lookupItem{ucs2: 0xc7fd, cp949: 0xa083},
		lookupItem{ucs2: 0xc7fe, cp949: 0xa084},
		lookupItem{ucs2: 0xc7ff, cp949: 0xa085},
		lookupItem{ucs2: 0xc800, cp949: 0xc0fa},
		lookupItem{ucs2: 0xc801, cp949: 0xc0fb},
		lookupItem{ucs2: 0xc802, cp949: 0xa086},
		lookupItem{ucs2: 0xc803, cp949: 0xa087},
		lookupItem{ucs2: 0xc804, cp949: 0xc0fc},
		lookupItem{ucs2: 0xc805, cp949: 0xa088},
		lookupItem{ucs2: 0xc806, cp949: 0xa089},
		lookupItem{ucs2: 0xc807, cp949: 0xa08a},
		lookupItem{ucs2: 0xc808, cp949: 0xc0fd},
		lookupItem{ucs2: 0xc809, cp949: 0xa08b},
		lookupItem{ucs2: 0xc80a, cp949: 0xc0fe},
		lookupItem{ucs2: 0xc80b, cp949: 0xa08c},
		lookupItem{ucs2: 0xc80c, cp949: 0xa08d},
		lookupItem{ucs2: 0xc80d, cp949: 0xa08e},
		lookupItem{ucs2: 0xc80e, cp949: 0xa08f},
		lookupItem{ucs2: 0xc80f, cp949: 0xa090},
		lookupItem{ucs2: 0xc810, cp949: 0xc1a1},
		lookupItem{ucs2: 0xc811, cp949: 0xc1a2},
		lookupItem{ucs2: 0xc812, cp949: 0xa091},
		lookupItem{ucs2: 0xc813, cp949: 0xc1a3},
		lookupItem{ucs2: 0xc814, cp949: 0xa092},
		lookupItem{ucs2: 0xc815, cp949: 0xc1a4},
		lookupItem{ucs2: 0xc816, cp949: 0xc1a5},
		lookupItem{ucs2: 0xc817, cp949: 0xa093},
		lookupItem{ucs2: 0xc818, cp949: 0xa094},
		lookupItem{ucs2: 0xc819, cp949: 0xa095},
		lookupItem{ucs2: 0xc81a, cp949: 0xa096},
		lookupItem{ucs2: 0xc81b, cp949: 0xa097},
		lookupItem{ucs2: 0xc81c, cp949: 0xc1a6},
		lookupItem{ucs2: 0xc81d, cp949: 0xc1a7},
		lookupItem{ucs2: 0xc81e, cp949: 0xa098},
		lookupItem{ucs2: 0xc81f, cp949: 0xa099},
		lookupItem{ucs2: 0xc820, cp949: 0xc1a8},
		lookupItem{ucs2: 0xc821, cp949: 0xa09a},
		lookupItem{ucs2: 0xc822, cp949: 0xa09b},
		lookupItem{ucs2: 0xc823, cp949: 0xa09c},
		lookupItem{ucs2: 0xc824, cp949: 0xc1a9},
		lookupItem{ucs2: 0xc825, cp949: 0xa09d},
		lookupItem{ucs2: 0xc826, cp949: 0xa09e},
		lookupItem{ucs2: 0xc827, cp949: 0xa09f},
		lookupItem{ucs2: 0xc828, cp949: 0xa0a0},
		lookupItem{ucs2: 0xc829, cp949: 0xa0a1},
		lookupItem{ucs2: 0xc82a, cp949: 0xa0a2},
		lookupItem{ucs2: 0xc82b, cp949: 0xa0a3},
		lookupItem{ucs2: 0xc82c, cp949: 0xc1aa},
		lookupItem{ucs2: 0xc82d, cp949: 0xc1ab},
		lookupItem{ucs2: 0xc82e, cp949: 0xa0a4},
		lookupItem{ucs2: 0xc82f, cp949: 0xc1ac},
		lookupItem{ucs2: 0xc830, cp949: 0xa0a5},
		lookupItem{ucs2: 0xc831, cp949: 0xc1ad},
		lookupItem{ucs2: 0xc832, cp949: 0xa0a6},
		lookupItem{ucs2: 0xc833, cp949: 0xa0a7},
		lookupItem{ucs2: 0xc834, cp949: 0xa0a8},
		lookupItem{ucs2: 0xc835, cp949: 0xa0a9},
		lookupItem{ucs2: 0xc836, cp949: 0xa0aa},
		lookupItem{ucs2: 0xc837, cp949: 0xa0ab},
		lookupItem{ucs2: 0xc838, cp949: 0xc1ae},
		lookupItem{ucs2: 0xc839, cp949: 0xa0ac},
		lookupItem{ucs2: 0xc83a, cp949: 0xa0ad},
		lookupItem{ucs2: 0xc83b, cp949: 0xa0ae},
		lookupItem{ucs2: 0xc83c, cp949: 0xc1af},
		lookupItem{ucs2: 0xc83d, cp949: 0xa0af},
		lookupItem{ucs2: 0xc83e, cp949: 0xa0b0},
		lookupItem{ucs2: 0xc83f, cp949: 0xa0b1},
		lookupItem{ucs2: 0xc840, cp949: 0xc1b0},
		lookupItem{ucs2: 0xc841, cp949: 0xa0b2},
".
Definition text_cp949_lookup_to_051 : string :=
"		lookupItem{ucs2: 0xc842, cp949: 0xa0b3},
		lookupItem{ucs2: 0xc843, cp949: 0xa0b4},
		lookupItem{ucs2: 0xc844, cp949: 0xa0b5},
		lookupItem{ucs2: 0xc845, cp949: 0xa0b6},
		lookupItem{ucs2: 0xc846, cp949: 0xa0b7},
		lookupItem{ucs2: 0xc847, cp949: 0xa0b8},
		lookupItem{ucs2: 0xc848, cp949: 0xc1b1},
		lookupItem{ucs2: 0xc849, cp949: 0xc1b2},
		lookupItem{ucs2: 0xc84a, cp949: 0xa0b9},
		lookupItem{ucs2: 0xc84b, cp949: 0xa0ba},
		lookupItem{ucs2: 0xc84c, cp949: 0xc1b3},
		lookupItem{ucs2: 0xc84d, cp949: 0xc1b4},
		lookupItem{ucs2: 0xc84e, cp949: 0xa0bb},
		lookupItem{ucs2: 0xc84f, cp949: 0xa0bc},
		lookupItem{ucs2: 0xc850, cp949: 0xa0bd},
		lookupItem{ucs2: 0xc851, cp949: 0xa0be},
		lookupItem{ucs2: 0xc852, cp949: 0xa0bf},
		lookupItem{ucs2: 0xc853, cp949: 0xa0c0},
		lookupItem{ucs2: 0xc854, cp949: 0xc1b5},
		lookupItem{ucs2: 0xc855, cp949: 0xa0c1},
		lookupItem{ucs2: 0xc856, cp949: 0xa0c2},
		lookupItem{ucs2: 0xc857, cp949: 0xa0c3},
		lookupItem{ucs2: 0xc858, cp949: 0xa0c4},
		lookupItem{ucs2: 0xc859, cp949: 0xa0c5},
		lookupItem{ucs2: 0xc85a, cp949: 0xa0c6},
		lookupItem{ucs2: 0xc85b, cp949: 0xa0c7},
		lookupItem{ucs2: 0xc85c, cp949: 0xa0c8},
		lookupItem{ucs2: 0xc85d, cp949: 0xa0c9},
		lookupItem{ucs2: 0xc85e, cp949: 0xa0ca},
		lookupItem{ucs2: 0xc85f, cp949: 0xa0cb},
		lookupItem{ucs2: 0xc860, cp949: 0xa0cc},
		lookupItem{ucs2: 0xc861, cp949: 0xa0cd},
		lookupItem{ucs2: 0xc862, cp949: 0xa0ce},
		lookupItem{ucs2: 0xc863, cp949: 0xa0cf},
		lookupItem{ucs2: 0xc864, cp949: 0xa0d0},
		lookupItem{ucs2: 0xc865, cp949: 0xa0d1},
		lookupItem{ucs2: 0xc866, cp949: 0xa0d2},
		lookupItem{ucs2: 0xc867, cp949: 0xa0d3},
		lookupItem{ucs2: 0xc868, cp949: 0xa0d4},
		lookupItem{ucs2: 0xc869, cp949: 0xa0d5},
		lookupItem{ucs2: 0xc86a, cp949: 0xa0d6},
		lookupItem{ucs2: 0xc86b, cp949: 0xa0d7},
		lookupItem{ucs2: 0xc86c, cp949: 0xa0d8},
		lookupItem{ucs2: 0xc86d, cp949: 0xa0d9},
		lookupItem{ucs2: 0xc86e, cp949: 0xa0da},
		lookupItem{ucs2: 0xc86f, cp949: 0xa0db},
		lookupItem{ucs2: 0xc870, cp949: 0xc1b6},
		lookupItem{ucs2: 0xc871, cp949: 0xc1b7},
		lookupItem{ucs2: 0xc872, cp949: 0xa0dc},
		lookupItem{ucs2: 0xc873, cp949: 0xa0dd},
		lookupItem{ucs2: 0xc874, cp949: 0xc1b8},
		lookupItem{ucs2: 0xc875, cp949: 0xa0de},
		lookupItem{ucs2: 0xc876, cp949: 0xa0df},
		lookupItem{ucs2: 0xc877, cp949: 0xa0e0},
		lookupItem{ucs2: 0xc878, cp949: 0xc1b9},
		lookupItem{ucs2: 0xc879, cp949: 0xa0e1},
		lookupItem{ucs2: 0xc87a, cp949: 0xc1ba},
		lookupItem{ucs2: 0xc87b, cp949: 0xa0e2},
		lookupItem{ucs2: 0xc87c, cp949: 0xa0e3},
		lookupItem{ucs2: 0xc87d, cp949: 0xa0e4},
		lookupItem{ucs2: 0xc87e, cp949: 0xa0e5},
		lookupItem{ucs2: 0xc87f, cp949: 0xa0e6},
		lookupItem{ucs2: 0xc880, cp949: 0xc1bb},
		lookupItem{ucs2: 0xc881, cp949: 0xc1bc},
		lookupItem{ucs2: 0xc882, cp949: 0xa0e7},
		lookupItem{ucs2: 0xc883, cp949: 0xc1bd},
		lookupItem{ucs2: 0xc884, cp949: 0xa0e8},
		lookupItem{ucs2: 0xc885, cp949: 0xc1be},
		lookupItem{ucs2: 0xc886, cp949: 0xc1bf},
		lookupItem{ucs2: 0xc887, cp949: 0xc1c0},
		lookupItem{ucs2: 0xc888, cp949: 0xa0e9},
		lookupItem{ucs2: 0xc889, cp949: 0xa0ea},
		lookupItem{ucs2: 0xc88a, cp949: 0xa0eb},
		lookupItem{ucs2: 0xc88b, cp949: 0xc1c1},
		lookupItem{ucs2: 0xc88c, cp949: 0xc1c2},
		lookupItem{ucs2: 0xc88d, cp949: 0xc1c3},
		lookupItem{ucs2: 0xc88e, cp949: 0xa0ec},
		lookupItem{ucs2: 0xc88f, cp949: 0xa0ed},
		lookupItem{ucs2: 0xc890, cp949: 0xa0ee},
		lookupItem{ucs2: 0xc891, cp949: 0xa0ef},
		lookupItem{ucs2: 0xc892, cp949: 0xa0f0},
		lookupItem{ucs2: 0xc893, cp949: 0xa0f1},
		lookupItem{ucs2: 0xc894, cp949: 0xc1c4},
		lookupItem{ucs2: 0xc895, cp949: 0xa0f2},
		lookupItem{ucs2: 0xc896, cp949: 0xa0f3},
		lookupItem{ucs2: 0xc897, cp949: 0xa0f4},
		lookupItem{ucs2: 0xc898, cp949: 0xa0f5},
		lookupItem{ucs2: 0xc899, cp949: 0xa0f6},
		lookupItem{ucs2: 0xc89a, cp949: 0xa0f7},
		lookupItem{ucs2: 0xc89b, cp949: 0xa0f8},
		lookupItem{ucs2: 0xc89c, cp949: 0xa0f9},
		lookupItem{ucs2: 0xc89d, cp949: 0xc1c5},
		lookupItem{ucs2: 0xc89e, cp949: 0xa0fa},
		lookupItem{ucs2: 0xc89f, cp949: 0xc1c6},
		lookupItem{ucs2: 0xc8a0, cp949: 0xa0fb},
		lookupItem{ucs2: 0xc8a1, cp949: 0xc1c7},
		lookupItem{ucs2: 0xc8a2, cp949: 0xa0fc},
		lookupItem{ucs2: 0xc8a3, cp949: 0xa0fd},
		lookupItem{ucs2: 0xc8a4, cp949: 0xa0fe},
		lookupItem{ucs2: 0xc8a5, cp949: 0xa141},
		lookupItem{ucs2: 0xc8a6, cp949: 0xa142},
		lookupItem{ucs2: 0xc8a7, cp949: 0xa143},
		lookupItem{ucs2: 0xc8a8, cp949: 0xc1c8},
		lookupItem{ucs2: 0xc8a9, cp949: 0xa144},
		lookupItem{ucs2: 0xc8aa, cp949: 0xa145},
		lookupItem{ucs2: 0xc8ab, cp949: 0xa146},
		lookupItem{ucs2: 0xc8ac, cp949: 0xa147},
		lookupItem{ucs2: 0xc8ad, cp949: 0xa148},
		lookupItem{ucs2: 0xc8ae, cp949: 0xa149},
		lookupItem{ucs2: 0xc8af, cp949: 0xa14a},
		lookupItem{ucs2: 0xc8b0, cp949: 0xa14b},
		lookupItem{ucs2: 0xc8b1, cp949: 0xa14c},
		lookupItem{ucs2: 0xc8b2, cp949: 0xa14d},
		lookupItem{ucs2: 0xc8b3, cp949: 0xa14e},
		lookupItem{ucs2: 0xc8b4, cp949: 0xa14f},
		lookupItem{ucs2: 0xc8b5, cp949: 0xa150},
		lookupItem{ucs2: 0xc8b6, cp949: 0xa151},
		lookupItem{ucs2: 0xc8b7, cp949: 0xa152},
		lookupItem{ucs2: 0xc8b8, cp949: 0xa153},
		lookupItem{ucs2: 0xc8b9, cp949: 0xa154},
		lookupItem{ucs2: 0xc8ba, cp949: 0xa155},
		lookupItem{ucs2: 0xc8bb, cp949: 0xa156},
		lookupItem{ucs2: 0xc8bc, cp949: 0xc1c9},
		lookupItem{ucs2: 0xc8bd, cp949: 0xc1ca},
		lookupItem{ucs2: 0xc8be, cp949: 0xa157},
		lookupItem{ucs2: 0xc8bf, cp949: 0xa158},
		lookupItem{ucs2: 0xc8c0, cp949: 0xa159},
		lookupItem{ucs2: 0xc8c1, cp949: 0xa15a},
		lookupItem{ucs2: 0xc8c2, cp949: 0xa161},
		lookupItem{ucs2: 0xc8c3, cp949: 0xa162},
		lookupItem{ucs2: 0xc8c4, cp949: 0xc1cb},
		lookupItem{ucs2: 0xc8c5, cp949: 0xa163},
		lookupItem{ucs2: 0xc8c6, cp949: 0xa164},
		lookupItem{ucs2: 0xc8c7, cp949: 0xa165},
		lookupItem{ucs2: 0xc8c8, cp949: 0xc1cc},
		lookupItem{ucs2: 0xc8c9, cp949: 0xa166},
		lookupItem{ucs2: 0xc8ca, cp949: 0xa167},
		lookupItem{ucs2: 0xc8cb, cp949: 0xa168},
		lookupItem{ucs2: 0xc8cc, cp949: 0xc1cd},
		lookupItem{ucs2: 0xc8cd, cp949: 0xa169},
		lookupItem{ucs2: 0xc8ce, cp949: 0xa16a},
		lookupItem{ucs2: 0xc8cf, cp949: 0xa16b},
		lookupItem{ucs2: 0xc8d0, cp949: 0xa16c},
		lookupItem{ucs2: 0xc8d1, cp949: 0xa16d},
		lookupItem{ucs2: 0xc8d2, cp949: 0xa16e},
		lookupItem{ucs2: 0xc8d3, cp949: 0xa16f},
		lookupItem{ucs2: 0xc8d4, cp949: 0xc1ce},
		lookupItem{ucs2: 0xc8d5, cp949: 0xc1cf},
		lookupItem{ucs2: 0xc8d6, cp949: 0xa170},
		lookupItem{ucs2: 0xc8d7, cp949: 0xc1d0},
		lookupItem{ucs2: 0xc8d8, cp949: 0xa171},
		lookupItem{ucs2: 0xc8d9, cp949: 0xc1d1},
		lookupItem{ucs2: 0xc8da, cp949: 0xa172},
		lookupItem{ucs2: 0xc8db, cp949: 0xa173},
		lookupItem{ucs2: 0xc8dc, cp949: 0xa174},
		lookupItem{ucs2: 0xc8dd, cp949: 0xa175},
		lookupItem{ucs2: 0xc8de, cp949: 0xa176},
		lookupItem{ucs2: 0xc8df, cp949: 0xa177},
		lookupItem{ucs2: 0xc8e0, cp949: 0xc1d2},
		lookupItem{ucs2: 0xc8e1, cp949: 0xc1d3},
		lookupItem{ucs2: 0xc8e2, cp949: 0xa178},
		lookupItem{ucs2: 0xc8e3, cp949: 0xa179},
		lookupItem{ucs2: 0xc8e4, cp949: 0xc1d4},
		lookupItem{ucs2: 0xc8e5, cp949: 0xa17a},
		lookupItem{ucs2: 0xc8e6, cp949: 0xa181},
		lookupItem{ucs2: 0xc8e7, cp949: 0xa182},
		lookupItem{ucs2: 0xc8e8, cp949: 0xa183},
		lookupItem{ucs2: 0xc8e9, cp949: 0xa184},
		lookupItem{ucs2: 0xc8ea, cp949: 0xa185},
		lookupItem{ucs2: 0xc8eb, cp949: 0xa186},
		lookupItem{ucs2: 0xc8ec, cp949: 0xa187},
		lookupItem{ucs2: 0xc8ed, cp949: 0xa188},
		lookupItem{ucs2: 0xc8ee, cp949: 0xa189},
		lookupItem{ucs2: 0xc8ef, cp949: 0xa18a},
		lookupItem{ucs2: 0xc8f0, cp949: 0xa18b},
		lookupItem{ucs2: 0xc8f1, cp949: 0xa18c},
		lookupItem{ucs2: 0xc8f2, cp949: 0xa18d},
		lookupItem{ucs2: 0xc8f3, cp949: 0xa18e},
		lookupItem{ucs2: 0xc8f4, cp949: 0xa18f},
		lookupItem{ucs2: 0xc8f5, cp949: 0xc1d5},
		lookupItem{ucs2: 0xc8f6, cp949: 0xa190},
		lookupItem{ucs2: 0xc8f7, cp949: 0xa191},
		lookupItem{ucs2: 0xc8f8, cp949: 0xa192},
		lookupItem{ucs2: 0xc8f9, cp949: 0xa193},
		lookupItem{ucs2: 0xc8fa, cp949: 0xa194},
		lookupItem{ucs2: 0xc8fb, cp949: 0xa195},
		lookupItem{ucs2: 0xc8fc, cp949: 0xc1d6},
		lookupItem{ucs2: 0xc8fd, cp949: 0xc1d7},
		lookupItem{ucs2: 0xc8fe, cp949: 0xa196},
		lookupItem{ucs2: 0xc8ff, cp949: 0xa197},
		lookupItem{ucs2: 0xc900, cp949: 0xc1d8},
		lookupItem{ucs2: 0xc901, cp949: 0xa198},
		lookupItem{ucs2: 0xc902, cp949: 0xa199},
		lookupItem{ucs2: 0xc903, cp949: 0xa19a},
		lookupItem{ucs2: 0xc904, cp949: 0xc1d9},
		lookupItem{ucs2: 0xc905, cp949: 0xc1da},
		lookupItem{ucs2: 0xc906, cp949: 0xc1db},
		lookupItem{ucs2: 0xc907, cp949: 0xa19b},
		lookupItem{ucs2: 0xc908, cp949: 0xa19c},
		lookupItem{ucs2: 0xc909, cp949: 0xa19d},
		lookupItem{ucs2: 0xc90a, cp949: 0xa19e},
		lookupItem{ucs2: 0xc90b, cp949: 0xa19f},
		lookupItem{ucs2: 0xc90c, cp949: 0xc1dc},
		lookupItem{ucs2: 0xc90d, cp949: 0xc1dd},
		lookupItem{ucs2: 0xc90e, cp949: 0xa1a0},
		lookupItem{ucs2: 0xc90f, cp949: 0xc1de},
		lookupItem{ucs2: 0xc910, cp949: 0xa241},
		lookupItem{ucs2: 0xc911, cp949: 0xc1df},
		lookupItem{ucs2: 0xc912, cp949: 0xa242},
		lookupItem{ucs2: 0xc913, cp949: 0xa243},
		lookupItem{ucs2: 0xc914, cp949: 0xa244},
		lookupItem{ucs2: 0xc915, cp949: 0xa245},
		lookupItem{ucs2: 0xc916, cp949: 0xa246},
		lookupItem{ucs2: 0xc917, cp949: 0xa247},
		lookupItem{ucs2: 0xc918, cp949: 0xc1e0},
		lookupItem{ucs2: 0xc919, cp949: 0xa248},
		lookupItem{ucs2: 0xc91a, cp949: 0xa249},
		lookupItem{ucs2: 0xc91b, cp949: 0xa24a},
		lookupItem{ucs2: 0xc91c, cp949: 0xa24b},
		lookupItem{ucs2: 0xc91d, cp949: 0xa24c},
		lookupItem{ucs2: 0xc91e, cp949: 0xa24d},
		lookupItem{ucs2: 0xc91f, cp949: 0xa24e},
		lookupItem{ucs2: 0xc920, cp949: 0xa24f},
		lookupItem{ucs2: 0xc921, cp949: 0xa250},
		lookupItem{ucs2: 0xc922, cp949: 0xa251},
		lookupItem{ucs2: 0xc923, cp949: 0xa252},
		lookupItem{ucs2: 0xc924, cp949: 0xa253},
		lookupItem{ucs2: 0xc925, cp949: 0xa254},
		lookupItem{ucs2: 0xc926, cp949: 0xa255},
		lookupItem{ucs2: 0xc927, cp949: 0xa256},
		lookupItem{ucs2: 0xc928, cp949: 0xa257},
		lookupItem{ucs2: 0xc929, cp949: 0xa258},
		lookupItem{ucs2: 0xc92a, cp949: 0xa259},
		lookupItem{ucs2: 0xc92b, cp949: 0xa25a},
		lookupItem{ucs2: 0xc92c, cp949: 0xc1e1},
		lookupItem{ucs2: 0xc92d, cp949: 0xa261},
		lookupItem{ucs2: 0xc92e, cp949: 0xa262},
		lookupItem{ucs2: 0xc92f, cp949: 0xa263},
		lookupItem{ucs2: 0xc930, cp949: 0xa264},
		lookupItem{ucs2: 0xc931, cp949: 0xa265},
		lookupItem{ucs2: 0xc932, cp949: 0xa266},
		lookupItem{ucs2: 0xc933, cp949: 0xa267},
		lookupItem{ucs2: 0xc934, cp949: 0xc1e2},
		lookupItem{ucs2: 0xc935, cp949: 0xa268},
		lookupItem{ucs2: 0xc936, cp949: 0xa269},
		lookupItem{ucs2: 0xc937, cp949: 0xa26a},
		lookupItem{ucs2: 0xc938, cp949: 0xa26b},
		lookupItem{ucs2: 0xc939, cp949: 0xa26c},
		lookupItem{ucs2: 0xc93a, cp949: 0xa26d},
		lookupItem{ucs2: 0xc93b, cp949: 0xa26e},
".
Definition text_cp949_lookup_to_052 : string :=
"		lookupItem{ucs2: 0xc93c, cp949: 0xa26f},
		lookupItem{ucs2: 0xc93d, cp949: 0xa270},
		lookupItem{ucs2: 0xc93e, cp949: 0xa271},
		lookupItem{ucs2: 0xc93f, cp949: 0xa272},
		lookupItem{ucs2: 0xc940, cp949: 0xa273},
		lookupItem{ucs2: 0xc941, cp949: 0xa274},
		lookupItem{ucs2: 0xc942, cp949: 0xa275},
		lookupItem{ucs2: 0xc943, cp949: 0xa276},
		lookupItem{ucs2: 0xc944, cp949: 0xa277},
		lookupItem{ucs2: 0xc945, cp949: 0xa278},
		lookupItem{ucs2: 0xc946, cp949: 0xa279},
		lookupItem{ucs2: 0xc947, cp949: 0xa27a},
		lookupItem{ucs2: 0xc948, cp949: 0xa281},
		lookupItem{ucs2: 0xc949, cp949: 0xa282},
		lookupItem{ucs2: 0xc94a, cp949: 0xa283},
		lookupItem{ucs2: 0xc94b, cp949: 0xa284},
		lookupItem{ucs2: 0xc94c, cp949: 0xa285},
		lookupItem{ucs2: 0xc94d, cp949: 0xa286},
		lookupItem{ucs2: 0xc94e, cp949: 0xa287},
		lookupItem{ucs2: 0xc94f, cp949: 0xa288},
		lookupItem{ucs2: 0xc950, cp949: 0xc1e3},
		lookupItem{ucs2: 0xc951, cp949: 0xc1e4},
		lookupItem{ucs2: 0xc952, cp949: 0xa289},
		lookupItem{ucs2: 0xc953, cp949: 0xa28a},
		lookupItem{ucs2: 0xc954, cp949: 0xc1e5},
		lookupItem{ucs2: 0xc955, cp949: 0xa28b},
		lookupItem{ucs2: 0xc956, cp949: 0xa28c},
		lookupItem{ucs2: 0xc957, cp949: 0xa28d},
		lookupItem{ucs2: 0xc958, cp949: 0xc1e6},
		lookupItem{ucs2: 0xc959, cp949: 0xa28e},
		lookupItem{ucs2: 0xc95a, cp949: 0xa28f},
		lookupItem{ucs2: 0xc95b, cp949: 0xa290},
		lookupItem{ucs2: 0xc95c, cp949: 0xa291},
		lookupItem{ucs2: 0xc95d, cp949: 0xa292},
		lookupItem{ucs2: 0xc95e, cp949: 0xa293},
		lookupItem{ucs2: 0xc95f, cp949: 0xa294},
		lookupItem{ucs2: 0xc960, cp949: 0xc1e7},
		lookupItem{ucs2: 0xc961, cp949: 0xc1e8},
		lookupItem{ucs2: 0xc962, cp949: 0xa295},
		lookupItem{ucs2: 0xc963, cp949: 0xc1e9},
		lookupItem{ucs2: 0xc964, cp949: 0xa296},
		lookupItem{ucs2: 0xc965, cp949: 0xa297},
		lookupItem{ucs2: 0xc966, cp949: 0xa298},
		lookupItem{ucs2: 0xc967, cp949: 0xa299},
		lookupItem{ucs2: 0xc968, cp949: 0xa29a},
		lookupItem{ucs2: 0xc969, cp949: 0xa29b},
		lookupItem{ucs2: 0xc96a, cp949: 0xa29c},
		lookupItem{ucs2: 0xc96b, cp949: 0xa29d},
		lookupItem{ucs2: 0xc96c, cp949: 0xc1ea},
		lookupItem{ucs2: 0xc96d, cp949: 0xa29e},
		lookupItem{ucs2: 0xc96e, cp949: 0xa29f},
		lookupItem{ucs2: 0xc96f, cp949: 0xa2a0},
		lookupItem{ucs2: 0xc970, cp949: 0xc1eb},
		lookupItem{ucs2: 0xc971, cp949: 0xa341},
		lookupItem{ucs2: 0xc972, cp949: 0xa342},
		lookupItem{ucs2: 0xc973, cp949: 0xa343},
		lookupItem{ucs2: 0xc974, cp949: 0xc1ec},
		lookupItem{ucs2: 0xc975, cp949: 0xa344},
		lookupItem{ucs2: 0xc976, cp949: 0xa345},
		lookupItem{ucs2: 0xc977, cp949: 0xa346},
		lookupItem{ucs2: 0xc978, cp949: 0xa347},
		lookupItem{ucs2: 0xc979, cp949: 0xa348},
		lookupItem{ucs2: 0xc97a, cp949: 0xa349},
		lookupItem{ucs2: 0xc97b, cp949: 0xa34a},
		lookupItem{ucs2: 0xc97c, cp949: 0xc1ed},
		lookupItem{ucs2: 0xc97d, cp949: 0xa34b},
		lookupItem{ucs2: 0xc97e, cp949: 0xa34c},
		lookupItem{ucs2: 0xc97f, cp949: 0xa34d},
		lookupItem{ucs2: 0xc980, cp949: 0xa34e},
		lookupItem{ucs2: 0xc981, cp949: 0xa34f},
		lookupItem{ucs2: 0xc982, cp949: 0xa350},
		lookupItem{ucs2: 0xc983, cp949: 0xa351},
		lookupItem{ucs2: 0xc984, cp949: 0xa352},
		lookupItem{ucs2: 0xc985, cp949: 0xa353},
		lookupItem{ucs2: 0xc986, cp949: 0xa354},
		lookupItem{ucs2: 0xc987, cp949: 0xa355},
		lookupItem{ucs2: 0xc988, cp949: 0xc1ee},
		lookupItem{ucs2: 0xc989, cp949: 0xc1ef},
		lookupItem{ucs2: 0xc98a, cp949: 0xa356},
		lookupItem{ucs2: 0xc98b, cp949: 0xa357},
		lookupItem{ucs2: 0xc98c, cp949: 0xc1f0},
		lookupItem{ucs2: 0xc98d, cp949: 0xa358},
		lookupItem{ucs2: 0xc98e, cp949: 0xa359},
		lookupItem{ucs2: 0xc98f, cp949: 0xa35a},
		lookupItem{ucs2: 0xc990, cp949: 0xc1f1},
		lookupItem{ucs2: 0xc991, cp949: 0xa361},
		lookupItem{ucs2: 0xc992, cp949: 0xa362},
		lookupItem{ucs2: 0xc993, cp949: 0xa363},
		lookupItem{ucs2: 0xc994, cp949: 0xa364},
		lookupItem{ucs2: 0xc995, cp949: 0xa365},
		lookupItem{ucs2: 0xc996, cp949: 0xa366},
		lookupItem{ucs2: 0xc997, cp949: 0xa367},
		lookupItem{ucs2: 0xc998, cp949: 0xc1f2},
		lookupItem{ucs2: 0xc999, cp949: 0xc1f3},
		lookupItem{ucs2: 0xc99a, cp949: 0xa368},
		lookupItem{ucs2: 0xc99b, cp949: 0xc1f4},
		lookupItem{ucs2: 0xc99c, cp949: 0xa369},
		lookupItem{ucs2: 0xc99d, cp949: 0xc1f5},
		lookupItem{ucs2: 0xc99e, cp949: 0xa36a},
		lookupItem{ucs2: 0xc99f, cp949: 0xa36b},
		lookupItem{ucs2: 0xc9a0, cp949: 0xa36c},
		lookupItem{ucs2: 0xc9a1, cp949: 0xa36d},
		lookupItem{ucs2: 0xc9a2, cp949: 0xa36e},
		lookupItem{ucs2: 0xc9a3, cp949: 0xa36f},
		lookupItem{ucs2: 0xc9a4, cp949: 0xa370},
		lookupItem{ucs2: 0xc9a5, cp949: 0xa371},
		lookupItem{ucs2: 0xc9a6, cp949: 0xa372},
		lookupItem{ucs2: 0xc9a7, cp949: 0xa373},
		lookupItem{ucs2: 0xc9a8, cp949: 0xa374},
		lookupItem{ucs2: 0xc9a9, cp949: 0xa375},
		lookupItem{ucs2: 0xc9aa, cp949: 0xa376},
		lookupItem{ucs2: 0xc9ab, cp949: 0xa377},
		lookupItem{ucs2: 0xc9ac, cp949: 0xa378},
		lookupItem{ucs2: 0xc9ad, cp949: 0xa379},
		lookupItem{ucs2: 0xc9ae, cp949: 0xa37a},
		lookupItem{ucs2: 0xc9af, cp949: 0xa381},
		lookupItem{ucs2: 0xc9b0, cp949: 0xa382},
		lookupItem{ucs2: 0xc9b1, cp949: 0xa383},
		lookupItem{ucs2: 0xc9b2, cp949: 0xa384},
		lookupItem{ucs2: 0xc9b3, cp949: 0xa385},
		lookupItem{ucs2: 0xc9b4, cp949: 0xa386},
		lookupItem{ucs2: 0xc9b5, cp949: 0xa387},
		lookupItem{ucs2: 0xc9b6, cp949: 0xa388},
		lookupItem{ucs2: 0xc9b7, cp949: 0xa389},
		lookupItem{ucs2: 0xc9b8, cp949: 0xa38a},
		lookupItem{ucs2: 0xc9b9, cp949: 0xa38b},
		lookupItem{ucs2: 0xc9ba, cp949: 0xa38c},
		lookupItem{ucs2: 0xc9bb, cp949: 0xa38d},
		lookupItem{ucs2: 0xc9bc, cp949: 0xa38e},
		lookupItem{ucs2: 0xc9bd, cp949: 0xa38f},
		lookupItem{ucs2: 0xc9be, cp949: 0xa390},
		lookupItem{ucs2: 0xc9bf, cp949: 0xa391},
		lookupItem{ucs2: 0xc9c0, cp949: 0xc1f6},
		lookupItem{ucs2: 0xc9c1, cp949: 0xc1f7},
		lookupItem{ucs2: 0xc9c2, cp949: 0xa392},
		lookupItem{ucs2: 0xc9c3, cp949: 0xa393},
		lookupItem{ucs2: 0xc9c4, cp949: 0xc1f8},
		lookupItem{ucs2: 0xc9c5, cp949: 0xa394},
		lookupItem{ucs2: 0xc9c6, cp949: 0xa395},
		lookupItem{ucs2: 0xc9c7, cp949: 0xc1f9},
		lookupItem{ucs2: 0xc9c8, cp949: 0xc1fa},
		lookupItem{ucs2: 0xc9c9, cp949: 0xa396},
		lookupItem{ucs2: 0xc9ca, cp949: 0xc1fb},
		lookupItem{ucs2: 0xc9cb, cp949: 0xa397},
		lookupItem{ucs2: 0xc9cc, cp949: 0xa398},
		lookupItem{ucs2: 0xc9cd, cp949: 0xa399},
		lookupItem{ucs2: 0xc9ce, cp949: 0xa39a},
		lookupItem{ucs2: 0xc9cf, cp949: 0xa39b},
		lookupItem{ucs2: 0xc9d0, cp949: 0xc1fc},
		lookupItem{ucs2: 0xc9d1, cp949: 0xc1fd},
		lookupItem{ucs2: 0xc9d2, cp949: 0xa39c},
		lookupItem{ucs2: 0xc9d3, cp949: 0xc1fe},
		lookupItem{ucs2: 0xc9d4, cp949: 0xa39d},
		lookupItem{ucs2: 0xc9d5, cp949: 0xc2a1},
		lookupItem{ucs2: 0xc9d6, cp949: 0xc2a2},
		lookupItem{ucs2: 0xc9d7, cp949: 0xa39e},
		lookupItem{ucs2: 0xc9d8, cp949: 0xa39f},
		lookupItem{ucs2: 0xc9d9, cp949: 0xc2a3},
		lookupItem{ucs2: 0xc9da, cp949: 0xc2a4},
		lookupItem{ucs2: 0xc9db, cp949: 0xa3a0},
		lookupItem{ucs2: 0xc9dc, cp949: 0xc2a5},
		lookupItem{ucs2: 0xc9dd, cp949: 0xc2a6},
		lookupItem{ucs2: 0xc9de, cp949: 0xa441},
		lookupItem{ucs2: 0xc9df, cp949: 0xa442},
		lookupItem{ucs2: 0xc9e0, cp949: 0xc2a7},
		lookupItem{ucs2: 0xc9e1, cp949: 0xa443},
		lookupItem{ucs2: 0xc9e2, cp949: 0xc2a8},
		lookupItem{ucs2: 0xc9e3, cp949: 0xa444},
		lookupItem{ucs2: 0xc9e4, cp949: 0xc2a9},
		lookupItem{ucs2: 0xc9e5, cp949: 0xa445},
		lookupItem{ucs2: 0xc9e6, cp949: 0xa446},
		lookupItem{ucs2: 0xc9e7, cp949: 0xc2aa},
		lookupItem{ucs2: 0xc9e8, cp949: 0xa447},
		lookupItem{ucs2: 0xc9e9, cp949: 0xa448},
		lookupItem{ucs2: 0xc9ea, cp949: 0xa449},
		lookupItem{ucs2: 0xc9eb, cp949: 0xa44a},
		lookupItem{ucs2: 0xc9ec, cp949: 0xc2ab},
		lookupItem{ucs2: 0xc9ed, cp949: 0xc2ac},
		lookupItem{ucs2: 0xc9ee, cp949: 0xa44b},
		lookupItem{ucs2: 0xc9ef, cp949: 0xc2ad},
		lookupItem{ucs2: 0xc9f0, cp949: 0xc2ae},
		lookupItem{ucs2: 0xc9f1, cp949: 0xc2af},
		lookupItem{ucs2: 0xc9f2, cp949: 0xa44c},
		lookupItem{ucs2: 0xc9f3, cp949: 0xa44d},
		lookupItem{ucs2: 0xc9f4, cp949: 0xa44e},
		lookupItem{ucs2: 0xc9f5, cp949: 0xa44f},
		lookupItem{ucs2: 0xc9f6, cp949: 0xa450},
		lookupItem{ucs2: 0xc9f7, cp949: 0xa451},
		lookupItem{ucs2: 0xc9f8, cp949: 0xc2b0},
		lookupItem{ucs2: 0xc9f9, cp949: 0xc2b1},
		lookupItem{ucs2: 0xc9fa, cp949: 0xa452},
		lookupItem{ucs2: 0xc9fb, cp949: 0xa453},
		lookupItem{ucs2: 0xc9fc, cp949: 0xc2b2},
		lookupItem{ucs2: 0xc9fd, cp949: 0xa454},
		lookupItem{ucs2: 0xc9fe, cp949: 0xa455},
		lookupItem{ucs2: 0xc9ff, cp949: 0xa456},
		lookupItem{ucs2: 0xca00, cp949: 0xc2b3},
		lookupItem{ucs2: 0xca01, cp949: 0xa457},
		lookupItem{ucs2: 0xca02, cp949: 0xa458},
		lookupItem{ucs2: 0xca03, cp949: 0xa459},
		lookupItem{ucs2: 0xca04, cp949: 0xa45a},
		lookupItem{ucs2: 0xca05, cp949: 0xa461},
		lookupItem{ucs2: 0xca06, cp949: 0xa462},
		lookupItem{ucs2: 0xca07, cp949: 0xa463},
		lookupItem{ucs2: 0xca08, cp949: 0xc2b4},
		lookupItem{ucs2: 0xca09, cp949: 0xc2b5},
		lookupItem{ucs2: 0xca0a, cp949: 0xa464},
		lookupItem{ucs2: 0xca0b, cp949: 0xc2b6},
		lookupItem{ucs2: 0xca0c, cp949: 0xc2b7},
		lookupItem{ucs2: 0xca0d, cp949: 0xc2b8},
		lookupItem{ucs2: 0xca0e, cp949: 0xa465},
		lookupItem{ucs2: 0xca0f, cp949: 0xa466},
		lookupItem{ucs2: 0xca10, cp949: 0xa467},
		lookupItem{ucs2: 0xca11, cp949: 0xa468},
		lookupItem{ucs2: 0xca12, cp949: 0xa469},
		lookupItem{ucs2: 0xca13, cp949: 0xa46a},
		lookupItem{ucs2: 0xca14, cp949: 0xc2b9},
		lookupItem{ucs2: 0xca15, cp949: 0xa46b},
		lookupItem{ucs2: 0xca16, cp949: 0xa46c},
		lookupItem{ucs2: 0xca17, cp949: 0xa46d},
		lookupItem{ucs2: 0xca18, cp949: 0xc2ba},
		lookupItem{ucs2: 0xca19, cp949: 0xa46e},
		lookupItem{ucs2: 0xca1a, cp949: 0xa46f},
		lookupItem{ucs2: 0xca1b, cp949: 0xa470},
		lookupItem{ucs2: 0xca1c, cp949: 0xa471},
		lookupItem{ucs2: 0xca1d, cp949: 0xa472},
		lookupItem{ucs2: 0xca1e, cp949: 0xa473},
		lookupItem{ucs2: 0xca1f, cp949: 0xa474},
		lookupItem{ucs2: 0xca20, cp949: 0xa475},
		lookupItem{ucs2: 0xca21, cp949: 0xa476},
		lookupItem{ucs2: 0xca22, cp949: 0xa477},
		lookupItem{ucs2: 0xca23, cp949: 0xa478},
		lookupItem{ucs2: 0xca24, cp949: 0xa479},
		lookupItem{ucs2: 0xca25, cp949: 0xa47a},
		lookupItem{ucs2: 0xca26, cp949: 0xa481},
		lookupItem{ucs2: 0xca27, cp949: 0xa482},
		lookupItem{ucs2: 0xca28, cp949: 0xa483},
		lookupItem{ucs2: 0xca29, cp949: 0xc2bb},
		lookupItem{ucs2: 0xca2a, cp949: 0xa484},
		lookupItem{ucs2: 0xca2b, cp949: 0xa485},
		lookupItem{ucs2: 0xca2c, cp949: 0xa486},
		lookupItem{ucs2: 0xca2d, cp949: 0xa487},
		lookupItem{ucs2: 0xca2e, cp949: 0xa488},
		lookupItem{ucs2: 0xca2f, cp949: 0xa489},
		lookupItem{ucs2: 0xca30, cp949: 0xa48a},
		lookupItem{ucs2: 0xca31, cp949: 0xa48b},
		lookupItem{ucs2: 0xca32, cp949: 0xa48c},
		lookupItem{ucs2: 0xca33, cp949: 0xa48d},
		lookupItem{ucs2: 0xca34, cp949: 0xa48e},
		lookupItem{ucs2: 0xca35, cp949: 0xa48f},
".
Definition text_cp949_lookup_to_053 : string :=
"		lookupItem{ucs2: 0xca36, cp949: 0xa490},
		lookupItem{ucs2: 0xca37, cp949: 0xa491},
		lookupItem{ucs2: 0xca38, cp949: 0xa492},
		lookupItem{ucs2: 0xca39, cp949: 0xa493},
		lookupItem{ucs2: 0xca3a, cp949: 0xa494},
		lookupItem{ucs2: 0xca3b, cp949: 0xa495},
		lookupItem{ucs2: 0xca3c, cp949: 0xa496},
		lookupItem{ucs2: 0xca3d, cp949: 0xa497},
		lookupItem{ucs2: 0xca3e, cp949: 0xa498},
		lookupItem{ucs2: 0xca3f, cp949: 0xa499},
		lookupItem{ucs2: 0xca40, cp949: 0xa49a},
		lookupItem{ucs2: 0xca41, cp949: 0xa49b},
		lookupItem{ucs2: 0xca42, cp949: 0xa49c},
		lookupItem{ucs2: 0xca43, cp949: 0xa49d},
		lookupItem{ucs2: 0xca44, cp949: 0xa49e},
		lookupItem{ucs2: 0xca45, cp949: 0xa49f},
		lookupItem{ucs2: 0xca46, cp949: 0xa4a0},
		lookupItem{ucs2: 0xca47, cp949: 0xa541},
		lookupItem{ucs2: 0xca48, cp949: 0xa542},
		lookupItem{ucs2: 0xca49, cp949: 0xa543},
		lookupItem{ucs2: 0xca4a, cp949: 0xa544},
		lookupItem{ucs2: 0xca4b, cp949: 0xa545},
		lookupItem{ucs2: 0xca4c, cp949: 0xc2bc},
		lookupItem{ucs2: 0xca4d, cp949: 0xc2bd},
		lookupItem{ucs2: 0xca4e, cp949: 0xa546},
		lookupItem{ucs2: 0xca4f, cp949: 0xa547},
		lookupItem{ucs2: 0xca50, cp949: 0xc2be},
		lookupItem{ucs2: 0xca51, cp949: 0xa548},
		lookupItem{ucs2: 0xca52, cp949: 0xa549},
		lookupItem{ucs2: 0xca53, cp949: 0xa54a},
		lookupItem{ucs2: 0xca54, cp949: 0xc2bf},
		lookupItem{ucs2: 0xca55, cp949: 0xa54b},
		lookupItem{ucs2: 0xca56, cp949: 0xa54c},
		lookupItem{ucs2: 0xca57, cp949: 0xa54d},
		lookupItem{ucs2: 0xca58, cp949: 0xa54e},
		lookupItem{ucs2: 0xca59, cp949: 0xa54f},
		lookupItem{ucs2: 0xca5a, cp949: 0xa550},
		lookupItem{ucs2: 0xca5b, cp949: 0xa551},
		lookupItem{ucs2: 0xca5c, cp949: 0xc2c0},
		lookupItem{ucs2: 0xca5d, cp949: 0xc2c1},
		lookupItem{ucs2: 0xca5e, cp949: 0xa552},
		lookupItem{ucs2: 0xca5f, cp949: 0xc2c2},
		lookupItem{ucs2: 0xca60, cp949: 0xc2c3},
		lookupItem{ucs2: 0xca61, cp949: 0xc2c4},
		lookupItem{ucs2: 0xca62, cp949: 0xa553},
		lookupItem{ucs2: 0xca63, cp949: 0xa554},
		lookupItem{ucs2: 0xca64, cp949: 0xa555},
		lookupItem{ucs2: 0xca65, cp949: 0xa556},
		lookupItem{ucs2: 0xca66, cp949: 0xa557},
		lookupItem{ucs2: 0xca67, cp949: 0xa558},
		lookupItem{ucs2: 0xca68, cp949: 0xc2c5},
		lookupItem{ucs2: 0xca69, cp949: 0xa559},
		lookupItem{ucs2: 0xca6a, cp949: 0xa55a},
		lookupItem{ucs2: 0xca6b, cp949: 0xa561},
		lookupItem{ucs2: 0xca6c, cp949: 0xa562},
		lookupItem{ucs2: 0xca6d, cp949: 0xa563},
		lookupItem{ucs2: 0xca6e, cp949: 0xa564},
		lookupItem{ucs2: 0xca6f, cp949: 0xa565},
		lookupItem{ucs2: 0xca70, cp949: 0xa566},
		lookupItem{ucs2: 0xca71, cp949: 0xa567},
		lookupItem{ucs2: 0xca72, cp949: 0xa568},
		lookupItem{ucs2: 0xca73, cp949: 0xa569},
		lookupItem{ucs2: 0xca74, cp949: 0xa56a},
		lookupItem{ucs2: 0xca75, cp949: 0xa56b},
		lookupItem{ucs2: 0xca76, cp949: 0xa56c},
		lookupItem{ucs2: 0xca77, cp949: 0xa56d},
		lookupItem{ucs2: 0xca78, cp949: 0xa56e},
		lookupItem{ucs2: 0xca79, cp949: 0xa56f},
		lookupItem{ucs2: 0xca7a, cp949: 0xa570},
		lookupItem{ucs2: 0xca7b, cp949: 0xa571},
		lookupItem{ucs2: 0xca7c, cp949: 0xa572},
		lookupItem{ucs2: 0xca7d, cp949: 0xc2c6},
		lookupItem{ucs2: 0xca7e, cp949: 0xa573},
		lookupItem{ucs2: 0xca7f, cp949: 0xa574},
		lookupItem{ucs2: 0xca80, cp949: 0xa575},
		lookupItem{ucs2: 0xca81, cp949: 0xa576},
		lookupItem{ucs2: 0xca82, cp949: 0xa577},
		lookupItem{ucs2: 0xca83, cp949: 0xa578},
		lookupItem{ucs2: 0xca84, cp949: 0xc2c7},
		lookupItem{ucs2: 0xca85, cp949: 0xa579},
		lookupItem{ucs2: 0xca86, cp949: 0xa57a},
		lookupItem{ucs2: 0xca87, cp949: 0xa581},
		lookupItem{ucs2: 0xca88, cp949: 0xa582},
		lookupItem{ucs2: 0xca89, cp949: 0xa583},
		lookupItem{ucs2: 0xca8a, cp949: 0xa584},
		lookupItem{ucs2: 0xca8b, cp949: 0xa585},
		lookupItem{ucs2: 0xca8c, cp949: 0xa586},
		lookupItem{ucs2: 0xca8d, cp949: 0xa587},
		lookupItem{ucs2: 0xca8e, cp949: 0xa588},
		lookupItem{ucs2: 0xca8f, cp949: 0xa589},
		lookupItem{ucs2: 0xca90, cp949: 0xa58a},
		lookupItem{ucs2: 0xca91, cp949: 0xa58b},
		lookupItem{ucs2: 0xca92, cp949: 0xa58c},
		lookupItem{ucs2: 0xca93, cp949: 0xa58d},
		lookupItem{ucs2: 0xca94, cp949: 0xa58e},
		lookupItem{ucs2: 0xca95, cp949: 0xa58f},
		lookupItem{ucs2: 0xca96, cp949: 0xa590},
		lookupItem{ucs2: 0xca97, cp949: 0xa591},
		lookupItem{ucs2: 0xca98, cp949: 0xc2c8},
		lookupItem{ucs2: 0xca99, cp949: 0xa592},
		lookupItem{ucs2: 0xca9a, cp949: 0xa593},
		lookupItem{ucs2: 0xca9b, cp949: 0xa594},
		lookupItem{ucs2: 0xca9c, cp949: 0xa595},
		lookupItem{ucs2: 0xca9d, cp949: 0xa596},
		lookupItem{ucs2: 0xca9e, cp949: 0xa597},
		lookupItem{ucs2: 0xca9f, cp949: 0xa598},
		lookupItem{ucs2: 0xcaa0, cp949: 0xa599},
		lookupItem{ucs2: 0xcaa1, cp949: 0xa59a},
		lookupItem{ucs2: 0xcaa2, cp949: 0xa59b},
		lookupItem{ucs2: 0xcaa3, cp949: 0xa59c},
		lookupItem{ucs2: 0xcaa4, cp949: 0xa59d},
		lookupItem{ucs2: 0xcaa5, cp949: 0xa59e},
		lookupItem{ucs2: 0xcaa6, cp949: 0xa59f},
		lookupItem{ucs2: 0xcaa7, cp949: 0xa5a0},
		lookupItem{ucs2: 0xcaa8, cp949: 0xa641},
		lookupItem{ucs2: 0xcaa9, cp949: 0xa642},
		lookupItem{ucs2: 0xcaaa, cp949: 0xa643},
		lookupItem{ucs2: 0xcaab, cp949: 0xa644},
		lookupItem{ucs2: 0xcaac, cp949: 0xa645},
		lookupItem{ucs2: 0xcaad, cp949: 0xa646},
		lookupItem{ucs2: 0xcaae, cp949: 0xa647},
		lookupItem{ucs2: 0xcaaf, cp949: 0xa648},
		lookupItem{ucs2: 0xcab0, cp949: 0xa649},
		lookupItem{ucs2: 0xcab1, cp949: 0xa64a},
		lookupItem{ucs2: 0xcab2, cp949: 0xa64b},
		lookupItem{ucs2: 0xcab3, cp949: 0xa64c},
		lookupItem{ucs2: 0xcab4, cp949: 0xa64d},
		lookupItem{ucs2: 0xcab5, cp949: 0xa64e},
		lookupItem{ucs2: 0xcab6, cp949: 0xa64f},
		lookupItem{ucs2: 0xcab7, cp949: 0xa650},
		lookupItem{ucs2: 0xcab8, cp949: 0xa651},
		lookupItem{ucs2: 0xcab9, cp949: 0xa652},
		lookupItem{ucs2: 0xcaba, cp949: 0xa653},
		lookupItem{ucs2: 0xcabb, cp949: 0xa654},
		lookupItem{ucs2: 0xcabc, cp949: 0xc2c9},
		lookupItem{ucs2: 0xcabd, cp949: 0xc2ca},
		lookupItem{ucs2: 0xcabe, cp949: 0xa655},
		lookupItem{ucs2: 0xcabf, cp949: 0xa656},
		lookupItem{ucs2: 0xcac0, cp949: 0xc2cb},
		lookupItem{ucs2: 0xcac1, cp949: 0xa657},
		lookupItem{ucs2: 0xcac2, cp949: 0xa658},
		lookupItem{ucs2: 0xcac3, cp949: 0xa659},
		lookupItem{ucs2: 0xcac4, cp949: 0xc2cc},
		lookupItem{ucs2: 0xcac5, cp949: 0xa65a},
		lookupItem{ucs2: 0xcac6, cp949: 0xa661},
		lookupItem{ucs2: 0xcac7, cp949: 0xa662},
		lookupItem{ucs2: 0xcac8, cp949: 0xa663},
		lookupItem{ucs2: 0xcac9, cp949: 0xa664},
		lookupItem{ucs2: 0xcaca, cp949: 0xa665},
		lookupItem{ucs2: 0xcacb, cp949: 0xa666},
		lookupItem{ucs2: 0xcacc, cp949: 0xc2cd},
		lookupItem{ucs2: 0xcacd, cp949: 0xc2ce},
		lookupItem{ucs2: 0xcace, cp949: 0xa667},
		lookupItem{ucs2: 0xcacf, cp949: 0xc2cf},
		lookupItem{ucs2: 0xcad0, cp949: 0xa668},
		lookupItem{ucs2: 0xcad1, cp949: 0xc2d0},
		lookupItem{ucs2: 0xcad2, cp949: 0xa669},
		lookupItem{ucs2: 0xcad3, cp949: 0xc2d1},
		lookupItem{ucs2: 0xcad4, cp949: 0xa66a},
		lookupItem{ucs2: 0xcad5, cp949: 0xa66b},
		lookupItem{ucs2: 0xcad6, cp949: 0xa66c},
		lookupItem{ucs2: 0xcad7, cp949: 0xa66d},
		lookupItem{ucs2: 0xcad8, cp949: 0xc2d2},
		lookupItem{ucs2: 0xcad9, cp949: 0xc2d3},
		lookupItem{ucs2: 0xcada, cp949: 0xa66e},
		lookupItem{ucs2: 0xcadb, cp949: 0xa66f},
		lookupItem{ucs2: 0xcadc, cp949: 0xa670},
		lookupItem{ucs2: 0xcadd, cp949: 0xa671},
		lookupItem{ucs2: 0xcade, cp949: 0xa672},
		lookupItem{ucs2: 0xcadf, cp949: 0xa673},
		lookupItem{ucs2: 0xcae0, cp949: 0xc2d4},
		lookupItem{ucs2: 0xcae1, cp949: 0xa674},
		lookupItem{ucs2: 0xcae2, cp949: 0xa675},
		lookupItem{ucs2: 0xcae3, cp949: 0xa676},
		lookupItem{ucs2: 0xcae4, cp949: 0xa677},
		lookupItem{ucs2: 0xcae5, cp949: 0xa678},
		lookupItem{ucs2: 0xcae6, cp949: 0xa679},
		lookupItem{ucs2: 0xcae7, cp949: 0xa67a},
		lookupItem{ucs2: 0xcae8, cp949: 0xa681},
		lookupItem{ucs2: 0xcae9, cp949: 0xa682},
		lookupItem{ucs2: 0xcaea, cp949: 0xa683},
		lookupItem{ucs2: 0xcaeb, cp949: 0xa684},
		lookupItem{ucs2: 0xcaec, cp949: 0xc2d5},
		lookupItem{ucs2: 0xcaed, cp949: 0xa685},
		lookupItem{ucs2: 0xcaee, cp949: 0xa686},
		lookupItem{ucs2: 0xcaef, cp949: 0xa687},
		lookupItem{ucs2: 0xcaf0, cp949: 0xa688},
		lookupItem{ucs2: 0xcaf1, cp949: 0xa689},
		lookupItem{ucs2: 0xcaf2, cp949: 0xa68a},
		lookupItem{ucs2: 0xcaf3, cp949: 0xa68b},
		lookupItem{ucs2: 0xcaf4, cp949: 0xc2d6},
		lookupItem{ucs2: 0xcaf5, cp949: 0xa68c},
		lookupItem{ucs2: 0xcaf6, cp949: 0xa68d},
		lookupItem{ucs2: 0xcaf7, cp949: 0xa68e},
		lookupItem{ucs2: 0xcaf8, cp949: 0xa68f},
		lookupItem{ucs2: 0xcaf9, cp949: 0xa690},
		lookupItem{ucs2: 0xcafa, cp949: 0xa691},
		lookupItem{ucs2: 0xcafb, cp949: 0xa692},
		lookupItem{ucs2: 0xcafc, cp949: 0xa693},
		lookupItem{ucs2: 0xcafd, cp949: 0xa694},
		lookupItem{ucs2: 0xcafe, cp949: 0xa695},
		lookupItem{ucs2: 0xcaff, cp949: 0xa696},
		lookupItem{ucs2: 0xcb00, cp949: 0xa697},
		lookupItem{ucs2: 0xcb01, cp949: 0xa698},
		lookupItem{ucs2: 0xcb02, cp949: 0xa699},
		lookupItem{ucs2: 0xcb03, cp949: 0xa69a},
		lookupItem{ucs2: 0xcb04, cp949: 0xa69b},
		lookupItem{ucs2: 0xcb05, cp949: 0xa69c},
		lookupItem{ucs2: 0xcb06, cp949: 0xa69d},
		lookupItem{ucs2: 0xcb07, cp949: 0xa69e},
		lookupItem{ucs2: 0xcb08, cp949: 0xc2d7},
		lookupItem{ucs2: 0xcb09, cp949: 0xa69f},
		lookupItem{ucs2: 0xcb0a, cp949: 0xa6a0},
		lookupItem{ucs2: 0xcb0b, cp949: 0xa741},
		lookupItem{ucs2: 0xcb0c, cp949: 0xa742},
		lookupItem{ucs2: 0xcb0d, cp949: 0xa743},
		lookupItem{ucs2: 0xcb0e, cp949: 0xa744},
		lookupItem{ucs2: 0xcb0f, cp949: 0xa745},
		lookupItem{ucs2: 0xcb10, cp949: 0xc2d8},
		lookupItem{ucs2: 0xcb11, cp949: 0xa746},
		lookupItem{ucs2: 0xcb12, cp949: 0xa747},
		lookupItem{ucs2: 0xcb13, cp949: 0xa748},
		lookupItem{ucs2: 0xcb14, cp949: 0xc2d9},
		lookupItem{ucs2: 0xcb15, cp949: 0xa749},
		lookupItem{ucs2: 0xcb16, cp949: 0xa74a},
		lookupItem{ucs2: 0xcb17, cp949: 0xa74b},
		lookupItem{ucs2: 0xcb18, cp949: 0xc2da},
		lookupItem{ucs2: 0xcb19, cp949: 0xa74c},
		lookupItem{ucs2: 0xcb1a, cp949: 0xa74d},
		lookupItem{ucs2: 0xcb1b, cp949: 0xa74e},
		lookupItem{ucs2: 0xcb1c, cp949: 0xa74f},
		lookupItem{ucs2: 0xcb1d, cp949: 0xa750},
		lookupItem{ucs2: 0xcb1e, cp949: 0xa751},
		lookupItem{ucs2: 0xcb1f, cp949: 0xa752},
		lookupItem{ucs2: 0xcb20, cp949: 0xc2db},
		lookupItem{ucs2: 0xcb21, cp949: 0xc2dc},
		lookupItem{ucs2: 0xcb22, cp949: 0xa753},
		lookupItem{ucs2: 0xcb23, cp949: 0xa754},
		lookupItem{ucs2: 0xcb24, cp949: 0xa755},
		lookupItem{ucs2: 0xcb25, cp949: 0xa756},
		lookupItem{ucs2: 0xcb26, cp949: 0xa757},
		lookupItem{ucs2: 0xcb27, cp949: 0xa758},
		lookupItem{ucs2: 0xcb28, cp949: 0xa759},
		lookupItem{ucs2: 0xcb29, cp949: 0xa75a},
		lookupItem{ucs2: 0xcb2a, cp949: 0xa761},
		lookupItem{ucs2: 0xcb2b, cp949: 0xa762},
		lookupItem{ucs2: 0xcb2c, cp949: 0xa763},
		lookupItem{ucs2: 0xcb2d, cp949: 0xa764},
		lookupItem{ucs2: 0xcb2e, cp949: 0xa765},
		lookupItem{ucs2: 0xcb2f, cp949: 0xa766},
".
Definition text_cp949_lookup_to_054 : string :=
"		lookupItem{ucs2: 0xcb30, cp949: 0xa767},
		lookupItem{ucs2: 0xcb31, cp949: 0xa768},
		lookupItem{ucs2: 0xcb32, cp949: 0xa769},
		lookupItem{ucs2: 0xcb33, cp949: 0xa76a},
		lookupItem{ucs2: 0xcb34, cp949: 0xa76b},
		lookupItem{ucs2: 0xcb35, cp949: 0xa76c},
		lookupItem{ucs2: 0xcb36, cp949: 0xa76d},
		lookupItem{ucs2: 0xcb37, cp949: 0xa76e},
		lookupItem{ucs2: 0xcb38, cp949: 0xa76f},
		lookupItem{ucs2: 0xcb39, cp949: 0xa770},
		lookupItem{ucs2: 0xcb3a, cp949: 0xa771},
		lookupItem{ucs2: 0xcb3b, cp949: 0xa772},
		lookupItem{ucs2: 0xcb3c, cp949: 0xa773},
		lookupItem{ucs2: 0xcb3d, cp949: 0xa774},
		lookupItem{ucs2: 0xcb3e, cp949: 0xa775},
		lookupItem{ucs2: 0xcb3f, cp949: 0xa776},
		lookupItem{ucs2: 0xcb40, cp949: 0xa777},
		lookupItem{ucs2: 0xcb41, cp949: 0xc2dd},
		lookupItem{ucs2: 0xcb42, cp949: 0xa778},
		lookupItem{ucs2: 0xcb43, cp949: 0xa779},
		lookupItem{ucs2: 0xcb44, cp949: 0xa77a},
		lookupItem{ucs2: 0xcb45, cp949: 0xa781},
		lookupItem{ucs2: 0xcb46, cp949: 0xa782},
		lookupItem{ucs2: 0xcb47, cp949: 0xa783},
		lookupItem{ucs2: 0xcb48, cp949: 0xc2de},
		lookupItem{ucs2: 0xcb49, cp949: 0xc2df},
		lookupItem{ucs2: 0xcb4a, cp949: 0xa784},
		lookupItem{ucs2: 0xcb4b, cp949: 0xa785},
		lookupItem{ucs2: 0xcb4c, cp949: 0xc2e0},
		lookupItem{ucs2: 0xcb4d, cp949: 0xa786},
		lookupItem{ucs2: 0xcb4e, cp949: 0xa787},
		lookupItem{ucs2: 0xcb4f, cp949: 0xa788},
		lookupItem{ucs2: 0xcb50, cp949: 0xc2e1},
		lookupItem{ucs2: 0xcb51, cp949: 0xa789},
		lookupItem{ucs2: 0xcb52, cp949: 0xa78a},
		lookupItem{ucs2: 0xcb53, cp949: 0xa78b},
		lookupItem{ucs2: 0xcb54, cp949: 0xa78c},
		lookupItem{ucs2: 0xcb55, cp949: 0xa78d},
		lookupItem{ucs2: 0xcb56, cp949: 0xa78e},
		lookupItem{ucs2: 0xcb57, cp949: 0xa78f},
		lookupItem{ucs2: 0xcb58, cp949: 0xc2e2},
		lookupItem{ucs2: 0xcb59, cp949: 0xc2e3},
		lookupItem{ucs2: 0xcb5a, cp949: 0xa790},
		lookupItem{ucs2: 0xcb5b, cp949: 0xa791},
		lookupItem{ucs2: 0xcb5c, cp949: 0xa792},
		lookupItem{ucs2: 0xcb5d, cp949: 0xc2e4},
		lookupItem{ucs2: 0xcb5e, cp949: 0xa793},
		lookupItem{ucs2: 0xcb5f, cp949: 0xa794},
		lookupItem{ucs2: 0xcb60, cp949: 0xa795},
		lookupItem{ucs2: 0xcb61, cp949: 0xa796},
		lookupItem{ucs2: 0xcb62, cp949: 0xa797},
		lookupItem{ucs2: 0xcb63, cp949: 0xa798},
		lookupItem{ucs2: 0xcb64, cp949: 0xc2e5},
		lookupItem{ucs2: 0xcb65, cp949: 0xa799},
		lookupItem{ucs2: 0xcb66, cp949: 0xa79a},
		lookupItem{ucs2: 0xcb67, cp949: 0xa79b},
		lookupItem{ucs2: 0xcb68, cp949: 0xa79c},
		lookupItem{ucs2: 0xcb69, cp949: 0xa79d},
		lookupItem{ucs2: 0xcb6a, cp949: 0xa79e},
		lookupItem{ucs2: 0xcb6b, cp949: 0xa79f},
		lookupItem{ucs2: 0xcb6c, cp949: 0xa7a0},
		lookupItem{ucs2: 0xcb6d, cp949: 0xa841},
		lookupItem{ucs2: 0xcb6e, cp949: 0xa842},
		lookupItem{ucs2: 0xcb6f, cp949: 0xa843},
		lookupItem{ucs2: 0xcb70, cp949: 0xa844},
		lookupItem{ucs2: 0xcb71, cp949: 0xa845},
		lookupItem{ucs2: 0xcb72, cp949: 0xa846},
		lookupItem{ucs2: 0xcb73, cp949: 0xa847},
		lookupItem{ucs2: 0xcb74, cp949: 0xa848},
		lookupItem{ucs2: 0xcb75, cp949: 0xa849},
		lookupItem{ucs2: 0xcb76, cp949: 0xa84a},
		lookupItem{ucs2: 0xcb77, cp949: 0xa84b},
		lookupItem{ucs2: 0xcb78, cp949: 0xc2e6},
		lookupItem{ucs2: 0xcb79, cp949: 0xc2e7},
		lookupItem{ucs2: 0xcb7a, cp949: 0xa84c},
		lookupItem{ucs2: 0xcb7b, cp949: 0xa84d},
		lookupItem{ucs2: 0xcb7c, cp949: 0xa84e},
		lookupItem{ucs2: 0xcb7d, cp949: 0xa84f},
		lookupItem{ucs2: 0xcb7e, cp949: 0xa850},
		lookupItem{ucs2: 0xcb7f, cp949: 0xa851},
		lookupItem{ucs2: 0xcb80, cp949: 0xa852},
		lookupItem{ucs2: 0xcb81, cp949: 0xa853},
		lookupItem{ucs2: 0xcb82, cp949: 0xa854},
		lookupItem{ucs2: 0xcb83, cp949: 0xa855},
		lookupItem{ucs2: 0xcb84, cp949: 0xa856},
		lookupItem{ucs2: 0xcb85, cp949: 0xa857},
		lookupItem{ucs2: 0xcb86, cp949: 0xa858},
		lookupItem{ucs2: 0xcb87, cp949: 0xa859},
		lookupItem{ucs2: 0xcb88, cp949: 0xa85a},
		lookupItem{ucs2: 0xcb89, cp949: 0xa861},
		lookupItem{ucs2: 0xcb8a, cp949: 0xa862},
		lookupItem{ucs2: 0xcb8b, cp949: 0xa863},
		lookupItem{ucs2: 0xcb8c, cp949: 0xa864},
		lookupItem{ucs2: 0xcb8d, cp949: 0xa865},
		lookupItem{ucs2: 0xcb8e, cp949: 0xa866},
		lookupItem{ucs2: 0xcb8f, cp949: 0xa867},
		lookupItem{ucs2: 0xcb90, cp949: 0xa868},
		lookupItem{ucs2: 0xcb91, cp949: 0xa869},
		lookupItem{ucs2: 0xcb92, cp949: 0xa86a},
		lookupItem{ucs2: 0xcb93, cp949: 0xa86b},
		lookupItem{ucs2: 0xcb94, cp949: 0xa86c},
		lookupItem{ucs2: 0xcb95, cp949: 0xa86d},
		lookupItem{ucs2: 0xcb96, cp949: 0xa86e},
		lookupItem{ucs2: 0xcb97, cp949: 0xa86f},
		lookupItem{ucs2: 0xcb98, cp949: 0xa870},
		lookupItem{ucs2: 0xcb99, cp949: 0xa871},
		lookupItem{ucs2: 0xcb9a, cp949: 0xa872},
		lookupItem{ucs2: 0xcb9b, cp949: 0xa873},
		lookupItem{ucs2: 0xcb9c, cp949: 0xc2e8},
		lookupItem{ucs2: 0xcb9d, cp949: 0xa874},
		lookupItem{ucs2: 0xcb9e, cp949: 0xa875},
		lookupItem{ucs2: 0xcb9f, cp949: 0xa876},
		lookupItem{ucs2: 0xcba0, cp949: 0xa877},
		lookupItem{ucs2: 0xcba1, cp949: 0xa878},
		lookupItem{ucs2: 0xcba2, cp949: 0xa879},
		lookupItem{ucs2: 0xcba3, cp949: 0xa87a},
		lookupItem{ucs2: 0xcba4, cp949: 0xa881},
		lookupItem{ucs2: 0xcba5, cp949: 0xa882},
		lookupItem{ucs2: 0xcba6, cp949: 0xa883},
		lookupItem{ucs2: 0xcba7, cp949: 0xa884},
		lookupItem{ucs2: 0xcba8, cp949: 0xa885},
		lookupItem{ucs2: 0xcba9, cp949: 0xa886},
		lookupItem{ucs2: 0xcbaa, cp949: 0xa887},
		lookupItem{ucs2: 0xcbab, cp949: 0xa888},
		lookupItem{ucs2: 0xcbac, cp949: 0xa889},
		lookupItem{ucs2: 0xcbad, cp949: 0xa88a},
		lookupItem{ucs2: 0xcbae, cp949: 0xa88b},
		lookupItem{ucs2: 0xcbaf, cp949: 0xa88c},
		lookupItem{ucs2: 0xcbb0, cp949: 0xa88d},
		lookupItem{ucs2: 0xcbb1, cp949: 0xa88e},
		lookupItem{ucs2: 0xcbb2, cp949: 0xa88f},
		lookupItem{ucs2: 0xcbb3, cp949: 0xa890},
		lookupItem{ucs2: 0xcbb4, cp949: 0xa891},
		lookupItem{ucs2: 0xcbb5, cp949: 0xa892},
		lookupItem{ucs2: 0xcbb6, cp949: 0xa893},
		lookupItem{ucs2: 0xcbb7, cp949: 0xa894},
		lookupItem{ucs2: 0xcbb8, cp949: 0xc2e9},
		lookupItem{ucs2: 0xcbb9, cp949: 0xa895},
		lookupItem{ucs2: 0xcbba, cp949: 0xa896},
		lookupItem{ucs2: 0xcbbb, cp949: 0xa897},
		lookupItem{ucs2: 0xcbbc, cp949: 0xa898},
		lookupItem{ucs2: 0xcbbd, cp949: 0xa899},
		lookupItem{ucs2: 0xcbbe, cp949: 0xa89a},
		lookupItem{ucs2: 0xcbbf, cp949: 0xa89b},
		lookupItem{ucs2: 0xcbc0, cp949: 0xa89c},
		lookupItem{ucs2: 0xcbc1, cp949: 0xa89d},
		lookupItem{ucs2: 0xcbc2, cp949: 0xa89e},
		lookupItem{ucs2: 0xcbc3, cp949: 0xa89f},
		lookupItem{ucs2: 0xcbc4, cp949: 0xa8a0},
		lookupItem{ucs2: 0xcbc5, cp949: 0xa941},
		lookupItem{ucs2: 0xcbc6, cp949: 0xa942},
		lookupItem{ucs2: 0xcbc7, cp949: 0xa943},
		lookupItem{ucs2: 0xcbc8, cp949: 0xa944},
		lookupItem{ucs2: 0xcbc9, cp949: 0xa945},
		lookupItem{ucs2: 0xcbca, cp949: 0xa946},
		lookupItem{ucs2: 0xcbcb, cp949: 0xa947},
		lookupItem{ucs2: 0xcbcc, cp949: 0xa948},
		lookupItem{ucs2: 0xcbcd, cp949: 0xa949},
		lookupItem{ucs2: 0xcbce, cp949: 0xa94a},
		lookupItem{ucs2: 0xcbcf, cp949: 0xa94b},
		lookupItem{ucs2: 0xcbd0, cp949: 0xa94c},
		lookupItem{ucs2: 0xcbd1, cp949: 0xa94d},
		lookupItem{ucs2: 0xcbd2, cp949: 0xa94e},
		lookupItem{ucs2: 0xcbd3, cp949: 0xa94f},
		lookupItem{ucs2: 0xcbd4, cp949: 0xc2ea},
		lookupItem{ucs2: 0xcbd5, cp949: 0xa950},
		lookupItem{ucs2: 0xcbd6, cp949: 0xa951},
		lookupItem{ucs2: 0xcbd7, cp949: 0xa952},
		lookupItem{ucs2: 0xcbd8, cp949: 0xa953},
		lookupItem{ucs2: 0xcbd9, cp949: 0xa954},
		lookupItem{ucs2: 0xcbda, cp949: 0xa955},
		lookupItem{ucs2: 0xcbdb, cp949: 0xa956},
		lookupItem{ucs2: 0xcbdc, cp949: 0xa957},
		lookupItem{ucs2: 0xcbdd, cp949: 0xa958},
		lookupItem{ucs2: 0xcbde, cp949: 0xa959},
		lookupItem{ucs2: 0xcbdf, cp949: 0xa95a},
		lookupItem{ucs2: 0xcbe0, cp949: 0xa961},
		lookupItem{ucs2: 0xcbe1, cp949: 0xa962},
		lookupItem{ucs2: 0xcbe2, cp949: 0xa963},
		lookupItem{ucs2: 0xcbe3, cp949: 0xa964},
		lookupItem{ucs2: 0xcbe4, cp949: 0xc2eb},
		lookupItem{ucs2: 0xcbe5, cp949: 0xa965},
		lookupItem{ucs2: 0xcbe6, cp949: 0xa966},
		lookupItem{ucs2: 0xcbe7, cp949: 0xc2ec},
		lookupItem{ucs2: 0xcbe8, cp949: 0xa967},
		lookupItem{ucs2: 0xcbe9, cp949: 0xc2ed},
		lookupItem{ucs2: 0xcbea, cp949: 0xa968},
		lookupItem{ucs2: 0xcbeb, cp949: 0xa969},
		lookupItem{ucs2: 0xcbec, cp949: 0xa96a},
		lookupItem{ucs2: 0xcbed, cp949: 0xa96b},
		lookupItem{ucs2: 0xcbee, cp949: 0xa96c},
		lookupItem{ucs2: 0xcbef, cp949: 0xa96d},
		lookupItem{ucs2: 0xcbf0, cp949: 0xa96e},
		lookupItem{ucs2: 0xcbf1, cp949: 0xa96f},
		lookupItem{ucs2: 0xcbf2, cp949: 0xa970},
		lookupItem{ucs2: 0xcbf3, cp949: 0xa971},
		lookupItem{ucs2: 0xcbf4, cp949: 0xa972},
		lookupItem{ucs2: 0xcbf5, cp949: 0xa973},
		lookupItem{ucs2: 0xcbf6, cp949: 0xa974},
		lookupItem{ucs2: 0xcbf7, cp949: 0xa975},
		lookupItem{ucs2: 0xcbf8, cp949: 0xa976},
		lookupItem{ucs2: 0xcbf9, cp949: 0xa977},
		lookupItem{ucs2: 0xcbfa, cp949: 0xa978},
		lookupItem{ucs2: 0xcbfb, cp949: 0xa979},
		lookupItem{ucs2: 0xcbfc, cp949: 0xa97a},
		lookupItem{ucs2: 0xcbfd, cp949: 0xa981},
		lookupItem{ucs2: 0xcbfe, cp949: 0xa982},
		lookupItem{ucs2: 0xcbff, cp949: 0xa983},
		lookupItem{ucs2: 0xcc00, cp949: 0xa984},
		lookupItem{ucs2: 0xcc01, cp949: 0xa985},
		lookupItem{ucs2: 0xcc02, cp949: 0xa986},
		lookupItem{ucs2: 0xcc03, cp949: 0xa987},
		lookupItem{ucs2: 0xcc04, cp949: 0xa988},
		lookupItem{ucs2: 0xcc05, cp949: 0xa989},
		lookupItem{ucs2: 0xcc06, cp949: 0xa98a},
		lookupItem{ucs2: 0xcc07, cp949: 0xa98b},
		lookupItem{ucs2: 0xcc08, cp949: 0xa98c},
		lookupItem{ucs2: 0xcc09, cp949: 0xa98d},
		lookupItem{ucs2: 0xcc0a, cp949: 0xa98e},
		lookupItem{ucs2: 0xcc0b, cp949: 0xa98f},
		lookupItem{ucs2: 0xcc0c, cp949: 0xc2ee},
		lookupItem{ucs2: 0xcc0d, cp949: 0xc2ef},
		lookupItem{ucs2: 0xcc0e, cp949: 0xa990},
		lookupItem{ucs2: 0xcc0f, cp949: 0xa991},
		lookupItem{ucs2: 0xcc10, cp949: 0xc2f0},
		lookupItem{ucs2: 0xcc11, cp949: 0xa992},
		lookupItem{ucs2: 0xcc12, cp949: 0xa993},
		lookupItem{ucs2: 0xcc13, cp949: 0xa994},
		lookupItem{ucs2: 0xcc14, cp949: 0xc2f1},
		lookupItem{ucs2: 0xcc15, cp949: 0xa995},
		lookupItem{ucs2: 0xcc16, cp949: 0xa996},
		lookupItem{ucs2: 0xcc17, cp949: 0xa997},
		lookupItem{ucs2: 0xcc18, cp949: 0xa998},
		lookupItem{ucs2: 0xcc19, cp949: 0xa999},
		lookupItem{ucs2: 0xcc1a, cp949: 0xa99a},
		lookupItem{ucs2: 0xcc1b, cp949: 0xa99b},
		lookupItem{ucs2: 0xcc1c, cp949: 0xc2f2},
		lookupItem{ucs2: 0xcc1d, cp949: 0xc2f3},
		lookupItem{ucs2: 0xcc1e, cp949: 0xa99c},
		lookupItem{ucs2: 0xcc1f, cp949: 0xa99d},
		lookupItem{ucs2: 0xcc20, cp949: 0xa99e},
		lookupItem{ucs2: 0xcc21, cp949: 0xc2f4},
		lookupItem{ucs2: 0xcc22, cp949: 0xc2f5},
		lookupItem{ucs2: 0xcc23, cp949: 0xa99f},
		lookupItem{ucs2: 0xcc24, cp949: 0xa9a0},
		lookupItem{ucs2: 0xcc25, cp949: 0xaa41},
		lookupItem{ucs2: 0xcc26, cp949: 0xaa42},
		lookupItem{ucs2: 0xcc27, cp949: 0xc2f6},
		lookupItem{ucs2: 0xcc28, cp949: 0xc2f7},
		lookupItem{ucs2: 0xcc29, cp949: 0xc2f8},
".
Definition text_cp949_lookup_to_055 : string :=
"		lookupItem{ucs2: 0xcc2a, cp949: 0xaa43},
		lookupItem{ucs2: 0xcc2b, cp949: 0xaa44},
		lookupItem{ucs2: 0xcc2c, cp949: 0xc2f9},
		lookupItem{ucs2: 0xcc2d, cp949: 0xaa45},
		lookupItem{ucs2: 0xcc2e, cp949: 0xc2fa},
		lookupItem{ucs2: 0xcc2f, cp949: 0xaa46},
		lookupItem{ucs2: 0xcc30, cp949: 0xc2fb},
		lookupItem{ucs2: 0xcc31, cp949: 0xaa47},
		lookupItem{ucs2: 0xcc32, cp949: 0xaa48},
		lookupItem{ucs2: 0xcc33, cp949: 0xaa49},
		lookupItem{ucs2: 0xcc34, cp949: 0xaa4a},
		lookupItem{ucs2: 0xcc35, cp949: 0xaa4b},
		lookupItem{ucs2: 0xcc36, cp949: 0xaa4c},
		lookupItem{ucs2: 0xcc37, cp949: 0xaa4d},
		lookupItem{ucs2: 0xcc38, cp949: 0xc2fc},
		lookupItem{ucs2: 0xcc39, cp949: 0xc2fd},
		lookupItem{ucs2: 0xcc3a, cp949: 0xaa4e},
		lookupItem{ucs2: 0xcc3b, cp949: 0xc2fe},
		lookupItem{ucs2: 0xcc3c, cp949: 0xc3a1},
		lookupItem{ucs2: 0xcc3d, cp949: 0xc3a2},
		lookupItem{ucs2: 0xcc3e, cp949: 0xc3a3},
		lookupItem{ucs2: 0xcc3f, cp949: 0xaa4f},
		lookupItem{ucs2: 0xcc40, cp949: 0xaa50},
		lookupItem{ucs2: 0xcc41, cp949: 0xaa51},
		lookupItem{ucs2: 0xcc42, cp949: 0xaa52},
		lookupItem{ucs2: 0xcc43, cp949: 0xaa53},
		lookupItem{ucs2: 0xcc44, cp949: 0xc3a4},
		lookupItem{ucs2: 0xcc45, cp949: 0xc3a5},
		lookupItem{ucs2: 0xcc46, cp949: 0xaa54},
		lookupItem{ucs2: 0xcc47, cp949: 0xaa55},
		lookupItem{ucs2: 0xcc48, cp949: 0xc3a6},
		lookupItem{ucs2: 0xcc49, cp949: 0xaa56},
		lookupItem{ucs2: 0xcc4a, cp949: 0xaa57},
		lookupItem{ucs2: 0xcc4b, cp949: 0xaa58},
		lookupItem{ucs2: 0xcc4c, cp949: 0xc3a7},
		lookupItem{ucs2: 0xcc4d, cp949: 0xaa59},
		lookupItem{ucs2: 0xcc4e, cp949: 0xaa5a},
		lookupItem{ucs2: 0xcc4f, cp949: 0xaa61},
		lookupItem{ucs2: 0xcc50, cp949: 0xaa62},
		lookupItem{ucs2: 0xcc51, cp949: 0xaa63},
		lookupItem{ucs2: 0xcc52, cp949: 0xaa64},
		lookupItem{ucs2: 0xcc53, cp949: 0xaa65},
		lookupItem{ucs2: 0xcc54, cp949: 0xc3a8},
		lookupItem{ucs2: 0xcc55, cp949: 0xc3a9},
		lookupItem{ucs2: 0xcc56, cp949: 0xaa66},
		lookupItem{ucs2: 0xcc57, cp949: 0xc3aa},
		lookupItem{ucs2: 0xcc58, cp949: 0xc3ab},
		lookupItem{ucs2: 0xcc59, cp949: 0xc3ac},
		lookupItem{ucs2: 0xcc5a, cp949: 0xaa67},
		lookupItem{ucs2: 0xcc5b, cp949: 0xaa68},
		lookupItem{ucs2: 0xcc5c, cp949: 0xaa69},
		lookupItem{ucs2: 0xcc5d, cp949: 0xaa6a},
		lookupItem{ucs2: 0xcc5e, cp949: 0xaa6b},
		lookupItem{ucs2: 0xcc5f, cp949: 0xaa6c},
		lookupItem{ucs2: 0xcc60, cp949: 0xc3ad},
		lookupItem{ucs2: 0xcc61, cp949: 0xaa6d},
		lookupItem{ucs2: 0xcc62, cp949: 0xaa6e},
		lookupItem{ucs2: 0xcc63, cp949: 0xaa6f},
		lookupItem{ucs2: 0xcc64, cp949: 0xc3ae},
		lookupItem{ucs2: 0xcc65, cp949: 0xaa70},
		lookupItem{ucs2: 0xcc66, cp949: 0xc3af},
		lookupItem{ucs2: 0xcc67, cp949: 0xaa71},
		lookupItem{ucs2: 0xcc68, cp949: 0xc3b0},
		lookupItem{ucs2: 0xcc69, cp949: 0xaa72},
		lookupItem{ucs2: 0xcc6a, cp949: 0xaa73},
		lookupItem{ucs2: 0xcc6b, cp949: 0xaa74},
		lookupItem{ucs2: 0xcc6c, cp949: 0xaa75},
		lookupItem{ucs2: 0xcc6d, cp949: 0xaa76},
		lookupItem{ucs2: 0xcc6e, cp949: 0xaa77},
		lookupItem{ucs2: 0xcc6f, cp949: 0xaa78},
		lookupItem{ucs2: 0xcc70, cp949: 0xc3b1},
		lookupItem{ucs2: 0xcc71, cp949: 0xaa79},
		lookupItem{ucs2: 0xcc72, cp949: 0xaa7a},
		lookupItem{ucs2: 0xcc73, cp949: 0xaa81},
		lookupItem{ucs2: 0xcc74, cp949: 0xaa82},
		lookupItem{ucs2: 0xcc75, cp949: 0xc3b2},
		lookupItem{ucs2: 0xcc76, cp949: 0xaa83},
		lookupItem{ucs2: 0xcc77, cp949: 0xaa84},
		lookupItem{ucs2: 0xcc78, cp949: 0xaa85},
		lookupItem{ucs2: 0xcc79, cp949: 0xaa86},
		lookupItem{ucs2: 0xcc7a, cp949: 0xaa87},
		lookupItem{ucs2: 0xcc7b, cp949: 0xaa88},
		lookupItem{ucs2: 0xcc7c, cp949: 0xaa89},
		lookupItem{ucs2: 0xcc7d, cp949: 0xaa8a},
		lookupItem{ucs2: 0xcc7e, cp949: 0xaa8b},
		lookupItem{ucs2: 0xcc7f, cp949: 0xaa8c},
		lookupItem{ucs2: 0xcc80, cp949: 0xaa8d},
		lookupItem{ucs2: 0xcc81, cp949: 0xaa8e},
		lookupItem{ucs2: 0xcc82, cp949: 0xaa8f},
		lookupItem{ucs2: 0xcc83, cp949: 0xaa90},
		lookupItem{ucs2: 0xcc84, cp949: 0xaa91},
		lookupItem{ucs2: 0xcc85, cp949: 0xaa92},
		lookupItem{ucs2: 0xcc86, cp949: 0xaa93},
		lookupItem{ucs2: 0xcc87, cp949: 0xaa94},
		lookupItem{ucs2: 0xcc88, cp949: 0xaa95},
		lookupItem{ucs2: 0xcc89, cp949: 0xaa96},
		lookupItem{ucs2: 0xcc8a, cp949: 0xaa97},
		lookupItem{ucs2: 0xcc8b, cp949: 0xaa98},
		lookupItem{ucs2: 0xcc8c, cp949: 0xaa99},
		lookupItem{ucs2: 0xcc8d, cp949: 0xaa9a},
		lookupItem{ucs2: 0xcc8e, cp949: 0xaa9b},
		lookupItem{ucs2: 0xcc8f, cp949: 0xaa9c},
		lookupItem{ucs2: 0xcc90, cp949: 0xaa9d},
		lookupItem{ucs2: 0xcc91, cp949: 0xaa9e},
		lookupItem{ucs2: 0xcc92, cp949: 0xaa9f},
		lookupItem{ucs2: 0xcc93, cp949: 0xaaa0},
		lookupItem{ucs2: 0xcc94, cp949: 0xab41},
		lookupItem{ucs2: 0xcc95, cp949: 0xab42},
		lookupItem{ucs2: 0xcc96, cp949: 0xab43},
		lookupItem{ucs2: 0xcc97, cp949: 0xab44},
		lookupItem{ucs2: 0xcc98, cp949: 0xc3b3},
		lookupItem{ucs2: 0xcc99, cp949: 0xc3b4},
		lookupItem{ucs2: 0xcc9a, cp949: 0xab45},
		lookupItem{ucs2: 0xcc9b, cp949: 0xab46},
		lookupItem{ucs2: 0xcc9c, cp949: 0xc3b5},
		lookupItem{ucs2: 0xcc9d, cp949: 0xab47},
		lookupItem{ucs2: 0xcc9e, cp949: 0xab48},
		lookupItem{ucs2: 0xcc9f, cp949: 0xab49},
		lookupItem{ucs2: 0xcca0, cp949: 0xc3b6},
		lookupItem{ucs2: 0xcca1, cp949: 0xab4a},
		lookupItem{ucs2: 0xcca2, cp949: 0xab4b},
		lookupItem{ucs2: 0xcca3, cp949: 0xab4c},
		lookupItem{ucs2: 0xcca4, cp949: 0xab4d},
		lookupItem{ucs2: 0xcca5, cp949: 0xab4e},
		lookupItem{ucs2: 0xcca6, cp949: 0xab4f},
		lookupItem{ucs2: 0xcca7, cp949: 0xab50},
		lookupItem{ucs2: 0xcca8, cp949: 0xc3b7},
		lookupItem{ucs2: 0xcca9, cp949: 0xc3b8},
		lookupItem{ucs2: 0xccaa, cp949: 0xab51},
		lookupItem{ucs2: 0xccab, cp949: 0xc3b9},
		lookupItem{ucs2: 0xccac, cp949: 0xc3ba},
		lookupItem{ucs2: 0xccad, cp949: 0xc3bb},
		lookupItem{ucs2: 0xccae, cp949: 0xab52},
		lookupItem{ucs2: 0xccaf, cp949: 0xab53},
		lookupItem{ucs2: 0xccb0, cp949: 0xab54},
		lookupItem{ucs2: 0xccb1, cp949: 0xab55},
		lookupItem{ucs2: 0xccb2, cp949: 0xab56},
		lookupItem{ucs2: 0xccb3, cp949: 0xab57},
		lookupItem{ucs2: 0xccb4, cp949: 0xc3bc},
		lookupItem{ucs2: 0xccb5, cp949: 0xc3bd},
		lookupItem{ucs2: 0xccb6, cp949: 0xab58},
		lookupItem{ucs2: 0xccb7, cp949: 0xab59},
		lookupItem{ucs2: 0xccb8, cp949: 0xc3be},
		lookupItem{ucs2: 0xccb9, cp949: 0xab5a},
		lookupItem{ucs2: 0xccba, cp949: 0xab61},
		lookupItem{ucs2: 0xccbb, cp949: 0xab62},
		lookupItem{ucs2: 0xccbc, cp949: 0xc3bf},
		lookupItem{ucs2: 0xccbd, cp949: 0xab63},
		lookupItem{ucs2: 0xccbe, cp949: 0xab64},
		lookupItem{ucs2: 0xccbf, cp949: 0xab65},
		lookupItem{ucs2: 0xccc0, cp949: 0xab66},
		lookupItem{ucs2: 0xccc1, cp949: 0xab67},
		lookupItem{ucs2: 0xccc2, cp949: 0xab68},
		lookupItem{ucs2: 0xccc3, cp949: 0xab69},
		lookupItem{ucs2: 0xccc4, cp949: 0xc3c0},
		lookupItem{ucs2: 0xccc5, cp949: 0xc3c1},
		lookupItem{ucs2: 0xccc6, cp949: 0xab6a},
		lookupItem{ucs2: 0xccc7, cp949: 0xc3c2},
		lookupItem{ucs2: 0xccc8, cp949: 0xab6b},
		lookupItem{ucs2: 0xccc9, cp949: 0xc3c3},
		lookupItem{ucs2: 0xccca, cp949: 0xab6c},
		lookupItem{ucs2: 0xcccb, cp949: 0xab6d},
		lookupItem{ucs2: 0xcccc, cp949: 0xab6e},
		lookupItem{ucs2: 0xcccd, cp949: 0xab6f},
		lookupItem{ucs2: 0xccce, cp949: 0xab70},
		lookupItem{ucs2: 0xcccf, cp949: 0xab71},
		lookupItem{ucs2: 0xccd0, cp949: 0xc3c4},
		lookupItem{ucs2: 0xccd1, cp949: 0xab72},
		lookupItem{ucs2: 0xccd2, cp949: 0xab73},
		lookupItem{ucs2: 0xccd3, cp949: 0xab74},
		lookupItem{ucs2: 0xccd4, cp949: 0xc3c5},
		lookupItem{ucs2: 0xccd5, cp949: 0xab75},
		lookupItem{ucs2: 0xccd6, cp949: 0xab76},
		lookupItem{ucs2: 0xccd7, cp949: 0xab77},
		lookupItem{ucs2: 0xccd8, cp949: 0xab78},
		lookupItem{ucs2: 0xccd9, cp949: 0xab79},
		lookupItem{ucs2: 0xccda, cp949: 0xab7a},
		lookupItem{ucs2: 0xccdb, cp949: 0xab81},
		lookupItem{ucs2: 0xccdc, cp949: 0xab82},
		lookupItem{ucs2: 0xccdd, cp949: 0xab83},
		lookupItem{ucs2: 0xccde, cp949: 0xab84},
		lookupItem{ucs2: 0xccdf, cp949: 0xab85},
		lookupItem{ucs2: 0xcce0, cp949: 0xab86},
		lookupItem{ucs2: 0xcce1, cp949: 0xab87},
		lookupItem{ucs2: 0xcce2, cp949: 0xab88},
		lookupItem{ucs2: 0xcce3, cp949: 0xab89},
		lookupItem{ucs2: 0xcce4, cp949: 0xc3c6},
		lookupItem{ucs2: 0xcce5, cp949: 0xab8a},
		lookupItem{ucs2: 0xcce6, cp949: 0xab8b},
		lookupItem{ucs2: 0xcce7, cp949: 0xab8c},
		lookupItem{ucs2: 0xcce8, cp949: 0xab8d},
		lookupItem{ucs2: 0xcce9, cp949: 0xab8e},
		lookupItem{ucs2: 0xccea, cp949: 0xab8f},
		lookupItem{ucs2: 0xcceb, cp949: 0xab90},
		lookupItem{ucs2: 0xccec, cp949: 0xc3c7},
		lookupItem{ucs2: 0xcced, cp949: 0xab91},
		lookupItem{ucs2: 0xccee, cp949: 0xab92},
		lookupItem{ucs2: 0xccef, cp949: 0xab93},
		lookupItem{ucs2: 0xccf0, cp949: 0xc3c8},
		lookupItem{ucs2: 0xccf1, cp949: 0xab94},
		lookupItem{ucs2: 0xccf2, cp949: 0xab95},
		lookupItem{ucs2: 0xccf3, cp949: 0xab96},
		lookupItem{ucs2: 0xccf4, cp949: 0xab97},
		lookupItem{ucs2: 0xccf5, cp949: 0xab98},
		lookupItem{ucs2: 0xccf6, cp949: 0xab99},
		lookupItem{ucs2: 0xccf7, cp949: 0xab9a},
		lookupItem{ucs2: 0xccf8, cp949: 0xab9b},
		lookupItem{ucs2: 0xccf9, cp949: 0xab9c},
		lookupItem{ucs2: 0xccfa, cp949: 0xab9d},
		lookupItem{ucs2: 0xccfb, cp949: 0xab9e},
		lookupItem{ucs2: 0xccfc, cp949: 0xab9f},
		lookupItem{ucs2: 0xccfd, cp949: 0xaba0},
		lookupItem{ucs2: 0xccfe, cp949: 0xac41},
		lookupItem{ucs2: 0xccff, cp949: 0xac42},
		lookupItem{ucs2: 0xcd00, cp949: 0xac43},
		lookupItem{ucs2: 0xcd01, cp949: 0xc3c9},
		lookupItem{ucs2: 0xcd02, cp949: 0xac44},
		lookupItem{ucs2: 0xcd03, cp949: 0xac45},
		lookupItem{ucs2: 0xcd04, cp949: 0xac46},
		lookupItem{ucs2: 0xcd05, cp949: 0xac47},
		lookupItem{ucs2: 0xcd06, cp949: 0xac48},
		lookupItem{ucs2: 0xcd07, cp949: 0xac49},
		lookupItem{ucs2: 0xcd08, cp949: 0xc3ca},
		lookupItem{ucs2: 0xcd09, cp949: 0xc3cb},
		lookupItem{ucs2: 0xcd0a, cp949: 0xac4a},
		lookupItem{ucs2: 0xcd0b, cp949: 0xac4b},
		lookupItem{ucs2: 0xcd0c, cp949: 0xc3cc},
		lookupItem{ucs2: 0xcd0d, cp949: 0xac4c},
		lookupItem{ucs2: 0xcd0e, cp949: 0xac4d},
		lookupItem{ucs2: 0xcd0f, cp949: 0xac4e},
		lookupItem{ucs2: 0xcd10, cp949: 0xc3cd},
		lookupItem{ucs2: 0xcd11, cp949: 0xac4f},
		lookupItem{ucs2: 0xcd12, cp949: 0xac50},
		lookupItem{ucs2: 0xcd13, cp949: 0xac51},
		lookupItem{ucs2: 0xcd14, cp949: 0xac52},
		lookupItem{ucs2: 0xcd15, cp949: 0xac53},
		lookupItem{ucs2: 0xcd16, cp949: 0xac54},
		lookupItem{ucs2: 0xcd17, cp949: 0xac55},
		lookupItem{ucs2: 0xcd18, cp949: 0xc3ce},
		lookupItem{ucs2: 0xcd19, cp949: 0xc3cf},
		lookupItem{ucs2: 0xcd1a, cp949: 0xac56},
		lookupItem{ucs2: 0xcd1b, cp949: 0xc3d0},
		lookupItem{ucs2: 0xcd1c, cp949: 0xac57},
		lookupItem{ucs2: 0xcd1d, cp949: 0xc3d1},
		lookupItem{ucs2: 0xcd1e, cp949: 0xac58},
		lookupItem{ucs2: 0xcd1f, cp949: 0xac59},
		lookupItem{ucs2: 0xcd20, cp949: 0xac5a},
		lookupItem{ucs2: 0xcd21, cp949: 0xac61},
		lookupItem{ucs2: 0xcd22, cp949: 0xac62},
		lookupItem{ucs2: 0xcd23, cp949: 0xac63},
".
Definition text_cp949_lookup_to_056 : string :=
"		lookupItem{ucs2: 0xcd24, cp949: 0xc3d2},
		lookupItem{ucs2: 0xcd25, cp949: 0xac64},
		lookupItem{ucs2: 0xcd26, cp949: 0xac65},
		lookupItem{ucs2: 0xcd27, cp949: 0xac66},
		lookupItem{ucs2: 0xcd28, cp949: 0xc3d3},
		lookupItem{ucs2: 0xcd29, cp949: 0xac67},
		lookupItem{ucs2: 0xcd2a, cp949: 0xac68},
		lookupItem{ucs2: 0xcd2b, cp949: 0xac69},
		lookupItem{ucs2: 0xcd2c, cp949: 0xc3d4},
		lookupItem{ucs2: 0xcd2d, cp949: 0xac6a},
		lookupItem{ucs2: 0xcd2e, cp949: 0xac6b},
		lookupItem{ucs2: 0xcd2f, cp949: 0xac6c},
		lookupItem{ucs2: 0xcd30, cp949: 0xac6d},
		lookupItem{ucs2: 0xcd31, cp949: 0xac6e},
		lookupItem{ucs2: 0xcd32, cp949: 0xac6f},
		lookupItem{ucs2: 0xcd33, cp949: 0xac70},
		lookupItem{ucs2: 0xcd34, cp949: 0xac71},
		lookupItem{ucs2: 0xcd35, cp949: 0xac72},
		lookupItem{ucs2: 0xcd36, cp949: 0xac73},
		lookupItem{ucs2: 0xcd37, cp949: 0xac74},
		lookupItem{ucs2: 0xcd38, cp949: 0xac75},
		lookupItem{ucs2: 0xcd39, cp949: 0xc3d5},
		lookupItem{ucs2: 0xcd3a, cp949: 0xac76},
		lookupItem{ucs2: 0xcd3b, cp949: 0xac77},
		lookupItem{ucs2: 0xcd3c, cp949: 0xac78},
		lookupItem{ucs2: 0xcd3d, cp949: 0xac79},
		lookupItem{ucs2: 0xcd3e, cp949: 0xac7a},
		lookupItem{ucs2: 0xcd3f, cp949: 0xac81},
		lookupItem{ucs2: 0xcd40, cp949: 0xac82},
		lookupItem{ucs2: 0xcd41, cp949: 0xac83},
		lookupItem{ucs2: 0xcd42, cp949: 0xac84},
		lookupItem{ucs2: 0xcd43, cp949: 0xac85},
		lookupItem{ucs2: 0xcd44, cp949: 0xac86},
		lookupItem{ucs2: 0xcd45, cp949: 0xac87},
		lookupItem{ucs2: 0xcd46, cp949: 0xac88},
		lookupItem{ucs2: 0xcd47, cp949: 0xac89},
		lookupItem{ucs2: 0xcd48, cp949: 0xac8a},
		lookupItem{ucs2: 0xcd49, cp949: 0xac8b},
		lookupItem{ucs2: 0xcd4a, cp949: 0xac8c},
		lookupItem{ucs2: 0xcd4b, cp949: 0xac8d},
		lookupItem{ucs2: 0xcd4c, cp949: 0xac8e},
		lookupItem{ucs2: 0xcd4d, cp949: 0xac8f},
		lookupItem{ucs2: 0xcd4e, cp949: 0xac90},
		lookupItem{ucs2: 0xcd4f, cp949: 0xac91},
		lookupItem{ucs2: 0xcd50, cp949: 0xac92},
		lookupItem{ucs2: 0xcd51, cp949: 0xac93},
		lookupItem{ucs2: 0xcd52, cp949: 0xac94},
		lookupItem{ucs2: 0xcd53, cp949: 0xac95},
		lookupItem{ucs2: 0xcd54, cp949: 0xac96},
		lookupItem{ucs2: 0xcd55, cp949: 0xac97},
		lookupItem{ucs2: 0xcd56, cp949: 0xac98},
		lookupItem{ucs2: 0xcd57, cp949: 0xac99},
		lookupItem{ucs2: 0xcd58, cp949: 0xac9a},
		lookupItem{ucs2: 0xcd59, cp949: 0xac9b},
		lookupItem{ucs2: 0xcd5a, cp949: 0xac9c},
		lookupItem{ucs2: 0xcd5b, cp949: 0xac9d},
		lookupItem{ucs2: 0xcd5c, cp949: 0xc3d6},
		lookupItem{ucs2: 0xcd5d, cp949: 0xac9e},
		lookupItem{ucs2: 0xcd5e, cp949: 0xac9f},
		lookupItem{ucs2: 0xcd5f, cp949: 0xaca0},
		lookupItem{ucs2: 0xcd60, cp949: 0xc3d7},
		lookupItem{ucs2: 0xcd61, cp949: 0xad41},
		lookupItem{ucs2: 0xcd62, cp949: 0xad42},
		lookupItem{ucs2: 0xcd63, cp949: 0xad43},
		lookupItem{ucs2: 0xcd64, cp949: 0xc3d8},
		lookupItem{ucs2: 0xcd65, cp949: 0xad44},
		lookupItem{ucs2: 0xcd66, cp949: 0xad45},
		lookupItem{ucs2: 0xcd67, cp949: 0xad46},
		lookupItem{ucs2: 0xcd68, cp949: 0xad47},
		lookupItem{ucs2: 0xcd69, cp949: 0xad48},
		lookupItem{ucs2: 0xcd6a, cp949: 0xad49},
		lookupItem{ucs2: 0xcd6b, cp949: 0xad4a},
		lookupItem{ucs2: 0xcd6c, cp949: 0xc3d9},
		lookupItem{ucs2: 0xcd6d, cp949: 0xc3da},
		lookupItem{ucs2: 0xcd6e, cp949: 0xad4b},
		lookupItem{ucs2: 0xcd6f, cp949: 0xc3db},
		lookupItem{ucs2: 0xcd70, cp949: 0xad4c},
		lookupItem{ucs2: 0xcd71, cp949: 0xc3dc},
		lookupItem{ucs2: 0xcd72, cp949: 0xad4d},
		lookupItem{ucs2: 0xcd73, cp949: 0xad4e},
		lookupItem{ucs2: 0xcd74, cp949: 0xad4f},
		lookupItem{ucs2: 0xcd75, cp949: 0xad50},
		lookupItem{ucs2: 0xcd76, cp949: 0xad51},
		lookupItem{ucs2: 0xcd77, cp949: 0xad52},
		lookupItem{ucs2: 0xcd78, cp949: 0xc3dd},
		lookupItem{ucs2: 0xcd79, cp949: 0xad53},
		lookupItem{ucs2: 0xcd7a, cp949: 0xad54},
		lookupItem{ucs2: 0xcd7b, cp949: 0xad55},
		lookupItem{ucs2: 0xcd7c, cp949: 0xad56},
		lookupItem{ucs2: 0xcd7d, cp949: 0xad57},
		lookupItem{ucs2: 0xcd7e, cp949: 0xad58},
		lookupItem{ucs2: 0xcd7f, cp949: 0xad59},
		lookupItem{ucs2: 0xcd80, cp949: 0xad5a},
		lookupItem{ucs2: 0xcd81, cp949: 0xad61},
		lookupItem{ucs2: 0xcd82, cp949: 0xad62},
		lookupItem{ucs2: 0xcd83, cp949: 0xad63},
		lookupItem{ucs2: 0xcd84, cp949: 0xad64},
		lookupItem{ucs2: 0xcd85, cp949: 0xad65},
		lookupItem{ucs2: 0xcd86, cp949: 0xad66},
		lookupItem{ucs2: 0xcd87, cp949: 0xad67},
		lookupItem{ucs2: 0xcd88, cp949: 0xc3de},
		lookupItem{ucs2: 0xcd89, cp949: 0xad68},
		lookupItem{ucs2: 0xcd8a, cp949: 0xad69},
		lookupItem{ucs2: 0xcd8b, cp949: 0xad6a},
		lookupItem{ucs2: 0xcd8c, cp949: 0xad6b},
		lookupItem{ucs2: 0xcd8d, cp949: 0xad6c},
		lookupItem{ucs2: 0xcd8e, cp949: 0xad6d},
		lookupItem{ucs2: 0xcd8f, cp949: 0xad6e},
		lookupItem{ucs2: 0xcd90, cp949: 0xad6f},
		lookupItem{ucs2: 0xcd91, cp949: 0xad70},
		lookupItem{ucs2: 0xcd92, cp949: 0xad71},
		lookupItem{ucs2: 0xcd93, cp949: 0xad72},
		lookupItem{ucs2: 0xcd94, cp949: 0xc3df},
		lookupItem{ucs2: 0xcd95, cp949: 0xc3e0},
		lookupItem{ucs2: 0xcd96, cp949: 0xad73},
		lookupItem{ucs2: 0xcd97, cp949: 0xad74},
		lookupItem{ucs2: 0xcd98, cp949: 0xc3e1},
		lookupItem{ucs2: 0xcd99, cp949: 0xad75},
		lookupItem{ucs2: 0xcd9a, cp949: 0xad76},
		lookupItem{ucs2: 0xcd9b, cp949: 0xad77},
		lookupItem{ucs2: 0xcd9c, cp949: 0xc3e2},
		lookupItem{ucs2: 0xcd9d, cp949: 0xad78},
		lookupItem{ucs2: 0xcd9e, cp949: 0xad79},
		lookupItem{ucs2: 0xcd9f, cp949: 0xad7a},
		lookupItem{ucs2: 0xcda0, cp949: 0xad81},
		lookupItem{ucs2: 0xcda1, cp949: 0xad82},
		lookupItem{ucs2: 0xcda2, cp949: 0xad83},
		lookupItem{ucs2: 0xcda3, cp949: 0xad84},
		lookupItem{ucs2: 0xcda4, cp949: 0xc3e3},
		lookupItem{ucs2: 0xcda5, cp949: 0xc3e4},
		lookupItem{ucs2: 0xcda6, cp949: 0xad85},
		lookupItem{ucs2: 0xcda7, cp949: 0xc3e5},
		lookupItem{ucs2: 0xcda8, cp949: 0xad86},
		lookupItem{ucs2: 0xcda9, cp949: 0xc3e6},
		lookupItem{ucs2: 0xcdaa, cp949: 0xad87},
		lookupItem{ucs2: 0xcdab, cp949: 0xad88},
		lookupItem{ucs2: 0xcdac, cp949: 0xad89},
		lookupItem{ucs2: 0xcdad, cp949: 0xad8a},
		lookupItem{ucs2: 0xcdae, cp949: 0xad8b},
		lookupItem{ucs2: 0xcdaf, cp949: 0xad8c},
		lookupItem{ucs2: 0xcdb0, cp949: 0xc3e7},
		lookupItem{ucs2: 0xcdb1, cp949: 0xad8d},
		lookupItem{ucs2: 0xcdb2, cp949: 0xad8e},
		lookupItem{ucs2: 0xcdb3, cp949: 0xad8f},
		lookupItem{ucs2: 0xcdb4, cp949: 0xad90},
		lookupItem{ucs2: 0xcdb5, cp949: 0xad91},
		lookupItem{ucs2: 0xcdb6, cp949: 0xad92},
		lookupItem{ucs2: 0xcdb7, cp949: 0xad93},
		lookupItem{ucs2: 0xcdb8, cp949: 0xad94},
		lookupItem{ucs2: 0xcdb9, cp949: 0xad95},
		lookupItem{ucs2: 0xcdba, cp949: 0xad96},
		lookupItem{ucs2: 0xcdbb, cp949: 0xad97},
		lookupItem{ucs2: 0xcdbc, cp949: 0xad98},
		lookupItem{ucs2: 0xcdbd, cp949: 0xad99},
		lookupItem{ucs2: 0xcdbe, cp949: 0xad9a},
		lookupItem{ucs2: 0xcdbf, cp949: 0xad9b},
		lookupItem{ucs2: 0xcdc0, cp949: 0xad9c},
		lookupItem{ucs2: 0xcdc1, cp949: 0xad9d},
		lookupItem{ucs2: 0xcdc2, cp949: 0xad9e},
		lookupItem{ucs2: 0xcdc3, cp949: 0xad9f},
		lookupItem{ucs2: 0xcdc4, cp949: 0xc3e8},
		lookupItem{ucs2: 0xcdc5, cp949: 0xada0},
		lookupItem{ucs2: 0xcdc6, cp949: 0xae41},
		lookupItem{ucs2: 0xcdc7, cp949: 0xae42},
		lookupItem{ucs2: 0xcdc8, cp949: 0xae43},
		lookupItem{ucs2: 0xcdc9, cp949: 0xae44},
		lookupItem{ucs2: 0xcdca, cp949: 0xae45},
		lookupItem{ucs2: 0xcdcb, cp949: 0xae46},
		lookupItem{ucs2: 0xcdcc, cp949: 0xc3e9},
		lookupItem{ucs2: 0xcdcd, cp949: 0xae47},
		lookupItem{ucs2: 0xcdce, cp949: 0xae48},
		lookupItem{ucs2: 0xcdcf, cp949: 0xae49},
		lookupItem{ucs2: 0xcdd0, cp949: 0xc3ea},
		lookupItem{ucs2: 0xcdd1, cp949: 0xae4a},
		lookupItem{ucs2: 0xcdd2, cp949: 0xae4b},
		lookupItem{ucs2: 0xcdd3, cp949: 0xae4c},
		lookupItem{ucs2: 0xcdd4, cp949: 0xae4d},
		lookupItem{ucs2: 0xcdd5, cp949: 0xae4e},
		lookupItem{ucs2: 0xcdd6, cp949: 0xae4f},
		lookupItem{ucs2: 0xcdd7, cp949: 0xae50},
		lookupItem{ucs2: 0xcdd8, cp949: 0xae51},
		lookupItem{ucs2: 0xcdd9, cp949: 0xae52},
		lookupItem{ucs2: 0xcdda, cp949: 0xae53},
		lookupItem{ucs2: 0xcddb, cp949: 0xae54},
		lookupItem{ucs2: 0xcddc, cp949: 0xae55},
		lookupItem{ucs2: 0xcddd, cp949: 0xae56},
		lookupItem{ucs2: 0xcdde, cp949: 0xae57},
		lookupItem{ucs2: 0xcddf, cp949: 0xae58},
		lookupItem{ucs2: 0xcde0, cp949: 0xae59},
		lookupItem{ucs2: 0xcde1, cp949: 0xae5a},
		lookupItem{ucs2: 0xcde2, cp949: 0xae61},
		lookupItem{ucs2: 0xcde3, cp949: 0xae62},
		lookupItem{ucs2: 0xcde4, cp949: 0xae63},
		lookupItem{ucs2: 0xcde5, cp949: 0xae64},
		lookupItem{ucs2: 0xcde6, cp949: 0xae65},
		lookupItem{ucs2: 0xcde7, cp949: 0xae66},
		lookupItem{ucs2: 0xcde8, cp949: 0xc3eb},
		lookupItem{ucs2: 0xcde9, cp949: 0xae67},
		lookupItem{ucs2: 0xcdea, cp949: 0xae68},
		lookupItem{ucs2: 0xcdeb, cp949: 0xae69},
		lookupItem{ucs2: 0xcdec, cp949: 0xc3ec},
		lookupItem{ucs2: 0xcded, cp949: 0xae6a},
		lookupItem{ucs2: 0xcdee, cp949: 0xae6b},
		lookupItem{ucs2: 0xcdef, cp949: 0xae6c},
		lookupItem{ucs2: 0xcdf0, cp949: 0xc3ed},
		lookupItem{ucs2: 0xcdf1, cp949: 0xae6d},
		lookupItem{ucs2: 0xcdf2, cp949: 0xae6e},
		lookupItem{ucs2: 0xcdf3, cp949: 0xae6f},
		lookupItem{ucs2: 0xcdf4, cp949: 0xae70},
		lookupItem{ucs2: 0xcdf5, cp949: 0xae71},
		lookupItem{ucs2: 0xcdf6, cp949: 0xae72},
		lookupItem{ucs2: 0xcdf7, cp949: 0xae73},
		lookupItem{ucs2: 0xcdf8, cp949: 0xc3ee},
		lookupItem{ucs2: 0xcdf9, cp949: 0xc3ef},
		lookupItem{ucs2: 0xcdfa, cp949: 0xae74},
		lookupItem{ucs2: 0xcdfb, cp949: 0xc3f0},
		lookupItem{ucs2: 0xcdfc, cp949: 0xae75},
		lookupItem{ucs2: 0xcdfd, cp949: 0xc3f1},
		lookupItem{ucs2: 0xcdfe, cp949: 0xae76},
		lookupItem{ucs2: 0xcdff, cp949: 0xae77},
		lookupItem{ucs2: 0xce00, cp949: 0xae78},
		lookupItem{ucs2: 0xce01, cp949: 0xae79},
		lookupItem{ucs2: 0xce02, cp949: 0xae7a},
		lookupItem{ucs2: 0xce03, cp949: 0xae81},
		lookupItem{ucs2: 0xce04, cp949: 0xc3f2},
		lookupItem{ucs2: 0xce05, cp949: 0xae82},
		lookupItem{ucs2: 0xce06, cp949: 0xae83},
		lookupItem{ucs2: 0xce07, cp949: 0xae84},
		lookupItem{ucs2: 0xce08, cp949: 0xc3f3},
		lookupItem{ucs2: 0xce09, cp949: 0xae85},
		lookupItem{ucs2: 0xce0a, cp949: 0xae86},
		lookupItem{ucs2: 0xce0b, cp949: 0xae87},
		lookupItem{ucs2: 0xce0c, cp949: 0xc3f4},
		lookupItem{ucs2: 0xce0d, cp949: 0xae88},
		lookupItem{ucs2: 0xce0e, cp949: 0xae89},
		lookupItem{ucs2: 0xce0f, cp949: 0xae8a},
		lookupItem{ucs2: 0xce10, cp949: 0xae8b},
		lookupItem{ucs2: 0xce11, cp949: 0xae8c},
		lookupItem{ucs2: 0xce12, cp949: 0xae8d},
		lookupItem{ucs2: 0xce13, cp949: 0xae8e},
		lookupItem{ucs2: 0xce14, cp949: 0xc3f5},
		lookupItem{ucs2: 0xce15, cp949: 0xae8f},
		lookupItem{ucs2: 0xce16, cp949: 0xae90},
		lookupItem{ucs2: 0xce17, cp949: 0xae91},
		lookupItem{ucs2: 0xce18, cp949: 0xae92},
		lookupItem{ucs2: 0xce19, cp949: 0xc3f6},
		lookupItem{ucs2: 0xce1a, cp949: 0xae93},
		lookupItem{ucs2: 0xce1b, cp949: 0xae94},
		lookupItem{ucs2: 0xce1c, cp949: 0xae95},
		lookupItem{ucs2: 0xce1d, cp949: 0xae96},
".
Definition text_cp949_lookup_to_057 : string :=
"		lookupItem{ucs2: 0xce1e, cp949: 0xae97},
		lookupItem{ucs2: 0xce1f, cp949: 0xae98},
		lookupItem{ucs2: 0xce20, cp949: 0xc3f7},
		lookupItem{ucs2: 0xce21, cp949: 0xc3f8},
		lookupItem{ucs2: 0xce22, cp949: 0xae99},
		lookupItem{ucs2: 0xce23, cp949: 0xae9a},
		lookupItem{ucs2: 0xce24, cp949: 0xc3f9},
		lookupItem{ucs2: 0xce25, cp949: 0xae9b},
		lookupItem{ucs2: 0xce26, cp949: 0xae9c},
		lookupItem{ucs2: 0xce27, cp949: 0xae9d},
		lookupItem{ucs2: 0xce28, cp949: 0xc3fa},
		lookupItem{ucs2: 0xce29, cp949: 0xae9e},
		lookupItem{ucs2: 0xce2a, cp949: 0xae9f},
		lookupItem{ucs2: 0xce2b, cp949: 0xaea0},
		lookupItem{ucs2: 0xce2c, cp949: 0xaf41},
		lookupItem{ucs2: 0xce2d, cp949: 0xaf42},
		lookupItem{ucs2: 0xce2e, cp949: 0xaf43},
		lookupItem{ucs2: 0xce2f, cp949: 0xaf44},
		lookupItem{ucs2: 0xce30, cp949: 0xc3fb},
		lookupItem{ucs2: 0xce31, cp949: 0xc3fc},
		lookupItem{ucs2: 0xce32, cp949: 0xaf45},
		lookupItem{ucs2: 0xce33, cp949: 0xc3fd},
		lookupItem{ucs2: 0xce34, cp949: 0xaf46},
		lookupItem{ucs2: 0xce35, cp949: 0xc3fe},
		lookupItem{ucs2: 0xce36, cp949: 0xaf47},
		lookupItem{ucs2: 0xce37, cp949: 0xaf48},
		lookupItem{ucs2: 0xce38, cp949: 0xaf49},
		lookupItem{ucs2: 0xce39, cp949: 0xaf4a},
		lookupItem{ucs2: 0xce3a, cp949: 0xaf4b},
		lookupItem{ucs2: 0xce3b, cp949: 0xaf4c},
		lookupItem{ucs2: 0xce3c, cp949: 0xaf4d},
		lookupItem{ucs2: 0xce3d, cp949: 0xaf4e},
		lookupItem{ucs2: 0xce3e, cp949: 0xaf4f},
		lookupItem{ucs2: 0xce3f, cp949: 0xaf50},
		lookupItem{ucs2: 0xce40, cp949: 0xaf51},
		lookupItem{ucs2: 0xce41, cp949: 0xaf52},
		lookupItem{ucs2: 0xce42, cp949: 0xaf53},
		lookupItem{ucs2: 0xce43, cp949: 0xaf54},
		lookupItem{ucs2: 0xce44, cp949: 0xaf55},
		lookupItem{ucs2: 0xce45, cp949: 0xaf56},
		lookupItem{ucs2: 0xce46, cp949: 0xaf57},
		lookupItem{ucs2: 0xce47, cp949: 0xaf58},
		lookupItem{ucs2: 0xce48, cp949: 0xaf59},
		lookupItem{ucs2: 0xce49, cp949: 0xaf5a},
		lookupItem{ucs2: 0xce4a, cp949: 0xaf61},
		lookupItem{ucs2: 0xce4b, cp949: 0xaf62},
		lookupItem{ucs2: 0xce4c, cp949: 0xaf63},
		lookupItem{ucs2: 0xce4d, cp949: 0xaf64},
		lookupItem{ucs2: 0xce4e, cp949: 0xaf65},
		lookupItem{ucs2: 0xce4f, cp949: 0xaf66},
		lookupItem{ucs2: 0xce50, cp949: 0xaf67},
		lookupItem{ucs2: 0xce51, cp949: 0xaf68},
		lookupItem{ucs2: 0xce52, cp949: 0xaf69},
		lookupItem{ucs2: 0xce53, cp949: 0xaf6a},
		lookupItem{ucs2: 0xce54, cp949: 0xaf6b},
		lookupItem{ucs2: 0xce55, cp949: 0xaf6c},
		lookupItem{ucs2: 0xce56, cp949: 0xaf6d},
		lookupItem{ucs2: 0xce57, cp949: 0xaf6e},
		lookupItem{ucs2: 0xce58, cp949: 0xc4a1},
		lookupItem{ucs2: 0xce59, cp949: 0xc4a2},
		lookupItem{ucs2: 0xce5a, cp949: 0xaf6f},
		lookupItem{ucs2: 0xce5b, cp949: 0xaf70},
		lookupItem{ucs2: 0xce5c, cp949: 0xc4a3},
		lookupItem{ucs2: 0xce5d, cp949: 0xaf71},
		lookupItem{ucs2: 0xce5e, cp949: 0xaf72},
		lookupItem{ucs2: 0xce5f, cp949: 0xc4a4},
		lookupItem{ucs2: 0xce60, cp949: 0xc4a5},
		lookupItem{ucs2: 0xce61, cp949: 0xc4a6},
		lookupItem{ucs2: 0xce62, cp949: 0xaf73},
		lookupItem{ucs2: 0xce63, cp949: 0xaf74},
		lookupItem{ucs2: 0xce64, cp949: 0xaf75},
		lookupItem{ucs2: 0xce65, cp949: 0xaf76},
		lookupItem{ucs2: 0xce66, cp949: 0xaf77},
		lookupItem{ucs2: 0xce67, cp949: 0xaf78},
		lookupItem{ucs2: 0xce68, cp949: 0xc4a7},
		lookupItem{ucs2: 0xce69, cp949: 0xc4a8},
		lookupItem{ucs2: 0xce6a, cp949: 0xaf79},
		lookupItem{ucs2: 0xce6b, cp949: 0xc4a9},
		lookupItem{ucs2: 0xce6c, cp949: 0xaf7a},
		lookupItem{ucs2: 0xce6d, cp949: 0xc4aa},
		lookupItem{ucs2: 0xce6e, cp949: 0xaf81},
		lookupItem{ucs2: 0xce6f, cp949: 0xaf82},
		lookupItem{ucs2: 0xce70, cp949: 0xaf83},
		lookupItem{ucs2: 0xce71, cp949: 0xaf84},
		lookupItem{ucs2: 0xce72, cp949: 0xaf85},
		lookupItem{ucs2: 0xce73, cp949: 0xaf86},
		lookupItem{ucs2: 0xce74, cp949: 0xc4ab},
		lookupItem{ucs2: 0xce75, cp949: 0xc4ac},
		lookupItem{ucs2: 0xce76, cp949: 0xaf87},
		lookupItem{ucs2: 0xce77, cp949: 0xaf88},
		lookupItem{ucs2: 0xce78, cp949: 0xc4ad},
		lookupItem{ucs2: 0xce79, cp949: 0xaf89},
		lookupItem{ucs2: 0xce7a, cp949: 0xaf8a},
		lookupItem{ucs2: 0xce7b, cp949: 0xaf8b},
		lookupItem{ucs2: 0xce7c, cp949: 0xc4ae},
		lookupItem{ucs2: 0xce7d, cp949: 0xaf8c},
		lookupItem{ucs2: 0xce7e, cp949: 0xaf8d},
		lookupItem{ucs2: 0xce7f, cp949: 0xaf8e},
		lookupItem{ucs2: 0xce80, cp949: 0xaf8f},
		lookupItem{ucs2: 0xce81, cp949: 0xaf90},
		lookupItem{ucs2: 0xce82, cp949: 0xaf91},
		lookupItem{ucs2: 0xce83, cp949: 0xaf92},
		lookupItem{ucs2: 0xce84, cp949: 0xc4af},
		lookupItem{ucs2: 0xce85, cp949: 0xc4b0},
		lookupItem{ucs2: 0xce86, cp949: 0xaf93},
		lookupItem{ucs2: 0xce87, cp949: 0xc4b1},
		lookupItem{ucs2: 0xce88, cp949: 0xaf94},
		lookupItem{ucs2: 0xce89, cp949: 0xc4b2},
		lookupItem{ucs2: 0xce8a, cp949: 0xaf95},
		lookupItem{ucs2: 0xce8b, cp949: 0xaf96},
		lookupItem{ucs2: 0xce8c, cp949: 0xaf97},
		lookupItem{ucs2: 0xce8d, cp949: 0xaf98},
		lookupItem{ucs2: 0xce8e, cp949: 0xaf99},
		lookupItem{ucs2: 0xce8f, cp949: 0xaf9a},
		lookupItem{ucs2: 0xce90, cp949: 0xc4b3},
		lookupItem{ucs2: 0xce91, cp949: 0xc4b4},
		lookupItem{ucs2: 0xce92, cp949: 0xaf9b},
		lookupItem{ucs2: 0xce93, cp949: 0xaf9c},
		lookupItem{ucs2: 0xce94, cp949: 0xc4b5},
		lookupItem{ucs2: 0xce95, cp949: 0xaf9d},
		lookupItem{ucs2: 0xce96, cp949: 0xaf9e},
		lookupItem{ucs2: 0xce97, cp949: 0xaf9f},
		lookupItem{ucs2: 0xce98, cp949: 0xc4b6},
		lookupItem{ucs2: 0xce99, cp949: 0xafa0},
		lookupItem{ucs2: 0xce9a, cp949: 0xb041},
		lookupItem{ucs2: 0xce9b, cp949: 0xb042},
		lookupItem{ucs2: 0xce9c, cp949: 0xb043},
		lookupItem{ucs2: 0xce9d, cp949: 0xb044},
		lookupItem{ucs2: 0xce9e, cp949: 0xb045},
		lookupItem{ucs2: 0xce9f, cp949: 0xb046},
		lookupItem{ucs2: 0xcea0, cp949: 0xc4b7},
		lookupItem{ucs2: 0xcea1, cp949: 0xc4b8},
		lookupItem{ucs2: 0xcea2, cp949: 0xb047},
		lookupItem{ucs2: 0xcea3, cp949: 0xc4b9},
		lookupItem{ucs2: 0xcea4, cp949: 0xc4ba},
		lookupItem{ucs2: 0xcea5, cp949: 0xc4bb},
		lookupItem{ucs2: 0xcea6, cp949: 0xb048},
		lookupItem{ucs2: 0xcea7, cp949: 0xb049},
		lookupItem{ucs2: 0xcea8, cp949: 0xb04a},
		lookupItem{ucs2: 0xcea9, cp949: 0xb04b},
		lookupItem{ucs2: 0xceaa, cp949: 0xb04c},
		lookupItem{ucs2: 0xceab, cp949: 0xb04d},
		lookupItem{ucs2: 0xceac, cp949: 0xc4bc},
		lookupItem{ucs2: 0xcead, cp949: 0xc4bd},
		lookupItem{ucs2: 0xceae, cp949: 0xb04e},
		lookupItem{ucs2: 0xceaf, cp949: 0xb04f},
		lookupItem{ucs2: 0xceb0, cp949: 0xb050},
		lookupItem{ucs2: 0xceb1, cp949: 0xb051},
		lookupItem{ucs2: 0xceb2, cp949: 0xb052},
		lookupItem{ucs2: 0xceb3, cp949: 0xb053},
		lookupItem{ucs2: 0xceb4, cp949: 0xb054},
		lookupItem{ucs2: 0xceb5, cp949: 0xb055},
		lookupItem{ucs2: 0xceb6, cp949: 0xb056},
		lookupItem{ucs2: 0xceb7, cp949: 0xb057},
		lookupItem{ucs2: 0xceb8, cp949: 0xb058},
		lookupItem{ucs2: 0xceb9, cp949: 0xb059},
		lookupItem{ucs2: 0xceba, cp949: 0xb05a},
		lookupItem{ucs2: 0xcebb, cp949: 0xb061},
		lookupItem{ucs2: 0xcebc, cp949: 0xb062},
		lookupItem{ucs2: 0xcebd, cp949: 0xb063},
		lookupItem{ucs2: 0xcebe, cp949: 0xb064},
		lookupItem{ucs2: 0xcebf, cp949: 0xb065},
		lookupItem{ucs2: 0xcec0, cp949: 0xb066},
		lookupItem{ucs2: 0xcec1, cp949: 0xc4be},
		lookupItem{ucs2: 0xcec2, cp949: 0xb067},
		lookupItem{ucs2: 0xcec3, cp949: 0xb068},
		lookupItem{ucs2: 0xcec4, cp949: 0xb069},
		lookupItem{ucs2: 0xcec5, cp949: 0xb06a},
		lookupItem{ucs2: 0xcec6, cp949: 0xb06b},
		lookupItem{ucs2: 0xcec7, cp949: 0xb06c},
		lookupItem{ucs2: 0xcec8, cp949: 0xb06d},
		lookupItem{ucs2: 0xcec9, cp949: 0xb06e},
		lookupItem{ucs2: 0xceca, cp949: 0xb06f},
		lookupItem{ucs2: 0xcecb, cp949: 0xb070},
		lookupItem{ucs2: 0xcecc, cp949: 0xb071},
		lookupItem{ucs2: 0xcecd, cp949: 0xb072},
		lookupItem{ucs2: 0xcece, cp949: 0xb073},
		lookupItem{ucs2: 0xcecf, cp949: 0xb074},
		lookupItem{ucs2: 0xced0, cp949: 0xb075},
		lookupItem{ucs2: 0xced1, cp949: 0xb076},
		lookupItem{ucs2: 0xced2, cp949: 0xb077},
		lookupItem{ucs2: 0xced3, cp949: 0xb078},
		lookupItem{ucs2: 0xced4, cp949: 0xb079},
		lookupItem{ucs2: 0xced5, cp949: 0xb07a},
		lookupItem{ucs2: 0xced6, cp949: 0xb081},
		lookupItem{ucs2: 0xced7, cp949: 0xb082},
		lookupItem{ucs2: 0xced8, cp949: 0xb083},
		lookupItem{ucs2: 0xced9, cp949: 0xb084},
		lookupItem{ucs2: 0xceda, cp949: 0xb085},
		lookupItem{ucs2: 0xcedb, cp949: 0xb086},
		lookupItem{ucs2: 0xcedc, cp949: 0xb087},
		lookupItem{ucs2: 0xcedd, cp949: 0xb088},
		lookupItem{ucs2: 0xcede, cp949: 0xb089},
		lookupItem{ucs2: 0xcedf, cp949: 0xb08a},
		lookupItem{ucs2: 0xcee0, cp949: 0xb08b},
		lookupItem{ucs2: 0xcee1, cp949: 0xb08c},
		lookupItem{ucs2: 0xcee2, cp949: 0xb08d},
		lookupItem{ucs2: 0xcee3, cp949: 0xb08e},
		lookupItem{ucs2: 0xcee4, cp949: 0xc4bf},
		lookupItem{ucs2: 0xcee5, cp949: 0xc4c0},
		lookupItem{ucs2: 0xcee6, cp949: 0xb08f},
		lookupItem{ucs2: 0xcee7, cp949: 0xb090},
		lookupItem{ucs2: 0xcee8, cp949: 0xc4c1},
		lookupItem{ucs2: 0xcee9, cp949: 0xb091},
		lookupItem{ucs2: 0xceea, cp949: 0xb092},
		lookupItem{ucs2: 0xceeb, cp949: 0xc4c2},
		lookupItem{ucs2: 0xceec, cp949: 0xc4c3},
		lookupItem{ucs2: 0xceed, cp949: 0xb093},
		lookupItem{ucs2: 0xceee, cp949: 0xb094},
		lookupItem{ucs2: 0xceef, cp949: 0xb095},
		lookupItem{ucs2: 0xcef0, cp949: 0xb096},
		lookupItem{ucs2: 0xcef1, cp949: 0xb097},
		lookupItem{ucs2: 0xcef2, cp949: 0xb098},
		lookupItem{ucs2: 0xcef3, cp949: 0xb099},
		lookupItem{ucs2: 0xcef4, cp949: 0xc4c4},
		lookupItem{ucs2: 0xcef5, cp949: 0xc4c5},
		lookupItem{ucs2: 0xcef6, cp949: 0xb09a},
		lookupItem{ucs2: 0xcef7, cp949: 0xc4c6},
		lookupItem{ucs2: 0xcef8, cp949: 0xc4c7},
		lookupItem{ucs2: 0xcef9, cp949: 0xc4c8},
		lookupItem{ucs2: 0xcefa, cp949: 0xb09b},
		lookupItem{ucs2: 0xcefb, cp949: 0xb09c},
		lookupItem{ucs2: 0xcefc, cp949: 0xb09d},
		lookupItem{ucs2: 0xcefd, cp949: 0xb09e},
		lookupItem{ucs2: 0xcefe, cp949: 0xb09f},
		lookupItem{ucs2: 0xceff, cp949: 0xb0a0},
		lookupItem{ucs2: 0xcf00, cp949: 0xc4c9},
		lookupItem{ucs2: 0xcf01, cp949: 0xc4ca},
		lookupItem{ucs2: 0xcf02, cp949: 0xb141},
		lookupItem{ucs2: 0xcf03, cp949: 0xb142},
		lookupItem{ucs2: 0xcf04, cp949: 0xc4cb},
		lookupItem{ucs2: 0xcf05, cp949: 0xb143},
		lookupItem{ucs2: 0xcf06, cp949: 0xb144},
		lookupItem{ucs2: 0xcf07, cp949: 0xb145},
		lookupItem{ucs2: 0xcf08, cp949: 0xc4cc},
		lookupItem{ucs2: 0xcf09, cp949: 0xb146},
		lookupItem{ucs2: 0xcf0a, cp949: 0xb147},
		lookupItem{ucs2: 0xcf0b, cp949: 0xb148},
		lookupItem{ucs2: 0xcf0c, cp949: 0xb149},
		lookupItem{ucs2: 0xcf0d, cp949: 0xb14a},
		lookupItem{ucs2: 0xcf0e, cp949: 0xb14b},
		lookupItem{ucs2: 0xcf0f, cp949: 0xb14c},
		lookupItem{ucs2: 0xcf10, cp949: 0xc4cd},
		lookupItem{ucs2: 0xcf11, cp949: 0xc4ce},
		lookupItem{ucs2: 0xcf12, cp949: 0xb14d},
		lookupItem{ucs2: 0xcf13, cp949: 0xc4cf},
		lookupItem{ucs2: 0xcf14, cp949: 0xb14e},
		lookupItem{ucs2: 0xcf15, cp949: 0xc4d0},
		lookupItem{ucs2: 0xcf16, cp949: 0xb14f},
		lookupItem{ucs2: 0xcf17, cp949: 0xb150},
".
Definition text_cp949_lookup_to_058 : string :=
"		lookupItem{ucs2: 0xcf18, cp949: 0xb151},
		lookupItem{ucs2: 0xcf19, cp949: 0xb152},
		lookupItem{ucs2: 0xcf1a, cp949: 0xb153},
		lookupItem{ucs2: 0xcf1b, cp949: 0xb154},
		lookupItem{ucs2: 0xcf1c, cp949: 0xc4d1},
		lookupItem{ucs2: 0xcf1d, cp949: 0xb155},
		lookupItem{ucs2: 0xcf1e, cp949: 0xb156},
		lookupItem{ucs2: 0xcf1f, cp949: 0xb157},
		lookupItem{ucs2: 0xcf20, cp949: 0xc4d2},
		lookupItem{ucs2: 0xcf21, cp949: 0xb158},
		lookupItem{ucs2: 0xcf22, cp949: 0xb159},
		lookupItem{ucs2: 0xcf23, cp949: 0xb15a},
		lookupItem{ucs2: 0xcf24, cp949: 0xc4d3},
		lookupItem{ucs2: 0xcf25, cp949: 0xb161},
		lookupItem{ucs2: 0xcf26, cp949: 0xb162},
		lookupItem{ucs2: 0xcf27, cp949: 0xb163},
		lookupItem{ucs2: 0xcf28, cp949: 0xb164},
		lookupItem{ucs2: 0xcf29, cp949: 0xb165},
		lookupItem{ucs2: 0xcf2a, cp949: 0xb166},
		lookupItem{ucs2: 0xcf2b, cp949: 0xb167},
		lookupItem{ucs2: 0xcf2c, cp949: 0xc4d4},
		lookupItem{ucs2: 0xcf2d, cp949: 0xc4d5},
		lookupItem{ucs2: 0xcf2e, cp949: 0xb168},
		lookupItem{ucs2: 0xcf2f, cp949: 0xc4d6},
		lookupItem{ucs2: 0xcf30, cp949: 0xc4d7},
		lookupItem{ucs2: 0xcf31, cp949: 0xc4d8},
		lookupItem{ucs2: 0xcf32, cp949: 0xb169},
		lookupItem{ucs2: 0xcf33, cp949: 0xb16a},
		lookupItem{ucs2: 0xcf34, cp949: 0xb16b},
		lookupItem{ucs2: 0xcf35, cp949: 0xb16c},
		lookupItem{ucs2: 0xcf36, cp949: 0xb16d},
		lookupItem{ucs2: 0xcf37, cp949: 0xb16e},
		lookupItem{ucs2: 0xcf38, cp949: 0xc4d9},
		lookupItem{ucs2: 0xcf39, cp949: 0xb16f},
		lookupItem{ucs2: 0xcf3a, cp949: 0xb170},
		lookupItem{ucs2: 0xcf3b, cp949: 0xb171},
		lookupItem{ucs2: 0xcf3c, cp949: 0xb172},
		lookupItem{ucs2: 0xcf3d, cp949: 0xb173},
		lookupItem{ucs2: 0xcf3e, cp949: 0xb174},
		lookupItem{ucs2: 0xcf3f, cp949: 0xb175},
		lookupItem{ucs2: 0xcf40, cp949: 0xb176},
		lookupItem{ucs2: 0xcf41, cp949: 0xb177},
		lookupItem{ucs2: 0xcf42, cp949: 0xb178},
		lookupItem{ucs2: 0xcf43, cp949: 0xb179},
		lookupItem{ucs2: 0xcf44, cp949: 0xb17a},
		lookupItem{ucs2: 0xcf45, cp949: 0xb181},
		lookupItem{ucs2: 0xcf46, cp949: 0xb182},
		lookupItem{ucs2: 0xcf47, cp949: 0xb183},
		lookupItem{ucs2: 0xcf48, cp949: 0xb184},
		lookupItem{ucs2: 0xcf49, cp949: 0xb185},
		lookupItem{ucs2: 0xcf4a, cp949: 0xb186},
		lookupItem{ucs2: 0xcf4b, cp949: 0xb187},
		lookupItem{ucs2: 0xcf4c, cp949: 0xb188},
		lookupItem{ucs2: 0xcf4d, cp949: 0xb189},
		lookupItem{ucs2: 0xcf4e, cp949: 0xb18a},
		lookupItem{ucs2: 0xcf4f, cp949: 0xb18b},
		lookupItem{ucs2: 0xcf50, cp949: 0xb18c},
		lookupItem{ucs2: 0xcf51, cp949: 0xb18d},
		lookupItem{ucs2: 0xcf52, cp949: 0xb18e},
		lookupItem{ucs2: 0xcf53, cp949: 0xb18f},
		lookupItem{ucs2: 0xcf54, cp949: 0xc4da},
		lookupItem{ucs2: 0xcf55, cp949: 0xc4db},
		lookupItem{ucs2: 0xcf56, cp949: 0xb190},
		lookupItem{ucs2: 0xcf57, cp949: 0xb191},
		lookupItem{ucs2: 0xcf58, cp949: 0xc4dc},
		lookupItem{ucs2: 0xcf59, cp949: 0xb192},
		lookupItem{ucs2: 0xcf5a, cp949: 0xb193},
		lookupItem{ucs2: 0xcf5b, cp949: 0xb194},
		lookupItem{ucs2: 0xcf5c, cp949: 0xc4dd},
		lookupItem{ucs2: 0xcf5d, cp949: 0xb195},
		lookupItem{ucs2: 0xcf5e, cp949: 0xb196},
		lookupItem{ucs2: 0xcf5f, cp949: 0xb197},
		lookupItem{ucs2: 0xcf60, cp949: 0xb198},
		lookupItem{ucs2: 0xcf61, cp949: 0xb199},
		lookupItem{ucs2: 0xcf62, cp949: 0xb19a},
		lookupItem{ucs2: 0xcf63, cp949: 0xb19b},
		lookupItem{ucs2: 0xcf64, cp949: 0xc4de},
		lookupItem{ucs2: 0xcf65, cp949: 0xc4df},
		lookupItem{ucs2: 0xcf66, cp949: 0xb19c},
		lookupItem{ucs2: 0xcf67, cp949: 0xc4e0},
		lookupItem{ucs2: 0xcf68, cp949: 0xb19d},
		lookupItem{ucs2: 0xcf69, cp949: 0xc4e1},
		lookupItem{ucs2: 0xcf6a, cp949: 0xb19e},
		lookupItem{ucs2: 0xcf6b, cp949: 0xb19f},
		lookupItem{ucs2: 0xcf6c, cp949: 0xb1a0},
		lookupItem{ucs2: 0xcf6d, cp949: 0xb241},
		lookupItem{ucs2: 0xcf6e, cp949: 0xb242},
		lookupItem{ucs2: 0xcf6f, cp949: 0xb243},
		lookupItem{ucs2: 0xcf70, cp949: 0xc4e2},
		lookupItem{ucs2: 0xcf71, cp949: 0xc4e3},
		lookupItem{ucs2: 0xcf72, cp949: 0xb244},
		lookupItem{ucs2: 0xcf73, cp949: 0xb245},
		lookupItem{ucs2: 0xcf74, cp949: 0xc4e4},
		lookupItem{ucs2: 0xcf75, cp949: 0xb246},
		lookupItem{ucs2: 0xcf76, cp949: 0xb247},
		lookupItem{ucs2: 0xcf77, cp949: 0xb248},
		lookupItem{ucs2: 0xcf78, cp949: 0xc4e5},
		lookupItem{ucs2: 0xcf79, cp949: 0xb249},
		lookupItem{ucs2: 0xcf7a, cp949: 0xb24a},
		lookupItem{ucs2: 0xcf7b, cp949: 0xb24b},
		lookupItem{ucs2: 0xcf7c, cp949: 0xb24c},
		lookupItem{ucs2: 0xcf7d, cp949: 0xb24d},
		lookupItem{ucs2: 0xcf7e, cp949: 0xb24e},
		lookupItem{ucs2: 0xcf7f, cp949: 0xb24f},
		lookupItem{ucs2: 0xcf80, cp949: 0xc4e6},
		lookupItem{ucs2: 0xcf81, cp949: 0xb250},
		lookupItem{ucs2: 0xcf82, cp949: 0xb251},
		lookupItem{ucs2: 0xcf83, cp949: 0xb252},
		lookupItem{ucs2: 0xcf84, cp949: 0xb253},
		lookupItem{ucs2: 0xcf85, cp949: 0xc4e7},
		lookupItem{ucs2: 0xcf86, cp949: 0xb254},
		lookupItem{ucs2: 0xcf87, cp949: 0xb255},
		lookupItem{ucs2: 0xcf88, cp949: 0xb256},
		lookupItem{ucs2: 0xcf89, cp949: 0xb257},
		lookupItem{ucs2: 0xcf8a, cp949: 0xb258},
		lookupItem{ucs2: 0xcf8b, cp949: 0xb259},
		lookupItem{ucs2: 0xcf8c, cp949: 0xc4e8},
		lookupItem{ucs2: 0xcf8d, cp949: 0xb25a},
		lookupItem{ucs2: 0xcf8e, cp949: 0xb261},
		lookupItem{ucs2: 0xcf8f, cp949: 0xb262},
		lookupItem{ucs2: 0xcf90, cp949: 0xb263},
		lookupItem{ucs2: 0xcf91, cp949: 0xb264},
		lookupItem{ucs2: 0xcf92, cp949: 0xb265},
		lookupItem{ucs2: 0xcf93, cp949: 0xb266},
		lookupItem{ucs2: 0xcf94, cp949: 0xb267},
		lookupItem{ucs2: 0xcf95, cp949: 0xb268},
		lookupItem{ucs2: 0xcf96, cp949: 0xb269},
		lookupItem{ucs2: 0xcf97, cp949: 0xb26a},
		lookupItem{ucs2: 0xcf98, cp949: 0xb26b},
		lookupItem{ucs2: 0xcf99, cp949: 0xb26c},
		lookupItem{ucs2: 0xcf9a, cp949: 0xb26d},
		lookupItem{ucs2: 0xcf9b, cp949: 0xb26e},
		lookupItem{ucs2: 0xcf9c, cp949: 0xb26f},
		lookupItem{ucs2: 0xcf9d, cp949: 0xb270},
		lookupItem{ucs2: 0xcf9e, cp949: 0xb271},
		lookupItem{ucs2: 0xcf9f, cp949: 0xb272},
		lookupItem{ucs2: 0xcfa0, cp949: 0xb273},
		lookupItem{ucs2: 0xcfa1, cp949: 0xc4e9},
		lookupItem{ucs2: 0xcfa2, cp949: 0xb274},
		lookupItem{ucs2: 0xcfa3, cp949: 0xb275},
		lookupItem{ucs2: 0xcfa4, cp949: 0xb276},
		lookupItem{ucs2: 0xcfa5, cp949: 0xb277},
		lookupItem{ucs2: 0xcfa6, cp949: 0xb278},
		lookupItem{ucs2: 0xcfa7, cp949: 0xb279},
		lookupItem{ucs2: 0xcfa8, cp949: 0xc4ea},
		lookupItem{ucs2: 0xcfa9, cp949: 0xb27a},
		lookupItem{ucs2: 0xcfaa, cp949: 0xb281},
		lookupItem{ucs2: 0xcfab, cp949: 0xb282},
		lookupItem{ucs2: 0xcfac, cp949: 0xb283},
		lookupItem{ucs2: 0xcfad, cp949: 0xb284},
		lookupItem{ucs2: 0xcfae, cp949: 0xb285},
		lookupItem{ucs2: 0xcfaf, cp949: 0xb286},
		lookupItem{ucs2: 0xcfb0, cp949: 0xc4eb},
		lookupItem{ucs2: 0xcfb1, cp949: 0xb287},
		lookupItem{ucs2: 0xcfb2, cp949: 0xb288},
		lookupItem{ucs2: 0xcfb3, cp949: 0xb289},
		lookupItem{ucs2: 0xcfb4, cp949: 0xb28a},
		lookupItem{ucs2: 0xcfb5, cp949: 0xb28b},
		lookupItem{ucs2: 0xcfb6, cp949: 0xb28c},
		lookupItem{ucs2: 0xcfb7, cp949: 0xb28d},
		lookupItem{ucs2: 0xcfb8, cp949: 0xb28e},
		lookupItem{ucs2: 0xcfb9, cp949: 0xb28f},
		lookupItem{ucs2: 0xcfba, cp949: 0xb290},
		lookupItem{ucs2: 0xcfbb, cp949: 0xb291},
		lookupItem{ucs2: 0xcfbc, cp949: 0xb292},
		lookupItem{ucs2: 0xcfbd, cp949: 0xb293},
		lookupItem{ucs2: 0xcfbe, cp949: 0xb294},
		lookupItem{ucs2: 0xcfbf, cp949: 0xb295},
		lookupItem{ucs2: 0xcfc0, cp949: 0xb296},
		lookupItem{ucs2: 0xcfc1, cp949: 0xb297},
		lookupItem{ucs2: 0xcfc2, cp949: 0xb298},
		lookupItem{ucs2: 0xcfc3, cp949: 0xb299},
		lookupItem{ucs2: 0xcfc4, cp949: 0xc4ec},
		lookupItem{ucs2: 0xcfc5, cp949: 0xb29a},
		lookupItem{ucs2: 0xcfc6, cp949: 0xb29b},
		lookupItem{ucs2: 0xcfc7, cp949: 0xb29c},
		lookupItem{ucs2: 0xcfc8, cp949: 0xb29d},
		lookupItem{ucs2: 0xcfc9, cp949: 0xb29e},
		lookupItem{ucs2: 0xcfca, cp949: 0xb29f},
		lookupItem{ucs2: 0xcfcb, cp949: 0xb2a0},
		lookupItem{ucs2: 0xcfcc, cp949: 0xb341},
		lookupItem{ucs2: 0xcfcd, cp949: 0xb342},
		lookupItem{ucs2: 0xcfce, cp949: 0xb343},
		lookupItem{ucs2: 0xcfcf, cp949: 0xb344},
		lookupItem{ucs2: 0xcfd0, cp949: 0xb345},
		lookupItem{ucs2: 0xcfd1, cp949: 0xb346},
		lookupItem{ucs2: 0xcfd2, cp949: 0xb347},
		lookupItem{ucs2: 0xcfd3, cp949: 0xb348},
		lookupItem{ucs2: 0xcfd4, cp949: 0xb349},
		lookupItem{ucs2: 0xcfd5, cp949: 0xb34a},
		lookupItem{ucs2: 0xcfd6, cp949: 0xb34b},
		lookupItem{ucs2: 0xcfd7, cp949: 0xb34c},
		lookupItem{ucs2: 0xcfd8, cp949: 0xb34d},
		lookupItem{ucs2: 0xcfd9, cp949: 0xb34e},
		lookupItem{ucs2: 0xcfda, cp949: 0xb34f},
		lookupItem{ucs2: 0xcfdb, cp949: 0xb350},
		lookupItem{ucs2: 0xcfdc, cp949: 0xb351},
		lookupItem{ucs2: 0xcfdd, cp949: 0xb352},
		lookupItem{ucs2: 0xcfde, cp949: 0xb353},
		lookupItem{ucs2: 0xcfdf, cp949: 0xb354},
		lookupItem{ucs2: 0xcfe0, cp949: 0xc4ed},
		lookupItem{ucs2: 0xcfe1, cp949: 0xc4ee},
		lookupItem{ucs2: 0xcfe2, cp949: 0xb355},
		lookupItem{ucs2: 0xcfe3, cp949: 0xb356},
		lookupItem{ucs2: 0xcfe4, cp949: 0xc4ef},
		lookupItem{ucs2: 0xcfe5, cp949: 0xb357},
		lookupItem{ucs2: 0xcfe6, cp949: 0xb358},
		lookupItem{ucs2: 0xcfe7, cp949: 0xb359},
		lookupItem{ucs2: 0xcfe8, cp949: 0xc4f0},
		lookupItem{ucs2: 0xcfe9, cp949: 0xb35a},
		lookupItem{ucs2: 0xcfea, cp949: 0xb361},
		lookupItem{ucs2: 0xcfeb, cp949: 0xb362},
		lookupItem{ucs2: 0xcfec, cp949: 0xb363},
		lookupItem{ucs2: 0xcfed, cp949: 0xb364},
		lookupItem{ucs2: 0xcfee, cp949: 0xb365},
		lookupItem{ucs2: 0xcfef, cp949: 0xb366},
		lookupItem{ucs2: 0xcff0, cp949: 0xc4f1},
		lookupItem{ucs2: 0xcff1, cp949: 0xc4f2},
		lookupItem{ucs2: 0xcff2, cp949: 0xb367},
		lookupItem{ucs2: 0xcff3, cp949: 0xc4f3},
		lookupItem{ucs2: 0xcff4, cp949: 0xb368},
		lookupItem{ucs2: 0xcff5, cp949: 0xc4f4},
		lookupItem{ucs2: 0xcff6, cp949: 0xb369},
		lookupItem{ucs2: 0xcff7, cp949: 0xb36a},
		lookupItem{ucs2: 0xcff8, cp949: 0xb36b},
		lookupItem{ucs2: 0xcff9, cp949: 0xb36c},
		lookupItem{ucs2: 0xcffa, cp949: 0xb36d},
		lookupItem{ucs2: 0xcffb, cp949: 0xb36e},
		lookupItem{ucs2: 0xcffc, cp949: 0xc4f5},
		lookupItem{ucs2: 0xcffd, cp949: 0xb36f},
		lookupItem{ucs2: 0xcffe, cp949: 0xb370},
		lookupItem{ucs2: 0xcfff, cp949: 0xb371},
		lookupItem{ucs2: 0xd000, cp949: 0xc4f6},
		lookupItem{ucs2: 0xd001, cp949: 0xb372},
		lookupItem{ucs2: 0xd002, cp949: 0xb373},
		lookupItem{ucs2: 0xd003, cp949: 0xb374},
		lookupItem{ucs2: 0xd004, cp949: 0xc4f7},
		lookupItem{ucs2: 0xd005, cp949: 0xb375},
		lookupItem{ucs2: 0xd006, cp949: 0xb376},
		lookupItem{ucs2: 0xd007, cp949: 0xb377},
		lookupItem{ucs2: 0xd008, cp949: 0xb378},
		lookupItem{ucs2: 0xd009, cp949: 0xb379},
		lookupItem{ucs2: 0xd00a, cp949: 0xb37a},
		lookupItem{ucs2: 0xd00b, cp949: 0xb381},
		lookupItem{ucs2: 0xd00c, cp949: 0xb382},
		lookupItem{ucs2: 0xd00d, cp949: 0xb383},
		lookupItem{ucs2: 0xd00e, cp949: 0xb384},
		lookupItem{ucs2: 0xd00f, cp949: 0xb385},
		lookupItem{ucs2: 0xd010, cp949: 0xb386},
		lookupItem{ucs2: 0xd011, cp949: 0xc4f8},
".
Definition text_cp949_lookup_to_059 : string :=
"		lookupItem{ucs2: 0xd012, cp949: 0xb387},
		lookupItem{ucs2: 0xd013, cp949: 0xb388},
		lookupItem{ucs2: 0xd014, cp949: 0xb389},
		lookupItem{ucs2: 0xd015, cp949: 0xb38a},
		lookupItem{ucs2: 0xd016, cp949: 0xb38b},
		lookupItem{ucs2: 0xd017, cp949: 0xb38c},
		lookupItem{ucs2: 0xd018, cp949: 0xc4f9},
		lookupItem{ucs2: 0xd019, cp949: 0xb38d},
		lookupItem{ucs2: 0xd01a, cp949: 0xb38e},
		lookupItem{ucs2: 0xd01b, cp949: 0xb38f},
		lookupItem{ucs2: 0xd01c, cp949: 0xb390},
		lookupItem{ucs2: 0xd01d, cp949: 0xb391},
		lookupItem{ucs2: 0xd01e, cp949: 0xb392},
		lookupItem{ucs2: 0xd01f, cp949: 0xb393},
		lookupItem{ucs2: 0xd020, cp949: 0xb394},
		lookupItem{ucs2: 0xd021, cp949: 0xb395},
		lookupItem{ucs2: 0xd022, cp949: 0xb396},
		lookupItem{ucs2: 0xd023, cp949: 0xb397},
		lookupItem{ucs2: 0xd024, cp949: 0xb398},
		lookupItem{ucs2: 0xd025, cp949: 0xb399},
		lookupItem{ucs2: 0xd026, cp949: 0xb39a},
		lookupItem{ucs2: 0xd027, cp949: 0xb39b},
		lookupItem{ucs2: 0xd028, cp949: 0xb39c},
		lookupItem{ucs2: 0xd029, cp949: 0xb39d},
		lookupItem{ucs2: 0xd02a, cp949: 0xb39e},
		lookupItem{ucs2: 0xd02b, cp949: 0xb39f},
		lookupItem{ucs2: 0xd02c, cp949: 0xb3a0},
		lookupItem{ucs2: 0xd02d, cp949: 0xc4fa},
		lookupItem{ucs2: 0xd02e, cp949: 0xb441},
		lookupItem{ucs2: 0xd02f, cp949: 0xb442},
		lookupItem{ucs2: 0xd030, cp949: 0xb443},
		lookupItem{ucs2: 0xd031, cp949: 0xb444},
		lookupItem{ucs2: 0xd032, cp949: 0xb445},
		lookupItem{ucs2: 0xd033, cp949: 0xb446},
		lookupItem{ucs2: 0xd034, cp949: 0xc4fb},
		lookupItem{ucs2: 0xd035, cp949: 0xc4fc},
		lookupItem{ucs2: 0xd036, cp949: 0xb447},
		lookupItem{ucs2: 0xd037, cp949: 0xb448},
		lookupItem{ucs2: 0xd038, cp949: 0xc4fd},
		lookupItem{ucs2: 0xd039, cp949: 0xb449},
		lookupItem{ucs2: 0xd03a, cp949: 0xb44a},
		lookupItem{ucs2: 0xd03b, cp949: 0xb44b},
		lookupItem{ucs2: 0xd03c, cp949: 0xc4fe},
		lookupItem{ucs2: 0xd03d, cp949: 0xb44c},
		lookupItem{ucs2: 0xd03e, cp949: 0xb44d},
		lookupItem{ucs2: 0xd03f, cp949: 0xb44e},
		lookupItem{ucs2: 0xd040, cp949: 0xb44f},
		lookupItem{ucs2: 0xd041, cp949: 0xb450},
		lookupItem{ucs2: 0xd042, cp949: 0xb451},
		lookupItem{ucs2: 0xd043, cp949: 0xb452},
		lookupItem{ucs2: 0xd044, cp949: 0xc5a1},
		lookupItem{ucs2: 0xd045, cp949: 0xc5a2},
		lookupItem{ucs2: 0xd046, cp949: 0xb453},
		lookupItem{ucs2: 0xd047, cp949: 0xc5a3},
		lookupItem{ucs2: 0xd048, cp949: 0xb454},
		lookupItem{ucs2: 0xd049, cp949: 0xc5a4},
		lookupItem{ucs2: 0xd04a, cp949: 0xb455},
		lookupItem{ucs2: 0xd04b, cp949: 0xb456},
		lookupItem{ucs2: 0xd04c, cp949: 0xb457},
		lookupItem{ucs2: 0xd04d, cp949: 0xb458},
		lookupItem{ucs2: 0xd04e, cp949: 0xb459},
		lookupItem{ucs2: 0xd04f, cp949: 0xb45a},
		lookupItem{ucs2: 0xd050, cp949: 0xc5a5},
		lookupItem{ucs2: 0xd051, cp949: 0xb461},
		lookupItem{ucs2: 0xd052, cp949: 0xb462},
		lookupItem{ucs2: 0xd053, cp949: 0xb463},
		lookupItem{ucs2: 0xd054, cp949: 0xc5a6},
		lookupItem{ucs2: 0xd055, cp949: 0xb464},
		lookupItem{ucs2: 0xd056, cp949: 0xb465},
		lookupItem{ucs2: 0xd057, cp949: 0xb466},
		lookupItem{ucs2: 0xd058, cp949: 0xc5a7},
		lookupItem{ucs2: 0xd059, cp949: 0xb467},
		lookupItem{ucs2: 0xd05a, cp949: 0xb468},
		lookupItem{ucs2: 0xd05b, cp949: 0xb469},
		lookupItem{ucs2: 0xd05c, cp949: 0xb46a},
		lookupItem{ucs2: 0xd05d, cp949: 0xb46b},
		lookupItem{ucs2: 0xd05e, cp949: 0xb46c},
		lookupItem{ucs2: 0xd05f, cp949: 0xb46d},
		lookupItem{ucs2: 0xd060, cp949: 0xc5a8},
		lookupItem{ucs2: 0xd061, cp949: 0xb46e},
		lookupItem{ucs2: 0xd062, cp949: 0xb46f},
		lookupItem{ucs2: 0xd063, cp949: 0xb470},
		lookupItem{ucs2: 0xd064, cp949: 0xb471},
		lookupItem{ucs2: 0xd065, cp949: 0xb472},
		lookupItem{ucs2: 0xd066, cp949: 0xb473},
		lookupItem{ucs2: 0xd067, cp949: 0xb474},
		lookupItem{ucs2: 0xd068, cp949: 0xb475},
		lookupItem{ucs2: 0xd069, cp949: 0xb476},
		lookupItem{ucs2: 0xd06a, cp949: 0xb477},
		lookupItem{ucs2: 0xd06b, cp949: 0xb478},
		lookupItem{ucs2: 0xd06c, cp949: 0xc5a9},
		lookupItem{ucs2: 0xd06d, cp949: 0xc5aa},
		lookupItem{ucs2: 0xd06e, cp949: 0xb479},
		lookupItem{ucs2: 0xd06f, cp949: 0xb47a},
		lookupItem{ucs2: 0xd070, cp949: 0xc5ab},
		lookupItem{ucs2: 0xd071, cp949: 0xb481},
		lookupItem{ucs2: 0xd072, cp949: 0xb482},
		lookupItem{ucs2: 0xd073, cp949: 0xb483},
		lookupItem{ucs2: 0xd074, cp949: 0xc5ac},
		lookupItem{ucs2: 0xd075, cp949: 0xb484},
		lookupItem{ucs2: 0xd076, cp949: 0xb485},
		lookupItem{ucs2: 0xd077, cp949: 0xb486},
		lookupItem{ucs2: 0xd078, cp949: 0xb487},
		lookupItem{ucs2: 0xd079, cp949: 0xb488},
		lookupItem{ucs2: 0xd07a, cp949: 0xb489},
		lookupItem{ucs2: 0xd07b, cp949: 0xb48a},
		lookupItem{ucs2: 0xd07c, cp949: 0xc5ad},
		lookupItem{ucs2: 0xd07d, cp949: 0xc5ae},
		lookupItem{ucs2: 0xd07e, cp949: 0xb48b},
		lookupItem{ucs2: 0xd07f, cp949: 0xb48c},
		lookupItem{ucs2: 0xd080, cp949: 0xb48d},
		lookupItem{ucs2: 0xd081, cp949: 0xc5af},
		lookupItem{ucs2: 0xd082, cp949: 0xb48e},
		lookupItem{ucs2: 0xd083, cp949: 0xb48f},
		lookupItem{ucs2: 0xd084, cp949: 0xb490},
		lookupItem{ucs2: 0xd085, cp949: 0xb491},
		lookupItem{ucs2: 0xd086, cp949: 0xb492},
		lookupItem{ucs2: 0xd087, cp949: 0xb493},
		lookupItem{ucs2: 0xd088, cp949: 0xb494},
		lookupItem{ucs2: 0xd089, cp949: 0xb495},
		lookupItem{ucs2: 0xd08a, cp949: 0xb496},
		lookupItem{ucs2: 0xd08b, cp949: 0xb497},
		lookupItem{ucs2: 0xd08c, cp949: 0xb498},
		lookupItem{ucs2: 0xd08d, cp949: 0xb499},
		lookupItem{ucs2: 0xd08e, cp949: 0xb49a},
		lookupItem{ucs2: 0xd08f, cp949: 0xb49b},
		lookupItem{ucs2: 0xd090, cp949: 0xb49c},
		lookupItem{ucs2: 0xd091, cp949: 0xb49d},
		lookupItem{ucs2: 0xd092, cp949: 0xb49e},
		lookupItem{ucs2: 0xd093, cp949: 0xb49f},
		lookupItem{ucs2: 0xd094, cp949: 0xb4a0},
		lookupItem{ucs2: 0xd095, cp949: 0xb541},
		lookupItem{ucs2: 0xd096, cp949: 0xb542},
		lookupItem{ucs2: 0xd097, cp949: 0xb543},
		lookupItem{ucs2: 0xd098, cp949: 0xb544},
		lookupItem{ucs2: 0xd099, cp949: 0xb545},
		lookupItem{ucs2: 0xd09a, cp949: 0xb546},
		lookupItem{ucs2: 0xd09b, cp949: 0xb547},
		lookupItem{ucs2: 0xd09c, cp949: 0xb548},
		lookupItem{ucs2: 0xd09d, cp949: 0xb549},
		lookupItem{ucs2: 0xd09e, cp949: 0xb54a},
		lookupItem{ucs2: 0xd09f, cp949: 0xb54b},
		lookupItem{ucs2: 0xd0a0, cp949: 0xb54c},
		lookupItem{ucs2: 0xd0a1, cp949: 0xb54d},
		lookupItem{ucs2: 0xd0a2, cp949: 0xb54e},
		lookupItem{ucs2: 0xd0a3, cp949: 0xb54f},
		lookupItem{ucs2: 0xd0a4, cp949: 0xc5b0},
		lookupItem{ucs2: 0xd0a5, cp949: 0xc5b1},
		lookupItem{ucs2: 0xd0a6, cp949: 0xb550},
		lookupItem{ucs2: 0xd0a7, cp949: 0xb551},
		lookupItem{ucs2: 0xd0a8, cp949: 0xc5b2},
		lookupItem{ucs2: 0xd0a9, cp949: 0xb552},
		lookupItem{ucs2: 0xd0aa, cp949: 0xb553},
		lookupItem{ucs2: 0xd0ab, cp949: 0xb554},
		lookupItem{ucs2: 0xd0ac, cp949: 0xc5b3},
		lookupItem{ucs2: 0xd0ad, cp949: 0xb555},
		lookupItem{ucs2: 0xd0ae, cp949: 0xb556},
		lookupItem{ucs2: 0xd0af, cp949: 0xb557},
		lookupItem{ucs2: 0xd0b0, cp949: 0xb558},
		lookupItem{ucs2: 0xd0b1, cp949: 0xb559},
		lookupItem{ucs2: 0xd0b2, cp949: 0xb55a},
		lookupItem{ucs2: 0xd0b3, cp949: 0xb561},
		lookupItem{ucs2: 0xd0b4, cp949: 0xc5b4},
		lookupItem{ucs2: 0xd0b5, cp949: 0xc5b5},
		lookupItem{ucs2: 0xd0b6, cp949: 0xb562},
		lookupItem{ucs2: 0xd0b7, cp949: 0xc5b6},
		lookupItem{ucs2: 0xd0b8, cp949: 0xb563},
		lookupItem{ucs2: 0xd0b9, cp949: 0xc5b7},
		lookupItem{ucs2: 0xd0ba, cp949: 0xb564},
		lookupItem{ucs2: 0xd0bb, cp949: 0xb565},
		lookupItem{ucs2: 0xd0bc, cp949: 0xb566},
		lookupItem{ucs2: 0xd0bd, cp949: 0xb567},
		lookupItem{ucs2: 0xd0be, cp949: 0xb568},
		lookupItem{ucs2: 0xd0bf, cp949: 0xb569},
		lookupItem{ucs2: 0xd0c0, cp949: 0xc5b8},
		lookupItem{ucs2: 0xd0c1, cp949: 0xc5b9},
		lookupItem{ucs2: 0xd0c2, cp949: 0xb56a},
		lookupItem{ucs2: 0xd0c3, cp949: 0xb56b},
		lookupItem{ucs2: 0xd0c4, cp949: 0xc5ba},
		lookupItem{ucs2: 0xd0c5, cp949: 0xb56c},
		lookupItem{ucs2: 0xd0c6, cp949: 0xb56d},
		lookupItem{ucs2: 0xd0c7, cp949: 0xb56e},
		lookupItem{ucs2: 0xd0c8, cp949: 0xc5bb},
		lookupItem{ucs2: 0xd0c9, cp949: 0xc5bc},
		lookupItem{ucs2: 0xd0ca, cp949: 0xb56f},
		lookupItem{ucs2: 0xd0cb, cp949: 0xb570},
		lookupItem{ucs2: 0xd0cc, cp949: 0xb571},
		lookupItem{ucs2: 0xd0cd, cp949: 0xb572},
		lookupItem{ucs2: 0xd0ce, cp949: 0xb573},
		lookupItem{ucs2: 0xd0cf, cp949: 0xb574},
		lookupItem{ucs2: 0xd0d0, cp949: 0xc5bd},
		lookupItem{ucs2: 0xd0d1, cp949: 0xc5be},
		lookupItem{ucs2: 0xd0d2, cp949: 0xb575},
		lookupItem{ucs2: 0xd0d3, cp949: 0xc5bf},
		lookupItem{ucs2: 0xd0d4, cp949: 0xc5c0},
		lookupItem{ucs2: 0xd0d5, cp949: 0xc5c1},
		lookupItem{ucs2: 0xd0d6, cp949: 0xb576},
		lookupItem{ucs2: 0xd0d7, cp949: 0xb577},
		lookupItem{ucs2: 0xd0d8, cp949: 0xb578},
		lookupItem{ucs2: 0xd0d9, cp949: 0xb579},
		lookupItem{ucs2: 0xd0da, cp949: 0xb57a},
		lookupItem{ucs2: 0xd0db, cp949: 0xb581},
		lookupItem{ucs2: 0xd0dc, cp949: 0xc5c2},
		lookupItem{ucs2: 0xd0dd, cp949: 0xc5c3},
		lookupItem{ucs2: 0xd0de, cp949: 0xb582},
		lookupItem{ucs2: 0xd0df, cp949: 0xb583},
		lookupItem{ucs2: 0xd0e0, cp949: 0xc5c4},
		lookupItem{ucs2: 0xd0e1, cp949: 0xb584},
		lookupItem{ucs2: 0xd0e2, cp949: 0xb585},
		lookupItem{ucs2: 0xd0e3, cp949: 0xb586},
		lookupItem{ucs2: 0xd0e4, cp949: 0xc5c5},
		lookupItem{ucs2: 0xd0e5, cp949: 0xb587},
		lookupItem{ucs2: 0xd0e6, cp949: 0xb588},
		lookupItem{ucs2: 0xd0e7, cp949: 0xb589},
		lookupItem{ucs2: 0xd0e8, cp949: 0xb58a},
		lookupItem{ucs2: 0xd0e9, cp949: 0xb58b},
		lookupItem{ucs2: 0xd0ea, cp949: 0xb58c},
		lookupItem{ucs2: 0xd0eb, cp949: 0xb58d},
		lookupItem{ucs2: 0xd0ec, cp949: 0xc5c6},
		lookupItem{ucs2: 0xd0ed, cp949: 0xc5c7},
		lookupItem{ucs2: 0xd0ee, cp949: 0xb58e},
		lookupItem{ucs2: 0xd0ef, cp949: 0xc5c8},
		lookupItem{ucs2: 0xd0f0, cp949: 0xc5c9},
		lookupItem{ucs2: 0xd0f1, cp949: 0xc5ca},
		lookupItem{ucs2: 0xd0f2, cp949: 0xb58f},
		lookupItem{ucs2: 0xd0f3, cp949: 0xb590},
		lookupItem{ucs2: 0xd0f4, cp949: 0xb591},
		lookupItem{ucs2: 0xd0f5, cp949: 0xb592},
		lookupItem{ucs2: 0xd0f6, cp949: 0xb593},
		lookupItem{ucs2: 0xd0f7, cp949: 0xb594},
		lookupItem{ucs2: 0xd0f8, cp949: 0xc5cb},
		lookupItem{ucs2: 0xd0f9, cp949: 0xb595},
		lookupItem{ucs2: 0xd0fa, cp949: 0xb596},
		lookupItem{ucs2: 0xd0fb, cp949: 0xb597},
		lookupItem{ucs2: 0xd0fc, cp949: 0xb598},
		lookupItem{ucs2: 0xd0fd, cp949: 0xb599},
		lookupItem{ucs2: 0xd0fe, cp949: 0xb59a},
		lookupItem{ucs2: 0xd0ff, cp949: 0xb59b},
		lookupItem{ucs2: 0xd100, cp949: 0xb59c},
		lookupItem{ucs2: 0xd101, cp949: 0xb59d},
		lookupItem{ucs2: 0xd102, cp949: 0xb59e},
		lookupItem{ucs2: 0xd103, cp949: 0xb59f},
		lookupItem{ucs2: 0xd104, cp949: 0xb5a0},
		lookupItem{ucs2: 0xd105, cp949: 0xb641},
		lookupItem{ucs2: 0xd106, cp949: 0xb642},
		lookupItem{ucs2: 0xd107, cp949: 0xb643},
		lookupItem{ucs2: 0xd108, cp949: 0xb644},
		lookupItem{ucs2: 0xd109, cp949: 0xb645},
		lookupItem{ucs2: 0xd10a, cp949: 0xb646},
		lookupItem{ucs2: 0xd10b, cp949: 0xb647},
".
Definition text_cp949_lookup_to_060 : string :=
"		lookupItem{ucs2: 0xd10c, cp949: 0xb648},
		lookupItem{ucs2: 0xd10d, cp949: 0xc5cc},
		lookupItem{ucs2: 0xd10e, cp949: 0xb649},
		lookupItem{ucs2: 0xd10f, cp949: 0xb64a},
		lookupItem{ucs2: 0xd110, cp949: 0xb64b},
		lookupItem{ucs2: 0xd111, cp949: 0xb64c},
		lookupItem{ucs2: 0xd112, cp949: 0xb64d},
		lookupItem{ucs2: 0xd113, cp949: 0xb64e},
		lookupItem{ucs2: 0xd114, cp949: 0xb64f},
		lookupItem{ucs2: 0xd115, cp949: 0xb650},
		lookupItem{ucs2: 0xd116, cp949: 0xb651},
		lookupItem{ucs2: 0xd117, cp949: 0xb652},
		lookupItem{ucs2: 0xd118, cp949: 0xb653},
		lookupItem{ucs2: 0xd119, cp949: 0xb654},
		lookupItem{ucs2: 0xd11a, cp949: 0xb655},
		lookupItem{ucs2: 0xd11b, cp949: 0xb656},
		lookupItem{ucs2: 0xd11c, cp949: 0xb657},
		lookupItem{ucs2: 0xd11d, cp949: 0xb658},
		lookupItem{ucs2: 0xd11e, cp949: 0xb659},
		lookupItem{ucs2: 0xd11f, cp949: 0xb65a},
		lookupItem{ucs2: 0xd120, cp949: 0xb661},
		lookupItem{ucs2: 0xd121, cp949: 0xb662},
		lookupItem{ucs2: 0xd122, cp949: 0xb663},
		lookupItem{ucs2: 0xd123, cp949: 0xb664},
		lookupItem{ucs2: 0xd124, cp949: 0xb665},
		lookupItem{ucs2: 0xd125, cp949: 0xb666},
		lookupItem{ucs2: 0xd126, cp949: 0xb667},
		lookupItem{ucs2: 0xd127, cp949: 0xb668},
		lookupItem{ucs2: 0xd128, cp949: 0xb669},
		lookupItem{ucs2: 0xd129, cp949: 0xb66a},
		lookupItem{ucs2: 0xd12a, cp949: 0xb66b},
		lookupItem{ucs2: 0xd12b, cp949: 0xb66c},
		lookupItem{ucs2: 0xd12c, cp949: 0xb66d},
		lookupItem{ucs2: 0xd12d, cp949: 0xb66e},
		lookupItem{ucs2: 0xd12e, cp949: 0xb66f},
		lookupItem{ucs2: 0xd12f, cp949: 0xb670},
		lookupItem{ucs2: 0xd130, cp949: 0xc5cd},
		lookupItem{ucs2: 0xd131, cp949: 0xc5ce},
		lookupItem{ucs2: 0xd132, cp949: 0xb671},
		lookupItem{ucs2: 0xd133, cp949: 0xb672},
		lookupItem{ucs2: 0xd134, cp949: 0xc5cf},
		lookupItem{ucs2: 0xd135, cp949: 0xb673},
		lookupItem{ucs2: 0xd136, cp949: 0xb674},
		lookupItem{ucs2: 0xd137, cp949: 0xb675},
		lookupItem{ucs2: 0xd138, cp949: 0xc5d0},
		lookupItem{ucs2: 0xd139, cp949: 0xb676},
		lookupItem{ucs2: 0xd13a, cp949: 0xc5d1},
		lookupItem{ucs2: 0xd13b, cp949: 0xb677},
		lookupItem{ucs2: 0xd13c, cp949: 0xb678},
		lookupItem{ucs2: 0xd13d, cp949: 0xb679},
		lookupItem{ucs2: 0xd13e, cp949: 0xb67a},
		lookupItem{ucs2: 0xd13f, cp949: 0xb681},
		lookupItem{ucs2: 0xd140, cp949: 0xc5d2},
		lookupItem{ucs2: 0xd141, cp949: 0xc5d3},
		lookupItem{ucs2: 0xd142, cp949: 0xb682},
		lookupItem{ucs2: 0xd143, cp949: 0xc5d4},
		lookupItem{ucs2: 0xd144, cp949: 0xc5d5},
		lookupItem{ucs2: 0xd145, cp949: 0xc5d6},
		lookupItem{ucs2: 0xd146, cp949: 0xb683},
		lookupItem{ucs2: 0xd147, cp949: 0xb684},
		lookupItem{ucs2: 0xd148, cp949: 0xb685},
		lookupItem{ucs2: 0xd149, cp949: 0xb686},
		lookupItem{ucs2: 0xd14a, cp949: 0xb687},
		lookupItem{ucs2: 0xd14b, cp949: 0xb688},
		lookupItem{ucs2: 0xd14c, cp949: 0xc5d7},
		lookupItem{ucs2: 0xd14d, cp949: 0xc5d8},
		lookupItem{ucs2: 0xd14e, cp949: 0xb689},
		lookupItem{ucs2: 0xd14f, cp949: 0xb68a},
		lookupItem{ucs2: 0xd150, cp949: 0xc5d9},
		lookupItem{ucs2: 0xd151, cp949: 0xb68b},
		lookupItem{ucs2: 0xd152, cp949: 0xb68c},
		lookupItem{ucs2: 0xd153, cp949: 0xb68d},
		lookupItem{ucs2: 0xd154, cp949: 0xc5da},
		lookupItem{ucs2: 0xd155, cp949: 0xb68e},
		lookupItem{ucs2: 0xd156, cp949: 0xb68f},
		lookupItem{ucs2: 0xd157, cp949: 0xb690},
		lookupItem{ucs2: 0xd158, cp949: 0xb691},
		lookupItem{ucs2: 0xd159, cp949: 0xb692},
		lookupItem{ucs2: 0xd15a, cp949: 0xb693},
		lookupItem{ucs2: 0xd15b, cp949: 0xb694},
		lookupItem{ucs2: 0xd15c, cp949: 0xc5db},
		lookupItem{ucs2: 0xd15d, cp949: 0xc5dc},
		lookupItem{ucs2: 0xd15e, cp949: 0xb695},
		lookupItem{ucs2: 0xd15f, cp949: 0xc5dd},
		lookupItem{ucs2: 0xd160, cp949: 0xb696},
		lookupItem{ucs2: 0xd161, cp949: 0xc5de},
		lookupItem{ucs2: 0xd162, cp949: 0xb697},
		lookupItem{ucs2: 0xd163, cp949: 0xb698},
		lookupItem{ucs2: 0xd164, cp949: 0xb699},
		lookupItem{ucs2: 0xd165, cp949: 0xb69a},
		lookupItem{ucs2: 0xd166, cp949: 0xb69b},
		lookupItem{ucs2: 0xd167, cp949: 0xb69c},
		lookupItem{ucs2: 0xd168, cp949: 0xc5df},
		lookupItem{ucs2: 0xd169, cp949: 0xb69d},
		lookupItem{ucs2: 0xd16a, cp949: 0xb69e},
		lookupItem{ucs2: 0xd16b, cp949: 0xb69f},
		lookupItem{ucs2: 0xd16c, cp949: 0xc5e0},
		lookupItem{ucs2: 0xd16d, cp949: 0xb6a0},
		lookupItem{ucs2: 0xd16e, cp949: 0xb741},
		lookupItem{ucs2: 0xd16f, cp949: 0xb742},
		lookupItem{ucs2: 0xd170, cp949: 0xb743},
		lookupItem{ucs2: 0xd171, cp949: 0xb744},
		lookupItem{ucs2: 0xd172, cp949: 0xb745},
		lookupItem{ucs2: 0xd173, cp949: 0xb746},
		lookupItem{ucs2: 0xd174, cp949: 0xb747},
		lookupItem{ucs2: 0xd175, cp949: 0xb748},
		lookupItem{ucs2: 0xd176, cp949: 0xb749},
		lookupItem{ucs2: 0xd177, cp949: 0xb74a},
		lookupItem{ucs2: 0xd178, cp949: 0xb74b},
		lookupItem{ucs2: 0xd179, cp949: 0xb74c},
		lookupItem{ucs2: 0xd17a, cp949: 0xb74d},
		lookupItem{ucs2: 0xd17b, cp949: 0xb74e},
		lookupItem{ucs2: 0xd17c, cp949: 0xc5e1},
		lookupItem{ucs2: 0xd17d, cp949: 0xb74f},
		lookupItem{ucs2: 0xd17e, cp949: 0xb750},
		lookupItem{ucs2: 0xd17f, cp949: 0xb751},
		lookupItem{ucs2: 0xd180, cp949: 0xb752},
		lookupItem{ucs2: 0xd181, cp949: 0xb753},
		lookupItem{ucs2: 0xd182, cp949: 0xb754},
		lookupItem{ucs2: 0xd183, cp949: 0xb755},
		lookupItem{ucs2: 0xd184, cp949: 0xc5e2},
		lookupItem{ucs2: 0xd185, cp949: 0xb756},
		lookupItem{ucs2: 0xd186, cp949: 0xb757},
		lookupItem{ucs2: 0xd187, cp949: 0xb758},
		lookupItem{ucs2: 0xd188, cp949: 0xc5e3},
		lookupItem{ucs2: 0xd189, cp949: 0xb759},
		lookupItem{ucs2: 0xd18a, cp949: 0xb75a},
		lookupItem{ucs2: 0xd18b, cp949: 0xb761},
		lookupItem{ucs2: 0xd18c, cp949: 0xb762},
		lookupItem{ucs2: 0xd18d, cp949: 0xb763},
		lookupItem{ucs2: 0xd18e, cp949: 0xb764},
		lookupItem{ucs2: 0xd18f, cp949: 0xb765},
		lookupItem{ucs2: 0xd190, cp949: 0xb766},
		lookupItem{ucs2: 0xd191, cp949: 0xb767},
		lookupItem{ucs2: 0xd192, cp949: 0xb768},
		lookupItem{ucs2: 0xd193, cp949: 0xb769},
		lookupItem{ucs2: 0xd194, cp949: 0xb76a},
		lookupItem{ucs2: 0xd195, cp949: 0xb76b},
		lookupItem{ucs2: 0xd196, cp949: 0xb76c},
		lookupItem{ucs2: 0xd197, cp949: 0xb76d},
		lookupItem{ucs2: 0xd198, cp949: 0xb76e},
		lookupItem{ucs2: 0xd199, cp949: 0xb76f},
		lookupItem{ucs2: 0xd19a, cp949: 0xb770},
		lookupItem{ucs2: 0xd19b, cp949: 0xb771},
		lookupItem{ucs2: 0xd19c, cp949: 0xb772},
		lookupItem{ucs2: 0xd19d, cp949: 0xb773},
		lookupItem{ucs2: 0xd19e, cp949: 0xb774},
		lookupItem{ucs2: 0xd19f, cp949: 0xb775},
		lookupItem{ucs2: 0xd1a0, cp949: 0xc5e4},
		lookupItem{ucs2: 0xd1a1, cp949: 0xc5e5},
		lookupItem{ucs2: 0xd1a2, cp949: 0xb776},
		lookupItem{ucs2: 0xd1a3, cp949: 0xb777},
		lookupItem{ucs2: 0xd1a4, cp949: 0xc5e6},
		lookupItem{ucs2: 0xd1a5, cp949: 0xb778},
		lookupItem{ucs2: 0xd1a6, cp949: 0xb779},
		lookupItem{ucs2: 0xd1a7, cp949: 0xb77a},
		lookupItem{ucs2: 0xd1a8, cp949: 0xc5e7},
		lookupItem{ucs2: 0xd1a9, cp949: 0xb781},
		lookupItem{ucs2: 0xd1aa, cp949: 0xb782},
		lookupItem{ucs2: 0xd1ab, cp949: 0xb783},
		lookupItem{ucs2: 0xd1ac, cp949: 0xb784},
		lookupItem{ucs2: 0xd1ad, cp949: 0xb785},
		lookupItem{ucs2: 0xd1ae, cp949: 0xb786},
		lookupItem{ucs2: 0xd1af, cp949: 0xb787},
		lookupItem{ucs2: 0xd1b0, cp949: 0xc5e8},
		lookupItem{ucs2: 0xd1b1, cp949: 0xc5e9},
		lookupItem{ucs2: 0xd1b2, cp949: 0xb788},
		lookupItem{ucs2: 0xd1b3, cp949: 0xc5ea},
		lookupItem{ucs2: 0xd1b4, cp949: 0xb789},
		lookupItem{ucs2: 0xd1b5, cp949: 0xc5eb},
		lookupItem{ucs2: 0xd1b6, cp949: 0xb78a},
		lookupItem{ucs2: 0xd1b7, cp949: 0xb78b},
		lookupItem{ucs2: 0xd1b8, cp949: 0xb78c},
		lookupItem{ucs2: 0xd1b9, cp949: 0xb78d},
		lookupItem{ucs2: 0xd1ba, cp949: 0xc5ec},
		lookupItem{ucs2: 0xd1bb, cp949: 0xb78e},
		lookupItem{ucs2: 0xd1bc, cp949: 0xc5ed},
		lookupItem{ucs2: 0xd1bd, cp949: 0xb78f},
		lookupItem{ucs2: 0xd1be, cp949: 0xb790},
		lookupItem{ucs2: 0xd1bf, cp949: 0xb791},
		lookupItem{ucs2: 0xd1c0, cp949: 0xc5ee},
		lookupItem{ucs2: 0xd1c1, cp949: 0xb792},
		lookupItem{ucs2: 0xd1c2, cp949: 0xb793},
		lookupItem{ucs2: 0xd1c3, cp949: 0xb794},
		lookupItem{ucs2: 0xd1c4, cp949: 0xb795},
		lookupItem{ucs2: 0xd1c5, cp949: 0xb796},
		lookupItem{ucs2: 0xd1c6, cp949: 0xb797},
		lookupItem{ucs2: 0xd1c7, cp949: 0xb798},
		lookupItem{ucs2: 0xd1c8, cp949: 0xb799},
		lookupItem{ucs2: 0xd1c9, cp949: 0xb79a},
		lookupItem{ucs2: 0xd1ca, cp949: 0xb79b},
		lookupItem{ucs2: 0xd1cb, cp949: 0xb79c},
		lookupItem{ucs2: 0xd1cc, cp949: 0xb79d},
		lookupItem{ucs2: 0xd1cd, cp949: 0xb79e},
		lookupItem{ucs2: 0xd1ce, cp949: 0xb79f},
		lookupItem{ucs2: 0xd1cf, cp949: 0xb7a0},
		lookupItem{ucs2: 0xd1d0, cp949: 0xb841},
		lookupItem{ucs2: 0xd1d1, cp949: 0xb842},
		lookupItem{ucs2: 0xd1d2, cp949: 0xb843},
		lookupItem{ucs2: 0xd1d3, cp949: 0xb844},
		lookupItem{ucs2: 0xd1d4, cp949: 0xb845},
		lookupItem{ucs2: 0xd1d5, cp949: 0xb846},
		lookupItem{ucs2: 0xd1d6, cp949: 0xb847},
		lookupItem{ucs2: 0xd1d7, cp949: 0xb848},
		lookupItem{ucs2: 0xd1d8, cp949: 0xc5ef},
		lookupItem{ucs2: 0xd1d9, cp949: 0xb849},
		lookupItem{ucs2: 0xd1da, cp949: 0xb84a},
		lookupItem{ucs2: 0xd1db, cp949: 0xb84b},
		lookupItem{ucs2: 0xd1dc, cp949: 0xb84c},
		lookupItem{ucs2: 0xd1dd, cp949: 0xb84d},
		lookupItem{ucs2: 0xd1de, cp949: 0xb84e},
		lookupItem{ucs2: 0xd1df, cp949: 0xb84f},
		lookupItem{ucs2: 0xd1e0, cp949: 0xb850},
		lookupItem{ucs2: 0xd1e1, cp949: 0xb851},
		lookupItem{ucs2: 0xd1e2, cp949: 0xb852},
		lookupItem{ucs2: 0xd1e3, cp949: 0xb853},
		lookupItem{ucs2: 0xd1e4, cp949: 0xb854},
		lookupItem{ucs2: 0xd1e5, cp949: 0xb855},
		lookupItem{ucs2: 0xd1e6, cp949: 0xb856},
		lookupItem{ucs2: 0xd1e7, cp949: 0xb857},
		lookupItem{ucs2: 0xd1e8, cp949: 0xb858},
		lookupItem{ucs2: 0xd1e9, cp949: 0xb859},
		lookupItem{ucs2: 0xd1ea, cp949: 0xb85a},
		lookupItem{ucs2: 0xd1eb, cp949: 0xb861},
		lookupItem{ucs2: 0xd1ec, cp949: 0xb862},
		lookupItem{ucs2: 0xd1ed, cp949: 0xb863},
		lookupItem{ucs2: 0xd1ee, cp949: 0xb864},
		lookupItem{ucs2: 0xd1ef, cp949: 0xb865},
		lookupItem{ucs2: 0xd1f0, cp949: 0xb866},
		lookupItem{ucs2: 0xd1f1, cp949: 0xb867},
		lookupItem{ucs2: 0xd1f2, cp949: 0xb868},
		lookupItem{ucs2: 0xd1f3, cp949: 0xb869},
		lookupItem{ucs2: 0xd1f4, cp949: 0xc5f0},
		lookupItem{ucs2: 0xd1f5, cp949: 0xb86a},
		lookupItem{ucs2: 0xd1f6, cp949: 0xb86b},
		lookupItem{ucs2: 0xd1f7, cp949: 0xb86c},
		lookupItem{ucs2: 0xd1f8, cp949: 0xc5f1},
		lookupItem{ucs2: 0xd1f9, cp949: 0xb86d},
		lookupItem{ucs2: 0xd1fa, cp949: 0xb86e},
		lookupItem{ucs2: 0xd1fb, cp949: 0xb86f},
		lookupItem{ucs2: 0xd1fc, cp949: 0xb870},
		lookupItem{ucs2: 0xd1fd, cp949: 0xb871},
		lookupItem{ucs2: 0xd1fe, cp949: 0xb872},
		lookupItem{ucs2: 0xd1ff, cp949: 0xb873},
		lookupItem{ucs2: 0xd200, cp949: 0xb874},
		lookupItem{ucs2: 0xd201, cp949: 0xb875},
		lookupItem{ucs2: 0xd202, cp949: 0xb876},
		lookupItem{ucs2: 0xd203, cp949: 0xb877},
		lookupItem{ucs2: 0xd204, cp949: 0xb878},
		lookupItem{ucs2: 0xd205, cp949: 0xb879},
".
Definition text_cp949_lookup_to_061 : string :=
"		lookupItem{ucs2: 0xd206, cp949: 0xb87a},
		lookupItem{ucs2: 0xd207, cp949: 0xc5f2},
		lookupItem{ucs2: 0xd208, cp949: 0xb881},
		lookupItem{ucs2: 0xd209, cp949: 0xc5f3},
		lookupItem{ucs2: 0xd20a, cp949: 0xb882},
		lookupItem{ucs2: 0xd20b, cp949: 0xb883},
		lookupItem{ucs2: 0xd20c, cp949: 0xb884},
		lookupItem{ucs2: 0xd20d, cp949: 0xb885},
		lookupItem{ucs2: 0xd20e, cp949: 0xb886},
		lookupItem{ucs2: 0xd20f, cp949: 0xb887},
		lookupItem{ucs2: 0xd210, cp949: 0xc5f4},
		lookupItem{ucs2: 0xd211, cp949: 0xb888},
		lookupItem{ucs2: 0xd212, cp949: 0xb889},
		lookupItem{ucs2: 0xd213, cp949: 0xb88a},
		lookupItem{ucs2: 0xd214, cp949: 0xb88b},
		lookupItem{ucs2: 0xd215, cp949: 0xb88c},
		lookupItem{ucs2: 0xd216, cp949: 0xb88d},
		lookupItem{ucs2: 0xd217, cp949: 0xb88e},
		lookupItem{ucs2: 0xd218, cp949: 0xb88f},
		lookupItem{ucs2: 0xd219, cp949: 0xb890},
		lookupItem{ucs2: 0xd21a, cp949: 0xb891},
		lookupItem{ucs2: 0xd21b, cp949: 0xb892},
		lookupItem{ucs2: 0xd21c, cp949: 0xb893},
		lookupItem{ucs2: 0xd21d, cp949: 0xb894},
		lookupItem{ucs2: 0xd21e, cp949: 0xb895},
		lookupItem{ucs2: 0xd21f, cp949: 0xb896},
		lookupItem{ucs2: 0xd220, cp949: 0xb897},
		lookupItem{ucs2: 0xd221, cp949: 0xb898},
		lookupItem{ucs2: 0xd222, cp949: 0xb899},
		lookupItem{ucs2: 0xd223, cp949: 0xb89a},
		lookupItem{ucs2: 0xd224, cp949: 0xb89b},
		lookupItem{ucs2: 0xd225, cp949: 0xb89c},
		lookupItem{ucs2: 0xd226, cp949: 0xb89d},
		lookupItem{ucs2: 0xd227, cp949: 0xb89e},
		lookupItem{ucs2: 0xd228, cp949: 0xb89f},
		lookupItem{ucs2: 0xd229, cp949: 0xb8a0},
		lookupItem{ucs2: 0xd22a, cp949: 0xb941},
		lookupItem{ucs2: 0xd22b, cp949: 0xb942},
		lookupItem{ucs2: 0xd22c, cp949: 0xc5f5},
		lookupItem{ucs2: 0xd22d, cp949: 0xc5f6},
		lookupItem{ucs2: 0xd22e, cp949: 0xb943},
		lookupItem{ucs2: 0xd22f, cp949: 0xb944},
		lookupItem{ucs2: 0xd230, cp949: 0xc5f7},
		lookupItem{ucs2: 0xd231, cp949: 0xb945},
		lookupItem{ucs2: 0xd232, cp949: 0xb946},
		lookupItem{ucs2: 0xd233, cp949: 0xb947},
		lookupItem{ucs2: 0xd234, cp949: 0xc5f8},
		lookupItem{ucs2: 0xd235, cp949: 0xb948},
		lookupItem{ucs2: 0xd236, cp949: 0xb949},
		lookupItem{ucs2: 0xd237, cp949: 0xb94a},
		lookupItem{ucs2: 0xd238, cp949: 0xb94b},
		lookupItem{ucs2: 0xd239, cp949: 0xb94c},
		lookupItem{ucs2: 0xd23a, cp949: 0xb94d},
		lookupItem{ucs2: 0xd23b, cp949: 0xb94e},
		lookupItem{ucs2: 0xd23c, cp949: 0xc5f9},
		lookupItem{ucs2: 0xd23d, cp949: 0xc5fa},
		lookupItem{ucs2: 0xd23e, cp949: 0xb94f},
		lookupItem{ucs2: 0xd23f, cp949: 0xc5fb},
		lookupItem{ucs2: 0xd240, cp949: 0xb950},
		lookupItem{ucs2: 0xd241, cp949: 0xc5fc},
		lookupItem{ucs2: 0xd242, cp949: 0xb951},
		lookupItem{ucs2: 0xd243, cp949: 0xb952},
		lookupItem{ucs2: 0xd244, cp949: 0xb953},
		lookupItem{ucs2: 0xd245, cp949: 0xb954},
		lookupItem{ucs2: 0xd246, cp949: 0xb955},
		lookupItem{ucs2: 0xd247, cp949: 0xb956},
		lookupItem{ucs2: 0xd248, cp949: 0xc5fd},
		lookupItem{ucs2: 0xd249, cp949: 0xb957},
		lookupItem{ucs2: 0xd24a, cp949: 0xb958},
		lookupItem{ucs2: 0xd24b, cp949: 0xb959},
		lookupItem{ucs2: 0xd24c, cp949: 0xb95a},
		lookupItem{ucs2: 0xd24d, cp949: 0xb961},
		lookupItem{ucs2: 0xd24e, cp949: 0xb962},
		lookupItem{ucs2: 0xd24f, cp949: 0xb963},
		lookupItem{ucs2: 0xd250, cp949: 0xb964},
		lookupItem{ucs2: 0xd251, cp949: 0xb965},
		lookupItem{ucs2: 0xd252, cp949: 0xb966},
		lookupItem{ucs2: 0xd253, cp949: 0xb967},
		lookupItem{ucs2: 0xd254, cp949: 0xb968},
		lookupItem{ucs2: 0xd255, cp949: 0xb969},
		lookupItem{ucs2: 0xd256, cp949: 0xb96a},
		lookupItem{ucs2: 0xd257, cp949: 0xb96b},
		lookupItem{ucs2: 0xd258, cp949: 0xb96c},
		lookupItem{ucs2: 0xd259, cp949: 0xb96d},
		lookupItem{ucs2: 0xd25a, cp949: 0xb96e},
		lookupItem{ucs2: 0xd25b, cp949: 0xb96f},
		lookupItem{ucs2: 0xd25c, cp949: 0xc5fe},
		lookupItem{ucs2: 0xd25d, cp949: 0xb970},
		lookupItem{ucs2: 0xd25e, cp949: 0xb971},
		lookupItem{ucs2: 0xd25f, cp949: 0xb972},
		lookupItem{ucs2: 0xd260, cp949: 0xb973},
		lookupItem{ucs2: 0xd261, cp949: 0xb974},
		lookupItem{ucs2: 0xd262, cp949: 0xb975},
		lookupItem{ucs2: 0xd263, cp949: 0xb976},
		lookupItem{ucs2: 0xd264, cp949: 0xc6a1},
		lookupItem{ucs2: 0xd265, cp949: 0xb977},
		lookupItem{ucs2: 0xd266, cp949: 0xb978},
		lookupItem{ucs2: 0xd267, cp949: 0xb979},
		lookupItem{ucs2: 0xd268, cp949: 0xb97a},
		lookupItem{ucs2: 0xd269, cp949: 0xb981},
		lookupItem{ucs2: 0xd26a, cp949: 0xb982},
		lookupItem{ucs2: 0xd26b, cp949: 0xb983},
		lookupItem{ucs2: 0xd26c, cp949: 0xb984},
		lookupItem{ucs2: 0xd26d, cp949: 0xb985},
		lookupItem{ucs2: 0xd26e, cp949: 0xb986},
		lookupItem{ucs2: 0xd26f, cp949: 0xb987},
		lookupItem{ucs2: 0xd270, cp949: 0xb988},
		lookupItem{ucs2: 0xd271, cp949: 0xb989},
		lookupItem{ucs2: 0xd272, cp949: 0xb98a},
		lookupItem{ucs2: 0xd273, cp949: 0xb98b},
		lookupItem{ucs2: 0xd274, cp949: 0xb98c},
		lookupItem{ucs2: 0xd275, cp949: 0xb98d},
		lookupItem{ucs2: 0xd276, cp949: 0xb98e},
		lookupItem{ucs2: 0xd277, cp949: 0xb98f},
		lookupItem{ucs2: 0xd278, cp949: 0xb990},
		lookupItem{ucs2: 0xd279, cp949: 0xb991},
		lookupItem{ucs2: 0xd27a, cp949: 0xb992},
		lookupItem{ucs2: 0xd27b, cp949: 0xb993},
		lookupItem{ucs2: 0xd27c, cp949: 0xb994},
		lookupItem{ucs2: 0xd27d, cp949: 0xb995},
		lookupItem{ucs2: 0xd27e, cp949: 0xb996},
		lookupItem{ucs2: 0xd27f, cp949: 0xb997},
		lookupItem{ucs2: 0xd280, cp949: 0xc6a2},
		lookupItem{ucs2: 0xd281, cp949: 0xc6a3},
		lookupItem{ucs2: 0xd282, cp949: 0xb998},
		lookupItem{ucs2: 0xd283, cp949: 0xb999},
		lookupItem{ucs2: 0xd284, cp949: 0xc6a4},
		lookupItem{ucs2: 0xd285, cp949: 0xb99a},
		lookupItem{ucs2: 0xd286, cp949: 0xb99b},
		lookupItem{ucs2: 0xd287, cp949: 0xb99c},
		lookupItem{ucs2: 0xd288, cp949: 0xc6a5},
		lookupItem{ucs2: 0xd289, cp949: 0xb99d},
		lookupItem{ucs2: 0xd28a, cp949: 0xb99e},
		lookupItem{ucs2: 0xd28b, cp949: 0xb99f},
		lookupItem{ucs2: 0xd28c, cp949: 0xb9a0},
		lookupItem{ucs2: 0xd28d, cp949: 0xba41},
		lookupItem{ucs2: 0xd28e, cp949: 0xba42},
		lookupItem{ucs2: 0xd28f, cp949: 0xba43},
		lookupItem{ucs2: 0xd290, cp949: 0xc6a6},
		lookupItem{ucs2: 0xd291, cp949: 0xc6a7},
		lookupItem{ucs2: 0xd292, cp949: 0xba44},
		lookupItem{ucs2: 0xd293, cp949: 0xba45},
		lookupItem{ucs2: 0xd294, cp949: 0xba46},
		lookupItem{ucs2: 0xd295, cp949: 0xc6a8},
		lookupItem{ucs2: 0xd296, cp949: 0xba47},
		lookupItem{ucs2: 0xd297, cp949: 0xba48},
		lookupItem{ucs2: 0xd298, cp949: 0xba49},
		lookupItem{ucs2: 0xd299, cp949: 0xba4a},
		lookupItem{ucs2: 0xd29a, cp949: 0xba4b},
		lookupItem{ucs2: 0xd29b, cp949: 0xba4c},
		lookupItem{ucs2: 0xd29c, cp949: 0xc6a9},
		lookupItem{ucs2: 0xd29d, cp949: 0xba4d},
		lookupItem{ucs2: 0xd29e, cp949: 0xba4e},
		lookupItem{ucs2: 0xd29f, cp949: 0xba4f},
		lookupItem{ucs2: 0xd2a0, cp949: 0xc6aa},
		lookupItem{ucs2: 0xd2a1, cp949: 0xba50},
		lookupItem{ucs2: 0xd2a2, cp949: 0xba51},
		lookupItem{ucs2: 0xd2a3, cp949: 0xba52},
		lookupItem{ucs2: 0xd2a4, cp949: 0xc6ab},
		lookupItem{ucs2: 0xd2a5, cp949: 0xba53},
		lookupItem{ucs2: 0xd2a6, cp949: 0xba54},
		lookupItem{ucs2: 0xd2a7, cp949: 0xba55},
		lookupItem{ucs2: 0xd2a8, cp949: 0xba56},
		lookupItem{ucs2: 0xd2a9, cp949: 0xba57},
		lookupItem{ucs2: 0xd2aa, cp949: 0xba58},
		lookupItem{ucs2: 0xd2ab, cp949: 0xba59},
		lookupItem{ucs2: 0xd2ac, cp949: 0xc6ac},
		lookupItem{ucs2: 0xd2ad, cp949: 0xba5a},
		lookupItem{ucs2: 0xd2ae, cp949: 0xba61},
		lookupItem{ucs2: 0xd2af, cp949: 0xba62},
		lookupItem{ucs2: 0xd2b0, cp949: 0xba63},
		lookupItem{ucs2: 0xd2b1, cp949: 0xc6ad},
		lookupItem{ucs2: 0xd2b2, cp949: 0xba64},
		lookupItem{ucs2: 0xd2b3, cp949: 0xba65},
		lookupItem{ucs2: 0xd2b4, cp949: 0xba66},
		lookupItem{ucs2: 0xd2b5, cp949: 0xba67},
		lookupItem{ucs2: 0xd2b6, cp949: 0xba68},
		lookupItem{ucs2: 0xd2b7, cp949: 0xba69},
		lookupItem{ucs2: 0xd2b8, cp949: 0xc6ae},
		lookupItem{ucs2: 0xd2b9, cp949: 0xc6af},
		lookupItem{ucs2: 0xd2ba, cp949: 0xba6a},
		lookupItem{ucs2: 0xd2bb, cp949: 0xba6b},
		lookupItem{ucs2: 0xd2bc, cp949: 0xc6b0},
		lookupItem{ucs2: 0xd2bd, cp949: 0xba6c},
		lookupItem{ucs2: 0xd2be, cp949: 0xba6d},
		lookupItem{ucs2: 0xd2bf, cp949: 0xc6b1},
		lookupItem{ucs2: 0xd2c0, cp949: 0xc6b2},
		lookupItem{ucs2: 0xd2c1, cp949: 0xba6e},
		lookupItem{ucs2: 0xd2c2, cp949: 0xc6b3},
		lookupItem{ucs2: 0xd2c3, cp949: 0xba6f},
		lookupItem{ucs2: 0xd2c4, cp949: 0xba70},
		lookupItem{ucs2: 0xd2c5, cp949: 0xba71},
		lookupItem{ucs2: 0xd2c6, cp949: 0xba72},
		lookupItem{ucs2: 0xd2c7, cp949: 0xba73},
		lookupItem{ucs2: 0xd2c8, cp949: 0xc6b4},
		lookupItem{ucs2: 0xd2c9, cp949: 0xc6b5},
		lookupItem{ucs2: 0xd2ca, cp949: 0xba74},
		lookupItem{ucs2: 0xd2cb, cp949: 0xc6b6},
		lookupItem{ucs2: 0xd2cc, cp949: 0xba75},
		lookupItem{ucs2: 0xd2cd, cp949: 0xba76},
		lookupItem{ucs2: 0xd2ce, cp949: 0xba77},
		lookupItem{ucs2: 0xd2cf, cp949: 0xba78},
		lookupItem{ucs2: 0xd2d0, cp949: 0xba79},
		lookupItem{ucs2: 0xd2d1, cp949: 0xba7a},
		lookupItem{ucs2: 0xd2d2, cp949: 0xba81},
		lookupItem{ucs2: 0xd2d3, cp949: 0xba82},
		lookupItem{ucs2: 0xd2d4, cp949: 0xc6b7},
		lookupItem{ucs2: 0xd2d5, cp949: 0xba83},
		lookupItem{ucs2: 0xd2d6, cp949: 0xba84},
		lookupItem{ucs2: 0xd2d7, cp949: 0xba85},
		lookupItem{ucs2: 0xd2d8, cp949: 0xc6b8},
		lookupItem{ucs2: 0xd2d9, cp949: 0xba86},
		lookupItem{ucs2: 0xd2da, cp949: 0xba87},
		lookupItem{ucs2: 0xd2db, cp949: 0xba88},
		lookupItem{ucs2: 0xd2dc, cp949: 0xc6b9},
		lookupItem{ucs2: 0xd2dd, cp949: 0xba89},
		lookupItem{ucs2: 0xd2de, cp949: 0xba8a},
		lookupItem{ucs2: 0xd2df, cp949: 0xba8b},
		lookupItem{ucs2: 0xd2e0, cp949: 0xba8c},
		lookupItem{ucs2: 0xd2e1, cp949: 0xba8d},
		lookupItem{ucs2: 0xd2e2, cp949: 0xba8e},
		lookupItem{ucs2: 0xd2e3, cp949: 0xba8f},
		lookupItem{ucs2: 0xd2e4, cp949: 0xc6ba},
		lookupItem{ucs2: 0xd2e5, cp949: 0xc6bb},
		lookupItem{ucs2: 0xd2e6, cp949: 0xba90},
		lookupItem{ucs2: 0xd2e7, cp949: 0xba91},
		lookupItem{ucs2: 0xd2e8, cp949: 0xba92},
		lookupItem{ucs2: 0xd2e9, cp949: 0xba93},
		lookupItem{ucs2: 0xd2ea, cp949: 0xba94},
		lookupItem{ucs2: 0xd2eb, cp949: 0xba95},
		lookupItem{ucs2: 0xd2ec, cp949: 0xba96},
		lookupItem{ucs2: 0xd2ed, cp949: 0xba97},
		lookupItem{ucs2: 0xd2ee, cp949: 0xba98},
		lookupItem{ucs2: 0xd2ef, cp949: 0xba99},
		lookupItem{ucs2: 0xd2f0, cp949: 0xc6bc},
		lookupItem{ucs2: 0xd2f1, cp949: 0xc6bd},
		lookupItem{ucs2: 0xd2f2, cp949: 0xba9a},
		lookupItem{ucs2: 0xd2f3, cp949: 0xba9b},
		lookupItem{ucs2: 0xd2f4, cp949: 0xc6be},
		lookupItem{ucs2: 0xd2f5, cp949: 0xba9c},
		lookupItem{ucs2: 0xd2f6, cp949: 0xba9d},
		lookupItem{ucs2: 0xd2f7, cp949: 0xba9e},
		lookupItem{ucs2: 0xd2f8, cp949: 0xc6bf},
		lookupItem{ucs2: 0xd2f9, cp949: 0xba9f},
		lookupItem{ucs2: 0xd2fa, cp949: 0xbaa0},
		lookupItem{ucs2: 0xd2fb, cp949: 0xbb41},
		lookupItem{ucs2: 0xd2fc, cp949: 0xbb42},
		lookupItem{ucs2: 0xd2fd, cp949: 0xbb43},
		lookupItem{ucs2: 0xd2fe, cp949: 0xbb44},
		lookupItem{ucs2: 0xd2ff, cp949: 0xbb45},
".
Definition text_cp949_lookup_to_062 : string :=
"		lookupItem{ucs2: 0xd300, cp949: 0xc6c0},
		lookupItem{ucs2: 0xd301, cp949: 0xc6c1},
		lookupItem{ucs2: 0xd302, cp949: 0xbb46},
		lookupItem{ucs2: 0xd303, cp949: 0xc6c2},
		lookupItem{ucs2: 0xd304, cp949: 0xbb47},
		lookupItem{ucs2: 0xd305, cp949: 0xc6c3},
		lookupItem{ucs2: 0xd306, cp949: 0xbb48},
		lookupItem{ucs2: 0xd307, cp949: 0xbb49},
		lookupItem{ucs2: 0xd308, cp949: 0xbb4a},
		lookupItem{ucs2: 0xd309, cp949: 0xbb4b},
		lookupItem{ucs2: 0xd30a, cp949: 0xbb4c},
		lookupItem{ucs2: 0xd30b, cp949: 0xbb4d},
		lookupItem{ucs2: 0xd30c, cp949: 0xc6c4},
		lookupItem{ucs2: 0xd30d, cp949: 0xc6c5},
		lookupItem{ucs2: 0xd30e, cp949: 0xc6c6},
		lookupItem{ucs2: 0xd30f, cp949: 0xbb4e},
		lookupItem{ucs2: 0xd310, cp949: 0xc6c7},
		lookupItem{ucs2: 0xd311, cp949: 0xbb4f},
		lookupItem{ucs2: 0xd312, cp949: 0xbb50},
		lookupItem{ucs2: 0xd313, cp949: 0xbb51},
		lookupItem{ucs2: 0xd314, cp949: 0xc6c8},
		lookupItem{ucs2: 0xd315, cp949: 0xbb52},
		lookupItem{ucs2: 0xd316, cp949: 0xc6c9},
		lookupItem{ucs2: 0xd317, cp949: 0xbb53},
		lookupItem{ucs2: 0xd318, cp949: 0xbb54},
		lookupItem{ucs2: 0xd319, cp949: 0xbb55},
		lookupItem{ucs2: 0xd31a, cp949: 0xbb56},
		lookupItem{ucs2: 0xd31b, cp949: 0xbb57},
		lookupItem{ucs2: 0xd31c, cp949: 0xc6ca},
		lookupItem{ucs2: 0xd31d, cp949: 0xc6cb},
		lookupItem{ucs2: 0xd31e, cp949: 0xbb58},
		lookupItem{ucs2: 0xd31f, cp949: 0xc6cc},
		lookupItem{ucs2: 0xd320, cp949: 0xc6cd},
		lookupItem{ucs2: 0xd321, cp949: 0xc6ce},
		lookupItem{ucs2: 0xd322, cp949: 0xbb59},
		lookupItem{ucs2: 0xd323, cp949: 0xbb5a},
		lookupItem{ucs2: 0xd324, cp949: 0xbb61},
		lookupItem{ucs2: 0xd325, cp949: 0xc6cf},
		lookupItem{ucs2: 0xd326, cp949: 0xbb62},
		lookupItem{ucs2: 0xd327, cp949: 0xbb63},
		lookupItem{ucs2: 0xd328, cp949: 0xc6d0},
		lookupItem{ucs2: 0xd329, cp949: 0xc6d1},
		lookupItem{ucs2: 0xd32a, cp949: 0xbb64},
		lookupItem{ucs2: 0xd32b, cp949: 0xbb65},
		lookupItem{ucs2: 0xd32c, cp949: 0xc6d2},
		lookupItem{ucs2: 0xd32d, cp949: 0xbb66},
		lookupItem{ucs2: 0xd32e, cp949: 0xbb67},
		lookupItem{ucs2: 0xd32f, cp949: 0xbb68},
		lookupItem{ucs2: 0xd330, cp949: 0xc6d3},
		lookupItem{ucs2: 0xd331, cp949: 0xbb69},
		lookupItem{ucs2: 0xd332, cp949: 0xbb6a},
		lookupItem{ucs2: 0xd333, cp949: 0xbb6b},
		lookupItem{ucs2: 0xd334, cp949: 0xbb6c},
		lookupItem{ucs2: 0xd335, cp949: 0xbb6d},
		lookupItem{ucs2: 0xd336, cp949: 0xbb6e},
		lookupItem{ucs2: 0xd337, cp949: 0xbb6f},
		lookupItem{ucs2: 0xd338, cp949: 0xc6d4},
		lookupItem{ucs2: 0xd339, cp949: 0xc6d5},
		lookupItem{ucs2: 0xd33a, cp949: 0xbb70},
		lookupItem{ucs2: 0xd33b, cp949: 0xc6d6},
		lookupItem{ucs2: 0xd33c, cp949: 0xc6d7},
		lookupItem{ucs2: 0xd33d, cp949: 0xc6d8},
		lookupItem{ucs2: 0xd33e, cp949: 0xbb71},
		lookupItem{ucs2: 0xd33f, cp949: 0xbb72},
		lookupItem{ucs2: 0xd340, cp949: 0xbb73},
		lookupItem{ucs2: 0xd341, cp949: 0xbb74},
		lookupItem{ucs2: 0xd342, cp949: 0xbb75},
		lookupItem{ucs2: 0xd343, cp949: 0xbb76},
		lookupItem{ucs2: 0xd344, cp949: 0xc6d9},
		lookupItem{ucs2: 0xd345, cp949: 0xc6da},
		lookupItem{ucs2: 0xd346, cp949: 0xbb77},
		lookupItem{ucs2: 0xd347, cp949: 0xbb78},
		lookupItem{ucs2: 0xd348, cp949: 0xbb79},
		lookupItem{ucs2: 0xd349, cp949: 0xbb7a},
		lookupItem{ucs2: 0xd34a, cp949: 0xbb81},
		lookupItem{ucs2: 0xd34b, cp949: 0xbb82},
		lookupItem{ucs2: 0xd34c, cp949: 0xbb83},
		lookupItem{ucs2: 0xd34d, cp949: 0xbb84},
		lookupItem{ucs2: 0xd34e, cp949: 0xbb85},
		lookupItem{ucs2: 0xd34f, cp949: 0xbb86},
		lookupItem{ucs2: 0xd350, cp949: 0xbb87},
		lookupItem{ucs2: 0xd351, cp949: 0xbb88},
		lookupItem{ucs2: 0xd352, cp949: 0xbb89},
		lookupItem{ucs2: 0xd353, cp949: 0xbb8a},
		lookupItem{ucs2: 0xd354, cp949: 0xbb8b},
		lookupItem{ucs2: 0xd355, cp949: 0xbb8c},
		lookupItem{ucs2: 0xd356, cp949: 0xbb8d},
		lookupItem{ucs2: 0xd357, cp949: 0xbb8e},
		lookupItem{ucs2: 0xd358, cp949: 0xbb8f},
		lookupItem{ucs2: 0xd359, cp949: 0xbb90},
		lookupItem{ucs2: 0xd35a, cp949: 0xbb91},
		lookupItem{ucs2: 0xd35b, cp949: 0xbb92},
		lookupItem{ucs2: 0xd35c, cp949: 0xbb93},
		lookupItem{ucs2: 0xd35d, cp949: 0xbb94},
		lookupItem{ucs2: 0xd35e, cp949: 0xbb95},
		lookupItem{ucs2: 0xd35f, cp949: 0xbb96},
		lookupItem{ucs2: 0xd360, cp949: 0xbb97},
		lookupItem{ucs2: 0xd361, cp949: 0xbb98},
		lookupItem{ucs2: 0xd362, cp949: 0xbb99},
		lookupItem{ucs2: 0xd363, cp949: 0xbb9a},
		lookupItem{ucs2: 0xd364, cp949: 0xbb9b},
		lookupItem{ucs2: 0xd365, cp949: 0xbb9c},
		lookupItem{ucs2: 0xd366, cp949: 0xbb9d},
		lookupItem{ucs2: 0xd367, cp949: 0xbb9e},
		lookupItem{ucs2: 0xd368, cp949: 0xbb9f},
		lookupItem{ucs2: 0xd369, cp949: 0xbba0},
		lookupItem{ucs2: 0xd36a, cp949: 0xbc41},
		lookupItem{ucs2: 0xd36b, cp949: 0xbc42},
		lookupItem{ucs2: 0xd36c, cp949: 0xbc43},
		lookupItem{ucs2: 0xd36d, cp949: 0xbc44},
		lookupItem{ucs2: 0xd36e, cp949: 0xbc45},
		lookupItem{ucs2: 0xd36f, cp949: 0xbc46},
		lookupItem{ucs2: 0xd370, cp949: 0xbc47},
		lookupItem{ucs2: 0xd371, cp949: 0xbc48},
		lookupItem{ucs2: 0xd372, cp949: 0xbc49},
		lookupItem{ucs2: 0xd373, cp949: 0xbc4a},
		lookupItem{ucs2: 0xd374, cp949: 0xbc4b},
		lookupItem{ucs2: 0xd375, cp949: 0xbc4c},
		lookupItem{ucs2: 0xd376, cp949: 0xbc4d},
		lookupItem{ucs2: 0xd377, cp949: 0xbc4e},
		lookupItem{ucs2: 0xd378, cp949: 0xbc4f},
		lookupItem{ucs2: 0xd379, cp949: 0xbc50},
		lookupItem{ucs2: 0xd37a, cp949: 0xbc51},
		lookupItem{ucs2: 0xd37b, cp949: 0xbc52},
		lookupItem{ucs2: 0xd37c, cp949: 0xc6db},
		lookupItem{ucs2: 0xd37d, cp949: 0xc6dc},
		lookupItem{ucs2: 0xd37e, cp949: 0xbc53},
		lookupItem{ucs2: 0xd37f, cp949: 0xbc54},
		lookupItem{ucs2: 0xd380, cp949: 0xc6dd},
		lookupItem{ucs2: 0xd381, cp949: 0xbc55},
		lookupItem{ucs2: 0xd382, cp949: 0xbc56},
		lookupItem{ucs2: 0xd383, cp949: 0xbc57},
		lookupItem{ucs2: 0xd384, cp949: 0xc6de},
		lookupItem{ucs2: 0xd385, cp949: 0xbc58},
		lookupItem{ucs2: 0xd386, cp949: 0xbc59},
		lookupItem{ucs2: 0xd387, cp949: 0xbc5a},
		lookupItem{ucs2: 0xd388, cp949: 0xbc61},
		lookupItem{ucs2: 0xd389, cp949: 0xbc62},
		lookupItem{ucs2: 0xd38a, cp949: 0xbc63},
		lookupItem{ucs2: 0xd38b, cp949: 0xbc64},
		lookupItem{ucs2: 0xd38c, cp949: 0xc6df},
		lookupItem{ucs2: 0xd38d, cp949: 0xc6e0},
		lookupItem{ucs2: 0xd38e, cp949: 0xbc65},
		lookupItem{ucs2: 0xd38f, cp949: 0xc6e1},
		lookupItem{ucs2: 0xd390, cp949: 0xc6e2},
		lookupItem{ucs2: 0xd391, cp949: 0xc6e3},
		lookupItem{ucs2: 0xd392, cp949: 0xbc66},
		lookupItem{ucs2: 0xd393, cp949: 0xbc67},
		lookupItem{ucs2: 0xd394, cp949: 0xbc68},
		lookupItem{ucs2: 0xd395, cp949: 0xbc69},
		lookupItem{ucs2: 0xd396, cp949: 0xbc6a},
		lookupItem{ucs2: 0xd397, cp949: 0xbc6b},
		lookupItem{ucs2: 0xd398, cp949: 0xc6e4},
		lookupItem{ucs2: 0xd399, cp949: 0xc6e5},
		lookupItem{ucs2: 0xd39a, cp949: 0xbc6c},
		lookupItem{ucs2: 0xd39b, cp949: 0xbc6d},
		lookupItem{ucs2: 0xd39c, cp949: 0xc6e6},
		lookupItem{ucs2: 0xd39d, cp949: 0xbc6e},
		lookupItem{ucs2: 0xd39e, cp949: 0xbc6f},
		lookupItem{ucs2: 0xd39f, cp949: 0xbc70},
		lookupItem{ucs2: 0xd3a0, cp949: 0xc6e7},
		lookupItem{ucs2: 0xd3a1, cp949: 0xbc71},
		lookupItem{ucs2: 0xd3a2, cp949: 0xbc72},
		lookupItem{ucs2: 0xd3a3, cp949: 0xbc73},
		lookupItem{ucs2: 0xd3a4, cp949: 0xbc74},
		lookupItem{ucs2: 0xd3a5, cp949: 0xbc75},
		lookupItem{ucs2: 0xd3a6, cp949: 0xbc76},
		lookupItem{ucs2: 0xd3a7, cp949: 0xbc77},
		lookupItem{ucs2: 0xd3a8, cp949: 0xc6e8},
		lookupItem{ucs2: 0xd3a9, cp949: 0xc6e9},
		lookupItem{ucs2: 0xd3aa, cp949: 0xbc78},
		lookupItem{ucs2: 0xd3ab, cp949: 0xc6ea},
		lookupItem{ucs2: 0xd3ac, cp949: 0xbc79},
		lookupItem{ucs2: 0xd3ad, cp949: 0xc6eb},
		lookupItem{ucs2: 0xd3ae, cp949: 0xbc7a},
		lookupItem{ucs2: 0xd3af, cp949: 0xbc81},
		lookupItem{ucs2: 0xd3b0, cp949: 0xbc82},
		lookupItem{ucs2: 0xd3b1, cp949: 0xbc83},
		lookupItem{ucs2: 0xd3b2, cp949: 0xbc84},
		lookupItem{ucs2: 0xd3b3, cp949: 0xbc85},
		lookupItem{ucs2: 0xd3b4, cp949: 0xc6ec},
		lookupItem{ucs2: 0xd3b5, cp949: 0xbc86},
		lookupItem{ucs2: 0xd3b6, cp949: 0xbc87},
		lookupItem{ucs2: 0xd3b7, cp949: 0xbc88},
		lookupItem{ucs2: 0xd3b8, cp949: 0xc6ed},
		lookupItem{ucs2: 0xd3b9, cp949: 0xbc89},
		lookupItem{ucs2: 0xd3ba, cp949: 0xbc8a},
		lookupItem{ucs2: 0xd3bb, cp949: 0xbc8b},
		lookupItem{ucs2: 0xd3bc, cp949: 0xc6ee},
		lookupItem{ucs2: 0xd3bd, cp949: 0xbc8c},
		lookupItem{ucs2: 0xd3be, cp949: 0xbc8d},
		lookupItem{ucs2: 0xd3bf, cp949: 0xbc8e},
		lookupItem{ucs2: 0xd3c0, cp949: 0xbc8f},
		lookupItem{ucs2: 0xd3c1, cp949: 0xbc90},
		lookupItem{ucs2: 0xd3c2, cp949: 0xbc91},
		lookupItem{ucs2: 0xd3c3, cp949: 0xbc92},
		lookupItem{ucs2: 0xd3c4, cp949: 0xc6ef},
		lookupItem{ucs2: 0xd3c5, cp949: 0xc6f0},
		lookupItem{ucs2: 0xd3c6, cp949: 0xbc93},
		lookupItem{ucs2: 0xd3c7, cp949: 0xbc94},
		lookupItem{ucs2: 0xd3c8, cp949: 0xc6f1},
		lookupItem{ucs2: 0xd3c9, cp949: 0xc6f2},
		lookupItem{ucs2: 0xd3ca, cp949: 0xbc95},
		lookupItem{ucs2: 0xd3cb, cp949: 0xbc96},
		lookupItem{ucs2: 0xd3cc, cp949: 0xbc97},
		lookupItem{ucs2: 0xd3cd, cp949: 0xbc98},
		lookupItem{ucs2: 0xd3ce, cp949: 0xbc99},
		lookupItem{ucs2: 0xd3cf, cp949: 0xbc9a},
		lookupItem{ucs2: 0xd3d0, cp949: 0xc6f3},
		lookupItem{ucs2: 0xd3d1, cp949: 0xbc9b},
		lookupItem{ucs2: 0xd3d2, cp949: 0xbc9c},
		lookupItem{ucs2: 0xd3d3, cp949: 0xbc9d},
		lookupItem{ucs2: 0xd3d4, cp949: 0xbc9e},
		lookupItem{ucs2: 0xd3d5, cp949: 0xbc9f},
		lookupItem{ucs2: 0xd3d6, cp949: 0xbca0},
		lookupItem{ucs2: 0xd3d7, cp949: 0xbd41},
		lookupItem{ucs2: 0xd3d8, cp949: 0xc6f4},
		lookupItem{ucs2: 0xd3d9, cp949: 0xbd42},
		lookupItem{ucs2: 0xd3da, cp949: 0xbd43},
		lookupItem{ucs2: 0xd3db, cp949: 0xbd44},
		lookupItem{ucs2: 0xd3dc, cp949: 0xbd45},
		lookupItem{ucs2: 0xd3dd, cp949: 0xbd46},
		lookupItem{ucs2: 0xd3de, cp949: 0xbd47},
		lookupItem{ucs2: 0xd3df, cp949: 0xbd48},
		lookupItem{ucs2: 0xd3e0, cp949: 0xbd49},
		lookupItem{ucs2: 0xd3e1, cp949: 0xc6f5},
		lookupItem{ucs2: 0xd3e2, cp949: 0xbd4a},
		lookupItem{ucs2: 0xd3e3, cp949: 0xc6f6},
		lookupItem{ucs2: 0xd3e4, cp949: 0xbd4b},
		lookupItem{ucs2: 0xd3e5, cp949: 0xbd4c},
		lookupItem{ucs2: 0xd3e6, cp949: 0xbd4d},
		lookupItem{ucs2: 0xd3e7, cp949: 0xbd4e},
		lookupItem{ucs2: 0xd3e8, cp949: 0xbd4f},
		lookupItem{ucs2: 0xd3e9, cp949: 0xbd50},
		lookupItem{ucs2: 0xd3ea, cp949: 0xbd51},
		lookupItem{ucs2: 0xd3eb, cp949: 0xbd52},
		lookupItem{ucs2: 0xd3ec, cp949: 0xc6f7},
		lookupItem{ucs2: 0xd3ed, cp949: 0xc6f8},
		lookupItem{ucs2: 0xd3ee, cp949: 0xbd53},
		lookupItem{ucs2: 0xd3ef, cp949: 0xbd54},
		lookupItem{ucs2: 0xd3f0, cp949: 0xc6f9},
		lookupItem{ucs2: 0xd3f1, cp949: 0xbd55},
		lookupItem{ucs2: 0xd3f2, cp949: 0xbd56},
		lookupItem{ucs2: 0xd3f3, cp949: 0xbd57},
		lookupItem{ucs2: 0xd3f4, cp949: 0xc6fa},
		lookupItem{ucs2: 0xd3f5, cp949: 0xbd58},
		lookupItem{ucs2: 0xd3f6, cp949: 0xbd59},
		lookupItem{ucs2: 0xd3f7, cp949: 0xbd5a},
		lookupItem{ucs2: 0xd3f8, cp949: 0xbd61},
		lookupItem{ucs2: 0xd3f9, cp949: 0xbd62},
".
Definition text_cp949_lookup_to_063 : string :=
"		lookupItem{ucs2: 0xd3fa, cp949: 0xbd63},
		lookupItem{ucs2: 0xd3fb, cp949: 0xbd64},
		lookupItem{ucs2: 0xd3fc, cp949: 0xc6fb},
		lookupItem{ucs2: 0xd3fd, cp949: 0xc6fc},
		lookupItem{ucs2: 0xd3fe, cp949: 0xbd65},
		lookupItem{ucs2: 0xd3ff, cp949: 0xc6fd},
		lookupItem{ucs2: 0xd400, cp949: 0xbd66},
		lookupItem{ucs2: 0xd401, cp949: 0xc6fe},
		lookupItem{ucs2: 0xd402, cp949: 0xbd67},
		lookupItem{ucs2: 0xd403, cp949: 0xbd68},
		lookupItem{ucs2: 0xd404, cp949: 0xbd69},
		lookupItem{ucs2: 0xd405, cp949: 0xbd6a},
		lookupItem{ucs2: 0xd406, cp949: 0xbd6b},
		lookupItem{ucs2: 0xd407, cp949: 0xbd6c},
		lookupItem{ucs2: 0xd408, cp949: 0xc7a1},
		lookupItem{ucs2: 0xd409, cp949: 0xbd6d},
		lookupItem{ucs2: 0xd40a, cp949: 0xbd6e},
		lookupItem{ucs2: 0xd40b, cp949: 0xbd6f},
		lookupItem{ucs2: 0xd40c, cp949: 0xbd70},
		lookupItem{ucs2: 0xd40d, cp949: 0xbd71},
		lookupItem{ucs2: 0xd40e, cp949: 0xbd72},
		lookupItem{ucs2: 0xd40f, cp949: 0xbd73},
		lookupItem{ucs2: 0xd410, cp949: 0xbd74},
		lookupItem{ucs2: 0xd411, cp949: 0xbd75},
		lookupItem{ucs2: 0xd412, cp949: 0xbd76},
		lookupItem{ucs2: 0xd413, cp949: 0xbd77},
		lookupItem{ucs2: 0xd414, cp949: 0xbd78},
		lookupItem{ucs2: 0xd415, cp949: 0xbd79},
		lookupItem{ucs2: 0xd416, cp949: 0xbd7a},
		lookupItem{ucs2: 0xd417, cp949: 0xbd81},
		lookupItem{ucs2: 0xd418, cp949: 0xbd82},
		lookupItem{ucs2: 0xd419, cp949: 0xbd83},
		lookupItem{ucs2: 0xd41a, cp949: 0xbd84},
		lookupItem{ucs2: 0xd41b, cp949: 0xbd85},
		lookupItem{ucs2: 0xd41c, cp949: 0xbd86},
		lookupItem{ucs2: 0xd41d, cp949: 0xc7a2},
		lookupItem{ucs2: 0xd41e, cp949: 0xbd87},
		lookupItem{ucs2: 0xd41f, cp949: 0xbd88},
		lookupItem{ucs2: 0xd420, cp949: 0xbd89},
		lookupItem{ucs2: 0xd421, cp949: 0xbd8a},
		lookupItem{ucs2: 0xd422, cp949: 0xbd8b},
		lookupItem{ucs2: 0xd423, cp949: 0xbd8c},
		lookupItem{ucs2: 0xd424, cp949: 0xbd8d},
		lookupItem{ucs2: 0xd425, cp949: 0xbd8e},
		lookupItem{ucs2: 0xd426, cp949: 0xbd8f},
		lookupItem{ucs2: 0xd427, cp949: 0xbd90},
		lookupItem{ucs2: 0xd428, cp949: 0xbd91},
		lookupItem{ucs2: 0xd429, cp949: 0xbd92},
		lookupItem{ucs2: 0xd42a, cp949: 0xbd93},
		lookupItem{ucs2: 0xd42b, cp949: 0xbd94},
		lookupItem{ucs2: 0xd42c, cp949: 0xbd95},
		lookupItem{ucs2: 0xd42d, cp949: 0xbd96},
		lookupItem{ucs2: 0xd42e, cp949: 0xbd97},
		lookupItem{ucs2: 0xd42f, cp949: 0xbd98},
		lookupItem{ucs2: 0xd430, cp949: 0xbd99},
		lookupItem{ucs2: 0xd431, cp949: 0xbd9a},
		lookupItem{ucs2: 0xd432, cp949: 0xbd9b},
		lookupItem{ucs2: 0xd433, cp949: 0xbd9c},
		lookupItem{ucs2: 0xd434, cp949: 0xbd9d},
		lookupItem{ucs2: 0xd435, cp949: 0xbd9e},
		lookupItem{ucs2: 0xd436, cp949: 0xbd9f},
		lookupItem{ucs2: 0xd437, cp949: 0xbda0},
		lookupItem{ucs2: 0xd438, cp949: 0xbe41},
		lookupItem{ucs2: 0xd439, cp949: 0xbe42},
		lookupItem{ucs2: 0xd43a, cp949: 0xbe43},
		lookupItem{ucs2: 0xd43b, cp949: 0xbe44},
		lookupItem{ucs2: 0xd43c, cp949: 0xbe45},
		lookupItem{ucs2: 0xd43d, cp949: 0xbe46},
		lookupItem{ucs2: 0xd43e, cp949: 0xbe47},
		lookupItem{ucs2: 0xd43f, cp949: 0xbe48},
		lookupItem{ucs2: 0xd440, cp949: 0xc7a3},
		lookupItem{ucs2: 0xd441, cp949: 0xbe49},
		lookupItem{ucs2: 0xd442, cp949: 0xbe4a},
		lookupItem{ucs2: 0xd443, cp949: 0xbe4b},
		lookupItem{ucs2: 0xd444, cp949: 0xc7a4},
		lookupItem{ucs2: 0xd445, cp949: 0xbe4c},
		lookupItem{ucs2: 0xd446, cp949: 0xbe4d},
		lookupItem{ucs2: 0xd447, cp949: 0xbe4e},
		lookupItem{ucs2: 0xd448, cp949: 0xbe4f},
		lookupItem{ucs2: 0xd449, cp949: 0xbe50},
		lookupItem{ucs2: 0xd44a, cp949: 0xbe51},
		lookupItem{ucs2: 0xd44b, cp949: 0xbe52},
		lookupItem{ucs2: 0xd44c, cp949: 0xbe53},
		lookupItem{ucs2: 0xd44d, cp949: 0xbe54},
		lookupItem{ucs2: 0xd44e, cp949: 0xbe55},
		lookupItem{ucs2: 0xd44f, cp949: 0xbe56},
		lookupItem{ucs2: 0xd450, cp949: 0xbe57},
		lookupItem{ucs2: 0xd451, cp949: 0xbe58},
		lookupItem{ucs2: 0xd452, cp949: 0xbe59},
		lookupItem{ucs2: 0xd453, cp949: 0xbe5a},
		lookupItem{ucs2: 0xd454, cp949: 0xbe61},
		lookupItem{ucs2: 0xd455, cp949: 0xbe62},
		lookupItem{ucs2: 0xd456, cp949: 0xbe63},
		lookupItem{ucs2: 0xd457, cp949: 0xbe64},
		lookupItem{ucs2: 0xd458, cp949: 0xbe65},
		lookupItem{ucs2: 0xd459, cp949: 0xbe66},
		lookupItem{ucs2: 0xd45a, cp949: 0xbe67},
		lookupItem{ucs2: 0xd45b, cp949: 0xbe68},
		lookupItem{ucs2: 0xd45c, cp949: 0xc7a5},
		lookupItem{ucs2: 0xd45d, cp949: 0xbe69},
		lookupItem{ucs2: 0xd45e, cp949: 0xbe6a},
		lookupItem{ucs2: 0xd45f, cp949: 0xbe6b},
		lookupItem{ucs2: 0xd460, cp949: 0xc7a6},
		lookupItem{ucs2: 0xd461, cp949: 0xbe6c},
		lookupItem{ucs2: 0xd462, cp949: 0xbe6d},
		lookupItem{ucs2: 0xd463, cp949: 0xbe6e},
		lookupItem{ucs2: 0xd464, cp949: 0xc7a7},
		lookupItem{ucs2: 0xd465, cp949: 0xbe6f},
		lookupItem{ucs2: 0xd466, cp949: 0xbe70},
		lookupItem{ucs2: 0xd467, cp949: 0xbe71},
		lookupItem{ucs2: 0xd468, cp949: 0xbe72},
		lookupItem{ucs2: 0xd469, cp949: 0xbe73},
		lookupItem{ucs2: 0xd46a, cp949: 0xbe74},
		lookupItem{ucs2: 0xd46b, cp949: 0xbe75},
		lookupItem{ucs2: 0xd46c, cp949: 0xbe76},
		lookupItem{ucs2: 0xd46d, cp949: 0xc7a8},
		lookupItem{ucs2: 0xd46e, cp949: 0xbe77},
		lookupItem{ucs2: 0xd46f, cp949: 0xc7a9},
		lookupItem{ucs2: 0xd470, cp949: 0xbe78},
		lookupItem{ucs2: 0xd471, cp949: 0xbe79},
		lookupItem{ucs2: 0xd472, cp949: 0xbe7a},
		lookupItem{ucs2: 0xd473, cp949: 0xbe81},
		lookupItem{ucs2: 0xd474, cp949: 0xbe82},
		lookupItem{ucs2: 0xd475, cp949: 0xbe83},
		lookupItem{ucs2: 0xd476, cp949: 0xbe84},
		lookupItem{ucs2: 0xd477, cp949: 0xbe85},
		lookupItem{ucs2: 0xd478, cp949: 0xc7aa},
		lookupItem{ucs2: 0xd479, cp949: 0xc7ab},
		lookupItem{ucs2: 0xd47a, cp949: 0xbe86},
		lookupItem{ucs2: 0xd47b, cp949: 0xbe87},
		lookupItem{ucs2: 0xd47c, cp949: 0xc7ac},
		lookupItem{ucs2: 0xd47d, cp949: 0xbe88},
		lookupItem{ucs2: 0xd47e, cp949: 0xbe89},
		lookupItem{ucs2: 0xd47f, cp949: 0xc7ad},
		lookupItem{ucs2: 0xd480, cp949: 0xc7ae},
		lookupItem{ucs2: 0xd481, cp949: 0xbe8a},
		lookupItem{ucs2: 0xd482, cp949: 0xc7af},
		lookupItem{ucs2: 0xd483, cp949: 0xbe8b},
		lookupItem{ucs2: 0xd484, cp949: 0xbe8c},
		lookupItem{ucs2: 0xd485, cp949: 0xbe8d},
		lookupItem{ucs2: 0xd486, cp949: 0xbe8e},
		lookupItem{ucs2: 0xd487, cp949: 0xbe8f},
		lookupItem{ucs2: 0xd488, cp949: 0xc7b0},
		lookupItem{ucs2: 0xd489, cp949: 0xc7b1},
		lookupItem{ucs2: 0xd48a, cp949: 0xbe90},
		lookupItem{ucs2: 0xd48b, cp949: 0xc7b2},
		lookupItem{ucs2: 0xd48c, cp949: 0xbe91},
		lookupItem{ucs2: 0xd48d, cp949: 0xc7b3},
		lookupItem{ucs2: 0xd48e, cp949: 0xbe92},
		lookupItem{ucs2: 0xd48f, cp949: 0xbe93},
		lookupItem{ucs2: 0xd490, cp949: 0xbe94},
		lookupItem{ucs2: 0xd491, cp949: 0xbe95},
		lookupItem{ucs2: 0xd492, cp949: 0xbe96},
		lookupItem{ucs2: 0xd493, cp949: 0xbe97},
		lookupItem{ucs2: 0xd494, cp949: 0xc7b4},
		lookupItem{ucs2: 0xd495, cp949: 0xbe98},
		lookupItem{ucs2: 0xd496, cp949: 0xbe99},
		lookupItem{ucs2: 0xd497, cp949: 0xbe9a},
		lookupItem{ucs2: 0xd498, cp949: 0xbe9b},
		lookupItem{ucs2: 0xd499, cp949: 0xbe9c},
		lookupItem{ucs2: 0xd49a, cp949: 0xbe9d},
		lookupItem{ucs2: 0xd49b, cp949: 0xbe9e},
		lookupItem{ucs2: 0xd49c, cp949: 0xbe9f},
		lookupItem{ucs2: 0xd49d, cp949: 0xbea0},
		lookupItem{ucs2: 0xd49e, cp949: 0xbf41},
		lookupItem{ucs2: 0xd49f, cp949: 0xbf42},
		lookupItem{ucs2: 0xd4a0, cp949: 0xbf43},
		lookupItem{ucs2: 0xd4a1, cp949: 0xbf44},
		lookupItem{ucs2: 0xd4a2, cp949: 0xbf45},
		lookupItem{ucs2: 0xd4a3, cp949: 0xbf46},
		lookupItem{ucs2: 0xd4a4, cp949: 0xbf47},
		lookupItem{ucs2: 0xd4a5, cp949: 0xbf48},
		lookupItem{ucs2: 0xd4a6, cp949: 0xbf49},
		lookupItem{ucs2: 0xd4a7, cp949: 0xbf4a},
		lookupItem{ucs2: 0xd4a8, cp949: 0xbf4b},
		lookupItem{ucs2: 0xd4a9, cp949: 0xc7b5},
		lookupItem{ucs2: 0xd4aa, cp949: 0xbf4c},
		lookupItem{ucs2: 0xd4ab, cp949: 0xbf4d},
		lookupItem{ucs2: 0xd4ac, cp949: 0xbf4e},
		lookupItem{ucs2: 0xd4ad, cp949: 0xbf4f},
		lookupItem{ucs2: 0xd4ae, cp949: 0xbf50},
		lookupItem{ucs2: 0xd4af, cp949: 0xbf51},
		lookupItem{ucs2: 0xd4b0, cp949: 0xbf52},
		lookupItem{ucs2: 0xd4b1, cp949: 0xbf53},
		lookupItem{ucs2: 0xd4b2, cp949: 0xbf54},
		lookupItem{ucs2: 0xd4b3, cp949: 0xbf55},
		lookupItem{ucs2: 0xd4b4, cp949: 0xbf56},
		lookupItem{ucs2: 0xd4b5, cp949: 0xbf57},
		lookupItem{ucs2: 0xd4b6, cp949: 0xbf58},
		lookupItem{ucs2: 0xd4b7, cp949: 0xbf59},
		lookupItem{ucs2: 0xd4b8, cp949: 0xbf5a},
		lookupItem{ucs2: 0xd4b9, cp949: 0xbf61},
		lookupItem{ucs2: 0xd4ba, cp949: 0xbf62},
		lookupItem{ucs2: 0xd4bb, cp949: 0xbf63},
		lookupItem{ucs2: 0xd4bc, cp949: 0xbf64},
		lookupItem{ucs2: 0xd4bd, cp949: 0xbf65},
		lookupItem{ucs2: 0xd4be, cp949: 0xbf66},
		lookupItem{ucs2: 0xd4bf, cp949: 0xbf67},
		lookupItem{ucs2: 0xd4c0, cp949: 0xbf68},
		lookupItem{ucs2: 0xd4c1, cp949: 0xbf69},
		lookupItem{ucs2: 0xd4c2, cp949: 0xbf6a},
		lookupItem{ucs2: 0xd4c3, cp949: 0xbf6b},
		lookupItem{ucs2: 0xd4c4, cp949: 0xbf6c},
		lookupItem{ucs2: 0xd4c5, cp949: 0xbf6d},
		lookupItem{ucs2: 0xd4c6, cp949: 0xbf6e},
		lookupItem{ucs2: 0xd4c7, cp949: 0xbf6f},
		lookupItem{ucs2: 0xd4c8, cp949: 0xbf70},
		lookupItem{ucs2: 0xd4c9, cp949: 0xbf71},
		lookupItem{ucs2: 0xd4ca, cp949: 0xbf72},
		lookupItem{ucs2: 0xd4cb, cp949: 0xbf73},
		lookupItem{ucs2: 0xd4cc, cp949: 0xc7b6},
		lookupItem{ucs2: 0xd4cd, cp949: 0xbf74},
		lookupItem{ucs2: 0xd4ce, cp949: 0xbf75},
		lookupItem{ucs2: 0xd4cf, cp949: 0xbf76},
		lookupItem{ucs2: 0xd4d0, cp949: 0xc7b7},
		lookupItem{ucs2: 0xd4d1, cp949: 0xbf77},
		lookupItem{ucs2: 0xd4d2, cp949: 0xbf78},
		lookupItem{ucs2: 0xd4d3, cp949: 0xbf79},
		lookupItem{ucs2: 0xd4d4, cp949: 0xc7b8},
		lookupItem{ucs2: 0xd4d5, cp949: 0xbf7a},
		lookupItem{ucs2: 0xd4d6, cp949: 0xbf81},
		lookupItem{ucs2: 0xd4d7, cp949: 0xbf82},
		lookupItem{ucs2: 0xd4d8, cp949: 0xbf83},
		lookupItem{ucs2: 0xd4d9, cp949: 0xbf84},
		lookupItem{ucs2: 0xd4da, cp949: 0xbf85},
		lookupItem{ucs2: 0xd4db, cp949: 0xbf86},
		lookupItem{ucs2: 0xd4dc, cp949: 0xc7b9},
		lookupItem{ucs2: 0xd4dd, cp949: 0xbf87},
		lookupItem{ucs2: 0xd4de, cp949: 0xbf88},
		lookupItem{ucs2: 0xd4df, cp949: 0xc7ba},
		lookupItem{ucs2: 0xd4e0, cp949: 0xbf89},
		lookupItem{ucs2: 0xd4e1, cp949: 0xbf8a},
		lookupItem{ucs2: 0xd4e2, cp949: 0xbf8b},
		lookupItem{ucs2: 0xd4e3, cp949: 0xbf8c},
		lookupItem{ucs2: 0xd4e4, cp949: 0xbf8d},
		lookupItem{ucs2: 0xd4e5, cp949: 0xbf8e},
		lookupItem{ucs2: 0xd4e6, cp949: 0xbf8f},
		lookupItem{ucs2: 0xd4e7, cp949: 0xbf90},
		lookupItem{ucs2: 0xd4e8, cp949: 0xc7bb},
		lookupItem{ucs2: 0xd4e9, cp949: 0xbf91},
		lookupItem{ucs2: 0xd4ea, cp949: 0xbf92},
		lookupItem{ucs2: 0xd4eb, cp949: 0xbf93},
		lookupItem{ucs2: 0xd4ec, cp949: 0xc7bc},
		lookupItem{ucs2: 0xd4ed, cp949: 0xbf94},
		lookupItem{ucs2: 0xd4ee, cp949: 0xbf95},
		lookupItem{ucs2: 0xd4ef, cp949: 0xbf96},
		lookupItem{ucs2: 0xd4f0, cp949: 0xc7bd},
		lookupItem{ucs2: 0xd4f1, cp949: 0xbf97},
		lookupItem{ucs2: 0xd4f2, cp949: 0xbf98},
		lookupItem{ucs2: 0xd4f3, cp949: 0xbf99},
".
Definition text_cp949_lookup_to_064 : string :=
"		lookupItem{ucs2: 0xd4f4, cp949: 0xbf9a},
		lookupItem{ucs2: 0xd4f5, cp949: 0xbf9b},
		lookupItem{ucs2: 0xd4f6, cp949: 0xbf9c},
		lookupItem{ucs2: 0xd4f7, cp949: 0xbf9d},
		lookupItem{ucs2: 0xd4f8, cp949: 0xc7be},
		lookupItem{ucs2: 0xd4f9, cp949: 0xbf9e},
		lookupItem{ucs2: 0xd4fa, cp949: 0xbf9f},
		lookupItem{ucs2: 0xd4fb, cp949: 0xc7bf},
		lookupItem{ucs2: 0xd4fc, cp949: 0xbfa0},
		lookupItem{ucs2: 0xd4fd, cp949: 0xc7c0},
		lookupItem{ucs2: 0xd4fe, cp949: 0xc041},
		lookupItem{ucs2: 0xd4ff, cp949: 0xc042},
		lookupItem{ucs2: 0xd500, cp949: 0xc043},
		lookupItem{ucs2: 0xd501, cp949: 0xc044},
		lookupItem{ucs2: 0xd502, cp949: 0xc045},
		lookupItem{ucs2: 0xd503, cp949: 0xc046},
		lookupItem{ucs2: 0xd504, cp949: 0xc7c1},
		lookupItem{ucs2: 0xd505, cp949: 0xc047},
		lookupItem{ucs2: 0xd506, cp949: 0xc048},
		lookupItem{ucs2: 0xd507, cp949: 0xc049},
		lookupItem{ucs2: 0xd508, cp949: 0xc7c2},
		lookupItem{ucs2: 0xd509, cp949: 0xc04a},
		lookupItem{ucs2: 0xd50a, cp949: 0xc04b},
		lookupItem{ucs2: 0xd50b, cp949: 0xc04c},
		lookupItem{ucs2: 0xd50c, cp949: 0xc7c3},
		lookupItem{ucs2: 0xd50d, cp949: 0xc04d},
		lookupItem{ucs2: 0xd50e, cp949: 0xc04e},
		lookupItem{ucs2: 0xd50f, cp949: 0xc04f},
		lookupItem{ucs2: 0xd510, cp949: 0xc050},
		lookupItem{ucs2: 0xd511, cp949: 0xc051},
		lookupItem{ucs2: 0xd512, cp949: 0xc052},
		lookupItem{ucs2: 0xd513, cp949: 0xc053},
		lookupItem{ucs2: 0xd514, cp949: 0xc7c4},
		lookupItem{ucs2: 0xd515, cp949: 0xc7c5},
		lookupItem{ucs2: 0xd516, cp949: 0xc054},
		lookupItem{ucs2: 0xd517, cp949: 0xc7c6},
		lookupItem{ucs2: 0xd518, cp949: 0xc055},
		lookupItem{ucs2: 0xd519, cp949: 0xc056},
		lookupItem{ucs2: 0xd51a, cp949: 0xc057},
		lookupItem{ucs2: 0xd51b, cp949: 0xc058},
		lookupItem{ucs2: 0xd51c, cp949: 0xc059},
		lookupItem{ucs2: 0xd51d, cp949: 0xc05a},
		lookupItem{ucs2: 0xd51e, cp949: 0xc061},
		lookupItem{ucs2: 0xd51f, cp949: 0xc062},
		lookupItem{ucs2: 0xd520, cp949: 0xc063},
		lookupItem{ucs2: 0xd521, cp949: 0xc064},
		lookupItem{ucs2: 0xd522, cp949: 0xc065},
		lookupItem{ucs2: 0xd523, cp949: 0xc066},
		lookupItem{ucs2: 0xd524, cp949: 0xc067},
		lookupItem{ucs2: 0xd525, cp949: 0xc068},
		lookupItem{ucs2: 0xd526, cp949: 0xc069},
		lookupItem{ucs2: 0xd527, cp949: 0xc06a},
		lookupItem{ucs2: 0xd528, cp949: 0xc06b},
		lookupItem{ucs2: 0xd529, cp949: 0xc06c},
		lookupItem{ucs2: 0xd52a, cp949: 0xc06d},
		lookupItem{ucs2: 0xd52b, cp949: 0xc06e},
		lookupItem{ucs2: 0xd52c, cp949: 0xc06f},
		lookupItem{ucs2: 0xd52d, cp949: 0xc070},
		lookupItem{ucs2: 0xd52e, cp949: 0xc071},
		lookupItem{ucs2: 0xd52f, cp949: 0xc072},
		lookupItem{ucs2: 0xd530, cp949: 0xc073},
		lookupItem{ucs2: 0xd531, cp949: 0xc074},
		lookupItem{ucs2: 0xd532, cp949: 0xc075},
		lookupItem{ucs2: 0xd533, cp949: 0xc076},
		lookupItem{ucs2: 0xd534, cp949: 0xc077},
		lookupItem{ucs2: 0xd535, cp949: 0xc078},
		lookupItem{ucs2: 0xd536, cp949: 0xc079},
		lookupItem{ucs2: 0xd537, cp949: 0xc07a},
		lookupItem{ucs2: 0xd538, cp949: 0xc081},
		lookupItem{ucs2: 0xd539, cp949: 0xc082},
		lookupItem{ucs2: 0xd53a, cp949: 0xc083},
		lookupItem{ucs2: 0xd53b, cp949: 0xc084},
		lookupItem{ucs2: 0xd53c, cp949: 0xc7c7},
		lookupItem{ucs2: 0xd53d, cp949: 0xc7c8},
		lookupItem{ucs2: 0xd53e, cp949: 0xc085},
		lookupItem{ucs2: 0xd53f, cp949: 0xc086},
		lookupItem{ucs2: 0xd540, cp949: 0xc7c9},
		lookupItem{ucs2: 0xd541, cp949: 0xc087},
		lookupItem{ucs2: 0xd542, cp949: 0xc088},
		lookupItem{ucs2: 0xd543, cp949: 0xc089},
		lookupItem{ucs2: 0xd544, cp949: 0xc7ca},
		lookupItem{ucs2: 0xd545, cp949: 0xc08a},
		lookupItem{ucs2: 0xd546, cp949: 0xc08b},
		lookupItem{ucs2: 0xd547, cp949: 0xc08c},
		lookupItem{ucs2: 0xd548, cp949: 0xc08d},
		lookupItem{ucs2: 0xd549, cp949: 0xc08e},
		lookupItem{ucs2: 0xd54a, cp949: 0xc08f},
		lookupItem{ucs2: 0xd54b, cp949: 0xc090},
		lookupItem{ucs2: 0xd54c, cp949: 0xc7cb},
		lookupItem{ucs2: 0xd54d, cp949: 0xc7cc},
		lookupItem{ucs2: 0xd54e, cp949: 0xc091},
		lookupItem{ucs2: 0xd54f, cp949: 0xc7cd},
		lookupItem{ucs2: 0xd550, cp949: 0xc092},
		lookupItem{ucs2: 0xd551, cp949: 0xc7ce},
		lookupItem{ucs2: 0xd552, cp949: 0xc093},
		lookupItem{ucs2: 0xd553, cp949: 0xc094},
		lookupItem{ucs2: 0xd554, cp949: 0xc095},
		lookupItem{ucs2: 0xd555, cp949: 0xc096},
		lookupItem{ucs2: 0xd556, cp949: 0xc097},
		lookupItem{ucs2: 0xd557, cp949: 0xc098},
		lookupItem{ucs2: 0xd558, cp949: 0xc7cf},
		lookupItem{ucs2: 0xd559, cp949: 0xc7d0},
		lookupItem{ucs2: 0xd55a, cp949: 0xc099},
		lookupItem{ucs2: 0xd55b, cp949: 0xc09a},
		lookupItem{ucs2: 0xd55c, cp949: 0xc7d1},
		lookupItem{ucs2: 0xd55d, cp949: 0xc09b},
		lookupItem{ucs2: 0xd55e, cp949: 0xc09c},
		lookupItem{ucs2: 0xd55f, cp949: 0xc09d},
		lookupItem{ucs2: 0xd560, cp949: 0xc7d2},
		lookupItem{ucs2: 0xd561, cp949: 0xc09e},
		lookupItem{ucs2: 0xd562, cp949: 0xc09f},
		lookupItem{ucs2: 0xd563, cp949: 0xc0a0},
		lookupItem{ucs2: 0xd564, cp949: 0xc141},
		lookupItem{ucs2: 0xd565, cp949: 0xc7d3},
		lookupItem{ucs2: 0xd566, cp949: 0xc142},
		lookupItem{ucs2: 0xd567, cp949: 0xc143},
		lookupItem{ucs2: 0xd568, cp949: 0xc7d4},
		lookupItem{ucs2: 0xd569, cp949: 0xc7d5},
		lookupItem{ucs2: 0xd56a, cp949: 0xc144},
		lookupItem{ucs2: 0xd56b, cp949: 0xc7d6},
		lookupItem{ucs2: 0xd56c, cp949: 0xc145},
		lookupItem{ucs2: 0xd56d, cp949: 0xc7d7},
		lookupItem{ucs2: 0xd56e, cp949: 0xc146},
		lookupItem{ucs2: 0xd56f, cp949: 0xc147},
		lookupItem{ucs2: 0xd570, cp949: 0xc148},
		lookupItem{ucs2: 0xd571, cp949: 0xc149},
		lookupItem{ucs2: 0xd572, cp949: 0xc14a},
		lookupItem{ucs2: 0xd573, cp949: 0xc14b},
		lookupItem{ucs2: 0xd574, cp949: 0xc7d8},
		lookupItem{ucs2: 0xd575, cp949: 0xc7d9},
		lookupItem{ucs2: 0xd576, cp949: 0xc14c},
		lookupItem{ucs2: 0xd577, cp949: 0xc14d},
		lookupItem{ucs2: 0xd578, cp949: 0xc7da},
		lookupItem{ucs2: 0xd579, cp949: 0xc14e},
		lookupItem{ucs2: 0xd57a, cp949: 0xc14f},
		lookupItem{ucs2: 0xd57b, cp949: 0xc150},
		lookupItem{ucs2: 0xd57c, cp949: 0xc7db},
		lookupItem{ucs2: 0xd57d, cp949: 0xc151},
		lookupItem{ucs2: 0xd57e, cp949: 0xc152},
		lookupItem{ucs2: 0xd57f, cp949: 0xc153},
		lookupItem{ucs2: 0xd580, cp949: 0xc154},
		lookupItem{ucs2: 0xd581, cp949: 0xc155},
		lookupItem{ucs2: 0xd582, cp949: 0xc156},
		lookupItem{ucs2: 0xd583, cp949: 0xc157},
		lookupItem{ucs2: 0xd584, cp949: 0xc7dc},
		lookupItem{ucs2: 0xd585, cp949: 0xc7dd},
		lookupItem{ucs2: 0xd586, cp949: 0xc158},
		lookupItem{ucs2: 0xd587, cp949: 0xc7de},
		lookupItem{ucs2: 0xd588, cp949: 0xc7df},
		lookupItem{ucs2: 0xd589, cp949: 0xc7e0},
		lookupItem{ucs2: 0xd58a, cp949: 0xc159},
		lookupItem{ucs2: 0xd58b, cp949: 0xc15a},
		lookupItem{ucs2: 0xd58c, cp949: 0xc161},
		lookupItem{ucs2: 0xd58d, cp949: 0xc162},
		lookupItem{ucs2: 0xd58e, cp949: 0xc163},
		lookupItem{ucs2: 0xd58f, cp949: 0xc164},
		lookupItem{ucs2: 0xd590, cp949: 0xc7e1},
		lookupItem{ucs2: 0xd591, cp949: 0xc165},
		lookupItem{ucs2: 0xd592, cp949: 0xc166},
		lookupItem{ucs2: 0xd593, cp949: 0xc167},
		lookupItem{ucs2: 0xd594, cp949: 0xc168},
		lookupItem{ucs2: 0xd595, cp949: 0xc169},
		lookupItem{ucs2: 0xd596, cp949: 0xc16a},
		lookupItem{ucs2: 0xd597, cp949: 0xc16b},
		lookupItem{ucs2: 0xd598, cp949: 0xc16c},
		lookupItem{ucs2: 0xd599, cp949: 0xc16d},
		lookupItem{ucs2: 0xd59a, cp949: 0xc16e},
		lookupItem{ucs2: 0xd59b, cp949: 0xc16f},
		lookupItem{ucs2: 0xd59c, cp949: 0xc170},
		lookupItem{ucs2: 0xd59d, cp949: 0xc171},
		lookupItem{ucs2: 0xd59e, cp949: 0xc172},
		lookupItem{ucs2: 0xd59f, cp949: 0xc173},
		lookupItem{ucs2: 0xd5a0, cp949: 0xc174},
		lookupItem{ucs2: 0xd5a1, cp949: 0xc175},
		lookupItem{ucs2: 0xd5a2, cp949: 0xc176},
		lookupItem{ucs2: 0xd5a3, cp949: 0xc177},
		lookupItem{ucs2: 0xd5a4, cp949: 0xc178},
		lookupItem{ucs2: 0xd5a5, cp949: 0xc7e2},
		lookupItem{ucs2: 0xd5a6, cp949: 0xc179},
		lookupItem{ucs2: 0xd5a7, cp949: 0xc17a},
		lookupItem{ucs2: 0xd5a8, cp949: 0xc181},
		lookupItem{ucs2: 0xd5a9, cp949: 0xc182},
		lookupItem{ucs2: 0xd5aa, cp949: 0xc183},
		lookupItem{ucs2: 0xd5ab, cp949: 0xc184},
		lookupItem{ucs2: 0xd5ac, cp949: 0xc185},
		lookupItem{ucs2: 0xd5ad, cp949: 0xc186},
		lookupItem{ucs2: 0xd5ae, cp949: 0xc187},
		lookupItem{ucs2: 0xd5af, cp949: 0xc188},
		lookupItem{ucs2: 0xd5b0, cp949: 0xc189},
		lookupItem{ucs2: 0xd5b1, cp949: 0xc18a},
		lookupItem{ucs2: 0xd5b2, cp949: 0xc18b},
		lookupItem{ucs2: 0xd5b3, cp949: 0xc18c},
		lookupItem{ucs2: 0xd5b4, cp949: 0xc18d},
		lookupItem{ucs2: 0xd5b5, cp949: 0xc18e},
		lookupItem{ucs2: 0xd5b6, cp949: 0xc18f},
		lookupItem{ucs2: 0xd5b7, cp949: 0xc190},
		lookupItem{ucs2: 0xd5b8, cp949: 0xc191},
		lookupItem{ucs2: 0xd5b9, cp949: 0xc192},
		lookupItem{ucs2: 0xd5ba, cp949: 0xc193},
		lookupItem{ucs2: 0xd5bb, cp949: 0xc194},
		lookupItem{ucs2: 0xd5bc, cp949: 0xc195},
		lookupItem{ucs2: 0xd5bd, cp949: 0xc196},
		lookupItem{ucs2: 0xd5be, cp949: 0xc197},
		lookupItem{ucs2: 0xd5bf, cp949: 0xc198},
		lookupItem{ucs2: 0xd5c0, cp949: 0xc199},
		lookupItem{ucs2: 0xd5c1, cp949: 0xc19a},
		lookupItem{ucs2: 0xd5c2, cp949: 0xc19b},
		lookupItem{ucs2: 0xd5c3, cp949: 0xc19c},
		lookupItem{ucs2: 0xd5c4, cp949: 0xc19d},
		lookupItem{ucs2: 0xd5c5, cp949: 0xc19e},
		lookupItem{ucs2: 0xd5c6, cp949: 0xc19f},
		lookupItem{ucs2: 0xd5c7, cp949: 0xc1a0},
		lookupItem{ucs2: 0xd5c8, cp949: 0xc7e3},
		lookupItem{ucs2: 0xd5c9, cp949: 0xc7e4},
		lookupItem{ucs2: 0xd5ca, cp949: 0xc241},
		lookupItem{ucs2: 0xd5cb, cp949: 0xc242},
		lookupItem{ucs2: 0xd5cc, cp949: 0xc7e5},
		lookupItem{ucs2: 0xd5cd, cp949: 0xc243},
		lookupItem{ucs2: 0xd5ce, cp949: 0xc244},
		lookupItem{ucs2: 0xd5cf, cp949: 0xc245},
		lookupItem{ucs2: 0xd5d0, cp949: 0xc7e6},
		lookupItem{ucs2: 0xd5d1, cp949: 0xc246},
		lookupItem{ucs2: 0xd5d2, cp949: 0xc7e7},
		lookupItem{ucs2: 0xd5d3, cp949: 0xc247},
		lookupItem{ucs2: 0xd5d4, cp949: 0xc248},
		lookupItem{ucs2: 0xd5d5, cp949: 0xc249},
		lookupItem{ucs2: 0xd5d6, cp949: 0xc24a},
		lookupItem{ucs2: 0xd5d7, cp949: 0xc24b},
		lookupItem{ucs2: 0xd5d8, cp949: 0xc7e8},
		lookupItem{ucs2: 0xd5d9, cp949: 0xc7e9},
		lookupItem{ucs2: 0xd5da, cp949: 0xc24c},
		lookupItem{ucs2: 0xd5db, cp949: 0xc7ea},
		lookupItem{ucs2: 0xd5dc, cp949: 0xc24d},
		lookupItem{ucs2: 0xd5dd, cp949: 0xc7eb},
		lookupItem{ucs2: 0xd5de, cp949: 0xc24e},
		lookupItem{ucs2: 0xd5df, cp949: 0xc24f},
		lookupItem{ucs2: 0xd5e0, cp949: 0xc250},
		lookupItem{ucs2: 0xd5e1, cp949: 0xc251},
		lookupItem{ucs2: 0xd5e2, cp949: 0xc252},
		lookupItem{ucs2: 0xd5e3, cp949: 0xc253},
		lookupItem{ucs2: 0xd5e4, cp949: 0xc7ec},
		lookupItem{ucs2: 0xd5e5, cp949: 0xc7ed},
		lookupItem{ucs2: 0xd5e6, cp949: 0xc254},
		lookupItem{ucs2: 0xd5e7, cp949: 0xc255},
		lookupItem{ucs2: 0xd5e8, cp949: 0xc7ee},
		lookupItem{ucs2: 0xd5e9, cp949: 0xc256},
		lookupItem{ucs2: 0xd5ea, cp949: 0xc257},
		lookupItem{ucs2: 0xd5eb, cp949: 0xc258},
		lookupItem{ucs2: 0xd5ec, cp949: 0xc7ef},
		lookupItem{ucs2: 0xd5ed, cp949: 0xc259},
".
Definition text_cp949_lookup_to_065 : string :=
"		lookupItem{ucs2: 0xd5ee, cp949: 0xc25a},
		lookupItem{ucs2: 0xd5ef, cp949: 0xc261},
		lookupItem{ucs2: 0xd5f0, cp949: 0xc262},
		lookupItem{ucs2: 0xd5f1, cp949: 0xc263},
		lookupItem{ucs2: 0xd5f2, cp949: 0xc264},
		lookupItem{ucs2: 0xd5f3, cp949: 0xc265},
		lookupItem{ucs2: 0xd5f4, cp949: 0xc7f0},
		lookupItem{ucs2: 0xd5f5, cp949: 0xc7f1},
		lookupItem{ucs2: 0xd5f6, cp949: 0xc266},
		lookupItem{ucs2: 0xd5f7, cp949: 0xc7f2},
		lookupItem{ucs2: 0xd5f8, cp949: 0xc267},
		lookupItem{ucs2: 0xd5f9, cp949: 0xc7f3},
		lookupItem{ucs2: 0xd5fa, cp949: 0xc268},
		lookupItem{ucs2: 0xd5fb, cp949: 0xc269},
		lookupItem{ucs2: 0xd5fc, cp949: 0xc26a},
		lookupItem{ucs2: 0xd5fd, cp949: 0xc26b},
		lookupItem{ucs2: 0xd5fe, cp949: 0xc26c},
		lookupItem{ucs2: 0xd5ff, cp949: 0xc26d},
		lookupItem{ucs2: 0xd600, cp949: 0xc7f4},
		lookupItem{ucs2: 0xd601, cp949: 0xc7f5},
		lookupItem{ucs2: 0xd602, cp949: 0xc26e},
		lookupItem{ucs2: 0xd603, cp949: 0xc26f},
		lookupItem{ucs2: 0xd604, cp949: 0xc7f6},
		lookupItem{ucs2: 0xd605, cp949: 0xc270},
		lookupItem{ucs2: 0xd606, cp949: 0xc271},
		lookupItem{ucs2: 0xd607, cp949: 0xc272},
		lookupItem{ucs2: 0xd608, cp949: 0xc7f7},
		lookupItem{ucs2: 0xd609, cp949: 0xc273},
		lookupItem{ucs2: 0xd60a, cp949: 0xc274},
		lookupItem{ucs2: 0xd60b, cp949: 0xc275},
		lookupItem{ucs2: 0xd60c, cp949: 0xc276},
		lookupItem{ucs2: 0xd60d, cp949: 0xc277},
		lookupItem{ucs2: 0xd60e, cp949: 0xc278},
		lookupItem{ucs2: 0xd60f, cp949: 0xc279},
		lookupItem{ucs2: 0xd610, cp949: 0xc7f8},
		lookupItem{ucs2: 0xd611, cp949: 0xc7f9},
		lookupItem{ucs2: 0xd612, cp949: 0xc27a},
		lookupItem{ucs2: 0xd613, cp949: 0xc7fa},
		lookupItem{ucs2: 0xd614, cp949: 0xc7fb},
		lookupItem{ucs2: 0xd615, cp949: 0xc7fc},
		lookupItem{ucs2: 0xd616, cp949: 0xc281},
		lookupItem{ucs2: 0xd617, cp949: 0xc282},
		lookupItem{ucs2: 0xd618, cp949: 0xc283},
		lookupItem{ucs2: 0xd619, cp949: 0xc284},
		lookupItem{ucs2: 0xd61a, cp949: 0xc285},
		lookupItem{ucs2: 0xd61b, cp949: 0xc286},
		lookupItem{ucs2: 0xd61c, cp949: 0xc7fd},
		lookupItem{ucs2: 0xd61d, cp949: 0xc287},
		lookupItem{ucs2: 0xd61e, cp949: 0xc288},
		lookupItem{ucs2: 0xd61f, cp949: 0xc289},
		lookupItem{ucs2: 0xd620, cp949: 0xc7fe},
		lookupItem{ucs2: 0xd621, cp949: 0xc28a},
		lookupItem{ucs2: 0xd622, cp949: 0xc28b},
		lookupItem{ucs2: 0xd623, cp949: 0xc28c},
		lookupItem{ucs2: 0xd624, cp949: 0xc8a1},
		lookupItem{ucs2: 0xd625, cp949: 0xc28d},
		lookupItem{ucs2: 0xd626, cp949: 0xc28e},
		lookupItem{ucs2: 0xd627, cp949: 0xc28f},
		lookupItem{ucs2: 0xd628, cp949: 0xc290},
		lookupItem{ucs2: 0xd629, cp949: 0xc291},
		lookupItem{ucs2: 0xd62a, cp949: 0xc292},
		lookupItem{ucs2: 0xd62b, cp949: 0xc293},
		lookupItem{ucs2: 0xd62c, cp949: 0xc294},
		lookupItem{ucs2: 0xd62d, cp949: 0xc8a2},
		lookupItem{ucs2: 0xd62e, cp949: 0xc295},
		lookupItem{ucs2: 0xd62f, cp949: 0xc296},
		lookupItem{ucs2: 0xd630, cp949: 0xc297},
		lookupItem{ucs2: 0xd631, cp949: 0xc298},
		lookupItem{ucs2: 0xd632, cp949: 0xc299},
		lookupItem{ucs2: 0xd633, cp949: 0xc29a},
		lookupItem{ucs2: 0xd634, cp949: 0xc29b},
		lookupItem{ucs2: 0xd635, cp949: 0xc29c},
		lookupItem{ucs2: 0xd636, cp949: 0xc29d},
		lookupItem{ucs2: 0xd637, cp949: 0xc29e},
		lookupItem{ucs2: 0xd638, cp949: 0xc8a3},
		lookupItem{ucs2: 0xd639, cp949: 0xc8a4},
		lookupItem{ucs2: 0xd63a, cp949: 0xc29f},
		lookupItem{ucs2: 0xd63b, cp949: 0xc2a0},
		lookupItem{ucs2: 0xd63c, cp949: 0xc8a5},
		lookupItem{ucs2: 0xd63d, cp949: 0xc341},
		lookupItem{ucs2: 0xd63e, cp949: 0xc342},
		lookupItem{ucs2: 0xd63f, cp949: 0xc343},
		lookupItem{ucs2: 0xd640, cp949: 0xc8a6},
		lookupItem{ucs2: 0xd641, cp949: 0xc344},
		lookupItem{ucs2: 0xd642, cp949: 0xc345},
		lookupItem{ucs2: 0xd643, cp949: 0xc346},
		lookupItem{ucs2: 0xd644, cp949: 0xc347},
		lookupItem{ucs2: 0xd645, cp949: 0xc8a7},
		lookupItem{ucs2: 0xd646, cp949: 0xc348},
		lookupItem{ucs2: 0xd647, cp949: 0xc349},
		lookupItem{ucs2: 0xd648, cp949: 0xc8a8},
		lookupItem{ucs2: 0xd649, cp949: 0xc8a9},
		lookupItem{ucs2: 0xd64a, cp949: 0xc34a},
		lookupItem{ucs2: 0xd64b, cp949: 0xc8aa},
		lookupItem{ucs2: 0xd64c, cp949: 0xc34b},
		lookupItem{ucs2: 0xd64d, cp949: 0xc8ab},
		lookupItem{ucs2: 0xd64e, cp949: 0xc34c},
		lookupItem{ucs2: 0xd64f, cp949: 0xc34d},
		lookupItem{ucs2: 0xd650, cp949: 0xc34e},
		lookupItem{ucs2: 0xd651, cp949: 0xc8ac},
		lookupItem{ucs2: 0xd652, cp949: 0xc34f},
		lookupItem{ucs2: 0xd653, cp949: 0xc350},
		lookupItem{ucs2: 0xd654, cp949: 0xc8ad},
		lookupItem{ucs2: 0xd655, cp949: 0xc8ae},
		lookupItem{ucs2: 0xd656, cp949: 0xc351},
		lookupItem{ucs2: 0xd657, cp949: 0xc352},
		lookupItem{ucs2: 0xd658, cp949: 0xc8af},
		lookupItem{ucs2: 0xd659, cp949: 0xc353},
		lookupItem{ucs2: 0xd65a, cp949: 0xc354},
		lookupItem{ucs2: 0xd65b, cp949: 0xc355},
		lookupItem{ucs2: 0xd65c, cp949: 0xc8b0},
		lookupItem{ucs2: 0xd65d, cp949: 0xc356},
		lookupItem{ucs2: 0xd65e, cp949: 0xc357},
		lookupItem{ucs2: 0xd65f, cp949: 0xc358},
		lookupItem{ucs2: 0xd660, cp949: 0xc359},
		lookupItem{ucs2: 0xd661, cp949: 0xc35a},
		lookupItem{ucs2: 0xd662, cp949: 0xc361},
		lookupItem{ucs2: 0xd663, cp949: 0xc362},
		lookupItem{ucs2: 0xd664, cp949: 0xc363},
		lookupItem{ucs2: 0xd665, cp949: 0xc364},
		lookupItem{ucs2: 0xd666, cp949: 0xc365},
		lookupItem{ucs2: 0xd667, cp949: 0xc8b1},
		lookupItem{ucs2: 0xd668, cp949: 0xc366},
		lookupItem{ucs2: 0xd669, cp949: 0xc8b2},
		lookupItem{ucs2: 0xd66a, cp949: 0xc367},
		lookupItem{ucs2: 0xd66b, cp949: 0xc368},
		lookupItem{ucs2: 0xd66c, cp949: 0xc369},
		lookupItem{ucs2: 0xd66d, cp949: 0xc36a},
		lookupItem{ucs2: 0xd66e, cp949: 0xc36b},
		lookupItem{ucs2: 0xd66f, cp949: 0xc36c},
		lookupItem{ucs2: 0xd670, cp949: 0xc8b3},
		lookupItem{ucs2: 0xd671, cp949: 0xc8b4},
		lookupItem{ucs2: 0xd672, cp949: 0xc36d},
		lookupItem{ucs2: 0xd673, cp949: 0xc36e},
		lookupItem{ucs2: 0xd674, cp949: 0xc8b5},
		lookupItem{ucs2: 0xd675, cp949: 0xc36f},
		lookupItem{ucs2: 0xd676, cp949: 0xc370},
		lookupItem{ucs2: 0xd677, cp949: 0xc371},
		lookupItem{ucs2: 0xd678, cp949: 0xc372},
		lookupItem{ucs2: 0xd679, cp949: 0xc373},
		lookupItem{ucs2: 0xd67a, cp949: 0xc374},
		lookupItem{ucs2: 0xd67b, cp949: 0xc375},
		lookupItem{ucs2: 0xd67c, cp949: 0xc376},
		lookupItem{ucs2: 0xd67d, cp949: 0xc377},
		lookupItem{ucs2: 0xd67e, cp949: 0xc378},
		lookupItem{ucs2: 0xd67f, cp949: 0xc379},
		lookupItem{ucs2: 0xd680, cp949: 0xc37a},
		lookupItem{ucs2: 0xd681, cp949: 0xc381},
		lookupItem{ucs2: 0xd682, cp949: 0xc382},
		lookupItem{ucs2: 0xd683, cp949: 0xc8b6},
		lookupItem{ucs2: 0xd684, cp949: 0xc383},
		lookupItem{ucs2: 0xd685, cp949: 0xc8b7},
		lookupItem{ucs2: 0xd686, cp949: 0xc384},
		lookupItem{ucs2: 0xd687, cp949: 0xc385},
		lookupItem{ucs2: 0xd688, cp949: 0xc386},
		lookupItem{ucs2: 0xd689, cp949: 0xc387},
		lookupItem{ucs2: 0xd68a, cp949: 0xc388},
		lookupItem{ucs2: 0xd68b, cp949: 0xc389},
		lookupItem{ucs2: 0xd68c, cp949: 0xc8b8},
		lookupItem{ucs2: 0xd68d, cp949: 0xc8b9},
		lookupItem{ucs2: 0xd68e, cp949: 0xc38a},
		lookupItem{ucs2: 0xd68f, cp949: 0xc38b},
		lookupItem{ucs2: 0xd690, cp949: 0xc8ba},
		lookupItem{ucs2: 0xd691, cp949: 0xc38c},
		lookupItem{ucs2: 0xd692, cp949: 0xc38d},
		lookupItem{ucs2: 0xd693, cp949: 0xc38e},
		lookupItem{ucs2: 0xd694, cp949: 0xc8bb},
		lookupItem{ucs2: 0xd695, cp949: 0xc38f},
		lookupItem{ucs2: 0xd696, cp949: 0xc390},
		lookupItem{ucs2: 0xd697, cp949: 0xc391},
		lookupItem{ucs2: 0xd698, cp949: 0xc392},
		lookupItem{ucs2: 0xd699, cp949: 0xc393},
		lookupItem{ucs2: 0xd69a, cp949: 0xc394},
		lookupItem{ucs2: 0xd69b, cp949: 0xc395},
		lookupItem{ucs2: 0xd69c, cp949: 0xc396},
		lookupItem{ucs2: 0xd69d, cp949: 0xc8bc},
		lookupItem{ucs2: 0xd69e, cp949: 0xc397},
		lookupItem{ucs2: 0xd69f, cp949: 0xc8bd},
		lookupItem{ucs2: 0xd6a0, cp949: 0xc398},
		lookupItem{ucs2: 0xd6a1, cp949: 0xc8be},
		lookupItem{ucs2: 0xd6a2, cp949: 0xc399},
		lookupItem{ucs2: 0xd6a3, cp949: 0xc39a},
		lookupItem{ucs2: 0xd6a4, cp949: 0xc39b},
		lookupItem{ucs2: 0xd6a5, cp949: 0xc39c},
		lookupItem{ucs2: 0xd6a6, cp949: 0xc39d},
		lookupItem{ucs2: 0xd6a7, cp949: 0xc39e},
		lookupItem{ucs2: 0xd6a8, cp949: 0xc8bf},
		lookupItem{ucs2: 0xd6a9, cp949: 0xc39f},
		lookupItem{ucs2: 0xd6aa, cp949: 0xc3a0},
		lookupItem{ucs2: 0xd6ab, cp949: 0xc441},
		lookupItem{ucs2: 0xd6ac, cp949: 0xc8c0},
		lookupItem{ucs2: 0xd6ad, cp949: 0xc442},
		lookupItem{ucs2: 0xd6ae, cp949: 0xc443},
		lookupItem{ucs2: 0xd6af, cp949: 0xc444},
		lookupItem{ucs2: 0xd6b0, cp949: 0xc8c1},
		lookupItem{ucs2: 0xd6b1, cp949: 0xc445},
		lookupItem{ucs2: 0xd6b2, cp949: 0xc446},
		lookupItem{ucs2: 0xd6b3, cp949: 0xc447},
		lookupItem{ucs2: 0xd6b4, cp949: 0xc448},
		lookupItem{ucs2: 0xd6b5, cp949: 0xc449},
		lookupItem{ucs2: 0xd6b6, cp949: 0xc44a},
		lookupItem{ucs2: 0xd6b7, cp949: 0xc44b},
		lookupItem{ucs2: 0xd6b8, cp949: 0xc44c},
		lookupItem{ucs2: 0xd6b9, cp949: 0xc8c2},
		lookupItem{ucs2: 0xd6ba, cp949: 0xc44d},
		lookupItem{ucs2: 0xd6bb, cp949: 0xc8c3},
		lookupItem{ucs2: 0xd6bc, cp949: 0xc44e},
		lookupItem{ucs2: 0xd6bd, cp949: 0xc44f},
		lookupItem{ucs2: 0xd6be, cp949: 0xc450},
		lookupItem{ucs2: 0xd6bf, cp949: 0xc451},
		lookupItem{ucs2: 0xd6c0, cp949: 0xc452},
		lookupItem{ucs2: 0xd6c1, cp949: 0xc453},
		lookupItem{ucs2: 0xd6c2, cp949: 0xc454},
		lookupItem{ucs2: 0xd6c3, cp949: 0xc455},
		lookupItem{ucs2: 0xd6c4, cp949: 0xc8c4},
		lookupItem{ucs2: 0xd6c5, cp949: 0xc8c5},
		lookupItem{ucs2: 0xd6c6, cp949: 0xc456},
		lookupItem{ucs2: 0xd6c7, cp949: 0xc457},
		lookupItem{ucs2: 0xd6c8, cp949: 0xc8c6},
		lookupItem{ucs2: 0xd6c9, cp949: 0xc458},
		lookupItem{ucs2: 0xd6ca, cp949: 0xc459},
		lookupItem{ucs2: 0xd6cb, cp949: 0xc45a},
		lookupItem{ucs2: 0xd6cc, cp949: 0xc8c7},
		lookupItem{ucs2: 0xd6cd, cp949: 0xc461},
		lookupItem{ucs2: 0xd6ce, cp949: 0xc462},
		lookupItem{ucs2: 0xd6cf, cp949: 0xc463},
		lookupItem{ucs2: 0xd6d0, cp949: 0xc464},
		lookupItem{ucs2: 0xd6d1, cp949: 0xc8c8},
		lookupItem{ucs2: 0xd6d2, cp949: 0xc465},
		lookupItem{ucs2: 0xd6d3, cp949: 0xc466},
		lookupItem{ucs2: 0xd6d4, cp949: 0xc8c9},
		lookupItem{ucs2: 0xd6d5, cp949: 0xc467},
		lookupItem{ucs2: 0xd6d6, cp949: 0xc468},
		lookupItem{ucs2: 0xd6d7, cp949: 0xc8ca},
		lookupItem{ucs2: 0xd6d8, cp949: 0xc469},
		lookupItem{ucs2: 0xd6d9, cp949: 0xc8cb},
		lookupItem{ucs2: 0xd6da, cp949: 0xc46a},
		lookupItem{ucs2: 0xd6db, cp949: 0xc46b},
		lookupItem{ucs2: 0xd6dc, cp949: 0xc46c},
		lookupItem{ucs2: 0xd6dd, cp949: 0xc46d},
		lookupItem{ucs2: 0xd6de, cp949: 0xc46e},
		lookupItem{ucs2: 0xd6df, cp949: 0xc46f},
		lookupItem{ucs2: 0xd6e0, cp949: 0xc8cc},
		lookupItem{ucs2: 0xd6e1, cp949: 0xc470},
		lookupItem{ucs2: 0xd6e2, cp949: 0xc471},
		lookupItem{ucs2: 0xd6e3, cp949: 0xc472},
		lookupItem{ucs2: 0xd6e4, cp949: 0xc8cd},
		lookupItem{ucs2: 0xd6e5, cp949: 0xc473},
		lookupItem{ucs2: 0xd6e6, cp949: 0xc474},
		lookupItem{ucs2: 0xd6e7, cp949: 0xc475},
".
Definition text_cp949_lookup_to_066 : string :=
"		lookupItem{ucs2: 0xd6e8, cp949: 0xc8ce},
		lookupItem{ucs2: 0xd6e9, cp949: 0xc476},
		lookupItem{ucs2: 0xd6ea, cp949: 0xc477},
		lookupItem{ucs2: 0xd6eb, cp949: 0xc478},
		lookupItem{ucs2: 0xd6ec, cp949: 0xc479},
		lookupItem{ucs2: 0xd6ed, cp949: 0xc47a},
		lookupItem{ucs2: 0xd6ee, cp949: 0xc481},
		lookupItem{ucs2: 0xd6ef, cp949: 0xc482},
		lookupItem{ucs2: 0xd6f0, cp949: 0xc8cf},
		lookupItem{ucs2: 0xd6f1, cp949: 0xc483},
		lookupItem{ucs2: 0xd6f2, cp949: 0xc484},
		lookupItem{ucs2: 0xd6f3, cp949: 0xc485},
		lookupItem{ucs2: 0xd6f4, cp949: 0xc486},
		lookupItem{ucs2: 0xd6f5, cp949: 0xc8d0},
		lookupItem{ucs2: 0xd6f6, cp949: 0xc487},
		lookupItem{ucs2: 0xd6f7, cp949: 0xc488},
		lookupItem{ucs2: 0xd6f8, cp949: 0xc489},
		lookupItem{ucs2: 0xd6f9, cp949: 0xc48a},
		lookupItem{ucs2: 0xd6fa, cp949: 0xc48b},
		lookupItem{ucs2: 0xd6fb, cp949: 0xc48c},
		lookupItem{ucs2: 0xd6fc, cp949: 0xc8d1},
		lookupItem{ucs2: 0xd6fd, cp949: 0xc8d2},
		lookupItem{ucs2: 0xd6fe, cp949: 0xc48d},
		lookupItem{ucs2: 0xd6ff, cp949: 0xc48e},
		lookupItem{ucs2: 0xd700, cp949: 0xc8d3},
		lookupItem{ucs2: 0xd701, cp949: 0xc48f},
		lookupItem{ucs2: 0xd702, cp949: 0xc490},
		lookupItem{ucs2: 0xd703, cp949: 0xc491},
		lookupItem{ucs2: 0xd704, cp949: 0xc8d4},
		lookupItem{ucs2: 0xd705, cp949: 0xc492},
		lookupItem{ucs2: 0xd706, cp949: 0xc493},
		lookupItem{ucs2: 0xd707, cp949: 0xc494},
		lookupItem{ucs2: 0xd708, cp949: 0xc495},
		lookupItem{ucs2: 0xd709, cp949: 0xc496},
		lookupItem{ucs2: 0xd70a, cp949: 0xc497},
		lookupItem{ucs2: 0xd70b, cp949: 0xc498},
		lookupItem{ucs2: 0xd70c, cp949: 0xc499},
		lookupItem{ucs2: 0xd70d, cp949: 0xc49a},
		lookupItem{ucs2: 0xd70e, cp949: 0xc49b},
		lookupItem{ucs2: 0xd70f, cp949: 0xc49c},
		lookupItem{ucs2: 0xd710, cp949: 0xc49d},
		lookupItem{ucs2: 0xd711, cp949: 0xc8d5},
		lookupItem{ucs2: 0xd712, cp949: 0xc49e},
		lookupItem{ucs2: 0xd713, cp949: 0xc49f},
		lookupItem{ucs2: 0xd714, cp949: 0xc4a0},
		lookupItem{ucs2: 0xd715, cp949: 0xc541},
		lookupItem{ucs2: 0xd716, cp949: 0xc542},
		lookupItem{ucs2: 0xd717, cp949: 0xc543},
		lookupItem{ucs2: 0xd718, cp949: 0xc8d6},
		lookupItem{ucs2: 0xd719, cp949: 0xc8d7},
		lookupItem{ucs2: 0xd71a, cp949: 0xc544},
		lookupItem{ucs2: 0xd71b, cp949: 0xc545},
		lookupItem{ucs2: 0xd71c, cp949: 0xc8d8},
		lookupItem{ucs2: 0xd71d, cp949: 0xc546},
		lookupItem{ucs2: 0xd71e, cp949: 0xc547},
		lookupItem{ucs2: 0xd71f, cp949: 0xc548},
		lookupItem{ucs2: 0xd720, cp949: 0xc8d9},
		lookupItem{ucs2: 0xd721, cp949: 0xc549},
		lookupItem{ucs2: 0xd722, cp949: 0xc54a},
		lookupItem{ucs2: 0xd723, cp949: 0xc54b},
		lookupItem{ucs2: 0xd724, cp949: 0xc54c},
		lookupItem{ucs2: 0xd725, cp949: 0xc54d},
		lookupItem{ucs2: 0xd726, cp949: 0xc54e},
		lookupItem{ucs2: 0xd727, cp949: 0xc54f},
		lookupItem{ucs2: 0xd728, cp949: 0xc8da},
		lookupItem{ucs2: 0xd729, cp949: 0xc8db},
		lookupItem{ucs2: 0xd72a, cp949: 0xc550},
		lookupItem{ucs2: 0xd72b, cp949: 0xc8dc},
		lookupItem{ucs2: 0xd72c, cp949: 0xc551},
		lookupItem{ucs2: 0xd72d, cp949: 0xc8dd},
		lookupItem{ucs2: 0xd72e, cp949: 0xc552},
		lookupItem{ucs2: 0xd72f, cp949: 0xc553},
		lookupItem{ucs2: 0xd730, cp949: 0xc554},
		lookupItem{ucs2: 0xd731, cp949: 0xc555},
		lookupItem{ucs2: 0xd732, cp949: 0xc556},
		lookupItem{ucs2: 0xd733, cp949: 0xc557},
		lookupItem{ucs2: 0xd734, cp949: 0xc8de},
		lookupItem{ucs2: 0xd735, cp949: 0xc8df},
		lookupItem{ucs2: 0xd736, cp949: 0xc558},
		lookupItem{ucs2: 0xd737, cp949: 0xc559},
		lookupItem{ucs2: 0xd738, cp949: 0xc8e0},
		lookupItem{ucs2: 0xd739, cp949: 0xc55a},
		lookupItem{ucs2: 0xd73a, cp949: 0xc561},
		lookupItem{ucs2: 0xd73b, cp949: 0xc562},
		lookupItem{ucs2: 0xd73c, cp949: 0xc8e1},
		lookupItem{ucs2: 0xd73d, cp949: 0xc563},
		lookupItem{ucs2: 0xd73e, cp949: 0xc564},
		lookupItem{ucs2: 0xd73f, cp949: 0xc565},
		lookupItem{ucs2: 0xd740, cp949: 0xc566},
		lookupItem{ucs2: 0xd741, cp949: 0xc567},
		lookupItem{ucs2: 0xd742, cp949: 0xc568},
		lookupItem{ucs2: 0xd743, cp949: 0xc569},
		lookupItem{ucs2: 0xd744, cp949: 0xc8e2},
		lookupItem{ucs2: 0xd745, cp949: 0xc56a},
		lookupItem{ucs2: 0xd746, cp949: 0xc56b},
		lookupItem{ucs2: 0xd747, cp949: 0xc8e3},
		lookupItem{ucs2: 0xd748, cp949: 0xc56c},
		lookupItem{ucs2: 0xd749, cp949: 0xc8e4},
		lookupItem{ucs2: 0xd74a, cp949: 0xc56d},
		lookupItem{ucs2: 0xd74b, cp949: 0xc56e},
		lookupItem{ucs2: 0xd74c, cp949: 0xc56f},
		lookupItem{ucs2: 0xd74d, cp949: 0xc570},
		lookupItem{ucs2: 0xd74e, cp949: 0xc571},
		lookupItem{ucs2: 0xd74f, cp949: 0xc572},
		lookupItem{ucs2: 0xd750, cp949: 0xc8e5},
		lookupItem{ucs2: 0xd751, cp949: 0xc8e6},
		lookupItem{ucs2: 0xd752, cp949: 0xc573},
		lookupItem{ucs2: 0xd753, cp949: 0xc574},
		lookupItem{ucs2: 0xd754, cp949: 0xc8e7},
		lookupItem{ucs2: 0xd755, cp949: 0xc575},
		lookupItem{ucs2: 0xd756, cp949: 0xc8e8},
		lookupItem{ucs2: 0xd757, cp949: 0xc8e9},
		lookupItem{ucs2: 0xd758, cp949: 0xc8ea},
		lookupItem{ucs2: 0xd759, cp949: 0xc8eb},
		lookupItem{ucs2: 0xd75a, cp949: 0xc576},
		lookupItem{ucs2: 0xd75b, cp949: 0xc577},
		lookupItem{ucs2: 0xd75c, cp949: 0xc578},
		lookupItem{ucs2: 0xd75d, cp949: 0xc579},
		lookupItem{ucs2: 0xd75e, cp949: 0xc57a},
		lookupItem{ucs2: 0xd75f, cp949: 0xc581},
		lookupItem{ucs2: 0xd760, cp949: 0xc8ec},
		lookupItem{ucs2: 0xd761, cp949: 0xc8ed},
		lookupItem{ucs2: 0xd762, cp949: 0xc582},
		lookupItem{ucs2: 0xd763, cp949: 0xc8ee},
		lookupItem{ucs2: 0xd764, cp949: 0xc583},
		lookupItem{ucs2: 0xd765, cp949: 0xc8ef},
		lookupItem{ucs2: 0xd766, cp949: 0xc584},
		lookupItem{ucs2: 0xd767, cp949: 0xc585},
		lookupItem{ucs2: 0xd768, cp949: 0xc586},
		lookupItem{ucs2: 0xd769, cp949: 0xc8f0},
		lookupItem{ucs2: 0xd76a, cp949: 0xc587},
		lookupItem{ucs2: 0xd76b, cp949: 0xc588},
		lookupItem{ucs2: 0xd76c, cp949: 0xc8f1},
		lookupItem{ucs2: 0xd76d, cp949: 0xc589},
		lookupItem{ucs2: 0xd76e, cp949: 0xc58a},
		lookupItem{ucs2: 0xd76f, cp949: 0xc58b},
		lookupItem{ucs2: 0xd770, cp949: 0xc8f2},
		lookupItem{ucs2: 0xd771, cp949: 0xc58c},
		lookupItem{ucs2: 0xd772, cp949: 0xc58d},
		lookupItem{ucs2: 0xd773, cp949: 0xc58e},
		lookupItem{ucs2: 0xd774, cp949: 0xc8f3},
		lookupItem{ucs2: 0xd775, cp949: 0xc58f},
		lookupItem{ucs2: 0xd776, cp949: 0xc590},
		lookupItem{ucs2: 0xd777, cp949: 0xc591},
		lookupItem{ucs2: 0xd778, cp949: 0xc592},
		lookupItem{ucs2: 0xd779, cp949: 0xc593},
		lookupItem{ucs2: 0xd77a, cp949: 0xc594},
		lookupItem{ucs2: 0xd77b, cp949: 0xc595},
		lookupItem{ucs2: 0xd77c, cp949: 0xc8f4},
		lookupItem{ucs2: 0xd77d, cp949: 0xc8f5},
		lookupItem{ucs2: 0xd77e, cp949: 0xc596},
		lookupItem{ucs2: 0xd77f, cp949: 0xc597},
		lookupItem{ucs2: 0xd780, cp949: 0xc598},
		lookupItem{ucs2: 0xd781, cp949: 0xc8f6},
		lookupItem{ucs2: 0xd782, cp949: 0xc599},
		lookupItem{ucs2: 0xd783, cp949: 0xc59a},
		lookupItem{ucs2: 0xd784, cp949: 0xc59b},
		lookupItem{ucs2: 0xd785, cp949: 0xc59c},
		lookupItem{ucs2: 0xd786, cp949: 0xc59d},
		lookupItem{ucs2: 0xd787, cp949: 0xc59e},
		lookupItem{ucs2: 0xd788, cp949: 0xc8f7},
		lookupItem{ucs2: 0xd789, cp949: 0xc8f8},
		lookupItem{ucs2: 0xd78a, cp949: 0xc59f},
		lookupItem{ucs2: 0xd78b, cp949: 0xc5a0},
		lookupItem{ucs2: 0xd78c, cp949: 0xc8f9},
		lookupItem{ucs2: 0xd78d, cp949: 0xc641},
		lookupItem{ucs2: 0xd78e, cp949: 0xc642},
		lookupItem{ucs2: 0xd78f, cp949: 0xc643},
		lookupItem{ucs2: 0xd790, cp949: 0xc8fa},
		lookupItem{ucs2: 0xd791, cp949: 0xc644},
		lookupItem{ucs2: 0xd792, cp949: 0xc645},
		lookupItem{ucs2: 0xd793, cp949: 0xc646},
		lookupItem{ucs2: 0xd794, cp949: 0xc647},
		lookupItem{ucs2: 0xd795, cp949: 0xc648},
		lookupItem{ucs2: 0xd796, cp949: 0xc649},
		lookupItem{ucs2: 0xd797, cp949: 0xc64a},
		lookupItem{ucs2: 0xd798, cp949: 0xc8fb},
		lookupItem{ucs2: 0xd799, cp949: 0xc8fc},
		lookupItem{ucs2: 0xd79a, cp949: 0xc64b},
		lookupItem{ucs2: 0xd79b, cp949: 0xc8fd},
		lookupItem{ucs2: 0xd79c, cp949: 0xc64c},
		lookupItem{ucs2: 0xd79d, cp949: 0xc8fe},
		lookupItem{ucs2: 0xd79e, cp949: 0xc64d},
		lookupItem{ucs2: 0xd79f, cp949: 0xc64e},
		lookupItem{ucs2: 0xd7a0, cp949: 0xc64f},
		lookupItem{ucs2: 0xd7a1, cp949: 0xc650},
		lookupItem{ucs2: 0xd7a2, cp949: 0xc651},
		lookupItem{ucs2: 0xd7a3, cp949: 0xc652},
		lookupItem{ucs2: 0xf900, cp949: 0xcbd0},
		lookupItem{ucs2: 0xf901, cp949: 0xcbd6},
		lookupItem{ucs2: 0xf902, cp949: 0xcbe7},
		lookupItem{ucs2: 0xf903, cp949: 0xcdcf},
		lookupItem{ucs2: 0xf904, cp949: 0xcde8},
		lookupItem{ucs2: 0xf905, cp949: 0xcead},
		lookupItem{ucs2: 0xf906, cp949: 0xcffb},
		lookupItem{ucs2: 0xf907, cp949: 0xd0a2},
		lookupItem{ucs2: 0xf908, cp949: 0xd0b8},
		lookupItem{ucs2: 0xf909, cp949: 0xd0d0},
		lookupItem{ucs2: 0xf90a, cp949: 0xd0dd},
		lookupItem{ucs2: 0xf90b, cp949: 0xd1d4},
		lookupItem{ucs2: 0xf90c, cp949: 0xd1d5},
		lookupItem{ucs2: 0xf90d, cp949: 0xd1d8},
		lookupItem{ucs2: 0xf90e, cp949: 0xd1db},
		lookupItem{ucs2: 0xf90f, cp949: 0xd1dc},
		lookupItem{ucs2: 0xf910, cp949: 0xd1dd},
		lookupItem{ucs2: 0xf911, cp949: 0xd1de},
		lookupItem{ucs2: 0xf912, cp949: 0xd1df},
		lookupItem{ucs2: 0xf913, cp949: 0xd1e0},
		lookupItem{ucs2: 0xf914, cp949: 0xd1e2},
		lookupItem{ucs2: 0xf915, cp949: 0xd1e3},
		lookupItem{ucs2: 0xf916, cp949: 0xd1e4},
		lookupItem{ucs2: 0xf917, cp949: 0xd1e5},
		lookupItem{ucs2: 0xf918, cp949: 0xd1e6},
		lookupItem{ucs2: 0xf919, cp949: 0xd1e8},
		lookupItem{ucs2: 0xf91a, cp949: 0xd1e9},
		lookupItem{ucs2: 0xf91b, cp949: 0xd1ea},
		lookupItem{ucs2: 0xf91c, cp949: 0xd1eb},
		lookupItem{ucs2: 0xf91d, cp949: 0xd1ed},
		lookupItem{ucs2: 0xf91e, cp949: 0xd1ef},
		lookupItem{ucs2: 0xf91f, cp949: 0xd1f0},
		lookupItem{ucs2: 0xf920, cp949: 0xd1f2},
		lookupItem{ucs2: 0xf921, cp949: 0xd1f6},
		lookupItem{ucs2: 0xf922, cp949: 0xd1fa},
		lookupItem{ucs2: 0xf923, cp949: 0xd1fc},
		lookupItem{ucs2: 0xf924, cp949: 0xd1fd},
		lookupItem{ucs2: 0xf925, cp949: 0xd1fe},
		lookupItem{ucs2: 0xf926, cp949: 0xd2a2},
		lookupItem{ucs2: 0xf927, cp949: 0xd2a3},
		lookupItem{ucs2: 0xf928, cp949: 0xd2a7},
		lookupItem{ucs2: 0xf929, cp949: 0xd2a8},
		lookupItem{ucs2: 0xf92a, cp949: 0xd2a9},
		lookupItem{ucs2: 0xf92b, cp949: 0xd2aa},
		lookupItem{ucs2: 0xf92c, cp949: 0xd2ab},
		lookupItem{ucs2: 0xf92d, cp949: 0xd2ad},
		lookupItem{ucs2: 0xf92e, cp949: 0xd2b2},
		lookupItem{ucs2: 0xf92f, cp949: 0xd2be},
		lookupItem{ucs2: 0xf930, cp949: 0xd2c2},
		lookupItem{ucs2: 0xf931, cp949: 0xd2c3},
		lookupItem{ucs2: 0xf932, cp949: 0xd2c4},
		lookupItem{ucs2: 0xf933, cp949: 0xd2c6},
		lookupItem{ucs2: 0xf934, cp949: 0xd2c7},
		lookupItem{ucs2: 0xf935, cp949: 0xd2c8},
		lookupItem{ucs2: 0xf936, cp949: 0xd2c9},
		lookupItem{ucs2: 0xf937, cp949: 0xd2ca},
		lookupItem{ucs2: 0xf938, cp949: 0xd2cb},
		lookupItem{ucs2: 0xf939, cp949: 0xd2cd},
		lookupItem{ucs2: 0xf93a, cp949: 0xd2ce},
		lookupItem{ucs2: 0xf93b, cp949: 0xd2cf},
		lookupItem{ucs2: 0xf93c, cp949: 0xd2d0},
		lookupItem{ucs2: 0xf93d, cp949: 0xd2d1},
".
Definition text_cp949_lookup_to_067 : string :=
"		lookupItem{ucs2: 0xf93e, cp949: 0xd2d2},
		lookupItem{ucs2: 0xf93f, cp949: 0xd2d3},
		lookupItem{ucs2: 0xf940, cp949: 0xd2d4},
		lookupItem{ucs2: 0xf941, cp949: 0xd2d5},
		lookupItem{ucs2: 0xf942, cp949: 0xd2d6},
		lookupItem{ucs2: 0xf943, cp949: 0xd2d7},
		lookupItem{ucs2: 0xf944, cp949: 0xd2d9},
		lookupItem{ucs2: 0xf945, cp949: 0xd2da},
		lookupItem{ucs2: 0xf946, cp949: 0xd2de},
		lookupItem{ucs2: 0xf947, cp949: 0xd2df},
		lookupItem{ucs2: 0xf948, cp949: 0xd2e1},
		lookupItem{ucs2: 0xf949, cp949: 0xd2e2},
		lookupItem{ucs2: 0xf94a, cp949: 0xd2e4},
		lookupItem{ucs2: 0xf94b, cp949: 0xd2e5},
		lookupItem{ucs2: 0xf94c, cp949: 0xd2e6},
		lookupItem{ucs2: 0xf94d, cp949: 0xd2e7},
		lookupItem{ucs2: 0xf94e, cp949: 0xd2e8},
		lookupItem{ucs2: 0xf94f, cp949: 0xd2e9},
		lookupItem{ucs2: 0xf950, cp949: 0xd2ea},
		lookupItem{ucs2: 0xf951, cp949: 0xd2eb},
		lookupItem{ucs2: 0xf952, cp949: 0xd2f0},
		lookupItem{ucs2: 0xf953, cp949: 0xd2f1},
		lookupItem{ucs2: 0xf954, cp949: 0xd2f2},
		lookupItem{ucs2: 0xf955, cp949: 0xd2f3},
		lookupItem{ucs2: 0xf956, cp949: 0xd2f4},
		lookupItem{ucs2: 0xf957, cp949: 0xd2f5},
		lookupItem{ucs2: 0xf958, cp949: 0xd2f7},
		lookupItem{ucs2: 0xf959, cp949: 0xd2f8},
		lookupItem{ucs2: 0xf95a, cp949: 0xd4e6},
		lookupItem{ucs2: 0xf95b, cp949: 0xd4fc},
		lookupItem{ucs2: 0xf95c, cp949: 0xd5a5},
		lookupItem{ucs2: 0xf95d, cp949: 0xd5ab},
		lookupItem{ucs2: 0xf95e, cp949: 0xd5ae},
		lookupItem{ucs2: 0xf95f, cp949: 0xd6b8},
		lookupItem{ucs2: 0xf960, cp949: 0xd6cd},
		lookupItem{ucs2: 0xf961, cp949: 0xd7cb},
		lookupItem{ucs2: 0xf962, cp949: 0xd7e4},
		lookupItem{ucs2: 0xf963, cp949: 0xdbc5},
		lookupItem{ucs2: 0xf964, cp949: 0xdbe4},
		lookupItem{ucs2: 0xf965, cp949: 0xdca5},
		lookupItem{ucs2: 0xf966, cp949: 0xdda5},
		lookupItem{ucs2: 0xf967, cp949: 0xddd5},
		lookupItem{ucs2: 0xf968, cp949: 0xddf4},
		lookupItem{ucs2: 0xf969, cp949: 0xdefc},
		lookupItem{ucs2: 0xf96a, cp949: 0xdefe},
		lookupItem{ucs2: 0xf96b, cp949: 0xdfb3},
		lookupItem{ucs2: 0xf96c, cp949: 0xdfe1},
		lookupItem{ucs2: 0xf96d, cp949: 0xdfe8},
		lookupItem{ucs2: 0xf96e, cp949: 0xe0f1},
		lookupItem{ucs2: 0xf96f, cp949: 0xe1ad},
		lookupItem{ucs2: 0xf970, cp949: 0xe1ed},
		lookupItem{ucs2: 0xf971, cp949: 0xe3f5},
		lookupItem{ucs2: 0xf972, cp949: 0xe4a1},
		lookupItem{ucs2: 0xf973, cp949: 0xe4a9},
		lookupItem{ucs2: 0xf974, cp949: 0xe5ae},
		lookupItem{ucs2: 0xf975, cp949: 0xe5b1},
		lookupItem{ucs2: 0xf976, cp949: 0xe5b2},
		lookupItem{ucs2: 0xf977, cp949: 0xe5b9},
		lookupItem{ucs2: 0xf978, cp949: 0xe5bb},
		lookupItem{ucs2: 0xf979, cp949: 0xe5bc},
		lookupItem{ucs2: 0xf97a, cp949: 0xe5c4},
		lookupItem{ucs2: 0xf97b, cp949: 0xe5ce},
		lookupItem{ucs2: 0xf97c, cp949: 0xe5d0},
		lookupItem{ucs2: 0xf97d, cp949: 0xe5d2},
		lookupItem{ucs2: 0xf97e, cp949: 0xe5d6},
		lookupItem{ucs2: 0xf97f, cp949: 0xe5fa},
		lookupItem{ucs2: 0xf980, cp949: 0xe5fb},
		lookupItem{ucs2: 0xf981, cp949: 0xe5fc},
		lookupItem{ucs2: 0xf982, cp949: 0xe5fe},
		lookupItem{ucs2: 0xf983, cp949: 0xe6a1},
		lookupItem{ucs2: 0xf984, cp949: 0xe6a4},
		lookupItem{ucs2: 0xf985, cp949: 0xe6a7},
		lookupItem{ucs2: 0xf986, cp949: 0xe6ad},
		lookupItem{ucs2: 0xf987, cp949: 0xe6af},
		lookupItem{ucs2: 0xf988, cp949: 0xe6b0},
		lookupItem{ucs2: 0xf989, cp949: 0xe6b1},
		lookupItem{ucs2: 0xf98a, cp949: 0xe6b3},
		lookupItem{ucs2: 0xf98b, cp949: 0xe6b7},
		lookupItem{ucs2: 0xf98c, cp949: 0xe6b8},
		lookupItem{ucs2: 0xf98d, cp949: 0xe6bc},
		lookupItem{ucs2: 0xf98e, cp949: 0xe6c4},
		lookupItem{ucs2: 0xf98f, cp949: 0xe6c6},
		lookupItem{ucs2: 0xf990, cp949: 0xe6c7},
		lookupItem{ucs2: 0xf991, cp949: 0xe6ca},
		lookupItem{ucs2: 0xf992, cp949: 0xe6d2},
		lookupItem{ucs2: 0xf993, cp949: 0xe6d6},
		lookupItem{ucs2: 0xf994, cp949: 0xe6d9},
		lookupItem{ucs2: 0xf995, cp949: 0xe6dc},
		lookupItem{ucs2: 0xf996, cp949: 0xe6df},
		lookupItem{ucs2: 0xf997, cp949: 0xe6e1},
		lookupItem{ucs2: 0xf998, cp949: 0xe6e4},
		lookupItem{ucs2: 0xf999, cp949: 0xe6e5},
		lookupItem{ucs2: 0xf99a, cp949: 0xe6e6},
		lookupItem{ucs2: 0xf99b, cp949: 0xe6e8},
		lookupItem{ucs2: 0xf99c, cp949: 0xe6ea},
		lookupItem{ucs2: 0xf99d, cp949: 0xe6eb},
		lookupItem{ucs2: 0xf99e, cp949: 0xe6ec},
		lookupItem{ucs2: 0xf99f, cp949: 0xe6ef},
		lookupItem{ucs2: 0xf9a0, cp949: 0xe6f1},
		lookupItem{ucs2: 0xf9a1, cp949: 0xe6f2},
		lookupItem{ucs2: 0xf9a2, cp949: 0xe6f5},
		lookupItem{ucs2: 0xf9a3, cp949: 0xe6f6},
		lookupItem{ucs2: 0xf9a4, cp949: 0xe6f7},
		lookupItem{ucs2: 0xf9a5, cp949: 0xe6f9},
		lookupItem{ucs2: 0xf9a6, cp949: 0xe7a1},
		lookupItem{ucs2: 0xf9a7, cp949: 0xe7a6},
		lookupItem{ucs2: 0xf9a8, cp949: 0xe7a9},
		lookupItem{ucs2: 0xf9a9, cp949: 0xe7aa},
		lookupItem{ucs2: 0xf9aa, cp949: 0xe7ac},
		lookupItem{ucs2: 0xf9ab, cp949: 0xe7ad},
		lookupItem{ucs2: 0xf9ac, cp949: 0xe7b0},
		lookupItem{ucs2: 0xf9ad, cp949: 0xe7bf},
		lookupItem{ucs2: 0xf9ae, cp949: 0xe7c1},
		lookupItem{ucs2: 0xf9af, cp949: 0xe7c6},
		lookupItem{ucs2: 0xf9b0, cp949: 0xe7c7},
		lookupItem{ucs2: 0xf9b1, cp949: 0xe7cb},
		lookupItem{ucs2: 0xf9b2, cp949: 0xe7cd},
		lookupItem{ucs2: 0xf9b3, cp949: 0xe7cf},
		lookupItem{ucs2: 0xf9b4, cp949: 0xe7d0},
		lookupItem{ucs2: 0xf9b5, cp949: 0xe7d3},
		lookupItem{ucs2: 0xf9b6, cp949: 0xe7df},
		lookupItem{ucs2: 0xf9b7, cp949: 0xe7e4},
		lookupItem{ucs2: 0xf9b8, cp949: 0xe7e6},
		lookupItem{ucs2: 0xf9b9, cp949: 0xe7f7},
		lookupItem{ucs2: 0xf9ba, cp949: 0xe8e7},
		lookupItem{ucs2: 0xf9bb, cp949: 0xe8e8},
		lookupItem{ucs2: 0xf9bc, cp949: 0xe8f0},
		lookupItem{ucs2: 0xf9bd, cp949: 0xe8f1},
		lookupItem{ucs2: 0xf9be, cp949: 0xe8f7},
		lookupItem{ucs2: 0xf9bf, cp949: 0xe8f9},
		lookupItem{ucs2: 0xf9c0, cp949: 0xe8fb},
		lookupItem{ucs2: 0xf9c1, cp949: 0xe8fe},
		lookupItem{ucs2: 0xf9c2, cp949: 0xe9a7},
		lookupItem{ucs2: 0xf9c3, cp949: 0xe9ac},
		lookupItem{ucs2: 0xf9c4, cp949: 0xe9cc},
		lookupItem{ucs2: 0xf9c5, cp949: 0xe9f7},
		lookupItem{ucs2: 0xf9c6, cp949: 0xeac1},
		lookupItem{ucs2: 0xf9c7, cp949: 0xeae5},
		lookupItem{ucs2: 0xf9c8, cp949: 0xeaf4},
		lookupItem{ucs2: 0xf9c9, cp949: 0xeaf7},
		lookupItem{ucs2: 0xf9ca, cp949: 0xeafc},
		lookupItem{ucs2: 0xf9cb, cp949: 0xeafe},
		lookupItem{ucs2: 0xf9cc, cp949: 0xeba4},
		lookupItem{ucs2: 0xf9cd, cp949: 0xeba7},
		lookupItem{ucs2: 0xf9ce, cp949: 0xeba9},
		lookupItem{ucs2: 0xf9cf, cp949: 0xebaa},
		lookupItem{ucs2: 0xf9d0, cp949: 0xebba},
		lookupItem{ucs2: 0xf9d1, cp949: 0xebbb},
		lookupItem{ucs2: 0xf9d2, cp949: 0xebbd},
		lookupItem{ucs2: 0xf9d3, cp949: 0xebc1},
		lookupItem{ucs2: 0xf9d4, cp949: 0xebc2},
		lookupItem{ucs2: 0xf9d5, cp949: 0xebc6},
		lookupItem{ucs2: 0xf9d6, cp949: 0xebc7},
		lookupItem{ucs2: 0xf9d7, cp949: 0xebcc},
		lookupItem{ucs2: 0xf9d8, cp949: 0xebcf},
		lookupItem{ucs2: 0xf9d9, cp949: 0xebd0},
		lookupItem{ucs2: 0xf9da, cp949: 0xebd1},
		lookupItem{ucs2: 0xf9db, cp949: 0xebd2},
		lookupItem{ucs2: 0xf9dc, cp949: 0xebd8},
		lookupItem{ucs2: 0xf9dd, cp949: 0xeca6},
		lookupItem{ucs2: 0xf9de, cp949: 0xeca7},
		lookupItem{ucs2: 0xf9df, cp949: 0xecaa},
		lookupItem{ucs2: 0xf9e0, cp949: 0xecaf},
		lookupItem{ucs2: 0xf9e1, cp949: 0xecb0},
		lookupItem{ucs2: 0xf9e2, cp949: 0xecb1},
		lookupItem{ucs2: 0xf9e3, cp949: 0xecb2},
		lookupItem{ucs2: 0xf9e4, cp949: 0xecb5},
		lookupItem{ucs2: 0xf9e5, cp949: 0xecb8},
		lookupItem{ucs2: 0xf9e6, cp949: 0xecba},
		lookupItem{ucs2: 0xf9e7, cp949: 0xecc0},
		lookupItem{ucs2: 0xf9e8, cp949: 0xecc1},
		lookupItem{ucs2: 0xf9e9, cp949: 0xecc5},
		lookupItem{ucs2: 0xf9ea, cp949: 0xecc6},
		lookupItem{ucs2: 0xf9eb, cp949: 0xecc9},
		lookupItem{ucs2: 0xf9ec, cp949: 0xecca},
		lookupItem{ucs2: 0xf9ed, cp949: 0xecd5},
		lookupItem{ucs2: 0xf9ee, cp949: 0xecdd},
		lookupItem{ucs2: 0xf9ef, cp949: 0xecde},
		lookupItem{ucs2: 0xf9f0, cp949: 0xece1},
		lookupItem{ucs2: 0xf9f1, cp949: 0xece4},
		lookupItem{ucs2: 0xf9f2, cp949: 0xece7},
		lookupItem{ucs2: 0xf9f3, cp949: 0xece8},
		lookupItem{ucs2: 0xf9f4, cp949: 0xecf7},
		lookupItem{ucs2: 0xf9f5, cp949: 0xecf8},
		lookupItem{ucs2: 0xf9f6, cp949: 0xecfa},
		lookupItem{ucs2: 0xf9f7, cp949: 0xeda1},
		lookupItem{ucs2: 0xf9f8, cp949: 0xeda2},
		lookupItem{ucs2: 0xf9f9, cp949: 0xeda3},
		lookupItem{ucs2: 0xf9fa, cp949: 0xedee},
		lookupItem{ucs2: 0xf9fb, cp949: 0xeedb},
		lookupItem{ucs2: 0xf9fc, cp949: 0xf2bd},
		lookupItem{ucs2: 0xf9fd, cp949: 0xf2fa},
		lookupItem{ucs2: 0xf9fe, cp949: 0xf3b1},
		lookupItem{ucs2: 0xf9ff, cp949: 0xf4a7},
		lookupItem{ucs2: 0xfa00, cp949: 0xf4ee},
		lookupItem{ucs2: 0xfa01, cp949: 0xf6f4},
		lookupItem{ucs2: 0xfa02, cp949: 0xf6f6},
		lookupItem{ucs2: 0xfa03, cp949: 0xf7b8},
		lookupItem{ucs2: 0xfa04, cp949: 0xf7c8},
		lookupItem{ucs2: 0xfa05, cp949: 0xf7d3},
		lookupItem{ucs2: 0xfa06, cp949: 0xf8db},
		lookupItem{ucs2: 0xfa07, cp949: 0xf8f0},
		lookupItem{ucs2: 0xfa08, cp949: 0xfaa1},
		lookupItem{ucs2: 0xfa09, cp949: 0xfaa2},
		lookupItem{ucs2: 0xfa0a, cp949: 0xfae6},
		lookupItem{ucs2: 0xfa0b, cp949: 0xfca9},
		lookupItem{ucs2: 0xff01, cp949: 0xa3a1},
		lookupItem{ucs2: 0xff02, cp949: 0xa3a2},
		lookupItem{ucs2: 0xff03, cp949: 0xa3a3},
		lookupItem{ucs2: 0xff04, cp949: 0xa3a4},
		lookupItem{ucs2: 0xff05, cp949: 0xa3a5},
		lookupItem{ucs2: 0xff06, cp949: 0xa3a6},
		lookupItem{ucs2: 0xff07, cp949: 0xa3a7},
		lookupItem{ucs2: 0xff08, cp949: 0xa3a8},
		lookupItem{ucs2: 0xff09, cp949: 0xa3a9},
		lookupItem{ucs2: 0xff0a, cp949: 0xa3aa},
		lookupItem{ucs2: 0xff0b, cp949: 0xa3ab},
		lookupItem{ucs2: 0xff0c, cp949: 0xa3ac},
		lookupItem{ucs2: 0xff0d, cp949: 0xa3ad},
		lookupItem{ucs2: 0xff0e, cp949: 0xa3ae},
		lookupItem{ucs2: 0xff0f, cp949: 0xa3af},
		lookupItem{ucs2: 0xff10, cp949: 0xa3b0},
		lookupItem{ucs2: 0xff11, cp949: 0xa3b1},
		lookupItem{ucs2: 0xff12, cp949: 0xa3b2},
		lookupItem{ucs2: 0xff13, cp949: 0xa3b3},
		lookupItem{ucs2: 0xff14, cp949: 0xa3b4},
		lookupItem{ucs2: 0xff15, cp949: 0xa3b5},
		lookupItem{ucs2: 0xff16, cp949: 0xa3b6},
		lookupItem{ucs2: 0xff17, cp949: 0xa3b7},
		lookupItem{ucs2: 0xff18, cp949: 0xa3b8},
		lookupItem{ucs2: 0xff19, cp949: 0xa3b9},
		lookupItem{ucs2: 0xff1a, cp949: 0xa3ba},
		lookupItem{ucs2: 0xff1b, cp949: 0xa3bb},
		lookupItem{ucs2: 0xff1c, cp949: 0xa3bc},
		lookupItem{ucs2: 0xff1d, cp949: 0xa3bd},
		lookupItem{ucs2: 0xff1e, cp949: 0xa3be},
		lookupItem{ucs2: 0xff1f, cp949: 0xa3bf},
		lookupItem{ucs2: 0xff20, cp949: 0xa3c0},
		lookupItem{ucs2: 0xff21, cp949: 0xa3c1},
		lookupItem{ucs2: 0xff22, cp949: 0xa3c2},
		lookupItem{ucs2: 0xff23, cp949: 0xa3c3},
		lookupItem{ucs2: 0xff24, cp949: 0xa3c4},
		lookupItem{ucs2: 0xff25, cp949: 0xa3c5},
		lookupItem{ucs2: 0xff26, cp949: 0xa3c6},
		lookupItem{ucs2: 0xff27, cp949: 0xa3c7},
		lookupItem{ucs2: 0xff28, cp949: 0xa3c8},
		lookupItem{ucs2: 0xff29, cp949: 0xa3c9},
		lookupItem{ucs2: 0xff2a, cp949: 0xa3ca},
		lookupItem{ucs2: 0xff2b, cp949: 0xa3cb},
		lookupItem{ucs2: 0xff2c, cp949: 0xa3cc},
".
Definition text_cp949_lookup_to_068 : string :=
"		lookupItem{ucs2: 0xff2d, cp949: 0xa3cd},
		lookupItem{ucs2: 0xff2e, cp949: 0xa3ce},
		lookupItem{ucs2: 0xff2f, cp949: 0xa3cf},
		lookupItem{ucs2: 0xff30, cp949: 0xa3d0},
		lookupItem{ucs2: 0xff31, cp949: 0xa3d1},
		lookupItem{ucs2: 0xff32, cp949: 0xa3d2},
		lookupItem{ucs2: 0xff33, cp949: 0xa3d3},
		lookupItem{ucs2: 0xff34, cp949: 0xa3d4},
		lookupItem{ucs2: 0xff35, cp949: 0xa3d5},
		lookupItem{ucs2: 0xff36, cp949: 0xa3d6},
		lookupItem{ucs2: 0xff37, cp949: 0xa3d7},
		lookupItem{ucs2: 0xff38, cp949: 0xa3d8},
		lookupItem{ucs2: 0xff39, cp949: 0xa3d9},
		lookupItem{ucs2: 0xff3a, cp949: 0xa3da},
		lookupItem{ucs2: 0xff3b, cp949: 0xa3db},
		lookupItem{ucs2: 0xff3c, cp949: 0xa1ac},
		lookupItem{ucs2: 0xff3d, cp949: 0xa3dd},
		lookupItem{ucs2: 0xff3e, cp949: 0xa3de},
		lookupItem{ucs2: 0xff3f, cp949: 0xa3df},
		lookupItem{ucs2: 0xff40, cp949: 0xa3e0},
		lookupItem{ucs2: 0xff41, cp949: 0xa3e1},
		lookupItem{ucs2: 0xff42, cp949: 0xa3e2},
		lookupItem{ucs2: 0xff43, cp949: 0xa3e3},
		lookupItem{ucs2: 0xff44, cp949: 0xa3e4},
		lookupItem{ucs2: 0xff45, cp949: 0xa3e5},
		lookupItem{ucs2: 0xff46, cp949: 0xa3e6},
		lookupItem{ucs2: 0xff47, cp949: 0xa3e7},
		lookupItem{ucs2: 0xff48, cp949: 0xa3e8},
		lookupItem{ucs2: 0xff49, cp949: 0xa3e9},
		lookupItem{ucs2: 0xff4a, cp949: 0xa3ea},
		lookupItem{ucs2: 0xff4b, cp949: 0xa3eb},
		lookupItem{ucs2: 0xff4c, cp949: 0xa3ec},
		lookupItem{ucs2: 0xff4d, cp949: 0xa3ed},
		lookupItem{ucs2: 0xff4e, cp949: 0xa3ee},
		lookupItem{ucs2: 0xff4f, cp949: 0xa3ef},
		lookupItem{ucs2: 0xff50, cp949: 0xa3f0},
		lookupItem{ucs2: 0xff51, cp949: 0xa3f1},
		lookupItem{ucs2: 0xff52, cp949: 0xa3f2},
		lookupItem{ucs2: 0xff53, cp949: 0xa3f3},
		lookupItem{ucs2: 0xff54, cp949: 0xa3f4},
		lookupItem{ucs2: 0xff55, cp949: 0xa3f5},
		lookupItem{ucs2: 0xff56, cp949: 0xa3f6},
		lookupItem{ucs2: 0xff57, cp949: 0xa3f7},
		lookupItem{ucs2: 0xff58, cp949: 0xa3f8},
		lookupItem{ucs2: 0xff59, cp949: 0xa3f9},
		lookupItem{ucs2: 0xff5a, cp949: 0xa3fa},
		lookupItem{ucs2: 0xff5b, cp949: 0xa3fb},
		lookupItem{ucs2: 0xff5c, cp949: 0xa3fc},
		lookupItem{ucs2: 0xff5d, cp949: 0xa3fd},
		lookupItem{ucs2: 0xff5e, cp949: 0xa2a6},
		lookupItem{ucs2: 0xffe0, cp949: 0xa1cb},
		lookupItem{ucs2: 0xffe1, cp949: 0xa1cc},
		lookupItem{ucs2: 0xffe2, cp949: 0xa1fe},
		lookupItem{ucs2: 0xffe3, cp949: 0xa3fe},
		lookupItem{ucs2: 0xffe5, cp949: 0xa1cd},
		lookupItem{ucs2: 0xffe6, cp949: 0xa3dc},
	}
)
".
Definition text_cp949_lookup_to : string := String.concat "" [
  text_cp949_lookup_to_000;
  text_cp949_lookup_to_001;
  text_cp949_lookup_to_002;
  text_cp949_lookup_to_003;
  text_cp949_lookup_to_004;
  text_cp949_lookup_to_005;
  text_cp949_lookup_to_006;
  text_cp949_lookup_to_007;
  text_cp949_lookup_to_008;
  text_cp949_lookup_to_009;
  text_cp949_lookup_to_010;
  text_cp949_lookup_to_011;
  text_cp949_lookup_to_012;
  text_cp949_lookup_to_013;
  text_cp949_lookup_to_014;
  text_cp949_lookup_to_015;
  text_cp949_lookup_to_016;
  text_cp949_lookup_to_017;
  text_cp949_lookup_to_018;
  text_cp949_lookup_to_019;
  text_cp949_lookup_to_020;
  text_cp949_lookup_to_021;
  text_cp949_lookup_to_022;
  text_cp949_lookup_to_023;
  text_cp949_lookup_to_024;
  text_cp949_lookup_to_025;
  text_cp949_lookup_to_026;
  text_cp949_lookup_to_027;
  text_cp949_lookup_to_028;
  text_cp949_lookup_to_029;
  text_cp949_lookup_to_030;
  text_cp949_lookup_to_031;
  text_cp949_lookup_to_032;
  text_cp949_lookup_to_033;
  text_cp949_lookup_to_034;
  text_cp949_lookup_to_035;
  text_cp949_lookup_to_036;
  text_cp949_lookup_to_037;
  text_cp949_lookup_to_038;
  text_cp949_lookup_to_039;
  text_cp949_lookup_to_040;
  text_cp949_lookup_to_041;
  text_cp949_lookup_to_042;
  text_cp949_lookup_to_043;
  text_cp949_lookup_to_044;
  text_cp949_lookup_to_045;
  text_cp949_lookup_to_046;
  text_cp949_lookup_to_047;
  text_cp949_lookup_to_048;
  text_cp949_lookup_to_049;
  text_cp949_lookup_to_050;
  text_cp949_lookup_to_051;
  text_cp949_lookup_to_052;
  text_cp949_lookup_to_053;
  text_cp949_lookup_to_054;
  text_cp949_lookup_to_055;
  text_cp949_lookup_to_056;
  text_cp949_lookup_to_057;
  text_cp949_lookup_to_058;
  text_cp949_lookup_to_059;
  text_cp949_lookup_to_060;
  text_cp949_lookup_to_061;
  text_cp949_lookup_to_062;
  text_cp949_lookup_to_063;
  text_cp949_lookup_to_064;
  text_cp949_lookup_to_065;
  text_cp949_lookup_to_066;
  text_cp949_lookup_to_067;
  text_cp949_lookup_to_068].
