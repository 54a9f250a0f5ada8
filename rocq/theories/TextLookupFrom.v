(** GENERATED by tools/gen_text.py from the Go sources; do not edit.
    The text of encoding/cp949/lookup_from.go, in pieces of 250 lines, unchanged except that a double quote is written twice. *)
From Coq Require Import String List.
Import ListNotations.
Local Open Scope string_scope.

Definition text_cp949_lookup_from_000 : string :=
"// Copyright 2013, Homin Lee. All rights reserved.
// Use of this source code is governed by a BSD-style
// license that can be found in the LICENSE file.

package cp949

var (
	fromTable = lookupTable{
		lookupItem{cp949: 0x8141, ucs2: 0xac02},
		lookupItem{cp949: 0x8142, ucs2: 0xac03},
		lookupItem{cp949: 0x8143, ucs2: 0xac05},
		lookupItem{cp949: 0x8144, ucs2: 0xac06},
		lookupItem{cp949: 0x8145, ucs2: 0xac0b},
		lookupItem{cp949: 0x8146, ucs2: 0xac0c},
		lookupItem{cp949: 0x8147, ucs2: 0xac0d},
		lookupItem{cp949: 0x8148, ucs2: 0xac0e},
		lookupItem{cp949: 0x8149, ucs2: 0xac0f},
		lookupItem{cp949: 0x814a, ucs2: 0xac18},
		lookupItem{cp949: 0x814b, ucs2: 0xac1e},
		lookupItem{cp949: 0x814c, ucs2: 0xac1f},
		lookupItem{cp949: 0x814d, ucs2: 0xac21},
		lookupItem{cp949: 0x814e, ucs2: 0xac22},
		lookupItem{cp949: 0x814f, ucs2: 0xac23},
		lookupItem{cp949: 0x8150, ucs2: 0xac25},
		lookupItem{cp949: 0x8151, ucs2: 0xac26},
		lookupItem{cp949: 0x8152, ucs2: 0xac27},
		lookupItem{cp949: 0x8153, ucs2: 0xac28},
		lookupItem{cp949: 0x8154, ucs2: 0xac29},
		lookupItem{cp949: 0x8155, ucs2: 0xac2a},
		lookupItem{cp949: 0x8156, ucs2: 0xac2b},
		lookupItem{cp949: 0x8157, ucs2: 0xac2e},
		lookupItem{cp949: 0x8158, ucs2: 0xac32},
		lookupItem{cp949: 0x8159, ucs2: 0xac33},
		lookupItem{cp949: 0x815a, ucs2: 0xac34},
		lookupItem{cp949: 0x8161, ucs2: 0xac35},
		lookupItem{cp949: 0x8162, ucs2: 0xac36},
		lookupItem{cp949: 0x8163, ucs2: 0xac37},
		lookupItem{cp949: 0x8164, ucs2: 0xac3a},
		lookupItem{cp949: 0x8165, ucs2: 0xac3b},
		lookupItem{cp949: 0x8166, ucs2: 0xac3d},
		lookupItem{cp949: 0x8167, ucs2: 0xac3e},
		lookupItem{cp949: 0x8168, ucs2: 0xac3f},
		lookupItem{cp949: 0x8169, ucs2: 0xac41},
		lookupItem{cp949: 0x816a, ucs2: 0xac42},
		lookupItem{cp949: 0x816b, ucs2: 0xac43},
		lookupItem{cp949: 0x816c, ucs2: 0xac44},
		lookupItem{cp949: 0x816d, ucs2: 0xac45},
		lookupItem{cp949: 0x816e, ucs2: 0xac46},
		lookupItem{cp949: 0x816f, ucs2: 0xac47},
		lookupItem{cp949: 0x8170, ucs2: 0xac48},
		lookupItem{cp949: 0x8171, ucs2: 0xac49},
		lookupItem{cp949: 0x8172, ucs2: 0xac4a},
		lookupItem{cp949: 0x8173, ucs2: 0xac4c},
		lookupItem{cp949: 0x8174, ucs2: 0xac4e},
		lookupItem{cp949: 0x8175, ucs2: 0xac4f},
		lookupItem{cp949: 0x8176, ucs2: 0xac50},
		lookupItem{cp949: 0x8177, ucs2: 0xac51},
		lookupItem{cp949: 0x8178, ucs2: 0xac52},
		lookupItem{cp949: 0x8179, ucs2: 0xac53},
		lookupItem{cp949: 0x817a, ucs2: 0xac55},
		lookupItem{cp949: 0x8181, ucs2: 0xac56},
		lookupItem{cp949: 0x8182, ucs2: 0xac57},
		lookupItem{cp949: 0x8183, ucs2: 0xac59},
		lookupItem{cp949: 0x8184, ucs2: 0xac5a},
		lookupItem{cp949: 0x8185, ucs2: 0xac5b},
		lookupItem{cp949: 0x8186, ucs2: 0xac5d},
		lookupItem{cp949: 0x8187, ucs2: 0xac5e},
		lookupItem{cp949: 0x8188, ucs2: 0xac5f},
		lookupItem{cp949: 0x8189, ucs2: 0xac60},
		lookupItem{cp949: 0x818a, ucs2: 0xac61},
		lookupItem{cp949: 0x818b, ucs2: 0xac62},
		lookupItem{cp949: 0x818c, ucs2: 0xac63},
		lookupItem{cp949: 0x818d, ucs2: 0xac64},
		lookupItem{cp949: 0x818e, ucs2: 0xac65},
		lookupItem{cp949: 0x818f, ucs2: 0xac66},
		lookupItem{cp949: 0x8190, ucs2: 0xac67},
		lookupItem{cp949: 0x8191, ucs2: 0xac68},
		lookupItem{cp949: 0x8192, ucs2: 0xac69},
		lookupItem{cp949: 0x8193, ucs2: 0xac6a},
		lookupItem{cp949: 0x8194, ucs2: 0xac6b},
		lookupItem{cp949: 0x8195, ucs2: 0xac6c},
		lookupItem{cp949: 0x8196, ucs2: 0xac6d},
		lookupItem{cp949: 0x8197, ucs2: 0xac6e},
		lookupItem{cp949: 0x8198, ucs2: 0xac6f},
		lookupItem{cp949: 0x8199, ucs2: 0xac72},
		lookupItem{cp949: 0x819a, ucs2: 0xac73},
		lookupItem{cp949: 0x819b, ucs2: 0xac75},
		lookupItem{cp949: 0x819c, ucs2: 0xac76},
		lookupItem{cp949: 0x819d, ucs2: 0xac79},
		lookupItem{cp949: 0x819e, ucs2: 0xac7b},
		lookupItem{cp949: 0x819f, ucs2: 0xac7c},
		lookupItem{cp949: 0x81a0, ucs2: 0xac7d},
		lookupItem{cp949: 0x81a1, ucs2: 0xac7e},
		lookupItem{cp949: 0x81a2, ucs2: 0xac7f},
		lookupItem{cp949: 0x81a3, ucs2: 0xac82},
		lookupItem{cp949: 0x81a4, ucs2: 0xac87},
		lookupItem{cp949: 0x81a5, ucs2: 0xac88},
		lookupItem{cp949: 0x81a6, ucs2: 0xac8d},
		lookupItem{cp949: 0x81a7, ucs2: 0xac8e},
		lookupItem{cp949: 0x81a8, ucs2: 0xac8f},
		lookupItem{cp949: 0x81a9, ucs2: 0xac91},
		lookupItem{cp949: 0x81aa, ucs2: 0xac92},
		lookupItem{cp949: 0x81ab, ucs2: 0xac93},
		lookupItem{cp949: 0x81ac, ucs2: 0xac95},
		lookupItem{cp949: 0x81ad, ucs2: 0xac96},
		lookupItem{cp949: 0x81ae, ucs2: 0xac97},
		lookupItem{cp949: 0x81af, ucs2: 0xac98},
		lookupItem{cp949: 0x81b0, ucs2: 0xac99},
		lookupItem{cp949: 0x81b1, ucs2: 0xac9a},
		lookupItem{cp949: 0x81b2, ucs2: 0xac9b},
		lookupItem{cp949: 0x81b3, ucs2: 0xac9e},
		lookupItem{cp949: 0x81b4, ucs2: 0xaca2},
		lookupItem{cp949: 0x81b5, ucs2: 0xaca3},
		lookupItem{cp949: 0x81b6, ucs2: 0xaca4},
		lookupItem{cp949: 0x81b7, ucs2: 0xaca5},
		lookupItem{cp949: 0x81b8, ucs2: 0xaca6},
		lookupItem{cp949: 0x81b9, ucs2: 0xaca7},
		lookupItem{cp949: 0x81ba, ucs2: 0xacab},
		lookupItem{cp949: 0x81bb, ucs2: 0xacad},
		lookupItem{cp949: 0x81bc, ucs2: 0xacae},
		lookupItem{cp949: 0x81bd, ucs2: 0xacb1},
		lookupItem{cp949: 0x81be, ucs2: 0xacb2},
		lookupItem{cp949: 0x81bf, ucs2: 0xacb3},
		lookupItem{cp949: 0x81c0, ucs2: 0xacb4},
		lookupItem{cp949: 0x81c1, ucs2: 0xacb5},
		lookupItem{cp949: 0x81c2, ucs2: 0xacb6},
		lookupItem{cp949: 0x81c3, ucs2: 0xacb7},
		lookupItem{cp949: 0x81c4, ucs2: 0xacba},
		lookupItem{cp949: 0x81c5, ucs2: 0xacbe},
		lookupItem{cp949: 0x81c6, ucs2: 0xacbf},
		lookupItem{cp949: 0x81c7, ucs2: 0xacc0},
		lookupItem{cp949: 0x81c8, ucs2: 0xacc2},
		lookupItem{cp949: 0x81c9, ucs2: 0xacc3},
		lookupItem{cp949: 0x81ca, ucs2: 0xacc5},
		lookupItem{cp949: 0x81cb, ucs2: 0xacc6},
		lookupItem{cp949: 0x81cc, ucs2: 0xacc7},
		lookupItem{cp949: 0x81cd, ucs2: 0xacc9},
		lookupItem{cp949: 0x81ce, ucs2: 0xacca},
		lookupItem{cp949: 0x81cf, ucs2: 0xaccb},
		lookupItem{cp949: 0x81d0, ucs2: 0xaccd},
		lookupItem{cp949: 0x81d1, ucs2: 0xacce},
		lookupItem{cp949: 0x81d2, ucs2: 0xaccf},
		lookupItem{cp949: 0x81d3, ucs2: 0xacd0},
		lookupItem{cp949: 0x81d4, ucs2: 0xacd1},
		lookupItem{cp949: 0x81d5, ucs2: 0xacd2},
		lookupItem{cp949: 0x81d6, ucs2: 0xacd3},
		lookupItem{cp949: 0x81d7, ucs2: 0xacd4},
		lookupItem{cp949: 0x81d8, ucs2: 0xacd6},
		lookupItem{cp949: 0x81d9, ucs2: 0xacd8},
		lookupItem{cp949: 0x81da, ucs2: 0xacd9},
		lookupItem{cp949: 0x81db, ucs2: 0xacda},
		lookupItem{cp949: 0x81dc, ucs2: 0xacdb},
		lookupItem{cp949: 0x81dd, ucs2: 0xacdc},
		lookupItem{cp949: 0x81de, ucs2: 0xacdd},
		lookupItem{cp949: 0x81df, ucs2: 0xacde},
		lookupItem{cp949: 0x81e0, ucs2: 0xacdf},
		lookupItem{cp949: 0x81e1, ucs2: 0xace2},
		lookupItem{cp949: 0x81e2, ucs2: 0xace3},
		lookupItem{cp949: 0x81e3, ucs2: 0xace5},
		lookupItem{cp949: 0x81e4, ucs2: 0xace6},
		lookupItem{cp949: 0x81e5, ucs2: 0xace9},
		lookupItem{cp949: 0x81e6, ucs2: 0xaceb},
		lookupItem{cp949: 0x81e7, ucs2: 0xaced},
		lookupItem{cp949: 0x81e8, ucs2: 0xacee},
		lookupItem{cp949: 0x81e9, ucs2: 0xacf2},
		lookupItem{cp949: 0x81ea, ucs2: 0xacf4},
		lookupItem{cp949: 0x81eb, ucs2: 0xacf7},
		lookupItem{cp949: 0x81ec, ucs2: 0xacf8},
		lookupItem{cp949: 0x81ed, ucs2: 0xacf9},
		lookupItem{cp949: 0x81ee, ucs2: 0xacfa},
		lookupItem{cp949: 0x81ef, ucs2: 0xacfb},
		lookupItem{cp949: 0x81f0, ucs2: 0xacfe},
		lookupItem{cp949: 0x81f1, ucs2: 0xacff},
		lookupItem{cp949: 0x81f2, ucs2: 0xad01},
		lookupItem{cp949: 0x81f3, ucs2: 0xad02},
		lookupItem{cp949: 0x81f4, ucs2: 0xad03},
		lookupItem{cp949: 0x81f5, ucs2: 0xad05},
		lookupItem{cp949: 0x81f6, ucs2: 0xad07},
		lookupItem{cp949: 0x81f7, ucs2: 0xad08},
		lookupItem{cp949: 0x81f8, ucs2: 0xad09},
		lookupItem{cp949: 0x81f9, ucs2: 0xad0a},
		lookupItem{cp949: 0x81fa, ucs2: 0xad0b},
		lookupItem{cp949: 0x81fb, ucs2: 0xad0e},
		lookupItem{cp949: 0x81fc, ucs2: 0xad10},
		lookupItem{cp949: 0x81fd, ucs2: 0xad12},
		lookupItem{cp949: 0x81fe, ucs2: 0xad13},
		lookupItem{cp949: 0x8241, ucs2: 0xad14},
		lookupItem{cp949: 0x8242, ucs2: 0xad15},
		lookupItem{cp949: 0x8243, ucs2: 0xad16},
		lookupItem{cp949: 0x8244, ucs2: 0xad17},
		lookupItem{cp949: 0x8245, ucs2: 0xad19},
		lookupItem{cp949: 0x8246, ucs2: 0xad1a},
		lookupItem{cp949: 0x8247, ucs2: 0xad1b},
		lookupItem{cp949: 0x8248, ucs2: 0xad1d},
		lookupItem{cp949: 0x8249, ucs2: 0xad1e},
		lookupItem{cp949: 0x824a, ucs2: 0xad1f},
		lookupItem{cp949: 0x824b, ucs2: 0xad21},
		lookupItem{cp949: 0x824c, ucs2: 0xad22},
		lookupItem{cp949: 0x824d, ucs2: 0xad23},
		lookupItem{cp949: 0x824e, ucs2: 0xad24},
		lookupItem{cp949: 0x824f, ucs2: 0xad25},
		lookupItem{cp949: 0x8250, ucs2: 0xad26},
		lookupItem{cp949: 0x8251, ucs2: 0xad27},
		lookupItem{cp949: 0x8252, ucs2: 0xad28},
		lookupItem{cp949: 0x8253, ucs2: 0xad2a},
		lookupItem{cp949: 0x8254, ucs2: 0xad2b},
		lookupItem{cp949: 0x8255, ucs2: 0xad2e},
		lookupItem{cp949: 0x8256, ucs2: 0xad2f},
		lookupItem{cp949: 0x8257, ucs2: 0xad30},
		lookupItem{cp949: 0x8258, ucs2: 0xad31},
		lookupItem{cp949: 0x8259, ucs2: 0xad32},
		lookupItem{cp949: 0x825a, ucs2: 0xad33},
		lookupItem{cp949: 0x8261, ucs2: 0xad36},
		lookupItem{cp949: 0x8262, ucs2: 0xad37},
		lookupItem{cp949: 0x8263, ucs2: 0xad39},
		lookupItem{cp949: 0x8264, ucs2: 0xad3a},
		lookupItem{cp949: 0x8265, ucs2: 0xad3b},
		lookupItem{cp949: 0x8266, ucs2: 0xad3d},
		lookupItem{cp949: 0x8267, ucs2: 0xad3e},
		lookupItem{cp949: 0x8268, ucs2: 0xad3f},
		lookupItem{cp949: 0x8269, ucs2: 0xad40},
		lookupItem{cp949: 0x826a, ucs2: 0xad41},
		lookupItem{cp949: 0x826b, ucs2: 0xad42},
		lookupItem{cp949: 0x826c, ucs2: 0xad43},
		lookupItem{cp949: 0x826d, ucs2: 0xad46},
		lookupItem{cp949: 0x826e, ucs2: 0xad48},
		lookupItem{cp949: 0x826f, ucs2: 0xad4a},
		lookupItem{cp949: 0x8270, ucs2: 0xad4b},
		lookupItem{cp949: 0x8271, ucs2: 0xad4c},
		lookupItem{cp949: 0x8272, ucs2: 0xad4d},
		lookupItem{cp949: 0x8273, ucs2: 0xad4e},
		lookupItem{cp949: 0x8274, ucs2: 0xad4f},
		lookupItem{cp949: 0x8275, ucs2: 0xad51},
		lookupItem{cp949: 0x8276, ucs2: 0xad52},
		lookupItem{cp949: 0x8277, ucs2: 0xad53},
		lookupItem{cp949: 0x8278, ucs2: 0xad55},
		lookupItem{cp949: 0x8279, ucs2: 0xad56},
		lookupItem{cp949: 0x827a, ucs2: 0xad57},
		lookupItem{cp949: 0x8281, ucs2: 0xad59},
		lookupItem{cp949: 0x8282, ucs2: 0xad5a},
		lookupItem{cp949: 0x8283, ucs2: 0xad5b},
		lookupItem{cp949: 0x8284, ucs2: 0xad5c},
		lookupItem{cp949: 0x8285, ucs2: 0xad5d},
		lookupItem{cp949: 0x8286, ucs2: 0xad5e},
		lookupItem{cp949: 0x8287, ucs2: 0xad5f},
		lookupItem{cp949: 0x8288, ucs2: 0xad60},
		lookupItem{cp949: 0x8289, ucs2: 0xad62},
		lookupItem{cp949: 0x828a, ucs2: 0xad64},
		lookupItem{cp949: 0x828b, ucs2: 0xad65},
		lookupItem{cp949: 0x828c, ucs2: 0xad66},
".
Definition text_cp949_lookup_from_001 : string :=
"		lookupItem{cp949: 0x828d, ucs2: 0xad67},
		lookupItem{cp949: 0x828e, ucs2: 0xad68},
		lookupItem{cp949: 0x828f, ucs2: 0xad69},
		lookupItem{cp949: 0x8290, ucs2: 0xad6a},
		lookupItem{cp949: 0x8291, ucs2: 0xad6b},
		lookupItem{cp949: 0x8292, ucs2: 0xad6e},
		lookupItem{cp949: 0x8293, ucs2: 0xad6f},
		lookupItem{cp949: 0x8294, ucs2: 0xad71},
		lookupItem{cp949: 0x8295, ucs2: 0xad72},
		lookupItem{cp949: 0x8296, ucs2: 0xad77},
		lookupItem{cp949: 0x8297, ucs2: 0xad78},
		lookupItem{cp949: 0x8298, ucs2: 0xad79},
		lookupItem{cp949: 0x8299, ucs2: 0xad7a},
		lookupItem{cp949: 0x829a, ucs2: 0xad7e},
		lookupItem{cp949: 0x829b, ucs2: 0xad80},
		lookupItem{cp949: 0x829c, ucs2: 0xad83},
		lookupItem{cp949: 0x829d, ucs2: 0xad84},
		lookupItem{cp949: 0x829e, ucs2: 0xad85},
		lookupItem{cp949: 0x829f, ucs2: 0xad86},
		lookupItem{cp949: 0x82a0, ucs2: 0xad87},
		lookupItem{cp949: 0x82a1, ucs2: 0xad8a},
		lookupItem{cp949: 0x82a2, ucs2: 0xad8b},
		lookupItem{cp949: 0x82a3, ucs2: 0xad8d},
		lookupItem{cp949: 0x82a4, ucs2: 0xad8e},
		lookupItem{cp949: 0x82a5, ucs2: 0xad8f},
		lookupItem{cp949: 0x82a6, ucs2: 0xad91},
		lookupItem{cp949: 0x82a7, ucs2: 0xad92},
		lookupItem{cp949: 0x82a8, ucs2: 0xad93},
		lookupItem{cp949: 0x82a9, ucs2: 0xad94},
		lookupItem{cp949: 0x82aa, ucs2: 0xad95},
		lookupItem{cp949: 0x82ab, ucs2: 0xad96},
		lookupItem{cp949: 0x82ac, ucs2: 0xad97},
		lookupItem{cp949: 0x82ad, ucs2: 0xad98},
		lookupItem{cp949: 0x82ae, ucs2: 0xad99},
		lookupItem{cp949: 0x82af, ucs2: 0xad9a},
		lookupItem{cp949: 0x82b0, ucs2: 0xad9b},
		lookupItem{cp949: 0x82b1, ucs2: 0xad9e},
		lookupItem{cp949: 0x82b2, ucs2: 0xad9f},
		lookupItem{cp949: 0x82b3, ucs2: 0xada0},
		lookupItem{cp949: 0x82b4, ucs2: 0xada1},
		lookupItem{cp949: 0x82b5, ucs2: 0xada2},
		lookupItem{cp949: 0x82b6, ucs2: 0xada3},
		lookupItem{cp949: 0x82b7, ucs2: 0xada5},
		lookupItem{cp949: 0x82b8, ucs2: 0xada6},
		lookupItem{cp949: 0x82b9, ucs2: 0xada7},
		lookupItem{cp949: 0x82ba, ucs2: 0xada8},
		lookupItem{cp949: 0x82bb, ucs2: 0xada9},
		lookupItem{cp949: 0x82bc, ucs2: 0xadaa},
		lookupItem{cp949: 0x82bd, ucs2: 0xadab},
		lookupItem{cp949: 0x82be, ucs2: 0xadac},
		lookupItem{cp949: 0x82bf, ucs2: 0xadad},
		lookupItem{cp949: 0x82c0, ucs2: 0xadae},
		lookupItem{cp949: 0x82c1, ucs2: 0xadaf},
		lookupItem{cp949: 0x82c2, ucs2: 0xadb0},
		lookupItem{cp949: 0x82c3, ucs2: 0xadb1},
		lookupItem{cp949: 0x82c4, ucs2: 0xadb2},
		lookupItem{cp949: 0x82c5, ucs2: 0xadb3},
		lookupItem{cp949: 0x82c6, ucs2: 0xadb4},
		lookupItem{cp949: 0x82c7, ucs2: 0xadb5},
		lookupItem{cp949: 0x82c8, ucs2: 0xadb6},
		lookupItem{cp949: 0x82c9, ucs2: 0xadb8},
		lookupItem{cp949: 0x82ca, ucs2: 0xadb9},
		lookupItem{cp949: 0x82cb, ucs2: 0xadba},
		lookupItem{cp949: 0x82cc, ucs2: 0xadbb},
		lookupItem{cp949: 0x82cd, ucs2: 0xadbc},
		lookupItem{cp949: 0x82ce, ucs2: 0xadbd},
		lookupItem{cp949: 0x82cf, ucs2: 0xadbe},
		lookupItem{cp949: 0x82d0, ucs2: 0xadbf},
		lookupItem{cp949: 0x82d1, ucs2: 0xadc2},
		lookupItem{cp949: 0x82d2, ucs2: 0xadc3},
		lookupItem{cp949: 0x82d3, ucs2: 0xadc5},
		lookupItem{cp949: 0x82d4, ucs2: 0xadc6},
		lookupItem{cp949: 0x82d5, ucs2: 0xadc7},
		lookupItem{cp949: 0x82d6, ucs2: 0xadc9},
		lookupItem{cp949: 0x82d7, ucs2: 0xadca},
		lookupItem{cp949: 0x82d8, ucs2: 0xadcb},
		lookupItem{cp949: 0x82d9, ucs2: 0xadcc},
		lookupItem{cp949: 0x82da, ucs2: 0xadcd},
		lookupItem{cp949: 0x82db, ucs2: 0xadce},
		lookupItem{cp949: 0x82dc, ucs2: 0xadcf},
		lookupItem{cp949: 0x82dd, ucs2: 0xadd2},
		lookupItem{cp949: 0x82de, ucs2: 0xadd4},
		lookupItem{cp949: 0x82df, ucs2: 0xadd5},
		lookupItem{cp949: 0x82e0, ucs2: 0xadd6},
		lookupItem{cp949: 0x82e1, ucs2: 0xadd7},
		lookupItem{cp949: 0x82e2, ucs2: 0xadd8},
		lookupItem{cp949: 0x82e3, ucs2: 0xadd9},
		lookupItem{cp949: 0x82e4, ucs2: 0xadda},
		lookupItem{cp949: 0x82e5, ucs2: 0xaddb},
		lookupItem{cp949: 0x82e6, ucs2: 0xaddd},
		lookupItem{cp949: 0x82e7, ucs2: 0xadde},
		lookupItem{cp949: 0x82e8, ucs2: 0xaddf},
		lookupItem{cp949: 0x82e9, ucs2: 0xade1},
		lookupItem{cp949: 0x82ea, ucs2: 0xade2},
		lookupItem{cp949: 0x82eb, ucs2: 0xade3},
		lookupItem{cp949: 0x82ec, ucs2: 0xade5},
		lookupItem{cp949: 0x82ed, ucs2: 0xade6},
		lookupItem{cp949: 0x82ee, ucs2: 0xade7},
		lookupItem{cp949: 0x82ef, ucs2: 0xade8},
		lookupItem{cp949: 0x82f0, ucs2: 0xade9},
		lookupItem{cp949: 0x82f1, ucs2: 0xadea},
		lookupItem{cp949: 0x82f2, ucs2: 0xadeb},
		lookupItem{cp949: 0x82f3, ucs2: 0xadec},
		lookupItem{cp949: 0x82f4, ucs2: 0xaded},
		lookupItem{cp949: 0x82f5, ucs2: 0xadee},
		lookupItem{cp949: 0x82f6, ucs2: 0xadef},
		lookupItem{cp949: 0x82f7, ucs2: 0xadf0},
		lookupItem{cp949: 0x82f8, ucs2: 0xadf1},
		lookupItem{cp949: 0x82f9, ucs2: 0xadf2},
		lookupItem{cp949: 0x82fa, ucs2: 0xadf3},
		lookupItem{cp949: 0x82fb, ucs2: 0xadf4},
		lookupItem{cp949: 0x82fc, ucs2: 0xadf5},
		lookupItem{cp949: 0x82fd, ucs2: 0xadf6},
		lookupItem{cp949: 0x82fe, ucs2: 0xadf7},
		lookupItem{cp949: 0x8341, ucs2: 0xadfa},
		lookupItem{cp949: 0x8342, ucs2: 0xadfb},
		lookupItem{cp949: 0x8343, ucs2: 0xadfd},
		lookupItem{cp949: 0x8344, ucs2: 0xadfe},
		lookupItem{cp949: 0x8345, ucs2: 0xae02},
		lookupItem{cp949: 0x8346, ucs2: 0xae03},
		lookupItem{cp949: 0x8347, ucs2: 0xae04},
		lookupItem{cp949: 0x8348, ucs2: 0xae05},
		lookupItem{cp949: 0x8349, ucs2: 0xae06},
		lookupItem{cp949: 0x834a, ucs2: 0xae07},
		lookupItem{cp949: 0x834b, ucs2: 0xae0a},
		lookupItem{cp949: 0x834c, ucs2: 0xae0c},
		lookupItem{cp949: 0x834d, ucs2: 0xae0e},
		lookupItem{cp949: 0x834e, ucs2: 0xae0f},
		lookupItem{cp949: 0x834f, ucs2: 0xae10},
		lookupItem{cp949: 0x8350, ucs2: 0xae11},
		lookupItem{cp949: 0x8351, ucs2: 0xae12},
		lookupItem{cp949: 0x8352, ucs2: 0xae13},
		lookupItem{cp949: 0x8353, ucs2: 0xae15},
		lookupItem{cp949: 0x8354, ucs2: 0xae16},
		lookupItem{cp949: 0x8355, ucs2: 0xae17},
		lookupItem{cp949: 0x8356, ucs2: 0xae18},
		lookupItem{cp949: 0x8357, ucs2: 0xae19},
		lookupItem{cp949: 0x8358, ucs2: 0xae1a},
		lookupItem{cp949: 0x8359, ucs2: 0xae1b},
		lookupItem{cp949: 0x835a, ucs2: 0xae1c},
		lookupItem{cp949: 0x8361, ucs2: 0xae1d},
		lookupItem{cp949: 0x8362, ucs2: 0xae1e},
		lookupItem{cp949: 0x8363, ucs2: 0xae1f},
		lookupItem{cp949: 0x8364, ucs2: 0xae20},
		lookupItem{cp949: 0x8365, ucs2: 0xae21},
		lookupItem{cp949: 0x8366, ucs2: 0xae22},
		lookupItem{cp949: 0x8367, ucs2: 0xae23},
		lookupItem{cp949: 0x8368, ucs2: 0xae24},
		lookupItem{cp949: 0x8369, ucs2: 0xae25},
		lookupItem{cp949: 0x836a, ucs2: 0xae26},
		lookupItem{cp949: 0x836b, ucs2: 0xae27},
		lookupItem{cp949: 0x836c, ucs2: 0xae28},
		lookupItem{cp949: 0x836d, ucs2: 0xae29},
		lookupItem{cp949: 0x836e, ucs2: 0xae2a},
		lookupItem{cp949: 0x836f, ucs2: 0xae2b},
		lookupItem{cp949: 0x8370, ucs2: 0xae2c},
		lookupItem{cp949: 0x8371, ucs2: 0xae2d},
		lookupItem{cp949: 0x8372, ucs2: 0xae2e},
		lookupItem{cp949: 0x8373, ucs2: 0xae2f},
		lookupItem{cp949: 0x8374, ucs2: 0xae32},
		lookupItem{cp949: 0x8375, ucs2: 0xae33},
		lookupItem{cp949: 0x8376, ucs2: 0xae35},
		lookupItem{cp949: 0x8377, ucs2: 0xae36},
		lookupItem{cp949: 0x8378, ucs2: 0xae39},
		lookupItem{cp949: 0x8379, ucs2: 0xae3b},
		lookupItem{cp949: 0x837a, ucs2: 0xae3c},
		lookupItem{cp949: 0x8381, ucs2: 0xae3d},
		lookupItem{cp949: 0x8382, ucs2: 0xae3e},
		lookupItem{cp949: 0x8383, ucs2: 0xae3f},
		lookupItem{cp949: 0x8384, ucs2: 0xae42},
		lookupItem{cp949: 0x8385, ucs2: 0xae44},
		lookupItem{cp949: 0x8386, ucs2: 0xae47},
		lookupItem{cp949: 0x8387, ucs2: 0xae48},
		lookupItem{cp949: 0x8388, ucs2: 0xae49},
		lookupItem{cp949: 0x8389, ucs2: 0xae4b},
		lookupItem{cp949: 0x838a, ucs2: 0xae4f},
		lookupItem{cp949: 0x838b, ucs2: 0xae51},
		lookupItem{cp949: 0x838c, ucs2: 0xae52},
		lookupItem{cp949: 0x838d, ucs2: 0xae53},
		lookupItem{cp949: 0x838e, ucs2: 0xae55},
		lookupItem{cp949: 0x838f, ucs2: 0xae57},
		lookupItem{cp949: 0x8390, ucs2: 0xae58},
		lookupItem{cp949: 0x8391, ucs2: 0xae59},
		lookupItem{cp949: 0x8392, ucs2: 0xae5a},
		lookupItem{cp949: 0x8393, ucs2: 0xae5b},
		lookupItem{cp949: 0x8394, ucs2: 0xae5e},
		lookupItem{cp949: 0x8395, ucs2: 0xae62},
		lookupItem{cp949: 0x8396, ucs2: 0xae63},
		lookupItem{cp949: 0x8397, ucs2: 0xae64},
		lookupItem{cp949: 0x8398, ucs2: 0xae66},
		lookupItem{cp949: 0x8399, ucs2: 0xae67},
		lookupItem{cp949: 0x839a, ucs2: 0xae6a},
		lookupItem{cp949: 0x839b, ucs2: 0xae6b},
		lookupItem{cp949: 0x839c, ucs2: 0xae6d},
		lookupItem{cp949: 0x839d, ucs2: 0xae6e},
		lookupItem{cp949: 0x839e, ucs2: 0xae6f},
		lookupItem{cp949: 0x839f, ucs2: 0xae71},
		lookupItem{cp949: 0x83a0, ucs2: 0xae72},
		lookupItem{cp949: 0x83a1, ucs2: 0xae73},
		lookupItem{cp949: 0x83a2, ucs2: 0xae74},
		lookupItem{cp949: 0x83a3, ucs2: 0xae75},
		lookupItem{cp949: 0x83a4, ucs2: 0xae76},
		lookupItem{cp949: 0x83a5, ucs2: 0xae77},
		lookupItem{cp949: 0x83a6, ucs2: 0xae7a},
		lookupItem{cp949: 0x83a7, ucs2: 0xae7e},
		lookupItem{cp949: 0x83a8, ucs2: 0xae7f},
		lookupItem{cp949: 0x83a9, ucs2: 0xae80},
		lookupItem{cp949: 0x83aa, ucs2: 0xae81},
		lookupItem{cp949: 0x83ab, ucs2: 0xae82},
		lookupItem{cp949: 0x83ac, ucs2: 0xae83},
		lookupItem{cp949: 0x83ad, ucs2: 0xae86},
		lookupItem{cp949: 0x83ae, ucs2: 0xae87},
		lookupItem{cp949: 0x83af, ucs2: 0xae88},
		lookupItem{cp949: 0x83b0, ucs2: 0xae89},
		lookupItem{cp949: 0x83b1, ucs2: 0xae8a},
		lookupItem{cp949: 0x83b2, ucs2: 0xae8b},
		lookupItem{cp949: 0x83b3, ucs2: 0xae8d},
		lookupItem{cp949: 0x83b4, ucs2: 0xae8e},
		lookupItem{cp949: 0x83b5, ucs2: 0xae8f},
		lookupItem{cp949: 0x83b6, ucs2: 0xae90},
		lookupItem{cp949: 0x83b7, ucs2: 0xae91},
		lookupItem{cp949: 0x83b8, ucs2: 0xae92},
		lookupItem{cp949: 0x83b9, ucs2: 0xae93},
		lookupItem{cp949: 0x83ba, ucs2: 0xae94},
		lookupItem{cp949: 0x83bb, ucs2: 0xae95},
		lookupItem{cp949: 0x83bc, ucs2: 0xae96},
		lookupItem{cp949: 0x83bd, ucs2: 0xae97},
		lookupItem{cp949: 0x83be, ucs2: 0xae98},
		lookupItem{cp949: 0x83bf, ucs2: 0xae99},
		lookupItem{cp949: 0x83c0, ucs2: 0xae9a},
		lookupItem{cp949: 0x83c1, ucs2: 0xae9b},
		lookupItem{cp949: 0x83c2, ucs2: 0xae9c},
		lookupItem{cp949: 0x83c3, ucs2: 0xae9d},
		lookupItem{cp949: 0x83c4, ucs2: 0xae9e},
		lookupItem{cp949: 0x83c5, ucs2: 0xae9f},
		lookupItem{cp949: 0x83c6, ucs2: 0xaea0},
		lookupItem{cp949: 0x83c7, ucs2: 0xaea1},
		lookupItem{cp949: 0x83c8, ucs2: 0xaea2},
		lookupItem{cp949: 0x83c9, ucs2: 0xaea3},
		lookupItem{cp949: 0x83ca, ucs2: 0xaea4},
		lookupItem{cp949: 0x83cb, ucs2: 0xaea5},
		lookupItem{cp949: 0x83cc, ucs2: 0xaea6},
		lookupItem{cp949: 0x83cd, ucs2: 0xaea7},
		lookupItem{cp949: 0x83ce, ucs2: 0xaea8},
		lookupItem{cp949: 0x83cf, ucs2: 0xaea9},
		lookupItem{cp949: 0x83d0, ucs2: 0xaeaa},
		lookupItem{cp949: 0x83d1, ucs2: 0xaeab},
		lookupItem{cp949: 0x83d2, ucs2: 0xaeac},
		lookupItem{cp949: 0x83d3, ucs2: 0xaead},
		lookupItem{cp949: 0x83d4, ucs2: 0xaeae},
".
Definition text_cp949_lookup_from_002 : string :=
"		lookupItem{cp949: 0x83d5, ucs2: 0xaeaf},
		lookupItem{cp949: 0x83d6, ucs2: 0xaeb0},
		lookupItem{cp949: 0x83d7, ucs2: 0xaeb1},
		lookupItem{cp949: 0x83d8, ucs2: 0xaeb2},
		lookupItem{cp949: 0x83d9, ucs2: 0xaeb3},
		lookupItem{cp949: 0x83da, ucs2: 0xaeb4},
		lookupItem{cp949: 0x83db, ucs2: 0xaeb5},
		lookupItem{cp949: 0x83dc, ucs2: 0xaeb6},
		lookupItem{cp949: 0x83dd, ucs2: 0xaeb7},
		lookupItem{cp949: 0x83de, ucs2: 0xaeb8},
		lookupItem{cp949: 0x83df, ucs2: 0xaeb9},
		lookupItem{cp949: 0x83e0, ucs2: 0xaeba},
		lookupItem{cp949: 0x83e1, ucs2: 0xaebb},
		lookupItem{cp949: 0x83e2, ucs2: 0xaebf},
		lookupItem{cp949: 0x83e3, ucs2: 0xaec1},
		lookupItem{cp949: 0x83e4, ucs2: 0xaec2},
		lookupItem{cp949: 0x83e5, ucs2: 0xaec3},
		lookupItem{cp949: 0x83e6, ucs2: 0xaec5},
		lookupItem{cp949: 0x83e7, ucs2: 0xaec6},
		lookupItem{cp949: 0x83e8, ucs2: 0xaec7},
		lookupItem{cp949: 0x83e9, ucs2: 0xaec8},
		lookupItem{cp949: 0x83ea, ucs2: 0xaec9},
		lookupItem{cp949: 0x83eb, ucs2: 0xaeca},
		lookupItem{cp949: 0x83ec, ucs2: 0xaecb},
		lookupItem{cp949: 0x83ed, ucs2: 0xaece},
		lookupItem{cp949: 0x83ee, ucs2: 0xaed2},
		lookupItem{cp949: 0x83ef, ucs2: 0xaed3},
		lookupItem{cp949: 0x83f0, ucs2: 0xaed4},
		lookupItem{cp949: 0x83f1, ucs2: 0xaed5},
		lookupItem{cp949: 0x83f2, ucs2: 0xaed6},
		lookupItem{cp949: 0x83f3, ucs2: 0xaed7},
		lookupItem{cp949: 0x83f4, ucs2: 0xaeda},
		lookupItem{cp949: 0x83f5, ucs2: 0xaedb},
		lookupItem{cp949: 0x83f6, ucs2: 0xaedd},
		lookupItem{cp949: 0x83f7, ucs2: 0xaede},
		lookupItem{cp949: 0x83f8, ucs2: 0xaedf},
		lookupItem{cp949: 0x83f9, ucs2: 0xaee0},
		lookupItem{cp949: 0x83fa, ucs2: 0xaee1},
		lookupItem{cp949: 0x83fb, ucs2: 0xaee2},
		lookupItem{cp949: 0x83fc, ucs2: 0xaee3},
		lookupItem{cp949: 0x83fd, ucs2: 0xaee4},
		lookupItem{cp949: 0x83fe, ucs2: 0xaee5},
		lookupItem{cp949: 0x8441, ucs2: 0xaee6},
		lookupItem{cp949: 0x8442, ucs2: 0xaee7},
		lookupItem{cp949: 0x8443, ucs2: 0xaee9},
		lookupItem{cp949: 0x8444, ucs2: 0xaeea},
		lookupItem{cp949: 0x8445, ucs2: 0xaeec},
		lookupItem{cp949: 0x8446, ucs2: 0xaeee},
		lookupItem{cp949: 0x8447, ucs2: 0xaeef},
		lookupItem{cp949: 0x8448, ucs2: 0xaef0},
		lookupItem{cp949: 0x8449, ucs2: 0xaef1},
		lookupItem{cp949: 0x844a, ucs2: 0xaef2},
		lookupItem{cp949: 0x844b, ucs2: 0xaef3},
		lookupItem{cp949: 0x844c, ucs2: 0xaef5},
		lookupItem{cp949: 0x844d, ucs2: 0xaef6},
		lookupItem{cp949: 0x844e, ucs2: 0xaef7},
		lookupItem{cp949: 0x844f, ucs2: 0xaef9},
		lookupItem{cp949: 0x8450, ucs2: 0xaefa},
		lookupItem{cp949: 0x8451, ucs2: 0xaefb},
		lookupItem{cp949: 0x8452, ucs2: 0xaefd},
		lookupItem{cp949: 0x8453, ucs2: 0xaefe},
		lookupItem{cp949: 0x8454, ucs2: 0xaeff},
		lookupItem{cp949: 0x8455, ucs2: 0xaf00},
		lookupItem{cp949: 0x8456, ucs2: 0xaf01},
		lookupItem{cp949: 0x8457, ucs2: 0xaf02},
		lookupItem{cp949: 0x8458, ucs2: 0xaf03},
		lookupItem{cp949: 0x8459, ucs2: 0xaf04},
		lookupItem{cp949: 0x845a, ucs2: 0xaf05},
		lookupItem{cp949: 0x8461, ucs2: 0xaf06},
		lookupItem{cp949: 0x8462, ucs2: 0xaf09},
		lookupItem{cp949: 0x8463, ucs2: 0xaf0a},
		lookupItem{cp949: 0x8464, ucs2: 0xaf0b},
		lookupItem{cp949: 0x8465, ucs2: 0xaf0c},
		lookupItem{cp949: 0x8466, ucs2: 0xaf0e},
		lookupItem{cp949: 0x8467, ucs2: 0xaf0f},
		lookupItem{cp949: 0x8468, ucs2: 0xaf11},
		lookupItem{cp949: 0x8469, ucs2: 0xaf12},
		lookupItem{cp949: 0x846a, ucs2: 0xaf13},
		lookupItem{cp949: 0x846b, ucs2: 0xaf14},
		lookupItem{cp949: 0x846c, ucs2: 0xaf15},
		lookupItem{cp949: 0x846d, ucs2: 0xaf16},
		lookupItem{cp949: 0x846e, ucs2: 0xaf17},
		lookupItem{cp949: 0x846f, ucs2: 0xaf18},
		lookupItem{cp949: 0x8470, ucs2: 0xaf19},
		lookupItem{cp949: 0x8471, ucs2: 0xaf1a},
		lookupItem{cp949: 0x8472, ucs2: 0xaf1b},
		lookupItem{cp949: 0x8473, ucs2: 0xaf1c},
		lookupItem{cp949: 0x8474, ucs2: 0xaf1d},
		lookupItem{cp949: 0x8475, ucs2: 0xaf1e},
		lookupItem{cp949: 0x8476, ucs2: 0xaf1f},
		lookupItem{cp949: 0x8477, ucs2: 0xaf20},
		lookupItem{cp949: 0x8478, ucs2: 0xaf21},
		lookupItem{cp949: 0x8479, ucs2: 0xaf22},
		lookupItem{cp949: 0x847a, ucs2: 0xaf23},
		lookupItem{cp949: 0x8481, ucs2: 0xaf24},
		lookupItem{cp949: 0x8482, ucs2: 0xaf25},
		lookupItem{cp949: 0x8483, ucs2: 0xaf26},
		lookupItem{cp949: 0x8484, ucs2: 0xaf27},
		lookupItem{cp949: 0x8485, ucs2: 0xaf28},
		lookupItem{cp949: 0x8486, ucs2: 0xaf29},
		lookupItem{cp949: 0x8487, ucs2: 0xaf2a},
		lookupItem{cp949: 0x8488, ucs2: 0xaf2b},
		lookupItem{cp949: 0x8489, ucs2: 0xaf2e},
		lookupItem{cp949: 0x848a, ucs2: 0xaf2f},
		lookupItem{cp949: 0x848b, ucs2: 0xaf31},
		lookupItem{cp949: 0x848c, ucs2: 0xaf33},
		lookupItem{cp949: 0x848d, ucs2: 0xaf35},
		lookupItem{cp949: 0x848e, ucs2: 0xaf36},
		lookupItem{cp949: 0x848f, ucs2: 0xaf37},
		lookupItem{cp949: 0x8490, ucs2: 0xaf38},
		lookupItem{cp949: 0x8491, ucs2: 0xaf39},
		lookupItem{cp949: 0x8492, ucs2: 0xaf3a},
		lookupItem{cp949: 0x8493, ucs2: 0xaf3b},
		lookupItem{cp949: 0x8494, ucs2: 0xaf3e},
		lookupItem{cp949: 0x8495, ucs2: 0xaf40},
		lookupItem{cp949: 0x8496, ucs2: 0xaf44},
		lookupItem{cp949: 0x8497, ucs2: 0xaf45},
		lookupItem{cp949: 0x8498, ucs2: 0xaf46},
		lookupItem{cp949: 0x8499, ucs2: 0xaf47},
		lookupItem{cp949: 0x849a, ucs2: 0xaf4a},
		lookupItem{cp949: 0x849b, ucs2: 0xaf4b},
		lookupItem{cp949: 0x849c, ucs2: 0xaf4c},
		lookupItem{cp949: 0x849d, ucs2: 0xaf4d},
		lookupItem{cp949: 0x849e, ucs2: 0xaf4e},
		lookupItem{cp949: 0x849f, ucs2: 0xaf4f},
		lookupItem{cp949: 0x84a0, ucs2: 0xaf51},
		lookupItem{cp949: 0x84a1, ucs2: 0xaf52},
		lookupItem{cp949: 0x84a2, ucs2: 0xaf53},
		lookupItem{cp949: 0x84a3, ucs2: 0xaf54},
		lookupItem{cp949: 0x84a4, ucs2: 0xaf55},
		lookupItem{cp949: 0x84a5, ucs2: 0xaf56},
		lookupItem{cp949: 0x84a6, ucs2: 0xaf57},
		lookupItem{cp949: 0x84a7, ucs2: 0xaf58},
		lookupItem{cp949: 0x84a8, ucs2: 0xaf59},
		lookupItem{cp949: 0x84a9, ucs2: 0xaf5a},
		lookupItem{cp949: 0x84aa, ucs2: 0xaf5b},
		lookupItem{cp949: 0x84ab, ucs2: 0xaf5e},
		lookupItem{cp949: 0x84ac, ucs2: 0xaf5f},
		lookupItem{cp949: 0x84ad, ucs2: 0xaf60},
		lookupItem{cp949: 0x84ae, ucs2: 0xaf61},
		lookupItem{cp949: 0x84af, ucs2: 0xaf62},
		lookupItem{cp949: 0x84b0, ucs2: 0xaf63},
		lookupItem{cp949: 0x84b1, ucs2: 0xaf66},
		lookupItem{cp949: 0x84b2, ucs2: 0xaf67},
		lookupItem{cp949: 0x84b3, ucs2: 0xaf68},
		lookupItem{cp949: 0x84b4, ucs2: 0xaf69},
		lookupItem{cp949: 0x84b5, ucs2: 0xaf6a},
		lookupItem{cp949: 0x84b6, ucs2: 0xaf6b},
		lookupItem{cp949: 0x84b7, ucs2: 0xaf6c},
		lookupItem{cp949: 0x84b8, ucs2: 0xaf6d},
		lookupItem{cp949: 0x84b9, ucs2: 0xaf6e},
		lookupItem{cp949: 0x84ba, ucs2: 0xaf6f},
		lookupItem{cp949: 0x84bb, ucs2: 0xaf70},
		lookupItem{cp949: 0x84bc, ucs2: 0xaf71},
		lookupItem{cp949: 0x84bd, ucs2: 0xaf72},
		lookupItem{cp949: 0x84be, ucs2: 0xaf73},
		lookupItem{cp949: 0x84bf, ucs2: 0xaf74},
		lookupItem{cp949: 0x84c0, ucs2: 0xaf75},
		lookupItem{cp949: 0x84c1, ucs2: 0xaf76},
		lookupItem{cp949: 0x84c2, ucs2: 0xaf77},
		lookupItem{cp949: 0x84c3, ucs2: 0xaf78},
		lookupItem{cp949: 0x84c4, ucs2: 0xaf7a},
		lookupItem{cp949: 0x84c5, ucs2: 0xaf7b},
		lookupItem{cp949: 0x84c6, ucs2: 0xaf7c},
		lookupItem{cp949: 0x84c7, ucs2: 0xaf7d},
		lookupItem{cp949: 0x84c8, ucs2: 0xaf7e},
		lookupItem{cp949: 0x84c9, ucs2: 0xaf7f},
		lookupItem{cp949: 0x84ca, ucs2: 0xaf81},
		lookupItem{cp949: 0x84cb, ucs2: 0xaf82},
		lookupItem{cp949: 0x84cc, ucs2: 0xaf83},
		lookupItem{cp949: 0x84cd, ucs2: 0xaf85},
		lookupItem{cp949: 0x84ce, ucs2: 0xaf86},
		lookupItem{cp949: 0x84cf, ucs2: 0xaf87},
		lookupItem{cp949: 0x84d0, ucs2: 0xaf89},
		lookupItem{cp949: 0x84d1, ucs2: 0xaf8a},
		lookupItem{cp949: 0x84d2, ucs2: 0xaf8b},
		lookupItem{cp949: 0x84d3, ucs2: 0xaf8c},
		lookupItem{cp949: 0x84d4, ucs2: 0xaf8d},
		lookupItem{cp949: 0x84d5, ucs2: 0xaf8e},
		lookupItem{cp949: 0x84d6, ucs2: 0xaf8f},
		lookupItem{cp949: 0x84d7, ucs2: 0xaf92},
		lookupItem{cp949: 0x84d8, ucs2: 0xaf93},
		lookupItem{cp949: 0x84d9, ucs2: 0xaf94},
		lookupItem{cp949: 0x84da, ucs2: 0xaf96},
		lookupItem{cp949: 0x84db, ucs2: 0xaf97},
		lookupItem{cp949: 0x84dc, ucs2: 0xaf98},
		lookupItem{cp949: 0x84dd, ucs2: 0xaf99},
		lookupItem{cp949: 0x84de, ucs2: 0xaf9a},
		lookupItem{cp949: 0x84df, ucs2: 0xaf9b},
		lookupItem{cp949: 0x84e0, ucs2: 0xaf9d},
		lookupItem{cp949: 0x84e1, ucs2: 0xaf9e},
		lookupItem{cp949: 0x84e2, ucs2: 0xaf9f},
		lookupItem{cp949: 0x84e3, ucs2: 0xafa0},
		lookupItem{cp949: 0x84e4, ucs2: 0xafa1},
		lookupItem{cp949: 0x84e5, ucs2: 0xafa2},
		lookupItem{cp949: 0x84e6, ucs2: 0xafa3},
		lookupItem{cp949: 0x84e7, ucs2: 0xafa4},
		lookupItem{cp949: 0x84e8, ucs2: 0xafa5},
		lookupItem{cp949: 0x84e9, ucs2: 0xafa6},
		lookupItem{cp949: 0x84ea, ucs2: 0xafa7},
		lookupItem{cp949: 0x84eb, ucs2: 0xafa8},
		lookupItem{cp949: 0x84ec, ucs2: 0xafa9},
		lookupItem{cp949: 0x84ed, ucs2: 0xafaa},
		lookupItem{cp949: 0x84ee, ucs2: 0xafab},
		lookupItem{cp949: 0x84ef, ucs2: 0xafac},
		lookupItem{cp949: 0x84f0, ucs2: 0xafad},
		lookupItem{cp949: 0x84f1, ucs2: 0xafae},
		lookupItem{cp949: 0x84f2, ucs2: 0xafaf},
		lookupItem{cp949: 0x84f3, ucs2: 0xafb0},
		lookupItem{cp949: 0x84f4, ucs2: 0xafb1},
		lookupItem{cp949: 0x84f5, ucs2: 0xafb2},
		lookupItem{cp949: 0x84f6, ucs2: 0xafb3},
		lookupItem{cp949: 0x84f7, ucs2: 0xafb4},
		lookupItem{cp949: 0x84f8, ucs2: 0xafb5},
		lookupItem{cp949: 0x84f9, ucs2: 0xafb6},
		lookupItem{cp949: 0x84fa, ucs2: 0xafb7},
		lookupItem{cp949: 0x84fb, ucs2: 0xafba},
		lookupItem{cp949: 0x84fc, ucs2: 0xafbb},
		lookupItem{cp949: 0x84fd, ucs2: 0xafbd},
		lookupItem{cp949: 0x84fe, ucs2: 0xafbe},
		lookupItem{cp949: 0x8541, ucs2: 0xafbf},
		lookupItem{cp949: 0x8542, ucs2: 0xafc1},
		lookupItem{cp949: 0x8543, ucs2: 0xafc2},
		lookupItem{cp949: 0x8544, ucs2: 0xafc3},
		lookupItem{cp949: 0x8545, ucs2: 0xafc4},
		lookupItem{cp949: 0x8546, ucs2: 0xafc5},
		lookupItem{cp949: 0x8547, ucs2: 0xafc6},
		lookupItem{cp949: 0x8548, ucs2: 0xafca},
		lookupItem{cp949: 0x8549, ucs2: 0xafcc},
		lookupItem{cp949: 0x854a, ucs2: 0xafcf},
		lookupItem{cp949: 0x854b, ucs2: 0xafd0},
		lookupItem{cp949: 0x854c, ucs2: 0xafd1},
		lookupItem{cp949: 0x854d, ucs2: 0xafd2},
		lookupItem{cp949: 0x854e, ucs2: 0xafd3},
		lookupItem{cp949: 0x854f, ucs2: 0xafd5},
		lookupItem{cp949: 0x8550, ucs2: 0xafd6},
		lookupItem{cp949: 0x8551, ucs2: 0xafd7},
		lookupItem{cp949: 0x8552, ucs2: 0xafd8},
		lookupItem{cp949: 0x8553, ucs2: 0xafd9},
		lookupItem{cp949: 0x8554, ucs2: 0xafda},
		lookupItem{cp949: 0x8555, ucs2: 0xafdb},
		lookupItem{cp949: 0x8556, ucs2: 0xafdd},
		lookupItem{cp949: 0x8557, ucs2: 0xafde},
		lookupItem{cp949: 0x8558, ucs2: 0xafdf},
		lookupItem{cp949: 0x8559, ucs2: 0xafe0},
		lookupItem{cp949: 0x855a, ucs2: 0xafe1},
		lookupItem{cp949: 0x8561, ucs2: 0xafe2},
		lookupItem{cp949: 0x8562, ucs2: 0xafe3},
		lookupItem{cp949: 0x8563, ucs2: 0xafe4},
		lookupItem{cp949: 0x8564, ucs2: 0xafe5},
".
Definition text_cp949_lookup_from_003 : string :=
"		lookupItem{cp949: 0x8565, ucs2: 0xafe6},
		lookupItem{cp949: 0x8566, ucs2: 0xafe7},
		lookupItem{cp949: 0x8567, ucs2: 0xafea},
		lookupItem{cp949: 0x8568, ucs2: 0xafeb},
		lookupItem{cp949: 0x8569, ucs2: 0xafec},
		lookupItem{cp949: 0x856a, ucs2: 0xafed},
		lookupItem{cp949: 0x856b, ucs2: 0xafee},
		lookupItem{cp949: 0x856c, ucs2: 0xafef},
		lookupItem{cp949: 0x856d, ucs2: 0xaff2},
		lookupItem{cp949: 0x856e, ucs2: 0xaff3},
		lookupItem{cp949: 0x856f, ucs2: 0xaff5},
		lookupItem{cp949: 0x8570, ucs2: 0xaff6},
		lookupItem{cp949: 0x8571, ucs2: 0xaff7},
		lookupItem{cp949: 0x8572, ucs2: 0xaff9},
		lookupItem{cp949: 0x8573, ucs2: 0xaffa},
		lookupItem{cp949: 0x8574, ucs2: 0xaffb},
		lookupItem{cp949: 0x8575, ucs2: 0xaffc},
		lookupItem{cp949: 0x8576, ucs2: 0xaffd},
		lookupItem{cp949: 0x8577, ucs2: 0xaffe},
		lookupItem{cp949: 0x8578, ucs2: 0xafff},
		lookupItem{cp949: 0x8579, ucs2: 0xb002},
		lookupItem{cp949: 0x857a, ucs2: 0xb003},
		lookupItem{cp949: 0x8581, ucs2: 0xb005},
		lookupItem{cp949: 0x8582, ucs2: 0xb006},
		lookupItem{cp949: 0x8583, ucs2: 0xb007},
		lookupItem{cp949: 0x8584, ucs2: 0xb008},
		lookupItem{cp949: 0x8585, ucs2: 0xb009},
		lookupItem{cp949: 0x8586, ucs2: 0xb00a},
		lookupItem{cp949: 0x8587, ucs2: 0xb00b},
		lookupItem{cp949: 0x8588, ucs2: 0xb00d},
		lookupItem{cp949: 0x8589, ucs2: 0xb00e},
		lookupItem{cp949: 0x858a, ucs2: 0xb00f},
		lookupItem{cp949: 0x858b, ucs2: 0xb011},
		lookupItem{cp949: 0x858c, ucs2: 0xb012},
		lookupItem{cp949: 0x858d, ucs2: 0xb013},
		lookupItem{cp949: 0x858e, ucs2: 0xb015},
		lookupItem{cp949: 0x858f, ucs2: 0xb016},
		lookupItem{cp949: 0x8590, ucs2: 0xb017},
		lookupItem{cp949: 0x8591, ucs2: 0xb018},
		lookupItem{cp949: 0x8592, ucs2: 0xb019},
		lookupItem{cp949: 0x8593, ucs2: 0xb01a},
		lookupItem{cp949: 0x8594, ucs2: 0xb01b},
		lookupItem{cp949: 0x8595, ucs2: 0xb01e},
		lookupItem{cp949: 0x8596, ucs2: 0xb01f},
		lookupItem{cp949: 0x8597, ucs2: 0xb020},
		lookupItem{cp949: 0x8598, ucs2: 0xb021},
		lookupItem{cp949: 0x8599, ucs2: 0xb022},
		lookupItem{cp949: 0x859a, ucs2: 0xb023},
		lookupItem{cp949: 0x859b, ucs2: 0xb024},
		lookupItem{cp949: 0x859c, ucs2: 0xb025},
		lookupItem{cp949: 0x859d, ucs2: 0xb026},
		lookupItem{cp949: 0x859e, ucs2: 0xb027},
		lookupItem{cp949: 0x859f, ucs2: 0xb029},
		lookupItem{cp949: 0x85a0, ucs2: 0xb02a},
		lookupItem{cp949: 0x85a1, ucs2: 0xb02b},
		lookupItem{cp949: 0x85a2, ucs2: 0xb02c},
		lookupItem{cp949: 0x85a3, ucs2: 0xb02d},
		lookupItem{cp949: 0x85a4, ucs2: 0xb02e},
		lookupItem{cp949: 0x85a5, ucs2: 0xb02f},
		lookupItem{cp949: 0x85a6, ucs2: 0xb030},
		lookupItem{cp949: 0x85a7, ucs2: 0xb031},
		lookupItem{cp949: 0x85a8, ucs2: 0xb032},
		lookupItem{cp949: 0x85a9, ucs2: 0xb033},
		lookupItem{cp949: 0x85aa, ucs2: 0xb034},
		lookupItem{cp949: 0x85ab, ucs2: 0xb035},
		lookupItem{cp949: 0x85ac, ucs2: 0xb036},
		lookupItem{cp949: 0x85ad, ucs2: 0xb037},
		lookupItem{cp949: 0x85ae, ucs2: 0xb038},
		lookupItem{cp949: 0x85af, ucs2: 0xb039},
		lookupItem{cp949: 0x85b0, ucs2: 0xb03a},
		lookupItem{cp949: 0x85b1, ucs2: 0xb03b},
		lookupItem{cp949: 0x85b2, ucs2: 0xb03c},
		lookupItem{cp949: 0x85b3, ucs2: 0xb03d},
		lookupItem{cp949: 0x85b4, ucs2: 0xb03e},
		lookupItem{cp949: 0x85b5, ucs2: 0xb03f},
		lookupItem{cp949: 0x85b6, ucs2: 0xb040},
		lookupItem{cp949: 0x85b7, ucs2: 0xb041},
		lookupItem{cp949: 0x85b8, ucs2: 0xb042},
		lookupItem{cp949: 0x85b9, ucs2: 0xb043},
		lookupItem{cp949: 0x85ba, ucs2: 0xb046},
		lookupItem{cp949: 0x85bb, ucs2: 0xb047},
		lookupItem{cp949: 0x85bc, ucs2: 0xb049},
		lookupItem{cp949: 0x85bd, ucs2: 0xb04b},
		lookupItem{cp949: 0x85be, ucs2: 0xb04d},
		lookupItem{cp949: 0x85bf, ucs2: 0xb04f},
		lookupItem{cp949: 0x85c0, ucs2: 0xb050},
		lookupItem{cp949: 0x85c1, ucs2: 0xb051},
		lookupItem{cp949: 0x85c2, ucs2: 0xb052},
		lookupItem{cp949: 0x85c3, ucs2: 0xb056},
		lookupItem{cp949: 0x85c4, ucs2: 0xb058},
		lookupItem{cp949: 0x85c5, ucs2: 0xb05a},
		lookupItem{cp949: 0x85c6, ucs2: 0xb05b},
		lookupItem{cp949: 0x85c7, ucs2: 0xb05c},
		lookupItem{cp949: 0x85c8, ucs2: 0xb05e},
		lookupItem{cp949: 0x85c9, ucs2: 0xb05f},
		lookupItem{cp949: 0x85ca, ucs2: 0xb060},
		lookupItem{cp949: 0x85cb, ucs2: 0xb061},
		lookupItem{cp949: 0x85cc, ucs2: 0xb062},
		lookupItem{cp949: 0x85cd, ucs2: 0xb063},
		lookupItem{cp949: 0x85ce, ucs2: 0xb064},
		lookupItem{cp949: 0x85cf, ucs2: 0xb065},
		lookupItem{cp949: 0x85d0, ucs2: 0xb066},
		lookupItem{cp949: 0x85d1, ucs2: 0xb067},
		lookupItem{cp949: 0x85d2, ucs2: 0xb068},
		lookupItem{cp949: 0x85d3, ucs2: 0xb069},
		lookupItem{cp949: 0x85d4, ucs2: 0xb06a},
		lookupItem{cp949: 0x85d5, ucs2: 0xb06b},
		lookupItem{cp949: 0x85d6, ucs2: 0xb06c},
		lookupItem{cp949: 0x85d7, ucs2: 0xb06d},
		lookupItem{cp949: 0x85d8, ucs2: 0xb06e},
		lookupItem{cp949: 0x85d9, ucs2: 0xb06f},
		lookupItem{cp949: 0x85da, ucs2: 0xb070},
		lookupItem{cp949: 0x85db, ucs2: 0xb071},
		lookupItem{cp949: 0x85dc, ucs2: 0xb072},
		lookupItem{cp949: 0x85dd, ucs2: 0xb073},
		lookupItem{cp949: 0x85de, ucs2: 0xb074},
		lookupItem{cp949: 0x85df, ucs2: 0xb075},
		lookupItem{cp949: 0x85e0, ucs2: 0xb076},
		lookupItem{cp949: 0x85e1, ucs2: 0xb077},
		lookupItem{cp949: 0x85e2, ucs2: 0xb078},
		lookupItem{cp949: 0x85e3, ucs2: 0xb079},
		lookupItem{cp949: 0x85e4, ucs2: 0xb07a},
		lookupItem{cp949: 0x85e5, ucs2: 0xb07b},
		lookupItem{cp949: 0x85e6, ucs2: 0xb07e},
		lookupItem{cp949: 0x85e7, ucs2: 0xb07f},
		lookupItem{cp949: 0x85e8, ucs2: 0xb081},
		lookupItem{cp949: 0x85e9, ucs2: 0xb082},
		lookupItem{cp949: 0x85ea, ucs2: 0xb083},
		lookupItem{cp949: 0x85eb, ucs2: 0xb085},
		lookupItem{cp949: 0x85ec, ucs2: 0xb086},
		lookupItem{cp949: 0x85ed, ucs2: 0xb087},
		lookupItem{cp949: 0x85ee, ucs2: 0xb088},
		lookupItem{cp949: 0x85ef, ucs2: 0xb089},
		lookupItem{cp949: 0x85f0, ucs2: 0xb08a},
		lookupItem{cp949: 0x85f1, ucs2: 0xb08b},
		lookupItem{cp949: 0x85f2, ucs2: 0xb08e},
		lookupItem{cp949: 0x85f3, ucs2: 0xb090},
		lookupItem{cp949: 0x85f4, ucs2: 0xb092},
		lookupItem{cp949: 0x85f5, ucs2: 0xb093},
		lookupItem{cp949: 0x85f6, ucs2: 0xb094},
		lookupItem{cp949: 0x85f7, ucs2: 0xb095},
		lookupItem{cp949: 0x85f8, ucs2: 0xb096},
		lookupItem{cp949: 0x85f9, ucs2: 0xb097},
		lookupItem{cp949: 0x85fa, ucs2: 0xb09b},
		lookupItem{cp949: 0x85fb, ucs2: 0xb09d},
		lookupItem{cp949: 0x85fc, ucs2: 0xb09e},
		lookupItem{cp949: 0x85fd, ucs2: 0xb0a3},
		lookupItem{cp949: 0x85fe, ucs2: 0xb0a4},
		lookupItem{cp949: 0x8641, ucs2: 0xb0a5},
		lookupItem{cp949: 0x8642, ucs2: 0xb0a6},
		lookupItem{cp949: 0x8643, ucs2: 0xb0a7},
		lookupItem{cp949: 0x8644, ucs2: 0xb0aa},
		lookupItem{cp949: 0x8645, ucs2: 0xb0b0},
		lookupItem{cp949: 0x8646, ucs2: 0xb0b2},
		lookupItem{cp949: 0x8647, ucs2: 0xb0b6},
		lookupItem{cp949: 0x8648, ucs2: 0xb0b7},
		lookupItem{cp949: 0x8649, ucs2: 0xb0b9},
		lookupItem{cp949: 0x864a, ucs2: 0xb0ba},
		lookupItem{cp949: 0x864b, ucs2: 0xb0bb},
		lookupItem{cp949: 0x864c, ucs2: 0xb0bd},
		lookupItem{cp949: 0x864d, ucs2: 0xb0be},
		lookupItem{cp949: 0x864e, ucs2: 0xb0bf},
		lookupItem{cp949: 0x864f, ucs2: 0xb0c0},
		lookupItem{cp949: 0x8650, ucs2: 0xb0c1},
		lookupItem{cp949: 0x8651, ucs2: 0xb0c2},
		lookupItem{cp949: 0x8652, ucs2: 0xb0c3},
		lookupItem{cp949: 0x8653, ucs2: 0xb0c6},
		lookupItem{cp949: 0x8654, ucs2: 0xb0ca},
		lookupItem{cp949: 0x8655, ucs2: 0xb0cb},
		lookupItem{cp949: 0x8656, ucs2: 0xb0cc},
		lookupItem{cp949: 0x8657, ucs2: 0xb0cd},
		lookupItem{cp949: 0x8658, ucs2: 0xb0ce},
		lookupItem{cp949: 0x8659, ucs2: 0xb0cf},
		lookupItem{cp949: 0x865a, ucs2: 0xb0d2},
		lookupItem{cp949: 0x8661, ucs2: 0xb0d3},
		lookupItem{cp949: 0x8662, ucs2: 0xb0d5},
		lookupItem{cp949: 0x8663, ucs2: 0xb0d6},
		lookupItem{cp949: 0x8664, ucs2: 0xb0d7},
		lookupItem{cp949: 0x8665, ucs2: 0xb0d9},
		lookupItem{cp949: 0x8666, ucs2: 0xb0da},
		lookupItem{cp949: 0x8667, ucs2: 0xb0db},
		lookupItem{cp949: 0x8668, ucs2: 0xb0dc},
		lookupItem{cp949: 0x8669, ucs2: 0xb0dd},
		lookupItem{cp949: 0x866a, ucs2: 0xb0de},
		lookupItem{cp949: 0x866b, ucs2: 0xb0df},
		lookupItem{cp949: 0x866c, ucs2: 0xb0e1},
		lookupItem{cp949: 0x866d, ucs2: 0xb0e2},
		lookupItem{cp949: 0x866e, ucs2: 0xb0e3},
		lookupItem{cp949: 0x866f, ucs2: 0xb0e4},
		lookupItem{cp949: 0x8670, ucs2: 0xb0e6},
		lookupItem{cp949: 0x8671, ucs2: 0xb0e7},
		lookupItem{cp949: 0x8672, ucs2: 0xb0e8},
		lookupItem{cp949: 0x8673, ucs2: 0xb0e9},
		lookupItem{cp949: 0x8674, ucs2: 0xb0ea},
		lookupItem{cp949: 0x8675, ucs2: 0xb0eb},
		lookupItem{cp949: 0x8676, ucs2: 0xb0ec},
		lookupItem{cp949: 0x8677, ucs2: 0xb0ed},
		lookupItem{cp949: 0x8678, ucs2: 0xb0ee},
		lookupItem{cp949: 0x8679, ucs2: 0xb0ef},
		lookupItem{cp949: 0x867a, ucs2: 0xb0f0},
		lookupItem{cp949: 0x8681, ucs2: 0xb0f1},
		lookupItem{cp949: 0x8682, ucs2: 0xb0f2},
		lookupItem{cp949: 0x8683, ucs2: 0xb0f3},
		lookupItem{cp949: 0x8684, ucs2: 0xb0f4},
		lookupItem{cp949: 0x8685, ucs2: 0xb0f5},
		lookupItem{cp949: 0x8686, ucs2: 0xb0f6},
		lookupItem{cp949: 0x8687, ucs2: 0xb0f7},
		lookupItem{cp949: 0x8688, ucs2: 0xb0f8},
		lookupItem{cp949: 0x8689, ucs2: 0xb0f9},
		lookupItem{cp949: 0x868a, ucs2: 0xb0fa},
		lookupItem{cp949: 0x868b, ucs2: 0xb0fb},
		lookupItem{cp949: 0x868c, ucs2: 0xb0fc},
		lookupItem{cp949: 0x868d, ucs2: 0xb0fd},
		lookupItem{cp949: 0x868e, ucs2: 0xb0fe},
		lookupItem{cp949: 0x868f, ucs2: 0xb0ff},
		lookupItem{cp949: 0x8690, ucs2: 0xb100},
		lookupItem{cp949: 0x8691, ucs2: 0xb101},
		lookupItem{cp949: 0x8692, ucs2: 0xb102},
		lookupItem{cp949: 0x8693, ucs2: 0xb103},
		lookupItem{cp949: 0x8694, ucs2: 0xb104},
		lookupItem{cp949: 0x8695, ucs2: 0xb105},
		lookupItem{cp949: 0x8696, ucs2: 0xb106},
		lookupItem{cp949: 0x8697, ucs2: 0xb107},
		lookupItem{cp949: 0x8698, ucs2: 0xb10a},
		lookupItem{cp949: 0x8699, ucs2: 0xb10d},
		lookupItem{cp949: 0x869a, ucs2: 0xb10e},
		lookupItem{cp949: 0x869b, ucs2: 0xb10f},
		lookupItem{cp949: 0x869c, ucs2: 0xb111},
		lookupItem{cp949: 0x869d, ucs2: 0xb114},
		lookupItem{cp949: 0x869e, ucs2: 0xb115},
		lookupItem{cp949: 0x869f, ucs2: 0xb116},
		lookupItem{cp949: 0x86a0, ucs2: 0xb117},
		lookupItem{cp949: 0x86a1, ucs2: 0xb11a},
		lookupItem{cp949: 0x86a2, ucs2: 0xb11e},
		lookupItem{cp949: 0x86a3, ucs2: 0xb11f},
		lookupItem{cp949: 0x86a4, ucs2: 0xb120},
		lookupItem{cp949: 0x86a5, ucs2: 0xb121},
		lookupItem{cp949: 0x86a6, ucs2: 0xb122},
		lookupItem{cp949: 0x86a7, ucs2: 0xb126},
		lookupItem{cp949: 0x86a8, ucs2: 0xb127},
		lookupItem{cp949: 0x86a9, ucs2: 0xb129},
		lookupItem{cp949: 0x86aa, ucs2: 0xb12a},
		lookupItem{cp949: 0x86ab, ucs2: 0xb12b},
		lookupItem{cp949: 0x86ac, ucs2: 0xb12d},
		lookupItem{cp949: 0x86ad, ucs2: 0xb12e},
		lookupItem{cp949: 0x86ae, ucs2: 0xb12f},
		lookupItem{cp949: 0x86af, ucs2: 0xb130},
		lookupItem{cp949: 0x86b0, ucs2: 0xb131},
		lookupItem{cp949: 0x86b1, ucs2: 0xb132},
		lookupItem{cp949: 0x86b2, ucs2: 0xb133},
".
Definition text_cp949_lookup_from_004 : string :=
"		lookupItem{cp949: 0x86b3, ucs2: 0xb136},
		lookupItem{cp949: 0x86b4, ucs2: 0xb13a},
		lookupItem{cp949: 0x86b5, ucs2: 0xb13b},
		lookupItem{cp949: 0x86b6, ucs2: 0xb13c},
		lookupItem{cp949: 0x86b7, ucs2: 0xb13d},
		lookupItem{cp949: 0x86b8, ucs2: 0xb13e},
		lookupItem{cp949: 0x86b9, ucs2: 0xb13f},
		lookupItem{cp949: 0x86ba, ucs2: 0xb142},
		lookupItem{cp949: 0x86bb, ucs2: 0xb143},
		lookupItem{cp949: 0x86bc, ucs2: 0xb145},
		lookupItem{cp949: 0x86bd, ucs2: 0xb146},
		lookupItem{cp949: 0x86be, ucs2: 0xb147},
		lookupItem{cp949: 0x86bf, ucs2: 0xb149},
		lookupItem{cp949: 0x86c0, ucs2: 0xb14a},
		lookupItem{cp949: 0x86c1, ucs2: 0xb14b},
		lookupItem{cp949: 0x86c2, ucs2: 0xb14c},
		lookupItem{cp949: 0x86c3, ucs2: 0xb14d},
		lookupItem{cp949: 0x86c4, ucs2: 0xb14e},
		lookupItem{cp949: 0x86c5, ucs2: 0xb14f},
		lookupItem{cp949: 0x86c6, ucs2: 0xb152},
		lookupItem{cp949: 0x86c7, ucs2: 0xb153},
		lookupItem{cp949: 0x86c8, ucs2: 0xb156},
		lookupItem{cp949: 0x86c9, ucs2: 0xb157},
		lookupItem{cp949: 0x86ca, ucs2: 0xb159},
		lookupItem{cp949: 0x86cb, ucs2: 0xb15a},
		lookupItem{cp949: 0x86cc, ucs2: 0xb15b},
		lookupItem{cp949: 0x86cd, ucs2: 0xb15d},
		lookupItem{cp949: 0x86ce, ucs2: 0xb15e},
		lookupItem{cp949: 0x86cf, ucs2: 0xb15f},
		lookupItem{cp949: 0x86d0, ucs2: 0xb161},
		lookupItem{cp949: 0x86d1, ucs2: 0xb162},
		lookupItem{cp949: 0x86d2, ucs2: 0xb163},
		lookupItem{cp949: 0x86d3, ucs2: 0xb164},
		lookupItem{cp949: 0x86d4, ucs2: 0xb165},
		lookupItem{cp949: 0x86d5, ucs2: 0xb166},
		lookupItem{cp949: 0x86d6, ucs2: 0xb167},
		lookupItem{cp949: 0x86d7, ucs2: 0xb168},
		lookupItem{cp949: 0x86d8, ucs2: 0xb169},
		lookupItem{cp949: 0x86d9, ucs2: 0xb16a},
		lookupItem{cp949: 0x86da, ucs2: 0xb16b},
		lookupItem{cp949: 0x86db, ucs2: 0xb16c},
		lookupItem{cp949: 0x86dc, ucs2: 0xb16d},
		lookupItem{cp949: 0x86dd, ucs2: 0xb16e},
		lookupItem{cp949: 0x86de, ucs2: 0xb16f},
		lookupItem{cp949: 0x86df, ucs2: 0xb170},
		lookupItem{cp949: 0x86e0, ucs2: 0xb171},
		lookupItem{cp949: 0x86e1, ucs2: 0xb172},
		lookupItem{cp949: 0x86e2, ucs2: 0xb173},
		lookupItem{cp949: 0x86e3, ucs2: 0xb174},
		lookupItem{cp949: 0x86e4, ucs2: 0xb175},
		lookupItem{cp949: 0x86e5, ucs2: 0xb176},
		lookupItem{cp949: 0x86e6, ucs2: 0xb177},
		lookupItem{cp949: 0x86e7, ucs2: 0xb17a},
		lookupItem{cp949: 0x86e8, ucs2: 0xb17b},
		lookupItem{cp949: 0x86e9, ucs2: 0xb17d},
		lookupItem{cp949: 0x86ea, ucs2: 0xb17e},
		lookupItem{cp949: 0x86eb, ucs2: 0xb17f},
		lookupItem{cp949: 0x86ec, ucs2: 0xb181},
		lookupItem{cp949: 0x86ed, ucs2: 0xb183},
		lookupItem{cp949: 0x86ee, ucs2: 0xb184},
		lookupItem{cp949: 0x86ef, ucs2: 0xb185},
		lookupItem{cp949: 0x86f0, ucs2: 0xb186},
		lookupItem{cp949: 0x86f1, ucs2: 0xb187},
		lookupItem{cp949: 0x86f2, ucs2: 0xb18a},
		lookupItem{cp949: 0x86f3, ucs2: 0xb18c},
		lookupItem{cp949: 0x86f4, ucs2: 0xb18e},
		lookupItem{cp949: 0x86f5, ucs2: 0xb18f},
		lookupItem{cp949: 0x86f6, ucs2: 0xb190},
		lookupItem{cp949: 0x86f7, ucs2: 0xb191},
		lookupItem{cp949: 0x86f8, ucs2: 0xb195},
		lookupItem{cp949: 0x86f9, ucs2: 0xb196},
		lookupItem{cp949: 0x86fa, ucs2: 0xb197},
		lookupItem{cp949: 0x86fb, ucs2: 0xb199},
		lookupItem{cp949: 0x86fc, ucs2: 0xb19a},
		lookupItem{cp949: 0x86fd, ucs2: 0xb19b},
		lookupItem{cp949: 0x86fe, ucs2: 0xb19d},
		lookupItem{cp949: 0x8741, ucs2: 0xb19e},
		lookupItem{cp949: 0x8742, ucs2: 0xb19f},
		lookupItem{cp949: 0x8743, ucs2: 0xb1a0},
		lookupItem{cp949: 0x8744, ucs2: 0xb1a1},
		lookupItem{cp949: 0x8745, ucs2: 0xb1a2},
		lookupItem{cp949: 0x8746, ucs2: 0xb1a3},
		lookupItem{cp949: 0x8747, ucs2: 0xb1a4},
		lookupItem{cp949: 0x8748, ucs2: 0xb1a5},
		lookupItem{cp949: 0x8749, ucs2: 0xb1a6},
		lookupItem{cp949: 0x874a, ucs2: 0xb1a7},
		lookupItem{cp949: 0x874b, ucs2: 0xb1a9},
		lookupItem{cp949: 0x874c, ucs2: 0xb1aa},
		lookupItem{cp949: 0x874d, ucs2: 0xb1ab},
		lookupItem{cp949: 0x874e, ucs2: 0xb1ac},
		lookupItem{cp949: 0x874f, ucs2: 0xb1ad},
		lookupItem{cp949: 0x8750, ucs2: 0xb1ae},
		lookupItem{cp949: 0x8751, ucs2: 0xb1af},
		lookupItem{cp949: 0x8752, ucs2: 0xb1b0},
		lookupItem{cp949: 0x8753, ucs2: 0xb1b1},
		lookupItem{cp949: 0x8754, ucs2: 0xb1b2},
		lookupItem{cp949: 0x8755, ucs2: 0xb1b3},
		lookupItem{cp949: 0x8756, ucs2: 0xb1b4},
		lookupItem{cp949: 0x8757, ucs2: 0xb1b5},
		lookupItem{cp949: 0x8758, ucs2: 0xb1b6},
		lookupItem{cp949: 0x8759, ucs2: 0xb1b7},
		lookupItem{cp949: 0x875a, ucs2: 0xb1b8},
		lookupItem{cp949: 0x8761, ucs2: 0xb1b9},
		lookupItem{cp949: 0x8762, ucs2: 0xb1ba},
		lookupItem{cp949: 0x8763, ucs2: 0xb1bb},
		lookupItem{cp949: 0x8764, ucs2: 0xb1bc},
		lookupItem{cp949: 0x8765, ucs2: 0xb1bd},
		lookupItem{cp949: 0x8766, ucs2: 0xb1be},
		lookupItem{cp949: 0x8767, ucs2: 0xb1bf},
		lookupItem{cp949: 0x8768, ucs2: 0xb1c0},
		lookupItem{cp949: 0x8769, ucs2: 0xb1c1},
		lookupItem{cp949: 0x876a, ucs2: 0xb1c2},
		lookupItem{cp949: 0x876b, ucs2: 0xb1c3},
		lookupItem{cp949: 0x876c, ucs2: 0xb1c4},
		lookupItem{cp949: 0x876d, ucs2: 0xb1c5},
		lookupItem{cp949: 0x876e, ucs2: 0xb1c6},
		lookupItem{cp949: 0x876f, ucs2: 0xb1c7},
		lookupItem{cp949: 0x8770, ucs2: 0xb1c8},
		lookupItem{cp949: 0x8771, ucs2: 0xb1c9},
		lookupItem{cp949: 0x8772, ucs2: 0xb1ca},
		lookupItem{cp949: 0x8773, ucs2: 0xb1cb},
		lookupItem{cp949: 0x8774, ucs2: 0xb1cd},
		lookupItem{cp949: 0x8775, ucs2: 0xb1ce},
		lookupItem{cp949: 0x8776, ucs2: 0xb1cf},
		lookupItem{cp949: 0x8777, ucs2: 0xb1d1},
		lookupItem{cp949: 0x8778, ucs2: 0xb1d2},
		lookupItem{cp949: 0x8779, ucs2: 0xb1d3},
		lookupItem{cp949: 0x877a, ucs2: 0xb1d5},
		lookupItem{cp949: 0x8781, ucs2: 0xb1d6},
		lookupItem{cp949: 0x8782, ucs2: 0xb1d7},
		lookupItem{cp949: 0x8783, ucs2: 0xb1d8},
		lookupItem{cp949: 0x8784, ucs2: 0xb1d9},
		lookupItem{cp949: 0x8785, ucs2: 0xb1da},
		lookupItem{cp949: 0x8786, ucs2: 0xb1db},
		lookupItem{cp949: 0x8787, ucs2: 0xb1de},
		lookupItem{cp949: 0x8788, ucs2: 0xb1e0},
		lookupItem{cp949: 0x8789, ucs2: 0xb1e1},
		lookupItem{cp949: 0x878a, ucs2: 0xb1e2},
		lookupItem{cp949: 0x878b, ucs2: 0xb1e3},
		lookupItem{cp949: 0x878c, ucs2: 0xb1e4},
		lookupItem{cp949: 0x878d, ucs2: 0xb1e5},
		lookupItem{cp949: 0x878e, ucs2: 0xb1e6},
		lookupItem{cp949: 0x878f, ucs2: 0xb1e7},
		lookupItem{cp949: 0x8790, ucs2: 0xb1ea},
		lookupItem{cp949: 0x8791, ucs2: 0xb1eb},
		lookupItem{cp949: 0x8792, ucs2: 0xb1ed},
		lookupItem{cp949: 0x8793, ucs2: 0xb1ee},
		lookupItem{cp949: 0x8794, ucs2: 0xb1ef},
		lookupItem{cp949: 0x8795, ucs2: 0xb1f1},
		lookupItem{cp949: 0x8796, ucs2: 0xb1f2},
		lookupItem{cp949: 0x8797, ucs2: 0xb1f3},
		lookupItem{cp949: 0x8798, ucs2: 0xb1f4},
		lookupItem{cp949: 0x8799, ucs2: 0xb1f5},
		lookupItem{cp949: 0x879a, ucs2: 0xb1f6},
		lookupItem{cp949: 0x879b, ucs2: 0xb1f7},
		lookupItem{cp949: 0x879c, ucs2: 0xb1f8},
		lookupItem{cp949: 0x879d, ucs2: 0xb1fa},
		lookupItem{cp949: 0x879e, ucs2: 0xb1fc},
		lookupItem{cp949: 0x879f, ucs2: 0xb1fe},
		lookupItem{cp949: 0x87a0, ucs2: 0xb1ff},
		lookupItem{cp949: 0x87a1, ucs2: 0xb200},
		lookupItem{cp949: 0x87a2, ucs2: 0xb201},
		lookupItem{cp949: 0x87a3, ucs2: 0xb202},
		lookupItem{cp949: 0x87a4, ucs2: 0xb203},
		lookupItem{cp949: 0x87a5, ucs2: 0xb206},
		lookupItem{cp949: 0x87a6, ucs2: 0xb207},
		lookupItem{cp949: 0x87a7, ucs2: 0xb209},
		lookupItem{cp949: 0x87a8, ucs2: 0xb20a},
		lookupItem{cp949: 0x87a9, ucs2: 0xb20d},
		lookupItem{cp949: 0x87aa, ucs2: 0xb20e},
		lookupItem{cp949: 0x87ab, ucs2: 0xb20f},
		lookupItem{cp949: 0x87ac, ucs2: 0xb210},
		lookupItem{cp949: 0x87ad, ucs2: 0xb211},
		lookupItem{cp949: 0x87ae, ucs2: 0xb212},
		lookupItem{cp949: 0x87af, ucs2: 0xb213},
		lookupItem{cp949: 0x87b0, ucs2: 0xb216},
		lookupItem{cp949: 0x87b1, ucs2: 0xb218},
		lookupItem{cp949: 0x87b2, ucs2: 0xb21a},
		lookupItem{cp949: 0x87b3, ucs2: 0xb21b},
		lookupItem{cp949: 0x87b4, ucs2: 0xb21c},
		lookupItem{cp949: 0x87b5, ucs2: 0xb21d},
		lookupItem{cp949: 0x87b6, ucs2: 0xb21e},
		lookupItem{cp949: 0x87b7, ucs2: 0xb21f},
		lookupItem{cp949: 0x87b8, ucs2: 0xb221},
		lookupItem{cp949: 0x87b9, ucs2: 0xb222},
		lookupItem{cp949: 0x87ba, ucs2: 0xb223},
		lookupItem{cp949: 0x87bb, ucs2: 0xb224},
		lookupItem{cp949: 0x87bc, ucs2: 0xb225},
		lookupItem{cp949: 0x87bd, ucs2: 0xb226},
		lookupItem{cp949: 0x87be, ucs2: 0xb227},
		lookupItem{cp949: 0x87bf, ucs2: 0xb228},
		lookupItem{cp949: 0x87c0, ucs2: 0xb229},
		lookupItem{cp949: 0x87c1, ucs2: 0xb22a},
		lookupItem{cp949: 0x87c2, ucs2: 0xb22b},
		lookupItem{cp949: 0x87c3, ucs2: 0xb22c},
		lookupItem{cp949: 0x87c4, ucs2: 0xb22d},
		lookupItem{cp949: 0x87c5, ucs2: 0xb22e},
		lookupItem{cp949: 0x87c6, ucs2: 0xb22f},
		lookupItem{cp949: 0x87c7, ucs2: 0xb230},
		lookupItem{cp949: 0x87c8, ucs2: 0xb231},
		lookupItem{cp949: 0x87c9, ucs2: 0xb232},
		lookupItem{cp949: 0x87ca, ucs2: 0xb233},
		lookupItem{cp949: 0x87cb, ucs2: 0xb235},
		lookupItem{cp949: 0x87cc, ucs2: 0xb236},
		lookupItem{cp949: 0x87cd, ucs2: 0xb237},
		lookupItem{cp949: 0x87ce, ucs2: 0xb238},
		lookupItem{cp949: 0x87cf, ucs2: 0xb239},
		lookupItem{cp949: 0x87d0, ucs2: 0xb23a},
		lookupItem{cp949: 0x87d1, ucs2: 0xb23b},
		lookupItem{cp949: 0x87d2, ucs2: 0xb23d},
		lookupItem{cp949: 0x87d3, ucs2: 0xb23e},
		lookupItem{cp949: 0x87d4, ucs2: 0xb23f},
		lookupItem{cp949: 0x87d5, ucs2: 0xb240},
		lookupItem{cp949: 0x87d6, ucs2: 0xb241},
		lookupItem{cp949: 0x87d7, ucs2: 0xb242},
		lookupItem{cp949: 0x87d8, ucs2: 0xb243},
		lookupItem{cp949: 0x87d9, ucs2: 0xb244},
		lookupItem{cp949: 0x87da, ucs2: 0xb245},
		lookupItem{cp949: 0x87db, ucs2: 0xb246},
		lookupItem{cp949: 0x87dc, ucs2: 0xb247},
		lookupItem{cp949: 0x87dd, ucs2: 0xb248},
		lookupItem{cp949: 0x87de, ucs2: 0xb249},
		lookupItem{cp949: 0x87df, ucs2: 0xb24a},
		lookupItem{cp949: 0x87e0, ucs2: 0xb24b},
		lookupItem{cp949: 0x87e1, ucs2: 0xb24c},
		lookupItem{cp949: 0x87e2, ucs2: 0xb24d},
		lookupItem{cp949: 0x87e3, ucs2: 0xb24e},
		lookupItem{cp949: 0x87e4, ucs2: 0xb24f},
		lookupItem{cp949: 0x87e5, ucs2: 0xb250},
		lookupItem{cp949: 0x87e6, ucs2: 0xb251},
		lookupItem{cp949: 0x87e7, ucs2: 0xb252},
		lookupItem{cp949: 0x87e8, ucs2: 0xb253},
		lookupItem{cp949: 0x87e9, ucs2: 0xb254},
		lookupItem{cp949: 0x87ea, ucs2: 0xb255},
		lookupItem{cp949: 0x87eb, ucs2: 0xb256},
		lookupItem{cp949: 0x87ec, ucs2: 0xb257},
		lookupItem{cp949: 0x87ed, ucs2: 0xb259},
		lookupItem{cp949: 0x87ee, ucs2: 0xb25a},
		lookupItem{cp949: 0x87ef, ucs2: 0xb25b},
		lookupItem{cp949: 0x87f0, ucs2: 0xb25d},
		lookupItem{cp949: 0x87f1, ucs2: 0xb25e},
		lookupItem{cp949: 0x87f2, ucs2: 0xb25f},
		lookupItem{cp949: 0x87f3, ucs2: 0xb261},
		lookupItem{cp949: 0x87f4, ucs2: 0xb262},
		lookupItem{cp949: 0x87f5, ucs2: 0xb263},
		lookupItem{cp949: 0x87f6, ucs2: 0xb264},
		lookupItem{cp949: 0x87f7, ucs2: 0xb265},
		lookupItem{cp949: 0x87f8, ucs2: 0xb266},
		lookupItem{cp949: 0x87f9, ucs2: 0xb267},
		lookupItem{cp949: 0x87fa, ucs2: 0xb26a},
".
Definition text_cp949_lookup_from_005 : string :=
"		lookupItem{cp949: 0x87fb, ucs2: 0xb26b},
		lookupItem{cp949: 0x87fc, ucs2: 0xb26c},
		lookupItem{cp949: 0x87fd, ucs2: 0xb26d},
		lookupItem{cp949: 0x87fe, ucs2: 0xb26e},
		lookupItem{cp949: 0x8841, ucs2: 0xb26f},
		lookupItem{cp949: 0x8842, ucs2: 0xb270},
		lookupItem{cp949: 0x8843, ucs2: 0xb271},
		lookupItem{cp949: 0x8844, ucs2: 0xb272},
		lookupItem{cp949: 0x8845, ucs2: 0xb273},
		lookupItem{cp949: 0x8846, ucs2: 0xb276},
		lookupItem{cp949: 0x8847, ucs2: 0xb277},
		lookupItem{cp949: 0x8848, ucs2: 0xb278},
		lookupItem{cp949: 0x8849, ucs2: 0xb279},
		lookupItem{cp949: 0x884a, ucs2: 0xb27a},
		lookupItem{cp949: 0x884b, ucs2: 0xb27b},
		lookupItem{cp949: 0x884c, ucs2: 0xb27d},
		lookupItem{cp949: 0x884d, ucs2: 0xb27e},
		lookupItem{cp949: 0x884e, ucs2: 0xb27f},
		lookupItem{cp949: 0x884f, ucs2: 0xb280},
		lookupItem{cp949: 0x8850, ucs2: 0xb281},
		lookupItem{cp949: 0x8851, ucs2: 0xb282},
		lookupItem{cp949: 0x8852, ucs2: 0xb283},
		lookupItem{cp949: 0x8853, ucs2: 0xb286},
		lookupItem{cp949: 0x8854, ucs2: 0xb287},
		lookupItem{cp949: 0x8855, ucs2: 0xb288},
		lookupItem{cp949: 0x8856, ucs2: 0xb28a},
		lookupItem{cp949: 0x8857, ucs2: 0xb28b},
		lookupItem{cp949: 0x8858, ucs2: 0xb28c},
		lookupItem{cp949: 0x8859, ucs2: 0xb28d},
		lookupItem{cp949: 0x885a, ucs2: 0xb28e},
		lookupItem{cp949: 0x8861, ucs2: 0xb28f},
		lookupItem{cp949: 0x8862, ucs2: 0xb292},
		lookupItem{cp949: 0x8863, ucs2: 0xb293},
		lookupItem{cp949: 0x8864, ucs2: 0xb295},
		lookupItem{cp949: 0x8865, ucs2: 0xb296},
		lookupItem{cp949: 0x8866, ucs2: 0xb297},
		lookupItem{cp949: 0x8867, ucs2: 0xb29b},
		lookupItem{cp949: 0x8868, ucs2: 0xb29c},
		lookupItem{cp949: 0x8869, ucs2: 0xb29d},
		lookupItem{cp949: 0x886a, ucs2: 0xb29e},
		lookupItem{cp949: 0x886b, ucs2: 0xb29f},
		lookupItem{cp949: 0x886c, ucs2: 0xb2a2},
		lookupItem{cp949: 0x886d, ucs2: 0xb2a4},
		lookupItem{cp949: 0x886e, ucs2: 0xb2a7},
		lookupItem{cp949: 0x886f, ucs2: 0xb2a8},
		lookupItem{cp949: 0x8870, ucs2: 0xb2a9},
		lookupItem{cp949: 0x8871, ucs2: 0xb2ab},
		lookupItem{cp949: 0x8872, ucs2: 0xb2ad},
		lookupItem{cp949: 0x8873, ucs2: 0xb2ae},
		lookupItem{cp949: 0x8874, ucs2: 0xb2af},
		lookupItem{cp949: 0x8875, ucs2: 0xb2b1},
		lookupItem{cp949: 0x8876, ucs2: 0xb2b2},
		lookupItem{cp949: 0x8877, ucs2: 0xb2b3},
		lookupItem{cp949: 0x8878, ucs2: 0xb2b5},
		lookupItem{cp949: 0x8879, ucs2: 0xb2b6},
		lookupItem{cp949: 0x887a, ucs2: 0xb2b7},
		lookupItem{cp949: 0x8881, ucs2: 0xb2b8},
		lookupItem{cp949: 0x8882, ucs2: 0xb2b9},
		lookupItem{cp949: 0x8883, ucs2: 0xb2ba},
		lookupItem{cp949: 0x8884, ucs2: 0xb2bb},
		lookupItem{cp949: 0x8885, ucs2: 0xb2bc},
		lookupItem{cp949: 0x8886, ucs2: 0xb2bd},
		lookupItem{cp949: 0x8887, ucs2: 0xb2be},
		lookupItem{cp949: 0x8888, ucs2: 0xb2bf},
		lookupItem{cp949: 0x8889, ucs2: 0xb2c0},
		lookupItem{cp949: 0x888a, ucs2: 0xb2c1},
		lookupItem{cp949: 0x888b, ucs2: 0xb2c2},
		lookupItem{cp949: 0x888c, ucs2: 0xb2c3},
		lookupItem{cp949: 0x888d, ucs2: 0xb2c4},
		lookupItem{cp949: 0x888e, ucs2: 0xb2c5},
		lookupItem{cp949: 0x888f, ucs2: 0xb2c6},
		lookupItem{cp949: 0x8890, ucs2: 0xb2c7},
		lookupItem{cp949: 0x8891, ucs2: 0xb2ca},
		lookupItem{cp949: 0x8892, ucs2: 0xb2cb},
		lookupItem{cp949: 0x8893, ucs2: 0xb2cd},
		lookupItem{cp949: 0x8894, ucs2: 0xb2ce},
		lookupItem{cp949: 0x8895, ucs2: 0xb2cf},
		lookupItem{cp949: 0x8896, ucs2: 0xb2d1},
		lookupItem{cp949: 0x8897, ucs2: 0xb2d3},
		lookupItem{cp949: 0x8898, ucs2: 0xb2d4},
		lookupItem{cp949: 0x8899, ucs2: 0xb2d5},
		lookupItem{cp949: 0x889a, ucs2: 0xb2d6},
		lookupItem{cp949: 0x889b, ucs2: 0xb2d7},
		lookupItem{cp949: 0x889c, ucs2: 0xb2da},
		lookupItem{cp949: 0x889d, ucs2: 0xb2dc},
		lookupItem{cp949: 0x889e, ucs2: 0xb2de},
		lookupItem{cp949: 0x889f, ucs2: 0xb2df},
		lookupItem{cp949: 0x88a0, ucs2: 0xb2e0},
		lookupItem{cp949: 0x88a1, ucs2: 0xb2e1},
		lookupItem{cp949: 0x88a2, ucs2: 0xb2e3},
		lookupItem{cp949: 0x88a3, ucs2: 0xb2e7},
		lookupItem{cp949: 0x88a4, ucs2: 0xb2e9},
		lookupItem{cp949: 0x88a5, ucs2: 0xb2ea},
		lookupItem{cp949: 0x88a6, ucs2: 0xb2f0},
		lookupItem{cp949: 0x88a7, ucs2: 0xb2f1},
		lookupItem{cp949: 0x88a8, ucs2: 0xb2f2},
		lookupItem{cp949: 0x88a9, ucs2: 0xb2f6},
		lookupItem{cp949: 0x88aa, ucs2: 0xb2fc},
		lookupItem{cp949: 0x88ab, ucs2: 0xb2fd},
		lookupItem{cp949: 0x88ac, ucs2: 0xb2fe},
		lookupItem{cp949: 0x88ad, ucs2: 0xb302},
		lookupItem{cp949: 0x88ae, ucs2: 0xb303},
		lookupItem{cp949: 0x88af, ucs2: 0xb305},
		lookupItem{cp949: 0x88b0, ucs2: 0xb306},
		lookupItem{cp949: 0x88b1, ucs2: 0xb307},
		lookupItem{cp949: 0x88b2, ucs2: 0xb309},
		lookupItem{cp949: 0x88b3, ucs2: 0xb30a},
		lookupItem{cp949: 0x88b4, ucs2: 0xb30b},
		lookupItem{cp949: 0x88b5, ucs2: 0xb30c},
		lookupItem{cp949: 0x88b6, ucs2: 0xb30d},
		lookupItem{cp949: 0x88b7, ucs2: 0xb30e},
		lookupItem{cp949: 0x88b8, ucs2: 0xb30f},
		lookupItem{cp949: 0x88b9, ucs2: 0xb312},
		lookupItem{cp949: 0x88ba, ucs2: 0xb316},
		lookupItem{cp949: 0x88bb, ucs2: 0xb317},
		lookupItem{cp949: 0x88bc, ucs2: 0xb318},
		lookupItem{cp949: 0x88bd, ucs2: 0xb319},
		lookupItem{cp949: 0x88be, ucs2: 0xb31a},
		lookupItem{cp949: 0x88bf, ucs2: 0xb31b},
		lookupItem{cp949: 0x88c0, ucs2: 0xb31d},
		lookupItem{cp949: 0x88c1, ucs2: 0xb31e},
		lookupItem{cp949: 0x88c2, ucs2: 0xb31f},
		lookupItem{cp949: 0x88c3, ucs2: 0xb320},
		lookupItem{cp949: 0x88c4, ucs2: 0xb321},
		lookupItem{cp949: 0x88c5, ucs2: 0xb322},
		lookupItem{cp949: 0x88c6, ucs2: 0xb323},
		lookupItem{cp949: 0x88c7, ucs2: 0xb324},
		lookupItem{cp949: 0x88c8, ucs2: 0xb325},
		lookupItem{cp949: 0x88c9, ucs2: 0xb326},
		lookupItem{cp949: 0x88ca, ucs2: 0xb327},
		lookupItem{cp949: 0x88cb, ucs2: 0xb328},
		lookupItem{cp949: 0x88cc, ucs2: 0xb329},
		lookupItem{cp949: 0x88cd, ucs2: 0xb32a},
		lookupItem{cp949: 0x88ce, ucs2: 0xb32b},
		lookupItem{cp949: 0x88cf, ucs2: 0xb32c},
		lookupItem{cp949: 0x88d0, ucs2: 0xb32d},
		lookupItem{cp949: 0x88d1, ucs2: 0xb32e},
		lookupItem{cp949: 0x88d2, ucs2: 0xb32f},
		lookupItem{cp949: 0x88d3, ucs2: 0xb330},
		lookupItem{cp949: 0x88d4, ucs2: 0xb331},
		lookupItem{cp949: 0x88d5, ucs2: 0xb332},
		lookupItem{cp949: 0x88d6, ucs2: 0xb333},
		lookupItem{cp949: 0x88d7, ucs2: 0xb334},
		lookupItem{cp949: 0x88d8, ucs2: 0xb335},
		lookupItem{cp949: 0x88d9, ucs2: 0xb336},
		lookupItem{cp949: 0x88da, ucs2: 0xb337},
		lookupItem{cp949: 0x88db, ucs2: 0xb338},
		lookupItem{cp949: 0x88dc, ucs2: 0xb339},
		lookupItem{cp949: 0x88dd, ucs2: 0xb33a},
		lookupItem{cp949: 0x88de, ucs2: 0xb33b},
		lookupItem{cp949: 0x88df, ucs2: 0xb33c},
		lookupItem{cp949: 0x88e0, ucs2: 0xb33d},
		lookupItem{cp949: 0x88e1, ucs2: 0xb33e},
		lookupItem{cp949: 0x88e2, ucs2: 0xb33f},
		lookupItem{cp949: 0x88e3, ucs2: 0xb340},
		lookupItem{cp949: 0x88e4, ucs2: 0xb341},
		lookupItem{cp949: 0x88e5, ucs2: 0xb342},
		lookupItem{cp949: 0x88e6, ucs2: 0xb343},
		lookupItem{cp949: 0x88e7, ucs2: 0xb344},
		lookupItem{cp949: 0x88e8, ucs2: 0xb345},
		lookupItem{cp949: 0x88e9, ucs2: 0xb346},
		lookupItem{cp949: 0x88ea, ucs2: 0xb347},
		lookupItem{cp949: 0x88eb, ucs2: 0xb348},
		lookupItem{cp949: 0x88ec, ucs2: 0xb349},
		lookupItem{cp949: 0x88ed, ucs2: 0xb34a},
		lookupItem{cp949: 0x88ee, ucs2: 0xb34b},
		lookupItem{cp949: 0x88ef, ucs2: 0xb34c},
		lookupItem{cp949: 0x88f0, ucs2: 0xb34d},
		lookupItem{cp949: 0x88f1, ucs2: 0xb34e},
		lookupItem{cp949: 0x88f2, ucs2: 0xb34f},
		lookupItem{cp949: 0x88f3, ucs2: 0xb350},
		lookupItem{cp949: 0x88f4, ucs2: 0xb351},
		lookupItem{cp949: 0x88f5, ucs2: 0xb352},
		lookupItem{cp949: 0x88f6, ucs2: 0xb353},
		lookupItem{cp949: 0x88f7, ucs2: 0xb357},
		lookupItem{cp949: 0x88f8, ucs2: 0xb359},
		lookupItem{cp949: 0x88f9, ucs2: 0xb35a},
		lookupItem{cp949: 0x88fa, ucs2: 0xb35d},
		lookupItem{cp949: 0x88fb, ucs2: 0xb360},
		lookupItem{cp949: 0x88fc, ucs2: 0xb361},
		lookupItem{cp949: 0x88fd, ucs2: 0xb362},
		lookupItem{cp949: 0x88fe, ucs2: 0xb363},
		lookupItem{cp949: 0x8941, ucs2: 0xb366},
		lookupItem{cp949: 0x8942, ucs2: 0xb368},
		lookupItem{cp949: 0x8943, ucs2: 0xb36a},
		lookupItem{cp949: 0x8944, ucs2: 0xb36c},
		lookupItem{cp949: 0x8945, ucs2: 0xb36d},
		lookupItem{cp949: 0x8946, ucs2: 0xb36f},
		lookupItem{cp949: 0x8947, ucs2: 0xb372},
		lookupItem{cp949: 0x8948, ucs2: 0xb373},
		lookupItem{cp949: 0x8949, ucs2: 0xb375},
		lookupItem{cp949: 0x894a, ucs2: 0xb376},
		lookupItem{cp949: 0x894b, ucs2: 0xb377},
		lookupItem{cp949: 0x894c, ucs2: 0xb379},
		lookupItem{cp949: 0x894d, ucs2: 0xb37a},
		lookupItem{cp949: 0x894e, ucs2: 0xb37b},
		lookupItem{cp949: 0x894f, ucs2: 0xb37c},
		lookupItem{cp949: 0x8950, ucs2: 0xb37d},
		lookupItem{cp949: 0x8951, ucs2: 0xb37e},
		lookupItem{cp949: 0x8952, ucs2: 0xb37f},
		lookupItem{cp949: 0x8953, ucs2: 0xb382},
		lookupItem{cp949: 0x8954, ucs2: 0xb386},
		lookupItem{cp949: 0x8955, ucs2: 0xb387},
		lookupItem{cp949: 0x8956, ucs2: 0xb388},
		lookupItem{cp949: 0x8957, ucs2: 0xb389},
		lookupItem{cp949: 0x8958, ucs2: 0xb38a},
		lookupItem{cp949: 0x8959, ucs2: 0xb38b},
		lookupItem{cp949: 0x895a, ucs2: 0xb38d},
		lookupItem{cp949: 0x8961, ucs2: 0xb38e},
		lookupItem{cp949: 0x8962, ucs2: 0xb38f},
		lookupItem{cp949: 0x8963, ucs2: 0xb391},
		lookupItem{cp949: 0x8964, ucs2: 0xb392},
		lookupItem{cp949: 0x8965, ucs2: 0xb393},
		lookupItem{cp949: 0x8966, ucs2: 0xb395},
		lookupItem{cp949: 0x8967, ucs2: 0xb396},
		lookupItem{cp949: 0x8968, ucs2: 0xb397},
		lookupItem{cp949: 0x8969, ucs2: 0xb398},
		lookupItem{cp949: 0x896a, ucs2: 0xb399},
		lookupItem{cp949: 0x896b, ucs2: 0xb39a},
		lookupItem{cp949: 0x896c, ucs2: 0xb39b},
		lookupItem{cp949: 0x896d, ucs2: 0xb39c},
		lookupItem{cp949: 0x896e, ucs2: 0xb39d},
		lookupItem{cp949: 0x896f, ucs2: 0xb39e},
		lookupItem{cp949: 0x8970, ucs2: 0xb39f},
		lookupItem{cp949: 0x8971, ucs2: 0xb3a2},
		lookupItem{cp949: 0x8972, ucs2: 0xb3a3},
		lookupItem{cp949: 0x8973, ucs2: 0xb3a4},
		lookupItem{cp949: 0x8974, ucs2: 0xb3a5},
		lookupItem{cp949: 0x8975, ucs2: 0xb3a6},
		lookupItem{cp949: 0x8976, ucs2: 0xb3a7},
		lookupItem{cp949: 0x8977, ucs2: 0xb3a9},
		lookupItem{cp949: 0x8978, ucs2: 0xb3aa},
		lookupItem{cp949: 0x8979, ucs2: 0xb3ab},
		lookupItem{cp949: 0x897a, ucs2: 0xb3ad},
		lookupItem{cp949: 0x8981, ucs2: 0xb3ae},
		lookupItem{cp949: 0x8982, ucs2: 0xb3af},
		lookupItem{cp949: 0x8983, ucs2: 0xb3b0},
		lookupItem{cp949: 0x8984, ucs2: 0xb3b1},
		lookupItem{cp949: 0x8985, ucs2: 0xb3b2},
		lookupItem{cp949: 0x8986, ucs2: 0xb3b3},
		lookupItem{cp949: 0x8987, ucs2: 0xb3b4},
		lookupItem{cp949: 0x8988, ucs2: 0xb3b5},
		lookupItem{cp949: 0x8989, ucs2: 0xb3b6},
		lookupItem{cp949: 0x898a, ucs2: 0xb3b7},
		lookupItem{cp949: 0x898b, ucs2: 0xb3b8},
		lookupItem{cp949: 0x898c, ucs2: 0xb3b9},
		lookupItem{cp949: 0x898d, ucs2: 0xb3ba},
		lookupItem{cp949: 0x898e, ucs2: 0xb3bb},
		lookupItem{cp949: 0x898f, ucs2: 0xb3bc},
		lookupItem{cp949: 0x8990, ucs2: 0xb3bd},
".
Definition text_cp949_lookup_from_006 : string :=
"		lookupItem{cp949: 0x8991, ucs2: 0xb3be},
		lookupItem{cp949: 0x8992, ucs2: 0xb3bf},
		lookupItem{cp949: 0x8993, ucs2: 0xb3c0},
		lookupItem{cp949: 0x8994, ucs2: 0xb3c1},
		lookupItem{cp949: 0x8995, ucs2: 0xb3c2},
		lookupItem{cp949: 0x8996, ucs2: 0xb3c3},
		lookupItem{cp949: 0x8997, ucs2: 0xb3c6},
		lookupItem{cp949: 0x8998, ucs2: 0xb3c7},
		lookupItem{cp949: 0x8999, ucs2: 0xb3c9},
		lookupItem{cp949: 0x899a, ucs2: 0xb3ca},
		lookupItem{cp949: 0x899b, ucs2: 0xb3cd},
		lookupItem{cp949: 0x899c, ucs2: 0xb3cf},
		lookupItem{cp949: 0x899d, ucs2: 0xb3d1},
		lookupItem{cp949: 0x899e, ucs2: 0xb3d2},
		lookupItem{cp949: 0x899f, ucs2: 0xb3d3},
		lookupItem{cp949: 0x89a0, ucs2: 0xb3d6},
		lookupItem{cp949: 0x89a1, ucs2: 0xb3d8},
		lookupItem{cp949: 0x89a2, ucs2: 0xb3da},
		lookupItem{cp949: 0x89a3, ucs2: 0xb3dc},
		lookupItem{cp949: 0x89a4, ucs2: 0xb3de},
		lookupItem{cp949: 0x89a5, ucs2: 0xb3df},
		lookupItem{cp949: 0x89a6, ucs2: 0xb3e1},
		lookupItem{cp949: 0x89a7, ucs2: 0xb3e2},
		lookupItem{cp949: 0x89a8, ucs2: 0xb3e3},
		lookupItem{cp949: 0x89a9, ucs2: 0xb3e5},
		lookupItem{cp949: 0x89aa, ucs2: 0xb3e6},
		lookupItem{cp949: 0x89ab, ucs2: 0xb3e7},
		lookupItem{cp949: 0x89ac, ucs2: 0xb3e9},
		lookupItem{cp949: 0x89ad, ucs2: 0xb3ea},
		lookupItem{cp949: 0x89ae, ucs2: 0xb3eb},
		lookupItem{cp949: 0x89af, ucs2: 0xb3ec},
		lookupItem{cp949: 0x89b0, ucs2: 0xb3ed},
		lookupItem{cp949: 0x89b1, ucs2: 0xb3ee},
		lookupItem{cp949: 0x89b2, ucs2: 0xb3ef},
		lookupItem{cp949: 0x89b3, ucs2: 0xb3f0},
		lookupItem{cp949: 0x89b4, ucs2: 0xb3f1},
		lookupItem{cp949: 0x89b5, ucs2: 0xb3f2},
		lookupItem{cp949: 0x89b6, ucs2: 0xb3f3},
		lookupItem{cp949: 0x89b7, ucs2: 0xb3f4},
		lookupItem{cp949: 0x89b8, ucs2: 0xb3f5},
		lookupItem{cp949: 0x89b9, ucs2: 0xb3f6},
		lookupItem{cp949: 0x89ba, ucs2: 0xb3f7},
		lookupItem{cp949: 0x89bb, ucs2: 0xb3f8},
		lookupItem{cp949: 0x89bc, ucs2: 0xb3f9},
		lookupItem{cp949: 0x89bd, ucs2: 0xb3fa},
		lookupItem{cp949: 0x89be, ucs2: 0xb3fb},
		lookupItem{cp949: 0x89bf, ucs2: 0xb3fd},
		lookupItem{cp949: 0x89c0, ucs2: 0xb3fe},
		lookupItem{cp949: 0x89c1, ucs2: 0xb3ff},
		lookupItem{cp949: 0x89c2, ucs2: 0xb400},
		lookupItem{cp949: 0x89c3, ucs2: 0xb401},
		lookupItem{cp949: 0x89c4, ucs2: 0xb402},
		lookupItem{cp949: 0x89c5, ucs2: 0xb403},
		lookupItem{cp949: 0x89c6, ucs2: 0xb404},
		lookupItem{cp949: 0x89c7, ucs2: 0xb405},
		lookupItem{cp949: 0x89c8, ucs2: 0xb406},
		lookupItem{cp949: 0x89c9, ucs2: 0xb407},
		lookupItem{cp949: 0x89ca, ucs2: 0xb408},
		lookupItem{cp949: 0x89cb, ucs2: 0xb409},
		lookupItem{cp949: 0x89cc, ucs2: 0xb40a},
		lookupItem{cp949: 0x89cd, ucs2: 0xb40b},
		lookupItem{cp949: 0x89ce, ucs2: 0xb40c},
		lookupItem{cp949: 0x89cf, ucs2: 0xb40d},
		lookupItem{cp949: 0x89d0, ucs2: 0xb40e},
		lookupItem{cp949: 0x89d1, ucs2: 0xb40f},
		lookupItem{cp949: 0x89d2, ucs2: 0xb411},
		lookupItem{cp949: 0x89d3, ucs2: 0xb412},
		lookupItem{cp949: 0x89d4, ucs2: 0xb413},
		lookupItem{cp949: 0x89d5, ucs2: 0xb414},
		lookupItem{cp949: 0x89d6, ucs2: 0xb415},
		lookupItem{cp949: 0x89d7, ucs2: 0xb416},
		lookupItem{cp949: 0x89d8, ucs2: 0xb417},
		lookupItem{cp949: 0x89d9, ucs2: 0xb419},
		lookupItem{cp949: 0x89da, ucs2: 0xb41a},
		lookupItem{cp949: 0x89db, ucs2: 0xb41b},
		lookupItem{cp949: 0x89dc, ucs2: 0xb41d},
		lookupItem{cp949: 0x89dd, ucs2: 0xb41e},
		lookupItem{cp949: 0x89de, ucs2: 0xb41f},
		lookupItem{cp949: 0x89df, ucs2: 0xb421},
		lookupItem{cp949: 0x89e0, ucs2: 0xb422},
		lookupItem{cp949: 0x89e1, ucs2: 0xb423},
		lookupItem{cp949: 0x89e2, ucs2: 0xb424},
		lookupItem{cp949: 0x89e3, ucs2: 0xb425},
		lookupItem{cp949: 0x89e4, ucs2: 0xb426},
		lookupItem{cp949: 0x89e5, ucs2: 0xb427},
		lookupItem{cp949: 0x89e6, ucs2: 0xb42a},
		lookupItem{cp949: 0x89e7, ucs2: 0xb42c},
		lookupItem{cp949: 0x89e8, ucs2: 0xb42d},
		lookupItem{cp949: 0x89e9, ucs2: 0xb42e},
		lookupItem{cp949: 0x89ea, ucs2: 0xb42f},
		lookupItem{cp949: 0x89eb, ucs2: 0xb430},
		lookupItem{cp949: 0x89ec, ucs2: 0xb431},
		lookupItem{cp949: 0x89ed, ucs2: 0xb432},
		lookupItem{cp949: 0x89ee, ucs2: 0xb433},
		lookupItem{cp949: 0x89ef, ucs2: 0xb435},
		lookupItem{cp949: 0x89f0, ucs2: 0xb436},
		lookupItem{cp949: 0x89f1, ucs2: 0xb437},
		lookupItem{cp949: 0x89f2, ucs2: 0xb438},
		lookupItem{cp949: 0x89f3, ucs2: 0xb439},
		lookupItem{cp949: 0x89f4, ucs2: 0xb43a},
		lookupItem{cp949: 0x89f5, ucs2: 0xb43b},
		lookupItem{cp949: 0x89f6, ucs2: 0xb43c},
		lookupItem{cp949: 0x89f7, ucs2: 0xb43d},
		lookupItem{cp949: 0x89f8, ucs2: 0xb43e},
		lookupItem{cp949: 0x89f9, ucs2: 0xb43f},
		lookupItem{cp949: 0x89fa, ucs2: 0xb440},
		lookupItem{cp949: 0x89fb, ucs2: 0xb441},
		lookupItem{cp949: 0x89fc, ucs2: 0xb442},
		lookupItem{cp949: 0x89fd, ucs2: 0xb443},
		lookupItem{cp949: 0x89fe, ucs2: 0xb444},
		lookupItem{cp949: 0x8a41, ucs2: 0xb445},
		lookupItem{cp949: 0x8a42, ucs2: 0xb446},
		lookupItem{cp949: 0x8a43, ucs2: 0xb447},
		lookupItem{cp949: 0x8a44, ucs2: 0xb448},
		lookupItem{cp949: 0x8a45, ucs2: 0xb449},
		lookupItem{cp949: 0x8a46, ucs2: 0xb44a},
		lookupItem{cp949: 0x8a47, ucs2: 0xb44b},
		lookupItem{cp949: 0x8a48, ucs2: 0xb44c},
		lookupItem{cp949: 0x8a49, ucs2: 0xb44d},
		lookupItem{cp949: 0x8a4a, ucs2: 0xb44e},
		lookupItem{cp949: 0x8a4b, ucs2: 0xb44f},
		lookupItem{cp949: 0x8a4c, ucs2: 0xb452},
		lookupItem{cp949: 0x8a4d, ucs2: 0xb453},
		lookupItem{cp949: 0x8a4e, ucs2: 0xb455},
		lookupItem{cp949: 0x8a4f, ucs2: 0xb456},
		lookupItem{cp949: 0x8a50, ucs2: 0xb457},
		lookupItem{cp949: 0x8a51, ucs2: 0xb459},
		lookupItem{cp949: 0x8a52, ucs2: 0xb45a},
		lookupItem{cp949: 0x8a53, ucs2: 0xb45b},
		lookupItem{cp949: 0x8a54, ucs2: 0xb45c},
		lookupItem{cp949: 0x8a55, ucs2: 0xb45d},
		lookupItem{cp949: 0x8a56, ucs2: 0xb45e},
		lookupItem{cp949: 0x8a57, ucs2: 0xb45f},
		lookupItem{cp949: 0x8a58, ucs2: 0xb462},
		lookupItem{cp949: 0x8a59, ucs2: 0xb464},
		lookupItem{cp949: 0x8a5a, ucs2: 0xb466},
		lookupItem{cp949: 0x8a61, ucs2: 0xb467},
		lookupItem{cp949: 0x8a62, ucs2: 0xb468},
		lookupItem{cp949: 0x8a63, ucs2: 0xb469},
		lookupItem{cp949: 0x8a64, ucs2: 0xb46a},
		lookupItem{cp949: 0x8a65, ucs2: 0xb46b},
		lookupItem{cp949: 0x8a66, ucs2: 0xb46d},
		lookupItem{cp949: 0x8a67, ucs2: 0xb46e},
		lookupItem{cp949: 0x8a68, ucs2: 0xb46f},
		lookupItem{cp949: 0x8a69, ucs2: 0xb470},
		lookupItem{cp949: 0x8a6a, ucs2: 0xb471},
		lookupItem{cp949: 0x8a6b, ucs2: 0xb472},
		lookupItem{cp949: 0x8a6c, ucs2: 0xb473},
		lookupItem{cp949: 0x8a6d, ucs2: 0xb474},
		lookupItem{cp949: 0x8a6e, ucs2: 0xb475},
		lookupItem{cp949: 0x8a6f, ucs2: 0xb476},
		lookupItem{cp949: 0x8a70, ucs2: 0xb477},
		lookupItem{cp949: 0x8a71, ucs2: 0xb478},
		lookupItem{cp949: 0x8a72, ucs2: 0xb479},
		lookupItem{cp949: 0x8a73, ucs2: 0xb47a},
		lookupItem{cp949: 0x8a74, ucs2: 0xb47b},
		lookupItem{cp949: 0x8a75, ucs2: 0xb47c},
		lookupItem{cp949: 0x8a76, ucs2: 0xb47d},
		lookupItem{cp949: 0x8a77, ucs2: 0xb47e},
		lookupItem{cp949: 0x8a78, ucs2: 0xb47f},
		lookupItem{cp949: 0x8a79, ucs2: 0xb481},
		lookupItem{cp949: 0x8a7a, ucs2: 0xb482},
		lookupItem{cp949: 0x8a81, ucs2: 0xb483},
		lookupItem{cp949: 0x8a82, ucs2: 0xb484},
		lookupItem{cp949: 0x8a83, ucs2: 0xb485},
		lookupItem{cp949: 0x8a84, ucs2: 0xb486},
		lookupItem{cp949: 0x8a85, ucs2: 0xb487},
		lookupItem{cp949: 0x8a86, ucs2: 0xb489},
		lookupItem{cp949: 0x8a87, ucs2: 0xb48a},
		lookupItem{cp949: 0x8a88, ucs2: 0xb48b},
		lookupItem{cp949: 0x8a89, ucs2: 0xb48c},
		lookupItem{cp949: 0x8a8a, ucs2: 0xb48d},
		lookupItem{cp949: 0x8a8b, ucs2: 0xb48e},
		lookupItem{cp949: 0x8a8c, ucs2: 0xb48f},
		lookupItem{cp949: 0x8a8d, ucs2: 0xb490},
		lookupItem{cp949: 0x8a8e, ucs2: 0xb491},
		lookupItem{cp949: 0x8a8f, ucs2: 0xb492},
		lookupItem{cp949: 0x8a90, ucs2: 0xb493},
		lookupItem{cp949: 0x8a91, ucs2: 0xb494},
		lookupItem{cp949: 0x8a92, ucs2: 0xb495},
		lookupItem{cp949: 0x8a93, ucs2: 0xb496},
		lookupItem{cp949: 0x8a94, ucs2: 0xb497},
		lookupItem{cp949: 0x8a95, ucs2: 0xb498},
		lookupItem{cp949: 0x8a96, ucs2: 0xb499},
		lookupItem{cp949: 0x8a97, ucs2: 0xb49a},
		lookupItem{cp949: 0x8a98, ucs2: 0xb49b},
		lookupItem{cp949: 0x8a99, ucs2: 0xb49c},
		lookupItem{cp949: 0x8a9a, ucs2: 0xb49e},
		lookupItem{cp949: 0x8a9b, ucs2: 0xb49f},
		lookupItem{cp949: 0x8a9c, ucs2: 0xb4a0},
		lookupItem{cp949: 0x8a9d, ucs2: 0xb4a1},
		lookupItem{cp949: 0x8a9e, ucs2: 0xb4a2},
		lookupItem{cp949: 0x8a9f, ucs2: 0xb4a3},
		lookupItem{cp949: 0x8aa0, ucs2: 0xb4a5},
		lookupItem{cp949: 0x8aa1, ucs2: 0xb4a6},
		lookupItem{cp949: 0x8aa2, ucs2: 0xb4a7},
		lookupItem{cp949: 0x8aa3, ucs2: 0xb4a9},
		lookupItem{cp949: 0x8aa4, ucs2: 0xb4aa},
		lookupItem{cp949: 0x8aa5, ucs2: 0xb4ab},
		lookupItem{cp949: 0x8aa6, ucs2: 0xb4ad},
		lookupItem{cp949: 0x8aa7, ucs2: 0xb4ae},
		lookupItem{cp949: 0x8aa8, ucs2: 0xb4af},
		lookupItem{cp949: 0x8aa9, ucs2: 0xb4b0},
		lookupItem{cp949: 0x8aaa, ucs2: 0xb4b1},
		lookupItem{cp949: 0x8aab, ucs2: 0xb4b2},
		lookupItem{cp949: 0x8aac, ucs2: 0xb4b3},
		lookupItem{cp949: 0x8aad, ucs2: 0xb4b4},
		lookupItem{cp949: 0x8aae, ucs2: 0xb4b6},
		lookupItem{cp949: 0x8aaf, ucs2: 0xb4b8},
		lookupItem{cp949: 0x8ab0, ucs2: 0xb4ba},
		lookupItem{cp949: 0x8ab1, ucs2: 0xb4bb},
		lookupItem{cp949: 0x8ab2, ucs2: 0xb4bc},
		lookupItem{cp949: 0x8ab3, ucs2: 0xb4bd},
		lookupItem{cp949: 0x8ab4, ucs2: 0xb4be},
		lookupItem{cp949: 0x8ab5, ucs2: 0xb4bf},
		lookupItem{cp949: 0x8ab6, ucs2: 0xb4c1},
		lookupItem{cp949: 0x8ab7, ucs2: 0xb4c2},
		lookupItem{cp949: 0x8ab8, ucs2: 0xb4c3},
		lookupItem{cp949: 0x8ab9, ucs2: 0xb4c5},
		lookupItem{cp949: 0x8aba, ucs2: 0xb4c6},
		lookupItem{cp949: 0x8abb, ucs2: 0xb4c7},
		lookupItem{cp949: 0x8abc, ucs2: 0xb4c9},
		lookupItem{cp949: 0x8abd, ucs2: 0xb4ca},
		lookupItem{cp949: 0x8abe, ucs2: 0xb4cb},
		lookupItem{cp949: 0x8abf, ucs2: 0xb4cc},
		lookupItem{cp949: 0x8ac0, ucs2: 0xb4cd},
		lookupItem{cp949: 0x8ac1, ucs2: 0xb4ce},
		lookupItem{cp949: 0x8ac2, ucs2: 0xb4cf},
		lookupItem{cp949: 0x8ac3, ucs2: 0xb4d1},
		lookupItem{cp949: 0x8ac4, ucs2: 0xb4d2},
		lookupItem{cp949: 0x8ac5, ucs2: 0xb4d3},
		lookupItem{cp949: 0x8ac6, ucs2: 0xb4d4},
		lookupItem{cp949: 0x8ac7, ucs2: 0xb4d6},
		lookupItem{cp949: 0x8ac8, ucs2: 0xb4d7},
		lookupItem{cp949: 0x8ac9, ucs2: 0xb4d8},
		lookupItem{cp949: 0x8aca, ucs2: 0xb4d9},
		lookupItem{cp949: 0x8acb, ucs2: 0xb4da},
		lookupItem{cp949: 0x8acc, ucs2: 0xb4db},
		lookupItem{cp949: 0x8acd, ucs2: 0xb4de},
		lookupItem{cp949: 0x8ace, ucs2: 0xb4df},
		lookupItem{cp949: 0x8acf, ucs2: 0xb4e1},
		lookupItem{cp949: 0x8ad0, ucs2: 0xb4e2},
		lookupItem{cp949: 0x8ad1, ucs2: 0xb4e5},
		lookupItem{cp949: 0x8ad2, ucs2: 0xb4e7},
		lookupItem{cp949: 0x8ad3, ucs2: 0xb4e8},
		lookupItem{cp949: 0x8ad4, ucs2: 0xb4e9},
		lookupItem{cp949: 0x8ad5, ucs2: 0xb4ea},
		lookupItem{cp949: 0x8ad6, ucs2: 0xb4eb},
		lookupItem{cp949: 0x8ad7, ucs2: 0xb4ee},
		lookupItem{cp949: 0x8ad8, ucs2: 0xb4f0},
".
Definition text_cp949_lookup_from_007 : string :=
"		lookupItem{cp949: 0x8ad9, ucs2: 0xb4f2},
		lookupItem{cp949: 0x8ada, ucs2: 0xb4f3},
		lookupItem{cp949: 0x8adb, ucs2: 0xb4f4},
		lookupItem{cp949: 0x8adc, ucs2: 0xb4f5},
		lookupItem{cp949: 0x8add, ucs2: 0xb4f6},
		lookupItem{cp949: 0x8ade, ucs2: 0xb4f7},
		lookupItem{cp949: 0x8adf, ucs2: 0xb4f9},
		lookupItem{cp949: 0x8ae0, ucs2: 0xb4fa},
		lookupItem{cp949: 0x8ae1, ucs2: 0xb4fb},
		lookupItem{cp949: 0x8ae2, ucs2: 0xb4fc},
		lookupItem{cp949: 0x8ae3, ucs2: 0xb4fd},
		lookupItem{cp949: 0x8ae4, ucs2: 0xb4fe},
		lookupItem{cp949: 0x8ae5, ucs2: 0xb4ff},
		lookupItem{cp949: 0x8ae6, ucs2: 0xb500},
		lookupItem{cp949: 0x8ae7, ucs2: 0xb501},
		lookupItem{cp949: 0x8ae8, ucs2: 0xb502},
		lookupItem{cp949: 0x8ae9, ucs2: 0xb503},
		lookupItem{cp949: 0x8aea, ucs2: 0xb504},
		lookupItem{cp949: 0x8aeb, ucs2: 0xb505},
		lookupItem{cp949: 0x8aec, ucs2: 0xb506},
		lookupItem{cp949: 0x8aed, ucs2: 0xb507},
		lookupItem{cp949: 0x8aee, ucs2: 0xb508},
		lookupItem{cp949: 0x8aef, ucs2: 0xb509},
		lookupItem{cp949: 0x8af0, ucs2: 0xb50a},
		lookupItem{cp949: 0x8af1, ucs2: 0xb50b},
		lookupItem{cp949: 0x8af2, ucs2: 0xb50c},
		lookupItem{cp949: 0x8af3, ucs2: 0xb50d},
		lookupItem{cp949: 0x8af4, ucs2: 0xb50e},
		lookupItem{cp949: 0x8af5, ucs2: 0xb50f},
		lookupItem{cp949: 0x8af6, ucs2: 0xb510},
		lookupItem{cp949: 0x8af7, ucs2: 0xb511},
		lookupItem{cp949: 0x8af8, ucs2: 0xb512},
		lookupItem{cp949: 0x8af9, ucs2: 0xb513},
		lookupItem{cp949: 0x8afa, ucs2: 0xb516},
		lookupItem{cp949: 0x8afb, ucs2: 0xb517},
		lookupItem{cp949: 0x8afc, ucs2: 0xb519},
		lookupItem{cp949: 0x8afd, ucs2: 0xb51a},
		lookupItem{cp949: 0x8afe, ucs2: 0xb51d},
		lookupItem{cp949: 0x8b41, ucs2: 0xb51e},
		lookupItem{cp949: 0x8b42, ucs2: 0xb51f},
		lookupItem{cp949: 0x8b43, ucs2: 0xb520},
		lookupItem{cp949: 0x8b44, ucs2: 0xb521},
		lookupItem{cp949: 0x8b45, ucs2: 0xb522},
		lookupItem{cp949: 0x8b46, ucs2: 0xb523},
		lookupItem{cp949: 0x8b47, ucs2: 0xb526},
		lookupItem{cp949: 0x8b48, ucs2: 0xb52b},
		lookupItem{cp949: 0x8b49, ucs2: 0xb52c},
		lookupItem{cp949: 0x8b4a, ucs2: 0xb52d},
		lookupItem{cp949: 0x8b4b, ucs2: 0xb52e},
		lookupItem{cp949: 0x8b4c, ucs2: 0xb52f},
		lookupItem{cp949: 0x8b4d, ucs2: 0xb532},
		lookupItem{cp949: 0x8b4e, ucs2: 0xb533},
		lookupItem{cp949: 0x8b4f, ucs2: 0xb535},
		lookupItem{cp949: 0x8b50, ucs2: 0xb536},
		lookupItem{cp949: 0x8b51, ucs2: 0xb537},
		lookupItem{cp949: 0x8b52, ucs2: 0xb539},
		lookupItem{cp949: 0x8b53, ucs2: 0xb53a},
		lookupItem{cp949: 0x8b54, ucs2: 0xb53b},
		lookupItem{cp949: 0x8b55, ucs2: 0xb53c},
		lookupItem{cp949: 0x8b56, ucs2: 0xb53d},
		lookupItem{cp949: 0x8b57, ucs2: 0xb53e},
		lookupItem{cp949: 0x8b58, ucs2: 0xb53f},
		lookupItem{cp949: 0x8b59, ucs2: 0xb542},
		lookupItem{cp949: 0x8b5a, ucs2: 0xb546},
		lookupItem{cp949: 0x8b61, ucs2: 0xb547},
		lookupItem{cp949: 0x8b62, ucs2: 0xb548},
		lookupItem{cp949: 0x8b63, ucs2: 0xb549},
		lookupItem{cp949: 0x8b64, ucs2: 0xb54a},
		lookupItem{cp949: 0x8b65, ucs2: 0xb54e},
		lookupItem{cp949: 0x8b66, ucs2: 0xb54f},
		lookupItem{cp949: 0x8b67, ucs2: 0xb551},
		lookupItem{cp949: 0x8b68, ucs2: 0xb552},
		lookupItem{cp949: 0x8b69, ucs2: 0xb553},
		lookupItem{cp949: 0x8b6a, ucs2: 0xb555},
		lookupItem{cp949: 0x8b6b, ucs2: 0xb556},
		lookupItem{cp949: 0x8b6c, ucs2: 0xb557},
		lookupItem{cp949: 0x8b6d, ucs2: 0xb558},
		lookupItem{cp949: 0x8b6e, ucs2: 0xb559},
		lookupItem{cp949: 0x8b6f, ucs2: 0xb55a},
		lookupItem{cp949: 0x8b70, ucs2: 0xb55b},
		lookupItem{cp949: 0x8b71, ucs2: 0xb55e},
		lookupItem{cp949: 0x8b72, ucs2: 0xb562},
		lookupItem{cp949: 0x8b73, ucs2: 0xb563},
		lookupItem{cp949: 0x8b74, ucs2: 0xb564},
		lookupItem{cp949: 0x8b75, ucs2: 0xb565},
		lookupItem{cp949: 0x8b76, ucs2: 0xb566},
		lookupItem{cp949: 0x8b77, ucs2: 0xb567},
		lookupItem{cp949: 0x8b78, ucs2: 0xb568},
		lookupItem{cp949: 0x8b79, ucs2: 0xb569},
		lookupItem{cp949: 0x8b7a, ucs2: 0xb56a},
		lookupItem{cp949: 0x8b81, ucs2: 0xb56b},
		lookupItem{cp949: 0x8b82, ucs2: 0xb56c},
		lookupItem{cp949: 0x8b83, ucs2: 0xb56d},
		lookupItem{cp949: 0x8b84, ucs2: 0xb56e},
		lookupItem{cp949: 0x8b85, ucs2: 0xb56f},
		lookupItem{cp949: 0x8b86, ucs2: 0xb570},
		lookupItem{cp949: 0x8b87, ucs2: 0xb571},
		lookupItem{cp949: 0x8b88, ucs2: 0xb572},
		lookupItem{cp949: 0x8b89, ucs2: 0xb573},
		lookupItem{cp949: 0x8b8a, ucs2: 0xb574},
		lookupItem{cp949: 0x8b8b, ucs2: 0xb575},
		lookupItem{cp949: 0x8b8c, ucs2: 0xb576},
		lookupItem{cp949: 0x8b8d, ucs2: 0xb577},
		lookupItem{cp949: 0x8b8e, ucs2: 0xb578},
		lookupItem{cp949: 0x8b8f, ucs2: 0xb579},
		lookupItem{cp949: 0x8b90, ucs2: 0xb57a},
		lookupItem{cp949: 0x8b91, ucs2: 0xb57b},
		lookupItem{cp949: 0x8b92, ucs2: 0xb57c},
		lookupItem{cp949: 0x8b93, ucs2: 0xb57d},
		lookupItem{cp949: 0x8b94, ucs2: 0xb57e},
		lookupItem{cp949: 0x8b95, ucs2: 0xb57f},
		lookupItem{cp949: 0x8b96, ucs2: 0xb580},
		lookupItem{cp949: 0x8b97, ucs2: 0xb581},
		lookupItem{cp949: 0x8b98, ucs2: 0xb582},
		lookupItem{cp949: 0x8b99, ucs2: 0xb583},
		lookupItem{cp949: 0x8b9a, ucs2: 0xb584},
		lookupItem{cp949: 0x8b9b, ucs2: 0xb585},
		lookupItem{cp949: 0x8b9c, ucs2: 0xb586},
		lookupItem{cp949: 0x8b9d, ucs2: 0xb587},
		lookupItem{cp949: 0x8b9e, ucs2: 0xb588},
		lookupItem{cp949: 0x8b9f, ucs2: 0xb589},
		lookupItem{cp949: 0x8ba0, ucs2: 0xb58a},
		lookupItem{cp949: 0x8ba1, ucs2: 0xb58b},
		lookupItem{cp949: 0x8ba2, ucs2: 0xb58c},
		lookupItem{cp949: 0x8ba3, ucs2: 0xb58d},
		lookupItem{cp949: 0x8ba4, ucs2: 0xb58e},
		lookupItem{cp949: 0x8ba5, ucs2: 0xb58f},
		lookupItem{cp949: 0x8ba6, ucs2: 0xb590},
		lookupItem{cp949: 0x8ba7, ucs2: 0xb591},
		lookupItem{cp949: 0x8ba8, ucs2: 0xb592},
		lookupItem{cp949: 0x8ba9, ucs2: 0xb593},
		lookupItem{cp949: 0x8baa, ucs2: 0xb594},
		lookupItem{cp949: 0x8bab, ucs2: 0xb595},
		lookupItem{cp949: 0x8bac, ucs2: 0xb596},
		lookupItem{cp949: 0x8bad, ucs2: 0xb597},
		lookupItem{cp949: 0x8bae, ucs2: 0xb598},
		lookupItem{cp949: 0x8baf, ucs2: 0xb599},
		lookupItem{cp949: 0x8bb0, ucs2: 0xb59a},
		lookupItem{cp949: 0x8bb1, ucs2: 0xb59b},
		lookupItem{cp949: 0x8bb2, ucs2: 0xb59c},
		lookupItem{cp949: 0x8bb3, ucs2: 0xb59d},
		lookupItem{cp949: 0x8bb4, ucs2: 0xb59e},
		lookupItem{cp949: 0x8bb5, ucs2: 0xb59f},
		lookupItem{cp949: 0x8bb6, ucs2: 0xb5a2},
		lookupItem{cp949: 0x8bb7, ucs2: 0xb5a3},
		lookupItem{cp949: 0x8bb8, ucs2: 0xb5a5},
		lookupItem{cp949: 0x8bb9, ucs2: 0xb5a6},
		lookupItem{cp949: 0x8bba, ucs2: 0xb5a7},
		lookupItem{cp949: 0x8bbb, ucs2: 0xb5a9},
		lookupItem{cp949: 0x8bbc, ucs2: 0xb5ac},
		lookupItem{cp949: 0x8bbd, ucs2: 0xb5ad},
		lookupItem{cp949: 0x8bbe, ucs2: 0xb5ae},
		lookupItem{cp949: 0x8bbf, ucs2: 0xb5af},
		lookupItem{cp949: 0x8bc0, ucs2: 0xb5b2},
		lookupItem{cp949: 0x8bc1, ucs2: 0xb5b6},
		lookupItem{cp949: 0x8bc2, ucs2: 0xb5b7},
		lookupItem{cp949: 0x8bc3, ucs2: 0xb5b8},
		lookupItem{cp949: 0x8bc4, ucs2: 0xb5b9},
		lookupItem{cp949: 0x8bc5, ucs2: 0xb5ba},
		lookupItem{cp949: 0x8bc6, ucs2: 0xb5be},
		lookupItem{cp949: 0x8bc7, ucs2: 0xb5bf},
		lookupItem{cp949: 0x8bc8, ucs2: 0xb5c1},
		lookupItem{cp949: 0x8bc9, ucs2: 0xb5c2},
		lookupItem{cp949: 0x8bca, ucs2: 0xb5c3},
		lookupItem{cp949: 0x8bcb, ucs2: 0xb5c5},
		lookupItem{cp949: 0x8bcc, ucs2: 0xb5c6},
		lookupItem{cp949: 0x8bcd, ucs2: 0xb5c7},
		lookupItem{cp949: 0x8bce, ucs2: 0xb5c8},
		lookupItem{cp949: 0x8bcf, ucs2: 0xb5c9},
		lookupItem{cp949: 0x8bd0, ucs2: 0xb5ca},
		lookupItem{cp949: 0x8bd1, ucs2: 0xb5cb},
		lookupItem{cp949: 0x8bd2, ucs2: 0xb5ce},
		lookupItem{cp949: 0x8bd3, ucs2: 0xb5d2},
		lookupItem{cp949: 0x8bd4, ucs2: 0xb5d3},
		lookupItem{cp949: 0x8bd5, ucs2: 0xb5d4},
		lookupItem{cp949: 0x8bd6, ucs2: 0xb5d5},
		lookupItem{cp949: 0x8bd7, ucs2: 0xb5d6},
		lookupItem{cp949: 0x8bd8, ucs2: 0xb5d7},
		lookupItem{cp949: 0x8bd9, ucs2: 0xb5d9},
		lookupItem{cp949: 0x8bda, ucs2: 0xb5da},
		lookupItem{cp949: 0x8bdb, ucs2: 0xb5db},
		lookupItem{cp949: 0x8bdc, ucs2: 0xb5dc},
		lookupItem{cp949: 0x8bdd, ucs2: 0xb5dd},
		lookupItem{cp949: 0x8bde, ucs2: 0xb5de},
		lookupItem{cp949: 0x8bdf, ucs2: 0xb5df},
		lookupItem{cp949: 0x8be0, ucs2: 0xb5e0},
		lookupItem{cp949: 0x8be1, ucs2: 0xb5e1},
		lookupItem{cp949: 0x8be2, ucs2: 0xb5e2},
		lookupItem{cp949: 0x8be3, ucs2: 0xb5e3},
		lookupItem{cp949: 0x8be4, ucs2: 0xb5e4},
		lookupItem{cp949: 0x8be5, ucs2: 0xb5e5},
		lookupItem{cp949: 0x8be6, ucs2: 0xb5e6},
		lookupItem{cp949: 0x8be7, ucs2: 0xb5e7},
		lookupItem{cp949: 0x8be8, ucs2: 0xb5e8},
		lookupItem{cp949: 0x8be9, ucs2: 0xb5e9},
		lookupItem{cp949: 0x8bea, ucs2: 0xb5ea},
		lookupItem{cp949: 0x8beb, ucs2: 0xb5eb},
		lookupItem{cp949: 0x8bec, ucs2: 0xb5ed},
		lookupItem{cp949: 0x8bed, ucs2: 0xb5ee},
		lookupItem{cp949: 0x8bee, ucs2: 0xb5ef},
		lookupItem{cp949: 0x8bef, ucs2: 0xb5f0},
		lookupItem{cp949: 0x8bf0, ucs2: 0xb5f1},
		lookupItem{cp949: 0x8bf1, ucs2: 0xb5f2},
		lookupItem{cp949: 0x8bf2, ucs2: 0xb5f3},
		lookupItem{cp949: 0x8bf3, ucs2: 0xb5f4},
		lookupItem{cp949: 0x8bf4, ucs2: 0xb5f5},
		lookupItem{cp949: 0x8bf5, ucs2: 0xb5f6},
		lookupItem{cp949: 0x8bf6, ucs2: 0xb5f7},
		lookupItem{cp949: 0x8bf7, ucs2: 0xb5f8},
		lookupItem{cp949: 0x8bf8, ucs2: 0xb5f9},
		lookupItem{cp949: 0x8bf9, ucs2: 0xb5fa},
		lookupItem{cp949: 0x8bfa, ucs2: 0xb5fb},
		lookupItem{cp949: 0x8bfb, ucs2: 0xb5fc},
		lookupItem{cp949: 0x8bfc, ucs2: 0xb5fd},
		lookupItem{cp949: 0x8bfd, ucs2: 0xb5fe},
		lookupItem{cp949: 0x8bfe, ucs2: 0xb5ff},
		lookupItem{cp949: 0x8c41, ucs2: 0xb600},
		lookupItem{cp949: 0x8c42, ucs2: 0xb601},
		lookupItem{cp949: 0x8c43, ucs2: 0xb602},
		lookupItem{cp949: 0x8c44, ucs2: 0xb603},
		lookupItem{cp949: 0x8c45, ucs2: 0xb604},
		lookupItem{cp949: 0x8c46, ucs2: 0xb605},
		lookupItem{cp949: 0x8c47, ucs2: 0xb606},
		lookupItem{cp949: 0x8c48, ucs2: 0xb607},
		lookupItem{cp949: 0x8c49, ucs2: 0xb608},
		lookupItem{cp949: 0x8c4a, ucs2: 0xb609},
		lookupItem{cp949: 0x8c4b, ucs2: 0xb60a},
		lookupItem{cp949: 0x8c4c, ucs2: 0xb60b},
		lookupItem{cp949: 0x8c4d, ucs2: 0xb60c},
		lookupItem{cp949: 0x8c4e, ucs2: 0xb60d},
		lookupItem{cp949: 0x8c4f, ucs2: 0xb60e},
		lookupItem{cp949: 0x8c50, ucs2: 0xb60f},
		lookupItem{cp949: 0x8c51, ucs2: 0xb612},
		lookupItem{cp949: 0x8c52, ucs2: 0xb613},
		lookupItem{cp949: 0x8c53, ucs2: 0xb615},
		lookupItem{cp949: 0x8c54, ucs2: 0xb616},
		lookupItem{cp949: 0x8c55, ucs2: 0xb617},
		lookupItem{cp949: 0x8c56, ucs2: 0xb619},
		lookupItem{cp949: 0x8c57, ucs2: 0xb61a},
		lookupItem{cp949: 0x8c58, ucs2: 0xb61b},
		lookupItem{cp949: 0x8c59, ucs2: 0xb61c},
		lookupItem{cp949: 0x8c5a, ucs2: 0xb61d},
		lookupItem{cp949: 0x8c61, ucs2: 0xb61e},
		lookupItem{cp949: 0x8c62, ucs2: 0xb61f},
		lookupItem{cp949: 0x8c63, ucs2: 0xb620},
		lookupItem{cp949: 0x8c64, ucs2: 0xb621},
		lookupItem{cp949: 0x8c65, ucs2: 0xb622},
		lookupItem{cp949: 0x8c66, ucs2: 0xb623},
		lookupItem{cp949: 0x8c67, ucs2: 0xb624},
		lookupItem{cp949: 0x8c68, ucs2: 0xb626},
".
Definition text_cp949_lookup_from_008 : string :=
"		lookupItem{cp949: 0x8c69, ucs2: 0xb627},
		lookupItem{cp949: 0x8c6a, ucs2: 0xb628},
		lookupItem{cp949: 0x8c6b, ucs2: 0xb629},
		lookupItem{cp949: 0x8c6c, ucs2: 0xb62a},
		lookupItem{cp949: 0x8c6d, ucs2: 0xb62b},
		lookupItem{cp949: 0x8c6e, ucs2: 0xb62d},
		lookupItem{cp949: 0x8c6f, ucs2: 0xb62e},
		lookupItem{cp949: 0x8c70, ucs2: 0xb62f},
		lookupItem{cp949: 0x8c71, ucs2: 0xb630},
		lookupItem{cp949: 0x8c72, ucs2: 0xb631},
		lookupItem{cp949: 0x8c73, ucs2: 0xb632},
		lookupItem{cp949: 0x8c74, ucs2: 0xb633},
		lookupItem{cp949: 0x8c75, ucs2: 0xb635},
		lookupItem{cp949: 0x8c76, ucs2: 0xb636},
		lookupItem{cp949: 0x8c77, ucs2: 0xb637},
		lookupItem{cp949: 0x8c78, ucs2: 0xb638},
		lookupItem{cp949: 0x8c79, ucs2: 0xb639},
		lookupItem{cp949: 0x8c7a, ucs2: 0xb63a},
		lookupItem{cp949: 0x8c81, ucs2: 0xb63b},
		lookupItem{cp949: 0x8c82, ucs2: 0xb63c},
		lookupItem{cp949: 0x8c83, ucs2: 0xb63d},
		lookupItem{cp949: 0x8c84, ucs2: 0xb63e},
		lookupItem{cp949: 0x8c85, ucs2: 0xb63f},
		lookupItem{cp949: 0x8c86, ucs2: 0xb640},
		lookupItem{cp949: 0x8c87, ucs2: 0xb641},
		lookupItem{cp949: 0x8c88, ucs2: 0xb642},
		lookupItem{cp949: 0x8c89, ucs2: 0xb643},
		lookupItem{cp949: 0x8c8a, ucs2: 0xb644},
		lookupItem{cp949: 0x8c8b, ucs2: 0xb645},
		lookupItem{cp949: 0x8c8c, ucs2: 0xb646},
		lookupItem{cp949: 0x8c8d, ucs2: 0xb647},
		lookupItem{cp949: 0x8c8e, ucs2: 0xb649},
		lookupItem{cp949: 0x8c8f, ucs2: 0xb64a},
		lookupItem{cp949: 0x8c90, ucs2: 0xb64b},
		lookupItem{cp949: 0x8c91, ucs2: 0xb64c},
		lookupItem{cp949: 0x8c92, ucs2: 0xb64d},
		lookupItem{cp949: 0x8c93, ucs2: 0xb64e},
		lookupItem{cp949: 0x8c94, ucs2: 0xb64f},
		lookupItem{cp949: 0x8c95, ucs2: 0xb650},
		lookupItem{cp949: 0x8c96, ucs2: 0xb651},
		lookupItem{cp949: 0x8c97, ucs2: 0xb652},
		lookupItem{cp949: 0x8c98, ucs2: 0xb653},
		lookupItem{cp949: 0x8c99, ucs2: 0xb654},
		lookupItem{cp949: 0x8c9a, ucs2: 0xb655},
		lookupItem{cp949: 0x8c9b, ucs2: 0xb656},
		lookupItem{cp949: 0x8c9c, ucs2: 0xb657},
		lookupItem{cp949: 0x8c9d, ucs2: 0xb658},
		lookupItem{cp949: 0x8c9e, ucs2: 0xb659},
		lookupItem{cp949: 0x8c9f, ucs2: 0xb65a},
		lookupItem{cp949: 0x8ca0, ucs2: 0xb65b},
		lookupItem{cp949: 0x8ca1, ucs2: 0xb65c},
		lookupItem{cp949: 0x8ca2, ucs2: 0xb65d},
		lookupItem{cp949: 0x8ca3, ucs2: 0xb65e},
		lookupItem{cp949: 0x8ca4, ucs2: 0xb65f},
		lookupItem{cp949: 0x8ca5, ucs2: 0xb660},
		lookupItem{cp949: 0x8ca6, ucs2: 0xb661},
		lookupItem{cp949: 0x8ca7, ucs2: 0xb662},
		lookupItem{cp949: 0x8ca8, ucs2: 0xb663},
		lookupItem{cp949: 0x8ca9, ucs2: 0xb665},
		lookupItem{cp949: 0x8caa, ucs2: 0xb666},
		lookupItem{cp949: 0x8cab, ucs2: 0xb667},
		lookupItem{cp949: 0x8cac, ucs2: 0xb669},
		lookupItem{cp949: 0x8cad, ucs2: 0xb66a},
		lookupItem{cp949: 0x8cae, ucs2: 0xb66b},
		lookupItem{cp949: 0x8caf, ucs2: 0xb66c},
		lookupItem{cp949: 0x8cb0, ucs2: 0xb66d},
		lookupItem{cp949: 0x8cb1, ucs2: 0xb66e},
		lookupItem{cp949: 0x8cb2, ucs2: 0xb66f},
		lookupItem{cp949: 0x8cb3, ucs2: 0xb670},
		lookupItem{cp949: 0x8cb4, ucs2: 0xb671},
		lookupItem{cp949: 0x8cb5, ucs2: 0xb672},
		lookupItem{cp949: 0x8cb6, ucs2: 0xb673},
		lookupItem{cp949: 0x8cb7, ucs2: 0xb674},
		lookupItem{cp949: 0x8cb8, ucs2: 0xb675},
		lookupItem{cp949: 0x8cb9, ucs2: 0xb676},
		lookupItem{cp949: 0x8cba, ucs2: 0xb677},
		lookupItem{cp949: 0x8cbb, ucs2: 0xb678},
		lookupItem{cp949: 0x8cbc, ucs2: 0xb679},
		lookupItem{cp949: 0x8cbd, ucs2: 0xb67a},
		lookupItem{cp949: 0x8cbe, ucs2: 0xb67b},
		lookupItem{cp949: 0x8cbf, ucs2: 0xb67c},
		lookupItem{cp949: 0x8cc0, ucs2: 0xb67d},
		lookupItem{cp949: 0x8cc1, ucs2: 0xb67e},
		lookupItem{cp949: 0x8cc2, ucs2: 0xb67f},
		lookupItem{cp949: 0x8cc3, ucs2: 0xb680},
		lookupItem{cp949: 0x8cc4, ucs2: 0xb681},
		lookupItem{cp949: 0x8cc5, ucs2: 0xb682},
		lookupItem{cp949: 0x8cc6, ucs2: 0xb683},
		lookupItem{cp949: 0x8cc7, ucs2: 0xb684},
		lookupItem{cp949: 0x8cc8, ucs2: 0xb685},
		lookupItem{cp949: 0x8cc9, ucs2: 0xb686},
		lookupItem{cp949: 0x8cca, ucs2: 0xb687},
		lookupItem{cp949: 0x8ccb, ucs2: 0xb688},
		lookupItem{cp949: 0x8ccc, ucs2: 0xb689},
		lookupItem{cp949: 0x8ccd, ucs2: 0xb68a},
		lookupItem{cp949: 0x8cce, ucs2: 0xb68b},
		lookupItem{cp949: 0x8ccf, ucs2: 0xb68c},
		lookupItem{cp949: 0x8cd0, ucs2: 0xb68d},
		lookupItem{cp949: 0x8cd1, ucs2: 0xb68e},
		lookupItem{cp949: 0x8cd2, ucs2: 0xb68f},
		lookupItem{cp949: 0x8cd3, ucs2: 0xb690},
		lookupItem{cp949: 0x8cd4, ucs2: 0xb691},
		lookupItem{cp949: 0x8cd5, ucs2: 0xb692},
		lookupItem{cp949: 0x8cd6, ucs2: 0xb693},
		lookupItem{cp949: 0x8cd7, ucs2: 0xb694},
		lookupItem{cp949: 0x8cd8, ucs2: 0xb695},
		lookupItem{cp949: 0x8cd9, ucs2: 0xb696},
		lookupItem{cp949: 0x8cda, ucs2: 0xb697},
		lookupItem{cp949: 0x8cdb, ucs2: 0xb698},
		lookupItem{cp949: 0x8cdc, ucs2: 0xb699},
		lookupItem{cp949: 0x8cdd, ucs2: 0xb69a},
		lookupItem{cp949: 0x8cde, ucs2: 0xb69b},
		lookupItem{cp949: 0x8cdf, ucs2: 0xb69e},
		lookupItem{cp949: 0x8ce0, ucs2: 0xb69f},
		lookupItem{cp949: 0x8ce1, ucs2: 0xb6a1},
		lookupItem{cp949: 0x8ce2, ucs2: 0xb6a2},
		lookupItem{cp949: 0x8ce3, ucs2: 0xb6a3},
		lookupItem{cp949: 0x8ce4, ucs2: 0xb6a5},
		lookupItem{cp949: 0x8ce5, ucs2: 0xb6a6},
		lookupItem{cp949: 0x8ce6, ucs2: 0xb6a7},
		lookupItem{cp949: 0x8ce7, ucs2: 0xb6a8},
		lookupItem{cp949: 0x8ce8, ucs2: 0xb6a9},
		lookupItem{cp949: 0x8ce9, ucs2: 0xb6aa},
		lookupItem{cp949: 0x8cea, ucs2: 0xb6ad},
		lookupItem{cp949: 0x8ceb, ucs2: 0xb6ae},
		lookupItem{cp949: 0x8cec, ucs2: 0xb6af},
		lookupItem{cp949: 0x8ced, ucs2: 0xb6b0},
		lookupItem{cp949: 0x8cee, ucs2: 0xb6b2},
		lookupItem{cp949: 0x8cef, ucs2: 0xb6b3},
		lookupItem{cp949: 0x8cf0, ucs2: 0xb6b4},
		lookupItem{cp949: 0x8cf1, ucs2: 0xb6b5},
		lookupItem{cp949: 0x8cf2, ucs2: 0xb6b6},
		lookupItem{cp949: 0x8cf3, ucs2: 0xb6b7},
		lookupItem{cp949: 0x8cf4, ucs2: 0xb6b8},
		lookupItem{cp949: 0x8cf5, ucs2: 0xb6b9},
		lookupItem{cp949: 0x8cf6, ucs2: 0xb6ba},
		lookupItem{cp949: 0x8cf7, ucs2: 0xb6bb},
		lookupItem{cp949: 0x8cf8, ucs2: 0xb6bc},
		lookupItem{cp949: 0x8cf9, ucs2: 0xb6bd},
		lookupItem{cp949: 0x8cfa, ucs2: 0xb6be},
		lookupItem{cp949: 0x8cfb, ucs2: 0xb6bf},
		lookupItem{cp949: 0x8cfc, ucs2: 0xb6c0},
		lookupItem{cp949: 0x8cfd, ucs2: 0xb6c1},
		lookupItem{cp949: 0x8cfe, ucs2: 0xb6c2},
		lookupItem{cp949: 0x8d41, ucs2: 0xb6c3},
		lookupItem{cp949: 0x8d42, ucs2: 0xb6c4},
		lookupItem{cp949: 0x8d43, ucs2: 0xb6c5},
		lookupItem{cp949: 0x8d44, ucs2: 0xb6c6},
		lookupItem{cp949: 0x8d45, ucs2: 0xb6c7},
		lookupItem{cp949: 0x8d46, ucs2: 0xb6c8},
		lookupItem{cp949: 0x8d47, ucs2: 0xb6c9},
		lookupItem{cp949: 0x8d48, ucs2: 0xb6ca},
		lookupItem{cp949: 0x8d49, ucs2: 0xb6cb},
		lookupItem{cp949: 0x8d4a, ucs2: 0xb6cc},
		lookupItem{cp949: 0x8d4b, ucs2: 0xb6cd},
		lookupItem{cp949: 0x8d4c, ucs2: 0xb6ce},
		lookupItem{cp949: 0x8d4d, ucs2: 0xb6cf},
		lookupItem{cp949: 0x8d4e, ucs2: 0xb6d0},
		lookupItem{cp949: 0x8d4f, ucs2: 0xb6d1},
		lookupItem{cp949: 0x8d50, ucs2: 0xb6d2},
		lookupItem{cp949: 0x8d51, ucs2: 0xb6d3},
		lookupItem{cp949: 0x8d52, ucs2: 0xb6d5},
		lookupItem{cp949: 0x8d53, ucs2: 0xb6d6},
		lookupItem{cp949: 0x8d54, ucs2: 0xb6d7},
		lookupItem{cp949: 0x8d55, ucs2: 0xb6d8},
		lookupItem{cp949: 0x8d56, ucs2: 0xb6d9},
		lookupItem{cp949: 0x8d57, ucs2: 0xb6da},
		lookupItem{cp949: 0x8d58, ucs2: 0xb6db},
		lookupItem{cp949: 0x8d59, ucs2: 0xb6dc},
		lookupItem{cp949: 0x8d5a, ucs2: 0xb6dd},
		lookupItem{cp949: 0x8d61, ucs2: 0xb6de},
		lookupItem{cp949: 0x8d62, ucs2: 0xb6df},
		lookupItem{cp949: 0x8d63, ucs2: 0xb6e0},
		lookupItem{cp949: 0x8d64, ucs2: 0xb6e1},
		lookupItem{cp949: 0x8d65, ucs2: 0xb6e2},
		lookupItem{cp949: 0x8d66, ucs2: 0xb6e3},
		lookupItem{cp949: 0x8d67, ucs2: 0xb6e4},
		lookupItem{cp949: 0x8d68, ucs2: 0xb6e5},
		lookupItem{cp949: 0x8d69, ucs2: 0xb6e6},
		lookupItem{cp949: 0x8d6a, ucs2: 0xb6e7},
		lookupItem{cp949: 0x8d6b, ucs2: 0xb6e8},
		lookupItem{cp949: 0x8d6c, ucs2: 0xb6e9},
		lookupItem{cp949: 0x8d6d, ucs2: 0xb6ea},
		lookupItem{cp949: 0x8d6e, ucs2: 0xb6eb},
		lookupItem{cp949: 0x8d6f, ucs2: 0xb6ec},
		lookupItem{cp949: 0x8d70, ucs2: 0xb6ed},
		lookupItem{cp949: 0x8d71, ucs2: 0xb6ee},
		lookupItem{cp949: 0x8d72, ucs2: 0xb6ef},
		lookupItem{cp949: 0x8d73, ucs2: 0xb6f1},
		lookupItem{cp949: 0x8d74, ucs2: 0xb6f2},
		lookupItem{cp949: 0x8d75, ucs2: 0xb6f3},
		lookupItem{cp949: 0x8d76, ucs2: 0xb6f5},
		lookupItem{cp949: 0x8d77, ucs2: 0xb6f6},
		lookupItem{cp949: 0x8d78, ucs2: 0xb6f7},
		lookupItem{cp949: 0x8d79, ucs2: 0xb6f9},
		lookupItem{cp949: 0x8d7a, ucs2: 0xb6fa},
		lookupItem{cp949: 0x8d81, ucs2: 0xb6fb},
		lookupItem{cp949: 0x8d82, ucs2: 0xb6fc},
		lookupItem{cp949: 0x8d83, ucs2: 0xb6fd},
		lookupItem{cp949: 0x8d84, ucs2: 0xb6fe},
		lookupItem{cp949: 0x8d85, ucs2: 0xb6ff},
		lookupItem{cp949: 0x8d86, ucs2: 0xb702},
		lookupItem{cp949: 0x8d87, ucs2: 0xb703},
		lookupItem{cp949: 0x8d88, ucs2: 0xb704},
		lookupItem{cp949: 0x8d89, ucs2: 0xb706},
		lookupItem{cp949: 0x8d8a, ucs2: 0xb707},
		lookupItem{cp949: 0x8d8b, ucs2: 0xb708},
		lookupItem{cp949: 0x8d8c, ucs2: 0xb709},
		lookupItem{cp949: 0x8d8d, ucs2: 0xb70a},
		lookupItem{cp949: 0x8d8e, ucs2: 0xb70b},
		lookupItem{cp949: 0x8d8f, ucs2: 0xb70c},
		lookupItem{cp949: 0x8d90, ucs2: 0xb70d},
		lookupItem{cp949: 0x8d91, ucs2: 0xb70e},
		lookupItem{cp949: 0x8d92, ucs2: 0xb70f},
		lookupItem{cp949: 0x8d93, ucs2: 0xb710},
		lookupItem{cp949: 0x8d94, ucs2: 0xb711},
		lookupItem{cp949: 0x8d95, ucs2: 0xb712},
		lookupItem{cp949: 0x8d96, ucs2: 0xb713},
		lookupItem{cp949: 0x8d97, ucs2: 0xb714},
		lookupItem{cp949: 0x8d98, ucs2: 0xb715},
		lookupItem{cp949: 0x8d99, ucs2: 0xb716},
		lookupItem{cp949: 0x8d9a, ucs2: 0xb717},
		lookupItem{cp949: 0x8d9b, ucs2: 0xb718},
		lookupItem{cp949: 0x8d9c, ucs2: 0xb719},
		lookupItem{cp949: 0x8d9d, ucs2: 0xb71a},
		lookupItem{cp949: 0x8d9e, ucs2: 0xb71b},
		lookupItem{cp949: 0x8d9f, ucs2: 0xb71c},
		lookupItem{cp949: 0x8da0, ucs2: 0xb71d},
		lookupItem{cp949: 0x8da1, ucs2: 0xb71e},
		lookupItem{cp949: 0x8da2, ucs2: 0xb71f},
		lookupItem{cp949: 0x8da3, ucs2: 0xb720},
		lookupItem{cp949: 0x8da4, ucs2: 0xb721},
		lookupItem{cp949: 0x8da5, ucs2: 0xb722},
		lookupItem{cp949: 0x8da6, ucs2: 0xb723},
		lookupItem{cp949: 0x8da7, ucs2: 0xb724},
		lookupItem{cp949: 0x8da8, ucs2: 0xb725},
		lookupItem{cp949: 0x8da9, ucs2: 0xb726},
		lookupItem{cp949: 0x8daa, ucs2: 0xb727},
		lookupItem{cp949: 0x8dab, ucs2: 0xb72a},
		lookupItem{cp949: 0x8dac, ucs2: 0xb72b},
		lookupItem{cp949: 0x8dad, ucs2: 0xb72d},
		lookupItem{cp949: 0x8dae, ucs2: 0xb72e},
		lookupItem{cp949: 0x8daf, ucs2: 0xb731},
		lookupItem{cp949: 0x8db0, ucs2: 0xb732},
		lookupItem{cp949: 0x8db1, ucs2: 0xb733},
		lookupItem{cp949: 0x8db2, ucs2: 0xb734},
		lookupItem{cp949: 0x8db3, ucs2: 0xb735},
		lookupItem{cp949: 0x8db4, ucs2: 0xb736},
		lookupItem{cp949: 0x8db5, ucs2: 0xb737},
		lookupItem{cp949: 0x8db6, ucs2: 0xb73a},
".
Definition text_cp949_lookup_from_009 : string :=
"		lookupItem{cp949: 0x8db7, ucs2: 0xb73c},
		lookupItem{cp949: 0x8db8, ucs2: 0xb73d},
		lookupItem{cp949: 0x8db9, ucs2: 0xb73e},
		lookupItem{cp949: 0x8dba, ucs2: 0xb73f},
		lookupItem{cp949: 0x8dbb, ucs2: 0xb740},
		lookupItem{cp949: 0x8dbc, ucs2: 0xb741},
		lookupItem{cp949: 0x8dbd, ucs2: 0xb742},
		lookupItem{cp949: 0x8dbe, ucs2: 0xb743},
		lookupItem{cp949: 0x8dbf, ucs2: 0xb745},
		lookupItem{cp949: 0x8dc0, ucs2: 0xb746},
		lookupItem{cp949: 0x8dc1, ucs2: 0xb747},
		lookupItem{cp949: 0x8dc2, ucs2: 0xb749},
		lookupItem{cp949: 0x8dc3, ucs2: 0xb74a},
		lookupItem{cp949: 0x8dc4, ucs2: 0xb74b},
		lookupItem{cp949: 0x8dc5, ucs2: 0xb74d},
		lookupItem{cp949: 0x8dc6, ucs2: 0xb74e},
		lookupItem{cp949: 0x8dc7, ucs2: 0xb74f},
		lookupItem{cp949: 0x8dc8, ucs2: 0xb750},
		lookupItem{cp949: 0x8dc9, ucs2: 0xb751},
		lookupItem{cp949: 0x8dca, ucs2: 0xb752},
		lookupItem{cp949: 0x8dcb, ucs2: 0xb753},
		lookupItem{cp949: 0x8dcc, ucs2: 0xb756},
		lookupItem{cp949: 0x8dcd, ucs2: 0xb757},
		lookupItem{cp949: 0x8dce, ucs2: 0xb758},
		lookupItem{cp949: 0x8dcf, ucs2: 0xb759},
		lookupItem{cp949: 0x8dd0, ucs2: 0xb75a},
		lookupItem{cp949: 0x8dd1, ucs2: 0xb75b},
		lookupItem{cp949: 0x8dd2, ucs2: 0xb75c},
		lookupItem{cp949: 0x8dd3, ucs2: 0xb75d},
		lookupItem{cp949: 0x8dd4, ucs2: 0xb75e},
		lookupItem{cp949: 0x8dd5, ucs2: 0xb75f},
		lookupItem{cp949: 0x8dd6, ucs2: 0xb761},
		lookupItem{cp949: 0x8dd7, ucs2: 0xb762},
		lookupItem{cp949: 0x8dd8, ucs2: 0xb763},
		lookupItem{cp949: 0x8dd9, ucs2: 0xb765},
		lookupItem{cp949: 0x8dda, ucs2: 0xb766},
		lookupItem{cp949: 0x8ddb, ucs2: 0xb767},
		lookupItem{cp949: 0x8ddc, ucs2: 0xb769},
		lookupItem{cp949: 0x8ddd, ucs2: 0xb76a},
		lookupItem{cp949: 0x8dde, ucs2: 0xb76b},
		lookupItem{cp949: 0x8ddf, ucs2: 0xb76c},
		lookupItem{cp949: 0x8de0, ucs2: 0xb76d},
		lookupItem{cp949: 0x8de1, ucs2: 0xb76e},
		lookupItem{cp949: 0x8de2, ucs2: 0xb76f},
		lookupItem{cp949: 0x8de3, ucs2: 0xb772},
		lookupItem{cp949: 0x8de4, ucs2: 0xb774},
		lookupItem{cp949: 0x8de5, ucs2: 0xb776},
		lookupItem{cp949: 0x8de6, ucs2: 0xb777},
		lookupItem{cp949: 0x8de7, ucs2: 0xb778},
		lookupItem{cp949: 0x8de8, ucs2: 0xb779},
		lookupItem{cp949: 0x8de9, ucs2: 0xb77a},
		lookupItem{cp949: 0x8dea, ucs2: 0xb77b},
		lookupItem{cp949: 0x8deb, ucs2: 0xb77e},
		lookupItem{cp949: 0x8dec, ucs2: 0xb77f},
		lookupItem{cp949: 0x8ded, ucs2: 0xb781},
		lookupItem{cp949: 0x8dee, ucs2: 0xb782},
		lookupItem{cp949: 0x8def, ucs2: 0xb783},
		lookupItem{cp949: 0x8df0, ucs2: 0xb785},
		lookupItem{cp949: 0x8df1, ucs2: 0xb786},
		lookupItem{cp949: 0x8df2, ucs2: 0xb787},
		lookupItem{cp949: 0x8df3, ucs2: 0xb788},
		lookupItem{cp949: 0x8df4, ucs2: 0xb789},
		lookupItem{cp949: 0x8df5, ucs2: 0xb78a},
		lookupItem{cp949: 0x8df6, ucs2: 0xb78b},
		lookupItem{cp949: 0x8df7, ucs2: 0xb78e},
		lookupItem{cp949: 0x8df8, ucs2: 0xb793},
		lookupItem{cp949: 0x8df9, ucs2: 0xb794},
		lookupItem{cp949: 0x8dfa, ucs2: 0xb795},
		lookupItem{cp949: 0x8dfb, ucs2: 0xb79a},
		lookupItem{cp949: 0x8dfc, ucs2: 0xb79b},
		lookupItem{cp949: 0x8dfd, ucs2: 0xb79d},
		lookupItem{cp949: 0x8dfe, ucs2: 0xb79e},
		lookupItem{cp949: 0x8e41, ucs2: 0xb79f},
		lookupItem{cp949: 0x8e42, ucs2: 0xb7a1},
		lookupItem{cp949: 0x8e43, ucs2: 0xb7a2},
		lookupItem{cp949: 0x8e44, ucs2: 0xb7a3},
		lookupItem{cp949: 0x8e45, ucs2: 0xb7a4},
		lookupItem{cp949: 0x8e46, ucs2: 0xb7a5},
		lookupItem{cp949: 0x8e47, ucs2: 0xb7a6},
		lookupItem{cp949: 0x8e48, ucs2: 0xb7a7},
		lookupItem{cp949: 0x8e49, ucs2: 0xb7aa},
		lookupItem{cp949: 0x8e4a, ucs2: 0xb7ae},
		lookupItem{cp949: 0x8e4b, ucs2: 0xb7af},
		lookupItem{cp949: 0x8e4c, ucs2: 0xb7b0},
		lookupItem{cp949: 0x8e4d, ucs2: 0xb7b1},
		lookupItem{cp949: 0x8e4e, ucs2: 0xb7b2},
		lookupItem{cp949: 0x8e4f, ucs2: 0xb7b3},
		lookupItem{cp949: 0x8e50, ucs2: 0xb7b6},
		lookupItem{cp949: 0x8e51, ucs2: 0xb7b7},
		lookupItem{cp949: 0x8e52, ucs2: 0xb7b9},
		lookupItem{cp949: 0x8e53, ucs2: 0xb7ba},
		lookupItem{cp949: 0x8e54, ucs2: 0xb7bb},
		lookupItem{cp949: 0x8e55, ucs2: 0xb7bc},
		lookupItem{cp949: 0x8e56, ucs2: 0xb7bd},
		lookupItem{cp949: 0x8e57, ucs2: 0xb7be},
		lookupItem{cp949: 0x8e58, ucs2: 0xb7bf},
		lookupItem{cp949: 0x8e59, ucs2: 0xb7c0},
		lookupItem{cp949: 0x8e5a, ucs2: 0xb7c1},
		lookupItem{cp949: 0x8e61, ucs2: 0xb7c2},
		lookupItem{cp949: 0x8e62, ucs2: 0xb7c3},
		lookupItem{cp949: 0x8e63, ucs2: 0xb7c4},
		lookupItem{cp949: 0x8e64, ucs2: 0xb7c5},
		lookupItem{cp949: 0x8e65, ucs2: 0xb7c6},
		lookupItem{cp949: 0x8e66, ucs2: 0xb7c8},
		lookupItem{cp949: 0x8e67, ucs2: 0xb7ca},
		lookupItem{cp949: 0x8e68, ucs2: 0xb7cb},
		lookupItem{cp949: 0x8e69, ucs2: 0xb7cc},
		lookupItem{cp949: 0x8e6a, ucs2: 0xb7cd},
		lookupItem{cp949: 0x8e6b, ucs2: 0xb7ce},
		lookupItem{cp949: 0x8e6c, ucs2: 0xb7cf},
		lookupItem{cp949: 0x8e6d, ucs2: 0xb7d0},
		lookupItem{cp949: 0x8e6e, ucs2: 0xb7d1},
		lookupItem{cp949: 0x8e6f, ucs2: 0xb7d2},
		lookupItem{cp949: 0x8e70, ucs2: 0xb7d3},
		lookupItem{cp949: 0x8e71, ucs2: 0xb7d4},
		lookupItem{cp949: 0x8e72, ucs2: 0xb7d5},
		lookupItem{cp949: 0x8e73, ucs2: 0xb7d6},
		lookupItem{cp949: 0x8e74, ucs2: 0xb7d7},
		lookupItem{cp949: 0x8e75, ucs2: 0xb7d8},
		lookupItem{cp949: 0x8e76, ucs2: 0xb7d9},
		lookupItem{cp949: 0x8e77, ucs2: 0xb7da},
		lookupItem{cp949: 0x8e78, ucs2: 0xb7db},
		lookupItem{cp949: 0x8e79, ucs2: 0xb7dc},
		lookupItem{cp949: 0x8e7a, ucs2: 0xb7dd},
		lookupItem{cp949: 0x8e81, ucs2: 0xb7de},
		lookupItem{cp949: 0x8e82, ucs2: 0xb7df},
		lookupItem{cp949: 0x8e83, ucs2: 0xb7e0},
		lookupItem{cp949: 0x8e84, ucs2: 0xb7e1},
		lookupItem{cp949: 0x8e85, ucs2: 0xb7e2},
		lookupItem{cp949: 0x8e86, ucs2: 0xb7e3},
		lookupItem{cp949: 0x8e87, ucs2: 0xb7e4},
		lookupItem{cp949: 0x8e88, ucs2: 0xb7e5},
		lookupItem{cp949: 0x8e89, ucs2: 0xb7e6},
		lookupItem{cp949: 0x8e8a, ucs2: 0xb7e7},
		lookupItem{cp949: 0x8e8b, ucs2: 0xb7e8},
		lookupItem{cp949: 0x8e8c, ucs2: 0xb7e9},
		lookupItem{cp949: 0x8e8d, ucs2: 0xb7ea},
		lookupItem{cp949: 0x8e8e, ucs2: 0xb7eb},
		lookupItem{cp949: 0x8e8f, ucs2: 0xb7ee},
		lookupItem{cp949: 0x8e90, ucs2: 0xb7ef},
		lookupItem{cp949: 0x8e91, ucs2: 0xb7f1},
		lookupItem{cp949: 0x8e92, ucs2: 0xb7f2},
		lookupItem{cp949: 0x8e93, ucs2: 0xb7f3},
		lookupItem{cp949: 0x8e94, ucs2: 0xb7f5},
		lookupItem{cp949: 0x8e95, ucs2: 0xb7f6},
		lookupItem{cp949: 0x8e96, ucs2: 0xb7f7},
		lookupItem{cp949: 0x8e97, ucs2: 0xb7f8},
		lookupItem{cp949: 0x8e98, ucs2: 0xb7f9},
		lookupItem{cp949: 0x8e99, ucs2: 0xb7fa},
		lookupItem{cp949: 0x8e9a, ucs2: 0xb7fb},
		lookupItem{cp949: 0x8e9b, ucs2: 0xb7fe},
		lookupItem{cp949: 0x8e9c, ucs2: 0xb802},
		lookupItem{cp949: 0x8e9d, ucs2: 0xb803},
		lookupItem{cp949: 0x8e9e, ucs2: 0xb804},
		lookupItem{cp949: 0x8e9f, ucs2: 0xb805},
		lookupItem{cp949: 0x8ea0, ucs2: 0xb806},
		lookupItem{cp949: 0x8ea1, ucs2: 0xb80a},
		lookupItem{cp949: 0x8ea2, ucs2: 0xb80b},
		lookupItem{cp949: 0x8ea3, ucs2: 0xb80d},
		lookupItem{cp949: 0x8ea4, ucs2: 0xb80e},
		lookupItem{cp949: 0x8ea5, ucs2: 0xb80f},
		lookupItem{cp949: 0x8ea6, ucs2: 0xb811},
		lookupItem{cp949: 0x8ea7, ucs2: 0xb812},
		lookupItem{cp949: 0x8ea8, ucs2: 0xb813},
		lookupItem{cp949: 0x8ea9, ucs2: 0xb814},
		lookupItem{cp949: 0x8eaa, ucs2: 0xb815},
		lookupItem{cp949: 0x8eab, ucs2: 0xb816},
		lookupItem{cp949: 0x8eac, ucs2: 0xb817},
		lookupItem{cp949: 0x8ead, ucs2: 0xb81a},
		lookupItem{cp949: 0x8eae, ucs2: 0xb81c},
		lookupItem{cp949: 0x8eaf, ucs2: 0xb81e},
		lookupItem{cp949: 0x8eb0, ucs2: 0xb81f},
		lookupItem{cp949: 0x8eb1, ucs2: 0xb820},
		lookupItem{cp949: 0x8eb2, ucs2: 0xb821},
		lookupItem{cp949: 0x8eb3, ucs2: 0xb822},
		lookupItem{cp949: 0x8eb4, ucs2: 0xb823},
		lookupItem{cp949: 0x8eb5, ucs2: 0xb826},
		lookupItem{cp949: 0x8eb6, ucs2: 0xb827},
		lookupItem{cp949: 0x8eb7, ucs2: 0xb829},
		lookupItem{cp949: 0x8eb8, ucs2: 0xb82a},
		lookupItem{cp949: 0x8eb9, ucs2: 0xb82b},
		lookupItem{cp949: 0x8eba, ucs2: 0xb82d},
		lookupItem{cp949: 0x8ebb, ucs2: 0xb82e},
		lookupItem{cp949: 0x8ebc, ucs2: 0xb82f},
		lookupItem{cp949: 0x8ebd, ucs2: 0xb830},
		lookupItem{cp949: 0x8ebe, ucs2: 0xb831},
		lookupItem{cp949: 0x8ebf, ucs2: 0xb832},
		lookupItem{cp949: 0x8ec0, ucs2: 0xb833},
		lookupItem{cp949: 0x8ec1, ucs2: 0xb836},
		lookupItem{cp949: 0x8ec2, ucs2: 0xb83a},
		lookupItem{cp949: 0x8ec3, ucs2: 0xb83b},
		lookupItem{cp949: 0x8ec4, ucs2: 0xb83c},
		lookupItem{cp949: 0x8ec5, ucs2: 0xb83d},
		lookupItem{cp949: 0x8ec6, ucs2: 0xb83e},
		lookupItem{cp949: 0x8ec7, ucs2: 0xb83f},
		lookupItem{cp949: 0x8ec8, ucs2: 0xb841},
		lookupItem{cp949: 0x8ec9, ucs2: 0xb842},
		lookupItem{cp949: 0x8eca, ucs2: 0xb843},
		lookupItem{cp949: 0x8ecb, ucs2: 0xb845},
		lookupItem{cp949: 0x8ecc, ucs2: 0xb846},
		lookupItem{cp949: 0x8ecd, ucs2: 0xb847},
		lookupItem{cp949: 0x8ece, ucs2: 0xb848},
		lookupItem{cp949: 0x8ecf, ucs2: 0xb849},
		lookupItem{cp949: 0x8ed0, ucs2: 0xb84a},
		lookupItem{cp949: 0x8ed1, ucs2: 0xb84b},
		lookupItem{cp949: 0x8ed2, ucs2: 0xb84c},
		lookupItem{cp949: 0x8ed3, ucs2: 0xb84d},
		lookupItem{cp949: 0x8ed4, ucs2: 0xb84e},
		lookupItem{cp949: 0x8ed5, ucs2: 0xb84f},
		lookupItem{cp949: 0x8ed6, ucs2: 0xb850},
		lookupItem{cp949: 0x8ed7, ucs2: 0xb852},
		lookupItem{cp949: 0x8ed8, ucs2: 0xb854},
		lookupItem{cp949: 0x8ed9, ucs2: 0xb855},
		lookupItem{cp949: 0x8eda, ucs2: 0xb856},
		lookupItem{cp949: 0x8edb, ucs2: 0xb857},
		lookupItem{cp949: 0x8edc, ucs2: 0xb858},
		lookupItem{cp949: 0x8edd, ucs2: 0xb859},
		lookupItem{cp949: 0x8ede, ucs2: 0xb85a},
		lookupItem{cp949: 0x8edf, ucs2: 0xb85b},
		lookupItem{cp949: 0x8ee0, ucs2: 0xb85e},
		lookupItem{cp949: 0x8ee1, ucs2: 0xb85f},
		lookupItem{cp949: 0x8ee2, ucs2: 0xb861},
		lookupItem{cp949: 0x8ee3, ucs2: 0xb862},
		lookupItem{cp949: 0x8ee4, ucs2: 0xb863},
		lookupItem{cp949: 0x8ee5, ucs2: 0xb865},
		lookupItem{cp949: 0x8ee6, ucs2: 0xb866},
		lookupItem{cp949: 0x8ee7, ucs2: 0xb867},
		lookupItem{cp949: 0x8ee8, ucs2: 0xb868},
		lookupItem{cp949: 0x8ee9, ucs2: 0xb869},
		lookupItem{cp949: 0x8eea, ucs2: 0xb86a},
		lookupItem{cp949: 0x8eeb, ucs2: 0xb86b},
		lookupItem{cp949: 0x8eec, ucs2: 0xb86e},
		lookupItem{cp949: 0x8eed, ucs2: 0xb870},
		lookupItem{cp949: 0x8eee, ucs2: 0xb872},
		lookupItem{cp949: 0x8eef, ucs2: 0xb873},
		lookupItem{cp949: 0x8ef0, ucs2: 0xb874},
		lookupItem{cp949: 0x8ef1, ucs2: 0xb875},
		lookupItem{cp949: 0x8ef2, ucs2: 0xb876},
		lookupItem{cp949: 0x8ef3, ucs2: 0xb877},
		lookupItem{cp949: 0x8ef4, ucs2: 0xb879},
		lookupItem{cp949: 0x8ef5, ucs2: 0xb87a},
		lookupItem{cp949: 0x8ef6, ucs2: 0xb87b},
		lookupItem{cp949: 0x8ef7, ucs2: 0xb87d},
		lookupItem{cp949: 0x8ef8, ucs2: 0xb87e},
		lookupItem{cp949: 0x8ef9, ucs2: 0xb87f},
		lookupItem{cp949: 0x8efa, ucs2: 0xb880},
		lookupItem{cp949: 0x8efb, ucs2: 0xb881},
		lookupItem{cp949: 0x8efc, ucs2: 0xb882},
		lookupItem{cp949: 0x8efd, ucs2: 0xb883},
		lookupItem{cp949: 0x8efe, ucs2: 0xb884},
".
Definition text_cp949_lookup_from_010 : string :=
"		lookupItem{cp949: 0x8f41, ucs2: 0xb885},
		lookupItem{cp949: 0x8f42, ucs2: 0xb886},
		lookupItem{cp949: 0x8f43, ucs2: 0xb887},
		lookupItem{cp949: 0x8f44, ucs2: 0xb888},
		lookupItem{cp949: 0x8f45, ucs2: 0xb889},
		lookupItem{cp949: 0x8f46, ucs2: 0xb88a},
		lookupItem{cp949: 0x8f47, ucs2: 0xb88b},
		lookupItem{cp949: 0x8f48, ucs2: 0xb88c},
		lookupItem{cp949: 0x8f49, ucs2: 0xb88e},
		lookupItem{cp949: 0x8f4a, ucs2: 0xb88f},
		lookupItem{cp949: 0x8f4b, ucs2: 0xb890},
		lookupItem{cp949: 0x8f4c, ucs2: 0xb891},
		lookupItem{cp949: 0x8f4d, ucs2: 0xb892},
		lookupItem{cp949: 0x8f4e, ucs2: 0xb893},
		lookupItem{cp949: 0x8f4f, ucs2: 0xb894},
		lookupItem{cp949: 0x8f50, ucs2: 0xb895},
		lookupItem{cp949: 0x8f51, ucs2: 0xb896},
		lookupItem{cp949: 0x8f52, ucs2: 0xb897},
		lookupItem{cp949: 0x8f53, ucs2: 0xb898},
		lookupItem{cp949: 0x8f54, ucs2: 0xb899},
		lookupItem{cp949: 0x8f55, ucs2: 0xb89a},
		lookupItem{cp949: 0x8f56, ucs2: 0xb89b},
		lookupItem{cp949: 0x8f57, ucs2: 0xb89c},
		lookupItem{cp949: 0x8f58, ucs2: 0xb89d},
		lookupItem{cp949: 0x8f59, ucs2: 0xb89e},
		lookupItem{cp949: 0x8f5a, ucs2: 0xb89f},
		lookupItem{cp949: 0x8f61, ucs2: 0xb8a0},
		lookupItem{cp949: 0x8f62, ucs2: 0xb8a1},
		lookupItem{cp949: 0x8f63, ucs2: 0xb8a2},
		lookupItem{cp949: 0x8f64, ucs2: 0xb8a3},
		lookupItem{cp949: 0x8f65, ucs2: 0xb8a4},
		lookupItem{cp949: 0x8f66, ucs2: 0xb8a5},
		lookupItem{cp949: 0x8f67, ucs2: 0xb8a6},
		lookupItem{cp949: 0x8f68, ucs2: 0xb8a7},
		lookupItem{cp949: 0x8f69, ucs2: 0xb8a9},
		lookupItem{cp949: 0x8f6a, ucs2: 0xb8aa},
		lookupItem{cp949: 0x8f6b, ucs2: 0xb8ab},
		lookupItem{cp949: 0x8f6c, ucs2: 0xb8ac},
		lookupItem{cp949: 0x8f6d, ucs2: 0xb8ad},
		lookupItem{cp949: 0x8f6e, ucs2: 0xb8ae},
		lookupItem{cp949: 0x8f6f, ucs2: 0xb8af},
		lookupItem{cp949: 0x8f70, ucs2: 0xb8b1},
		lookupItem{cp949: 0x8f71, ucs2: 0xb8b2},
		lookupItem{cp949: 0x8f72, ucs2: 0xb8b3},
		lookupItem{cp949: 0x8f73, ucs2: 0xb8b5},
		lookupItem{cp949: 0x8f74, ucs2: 0xb8b6},
		lookupItem{cp949: 0x8f75, ucs2: 0xb8b7},
		lookupItem{cp949: 0x8f76, ucs2: 0xb8b9},
		lookupItem{cp949: 0x8f77, ucs2: 0xb8ba},
		lookupItem{cp949: 0x8f78, ucs2: 0xb8bb},
		lookupItem{cp949: 0x8f79, ucs2: 0xb8bc},
		lookupItem{cp949: 0x8f7a, ucs2: 0xb8bd},
		lookupItem{cp949: 0x8f81, ucs2: 0xb8be},
		lookupItem{cp949: 0x8f82, ucs2: 0xb8bf},
		lookupItem{cp949: 0x8f83, ucs2: 0xb8c2},
		lookupItem{cp949: 0x8f84, ucs2: 0xb8c4},
		lookupItem{cp949: 0x8f85, ucs2: 0xb8c6},
		lookupItem{cp949: 0x8f86, ucs2: 0xb8c7},
		lookupItem{cp949: 0x8f87, ucs2: 0xb8c8},
		lookupItem{cp949: 0x8f88, ucs2: 0xb8c9},
		lookupItem{cp949: 0x8f89, ucs2: 0xb8ca},
		lookupItem{cp949: 0x8f8a, ucs2: 0xb8cb},
		lookupItem{cp949: 0x8f8b, ucs2: 0xb8cd},
		lookupItem{cp949: 0x8f8c, ucs2: 0xb8ce},
		lookupItem{cp949: 0x8f8d, ucs2: 0xb8cf},
		lookupItem{cp949: 0x8f8e, ucs2: 0xb8d1},
		lookupItem{cp949: 0x8f8f, ucs2: 0xb8d2},
		lookupItem{cp949: 0x8f90, ucs2: 0xb8d3},
		lookupItem{cp949: 0x8f91, ucs2: 0xb8d5},
		lookupItem{cp949: 0x8f92, ucs2: 0xb8d6},
		lookupItem{cp949: 0x8f93, ucs2: 0xb8d7},
		lookupItem{cp949: 0x8f94, ucs2: 0xb8d8},
		lookupItem{cp949: 0x8f95, ucs2: 0xb8d9},
		lookupItem{cp949: 0x8f96, ucs2: 0xb8da},
		lookupItem{cp949: 0x8f97, ucs2: 0xb8db},
		lookupItem{cp949: 0x8f98, ucs2: 0xb8dc},
		lookupItem{cp949: 0x8f99, ucs2: 0xb8de},
		lookupItem{cp949: 0x8f9a, ucs2: 0xb8e0},
		lookupItem{cp949: 0x8f9b, ucs2: 0xb8e2},
		lookupItem{cp949: 0x8f9c, ucs2: 0xb8e3},
		lookupItem{cp949: 0x8f9d, ucs2: 0xb8e4},
		lookupItem{cp949: 0x8f9e, ucs2: 0xb8e5},
		lookupItem{cp949: 0x8f9f, ucs2: 0xb8e6},
		lookupItem{cp949: 0x8fa0, ucs2: 0xb8e7},
		lookupItem{cp949: 0x8fa1, ucs2: 0xb8ea},
		lookupItem{cp949: 0x8fa2, ucs2: 0xb8eb},
		lookupItem{cp949: 0x8fa3, ucs2: 0xb8ed},
		lookupItem{cp949: 0x8fa4, ucs2: 0xb8ee},
		lookupItem{cp949: 0x8fa5, ucs2: 0xb8ef},
		lookupItem{cp949: 0x8fa6, ucs2: 0xb8f1},
		lookupItem{cp949: 0x8fa7, ucs2: 0xb8f2},
		lookupItem{cp949: 0x8fa8, ucs2: 0xb8f3},
		lookupItem{cp949: 0x8fa9, ucs2: 0xb8f4},
		lookupItem{cp949: 0x8faa, ucs2: 0xb8f5},
		lookupItem{cp949: 0x8fab, ucs2: 0xb8f6},
		lookupItem{cp949: 0x8fac, ucs2: 0xb8f7},
		lookupItem{cp949: 0x8fad, ucs2: 0xb8fa},
		lookupItem{cp949: 0x8fae, ucs2: 0xb8fc},
		lookupItem{cp949: 0x8faf, ucs2: 0xb8fe},
		lookupItem{cp949: 0x8fb0, ucs2: 0xb8ff},
		lookupItem{cp949: 0x8fb1, ucs2: 0xb900},
		lookupItem{cp949: 0x8fb2, ucs2: 0xb901},
		lookupItem{cp949: 0x8fb3, ucs2: 0xb902},
		lookupItem{cp949: 0x8fb4, ucs2: 0xb903},
		lookupItem{cp949: 0x8fb5, ucs2: 0xb905},
		lookupItem{cp949: 0x8fb6, ucs2: 0xb906},
		lookupItem{cp949: 0x8fb7, ucs2: 0xb907},
		lookupItem{cp949: 0x8fb8, ucs2: 0xb908},
		lookupItem{cp949: 0x8fb9, ucs2: 0xb909},
		lookupItem{cp949: 0x8fba, ucs2: 0xb90a},
		lookupItem{cp949: 0x8fbb, ucs2: 0xb90b},
		lookupItem{cp949: 0x8fbc, ucs2: 0xb90c},
		lookupItem{cp949: 0x8fbd, ucs2: 0xb90d},
		lookupItem{cp949: 0x8fbe, ucs2: 0xb90e},
		lookupItem{cp949: 0x8fbf, ucs2: 0xb90f},
		lookupItem{cp949: 0x8fc0, ucs2: 0xb910},
		lookupItem{cp949: 0x8fc1, ucs2: 0xb911},
		lookupItem{cp949: 0x8fc2, ucs2: 0xb912},
		lookupItem{cp949: 0x8fc3, ucs2: 0xb913},
		lookupItem{cp949: 0x8fc4, ucs2: 0xb914},
		lookupItem{cp949: 0x8fc5, ucs2: 0xb915},
		lookupItem{cp949: 0x8fc6, ucs2: 0xb916},
		lookupItem{cp949: 0x8fc7, ucs2: 0xb917},
		lookupItem{cp949: 0x8fc8, ucs2: 0xb919},
		lookupItem{cp949: 0x8fc9, ucs2: 0xb91a},
		lookupItem{cp949: 0x8fca, ucs2: 0xb91b},
		lookupItem{cp949: 0x8fcb, ucs2: 0xb91c},
		lookupItem{cp949: 0x8fcc, ucs2: 0xb91d},
		lookupItem{cp949: 0x8fcd, ucs2: 0xb91e},
		lookupItem{cp949: 0x8fce, ucs2: 0xb91f},
		lookupItem{cp949: 0x8fcf, ucs2: 0xb921},
		lookupItem{cp949: 0x8fd0, ucs2: 0xb922},
		lookupItem{cp949: 0x8fd1, ucs2: 0xb923},
		lookupItem{cp949: 0x8fd2, ucs2: 0xb924},
		lookupItem{cp949: 0x8fd3, ucs2: 0xb925},
		lookupItem{cp949: 0x8fd4, ucs2: 0xb926},
		lookupItem{cp949: 0x8fd5, ucs2: 0xb927},
		lookupItem{cp949: 0x8fd6, ucs2: 0xb928},
		lookupItem{cp949: 0x8fd7, ucs2: 0xb929},
		lookupItem{cp949: 0x8fd8, ucs2: 0xb92a},
		lookupItem{cp949: 0x8fd9, ucs2: 0xb92b},
		lookupItem{cp949: 0x8fda, ucs2: 0xb92c},
		lookupItem{cp949: 0x8fdb, ucs2: 0xb92d},
		lookupItem{cp949: 0x8fdc, ucs2: 0xb92e},
		lookupItem{cp949: 0x8fdd, ucs2: 0xb92f},
		lookupItem{cp949: 0x8fde, ucs2: 0xb930},
		lookupItem{cp949: 0x8fdf, ucs2: 0xb931},
		lookupItem{cp949: 0x8fe0, ucs2: 0xb932},
		lookupItem{cp949: 0x8fe1, ucs2: 0xb933},
		lookupItem{cp949: 0x8fe2, ucs2: 0xb934},
		lookupItem{cp949: 0x8fe3, ucs2: 0xb935},
		lookupItem{cp949: 0x8fe4, ucs2: 0xb936},
		lookupItem{cp949: 0x8fe5, ucs2: 0xb937},
		lookupItem{cp949: 0x8fe6, ucs2: 0xb938},
		lookupItem{cp949: 0x8fe7, ucs2: 0xb939},
		lookupItem{cp949: 0x8fe8, ucs2: 0xb93a},
		lookupItem{cp949: 0x8fe9, ucs2: 0xb93b},
		lookupItem{cp949: 0x8fea, ucs2: 0xb93e},
		lookupItem{cp949: 0x8feb, ucs2: 0xb93f},
		lookupItem{cp949: 0x8fec, ucs2: 0xb941},
		lookupItem{cp949: 0x8fed, ucs2: 0xb942},
		lookupItem{cp949: 0x8fee, ucs2: 0xb943},
		lookupItem{cp949: 0x8fef, ucs2: 0xb945},
		lookupItem{cp949: 0x8ff0, ucs2: 0xb946},
		lookupItem{cp949: 0x8ff1, ucs2: 0xb947},
		lookupItem{cp949: 0x8ff2, ucs2: 0xb948},
		lookupItem{cp949: 0x8ff3, ucs2: 0xb949},
		lookupItem{cp949: 0x8ff4, ucs2: 0xb94a},
		lookupItem{cp949: 0x8ff5, ucs2: 0xb94b},
		lookupItem{cp949: 0x8ff6, ucs2: 0xb94d},
		lookupItem{cp949: 0x8ff7, ucs2: 0xb94e},
		lookupItem{cp949: 0x8ff8, ucs2: 0xb950},
		lookupItem{cp949: 0x8ff9, ucs2: 0xb952},
		lookupItem{cp949: 0x8ffa, ucs2: 0xb953},
		lookupItem{cp949: 0x8ffb, ucs2: 0xb954},
		lookupItem{cp949: 0x8ffc, ucs2: 0xb955},
		lookupItem{cp949: 0x8ffd, ucs2: 0xb956},
		lookupItem{cp949: 0x8ffe, ucs2: 0xb957},
		lookupItem{cp949: 0x9041, ucs2: 0xb95a},
		lookupItem{cp949: 0x9042, ucs2: 0xb95b},
		lookupItem{cp949: 0x9043, ucs2: 0xb95d},
		lookupItem{cp949: 0x9044, ucs2: 0xb95e},
		lookupItem{cp949: 0x9045, ucs2: 0xb95f},
		lookupItem{cp949: 0x9046, ucs2: 0xb961},
		lookupItem{cp949: 0x9047, ucs2: 0xb962},
		lookupItem{cp949: 0x9048, ucs2: 0xb963},
		lookupItem{cp949: 0x9049, ucs2: 0xb964},
		lookupItem{cp949: 0x904a, ucs2: 0xb965},
		lookupItem{cp949: 0x904b, ucs2: 0xb966},
		lookupItem{cp949: 0x904c, ucs2: 0xb967},
		lookupItem{cp949: 0x904d, ucs2: 0xb96a},
		lookupItem{cp949: 0x904e, ucs2: 0xb96c},
		lookupItem{cp949: 0x904f, ucs2: 0xb96e},
		lookupItem{cp949: 0x9050, ucs2: 0xb96f},
		lookupItem{cp949: 0x9051, ucs2: 0xb970},
		lookupItem{cp949: 0x9052, ucs2: 0xb971},
		lookupItem{cp949: 0x9053, ucs2: 0xb972},
		lookupItem{cp949: 0x9054, ucs2: 0xb973},
		lookupItem{cp949: 0x9055, ucs2: 0xb976},
		lookupItem{cp949: 0x9056, ucs2: 0xb977},
		lookupItem{cp949: 0x9057, ucs2: 0xb979},
		lookupItem{cp949: 0x9058, ucs2: 0xb97a},
		lookupItem{cp949: 0x9059, ucs2: 0xb97b},
		lookupItem{cp949: 0x905a, ucs2: 0xb97d},
		lookupItem{cp949: 0x9061, ucs2: 0xb97e},
		lookupItem{cp949: 0x9062, ucs2: 0xb97f},
		lookupItem{cp949: 0x9063, ucs2: 0xb980},
		lookupItem{cp949: 0x9064, ucs2: 0xb981},
		lookupItem{cp949: 0x9065, ucs2: 0xb982},
		lookupItem{cp949: 0x9066, ucs2: 0xb983},
		lookupItem{cp949: 0x9067, ucs2: 0xb986},
		lookupItem{cp949: 0x9068, ucs2: 0xb988},
		lookupItem{cp949: 0x9069, ucs2: 0xb98b},
		lookupItem{cp949: 0x906a, ucs2: 0xb98c},
		lookupItem{cp949: 0x906b, ucs2: 0xb98f},
		lookupItem{cp949: 0x906c, ucs2: 0xb990},
		lookupItem{cp949: 0x906d, ucs2: 0xb991},
		lookupItem{cp949: 0x906e, ucs2: 0xb992},
		lookupItem{cp949: 0x906f, ucs2: 0xb993},
		lookupItem{cp949: 0x9070, ucs2: 0xb994},
		lookupItem{cp949: 0x9071, ucs2: 0xb995},
		lookupItem{cp949: 0x9072, ucs2: 0xb996},
		lookupItem{cp949: 0x9073, ucs2: 0xb997},
		lookupItem{cp949: 0x9074, ucs2: 0xb998},
		lookupItem{cp949: 0x9075, ucs2: 0xb999},
		lookupItem{cp949: 0x9076, ucs2: 0xb99a},
		lookupItem{cp949: 0x9077, ucs2: 0xb99b},
		lookupItem{cp949: 0x9078, ucs2: 0xb99c},
		lookupItem{cp949: 0x9079, ucs2: 0xb99d},
		lookupItem{cp949: 0x907a, ucs2: 0xb99e},
		lookupItem{cp949: 0x9081, ucs2: 0xb99f},
		lookupItem{cp949: 0x9082, ucs2: 0xb9a0},
		lookupItem{cp949: 0x9083, ucs2: 0xb9a1},
		lookupItem{cp949: 0x9084, ucs2: 0xb9a2},
		lookupItem{cp949: 0x9085, ucs2: 0xb9a3},
		lookupItem{cp949: 0x9086, ucs2: 0xb9a4},
		lookupItem{cp949: 0x9087, ucs2: 0xb9a5},
		lookupItem{cp949: 0x9088, ucs2: 0xb9a6},
		lookupItem{cp949: 0x9089, ucs2: 0xb9a7},
		lookupItem{cp949: 0x908a, ucs2: 0xb9a8},
		lookupItem{cp949: 0x908b, ucs2: 0xb9a9},
		lookupItem{cp949: 0x908c, ucs2: 0xb9aa},
		lookupItem{cp949: 0x908d, ucs2: 0xb9ab},
		lookupItem{cp949: 0x908e, ucs2: 0xb9ae},
		lookupItem{cp949: 0x908f, ucs2: 0xb9af},
		lookupItem{cp949: 0x9090, ucs2: 0xb9b1},
		lookupItem{cp949: 0x9091, ucs2: 0xb9b2},
		lookupItem{cp949: 0x9092, ucs2: 0xb9b3},
		lookupItem{cp949: 0x9093, ucs2: 0xb9b5},
		lookupItem{cp949: 0x9094, ucs2: 0xb9b6},
".
Definition text_cp949_lookup_from_011 : string :=
"		lookupItem{cp949: 0x9095, ucs2: 0xb9b7},
		lookupItem{cp949: 0x9096, ucs2: 0xb9b8},
		lookupItem{cp949: 0x9097, ucs2: 0xb9b9},
		lookupItem{cp949: 0x9098, ucs2: 0xb9ba},
		lookupItem{cp949: 0x9099, ucs2: 0xb9bb},
		lookupItem{cp949: 0x909a, ucs2: 0xb9be},
		lookupItem{cp949: 0x909b, ucs2: 0xb9c0},
		lookupItem{cp949: 0x909c, ucs2: 0xb9c2},
		lookupItem{cp949: 0x909d, ucs2: 0xb9c3},
		lookupItem{cp949: 0x909e, ucs2: 0xb9c4},
		lookupItem{cp949: 0x909f, ucs2: 0xb9c5},
		lookupItem{cp949: 0x90a0, ucs2: 0xb9c6},
		lookupItem{cp949: 0x90a1, ucs2: 0xb9c7},
		lookupItem{cp949: 0x90a2, ucs2: 0xb9ca},
		lookupItem{cp949: 0x90a3, ucs2: 0xb9cb},
		lookupItem{cp949: 0x90a4, ucs2: 0xb9cd},
		lookupItem{cp949: 0x90a5, ucs2: 0xb9d3},
		lookupItem{cp949: 0x90a6, ucs2: 0xb9d4},
		lookupItem{cp949: 0x90a7, ucs2: 0xb9d5},
		lookupItem{cp949: 0x90a8, ucs2: 0xb9d6},
		lookupItem{cp949: 0x90a9, ucs2: 0xb9d7},
		lookupItem{cp949: 0x90aa, ucs2: 0xb9da},
		lookupItem{cp949: 0x90ab, ucs2: 0xb9dc},
		lookupItem{cp949: 0x90ac, ucs2: 0xb9df},
		lookupItem{cp949: 0x90ad, ucs2: 0xb9e0},
		lookupItem{cp949: 0x90ae, ucs2: 0xb9e2},
		lookupItem{cp949: 0x90af, ucs2: 0xb9e6},
		lookupItem{cp949: 0x90b0, ucs2: 0xb9e7},
		lookupItem{cp949: 0x90b1, ucs2: 0xb9e9},
		lookupItem{cp949: 0x90b2, ucs2: 0xb9ea},
		lookupItem{cp949: 0x90b3, ucs2: 0xb9eb},
		lookupItem{cp949: 0x90b4, ucs2: 0xb9ed},
		lookupItem{cp949: 0x90b5, ucs2: 0xb9ee},
		lookupItem{cp949: 0x90b6, ucs2: 0xb9ef},
		lookupItem{cp949: 0x90b7, ucs2: 0xb9f0},
		lookupItem{cp949: 0x90b8, ucs2: 0xb9f1},
		lookupItem{cp949: 0x90b9, ucs2: 0xb9f2},
		lookupItem{cp949: 0x90ba, ucs2: 0xb9f3},
		lookupItem{cp949: 0x90bb, ucs2: 0xb9f6},
		lookupItem{cp949: 0x90bc, ucs2: 0xb9fb},
		lookupItem{cp949: 0x90bd, ucs2: 0xb9fc},
		lookupItem{cp949: 0x90be, ucs2: 0xb9fd},
		lookupItem{cp949: 0x90bf, ucs2: 0xb9fe},
		lookupItem{cp949: 0x90c0, ucs2: 0xb9ff},
		lookupItem{cp949: 0x90c1, ucs2: 0xba02},
		lookupItem{cp949: 0x90c2, ucs2: 0xba03},
		lookupItem{cp949: 0x90c3, ucs2: 0xba04},
		lookupItem{cp949: 0x90c4, ucs2: 0xba05},
		lookupItem{cp949: 0x90c5, ucs2: 0xba06},
		lookupItem{cp949: 0x90c6, ucs2: 0xba07},
		lookupItem{cp949: 0x90c7, ucs2: 0xba09},
		lookupItem{cp949: 0x90c8, ucs2: 0xba0a},
		lookupItem{cp949: 0x90c9, ucs2: 0xba0b},
		lookupItem{cp949: 0x90ca, ucs2: 0xba0c},
		lookupItem{cp949: 0x90cb, ucs2: 0xba0d},
		lookupItem{cp949: 0x90cc, ucs2: 0xba0e},
		lookupItem{cp949: 0x90cd, ucs2: 0xba0f},
		lookupItem{cp949: 0x90ce, ucs2: 0xba10},
		lookupItem{cp949: 0x90cf, ucs2: 0xba11},
		lookupItem{cp949: 0x90d0, ucs2: 0xba12},
		lookupItem{cp949: 0x90d1, ucs2: 0xba13},
		lookupItem{cp949: 0x90d2, ucs2: 0xba14},
		lookupItem{cp949: 0x90d3, ucs2: 0xba16},
		lookupItem{cp949: 0x90d4, ucs2: 0xba17},
		lookupItem{cp949: 0x90d5, ucs2: 0xba18},
		lookupItem{cp949: 0x90d6, ucs2: 0xba19},
		lookupItem{cp949: 0x90d7, ucs2: 0xba1a},
		lookupItem{cp949: 0x90d8, ucs2: 0xba1b},
		lookupItem{cp949: 0x90d9, ucs2: 0xba1c},
		lookupItem{cp949: 0x90da, ucs2: 0xba1d},
		lookupItem{cp949: 0x90db, ucs2: 0xba1e},
		lookupItem{cp949: 0x90dc, ucs2: 0xba1f},
		lookupItem{cp949: 0x90dd, ucs2: 0xba20},
		lookupItem{cp949: 0x90de, ucs2: 0xba21},
		lookupItem{cp949: 0x90df, ucs2: 0xba22},
		lookupItem{cp949: 0x90e0, ucs2: 0xba23},
		lookupItem{cp949: 0x90e1, ucs2: 0xba24},
		lookupItem{cp949: 0x90e2, ucs2: 0xba25},
		lookupItem{cp949: 0x90e3, ucs2: 0xba26},
		lookupItem{cp949: 0x90e4, ucs2: 0xba27},
		lookupItem{cp949: 0x90e5, ucs2: 0xba28},
		lookupItem{cp949: 0x90e6, ucs2: 0xba29},
		lookupItem{cp949: 0x90e7, ucs2: 0xba2a},
		lookupItem{cp949: 0x90e8, ucs2: 0xba2b},
		lookupItem{cp949: 0x90e9, ucs2: 0xba2c},
		lookupItem{cp949: 0x90ea, ucs2: 0xba2d},
		lookupItem{cp949: 0x90eb, ucs2: 0xba2e},
		lookupItem{cp949: 0x90ec, ucs2: 0xba2f},
		lookupItem{cp949: 0x90ed, ucs2: 0xba30},
		lookupItem{cp949: 0x90ee, ucs2: 0xba31},
		lookupItem{cp949: 0x90ef, ucs2: 0xba32},
		lookupItem{cp949: 0x90f0, ucs2: 0xba33},
		lookupItem{cp949: 0x90f1, ucs2: 0xba34},
		lookupItem{cp949: 0x90f2, ucs2: 0xba35},
		lookupItem{cp949: 0x90f3, ucs2: 0xba36},
		lookupItem{cp949: 0x90f4, ucs2: 0xba37},
		lookupItem{cp949: 0x90f5, ucs2: 0xba3a},
		lookupItem{cp949: 0x90f6, ucs2: 0xba3b},
		lookupItem{cp949: 0x90f7, ucs2: 0xba3d},
		lookupItem{cp949: 0x90f8, ucs2: 0xba3e},
		lookupItem{cp949: 0x90f9, ucs2: 0xba3f},
		lookupItem{cp949: 0x90fa, ucs2: 0xba41},
		lookupItem{cp949: 0x90fb, ucs2: 0xba43},
		lookupItem{cp949: 0x90fc, ucs2: 0xba44},
		lookupItem{cp949: 0x90fd, ucs2: 0xba45},
		lookupItem{cp949: 0x90fe, ucs2: 0xba46},
		lookupItem{cp949: 0x9141, ucs2: 0xba47},
		lookupItem{cp949: 0x9142, ucs2: 0xba4a},
		lookupItem{cp949: 0x9143, ucs2: 0xba4c},
		lookupItem{cp949: 0x9144, ucs2: 0xba4f},
		lookupItem{cp949: 0x9145, ucs2: 0xba50},
		lookupItem{cp949: 0x9146, ucs2: 0xba51},
		lookupItem{cp949: 0x9147, ucs2: 0xba52},
		lookupItem{cp949: 0x9148, ucs2: 0xba56},
		lookupItem{cp949: 0x9149, ucs2: 0xba57},
		lookupItem{cp949: 0x914a, ucs2: 0xba59},
		lookupItem{cp949: 0x914b, ucs2: 0xba5a},
		lookupItem{cp949: 0x914c, ucs2: 0xba5b},
		lookupItem{cp949: 0x914d, ucs2: 0xba5d},
		lookupItem{cp949: 0x914e, ucs2: 0xba5e},
		lookupItem{cp949: 0x914f, ucs2: 0xba5f},
		lookupItem{cp949: 0x9150, ucs2: 0xba60},
		lookupItem{cp949: 0x9151, ucs2: 0xba61},
		lookupItem{cp949: 0x9152, ucs2: 0xba62},
		lookupItem{cp949: 0x9153, ucs2: 0xba63},
		lookupItem{cp949: 0x9154, ucs2: 0xba66},
		lookupItem{cp949: 0x9155, ucs2: 0xba6a},
		lookupItem{cp949: 0x9156, ucs2: 0xba6b},
		lookupItem{cp949: 0x9157, ucs2: 0xba6c},
		lookupItem{cp949: 0x9158, ucs2: 0xba6d},
		lookupItem{cp949: 0x9159, ucs2: 0xba6e},
		lookupItem{cp949: 0x915a, ucs2: 0xba6f},
		lookupItem{cp949: 0x9161, ucs2: 0xba72},
		lookupItem{cp949: 0x9162, ucs2: 0xba73},
		lookupItem{cp949: 0x9163, ucs2: 0xba75},
		lookupItem{cp949: 0x9164, ucs2: 0xba76},
		lookupItem{cp949: 0x9165, ucs2: 0xba77},
		lookupItem{cp949: 0x9166, ucs2: 0xba79},
		lookupItem{cp949: 0x9167, ucs2: 0xba7a},
		lookupItem{cp949: 0x9168, ucs2: 0xba7b},
		lookupItem{cp949: 0x9169, ucs2: 0xba7c},
		lookupItem{cp949: 0x916a, ucs2: 0xba7d},
		lookupItem{cp949: 0x916b, ucs2: 0xba7e},
		lookupItem{cp949: 0x916c, ucs2: 0xba7f},
		lookupItem{cp949: 0x916d, ucs2: 0xba80},
		lookupItem{cp949: 0x916e, ucs2: 0xba81},
		lookupItem{cp949: 0x916f, ucs2: 0xba82},
		lookupItem{cp949: 0x9170, ucs2: 0xba86},
		lookupItem{cp949: 0x9171, ucs2: 0xba88},
		lookupItem{cp949: 0x9172, ucs2: 0xba89},
		lookupItem{cp949: 0x9173, ucs2: 0xba8a},
		lookupItem{cp949: 0x9174, ucs2: 0xba8b},
		lookupItem{cp949: 0x9175, ucs2: 0xba8d},
		lookupItem{cp949: 0x9176, ucs2: 0xba8e},
		lookupItem{cp949: 0x9177, ucs2: 0xba8f},
		lookupItem{cp949: 0x9178, ucs2: 0xba90},
		lookupItem{cp949: 0x9179, ucs2: 0xba91},
		lookupItem{cp949: 0x917a, ucs2: 0xba92},
		lookupItem{cp949: 0x9181, ucs2: 0xba93},
		lookupItem{cp949: 0x9182, ucs2: 0xba94},
		lookupItem{cp949: 0x9183, ucs2: 0xba95},
		lookupItem{cp949: 0x9184, ucs2: 0xba96},
		lookupItem{cp949: 0x9185, ucs2: 0xba97},
		lookupItem{cp949: 0x9186, ucs2: 0xba98},
		lookupItem{cp949: 0x9187, ucs2: 0xba99},
		lookupItem{cp949: 0x9188, ucs2: 0xba9a},
		lookupItem{cp949: 0x9189, ucs2: 0xba9b},
		lookupItem{cp949: 0x918a, ucs2: 0xba9c},
		lookupItem{cp949: 0x918b, ucs2: 0xba9d},
		lookupItem{cp949: 0x918c, ucs2: 0xba9e},
		lookupItem{cp949: 0x918d, ucs2: 0xba9f},
		lookupItem{cp949: 0x918e, ucs2: 0xbaa0},
		lookupItem{cp949: 0x918f, ucs2: 0xbaa1},
		lookupItem{cp949: 0x9190, ucs2: 0xbaa2},
		lookupItem{cp949: 0x9191, ucs2: 0xbaa3},
		lookupItem{cp949: 0x9192, ucs2: 0xbaa4},
		lookupItem{cp949: 0x9193, ucs2: 0xbaa5},
		lookupItem{cp949: 0x9194, ucs2: 0xbaa6},
		lookupItem{cp949: 0x9195, ucs2: 0xbaa7},
		lookupItem{cp949: 0x9196, ucs2: 0xbaaa},
		lookupItem{cp949: 0x9197, ucs2: 0xbaad},
		lookupItem{cp949: 0x9198, ucs2: 0xbaae},
		lookupItem{cp949: 0x9199, ucs2: 0xbaaf},
		lookupItem{cp949: 0x919a, ucs2: 0xbab1},
		lookupItem{cp949: 0x919b, ucs2: 0xbab3},
		lookupItem{cp949: 0x919c, ucs2: 0xbab4},
		lookupItem{cp949: 0x919d, ucs2: 0xbab5},
		lookupItem{cp949: 0x919e, ucs2: 0xbab6},
		lookupItem{cp949: 0x919f, ucs2: 0xbab7},
		lookupItem{cp949: 0x91a0, ucs2: 0xbaba},
		lookupItem{cp949: 0x91a1, ucs2: 0xbabc},
		lookupItem{cp949: 0x91a2, ucs2: 0xbabe},
		lookupItem{cp949: 0x91a3, ucs2: 0xbabf},
		lookupItem{cp949: 0x91a4, ucs2: 0xbac0},
		lookupItem{cp949: 0x91a5, ucs2: 0xbac1},
		lookupItem{cp949: 0x91a6, ucs2: 0xbac2},
		lookupItem{cp949: 0x91a7, ucs2: 0xbac3},
		lookupItem{cp949: 0x91a8, ucs2: 0xbac5},
		lookupItem{cp949: 0x91a9, ucs2: 0xbac6},
		lookupItem{cp949: 0x91aa, ucs2: 0xbac7},
		lookupItem{cp949: 0x91ab, ucs2: 0xbac9},
		lookupItem{cp949: 0x91ac, ucs2: 0xbaca},
		lookupItem{cp949: 0x91ad, ucs2: 0xbacb},
		lookupItem{cp949: 0x91ae, ucs2: 0xbacc},
		lookupItem{cp949: 0x91af, ucs2: 0xbacd},
		lookupItem{cp949: 0x91b0, ucs2: 0xbace},
		lookupItem{cp949: 0x91b1, ucs2: 0xbacf},
		lookupItem{cp949: 0x91b2, ucs2: 0xbad0},
		lookupItem{cp949: 0x91b3, ucs2: 0xbad1},
		lookupItem{cp949: 0x91b4, ucs2: 0xbad2},
		lookupItem{cp949: 0x91b5, ucs2: 0xbad3},
		lookupItem{cp949: 0x91b6, ucs2: 0xbad4},
		lookupItem{cp949: 0x91b7, ucs2: 0xbad5},
		lookupItem{cp949: 0x91b8, ucs2: 0xbad6},
		lookupItem{cp949: 0x91b9, ucs2: 0xbad7},
		lookupItem{cp949: 0x91ba, ucs2: 0xbada},
		lookupItem{cp949: 0x91bb, ucs2: 0xbadb},
		lookupItem{cp949: 0x91bc, ucs2: 0xbadc},
		lookupItem{cp949: 0x91bd, ucs2: 0xbadd},
		lookupItem{cp949: 0x91be, ucs2: 0xbade},
		lookupItem{cp949: 0x91bf, ucs2: 0xbadf},
		lookupItem{cp949: 0x91c0, ucs2: 0xbae0},
		lookupItem{cp949: 0x91c1, ucs2: 0xbae1},
		lookupItem{cp949: 0x91c2, ucs2: 0xbae2},
		lookupItem{cp949: 0x91c3, ucs2: 0xbae3},
		lookupItem{cp949: 0x91c4, ucs2: 0xbae4},
		lookupItem{cp949: 0x91c5, ucs2: 0xbae5},
		lookupItem{cp949: 0x91c6, ucs2: 0xbae6},
		lookupItem{cp949: 0x91c7, ucs2: 0xbae7},
		lookupItem{cp949: 0x91c8, ucs2: 0xbae8},
		lookupItem{cp949: 0x91c9, ucs2: 0xbae9},
		lookupItem{cp949: 0x91ca, ucs2: 0xbaea},
		lookupItem{cp949: 0x91cb, ucs2: 0xbaeb},
		lookupItem{cp949: 0x91cc, ucs2: 0xbaec},
		lookupItem{cp949: 0x91cd, ucs2: 0xbaed},
		lookupItem{cp949: 0x91ce, ucs2: 0xbaee},
		lookupItem{cp949: 0x91cf, ucs2: 0xbaef},
		lookupItem{cp949: 0x91d0, ucs2: 0xbaf0},
		lookupItem{cp949: 0x91d1, ucs2: 0xbaf1},
		lookupItem{cp949: 0x91d2, ucs2: 0xbaf2},
		lookupItem{cp949: 0x91d3, ucs2: 0xbaf3},
		lookupItem{cp949: 0x91d4, ucs2: 0xbaf4},
		lookupItem{cp949: 0x91d5, ucs2: 0xbaf5},
		lookupItem{cp949: 0x91d6, ucs2: 0xbaf6},
		lookupItem{cp949: 0x91d7, ucs2: 0xbaf7},
		lookupItem{cp949: 0x91d8, ucs2: 0xbaf8},
		lookupItem{cp949: 0x91d9, ucs2: 0xbaf9},
		lookupItem{cp949: 0x91da, ucs2: 0xbafa},
		lookupItem{cp949: 0x91db, ucs2: 0xbafb},
		lookupItem{cp949: 0x91dc, ucs2: 0xbafd},
".
Definition text_cp949_lookup_from_012 : string :=
"		lookupItem{cp949: 0x91dd, ucs2: 0xbafe},
		lookupItem{cp949: 0x91de, ucs2: 0xbaff},
		lookupItem{cp949: 0x91df, ucs2: 0xbb01},
		lookupItem{cp949: 0x91e0, ucs2: 0xbb02},
		lookupItem{cp949: 0x91e1, ucs2: 0xbb03},
		lookupItem{cp949: 0x91e2, ucs2: 0xbb05},
		lookupItem{cp949: 0x91e3, ucs2: 0xbb06},
		lookupItem{cp949: 0x91e4, ucs2: 0xbb07},
		lookupItem{cp949: 0x91e5, ucs2: 0xbb08},
		lookupItem{cp949: 0x91e6, ucs2: 0xbb09},
		lookupItem{cp949: 0x91e7, ucs2: 0xbb0a},
		lookupItem{cp949: 0x91e8, ucs2: 0xbb0b},
		lookupItem{cp949: 0x91e9, ucs2: 0xbb0c},
		lookupItem{cp949: 0x91ea, ucs2: 0xbb0e},
		lookupItem{cp949: 0x91eb, ucs2: 0xbb10},
		lookupItem{cp949: 0x91ec, ucs2: 0xbb12},
		lookupItem{cp949: 0x91ed, ucs2: 0xbb13},
		lookupItem{cp949: 0x91ee, ucs2: 0xbb14},
		lookupItem{cp949: 0x91ef, ucs2: 0xbb15},
		lookupItem{cp949: 0x91f0, ucs2: 0xbb16},
		lookupItem{cp949: 0x91f1, ucs2: 0xbb17},
		lookupItem{cp949: 0x91f2, ucs2: 0xbb19},
		lookupItem{cp949: 0x91f3, ucs2: 0xbb1a},
		lookupItem{cp949: 0x91f4, ucs2: 0xbb1b},
		lookupItem{cp949: 0x91f5, ucs2: 0xbb1d},
		lookupItem{cp949: 0x91f6, ucs2: 0xbb1e},
		lookupItem{cp949: 0x91f7, ucs2: 0xbb1f},
		lookupItem{cp949: 0x91f8, ucs2: 0xbb21},
		lookupItem{cp949: 0x91f9, ucs2: 0xbb22},
		lookupItem{cp949: 0x91fa, ucs2: 0xbb23},
		lookupItem{cp949: 0x91fb, ucs2: 0xbb24},
		lookupItem{cp949: 0x91fc, ucs2: 0xbb25},
		lookupItem{cp949: 0x91fd, ucs2: 0xbb26},
		lookupItem{cp949: 0x91fe, ucs2: 0xbb27},
		lookupItem{cp949: 0x9241, ucs2: 0xbb28},
		lookupItem{cp949: 0x9242, ucs2: 0xbb2a},
		lookupItem{cp949: 0x9243, ucs2: 0xbb2c},
		lookupItem{cp949: 0x9244, ucs2: 0xbb2d},
		lookupItem{cp949: 0x9245, ucs2: 0xbb2e},
		lookupItem{cp949: 0x9246, ucs2: 0xbb2f},
		lookupItem{cp949: 0x9247, ucs2: 0xbb30},
		lookupItem{cp949: 0x9248, ucs2: 0xbb31},
		lookupItem{cp949: 0x9249, ucs2: 0xbb32},
		lookupItem{cp949: 0x924a, ucs2: 0xbb33},
		lookupItem{cp949: 0x924b, ucs2: 0xbb37},
		lookupItem{cp949: 0x924c, ucs2: 0xbb39},
		lookupItem{cp949: 0x924d, ucs2: 0xbb3a},
		lookupItem{cp949: 0x924e, ucs2: 0xbb3f},
		lookupItem{cp949: 0x924f, ucs2: 0xbb40},
		lookupItem{cp949: 0x9250, ucs2: 0xbb41},
		lookupItem{cp949: 0x9251, ucs2: 0xbb42},
		lookupItem{cp949: 0x9252, ucs2: 0xbb43},
		lookupItem{cp949: 0x9253, ucs2: 0xbb46},
		lookupItem{cp949: 0x9254, ucs2: 0xbb48},
		lookupItem{cp949: 0x9255, ucs2: 0xbb4a},
		lookupItem{cp949: 0x9256, ucs2: 0xbb4b},
		lookupItem{cp949: 0x9257, ucs2: 0xbb4c},
		lookupItem{cp949: 0x9258, ucs2: 0xbb4e},
		lookupItem{cp949: 0x9259, ucs2: 0xbb51},
		lookupItem{cp949: 0x925a, ucs2: 0xbb52},
		lookupItem{cp949: 0x9261, ucs2: 0xbb53},
		lookupItem{cp949: 0x9262, ucs2: 0xbb55},
		lookupItem{cp949: 0x9263, ucs2: 0xbb56},
		lookupItem{cp949: 0x9264, ucs2: 0xbb57},
		lookupItem{cp949: 0x9265, ucs2: 0xbb59},
		lookupItem{cp949: 0x9266, ucs2: 0xbb5a},
		lookupItem{cp949: 0x9267, ucs2: 0xbb5b},
		lookupItem{cp949: 0x9268, ucs2: 0xbb5c},
		lookupItem{cp949: 0x9269, ucs2: 0xbb5d},
		lookupItem{cp949: 0x926a, ucs2: 0xbb5e},
		lookupItem{cp949: 0x926b, ucs2: 0xbb5f},
		lookupItem{cp949: 0x926c, ucs2: 0xbb60},
		lookupItem{cp949: 0x926d, ucs2: 0xbb62},
		lookupItem{cp949: 0x926e, ucs2: 0xbb64},
		lookupItem{cp949: 0x926f, ucs2: 0xbb65},
		lookupItem{cp949: 0x9270, ucs2: 0xbb66},
		lookupItem{cp949: 0x9271, ucs2: 0xbb67},
		lookupItem{cp949: 0x9272, ucs2: 0xbb68},
		lookupItem{cp949: 0x9273, ucs2: 0xbb69},
		lookupItem{cp949: 0x9274, ucs2: 0xbb6a},
		lookupItem{cp949: 0x9275, ucs2: 0xbb6b},
		lookupItem{cp949: 0x9276, ucs2: 0xbb6d},
		lookupItem{cp949: 0x9277, ucs2: 0xbb6e},
		lookupItem{cp949: 0x9278, ucs2: 0xbb6f},
		lookupItem{cp949: 0x9279, ucs2: 0xbb70},
		lookupItem{cp949: 0x927a, ucs2: 0xbb71},
		lookupItem{cp949: 0x9281, ucs2: 0xbb72},
		lookupItem{cp949: 0x9282, ucs2: 0xbb73},
		lookupItem{cp949: 0x9283, ucs2: 0xbb74},
		lookupItem{cp949: 0x9284, ucs2: 0xbb75},
		lookupItem{cp949: 0x9285, ucs2: 0xbb76},
		lookupItem{cp949: 0x9286, ucs2: 0xbb77},
		lookupItem{cp949: 0x9287, ucs2: 0xbb78},
		lookupItem{cp949: 0x9288, ucs2: 0xbb79},
		lookupItem{cp949: 0x9289, ucs2: 0xbb7a},
		lookupItem{cp949: 0x928a, ucs2: 0xbb7b},
		lookupItem{cp949: 0x928b, ucs2: 0xbb7c},
		lookupItem{cp949: 0x928c, ucs2: 0xbb7d},
		lookupItem{cp949: 0x928d, ucs2: 0xbb7e},
		lookupItem{cp949: 0x928e, ucs2: 0xbb7f},
		lookupItem{cp949: 0x928f, ucs2: 0xbb80},
		lookupItem{cp949: 0x9290, ucs2: 0xbb81},
		lookupItem{cp949: 0x9291, ucs2: 0xbb82},
		lookupItem{cp949: 0x9292, ucs2: 0xbb83},
		lookupItem{cp949: 0x9293, ucs2: 0xbb84},
		lookupItem{cp949: 0x9294, ucs2: 0xbb85},
		lookupItem{cp949: 0x9295, ucs2: 0xbb86},
		lookupItem{cp949: 0x9296, ucs2: 0xbb87},
		lookupItem{cp949: 0x9297, ucs2: 0xbb89},
		lookupItem{cp949: 0x9298, ucs2: 0xbb8a},
		lookupItem{cp949: 0x9299, ucs2: 0xbb8b},
		lookupItem{cp949: 0x929a, ucs2: 0xbb8d},
		lookupItem{cp949: 0x929b, ucs2: 0xbb8e},
		lookupItem{cp949: 0x929c, ucs2: 0xbb8f},
		lookupItem{cp949: 0x929d, ucs2: 0xbb91},
		lookupItem{cp949: 0x929e, ucs2: 0xbb92},
		lookupItem{cp949: 0x929f, ucs2: 0xbb93},
		lookupItem{cp949: 0x92a0, ucs2: 0xbb94},
		lookupItem{cp949: 0x92a1, ucs2: 0xbb95},
		lookupItem{cp949: 0x92a2, ucs2: 0xbb96},
		lookupItem{cp949: 0x92a3, ucs2: 0xbb97},
		lookupItem{cp949: 0x92a4, ucs2: 0xbb98},
		lookupItem{cp949: 0x92a5, ucs2: 0xbb99},
		lookupItem{cp949: 0x92a6, ucs2: 0xbb9a},
		lookupItem{cp949: 0x92a7, ucs2: 0xbb9b},
		lookupItem{cp949: 0x92a8, ucs2: 0xbb9c},
		lookupItem{cp949: 0x92a9, ucs2: 0xbb9d},
		lookupItem{cp949: 0x92aa, ucs2: 0xbb9e},
		lookupItem{cp949: 0x92ab, ucs2: 0xbb9f},
		lookupItem{cp949: 0x92ac, ucs2: 0xbba0},
		lookupItem{cp949: 0x92ad, ucs2: 0xbba1},
		lookupItem{cp949: 0x92ae, ucs2: 0xbba2},
		lookupItem{cp949: 0x92af, ucs2: 0xbba3},
		lookupItem{cp949: 0x92b0, ucs2: 0xbba5},
		lookupItem{cp949: 0x92b1, ucs2: 0xbba6},
		lookupItem{cp949: 0x92b2, ucs2: 0xbba7},
		lookupItem{cp949: 0x92b3, ucs2: 0xbba9},
		lookupItem{cp949: 0x92b4, ucs2: 0xbbaa},
		lookupItem{cp949: 0x92b5, ucs2: 0xbbab},
		lookupItem{cp949: 0x92b6, ucs2: 0xbbad},
		lookupItem{cp949: 0x92b7, ucs2: 0xbbae},
		lookupItem{cp949: 0x92b8, ucs2: 0xbbaf},
		lookupItem{cp949: 0x92b9, ucs2: 0xbbb0},
		lookupItem{cp949: 0x92ba, ucs2: 0xbbb1},
		lookupItem{cp949: 0x92bb, ucs2: 0xbbb2},
		lookupItem{cp949: 0x92bc, ucs2: 0xbbb3},
		lookupItem{cp949: 0x92bd, ucs2: 0xbbb5},
		lookupItem{cp949: 0x92be, ucs2: 0xbbb6},
		lookupItem{cp949: 0x92bf, ucs2: 0xbbb8},
		lookupItem{cp949: 0x92c0, ucs2: 0xbbb9},
		lookupItem{cp949: 0x92c1, ucs2: 0xbbba},
		lookupItem{cp949: 0x92c2, ucs2: 0xbbbb},
		lookupItem{cp949: 0x92c3, ucs2: 0xbbbc},
		lookupItem{cp949: 0x92c4, ucs2: 0xbbbd},
		lookupItem{cp949: 0x92c5, ucs2: 0xbbbe},
		lookupItem{cp949: 0x92c6, ucs2: 0xbbbf},
		lookupItem{cp949: 0x92c7, ucs2: 0xbbc1},
		lookupItem{cp949: 0x92c8, ucs2: 0xbbc2},
		lookupItem{cp949: 0x92c9, ucs2: 0xbbc3},
		lookupItem{cp949: 0x92ca, ucs2: 0xbbc5},
		lookupItem{cp949: 0x92cb, ucs2: 0xbbc6},
		lookupItem{cp949: 0x92cc, ucs2: 0xbbc7},
		lookupItem{cp949: 0x92cd, ucs2: 0xbbc9},
		lookupItem{cp949: 0x92ce, ucs2: 0xbbca},
		lookupItem{cp949: 0x92cf, ucs2: 0xbbcb},
		lookupItem{cp949: 0x92d0, ucs2: 0xbbcc},
		lookupItem{cp949: 0x92d1, ucs2: 0xbbcd},
		lookupItem{cp949: 0x92d2, ucs2: 0xbbce},
		lookupItem{cp949: 0x92d3, ucs2: 0xbbcf},
		lookupItem{cp949: 0x92d4, ucs2: 0xbbd1},
		lookupItem{cp949: 0x92d5, ucs2: 0xbbd2},
		lookupItem{cp949: 0x92d6, ucs2: 0xbbd4},
		lookupItem{cp949: 0x92d7, ucs2: 0xbbd5},
		lookupItem{cp949: 0x92d8, ucs2: 0xbbd6},
		lookupItem{cp949: 0x92d9, ucs2: 0xbbd7},
		lookupItem{cp949: 0x92da, ucs2: 0xbbd8},
		lookupItem{cp949: 0x92db, ucs2: 0xbbd9},
		lookupItem{cp949: 0x92dc, ucs2: 0xbbda},
		lookupItem{cp949: 0x92dd, ucs2: 0xbbdb},
		lookupItem{cp949: 0x92de, ucs2: 0xbbdc},
		lookupItem{cp949: 0x92df, ucs2: 0xbbdd},
		lookupItem{cp949: 0x92e0, ucs2: 0xbbde},
		lookupItem{cp949: 0x92e1, ucs2: 0xbbdf},
		lookupItem{cp949: 0x92e2, ucs2: 0xbbe0},
		lookupItem{cp949: 0x92e3, ucs2: 0xbbe1},
		lookupItem{cp949: 0x92e4, ucs2: 0xbbe2},
		lookupItem{cp949: 0x92e5, ucs2: 0xbbe3},
		lookupItem{cp949: 0x92e6, ucs2: 0xbbe4},
		lookupItem{cp949: 0x92e7, ucs2: 0xbbe5},
		lookupItem{cp949: 0x92e8, ucs2: 0xbbe6},
		lookupItem{cp949: 0x92e9, ucs2: 0xbbe7},
		lookupItem{cp949: 0x92ea, ucs2: 0xbbe8},
		lookupItem{cp949: 0x92eb, ucs2: 0xbbe9},
		lookupItem{cp949: 0x92ec, ucs2: 0xbbea},
		lookupItem{cp949: 0x92ed, ucs2: 0xbbeb},
		lookupItem{cp949: 0x92ee, ucs2: 0xbbec},
		lookupItem{cp949: 0x92ef, ucs2: 0xbbed},
		lookupItem{cp949: 0x92f0, ucs2: 0xbbee},
		lookupItem{cp949: 0x92f1, ucs2: 0xbbef},
		lookupItem{cp949: 0x92f2, ucs2: 0xbbf0},
		lookupItem{cp949: 0x92f3, ucs2: 0xbbf1},
		lookupItem{cp949: 0x92f4, ucs2: 0xbbf2},
		lookupItem{cp949: 0x92f5, ucs2: 0xbbf3},
		lookupItem{cp949: 0x92f6, ucs2: 0xbbf4},
		lookupItem{cp949: 0x92f7, ucs2: 0xbbf5},
		lookupItem{cp949: 0x92f8, ucs2: 0xbbf6},
		lookupItem{cp949: 0x92f9, ucs2: 0xbbf7},
		lookupItem{cp949: 0x92fa, ucs2: 0xbbfa},
		lookupItem{cp949: 0x92fb, ucs2: 0xbbfb},
		lookupItem{cp949: 0x92fc, ucs2: 0xbbfd},
		lookupItem{cp949: 0x92fd, ucs2: 0xbbfe},
		lookupItem{cp949: 0x92fe, ucs2: 0xbc01},
		lookupItem{cp949: 0x9341, ucs2: 0xbc03},
		lookupItem{cp949: 0x9342, ucs2: 0xbc04},
		lookupItem{cp949: 0x9343, ucs2: 0xbc05},
		lookupItem{cp949: 0x9344, ucs2: 0xbc06},
		lookupItem{cp949: 0x9345, ucs2: 0xbc07},
		lookupItem{cp949: 0x9346, ucs2: 0xbc0a},
		lookupItem{cp949: 0x9347, ucs2: 0xbc0e},
		lookupItem{cp949: 0x9348, ucs2: 0xbc10},
		lookupItem{cp949: 0x9349, ucs2: 0xbc12},
		lookupItem{cp949: 0x934a, ucs2: 0xbc13},
		lookupItem{cp949: 0x934b, ucs2: 0xbc19},
		lookupItem{cp949: 0x934c, ucs2: 0xbc1a},
		lookupItem{cp949: 0x934d, ucs2: 0xbc20},
		lookupItem{cp949: 0x934e, ucs2: 0xbc21},
		lookupItem{cp949: 0x934f, ucs2: 0xbc22},
		lookupItem{cp949: 0x9350, ucs2: 0xbc23},
		lookupItem{cp949: 0x9351, ucs2: 0xbc26},
		lookupItem{cp949: 0x9352, ucs2: 0xbc28},
		lookupItem{cp949: 0x9353, ucs2: 0xbc2a},
		lookupItem{cp949: 0x9354, ucs2: 0xbc2b},
		lookupItem{cp949: 0x9355, ucs2: 0xbc2c},
		lookupItem{cp949: 0x9356, ucs2: 0xbc2e},
		lookupItem{cp949: 0x9357, ucs2: 0xbc2f},
		lookupItem{cp949: 0x9358, ucs2: 0xbc32},
		lookupItem{cp949: 0x9359, ucs2: 0xbc33},
		lookupItem{cp949: 0x935a, ucs2: 0xbc35},
		lookupItem{cp949: 0x9361, ucs2: 0xbc36},
		lookupItem{cp949: 0x9362, ucs2: 0xbc37},
		lookupItem{cp949: 0x9363, ucs2: 0xbc39},
		lookupItem{cp949: 0x9364, ucs2: 0xbc3a},
		lookupItem{cp949: 0x9365, ucs2: 0xbc3b},
		lookupItem{cp949: 0x9366, ucs2: 0xbc3c},
		lookupItem{cp949: 0x9367, ucs2: 0xbc3d},
		lookupItem{cp949: 0x9368, ucs2: 0xbc3e},
		lookupItem{cp949: 0x9369, ucs2: 0xbc3f},
		lookupItem{cp949: 0x936a, ucs2: 0xbc42},
		lookupItem{cp949: 0x936b, ucs2: 0xbc46},
		lookupItem{cp949: 0x936c, ucs2: 0xbc47},
".
Definition text_cp949_lookup_from_013 : string :=
"		lookupItem{cp949: 0x936d, ucs2: 0xbc48},
		lookupItem{cp949: 0x936e, ucs2: 0xbc4a},
		lookupItem{cp949: 0x936f, ucs2: 0xbc4b},
		lookupItem{cp949: 0x9370, ucs2: 0xbc4e},
		lookupItem{cp949: 0x9371, ucs2: 0xbc4f},
		lookupItem{cp949: 0x9372, ucs2: 0xbc51},
		lookupItem{cp949: 0x9373, ucs2: 0xbc52},
		lookupItem{cp949: 0x9374, ucs2: 0xbc53},
		lookupItem{cp949: 0x9375, ucs2: 0xbc54},
		lookupItem{cp949: 0x9376, ucs2: 0xbc55},
		lookupItem{cp949: 0x9377, ucs2: 0xbc56},
		lookupItem{cp949: 0x9378, ucs2: 0xbc57},
		lookupItem{cp949: 0x9379, ucs2: 0xbc58},
		lookupItem{cp949: 0x937a, ucs2: 0xbc59},
		lookupItem{cp949: 0x9381, ucs2: 0xbc5a},
		lookupItem{cp949: 0x9382, ucs2: 0xbc5b},
		lookupItem{cp949: 0x9383, ucs2: 0xbc5c},
		lookupItem{cp949: 0x9384, ucs2: 0xbc5e},
		lookupItem{cp949: 0x9385, ucs2: 0xbc5f},
		lookupItem{cp949: 0x9386, ucs2: 0xbc60},
		lookupItem{cp949: 0x9387, ucs2: 0xbc61},
		lookupItem{cp949: 0x9388, ucs2: 0xbc62},
		lookupItem{cp949: 0x9389, ucs2: 0xbc63},
		lookupItem{cp949: 0x938a, ucs2: 0xbc64},
		lookupItem{cp949: 0x938b, ucs2: 0xbc65},
		lookupItem{cp949: 0x938c, ucs2: 0xbc66},
		lookupItem{cp949: 0x938d, ucs2: 0xbc67},
		lookupItem{cp949: 0x938e, ucs2: 0xbc68},
		lookupItem{cp949: 0x938f, ucs2: 0xbc69},
		lookupItem{cp949: 0x9390, ucs2: 0xbc6a},
		lookupItem{cp949: 0x9391, ucs2: 0xbc6b},
		lookupItem{cp949: 0x9392, ucs2: 0xbc6c},
		lookupItem{cp949: 0x9393, ucs2: 0xbc6d},
		lookupItem{cp949: 0x9394, ucs2: 0xbc6e},
		lookupItem{cp949: 0x9395, ucs2: 0xbc6f},
		lookupItem{cp949: 0x9396, ucs2: 0xbc70},
		lookupItem{cp949: 0x9397, ucs2: 0xbc71},
		lookupItem{cp949: 0x9398, ucs2: 0xbc72},
		lookupItem{cp949: 0x9399, ucs2: 0xbc73},
		lookupItem{cp949: 0x939a, ucs2: 0xbc74},
		lookupItem{cp949: 0x939b, ucs2: 0xbc75},
		lookupItem{cp949: 0x939c, ucs2: 0xbc76},
		lookupItem{cp949: 0x939d, ucs2: 0xbc77},
		lookupItem{cp949: 0x939e, ucs2: 0xbc78},
		lookupItem{cp949: 0x939f, ucs2: 0xbc79},
		lookupItem{cp949: 0x93a0, ucs2: 0xbc7a},
		lookupItem{cp949: 0x93a1, ucs2: 0xbc7b},
		lookupItem{cp949: 0x93a2, ucs2: 0xbc7c},
		lookupItem{cp949: 0x93a3, ucs2: 0xbc7d},
		lookupItem{cp949: 0x93a4, ucs2: 0xbc7e},
		lookupItem{cp949: 0x93a5, ucs2: 0xbc7f},
		lookupItem{cp949: 0x93a6, ucs2: 0xbc80},
		lookupItem{cp949: 0x93a7, ucs2: 0xbc81},
		lookupItem{cp949: 0x93a8, ucs2: 0xbc82},
		lookupItem{cp949: 0x93a9, ucs2: 0xbc83},
		lookupItem{cp949: 0x93aa, ucs2: 0xbc86},
		lookupItem{cp949: 0x93ab, ucs2: 0xbc87},
		lookupItem{cp949: 0x93ac, ucs2: 0xbc89},
		lookupItem{cp949: 0x93ad, ucs2: 0xbc8a},
		lookupItem{cp949: 0x93ae, ucs2: 0xbc8d},
		lookupItem{cp949: 0x93af, ucs2: 0xbc8f},
		lookupItem{cp949: 0x93b0, ucs2: 0xbc90},
		lookupItem{cp949: 0x93b1, ucs2: 0xbc91},
		lookupItem{cp949: 0x93b2, ucs2: 0xbc92},
		lookupItem{cp949: 0x93b3, ucs2: 0xbc93},
		lookupItem{cp949: 0x93b4, ucs2: 0xbc96},
		lookupItem{cp949: 0x93b5, ucs2: 0xbc98},
		lookupItem{cp949: 0x93b6, ucs2: 0xbc9b},
		lookupItem{cp949: 0x93b7, ucs2: 0xbc9c},
		lookupItem{cp949: 0x93b8, ucs2: 0xbc9d},
		lookupItem{cp949: 0x93b9, ucs2: 0xbc9e},
		lookupItem{cp949: 0x93ba, ucs2: 0xbc9f},
		lookupItem{cp949: 0x93bb, ucs2: 0xbca2},
		lookupItem{cp949: 0x93bc, ucs2: 0xbca3},
		lookupItem{cp949: 0x93bd, ucs2: 0xbca5},
		lookupItem{cp949: 0x93be, ucs2: 0xbca6},
		lookupItem{cp949: 0x93bf, ucs2: 0xbca9},
		lookupItem{cp949: 0x93c0, ucs2: 0xbcaa},
		lookupItem{cp949: 0x93c1, ucs2: 0xbcab},
		lookupItem{cp949: 0x93c2, ucs2: 0xbcac},
		lookupItem{cp949: 0x93c3, ucs2: 0xbcad},
		lookupItem{cp949: 0x93c4, ucs2: 0xbcae},
		lookupItem{cp949: 0x93c5, ucs2: 0xbcaf},
		lookupItem{cp949: 0x93c6, ucs2: 0xbcb2},
		lookupItem{cp949: 0x93c7, ucs2: 0xbcb6},
		lookupItem{cp949: 0x93c8, ucs2: 0xbcb7},
		lookupItem{cp949: 0x93c9, ucs2: 0xbcb8},
		lookupItem{cp949: 0x93ca, ucs2: 0xbcb9},
		lookupItem{cp949: 0x93cb, ucs2: 0xbcba},
		lookupItem{cp949: 0x93cc, ucs2: 0xbcbb},
		lookupItem{cp949: 0x93cd, ucs2: 0xbcbe},
		lookupItem{cp949: 0x93ce, ucs2: 0xbcbf},
		lookupItem{cp949: 0x93cf, ucs2: 0xbcc1},
		lookupItem{cp949: 0x93d0, ucs2: 0xbcc2},
		lookupItem{cp949: 0x93d1, ucs2: 0xbcc3},
		lookupItem{cp949: 0x93d2, ucs2: 0xbcc5},
		lookupItem{cp949: 0x93d3, ucs2: 0xbcc6},
		lookupItem{cp949: 0x93d4, ucs2: 0xbcc7},
		lookupItem{cp949: 0x93d5, ucs2: 0xbcc8},
		lookupItem{cp949: 0x93d6, ucs2: 0xbcc9},
		lookupItem{cp949: 0x93d7, ucs2: 0xbcca},
		lookupItem{cp949: 0x93d8, ucs2: 0xbccb},
		lookupItem{cp949: 0x93d9, ucs2: 0xbccc},
		lookupItem{cp949: 0x93da, ucs2: 0xbcce},
		lookupItem{cp949: 0x93db, ucs2: 0xbcd2},
		lookupItem{cp949: 0x93dc, ucs2: 0xbcd3},
		lookupItem{cp949: 0x93dd, ucs2: 0xbcd4},
		lookupItem{cp949: 0x93de, ucs2: 0xbcd6},
		lookupItem{cp949: 0x93df, ucs2: 0xbcd7},
		lookupItem{cp949: 0x93e0, ucs2: 0xbcd9},
		lookupItem{cp949: 0x93e1, ucs2: 0xbcda},
		lookupItem{cp949: 0x93e2, ucs2: 0xbcdb},
		lookupItem{cp949: 0x93e3, ucs2: 0xbcdd},
		lookupItem{cp949: 0x93e4, ucs2: 0xbcde},
		lookupItem{cp949: 0x93e5, ucs2: 0xbcdf},
		lookupItem{cp949: 0x93e6, ucs2: 0xbce0},
		lookupItem{cp949: 0x93e7, ucs2: 0xbce1},
		lookupItem{cp949: 0x93e8, ucs2: 0xbce2},
		lookupItem{cp949: 0x93e9, ucs2: 0xbce3},
		lookupItem{cp949: 0x93ea, ucs2: 0xbce4},
		lookupItem{cp949: 0x93eb, ucs2: 0xbce5},
		lookupItem{cp949: 0x93ec, ucs2: 0xbce6},
		lookupItem{cp949: 0x93ed, ucs2: 0xbce7},
		lookupItem{cp949: 0x93ee, ucs2: 0xbce8},
		lookupItem{cp949: 0x93ef, ucs2: 0xbce9},
		lookupItem{cp949: 0x93f0, ucs2: 0xbcea},
		lookupItem{cp949: 0x93f1, ucs2: 0xbceb},
		lookupItem{cp949: 0x93f2, ucs2: 0xbcec},
		lookupItem{cp949: 0x93f3, ucs2: 0xbced},
		lookupItem{cp949: 0x93f4, ucs2: 0xbcee},
		lookupItem{cp949: 0x93f5, ucs2: 0xbcef},
		lookupItem{cp949: 0x93f6, ucs2: 0xbcf0},
		lookupItem{cp949: 0x93f7, ucs2: 0xbcf1},
		lookupItem{cp949: 0x93f8, ucs2: 0xbcf2},
		lookupItem{cp949: 0x93f9, ucs2: 0xbcf3},
		lookupItem{cp949: 0x93fa, ucs2: 0xbcf7},
		lookupItem{cp949: 0x93fb, ucs2: 0xbcf9},
		lookupItem{cp949: 0x93fc, ucs2: 0xbcfa},
		lookupItem{cp949: 0x93fd, ucs2: 0xbcfb},
		lookupItem{cp949: 0x93fe, ucs2: 0xbcfd},
		lookupItem{cp949: 0x9441, ucs2: 0xbcfe},
		lookupItem{cp949: 0x9442, ucs2: 0xbcff},
		lookupItem{cp949: 0x9443, ucs2: 0xbd00},
		lookupItem{cp949: 0x9444, ucs2: 0xbd01},
		lookupItem{cp949: 0x9445, ucs2: 0xbd02},
		lookupItem{cp949: 0x9446, ucs2: 0xbd03},
		lookupItem{cp949: 0x9447, ucs2: 0xbd06},
		lookupItem{cp949: 0x9448, ucs2: 0xbd08},
		lookupItem{cp949: 0x9449, ucs2: 0xbd0a},
		lookupItem{cp949: 0x944a, ucs2: 0xbd0b},
		lookupItem{cp949: 0x944b, ucs2: 0xbd0c},
		lookupItem{cp949: 0x944c, ucs2: 0xbd0d},
		lookupItem{cp949: 0x944d, ucs2: 0xbd0e},
		lookupItem{cp949: 0x944e, ucs2: 0xbd0f},
		lookupItem{cp949: 0x944f, ucs2: 0xbd11},
		lookupItem{cp949: 0x9450, ucs2: 0xbd12},
		lookupItem{cp949: 0x9451, ucs2: 0xbd13},
		lookupItem{cp949: 0x9452, ucs2: 0xbd15},
		lookupItem{cp949: 0x9453, ucs2: 0xbd16},
		lookupItem{cp949: 0x9454, ucs2: 0xbd17},
		lookupItem{cp949: 0x9455, ucs2: 0xbd18},
		lookupItem{cp949: 0x9456, ucs2: 0xbd19},
		lookupItem{cp949: 0x9457, ucs2: 0xbd1a},
		lookupItem{cp949: 0x9458, ucs2: 0xbd1b},
		lookupItem{cp949: 0x9459, ucs2: 0xbd1c},
		lookupItem{cp949: 0x945a, ucs2: 0xbd1d},
		lookupItem{cp949: 0x9461, ucs2: 0xbd1e},
		lookupItem{cp949: 0x9462, ucs2: 0xbd1f},
		lookupItem{cp949: 0x9463, ucs2: 0xbd20},
		lookupItem{cp949: 0x9464, ucs2: 0xbd21},
		lookupItem{cp949: 0x9465, ucs2: 0xbd22},
		lookupItem{cp949: 0x9466, ucs2: 0xbd23},
		lookupItem{cp949: 0x9467, ucs2: 0xbd25},
		lookupItem{cp949: 0x9468, ucs2: 0xbd26},
		lookupItem{cp949: 0x9469, ucs2: 0xbd27},
		lookupItem{cp949: 0x946a, ucs2: 0xbd28},
		lookupItem{cp949: 0x946b, ucs2: 0xbd29},
		lookupItem{cp949: 0x946c, ucs2: 0xbd2a},
		lookupItem{cp949: 0x946d, ucs2: 0xbd2b},
		lookupItem{cp949: 0x946e, ucs2: 0xbd2d},
		lookupItem{cp949: 0x946f, ucs2: 0xbd2e},
		lookupItem{cp949: 0x9470, ucs2: 0xbd2f},
		lookupItem{cp949: 0x9471, ucs2: 0xbd30},
		lookupItem{cp949: 0x9472, ucs2: 0xbd31},
		lookupItem{cp949: 0x9473, ucs2: 0xbd32},
		lookupItem{cp949: 0x9474, ucs2: 0xbd33},
		lookupItem{cp949: 0x9475, ucs2: 0xbd34},
		lookupItem{cp949: 0x9476, ucs2: 0xbd35},
		lookupItem{cp949: 0x9477, ucs2: 0xbd36},
		lookupItem{cp949: 0x9478, ucs2: 0xbd37},
		lookupItem{cp949: 0x9479, ucs2: 0xbd38},
		lookupItem{cp949: 0x947a, ucs2: 0xbd39},
		lookupItem{cp949: 0x9481, ucs2: 0xbd3a},
		lookupItem{cp949: 0x9482, ucs2: 0xbd3b},
		lookupItem{cp949: 0x9483, ucs2: 0xbd3c},
		lookupItem{cp949: 0x9484, ucs2: 0xbd3d},
		lookupItem{cp949: 0x9485, ucs2: 0xbd3e},
		lookupItem{cp949: 0x9486, ucs2: 0xbd3f},
		lookupItem{cp949: 0x9487, ucs2: 0xbd41},
		lookupItem{cp949: 0x9488, ucs2: 0xbd42},
		lookupItem{cp949: 0x9489, ucs2: 0xbd43},
		lookupItem{cp949: 0x948a, ucs2: 0xbd44},
		lookupItem{cp949: 0x948b, ucs2: 0xbd45},
		lookupItem{cp949: 0x948c, ucs2: 0xbd46},
		lookupItem{cp949: 0x948d, ucs2: 0xbd47},
		lookupItem{cp949: 0x948e, ucs2: 0xbd4a},
		lookupItem{cp949: 0x948f, ucs2: 0xbd4b},
		lookupItem{cp949: 0x9490, ucs2: 0xbd4d},
		lookupItem{cp949: 0x9491, ucs2: 0xbd4e},
		lookupItem{cp949: 0x9492, ucs2: 0xbd4f},
		lookupItem{cp949: 0x9493, ucs2: 0xbd51},
		lookupItem{cp949: 0x9494, ucs2: 0xbd52},
		lookupItem{cp949: 0x9495, ucs2: 0xbd53},
		lookupItem{cp949: 0x9496, ucs2: 0xbd54},
		lookupItem{cp949: 0x9497, ucs2: 0xbd55},
		lookupItem{cp949: 0x9498, ucs2: 0xbd56},
		lookupItem{cp949: 0x9499, ucs2: 0xbd57},
		lookupItem{cp949: 0x949a, ucs2: 0xbd5a},
		lookupItem{cp949: 0x949b, ucs2: 0xbd5b},
		lookupItem{cp949: 0x949c, ucs2: 0xbd5c},
		lookupItem{cp949: 0x949d, ucs2: 0xbd5d},
		lookupItem{cp949: 0x949e, ucs2: 0xbd5e},
		lookupItem{cp949: 0x949f, ucs2: 0xbd5f},
		lookupItem{cp949: 0x94a0, ucs2: 0xbd60},
		lookupItem{cp949: 0x94a1, ucs2: 0xbd61},
		lookupItem{cp949: 0x94a2, ucs2: 0xbd62},
		lookupItem{cp949: 0x94a3, ucs2: 0xbd63},
		lookupItem{cp949: 0x94a4, ucs2: 0xbd65},
		lookupItem{cp949: 0x94a5, ucs2: 0xbd66},
		lookupItem{cp949: 0x94a6, ucs2: 0xbd67},
		lookupItem{cp949: 0x94a7, ucs2: 0xbd69},
		lookupItem{cp949: 0x94a8, ucs2: 0xbd6a},
		lookupItem{cp949: 0x94a9, ucs2: 0xbd6b},
		lookupItem{cp949: 0x94aa, ucs2: 0xbd6c},
		lookupItem{cp949: 0x94ab, ucs2: 0xbd6d},
		lookupItem{cp949: 0x94ac, ucs2: 0xbd6e},
		lookupItem{cp949: 0x94ad, ucs2: 0xbd6f},
		lookupItem{cp949: 0x94ae, ucs2: 0xbd70},
		lookupItem{cp949: 0x94af, ucs2: 0xbd71},
		lookupItem{cp949: 0x94b0, ucs2: 0xbd72},
		lookupItem{cp949: 0x94b1, ucs2: 0xbd73},
		lookupItem{cp949: 0x94b2, ucs2: 0xbd74},
		lookupItem{cp949: 0x94b3, ucs2: 0xbd75},
		lookupItem{cp949: 0x94b4, ucs2: 0xbd76},
		lookupItem{cp949: 0x94b5, ucs2: 0xbd77},
		lookupItem{cp949: 0x94b6, ucs2: 0xbd78},
		lookupItem{cp949: 0x94b7, ucs2: 0xbd79},
		lookupItem{cp949: 0x94b8, ucs2: 0xbd7a},
		lookupItem{cp949: 0x94b9, ucs2: 0xbd7b},
		lookupItem{cp949: 0x94ba, ucs2: 0xbd7c},
".
Definition text_cp949_lookup_from_014 : string :=
"		lookupItem{cp949: 0x94bb, ucs2: 0xbd7d},
		lookupItem{cp949: 0x94bc, ucs2: 0xbd7e},
		lookupItem{cp949: 0x94bd, ucs2: 0xbd7f},
		lookupItem{cp949: 0x94be, ucs2: 0xbd82},
		lookupItem{cp949: 0x94bf, ucs2: 0xbd83},
		lookupItem{cp949: 0x94c0, ucs2: 0xbd85},
		lookupItem{cp949: 0x94c1, ucs2: 0xbd86},
		lookupItem{cp949: 0x94c2, ucs2: 0xbd8b},
		lookupItem{cp949: 0x94c3, ucs2: 0xbd8c},
		lookupItem{cp949: 0x94c4, ucs2: 0xbd8d},
		lookupItem{cp949: 0x94c5, ucs2: 0xbd8e},
		lookupItem{cp949: 0x94c6, ucs2: 0xbd8f},
		lookupItem{cp949: 0x94c7, ucs2: 0xbd92},
		lookupItem{cp949: 0x94c8, ucs2: 0xbd94},
		lookupItem{cp949: 0x94c9, ucs2: 0xbd96},
		lookupItem{cp949: 0x94ca, ucs2: 0xbd97},
		lookupItem{cp949: 0x94cb, ucs2: 0xbd98},
		lookupItem{cp949: 0x94cc, ucs2: 0xbd9b},
		lookupItem{cp949: 0x94cd, ucs2: 0xbd9d},
		lookupItem{cp949: 0x94ce, ucs2: 0xbd9e},
		lookupItem{cp949: 0x94cf, ucs2: 0xbd9f},
		lookupItem{cp949: 0x94d0, ucs2: 0xbda0},
		lookupItem{cp949: 0x94d1, ucs2: 0xbda1},
		lookupItem{cp949: 0x94d2, ucs2: 0xbda2},
		lookupItem{cp949: 0x94d3, ucs2: 0xbda3},
		lookupItem{cp949: 0x94d4, ucs2: 0xbda5},
		lookupItem{cp949: 0x94d5, ucs2: 0xbda6},
		lookupItem{cp949: 0x94d6, ucs2: 0xbda7},
		lookupItem{cp949: 0x94d7, ucs2: 0xbda8},
		lookupItem{cp949: 0x94d8, ucs2: 0xbda9},
		lookupItem{cp949: 0x94d9, ucs2: 0xbdaa},
		lookupItem{cp949: 0x94da, ucs2: 0xbdab},
		lookupItem{cp949: 0x94db, ucs2: 0xbdac},
		lookupItem{cp949: 0x94dc, ucs2: 0xbdad},
		lookupItem{cp949: 0x94dd, ucs2: 0xbdae},
		lookupItem{cp949: 0x94de, ucs2: 0xbdaf},
		lookupItem{cp949: 0x94df, ucs2: 0xbdb1},
		lookupItem{cp949: 0x94e0, ucs2: 0xbdb2},
		lookupItem{cp949: 0x94e1, ucs2: 0xbdb3},
		lookupItem{cp949: 0x94e2, ucs2: 0xbdb4},
		lookupItem{cp949: 0x94e3, ucs2: 0xbdb5},
		lookupItem{cp949: 0x94e4, ucs2: 0xbdb6},
		lookupItem{cp949: 0x94e5, ucs2: 0xbdb7},
		lookupItem{cp949: 0x94e6, ucs2: 0xbdb9},
		lookupItem{cp949: 0x94e7, ucs2: 0xbdba},
		lookupItem{cp949: 0x94e8, ucs2: 0xbdbb},
		lookupItem{cp949: 0x94e9, ucs2: 0xbdbc},
		lookupItem{cp949: 0x94ea, ucs2: 0xbdbd},
		lookupItem{cp949: 0x94eb, ucs2: 0xbdbe},
		lookupItem{cp949: 0x94ec, ucs2: 0xbdbf},
		lookupItem{cp949: 0x94ed, ucs2: 0xbdc0},
		lookupItem{cp949: 0x94ee, ucs2: 0xbdc1},
		lookupItem{cp949: 0x94ef, ucs2: 0xbdc2},
		lookupItem{cp949: 0x94f0, ucs2: 0xbdc3},
		lookupItem{cp949: 0x94f1, ucs2: 0xbdc4},
		lookupItem{cp949: 0x94f2, ucs2: 0xbdc5},
		lookupItem{cp949: 0x94f3, ucs2: 0xbdc6},
		lookupItem{cp949: 0x94f4, ucs2: 0xbdc7},
		lookupItem{cp949: 0x94f5, ucs2: 0xbdc8},
		lookupItem{cp949: 0x94f6, ucs2: 0xbdc9},
		lookupItem{cp949: 0x94f7, ucs2: 0xbdca},
		lookupItem{cp949: 0x94f8, ucs2: 0xbdcb},
		lookupItem{cp949: 0x94f9, ucs2: 0xbdcc},
		lookupItem{cp949: 0x94fa, ucs2: 0xbdcd},
		lookupItem{cp949: 0x94fb, ucs2: 0xbdce},
		lookupItem{cp949: 0x94fc, ucs2: 0xbdcf},
		lookupItem{cp949: 0x94fd, ucs2: 0xbdd0},
		lookupItem{cp949: 0x94fe, ucs2: 0xbdd1},
		lookupItem{cp949: 0x9541, ucs2: 0xbdd2},
		lookupItem{cp949: 0x9542, ucs2: 0xbdd3},
		lookupItem{cp949: 0x9543, ucs2: 0xbdd6},
		lookupItem{cp949: 0x9544, ucs2: 0xbdd7},
		lookupItem{cp949: 0x9545, ucs2: 0xbdd9},
		lookupItem{cp949: 0x9546, ucs2: 0xbdda},
		lookupItem{cp949: 0x9547, ucs2: 0xbddb},
		lookupItem{cp949: 0x9548, ucs2: 0xbddd},
		lookupItem{cp949: 0x9549, ucs2: 0xbdde},
		lookupItem{cp949: 0x954a, ucs2: 0xbddf},
		lookupItem{cp949: 0x954b, ucs2: 0xbde0},
		lookupItem{cp949: 0x954c, ucs2: 0xbde1},
		lookupItem{cp949: 0x954d, ucs2: 0xbde2},
		lookupItem{cp949: 0x954e, ucs2: 0xbde3},
		lookupItem{cp949: 0x954f, ucs2: 0xbde4},
		lookupItem{cp949: 0x9550, ucs2: 0xbde5},
		lookupItem{cp949: 0x9551, ucs2: 0xbde6},
		lookupItem{cp949: 0x9552, ucs2: 0xbde7},
		lookupItem{cp949: 0x9553, ucs2: 0xbde8},
		lookupItem{cp949: 0x9554, ucs2: 0xbdea},
		lookupItem{cp949: 0x9555, ucs2: 0xbdeb},
		lookupItem{cp949: 0x9556, ucs2: 0xbdec},
		lookupItem{cp949: 0x9557, ucs2: 0xbded},
		lookupItem{cp949: 0x9558, ucs2: 0xbdee},
		lookupItem{cp949: 0x9559, ucs2: 0xbdef},
		lookupItem{cp949: 0x955a, ucs2: 0xbdf1},
		lookupItem{cp949: 0x9561, ucs2: 0xbdf2},
		lookupItem{cp949: 0x9562, ucs2: 0xbdf3},
		lookupItem{cp949: 0x9563, ucs2: 0xbdf5},
		lookupItem{cp949: 0x9564, ucs2: 0xbdf6},
		lookupItem{cp949: 0x9565, ucs2: 0xbdf7},
		lookupItem{cp949: 0x9566, ucs2: 0xbdf9},
		lookupItem{cp949: 0x9567, ucs2: 0xbdfa},
		lookupItem{cp949: 0x9568, ucs2: 0xbdfb},
		lookupItem{cp949: 0x9569, ucs2: 0xbdfc},
		lookupItem{cp949: 0x956a, ucs2: 0xbdfd},
		lookupItem{cp949: 0x956b, ucs2: 0xbdfe},
		lookupItem{cp949: 0x956c, ucs2: 0xbdff},
		lookupItem{cp949: 0x956d, ucs2: 0xbe01},
		lookupItem{cp949: 0x956e, ucs2: 0xbe02},
		lookupItem{cp949: 0x956f, ucs2: 0xbe04},
		lookupItem{cp949: 0x9570, ucs2: 0xbe06},
		lookupItem{cp949: 0x9571, ucs2: 0xbe07},
		lookupItem{cp949: 0x9572, ucs2: 0xbe08},
		lookupItem{cp949: 0x9573, ucs2: 0xbe09},
		lookupItem{cp949: 0x9574, ucs2: 0xbe0a},
		lookupItem{cp949: 0x9575, ucs2: 0xbe0b},
		lookupItem{cp949: 0x9576, ucs2: 0xbe0e},
		lookupItem{cp949: 0x9577, ucs2: 0xbe0f},
		lookupItem{cp949: 0x9578, ucs2: 0xbe11},
		lookupItem{cp949: 0x9579, ucs2: 0xbe12},
		lookupItem{cp949: 0x957a, ucs2: 0xbe13},
		lookupItem{cp949: 0x9581, ucs2: 0xbe15},
		lookupItem{cp949: 0x9582, ucs2: 0xbe16},
		lookupItem{cp949: 0x9583, ucs2: 0xbe17},
		lookupItem{cp949: 0x9584, ucs2: 0xbe18},
		lookupItem{cp949: 0x9585, ucs2: 0xbe19},
		lookupItem{cp949: 0x9586, ucs2: 0xbe1a},
		lookupItem{cp949: 0x9587, ucs2: 0xbe1b},
		lookupItem{cp949: 0x9588, ucs2: 0xbe1e},
		lookupItem{cp949: 0x9589, ucs2: 0xbe20},
		lookupItem{cp949: 0x958a, ucs2: 0xbe21},
		lookupItem{cp949: 0x958b, ucs2: 0xbe22},
		lookupItem{cp949: 0x958c, ucs2: 0xbe23},
		lookupItem{cp949: 0x958d, ucs2: 0xbe24},
		lookupItem{cp949: 0x958e, ucs2: 0xbe25},
		lookupItem{cp949: 0x958f, ucs2: 0xbe26},
		lookupItem{cp949: 0x9590, ucs2: 0xbe27},
		lookupItem{cp949: 0x9591, ucs2: 0xbe28},
		lookupItem{cp949: 0x9592, ucs2: 0xbe29},
		lookupItem{cp949: 0x9593, ucs2: 0xbe2a},
		lookupItem{cp949: 0x9594, ucs2: 0xbe2b},
		lookupItem{cp949: 0x9595, ucs2: 0xbe2c},
		lookupItem{cp949: 0x9596, ucs2: 0xbe2d},
		lookupItem{cp949: 0x9597, ucs2: 0xbe2e},
		lookupItem{cp949: 0x9598, ucs2: 0xbe2f},
		lookupItem{cp949: 0x9599, ucs2: 0xbe30},
		lookupItem{cp949: 0x959a, ucs2: 0xbe31},
		lookupItem{cp949: 0x959b, ucs2: 0xbe32},
		lookupItem{cp949: 0x959c, ucs2: 0xbe33},
		lookupItem{cp949: 0x959d, ucs2: 0xbe34},
		lookupItem{cp949: 0x959e, ucs2: 0xbe35},
		lookupItem{cp949: 0x959f, ucs2: 0xbe36},
		lookupItem{cp949: 0x95a0, ucs2: 0xbe37},
		lookupItem{cp949: 0x95a1, ucs2: 0xbe38},
		lookupItem{cp949: 0x95a2, ucs2: 0xbe39},
		lookupItem{cp949: 0x95a3, ucs2: 0xbe3a},
		lookupItem{cp949: 0x95a4, ucs2: 0xbe3b},
		lookupItem{cp949: 0x95a5, ucs2: 0xbe3c},
		lookupItem{cp949: 0x95a6, ucs2: 0xbe3d},
		lookupItem{cp949: 0x95a7, ucs2: 0xbe3e},
		lookupItem{cp949: 0x95a8, ucs2: 0xbe3f},
		lookupItem{cp949: 0x95a9, ucs2: 0xbe40},
		lookupItem{cp949: 0x95aa, ucs2: 0xbe41},
		lookupItem{cp949: 0x95ab, ucs2: 0xbe42},
		lookupItem{cp949: 0x95ac, ucs2: 0xbe43},
		lookupItem{cp949: 0x95ad, ucs2: 0xbe46},
		lookupItem{cp949: 0x95ae, ucs2: 0xbe47},
		lookupItem{cp949: 0x95af, ucs2: 0xbe49},
		lookupItem{cp949: 0x95b0, ucs2: 0xbe4a},
		lookupItem{cp949: 0x95b1, ucs2: 0xbe4b},
		lookupItem{cp949: 0x95b2, ucs2: 0xbe4d},
		lookupItem{cp949: 0x95b3, ucs2: 0xbe4f},
		lookupItem{cp949: 0x95b4, ucs2: 0xbe50},
		lookupItem{cp949: 0x95b5, ucs2: 0xbe51},
		lookupItem{cp949: 0x95b6, ucs2: 0xbe52},
		lookupItem{cp949: 0x95b7, ucs2: 0xbe53},
		lookupItem{cp949: 0x95b8, ucs2: 0xbe56},
		lookupItem{cp949: 0x95b9, ucs2: 0xbe58},
		lookupItem{cp949: 0x95ba, ucs2: 0xbe5c},
		lookupItem{cp949: 0x95bb, ucs2: 0xbe5d},
		lookupItem{cp949: 0x95bc, ucs2: 0xbe5e},
		lookupItem{cp949: 0x95bd, ucs2: 0xbe5f},
		lookupItem{cp949: 0x95be, ucs2: 0xbe62},
		lookupItem{cp949: 0x95bf, ucs2: 0xbe63},
		lookupItem{cp949: 0x95c0, ucs2: 0xbe65},
		lookupItem{cp949: 0x95c1, ucs2: 0xbe66},
		lookupItem{cp949: 0x95c2, ucs2: 0xbe67},
		lookupItem{cp949: 0x95c3, ucs2: 0xbe69},
		lookupItem{cp949: 0x95c4, ucs2: 0xbe6b},
		lookupItem{cp949: 0x95c5, ucs2: 0xbe6c},
		lookupItem{cp949: 0x95c6, ucs2: 0xbe6d},
		lookupItem{cp949: 0x95c7, ucs2: 0xbe6e},
		lookupItem{cp949: 0x95c8, ucs2: 0xbe6f},
		lookupItem{cp949: 0x95c9, ucs2: 0xbe72},
		lookupItem{cp949: 0x95ca, ucs2: 0xbe76},
		lookupItem{cp949: 0x95cb, ucs2: 0xbe77},
		lookupItem{cp949: 0x95cc, ucs2: 0xbe78},
		lookupItem{cp949: 0x95cd, ucs2: 0xbe79},
		lookupItem{cp949: 0x95ce, ucs2: 0xbe7a},
		lookupItem{cp949: 0x95cf, ucs2: 0xbe7e},
		lookupItem{cp949: 0x95d0, ucs2: 0xbe7f},
		lookupItem{cp949: 0x95d1, ucs2: 0xbe81},
		lookupItem{cp949: 0x95d2, ucs2: 0xbe82},
		lookupItem{cp949: 0x95d3, ucs2: 0xbe83},
		lookupItem{cp949: 0x95d4, ucs2: 0xbe85},
		lookupItem{cp949: 0x95d5, ucs2: 0xbe86},
		lookupItem{cp949: 0x95d6, ucs2: 0xbe87},
		lookupItem{cp949: 0x95d7, ucs2: 0xbe88},
		lookupItem{cp949: 0x95d8, ucs2: 0xbe89},
		lookupItem{cp949: 0x95d9, ucs2: 0xbe8a},
		lookupItem{cp949: 0x95da, ucs2: 0xbe8b},
		lookupItem{cp949: 0x95db, ucs2: 0xbe8e},
		lookupItem{cp949: 0x95dc, ucs2: 0xbe92},
		lookupItem{cp949: 0x95dd, ucs2: 0xbe93},
		lookupItem{cp949: 0x95de, ucs2: 0xbe94},
		lookupItem{cp949: 0x95df, ucs2: 0xbe95},
		lookupItem{cp949: 0x95e0, ucs2: 0xbe96},
		lookupItem{cp949: 0x95e1, ucs2: 0xbe97},
		lookupItem{cp949: 0x95e2, ucs2: 0xbe9a},
		lookupItem{cp949: 0x95e3, ucs2: 0xbe9b},
		lookupItem{cp949: 0x95e4, ucs2: 0xbe9c},
		lookupItem{cp949: 0x95e5, ucs2: 0xbe9d},
		lookupItem{cp949: 0x95e6, ucs2: 0xbe9e},
		lookupItem{cp949: 0x95e7, ucs2: 0xbe9f},
		lookupItem{cp949: 0x95e8, ucs2: 0xbea0},
		lookupItem{cp949: 0x95e9, ucs2: 0xbea1},
		lookupItem{cp949: 0x95ea, ucs2: 0xbea2},
		lookupItem{cp949: 0x95eb, ucs2: 0xbea3},
		lookupItem{cp949: 0x95ec, ucs2: 0xbea4},
		lookupItem{cp949: 0x95ed, ucs2: 0xbea5},
		lookupItem{cp949: 0x95ee, ucs2: 0xbea6},
		lookupItem{cp949: 0x95ef, ucs2: 0xbea7},
		lookupItem{cp949: 0x95f0, ucs2: 0xbea9},
		lookupItem{cp949: 0x95f1, ucs2: 0xbeaa},
		lookupItem{cp949: 0x95f2, ucs2: 0xbeab},
		lookupItem{cp949: 0x95f3, ucs2: 0xbeac},
		lookupItem{cp949: 0x95f4, ucs2: 0xbead},
		lookupItem{cp949: 0x95f5, ucs2: 0xbeae},
		lookupItem{cp949: 0x95f6, ucs2: 0xbeaf},
		lookupItem{cp949: 0x95f7, ucs2: 0xbeb0},
		lookupItem{cp949: 0x95f8, ucs2: 0xbeb1},
		lookupItem{cp949: 0x95f9, ucs2: 0xbeb2},
		lookupItem{cp949: 0x95fa, ucs2: 0xbeb3},
		lookupItem{cp949: 0x95fb, ucs2: 0xbeb4},
		lookupItem{cp949: 0x95fc, ucs2: 0xbeb5},
		lookupItem{cp949: 0x95fd, ucs2: 0xbeb6},
		lookupItem{cp949: 0x95fe, ucs2: 0xbeb7},
		lookupItem{cp949: 0x9641, ucs2: 0xbeb8},
		lookupItem{cp949: 0x9642, ucs2: 0xbeb9},
		lookupItem{cp949: 0x9643, ucs2: 0xbeba},
		lookupItem{cp949: 0x9644, ucs2: 0xbebb},
".
Definition text_cp949_lookup_from_015 : string :=
"		lookupItem{cp949: 0x9645, ucs2: 0xbebc},
		lookupItem{cp949: 0x9646, ucs2: 0xbebd},
		lookupItem{cp949: 0x9647, ucs2: 0xbebe},
		lookupItem{cp949: 0x9648, ucs2: 0xbebf},
		lookupItem{cp949: 0x9649, ucs2: 0xbec0},
		lookupItem{cp949: 0x964a, ucs2: 0xbec1},
		lookupItem{cp949: 0x964b, ucs2: 0xbec2},
		lookupItem{cp949: 0x964c, ucs2: 0xbec3},
		lookupItem{cp949: 0x964d, ucs2: 0xbec4},
		lookupItem{cp949: 0x964e, ucs2: 0xbec5},
		lookupItem{cp949: 0x964f, ucs2: 0xbec6},
		lookupItem{cp949: 0x9650, ucs2: 0xbec7},
		lookupItem{cp949: 0x9651, ucs2: 0xbec8},
		lookupItem{cp949: 0x9652, ucs2: 0xbec9},
		lookupItem{cp949: 0x9653, ucs2: 0xbeca},
		lookupItem{cp949: 0x9654, ucs2: 0xbecb},
		lookupItem{cp949: 0x9655, ucs2: 0xbecc},
		lookupItem{cp949: 0x9656, ucs2: 0xbecd},
		lookupItem{cp949: 0x9657, ucs2: 0xbece},
		lookupItem{cp949: 0x9658, ucs2: 0xbecf},
		lookupItem{cp949: 0x9659, ucs2: 0xbed2},
		lookupItem{cp949: 0x965a, ucs2: 0xbed3},
		lookupItem{cp949: 0x9661, ucs2: 0xbed5},
		lookupItem{cp949: 0x9662, ucs2: 0xbed6},
		lookupItem{cp949: 0x9663, ucs2: 0xbed9},
		lookupItem{cp949: 0x9664, ucs2: 0xbeda},
		lookupItem{cp949: 0x9665, ucs2: 0xbedb},
		lookupItem{cp949: 0x9666, ucs2: 0xbedc},
		lookupItem{cp949: 0x9667, ucs2: 0xbedd},
		lookupItem{cp949: 0x9668, ucs2: 0xbede},
		lookupItem{cp949: 0x9669, ucs2: 0xbedf},
		lookupItem{cp949: 0x966a, ucs2: 0xbee1},
		lookupItem{cp949: 0x966b, ucs2: 0xbee2},
		lookupItem{cp949: 0x966c, ucs2: 0xbee6},
		lookupItem{cp949: 0x966d, ucs2: 0xbee7},
		lookupItem{cp949: 0x966e, ucs2: 0xbee8},
		lookupItem{cp949: 0x966f, ucs2: 0xbee9},
		lookupItem{cp949: 0x9670, ucs2: 0xbeea},
		lookupItem{cp949: 0x9671, ucs2: 0xbeeb},
		lookupItem{cp949: 0x9672, ucs2: 0xbeed},
		lookupItem{cp949: 0x9673, ucs2: 0xbeee},
		lookupItem{cp949: 0x9674, ucs2: 0xbeef},
		lookupItem{cp949: 0x9675, ucs2: 0xbef0},
		lookupItem{cp949: 0x9676, ucs2: 0xbef1},
		lookupItem{cp949: 0x9677, ucs2: 0xbef2},
		lookupItem{cp949: 0x9678, ucs2: 0xbef3},
		lookupItem{cp949: 0x9679, ucs2: 0xbef4},
		lookupItem{cp949: 0x967a, ucs2: 0xbef5},
		lookupItem{cp949: 0x9681, ucs2: 0xbef6},
		lookupItem{cp949: 0x9682, ucs2: 0xbef7},
		lookupItem{cp949: 0x9683, ucs2: 0xbef8},
		lookupItem{cp949: 0x9684, ucs2: 0xbef9},
		lookupItem{cp949: 0x9685, ucs2: 0xbefa},
		lookupItem{cp949: 0x9686, ucs2: 0xbefb},
		lookupItem{cp949: 0x9687, ucs2: 0xbefc},
		lookupItem{cp949: 0x9688, ucs2: 0xbefd},
		lookupItem{cp949: 0x9689, ucs2: 0xbefe},
		lookupItem{cp949: 0x968a, ucs2: 0xbeff},
		lookupItem{cp949: 0x968b, ucs2: 0xbf00},
		lookupItem{cp949: 0x968c, ucs2: 0xbf02},
		lookupItem{cp949: 0x968d, ucs2: 0xbf03},
		lookupItem{cp949: 0x968e, ucs2: 0xbf04},
		lookupItem{cp949: 0x968f, ucs2: 0xbf05},
		lookupItem{cp949: 0x9690, ucs2: 0xbf06},
		lookupItem{cp949: 0x9691, ucs2: 0xbf07},
		lookupItem{cp949: 0x9692, ucs2: 0xbf0a},
		lookupItem{cp949: 0x9693, ucs2: 0xbf0b},
		lookupItem{cp949: 0x9694, ucs2: 0xbf0c},
		lookupItem{cp949: 0x9695, ucs2: 0xbf0d},
		lookupItem{cp949: 0x9696, ucs2: 0xbf0e},
		lookupItem{cp949: 0x9697, ucs2: 0xbf0f},
		lookupItem{cp949: 0x9698, ucs2: 0xbf10},
		lookupItem{cp949: 0x9699, ucs2: 0xbf11},
		lookupItem{cp949: 0x969a, ucs2: 0xbf12},
		lookupItem{cp949: 0x969b, ucs2: 0xbf13},
		lookupItem{cp949: 0x969c, ucs2: 0xbf14},
		lookupItem{cp949: 0x969d, ucs2: 0xbf15},
		lookupItem{cp949: 0x969e, ucs2: 0xbf16},
		lookupItem{cp949: 0x969f, ucs2: 0xbf17},
		lookupItem{cp949: 0x96a0, ucs2: 0xbf1a},
		lookupItem{cp949: 0x96a1, ucs2: 0xbf1e},
		lookupItem{cp949: 0x96a2, ucs2: 0xbf1f},
		lookupItem{cp949: 0x96a3, ucs2: 0xbf20},
		lookupItem{cp949: 0x96a4, ucs2: 0xbf21},
		lookupItem{cp949: 0x96a5, ucs2: 0xbf22},
		lookupItem{cp949: 0x96a6, ucs2: 0xbf23},
		lookupItem{cp949: 0x96a7, ucs2: 0xbf24},
		lookupItem{cp949: 0x96a8, ucs2: 0xbf25},
		lookupItem{cp949: 0x96a9, ucs2: 0xbf26},
		lookupItem{cp949: 0x96aa, ucs2: 0xbf27},
		lookupItem{cp949: 0x96ab, ucs2: 0xbf28},
		lookupItem{cp949: 0x96ac, ucs2: 0xbf29},
		lookupItem{cp949: 0x96ad, ucs2: 0xbf2a},
		lookupItem{cp949: 0x96ae, ucs2: 0xbf2b},
		lookupItem{cp949: 0x96af, ucs2: 0xbf2c},
		lookupItem{cp949: 0x96b0, ucs2: 0xbf2d},
		lookupItem{cp949: 0x96b1, ucs2: 0xbf2e},
		lookupItem{cp949: 0x96b2, ucs2: 0xbf2f},
		lookupItem{cp949: 0x96b3, ucs2: 0xbf30},
		lookupItem{cp949: 0x96b4, ucs2: 0xbf31},
		lookupItem{cp949: 0x96b5, ucs2: 0xbf32},
		lookupItem{cp949: 0x96b6, ucs2: 0xbf33},
		lookupItem{cp949: 0x96b7, ucs2: 0xbf34},
		lookupItem{cp949: 0x96b8, ucs2: 0xbf35},
		lookupItem{cp949: 0x96b9, ucs2: 0xbf36},
		lookupItem{cp949: 0x96ba, ucs2: 0xbf37},
		lookupItem{cp949: 0x96bb, ucs2: 0xbf38},
		lookupItem{cp949: 0x96bc, ucs2: 0xbf39},
		lookupItem{cp949: 0x96bd, ucs2: 0xbf3a},
		lookupItem{cp949: 0x96be, ucs2: 0xbf3b},
		lookupItem{cp949: 0x96bf, ucs2: 0xbf3c},
		lookupItem{cp949: 0x96c0, ucs2: 0xbf3d},
		lookupItem{cp949: 0x96c1, ucs2: 0xbf3e},
		lookupItem{cp949: 0x96c2, ucs2: 0xbf3f},
		lookupItem{cp949: 0x96c3, ucs2: 0xbf42},
		lookupItem{cp949: 0x96c4, ucs2: 0xbf43},
		lookupItem{cp949: 0x96c5, ucs2: 0xbf45},
		lookupItem{cp949: 0x96c6, ucs2: 0xbf46},
		lookupItem{cp949: 0x96c7, ucs2: 0xbf47},
		lookupItem{cp949: 0x96c8, ucs2: 0xbf49},
		lookupItem{cp949: 0x96c9, ucs2: 0xbf4a},
		lookupItem{cp949: 0x96ca, ucs2: 0xbf4b},
		lookupItem{cp949: 0x96cb, ucs2: 0xbf4c},
		lookupItem{cp949: 0x96cc, ucs2: 0xbf4d},
		lookupItem{cp949: 0x96cd, ucs2: 0xbf4e},
		lookupItem{cp949: 0x96ce, ucs2: 0xbf4f},
		lookupItem{cp949: 0x96cf, ucs2: 0xbf52},
		lookupItem{cp949: 0x96d0, ucs2: 0xbf53},
		lookupItem{cp949: 0x96d1, ucs2: 0xbf54},
		lookupItem{cp949: 0x96d2, ucs2: 0xbf56},
		lookupItem{cp949: 0x96d3, ucs2: 0xbf57},
		lookupItem{cp949: 0x96d4, ucs2: 0xbf58},
		lookupItem{cp949: 0x96d5, ucs2: 0xbf59},
		lookupItem{cp949: 0x96d6, ucs2: 0xbf5a},
		lookupItem{cp949: 0x96d7, ucs2: 0xbf5b},
		lookupItem{cp949: 0x96d8, ucs2: 0xbf5c},
		lookupItem{cp949: 0x96d9, ucs2: 0xbf5d},
		lookupItem{cp949: 0x96da, ucs2: 0xbf5e},
		lookupItem{cp949: 0x96db, ucs2: 0xbf5f},
		lookupItem{cp949: 0x96dc, ucs2: 0xbf60},
		lookupItem{cp949: 0x96dd, ucs2: 0xbf61},
		lookupItem{cp949: 0x96de, ucs2: 0xbf62},
		lookupItem{cp949: 0x96df, ucs2: 0xbf63},
		lookupItem{cp949: 0x96e0, ucs2: 0xbf64},
		lookupItem{cp949: 0x96e1, ucs2: 0xbf65},
		lookupItem{cp949: 0x96e2, ucs2: 0xbf66},
		lookupItem{cp949: 0x96e3, ucs2: 0xbf67},
		lookupItem{cp949: 0x96e4, ucs2: 0xbf68},
		lookupItem{cp949: 0x96e5, ucs2: 0xbf69},
		lookupItem{cp949: 0x96e6, ucs2: 0xbf6a},
		lookupItem{cp949: 0x96e7, ucs2: 0xbf6b},
		lookupItem{cp949: 0x96e8, ucs2: 0xbf6c},
		lookupItem{cp949: 0x96e9, ucs2: 0xbf6d},
		lookupItem{cp949: 0x96ea, ucs2: 0xbf6e},
		lookupItem{cp949: 0x96eb, ucs2: 0xbf6f},
		lookupItem{cp949: 0x96ec, ucs2: 0xbf70},
		lookupItem{cp949: 0x96ed, ucs2: 0xbf71},
		lookupItem{cp949: 0x96ee, ucs2: 0xbf72},
		lookupItem{cp949: 0x96ef, ucs2: 0xbf73},
		lookupItem{cp949: 0x96f0, ucs2: 0xbf74},
		lookupItem{cp949: 0x96f1, ucs2: 0xbf75},
		lookupItem{cp949: 0x96f2, ucs2: 0xbf76},
		lookupItem{cp949: 0x96f3, ucs2: 0xbf77},
		lookupItem{cp949: 0x96f4, ucs2: 0xbf78},
		lookupItem{cp949: 0x96f5, ucs2: 0xbf79},
		lookupItem{cp949: 0x96f6, ucs2: 0xbf7a},
		lookupItem{cp949: 0x96f7, ucs2: 0xbf7b},
		lookupItem{cp949: 0x96f8, ucs2: 0xbf7c},
		lookupItem{cp949: 0x96f9, ucs2: 0xbf7d},
		lookupItem{cp949: 0x96fa, ucs2: 0xbf7e},
		lookupItem{cp949: 0x96fb, ucs2: 0xbf7f},
		lookupItem{cp949: 0x96fc, ucs2: 0xbf80},
		lookupItem{cp949: 0x96fd, ucs2: 0xbf81},
		lookupItem{cp949: 0x96fe, ucs2: 0xbf82},
		lookupItem{cp949: 0x9741, ucs2: 0xbf83},
		lookupItem{cp949: 0x9742, ucs2: 0xbf84},
		lookupItem{cp949: 0x9743, ucs2: 0xbf85},
		lookupItem{cp949: 0x9744, ucs2: 0xbf86},
		lookupItem{cp949: 0x9745, ucs2: 0xbf87},
		lookupItem{cp949: 0x9746, ucs2: 0xbf88},
		lookupItem{cp949: 0x9747, ucs2: 0xbf89},
		lookupItem{cp949: 0x9748, ucs2: 0xbf8a},
		lookupItem{cp949: 0x9749, ucs2: 0xbf8b},
		lookupItem{cp949: 0x974a, ucs2: 0xbf8c},
		lookupItem{cp949: 0x974b, ucs2: 0xbf8d},
		lookupItem{cp949: 0x974c, ucs2: 0xbf8e},
		lookupItem{cp949: 0x974d, ucs2: 0xbf8f},
		lookupItem{cp949: 0x974e, ucs2: 0xbf90},
		lookupItem{cp949: 0x974f, ucs2: 0xbf91},
		lookupItem{cp949: 0x9750, ucs2: 0xbf92},
		lookupItem{cp949: 0x9751, ucs2: 0xbf93},
		lookupItem{cp949: 0x9752, ucs2: 0xbf95},
		lookupItem{cp949: 0x9753, ucs2: 0xbf96},
		lookupItem{cp949: 0x9754, ucs2: 0xbf97},
		lookupItem{cp949: 0x9755, ucs2: 0xbf98},
		lookupItem{cp949: 0x9756, ucs2: 0xbf99},
		lookupItem{cp949: 0x9757, ucs2: 0xbf9a},
		lookupItem{cp949: 0x9758, ucs2: 0xbf9b},
		lookupItem{cp949: 0x9759, ucs2: 0xbf9c},
		lookupItem{cp949: 0x975a, ucs2: 0xbf9d},
		lookupItem{cp949: 0x9761, ucs2: 0xbf9e},
		lookupItem{cp949: 0x9762, ucs2: 0xbf9f},
		lookupItem{cp949: 0x9763, ucs2: 0xbfa0},
		lookupItem{cp949: 0x9764, ucs2: 0xbfa1},
		lookupItem{cp949: 0x9765, ucs2: 0xbfa2},
		lookupItem{cp949: 0x9766, ucs2: 0xbfa3},
		lookupItem{cp949: 0x9767, ucs2: 0xbfa4},
		lookupItem{cp949: 0x9768, ucs2: 0xbfa5},
		lookupItem{cp949: 0x9769, ucs2: 0xbfa6},
		lookupItem{cp949: 0x976a, ucs2: 0xbfa7},
		lookupItem{cp949: 0x976b, ucs2: 0xbfa8},
		lookupItem{cp949: 0x976c, ucs2: 0xbfa9},
		lookupItem{cp949: 0x976d, ucs2: 0xbfaa},
		lookupItem{cp949: 0x976e, ucs2: 0xbfab},
		lookupItem{cp949: 0x976f, ucs2: 0xbfac},
		lookupItem{cp949: 0x9770, ucs2: 0xbfad},
		lookupItem{cp949: 0x9771, ucs2: 0xbfae},
		lookupItem{cp949: 0x9772, ucs2: 0xbfaf},
		lookupItem{cp949: 0x9773, ucs2: 0xbfb1},
		lookupItem{cp949: 0x9774, ucs2: 0xbfb2},
		lookupItem{cp949: 0x9775, ucs2: 0xbfb3},
		lookupItem{cp949: 0x9776, ucs2: 0xbfb4},
		lookupItem{cp949: 0x9777, ucs2: 0xbfb5},
		lookupItem{cp949: 0x9778, ucs2: 0xbfb6},
		lookupItem{cp949: 0x9779, ucs2: 0xbfb7},
		lookupItem{cp949: 0x977a, ucs2: 0xbfb8},
		lookupItem{cp949: 0x9781, ucs2: 0xbfb9},
		lookupItem{cp949: 0x9782, ucs2: 0xbfba},
		lookupItem{cp949: 0x9783, ucs2: 0xbfbb},
		lookupItem{cp949: 0x9784, ucs2: 0xbfbc},
		lookupItem{cp949: 0x9785, ucs2: 0xbfbd},
		lookupItem{cp949: 0x9786, ucs2: 0xbfbe},
		lookupItem{cp949: 0x9787, ucs2: 0xbfbf},
		lookupItem{cp949: 0x9788, ucs2: 0xbfc0},
		lookupItem{cp949: 0x9789, ucs2: 0xbfc1},
		lookupItem{cp949: 0x978a, ucs2: 0xbfc2},
		lookupItem{cp949: 0x978b, ucs2: 0xbfc3},
		lookupItem{cp949: 0x978c, ucs2: 0xbfc4},
		lookupItem{cp949: 0x978d, ucs2: 0xbfc6},
		lookupItem{cp949: 0x978e, ucs2: 0xbfc7},
		lookupItem{cp949: 0x978f, ucs2: 0xbfc8},
		lookupItem{cp949: 0x9790, ucs2: 0xbfc9},
		lookupItem{cp949: 0x9791, ucs2: 0xbfca},
		lookupItem{cp949: 0x9792, ucs2: 0xbfcb},
		lookupItem{cp949: 0x9793, ucs2: 0xbfce},
		lookupItem{cp949: 0x9794, ucs2: 0xbfcf},
		lookupItem{cp949: 0x9795, ucs2: 0xbfd1},
		lookupItem{cp949: 0x9796, ucs2: 0xbfd2},
		lookupItem{cp949: 0x9797, ucs2: 0xbfd3},
		lookupItem{cp949: 0x9798, ucs2: 0xbfd5},
".
Definition text_cp949_lookup_from_016 : string :=
"		lookupItem{cp949: 0x9799, ucs2: 0xbfd6},
		lookupItem{cp949: 0x979a, ucs2: 0xbfd7},
		lookupItem{cp949: 0x979b, ucs2: 0xbfd8},
		lookupItem{cp949: 0x979c, ucs2: 0xbfd9},
		lookupItem{cp949: 0x979d, ucs2: 0xbfda},
		lookupItem{cp949: 0x979e, ucs2: 0xbfdb},
		lookupItem{cp949: 0x979f, ucs2: 0xbfdd},
		lookupItem{cp949: 0x97a0, ucs2: 0xbfde},
		lookupItem{cp949: 0x97a1, ucs2: 0xbfe0},
		lookupItem{cp949: 0x97a2, ucs2: 0xbfe2},
		lookupItem{cp949: 0x97a3, ucs2: 0xbfe3},
		lookupItem{cp949: 0x97a4, ucs2: 0xbfe4},
		lookupItem{cp949: 0x97a5, ucs2: 0xbfe5},
		lookupItem{cp949: 0x97a6, ucs2: 0xbfe6},
		lookupItem{cp949: 0x97a7, ucs2: 0xbfe7},
		lookupItem{cp949: 0x97a8, ucs2: 0xbfe8},
		lookupItem{cp949: 0x97a9, ucs2: 0xbfe9},
		lookupItem{cp949: 0x97aa, ucs2: 0xbfea},
		lookupItem{cp949: 0x97ab, ucs2: 0xbfeb},
		lookupItem{cp949: 0x97ac, ucs2: 0xbfec},
		lookupItem{cp949: 0x97ad, ucs2: 0xbfed},
		lookupItem{cp949: 0x97ae, ucs2: 0xbfee},
		lookupItem{cp949: 0x97af, ucs2: 0xbfef},
		lookupItem{cp949: 0x97b0, ucs2: 0xbff0},
		lookupItem{cp949: 0x97b1, ucs2: 0xbff1},
		lookupItem{cp949: 0x97b2, ucs2: 0xbff2},
		lookupItem{cp949: 0x97b3, ucs2: 0xbff3},
		lookupItem{cp949: 0x97b4, ucs2: 0xbff4},
		lookupItem{cp949: 0x97b5, ucs2: 0xbff5},
		lookupItem{cp949: 0x97b6, ucs2: 0xbff6},
		lookupItem{cp949: 0x97b7, ucs2: 0xbff7},
		lookupItem{cp949: 0x97b8, ucs2: 0xbff8},
		lookupItem{cp949: 0x97b9, ucs2: 0xbff9},
		lookupItem{cp949: 0x97ba, ucs2: 0xbffa},
		lookupItem{cp949: 0x97bb, ucs2: 0xbffb},
		lookupItem{cp949: 0x97bc, ucs2: 0xbffc},
		lookupItem{cp949: 0x97bd, ucs2: 0xbffd},
		lookupItem{cp949: 0x97be, ucs2: 0xbffe},
		lookupItem{cp949: 0x97bf, ucs2: 0xbfff},
		lookupItem{cp949: 0x97c0, ucs2: 0xc000},
		lookupItem{cp949: 0x97c1, ucs2: 0xc001},
		lookupItem{cp949: 0x97c2, ucs2: 0xc002},
		lookupItem{cp949: 0x97c3, ucs2: 0xc003},
		lookupItem{cp949: 0x97c4, ucs2: 0xc004},
		lookupItem{cp949: 0x97c5, ucs2: 0xc005},
		lookupItem{cp949: 0x97c6, ucs2: 0xc006},
		lookupItem{cp949: 0x97c7, ucs2: 0xc007},
		lookupItem{cp949: 0x97c8, ucs2: 0xc008},
		lookupItem{cp949: 0x97c9, ucs2: 0xc009},
		lookupItem{cp949: 0x97ca, ucs2: 0xc00a},
		lookupItem{cp949: 0x97cb, ucs2: 0xc00b},
		lookupItem{cp949: 0x97cc, ucs2: 0xc00c},
		lookupItem{cp949: 0x97cd, ucs2: 0xc00d},
		lookupItem{cp949: 0x97ce, ucs2: 0xc00e},
		lookupItem{cp949: 0x97cf, ucs2: 0xc00f},
		lookupItem{cp949: 0x97d0, ucs2: 0xc010},
		lookupItem{cp949: 0x97d1, ucs2: 0xc011},
		lookupItem{cp949: 0x97d2, ucs2: 0xc012},
		lookupItem{cp949: 0x97d3, ucs2: 0xc013},
		lookupItem{cp949: 0x97d4, ucs2: 0xc014},
		lookupItem{cp949: 0x97d5, ucs2: 0xc015},
		lookupItem{cp949: 0x97d6, ucs2: 0xc016},
		lookupItem{cp949: 0x97d7, ucs2: 0xc017},
		lookupItem{cp949: 0x97d8, ucs2: 0xc018},
		lookupItem{cp949: 0x97d9, ucs2: 0xc019},
		lookupItem{cp949: 0x97da, ucs2: 0xc01a},
		lookupItem{cp949: 0x97db, ucs2: 0xc01b},
		lookupItem{cp949: 0x97dc, ucs2: 0xc01c},
		lookupItem{cp949: 0x97dd, ucs2: 0xc01d},
		lookupItem{cp949: 0x97de, ucs2: 0xc01e},
		lookupItem{cp949: 0x97df, ucs2: 0xc01f},
		lookupItem{cp949: 0x97e0, ucs2: 0xc020},
		lookupItem{cp949: 0x97e1, ucs2: 0xc021},
		lookupItem{cp949: 0x97e2, ucs2: 0xc022},
		lookupItem{cp949: 0x97e3, ucs2: 0xc023},
		lookupItem{cp949: 0x97e4, ucs2: 0xc024},
		lookupItem{cp949: 0x97e5, ucs2: 0xc025},
		lookupItem{cp949: 0x97e6, ucs2: 0xc026},
		lookupItem{cp949: 0x97e7, ucs2: 0xc027},
		lookupItem{cp949: 0x97e8, ucs2: 0xc028},
		lookupItem{cp949: 0x97e9, ucs2: 0xc029},
		lookupItem{cp949: 0x97ea, ucs2: 0xc02a},
		lookupItem{cp949: 0x97eb, ucs2: 0xc02b},
		lookupItem{cp949: 0x97ec, ucs2: 0xc02c},
		lookupItem{cp949: 0x97ed, ucs2: 0xc02d},
		lookupItem{cp949: 0x97ee, ucs2: 0xc02e},
		lookupItem{cp949: 0x97ef, ucs2: 0xc02f},
		lookupItem{cp949: 0x97f0, ucs2: 0xc030},
		lookupItem{cp949: 0x97f1, ucs2: 0xc031},
		lookupItem{cp949: 0x97f2, ucs2: 0xc032},
		lookupItem{cp949: 0x97f3, ucs2: 0xc033},
		lookupItem{cp949: 0x97f4, ucs2: 0xc034},
		lookupItem{cp949: 0x97f5, ucs2: 0xc035},
		lookupItem{cp949: 0x97f6, ucs2: 0xc036},
		lookupItem{cp949: 0x97f7, ucs2: 0xc037},
		lookupItem{cp949: 0x97f8, ucs2: 0xc038},
		lookupItem{cp949: 0x97f9, ucs2: 0xc039},
		lookupItem{cp949: 0x97fa, ucs2: 0xc03a},
		lookupItem{cp949: 0x97fb, ucs2: 0xc03b},
		lookupItem{cp949: 0x97fc, ucs2: 0xc03d},
		lookupItem{cp949: 0x97fd, ucs2: 0xc03e},
		lookupItem{cp949: 0x97fe, ucs2: 0xc03f},
		lookupItem{cp949: 0x9841, ucs2: 0xc040},
		lookupItem{cp949: 0x9842, ucs2: 0xc041},
		lookupItem{cp949: 0x9843, ucs2: 0xc042},
		lookupItem{cp949: 0x9844, ucs2: 0xc043},
		lookupItem{cp949: 0x9845, ucs2: 0xc044},
		lookupItem{cp949: 0x9846, ucs2: 0xc045},
		lookupItem{cp949: 0x9847, ucs2: 0xc046},
		lookupItem{cp949: 0x9848, ucs2: 0xc047},
		lookupItem{cp949: 0x9849, ucs2: 0xc048},
		lookupItem{cp949: 0x984a, ucs2: 0xc049},
		lookupItem{cp949: 0x984b, ucs2: 0xc04a},
		lookupItem{cp949: 0x984c, ucs2: 0xc04b},
		lookupItem{cp949: 0x984d, ucs2: 0xc04c},
		lookupItem{cp949: 0x984e, ucs2: 0xc04d},
		lookupItem{cp949: 0x984f, ucs2: 0xc04e},
		lookupItem{cp949: 0x9850, ucs2: 0xc04f},
		lookupItem{cp949: 0x9851, ucs2: 0xc050},
		lookupItem{cp949: 0x9852, ucs2: 0xc052},
		lookupItem{cp949: 0x9853, ucs2: 0xc053},
		lookupItem{cp949: 0x9854, ucs2: 0xc054},
		lookupItem{cp949: 0x9855, ucs2: 0xc055},
		lookupItem{cp949: 0x9856, ucs2: 0xc056},
		lookupItem{cp949: 0x9857, ucs2: 0xc057},
		lookupItem{cp949: 0x9858, ucs2: 0xc059},
		lookupItem{cp949: 0x9859, ucs2: 0xc05a},
		lookupItem{cp949: 0x985a, ucs2: 0xc05b},
		lookupItem{cp949: 0x9861, ucs2: 0xc05d},
		lookupItem{cp949: 0x9862, ucs2: 0xc05e},
		lookupItem{cp949: 0x9863, ucs2: 0xc05f},
		lookupItem{cp949: 0x9864, ucs2: 0xc061},
		lookupItem{cp949: 0x9865, ucs2: 0xc062},
		lookupItem{cp949: 0x9866, ucs2: 0xc063},
		lookupItem{cp949: 0x9867, ucs2: 0xc064},
		lookupItem{cp949: 0x9868, ucs2: 0xc065},
		lookupItem{cp949: 0x9869, ucs2: 0xc066},
		lookupItem{cp949: 0x986a, ucs2: 0xc067},
		lookupItem{cp949: 0x986b, ucs2: 0xc06a},
		lookupItem{cp949: 0x986c, ucs2: 0xc06b},
		lookupItem{cp949: 0x986d, ucs2: 0xc06c},
		lookupItem{cp949: 0x986e, ucs2: 0xc06d},
		lookupItem{cp949: 0x986f, ucs2: 0xc06e},
		lookupItem{cp949: 0x9870, ucs2: 0xc06f},
		lookupItem{cp949: 0x9871, ucs2: 0xc070},
		lookupItem{cp949: 0x9872, ucs2: 0xc071},
		lookupItem{cp949: 0x9873, ucs2: 0xc072},
		lookupItem{cp949: 0x9874, ucs2: 0xc073},
		lookupItem{cp949: 0x9875, ucs2: 0xc074},
		lookupItem{cp949: 0x9876, ucs2: 0xc075},
		lookupItem{cp949: 0x9877, ucs2: 0xc076},
		lookupItem{cp949: 0x9878, ucs2: 0xc077},
		lookupItem{cp949: 0x9879, ucs2: 0xc078},
		lookupItem{cp949: 0x987a, ucs2: 0xc079},
		lookupItem{cp949: 0x9881, ucs2: 0xc07a},
		lookupItem{cp949: 0x9882, ucs2: 0xc07b},
		lookupItem{cp949: 0x9883, ucs2: 0xc07c},
		lookupItem{cp949: 0x9884, ucs2: 0xc07d},
		lookupItem{cp949: 0x9885, ucs2: 0xc07e},
		lookupItem{cp949: 0x9886, ucs2: 0xc07f},
		lookupItem{cp949: 0x9887, ucs2: 0xc080},
		lookupItem{cp949: 0x9888, ucs2: 0xc081},
		lookupItem{cp949: 0x9889, ucs2: 0xc082},
		lookupItem{cp949: 0x988a, ucs2: 0xc083},
		lookupItem{cp949: 0x988b, ucs2: 0xc084},
		lookupItem{cp949: 0x988c, ucs2: 0xc085},
		lookupItem{cp949: 0x988d, ucs2: 0xc086},
		lookupItem{cp949: 0x988e, ucs2: 0xc087},
		lookupItem{cp949: 0x988f, ucs2: 0xc088},
		lookupItem{cp949: 0x9890, ucs2: 0xc089},
		lookupItem{cp949: 0x9891, ucs2: 0xc08a},
		lookupItem{cp949: 0x9892, ucs2: 0xc08b},
		lookupItem{cp949: 0x9893, ucs2: 0xc08c},
		lookupItem{cp949: 0x9894, ucs2: 0xc08d},
		lookupItem{cp949: 0x9895, ucs2: 0xc08e},
		lookupItem{cp949: 0x9896, ucs2: 0xc08f},
		lookupItem{cp949: 0x9897, ucs2: 0xc092},
		lookupItem{cp949: 0x9898, ucs2: 0xc093},
		lookupItem{cp949: 0x9899, ucs2: 0xc095},
		lookupItem{cp949: 0x989a, ucs2: 0xc096},
		lookupItem{cp949: 0x989b, ucs2: 0xc097},
		lookupItem{cp949: 0x989c, ucs2: 0xc099},
		lookupItem{cp949: 0x989d, ucs2: 0xc09a},
		lookupItem{cp949: 0x989e, ucs2: 0xc09b},
		lookupItem{cp949: 0x989f, ucs2: 0xc09c},
		lookupItem{cp949: 0x98a0, ucs2: 0xc09d},
		lookupItem{cp949: 0x98a1, ucs2: 0xc09e},
		lookupItem{cp949: 0x98a2, ucs2: 0xc09f},
		lookupItem{cp949: 0x98a3, ucs2: 0xc0a2},
		lookupItem{cp949: 0x98a4, ucs2: 0xc0a4},
		lookupItem{cp949: 0x98a5, ucs2: 0xc0a6},
		lookupItem{cp949: 0x98a6, ucs2: 0xc0a7},
		lookupItem{cp949: 0x98a7, ucs2: 0xc0a8},
		lookupItem{cp949: 0x98a8, ucs2: 0xc0a9},
		lookupItem{cp949: 0x98a9, ucs2: 0xc0aa},
		lookupItem{cp949: 0x98aa, ucs2: 0xc0ab},
		lookupItem{cp949: 0x98ab, ucs2: 0xc0ae},
		lookupItem{cp949: 0x98ac, ucs2: 0xc0b1},
		lookupItem{cp949: 0x98ad, ucs2: 0xc0b2},
		lookupItem{cp949: 0x98ae, ucs2: 0xc0b7},
		lookupItem{cp949: 0x98af, ucs2: 0xc0b8},
		lookupItem{cp949: 0x98b0, ucs2: 0xc0b9},
		lookupItem{cp949: 0x98b1, ucs2: 0xc0ba},
		lookupItem{cp949: 0x98b2, ucs2: 0xc0bb},
		lookupItem{cp949: 0x98b3, ucs2: 0xc0be},
		lookupItem{cp949: 0x98b4, ucs2: 0xc0c2},
		lookupItem{cp949: 0x98b5, ucs2: 0xc0c3},
		lookupItem{cp949: 0x98b6, ucs2: 0xc0c4},
		lookupItem{cp949: 0x98b7, ucs2: 0xc0c6},
		lookupItem{cp949: 0x98b8, ucs2: 0xc0c7},
		lookupItem{cp949: 0x98b9, ucs2: 0xc0ca},
		lookupItem{cp949: 0x98ba, ucs2: 0xc0cb},
		lookupItem{cp949: 0x98bb, ucs2: 0xc0cd},
		lookupItem{cp949: 0x98bc, ucs2: 0xc0ce},
		lookupItem{cp949: 0x98bd, ucs2: 0xc0cf},
		lookupItem{cp949: 0x98be, ucs2: 0xc0d1},
		lookupItem{cp949: 0x98bf, ucs2: 0xc0d2},
		lookupItem{cp949: 0x98c0, ucs2: 0xc0d3},
		lookupItem{cp949: 0x98c1, ucs2: 0xc0d4},
		lookupItem{cp949: 0x98c2, ucs2: 0xc0d5},
		lookupItem{cp949: 0x98c3, ucs2: 0xc0d6},
		lookupItem{cp949: 0x98c4, ucs2: 0xc0d7},
		lookupItem{cp949: 0x98c5, ucs2: 0xc0da},
		lookupItem{cp949: 0x98c6, ucs2: 0xc0de},
		lookupItem{cp949: 0x98c7, ucs2: 0xc0df},
		lookupItem{cp949: 0x98c8, ucs2: 0xc0e0},
		lookupItem{cp949: 0x98c9, ucs2: 0xc0e1},
		lookupItem{cp949: 0x98ca, ucs2: 0xc0e2},
		lookupItem{cp949: 0x98cb, ucs2: 0xc0e3},
		lookupItem{cp949: 0x98cc, ucs2: 0xc0e6},
		lookupItem{cp949: 0x98cd, ucs2: 0xc0e7},
		lookupItem{cp949: 0x98ce, ucs2: 0xc0e9},
		lookupItem{cp949: 0x98cf, ucs2: 0xc0ea},
		lookupItem{cp949: 0x98d0, ucs2: 0xc0eb},
		lookupItem{cp949: 0x98d1, ucs2: 0xc0ed},
		lookupItem{cp949: 0x98d2, ucs2: 0xc0ee},
		lookupItem{cp949: 0x98d3, ucs2: 0xc0ef},
		lookupItem{cp949: 0x98d4, ucs2: 0xc0f0},
		lookupItem{cp949: 0x98d5, ucs2: 0xc0f1},
		lookupItem{cp949: 0x98d6, ucs2: 0xc0f2},
		lookupItem{cp949: 0x98d7, ucs2: 0xc0f3},
		lookupItem{cp949: 0x98d8, ucs2: 0xc0f6},
		lookupItem{cp949: 0x98d9, ucs2: 0xc0f8},
		lookupItem{cp949: 0x98da, ucs2: 0xc0fa},
		lookupItem{cp949: 0x98db, ucs2: 0xc0fb},
		lookupItem{cp949: 0x98dc, ucs2: 0xc0fc},
		lookupItem{cp949: 0x98dd, ucs2: 0xc0fd},
		lookupItem{cp949: 0x98de, ucs2: 0xc0fe},
		lookupItem{cp949: 0x98df, ucs2: 0xc0ff},
		lookupItem{cp949: 0x98e0, ucs2: 0xc101},
".
Definition text_cp949_lookup_from_017 : string :=
"		lookupItem{cp949: 0x98e1, ucs2: 0xc102},
		lookupItem{cp949: 0x98e2, ucs2: 0xc103},
		lookupItem{cp949: 0x98e3, ucs2: 0xc105},
		lookupItem{cp949: 0x98e4, ucs2: 0xc106},
		lookupItem{cp949: 0x98e5, ucs2: 0xc107},
		lookupItem{cp949: 0x98e6, ucs2: 0xc109},
		lookupItem{cp949: 0x98e7, ucs2: 0xc10a},
		lookupItem{cp949: 0x98e8, ucs2: 0xc10b},
		lookupItem{cp949: 0x98e9, ucs2: 0xc10c},
		lookupItem{cp949: 0x98ea, ucs2: 0xc10d},
		lookupItem{cp949: 0x98eb, ucs2: 0xc10e},
		lookupItem{cp949: 0x98ec, ucs2: 0xc10f},
		lookupItem{cp949: 0x98ed, ucs2: 0xc111},
		lookupItem{cp949: 0x98ee, ucs2: 0xc112},
		lookupItem{cp949: 0x98ef, ucs2: 0xc113},
		lookupItem{cp949: 0x98f0, ucs2: 0xc114},
		lookupItem{cp949: 0x98f1, ucs2: 0xc116},
		lookupItem{cp949: 0x98f2, ucs2: 0xc117},
		lookupItem{cp949: 0x98f3, ucs2: 0xc118},
		lookupItem{cp949: 0x98f4, ucs2: 0xc119},
		lookupItem{cp949: 0x98f5, ucs2: 0xc11a},
		lookupItem{cp949: 0x98f6, ucs2: 0xc11b},
		lookupItem{cp949: 0x98f7, ucs2: 0xc121},
		lookupItem{cp949: 0x98f8, ucs2: 0xc122},
		lookupItem{cp949: 0x98f9, ucs2: 0xc125},
		lookupItem{cp949: 0x98fa, ucs2: 0xc128},
		lookupItem{cp949: 0x98fb, ucs2: 0xc129},
		lookupItem{cp949: 0x98fc, ucs2: 0xc12a},
		lookupItem{cp949: 0x98fd, ucs2: 0xc12b},
		lookupItem{cp949: 0x98fe, ucs2: 0xc12e},
		lookupItem{cp949: 0x9941, ucs2: 0xc132},
		lookupItem{cp949: 0x9942, ucs2: 0xc133},
		lookupItem{cp949: 0x9943, ucs2: 0xc134},
		lookupItem{cp949: 0x9944, ucs2: 0xc135},
		lookupItem{cp949: 0x9945, ucs2: 0xc137},
		lookupItem{cp949: 0x9946, ucs2: 0xc13a},
		lookupItem{cp949: 0x9947, ucs2: 0xc13b},
		lookupItem{cp949: 0x9948, ucs2: 0xc13d},
		lookupItem{cp949: 0x9949, ucs2: 0xc13e},
		lookupItem{cp949: 0x994a, ucs2: 0xc13f},
		lookupItem{cp949: 0x994b, ucs2: 0xc141},
		lookupItem{cp949: 0x994c, ucs2: 0xc142},
		lookupItem{cp949: 0x994d, ucs2: 0xc143},
		lookupItem{cp949: 0x994e, ucs2: 0xc144},
		lookupItem{cp949: 0x994f, ucs2: 0xc145},
		lookupItem{cp949: 0x9950, ucs2: 0xc146},
		lookupItem{cp949: 0x9951, ucs2: 0xc147},
		lookupItem{cp949: 0x9952, ucs2: 0xc14a},
		lookupItem{cp949: 0x9953, ucs2: 0xc14e},
		lookupItem{cp949: 0x9954, ucs2: 0xc14f},
		lookupItem{cp949: 0x9955, ucs2: 0xc150},
		lookupItem{cp949: 0x9956, ucs2: 0xc151},
		lookupItem{cp949: 0x9957, ucs2: 0xc152},
		lookupItem{cp949: 0x9958, ucs2: 0xc153},
		lookupItem{cp949: 0x9959, ucs2: 0xc156},
		lookupItem{cp949: 0x995a, ucs2: 0xc157},
		lookupItem{cp949: 0x9961, ucs2: 0xc159},
		lookupItem{cp949: 0x9962, ucs2: 0xc15a},
		lookupItem{cp949: 0x9963, ucs2: 0xc15b},
		lookupItem{cp949: 0x9964, ucs2: 0xc15d},
		lookupItem{cp949: 0x9965, ucs2: 0xc15e},
		lookupItem{cp949: 0x9966, ucs2: 0xc15f},
		lookupItem{cp949: 0x9967, ucs2: 0xc160},
		lookupItem{cp949: 0x9968, ucs2: 0xc161},
		lookupItem{cp949: 0x9969, ucs2: 0xc162},
		lookupItem{cp949: 0x996a, ucs2: 0xc163},
		lookupItem{cp949: 0x996b, ucs2: 0xc166},
		lookupItem{cp949: 0x996c, ucs2: 0xc16a},
		lookupItem{cp949: 0x996d, ucs2: 0xc16b},
		lookupItem{cp949: 0x996e, ucs2: 0xc16c},
		lookupItem{cp949: 0x996f, ucs2: 0xc16d},
		lookupItem{cp949: 0x9970, ucs2: 0xc16e},
		lookupItem{cp949: 0x9971, ucs2: 0xc16f},
		lookupItem{cp949: 0x9972, ucs2: 0xc171},
		lookupItem{cp949: 0x9973, ucs2: 0xc172},
		lookupItem{cp949: 0x9974, ucs2: 0xc173},
		lookupItem{cp949: 0x9975, ucs2: 0xc175},
		lookupItem{cp949: 0x9976, ucs2: 0xc176},
		lookupItem{cp949: 0x9977, ucs2: 0xc177},
		lookupItem{cp949: 0x9978, ucs2: 0xc179},
		lookupItem{cp949: 0x9979, ucs2: 0xc17a},
		lookupItem{cp949: 0x997a, ucs2: 0xc17b},
		lookupItem{cp949: 0x9981, ucs2: 0xc17c},
		lookupItem{cp949: 0x9982, ucs2: 0xc17d},
		lookupItem{cp949: 0x9983, ucs2: 0xc17e},
		lookupItem{cp949: 0x9984, ucs2: 0xc17f},
		lookupItem{cp949: 0x9985, ucs2: 0xc180},
		lookupItem{cp949: 0x9986, ucs2: 0xc181},
		lookupItem{cp949: 0x9987, ucs2: 0xc182},
		lookupItem{cp949: 0x9988, ucs2: 0xc183},
		lookupItem{cp949: 0x9989, ucs2: 0xc184},
		lookupItem{cp949: 0x998a, ucs2: 0xc186},
		lookupItem{cp949: 0x998b, ucs2: 0xc187},
		lookupItem{cp949: 0x998c, ucs2: 0xc188},
		lookupItem{cp949: 0x998d, ucs2: 0xc189},
		lookupItem{cp949: 0x998e, ucs2: 0xc18a},
		lookupItem{cp949: 0x998f, ucs2: 0xc18b},
		lookupItem{cp949: 0x9990, ucs2: 0xc18f},
		lookupItem{cp949: 0x9991, ucs2: 0xc191},
		lookupItem{cp949: 0x9992, ucs2: 0xc192},
		lookupItem{cp949: 0x9993, ucs2: 0xc193},
		lookupItem{cp949: 0x9994, ucs2: 0xc195},
		lookupItem{cp949: 0x9995, ucs2: 0xc197},
		lookupItem{cp949: 0x9996, ucs2: 0xc198},
		lookupItem{cp949: 0x9997, ucs2: 0xc199},
		lookupItem{cp949: 0x9998, ucs2: 0xc19a},
		lookupItem{cp949: 0x9999, ucs2: 0xc19b},
		lookupItem{cp949: 0x999a, ucs2: 0xc19e},
		lookupItem{cp949: 0x999b, ucs2: 0xc1a0},
		lookupItem{cp949: 0x999c, ucs2: 0xc1a2},
		lookupItem{cp949: 0x999d, ucs2: 0xc1a3},
		lookupItem{cp949: 0x999e, ucs2: 0xc1a4},
		lookupItem{cp949: 0x999f, ucs2: 0xc1a6},
		lookupItem{cp949: 0x99a0, ucs2: 0xc1a7},
		lookupItem{cp949: 0x99a1, ucs2: 0xc1aa},
		lookupItem{cp949: 0x99a2, ucs2: 0xc1ab},
		lookupItem{cp949: 0x99a3, ucs2: 0xc1ad},
		lookupItem{cp949: 0x99a4, ucs2: 0xc1ae},
		lookupItem{cp949: 0x99a5, ucs2: 0xc1af},
		lookupItem{cp949: 0x99a6, ucs2: 0xc1b1},
		lookupItem{cp949: 0x99a7, ucs2: 0xc1b2},
		lookupItem{cp949: 0x99a8, ucs2: 0xc1b3},
		lookupItem{cp949: 0x99a9, ucs2: 0xc1b4},
		lookupItem{cp949: 0x99aa, ucs2: 0xc1b5},
		lookupItem{cp949: 0x99ab, ucs2: 0xc1b6},
		lookupItem{cp949: 0x99ac, ucs2: 0xc1b7},
		lookupItem{cp949: 0x99ad, ucs2: 0xc1b8},
		lookupItem{cp949: 0x99ae, ucs2: 0xc1b9},
		lookupItem{cp949: 0x99af, ucs2: 0xc1ba},
		lookupItem{cp949: 0x99b0, ucs2: 0xc1bb},
		lookupItem{cp949: 0x99b1, ucs2: 0xc1bc},
		lookupItem{cp949: 0x99b2, ucs2: 0xc1be},
		lookupItem{cp949: 0x99b3, ucs2: 0xc1bf},
		lookupItem{cp949: 0x99b4, ucs2: 0xc1c0},
		lookupItem{cp949: 0x99b5, ucs2: 0xc1c1},
		lookupItem{cp949: 0x99b6, ucs2: 0xc1c2},
		lookupItem{cp949: 0x99b7, ucs2: 0xc1c3},
		lookupItem{cp949: 0x99b8, ucs2: 0xc1c5},
		lookupItem{cp949: 0x99b9, ucs2: 0xc1c6},
		lookupItem{cp949: 0x99ba, ucs2: 0xc1c7},
		lookupItem{cp949: 0x99bb, ucs2: 0xc1c9},
		lookupItem{cp949: 0x99bc, ucs2: 0xc1ca},
		lookupItem{cp949: 0x99bd, ucs2: 0xc1cb},
		lookupItem{cp949: 0x99be, ucs2: 0xc1cd},
		lookupItem{cp949: 0x99bf, ucs2: 0xc1ce},
		lookupItem{cp949: 0x99c0, ucs2: 0xc1cf},
		lookupItem{cp949: 0x99c1, ucs2: 0xc1d0},
		lookupItem{cp949: 0x99c2, ucs2: 0xc1d1},
		lookupItem{cp949: 0x99c3, ucs2: 0xc1d2},
		lookupItem{cp949: 0x99c4, ucs2: 0xc1d3},
		lookupItem{cp949: 0x99c5, ucs2: 0xc1d5},
		lookupItem{cp949: 0x99c6, ucs2: 0xc1d6},
		lookupItem{cp949: 0x99c7, ucs2: 0xc1d9},
		lookupItem{cp949: 0x99c8, ucs2: 0xc1da},
		lookupItem{cp949: 0x99c9, ucs2: 0xc1db},
		lookupItem{cp949: 0x99ca, ucs2: 0xc1dc},
		lookupItem{cp949: 0x99cb, ucs2: 0xc1dd},
		lookupItem{cp949: 0x99cc, ucs2: 0xc1de},
		lookupItem{cp949: 0x99cd, ucs2: 0xc1df},
		lookupItem{cp949: 0x99ce, ucs2: 0xc1e1},
		lookupItem{cp949: 0x99cf, ucs2: 0xc1e2},
		lookupItem{cp949: 0x99d0, ucs2: 0xc1e3},
		lookupItem{cp949: 0x99d1, ucs2: 0xc1e5},
		lookupItem{cp949: 0x99d2, ucs2: 0xc1e6},
		lookupItem{cp949: 0x99d3, ucs2: 0xc1e7},
		lookupItem{cp949: 0x99d4, ucs2: 0xc1e9},
		lookupItem{cp949: 0x99d5, ucs2: 0xc1ea},
		lookupItem{cp949: 0x99d6, ucs2: 0xc1eb},
		lookupItem{cp949: 0x99d7, ucs2: 0xc1ec},
		lookupItem{cp949: 0x99d8, ucs2: 0xc1ed},
		lookupItem{cp949: 0x99d9, ucs2: 0xc1ee},
		lookupItem{cp949: 0x99da, ucs2: 0xc1ef},
		lookupItem{cp949: 0x99db, ucs2: 0xc1f2},
		lookupItem{cp949: 0x99dc, ucs2: 0xc1f4},
		lookupItem{cp949: 0x99dd, ucs2: 0xc1f5},
		lookupItem{cp949: 0x99de, ucs2: 0xc1f6},
		lookupItem{cp949: 0x99df, ucs2: 0xc1f7},
		lookupItem{cp949: 0x99e0, ucs2: 0xc1f8},
		lookupItem{cp949: 0x99e1, ucs2: 0xc1f9},
		lookupItem{cp949: 0x99e2, ucs2: 0xc1fa},
		lookupItem{cp949: 0x99e3, ucs2: 0xc1fb},
		lookupItem{cp949: 0x99e4, ucs2: 0xc1fe},
		lookupItem{cp949: 0x99e5, ucs2: 0xc1ff},
		lookupItem{cp949: 0x99e6, ucs2: 0xc201},
		lookupItem{cp949: 0x99e7, ucs2: 0xc202},
		lookupItem{cp949: 0x99e8, ucs2: 0xc203},
		lookupItem{cp949: 0x99e9, ucs2: 0xc205},
		lookupItem{cp949: 0x99ea, ucs2: 0xc206},
		lookupItem{cp949: 0x99eb, ucs2: 0xc207},
		lookupItem{cp949: 0x99ec, ucs2: 0xc208},
		lookupItem{cp949: 0x99ed, ucs2: 0xc209},
		lookupItem{cp949: 0x99ee, ucs2: 0xc20a},
		lookupItem{cp949: 0x99ef, ucs2: 0xc20b},
		lookupItem{cp949: 0x99f0, ucs2: 0xc20e},
		lookupItem{cp949: 0x99f1, ucs2: 0xc210},
		lookupItem{cp949: 0x99f2, ucs2: 0xc212},
		lookupItem{cp949: 0x99f3, ucs2: 0xc213},
		lookupItem{cp949: 0x99f4, ucs2: 0xc214},
		lookupItem{cp949: 0x99f5, ucs2: 0xc215},
		lookupItem{cp949: 0x99f6, ucs2: 0xc216},
		lookupItem{cp949: 0x99f7, ucs2: 0xc217},
		lookupItem{cp949: 0x99f8, ucs2: 0xc21a},
		lookupItem{cp949: 0x99f9, ucs2: 0xc21b},
		lookupItem{cp949: 0x99fa, ucs2: 0xc21d},
		lookupItem{cp949: 0x99fb, ucs2: 0xc21e},
		lookupItem{cp949: 0x99fc, ucs2: 0xc221},
		lookupItem{cp949: 0x99fd, ucs2: 0xc222},
		lookupItem{cp949: 0x99fe, ucs2: 0xc223},
		lookupItem{cp949: 0x9a41, ucs2: 0xc224},
		lookupItem{cp949: 0x9a42, ucs2: 0xc225},
		lookupItem{cp949: 0x9a43, ucs2: 0xc226},
		lookupItem{cp949: 0x9a44, ucs2: 0xc227},
		lookupItem{cp949: 0x9a45, ucs2: 0xc22a},
		lookupItem{cp949: 0x9a46, ucs2: 0xc22c},
		lookupItem{cp949: 0x9a47, ucs2: 0xc22e},
		lookupItem{cp949: 0x9a48, ucs2: 0xc230},
		lookupItem{cp949: 0x9a49, ucs2: 0xc233},
		lookupItem{cp949: 0x9a4a, ucs2: 0xc235},
		lookupItem{cp949: 0x9a4b, ucs2: 0xc236},
		lookupItem{cp949: 0x9a4c, ucs2: 0xc237},
		lookupItem{cp949: 0x9a4d, ucs2: 0xc238},
		lookupItem{cp949: 0x9a4e, ucs2: 0xc239},
		lookupItem{cp949: 0x9a4f, ucs2: 0xc23a},
		lookupItem{cp949: 0x9a50, ucs2: 0xc23b},
		lookupItem{cp949: 0x9a51, ucs2: 0xc23c},
		lookupItem{cp949: 0x9a52, ucs2: 0xc23d},
		lookupItem{cp949: 0x9a53, ucs2: 0xc23e},
		lookupItem{cp949: 0x9a54, ucs2: 0xc23f},
		lookupItem{cp949: 0x9a55, ucs2: 0xc240},
		lookupItem{cp949: 0x9a56, ucs2: 0xc241},
		lookupItem{cp949: 0x9a57, ucs2: 0xc242},
		lookupItem{cp949: 0x9a58, ucs2: 0xc243},
		lookupItem{cp949: 0x9a59, ucs2: 0xc244},
		lookupItem{cp949: 0x9a5a, ucs2: 0xc245},
		lookupItem{cp949: 0x9a61, ucs2: 0xc246},
		lookupItem{cp949: 0x9a62, ucs2: 0xc247},
		lookupItem{cp949: 0x9a63, ucs2: 0xc249},
		lookupItem{cp949: 0x9a64, ucs2: 0xc24a},
		lookupItem{cp949: 0x9a65, ucs2: 0xc24b},
		lookupItem{cp949: 0x9a66, ucs2: 0xc24c},
		lookupItem{cp949: 0x9a67, ucs2: 0xc24d},
		lookupItem{cp949: 0x9a68, ucs2: 0xc24e},
		lookupItem{cp949: 0x9a69, ucs2: 0xc24f},
		lookupItem{cp949: 0x9a6a, ucs2: 0xc252},
		lookupItem{cp949: 0x9a6b, ucs2: 0xc253},
		lookupItem{cp949: 0x9a6c, ucs2: 0xc255},
		lookupItem{cp949: 0x9a6d, ucs2: 0xc256},
		lookupItem{cp949: 0x9a6e, ucs2: 0xc257},
		lookupItem{cp949: 0x9a6f, ucs2: 0xc259},
		lookupItem{cp949: 0x9a70, ucs2: 0xc25a},
".
Definition text_cp949_lookup_from_018 : string :=
"		lookupItem{cp949: 0x9a71, ucs2: 0xc25b},
		lookupItem{cp949: 0x9a72, ucs2: 0xc25c},
		lookupItem{cp949: 0x9a73, ucs2: 0xc25d},
		lookupItem{cp949: 0x9a74, ucs2: 0xc25e},
		lookupItem{cp949: 0x9a75, ucs2: 0xc25f},
		lookupItem{cp949: 0x9a76, ucs2: 0xc261},
		lookupItem{cp949: 0x9a77, ucs2: 0xc262},
		lookupItem{cp949: 0x9a78, ucs2: 0xc263},
		lookupItem{cp949: 0x9a79, ucs2: 0xc264},
		lookupItem{cp949: 0x9a7a, ucs2: 0xc266},
		lookupItem{cp949: 0x9a81, ucs2: 0xc267},
		lookupItem{cp949: 0x9a82, ucs2: 0xc268},
		lookupItem{cp949: 0x9a83, ucs2: 0xc269},
		lookupItem{cp949: 0x9a84, ucs2: 0xc26a},
		lookupItem{cp949: 0x9a85, ucs2: 0xc26b},
		lookupItem{cp949: 0x9a86, ucs2: 0xc26e},
		lookupItem{cp949: 0x9a87, ucs2: 0xc26f},
		lookupItem{cp949: 0x9a88, ucs2: 0xc271},
		lookupItem{cp949: 0x9a89, ucs2: 0xc272},
		lookupItem{cp949: 0x9a8a, ucs2: 0xc273},
		lookupItem{cp949: 0x9a8b, ucs2: 0xc275},
		lookupItem{cp949: 0x9a8c, ucs2: 0xc276},
		lookupItem{cp949: 0x9a8d, ucs2: 0xc277},
		lookupItem{cp949: 0x9a8e, ucs2: 0xc278},
		lookupItem{cp949: 0x9a8f, ucs2: 0xc279},
		lookupItem{cp949: 0x9a90, ucs2: 0xc27a},
		lookupItem{cp949: 0x9a91, ucs2: 0xc27b},
		lookupItem{cp949: 0x9a92, ucs2: 0xc27e},
		lookupItem{cp949: 0x9a93, ucs2: 0xc280},
		lookupItem{cp949: 0x9a94, ucs2: 0xc282},
		lookupItem{cp949: 0x9a95, ucs2: 0xc283},
		lookupItem{cp949: 0x9a96, ucs2: 0xc284},
		lookupItem{cp949: 0x9a97, ucs2: 0xc285},
		lookupItem{cp949: 0x9a98, ucs2: 0xc286},
		lookupItem{cp949: 0x9a99, ucs2: 0xc287},
		lookupItem{cp949: 0x9a9a, ucs2: 0xc28a},
		lookupItem{cp949: 0x9a9b, ucs2: 0xc28b},
		lookupItem{cp949: 0x9a9c, ucs2: 0xc28c},
		lookupItem{cp949: 0x9a9d, ucs2: 0xc28d},
		lookupItem{cp949: 0x9a9e, ucs2: 0xc28e},
		lookupItem{cp949: 0x9a9f, ucs2: 0xc28f},
		lookupItem{cp949: 0x9aa0, ucs2: 0xc291},
		lookupItem{cp949: 0x9aa1, ucs2: 0xc292},
		lookupItem{cp949: 0x9aa2, ucs2: 0xc293},
		lookupItem{cp949: 0x9aa3, ucs2: 0xc294},
		lookupItem{cp949: 0x9aa4, ucs2: 0xc295},
		lookupItem{cp949: 0x9aa5, ucs2: 0xc296},
		lookupItem{cp949: 0x9aa6, ucs2: 0xc297},
		lookupItem{cp949: 0x9aa7, ucs2: 0xc299},
		lookupItem{cp949: 0x9aa8, ucs2: 0xc29a},
		lookupItem{cp949: 0x9aa9, ucs2: 0xc29c},
		lookupItem{cp949: 0x9aaa, ucs2: 0xc29e},
		lookupItem{cp949: 0x9aab, ucs2: 0xc29f},
		lookupItem{cp949: 0x9aac, ucs2: 0xc2a0},
		lookupItem{cp949: 0x9aad, ucs2: 0xc2a1},
		lookupItem{cp949: 0x9aae, ucs2: 0xc2a2},
		lookupItem{cp949: 0x9aaf, ucs2: 0xc2a3},
		lookupItem{cp949: 0x9ab0, ucs2: 0xc2a6},
		lookupItem{cp949: 0x9ab1, ucs2: 0xc2a7},
		lookupItem{cp949: 0x9ab2, ucs2: 0xc2a9},
		lookupItem{cp949: 0x9ab3, ucs2: 0xc2aa},
		lookupItem{cp949: 0x9ab4, ucs2: 0xc2ab},
		lookupItem{cp949: 0x9ab5, ucs2: 0xc2ae},
		lookupItem{cp949: 0x9ab6, ucs2: 0xc2af},
		lookupItem{cp949: 0x9ab7, ucs2: 0xc2b0},
		lookupItem{cp949: 0x9ab8, ucs2: 0xc2b1},
		lookupItem{cp949: 0x9ab9, ucs2: 0xc2b2},
		lookupItem{cp949: 0x9aba, ucs2: 0xc2b3},
		lookupItem{cp949: 0x9abb, ucs2: 0xc2b6},
		lookupItem{cp949: 0x9abc, ucs2: 0xc2b8},
		lookupItem{cp949: 0x9abd, ucs2: 0xc2ba},
		lookupItem{cp949: 0x9abe, ucs2: 0xc2bb},
		lookupItem{cp949: 0x9abf, ucs2: 0xc2bc},
		lookupItem{cp949: 0x9ac0, ucs2: 0xc2bd},
		lookupItem{cp949: 0x9ac1, ucs2: 0xc2be},
		lookupItem{cp949: 0x9ac2, ucs2: 0xc2bf},
		lookupItem{cp949: 0x9ac3, ucs2: 0xc2c0},
		lookupItem{cp949: 0x9ac4, ucs2: 0xc2c1},
		lookupItem{cp949: 0x9ac5, ucs2: 0xc2c2},
		lookupItem{cp949: 0x9ac6, ucs2: 0xc2c3},
		lookupItem{cp949: 0x9ac7, ucs2: 0xc2c4},
		lookupItem{cp949: 0x9ac8, ucs2: 0xc2c5},
		lookupItem{cp949: 0x9ac9, ucs2: 0xc2c6},
		lookupItem{cp949: 0x9aca, ucs2: 0xc2c7},
		lookupItem{cp949: 0x9acb, ucs2: 0xc2c8},
		lookupItem{cp949: 0x9acc, ucs2: 0xc2c9},
		lookupItem{cp949: 0x9acd, ucs2: 0xc2ca},
		lookupItem{cp949: 0x9ace, ucs2: 0xc2cb},
		lookupItem{cp949: 0x9acf, ucs2: 0xc2cc},
		lookupItem{cp949: 0x9ad0, ucs2: 0xc2cd},
		lookupItem{cp949: 0x9ad1, ucs2: 0xc2ce},
		lookupItem{cp949: 0x9ad2, ucs2: 0xc2cf},
		lookupItem{cp949: 0x9ad3, ucs2: 0xc2d0},
		lookupItem{cp949: 0x9ad4, ucs2: 0xc2d1},
		lookupItem{cp949: 0x9ad5, ucs2: 0xc2d2},
		lookupItem{cp949: 0x9ad6, ucs2: 0xc2d3},
		lookupItem{cp949: 0x9ad7, ucs2: 0xc2d4},
		lookupItem{cp949: 0x9ad8, ucs2: 0xc2d5},
		lookupItem{cp949: 0x9ad9, ucs2: 0xc2d6},
		lookupItem{cp949: 0x9ada, ucs2: 0xc2d7},
		lookupItem{cp949: 0x9adb, ucs2: 0xc2d8},
		lookupItem{cp949: 0x9adc, ucs2: 0xc2d9},
		lookupItem{cp949: 0x9add, ucs2: 0xc2da},
		lookupItem{cp949: 0x9ade, ucs2: 0xc2db},
		lookupItem{cp949: 0x9adf, ucs2: 0xc2de},
		lookupItem{cp949: 0x9ae0, ucs2: 0xc2df},
		lookupItem{cp949: 0x9ae1, ucs2: 0xc2e1},
		lookupItem{cp949: 0x9ae2, ucs2: 0xc2e2},
		lookupItem{cp949: 0x9ae3, ucs2: 0xc2e5},
		lookupItem{cp949: 0x9ae4, ucs2: 0xc2e6},
		lookupItem{cp949: 0x9ae5, ucs2: 0xc2e7},
		lookupItem{cp949: 0x9ae6, ucs2: 0xc2e8},
		lookupItem{cp949: 0x9ae7, ucs2: 0xc2e9},
		lookupItem{cp949: 0x9ae8, ucs2: 0xc2ea},
		lookupItem{cp949: 0x9ae9, ucs2: 0xc2ee},
		lookupItem{cp949: 0x9aea, ucs2: 0xc2f0},
		lookupItem{cp949: 0x9aeb, ucs2: 0xc2f2},
		lookupItem{cp949: 0x9aec, ucs2: 0xc2f3},
		lookupItem{cp949: 0x9aed, ucs2: 0xc2f4},
		lookupItem{cp949: 0x9aee, ucs2: 0xc2f5},
		lookupItem{cp949: 0x9aef, ucs2: 0xc2f7},
		lookupItem{cp949: 0x9af0, ucs2: 0xc2fa},
		lookupItem{cp949: 0x9af1, ucs2: 0xc2fd},
		lookupItem{cp949: 0x9af2, ucs2: 0xc2fe},
		lookupItem{cp949: 0x9af3, ucs2: 0xc2ff},
		lookupItem{cp949: 0x9af4, ucs2: 0xc301},
		lookupItem{cp949: 0x9af5, ucs2: 0xc302},
		lookupItem{cp949: 0x9af6, ucs2: 0xc303},
		lookupItem{cp949: 0x9af7, ucs2: 0xc304},
		lookupItem{cp949: 0x9af8, ucs2: 0xc305},
		lookupItem{cp949: 0x9af9, ucs2: 0xc306},
		lookupItem{cp949: 0x9afa, ucs2: 0xc307},
		lookupItem{cp949: 0x9afb, ucs2: 0xc30a},
		lookupItem{cp949: 0x9afc, ucs2: 0xc30b},
		lookupItem{cp949: 0x9afd, ucs2: 0xc30e},
		lookupItem{cp949: 0x9afe, ucs2: 0xc30f},
		lookupItem{cp949: 0x9b41, ucs2: 0xc310},
		lookupItem{cp949: 0x9b42, ucs2: 0xc311},
		lookupItem{cp949: 0x9b43, ucs2: 0xc312},
		lookupItem{cp949: 0x9b44, ucs2: 0xc316},
		lookupItem{cp949: 0x9b45, ucs2: 0xc317},
		lookupItem{cp949: 0x9b46, ucs2: 0xc319},
		lookupItem{cp949: 0x9b47, ucs2: 0xc31a},
		lookupItem{cp949: 0x9b48, ucs2: 0xc31b},
		lookupItem{cp949: 0x9b49, ucs2: 0xc31d},
		lookupItem{cp949: 0x9b4a, ucs2: 0xc31e},
		lookupItem{cp949: 0x9b4b, ucs2: 0xc31f},
		lookupItem{cp949: 0x9b4c, ucs2: 0xc320},
		lookupItem{cp949: 0x9b4d, ucs2: 0xc321},
		lookupItem{cp949: 0x9b4e, ucs2: 0xc322},
		lookupItem{cp949: 0x9b4f, ucs2: 0xc323},
		lookupItem{cp949: 0x9b50, ucs2: 0xc326},
		lookupItem{cp949: 0x9b51, ucs2: 0xc327},
		lookupItem{cp949: 0x9b52, ucs2: 0xc32a},
		lookupItem{cp949: 0x9b53, ucs2: 0xc32b},
		lookupItem{cp949: 0x9b54, ucs2: 0xc32c},
		lookupItem{cp949: 0x9b55, ucs2: 0xc32d},
		lookupItem{cp949: 0x9b56, ucs2: 0xc32e},
		lookupItem{cp949: 0x9b57, ucs2: 0xc32f},
		lookupItem{cp949: 0x9b58, ucs2: 0xc330},
		lookupItem{cp949: 0x9b59, ucs2: 0xc331},
		lookupItem{cp949: 0x9b5a, ucs2: 0xc332},
		lookupItem{cp949: 0x9b61, ucs2: 0xc333},
		lookupItem{cp949: 0x9b62, ucs2: 0xc334},
		lookupItem{cp949: 0x9b63, ucs2: 0xc335},
		lookupItem{cp949: 0x9b64, ucs2: 0xc336},
		lookupItem{cp949: 0x9b65, ucs2: 0xc337},
		lookupItem{cp949: 0x9b66, ucs2: 0xc338},
		lookupItem{cp949: 0x9b67, ucs2: 0xc339},
		lookupItem{cp949: 0x9b68, ucs2: 0xc33a},
		lookupItem{cp949: 0x9b69, ucs2: 0xc33b},
		lookupItem{cp949: 0x9b6a, ucs2: 0xc33c},
		lookupItem{cp949: 0x9b6b, ucs2: 0xc33d},
		lookupItem{cp949: 0x9b6c, ucs2: 0xc33e},
		lookupItem{cp949: 0x9b6d, ucs2: 0xc33f},
		lookupItem{cp949: 0x9b6e, ucs2: 0xc340},
		lookupItem{cp949: 0x9b6f, ucs2: 0xc341},
		lookupItem{cp949: 0x9b70, ucs2: 0xc342},
		lookupItem{cp949: 0x9b71, ucs2: 0xc343},
		lookupItem{cp949: 0x9b72, ucs2: 0xc344},
		lookupItem{cp949: 0x9b73, ucs2: 0xc346},
		lookupItem{cp949: 0x9b74, ucs2: 0xc347},
		lookupItem{cp949: 0x9b75, ucs2: 0xc348},
		lookupItem{cp949: 0x9b76, ucs2: 0xc349},
		lookupItem{cp949: 0x9b77, ucs2: 0xc34a},
		lookupItem{cp949: 0x9b78, ucs2: 0xc34b},
		lookupItem{cp949: 0x9b79, ucs2: 0xc34c},
		lookupItem{cp949: 0x9b7a, ucs2: 0xc34d},
		lookupItem{cp949: 0x9b81, ucs2: 0xc34e},
		lookupItem{cp949: 0x9b82, ucs2: 0xc34f},
		lookupItem{cp949: 0x9b83, ucs2: 0xc350},
		lookupItem{cp949: 0x9b84, ucs2: 0xc351},
		lookupItem{cp949: 0x9b85, ucs2: 0xc352},
		lookupItem{cp949: 0x9b86, ucs2: 0xc353},
		lookupItem{cp949: 0x9b87, ucs2: 0xc354},
		lookupItem{cp949: 0x9b88, ucs2: 0xc355},
		lookupItem{cp949: 0x9b89, ucs2: 0xc356},
		lookupItem{cp949: 0x9b8a, ucs2: 0xc357},
		lookupItem{cp949: 0x9b8b, ucs2: 0xc358},
		lookupItem{cp949: 0x9b8c, ucs2: 0xc359},
		lookupItem{cp949: 0x9b8d, ucs2: 0xc35a},
		lookupItem{cp949: 0x9b8e, ucs2: 0xc35b},
		lookupItem{cp949: 0x9b8f, ucs2: 0xc35c},
		lookupItem{cp949: 0x9b90, ucs2: 0xc35d},
		lookupItem{cp949: 0x9b91, ucs2: 0xc35e},
		lookupItem{cp949: 0x9b92, ucs2: 0xc35f},
		lookupItem{cp949: 0x9b93, ucs2: 0xc360},
		lookupItem{cp949: 0x9b94, ucs2: 0xc361},
		lookupItem{cp949: 0x9b95, ucs2: 0xc362},
		lookupItem{cp949: 0x9b96, ucs2: 0xc363},
		lookupItem{cp949: 0x9b97, ucs2: 0xc364},
		lookupItem{cp949: 0x9b98, ucs2: 0xc365},
		lookupItem{cp949: 0x9b99, ucs2: 0xc366},
		lookupItem{cp949: 0x9b9a, ucs2: 0xc367},
		lookupItem{cp949: 0x9b9b, ucs2: 0xc36a},
		lookupItem{cp949: 0x9b9c, ucs2: 0xc36b},
		lookupItem{cp949: 0x9b9d, ucs2: 0xc36d},
		lookupItem{cp949: 0x9b9e, ucs2: 0xc36e},
		lookupItem{cp949: 0x9b9f, ucs2: 0xc36f},
		lookupItem{cp949: 0x9ba0, ucs2: 0xc371},
		lookupItem{cp949: 0x9ba1, ucs2: 0xc373},
		lookupItem{cp949: 0x9ba2, ucs2: 0xc374},
		lookupItem{cp949: 0x9ba3, ucs2: 0xc375},
		lookupItem{cp949: 0x9ba4, ucs2: 0xc376},
		lookupItem{cp949: 0x9ba5, ucs2: 0xc377},
		lookupItem{cp949: 0x9ba6, ucs2: 0xc37a},
		lookupItem{cp949: 0x9ba7, ucs2: 0xc37b},
		lookupItem{cp949: 0x9ba8, ucs2: 0xc37e},
		lookupItem{cp949: 0x9ba9, ucs2: 0xc37f},
		lookupItem{cp949: 0x9baa, ucs2: 0xc380},
		lookupItem{cp949: 0x9bab, ucs2: 0xc381},
		lookupItem{cp949: 0x9bac, ucs2: 0xc382},
		lookupItem{cp949: 0x9bad, ucs2: 0xc383},
		lookupItem{cp949: 0x9bae, ucs2: 0xc385},
		lookupItem{cp949: 0x9baf, ucs2: 0xc386},
		lookupItem{cp949: 0x9bb0, ucs2: 0xc387},
		lookupItem{cp949: 0x9bb1, ucs2: 0xc389},
		lookupItem{cp949: 0x9bb2, ucs2: 0xc38a},
		lookupItem{cp949: 0x9bb3, ucs2: 0xc38b},
		lookupItem{cp949: 0x9bb4, ucs2: 0xc38d},
		lookupItem{cp949: 0x9bb5, ucs2: 0xc38e},
		lookupItem{cp949: 0x9bb6, ucs2: 0xc38f},
		lookupItem{cp949: 0x9bb7, ucs2: 0xc390},
		lookupItem{cp949: 0x9bb8, ucs2: 0xc391},
		lookupItem{cp949: 0x9bb9, ucs2: 0xc392},
		lookupItem{cp949: 0x9bba, ucs2: 0xc393},
		lookupItem{cp949: 0x9bbb, ucs2: 0xc394},
		lookupItem{cp949: 0x9bbc, ucs2: 0xc395},
		lookupItem{cp949: 0x9bbd, ucs2: 0xc396},
		lookupItem{cp949: 0x9bbe, ucs2: 0xc397},
".
Definition text_cp949_lookup_from_019 : string :=
"		lookupItem{cp949: 0x9bbf, ucs2: 0xc398},
		lookupItem{cp949: 0x9bc0, ucs2: 0xc399},
		lookupItem{cp949: 0x9bc1, ucs2: 0xc39a},
		lookupItem{cp949: 0x9bc2, ucs2: 0xc39b},
		lookupItem{cp949: 0x9bc3, ucs2: 0xc39c},
		lookupItem{cp949: 0x9bc4, ucs2: 0xc39d},
		lookupItem{cp949: 0x9bc5, ucs2: 0xc39e},
		lookupItem{cp949: 0x9bc6, ucs2: 0xc39f},
		lookupItem{cp949: 0x9bc7, ucs2: 0xc3a0},
		lookupItem{cp949: 0x9bc8, ucs2: 0xc3a1},
		lookupItem{cp949: 0x9bc9, ucs2: 0xc3a2},
		lookupItem{cp949: 0x9bca, ucs2: 0xc3a3},
		lookupItem{cp949: 0x9bcb, ucs2: 0xc3a4},
		lookupItem{cp949: 0x9bcc, ucs2: 0xc3a5},
		lookupItem{cp949: 0x9bcd, ucs2: 0xc3a6},
		lookupItem{cp949: 0x9bce, ucs2: 0xc3a7},
		lookupItem{cp949: 0x9bcf, ucs2: 0xc3a8},
		lookupItem{cp949: 0x9bd0, ucs2: 0xc3a9},
		lookupItem{cp949: 0x9bd1, ucs2: 0xc3aa},
		lookupItem{cp949: 0x9bd2, ucs2: 0xc3ab},
		lookupItem{cp949: 0x9bd3, ucs2: 0xc3ac},
		lookupItem{cp949: 0x9bd4, ucs2: 0xc3ad},
		lookupItem{cp949: 0x9bd5, ucs2: 0xc3ae},
		lookupItem{cp949: 0x9bd6, ucs2: 0xc3af},
		lookupItem{cp949: 0x9bd7, ucs2: 0xc3b0},
		lookupItem{cp949: 0x9bd8, ucs2: 0xc3b1},
		lookupItem{cp949: 0x9bd9, ucs2: 0xc3b2},
		lookupItem{cp949: 0x9bda, ucs2: 0xc3b3},
		lookupItem{cp949: 0x9bdb, ucs2: 0xc3b4},
		lookupItem{cp949: 0x9bdc, ucs2: 0xc3b5},
		lookupItem{cp949: 0x9bdd, ucs2: 0xc3b6},
		lookupItem{cp949: 0x9bde, ucs2: 0xc3b7},
		lookupItem{cp949: 0x9bdf, ucs2: 0xc3b8},
		lookupItem{cp949: 0x9be0, ucs2: 0xc3b9},
		lookupItem{cp949: 0x9be1, ucs2: 0xc3ba},
		lookupItem{cp949: 0x9be2, ucs2: 0xc3bb},
		lookupItem{cp949: 0x9be3, ucs2: 0xc3bc},
		lookupItem{cp949: 0x9be4, ucs2: 0xc3bd},
		lookupItem{cp949: 0x9be5, ucs2: 0xc3be},
		lookupItem{cp949: 0x9be6, ucs2: 0xc3bf},
		lookupItem{cp949: 0x9be7, ucs2: 0xc3c1},
		lookupItem{cp949: 0x9be8, ucs2: 0xc3c2},
		lookupItem{cp949: 0x9be9, ucs2: 0xc3c3},
		lookupItem{cp949: 0x9bea, ucs2: 0xc3c4},
		lookupItem{cp949: 0x9beb, ucs2: 0xc3c5},
		lookupItem{cp949: 0x9bec, ucs2: 0xc3c6},
		lookupItem{cp949: 0x9bed, ucs2: 0xc3c7},
		lookupItem{cp949: 0x9bee, ucs2: 0xc3c8},
		lookupItem{cp949: 0x9bef, ucs2: 0xc3c9},
		lookupItem{cp949: 0x9bf0, ucs2: 0xc3ca},
		lookupItem{cp949: 0x9bf1, ucs2: 0xc3cb},
		lookupItem{cp949: 0x9bf2, ucs2: 0xc3cc},
		lookupItem{cp949: 0x9bf3, ucs2: 0xc3cd},
		lookupItem{cp949: 0x9bf4, ucs2: 0xc3ce},
		lookupItem{cp949: 0x9bf5, ucs2: 0xc3cf},
		lookupItem{cp949: 0x9bf6, ucs2: 0xc3d0},
		lookupItem{cp949: 0x9bf7, ucs2: 0xc3d1},
		lookupItem{cp949: 0x9bf8, ucs2: 0xc3d2},
		lookupItem{cp949: 0x9bf9, ucs2: 0xc3d3},
		lookupItem{cp949: 0x9bfa, ucs2: 0xc3d4},
		lookupItem{cp949: 0x9bfb, ucs2: 0xc3d5},
		lookupItem{cp949: 0x9bfc, ucs2: 0xc3d6},
		lookupItem{cp949: 0x9bfd, ucs2: 0xc3d7},
		lookupItem{cp949: 0x9bfe, ucs2: 0xc3da},
		lookupItem{cp949: 0x9c41, ucs2: 0xc3db},
		lookupItem{cp949: 0x9c42, ucs2: 0xc3dd},
		lookupItem{cp949: 0x9c43, ucs2: 0xc3de},
		lookupItem{cp949: 0x9c44, ucs2: 0xc3e1},
		lookupItem{cp949: 0x9c45, ucs2: 0xc3e3},
		lookupItem{cp949: 0x9c46, ucs2: 0xc3e4},
		lookupItem{cp949: 0x9c47, ucs2: 0xc3e5},
		lookupItem{cp949: 0x9c48, ucs2: 0xc3e6},
		lookupItem{cp949: 0x9c49, ucs2: 0xc3e7},
		lookupItem{cp949: 0x9c4a, ucs2: 0xc3ea},
		lookupItem{cp949: 0x9c4b, ucs2: 0xc3eb},
		lookupItem{cp949: 0x9c4c, ucs2: 0xc3ec},
		lookupItem{cp949: 0x9c4d, ucs2: 0xc3ee},
		lookupItem{cp949: 0x9c4e, ucs2: 0xc3ef},
		lookupItem{cp949: 0x9c4f, ucs2: 0xc3f0},
		lookupItem{cp949: 0x9c50, ucs2: 0xc3f1},
		lookupItem{cp949: 0x9c51, ucs2: 0xc3f2},
		lookupItem{cp949: 0x9c52, ucs2: 0xc3f3},
		lookupItem{cp949: 0x9c53, ucs2: 0xc3f6},
		lookupItem{cp949: 0x9c54, ucs2: 0xc3f7},
		lookupItem{cp949: 0x9c55, ucs2: 0xc3f9},
		lookupItem{cp949: 0x9c56, ucs2: 0xc3fa},
		lookupItem{cp949: 0x9c57, ucs2: 0xc3fb},
		lookupItem{cp949: 0x9c58, ucs2: 0xc3fc},
		lookupItem{cp949: 0x9c59, ucs2: 0xc3fd},
		lookupItem{cp949: 0x9c5a, ucs2: 0xc3fe},
		lookupItem{cp949: 0x9c61, ucs2: 0xc3ff},
		lookupItem{cp949: 0x9c62, ucs2: 0xc400},
		lookupItem{cp949: 0x9c63, ucs2: 0xc401},
		lookupItem{cp949: 0x9c64, ucs2: 0xc402},
		lookupItem{cp949: 0x9c65, ucs2: 0xc403},
		lookupItem{cp949: 0x9c66, ucs2: 0xc404},
		lookupItem{cp949: 0x9c67, ucs2: 0xc405},
		lookupItem{cp949: 0x9c68, ucs2: 0xc406},
		lookupItem{cp949: 0x9c69, ucs2: 0xc407},
		lookupItem{cp949: 0x9c6a, ucs2: 0xc409},
		lookupItem{cp949: 0x9c6b, ucs2: 0xc40a},
		lookupItem{cp949: 0x9c6c, ucs2: 0xc40b},
		lookupItem{cp949: 0x9c6d, ucs2: 0xc40c},
		lookupItem{cp949: 0x9c6e, ucs2: 0xc40d},
		lookupItem{cp949: 0x9c6f, ucs2: 0xc40e},
		lookupItem{cp949: 0x9c70, ucs2: 0xc40f},
		lookupItem{cp949: 0x9c71, ucs2: 0xc411},
		lookupItem{cp949: 0x9c72, ucs2: 0xc412},
		lookupItem{cp949: 0x9c73, ucs2: 0xc413},
		lookupItem{cp949: 0x9c74, ucs2: 0xc414},
		lookupItem{cp949: 0x9c75, ucs2: 0xc415},
		lookupItem{cp949: 0x9c76, ucs2: 0xc416},
		lookupItem{cp949: 0x9c77, ucs2: 0xc417},
		lookupItem{cp949: 0x9c78, ucs2: 0xc418},
		lookupItem{cp949: 0x9c79, ucs2: 0xc419},
		lookupItem{cp949: 0x9c7a, ucs2: 0xc41a},
		lookupItem{cp949: 0x9c81, ucs2: 0xc41b},
		lookupItem{cp949: 0x9c82, ucs2: 0xc41c},
		lookupItem{cp949: 0x9c83, ucs2: 0xc41d},
		lookupItem{cp949: 0x9c84, ucs2: 0xc41e},
		lookupItem{cp949: 0x9c85, ucs2: 0xc41f},
		lookupItem{cp949: 0x9c86, ucs2: 0xc420},
		lookupItem{cp949: 0x9c87, ucs2: 0xc421},
		lookupItem{cp949: 0x9c88, ucs2: 0xc422},
		lookupItem{cp949: 0x9c89, ucs2: 0xc423},
		lookupItem{cp949: 0x9c8a, ucs2: 0xc425},
		lookupItem{cp949: 0x9c8b, ucs2: 0xc426},
		lookupItem{cp949: 0x9c8c, ucs2: 0xc427},
		lookupItem{cp949: 0x9c8d, ucs2: 0xc428},
		lookupItem{cp949: 0x9c8e, ucs2: 0xc429},
		lookupItem{cp949: 0x9c8f, ucs2: 0xc42a},
		lookupItem{cp949: 0x9c90, ucs2: 0xc42b},
		lookupItem{cp949: 0x9c91, ucs2: 0xc42d},
		lookupItem{cp949: 0x9c92, ucs2: 0xc42e},
		lookupItem{cp949: 0x9c93, ucs2: 0xc42f},
		lookupItem{cp949: 0x9c94, ucs2: 0xc431},
		lookupItem{cp949: 0x9c95, ucs2: 0xc432},
		lookupItem{cp949: 0x9c96, ucs2: 0xc433},
		lookupItem{cp949: 0x9c97, ucs2: 0xc435},
		lookupItem{cp949: 0x9c98, ucs2: 0xc436},
		lookupItem{cp949: 0x9c99, ucs2: 0xc437},
		lookupItem{cp949: 0x9c9a, ucs2: 0xc438},
		lookupItem{cp949: 0x9c9b, ucs2: 0xc439},
		lookupItem{cp949: 0x9c9c, ucs2: 0xc43a},
		lookupItem{cp949: 0x9c9d, ucs2: 0xc43b},
		lookupItem{cp949: 0x9c9e, ucs2: 0xc43e},
		lookupItem{cp949: 0x9c9f, ucs2: 0xc43f},
		lookupItem{cp949: 0x9ca0, ucs2: 0xc440},
		lookupItem{cp949: 0x9ca1, ucs2: 0xc441},
		lookupItem{cp949: 0x9ca2, ucs2: 0xc442},
		lookupItem{cp949: 0x9ca3, ucs2: 0xc443},
		lookupItem{cp949: 0x9ca4, ucs2: 0xc444},
		lookupItem{cp949: 0x9ca5, ucs2: 0xc445},
		lookupItem{cp949: 0x9ca6, ucs2: 0xc446},
		lookupItem{cp949: 0x9ca7, ucs2: 0xc447},
		lookupItem{cp949: 0x9ca8, ucs2: 0xc449},
		lookupItem{cp949: 0x9ca9, ucs2: 0xc44a},
		lookupItem{cp949: 0x9caa, ucs2: 0xc44b},
		lookupItem{cp949: 0x9cab, ucs2: 0xc44c},
		lookupItem{cp949: 0x9cac, ucs2: 0xc44d},
		lookupItem{cp949: 0x9cad, ucs2: 0xc44e},
		lookupItem{cp949: 0x9cae, ucs2: 0xc44f},
		lookupItem{cp949: 0x9caf, ucs2: 0xc450},
		lookupItem{cp949: 0x9cb0, ucs2: 0xc451},
		lookupItem{cp949: 0x9cb1, ucs2: 0xc452},
		lookupItem{cp949: 0x9cb2, ucs2: 0xc453},
		lookupItem{cp949: 0x9cb3, ucs2: 0xc454},
		lookupItem{cp949: 0x9cb4, ucs2: 0xc455},
		lookupItem{cp949: 0x9cb5, ucs2: 0xc456},
		lookupItem{cp949: 0x9cb6, ucs2: 0xc457},
		lookupItem{cp949: 0x9cb7, ucs2: 0xc458},
		lookupItem{cp949: 0x9cb8, ucs2: 0xc459},
		lookupItem{cp949: 0x9cb9, ucs2: 0xc45a},
		lookupItem{cp949: 0x9cba, ucs2: 0xc45b},
		lookupItem{cp949: 0x9cbb, ucs2: 0xc45c},
		lookupItem{cp949: 0x9cbc, ucs2: 0xc45d},
		lookupItem{cp949: 0x9cbd, ucs2: 0xc45e},
		lookupItem{cp949: 0x9cbe, ucs2: 0xc45f},
		lookupItem{cp949: 0x9cbf, ucs2: 0xc460},
		lookupItem{cp949: 0x9cc0, ucs2: 0xc461},
		lookupItem{cp949: 0x9cc1, ucs2: 0xc462},
		lookupItem{cp949: 0x9cc2, ucs2: 0xc463},
		lookupItem{cp949: 0x9cc3, ucs2: 0xc466},
		lookupItem{cp949: 0x9cc4, ucs2: 0xc467},
		lookupItem{cp949: 0x9cc5, ucs2: 0xc469},
		lookupItem{cp949: 0x9cc6, ucs2: 0xc46a},
		lookupItem{cp949: 0x9cc7, ucs2: 0xc46b},
		lookupItem{cp949: 0x9cc8, ucs2: 0xc46d},
		lookupItem{cp949: 0x9cc9, ucs2: 0xc46e},
		lookupItem{cp949: 0x9cca, ucs2: 0xc46f},
		lookupItem{cp949: 0x9ccb, ucs2: 0xc470},
		lookupItem{cp949: 0x9ccc, ucs2: 0xc471},
		lookupItem{cp949: 0x9ccd, ucs2: 0xc472},
		lookupItem{cp949: 0x9cce, ucs2: 0xc473},
		lookupItem{cp949: 0x9ccf, ucs2: 0xc476},
		lookupItem{cp949: 0x9cd0, ucs2: 0xc477},
		lookupItem{cp949: 0x9cd1, ucs2: 0xc478},
		lookupItem{cp949: 0x9cd2, ucs2: 0xc47a},
		lookupItem{cp949: 0x9cd3, ucs2: 0xc47b},
		lookupItem{cp949: 0x9cd4, ucs2: 0xc47c},
		lookupItem{cp949: 0x9cd5, ucs2: 0xc47d},
		lookupItem{cp949: 0x9cd6, ucs2: 0xc47e},
		lookupItem{cp949: 0x9cd7, ucs2: 0xc47f},
		lookupItem{cp949: 0x9cd8, ucs2: 0xc481},
		lookupItem{cp949: 0x9cd9, ucs2: 0xc482},
		lookupItem{cp949: 0x9cda, ucs2: 0xc483},
		lookupItem{cp949: 0x9cdb, ucs2: 0xc484},
		lookupItem{cp949: 0x9cdc, ucs2: 0xc485},
		lookupItem{cp949: 0x9cdd, ucs2: 0xc486},
		lookupItem{cp949: 0x9cde, ucs2: 0xc487},
		lookupItem{cp949: 0x9cdf, ucs2: 0xc488},
		lookupItem{cp949: 0x9ce0, ucs2: 0xc489},
		lookupItem{cp949: 0x9ce1, ucs2: 0xc48a},
		lookupItem{cp949: 0x9ce2, ucs2: 0xc48b},
		lookupItem{cp949: 0x9ce3, ucs2: 0xc48c},
		lookupItem{cp949: 0x9ce4, ucs2: 0xc48d},
		lookupItem{cp949: 0x9ce5, ucs2: 0xc48e},
		lookupItem{cp949: 0x9ce6, ucs2: 0xc48f},
		lookupItem{cp949: 0x9ce7, ucs2: 0xc490},
		lookupItem{cp949: 0x9ce8, ucs2: 0xc491},
		lookupItem{cp949: 0x9ce9, ucs2: 0xc492},
		lookupItem{cp949: 0x9cea, ucs2: 0xc493},
		lookupItem{cp949: 0x9ceb, ucs2: 0xc495},
		lookupItem{cp949: 0x9cec, ucs2: 0xc496},
		lookupItem{cp949: 0x9ced, ucs2: 0xc497},
		lookupItem{cp949: 0x9cee, ucs2: 0xc498},
		lookupItem{cp949: 0x9cef, ucs2: 0xc499},
		lookupItem{cp949: 0x9cf0, ucs2: 0xc49a},
		lookupItem{cp949: 0x9cf1, ucs2: 0xc49b},
		lookupItem{cp949: 0x9cf2, ucs2: 0xc49d},
		lookupItem{cp949: 0x9cf3, ucs2: 0xc49e},
		lookupItem{cp949: 0x9cf4, ucs2: 0xc49f},
		lookupItem{cp949: 0x9cf5, ucs2: 0xc4a0},
		lookupItem{cp949: 0x9cf6, ucs2: 0xc4a1},
		lookupItem{cp949: 0x9cf7, ucs2: 0xc4a2},
		lookupItem{cp949: 0x9cf8, ucs2: 0xc4a3},
		lookupItem{cp949: 0x9cf9, ucs2: 0xc4a4},
		lookupItem{cp949: 0x9cfa, ucs2: 0xc4a5},
		lookupItem{cp949: 0x9cfb, ucs2: 0xc4a6},
		lookupItem{cp949: 0x9cfc, ucs2: 0xc4a7},
		lookupItem{cp949: 0x9cfd, ucs2: 0xc4a8},
		lookupItem{cp949: 0x9cfe, ucs2: 0xc4a9},
		lookupItem{cp949: 0x9d41, ucs2: 0xc4aa},
		lookupItem{cp949: 0x9d42, ucs2: 0xc4ab},
		lookupItem{cp949: 0x9d43, ucs2: 0xc4ac},
		lookupItem{cp949: 0x9d44, ucs2: 0xc4ad},
		lookupItem{cp949: 0x9d45, ucs2: 0xc4ae},
		lookupItem{cp949: 0x9d46, ucs2: 0xc4af},
		lookupItem{cp949: 0x9d47, ucs2: 0xc4b0},
		lookupItem{cp949: 0x9d48, ucs2: 0xc4b1},
".
Definition text_cp949_lookup_from_020 : string :=
"		lookupItem{cp949: 0x9d49, ucs2: 0xc4b2},
		lookupItem{cp949: 0x9d4a, ucs2: 0xc4b3},
		lookupItem{cp949: 0x9d4b, ucs2: 0xc4b4},
		lookupItem{cp949: 0x9d4c, ucs2: 0xc4b5},
		lookupItem{cp949: 0x9d4d, ucs2: 0xc4b6},
		lookupItem{cp949: 0x9d4e, ucs2: 0xc4b7},
		lookupItem{cp949: 0x9d4f, ucs2: 0xc4b9},
		lookupItem{cp949: 0x9d50, ucs2: 0xc4ba},
		lookupItem{cp949: 0x9d51, ucs2: 0xc4bb},
		lookupItem{cp949: 0x9d52, ucs2: 0xc4bd},
		lookupItem{cp949: 0x9d53, ucs2: 0xc4be},
		lookupItem{cp949: 0x9d54, ucs2: 0xc4bf},
		lookupItem{cp949: 0x9d55, ucs2: 0xc4c0},
		lookupItem{cp949: 0x9d56, ucs2: 0xc4c1},
		lookupItem{cp949: 0x9d57, ucs2: 0xc4c2},
		lookupItem{cp949: 0x9d58, ucs2: 0xc4c3},
		lookupItem{cp949: 0x9d59, ucs2: 0xc4c4},
		lookupItem{cp949: 0x9d5a, ucs2: 0xc4c5},
		lookupItem{cp949: 0x9d61, ucs2: 0xc4c6},
		lookupItem{cp949: 0x9d62, ucs2: 0xc4c7},
		lookupItem{cp949: 0x9d63, ucs2: 0xc4c8},
		lookupItem{cp949: 0x9d64, ucs2: 0xc4c9},
		lookupItem{cp949: 0x9d65, ucs2: 0xc4ca},
		lookupItem{cp949: 0x9d66, ucs2: 0xc4cb},
		lookupItem{cp949: 0x9d67, ucs2: 0xc4cc},
		lookupItem{cp949: 0x9d68, ucs2: 0xc4cd},
		lookupItem{cp949: 0x9d69, ucs2: 0xc4ce},
		lookupItem{cp949: 0x9d6a, ucs2: 0xc4cf},
		lookupItem{cp949: 0x9d6b, ucs2: 0xc4d0},
		lookupItem{cp949: 0x9d6c, ucs2: 0xc4d1},
		lookupItem{cp949: 0x9d6d, ucs2: 0xc4d2},
		lookupItem{cp949: 0x9d6e, ucs2: 0xc4d3},
		lookupItem{cp949: 0x9d6f, ucs2: 0xc4d4},
		lookupItem{cp949: 0x9d70, ucs2: 0xc4d5},
		lookupItem{cp949: 0x9d71, ucs2: 0xc4d6},
		lookupItem{cp949: 0x9d72, ucs2: 0xc4d7},
		lookupItem{cp949: 0x9d73, ucs2: 0xc4d8},
		lookupItem{cp949: 0x9d74, ucs2: 0xc4d9},
		lookupItem{cp949: 0x9d75, ucs2: 0xc4da},
		lookupItem{cp949: 0x9d76, ucs2: 0xc4db},
		lookupItem{cp949: 0x9d77, ucs2: 0xc4dc},
		lookupItem{cp949: 0x9d78, ucs2: 0xc4dd},
		lookupItem{cp949: 0x9d79, ucs2: 0xc4de},
		lookupItem{cp949: 0x9d7a, ucs2: 0xc4df},
		lookupItem{cp949: 0x9d81, ucs2: 0xc4e0},
		lookupItem{cp949: 0x9d82, ucs2: 0xc4e1},
		lookupItem{cp949: 0x9d83, ucs2: 0xc4e2},
		lookupItem{cp949: 0x9d84, ucs2: 0xc4e3},
		lookupItem{cp949: 0x9d85, ucs2: 0xc4e4},
		lookupItem{cp949: 0x9d86, ucs2: 0xc4e5},
		lookupItem{cp949: 0x9d87, ucs2: 0xc4e6},
		lookupItem{cp949: 0x9d88, ucs2: 0xc4e7},
		lookupItem{cp949: 0x9d89, ucs2: 0xc4e8},
		lookupItem{cp949: 0x9d8a, ucs2: 0xc4ea},
		lookupItem{cp949: 0x9d8b, ucs2: 0xc4eb},
		lookupItem{cp949: 0x9d8c, ucs2: 0xc4ec},
		lookupItem{cp949: 0x9d8d, ucs2: 0xc4ed},
		lookupItem{cp949: 0x9d8e, ucs2: 0xc4ee},
		lookupItem{cp949: 0x9d8f, ucs2: 0xc4ef},
		lookupItem{cp949: 0x9d90, ucs2: 0xc4f2},
		lookupItem{cp949: 0x9d91, ucs2: 0xc4f3},
		lookupItem{cp949: 0x9d92, ucs2: 0xc4f5},
		lookupItem{cp949: 0x9d93, ucs2: 0xc4f6},
		lookupItem{cp949: 0x9d94, ucs2: 0xc4f7},
		lookupItem{cp949: 0x9d95, ucs2: 0xc4f9},
		lookupItem{cp949: 0x9d96, ucs2: 0xc4fb},
		lookupItem{cp949: 0x9d97, ucs2: 0xc4fc},
		lookupItem{cp949: 0x9d98, ucs2: 0xc4fd},
		lookupItem{cp949: 0x9d99, ucs2: 0xc4fe},
		lookupItem{cp949: 0x9d9a, ucs2: 0xc502},
		lookupItem{cp949: 0x9d9b, ucs2: 0xc503},
		lookupItem{cp949: 0x9d9c, ucs2: 0xc504},
		lookupItem{cp949: 0x9d9d, ucs2: 0xc505},
		lookupItem{cp949: 0x9d9e, ucs2: 0xc506},
		lookupItem{cp949: 0x9d9f, ucs2: 0xc507},
		lookupItem{cp949: 0x9da0, ucs2: 0xc508},
		lookupItem{cp949: 0x9da1, ucs2: 0xc509},
		lookupItem{cp949: 0x9da2, ucs2: 0xc50a},
		lookupItem{cp949: 0x9da3, ucs2: 0xc50b},
		lookupItem{cp949: 0x9da4, ucs2: 0xc50d},
		lookupItem{cp949: 0x9da5, ucs2: 0xc50e},
		lookupItem{cp949: 0x9da6, ucs2: 0xc50f},
		lookupItem{cp949: 0x9da7, ucs2: 0xc511},
		lookupItem{cp949: 0x9da8, ucs2: 0xc512},
		lookupItem{cp949: 0x9da9, ucs2: 0xc513},
		lookupItem{cp949: 0x9daa, ucs2: 0xc515},
		lookupItem{cp949: 0x9dab, ucs2: 0xc516},
		lookupItem{cp949: 0x9dac, ucs2: 0xc517},
		lookupItem{cp949: 0x9dad, ucs2: 0xc518},
		lookupItem{cp949: 0x9dae, ucs2: 0xc519},
		lookupItem{cp949: 0x9daf, ucs2: 0xc51a},
		lookupItem{cp949: 0x9db0, ucs2: 0xc51b},
		lookupItem{cp949: 0x9db1, ucs2: 0xc51d},
		lookupItem{cp949: 0x9db2, ucs2: 0xc51e},
		lookupItem{cp949: 0x9db3, ucs2: 0xc51f},
		lookupItem{cp949: 0x9db4, ucs2: 0xc520},
		lookupItem{cp949: 0x9db5, ucs2: 0xc521},
		lookupItem{cp949: 0x9db6, ucs2: 0xc522},
		lookupItem{cp949: 0x9db7, ucs2: 0xc523},
		lookupItem{cp949: 0x9db8, ucs2: 0xc524},
		lookupItem{cp949: 0x9db9, ucs2: 0xc525},
		lookupItem{cp949: 0x9dba, ucs2: 0xc526},
		lookupItem{cp949: 0x9dbb, ucs2: 0xc527},
		lookupItem{cp949: 0x9dbc, ucs2: 0xc52a},
		lookupItem{cp949: 0x9dbd, ucs2: 0xc52b},
		lookupItem{cp949: 0x9dbe, ucs2: 0xc52d},
		lookupItem{cp949: 0x9dbf, ucs2: 0xc52e},
		lookupItem{cp949: 0x9dc0, ucs2: 0xc52f},
		lookupItem{cp949: 0x9dc1, ucs2: 0xc531},
		lookupItem{cp949: 0x9dc2, ucs2: 0xc532},
		lookupItem{cp949: 0x9dc3, ucs2: 0xc533},
		lookupItem{cp949: 0x9dc4, ucs2: 0xc534},
		lookupItem{cp949: 0x9dc5, ucs2: 0xc535},
		lookupItem{cp949: 0x9dc6, ucs2: 0xc536},
		lookupItem{cp949: 0x9dc7, ucs2: 0xc537},
		lookupItem{cp949: 0x9dc8, ucs2: 0xc53a},
		lookupItem{cp949: 0x9dc9, ucs2: 0xc53c},
		lookupItem{cp949: 0x9dca, ucs2: 0xc53e},
		lookupItem{cp949: 0x9dcb, ucs2: 0xc53f},
		lookupItem{cp949: 0x9dcc, ucs2: 0xc540},
		lookupItem{cp949: 0x9dcd, ucs2: 0xc541},
		lookupItem{cp949: 0x9dce, ucs2: 0xc542},
		lookupItem{cp949: 0x9dcf, ucs2: 0xc543},
		lookupItem{cp949: 0x9dd0, ucs2: 0xc546},
		lookupItem{cp949: 0x9dd1, ucs2: 0xc547},
		lookupItem{cp949: 0x9dd2, ucs2: 0xc54b},
		lookupItem{cp949: 0x9dd3, ucs2: 0xc54f},
		lookupItem{cp949: 0x9dd4, ucs2: 0xc550},
		lookupItem{cp949: 0x9dd5, ucs2: 0xc551},
		lookupItem{cp949: 0x9dd6, ucs2: 0xc552},
		lookupItem{cp949: 0x9dd7, ucs2: 0xc556},
		lookupItem{cp949: 0x9dd8, ucs2: 0xc55a},
		lookupItem{cp949: 0x9dd9, ucs2: 0xc55b},
		lookupItem{cp949: 0x9dda, ucs2: 0xc55c},
		lookupItem{cp949: 0x9ddb, ucs2: 0xc55f},
		lookupItem{cp949: 0x9ddc, ucs2: 0xc562},
		lookupItem{cp949: 0x9ddd, ucs2: 0xc563},
		lookupItem{cp949: 0x9dde, ucs2: 0xc565},
		lookupItem{cp949: 0x9ddf, ucs2: 0xc566},
		lookupItem{cp949: 0x9de0, ucs2: 0xc567},
		lookupItem{cp949: 0x9de1, ucs2: 0xc569},
		lookupItem{cp949: 0x9de2, ucs2: 0xc56a},
		lookupItem{cp949: 0x9de3, ucs2: 0xc56b},
		lookupItem{cp949: 0x9de4, ucs2: 0xc56c},
		lookupItem{cp949: 0x9de5, ucs2: 0xc56d},
		lookupItem{cp949: 0x9de6, ucs2: 0xc56e},
		lookupItem{cp949: 0x9de7, ucs2: 0xc56f},
		lookupItem{cp949: 0x9de8, ucs2: 0xc572},
		lookupItem{cp949: 0x9de9, ucs2: 0xc576},
		lookupItem{cp949: 0x9dea, ucs2: 0xc577},
		lookupItem{cp949: 0x9deb, ucs2: 0xc578},
		lookupItem{cp949: 0x9dec, ucs2: 0xc579},
		lookupItem{cp949: 0x9ded, ucs2: 0xc57a},
		lookupItem{cp949: 0x9dee, ucs2: 0xc57b},
		lookupItem{cp949: 0x9def, ucs2: 0xc57e},
		lookupItem{cp949: 0x9df0, ucs2: 0xc57f},
		lookupItem{cp949: 0x9df1, ucs2: 0xc581},
		lookupItem{cp949: 0x9df2, ucs2: 0xc582},
		lookupItem{cp949: 0x9df3, ucs2: 0xc583},
		lookupItem{cp949: 0x9df4, ucs2: 0xc585},
		lookupItem{cp949: 0x9df5, ucs2: 0xc586},
		lookupItem{cp949: 0x9df6, ucs2: 0xc588},
		lookupItem{cp949: 0x9df7, ucs2: 0xc589},
		lookupItem{cp949: 0x9df8, ucs2: 0xc58a},
		lookupItem{cp949: 0x9df9, ucs2: 0xc58b},
		lookupItem{cp949: 0x9dfa, ucs2: 0xc58e},
		lookupItem{cp949: 0x9dfb, ucs2: 0xc590},
		lookupItem{cp949: 0x9dfc, ucs2: 0xc592},
		lookupItem{cp949: 0x9dfd, ucs2: 0xc593},
		lookupItem{cp949: 0x9dfe, ucs2: 0xc594},
		lookupItem{cp949: 0x9e41, ucs2: 0xc596},
		lookupItem{cp949: 0x9e42, ucs2: 0xc599},
		lookupItem{cp949: 0x9e43, ucs2: 0xc59a},
		lookupItem{cp949: 0x9e44, ucs2: 0xc59b},
		lookupItem{cp949: 0x9e45, ucs2: 0xc59d},
		lookupItem{cp949: 0x9e46, ucs2: 0xc59e},
		lookupItem{cp949: 0x9e47, ucs2: 0xc59f},
		lookupItem{cp949: 0x9e48, ucs2: 0xc5a1},
		lookupItem{cp949: 0x9e49, ucs2: 0xc5a2},
		lookupItem{cp949: 0x9e4a, ucs2: 0xc5a3},
		lookupItem{cp949: 0x9e4b, ucs2: 0xc5a4},
		lookupItem{cp949: 0x9e4c, ucs2: 0xc5a5},
		lookupItem{cp949: 0x9e4d, ucs2: 0xc5a6},
		lookupItem{cp949: 0x9e4e, ucs2: 0xc5a7},
		lookupItem{cp949: 0x9e4f, ucs2: 0xc5a8},
		lookupItem{cp949: 0x9e50, ucs2: 0xc5aa},
		lookupItem{cp949: 0x9e51, ucs2: 0xc5ab},
		lookupItem{cp949: 0x9e52, ucs2: 0xc5ac},
		lookupItem{cp949: 0x9e53, ucs2: 0xc5ad},
		lookupItem{cp949: 0x9e54, ucs2: 0xc5ae},
		lookupItem{cp949: 0x9e55, ucs2: 0xc5af},
		lookupItem{cp949: 0x9e56, ucs2: 0xc5b0},
		lookupItem{cp949: 0x9e57, ucs2: 0xc5b1},
		lookupItem{cp949: 0x9e58, ucs2: 0xc5b2},
		lookupItem{cp949: 0x9e59, ucs2: 0xc5b3},
		lookupItem{cp949: 0x9e5a, ucs2: 0xc5b6},
		lookupItem{cp949: 0x9e61, ucs2: 0xc5b7},
		lookupItem{cp949: 0x9e62, ucs2: 0xc5ba},
		lookupItem{cp949: 0x9e63, ucs2: 0xc5bf},
		lookupItem{cp949: 0x9e64, ucs2: 0xc5c0},
		lookupItem{cp949: 0x9e65, ucs2: 0xc5c1},
		lookupItem{cp949: 0x9e66, ucs2: 0xc5c2},
		lookupItem{cp949: 0x9e67, ucs2: 0xc5c3},
		lookupItem{cp949: 0x9e68, ucs2: 0xc5cb},
		lookupItem{cp949: 0x9e69, ucs2: 0xc5cd},
		lookupItem{cp949: 0x9e6a, ucs2: 0xc5cf},
		lookupItem{cp949: 0x9e6b, ucs2: 0xc5d2},
		lookupItem{cp949: 0x9e6c, ucs2: 0xc5d3},
		lookupItem{cp949: 0x9e6d, ucs2: 0xc5d5},
		lookupItem{cp949: 0x9e6e, ucs2: 0xc5d6},
		lookupItem{cp949: 0x9e6f, ucs2: 0xc5d7},
		lookupItem{cp949: 0x9e70, ucs2: 0xc5d9},
		lookupItem{cp949: 0x9e71, ucs2: 0xc5da},
		lookupItem{cp949: 0x9e72, ucs2: 0xc5db},
		lookupItem{cp949: 0x9e73, ucs2: 0xc5dc},
		lookupItem{cp949: 0x9e74, ucs2: 0xc5dd},
		lookupItem{cp949: 0x9e75, ucs2: 0xc5de},
		lookupItem{cp949: 0x9e76, ucs2: 0xc5df},
		lookupItem{cp949: 0x9e77, ucs2: 0xc5e2},
		lookupItem{cp949: 0x9e78, ucs2: 0xc5e4},
		lookupItem{cp949: 0x9e79, ucs2: 0xc5e6},
		lookupItem{cp949: 0x9e7a, ucs2: 0xc5e7},
		lookupItem{cp949: 0x9e81, ucs2: 0xc5e8},
		lookupItem{cp949: 0x9e82, ucs2: 0xc5e9},
		lookupItem{cp949: 0x9e83, ucs2: 0xc5ea},
		lookupItem{cp949: 0x9e84, ucs2: 0xc5eb},
		lookupItem{cp949: 0x9e85, ucs2: 0xc5ef},
		lookupItem{cp949: 0x9e86, ucs2: 0xc5f1},
		lookupItem{cp949: 0x9e87, ucs2: 0xc5f2},
		lookupItem{cp949: 0x9e88, ucs2: 0xc5f3},
		lookupItem{cp949: 0x9e89, ucs2: 0xc5f5},
		lookupItem{cp949: 0x9e8a, ucs2: 0xc5f8},
		lookupItem{cp949: 0x9e8b, ucs2: 0xc5f9},
		lookupItem{cp949: 0x9e8c, ucs2: 0xc5fa},
		lookupItem{cp949: 0x9e8d, ucs2: 0xc5fb},
		lookupItem{cp949: 0x9e8e, ucs2: 0xc602},
		lookupItem{cp949: 0x9e8f, ucs2: 0xc603},
		lookupItem{cp949: 0x9e90, ucs2: 0xc604},
		lookupItem{cp949: 0x9e91, ucs2: 0xc609},
		lookupItem{cp949: 0x9e92, ucs2: 0xc60a},
		lookupItem{cp949: 0x9e93, ucs2: 0xc60b},
		lookupItem{cp949: 0x9e94, ucs2: 0xc60d},
		lookupItem{cp949: 0x9e95, ucs2: 0xc60e},
		lookupItem{cp949: 0x9e96, ucs2: 0xc60f},
		lookupItem{cp949: 0x9e97, ucs2: 0xc611},
		lookupItem{cp949: 0x9e98, ucs2: 0xc612},
		lookupItem{cp949: 0x9e99, ucs2: 0xc613},
		lookupItem{cp949: 0x9e9a, ucs2: 0xc614},
		lookupItem{cp949: 0x9e9b, ucs2: 0xc615},
		lookupItem{cp949: 0x9e9c, ucs2: 0xc616},
".
Definition text_cp949_lookup_from_021 : string :=
"		lookupItem{cp949: 0x9e9d, ucs2: 0xc617},
		lookupItem{cp949: 0x9e9e, ucs2: 0xc61a},
		lookupItem{cp949: 0x9e9f, ucs2: 0xc61d},
		lookupItem{cp949: 0x9ea0, ucs2: 0xc61e},
		lookupItem{cp949: 0x9ea1, ucs2: 0xc61f},
		lookupItem{cp949: 0x9ea2, ucs2: 0xc620},
		lookupItem{cp949: 0x9ea3, ucs2: 0xc621},
		lookupItem{cp949: 0x9ea4, ucs2: 0xc622},
		lookupItem{cp949: 0x9ea5, ucs2: 0xc623},
		lookupItem{cp949: 0x9ea6, ucs2: 0xc626},
		lookupItem{cp949: 0x9ea7, ucs2: 0xc627},
		lookupItem{cp949: 0x9ea8, ucs2: 0xc629},
		lookupItem{cp949: 0x9ea9, ucs2: 0xc62a},
		lookupItem{cp949: 0x9eaa, ucs2: 0xc62b},
		lookupItem{cp949: 0x9eab, ucs2: 0xc62f},
		lookupItem{cp949: 0x9eac, ucs2: 0xc631},
		lookupItem{cp949: 0x9ead, ucs2: 0xc632},
		lookupItem{cp949: 0x9eae, ucs2: 0xc636},
		lookupItem{cp949: 0x9eaf, ucs2: 0xc638},
		lookupItem{cp949: 0x9eb0, ucs2: 0xc63a},
		lookupItem{cp949: 0x9eb1, ucs2: 0xc63c},
		lookupItem{cp949: 0x9eb2, ucs2: 0xc63d},
		lookupItem{cp949: 0x9eb3, ucs2: 0xc63e},
		lookupItem{cp949: 0x9eb4, ucs2: 0xc63f},
		lookupItem{cp949: 0x9eb5, ucs2: 0xc642},
		lookupItem{cp949: 0x9eb6, ucs2: 0xc643},
		lookupItem{cp949: 0x9eb7, ucs2: 0xc645},
		lookupItem{cp949: 0x9eb8, ucs2: 0xc646},
		lookupItem{cp949: 0x9eb9, ucs2: 0xc647},
		lookupItem{cp949: 0x9eba, ucs2: 0xc649},
		lookupItem{cp949: 0x9ebb, ucs2: 0xc64a},
		lookupItem{cp949: 0x9ebc, ucs2: 0xc64b},
		lookupItem{cp949: 0x9ebd, ucs2: 0xc64c},
		lookupItem{cp949: 0x9ebe, ucs2: 0xc64d},
		lookupItem{cp949: 0x9ebf, ucs2: 0xc64e},
		lookupItem{cp949: 0x9ec0, ucs2: 0xc64f},
		lookupItem{cp949: 0x9ec1, ucs2: 0xc652},
		lookupItem{cp949: 0x9ec2, ucs2: 0xc656},
		lookupItem{cp949: 0x9ec3, ucs2: 0xc657},
		lookupItem{cp949: 0x9ec4, ucs2: 0xc658},
		lookupItem{cp949: 0x9ec5, ucs2: 0xc659},
		lookupItem{cp949: 0x9ec6, ucs2: 0xc65a},
		lookupItem{cp949: 0x9ec7, ucs2: 0xc65b},
		lookupItem{cp949: 0x9ec8, ucs2: 0xc65e},
		lookupItem{cp949: 0x9ec9, ucs2: 0xc65f},
		lookupItem{cp949: 0x9eca, ucs2: 0xc661},
		lookupItem{cp949: 0x9ecb, ucs2: 0xc662},
		lookupItem{cp949: 0x9ecc, ucs2: 0xc663},
		lookupItem{cp949: 0x9ecd, ucs2: 0xc664},
		lookupItem{cp949: 0x9ece, ucs2: 0xc665},
		lookupItem{cp949: 0x9ecf, ucs2: 0xc666},
		lookupItem{cp949: 0x9ed0, ucs2: 0xc667},
		lookupItem{cp949: 0x9ed1, ucs2: 0xc668},
		lookupItem{cp949: 0x9ed2, ucs2: 0xc669},
		lookupItem{cp949: 0x9ed3, ucs2: 0xc66a},
		lookupItem{cp949: 0x9ed4, ucs2: 0xc66b},
		lookupItem{cp949: 0x9ed5, ucs2: 0xc66d},
		lookupItem{cp949: 0x9ed6, ucs2: 0xc66e},
		lookupItem{cp949: 0x9ed7, ucs2: 0xc670},
		lookupItem{cp949: 0x9ed8, ucs2: 0xc672},
		lookupItem{cp949: 0x9ed9, ucs2: 0xc673},
		lookupItem{cp949: 0x9eda, ucs2: 0xc674},
		lookupItem{cp949: 0x9edb, ucs2: 0xc675},
		lookupItem{cp949: 0x9edc, ucs2: 0xc676},
		lookupItem{cp949: 0x9edd, ucs2: 0xc677},
		lookupItem{cp949: 0x9ede, ucs2: 0xc67a},
		lookupItem{cp949: 0x9edf, ucs2: 0xc67b},
		lookupItem{cp949: 0x9ee0, ucs2: 0xc67d},
		lookupItem{cp949: 0x9ee1, ucs2: 0xc67e},
		lookupItem{cp949: 0x9ee2, ucs2: 0xc67f},
		lookupItem{cp949: 0x9ee3, ucs2: 0xc681},
		lookupItem{cp949: 0x9ee4, ucs2: 0xc682},
		lookupItem{cp949: 0x9ee5, ucs2: 0xc683},
		lookupItem{cp949: 0x9ee6, ucs2: 0xc684},
		lookupItem{cp949: 0x9ee7, ucs2: 0xc685},
		lookupItem{cp949: 0x9ee8, ucs2: 0xc686},
		lookupItem{cp949: 0x9ee9, ucs2: 0xc687},
		lookupItem{cp949: 0x9eea, ucs2: 0xc68a},
		lookupItem{cp949: 0x9eeb, ucs2: 0xc68c},
		lookupItem{cp949: 0x9eec, ucs2: 0xc68e},
		lookupItem{cp949: 0x9eed, ucs2: 0xc68f},
		lookupItem{cp949: 0x9eee, ucs2: 0xc690},
		lookupItem{cp949: 0x9eef, ucs2: 0xc691},
		lookupItem{cp949: 0x9ef0, ucs2: 0xc692},
		lookupItem{cp949: 0x9ef1, ucs2: 0xc693},
		lookupItem{cp949: 0x9ef2, ucs2: 0xc696},
		lookupItem{cp949: 0x9ef3, ucs2: 0xc697},
		lookupItem{cp949: 0x9ef4, ucs2: 0xc699},
		lookupItem{cp949: 0x9ef5, ucs2: 0xc69a},
		lookupItem{cp949: 0x9ef6, ucs2: 0xc69b},
		lookupItem{cp949: 0x9ef7, ucs2: 0xc69d},
		lookupItem{cp949: 0x9ef8, ucs2: 0xc69e},
		lookupItem{cp949: 0x9ef9, ucs2: 0xc69f},
		lookupItem{cp949: 0x9efa, ucs2: 0xc6a0},
		lookupItem{cp949: 0x9efb, ucs2: 0xc6a1},
		lookupItem{cp949: 0x9efc, ucs2: 0xc6a2},
		lookupItem{cp949: 0x9efd, ucs2: 0xc6a3},
		lookupItem{cp949: 0x9efe, ucs2: 0xc6a6},
		lookupItem{cp949: 0x9f41, ucs2: 0xc6a8},
		lookupItem{cp949: 0x9f42, ucs2: 0xc6aa},
		lookupItem{cp949: 0x9f43, ucs2: 0xc6ab},
		lookupItem{cp949: 0x9f44, ucs2: 0xc6ac},
		lookupItem{cp949: 0x9f45, ucs2: 0xc6ad},
		lookupItem{cp949: 0x9f46, ucs2: 0xc6ae},
		lookupItem{cp949: 0x9f47, ucs2: 0xc6af},
		lookupItem{cp949: 0x9f48, ucs2: 0xc6b2},
		lookupItem{cp949: 0x9f49, ucs2: 0xc6b3},
		lookupItem{cp949: 0x9f4a, ucs2: 0xc6b5},
		lookupItem{cp949: 0x9f4b, ucs2: 0xc6b6},
		lookupItem{cp949: 0x9f4c, ucs2: 0xc6b7},
		lookupItem{cp949: 0x9f4d, ucs2: 0xc6bb},
		lookupItem{cp949: 0x9f4e, ucs2: 0xc6bc},
		lookupItem{cp949: 0x9f4f, ucs2: 0xc6bd},
		lookupItem{cp949: 0x9f50, ucs2: 0xc6be},
		lookupItem{cp949: 0x9f51, ucs2: 0xc6bf},
		lookupItem{cp949: 0x9f52, ucs2: 0xc6c2},
		lookupItem{cp949: 0x9f53, ucs2: 0xc6c4},
		lookupItem{cp949: 0x9f54, ucs2: 0xc6c6},
		lookupItem{cp949: 0x9f55, ucs2: 0xc6c7},
		lookupItem{cp949: 0x9f56, ucs2: 0xc6c8},
		lookupItem{cp949: 0x9f57, ucs2: 0xc6c9},
		lookupItem{cp949: 0x9f58, ucs2: 0xc6ca},
		lookupItem{cp949: 0x9f59, ucs2: 0xc6cb},
		lookupItem{cp949: 0x9f5a, ucs2: 0xc6ce},
		lookupItem{cp949: 0x9f61, ucs2: 0xc6cf},
		lookupItem{cp949: 0x9f62, ucs2: 0xc6d1},
		lookupItem{cp949: 0x9f63, ucs2: 0xc6d2},
		lookupItem{cp949: 0x9f64, ucs2: 0xc6d3},
		lookupItem{cp949: 0x9f65, ucs2: 0xc6d5},
		lookupItem{cp949: 0x9f66, ucs2: 0xc6d6},
		lookupItem{cp949: 0x9f67, ucs2: 0xc6d7},
		lookupItem{cp949: 0x9f68, ucs2: 0xc6d8},
		lookupItem{cp949: 0x9f69, ucs2: 0xc6d9},
		lookupItem{cp949: 0x9f6a, ucs2: 0xc6da},
		lookupItem{cp949: 0x9f6b, ucs2: 0xc6db},
		lookupItem{cp949: 0x9f6c, ucs2: 0xc6de},
		lookupItem{cp949: 0x9f6d, ucs2: 0xc6df},
		lookupItem{cp949: 0x9f6e, ucs2: 0xc6e2},
		lookupItem{cp949: 0x9f6f, ucs2: 0xc6e3},
		lookupItem{cp949: 0x9f70, ucs2: 0xc6e4},
		lookupItem{cp949: 0x9f71, ucs2: 0xc6e5},
		lookupItem{cp949: 0x9f72, ucs2: 0xc6e6},
		lookupItem{cp949: 0x9f73, ucs2: 0xc6e7},
		lookupItem{cp949: 0x9f74, ucs2: 0xc6ea},
		lookupItem{cp949: 0x9f75, ucs2: 0xc6eb},
		lookupItem{cp949: 0x9f76, ucs2: 0xc6ed},
		lookupItem{cp949: 0x9f77, ucs2: 0xc6ee},
		lookupItem{cp949: 0x9f78, ucs2: 0xc6ef},
		lookupItem{cp949: 0x9f79, ucs2: 0xc6f1},
		lookupItem{cp949: 0x9f7a, ucs2: 0xc6f2},
		lookupItem{cp949: 0x9f81, ucs2: 0xc6f3},
		lookupItem{cp949: 0x9f82, ucs2: 0xc6f4},
		lookupItem{cp949: 0x9f83, ucs2: 0xc6f5},
		lookupItem{cp949: 0x9f84, ucs2: 0xc6f6},
		lookupItem{cp949: 0x9f85, ucs2: 0xc6f7},
		lookupItem{cp949: 0x9f86, ucs2: 0xc6fa},
		lookupItem{cp949: 0x9f87, ucs2: 0xc6fb},
		lookupItem{cp949: 0x9f88, ucs2: 0xc6fc},
		lookupItem{cp949: 0x9f89, ucs2: 0xc6fe},
		lookupItem{cp949: 0x9f8a, ucs2: 0xc6ff},
		lookupItem{cp949: 0x9f8b, ucs2: 0xc700},
		lookupItem{cp949: 0x9f8c, ucs2: 0xc701},
		lookupItem{cp949: 0x9f8d, ucs2: 0xc702},
		lookupItem{cp949: 0x9f8e, ucs2: 0xc703},
		lookupItem{cp949: 0x9f8f, ucs2: 0xc706},
		lookupItem{cp949: 0x9f90, ucs2: 0xc707},
		lookupItem{cp949: 0x9f91, ucs2: 0xc709},
		lookupItem{cp949: 0x9f92, ucs2: 0xc70a},
		lookupItem{cp949: 0x9f93, ucs2: 0xc70b},
		lookupItem{cp949: 0x9f94, ucs2: 0xc70d},
		lookupItem{cp949: 0x9f95, ucs2: 0xc70e},
		lookupItem{cp949: 0x9f96, ucs2: 0xc70f},
		lookupItem{cp949: 0x9f97, ucs2: 0xc710},
		lookupItem{cp949: 0x9f98, ucs2: 0xc711},
		lookupItem{cp949: 0x9f99, ucs2: 0xc712},
		lookupItem{cp949: 0x9f9a, ucs2: 0xc713},
		lookupItem{cp949: 0x9f9b, ucs2: 0xc716},
		lookupItem{cp949: 0x9f9c, ucs2: 0xc718},
		lookupItem{cp949: 0x9f9d, ucs2: 0xc71a},
		lookupItem{cp949: 0x9f9e, ucs2: 0xc71b},
		lookupItem{cp949: 0x9f9f, ucs2: 0xc71c},
		lookupItem{cp949: 0x9fa0, ucs2: 0xc71d},
		lookupItem{cp949: 0x9fa1, ucs2: 0xc71e},
		lookupItem{cp949: 0x9fa2, ucs2: 0xc71f},
		lookupItem{cp949: 0x9fa3, ucs2: 0xc722},
		lookupItem{cp949: 0x9fa4, ucs2: 0xc723},
		lookupItem{cp949: 0x9fa5, ucs2: 0xc725},
		lookupItem{cp949: 0x9fa6, ucs2: 0xc726},
		lookupItem{cp949: 0x9fa7, ucs2: 0xc727},
		lookupItem{cp949: 0x9fa8, ucs2: 0xc729},
		lookupItem{cp949: 0x9fa9, ucs2: 0xc72a},
		lookupItem{cp949: 0x9faa, ucs2: 0xc72b},
		lookupItem{cp949: 0x9fab, ucs2: 0xc72c},
		lookupItem{cp949: 0x9fac, ucs2: 0xc72d},
		lookupItem{cp949: 0x9fad, ucs2: 0xc72e},
		lookupItem{cp949: 0x9fae, ucs2: 0xc72f},
		lookupItem{cp949: 0x9faf, ucs2: 0xc732},
		lookupItem{cp949: 0x9fb0, ucs2: 0xc734},
		lookupItem{cp949: 0x9fb1, ucs2: 0xc736},
		lookupItem{cp949: 0x9fb2, ucs2: 0xc738},
		lookupItem{cp949: 0x9fb3, ucs2: 0xc739},
		lookupItem{cp949: 0x9fb4, ucs2: 0xc73a},
		lookupItem{cp949: 0x9fb5, ucs2: 0xc73b},
		lookupItem{cp949: 0x9fb6, ucs2: 0xc73e},
		lookupItem{cp949: 0x9fb7, ucs2: 0xc73f},
		lookupItem{cp949: 0x9fb8, ucs2: 0xc741},
		lookupItem{cp949: 0x9fb9, ucs2: 0xc742},
		lookupItem{cp949: 0x9fba, ucs2: 0xc743},
		lookupItem{cp949: 0x9fbb, ucs2: 0xc745},
		lookupItem{cp949: 0x9fbc, ucs2: 0xc746},
		lookupItem{cp949: 0x9fbd, ucs2: 0xc747},
		lookupItem{cp949: 0x9fbe, ucs2: 0xc748},
		lookupItem{cp949: 0x9fbf, ucs2: 0xc749},
		lookupItem{cp949: 0x9fc0, ucs2: 0xc74b},
		lookupItem{cp949: 0x9fc1, ucs2: 0xc74e},
		lookupItem{cp949: 0x9fc2, ucs2: 0xc750},
		lookupItem{cp949: 0x9fc3, ucs2: 0xc759},
		lookupItem{cp949: 0x9fc4, ucs2: 0xc75a},
		lookupItem{cp949: 0x9fc5, ucs2: 0xc75b},
		lookupItem{cp949: 0x9fc6, ucs2: 0xc75d},
		lookupItem{cp949: 0x9fc7, ucs2: 0xc75e},
		lookupItem{cp949: 0x9fc8, ucs2: 0xc75f},
		lookupItem{cp949: 0x9fc9, ucs2: 0xc761},
		lookupItem{cp949: 0x9fca, ucs2: 0xc762},
		lookupItem{cp949: 0x9fcb, ucs2: 0xc763},
		lookupItem{cp949: 0x9fcc, ucs2: 0xc764},
		lookupItem{cp949: 0x9fcd, ucs2: 0xc765},
		lookupItem{cp949: 0x9fce, ucs2: 0xc766},
		lookupItem{cp949: 0x9fcf, ucs2: 0xc767},
		lookupItem{cp949: 0x9fd0, ucs2: 0xc769},
		lookupItem{cp949: 0x9fd1, ucs2: 0xc76a},
		lookupItem{cp949: 0x9fd2, ucs2: 0xc76c},
		lookupItem{cp949: 0x9fd3, ucs2: 0xc76d},
		lookupItem{cp949: 0x9fd4, ucs2: 0xc76e},
		lookupItem{cp949: 0x9fd5, ucs2: 0xc76f},
		lookupItem{cp949: 0x9fd6, ucs2: 0xc770},
		lookupItem{cp949: 0x9fd7, ucs2: 0xc771},
		lookupItem{cp949: 0x9fd8, ucs2: 0xc772},
		lookupItem{cp949: 0x9fd9, ucs2: 0xc773},
		lookupItem{cp949: 0x9fda, ucs2: 0xc776},
		lookupItem{cp949: 0x9fdb, ucs2: 0xc777},
		lookupItem{cp949: 0x9fdc, ucs2: 0xc779},
		lookupItem{cp949: 0x9fdd, ucs2: 0xc77a},
		lookupItem{cp949: 0x9fde, ucs2: 0xc77b},
		lookupItem{cp949: 0x9fdf, ucs2: 0xc77f},
		lookupItem{cp949: 0x9fe0, ucs2: 0xc780},
		lookupItem{cp949: 0x9fe1, ucs2: 0xc781},
		lookupItem{cp949: 0x9fe2, ucs2: 0xc782},
		lookupItem{cp949: 0x9fe3, ucs2: 0xc786},
		lookupItem{cp949: 0x9fe4, ucs2: 0xc78b},
".
Definition text_cp949_lookup_from_022 : string :=
"		lookupItem{cp949: 0x9fe5, ucs2: 0xc78c},
		lookupItem{cp949: 0x9fe6, ucs2: 0xc78d},
		lookupItem{cp949: 0x9fe7, ucs2: 0xc78f},
		lookupItem{cp949: 0x9fe8, ucs2: 0xc792},
		lookupItem{cp949: 0x9fe9, ucs2: 0xc793},
		lookupItem{cp949: 0x9fea, ucs2: 0xc795},
		lookupItem{cp949: 0x9feb, ucs2: 0xc799},
		lookupItem{cp949: 0x9fec, ucs2: 0xc79b},
		lookupItem{cp949: 0x9fed, ucs2: 0xc79c},
		lookupItem{cp949: 0x9fee, ucs2: 0xc79d},
		lookupItem{cp949: 0x9fef, ucs2: 0xc79e},
		lookupItem{cp949: 0x9ff0, ucs2: 0xc79f},
		lookupItem{cp949: 0x9ff1, ucs2: 0xc7a2},
		lookupItem{cp949: 0x9ff2, ucs2: 0xc7a7},
		lookupItem{cp949: 0x9ff3, ucs2: 0xc7a8},
		lookupItem{cp949: 0x9ff4, ucs2: 0xc7a9},
		lookupItem{cp949: 0x9ff5, ucs2: 0xc7aa},
		lookupItem{cp949: 0x9ff6, ucs2: 0xc7ab},
		lookupItem{cp949: 0x9ff7, ucs2: 0xc7ae},
		lookupItem{cp949: 0x9ff8, ucs2: 0xc7af},
		lookupItem{cp949: 0x9ff9, ucs2: 0xc7b1},
		lookupItem{cp949: 0x9ffa, ucs2: 0xc7b2},
		lookupItem{cp949: 0x9ffb, ucs2: 0xc7b3},
		lookupItem{cp949: 0x9ffc, ucs2: 0xc7b5},
		lookupItem{cp949: 0x9ffd, ucs2: 0xc7b6},
		lookupItem{cp949: 0x9ffe, ucs2: 0xc7b7},
		lookupItem{cp949: 0xa041, ucs2: 0xc7b8},
		lookupItem{cp949: 0xa042, ucs2: 0xc7b9},
		lookupItem{cp949: 0xa043, ucs2: 0xc7ba},
		lookupItem{cp949: 0xa044, ucs2: 0xc7bb},
		lookupItem{cp949: 0xa045, ucs2: 0xc7be},
		lookupItem{cp949: 0xa046, ucs2: 0xc7c2},
		lookupItem{cp949: 0xa047, ucs2: 0xc7c3},
		lookupItem{cp949: 0xa048, ucs2: 0xc7c4},
		lookupItem{cp949: 0xa049, ucs2: 0xc7c5},
		lookupItem{cp949: 0xa04a, ucs2: 0xc7c6},
		lookupItem{cp949: 0xa04b, ucs2: 0xc7c7},
		lookupItem{cp949: 0xa04c, ucs2: 0xc7ca},
		lookupItem{cp949: 0xa04d, ucs2: 0xc7cb},
		lookupItem{cp949: 0xa04e, ucs2: 0xc7cd},
		lookupItem{cp949: 0xa04f, ucs2: 0xc7cf},
		lookupItem{cp949: 0xa050, ucs2: 0xc7d1},
		lookupItem{cp949: 0xa051, ucs2: 0xc7d2},
		lookupItem{cp949: 0xa052, ucs2: 0xc7d3},
		lookupItem{cp949: 0xa053, ucs2: 0xc7d4},
		lookupItem{cp949: 0xa054, ucs2: 0xc7d5},
		lookupItem{cp949: 0xa055, ucs2: 0xc7d6},
		lookupItem{cp949: 0xa056, ucs2: 0xc7d7},
		lookupItem{cp949: 0xa057, ucs2: 0xc7d9},
		lookupItem{cp949: 0xa058, ucs2: 0xc7da},
		lookupItem{cp949: 0xa059, ucs2: 0xc7db},
		lookupItem{cp949: 0xa05a, ucs2: 0xc7dc},
		lookupItem{cp949: 0xa061, ucs2: 0xc7de},
		lookupItem{cp949: 0xa062, ucs2: 0xc7df},
		lookupItem{cp949: 0xa063, ucs2: 0xc7e0},
		lookupItem{cp949: 0xa064, ucs2: 0xc7e1},
		lookupItem{cp949: 0xa065, ucs2: 0xc7e2},
		lookupItem{cp949: 0xa066, ucs2: 0xc7e3},
		lookupItem{cp949: 0xa067, ucs2: 0xc7e5},
		lookupItem{cp949: 0xa068, ucs2: 0xc7e6},
		lookupItem{cp949: 0xa069, ucs2: 0xc7e7},
		lookupItem{cp949: 0xa06a, ucs2: 0xc7e9},
		lookupItem{cp949: 0xa06b, ucs2: 0xc7ea},
		lookupItem{cp949: 0xa06c, ucs2: 0xc7eb},
		lookupItem{cp949: 0xa06d, ucs2: 0xc7ed},
		lookupItem{cp949: 0xa06e, ucs2: 0xc7ee},
		lookupItem{cp949: 0xa06f, ucs2: 0xc7ef},
		lookupItem{cp949: 0xa070, ucs2: 0xc7f0},
		lookupItem{cp949: 0xa071, ucs2: 0xc7f1},
		lookupItem{cp949: 0xa072, ucs2: 0xc7f2},
		lookupItem{cp949: 0xa073, ucs2: 0xc7f3},
		lookupItem{cp949: 0xa074, ucs2: 0xc7f4},
		lookupItem{cp949: 0xa075, ucs2: 0xc7f5},
		lookupItem{cp949: 0xa076, ucs2: 0xc7f6},
		lookupItem{cp949: 0xa077, ucs2: 0xc7f7},
		lookupItem{cp949: 0xa078, ucs2: 0xc7f8},
		lookupItem{cp949: 0xa079, ucs2: 0xc7f9},
		lookupItem{cp949: 0xa07a, ucs2: 0xc7fa},
		lookupItem{cp949: 0xa081, ucs2: 0xc7fb},
		lookupItem{cp949: 0xa082, ucs2: 0xc7fc},
		lookupItem{cp949: 0xa083, ucs2: 0xc7fd},
		lookupItem{cp949: 0xa084, ucs2: 0xc7fe},
		lookupItem{cp949: 0xa085, ucs2: 0xc7ff},
		lookupItem{cp949: 0xa086, ucs2: 0xc802},
		lookupItem{cp949: 0xa087, ucs2: 0xc803},
		lookupItem{cp949: 0xa088, ucs2: 0xc805},
		lookupItem{cp949: 0xa089, ucs2: 0xc806},
		lookupItem{cp949: 0xa08a, ucs2: 0xc807},
		lookupItem{cp949: 0xa08b, ucs2: 0xc809},
		lookupItem{cp949: 0xa08c, ucs2: 0xc80b},
		lookupItem{cp949: 0xa08d, ucs2: 0xc80c},
		lookupItem{cp949: 0xa08e, ucs2: 0xc80d},
		lookupItem{cp949: 0xa08f, ucs2: 0xc80e},
		lookupItem{cp949: 0xa090, ucs2: 0xc80f},
		lookupItem{cp949: 0xa091, ucs2: 0xc812},
		lookupItem{cp949: 0xa092, ucs2: 0xc814},
		lookupItem{cp949: 0xa093, ucs2: 0xc817},
		lookupItem{cp949: 0xa094, ucs2: 0xc818},
		lookupItem{cp949: 0xa095, ucs2: 0xc819},
		lookupItem{cp949: 0xa096, ucs2: 0xc81a},
		lookupItem{cp949: 0xa097, ucs2: 0xc81b},
		lookupItem{cp949: 0xa098, ucs2: 0xc81e},
		lookupItem{cp949: 0xa099, ucs2: 0xc81f},
		lookupItem{cp949: 0xa09a, ucs2: 0xc821},
		lookupItem{cp949: 0xa09b, ucs2: 0xc822},
		lookupItem{cp949: 0xa09c, ucs2: 0xc823},
		lookupItem{cp949: 0xa09d, ucs2: 0xc825},
		lookupItem{cp949: 0xa09e, ucs2: 0xc826},
		lookupItem{cp949: 0xa09f, ucs2: 0xc827},
		lookupItem{cp949: 0xa0a0, ucs2: 0xc828},
		lookupItem{cp949: 0xa0a1, ucs2: 0xc829},
		lookupItem{cp949: 0xa0a2, ucs2: 0xc82a},
		lookupItem{cp949: 0xa0a3, ucs2: 0xc82b},
		lookupItem{cp949: 0xa0a4, ucs2: 0xc82e},
		lookupItem{cp949: 0xa0a5, ucs2: 0xc830},
		lookupItem{cp949: 0xa0a6, ucs2: 0xc832},
		lookupItem{cp949: 0xa0a7, ucs2: 0xc833},
		lookupItem{cp949: 0xa0a8, ucs2: 0xc834},
		lookupItem{cp949: 0xa0a9, ucs2: 0xc835},
		lookupItem{cp949: 0xa0aa, ucs2: 0xc836},
		lookupItem{cp949: 0xa0ab, ucs2: 0xc837},
		lookupItem{cp949: 0xa0ac, ucs2: 0xc839},
		lookupItem{cp949: 0xa0ad, ucs2: 0xc83a},
		lookupItem{cp949: 0xa0ae, ucs2: 0xc83b},
		lookupItem{cp949: 0xa0af, ucs2: 0xc83d},
		lookupItem{cp949: 0xa0b0, ucs2: 0xc83e},
		lookupItem{cp949: 0xa0b1, ucs2: 0xc83f},
		lookupItem{cp949: 0xa0b2, ucs2: 0xc841},
		lookupItem{cp949: 0xa0b3, ucs2: 0xc842},
		lookupItem{cp949: 0xa0b4, ucs2: 0xc843},
		lookupItem{cp949: 0xa0b5, ucs2: 0xc844},
		lookupItem{cp949: 0xa0b6, ucs2: 0xc845},
		lookupItem{cp949: 0xa0b7, ucs2: 0xc846},
		lookupItem{cp949: 0xa0b8, ucs2: 0xc847},
		lookupItem{cp949: 0xa0b9, ucs2: 0xc84a},
		lookupItem{cp949: 0xa0ba, ucs2: 0xc84b},
		lookupItem{cp949: 0xa0bb, ucs2: 0xc84e},
		lookupItem{cp949: 0xa0bc, ucs2: 0xc84f},
		lookupItem{cp949: 0xa0bd, ucs2: 0xc850},
		lookupItem{cp949: 0xa0be, ucs2: 0xc851},
		lookupItem{cp949: 0xa0bf, ucs2: 0xc852},
		lookupItem{cp949: 0xa0c0, ucs2: 0xc853},
		lookupItem{cp949: 0xa0c1, ucs2: 0xc855},
		lookupItem{cp949: 0xa0c2, ucs2: 0xc856},
		lookupItem{cp949: 0xa0c3, ucs2: 0xc857},
		lookupItem{cp949: 0xa0c4, ucs2: 0xc858},
		lookupItem{cp949: 0xa0c5, ucs2: 0xc859},
		lookupItem{cp949: 0xa0c6, ucs2: 0xc85a},
		lookupItem{cp949: 0xa0c7, ucs2: 0xc85b},
		lookupItem{cp949: 0xa0c8, ucs2: 0xc85c},
		lookupItem{cp949: 0xa0c9, ucs2: 0xc85d},
		lookupItem{cp949: 0xa0ca, ucs2: 0xc85e},
		lookupItem{cp949: 0xa0cb, ucs2: 0xc85f},
		lookupItem{cp949: 0xa0cc, ucs2: 0xc860},
		lookupItem{cp949: 0xa0cd, ucs2: 0xc861},
		lookupItem{cp949: 0xa0ce, ucs2: 0xc862},
		lookupItem{cp949: 0xa0cf, ucs2: 0xc863},
		lookupItem{cp949: 0xa0d0, ucs2: 0xc864},
		lookupItem{cp949: 0xa0d1, ucs2: 0xc865},
		lookupItem{cp949: 0xa0d2, ucs2: 0xc866},
		lookupItem{cp949: 0xa0d3, ucs2: 0xc867},
		lookupItem{cp949: 0xa0d4, ucs2: 0xc868},
		lookupItem{cp949: 0xa0d5, ucs2: 0xc869},
		lookupItem{cp949: 0xa0d6, ucs2: 0xc86a},
		lookupItem{cp949: 0xa0d7, ucs2: 0xc86b},
		lookupItem{cp949: 0xa0d8, ucs2: 0xc86c},
		lookupItem{cp949: 0xa0d9, ucs2: 0xc86d},
		lookupItem{cp949: 0xa0da, ucs2: 0xc86e},
		lookupItem{cp949: 0xa0db, ucs2: 0xc86f},
		lookupItem{cp949: 0xa0dc, ucs2: 0xc872},
		lookupItem{cp949: 0xa0dd, ucs2: 0xc873},
		lookupItem{cp949: 0xa0de, ucs2: 0xc875},
		lookupItem{cp949: 0xa0df, ucs2: 0xc876},
		lookupItem{cp949: 0xa0e0, ucs2: 0xc877},
		lookupItem{cp949: 0xa0e1, ucs2: 0xc879},
		lookupItem{cp949: 0xa0e2, ucs2: 0xc87b},
		lookupItem{cp949: 0xa0e3, ucs2: 0xc87c},
		lookupItem{cp949: 0xa0e4, ucs2: 0xc87d},
		lookupItem{cp949: 0xa0e5, ucs2: 0xc87e},
		lookupItem{cp949: 0xa0e6, ucs2: 0xc87f},
		lookupItem{cp949: 0xa0e7, ucs2: 0xc882},
		lookupItem{cp949: 0xa0e8, ucs2: 0xc884},
		lookupItem{cp949: 0xa0e9, ucs2: 0xc888},
		lookupItem{cp949: 0xa0ea, ucs2: 0xc889},
		lookupItem{cp949: 0xa0eb, ucs2: 0xc88a},
		lookupItem{cp949: 0xa0ec, ucs2: 0xc88e},
		lookupItem{cp949: 0xa0ed, ucs2: 0xc88f},
		lookupItem{cp949: 0xa0ee, ucs2: 0xc890},
		lookupItem{cp949: 0xa0ef, ucs2: 0xc891},
		lookupItem{cp949: 0xa0f0, ucs2: 0xc892},
		lookupItem{cp949: 0xa0f1, ucs2: 0xc893},
		lookupItem{cp949: 0xa0f2, ucs2: 0xc895},
		lookupItem{cp949: 0xa0f3, ucs2: 0xc896},
		lookupItem{cp949: 0xa0f4, ucs2: 0xc897},
		lookupItem{cp949: 0xa0f5, ucs2: 0xc898},
		lookupItem{cp949: 0xa0f6, ucs2: 0xc899},
		lookupItem{cp949: 0xa0f7, ucs2: 0xc89a},
		lookupItem{cp949: 0xa0f8, ucs2: 0xc89b},
		lookupItem{cp949: 0xa0f9, ucs2: 0xc89c},
		lookupItem{cp949: 0xa0fa, ucs2: 0xc89e},
		lookupItem{cp949: 0xa0fb, ucs2: 0xc8a0},
		lookupItem{cp949: 0xa0fc, ucs2: 0xc8a2},
		lookupItem{cp949: 0xa0fd, ucs2: 0xc8a3},
		lookupItem{cp949: 0xa0fe, ucs2: 0xc8a4},
		lookupItem{cp949: 0xa141, ucs2: 0xc8a5},
		lookupItem{cp949: 0xa142, ucs2: 0xc8a6},
		lookupItem{cp949: 0xa143, ucs2: 0xc8a7},
		lookupItem{cp949: 0xa144, ucs2: 0xc8a9},
		lookupItem{cp949: 0xa145, ucs2: 0xc8aa},
		lookupItem{cp949: 0xa146, ucs2: 0xc8ab},
		lookupItem{cp949: 0xa147, ucs2: 0xc8ac},
		lookupItem{cp949: 0xa148, ucs2: 0xc8ad},
		lookupItem{cp949: 0xa149, ucs2: 0xc8ae},
		lookupItem{cp949: 0xa14a, ucs2: 0xc8af},
		lookupItem{cp949: 0xa14b, ucs2: 0xc8b0},
		lookupItem{cp949: 0xa14c, ucs2: 0xc8b1},
		lookupItem{cp949: 0xa14d, ucs2: 0xc8b2},
		lookupItem{cp949: 0xa14e, ucs2: 0xc8b3},
		lookupItem{cp949: 0xa14f, ucs2: 0xc8b4},
		lookupItem{cp949: 0xa150, ucs2: 0xc8b5},
		lookupItem{cp949: 0xa151, ucs2: 0xc8b6},
		lookupItem{cp949: 0xa152, ucs2: 0xc8b7},
		lookupItem{cp949: 0xa153, ucs2: 0xc8b8},
		lookupItem{cp949: 0xa154, ucs2: 0xc8b9},
		lookupItem{cp949: 0xa155, ucs2: 0xc8ba},
		lookupItem{cp949: 0xa156, ucs2: 0xc8bb},
		lookupItem{cp949: 0xa157, ucs2: 0xc8be},
		lookupItem{cp949: 0xa158, ucs2: 0xc8bf},
		lookupItem{cp949: 0xa159, ucs2: 0xc8c0},
		lookupItem{cp949: 0xa15a, ucs2: 0xc8c1},
		lookupItem{cp949: 0xa161, ucs2: 0xc8c2},
		lookupItem{cp949: 0xa162, ucs2: 0xc8c3},
		lookupItem{cp949: 0xa163, ucs2: 0xc8c5},
		lookupItem{cp949: 0xa164, ucs2: 0xc8c6},
		lookupItem{cp949: 0xa165, ucs2: 0xc8c7},
		lookupItem{cp949: 0xa166, ucs2: 0xc8c9},
		lookupItem{cp949: 0xa167, ucs2: 0xc8ca},
		lookupItem{cp949: 0xa168, ucs2: 0xc8cb},
		lookupItem{cp949: 0xa169, ucs2: 0xc8cd},
		lookupItem{cp949: 0xa16a, ucs2: 0xc8ce},
		lookupItem{cp949: 0xa16b, ucs2: 0xc8cf},
		lookupItem{cp949: 0xa16c, ucs2: 0xc8d0},
		lookupItem{cp949: 0xa16d, ucs2: 0xc8d1},
		lookupItem{cp949: 0xa16e, ucs2: 0xc8d2},
		lookupItem{cp949: 0xa16f, ucs2: 0xc8d3},
		lookupItem{cp949: 0xa170, ucs2: 0xc8d6},
		lookupItem{cp949: 0xa171, ucs2: 0xc8d8},
		lookupItem{cp949: 0xa172, ucs2: 0xc8da},
		lookupItem{cp949: 0xa173, ucs2: 0xc8db},
		lookupItem{cp949: 0xa174, ucs2: 0xc8dc},
".
Definition text_cp949_lookup_from_023 : string :=
"		lookupItem{cp949: 0xa175, ucs2: 0xc8dd},
		lookupItem{cp949: 0xa176, ucs2: 0xc8de},
		lookupItem{cp949: 0xa177, ucs2: 0xc8df},
		lookupItem{cp949: 0xa178, ucs2: 0xc8e2},
		lookupItem{cp949: 0xa179, ucs2: 0xc8e3},
		lookupItem{cp949: 0xa17a, ucs2: 0xc8e5},
		lookupItem{cp949: 0xa181, ucs2: 0xc8e6},
		lookupItem{cp949: 0xa182, ucs2: 0xc8e7},
		lookupItem{cp949: 0xa183, ucs2: 0xc8e8},
		lookupItem{cp949: 0xa184, ucs2: 0xc8e9},
		lookupItem{cp949: 0xa185, ucs2: 0xc8ea},
		lookupItem{cp949: 0xa186, ucs2: 0xc8eb},
		lookupItem{cp949: 0xa187, ucs2: 0xc8ec},
		lookupItem{cp949: 0xa188, ucs2: 0xc8ed},
		lookupItem{cp949: 0xa189, ucs2: 0xc8ee},
		lookupItem{cp949: 0xa18a, ucs2: 0xc8ef},
		lookupItem{cp949: 0xa18b, ucs2: 0xc8f0},
		lookupItem{cp949: 0xa18c, ucs2: 0xc8f1},
		lookupItem{cp949: 0xa18d, ucs2: 0xc8f2},
		lookupItem{cp949: 0xa18e, ucs2: 0xc8f3},
		lookupItem{cp949: 0xa18f, ucs2: 0xc8f4},
		lookupItem{cp949: 0xa190, ucs2: 0xc8f6},
		lookupItem{cp949: 0xa191, ucs2: 0xc8f7},
		lookupItem{cp949: 0xa192, ucs2: 0xc8f8},
		lookupItem{cp949: 0xa193, ucs2: 0xc8f9},
		lookupItem{cp949: 0xa194, ucs2: 0xc8fa},
		lookupItem{cp949: 0xa195, ucs2: 0xc8fb},
		lookupItem{cp949: 0xa196, ucs2: 0xc8fe},
		lookupItem{cp949: 0xa197, ucs2: 0xc8ff},
		lookupItem{cp949: 0xa198, ucs2: 0xc901},
		lookupItem{cp949: 0xa199, ucs2: 0xc902},
		lookupItem{cp949: 0xa19a, ucs2: 0xc903},
		lookupItem{cp949: 0xa19b, ucs2: 0xc907},
		lookupItem{cp949: 0xa19c, ucs2: 0xc908},
		lookupItem{cp949: 0xa19d, ucs2: 0xc909},
		lookupItem{cp949: 0xa19e, ucs2: 0xc90a},
		lookupItem{cp949: 0xa19f, ucs2: 0xc90b},
		lookupItem{cp949: 0xa1a0, ucs2: 0xc90e},
		lookupItem{cp949: 0xa1a1, ucs2: 0x3000},
		lookupItem{cp949: 0xa1a2, ucs2: 0x3001},
		lookupItem{cp949: 0xa1a3, ucs2: 0x3002},
		lookupItem{cp949: 0xa1a4, ucs2: 0x00b7},
		lookupItem{cp949: 0xa1a5, ucs2: 0x2025},
		lookupItem{cp949: 0xa1a6, ucs2: 0x2026},
		lookupItem{cp949: 0xa1a7, ucs2: 0x00a8},
		lookupItem{cp949: 0xa1a8, ucs2: 0x3003},
		lookupItem{cp949: 0xa1a9, ucs2: 0x00ad},
		lookupItem{cp949: 0xa1aa, ucs2: 0x2015},
		lookupItem{cp949: 0xa1ab, ucs2: 0x2225},
		lookupItem{cp949: 0xa1ac, ucs2: 0xff3c},
		lookupItem{cp949: 0xa1ad, ucs2: 0x223c},
		lookupItem{cp949: 0xa1ae, ucs2: 0x2018},
		lookupItem{cp949: 0xa1af, ucs2: 0x2019},
		lookupItem{cp949: 0xa1b0, ucs2: 0x201c},
		lookupItem{cp949: 0xa1b1, ucs2: 0x201d},
		lookupItem{cp949: 0xa1b2, ucs2: 0x3014},
		lookupItem{cp949: 0xa1b3, ucs2: 0x3015},
		lookupItem{cp949: 0xa1b4, ucs2: 0x3008},
		lookupItem{cp949: 0xa1b5, ucs2: 0x3009},
		lookupItem{cp949: 0xa1b6, ucs2: 0x300a},
		lookupItem{cp949: 0xa1b7, ucs2: 0x300b},
		lookupItem{cp949: 0xa1b8, ucs2: 0x300c},
		lookupItem{cp949: 0xa1b9, ucs2: 0x300d},
		lookupItem{cp949: 0xa1ba, ucs2: 0x300e},
		lookupItem{cp949: 0xa1bb, ucs2: 0x300f},
		lookupItem{cp949: 0xa1bc, ucs2: 0x3010},
		lookupItem{cp949: 0xa1bd, ucs2: 0x3011},
		lookupItem{cp949: 0xa1be, ucs2: 0x00b1},
		lookupItem{cp949: 0xa1bf, ucs2: 0x00d7},
		lookupItem{cp949: 0xa1c0, ucs2: 0x00f7},
		lookupItem{cp949: 0xa1c1, ucs2: 0x2260},
		lookupItem{cp949: 0xa1c2, ucs2: 0x2264},
		lookupItem{cp949: 0xa1c3, ucs2: 0x2265},
		lookupItem{cp949: 0xa1c4, ucs2: 0x221e},
		lookupItem{cp949: 0xa1c5, ucs2: 0x2234},
		lookupItem{cp949: 0xa1c6, ucs2: 0x00b0},
		lookupItem{cp949: 0xa1c7, ucs2: 0x2032},
		lookupItem{cp949: 0xa1c8, ucs2: 0x2033},
		lookupItem{cp949: 0xa1c9, ucs2: 0x2103},
		lookupItem{cp949: 0xa1ca, ucs2: 0x212b},
		lookupItem{cp949: 0xa1cb, ucs2: 0xffe0},
		lookupItem{cp949: 0xa1cc, ucs2: 0xffe1},
		lookupItem{cp949: 0xa1cd, ucs2: 0xffe5},
		lookupItem{cp949: 0xa1ce, ucs2: 0x2642},
		lookupItem{cp949: 0xa1cf, ucs2: 0x2640},
		lookupItem{cp949: 0xa1d0, ucs2: 0x2220},
		lookupItem{cp949: 0xa1d1, ucs2: 0x22a5},
		lookupItem{cp949: 0xa1d2, ucs2: 0x2312},
		lookupItem{cp949: 0xa1d3, ucs2: 0x2202},
		lookupItem{cp949: 0xa1d4, ucs2: 0x2207},
		lookupItem{cp949: 0xa1d5, ucs2: 0x2261},
		lookupItem{cp949: 0xa1d6, ucs2: 0x2252},
		lookupItem{cp949: 0xa1d7, ucs2: 0x00a7},
		lookupItem{cp949: 0xa1d8, ucs2: 0x203b},
		lookupItem{cp949: 0xa1d9, ucs2: 0x2606},
		lookupItem{cp949: 0xa1da, ucs2: 0x2605},
		lookupItem{cp949: 0xa1db, ucs2: 0x25cb},
		lookupItem{cp949: 0xa1dc, ucs2: 0x25cf},
		lookupItem{cp949: 0xa1dd, ucs2: 0x25ce},
		lookupItem{cp949: 0xa1de, ucs2: 0x25c7},
		lookupItem{cp949: 0xa1df, ucs2: 0x25c6},
		lookupItem{cp949: 0xa1e0, ucs2: 0x25a1},
		lookupItem{cp949: 0xa1e1, ucs2: 0x25a0},
		lookupItem{cp949: 0xa1e2, ucs2: 0x25b3},
		lookupItem{cp949: 0xa1e3, ucs2: 0x25b2},
		lookupItem{cp949: 0xa1e4, ucs2: 0x25bd},
		lookupItem{cp949: 0xa1e5, ucs2: 0x25bc},
		lookupItem{cp949: 0xa1e6, ucs2: 0x2192},
		lookupItem{cp949: 0xa1e7, ucs2: 0x2190},
		lookupItem{cp949: 0xa1e8, ucs2: 0x2191},
		lookupItem{cp949: 0xa1e9, ucs2: 0x2193},
		lookupItem{cp949: 0xa1ea, ucs2: 0x2194},
		lookupItem{cp949: 0xa1eb, ucs2: 0x3013},
		lookupItem{cp949: 0xa1ec, ucs2: 0x226a},
		lookupItem{cp949: 0xa1ed, ucs2: 0x226b},
		lookupItem{cp949: 0xa1ee, ucs2: 0x221a},
		lookupItem{cp949: 0xa1ef, ucs2: 0x223d},
		lookupItem{cp949: 0xa1f0, ucs2: 0x221d},
		lookupItem{cp949: 0xa1f1, ucs2: 0x2235},
		lookupItem{cp949: 0xa1f2, ucs2: 0x222b},
		lookupItem{cp949: 0xa1f3, ucs2: 0x222c},
		lookupItem{cp949: 0xa1f4, ucs2: 0x2208},
		lookupItem{cp949: 0xa1f5, ucs2: 0x220b},
		lookupItem{cp949: 0xa1f6, ucs2: 0x2286},
		lookupItem{cp949: 0xa1f7, ucs2: 0x2287},
		lookupItem{cp949: 0xa1f8, ucs2: 0x2282},
		lookupItem{cp949: 0xa1f9, ucs2: 0x2283},
		lookupItem{cp949: 0xa1fa, ucs2: 0x222a},
		lookupItem{cp949: 0xa1fb, ucs2: 0x2229},
		lookupItem{cp949: 0xa1fc, ucs2: 0x2227},
		lookupItem{cp949: 0xa1fd, ucs2: 0x2228},
		lookupItem{cp949: 0xa1fe, ucs2: 0xffe2},
		lookupItem{cp949: 0xa241, ucs2: 0xc910},
		lookupItem{cp949: 0xa242, ucs2: 0xc912},
		lookupItem{cp949: 0xa243, ucs2: 0xc913},
		lookupItem{cp949: 0xa244, ucs2: 0xc914},
		lookupItem{cp949: 0xa245, ucs2: 0xc915},
		lookupItem{cp949: 0xa246, ucs2: 0xc916},
		lookupItem{cp949: 0xa247, ucs2: 0xc917},
		lookupItem{cp949: 0xa248, ucs2: 0xc919},
		lookupItem{cp949: 0xa249, ucs2: 0xc91a},
		lookupItem{cp949: 0xa24a, ucs2: 0xc91b},
		lookupItem{cp949: 0xa24b, ucs2: 0xc91c},
		lookupItem{cp949: 0xa24c, ucs2: 0xc91d},
		lookupItem{cp949: 0xa24d, ucs2: 0xc91e},
		lookupItem{cp949: 0xa24e, ucs2: 0xc91f},
		lookupItem{cp949: 0xa24f, ucs2: 0xc920},
		lookupItem{cp949: 0xa250, ucs2: 0xc921},
		lookupItem{cp949: 0xa251, ucs2: 0xc922},
		lookupItem{cp949: 0xa252, ucs2: 0xc923},
		lookupItem{cp949: 0xa253, ucs2: 0xc924},
		lookupItem{cp949: 0xa254, ucs2: 0xc925},
		lookupItem{cp949: 0xa255, ucs2: 0xc926},
		lookupItem{cp949: 0xa256, ucs2: 0xc927},
		lookupItem{cp949: 0xa257, ucs2: 0xc928},
		lookupItem{cp949: 0xa258, ucs2: 0xc929},
		lookupItem{cp949: 0xa259, ucs2: 0xc92a},
		lookupItem{cp949: 0xa25a, ucs2: 0xc92b},
		lookupItem{cp949: 0xa261, ucs2: 0xc92d},
		lookupItem{cp949: 0xa262, ucs2: 0xc92e},
		lookupItem{cp949: 0xa263, ucs2: 0xc92f},
		lookupItem{cp949: 0xa264, ucs2: 0xc930},
		lookupItem{cp949: 0xa265, ucs2: 0xc931},
		lookupItem{cp949: 0xa266, ucs2: 0xc932},
		lookupItem{cp949: 0xa267, ucs2: 0xc933},
		lookupItem{cp949: 0xa268, ucs2: 0xc935},
		lookupItem{cp949: 0xa269, ucs2: 0xc936},
		lookupItem{cp949: 0xa26a, ucs2: 0xc937},
		lookupItem{cp949: 0xa26b, ucs2: 0xc938},
		lookupItem{cp949: 0xa26c, ucs2: 0xc939},
		lookupItem{cp949: 0xa26d, ucs2: 0xc93a},
		lookupItem{cp949: 0xa26e, ucs2: 0xc93b},
		lookupItem{cp949: 0xa26f, ucs2: 0xc93c},
		lookupItem{cp949: 0xa270, ucs2: 0xc93d},
		lookupItem{cp949: 0xa271, ucs2: 0xc93e},
		lookupItem{cp949: 0xa272, ucs2: 0xc93f},
		lookupItem{cp949: 0xa273, ucs2: 0xc940},
		lookupItem{cp949: 0xa274, ucs2: 0xc941},
		lookupItem{cp949: 0xa275, ucs2: 0xc942},
		lookupItem{cp949: 0xa276, ucs2: 0xc943},
		lookupItem{cp949: 0xa277, ucs2: 0xc944},
		lookupItem{cp949: 0xa278, ucs2: 0xc945},
		lookupItem{cp949: 0xa279, ucs2: 0xc946},
		lookupItem{cp949: 0xa27a, ucs2: 0xc947},
		lookupItem{cp949: 0xa281, ucs2: 0xc948},
		lookupItem{cp949: 0xa282, ucs2: 0xc949},
		lookupItem{cp949: 0xa283, ucs2: 0xc94a},
		lookupItem{cp949: 0xa284, ucs2: 0xc94b},
		lookupItem{cp949: 0xa285, ucs2: 0xc94c},
		lookupItem{cp949: 0xa286, ucs2: 0xc94d},
		lookupItem{cp949: 0xa287, ucs2: 0xc94e},
		lookupItem{cp949: 0xa288, ucs2: 0xc94f},
		lookupItem{cp949: 0xa289, ucs2: 0xc952},
		lookupItem{cp949: 0xa28a, ucs2: 0xc953},
		lookupItem{cp949: 0xa28b, ucs2: 0xc955},
		lookupItem{cp949: 0xa28c, ucs2: 0xc956},
		lookupItem{cp949: 0xa28d, ucs2: 0xc957},
		lookupItem{cp949: 0xa28e, ucs2: 0xc959},
		lookupItem{cp949: 0xa28f, ucs2: 0xc95a},
		lookupItem{cp949: 0xa290, ucs2: 0xc95b},
		lookupItem{cp949: 0xa291, ucs2: 0xc95c},
		lookupItem{cp949: 0xa292, ucs2: 0xc95d},
		lookupItem{cp949: 0xa293, ucs2: 0xc95e},
		lookupItem{cp949: 0xa294, ucs2: 0xc95f},
		lookupItem{cp949: 0xa295, ucs2: 0xc962},
		lookupItem{cp949: 0xa296, ucs2: 0xc964},
		lookupItem{cp949: 0xa297, ucs2: 0xc965},
		lookupItem{cp949: 0xa298, ucs2: 0xc966},
		lookupItem{cp949: 0xa299, ucs2: 0xc967},
		lookupItem{cp949: 0xa29a, ucs2: 0xc968},
		lookupItem{cp949: 0xa29b, ucs2: 0xc969},
		lookupItem{cp949: 0xa29c, ucs2: 0xc96a},
		lookupItem{cp949: 0xa29d, ucs2: 0xc96b},
		lookupItem{cp949: 0xa29e, ucs2: 0xc96d},
		lookupItem{cp949: 0xa29f, ucs2: 0xc96e},
		lookupItem{cp949: 0xa2a0, ucs2: 0xc96f},
		lookupItem{cp949: 0xa2a1, ucs2: 0x21d2},
		lookupItem{cp949: 0xa2a2, ucs2: 0x21d4},
		lookupItem{cp949: 0xa2a3, ucs2: 0x2200},
		lookupItem{cp949: 0xa2a4, ucs2: 0x2203},
		lookupItem{cp949: 0xa2a5, ucs2: 0x00b4},
		lookupItem{cp949: 0xa2a6, ucs2: 0xff5e},
		lookupItem{cp949: 0xa2a7, ucs2: 0x02c7},
		lookupItem{cp949: 0xa2a8, ucs2: 0x02d8},
		lookupItem{cp949: 0xa2a9, ucs2: 0x02dd},
		lookupItem{cp949: 0xa2aa, ucs2: 0x02da},
		lookupItem{cp949: 0xa2ab, ucs2: 0x02d9},
		lookupItem{cp949: 0xa2ac, ucs2: 0x00b8},
		lookupItem{cp949: 0xa2ad, ucs2: 0x02db},
		lookupItem{cp949: 0xa2ae, ucs2: 0x00a1},
		lookupItem{cp949: 0xa2af, ucs2: 0x00bf},
		lookupItem{cp949: 0xa2b0, ucs2: 0x02d0},
		lookupItem{cp949: 0xa2b1, ucs2: 0x222e},
		lookupItem{cp949: 0xa2b2, ucs2: 0x2211},
		lookupItem{cp949: 0xa2b3, ucs2: 0x220f},
		lookupItem{cp949: 0xa2b4, ucs2: 0x00a4},
		lookupItem{cp949: 0xa2b5, ucs2: 0x2109},
		lookupItem{cp949: 0xa2b6, ucs2: 0x2030},
		lookupItem{cp949: 0xa2b7, ucs2: 0x25c1},
		lookupItem{cp949: 0xa2b8, ucs2: 0x25c0},
		lookupItem{cp949: 0xa2b9, ucs2: 0x25b7},
		lookupItem{cp949: 0xa2ba, ucs2: 0x25b6},
		lookupItem{cp949: 0xa2bb, ucs2: 0x2664},
		lookupItem{cp949: 0xa2bc, ucs2: 0x2660},
		lookupItem{cp949: 0xa2bd, ucs2: 0x2661},
		lookupItem{cp949: 0xa2be, ucs2: 0x2665},
		lookupItem{cp949: 0xa2bf, ucs2: 0x2667},
		lookupItem{cp949: 0xa2c0, ucs2: 0x2663},
		lookupItem{cp949: 0xa2c1, ucs2: 0x2299},
		lookupItem{cp949: 0xa2c2, ucs2: 0x25c8},
".
Definition text_cp949_lookup_from_024 : string :=
"		lookupItem{cp949: 0xa2c3, ucs2: 0x25a3},
		lookupItem{cp949: 0xa2c4, ucs2: 0x25d0},
		lookupItem{cp949: 0xa2c5, ucs2: 0x25d1},
		lookupItem{cp949: 0xa2c6, ucs2: 0x2592},
		lookupItem{cp949: 0xa2c7, ucs2: 0x25a4},
		lookupItem{cp949: 0xa2c8, ucs2: 0x25a5},
		lookupItem{cp949: 0xa2c9, ucs2: 0x25a8},
		lookupItem{cp949: 0xa2ca, ucs2: 0x25a7},
		lookupItem{cp949: 0xa2cb, ucs2: 0x25a6},
		lookupItem{cp949: 0xa2cc, ucs2: 0x25a9},
		lookupItem{cp949: 0xa2cd, ucs2: 0x2668},
		lookupItem{cp949: 0xa2ce, ucs2: 0x260f},
		lookupItem{cp949: 0xa2cf, ucs2: 0x260e},
		lookupItem{cp949: 0xa2d0, ucs2: 0x261c},
		lookupItem{cp949: 0xa2d1, ucs2: 0x261e},
		lookupItem{cp949: 0xa2d2, ucs2: 0x00b6},
		lookupItem{cp949: 0xa2d3, ucs2: 0x2020},
		lookupItem{cp949: 0xa2d4, ucs2: 0x2021},
		lookupItem{cp949: 0xa2d5, ucs2: 0x2195},
		lookupItem{cp949: 0xa2d6, ucs2: 0x2197},
		lookupItem{cp949: 0xa2d7, ucs2: 0x2199},
		lookupItem{cp949: 0xa2d8, ucs2: 0x2196},
		lookupItem{cp949: 0xa2d9, ucs2: 0x2198},
		lookupItem{cp949: 0xa2da, ucs2: 0x266d},
		lookupItem{cp949: 0xa2db, ucs2: 0x2669},
		lookupItem{cp949: 0xa2dc, ucs2: 0x266a},
		lookupItem{cp949: 0xa2dd, ucs2: 0x266c},
		lookupItem{cp949: 0xa2de, ucs2: 0x327f},
		lookupItem{cp949: 0xa2df, ucs2: 0x321c},
		lookupItem{cp949: 0xa2e0, ucs2: 0x2116},
		lookupItem{cp949: 0xa2e1, ucs2: 0x33c7},
		lookupItem{cp949: 0xa2e2, ucs2: 0x2122},
		lookupItem{cp949: 0xa2e3, ucs2: 0x33c2},
		lookupItem{cp949: 0xa2e4, ucs2: 0x33d8},
		lookupItem{cp949: 0xa2e5, ucs2: 0x2121},
		lookupItem{cp949: 0xa2e6, ucs2: 0x20ac},
		lookupItem{cp949: 0xa2e7, ucs2: 0x00ae},
		lookupItem{cp949: 0xa341, ucs2: 0xc971},
		lookupItem{cp949: 0xa342, ucs2: 0xc972},
		lookupItem{cp949: 0xa343, ucs2: 0xc973},
		lookupItem{cp949: 0xa344, ucs2: 0xc975},
		lookupItem{cp949: 0xa345, ucs2: 0xc976},
		lookupItem{cp949: 0xa346, ucs2: 0xc977},
		lookupItem{cp949: 0xa347, ucs2: 0xc978},
		lookupItem{cp949: 0xa348, ucs2: 0xc979},
		lookupItem{cp949: 0xa349, ucs2: 0xc97a},
		lookupItem{cp949: 0xa34a, ucs2: 0xc97b},
		lookupItem{cp949: 0xa34b, ucs2: 0xc97d},
		lookupItem{cp949: 0xa34c, ucs2: 0xc97e},
		lookupItem{cp949: 0xa34d, ucs2: 0xc97f},
		lookupItem{cp949: 0xa34e, ucs2: 0xc980},
		lookupItem{cp949: 0xa34f, ucs2: 0xc981},
		lookupItem{cp949: 0xa350, ucs2: 0xc982},
		lookupItem{cp949: 0xa351, ucs2: 0xc983},
		lookupItem{cp949: 0xa352, ucs2: 0xc984},
		lookupItem{cp949: 0xa353, ucs2: 0xc985},
		lookupItem{cp949: 0xa354, ucs2: 0xc986},
		lookupItem{cp949: 0xa355, ucs2: 0xc987},
		lookupItem{cp949: 0xa356, ucs2: 0xc98a},
		lookupItem{cp949: 0xa357, ucs2: 0xc98b},
		lookupItem{cp949: 0xa358, ucs2: 0xc98d},
		lookupItem{cp949: 0xa359, ucs2: 0xc98e},
		lookupItem{cp949: 0xa35a, ucs2: 0xc98f},
		lookupItem{cp949: 0xa361, ucs2: 0xc991},
		lookupItem{cp949: 0xa362, ucs2: 0xc992},
		lookupItem{cp949: 0xa363, ucs2: 0xc993},
		lookupItem{cp949: 0xa364, ucs2: 0xc994},
		lookupItem{cp949: 0xa365, ucs2: 0xc995},
		lookupItem{cp949: 0xa366, ucs2: 0xc996},
		lookupItem{cp949: 0xa367, ucs2: 0xc997},
		lookupItem{cp949: 0xa368, ucs2: 0xc99a},
		lookupItem{cp949: 0xa369, ucs2: 0xc99c},
		lookupItem{cp949: 0xa36a, ucs2: 0xc99e},
		lookupItem{cp949: 0xa36b, ucs2: 0xc99f},
		lookupItem{cp949: 0xa36c, ucs2: 0xc9a0},
		lookupItem{cp949: 0xa36d, ucs2: 0xc9a1},
		lookupItem{cp949: 0xa36e, ucs2: 0xc9a2},
		lookupItem{cp949: 0xa36f, ucs2: 0xc9a3},
		lookupItem{cp949: 0xa370, ucs2: 0xc9a4},
		lookupItem{cp949: 0xa371, ucs2: 0xc9a5},
		lookupItem{cp949: 0xa372, ucs2: 0xc9a6},
		lookupItem{cp949: 0xa373, ucs2: 0xc9a7},
		lookupItem{cp949: 0xa374, ucs2: 0xc9a8},
		lookupItem{cp949: 0xa375, ucs2: 0xc9a9},
		lookupItem{cp949: 0xa376, ucs2: 0xc9aa},
		lookupItem{cp949: 0xa377, ucs2: 0xc9ab},
		lookupItem{cp949: 0xa378, ucs2: 0xc9ac},
		lookupItem{cp949: 0xa379, ucs2: 0xc9ad},
		lookupItem{cp949: 0xa37a, ucs2: 0xc9ae},
		lookupItem{cp949: 0xa381, ucs2: 0xc9af},
		lookupItem{cp949: 0xa382, ucs2: 0xc9b0},
		lookupItem{cp949: 0xa383, ucs2: 0xc9b1},
		lookupItem{cp949: 0xa384, ucs2: 0xc9b2},
		lookupItem{cp949: 0xa385, ucs2: 0xc9b3},
		lookupItem{cp949: 0xa386, ucs2: 0xc9b4},
		lookupItem{cp949: 0xa387, ucs2: 0xc9b5},
		lookupItem{cp949: 0xa388, ucs2: 0xc9b6},
		lookupItem{cp949: 0xa389, ucs2: 0xc9b7},
		lookupItem{cp949: 0xa38a, ucs2: 0xc9b8},
		lookupItem{cp949: 0xa38b, ucs2: 0xc9b9},
		lookupItem{cp949: 0xa38c, ucs2: 0xc9ba},
		lookupItem{cp949: 0xa38d, ucs2: 0xc9bb},
		lookupItem{cp949: 0xa38e, ucs2: 0xc9bc},
		lookupItem{cp949: 0xa38f, ucs2: 0xc9bd},
		lookupItem{cp949: 0xa390, ucs2: 0xc9be},
		lookupItem{cp949: 0xa391, ucs2: 0xc9bf},
		lookupItem{cp949: 0xa392, ucs2: 0xc9c2},
		lookupItem{cp949: 0xa393, ucs2: 0xc9c3},
		lookupItem{cp949: 0xa394, ucs2: 0xc9c5},
		lookupItem{cp949: 0xa395, ucs2: 0xc9c6},
		lookupItem{cp949: 0xa396, ucs2: 0xc9c9},
		lookupItem{cp949: 0xa397, ucs2: 0xc9cb},
		lookupItem{cp949: 0xa398, ucs2: 0xc9cc},
		lookupItem{cp949: 0xa399, ucs2: 0xc9cd},
		lookupItem{cp949: 0xa39a, ucs2: 0xc9ce},
		lookupItem{cp949: 0xa39b, ucs2: 0xc9cf},
		lookupItem{cp949: 0xa39c, ucs2: 0xc9d2},
		lookupItem{cp949: 0xa39d, ucs2: 0xc9d4},
		lookupItem{cp949: 0xa39e, ucs2: 0xc9d7},
		lookupItem{cp949: 0xa39f, ucs2: 0xc9d8},
		lookupItem{cp949: 0xa3a0, ucs2: 0xc9db},
		lookupItem{cp949: 0xa3a1, ucs2: 0xff01},
		lookupItem{cp949: 0xa3a2, ucs2: 0xff02},
		lookupItem{cp949: 0xa3a3, ucs2: 0xff03},
		lookupItem{cp949: 0xa3a4, ucs2: 0xff04},
		lookupItem{cp949: 0xa3a5, ucs2: 0xff05},
		lookupItem{cp949: 0xa3a6, ucs2: 0xff06},
		lookupItem{cp949: 0xa3a7, ucs2: 0xff07},
		lookupItem{cp949: 0xa3a8, ucs2: 0xff08},
		lookupItem{cp949: 0xa3a9, ucs2: 0xff09},
		lookupItem{cp949: 0xa3aa, ucs2: 0xff0a},
		lookupItem{cp949: 0xa3ab, ucs2: 0xff0b},
		lookupItem{cp949: 0xa3ac, ucs2: 0xff0c},
		lookupItem{cp949: 0xa3ad, ucs2: 0xff0d},
		lookupItem{cp949: 0xa3ae, ucs2: 0xff0e},
		lookupItem{cp949: 0xa3af, ucs2: 0xff0f},
		lookupItem{cp949: 0xa3b0, ucs2: 0xff10},
		lookupItem{cp949: 0xa3b1, ucs2: 0xff11},
		lookupItem{cp949: 0xa3b2, ucs2: 0xff12},
		lookupItem{cp949: 0xa3b3, ucs2: 0xff13},
		lookupItem{cp949: 0xa3b4, ucs2: 0xff14},
		lookupItem{cp949: 0xa3b5, ucs2: 0xff15},
		lookupItem{cp949: 0xa3b6, ucs2: 0xff16},
		lookupItem{cp949: 0xa3b7, ucs2: 0xff17},
		lookupItem{cp949: 0xa3b8, ucs2: 0xff18},
		lookupItem{cp949: 0xa3b9, ucs2: 0xff19},
		lookupItem{cp949: 0xa3ba, ucs2: 0xff1a},
		lookupItem{cp949: 0xa3bb, ucs2: 0xff1b},
		lookupItem{cp949: 0xa3bc, ucs2: 0xff1c},
		lookupItem{cp949: 0xa3bd, ucs2: 0xff1d},
		lookupItem{cp949: 0xa3be, ucs2: 0xff1e},
		lookupItem{cp949: 0xa3bf, ucs2: 0xff1f},
		lookupItem{cp949: 0xa3c0, ucs2: 0xff20},
		lookupItem{cp949: 0xa3c1, ucs2: 0xff21},
		lookupItem{cp949: 0xa3c2, ucs2: 0xff22},
		lookupItem{cp949: 0xa3c3, ucs2: 0xff23},
		lookupItem{cp949: 0xa3c4, ucs2: 0xff24},
		lookupItem{cp949: 0xa3c5, ucs2: 0xff25},
		lookupItem{cp949: 0xa3c6, ucs2: 0xff26},
		lookupItem{cp949: 0xa3c7, ucs2: 0xff27},
		lookupItem{cp949: 0xa3c8, ucs2: 0xff28},
		lookupItem{cp949: 0xa3c9, ucs2: 0xff29},
		lookupItem{cp949: 0xa3ca, ucs2: 0xff2a},
		lookupItem{cp949: 0xa3cb, ucs2: 0xff2b},
		lookupItem{cp949: 0xa3cc, ucs2: 0xff2c},
		lookupItem{cp949: 0xa3cd, ucs2: 0xff2d},
		lookupItem{cp949: 0xa3ce, ucs2: 0xff2e},
		lookupItem{cp949: 0xa3cf, ucs2: 0xff2f},
		lookupItem{cp949: 0xa3d0, ucs2: 0xff30},
		lookupItem{cp949: 0xa3d1, ucs2: 0xff31},
		lookupItem{cp949: 0xa3d2, ucs2: 0xff32},
		lookupItem{cp949: 0xa3d3, ucs2: 0xff33},
		lookupItem{cp949: 0xa3d4, ucs2: 0xff34},
		lookupItem{cp949: 0xa3d5, ucs2: 0xff35},
		lookupItem{cp949: 0xa3d6, ucs2: 0xff36},
		lookupItem{cp949: 0xa3d7, ucs2: 0xff37},
		lookupItem{cp949: 0xa3d8, ucs2: 0xff38},
		lookupItem{cp949: 0xa3d9, ucs2: 0xff39},
		lookupItem{cp949: 0xa3da, ucs2: 0xff3a},
		lookupItem{cp949: 0xa3db, ucs2: 0xff3b},
		lookupItem{cp949: 0xa3dc, ucs2: 0xffe6},
		lookupItem{cp949: 0xa3dd, ucs2: 0xff3d},
		lookupItem{cp949: 0xa3de, ucs2: 0xff3e},
		lookupItem{cp949: 0xa3df, ucs2: 0xff3f},
		lookupItem{cp949: 0xa3e0, ucs2: 0xff40},
		lookupItem{cp949: 0xa3e1, ucs2: 0xff41},
		lookupItem{cp949: 0xa3e2, ucs2: 0xff42},
		lookupItem{cp949: 0xa3e3, ucs2: 0xff43},
		lookupItem{cp949: 0xa3e4, ucs2: 0xff44},
		lookupItem{cp949: 0xa3e5, ucs2: 0xff45},
		lookupItem{cp949: 0xa3e6, ucs2: 0xff46},
		lookupItem{cp949: 0xa3e7, ucs2: 0xff47},
		lookupItem{cp949: 0xa3e8, ucs2: 0xff48},
		lookupItem{cp949: 0xa3e9, ucs2: 0xff49},
		lookupItem{cp949: 0xa3ea, ucs2: 0xff4a},
		lookupItem{cp949: 0xa3eb, ucs2: 0xff4b},
		lookupItem{cp949: 0xa3ec, ucs2: 0xff4c},
		lookupItem{cp949: 0xa3ed, ucs2: 0xff4d},
		lookupItem{cp949: 0xa3ee, ucs2: 0xff4e},
		lookupItem{cp949: 0xa3ef, ucs2: 0xff4f},
		lookupItem{cp949: 0xa3f0, ucs2: 0xff50},
		lookupItem{cp949: 0xa3f1, ucs2: 0xff51},
		lookupItem{cp949: 0xa3f2, ucs2: 0xff52},
		lookupItem{cp949: 0xa3f3, ucs2: 0xff53},
		lookupItem{cp949: 0xa3f4, ucs2: 0xff54},
		lookupItem{cp949: 0xa3f5, ucs2: 0xff55},
		lookupItem{cp949: 0xa3f6, ucs2: 0xff56},
		lookupItem{cp949: 0xa3f7, ucs2: 0xff57},
		lookupItem{cp949: 0xa3f8, ucs2: 0xff58},
		lookupItem{cp949: 0xa3f9, ucs2: 0xff59},
		lookupItem{cp949: 0xa3fa, ucs2: 0xff5a},
		lookupItem{cp949: 0xa3fb, ucs2: 0xff5b},
		lookupItem{cp949: 0xa3fc, ucs2: 0xff5c},
		lookupItem{cp949: 0xa3fd, ucs2: 0xff5d},
		lookupItem{cp949: 0xa3fe, ucs2: 0xffe3},
		lookupItem{cp949: 0xa441, ucs2: 0xc9de},
		lookupItem{cp949: 0xa442, ucs2: 0xc9df},
		lookupItem{cp949: 0xa443, ucs2: 0xc9e1},
		lookupItem{cp949: 0xa444, ucs2: 0xc9e3},
		lookupItem{cp949: 0xa445, ucs2: 0xc9e5},
		lookupItem{cp949: 0xa446, ucs2: 0xc9e6},
		lookupItem{cp949: 0xa447, ucs2: 0xc9e8},
		lookupItem{cp949: 0xa448, ucs2: 0xc9e9},
		lookupItem{cp949: 0xa449, ucs2: 0xc9ea},
		lookupItem{cp949: 0xa44a, ucs2: 0xc9eb},
		lookupItem{cp949: 0xa44b, ucs2: 0xc9ee},
		lookupItem{cp949: 0xa44c, ucs2: 0xc9f2},
		lookupItem{cp949: 0xa44d, ucs2: 0xc9f3},
		lookupItem{cp949: 0xa44e, ucs2: 0xc9f4},
		lookupItem{cp949: 0xa44f, ucs2: 0xc9f5},
		lookupItem{cp949: 0xa450, ucs2: 0xc9f6},
		lookupItem{cp949: 0xa451, ucs2: 0xc9f7},
		lookupItem{cp949: 0xa452, ucs2: 0xc9fa},
		lookupItem{cp949: 0xa453, ucs2: 0xc9fb},
		lookupItem{cp949: 0xa454, ucs2: 0xc9fd},
		lookupItem{cp949: 0xa455, ucs2: 0xc9fe},
		lookupItem{cp949: 0xa456, ucs2: 0xc9ff},
		lookupItem{cp949: 0xa457, ucs2: 0xca01},
		lookupItem{cp949: 0xa458, ucs2: 0xca02},
		lookupItem{cp949: 0xa459, ucs2: 0xca03},
		lookupItem{cp949: 0xa45a, ucs2: 0xca04},
		lookupItem{cp949: 0xa461, ucs2: 0xca05},
		lookupItem{cp949: 0xa462, ucs2: 0xca06},
		lookupItem{cp949: 0xa463, ucs2: 0xca07},
		lookupItem{cp949: 0xa464, ucs2: 0xca0a},
		lookupItem{cp949: 0xa465, ucs2: 0xca0e},
		lookupItem{cp949: 0xa466, ucs2: 0xca0f},
		lookupItem{cp949: 0xa467, ucs2: 0xca10},
		lookupItem{cp949: 0xa468, ucs2: 0xca11},
		lookupItem{cp949: 0xa469, ucs2: 0xca12},
".
Definition text_cp949_lookup_from_025 : string :=
"		lookupItem{cp949: 0xa46a, ucs2: 0xca13},
		lookupItem{cp949: 0xa46b, ucs2: 0xca15},
		lookupItem{cp949: 0xa46c, ucs2: 0xca16},
		lookupItem{cp949: 0xa46d, ucs2: 0xca17},
		lookupItem{cp949: 0xa46e, ucs2: 0xca19},
		lookupItem{cp949: 0xa46f, ucs2: 0xca1a},
		lookupItem{cp949: 0xa470, ucs2: 0xca1b},
		lookupItem{cp949: 0xa471, ucs2: 0xca1c},
		lookupItem{cp949: 0xa472, ucs2: 0xca1d},
		lookupItem{cp949: 0xa473, ucs2: 0xca1e},
		lookupItem{cp949: 0xa474, ucs2: 0xca1f},
		lookupItem{cp949: 0xa475, ucs2: 0xca20},
		lookupItem{cp949: 0xa476, ucs2: 0xca21},
		lookupItem{cp949: 0xa477, ucs2: 0xca22},
		lookupItem{cp949: 0xa478, ucs2: 0xca23},
		lookupItem{cp949: 0xa479, ucs2: 0xca24},
		lookupItem{cp949: 0xa47a, ucs2: 0xca25},
		lookupItem{cp949: 0xa481, ucs2: 0xca26},
		lookupItem{cp949: 0xa482, ucs2: 0xca27},
		lookupItem{cp949: 0xa483, ucs2: 0xca28},
		lookupItem{cp949: 0xa484, ucs2: 0xca2a},
		lookupItem{cp949: 0xa485, ucs2: 0xca2b},
		lookupItem{cp949: 0xa486, ucs2: 0xca2c},
		lookupItem{cp949: 0xa487, ucs2: 0xca2d},
		lookupItem{cp949: 0xa488, ucs2: 0xca2e},
		lookupItem{cp949: 0xa489, ucs2: 0xca2f},
		lookupItem{cp949: 0xa48a, ucs2: 0xca30},
		lookupItem{cp949: 0xa48b, ucs2: 0xca31},
		lookupItem{cp949: 0xa48c, ucs2: 0xca32},
		lookupItem{cp949: 0xa48d, ucs2: 0xca33},
		lookupItem{cp949: 0xa48e, ucs2: 0xca34},
		lookupItem{cp949: 0xa48f, ucs2: 0xca35},
		lookupItem{cp949: 0xa490, ucs2: 0xca36},
		lookupItem{cp949: 0xa491, ucs2: 0xca37},
		lookupItem{cp949: 0xa492, ucs2: 0xca38},
		lookupItem{cp949: 0xa493, ucs2: 0xca39},
		lookupItem{cp949: 0xa494, ucs2: 0xca3a},
		lookupItem{cp949: 0xa495, ucs2: 0xca3b},
		lookupItem{cp949: 0xa496, ucs2: 0xca3c},
		lookupItem{cp949: 0xa497, ucs2: 0xca3d},
		lookupItem{cp949: 0xa498, ucs2: 0xca3e},
		lookupItem{cp949: 0xa499, ucs2: 0xca3f},
		lookupItem{cp949: 0xa49a, ucs2: 0xca40},
		lookupItem{cp949: 0xa49b, ucs2: 0xca41},
		lookupItem{cp949: 0xa49c, ucs2: 0xca42},
		lookupItem{cp949: 0xa49d, ucs2: 0xca43},
		lookupItem{cp949: 0xa49e, ucs2: 0xca44},
		lookupItem{cp949: 0xa49f, ucs2: 0xca45},
		lookupItem{cp949: 0xa4a0, ucs2: 0xca46},
		lookupItem{cp949: 0xa4a1, ucs2: 0x3131},
		lookupItem{cp949: 0xa4a2, ucs2: 0x3132},
		lookupItem{cp949: 0xa4a3, ucs2: 0x3133},
		lookupItem{cp949: 0xa4a4, ucs2: 0x3134},
		lookupItem{cp949: 0xa4a5, ucs2: 0x3135},
		lookupItem{cp949: 0xa4a6, ucs2: 0x3136},
		lookupItem{cp949: 0xa4a7, ucs2: 0x3137},
		lookupItem{cp949: 0xa4a8, ucs2: 0x3138},
		lookupItem{cp949: 0xa4a9, ucs2: 0x3139},
		lookupItem{cp949: 0xa4aa, ucs2: 0x313a},
		lookupItem{cp949: 0xa4ab, ucs2: 0x313b},
		lookupItem{cp949: 0xa4ac, ucs2: 0x313c},
		lookupItem{cp949: 0xa4ad, ucs2: 0x313d},
		lookupItem{cp949: 0xa4ae, ucs2: 0x313e},
		lookupItem{cp949: 0xa4af, ucs2: 0x313f},
		lookupItem{cp949: 0xa4b0, ucs2: 0x3140},
		lookupItem{cp949: 0xa4b1, ucs2: 0x3141},
		lookupItem{cp949: 0xa4b2, ucs2: 0x3142},
		lookupItem{cp949: 0xa4b3, ucs2: 0x3143},
		lookupItem{cp949: 0xa4b4, ucs2: 0x3144},
		lookupItem{cp949: 0xa4b5, ucs2: 0x3145},
		lookupItem{cp949: 0xa4b6, ucs2: 0x3146},
		lookupItem{cp949: 0xa4b7, ucs2: 0x3147},
		lookupItem{cp949: 0xa4b8, ucs2: 0x3148},
		lookupItem{cp949: 0xa4b9, ucs2: 0x3149},
		lookupItem{cp949: 0xa4ba, ucs2: 0x314a},
		lookupItem{cp949: 0xa4bb, ucs2: 0x314b},
		lookupItem{cp949: 0xa4bc, ucs2: 0x314c},
		lookupItem{cp949: 0xa4bd, ucs2: 0x314d},
		lookupItem{cp949: 0xa4be, ucs2: 0x314e},
		lookupItem{cp949: 0xa4bf, ucs2: 0x314f},
		lookupItem{cp949: 0xa4c0, ucs2: 0x3150},
		lookupItem{cp949: 0xa4c1, ucs2: 0x3151},
		lookupItem{cp949: 0xa4c2, ucs2: 0x3152},
		lookupItem{cp949: 0xa4c3, ucs2: 0x3153},
		lookupItem{cp949: 0xa4c4, ucs2: 0x3154},
		lookupItem{cp949: 0xa4c5, ucs2: 0x3155},
		lookupItem{cp949: 0xa4c6, ucs2: 0x3156},
		lookupItem{cp949: 0xa4c7, ucs2: 0x3157},
		lookupItem{cp949: 0xa4c8, ucs2: 0x3158},
		lookupItem{cp949: 0xa4c9, ucs2: 0x3159},
		lookupItem{cp949: 0xa4ca, ucs2: 0x315a},
		lookupItem{cp949: 0xa4cb, ucs2: 0x315b},
		lookupItem{cp949: 0xa4cc, ucs2: 0x315c},
		lookupItem{cp949: 0xa4cd, ucs2: 0x315d},
		lookupItem{cp949: 0xa4ce, ucs2: 0x315e},
		lookupItem{cp949: 0xa4cf, ucs2: 0x315f},
		lookupItem{cp949: 0xa4d0, ucs2: 0x3160},
		lookupItem{cp949: 0xa4d1, ucs2: 0x3161},
		lookupItem{cp949: 0xa4d2, ucs2: 0x3162},
		lookupItem{cp949: 0xa4d3, ucs2: 0x3163},
		lookupItem{cp949: 0xa4d4, ucs2: 0x3164},
		lookupItem{cp949: 0xa4d5, ucs2: 0x3165},
		lookupItem{cp949: 0xa4d6, ucs2: 0x3166},
		lookupItem{cp949: 0xa4d7, ucs2: 0x3167},
		lookupItem{cp949: 0xa4d8, ucs2: 0x3168},
		lookupItem{cp949: 0xa4d9, ucs2: 0x3169},
		lookupItem{cp949: 0xa4da, ucs2: 0x316a},
		lookupItem{cp949: 0xa4db, ucs2: 0x316b},
		lookupItem{cp949: 0xa4dc, ucs2: 0x316c},
		lookupItem{cp949: 0xa4dd, ucs2: 0x316d},
		lookupItem{cp949: 0xa4de, ucs2: 0x316e},
		lookupItem{cp949: 0xa4df, ucs2: 0x316f},
		lookupItem{cp949: 0xa4e0, ucs2: 0x3170},
		lookupItem{cp949: 0xa4e1, ucs2: 0x3171},
		lookupItem{cp949: 0xa4e2, ucs2: 0x3172},
		lookupItem{cp949: 0xa4e3, ucs2: 0x3173},
		lookupItem{cp949: 0xa4e4, ucs2: 0x3174},
		lookupItem{cp949: 0xa4e5, ucs2: 0x3175},
		lookupItem{cp949: 0xa4e6, ucs2: 0x3176},
		lookupItem{cp949: 0xa4e7, ucs2: 0x3177},
		lookupItem{cp949: 0xa4e8, ucs2: 0x3178},
		lookupItem{cp949: 0xa4e9, ucs2: 0x3179},
		lookupItem{cp949: 0xa4ea, ucs2: 0x317a},
		lookupItem{cp949: 0xa4eb, ucs2: 0x317b},
		lookupItem{cp949: 0xa4ec, ucs2: 0x317c},
		lookupItem{cp949: 0xa4ed, ucs2: 0x317d},
		lookupItem{cp949: 0xa4ee, ucs2: 0x317e},
		lookupItem{cp949: 0xa4ef, ucs2: 0x317f},
		lookupItem{cp949: 0xa4f0, ucs2: 0x3180},
		lookupItem{cp949: 0xa4f1, ucs2: 0x3181},
		lookupItem{cp949: 0xa4f2, ucs2: 0x3182},
		lookupItem{cp949: 0xa4f3, ucs2: 0x3183},
		lookupItem{cp949: 0xa4f4, ucs2: 0x3184},
		lookupItem{cp949: 0xa4f5, ucs2: 0x3185},
		lookupItem{cp949: 0xa4f6, ucs2: 0x3186},
		lookupItem{cp949: 0xa4f7, ucs2: 0x3187},
		lookupItem{cp949: 0xa4f8, ucs2: 0x3188},
		lookupItem{cp949: 0xa4f9, ucs2: 0x3189},
		lookupItem{cp949: 0xa4fa, ucs2: 0x318a},
		lookupItem{cp949: 0xa4fb, ucs2: 0x318b},
		lookupItem{cp949: 0xa4fc, ucs2: 0x318c},
		lookupItem{cp949: 0xa4fd, ucs2: 0x318d},
		lookupItem{cp949: 0xa4fe, ucs2: 0x318e},
		lookupItem{cp949: 0xa541, ucs2: 0xca47},
		lookupItem{cp949: 0xa542, ucs2: 0xca48},
		lookupItem{cp949: 0xa543, ucs2: 0xca49},
		lookupItem{cp949: 0xa544, ucs2: 0xca4a},
		lookupItem{cp949: 0xa545, ucs2: 0xca4b},
		lookupItem{cp949: 0xa546, ucs2: 0xca4e},
		lookupItem{cp949: 0xa547, ucs2: 0xca4f},
		lookupItem{cp949: 0xa548, ucs2: 0xca51},
		lookupItem{cp949: 0xa549, ucs2: 0xca52},
		lookupItem{cp949: 0xa54a, ucs2: 0xca53},
		lookupItem{cp949: 0xa54b, ucs2: 0xca55},
		lookupItem{cp949: 0xa54c, ucs2: 0xca56},
		lookupItem{cp949: 0xa54d, ucs2: 0xca57},
		lookupItem{cp949: 0xa54e, ucs2: 0xca58},
		lookupItem{cp949: 0xa54f, ucs2: 0xca59},
		lookupItem{cp949: 0xa550, ucs2: 0xca5a},
		lookupItem{cp949: 0xa551, ucs2: 0xca5b},
		lookupItem{cp949: 0xa552, ucs2: 0xca5e},
		lookupItem{cp949: 0xa553, ucs2: 0xca62},
		lookupItem{cp949: 0xa554, ucs2: 0xca63},
		lookupItem{cp949: 0xa555, ucs2: 0xca64},
		lookupItem{cp949: 0xa556, ucs2: 0xca65},
		lookupItem{cp949: 0xa557, ucs2: 0xca66},
		lookupItem{cp949: 0xa558, ucs2: 0xca67},
		lookupItem{cp949: 0xa559, ucs2: 0xca69},
		lookupItem{cp949: 0xa55a, ucs2: 0xca6a},
		lookupItem{cp949: 0xa561, ucs2: 0xca6b},
		lookupItem{cp949: 0xa562, ucs2: 0xca6c},
		lookupItem{cp949: 0xa563, ucs2: 0xca6d},
		lookupItem{cp949: 0xa564, ucs2: 0xca6e},
		lookupItem{cp949: 0xa565, ucs2: 0xca6f},
		lookupItem{cp949: 0xa566, ucs2: 0xca70},
		lookupItem{cp949: 0xa567, ucs2: 0xca71},
		lookupItem{cp949: 0xa568, ucs2: 0xca72},
		lookupItem{cp949: 0xa569, ucs2: 0xca73},
		lookupItem{cp949: 0xa56a, ucs2: 0xca74},
		lookupItem{cp949: 0xa56b, ucs2: 0xca75},
		lookupItem{cp949: 0xa56c, ucs2: 0xca76},
		lookupItem{cp949: 0xa56d, ucs2: 0xca77},
		lookupItem{cp949: 0xa56e, ucs2: 0xca78},
		lookupItem{cp949: 0xa56f, ucs2: 0xca79},
		lookupItem{cp949: 0xa570, ucs2: 0xca7a},
		lookupItem{cp949: 0xa571, ucs2: 0xca7b},
		lookupItem{cp949: 0xa572, ucs2: 0xca7c},
		lookupItem{cp949: 0xa573, ucs2: 0xca7e},
		lookupItem{cp949: 0xa574, ucs2: 0xca7f},
		lookupItem{cp949: 0xa575, ucs2: 0xca80},
		lookupItem{cp949: 0xa576, ucs2: 0xca81},
		lookupItem{cp949: 0xa577, ucs2: 0xca82},
		lookupItem{cp949: 0xa578, ucs2: 0xca83},
		lookupItem{cp949: 0xa579, ucs2: 0xca85},
		lookupItem{cp949: 0xa57a, ucs2: 0xca86},
		lookupItem{cp949: 0xa581, ucs2: 0xca87},
		lookupItem{cp949: 0xa582, ucs2: 0xca88},
		lookupItem{cp949: 0xa583, ucs2: 0xca89},
		lookupItem{cp949: 0xa584, ucs2: 0xca8a},
		lookupItem{cp949: 0xa585, ucs2: 0xca8b},
		lookupItem{cp949: 0xa586, ucs2: 0xca8c},
		lookupItem{cp949: 0xa587, ucs2: 0xca8d},
		lookupItem{cp949: 0xa588, ucs2: 0xca8e},
		lookupItem{cp949: 0xa589, ucs2: 0xca8f},
		lookupItem{cp949: 0xa58a, ucs2: 0xca90},
		lookupItem{cp949: 0xa58b, ucs2: 0xca91},
		lookupItem{cp949: 0xa58c, ucs2: 0xca92},
		lookupItem{cp949: 0xa58d, ucs2: 0xca93},
		lookupItem{cp949: 0xa58e, ucs2: 0xca94},
		lookupItem{cp949: 0xa58f, ucs2: 0xca95},
		lookupItem{cp949: 0xa590, ucs2: 0xca96},
		lookupItem{cp949: 0xa591, ucs2: 0xca97},
		lookupItem{cp949: 0xa592, ucs2: 0xca99},
		lookupItem{cp949: 0xa593, ucs2: 0xca9a},
		lookupItem{cp949: 0xa594, ucs2: 0xca9b},
		lookupItem{cp949: 0xa595, ucs2: 0xca9c},
		lookupItem{cp949: 0xa596, ucs2: 0xca9d},
		lookupItem{cp949: 0xa597, ucs2: 0xca9e},
		lookupItem{cp949: 0xa598, ucs2: 0xca9f},
		lookupItem{cp949: 0xa599, ucs2: 0xcaa0},
		lookupItem{cp949: 0xa59a, ucs2: 0xcaa1},
		lookupItem{cp949: 0xa59b, ucs2: 0xcaa2},
		lookupItem{cp949: 0xa59c, ucs2: 0xcaa3},
		lookupItem{cp949: 0xa59d, ucs2: 0xcaa4},
		lookupItem{cp949: 0xa59e, ucs2: 0xcaa5},
		lookupItem{cp949: 0xa59f, ucs2: 0xcaa6},
		lookupItem{cp949: 0xa5a0, ucs2: 0xcaa7},
		lookupItem{cp949: 0xa5a1, ucs2: 0x2170},
		lookupItem{cp949: 0xa5a2, ucs2: 0x2171},
		lookupItem{cp949: 0xa5a3, ucs2: 0x2172},
		lookupItem{cp949: 0xa5a4, ucs2: 0x2173},
		lookupItem{cp949: 0xa5a5, ucs2: 0x2174},
		lookupItem{cp949: 0xa5a6, ucs2: 0x2175},
		lookupItem{cp949: 0xa5a7, ucs2: 0x2176},
		lookupItem{cp949: 0xa5a8, ucs2: 0x2177},
		lookupItem{cp949: 0xa5a9, ucs2: 0x2178},
		lookupItem{cp949: 0xa5aa, ucs2: 0x2179},
		lookupItem{cp949: 0xa5b0, ucs2: 0x2160},
		lookupItem{cp949: 0xa5b1, ucs2: 0x2161},
		lookupItem{cp949: 0xa5b2, ucs2: 0x2162},
		lookupItem{cp949: 0xa5b3, ucs2: 0x2163},
		lookupItem{cp949: 0xa5b4, ucs2: 0x2164},
		lookupItem{cp949: 0xa5b5, ucs2: 0x2165},
		lookupItem{cp949: 0xa5b6, ucs2: 0x2166},
		lookupItem{cp949: 0xa5b7, ucs2: 0x2167},
		lookupItem{cp949: 0xa5b8, ucs2: 0x2168},
		lookupItem{cp949: 0xa5b9, ucs2: 0x2169},
		lookupItem{cp949: 0xa5c1, ucs2: 0x0391},
		lookupItem{cp949: 0xa5c2, ucs2: 0x0392},
		lookupItem{cp949: 0xa5c3, ucs2: 0x0393},
".
Definition text_cp949_lookup_from_026 : string :=
"		lookupItem{cp949: 0xa5c4, ucs2: 0x0394},
		lookupItem{cp949: 0xa5c5, ucs2: 0x0395},
		lookupItem{cp949: 0xa5c6, ucs2: 0x0396},
		lookupItem{cp949: 0xa5c7, ucs2: 0x0397},
		lookupItem{cp949: 0xa5c8, ucs2: 0x0398},
		lookupItem{cp949: 0xa5c9, ucs2: 0x0399},
		lookupItem{cp949: 0xa5ca, ucs2: 0x039a},
		lookupItem{cp949: 0xa5cb, ucs2: 0x039b},
		lookupItem{cp949: 0xa5cc, ucs2: 0x039c},
		lookupItem{cp949: 0xa5cd, ucs2: 0x039d},
		lookupItem{cp949: 0xa5ce, ucs2: 0x039e},
		lookupItem{cp949: 0xa5cf, ucs2: 0x039f},
		lookupItem{cp949: 0xa5d0, ucs2: 0x03a0},
		lookupItem{cp949: 0xa5d1, ucs2: 0x03a1},
		lookupItem{cp949: 0xa5d2, ucs2: 0x03a3},
		lookupItem{cp949: 0xa5d3, ucs2: 0x03a4},
		lookupItem{cp949: 0xa5d4, ucs2: 0x03a5},
		lookupItem{cp949: 0xa5d5, ucs2: 0x03a6},
		lookupItem{cp949: 0xa5d6, ucs2: 0x03a7},
		lookupItem{cp949: 0xa5d7, ucs2: 0x03a8},
		lookupItem{cp949: 0xa5d8, ucs2: 0x03a9},
		lookupItem{cp949: 0xa5e1, ucs2: 0x03b1},
		lookupItem{cp949: 0xa5e2, ucs2: 0x03b2},
		lookupItem{cp949: 0xa5e3, ucs2: 0x03b3},
		lookupItem{cp949: 0xa5e4, ucs2: 0x03b4},
		lookupItem{cp949: 0xa5e5, ucs2: 0x03b5},
		lookupItem{cp949: 0xa5e6, ucs2: 0x03b6},
		lookupItem{cp949: 0xa5e7, ucs2: 0x03b7},
		lookupItem{cp949: 0xa5e8, ucs2: 0x03b8},
		lookupItem{cp949: 0xa5e9, ucs2: 0x03b9},
		lookupItem{cp949: 0xa5ea, ucs2: 0x03ba},
		lookupItem{cp949: 0xa5eb, ucs2: 0x03bb},
		lookupItem{cp949: 0xa5ec, ucs2: 0x03bc},
		lookupItem{cp949: 0xa5ed, ucs2: 0x03bd},
		lookupItem{cp949: 0xa5ee, ucs2: 0x03be},
		lookupItem{cp949: 0xa5ef, ucs2: 0x03bf},
		lookupItem{cp949: 0xa5f0, ucs2: 0x03c0},
		lookupItem{cp949: 0xa5f1, ucs2: 0x03c1},
		lookupItem{cp949: 0xa5f2, ucs2: 0x03c3},
		lookupItem{cp949: 0xa5f3, ucs2: 0x03c4},
		lookupItem{cp949: 0xa5f4, ucs2: 0x03c5},
		lookupItem{cp949: 0xa5f5, ucs2: 0x03c6},
		lookupItem{cp949: 0xa5f6, ucs2: 0x03c7},
		lookupItem{cp949: 0xa5f7, ucs2: 0x03c8},
		lookupItem{cp949: 0xa5f8, ucs2: 0x03c9},
		lookupItem{cp949: 0xa641, ucs2: 0xcaa8},
		lookupItem{cp949: 0xa642, ucs2: 0xcaa9},
		lookupItem{cp949: 0xa643, ucs2: 0xcaaa},
		lookupItem{cp949: 0xa644, ucs2: 0xcaab},
		lookupItem{cp949: 0xa645, ucs2: 0xcaac},
		lookupItem{cp949: 0xa646, ucs2: 0xcaad},
		lookupItem{cp949: 0xa647, ucs2: 0xcaae},
		lookupItem{cp949: 0xa648, ucs2: 0xcaaf},
		lookupItem{cp949: 0xa649, ucs2: 0xcab0},
		lookupItem{cp949: 0xa64a, ucs2: 0xcab1},
		lookupItem{cp949: 0xa64b, ucs2: 0xcab2},
		lookupItem{cp949: 0xa64c, ucs2: 0xcab3},
		lookupItem{cp949: 0xa64d, ucs2: 0xcab4},
		lookupItem{cp949: 0xa64e, ucs2: 0xcab5},
		lookupItem{cp949: 0xa64f, ucs2: 0xcab6},
		lookupItem{cp949: 0xa650, ucs2: 0xcab7},
		lookupItem{cp949: 0xa651, ucs2: 0xcab8},
		lookupItem{cp949: 0xa652, ucs2: 0xcab9},
		lookupItem{cp949: 0xa653, ucs2: 0xcaba},
		lookupItem{cp949: 0xa654, ucs2: 0xcabb},
		lookupItem{cp949: 0xa655, ucs2: 0xcabe},
		lookupItem{cp949: 0xa656, ucs2: 0xcabf},
		lookupItem{cp949: 0xa657, ucs2: 0xcac1},
		lookupItem{cp949: 0xa658, ucs2: 0xcac2},
		lookupItem{cp949: 0xa659, ucs2: 0xcac3},
		lookupItem{cp949: 0xa65a, ucs2: 0xcac5},
		lookupItem{cp949: 0xa661, ucs2: 0xcac6},
		lookupItem{cp949: 0xa662, ucs2: 0xcac7},
		lookupItem{cp949: 0xa663, ucs2: 0xcac8},
		lookupItem{cp949: 0xa664, ucs2: 0xcac9},
		lookupItem{cp949: 0xa665, ucs2: 0xcaca},
		lookupItem{cp949: 0xa666, ucs2: 0xcacb},
		lookupItem{cp949: 0xa667, ucs2: 0xcace},
		lookupItem{cp949: 0xa668, ucs2: 0xcad0},
		lookupItem{cp949: 0xa669, ucs2: 0xcad2},
		lookupItem{cp949: 0xa66a, ucs2: 0xcad4},
		lookupItem{cp949: 0xa66b, ucs2: 0xcad5},
		lookupItem{cp949: 0xa66c, ucs2: 0xcad6},
		lookupItem{cp949: 0xa66d, ucs2: 0xcad7},
		lookupItem{cp949: 0xa66e, ucs2: 0xcada},
		lookupItem{cp949: 0xa66f, ucs2: 0xcadb},
		lookupItem{cp949: 0xa670, ucs2: 0xcadc},
		lookupItem{cp949: 0xa671, ucs2: 0xcadd},
		lookupItem{cp949: 0xa672, ucs2: 0xcade},
		lookupItem{cp949: 0xa673, ucs2: 0xcadf},
		lookupItem{cp949: 0xa674, ucs2: 0xcae1},
		lookupItem{cp949: 0xa675, ucs2: 0xcae2},
		lookupItem{cp949: 0xa676, ucs2: 0xcae3},
		lookupItem{cp949: 0xa677, ucs2: 0xcae4},
		lookupItem{cp949: 0xa678, ucs2: 0xcae5},
		lookupItem{cp949: 0xa679, ucs2: 0xcae6},
		lookupItem{cp949: 0xa67a, ucs2: 0xcae7},
		lookupItem{cp949: 0xa681, ucs2: 0xcae8},
		lookupItem{cp949: 0xa682, ucs2: 0xcae9},
		lookupItem{cp949: 0xa683, ucs2: 0xcaea},
		lookupItem{cp949: 0xa684, ucs2: 0xcaeb},
		lookupItem{cp949: 0xa685, ucs2: 0xcaed},
		lookupItem{cp949: 0xa686, ucs2: 0xcaee},
		lookupItem{cp949: 0xa687, ucs2: 0xcaef},
		lookupItem{cp949: 0xa688, ucs2: 0xcaf0},
		lookupItem{cp949: 0xa689, ucs2: 0xcaf1},
		lookupItem{cp949: 0xa68a, ucs2: 0xcaf2},
		lookupItem{cp949: 0xa68b, ucs2: 0xcaf3},
		lookupItem{cp949: 0xa68c, ucs2: 0xcaf5},
		lookupItem{cp949: 0xa68d, ucs2: 0xcaf6},
		lookupItem{cp949: 0xa68e, ucs2: 0xcaf7},
		lookupItem{cp949: 0xa68f, ucs2: 0xcaf8},
		lookupItem{cp949: 0xa690, ucs2: 0xcaf9},
		lookupItem{cp949: 0xa691, ucs2: 0xcafa},
		lookupItem{cp949: 0xa692, ucs2: 0xcafb},
		lookupItem{cp949: 0xa693, ucs2: 0xcafc},
		lookupItem{cp949: 0xa694, ucs2: 0xcafd},
		lookupItem{cp949: 0xa695, ucs2: 0xcafe},
		lookupItem{cp949: 0xa696, ucs2: 0xcaff},
		lookupItem{cp949: 0xa697, ucs2: 0xcb00},
		lookupItem{cp949: 0xa698, ucs2: 0xcb01},
		lookupItem{cp949: 0xa699, ucs2: 0xcb02},
		lookupItem{cp949: 0xa69a, ucs2: 0xcb03},
		lookupItem{cp949: 0xa69b, ucs2: 0xcb04},
		lookupItem{cp949: 0xa69c, ucs2: 0xcb05},
		lookupItem{cp949: 0xa69d, ucs2: 0xcb06},
		lookupItem{cp949: 0xa69e, ucs2: 0xcb07},
		lookupItem{cp949: 0xa69f, ucs2: 0xcb09},
		lookupItem{cp949: 0xa6a0, ucs2: 0xcb0a},
		lookupItem{cp949: 0xa6a1, ucs2: 0x2500},
		lookupItem{cp949: 0xa6a2, ucs2: 0x2502},
		lookupItem{cp949: 0xa6a3, ucs2: 0x250c},
		lookupItem{cp949: 0xa6a4, ucs2: 0x2510},
		lookupItem{cp949: 0xa6a5, ucs2: 0x2518},
		lookupItem{cp949: 0xa6a6, ucs2: 0x2514},
		lookupItem{cp949: 0xa6a7, ucs2: 0x251c},
		lookupItem{cp949: 0xa6a8, ucs2: 0x252c},
		lookupItem{cp949: 0xa6a9, ucs2: 0x2524},
		lookupItem{cp949: 0xa6aa, ucs2: 0x2534},
		lookupItem{cp949: 0xa6ab, ucs2: 0x253c},
		lookupItem{cp949: 0xa6ac, ucs2: 0x2501},
		lookupItem{cp949: 0xa6ad, ucs2: 0x2503},
		lookupItem{cp949: 0xa6ae, ucs2: 0x250f},
		lookupItem{cp949: 0xa6af, ucs2: 0x2513},
		lookupItem{cp949: 0xa6b0, ucs2: 0x251b},
		lookupItem{cp949: 0xa6b1, ucs2: 0x2517},
		lookupItem{cp949: 0xa6b2, ucs2: 0x2523},
		lookupItem{cp949: 0xa6b3, ucs2: 0x2533},
		lookupItem{cp949: 0xa6b4, ucs2: 0x252b},
		lookupItem{cp949: 0xa6b5, ucs2: 0x253b},
		lookupItem{cp949: 0xa6b6, ucs2: 0x254b},
		lookupItem{cp949: 0xa6b7, ucs2: 0x2520},
		lookupItem{cp949: 0xa6b8, ucs2: 0x252f},
		lookupItem{cp949: 0xa6b9, ucs2: 0x2528},
		lookupItem{cp949: 0xa6ba, ucs2: 0x2537},
		lookupItem{cp949: 0xa6bb, ucs2: 0x253f},
		lookupItem{cp949: 0xa6bc, ucs2: 0x251d},
		lookupItem{cp949: 0xa6bd, ucs2: 0x2530},
		lookupItem{cp949: 0xa6be, ucs2: 0x2525},
		lookupItem{cp949: 0xa6bf, ucs2: 0x2538},
		lookupItem{cp949: 0xa6c0, ucs2: 0x2542},
		lookupItem{cp949: 0xa6c1, ucs2: 0x2512},
		lookupItem{cp949: 0xa6c2, ucs2: 0x2511},
		lookupItem{cp949: 0xa6c3, ucs2: 0x251a},
		lookupItem{cp949: 0xa6c4, ucs2: 0x2519},
		lookupItem{cp949: 0xa6c5, ucs2: 0x2516},
		lookupItem{cp949: 0xa6c6, ucs2: 0x2515},
		lookupItem{cp949: 0xa6c7, ucs2: 0x250e},
		lookupItem{cp949: 0xa6c8, ucs2: 0x250d},
		lookupItem{cp949: 0xa6c9, ucs2: 0x251e},
		lookupItem{cp949: 0xa6ca, ucs2: 0x251f},
		lookupItem{cp949: 0xa6cb, ucs2: 0x2521},
		lookupItem{cp949: 0xa6cc, ucs2: 0x2522},
		lookupItem{cp949: 0xa6cd, ucs2: 0x2526},
		lookupItem{cp949: 0xa6ce, ucs2: 0x2527},
		lookupItem{cp949: 0xa6cf, ucs2: 0x2529},
		lookupItem{cp949: 0xa6d0, ucs2: 0x252a},
		lookupItem{cp949: 0xa6d1, ucs2: 0x252d},
		lookupItem{cp949: 0xa6d2, ucs2: 0x252e},
		lookupItem{cp949: 0xa6d3, ucs2: 0x2531},
		lookupItem{cp949: 0xa6d4, ucs2: 0x2532},
		lookupItem{cp949: 0xa6d5, ucs2: 0x2535},
		lookupItem{cp949: 0xa6d6, ucs2: 0x2536},
		lookupItem{cp949: 0xa6d7, ucs2: 0x2539},
		lookupItem{cp949: 0xa6d8, ucs2: 0x253a},
		lookupItem{cp949: 0xa6d9, ucs2: 0x253d},
		lookupItem{cp949: 0xa6da, ucs2: 0x253e},
		lookupItem{cp949: 0xa6db, ucs2: 0x2540},
		lookupItem{cp949: 0xa6dc, ucs2: 0x2541},
		lookupItem{cp949: 0xa6dd, ucs2: 0x2543},
		lookupItem{cp949: 0xa6de, ucs2: 0x2544},
		lookupItem{cp949: 0xa6df, ucs2: 0x2545},
		lookupItem{cp949: 0xa6e0, ucs2: 0x2546},
		lookupItem{cp949: 0xa6e1, ucs2: 0x2547},
		lookupItem{cp949: 0xa6e2, ucs2: 0x2548},
		lookupItem{cp949: 0xa6e3, ucs2: 0x2549},
		lookupItem{cp949: 0xa6e4, ucs2: 0x254a},
		lookupItem{cp949: 0xa741, ucs2: 0xcb0b},
		lookupItem{cp949: 0xa742, ucs2: 0xcb0c},
		lookupItem{cp949: 0xa743, ucs2: 0xcb0d},
		lookupItem{cp949: 0xa744, ucs2: 0xcb0e},
		lookupItem{cp949: 0xa745, ucs2: 0xcb0f},
		lookupItem{cp949: 0xa746, ucs2: 0xcb11},
		lookupItem{cp949: 0xa747, ucs2: 0xcb12},
		lookupItem{cp949: 0xa748, ucs2: 0xcb13},
		lookupItem{cp949: 0xa749, ucs2: 0xcb15},
		lookupItem{cp949: 0xa74a, ucs2: 0xcb16},
		lookupItem{cp949: 0xa74b, ucs2: 0xcb17},
		lookupItem{cp949: 0xa74c, ucs2: 0xcb19},
		lookupItem{cp949: 0xa74d, ucs2: 0xcb1a},
		lookupItem{cp949: 0xa74e, ucs2: 0xcb1b},
		lookupItem{cp949: 0xa74f, ucs2: 0xcb1c},
		lookupItem{cp949: 0xa750, ucs2: 0xcb1d},
		lookupItem{cp949: 0xa751, ucs2: 0xcb1e},
		lookupItem{cp949: 0xa752, ucs2: 0xcb1f},
		lookupItem{cp949: 0xa753, ucs2: 0xcb22},
		lookupItem{cp949: 0xa754, ucs2: 0xcb23},
		lookupItem{cp949: 0xa755, ucs2: 0xcb24},
		lookupItem{cp949: 0xa756, ucs2: 0xcb25},
		lookupItem{cp949: 0xa757, ucs2: 0xcb26},
		lookupItem{cp949: 0xa758, ucs2: 0xcb27},
		lookupItem{cp949: 0xa759, ucs2: 0xcb28},
		lookupItem{cp949: 0xa75a, ucs2: 0xcb29},
		lookupItem{cp949: 0xa761, ucs2: 0xcb2a},
		lookupItem{cp949: 0xa762, ucs2: 0xcb2b},
		lookupItem{cp949: 0xa763, ucs2: 0xcb2c},
		lookupItem{cp949: 0xa764, ucs2: 0xcb2d},
		lookupItem{cp949: 0xa765, ucs2: 0xcb2e},
		lookupItem{cp949: 0xa766, ucs2: 0xcb2f},
		lookupItem{cp949: 0xa767, ucs2: 0xcb30},
		lookupItem{cp949: 0xa768, ucs2: 0xcb31},
		lookupItem{cp949: 0xa769, ucs2: 0xcb32},
		lookupItem{cp949: 0xa76a, ucs2: 0xcb33},
		lookupItem{cp949: 0xa76b, ucs2: 0xcb34},
		lookupItem{cp949: 0xa76c, ucs2: 0xcb35},
		lookupItem{cp949: 0xa76d, ucs2: 0xcb36},
		lookupItem{cp949: 0xa76e, ucs2: 0xcb37},
		lookupItem{cp949: 0xa76f, ucs2: 0xcb38},
		lookupItem{cp949: 0xa770, ucs2: 0xcb39},
		lookupItem{cp949: 0xa771, ucs2: 0xcb3a},
		lookupItem{cp949: 0xa772, ucs2: 0xcb3b},
		lookupItem{cp949: 0xa773, ucs2: 0xcb3c},
		lookupItem{cp949: 0xa774, ucs2: 0xcb3d},
		lookupItem{cp949: 0xa775, ucs2: 0xcb3e},
		lookupItem{cp949: 0xa776, ucs2: 0xcb3f},
		lookupItem{cp949: 0xa777, ucs2: 0xcb40},
		lookupItem{cp949: 0xa778, ucs2: 0xcb42},
		lookupItem{cp949: 0xa779, ucs2: 0xcb43},
		lookupItem{cp949: 0xa77a, ucs2: 0xcb44},
		lookupItem{cp949: 0xa781, ucs2: 0xcb45},
".
Definition text_cp949_lookup_from_027 : string :=
"		lookupItem{cp949: 0xa782, ucs2: 0xcb46},
		lookupItem{cp949: 0xa783, ucs2: 0xcb47},
		lookupItem{cp949: 0xa784, ucs2: 0xcb4a},
		lookupItem{cp949: 0xa785, ucs2: 0xcb4b},
		lookupItem{cp949: 0xa786, ucs2: 0xcb4d},
		lookupItem{cp949: 0xa787, ucs2: 0xcb4e},
		lookupItem{cp949: 0xa788, ucs2: 0xcb4f},
		lookupItem{cp949: 0xa789, ucs2: 0xcb51},
		lookupItem{cp949: 0xa78a, ucs2: 0xcb52},
		lookupItem{cp949: 0xa78b, ucs2: 0xcb53},
		lookupItem{cp949: 0xa78c, ucs2: 0xcb54},
		lookupItem{cp949: 0xa78d, ucs2: 0xcb55},
		lookupItem{cp949: 0xa78e, ucs2: 0xcb56},
		lookupItem{cp949: 0xa78f, ucs2: 0xcb57},
		lookupItem{cp949: 0xa790, ucs2: 0xcb5a},
		lookupItem{cp949: 0xa791, ucs2: 0xcb5b},
		lookupItem{cp949: 0xa792, ucs2: 0xcb5c},
		lookupItem{cp949: 0xa793, ucs2: 0xcb5e},
		lookupItem{cp949: 0xa794, ucs2: 0xcb5f},
		lookupItem{cp949: 0xa795, ucs2: 0xcb60},
		lookupItem{cp949: 0xa796, ucs2: 0xcb61},
		lookupItem{cp949: 0xa797, ucs2: 0xcb62},
		lookupItem{cp949: 0xa798, ucs2: 0xcb63},
		lookupItem{cp949: 0xa799, ucs2: 0xcb65},
		lookupItem{cp949: 0xa79a, ucs2: 0xcb66},
		lookupItem{cp949: 0xa79b, ucs2: 0xcb67},
		lookupItem{cp949: 0xa79c, ucs2: 0xcb68},
		lookupItem{cp949: 0xa79d, ucs2: 0xcb69},
		lookupItem{cp949: 0xa79e, ucs2: 0xcb6a},
		lookupItem{cp949: 0xa79f, ucs2: 0xcb6b},
		lookupItem{cp949: 0xa7a0, ucs2: 0xcb6c},
		lookupItem{cp949: 0xa7a1, ucs2: 0x3395},
		lookupItem{cp949: 0xa7a2, ucs2: 0x3396},
		lookupItem{cp949: 0xa7a3, ucs2: 0x3397},
		lookupItem{cp949: 0xa7a4, ucs2: 0x2113},
		lookupItem{cp949: 0xa7a5, ucs2: 0x3398},
		lookupItem{cp949: 0xa7a6, ucs2: 0x33c4},
		lookupItem{cp949: 0xa7a7, ucs2: 0x33a3},
		lookupItem{cp949: 0xa7a8, ucs2: 0x33a4},
		lookupItem{cp949: 0xa7a9, ucs2: 0x33a5},
		lookupItem{cp949: 0xa7aa, ucs2: 0x33a6},
		lookupItem{cp949: 0xa7ab, ucs2: 0x3399},
		lookupItem{cp949: 0xa7ac, ucs2: 0x339a},
		lookupItem{cp949: 0xa7ad, ucs2: 0x339b},
		lookupItem{cp949: 0xa7ae, ucs2: 0x339c},
		lookupItem{cp949: 0xa7af, ucs2: 0x339d},
		lookupItem{cp949: 0xa7b0, ucs2: 0x339e},
		lookupItem{cp949: 0xa7b1, ucs2: 0x339f},
		lookupItem{cp949: 0xa7b2, ucs2: 0x33a0},
		lookupItem{cp949: 0xa7b3, ucs2: 0x33a1},
		lookupItem{cp949: 0xa7b4, ucs2: 0x33a2},
		lookupItem{cp949: 0xa7b5, ucs2: 0x33ca},
		lookupItem{cp949: 0xa7b6, ucs2: 0x338d},
		lookupItem{cp949: 0xa7b7, ucs2: 0x338e},
		lookupItem{cp949: 0xa7b8, ucs2: 0x338f},
		lookupItem{cp949: 0xa7b9, ucs2: 0x33cf},
		lookupItem{cp949: 0xa7ba, ucs2: 0x3388},
		lookupItem{cp949: 0xa7bb, ucs2: 0x3389},
		lookupItem{cp949: 0xa7bc, ucs2: 0x33c8},
		lookupItem{cp949: 0xa7bd, ucs2: 0x33a7},
		lookupItem{cp949: 0xa7be, ucs2: 0x33a8},
		lookupItem{cp949: 0xa7bf, ucs2: 0x33b0},
		lookupItem{cp949: 0xa7c0, ucs2: 0x33b1},
		lookupItem{cp949: 0xa7c1, ucs2: 0x33b2},
		lookupItem{cp949: 0xa7c2, ucs2: 0x33b3},
		lookupItem{cp949: 0xa7c3, ucs2: 0x33b4},
		lookupItem{cp949: 0xa7c4, ucs2: 0x33b5},
		lookupItem{cp949: 0xa7c5, ucs2: 0x33b6},
		lookupItem{cp949: 0xa7c6, ucs2: 0x33b7},
		lookupItem{cp949: 0xa7c7, ucs2: 0x33b8},
		lookupItem{cp949: 0xa7c8, ucs2: 0x33b9},
		lookupItem{cp949: 0xa7c9, ucs2: 0x3380},
		lookupItem{cp949: 0xa7ca, ucs2: 0x3381},
		lookupItem{cp949: 0xa7cb, ucs2: 0x3382},
		lookupItem{cp949: 0xa7cc, ucs2: 0x3383},
		lookupItem{cp949: 0xa7cd, ucs2: 0x3384},
		lookupItem{cp949: 0xa7ce, ucs2: 0x33ba},
		lookupItem{cp949: 0xa7cf, ucs2: 0x33bb},
		lookupItem{cp949: 0xa7d0, ucs2: 0x33bc},
		lookupItem{cp949: 0xa7d1, ucs2: 0x33bd},
		lookupItem{cp949: 0xa7d2, ucs2: 0x33be},
		lookupItem{cp949: 0xa7d3, ucs2: 0x33bf},
		lookupItem{cp949: 0xa7d4, ucs2: 0x3390},
		lookupItem{cp949: 0xa7d5, ucs2: 0x3391},
		lookupItem{cp949: 0xa7d6, ucs2: 0x3392},
		lookupItem{cp949: 0xa7d7, ucs2: 0x3393},
		lookupItem{cp949: 0xa7d8, ucs2: 0x3394},
		lookupItem{cp949: 0xa7d9, ucs2: 0x2126},
		lookupItem{cp949: 0xa7da, ucs2: 0x33c0},
		lookupItem{cp949: 0xa7db, ucs2: 0x33c1},
		lookupItem{cp949: 0xa7dc, ucs2: 0x338a},
		lookupItem{cp949: 0xa7dd, ucs2: 0x338b},
		lookupItem{cp949: 0xa7de, ucs2: 0x338c},
		lookupItem{cp949: 0xa7df, ucs2: 0x33d6},
		lookupItem{cp949: 0xa7e0, ucs2: 0x33c5},
		lookupItem{cp949: 0xa7e1, ucs2: 0x33ad},
		lookupItem{cp949: 0xa7e2, ucs2: 0x33ae},
		lookupItem{cp949: 0xa7e3, ucs2: 0x33af},
		lookupItem{cp949: 0xa7e4, ucs2: 0x33db},
		lookupItem{cp949: 0xa7e5, ucs2: 0x33a9},
		lookupItem{cp949: 0xa7e6, ucs2: 0x33aa},
		lookupItem{cp949: 0xa7e7, ucs2: 0x33ab},
		lookupItem{cp949: 0xa7e8, ucs2: 0x33ac},
		lookupItem{cp949: 0xa7e9, ucs2: 0x33dd},
		lookupItem{cp949: 0xa7ea, ucs2: 0x33d0},
		lookupItem{cp949: 0xa7eb, ucs2: 0x33d3},
		lookupItem{cp949: 0xa7ec, ucs2: 0x33c3},
		lookupItem{cp949: 0xa7ed, ucs2: 0x33c9},
		lookupItem{cp949: 0xa7ee, ucs2: 0x33dc},
		lookupItem{cp949: 0xa7ef, ucs2: 0x33c6},
		lookupItem{cp949: 0xa841, ucs2: 0xcb6d},
		lookupItem{cp949: 0xa842, ucs2: 0xcb6e},
		lookupItem{cp949: 0xa843, ucs2: 0xcb6f},
		lookupItem{cp949: 0xa844, ucs2: 0xcb70},
		lookupItem{cp949: 0xa845, ucs2: 0xcb71},
		lookupItem{cp949: 0xa846, ucs2: 0xcb72},
		lookupItem{cp949: 0xa847, ucs2: 0xcb73},
		lookupItem{cp949: 0xa848, ucs2: 0xcb74},
		lookupItem{cp949: 0xa849, ucs2: 0xcb75},
		lookupItem{cp949: 0xa84a, ucs2: 0xcb76},
		lookupItem{cp949: 0xa84b, ucs2: 0xcb77},
		lookupItem{cp949: 0xa84c, ucs2: 0xcb7a},
		lookupItem{cp949: 0xa84d, ucs2: 0xcb7b},
		lookupItem{cp949: 0xa84e, ucs2: 0xcb7c},
		lookupItem{cp949: 0xa84f, ucs2: 0xcb7d},
		lookupItem{cp949: 0xa850, ucs2: 0xcb7e},
		lookupItem{cp949: 0xa851, ucs2: 0xcb7f},
		lookupItem{cp949: 0xa852, ucs2: 0xcb80},
		lookupItem{cp949: 0xa853, ucs2: 0xcb81},
		lookupItem{cp949: 0xa854, ucs2: 0xcb82},
		lookupItem{cp949: 0xa855, ucs2: 0xcb83},
		lookupItem{cp949: 0xa856, ucs2: 0xcb84},
		lookupItem{cp949: 0xa857, ucs2: 0xcb85},
		lookupItem{cp949: 0xa858, ucs2: 0xcb86},
		lookupItem{cp949: 0xa859, ucs2: 0xcb87},
		lookupItem{cp949: 0xa85a, ucs2: 0xcb88},
		lookupItem{cp949: 0xa861, ucs2: 0xcb89},
		lookupItem{cp949: 0xa862, ucs2: 0xcb8a},
		lookupItem{cp949: 0xa863, ucs2: 0xcb8b},
		lookupItem{cp949: 0xa864, ucs2: 0xcb8c},
		lookupItem{cp949: 0xa865, ucs2: 0xcb8d},
		lookupItem{cp949: 0xa866, ucs2: 0xcb8e},
		lookupItem{cp949: 0xa867, ucs2: 0xcb8f},
		lookupItem{cp949: 0xa868, ucs2: 0xcb90},
		lookupItem{cp949: 0xa869, ucs2: 0xcb91},
		lookupItem{cp949: 0xa86a, ucs2: 0xcb92},
		lookupItem{cp949: 0xa86b, ucs2: 0xcb93},
		lookupItem{cp949: 0xa86c, ucs2: 0xcb94},
		lookupItem{cp949: 0xa86d, ucs2: 0xcb95},
		lookupItem{cp949: 0xa86e, ucs2: 0xcb96},
		lookupItem{cp949: 0xa86f, ucs2: 0xcb97},
		lookupItem{cp949: 0xa870, ucs2: 0xcb98},
		lookupItem{cp949: 0xa871, ucs2: 0xcb99},
		lookupItem{cp949: 0xa872, ucs2: 0xcb9a},
		lookupItem{cp949: 0xa873, ucs2: 0xcb9b},
		lookupItem{cp949: 0xa874, ucs2: 0xcb9d},
		lookupItem{cp949: 0xa875, ucs2: 0xcb9e},
		lookupItem{cp949: 0xa876, ucs2: 0xcb9f},
		lookupItem{cp949: 0xa877, ucs2: 0xcba0},
		lookupItem{cp949: 0xa878, ucs2: 0xcba1},
		lookupItem{cp949: 0xa879, ucs2: 0xcba2},
		lookupItem{cp949: 0xa87a, ucs2: 0xcba3},
		lookupItem{cp949: 0xa881, ucs2: 0xcba4},
		lookupItem{cp949: 0xa882, ucs2: 0xcba5},
		lookupItem{cp949: 0xa883, ucs2: 0xcba6},
		lookupItem{cp949: 0xa884, ucs2: 0xcba7},
		lookupItem{cp949: 0xa885, ucs2: 0xcba8},
		lookupItem{cp949: 0xa886, ucs2: 0xcba9},
		lookupItem{cp949: 0xa887, ucs2: 0xcbaa},
		lookupItem{cp949: 0xa888, ucs2: 0xcbab},
		lookupItem{cp949: 0xa889, ucs2: 0xcbac},
		lookupItem{cp949: 0xa88a, ucs2: 0xcbad},
		lookupItem{cp949: 0xa88b, ucs2: 0xcbae},
		lookupItem{cp949: 0xa88c, ucs2: 0xcbaf},
		lookupItem{cp949: 0xa88d, ucs2: 0xcbb0},
		lookupItem{cp949: 0xa88e, ucs2: 0xcbb1},
		lookupItem{cp949: 0xa88f, ucs2: 0xcbb2},
		lookupItem{cp949: 0xa890, ucs2: 0xcbb3},
		lookupItem{cp949: 0xa891, ucs2: 0xcbb4},
		lookupItem{cp949: 0xa892, ucs2: 0xcbb5},
		lookupItem{cp949: 0xa893, ucs2: 0xcbb6},
		lookupItem{cp949: 0xa894, ucs2: 0xcbb7},
		lookupItem{cp949: 0xa895, ucs2: 0xcbb9},
		lookupItem{cp949: 0xa896, ucs2: 0xcbba},
		lookupItem{cp949: 0xa897, ucs2: 0xcbbb},
		lookupItem{cp949: 0xa898, ucs2: 0xcbbc},
		lookupItem{cp949: 0xa899, ucs2: 0xcbbd},
		lookupItem{cp949: 0xa89a, ucs2: 0xcbbe},
		lookupItem{cp949: 0xa89b, ucs2: 0xcbbf},
		lookupItem{cp949: 0xa89c, ucs2: 0xcbc0},
		lookupItem{cp949: 0xa89d, ucs2: 0xcbc1},
		lookupItem{cp949: 0xa89e, ucs2: 0xcbc2},
		lookupItem{cp949: 0xa89f, ucs2: 0xcbc3},
		lookupItem{cp949: 0xa8a0, ucs2: 0xcbc4},
		lookupItem{cp949: 0xa8a1, ucs2: 0x00c6},
		lookupItem{cp949: 0xa8a2, ucs2: 0x00d0},
		lookupItem{cp949: 0xa8a3, ucs2: 0x00aa},
		lookupItem{cp949: 0xa8a4, ucs2: 0x0126},
		lookupItem{cp949: 0xa8a6, ucs2: 0x0132},
		lookupItem{cp949: 0xa8a8, ucs2: 0x013f},
		lookupItem{cp949: 0xa8a9, ucs2: 0x0141},
		lookupItem{cp949: 0xa8aa, ucs2: 0x00d8},
		lookupItem{cp949: 0xa8ab, ucs2: 0x0152},
		lookupItem{cp949: 0xa8ac, ucs2: 0x00ba},
		lookupItem{cp949: 0xa8ad, ucs2: 0x00de},
		lookupItem{cp949: 0xa8ae, ucs2: 0x0166},
		lookupItem{cp949: 0xa8af, ucs2: 0x014a},
		lookupItem{cp949: 0xa8b1, ucs2: 0x3260},
		lookupItem{cp949: 0xa8b2, ucs2: 0x3261},
		lookupItem{cp949: 0xa8b3, ucs2: 0x3262},
		lookupItem{cp949: 0xa8b4, ucs2: 0x3263},
		lookupItem{cp949: 0xa8b5, ucs2: 0x3264},
		lookupItem{cp949: 0xa8b6, ucs2: 0x3265},
		lookupItem{cp949: 0xa8b7, ucs2: 0x3266},
		lookupItem{cp949: 0xa8b8, ucs2: 0x3267},
		lookupItem{cp949: 0xa8b9, ucs2: 0x3268},
		lookupItem{cp949: 0xa8ba, ucs2: 0x3269},
		lookupItem{cp949: 0xa8bb, ucs2: 0x326a},
		lookupItem{cp949: 0xa8bc, ucs2: 0x326b},
		lookupItem{cp949: 0xa8bd, ucs2: 0x326c},
		lookupItem{cp949: 0xa8be, ucs2: 0x326d},
		lookupItem{cp949: 0xa8bf, ucs2: 0x326e},
		lookupItem{cp949: 0xa8c0, ucs2: 0x326f},
		lookupItem{cp949: 0xa8c1, ucs2: 0x3270},
		lookupItem{cp949: 0xa8c2, ucs2: 0x3271},
		lookupItem{cp949: 0xa8c3, ucs2: 0x3272},
		lookupItem{cp949: 0xa8c4, ucs2: 0x3273},
		lookupItem{cp949: 0xa8c5, ucs2: 0x3274},
		lookupItem{cp949: 0xa8c6, ucs2: 0x3275},
		lookupItem{cp949: 0xa8c7, ucs2: 0x3276},
		lookupItem{cp949: 0xa8c8, ucs2: 0x3277},
		lookupItem{cp949: 0xa8c9, ucs2: 0x3278},
		lookupItem{cp949: 0xa8ca, ucs2: 0x3279},
		lookupItem{cp949: 0xa8cb, ucs2: 0x327a},
		lookupItem{cp949: 0xa8cc, ucs2: 0x327b},
		lookupItem{cp949: 0xa8cd, ucs2: 0x24d0},
		lookupItem{cp949: 0xa8ce, ucs2: 0x24d1},
		lookupItem{cp949: 0xa8cf, ucs2: 0x24d2},
		lookupItem{cp949: 0xa8d0, ucs2: 0x24d3},
		lookupItem{cp949: 0xa8d1, ucs2: 0x24d4},
		lookupItem{cp949: 0xa8d2, ucs2: 0x24d5},
		lookupItem{cp949: 0xa8d3, ucs2: 0x24d6},
		lookupItem{cp949: 0xa8d4, ucs2: 0x24d7},
		lookupItem{cp949: 0xa8d5, ucs2: 0x24d8},
		lookupItem{cp949: 0xa8d6, ucs2: 0x24d9},
		lookupItem{cp949: 0xa8d7, ucs2: 0x24da},
		lookupItem{cp949: 0xa8d8, ucs2: 0x24db},
		lookupItem{cp949: 0xa8d9, ucs2: 0x24dc},
		lookupItem{cp949: 0xa8da, ucs2: 0x24dd},
		lookupItem{cp949: 0xa8db, ucs2: 0x24de},
".
Definition text_cp949_lookup_from_028 : string :=
"		lookupItem{cp949: 0xa8dc, ucs2: 0x24df},
		lookupItem{cp949: 0xa8dd, ucs2: 0x24e0},
		lookupItem{cp949: 0xa8de, ucs2: 0x24e1},
		lookupItem{cp949: 0xa8df, ucs2: 0x24e2},
		lookupItem{cp949: 0xa8e0, ucs2: 0x24e3},
		lookupItem{cp949: 0xa8e1, ucs2: 0x24e4},
		lookupItem{cp949: 0xa8e2, ucs2: 0x24e5},
		lookupItem{cp949: 0xa8e3, ucs2: 0x24e6},
		lookupItem{cp949: 0xa8e4, ucs2: 0x24e7},
		lookupItem{cp949: 0xa8e5, ucs2: 0x24e8},
		lookupItem{cp949: 0xa8e6, ucs2: 0x24e9},
		lookupItem{cp949: 0xa8e7, ucs2: 0x2460},
		lookupItem{cp949: 0xa8e8, ucs2: 0x2461},
		lookupItem{cp949: 0xa8e9, ucs2: 0x2462},
		lookupItem{cp949: 0xa8ea, ucs2: 0x2463},
		lookupItem{cp949: 0xa8eb, ucs2: 0x2464},
		lookupItem{cp949: 0xa8ec, ucs2: 0x2465},
		lookupItem{cp949: 0xa8ed, ucs2: 0x2466},
		lookupItem{cp949: 0xa8ee, ucs2: 0x2467},
		lookupItem{cp949: 0xa8ef, ucs2: 0x2468},
		lookupItem{cp949: 0xa8f0, ucs2: 0x2469},
		lookupItem{cp949: 0xa8f1, ucs2: 0x246a},
		lookupItem{cp949: 0xa8f2, ucs2: 0x246b},
		lookupItem{cp949: 0xa8f3, ucs2: 0x246c},
		lookupItem{cp949: 0xa8f4, ucs2: 0x246d},
		lookupItem{cp949: 0xa8f5, ucs2: 0x246e},
		lookupItem{cp949: 0xa8f6, ucs2: 0x00bd},
		lookupItem{cp949: 0xa8f7, ucs2: 0x2153},
		lookupItem{cp949: 0xa8f8, ucs2: 0x2154},
		lookupItem{cp949: 0xa8f9, ucs2: 0x00bc},
		lookupItem{cp949: 0xa8fa, ucs2: 0x00be},
		lookupItem{cp949: 0xa8fb, ucs2: 0x215b},
		lookupItem{cp949: 0xa8fc, ucs2: 0x215c},
		lookupItem{cp949: 0xa8fd, ucs2: 0x215d},
		lookupItem{cp949: 0xa8fe, ucs2: 0x215e},
		lookupItem{cp949: 0xa941, ucs2: 0xcbc5},
		lookupItem{cp949: 0xa942, ucs2: 0xcbc6},
		lookupItem{cp949: 0xa943, ucs2: 0xcbc7},
		lookupItem{cp949: 0xa944, ucs2: 0xcbc8},
		lookupItem{cp949: 0xa945, ucs2: 0xcbc9},
		lookupItem{cp949: 0xa946, ucs2: 0xcbca},
		lookupItem{cp949: 0xa947, ucs2: 0xcbcb},
		lookupItem{cp949: 0xa948, ucs2: 0xcbcc},
		lookupItem{cp949: 0xa949, ucs2: 0xcbcd},
		lookupItem{cp949: 0xa94a, ucs2: 0xcbce},
		lookupItem{cp949: 0xa94b, ucs2: 0xcbcf},
		lookupItem{cp949: 0xa94c, ucs2: 0xcbd0},
		lookupItem{cp949: 0xa94d, ucs2: 0xcbd1},
		lookupItem{cp949: 0xa94e, ucs2: 0xcbd2},
		lookupItem{cp949: 0xa94f, ucs2: 0xcbd3},
		lookupItem{cp949: 0xa950, ucs2: 0xcbd5},
		lookupItem{cp949: 0xa951, ucs2: 0xcbd6},
		lookupItem{cp949: 0xa952, ucs2: 0xcbd7},
		lookupItem{cp949: 0xa953, ucs2: 0xcbd8},
		lookupItem{cp949: 0xa954, ucs2: 0xcbd9},
		lookupItem{cp949: 0xa955, ucs2: 0xcbda},
		lookupItem{cp949: 0xa956, ucs2: 0xcbdb},
		lookupItem{cp949: 0xa957, ucs2: 0xcbdc},
		lookupItem{cp949: 0xa958, ucs2: 0xcbdd},
		lookupItem{cp949: 0xa959, ucs2: 0xcbde},
		lookupItem{cp949: 0xa95a, ucs2: 0xcbdf},
		lookupItem{cp949: 0xa961, ucs2: 0xcbe0},
		lookupItem{cp949: 0xa962, ucs2: 0xcbe1},
		lookupItem{cp949: 0xa963, ucs2: 0xcbe2},
		lookupItem{cp949: 0xa964, ucs2: 0xcbe3},
		lookupItem{cp949: 0xa965, ucs2: 0xcbe5},
		lookupItem{cp949: 0xa966, ucs2: 0xcbe6},
		lookupItem{cp949: 0xa967, ucs2: 0xcbe8},
		lookupItem{cp949: 0xa968, ucs2: 0xcbea},
		lookupItem{cp949: 0xa969, ucs2: 0xcbeb},
		lookupItem{cp949: 0xa96a, ucs2: 0xcbec},
		lookupItem{cp949: 0xa96b, ucs2: 0xcbed},
		lookupItem{cp949: 0xa96c, ucs2: 0xcbee},
		lookupItem{cp949: 0xa96d, ucs2: 0xcbef},
		lookupItem{cp949: 0xa96e, ucs2: 0xcbf0},
		lookupItem{cp949: 0xa96f, ucs2: 0xcbf1},
		lookupItem{cp949: 0xa970, ucs2: 0xcbf2},
		lookupItem{cp949: 0xa971, ucs2: 0xcbf3},
		lookupItem{cp949: 0xa972, ucs2: 0xcbf4},
		lookupItem{cp949: 0xa973, ucs2: 0xcbf5},
		lookupItem{cp949: 0xa974, ucs2: 0xcbf6},
		lookupItem{cp949: 0xa975, ucs2: 0xcbf7},
		lookupItem{cp949: 0xa976, ucs2: 0xcbf8},
		lookupItem{cp949: 0xa977, ucs2: 0xcbf9},
		lookupItem{cp949: 0xa978, ucs2: 0xcbfa},
		lookupItem{cp949: 0xa979, ucs2: 0xcbfb},
		lookupItem{cp949: 0xa97a, ucs2: 0xcbfc},
		lookupItem{cp949: 0xa981, ucs2: 0xcbfd},
		lookupItem{cp949: 0xa982, ucs2: 0xcbfe},
		lookupItem{cp949: 0xa983, ucs2: 0xcbff},
		lookupItem{cp949: 0xa984, ucs2: 0xcc00},
		lookupItem{cp949: 0xa985, ucs2: 0xcc01},
		lookupItem{cp949: 0xa986, ucs2: 0xcc02},
		lookupItem{cp949: 0xa987, ucs2: 0xcc03},
		lookupItem{cp949: 0xa988, ucs2: 0xcc04},
		lookupItem{cp949: 0xa989, ucs2: 0xcc05},
		lookupItem{cp949: 0xa98a, ucs2: 0xcc06},
		lookupItem{cp949: 0xa98b, ucs2: 0xcc07},
		lookupItem{cp949: 0xa98c, ucs2: 0xcc08},
		lookupItem{cp949: 0xa98d, ucs2: 0xcc09},
		lookupItem{cp949: 0xa98e, ucs2: 0xcc0a},
		lookupItem{cp949: 0xa98f, ucs2: 0xcc0b},
		lookupItem{cp949: 0xa990, ucs2: 0xcc0e},
		lookupItem{cp949: 0xa991, ucs2: 0xcc0f},
		lookupItem{cp949: 0xa992, ucs2: 0xcc11},
		lookupItem{cp949: 0xa993, ucs2: 0xcc12},
		lookupItem{cp949: 0xa994, ucs2: 0xcc13},
		lookupItem{cp949: 0xa995, ucs2: 0xcc15},
		lookupItem{cp949: 0xa996, ucs2: 0xcc16},
		lookupItem{cp949: 0xa997, ucs2: 0xcc17},
		lookupItem{cp949: 0xa998, ucs2: 0xcc18},
		lookupItem{cp949: 0xa999, ucs2: 0xcc19},
		lookupItem{cp949: 0xa99a, ucs2: 0xcc1a},
		lookupItem{cp949: 0xa99b, ucs2: 0xcc1b},
		lookupItem{cp949: 0xa99c, ucs2: 0xcc1e},
		lookupItem{cp949: 0xa99d, ucs2: 0xcc1f},
		lookupItem{cp949: 0xa99e, ucs2: 0xcc20},
		lookupItem{cp949: 0xa99f, ucs2: 0xcc23},
		lookupItem{cp949: 0xa9a0, ucs2: 0xcc24},
		lookupItem{cp949: 0xa9a1, ucs2: 0x00e6},
		lookupItem{cp949: 0xa9a2, ucs2: 0x0111},
		lookupItem{cp949: 0xa9a3, ucs2: 0x00f0},
		lookupItem{cp949: 0xa9a4, ucs2: 0x0127},
		lookupItem{cp949: 0xa9a5, ucs2: 0x0131},
		lookupItem{cp949: 0xa9a6, ucs2: 0x0133},
		lookupItem{cp949: 0xa9a7, ucs2: 0x0138},
		lookupItem{cp949: 0xa9a8, ucs2: 0x0140},
		lookupItem{cp949: 0xa9a9, ucs2: 0x0142},
		lookupItem{cp949: 0xa9aa, ucs2: 0x00f8},
		lookupItem{cp949: 0xa9ab, ucs2: 0x0153},
		lookupItem{cp949: 0xa9ac, ucs2: 0x00df},
		lookupItem{cp949: 0xa9ad, ucs2: 0x00fe},
		lookupItem{cp949: 0xa9ae, ucs2: 0x0167},
		lookupItem{cp949: 0xa9af, ucs2: 0x014b},
		lookupItem{cp949: 0xa9b0, ucs2: 0x0149},
		lookupItem{cp949: 0xa9b1, ucs2: 0x3200},
		lookupItem{cp949: 0xa9b2, ucs2: 0x3201},
		lookupItem{cp949: 0xa9b3, ucs2: 0x3202},
		lookupItem{cp949: 0xa9b4, ucs2: 0x3203},
		lookupItem{cp949: 0xa9b5, ucs2: 0x3204},
		lookupItem{cp949: 0xa9b6, ucs2: 0x3205},
		lookupItem{cp949: 0xa9b7, ucs2: 0x3206},
		lookupItem{cp949: 0xa9b8, ucs2: 0x3207},
		lookupItem{cp949: 0xa9b9, ucs2: 0x3208},
		lookupItem{cp949: 0xa9ba, ucs2: 0x3209},
		lookupItem{cp949: 0xa9bb, ucs2: 0x320a},
		lookupItem{cp949: 0xa9bc, ucs2: 0x320b},
		lookupItem{cp949: 0xa9bd, ucs2: 0x320c},
		lookupItem{cp949: 0xa9be, ucs2: 0x320d},
		lookupItem{cp949: 0xa9bf, ucs2: 0x320e},
		lookupItem{cp949: 0xa9c0, ucs2: 0x320f},
		lookupItem{cp949: 0xa9c1, ucs2: 0x3210},
		lookupItem{cp949: 0xa9c2, ucs2: 0x3211},
		lookupItem{cp949: 0xa9c3, ucs2: 0x3212},
		lookupItem{cp949: 0xa9c4, ucs2: 0x3213},
		lookupItem{cp949: 0xa9c5, ucs2: 0x3214},
		lookupItem{cp949: 0xa9c6, ucs2: 0x3215},
		lookupItem{cp949: 0xa9c7, ucs2: 0x3216},
		lookupItem{cp949: 0xa9c8, ucs2: 0x3217},
		lookupItem{cp949: 0xa9c9, ucs2: 0x3218},
		lookupItem{cp949: 0xa9ca, ucs2: 0x3219},
		lookupItem{cp949: 0xa9cb, ucs2: 0x321a},
		lookupItem{cp949: 0xa9cc, ucs2: 0x321b},
		lookupItem{cp949: 0xa9cd, ucs2: 0x249c},
		lookupItem{cp949: 0xa9ce, ucs2: 0x249d},
		lookupItem{cp949: 0xa9cf, ucs2: 0x249e},
		lookupItem{cp949: 0xa9d0, ucs2: 0x249f},
		lookupItem{cp949: 0xa9d1, ucs2: 0x24a0},
		lookupItem{cp949: 0xa9d2, ucs2: 0x24a1},
		lookupItem{cp949: 0xa9d3, ucs2: 0x24a2},
		lookupItem{cp949: 0xa9d4, ucs2: 0x24a3},
		lookupItem{cp949: 0xa9d5, ucs2: 0x24a4},
		lookupItem{cp949: 0xa9d6, ucs2: 0x24a5},
		lookupItem{cp949: 0xa9d7, ucs2: 0x24a6},
		lookupItem{cp949: 0xa9d8, ucs2: 0x24a7},
		lookupItem{cp949: 0xa9d9, ucs2: 0x24a8},
		lookupItem{cp949: 0xa9da, ucs2: 0x24a9},
		lookupItem{cp949: 0xa9db, ucs2: 0x24aa},
		lookupItem{cp949: 0xa9dc, ucs2: 0x24ab},
		lookupItem{cp949: 0xa9dd, ucs2: 0x24ac},
		lookupItem{cp949: 0xa9de, ucs2: 0x24ad},
		lookupItem{cp949: 0xa9df, ucs2: 0x24ae},
		lookupItem{cp949: 0xa9e0, ucs2: 0x24af},
		lookupItem{cp949: 0xa9e1, ucs2: 0x24b0},
		lookupItem{cp949: 0xa9e2, ucs2: 0x24b1},
		lookupItem{cp949: 0xa9e3, ucs2: 0x24b2},
		lookupItem{cp949: 0xa9e4, ucs2: 0x24b3},
		lookupItem{cp949: 0xa9e5, ucs2: 0x24b4},
		lookupItem{cp949: 0xa9e6, ucs2: 0x24b5},
		lookupItem{cp949: 0xa9e7, ucs2: 0x2474},
		lookupItem{cp949: 0xa9e8, ucs2: 0x2475},
		lookupItem{cp949: 0xa9e9, ucs2: 0x2476},
		lookupItem{cp949: 0xa9ea, ucs2: 0x2477},
		lookupItem{cp949: 0xa9eb, ucs2: 0x2478},
		lookupItem{cp949: 0xa9ec, ucs2: 0x2479},
		lookupItem{cp949: 0xa9ed, ucs2: 0x247a},
		lookupItem{cp949: 0xa9ee, ucs2: 0x247b},
		lookupItem{cp949: 0xa9ef, ucs2: 0x247c},
		lookupItem{cp949: 0xa9f0, ucs2: 0x247d},
		lookupItem{cp949: 0xa9f1, ucs2: 0x247e},
		lookupItem{cp949: 0xa9f2, ucs2: 0x247f},
		lookupItem{cp949: 0xa9f3, ucs2: 0x2480},
		lookupItem{cp949: 0xa9f4, ucs2: 0x2481},
		lookupItem{cp949: 0xa9f5, ucs2: 0x2482},
		lookupItem{cp949: 0xa9f6, ucs2: 0x00b9},
		lookupItem{cp949: 0xa9f7, ucs2: 0x00b2},
		lookupItem{cp949: 0xa9f8, ucs2: 0x00b3},
		lookupItem{cp949: 0xa9f9, ucs2: 0x2074},
		lookupItem{cp949: 0xa9fa, ucs2: 0x207f},
		lookupItem{cp949: 0xa9fb, ucs2: 0x2081},
		lookupItem{cp949: 0xa9fc, ucs2: 0x2082},
		lookupItem{cp949: 0xa9fd, ucs2: 0x2083},
		lookupItem{cp949: 0xa9fe, ucs2: 0x2084},
		lookupItem{cp949: 0xaa41, ucs2: 0xcc25},
		lookupItem{cp949: 0xaa42, ucs2: 0xcc26},
		lookupItem{cp949: 0xaa43, ucs2: 0xcc2a},
		lookupItem{cp949: 0xaa44, ucs2: 0xcc2b},
		lookupItem{cp949: 0xaa45, ucs2: 0xcc2d},
		lookupItem{cp949: 0xaa46, ucs2: 0xcc2f},
		lookupItem{cp949: 0xaa47, ucs2: 0xcc31},
		lookupItem{cp949: 0xaa48, ucs2: 0xcc32},
		lookupItem{cp949: 0xaa49, ucs2: 0xcc33},
		lookupItem{cp949: 0xaa4a, ucs2: 0xcc34},
		lookupItem{cp949: 0xaa4b, ucs2: 0xcc35},
		lookupItem{cp949: 0xaa4c, ucs2: 0xcc36},
		lookupItem{cp949: 0xaa4d, ucs2: 0xcc37},
		lookupItem{cp949: 0xaa4e, ucs2: 0xcc3a},
		lookupItem{cp949: 0xaa4f, ucs2: 0xcc3f},
		lookupItem{cp949: 0xaa50, ucs2: 0xcc40},
		lookupItem{cp949: 0xaa51, ucs2: 0xcc41},
		lookupItem{cp949: 0xaa52, ucs2: 0xcc42},
		lookupItem{cp949: 0xaa53, ucs2: 0xcc43},
		lookupItem{cp949: 0xaa54, ucs2: 0xcc46},
		lookupItem{cp949: 0xaa55, ucs2: 0xcc47},
		lookupItem{cp949: 0xaa56, ucs2: 0xcc49},
		lookupItem{cp949: 0xaa57, ucs2: 0xcc4a},
		lookupItem{cp949: 0xaa58, ucs2: 0xcc4b},
		lookupItem{cp949: 0xaa59, ucs2: 0xcc4d},
		lookupItem{cp949: 0xaa5a, ucs2: 0xcc4e},
		lookupItem{cp949: 0xaa61, ucs2: 0xcc4f},
		lookupItem{cp949: 0xaa62, ucs2: 0xcc50},
		lookupItem{cp949: 0xaa63, ucs2: 0xcc51},
		lookupItem{cp949: 0xaa64, ucs2: 0xcc52},
		lookupItem{cp949: 0xaa65, ucs2: 0xcc53},
		lookupItem{cp949: 0xaa66, ucs2: 0xcc56},
		lookupItem{cp949: 0xaa67, ucs2: 0xcc5a},
		lookupItem{cp949: 0xaa68, ucs2: 0xcc5b},
		lookupItem{cp949: 0xaa69, ucs2: 0xcc5c},
		lookupItem{cp949: 0xaa6a, ucs2: 0xcc5d},
		lookupItem{cp949: 0xaa6b, ucs2: 0xcc5e},
".
Definition text_cp949_lookup_from_029 : string :=
"		lookupItem{cp949: 0xaa6c, ucs2: 0xcc5f},
		lookupItem{cp949: 0xaa6d, ucs2: 0xcc61},
		lookupItem{cp949: 0xaa6e, ucs2: 0xcc62},
		lookupItem{cp949: 0xaa6f, ucs2: 0xcc63},
		lookupItem{cp949: 0xaa70, ucs2: 0xcc65},
		lookupItem{cp949: 0xaa71, ucs2: 0xcc67},
		lookupItem{cp949: 0xaa72, ucs2: 0xcc69},
		lookupItem{cp949: 0xaa73, ucs2: 0xcc6a},
		lookupItem{cp949: 0xaa74, ucs2: 0xcc6b},
		lookupItem{cp949: 0xaa75, ucs2: 0xcc6c},
		lookupItem{cp949: 0xaa76, ucs2: 0xcc6d},
		lookupItem{cp949: 0xaa77, ucs2: 0xcc6e},
		lookupItem{cp949: 0xaa78, ucs2: 0xcc6f},
		lookupItem{cp949: 0xaa79, ucs2: 0xcc71},
		lookupItem{cp949: 0xaa7a, ucs2: 0xcc72},
		lookupItem{cp949: 0xaa81, ucs2: 0xcc73},
		lookupItem{cp949: 0xaa82, ucs2: 0xcc74},
		lookupItem{cp949: 0xaa83, ucs2: 0xcc76},
		lookupItem{cp949: 0xaa84, ucs2: 0xcc77},
		lookupItem{cp949: 0xaa85, ucs2: 0xcc78},
		lookupItem{cp949: 0xaa86, ucs2: 0xcc79},
		lookupItem{cp949: 0xaa87, ucs2: 0xcc7a},
		lookupItem{cp949: 0xaa88, ucs2: 0xcc7b},
		lookupItem{cp949: 0xaa89, ucs2: 0xcc7c},
		lookupItem{cp949: 0xaa8a, ucs2: 0xcc7d},
		lookupItem{cp949: 0xaa8b, ucs2: 0xcc7e},
		lookupItem{cp949: 0xaa8c, ucs2: 0xcc7f},
		lookupItem{cp949: 0xaa8d, ucs2: 0xcc80},
		lookupItem{cp949: 0xaa8e, ucs2: 0xcc81},
		lookupItem{cp949: 0xaa8f, ucs2: 0xcc82},
		lookupItem{cp949: 0xaa90, ucs2: 0xcc83},
		lookupItem{cp949: 0xaa91, ucs2: 0xcc84},
		lookupItem{cp949: 0xaa92, ucs2: 0xcc85},
		lookupItem{cp949: 0xaa93, ucs2: 0xcc86},
		lookupItem{cp949: 0xaa94, ucs2: 0xcc87},
		lookupItem{cp949: 0xaa95, ucs2: 0xcc88},
		lookupItem{cp949: 0xaa96, ucs2: 0xcc89},
		lookupItem{cp949: 0xaa97, ucs2: 0xcc8a},
		lookupItem{cp949: 0xaa98, ucs2: 0xcc8b},
		lookupItem{cp949: 0xaa99, ucs2: 0xcc8c},
		lookupItem{cp949: 0xaa9a, ucs2: 0xcc8d},
		lookupItem{cp949: 0xaa9b, ucs2: 0xcc8e},
		lookupItem{cp949: 0xaa9c, ucs2: 0xcc8f},
		lookupItem{cp949: 0xaa9d, ucs2: 0xcc90},
		lookupItem{cp949: 0xaa9e, ucs2: 0xcc91},
		lookupItem{cp949: 0xaa9f, ucs2: 0xcc92},
		lookupItem{cp949: 0xaaa0, ucs2: 0xcc93},
		lookupItem{cp949: 0xaaa1, ucs2: 0x3041},
		lookupItem{cp949: 0xaaa2, ucs2: 0x3042},
		lookupItem{cp949: 0xaaa3, ucs2: 0x3043},
		lookupItem{cp949: 0xaaa4, ucs2: 0x3044},
		lookupItem{cp949: 0xaaa5, ucs2: 0x3045},
		lookupItem{cp949: 0xaaa6, ucs2: 0x3046},
		lookupItem{cp949: 0xaaa7, ucs2: 0x3047},
		lookupItem{cp949: 0xaaa8, ucs2: 0x3048},
		lookupItem{cp949: 0xaaa9, ucs2: 0x3049},
		lookupItem{cp949: 0xaaaa, ucs2: 0x304a},
		lookupItem{cp949: 0xaaab, ucs2: 0x304b},
		lookupItem{cp949: 0xaaac, ucs2: 0x304c},
		lookupItem{cp949: 0xaaad, ucs2: 0x304d},
		lookupItem{cp949: 0xaaae, ucs2: 0x304e},
		lookupItem{cp949: 0xaaaf, ucs2: 0x304f},
		lookupItem{cp949: 0xaab0, ucs2: 0x3050},
		lookupItem{cp949: 0xaab1, ucs2: 0x3051},
		lookupItem{cp949: 0xaab2, ucs2: 0x3052},
		lookupItem{cp949: 0xaab3, ucs2: 0x3053},
		lookupItem{cp949: 0xaab4, ucs2: 0x3054},
		lookupItem{cp949: 0xaab5, ucs2: 0x3055},
		lookupItem{cp949: 0xaab6, ucs2: 0x3056},
		lookupItem{cp949: 0xaab7, ucs2: 0x3057},
		lookupItem{cp949: 0xaab8, ucs2: 0x3058},
		lookupItem{cp949: 0xaab9, ucs2: 0x3059},
		lookupItem{cp949: 0xaaba, ucs2: 0x305a},
		lookupItem{cp949: 0xaabb, ucs2: 0x305b},
		lookupItem{cp949: 0xaabc, ucs2: 0x305c},
		lookupItem{cp949: 0xaabd, ucs2: 0x305d},
		lookupItem{cp949: 0xaabe, ucs2: 0x305e},
		lookupItem{cp949: 0xaabf, ucs2: 0x305f},
		lookupItem{cp949: 0xaac0, ucs2: 0x3060},
		lookupItem{cp949: 0xaac1, ucs2: 0x3061},
		lookupItem{cp949: 0xaac2, ucs2: 0x3062},
		lookupItem{cp949: 0xaac3, ucs2: 0x3063},
		lookupItem{cp949: 0xaac4, ucs2: 0x3064},
		lookupItem{cp949: 0xaac5, ucs2: 0x3065},
		lookupItem{cp949: 0xaac6, ucs2: 0x3066},
		lookupItem{cp949: 0xaac7, ucs2: 0x3067},
		lookupItem{cp949: 0xaac8, ucs2: 0x3068},
		lookupItem{cp949: 0xaac9, ucs2: 0x3069},
		lookupItem{cp949: 0xaaca, ucs2: 0x306a},
		lookupItem{cp949: 0xaacb, ucs2: 0x306b},
		lookupItem{cp949: 0xaacc, ucs2: 0x306c},
		lookupItem{cp949: 0xaacd, ucs2: 0x306d},
		lookupItem{cp949: 0xaace, ucs2: 0x306e},
		lookupItem{cp949: 0xaacf, ucs2: 0x306f},
		lookupItem{cp949: 0xaad0, ucs2: 0x3070},
		lookupItem{cp949: 0xaad1, ucs2: 0x3071},
		lookupItem{cp949: 0xaad2, ucs2: 0x3072},
		lookupItem{cp949: 0xaad3, ucs2: 0x3073},
		lookupItem{cp949: 0xaad4, ucs2: 0x3074},
		lookupItem{cp949: 0xaad5, ucs2: 0x3075},
		lookupItem{cp949: 0xaad6, ucs2: 0x3076},
		lookupItem{cp949: 0xaad7, ucs2: 0x3077},
		lookupItem{cp949: 0xaad8, ucs2: 0x3078},
		lookupItem{cp949: 0xaad9, ucs2: 0x3079},
		lookupItem{cp949: 0xaada, ucs2: 0x307a},
		lookupItem{cp949: 0xaadb, ucs2: 0x307b},
		lookupItem{cp949: 0xaadc, ucs2: 0x307c},
		lookupItem{cp949: 0xaadd, ucs2: 0x307d},
		lookupItem{cp949: 0xaade, ucs2: 0x307e},
		lookupItem{cp949: 0xaadf, ucs2: 0x307f},
		lookupItem{cp949: 0xaae0, ucs2: 0x3080},
		lookupItem{cp949: 0xaae1, ucs2: 0x3081},
		lookupItem{cp949: 0xaae2, ucs2: 0x3082},
		lookupItem{cp949: 0xaae3, ucs2: 0x3083},
		lookupItem{cp949: 0xaae4, ucs2: 0x3084},
		lookupItem{cp949: 0xaae5, ucs2: 0x3085},
		lookupItem{cp949: 0xaae6, ucs2: 0x3086},
		lookupItem{cp949: 0xaae7, ucs2: 0x3087},
		lookupItem{cp949: 0xaae8, ucs2: 0x3088},
		lookupItem{cp949: 0xaae9, ucs2: 0x3089},
		lookupItem{cp949: 0xaaea, ucs2: 0x308a},
		lookupItem{cp949: 0xaaeb, ucs2: 0x308b},
		lookupItem{cp949: 0xaaec, ucs2: 0x308c},
		lookupItem{cp949: 0xaaed, ucs2: 0x308d},
		lookupItem{cp949: 0xaaee, ucs2: 0x308e},
		lookupItem{cp949: 0xaaef, ucs2: 0x308f},
		lookupItem{cp949: 0xaaf0, ucs2: 0x3090},
		lookupItem{cp949: 0xaaf1, ucs2: 0x3091},
		lookupItem{cp949: 0xaaf2, ucs2: 0x3092},
		lookupItem{cp949: 0xaaf3, ucs2: 0x3093},
		lookupItem{cp949: 0xab41, ucs2: 0xcc94},
		lookupItem{cp949: 0xab42, ucs2: 0xcc95},
		lookupItem{cp949: 0xab43, ucs2: 0xcc96},
		lookupItem{cp949: 0xab44, ucs2: 0xcc97},
		lookupItem{cp949: 0xab45, ucs2: 0xcc9a},
		lookupItem{cp949: 0xab46, ucs2: 0xcc9b},
		lookupItem{cp949: 0xab47, ucs2: 0xcc9d},
		lookupItem{cp949: 0xab48, ucs2: 0xcc9e},
		lookupItem{cp949: 0xab49, ucs2: 0xcc9f},
		lookupItem{cp949: 0xab4a, ucs2: 0xcca1},
		lookupItem{cp949: 0xab4b, ucs2: 0xcca2},
		lookupItem{cp949: 0xab4c, ucs2: 0xcca3},
		lookupItem{cp949: 0xab4d, ucs2: 0xcca4},
		lookupItem{cp949: 0xab4e, ucs2: 0xcca5},
		lookupItem{cp949: 0xab4f, ucs2: 0xcca6},
		lookupItem{cp949: 0xab50, ucs2: 0xcca7},
		lookupItem{cp949: 0xab51, ucs2: 0xccaa},
		lookupItem{cp949: 0xab52, ucs2: 0xccae},
		lookupItem{cp949: 0xab53, ucs2: 0xccaf},
		lookupItem{cp949: 0xab54, ucs2: 0xccb0},
		lookupItem{cp949: 0xab55, ucs2: 0xccb1},
		lookupItem{cp949: 0xab56, ucs2: 0xccb2},
		lookupItem{cp949: 0xab57, ucs2: 0xccb3},
		lookupItem{cp949: 0xab58, ucs2: 0xccb6},
		lookupItem{cp949: 0xab59, ucs2: 0xccb7},
		lookupItem{cp949: 0xab5a, ucs2: 0xccb9},
		lookupItem{cp949: 0xab61, ucs2: 0xccba},
		lookupItem{cp949: 0xab62, ucs2: 0xccbb},
		lookupItem{cp949: 0xab63, ucs2: 0xccbd},
		lookupItem{cp949: 0xab64, ucs2: 0xccbe},
		lookupItem{cp949: 0xab65, ucs2: 0xccbf},
		lookupItem{cp949: 0xab66, ucs2: 0xccc0},
		lookupItem{cp949: 0xab67, ucs2: 0xccc1},
		lookupItem{cp949: 0xab68, ucs2: 0xccc2},
		lookupItem{cp949: 0xab69, ucs2: 0xccc3},
		lookupItem{cp949: 0xab6a, ucs2: 0xccc6},
		lookupItem{cp949: 0xab6b, ucs2: 0xccc8},
		lookupItem{cp949: 0xab6c, ucs2: 0xccca},
		lookupItem{cp949: 0xab6d, ucs2: 0xcccb},
		lookupItem{cp949: 0xab6e, ucs2: 0xcccc},
		lookupItem{cp949: 0xab6f, ucs2: 0xcccd},
		lookupItem{cp949: 0xab70, ucs2: 0xccce},
		lookupItem{cp949: 0xab71, ucs2: 0xcccf},
		lookupItem{cp949: 0xab72, ucs2: 0xccd1},
		lookupItem{cp949: 0xab73, ucs2: 0xccd2},
		lookupItem{cp949: 0xab74, ucs2: 0xccd3},
		lookupItem{cp949: 0xab75, ucs2: 0xccd5},
		lookupItem{cp949: 0xab76, ucs2: 0xccd6},
		lookupItem{cp949: 0xab77, ucs2: 0xccd7},
		lookupItem{cp949: 0xab78, ucs2: 0xccd8},
		lookupItem{cp949: 0xab79, ucs2: 0xccd9},
		lookupItem{cp949: 0xab7a, ucs2: 0xccda},
		lookupItem{cp949: 0xab81, ucs2: 0xccdb},
		lookupItem{cp949: 0xab82, ucs2: 0xccdc},
		lookupItem{cp949: 0xab83, ucs2: 0xccdd},
		lookupItem{cp949: 0xab84, ucs2: 0xccde},
		lookupItem{cp949: 0xab85, ucs2: 0xccdf},
		lookupItem{cp949: 0xab86, ucs2: 0xcce0},
		lookupItem{cp949: 0xab87, ucs2: 0xcce1},
		lookupItem{cp949: 0xab88, ucs2: 0xcce2},
		lookupItem{cp949: 0xab89, ucs2: 0xcce3},
		lookupItem{cp949: 0xab8a, ucs2: 0xcce5},
		lookupItem{cp949: 0xab8b, ucs2: 0xcce6},
		lookupItem{cp949: 0xab8c, ucs2: 0xcce7},
		lookupItem{cp949: 0xab8d, ucs2: 0xcce8},
		lookupItem{cp949: 0xab8e, ucs2: 0xcce9},
		lookupItem{cp949: 0xab8f, ucs2: 0xccea},
		lookupItem{cp949: 0xab90, ucs2: 0xcceb},
		lookupItem{cp949: 0xab91, ucs2: 0xcced},
		lookupItem{cp949: 0xab92, ucs2: 0xccee},
		lookupItem{cp949: 0xab93, ucs2: 0xccef},
		lookupItem{cp949: 0xab94, ucs2: 0xccf1},
		lookupItem{cp949: 0xab95, ucs2: 0xccf2},
		lookupItem{cp949: 0xab96, ucs2: 0xccf3},
		lookupItem{cp949: 0xab97, ucs2: 0xccf4},
		lookupItem{cp949: 0xab98, ucs2: 0xccf5},
		lookupItem{cp949: 0xab99, ucs2: 0xccf6},
		lookupItem{cp949: 0xab9a, ucs2: 0xccf7},
		lookupItem{cp949: 0xab9b, ucs2: 0xccf8},
		lookupItem{cp949: 0xab9c, ucs2: 0xccf9},
		lookupItem{cp949: 0xab9d, ucs2: 0xccfa},
		lookupItem{cp949: 0xab9e, ucs2: 0xccfb},
		lookupItem{cp949: 0xab9f, ucs2: 0xccfc},
		lookupItem{cp949: 0xaba0, ucs2: 0xccfd},
		lookupItem{cp949: 0xaba1, ucs2: 0x30a1},
		lookupItem{cp949: 0xaba2, ucs2: 0x30a2},
		lookupItem{cp949: 0xaba3, ucs2: 0x30a3},
		lookupItem{cp949: 0xaba4, ucs2: 0x30a4},
		lookupItem{cp949: 0xaba5, ucs2: 0x30a5},
		lookupItem{cp949: 0xaba6, ucs2: 0x30a6},
		lookupItem{cp949: 0xaba7, ucs2: 0x30a7},
		lookupItem{cp949: 0xaba8, ucs2: 0x30a8},
		lookupItem{cp949: 0xaba9, ucs2: 0x30a9},
		lookupItem{cp949: 0xabaa, ucs2: 0x30aa},
		lookupItem{cp949: 0xabab, ucs2: 0x30ab},
		lookupItem{cp949: 0xabac, ucs2: 0x30ac},
		lookupItem{cp949: 0xabad, ucs2: 0x30ad},
		lookupItem{cp949: 0xabae, ucs2: 0x30ae},
		lookupItem{cp949: 0xabaf, ucs2: 0x30af},
		lookupItem{cp949: 0xabb0, ucs2: 0x30b0},
		lookupItem{cp949: 0xabb1, ucs2: 0x30b1},
		lookupItem{cp949: 0xabb2, ucs2: 0x30b2},
		lookupItem{cp949: 0xabb3, ucs2: 0x30b3},
		lookupItem{cp949: 0xabb4, ucs2: 0x30b4},
		lookupItem{cp949: 0xabb5, ucs2: 0x30b5},
		lookupItem{cp949: 0xabb6, ucs2: 0x30b6},
		lookupItem{cp949: 0xabb7, ucs2: 0x30b7},
		lookupItem{cp949: 0xabb8, ucs2: 0x30b8},
		lookupItem{cp949: 0xabb9, ucs2: 0x30b9},
		lookupItem{cp949: 0xabba, ucs2: 0x30ba},
		lookupItem{cp949: 0xabbb, ucs2: 0x30bb},
		lookupItem{cp949: 0xabbc, ucs2: 0x30bc},
		lookupItem{cp949: 0xabbd, ucs2: 0x30bd},
		lookupItem{cp949: 0xabbe, ucs2: 0x30be},
		lookupItem{cp949: 0xabbf, ucs2: 0x30bf},
		lookupItem{cp949: 0xabc0, ucs2: 0x30c0},
		lookupItem{cp949: 0xabc1, ucs2: 0x30c1},
		lookupItem{cp949: 0xabc2, ucs2: 0x30c2},
		lookupItem{cp949: 0xabc3, ucs2: 0x30c3},
		lookupItem{cp949: 0xabc4, ucs2: 0x30c4},
".
Definition text_cp949_lookup_from_030 : string :=
"		lookupItem{cp949: 0xabc5, ucs2: 0x30c5},
		lookupItem{cp949: 0xabc6, ucs2: 0x30c6},
		lookupItem{cp949: 0xabc7, ucs2: 0x30c7},
		lookupItem{cp949: 0xabc8, ucs2: 0x30c8},
		lookupItem{cp949: 0xabc9, ucs2: 0x30c9},
		lookupItem{cp949: 0xabca, ucs2: 0x30ca},
		lookupItem{cp949: 0xabcb, ucs2: 0x30cb},
		lookupItem{cp949: 0xabcc, ucs2: 0x30cc},
		lookupItem{cp949: 0xabcd, ucs2: 0x30cd},
		lookupItem{cp949: 0xabce, ucs2: 0x30ce},
		lookupItem{cp949: 0xabcf, ucs2: 0x30cf},
		lookupItem{cp949: 0xabd0, ucs2: 0x30d0},
		lookupItem{cp949: 0xabd1, ucs2: 0x30d1},
		lookupItem{cp949: 0xabd2, ucs2: 0x30d2},
		lookupItem{cp949: 0xabd3, ucs2: 0x30d3},
		lookupItem{cp949: 0xabd4, ucs2: 0x30d4},
		lookupItem{cp949: 0xabd5, ucs2: 0x30d5},
		lookupItem{cp949: 0xabd6, ucs2: 0x30d6},
		lookupItem{cp949: 0xabd7, ucs2: 0x30d7},
		lookupItem{cp949: 0xabd8, ucs2: 0x30d8},
		lookupItem{cp949: 0xabd9, ucs2: 0x30d9},
		lookupItem{cp949: 0xabda, ucs2: 0x30da},
		lookupItem{cp949: 0xabdb, ucs2: 0x30db},
		lookupItem{cp949: 0xabdc, ucs2: 0x30dc},
		lookupItem{cp949: 0xabdd, ucs2: 0x30dd},
		lookupItem{cp949: 0xabde, ucs2: 0x30de},
		lookupItem{cp949: 0xabdf, ucs2: 0x30df},
		lookupItem{cp949: 0xabe0, ucs2: 0x30e0},
		lookupItem{cp949: 0xabe1, ucs2: 0x30e1},
		lookupItem{cp949: 0xabe2, ucs2: 0x30e2},
		lookupItem{cp949: 0xabe3, ucs2: 0x30e3},
		lookupItem{cp949: 0xabe4, ucs2: 0x30e4},
		lookupItem{cp949: 0xabe5, ucs2: 0x30e5},
		lookupItem{cp949: 0xabe6, ucs2: 0x30e6},
		lookupItem{cp949: 0xabe7, ucs2: 0x30e7},
		lookupItem{cp949: 0xabe8, ucs2: 0x30e8},
		lookupItem{cp949: 0xabe9, ucs2: 0x30e9},
		lookupItem{cp949: 0xabea, ucs2: 0x30ea},
		lookupItem{cp949: 0xabeb, ucs2: 0x30eb},
		lookupItem{cp949: 0xabec, ucs2: 0x30ec},
		lookupItem{cp949: 0xabed, ucs2: 0x30ed},
		lookupItem{cp949: 0xabee, ucs2: 0x30ee},
		lookupItem{cp949: 0xabef, ucs2: 0x30ef},
		lookupItem{cp949: 0xabf0, ucs2: 0x30f0},
		lookupItem{cp949: 0xabf1, ucs2: 0x30f1},
		lookupItem{cp949: 0xabf2, ucs2: 0x30f2},
		lookupItem{cp949: 0xabf3, ucs2: 0x30f3},
		lookupItem{cp949: 0xabf4, ucs2: 0x30f4},
		lookupItem{cp949: 0xabf5, ucs2: 0x30f5},
		lookupItem{cp949: 0xabf6, ucs2: 0x30f6},
		lookupItem{cp949: 0xac41, ucs2: 0xccfe},
		lookupItem{cp949: 0xac42, ucs2: 0xccff},
		lookupItem{cp949: 0xac43, ucs2: 0xcd00},
		lookupItem{cp949: 0xac44, ucs2: 0xcd02},
		lookupItem{cp949: 0xac45, ucs2: 0xcd03},
		lookupItem{cp949: 0xac46, ucs2: 0xcd04},
		lookupItem{cp949: 0xac47, ucs2: 0xcd05},
		lookupItem{cp949: 0xac48, ucs2: 0xcd06},
		lookupItem{cp949: 0xac49, ucs2: 0xcd07},
		lookupItem{cp949: 0xac4a, ucs2: 0xcd0a},
		lookupItem{cp949: 0xac4b, ucs2: 0xcd0b},
		lookupItem{cp949: 0xac4c, ucs2: 0xcd0d},
		lookupItem{cp949: 0xac4d, ucs2: 0xcd0e},
		lookupItem{cp949: 0xac4e, ucs2: 0xcd0f},
		lookupItem{cp949: 0xac4f, ucs2: 0xcd11},
		lookupItem{cp949: 0xac50, ucs2: 0xcd12},
		lookupItem{cp949: 0xac51, ucs2: 0xcd13},
		lookupItem{cp949: 0xac52, ucs2: 0xcd14},
		lookupItem{cp949: 0xac53, ucs2: 0xcd15},
		lookupItem{cp949: 0xac54, ucs2: 0xcd16},
		lookupItem{cp949: 0xac55, ucs2: 0xcd17},
		lookupItem{cp949: 0xac56, ucs2: 0xcd1a},
		lookupItem{cp949: 0xac57, ucs2: 0xcd1c},
		lookupItem{cp949: 0xac58, ucs2: 0xcd1e},
		lookupItem{cp949: 0xac59, ucs2: 0xcd1f},
		lookupItem{cp949: 0xac5a, ucs2: 0xcd20},
		lookupItem{cp949: 0xac61, ucs2: 0xcd21},
		lookupItem{cp949: 0xac62, ucs2: 0xcd22},
		lookupItem{cp949: 0xac63, ucs2: 0xcd23},
		lookupItem{cp949: 0xac64, ucs2: 0xcd25},
		lookupItem{cp949: 0xac65, ucs2: 0xcd26},
		lookupItem{cp949: 0xac66, ucs2: 0xcd27},
		lookupItem{cp949: 0xac67, ucs2: 0xcd29},
		lookupItem{cp949: 0xac68, ucs2: 0xcd2a},
		lookupItem{cp949: 0xac69, ucs2: 0xcd2b},
		lookupItem{cp949: 0xac6a, ucs2: 0xcd2d},
		lookupItem{cp949: 0xac6b, ucs2: 0xcd2e},
		lookupItem{cp949: 0xac6c, ucs2: 0xcd2f},
		lookupItem{cp949: 0xac6d, ucs2: 0xcd30},
		lookupItem{cp949: 0xac6e, ucs2: 0xcd31},
		lookupItem{cp949: 0xac6f, ucs2: 0xcd32},
		lookupItem{cp949: 0xac70, ucs2: 0xcd33},
		lookupItem{cp949: 0xac71, ucs2: 0xcd34},
		lookupItem{cp949: 0xac72, ucs2: 0xcd35},
		lookupItem{cp949: 0xac73, ucs2: 0xcd36},
		lookupItem{cp949: 0xac74, ucs2: 0xcd37},
		lookupItem{cp949: 0xac75, ucs2: 0xcd38},
		lookupItem{cp949: 0xac76, ucs2: 0xcd3a},
		lookupItem{cp949: 0xac77, ucs2: 0xcd3b},
		lookupItem{cp949: 0xac78, ucs2: 0xcd3c},
		lookupItem{cp949: 0xac79, ucs2: 0xcd3d},
		lookupItem{cp949: 0xac7a, ucs2: 0xcd3e},
		lookupItem{cp949: 0xac81, ucs2: 0xcd3f},
		lookupItem{cp949: 0xac82, ucs2: 0xcd40},
		lookupItem{cp949: 0xac83, ucs2: 0xcd41},
		lookupItem{cp949: 0xac84, ucs2: 0xcd42},
		lookupItem{cp949: 0xac85, ucs2: 0xcd43},
		lookupItem{cp949: 0xac86, ucs2: 0xcd44},
		lookupItem{cp949: 0xac87, ucs2: 0xcd45},
		lookupItem{cp949: 0xac88, ucs2: 0xcd46},
		lookupItem{cp949: 0xac89, ucs2: 0xcd47},
		lookupItem{cp949: 0xac8a, ucs2: 0xcd48},
		lookupItem{cp949: 0xac8b, ucs2: 0xcd49},
		lookupItem{cp949: 0xac8c, ucs2: 0xcd4a},
		lookupItem{cp949: 0xac8d, ucs2: 0xcd4b},
		lookupItem{cp949: 0xac8e, ucs2: 0xcd4c},
		lookupItem{cp949: 0xac8f, ucs2: 0xcd4d},
		lookupItem{cp949: 0xac90, ucs2: 0xcd4e},
		lookupItem{cp949: 0xac91, ucs2: 0xcd4f},
		lookupItem{cp949: 0xac92, ucs2: 0xcd50},
		lookupItem{cp949: 0xac93, ucs2: 0xcd51},
		lookupItem{cp949: 0xac94, ucs2: 0xcd52},
		lookupItem{cp949: 0xac95, ucs2: 0xcd53},
		lookupItem{cp949: 0xac96, ucs2: 0xcd54},
		lookupItem{cp949: 0xac97, ucs2: 0xcd55},
		lookupItem{cp949: 0xac98, ucs2: 0xcd56},
		lookupItem{cp949: 0xac99, ucs2: 0xcd57},
		lookupItem{cp949: 0xac9a, ucs2: 0xcd58},
		lookupItem{cp949: 0xac9b, ucs2: 0xcd59},
		lookupItem{cp949: 0xac9c, ucs2: 0xcd5a},
		lookupItem{cp949: 0xac9d, ucs2: 0xcd5b},
		lookupItem{cp949: 0xac9e, ucs2: 0xcd5d},
		lookupItem{cp949: 0xac9f, ucs2: 0xcd5e},
		lookupItem{cp949: 0xaca0, ucs2: 0xcd5f},
		lookupItem{cp949: 0xaca1, ucs2: 0x0410},
		lookupItem{cp949: 0xaca2, ucs2: 0x0411},
		lookupItem{cp949: 0xaca3, ucs2: 0x0412},
		lookupItem{cp949: 0xaca4, ucs2: 0x0413},
		lookupItem{cp949: 0xaca5, ucs2: 0x0414},
		lookupItem{cp949: 0xaca6, ucs2: 0x0415},
		lookupItem{cp949: 0xaca7, ucs2: 0x0401},
		lookupItem{cp949: 0xaca8, ucs2: 0x0416},
		lookupItem{cp949: 0xaca9, ucs2: 0x0417},
		lookupItem{cp949: 0xacaa, ucs2: 0x0418},
		lookupItem{cp949: 0xacab, ucs2: 0x0419},
		lookupItem{cp949: 0xacac, ucs2: 0x041a},
		lookupItem{cp949: 0xacad, ucs2: 0x041b},
		lookupItem{cp949: 0xacae, ucs2: 0x041c},
		lookupItem{cp949: 0xacaf, ucs2: 0x041d},
		lookupItem{cp949: 0xacb0, ucs2: 0x041e},
		lookupItem{cp949: 0xacb1, ucs2: 0x041f},
		lookupItem{cp949: 0xacb2, ucs2: 0x0420},
		lookupItem{cp949: 0xacb3, ucs2: 0x0421},
		lookupItem{cp949: 0xacb4, ucs2: 0x0422},
		lookupItem{cp949: 0xacb5, ucs2: 0x0423},
		lookupItem{cp949: 0xacb6, ucs2: 0x0424},
		lookupItem{cp949: 0xacb7, ucs2: 0x0425},
		lookupItem{cp949: 0xacb8, ucs2: 0x0426},
		lookupItem{cp949: 0xacb9, ucs2: 0x0427},
		lookupItem{cp949: 0xacba, ucs2: 0x0428},
		lookupItem{cp949: 0xacbb, ucs2: 0x0429},
		lookupItem{cp949: 0xacbc, ucs2: 0x042a},
		lookupItem{cp949: 0xacbd, ucs2: 0x042b},
		lookupItem{cp949: 0xacbe, ucs2: 0x042c},
		lookupItem{cp949: 0xacbf, ucs2: 0x042d},
		lookupItem{cp949: 0xacc0, ucs2: 0x042e},
		lookupItem{cp949: 0xacc1, ucs2: 0x042f},
		lookupItem{cp949: 0xacd1, ucs2: 0x0430},
		lookupItem{cp949: 0xacd2, ucs2: 0x0431},
		lookupItem{cp949: 0xacd3, ucs2: 0x0432},
		lookupItem{cp949: 0xacd4, ucs2: 0x0433},
		lookupItem{cp949: 0xacd5, ucs2: 0x0434},
		lookupItem{cp949: 0xacd6, ucs2: 0x0435},
		lookupItem{cp949: 0xacd7, ucs2: 0x0451},
		lookupItem{cp949: 0xacd8, ucs2: 0x0436},
		lookupItem{cp949: 0xacd9, ucs2: 0x0437},
		lookupItem{cp949: 0xacda, ucs2: 0x0438},
		lookupItem{cp949: 0xacdb, ucs2: 0x0439},
		lookupItem{cp949: 0xacdc, ucs2: 0x043a},
		lookupItem{cp949: 0xacdd, ucs2: 0x043b},
		lookupItem{cp949: 0xacde, ucs2: 0x043c},
		lookupItem{cp949: 0xacdf, ucs2: 0x043d},
		lookupItem{cp949: 0xace0, ucs2: 0x043e},
		lookupItem{cp949: 0xace1, ucs2: 0x043f},
		lookupItem{cp949: 0xace2, ucs2: 0x0440},
		lookupItem{cp949: 0xace3, ucs2: 0x0441},
		lookupItem{cp949: 0xace4, ucs2: 0x0442},
		lookupItem{cp949: 0xace5, ucs2: 0x0443},
		lookupItem{cp949: 0xace6, ucs2: 0x0444},
		lookupItem{cp949: 0xace7, ucs2: 0x0445},
		lookupItem{cp949: 0xace8, ucs2: 0x0446},
		lookupItem{cp949: 0xace9, ucs2: 0x0447},
		lookupItem{cp949: 0xacea, ucs2: 0x0448},
		lookupItem{cp949: 0xaceb, ucs2: 0x0449},
		lookupItem{cp949: 0xacec, ucs2: 0x044a},
		lookupItem{cp949: 0xaced, ucs2: 0x044b},
		lookupItem{cp949: 0xacee, ucs2: 0x044c},
		lookupItem{cp949: 0xacef, ucs2: 0x044d},
		lookupItem{cp949: 0xacf0, ucs2: 0x044e},
		lookupItem{cp949: 0xacf1, ucs2: 0x044f},
		lookupItem{cp949: 0xad41, ucs2: 0xcd61},
		lookupItem{cp949: 0xad42, ucs2: 0xcd62},
		lookupItem{cp949: 0xad43, ucs2: 0xcd63},
		lookupItem{cp949: 0xad44, ucs2: 0xcd65},
		lookupItem{cp949: 0xad45, ucs2: 0xcd66},
		lookupItem{cp949: 0xad46, ucs2: 0xcd67},
		lookupItem{cp949: 0xad47, ucs2: 0xcd68},
		lookupItem{cp949: 0xad48, ucs2: 0xcd69},
		lookupItem{cp949: 0xad49, ucs2: 0xcd6a},
		lookupItem{cp949: 0xad4a, ucs2: 0xcd6b},
		lookupItem{cp949: 0xad4b, ucs2: 0xcd6e},
		lookupItem{cp949: 0xad4c, ucs2: 0xcd70},
		lookupItem{cp949: 0xad4d, ucs2: 0xcd72},
		lookupItem{cp949: 0xad4e, ucs2: 0xcd73},
		lookupItem{cp949: 0xad4f, ucs2: 0xcd74},
		lookupItem{cp949: 0xad50, ucs2: 0xcd75},
		lookupItem{cp949: 0xad51, ucs2: 0xcd76},
		lookupItem{cp949: 0xad52, ucs2: 0xcd77},
		lookupItem{cp949: 0xad53, ucs2: 0xcd79},
		lookupItem{cp949: 0xad54, ucs2: 0xcd7a},
		lookupItem{cp949: 0xad55, ucs2: 0xcd7b},
		lookupItem{cp949: 0xad56, ucs2: 0xcd7c},
		lookupItem{cp949: 0xad57, ucs2: 0xcd7d},
		lookupItem{cp949: 0xad58, ucs2: 0xcd7e},
		lookupItem{cp949: 0xad59, ucs2: 0xcd7f},
		lookupItem{cp949: 0xad5a, ucs2: 0xcd80},
		lookupItem{cp949: 0xad61, ucs2: 0xcd81},
		lookupItem{cp949: 0xad62, ucs2: 0xcd82},
		lookupItem{cp949: 0xad63, ucs2: 0xcd83},
		lookupItem{cp949: 0xad64, ucs2: 0xcd84},
		lookupItem{cp949: 0xad65, ucs2: 0xcd85},
		lookupItem{cp949: 0xad66, ucs2: 0xcd86},
		lookupItem{cp949: 0xad67, ucs2: 0xcd87},
		lookupItem{cp949: 0xad68, ucs2: 0xcd89},
		lookupItem{cp949: 0xad69, ucs2: 0xcd8a},
		lookupItem{cp949: 0xad6a, ucs2: 0xcd8b},
		lookupItem{cp949: 0xad6b, ucs2: 0xcd8c},
		lookupItem{cp949: 0xad6c, ucs2: 0xcd8d},
		lookupItem{cp949: 0xad6d, ucs2: 0xcd8e},
		lookupItem{cp949: 0xad6e, ucs2: 0xcd8f},
		lookupItem{cp949: 0xad6f, ucs2: 0xcd90},
		lookupItem{cp949: 0xad70, ucs2: 0xcd91},
		lookupItem{cp949: 0xad71, ucs2: 0xcd92},
		lookupItem{cp949: 0xad72, ucs2: 0xcd93},
		lookupItem{cp949: 0xad73, ucs2: 0xcd96},
		lookupItem{cp949: 0xad74, ucs2: 0xcd97},
		lookupItem{cp949: 0xad75, ucs2: 0xcd99},
		lookupItem{cp949: 0xad76, ucs2: 0xcd9a},
		lookupItem{cp949: 0xad77, ucs2: 0xcd9b},
		lookupItem{cp949: 0xad78, ucs2: 0xcd9d},
".
Definition text_cp949_lookup_from_031 : string :=
"		lookupItem{cp949: 0xad79, ucs2: 0xcd9e},
		lookupItem{cp949: 0xad7a, ucs2: 0xcd9f},
		lookupItem{cp949: 0xad81, ucs2: 0xcda0},
		lookupItem{cp949: 0xad82, ucs2: 0xcda1},
		lookupItem{cp949: 0xad83, ucs2: 0xcda2},
		lookupItem{cp949: 0xad84, ucs2: 0xcda3},
		lookupItem{cp949: 0xad85, ucs2: 0xcda6},
		lookupItem{cp949: 0xad86, ucs2: 0xcda8},
		lookupItem{cp949: 0xad87, ucs2: 0xcdaa},
		lookupItem{cp949: 0xad88, ucs2: 0xcdab},
		lookupItem{cp949: 0xad89, ucs2: 0xcdac},
		lookupItem{cp949: 0xad8a, ucs2: 0xcdad},
		lookupItem{cp949: 0xad8b, ucs2: 0xcdae},
		lookupItem{cp949: 0xad8c, ucs2: 0xcdaf},
		lookupItem{cp949: 0xad8d, ucs2: 0xcdb1},
		lookupItem{cp949: 0xad8e, ucs2: 0xcdb2},
		lookupItem{cp949: 0xad8f, ucs2: 0xcdb3},
		lookupItem{cp949: 0xad90, ucs2: 0xcdb4},
		lookupItem{cp949: 0xad91, ucs2: 0xcdb5},
		lookupItem{cp949: 0xad92, ucs2: 0xcdb6},
		lookupItem{cp949: 0xad93, ucs2: 0xcdb7},
		lookupItem{cp949: 0xad94, ucs2: 0xcdb8},
		lookupItem{cp949: 0xad95, ucs2: 0xcdb9},
		lookupItem{cp949: 0xad96, ucs2: 0xcdba},
		lookupItem{cp949: 0xad97, ucs2: 0xcdbb},
		lookupItem{cp949: 0xad98, ucs2: 0xcdbc},
		lookupItem{cp949: 0xad99, ucs2: 0xcdbd},
		lookupItem{cp949: 0xad9a, ucs2: 0xcdbe},
		lookupItem{cp949: 0xad9b, ucs2: 0xcdbf},
		lookupItem{cp949: 0xad9c, ucs2: 0xcdc0},
		lookupItem{cp949: 0xad9d, ucs2: 0xcdc1},
		lookupItem{cp949: 0xad9e, ucs2: 0xcdc2},
		lookupItem{cp949: 0xad9f, ucs2: 0xcdc3},
		lookupItem{cp949: 0xada0, ucs2: 0xcdc5},
		lookupItem{cp949: 0xae41, ucs2: 0xcdc6},
		lookupItem{cp949: 0xae42, ucs2: 0xcdc7},
		lookupItem{cp949: 0xae43, ucs2: 0xcdc8},
		lookupItem{cp949: 0xae44, ucs2: 0xcdc9},
		lookupItem{cp949: 0xae45, ucs2: 0xcdca},
		lookupItem{cp949: 0xae46, ucs2: 0xcdcb},
		lookupItem{cp949: 0xae47, ucs2: 0xcdcd},
		lookupItem{cp949: 0xae48, ucs2: 0xcdce},
		lookupItem{cp949: 0xae49, ucs2: 0xcdcf},
		lookupItem{cp949: 0xae4a, ucs2: 0xcdd1},
		lookupItem{cp949: 0xae4b, ucs2: 0xcdd2},
		lookupItem{cp949: 0xae4c, ucs2: 0xcdd3},
		lookupItem{cp949: 0xae4d, ucs2: 0xcdd4},
		lookupItem{cp949: 0xae4e, ucs2: 0xcdd5},
		lookupItem{cp949: 0xae4f, ucs2: 0xcdd6},
		lookupItem{cp949: 0xae50, ucs2: 0xcdd7},
		lookupItem{cp949: 0xae51, ucs2: 0xcdd8},
		lookupItem{cp949: 0xae52, ucs2: 0xcdd9},
		lookupItem{cp949: 0xae53, ucs2: 0xcdda},
		lookupItem{cp949: 0xae54, ucs2: 0xcddb},
		lookupItem{cp949: 0xae55, ucs2: 0xcddc},
		lookupItem{cp949: 0xae56, ucs2: 0xcddd},
		lookupItem{cp949: 0xae57, ucs2: 0xcdde},
		lookupItem{cp949: 0xae58, ucs2: 0xcddf},
		lookupItem{cp949: 0xae59, ucs2: 0xcde0},
		lookupItem{cp949: 0xae5a, ucs2: 0xcde1},
		lookupItem{cp949: 0xae61, ucs2: 0xcde2},
		lookupItem{cp949: 0xae62, ucs2: 0xcde3},
		lookupItem{cp949: 0xae63, ucs2: 0xcde4},
		lookupItem{cp949: 0xae64, ucs2: 0xcde5},
		lookupItem{cp949: 0xae65, ucs2: 0xcde6},
		lookupItem{cp949: 0xae66, ucs2: 0xcde7},
		lookupItem{cp949: 0xae67, ucs2: 0xcde9},
		lookupItem{cp949: 0xae68, ucs2: 0xcdea},
		lookupItem{cp949: 0xae69, ucs2: 0xcdeb},
		lookupItem{cp949: 0xae6a, ucs2: 0xcded},
		lookupItem{cp949: 0xae6b, ucs2: 0xcdee},
		lookupItem{cp949: 0xae6c, ucs2: 0xcdef},
		lookupItem{cp949: 0xae6d, ucs2: 0xcdf1},
		lookupItem{cp949: 0xae6e, ucs2: 0xcdf2},
		lookupItem{cp949: 0xae6f, ucs2: 0xcdf3},
		lookupItem{cp949: 0xae70, ucs2: 0xcdf4},
		lookupItem{cp949: 0xae71, ucs2: 0xcdf5},
		lookupItem{cp949: 0xae72, ucs2: 0xcdf6},
		lookupItem{cp949: 0xae73, ucs2: 0xcdf7},
		lookupItem{cp949: 0xae74, ucs2: 0xcdfa},
		lookupItem{cp949: 0xae75, ucs2: 0xcdfc},
		lookupItem{cp949: 0xae76, ucs2: 0xcdfe},
		lookupItem{cp949: 0xae77, ucs2: 0xcdff},
		lookupItem{cp949: 0xae78, ucs2: 0xce00},
		lookupItem{cp949: 0xae79, ucs2: 0xce01},
		lookupItem{cp949: 0xae7a, ucs2: 0xce02},
		lookupItem{cp949: 0xae81, ucs2: 0xce03},
		lookupItem{cp949: 0xae82, ucs2: 0xce05},
		lookupItem{cp949: 0xae83, ucs2: 0xce06},
		lookupItem{cp949: 0xae84, ucs2: 0xce07},
		lookupItem{cp949: 0xae85, ucs2: 0xce09},
		lookupItem{cp949: 0xae86, ucs2: 0xce0a},
		lookupItem{cp949: 0xae87, ucs2: 0xce0b},
		lookupItem{cp949: 0xae88, ucs2: 0xce0d},
		lookupItem{cp949: 0xae89, ucs2: 0xce0e},
		lookupItem{cp949: 0xae8a, ucs2: 0xce0f},
		lookupItem{cp949: 0xae8b, ucs2: 0xce10},
		lookupItem{cp949: 0xae8c, ucs2: 0xce11},
		lookupItem{cp949: 0xae8d, ucs2: 0xce12},
		lookupItem{cp949: 0xae8e, ucs2: 0xce13},
		lookupItem{cp949: 0xae8f, ucs2: 0xce15},
		lookupItem{cp949: 0xae90, ucs2: 0xce16},
		lookupItem{cp949: 0xae91, ucs2: 0xce17},
		lookupItem{cp949: 0xae92, ucs2: 0xce18},
		lookupItem{cp949: 0xae93, ucs2: 0xce1a},
		lookupItem{cp949: 0xae94, ucs2: 0xce1b},
		lookupItem{cp949: 0xae95, ucs2: 0xce1c},
		lookupItem{cp949: 0xae96, ucs2: 0xce1d},
		lookupItem{cp949: 0xae97, ucs2: 0xce1e},
		lookupItem{cp949: 0xae98, ucs2: 0xce1f},
		lookupItem{cp949: 0xae99, ucs2: 0xce22},
		lookupItem{cp949: 0xae9a, ucs2: 0xce23},
		lookupItem{cp949: 0xae9b, ucs2: 0xce25},
		lookupItem{cp949: 0xae9c, ucs2: 0xce26},
		lookupItem{cp949: 0xae9d, ucs2: 0xce27},
		lookupItem{cp949: 0xae9e, ucs2: 0xce29},
		lookupItem{cp949: 0xae9f, ucs2: 0xce2a},
		lookupItem{cp949: 0xaea0, ucs2: 0xce2b},
		lookupItem{cp949: 0xaf41, ucs2: 0xce2c},
		lookupItem{cp949: 0xaf42, ucs2: 0xce2d},
		lookupItem{cp949: 0xaf43, ucs2: 0xce2e},
		lookupItem{cp949: 0xaf44, ucs2: 0xce2f},
		lookupItem{cp949: 0xaf45, ucs2: 0xce32},
		lookupItem{cp949: 0xaf46, ucs2: 0xce34},
		lookupItem{cp949: 0xaf47, ucs2: 0xce36},
		lookupItem{cp949: 0xaf48, ucs2: 0xce37},
		lookupItem{cp949: 0xaf49, ucs2: 0xce38},
		lookupItem{cp949: 0xaf4a, ucs2: 0xce39},
		lookupItem{cp949: 0xaf4b, ucs2: 0xce3a},
		lookupItem{cp949: 0xaf4c, ucs2: 0xce3b},
		lookupItem{cp949: 0xaf4d, ucs2: 0xce3c},
		lookupItem{cp949: 0xaf4e, ucs2: 0xce3d},
		lookupItem{cp949: 0xaf4f, ucs2: 0xce3e},
		lookupItem{cp949: 0xaf50, ucs2: 0xce3f},
		lookupItem{cp949: 0xaf51, ucs2: 0xce40},
		lookupItem{cp949: 0xaf52, ucs2: 0xce41},
		lookupItem{cp949: 0xaf53, ucs2: 0xce42},
		lookupItem{cp949: 0xaf54, ucs2: 0xce43},
		lookupItem{cp949: 0xaf55, ucs2: 0xce44},
		lookupItem{cp949: 0xaf56, ucs2: 0xce45},
		lookupItem{cp949: 0xaf57, ucs2: 0xce46},
		lookupItem{cp949: 0xaf58, ucs2: 0xce47},
		lookupItem{cp949: 0xaf59, ucs2: 0xce48},
		lookupItem{cp949: 0xaf5a, ucs2: 0xce49},
		lookupItem{cp949: 0xaf61, ucs2: 0xce4a},
		lookupItem{cp949: 0xaf62, ucs2: 0xce4b},
		lookupItem{cp949: 0xaf63, ucs2: 0xce4c},
		lookupItem{cp949: 0xaf64, ucs2: 0xce4d},
		lookupItem{cp949: 0xaf65, ucs2: 0xce4e},
		lookupItem{cp949: 0xaf66, ucs2: 0xce4f},
		lookupItem{cp949: 0xaf67, ucs2: 0xce50},
		lookupItem{cp949: 0xaf68, ucs2: 0xce51},
		lookupItem{cp949: 0xaf69, ucs2: 0xce52},
		lookupItem{cp949: 0xaf6a, ucs2: 0xce53},
		lookupItem{cp949: 0xaf6b, ucs2: 0xce54},
		lookupItem{cp949: 0xaf6c, ucs2: 0xce55},
		lookupItem{cp949: 0xaf6d, ucs2: 0xce56},
		lookupItem{cp949: 0xaf6e, ucs2: 0xce57},
		lookupItem{cp949: 0xaf6f, ucs2: 0xce5a},
		lookupItem{cp949: 0xaf70, ucs2: 0xce5b},
		lookupItem{cp949: 0xaf71, ucs2: 0xce5d},
		lookupItem{cp949: 0xaf72, ucs2: 0xce5e},
		lookupItem{cp949: 0xaf73, ucs2: 0xce62},
		lookupItem{cp949: 0xaf74, ucs2: 0xce63},
		lookupItem{cp949: 0xaf75, ucs2: 0xce64},
		lookupItem{cp949: 0xaf76, ucs2: 0xce65},
		lookupItem{cp949: 0xaf77, ucs2: 0xce66},
		lookupItem{cp949: 0xaf78, ucs2: 0xce67},
		lookupItem{cp949: 0xaf79, ucs2: 0xce6a},
		lookupItem{cp949: 0xaf7a, ucs2: 0xce6c},
		lookupItem{cp949: 0xaf81, ucs2: 0xce6e},
		lookupItem{cp949: 0xaf82, ucs2: 0xce6f},
		lookupItem{cp949: 0xaf83, ucs2: 0xce70},
		lookupItem{cp949: 0xaf84, ucs2: 0xce71},
		lookupItem{cp949: 0xaf85, ucs2: 0xce72},
		lookupItem{cp949: 0xaf86, ucs2: 0xce73},
		lookupItem{cp949: 0xaf87, ucs2: 0xce76},
		lookupItem{cp949: 0xaf88, ucs2: 0xce77},
		lookupItem{cp949: 0xaf89, ucs2: 0xce79},
		lookupItem{cp949: 0xaf8a, ucs2: 0xce7a},
		lookupItem{cp949: 0xaf8b, ucs2: 0xce7b},
		lookupItem{cp949: 0xaf8c, ucs2: 0xce7d},
		lookupItem{cp949: 0xaf8d, ucs2: 0xce7e},
		lookupItem{cp949: 0xaf8e, ucs2: 0xce7f},
		lookupItem{cp949: 0xaf8f, ucs2: 0xce80},
		lookupItem{cp949: 0xaf90, ucs2: 0xce81},
		lookupItem{cp949: 0xaf91, ucs2: 0xce82},
		lookupItem{cp949: 0xaf92, ucs2: 0xce83},
		lookupItem{cp949: 0xaf93, ucs2: 0xce86},
		lookupItem{cp949: 0xaf94, ucs2: 0xce88},
		lookupItem{cp949: 0xaf95, ucs2: 0xce8a},
		lookupItem{cp949: 0xaf96, ucs2: 0xce8b},
		lookupItem{cp949: 0xaf97, ucs2: 0xce8c},
		lookupItem{cp949: 0xaf98, ucs2: 0xce8d},
		lookupItem{cp949: 0xaf99, ucs2: 0xce8e},
		lookupItem{cp949: 0xaf9a, ucs2: 0xce8f},
		lookupItem{cp949: 0xaf9b, ucs2: 0xce92},
		lookupItem{cp949: 0xaf9c, ucs2: 0xce93},
		lookupItem{cp949: 0xaf9d, ucs2: 0xce95},
		lookupItem{cp949: 0xaf9e, ucs2: 0xce96},
		lookupItem{cp949: 0xaf9f, ucs2: 0xce97},
		lookupItem{cp949: 0xafa0, ucs2: 0xce99},
		lookupItem{cp949: 0xb041, ucs2: 0xce9a},
		lookupItem{cp949: 0xb042, ucs2: 0xce9b},
		lookupItem{cp949: 0xb043, ucs2: 0xce9c},
		lookupItem{cp949: 0xb044, ucs2: 0xce9d},
		lookupItem{cp949: 0xb045, ucs2: 0xce9e},
		lookupItem{cp949: 0xb046, ucs2: 0xce9f},
		lookupItem{cp949: 0xb047, ucs2: 0xcea2},
		lookupItem{cp949: 0xb048, ucs2: 0xcea6},
		lookupItem{cp949: 0xb049, ucs2: 0xcea7},
		lookupItem{cp949: 0xb04a, ucs2: 0xcea8},
		lookupItem{cp949: 0xb04b, ucs2: 0xcea9},
		lookupItem{cp949: 0xb04c, ucs2: 0xceaa},
		lookupItem{cp949: 0xb04d, ucs2: 0xceab},
		lookupItem{cp949: 0xb04e, ucs2: 0xceae},
		lookupItem{cp949: 0xb04f, ucs2: 0xceaf},
		lookupItem{cp949: 0xb050, ucs2: 0xceb0},
		lookupItem{cp949: 0xb051, ucs2: 0xceb1},
		lookupItem{cp949: 0xb052, ucs2: 0xceb2},
		lookupItem{cp949: 0xb053, ucs2: 0xceb3},
		lookupItem{cp949: 0xb054, ucs2: 0xceb4},
		lookupItem{cp949: 0xb055, ucs2: 0xceb5},
		lookupItem{cp949: 0xb056, ucs2: 0xceb6},
		lookupItem{cp949: 0xb057, ucs2: 0xceb7},
		lookupItem{cp949: 0xb058, ucs2: 0xceb8},
		lookupItem{cp949: 0xb059, ucs2: 0xceb9},
		lookupItem{cp949: 0xb05a, ucs2: 0xceba},
		lookupItem{cp949: 0xb061, ucs2: 0xcebb},
		lookupItem{cp949: 0xb062, ucs2: 0xcebc},
		lookupItem{cp949: 0xb063, ucs2: 0xcebd},
		lookupItem{cp949: 0xb064, ucs2: 0xcebe},
		lookupItem{cp949: 0xb065, ucs2: 0xcebf},
		lookupItem{cp949: 0xb066, ucs2: 0xcec0},
		lookupItem{cp949: 0xb067, ucs2: 0xcec2},
		lookupItem{cp949: 0xb068, ucs2: 0xcec3},
		lookupItem{cp949: 0xb069, ucs2: 0xcec4},
		lookupItem{cp949: 0xb06a, ucs2: 0xcec5},
		lookupItem{cp949: 0xb06b, ucs2: 0xcec6},
		lookupItem{cp949: 0xb06c, ucs2: 0xcec7},
		lookupItem{cp949: 0xb06d, ucs2: 0xcec8},
		lookupItem{cp949: 0xb06e, ucs2: 0xcec9},
		lookupItem{cp949: 0xb06f, ucs2: 0xceca},
		lookupItem{cp949: 0xb070, ucs2: 0xcecb},
		lookupItem{cp949: 0xb071, ucs2: 0xcecc},
		lookupItem{cp949: 0xb072, ucs2: 0xcecd},
		lookupItem{cp949: 0xb073, ucs2: 0xcece},
		lookupItem{cp949: 0xb074, ucs2: 0xcecf},
		lookupItem{cp949: 0xb075, ucs2: 0xced0},
		lookupItem{cp949: 0xb076, ucs2: 0xced1},
".
Definition text_cp949_lookup_from_032 : string :=
"		lookupItem{cp949: 0xb077, ucs2: 0xced2},
		lookupItem{cp949: 0xb078, ucs2: 0xced3},
		lookupItem{cp949: 0xb079, ucs2: 0xced4},
		lookupItem{cp949: 0xb07a, ucs2: 0xced5},
		lookupItem{cp949: 0xb081, ucs2: 0xced6},
		lookupItem{cp949: 0xb082, ucs2: 0xced7},
		lookupItem{cp949: 0xb083, ucs2: 0xced8},
		lookupItem{cp949: 0xb084, ucs2: 0xced9},
		lookupItem{cp949: 0xb085, ucs2: 0xceda},
		lookupItem{cp949: 0xb086, ucs2: 0xcedb},
		lookupItem{cp949: 0xb087, ucs2: 0xcedc},
		lookupItem{cp949: 0xb088, ucs2: 0xcedd},
		lookupItem{cp949: 0xb089, ucs2: 0xcede},
		lookupItem{cp949: 0xb08a, ucs2: 0xcedf},
		lookupItem{cp949: 0xb08b, ucs2: 0xcee0},
		lookupItem{cp949: 0xb08c, ucs2: 0xcee1},
		lookupItem{cp949: 0xb08d, ucs2: 0xcee2},
		lookupItem{cp949: 0xb08e, ucs2: 0xcee3},
		lookupItem{cp949: 0xb08f, ucs2: 0xcee6},
		lookupItem{cp949: 0xb090, ucs2: 0xcee7},
		lookupItem{cp949: 0xb091, ucs2: 0xcee9},
		lookupItem{cp949: 0xb092, ucs2: 0xceea},
		lookupItem{cp949: 0xb093, ucs2: 0xceed},
		lookupItem{cp949: 0xb094, ucs2: 0xceee},
		lookupItem{cp949: 0xb095, ucs2: 0xceef},
		lookupItem{cp949: 0xb096, ucs2: 0xcef0},
		lookupItem{cp949: 0xb097, ucs2: 0xcef1},
		lookupItem{cp949: 0xb098, ucs2: 0xcef2},
		lookupItem{cp949: 0xb099, ucs2: 0xcef3},
		lookupItem{cp949: 0xb09a, ucs2: 0xcef6},
		lookupItem{cp949: 0xb09b, ucs2: 0xcefa},
		lookupItem{cp949: 0xb09c, ucs2: 0xcefb},
		lookupItem{cp949: 0xb09d, ucs2: 0xcefc},
		lookupItem{cp949: 0xb09e, ucs2: 0xcefd},
		lookupItem{cp949: 0xb09f, ucs2: 0xcefe},
		lookupItem{cp949: 0xb0a0, ucs2: 0xceff},
		lookupItem{cp949: 0xb0a1, ucs2: 0xac00},
		lookupItem{cp949: 0xb0a2, ucs2: 0xac01},
		lookupItem{cp949: 0xb0a3, ucs2: 0xac04},
		lookupItem{cp949: 0xb0a4, ucs2: 0xac07},
		lookupItem{cp949: 0xb0a5, ucs2: 0xac08},
		lookupItem{cp949: 0xb0a6, ucs2: 0xac09},
		lookupItem{cp949: 0xb0a7, ucs2: 0xac0a},
		lookupItem{cp949: 0xb0a8, ucs2: 0xac10},
		lookupItem{cp949: 0xb0a9, ucs2: 0xac11},
		lookupItem{cp949: 0xb0aa, ucs2: 0xac12},
		lookupItem{cp949: 0xb0ab, ucs2: 0xac13},
		lookupItem{cp949: 0xb0ac, ucs2: 0xac14},
		lookupItem{cp949: 0xb0ad, ucs2: 0xac15},
		lookupItem{cp949: 0xb0ae, ucs2: 0xac16},
		lookupItem{cp949: 0xb0af, ucs2: 0xac17},
		lookupItem{cp949: 0xb0b0, ucs2: 0xac19},
		lookupItem{cp949: 0xb0b1, ucs2: 0xac1a},
		lookupItem{cp949: 0xb0b2, ucs2: 0xac1b},
		lookupItem{cp949: 0xb0b3, ucs2: 0xac1c},
		lookupItem{cp949: 0xb0b4, ucs2: 0xac1d},
		lookupItem{cp949: 0xb0b5, ucs2: 0xac20},
		lookupItem{cp949: 0xb0b6, ucs2: 0xac24},
		lookupItem{cp949: 0xb0b7, ucs2: 0xac2c},
		lookupItem{cp949: 0xb0b8, ucs2: 0xac2d},
		lookupItem{cp949: 0xb0b9, ucs2: 0xac2f},
		lookupItem{cp949: 0xb0ba, ucs2: 0xac30},
		lookupItem{cp949: 0xb0bb, ucs2: 0xac31},
		lookupItem{cp949: 0xb0bc, ucs2: 0xac38},
		lookupItem{cp949: 0xb0bd, ucs2: 0xac39},
		lookupItem{cp949: 0xb0be, ucs2: 0xac3c},
		lookupItem{cp949: 0xb0bf, ucs2: 0xac40},
		lookupItem{cp949: 0xb0c0, ucs2: 0xac4b},
		lookupItem{cp949: 0xb0c1, ucs2: 0xac4d},
		lookupItem{cp949: 0xb0c2, ucs2: 0xac54},
		lookupItem{cp949: 0xb0c3, ucs2: 0xac58},
		lookupItem{cp949: 0xb0c4, ucs2: 0xac5c},
		lookupItem{cp949: 0xb0c5, ucs2: 0xac70},
		lookupItem{cp949: 0xb0c6, ucs2: 0xac71},
		lookupItem{cp949: 0xb0c7, ucs2: 0xac74},
		lookupItem{cp949: 0xb0c8, ucs2: 0xac77},
		lookupItem{cp949: 0xb0c9, ucs2: 0xac78},
		lookupItem{cp949: 0xb0ca, ucs2: 0xac7a},
		lookupItem{cp949: 0xb0cb, ucs2: 0xac80},
		lookupItem{cp949: 0xb0cc, ucs2: 0xac81},
		lookupItem{cp949: 0xb0cd, ucs2: 0xac83},
		lookupItem{cp949: 0xb0ce, ucs2: 0xac84},
		lookupItem{cp949: 0xb0cf, ucs2: 0xac85},
		lookupItem{cp949: 0xb0d0, ucs2: 0xac86},
		lookupItem{cp949: 0xb0d1, ucs2: 0xac89},
		lookupItem{cp949: 0xb0d2, ucs2: 0xac8a},
		lookupItem{cp949: 0xb0d3, ucs2: 0xac8b},
		lookupItem{cp949: 0xb0d4, ucs2: 0xac8c},
		lookupItem{cp949: 0xb0d5, ucs2: 0xac90},
		lookupItem{cp949: 0xb0d6, ucs2: 0xac94},
		lookupItem{cp949: 0xb0d7, ucs2: 0xac9c},
		lookupItem{cp949: 0xb0d8, ucs2: 0xac9d},
		lookupItem{cp949: 0xb0d9, ucs2: 0xac9f},
		lookupItem{cp949: 0xb0da, ucs2: 0xaca0},
		lookupItem{cp949: 0xb0db, ucs2: 0xaca1},
		lookupItem{cp949: 0xb0dc, ucs2: 0xaca8},
		lookupItem{cp949: 0xb0dd, ucs2: 0xaca9},
		lookupItem{cp949: 0xb0de, ucs2: 0xacaa},
		lookupItem{cp949: 0xb0df, ucs2: 0xacac},
		lookupItem{cp949: 0xb0e0, ucs2: 0xacaf},
		lookupItem{cp949: 0xb0e1, ucs2: 0xacb0},
		lookupItem{cp949: 0xb0e2, ucs2: 0xacb8},
		lookupItem{cp949: 0xb0e3, ucs2: 0xacb9},
		lookupItem{cp949: 0xb0e4, ucs2: 0xacbb},
		lookupItem{cp949: 0xb0e5, ucs2: 0xacbc},
		lookupItem{cp949: 0xb0e6, ucs2: 0xacbd},
		lookupItem{cp949: 0xb0e7, ucs2: 0xacc1},
		lookupItem{cp949: 0xb0e8, ucs2: 0xacc4},
		lookupItem{cp949: 0xb0e9, ucs2: 0xacc8},
		lookupItem{cp949: 0xb0ea, ucs2: 0xaccc},
		lookupItem{cp949: 0xb0eb, ucs2: 0xacd5},
		lookupItem{cp949: 0xb0ec, ucs2: 0xacd7},
		lookupItem{cp949: 0xb0ed, ucs2: 0xace0},
		lookupItem{cp949: 0xb0ee, ucs2: 0xace1},
		lookupItem{cp949: 0xb0ef, ucs2: 0xace4},
		lookupItem{cp949: 0xb0f0, ucs2: 0xace7},
		lookupItem{cp949: 0xb0f1, ucs2: 0xace8},
		lookupItem{cp949: 0xb0f2, ucs2: 0xacea},
		lookupItem{cp949: 0xb0f3, ucs2: 0xacec},
		lookupItem{cp949: 0xb0f4, ucs2: 0xacef},
		lookupItem{cp949: 0xb0f5, ucs2: 0xacf0},
		lookupItem{cp949: 0xb0f6, ucs2: 0xacf1},
		lookupItem{cp949: 0xb0f7, ucs2: 0xacf3},
		lookupItem{cp949: 0xb0f8, ucs2: 0xacf5},
		lookupItem{cp949: 0xb0f9, ucs2: 0xacf6},
		lookupItem{cp949: 0xb0fa, ucs2: 0xacfc},
		lookupItem{cp949: 0xb0fb, ucs2: 0xacfd},
		lookupItem{cp949: 0xb0fc, ucs2: 0xad00},
		lookupItem{cp949: 0xb0fd, ucs2: 0xad04},
		lookupItem{cp949: 0xb0fe, ucs2: 0xad06},
		lookupItem{cp949: 0xb141, ucs2: 0xcf02},
		lookupItem{cp949: 0xb142, ucs2: 0xcf03},
		lookupItem{cp949: 0xb143, ucs2: 0xcf05},
		lookupItem{cp949: 0xb144, ucs2: 0xcf06},
		lookupItem{cp949: 0xb145, ucs2: 0xcf07},
		lookupItem{cp949: 0xb146, ucs2: 0xcf09},
		lookupItem{cp949: 0xb147, ucs2: 0xcf0a},
		lookupItem{cp949: 0xb148, ucs2: 0xcf0b},
		lookupItem{cp949: 0xb149, ucs2: 0xcf0c},
		lookupItem{cp949: 0xb14a, ucs2: 0xcf0d},
		lookupItem{cp949: 0xb14b, ucs2: 0xcf0e},
		lookupItem{cp949: 0xb14c, ucs2: 0xcf0f},
		lookupItem{cp949: 0xb14d, ucs2: 0xcf12},
		lookupItem{cp949: 0xb14e, ucs2: 0xcf14},
		lookupItem{cp949: 0xb14f, ucs2: 0xcf16},
		lookupItem{cp949: 0xb150, ucs2: 0xcf17},
		lookupItem{cp949: 0xb151, ucs2: 0xcf18},
		lookupItem{cp949: 0xb152, ucs2: 0xcf19},
		lookupItem{cp949: 0xb153, ucs2: 0xcf1a},
		lookupItem{cp949: 0xb154, ucs2: 0xcf1b},
		lookupItem{cp949: 0xb155, ucs2: 0xcf1d},
		lookupItem{cp949: 0xb156, ucs2: 0xcf1e},
		lookupItem{cp949: 0xb157, ucs2: 0xcf1f},
		lookupItem{cp949: 0xb158, ucs2: 0xcf21},
		lookupItem{cp949: 0xb159, ucs2: 0xcf22},
		lookupItem{cp949: 0xb15a, ucs2: 0xcf23},
		lookupItem{cp949: 0xb161, ucs2: 0xcf25},
		lookupItem{cp949: 0xb162, ucs2: 0xcf26},
		lookupItem{cp949: 0xb163, ucs2: 0xcf27},
		lookupItem{cp949: 0xb164, ucs2: 0xcf28},
		lookupItem{cp949: 0xb165, ucs2: 0xcf29},
		lookupItem{cp949: 0xb166, ucs2: 0xcf2a},
		lookupItem{cp949: 0xb167, ucs2: 0xcf2b},
		lookupItem{cp949: 0xb168, ucs2: 0xcf2e},
		lookupItem{cp949: 0xb169, ucs2: 0xcf32},
		lookupItem{cp949: 0xb16a, ucs2: 0xcf33},
		lookupItem{cp949: 0xb16b, ucs2: 0xcf34},
		lookupItem{cp949: 0xb16c, ucs2: 0xcf35},
		lookupItem{cp949: 0xb16d, ucs2: 0xcf36},
		lookupItem{cp949: 0xb16e, ucs2: 0xcf37},
		lookupItem{cp949: 0xb16f, ucs2: 0xcf39},
		lookupItem{cp949: 0xb170, ucs2: 0xcf3a},
		lookupItem{cp949: 0xb171, ucs2: 0xcf3b},
		lookupItem{cp949: 0xb172, ucs2: 0xcf3c},
		lookupItem{cp949: 0xb173, ucs2: 0xcf3d},
		lookupItem{cp949: 0xb174, ucs2: 0xcf3e},
		lookupItem{cp949: 0xb175, ucs2: 0xcf3f},
		lookupItem{cp949: 0xb176, ucs2: 0xcf40},
		lookupItem{cp949: 0xb177, ucs2: 0xcf41},
		lookupItem{cp949: 0xb178, ucs2: 0xcf42},
		lookupItem{cp949: 0xb179, ucs2: 0xcf43},
		lookupItem{cp949: 0xb17a, ucs2: 0xcf44},
		lookupItem{cp949: 0xb181, ucs2: 0xcf45},
		lookupItem{cp949: 0xb182, ucs2: 0xcf46},
		lookupItem{cp949: 0xb183, ucs2: 0xcf47},
		lookupItem{cp949: 0xb184, ucs2: 0xcf48},
		lookupItem{cp949: 0xb185, ucs2: 0xcf49},
		lookupItem{cp949: 0xb186, ucs2: 0xcf4a},
		lookupItem{cp949: 0xb187, ucs2: 0xcf4b},
		lookupItem{cp949: 0xb188, ucs2: 0xcf4c},
		lookupItem{cp949: 0xb189, ucs2: 0xcf4d},
		lookupItem{cp949: 0xb18a, ucs2: 0xcf4e},
		lookupItem{cp949: 0xb18b, ucs2: 0xcf4f},
		lookupItem{cp949: 0xb18c, ucs2: 0xcf50},
		lookupItem{cp949: 0xb18d, ucs2: 0xcf51},
		lookupItem{cp949: 0xb18e, ucs2: 0xcf52},
		lookupItem{cp949: 0xb18f, ucs2: 0xcf53},
		lookupItem{cp949: 0xb190, ucs2: 0xcf56},
		lookupItem{cp949: 0xb191, ucs2: 0xcf57},
		lookupItem{cp949: 0xb192, ucs2: 0xcf59},
		lookupItem{cp949: 0xb193, ucs2: 0xcf5a},
		lookupItem{cp949: 0xb194, ucs2: 0xcf5b},
		lookupItem{cp949: 0xb195, ucs2: 0xcf5d},
		lookupItem{cp949: 0xb196, ucs2: 0xcf5e},
		lookupItem{cp949: 0xb197, ucs2: 0xcf5f},
		lookupItem{cp949: 0xb198, ucs2: 0xcf60},
		lookupItem{cp949: 0xb199, ucs2: 0xcf61},
		lookupItem{cp949: 0xb19a, ucs2: 0xcf62},
		lookupItem{cp949: 0xb19b, ucs2: 0xcf63},
		lookupItem{cp949: 0xb19c, ucs2: 0xcf66},
		lookupItem{cp949: 0xb19d, ucs2: 0xcf68},
		lookupItem{cp949: 0xb19e, ucs2: 0xcf6a},
		lookupItem{cp949: 0xb19f, ucs2: 0xcf6b},
		lookupItem{cp949: 0xb1a0, ucs2: 0xcf6c},
		lookupItem{cp949: 0xb1a1, ucs2: 0xad0c},
		lookupItem{cp949: 0xb1a2, ucs2: 0xad0d},
		lookupItem{cp949: 0xb1a3, ucs2: 0xad0f},
		lookupItem{cp949: 0xb1a4, ucs2: 0xad11},
		lookupItem{cp949: 0xb1a5, ucs2: 0xad18},
		lookupItem{cp949: 0xb1a6, ucs2: 0xad1c},
		lookupItem{cp949: 0xb1a7, ucs2: 0xad20},
		lookupItem{cp949: 0xb1a8, ucs2: 0xad29},
		lookupItem{cp949: 0xb1a9, ucs2: 0xad2c},
		lookupItem{cp949: 0xb1aa, ucs2: 0xad2d},
		lookupItem{cp949: 0xb1ab, ucs2: 0xad34},
		lookupItem{cp949: 0xb1ac, ucs2: 0xad35},
		lookupItem{cp949: 0xb1ad, ucs2: 0xad38},
		lookupItem{cp949: 0xb1ae, ucs2: 0xad3c},
		lookupItem{cp949: 0xb1af, ucs2: 0xad44},
		lookupItem{cp949: 0xb1b0, ucs2: 0xad45},
		lookupItem{cp949: 0xb1b1, ucs2: 0xad47},
		lookupItem{cp949: 0xb1b2, ucs2: 0xad49},
		lookupItem{cp949: 0xb1b3, ucs2: 0xad50},
		lookupItem{cp949: 0xb1b4, ucs2: 0xad54},
		lookupItem{cp949: 0xb1b5, ucs2: 0xad58},
		lookupItem{cp949: 0xb1b6, ucs2: 0xad61},
		lookupItem{cp949: 0xb1b7, ucs2: 0xad63},
		lookupItem{cp949: 0xb1b8, ucs2: 0xad6c},
		lookupItem{cp949: 0xb1b9, ucs2: 0xad6d},
		lookupItem{cp949: 0xb1ba, ucs2: 0xad70},
		lookupItem{cp949: 0xb1bb, ucs2: 0xad73},
		lookupItem{cp949: 0xb1bc, ucs2: 0xad74},
		lookupItem{cp949: 0xb1bd, ucs2: 0xad75},
		lookupItem{cp949: 0xb1be, ucs2: 0xad76},
		lookupItem{cp949: 0xb1bf, ucs2: 0xad7b},
		lookupItem{cp949: 0xb1c0, ucs2: 0xad7c},
		lookupItem{cp949: 0xb1c1, ucs2: 0xad7d},
		lookupItem{cp949: 0xb1c2, ucs2: 0xad7f},
		lookupItem{cp949: 0xb1c3, ucs2: 0xad81},
		lookupItem{cp949: 0xb1c4, ucs2: 0xad82},
".
Definition text_cp949_lookup_from_033 : string :=
"		lookupItem{cp949: 0xb1c5, ucs2: 0xad88},
		lookupItem{cp949: 0xb1c6, ucs2: 0xad89},
		lookupItem{cp949: 0xb1c7, ucs2: 0xad8c},
		lookupItem{cp949: 0xb1c8, ucs2: 0xad90},
		lookupItem{cp949: 0xb1c9, ucs2: 0xad9c},
		lookupItem{cp949: 0xb1ca, ucs2: 0xad9d},
		lookupItem{cp949: 0xb1cb, ucs2: 0xada4},
		lookupItem{cp949: 0xb1cc, ucs2: 0xadb7},
		lookupItem{cp949: 0xb1cd, ucs2: 0xadc0},
		lookupItem{cp949: 0xb1ce, ucs2: 0xadc1},
		lookupItem{cp949: 0xb1cf, ucs2: 0xadc4},
		lookupItem{cp949: 0xb1d0, ucs2: 0xadc8},
		lookupItem{cp949: 0xb1d1, ucs2: 0xadd0},
		lookupItem{cp949: 0xb1d2, ucs2: 0xadd1},
		lookupItem{cp949: 0xb1d3, ucs2: 0xadd3},
		lookupItem{cp949: 0xb1d4, ucs2: 0xaddc},
		lookupItem{cp949: 0xb1d5, ucs2: 0xade0},
		lookupItem{cp949: 0xb1d6, ucs2: 0xade4},
		lookupItem{cp949: 0xb1d7, ucs2: 0xadf8},
		lookupItem{cp949: 0xb1d8, ucs2: 0xadf9},
		lookupItem{cp949: 0xb1d9, ucs2: 0xadfc},
		lookupItem{cp949: 0xb1da, ucs2: 0xadff},
		lookupItem{cp949: 0xb1db, ucs2: 0xae00},
		lookupItem{cp949: 0xb1dc, ucs2: 0xae01},
		lookupItem{cp949: 0xb1dd, ucs2: 0xae08},
		lookupItem{cp949: 0xb1de, ucs2: 0xae09},
		lookupItem{cp949: 0xb1df, ucs2: 0xae0b},
		lookupItem{cp949: 0xb1e0, ucs2: 0xae0d},
		lookupItem{cp949: 0xb1e1, ucs2: 0xae14},
		lookupItem{cp949: 0xb1e2, ucs2: 0xae30},
		lookupItem{cp949: 0xb1e3, ucs2: 0xae31},
		lookupItem{cp949: 0xb1e4, ucs2: 0xae34},
		lookupItem{cp949: 0xb1e5, ucs2: 0xae37},
		lookupItem{cp949: 0xb1e6, ucs2: 0xae38},
		lookupItem{cp949: 0xb1e7, ucs2: 0xae3a},
		lookupItem{cp949: 0xb1e8, ucs2: 0xae40},
		lookupItem{cp949: 0xb1e9, ucs2: 0xae41},
		lookupItem{cp949: 0xb1ea, ucs2: 0xae43},
		lookupItem{cp949: 0xb1eb, ucs2: 0xae45},
		lookupItem{cp949: 0xb1ec, ucs2: 0xae46},
		lookupItem{cp949: 0xb1ed, ucs2: 0xae4a},
		lookupItem{cp949: 0xb1ee, ucs2: 0xae4c},
		lookupItem{cp949: 0xb1ef, ucs2: 0xae4d},
		lookupItem{cp949: 0xb1f0, ucs2: 0xae4e},
		lookupItem{cp949: 0xb1f1, ucs2: 0xae50},
		lookupItem{cp949: 0xb1f2, ucs2: 0xae54},
		lookupItem{cp949: 0xb1f3, ucs2: 0xae56},
		lookupItem{cp949: 0xb1f4, ucs2: 0xae5c},
		lookupItem{cp949: 0xb1f5, ucs2: 0xae5d},
		lookupItem{cp949: 0xb1f6, ucs2: 0xae5f},
		lookupItem{cp949: 0xb1f7, ucs2: 0xae60},
		lookupItem{cp949: 0xb1f8, ucs2: 0xae61},
		lookupItem{cp949: 0xb1f9, ucs2: 0xae65},
		lookupItem{cp949: 0xb1fa, ucs2: 0xae68},
		lookupItem{cp949: 0xb1fb, ucs2: 0xae69},
		lookupItem{cp949: 0xb1fc, ucs2: 0xae6c},
		lookupItem{cp949: 0xb1fd, ucs2: 0xae70},
		lookupItem{cp949: 0xb1fe, ucs2: 0xae78},
		lookupItem{cp949: 0xb241, ucs2: 0xcf6d},
		lookupItem{cp949: 0xb242, ucs2: 0xcf6e},
		lookupItem{cp949: 0xb243, ucs2: 0xcf6f},
		lookupItem{cp949: 0xb244, ucs2: 0xcf72},
		lookupItem{cp949: 0xb245, ucs2: 0xcf73},
		lookupItem{cp949: 0xb246, ucs2: 0xcf75},
		lookupItem{cp949: 0xb247, ucs2: 0xcf76},
		lookupItem{cp949: 0xb248, ucs2: 0xcf77},
		lookupItem{cp949: 0xb249, ucs2: 0xcf79},
		lookupItem{cp949: 0xb24a, ucs2: 0xcf7a},
		lookupItem{cp949: 0xb24b, ucs2: 0xcf7b},
		lookupItem{cp949: 0xb24c, ucs2: 0xcf7c},
		lookupItem{cp949: 0xb24d, ucs2: 0xcf7d},
		lookupItem{cp949: 0xb24e, ucs2: 0xcf7e},
		lookupItem{cp949: 0xb24f, ucs2: 0xcf7f},
		lookupItem{cp949: 0xb250, ucs2: 0xcf81},
		lookupItem{cp949: 0xb251, ucs2: 0xcf82},
		lookupItem{cp949: 0xb252, ucs2: 0xcf83},
		lookupItem{cp949: 0xb253, ucs2: 0xcf84},
		lookupItem{cp949: 0xb254, ucs2: 0xcf86},
		lookupItem{cp949: 0xb255, ucs2: 0xcf87},
		lookupItem{cp949: 0xb256, ucs2: 0xcf88},
		lookupItem{cp949: 0xb257, ucs2: 0xcf89},
		lookupItem{cp949: 0xb258, ucs2: 0xcf8a},
		lookupItem{cp949: 0xb259, ucs2: 0xcf8b},
		lookupItem{cp949: 0xb25a, ucs2: 0xcf8d},
		lookupItem{cp949: 0xb261, ucs2: 0xcf8e},
		lookupItem{cp949: 0xb262, ucs2: 0xcf8f},
		lookupItem{cp949: 0xb263, ucs2: 0xcf90},
		lookupItem{cp949: 0xb264, ucs2: 0xcf91},
		lookupItem{cp949: 0xb265, ucs2: 0xcf92},
		lookupItem{cp949: 0xb266, ucs2: 0xcf93},
		lookupItem{cp949: 0xb267, ucs2: 0xcf94},
		lookupItem{cp949: 0xb268, ucs2: 0xcf95},
		lookupItem{cp949: 0xb269, ucs2: 0xcf96},
		lookupItem{cp949: 0xb26a, ucs2: 0xcf97},
		lookupItem{cp949: 0xb26b, ucs2: 0xcf98},
		lookupItem{cp949: 0xb26c, ucs2: 0xcf99},
		lookupItem{cp949: 0xb26d, ucs2: 0xcf9a},
		lookupItem{cp949: 0xb26e, ucs2: 0xcf9b},
		lookupItem{cp949: 0xb26f, ucs2: 0xcf9c},
		lookupItem{cp949: 0xb270, ucs2: 0xcf9d},
		lookupItem{cp949: 0xb271, ucs2: 0xcf9e},
		lookupItem{cp949: 0xb272, ucs2: 0xcf9f},
		lookupItem{cp949: 0xb273, ucs2: 0xcfa0},
		lookupItem{cp949: 0xb274, ucs2: 0xcfa2},
		lookupItem{cp949: 0xb275, ucs2: 0xcfa3},
		lookupItem{cp949: 0xb276, ucs2: 0xcfa4},
		lookupItem{cp949: 0xb277, ucs2: 0xcfa5},
		lookupItem{cp949: 0xb278, ucs2: 0xcfa6},
		lookupItem{cp949: 0xb279, ucs2: 0xcfa7},
		lookupItem{cp949: 0xb27a, ucs2: 0xcfa9},
		lookupItem{cp949: 0xb281, ucs2: 0xcfaa},
		lookupItem{cp949: 0xb282, ucs2: 0xcfab},
		lookupItem{cp949: 0xb283, ucs2: 0xcfac},
		lookupItem{cp949: 0xb284, ucs2: 0xcfad},
		lookupItem{cp949: 0xb285, ucs2: 0xcfae},
		lookupItem{cp949: 0xb286, ucs2: 0xcfaf},
		lookupItem{cp949: 0xb287, ucs2: 0xcfb1},
		lookupItem{cp949: 0xb288, ucs2: 0xcfb2},
		lookupItem{cp949: 0xb289, ucs2: 0xcfb3},
		lookupItem{cp949: 0xb28a, ucs2: 0xcfb4},
		lookupItem{cp949: 0xb28b, ucs2: 0xcfb5},
		lookupItem{cp949: 0xb28c, ucs2: 0xcfb6},
		lookupItem{cp949: 0xb28d, ucs2: 0xcfb7},
		lookupItem{cp949: 0xb28e, ucs2: 0xcfb8},
		lookupItem{cp949: 0xb28f, ucs2: 0xcfb9},
		lookupItem{cp949: 0xb290, ucs2: 0xcfba},
		lookupItem{cp949: 0xb291, ucs2: 0xcfbb},
		lookupItem{cp949: 0xb292, ucs2: 0xcfbc},
		lookupItem{cp949: 0xb293, ucs2: 0xcfbd},
		lookupItem{cp949: 0xb294, ucs2: 0xcfbe},
		lookupItem{cp949: 0xb295, ucs2: 0xcfbf},
		lookupItem{cp949: 0xb296, ucs2: 0xcfc0},
		lookupItem{cp949: 0xb297, ucs2: 0xcfc1},
		lookupItem{cp949: 0xb298, ucs2: 0xcfc2},
		lookupItem{cp949: 0xb299, ucs2: 0xcfc3},
		lookupItem{cp949: 0xb29a, ucs2: 0xcfc5},
		lookupItem{cp949: 0xb29b, ucs2: 0xcfc6},
		lookupItem{cp949: 0xb29c, ucs2: 0xcfc7},
		lookupItem{cp949: 0xb29d, ucs2: 0xcfc8},
		lookupItem{cp949: 0xb29e, ucs2: 0xcfc9},
		lookupItem{cp949: 0xb29f, ucs2: 0xcfca},
		lookupItem{cp949: 0xb2a0, ucs2: 0xcfcb},
		lookupItem{cp949: 0xb2a1, ucs2: 0xae79},
		lookupItem{cp949: 0xb2a2, ucs2: 0xae7b},
		lookupItem{cp949: 0xb2a3, ucs2: 0xae7c},
		lookupItem{cp949: 0xb2a4, ucs2: 0xae7d},
		lookupItem{cp949: 0xb2a5, ucs2: 0xae84},
		lookupItem{cp949: 0xb2a6, ucs2: 0xae85},
		lookupItem{cp949: 0xb2a7, ucs2: 0xae8c},
		lookupItem{cp949: 0xb2a8, ucs2: 0xaebc},
		lookupItem{cp949: 0xb2a9, ucs2: 0xaebd},
		lookupItem{cp949: 0xb2aa, ucs2: 0xaebe},
		lookupItem{cp949: 0xb2ab, ucs2: 0xaec0},
		lookupItem{cp949: 0xb2ac, ucs2: 0xaec4},
		lookupItem{cp949: 0xb2ad, ucs2: 0xaecc},
		lookupItem{cp949: 0xb2ae, ucs2: 0xaecd},
		lookupItem{cp949: 0xb2af, ucs2: 0xaecf},
		lookupItem{cp949: 0xb2b0, ucs2: 0xaed0},
		lookupItem{cp949: 0xb2b1, ucs2: 0xaed1},
		lookupItem{cp949: 0xb2b2, ucs2: 0xaed8},
		lookupItem{cp949: 0xb2b3, ucs2: 0xaed9},
		lookupItem{cp949: 0xb2b4, ucs2: 0xaedc},
		lookupItem{cp949: 0xb2b5, ucs2: 0xaee8},
		lookupItem{cp949: 0xb2b6, ucs2: 0xaeeb},
		lookupItem{cp949: 0xb2b7, ucs2: 0xaeed},
		lookupItem{cp949: 0xb2b8, ucs2: 0xaef4},
		lookupItem{cp949: 0xb2b9, ucs2: 0xaef8},
		lookupItem{cp949: 0xb2ba, ucs2: 0xaefc},
		lookupItem{cp949: 0xb2bb, ucs2: 0xaf07},
		lookupItem{cp949: 0xb2bc, ucs2: 0xaf08},
		lookupItem{cp949: 0xb2bd, ucs2: 0xaf0d},
		lookupItem{cp949: 0xb2be, ucs2: 0xaf10},
		lookupItem{cp949: 0xb2bf, ucs2: 0xaf2c},
		lookupItem{cp949: 0xb2c0, ucs2: 0xaf2d},
		lookupItem{cp949: 0xb2c1, ucs2: 0xaf30},
		lookupItem{cp949: 0xb2c2, ucs2: 0xaf32},
		lookupItem{cp949: 0xb2c3, ucs2: 0xaf34},
		lookupItem{cp949: 0xb2c4, ucs2: 0xaf3c},
		lookupItem{cp949: 0xb2c5, ucs2: 0xaf3d},
		lookupItem{cp949: 0xb2c6, ucs2: 0xaf3f},
		lookupItem{cp949: 0xb2c7, ucs2: 0xaf41},
		lookupItem{cp949: 0xb2c8, ucs2: 0xaf42},
		lookupItem{cp949: 0xb2c9, ucs2: 0xaf43},
		lookupItem{cp949: 0xb2ca, ucs2: 0xaf48},
		lookupItem{cp949: 0xb2cb, ucs2: 0xaf49},
		lookupItem{cp949: 0xb2cc, ucs2: 0xaf50},
		lookupItem{cp949: 0xb2cd, ucs2: 0xaf5c},
		lookupItem{cp949: 0xb2ce, ucs2: 0xaf5d},
		lookupItem{cp949: 0xb2cf, ucs2: 0xaf64},
		lookupItem{cp949: 0xb2d0, ucs2: 0xaf65},
		lookupItem{cp949: 0xb2d1, ucs2: 0xaf79},
		lookupItem{cp949: 0xb2d2, ucs2: 0xaf80},
		lookupItem{cp949: 0xb2d3, ucs2: 0xaf84},
		lookupItem{cp949: 0xb2d4, ucs2: 0xaf88},
		lookupItem{cp949: 0xb2d5, ucs2: 0xaf90},
		lookupItem{cp949: 0xb2d6, ucs2: 0xaf91},
		lookupItem{cp949: 0xb2d7, ucs2: 0xaf95},
		lookupItem{cp949: 0xb2d8, ucs2: 0xaf9c},
		lookupItem{cp949: 0xb2d9, ucs2: 0xafb8},
		lookupItem{cp949: 0xb2da, ucs2: 0xafb9},
		lookupItem{cp949: 0xb2db, ucs2: 0xafbc},
		lookupItem{cp949: 0xb2dc, ucs2: 0xafc0},
		lookupItem{cp949: 0xb2dd, ucs2: 0xafc7},
		lookupItem{cp949: 0xb2de, ucs2: 0xafc8},
		lookupItem{cp949: 0xb2df, ucs2: 0xafc9},
		lookupItem{cp949: 0xb2e0, ucs2: 0xafcb},
		lookupItem{cp949: 0xb2e1, ucs2: 0xafcd},
		lookupItem{cp949: 0xb2e2, ucs2: 0xafce},
		lookupItem{cp949: 0xb2e3, ucs2: 0xafd4},
		lookupItem{cp949: 0xb2e4, ucs2: 0xafdc},
		lookupItem{cp949: 0xb2e5, ucs2: 0xafe8},
		lookupItem{cp949: 0xb2e6, ucs2: 0xafe9},
		lookupItem{cp949: 0xb2e7, ucs2: 0xaff0},
		lookupItem{cp949: 0xb2e8, ucs2: 0xaff1},
		lookupItem{cp949: 0xb2e9, ucs2: 0xaff4},
		lookupItem{cp949: 0xb2ea, ucs2: 0xaff8},
		lookupItem{cp949: 0xb2eb, ucs2: 0xb000},
		lookupItem{cp949: 0xb2ec, ucs2: 0xb001},
		lookupItem{cp949: 0xb2ed, ucs2: 0xb004},
		lookupItem{cp949: 0xb2ee, ucs2: 0xb00c},
		lookupItem{cp949: 0xb2ef, ucs2: 0xb010},
		lookupItem{cp949: 0xb2f0, ucs2: 0xb014},
		lookupItem{cp949: 0xb2f1, ucs2: 0xb01c},
		lookupItem{cp949: 0xb2f2, ucs2: 0xb01d},
		lookupItem{cp949: 0xb2f3, ucs2: 0xb028},
		lookupItem{cp949: 0xb2f4, ucs2: 0xb044},
		lookupItem{cp949: 0xb2f5, ucs2: 0xb045},
		lookupItem{cp949: 0xb2f6, ucs2: 0xb048},
		lookupItem{cp949: 0xb2f7, ucs2: 0xb04a},
		lookupItem{cp949: 0xb2f8, ucs2: 0xb04c},
		lookupItem{cp949: 0xb2f9, ucs2: 0xb04e},
		lookupItem{cp949: 0xb2fa, ucs2: 0xb053},
		lookupItem{cp949: 0xb2fb, ucs2: 0xb054},
		lookupItem{cp949: 0xb2fc, ucs2: 0xb055},
		lookupItem{cp949: 0xb2fd, ucs2: 0xb057},
		lookupItem{cp949: 0xb2fe, ucs2: 0xb059},
		lookupItem{cp949: 0xb341, ucs2: 0xcfcc},
		lookupItem{cp949: 0xb342, ucs2: 0xcfcd},
		lookupItem{cp949: 0xb343, ucs2: 0xcfce},
		lookupItem{cp949: 0xb344, ucs2: 0xcfcf},
		lookupItem{cp949: 0xb345, ucs2: 0xcfd0},
		lookupItem{cp949: 0xb346, ucs2: 0xcfd1},
		lookupItem{cp949: 0xb347, ucs2: 0xcfd2},
		lookupItem{cp949: 0xb348, ucs2: 0xcfd3},
		lookupItem{cp949: 0xb349, ucs2: 0xcfd4},
		lookupItem{cp949: 0xb34a, ucs2: 0xcfd5},
		lookupItem{cp949: 0xb34b, ucs2: 0xcfd6},
		lookupItem{cp949: 0xb34c, ucs2: 0xcfd7},
		lookupItem{cp949: 0xb34d, ucs2: 0xcfd8},
		lookupItem{cp949: 0xb34e, ucs2: 0xcfd9},
".
Definition text_cp949_lookup_from_034 : string :=
"		lookupItem{cp949: 0xb34f, ucs2: 0xcfda},
		lookupItem{cp949: 0xb350, ucs2: 0xcfdb},
		lookupItem{cp949: 0xb351, ucs2: 0xcfdc},
		lookupItem{cp949: 0xb352, ucs2: 0xcfdd},
		lookupItem{cp949: 0xb353, ucs2: 0xcfde},
		lookupItem{cp949: 0xb354, ucs2: 0xcfdf},
		lookupItem{cp949: 0xb355, ucs2: 0xcfe2},
		lookupItem{cp949: 0xb356, ucs2: 0xcfe3},
		lookupItem{cp949: 0xb357, ucs2: 0xcfe5},
		lookupItem{cp949: 0xb358, ucs2: 0xcfe6},
		lookupItem{cp949: 0xb359, ucs2: 0xcfe7},
		lookupItem{cp949: 0xb35a, ucs2: 0xcfe9},
		lookupItem{cp949: 0xb361, ucs2: 0xcfea},
		lookupItem{cp949: 0xb362, ucs2: 0xcfeb},
		lookupItem{cp949: 0xb363, ucs2: 0xcfec},
		lookupItem{cp949: 0xb364, ucs2: 0xcfed},
		lookupItem{cp949: 0xb365, ucs2: 0xcfee},
		lookupItem{cp949: 0xb366, ucs2: 0xcfef},
		lookupItem{cp949: 0xb367, ucs2: 0xcff2},
		lookupItem{cp949: 0xb368, ucs2: 0xcff4},
		lookupItem{cp949: 0xb369, ucs2: 0xcff6},
		lookupItem{cp949: 0xb36a, ucs2: 0xcff7},
		lookupItem{cp949: 0xb36b, ucs2: 0xcff8},
		lookupItem{cp949: 0xb36c, ucs2: 0xcff9},
		lookupItem{cp949: 0xb36d, ucs2: 0xcffa},
		lookupItem{cp949: 0xb36e, ucs2: 0xcffb},
		lookupItem{cp949: 0xb36f, ucs2: 0xcffd},
		lookupItem{cp949: 0xb370, ucs2: 0xcffe},
		lookupItem{cp949: 0xb371, ucs2: 0xcfff},
		lookupItem{cp949: 0xb372, ucs2: 0xd001},
		lookupItem{cp949: 0xb373, ucs2: 0xd002},
		lookupItem{cp949: 0xb374, ucs2: 0xd003},
		lookupItem{cp949: 0xb375, ucs2: 0xd005},
		lookupItem{cp949: 0xb376, ucs2: 0xd006},
		lookupItem{cp949: 0xb377, ucs2: 0xd007},
		lookupItem{cp949: 0xb378, ucs2: 0xd008},
		lookupItem{cp949: 0xb379, ucs2: 0xd009},
		lookupItem{cp949: 0xb37a, ucs2: 0xd00a},
		lookupItem{cp949: 0xb381, ucs2: 0xd00b},
		lookupItem{cp949: 0xb382, ucs2: 0xd00c},
		lookupItem{cp949: 0xb383, ucs2: 0xd00d},
		lookupItem{cp949: 0xb384, ucs2: 0xd00e},
		lookupItem{cp949: 0xb385, ucs2: 0xd00f},
		lookupItem{cp949: 0xb386, ucs2: 0xd010},
		lookupItem{cp949: 0xb387, ucs2: 0xd012},
		lookupItem{cp949: 0xb388, ucs2: 0xd013},
		lookupItem{cp949: 0xb389, ucs2: 0xd014},
		lookupItem{cp949: 0xb38a, ucs2: 0xd015},
		lookupItem{cp949: 0xb38b, ucs2: 0xd016},
		lookupItem{cp949: 0xb38c, ucs2: 0xd017},
		lookupItem{cp949: 0xb38d, ucs2: 0xd019},
		lookupItem{cp949: 0xb38e, ucs2: 0xd01a},
		lookupItem{cp949: 0xb38f, ucs2: 0xd01b},
		lookupItem{cp949: 0xb390, ucs2: 0xd01c},
		lookupItem{cp949: 0xb391, ucs2: 0xd01d},
		lookupItem{cp949: 0xb392, ucs2: 0xd01e},
		lookupItem{cp949: 0xb393, ucs2: 0xd01f},
		lookupItem{cp949: 0xb394, ucs2: 0xd020},
		lookupItem{cp949: 0xb395, ucs2: 0xd021},
		lookupItem{cp949: 0xb396, ucs2: 0xd022},
		lookupItem{cp949: 0xb397, ucs2: 0xd023},
		lookupItem{cp949: 0xb398, ucs2: 0xd024},
		lookupItem{cp949: 0xb399, ucs2: 0xd025},
		lookupItem{cp949: 0xb39a, ucs2: 0xd026},
		lookupItem{cp949: 0xb39b, ucs2: 0xd027},
		lookupItem{cp949: 0xb39c, ucs2: 0xd028},
		lookupItem{cp949: 0xb39d, ucs2: 0xd029},
		lookupItem{cp949: 0xb39e, ucs2: 0xd02a},
		lookupItem{cp949: 0xb39f, ucs2: 0xd02b},
		lookupItem{cp949: 0xb3a0, ucs2: 0xd02c},
		lookupItem{cp949: 0xb3a1, ucs2: 0xb05d},
		lookupItem{cp949: 0xb3a2, ucs2: 0xb07c},
		lookupItem{cp949: 0xb3a3, ucs2: 0xb07d},
		lookupItem{cp949: 0xb3a4, ucs2: 0xb080},
		lookupItem{cp949: 0xb3a5, ucs2: 0xb084},
		lookupItem{cp949: 0xb3a6, ucs2: 0xb08c},
		lookupItem{cp949: 0xb3a7, ucs2: 0xb08d},
		lookupItem{cp949: 0xb3a8, ucs2: 0xb08f},
		lookupItem{cp949: 0xb3a9, ucs2: 0xb091},
		lookupItem{cp949: 0xb3aa, ucs2: 0xb098},
		lookupItem{cp949: 0xb3ab, ucs2: 0xb099},
		lookupItem{cp949: 0xb3ac, ucs2: 0xb09a},
		lookupItem{cp949: 0xb3ad, ucs2: 0xb09c},
		lookupItem{cp949: 0xb3ae, ucs2: 0xb09f},
		lookupItem{cp949: 0xb3af, ucs2: 0xb0a0},
		lookupItem{cp949: 0xb3b0, ucs2: 0xb0a1},
		lookupItem{cp949: 0xb3b1, ucs2: 0xb0a2},
		lookupItem{cp949: 0xb3b2, ucs2: 0xb0a8},
		lookupItem{cp949: 0xb3b3, ucs2: 0xb0a9},
		lookupItem{cp949: 0xb3b4, ucs2: 0xb0ab},
		lookupItem{cp949: 0xb3b5, ucs2: 0xb0ac},
		lookupItem{cp949: 0xb3b6, ucs2: 0xb0ad},
		lookupItem{cp949: 0xb3b7, ucs2: 0xb0ae},
		lookupItem{cp949: 0xb3b8, ucs2: 0xb0af},
		lookupItem{cp949: 0xb3b9, ucs2: 0xb0b1},
		lookupItem{cp949: 0xb3ba, ucs2: 0xb0b3},
		lookupItem{cp949: 0xb3bb, ucs2: 0xb0b4},
		lookupItem{cp949: 0xb3bc, ucs2: 0xb0b5},
		lookupItem{cp949: 0xb3bd, ucs2: 0xb0b8},
		lookupItem{cp949: 0xb3be, ucs2: 0xb0bc},
		lookupItem{cp949: 0xb3bf, ucs2: 0xb0c4},
		lookupItem{cp949: 0xb3c0, ucs2: 0xb0c5},
		lookupItem{cp949: 0xb3c1, ucs2: 0xb0c7},
		lookupItem{cp949: 0xb3c2, ucs2: 0xb0c8},
		lookupItem{cp949: 0xb3c3, ucs2: 0xb0c9},
		lookupItem{cp949: 0xb3c4, ucs2: 0xb0d0},
		lookupItem{cp949: 0xb3c5, ucs2: 0xb0d1},
		lookupItem{cp949: 0xb3c6, ucs2: 0xb0d4},
		lookupItem{cp949: 0xb3c7, ucs2: 0xb0d8},
		lookupItem{cp949: 0xb3c8, ucs2: 0xb0e0},
		lookupItem{cp949: 0xb3c9, ucs2: 0xb0e5},
		lookupItem{cp949: 0xb3ca, ucs2: 0xb108},
		lookupItem{cp949: 0xb3cb, ucs2: 0xb109},
		lookupItem{cp949: 0xb3cc, ucs2: 0xb10b},
		lookupItem{cp949: 0xb3cd, ucs2: 0xb10c},
		lookupItem{cp949: 0xb3ce, ucs2: 0xb110},
		lookupItem{cp949: 0xb3cf, ucs2: 0xb112},
		lookupItem{cp949: 0xb3d0, ucs2: 0xb113},
		lookupItem{cp949: 0xb3d1, ucs2: 0xb118},
		lookupItem{cp949: 0xb3d2, ucs2: 0xb119},
		lookupItem{cp949: 0xb3d3, ucs2: 0xb11b},
		lookupItem{cp949: 0xb3d4, ucs2: 0xb11c},
		lookupItem{cp949: 0xb3d5, ucs2: 0xb11d},
		lookupItem{cp949: 0xb3d6, ucs2: 0xb123},
		lookupItem{cp949: 0xb3d7, ucs2: 0xb124},
		lookupItem{cp949: 0xb3d8, ucs2: 0xb125},
		lookupItem{cp949: 0xb3d9, ucs2: 0xb128},
		lookupItem{cp949: 0xb3da, ucs2: 0xb12c},
		lookupItem{cp949: 0xb3db, ucs2: 0xb134},
		lookupItem{cp949: 0xb3dc, ucs2: 0xb135},
		lookupItem{cp949: 0xb3dd, ucs2: 0xb137},
		lookupItem{cp949: 0xb3de, ucs2: 0xb138},
		lookupItem{cp949: 0xb3df, ucs2: 0xb139},
		lookupItem{cp949: 0xb3e0, ucs2: 0xb140},
		lookupItem{cp949: 0xb3e1, ucs2: 0xb141},
		lookupItem{cp949: 0xb3e2, ucs2: 0xb144},
		lookupItem{cp949: 0xb3e3, ucs2: 0xb148},
		lookupItem{cp949: 0xb3e4, ucs2: 0xb150},
		lookupItem{cp949: 0xb3e5, ucs2: 0xb151},
		lookupItem{cp949: 0xb3e6, ucs2: 0xb154},
		lookupItem{cp949: 0xb3e7, ucs2: 0xb155},
		lookupItem{cp949: 0xb3e8, ucs2: 0xb158},
		lookupItem{cp949: 0xb3e9, ucs2: 0xb15c},
		lookupItem{cp949: 0xb3ea, ucs2: 0xb160},
		lookupItem{cp949: 0xb3eb, ucs2: 0xb178},
		lookupItem{cp949: 0xb3ec, ucs2: 0xb179},
		lookupItem{cp949: 0xb3ed, ucs2: 0xb17c},
		lookupItem{cp949: 0xb3ee, ucs2: 0xb180},
		lookupItem{cp949: 0xb3ef, ucs2: 0xb182},
		lookupItem{cp949: 0xb3f0, ucs2: 0xb188},
		lookupItem{cp949: 0xb3f1, ucs2: 0xb189},
		lookupItem{cp949: 0xb3f2, ucs2: 0xb18b},
		lookupItem{cp949: 0xb3f3, ucs2: 0xb18d},
		lookupItem{cp949: 0xb3f4, ucs2: 0xb192},
		lookupItem{cp949: 0xb3f5, ucs2: 0xb193},
		lookupItem{cp949: 0xb3f6, ucs2: 0xb194},
		lookupItem{cp949: 0xb3f7, ucs2: 0xb198},
		lookupItem{cp949: 0xb3f8, ucs2: 0xb19c},
		lookupItem{cp949: 0xb3f9, ucs2: 0xb1a8},
		lookupItem{cp949: 0xb3fa, ucs2: 0xb1cc},
		lookupItem{cp949: 0xb3fb, ucs2: 0xb1d0},
		lookupItem{cp949: 0xb3fc, ucs2: 0xb1d4},
		lookupItem{cp949: 0xb3fd, ucs2: 0xb1dc},
		lookupItem{cp949: 0xb3fe, ucs2: 0xb1dd},
		lookupItem{cp949: 0xb441, ucs2: 0xd02e},
		lookupItem{cp949: 0xb442, ucs2: 0xd02f},
		lookupItem{cp949: 0xb443, ucs2: 0xd030},
		lookupItem{cp949: 0xb444, ucs2: 0xd031},
		lookupItem{cp949: 0xb445, ucs2: 0xd032},
		lookupItem{cp949: 0xb446, ucs2: 0xd033},
		lookupItem{cp949: 0xb447, ucs2: 0xd036},
		lookupItem{cp949: 0xb448, ucs2: 0xd037},
		lookupItem{cp949: 0xb449, ucs2: 0xd039},
		lookupItem{cp949: 0xb44a, ucs2: 0xd03a},
		lookupItem{cp949: 0xb44b, ucs2: 0xd03b},
		lookupItem{cp949: 0xb44c, ucs2: 0xd03d},
		lookupItem{cp949: 0xb44d, ucs2: 0xd03e},
		lookupItem{cp949: 0xb44e, ucs2: 0xd03f},
		lookupItem{cp949: 0xb44f, ucs2: 0xd040},
		lookupItem{cp949: 0xb450, ucs2: 0xd041},
		lookupItem{cp949: 0xb451, ucs2: 0xd042},
		lookupItem{cp949: 0xb452, ucs2: 0xd043},
		lookupItem{cp949: 0xb453, ucs2: 0xd046},
		lookupItem{cp949: 0xb454, ucs2: 0xd048},
		lookupItem{cp949: 0xb455, ucs2: 0xd04a},
		lookupItem{cp949: 0xb456, ucs2: 0xd04b},
		lookupItem{cp949: 0xb457, ucs2: 0xd04c},
		lookupItem{cp949: 0xb458, ucs2: 0xd04d},
		lookupItem{cp949: 0xb459, ucs2: 0xd04e},
		lookupItem{cp949: 0xb45a, ucs2: 0xd04f},
		lookupItem{cp949: 0xb461, ucs2: 0xd051},
		lookupItem{cp949: 0xb462, ucs2: 0xd052},
		lookupItem{cp949: 0xb463, ucs2: 0xd053},
		lookupItem{cp949: 0xb464, ucs2: 0xd055},
		lookupItem{cp949: 0xb465, ucs2: 0xd056},
		lookupItem{cp949: 0xb466, ucs2: 0xd057},
		lookupItem{cp949: 0xb467, ucs2: 0xd059},
		lookupItem{cp949: 0xb468, ucs2: 0xd05a},
		lookupItem{cp949: 0xb469, ucs2: 0xd05b},
		lookupItem{cp949: 0xb46a, ucs2: 0xd05c},
		lookupItem{cp949: 0xb46b, ucs2: 0xd05d},
		lookupItem{cp949: 0xb46c, ucs2: 0xd05e},
		lookupItem{cp949: 0xb46d, ucs2: 0xd05f},
		lookupItem{cp949: 0xb46e, ucs2: 0xd061},
		lookupItem{cp949: 0xb46f, ucs2: 0xd062},
		lookupItem{cp949: 0xb470, ucs2: 0xd063},
		lookupItem{cp949: 0xb471, ucs2: 0xd064},
		lookupItem{cp949: 0xb472, ucs2: 0xd065},
		lookupItem{cp949: 0xb473, ucs2: 0xd066},
		lookupItem{cp949: 0xb474, ucs2: 0xd067},
		lookupItem{cp949: 0xb475, ucs2: 0xd068},
		lookupItem{cp949: 0xb476, ucs2: 0xd069},
		lookupItem{cp949: 0xb477, ucs2: 0xd06a},
		lookupItem{cp949: 0xb478, ucs2: 0xd06b},
		lookupItem{cp949: 0xb479, ucs2: 0xd06e},
		lookupItem{cp949: 0xb47a, ucs2: 0xd06f},
		lookupItem{cp949: 0xb481, ucs2: 0xd071},
		lookupItem{cp949: 0xb482, ucs2: 0xd072},
		lookupItem{cp949: 0xb483, ucs2: 0xd073},
		lookupItem{cp949: 0xb484, ucs2: 0xd075},
		lookupItem{cp949: 0xb485, ucs2: 0xd076},
		lookupItem{cp949: 0xb486, ucs2: 0xd077},
		lookupItem{cp949: 0xb487, ucs2: 0xd078},
		lookupItem{cp949: 0xb488, ucs2: 0xd079},
		lookupItem{cp949: 0xb489, ucs2: 0xd07a},
		lookupItem{cp949: 0xb48a, ucs2: 0xd07b},
		lookupItem{cp949: 0xb48b, ucs2: 0xd07e},
		lookupItem{cp949: 0xb48c, ucs2: 0xd07f},
		lookupItem{cp949: 0xb48d, ucs2: 0xd080},
		lookupItem{cp949: 0xb48e, ucs2: 0xd082},
		lookupItem{cp949: 0xb48f, ucs2: 0xd083},
		lookupItem{cp949: 0xb490, ucs2: 0xd084},
		lookupItem{cp949: 0xb491, ucs2: 0xd085},
		lookupItem{cp949: 0xb492, ucs2: 0xd086},
		lookupItem{cp949: 0xb493, ucs2: 0xd087},
		lookupItem{cp949: 0xb494, ucs2: 0xd088},
		lookupItem{cp949: 0xb495, ucs2: 0xd089},
		lookupItem{cp949: 0xb496, ucs2: 0xd08a},
		lookupItem{cp949: 0xb497, ucs2: 0xd08b},
		lookupItem{cp949: 0xb498, ucs2: 0xd08c},
		lookupItem{cp949: 0xb499, ucs2: 0xd08d},
		lookupItem{cp949: 0xb49a, ucs2: 0xd08e},
		lookupItem{cp949: 0xb49b, ucs2: 0xd08f},
		lookupItem{cp949: 0xb49c, ucs2: 0xd090},
		lookupItem{cp949: 0xb49d, ucs2: 0xd091},
		lookupItem{cp949: 0xb49e, ucs2: 0xd092},
		lookupItem{cp949: 0xb49f, ucs2: 0xd093},
		lookupItem{cp949: 0xb4a0, ucs2: 0xd094},
		lookupItem{cp949: 0xb4a1, ucs2: 0xb1df},
		lookupItem{cp949: 0xb4a2, ucs2: 0xb1e8},
".
Definition text_cp949_lookup_from_035 : string :=
"		lookupItem{cp949: 0xb4a3, ucs2: 0xb1e9},
		lookupItem{cp949: 0xb4a4, ucs2: 0xb1ec},
		lookupItem{cp949: 0xb4a5, ucs2: 0xb1f0},
		lookupItem{cp949: 0xb4a6, ucs2: 0xb1f9},
		lookupItem{cp949: 0xb4a7, ucs2: 0xb1fb},
		lookupItem{cp949: 0xb4a8, ucs2: 0xb1fd},
		lookupItem{cp949: 0xb4a9, ucs2: 0xb204},
		lookupItem{cp949: 0xb4aa, ucs2: 0xb205},
		lookupItem{cp949: 0xb4ab, ucs2: 0xb208},
		lookupItem{cp949: 0xb4ac, ucs2: 0xb20b},
		lookupItem{cp949: 0xb4ad, ucs2: 0xb20c},
		lookupItem{cp949: 0xb4ae, ucs2: 0xb214},
		lookupItem{cp949: 0xb4af, ucs2: 0xb215},
		lookupItem{cp949: 0xb4b0, ucs2: 0xb217},
		lookupItem{cp949: 0xb4b1, ucs2: 0xb219},
		lookupItem{cp949: 0xb4b2, ucs2: 0xb220},
		lookupItem{cp949: 0xb4b3, ucs2: 0xb234},
		lookupItem{cp949: 0xb4b4, ucs2: 0xb23c},
		lookupItem{cp949: 0xb4b5, ucs2: 0xb258},
		lookupItem{cp949: 0xb4b6, ucs2: 0xb25c},
		lookupItem{cp949: 0xb4b7, ucs2: 0xb260},
		lookupItem{cp949: 0xb4b8, ucs2: 0xb268},
		lookupItem{cp949: 0xb4b9, ucs2: 0xb269},
		lookupItem{cp949: 0xb4ba, ucs2: 0xb274},
		lookupItem{cp949: 0xb4bb, ucs2: 0xb275},
		lookupItem{cp949: 0xb4bc, ucs2: 0xb27c},
		lookupItem{cp949: 0xb4bd, ucs2: 0xb284},
		lookupItem{cp949: 0xb4be, ucs2: 0xb285},
		lookupItem{cp949: 0xb4bf, ucs2: 0xb289},
		lookupItem{cp949: 0xb4c0, ucs2: 0xb290},
		lookupItem{cp949: 0xb4c1, ucs2: 0xb291},
		lookupItem{cp949: 0xb4c2, ucs2: 0xb294},
		lookupItem{cp949: 0xb4c3, ucs2: 0xb298},
		lookupItem{cp949: 0xb4c4, ucs2: 0xb299},
		lookupItem{cp949: 0xb4c5, ucs2: 0xb29a},
		lookupItem{cp949: 0xb4c6, ucs2: 0xb2a0},
		lookupItem{cp949: 0xb4c7, ucs2: 0xb2a1},
		lookupItem{cp949: 0xb4c8, ucs2: 0xb2a3},
		lookupItem{cp949: 0xb4c9, ucs2: 0xb2a5},
		lookupItem{cp949: 0xb4ca, ucs2: 0xb2a6},
		lookupItem{cp949: 0xb4cb, ucs2: 0xb2aa},
		lookupItem{cp949: 0xb4cc, ucs2: 0xb2ac},
		lookupItem{cp949: 0xb4cd, ucs2: 0xb2b0},
		lookupItem{cp949: 0xb4ce, ucs2: 0xb2b4},
		lookupItem{cp949: 0xb4cf, ucs2: 0xb2c8},
		lookupItem{cp949: 0xb4d0, ucs2: 0xb2c9},
		lookupItem{cp949: 0xb4d1, ucs2: 0xb2cc},
		lookupItem{cp949: 0xb4d2, ucs2: 0xb2d0},
		lookupItem{cp949: 0xb4d3, ucs2: 0xb2d2},
		lookupItem{cp949: 0xb4d4, ucs2: 0xb2d8},
		lookupItem{cp949: 0xb4d5, ucs2: 0xb2d9},
		lookupItem{cp949: 0xb4d6, ucs2: 0xb2db},
		lookupItem{cp949: 0xb4d7, ucs2: 0xb2dd},
		lookupItem{cp949: 0xb4d8, ucs2: 0xb2e2},
		lookupItem{cp949: 0xb4d9, ucs2: 0xb2e4},
		lookupItem{cp949: 0xb4da, ucs2: 0xb2e5},
		lookupItem{cp949: 0xb4db, ucs2: 0xb2e6},
		lookupItem{cp949: 0xb4dc, ucs2: 0xb2e8},
		lookupItem{cp949: 0xb4dd, ucs2: 0xb2eb},
		lookupItem{cp949: 0xb4de, ucs2: 0xb2ec},
		lookupItem{cp949: 0xb4df, ucs2: 0xb2ed},
		lookupItem{cp949: 0xb4e0, ucs2: 0xb2ee},
		lookupItem{cp949: 0xb4e1, ucs2: 0xb2ef},
		lookupItem{cp949: 0xb4e2, ucs2: 0xb2f3},
		lookupItem{cp949: 0xb4e3, ucs2: 0xb2f4},
		lookupItem{cp949: 0xb4e4, ucs2: 0xb2f5},
		lookupItem{cp949: 0xb4e5, ucs2: 0xb2f7},
		lookupItem{cp949: 0xb4e6, ucs2: 0xb2f8},
		lookupItem{cp949: 0xb4e7, ucs2: 0xb2f9},
		lookupItem{cp949: 0xb4e8, ucs2: 0xb2fa},
		lookupItem{cp949: 0xb4e9, ucs2: 0xb2fb},
		lookupItem{cp949: 0xb4ea, ucs2: 0xb2ff},
		lookupItem{cp949: 0xb4eb, ucs2: 0xb300},
		lookupItem{cp949: 0xb4ec, ucs2: 0xb301},
		lookupItem{cp949: 0xb4ed, ucs2: 0xb304},
		lookupItem{cp949: 0xb4ee, ucs2: 0xb308},
		lookupItem{cp949: 0xb4ef, ucs2: 0xb310},
		lookupItem{cp949: 0xb4f0, ucs2: 0xb311},
		lookupItem{cp949: 0xb4f1, ucs2: 0xb313},
		lookupItem{cp949: 0xb4f2, ucs2: 0xb314},
		lookupItem{cp949: 0xb4f3, ucs2: 0xb315},
		lookupItem{cp949: 0xb4f4, ucs2: 0xb31c},
		lookupItem{cp949: 0xb4f5, ucs2: 0xb354},
		lookupItem{cp949: 0xb4f6, ucs2: 0xb355},
		lookupItem{cp949: 0xb4f7, ucs2: 0xb356},
		lookupItem{cp949: 0xb4f8, ucs2: 0xb358},
		lookupItem{cp949: 0xb4f9, ucs2: 0xb35b},
		lookupItem{cp949: 0xb4fa, ucs2: 0xb35c},
		lookupItem{cp949: 0xb4fb, ucs2: 0xb35e},
		lookupItem{cp949: 0xb4fc, ucs2: 0xb35f},
		lookupItem{cp949: 0xb4fd, ucs2: 0xb364},
		lookupItem{cp949: 0xb4fe, ucs2: 0xb365},
		lookupItem{cp949: 0xb541, ucs2: 0xd095},
		lookupItem{cp949: 0xb542, ucs2: 0xd096},
		lookupItem{cp949: 0xb543, ucs2: 0xd097},
		lookupItem{cp949: 0xb544, ucs2: 0xd098},
		lookupItem{cp949: 0xb545, ucs2: 0xd099},
		lookupItem{cp949: 0xb546, ucs2: 0xd09a},
		lookupItem{cp949: 0xb547, ucs2: 0xd09b},
		lookupItem{cp949: 0xb548, ucs2: 0xd09c},
		lookupItem{cp949: 0xb549, ucs2: 0xd09d},
		lookupItem{cp949: 0xb54a, ucs2: 0xd09e},
		lookupItem{cp949: 0xb54b, ucs2: 0xd09f},
		lookupItem{cp949: 0xb54c, ucs2: 0xd0a0},
		lookupItem{cp949: 0xb54d, ucs2: 0xd0a1},
		lookupItem{cp949: 0xb54e, ucs2: 0xd0a2},
		lookupItem{cp949: 0xb54f, ucs2: 0xd0a3},
		lookupItem{cp949: 0xb550, ucs2: 0xd0a6},
		lookupItem{cp949: 0xb551, ucs2: 0xd0a7},
		lookupItem{cp949: 0xb552, ucs2: 0xd0a9},
		lookupItem{cp949: 0xb553, ucs2: 0xd0aa},
		lookupItem{cp949: 0xb554, ucs2: 0xd0ab},
		lookupItem{cp949: 0xb555, ucs2: 0xd0ad},
		lookupItem{cp949: 0xb556, ucs2: 0xd0ae},
		lookupItem{cp949: 0xb557, ucs2: 0xd0af},
		lookupItem{cp949: 0xb558, ucs2: 0xd0b0},
		lookupItem{cp949: 0xb559, ucs2: 0xd0b1},
		lookupItem{cp949: 0xb55a, ucs2: 0xd0b2},
		lookupItem{cp949: 0xb561, ucs2: 0xd0b3},
		lookupItem{cp949: 0xb562, ucs2: 0xd0b6},
		lookupItem{cp949: 0xb563, ucs2: 0xd0b8},
		lookupItem{cp949: 0xb564, ucs2: 0xd0ba},
		lookupItem{cp949: 0xb565, ucs2: 0xd0bb},
		lookupItem{cp949: 0xb566, ucs2: 0xd0bc},
		lookupItem{cp949: 0xb567, ucs2: 0xd0bd},
		lookupItem{cp949: 0xb568, ucs2: 0xd0be},
		lookupItem{cp949: 0xb569, ucs2: 0xd0bf},
		lookupItem{cp949: 0xb56a, ucs2: 0xd0c2},
		lookupItem{cp949: 0xb56b, ucs2: 0xd0c3},
		lookupItem{cp949: 0xb56c, ucs2: 0xd0c5},
		lookupItem{cp949: 0xb56d, ucs2: 0xd0c6},
		lookupItem{cp949: 0xb56e, ucs2: 0xd0c7},
		lookupItem{cp949: 0xb56f, ucs2: 0xd0ca},
		lookupItem{cp949: 0xb570, ucs2: 0xd0cb},
		lookupItem{cp949: 0xb571, ucs2: 0xd0cc},
		lookupItem{cp949: 0xb572, ucs2: 0xd0cd},
		lookupItem{cp949: 0xb573, ucs2: 0xd0ce},
		lookupItem{cp949: 0xb574, ucs2: 0xd0cf},
		lookupItem{cp949: 0xb575, ucs2: 0xd0d2},
		lookupItem{cp949: 0xb576, ucs2: 0xd0d6},
		lookupItem{cp949: 0xb577, ucs2: 0xd0d7},
		lookupItem{cp949: 0xb578, ucs2: 0xd0d8},
		lookupItem{cp949: 0xb579, ucs2: 0xd0d9},
		lookupItem{cp949: 0xb57a, ucs2: 0xd0da},
		lookupItem{cp949: 0xb581, ucs2: 0xd0db},
		lookupItem{cp949: 0xb582, ucs2: 0xd0de},
		lookupItem{cp949: 0xb583, ucs2: 0xd0df},
		lookupItem{cp949: 0xb584, ucs2: 0xd0e1},
		lookupItem{cp949: 0xb585, ucs2: 0xd0e2},
		lookupItem{cp949: 0xb586, ucs2: 0xd0e3},
		lookupItem{cp949: 0xb587, ucs2: 0xd0e5},
		lookupItem{cp949: 0xb588, ucs2: 0xd0e6},
		lookupItem{cp949: 0xb589, ucs2: 0xd0e7},
		lookupItem{cp949: 0xb58a, ucs2: 0xd0e8},
		lookupItem{cp949: 0xb58b, ucs2: 0xd0e9},
		lookupItem{cp949: 0xb58c, ucs2: 0xd0ea},
		lookupItem{cp949: 0xb58d, ucs2: 0xd0eb},
		lookupItem{cp949: 0xb58e, ucs2: 0xd0ee},
		lookupItem{cp949: 0xb58f, ucs2: 0xd0f2},
		lookupItem{cp949: 0xb590, ucs2: 0xd0f3},
		lookupItem{cp949: 0xb591, ucs2: 0xd0f4},
		lookupItem{cp949: 0xb592, ucs2: 0xd0f5},
		lookupItem{cp949: 0xb593, ucs2: 0xd0f6},
		lookupItem{cp949: 0xb594, ucs2: 0xd0f7},
		lookupItem{cp949: 0xb595, ucs2: 0xd0f9},
		lookupItem{cp949: 0xb596, ucs2: 0xd0fa},
		lookupItem{cp949: 0xb597, ucs2: 0xd0fb},
		lookupItem{cp949: 0xb598, ucs2: 0xd0fc},
		lookupItem{cp949: 0xb599, ucs2: 0xd0fd},
		lookupItem{cp949: 0xb59a, ucs2: 0xd0fe},
		lookupItem{cp949: 0xb59b, ucs2: 0xd0ff},
		lookupItem{cp949: 0xb59c, ucs2: 0xd100},
		lookupItem{cp949: 0xb59d, ucs2: 0xd101},
		lookupItem{cp949: 0xb59e, ucs2: 0xd102},
		lookupItem{cp949: 0xb59f, ucs2: 0xd103},
		lookupItem{cp949: 0xb5a0, ucs2: 0xd104},
		lookupItem{cp949: 0xb5a1, ucs2: 0xb367},
		lookupItem{cp949: 0xb5a2, ucs2: 0xb369},
		lookupItem{cp949: 0xb5a3, ucs2: 0xb36b},
		lookupItem{cp949: 0xb5a4, ucs2: 0xb36e},
		lookupItem{cp949: 0xb5a5, ucs2: 0xb370},
		lookupItem{cp949: 0xb5a6, ucs2: 0xb371},
		lookupItem{cp949: 0xb5a7, ucs2: 0xb374},
		lookupItem{cp949: 0xb5a8, ucs2: 0xb378},
		lookupItem{cp949: 0xb5a9, ucs2: 0xb380},
		lookupItem{cp949: 0xb5aa, ucs2: 0xb381},
		lookupItem{cp949: 0xb5ab, ucs2: 0xb383},
		lookupItem{cp949: 0xb5ac, ucs2: 0xb384},
		lookupItem{cp949: 0xb5ad, ucs2: 0xb385},
		lookupItem{cp949: 0xb5ae, ucs2: 0xb38c},
		lookupItem{cp949: 0xb5af, ucs2: 0xb390},
		lookupItem{cp949: 0xb5b0, ucs2: 0xb394},
		lookupItem{cp949: 0xb5b1, ucs2: 0xb3a0},
		lookupItem{cp949: 0xb5b2, ucs2: 0xb3a1},
		lookupItem{cp949: 0xb5b3, ucs2: 0xb3a8},
		lookupItem{cp949: 0xb5b4, ucs2: 0xb3ac},
		lookupItem{cp949: 0xb5b5, ucs2: 0xb3c4},
		lookupItem{cp949: 0xb5b6, ucs2: 0xb3c5},
		lookupItem{cp949: 0xb5b7, ucs2: 0xb3c8},
		lookupItem{cp949: 0xb5b8, ucs2: 0xb3cb},
		lookupItem{cp949: 0xb5b9, ucs2: 0xb3cc},
		lookupItem{cp949: 0xb5ba, ucs2: 0xb3ce},
		lookupItem{cp949: 0xb5bb, ucs2: 0xb3d0},
		lookupItem{cp949: 0xb5bc, ucs2: 0xb3d4},
		lookupItem{cp949: 0xb5bd, ucs2: 0xb3d5},
		lookupItem{cp949: 0xb5be, ucs2: 0xb3d7},
		lookupItem{cp949: 0xb5bf, ucs2: 0xb3d9},
		lookupItem{cp949: 0xb5c0, ucs2: 0xb3db},
		lookupItem{cp949: 0xb5c1, ucs2: 0xb3dd},
		lookupItem{cp949: 0xb5c2, ucs2: 0xb3e0},
		lookupItem{cp949: 0xb5c3, ucs2: 0xb3e4},
		lookupItem{cp949: 0xb5c4, ucs2: 0xb3e8},
		lookupItem{cp949: 0xb5c5, ucs2: 0xb3fc},
		lookupItem{cp949: 0xb5c6, ucs2: 0xb410},
		lookupItem{cp949: 0xb5c7, ucs2: 0xb418},
		lookupItem{cp949: 0xb5c8, ucs2: 0xb41c},
		lookupItem{cp949: 0xb5c9, ucs2: 0xb420},
		lookupItem{cp949: 0xb5ca, ucs2: 0xb428},
		lookupItem{cp949: 0xb5cb, ucs2: 0xb429},
		lookupItem{cp949: 0xb5cc, ucs2: 0xb42b},
		lookupItem{cp949: 0xb5cd, ucs2: 0xb434},
		lookupItem{cp949: 0xb5ce, ucs2: 0xb450},
		lookupItem{cp949: 0xb5cf, ucs2: 0xb451},
		lookupItem{cp949: 0xb5d0, ucs2: 0xb454},
		lookupItem{cp949: 0xb5d1, ucs2: 0xb458},
		lookupItem{cp949: 0xb5d2, ucs2: 0xb460},
		lookupItem{cp949: 0xb5d3, ucs2: 0xb461},
		lookupItem{cp949: 0xb5d4, ucs2: 0xb463},
		lookupItem{cp949: 0xb5d5, ucs2: 0xb465},
		lookupItem{cp949: 0xb5d6, ucs2: 0xb46c},
		lookupItem{cp949: 0xb5d7, ucs2: 0xb480},
		lookupItem{cp949: 0xb5d8, ucs2: 0xb488},
		lookupItem{cp949: 0xb5d9, ucs2: 0xb49d},
		lookupItem{cp949: 0xb5da, ucs2: 0xb4a4},
		lookupItem{cp949: 0xb5db, ucs2: 0xb4a8},
		lookupItem{cp949: 0xb5dc, ucs2: 0xb4ac},
		lookupItem{cp949: 0xb5dd, ucs2: 0xb4b5},
		lookupItem{cp949: 0xb5de, ucs2: 0xb4b7},
		lookupItem{cp949: 0xb5df, ucs2: 0xb4b9},
		lookupItem{cp949: 0xb5e0, ucs2: 0xb4c0},
		lookupItem{cp949: 0xb5e1, ucs2: 0xb4c4},
		lookupItem{cp949: 0xb5e2, ucs2: 0xb4c8},
		lookupItem{cp949: 0xb5e3, ucs2: 0xb4d0},
		lookupItem{cp949: 0xb5e4, ucs2: 0xb4d5},
		lookupItem{cp949: 0xb5e5, ucs2: 0xb4dc},
		lookupItem{cp949: 0xb5e6, ucs2: 0xb4dd},
		lookupItem{cp949: 0xb5e7, ucs2: 0xb4e0},
		lookupItem{cp949: 0xb5e8, ucs2: 0xb4e3},
		lookupItem{cp949: 0xb5e9, ucs2: 0xb4e4},
		lookupItem{cp949: 0xb5ea, ucs2: 0xb4e6},
".
Definition text_cp949_lookup_from_036 : string :=
"		lookupItem{cp949: 0xb5eb, ucs2: 0xb4ec},
		lookupItem{cp949: 0xb5ec, ucs2: 0xb4ed},
		lookupItem{cp949: 0xb5ed, ucs2: 0xb4ef},
		lookupItem{cp949: 0xb5ee, ucs2: 0xb4f1},
		lookupItem{cp949: 0xb5ef, ucs2: 0xb4f8},
		lookupItem{cp949: 0xb5f0, ucs2: 0xb514},
		lookupItem{cp949: 0xb5f1, ucs2: 0xb515},
		lookupItem{cp949: 0xb5f2, ucs2: 0xb518},
		lookupItem{cp949: 0xb5f3, ucs2: 0xb51b},
		lookupItem{cp949: 0xb5f4, ucs2: 0xb51c},
		lookupItem{cp949: 0xb5f5, ucs2: 0xb524},
		lookupItem{cp949: 0xb5f6, ucs2: 0xb525},
		lookupItem{cp949: 0xb5f7, ucs2: 0xb527},
		lookupItem{cp949: 0xb5f8, ucs2: 0xb528},
		lookupItem{cp949: 0xb5f9, ucs2: 0xb529},
		lookupItem{cp949: 0xb5fa, ucs2: 0xb52a},
		lookupItem{cp949: 0xb5fb, ucs2: 0xb530},
		lookupItem{cp949: 0xb5fc, ucs2: 0xb531},
		lookupItem{cp949: 0xb5fd, ucs2: 0xb534},
		lookupItem{cp949: 0xb5fe, ucs2: 0xb538},
		lookupItem{cp949: 0xb641, ucs2: 0xd105},
		lookupItem{cp949: 0xb642, ucs2: 0xd106},
		lookupItem{cp949: 0xb643, ucs2: 0xd107},
		lookupItem{cp949: 0xb644, ucs2: 0xd108},
		lookupItem{cp949: 0xb645, ucs2: 0xd109},
		lookupItem{cp949: 0xb646, ucs2: 0xd10a},
		lookupItem{cp949: 0xb647, ucs2: 0xd10b},
		lookupItem{cp949: 0xb648, ucs2: 0xd10c},
		lookupItem{cp949: 0xb649, ucs2: 0xd10e},
		lookupItem{cp949: 0xb64a, ucs2: 0xd10f},
		lookupItem{cp949: 0xb64b, ucs2: 0xd110},
		lookupItem{cp949: 0xb64c, ucs2: 0xd111},
		lookupItem{cp949: 0xb64d, ucs2: 0xd112},
		lookupItem{cp949: 0xb64e, ucs2: 0xd113},
		lookupItem{cp949: 0xb64f, ucs2: 0xd114},
		lookupItem{cp949: 0xb650, ucs2: 0xd115},
		lookupItem{cp949: 0xb651, ucs2: 0xd116},
		lookupItem{cp949: 0xb652, ucs2: 0xd117},
		lookupItem{cp949: 0xb653, ucs2: 0xd118},
		lookupItem{cp949: 0xb654, ucs2: 0xd119},
		lookupItem{cp949: 0xb655, ucs2: 0xd11a},
		lookupItem{cp949: 0xb656, ucs2: 0xd11b},
		lookupItem{cp949: 0xb657, ucs2: 0xd11c},
		lookupItem{cp949: 0xb658, ucs2: 0xd11d},
		lookupItem{cp949: 0xb659, ucs2: 0xd11e},
		lookupItem{cp949: 0xb65a, ucs2: 0xd11f},
		lookupItem{cp949: 0xb661, ucs2: 0xd120},
		lookupItem{cp949: 0xb662, ucs2: 0xd121},
		lookupItem{cp949: 0xb663, ucs2: 0xd122},
		lookupItem{cp949: 0xb664, ucs2: 0xd123},
		lookupItem{cp949: 0xb665, ucs2: 0xd124},
		lookupItem{cp949: 0xb666, ucs2: 0xd125},
		lookupItem{cp949: 0xb667, ucs2: 0xd126},
		lookupItem{cp949: 0xb668, ucs2: 0xd127},
		lookupItem{cp949: 0xb669, ucs2: 0xd128},
		lookupItem{cp949: 0xb66a, ucs2: 0xd129},
		lookupItem{cp949: 0xb66b, ucs2: 0xd12a},
		lookupItem{cp949: 0xb66c, ucs2: 0xd12b},
		lookupItem{cp949: 0xb66d, ucs2: 0xd12c},
		lookupItem{cp949: 0xb66e, ucs2: 0xd12d},
		lookupItem{cp949: 0xb66f, ucs2: 0xd12e},
		lookupItem{cp949: 0xb670, ucs2: 0xd12f},
		lookupItem{cp949: 0xb671, ucs2: 0xd132},
		lookupItem{cp949: 0xb672, ucs2: 0xd133},
		lookupItem{cp949: 0xb673, ucs2: 0xd135},
		lookupItem{cp949: 0xb674, ucs2: 0xd136},
		lookupItem{cp949: 0xb675, ucs2: 0xd137},
		lookupItem{cp949: 0xb676, ucs2: 0xd139},
		lookupItem{cp949: 0xb677, ucs2: 0xd13b},
		lookupItem{cp949: 0xb678, ucs2: 0xd13c},
		lookupItem{cp949: 0xb679, ucs2: 0xd13d},
		lookupItem{cp949: 0xb67a, ucs2: 0xd13e},
		lookupItem{cp949: 0xb681, ucs2: 0xd13f},
		lookupItem{cp949: 0xb682, ucs2: 0xd142},
		lookupItem{cp949: 0xb683, ucs2: 0xd146},
		lookupItem{cp949: 0xb684, ucs2: 0xd147},
		lookupItem{cp949: 0xb685, ucs2: 0xd148},
		lookupItem{cp949: 0xb686, ucs2: 0xd149},
		lookupItem{cp949: 0xb687, ucs2: 0xd14a},
		lookupItem{cp949: 0xb688, ucs2: 0xd14b},
		lookupItem{cp949: 0xb689, ucs2: 0xd14e},
		lookupItem{cp949: 0xb68a, ucs2: 0xd14f},
		lookupItem{cp949: 0xb68b, ucs2: 0xd151},
		lookupItem{cp949: 0xb68c, ucs2: 0xd152},
		lookupItem{cp949: 0xb68d, ucs2: 0xd153},
		lookupItem{cp949: 0xb68e, ucs2: 0xd155},
		lookupItem{cp949: 0xb68f, ucs2: 0xd156},
		lookupItem{cp949: 0xb690, ucs2: 0xd157},
		lookupItem{cp949: 0xb691, ucs2: 0xd158},
		lookupItem{cp949: 0xb692, ucs2: 0xd159},
		lookupItem{cp949: 0xb693, ucs2: 0xd15a},
		lookupItem{cp949: 0xb694, ucs2: 0xd15b},
		lookupItem{cp949: 0xb695, ucs2: 0xd15e},
		lookupItem{cp949: 0xb696, ucs2: 0xd160},
		lookupItem{cp949: 0xb697, ucs2: 0xd162},
		lookupItem{cp949: 0xb698, ucs2: 0xd163},
		lookupItem{cp949: 0xb699, ucs2: 0xd164},
		lookupItem{cp949: 0xb69a, ucs2: 0xd165},
		lookupItem{cp949: 0xb69b, ucs2: 0xd166},
		lookupItem{cp949: 0xb69c, ucs2: 0xd167},
		lookupItem{cp949: 0xb69d, ucs2: 0xd169},
		lookupItem{cp949: 0xb69e, ucs2: 0xd16a},
		lookupItem{cp949: 0xb69f, ucs2: 0xd16b},
		lookupItem{cp949: 0xb6a0, ucs2: 0xd16d},
		lookupItem{cp949: 0xb6a1, ucs2: 0xb540},
		lookupItem{cp949: 0xb6a2, ucs2: 0xb541},
		lookupItem{cp949: 0xb6a3, ucs2: 0xb543},
		lookupItem{cp949: 0xb6a4, ucs2: 0xb544},
		lookupItem{cp949: 0xb6a5, ucs2: 0xb545},
		lookupItem{cp949: 0xb6a6, ucs2: 0xb54b},
		lookupItem{cp949: 0xb6a7, ucs2: 0xb54c},
		lookupItem{cp949: 0xb6a8, ucs2: 0xb54d},
		lookupItem{cp949: 0xb6a9, ucs2: 0xb550},
		lookupItem{cp949: 0xb6aa, ucs2: 0xb554},
		lookupItem{cp949: 0xb6ab, ucs2: 0xb55c},
		lookupItem{cp949: 0xb6ac, ucs2: 0xb55d},
		lookupItem{cp949: 0xb6ad, ucs2: 0xb55f},
		lookupItem{cp949: 0xb6ae, ucs2: 0xb560},
		lookupItem{cp949: 0xb6af, ucs2: 0xb561},
		lookupItem{cp949: 0xb6b0, ucs2: 0xb5a0},
		lookupItem{cp949: 0xb6b1, ucs2: 0xb5a1},
		lookupItem{cp949: 0xb6b2, ucs2: 0xb5a4},
		lookupItem{cp949: 0xb6b3, ucs2: 0xb5a8},
		lookupItem{cp949: 0xb6b4, ucs2: 0xb5aa},
		lookupItem{cp949: 0xb6b5, ucs2: 0xb5ab},
		lookupItem{cp949: 0xb6b6, ucs2: 0xb5b0},
		lookupItem{cp949: 0xb6b7, ucs2: 0xb5b1},
		lookupItem{cp949: 0xb6b8, ucs2: 0xb5b3},
		lookupItem{cp949: 0xb6b9, ucs2: 0xb5b4},
		lookupItem{cp949: 0xb6ba, ucs2: 0xb5b5},
		lookupItem{cp949: 0xb6bb, ucs2: 0xb5bb},
		lookupItem{cp949: 0xb6bc, ucs2: 0xb5bc},
		lookupItem{cp949: 0xb6bd, ucs2: 0xb5bd},
		lookupItem{cp949: 0xb6be, ucs2: 0xb5c0},
		lookupItem{cp949: 0xb6bf, ucs2: 0xb5c4},
		lookupItem{cp949: 0xb6c0, ucs2: 0xb5cc},
		lookupItem{cp949: 0xb6c1, ucs2: 0xb5cd},
		lookupItem{cp949: 0xb6c2, ucs2: 0xb5cf},
		lookupItem{cp949: 0xb6c3, ucs2: 0xb5d0},
		lookupItem{cp949: 0xb6c4, ucs2: 0xb5d1},
		lookupItem{cp949: 0xb6c5, ucs2: 0xb5d8},
		lookupItem{cp949: 0xb6c6, ucs2: 0xb5ec},
		lookupItem{cp949: 0xb6c7, ucs2: 0xb610},
		lookupItem{cp949: 0xb6c8, ucs2: 0xb611},
		lookupItem{cp949: 0xb6c9, ucs2: 0xb614},
		lookupItem{cp949: 0xb6ca, ucs2: 0xb618},
		lookupItem{cp949: 0xb6cb, ucs2: 0xb625},
		lookupItem{cp949: 0xb6cc, ucs2: 0xb62c},
		lookupItem{cp949: 0xb6cd, ucs2: 0xb634},
		lookupItem{cp949: 0xb6ce, ucs2: 0xb648},
		lookupItem{cp949: 0xb6cf, ucs2: 0xb664},
		lookupItem{cp949: 0xb6d0, ucs2: 0xb668},
		lookupItem{cp949: 0xb6d1, ucs2: 0xb69c},
		lookupItem{cp949: 0xb6d2, ucs2: 0xb69d},
		lookupItem{cp949: 0xb6d3, ucs2: 0xb6a0},
		lookupItem{cp949: 0xb6d4, ucs2: 0xb6a4},
		lookupItem{cp949: 0xb6d5, ucs2: 0xb6ab},
		lookupItem{cp949: 0xb6d6, ucs2: 0xb6ac},
		lookupItem{cp949: 0xb6d7, ucs2: 0xb6b1},
		lookupItem{cp949: 0xb6d8, ucs2: 0xb6d4},
		lookupItem{cp949: 0xb6d9, ucs2: 0xb6f0},
		lookupItem{cp949: 0xb6da, ucs2: 0xb6f4},
		lookupItem{cp949: 0xb6db, ucs2: 0xb6f8},
		lookupItem{cp949: 0xb6dc, ucs2: 0xb700},
		lookupItem{cp949: 0xb6dd, ucs2: 0xb701},
		lookupItem{cp949: 0xb6de, ucs2: 0xb705},
		lookupItem{cp949: 0xb6df, ucs2: 0xb728},
		lookupItem{cp949: 0xb6e0, ucs2: 0xb729},
		lookupItem{cp949: 0xb6e1, ucs2: 0xb72c},
		lookupItem{cp949: 0xb6e2, ucs2: 0xb72f},
		lookupItem{cp949: 0xb6e3, ucs2: 0xb730},
		lookupItem{cp949: 0xb6e4, ucs2: 0xb738},
		lookupItem{cp949: 0xb6e5, ucs2: 0xb739},
		lookupItem{cp949: 0xb6e6, ucs2: 0xb73b},
		lookupItem{cp949: 0xb6e7, ucs2: 0xb744},
		lookupItem{cp949: 0xb6e8, ucs2: 0xb748},
		lookupItem{cp949: 0xb6e9, ucs2: 0xb74c},
		lookupItem{cp949: 0xb6ea, ucs2: 0xb754},
		lookupItem{cp949: 0xb6eb, ucs2: 0xb755},
		lookupItem{cp949: 0xb6ec, ucs2: 0xb760},
		lookupItem{cp949: 0xb6ed, ucs2: 0xb764},
		lookupItem{cp949: 0xb6ee, ucs2: 0xb768},
		lookupItem{cp949: 0xb6ef, ucs2: 0xb770},
		lookupItem{cp949: 0xb6f0, ucs2: 0xb771},
		lookupItem{cp949: 0xb6f1, ucs2: 0xb773},
		lookupItem{cp949: 0xb6f2, ucs2: 0xb775},
		lookupItem{cp949: 0xb6f3, ucs2: 0xb77c},
		lookupItem{cp949: 0xb6f4, ucs2: 0xb77d},
		lookupItem{cp949: 0xb6f5, ucs2: 0xb780},
		lookupItem{cp949: 0xb6f6, ucs2: 0xb784},
		lookupItem{cp949: 0xb6f7, ucs2: 0xb78c},
		lookupItem{cp949: 0xb6f8, ucs2: 0xb78d},
		lookupItem{cp949: 0xb6f9, ucs2: 0xb78f},
		lookupItem{cp949: 0xb6fa, ucs2: 0xb790},
		lookupItem{cp949: 0xb6fb, ucs2: 0xb791},
		lookupItem{cp949: 0xb6fc, ucs2: 0xb792},
		lookupItem{cp949: 0xb6fd, ucs2: 0xb796},
		lookupItem{cp949: 0xb6fe, ucs2: 0xb797},
		lookupItem{cp949: 0xb741, ucs2: 0xd16e},
		lookupItem{cp949: 0xb742, ucs2: 0xd16f},
		lookupItem{cp949: 0xb743, ucs2: 0xd170},
		lookupItem{cp949: 0xb744, ucs2: 0xd171},
		lookupItem{cp949: 0xb745, ucs2: 0xd172},
		lookupItem{cp949: 0xb746, ucs2: 0xd173},
		lookupItem{cp949: 0xb747, ucs2: 0xd174},
		lookupItem{cp949: 0xb748, ucs2: 0xd175},
		lookupItem{cp949: 0xb749, ucs2: 0xd176},
		lookupItem{cp949: 0xb74a, ucs2: 0xd177},
		lookupItem{cp949: 0xb74b, ucs2: 0xd178},
		lookupItem{cp949: 0xb74c, ucs2: 0xd179},
		lookupItem{cp949: 0xb74d, ucs2: 0xd17a},
		lookupItem{cp949: 0xb74e, ucs2: 0xd17b},
		lookupItem{cp949: 0xb74f, ucs2: 0xd17d},
		lookupItem{cp949: 0xb750, ucs2: 0xd17e},
		lookupItem{cp949: 0xb751, ucs2: 0xd17f},
		lookupItem{cp949: 0xb752, ucs2: 0xd180},
		lookupItem{cp949: 0xb753, ucs2: 0xd181},
		lookupItem{cp949: 0xb754, ucs2: 0xd182},
		lookupItem{cp949: 0xb755, ucs2: 0xd183},
		lookupItem{cp949: 0xb756, ucs2: 0xd185},
		lookupItem{cp949: 0xb757, ucs2: 0xd186},
		lookupItem{cp949: 0xb758, ucs2: 0xd187},
		lookupItem{cp949: 0xb759, ucs2: 0xd189},
		lookupItem{cp949: 0xb75a, ucs2: 0xd18a},
		lookupItem{cp949: 0xb761, ucs2: 0xd18b},
		lookupItem{cp949: 0xb762, ucs2: 0xd18c},
		lookupItem{cp949: 0xb763, ucs2: 0xd18d},
		lookupItem{cp949: 0xb764, ucs2: 0xd18e},
		lookupItem{cp949: 0xb765, ucs2: 0xd18f},
		lookupItem{cp949: 0xb766, ucs2: 0xd190},
		lookupItem{cp949: 0xb767, ucs2: 0xd191},
		lookupItem{cp949: 0xb768, ucs2: 0xd192},
		lookupItem{cp949: 0xb769, ucs2: 0xd193},
		lookupItem{cp949: 0xb76a, ucs2: 0xd194},
		lookupItem{cp949: 0xb76b, ucs2: 0xd195},
		lookupItem{cp949: 0xb76c, ucs2: 0xd196},
		lookupItem{cp949: 0xb76d, ucs2: 0xd197},
		lookupItem{cp949: 0xb76e, ucs2: 0xd198},
		lookupItem{cp949: 0xb76f, ucs2: 0xd199},
		lookupItem{cp949: 0xb770, ucs2: 0xd19a},
		lookupItem{cp949: 0xb771, ucs2: 0xd19b},
		lookupItem{cp949: 0xb772, ucs2: 0xd19c},
		lookupItem{cp949: 0xb773, ucs2: 0xd19d},
		lookupItem{cp949: 0xb774, ucs2: 0xd19e},
		lookupItem{cp949: 0xb775, ucs2: 0xd19f},
		lookupItem{cp949: 0xb776, ucs2: 0xd1a2},
		lookupItem{cp949: 0xb777, ucs2: 0xd1a3},
		lookupItem{cp949: 0xb778, ucs2: 0xd1a5},
		lookupItem{cp949: 0xb779, ucs2: 0xd1a6},
		lookupItem{cp949: 0xb77a, ucs2: 0xd1a7},
".
Definition text_cp949_lookup_from_037 : string :=
"		lookupItem{cp949: 0xb781, ucs2: 0xd1a9},
		lookupItem{cp949: 0xb782, ucs2: 0xd1aa},
		lookupItem{cp949: 0xb783, ucs2: 0xd1ab},
		lookupItem{cp949: 0xb784, ucs2: 0xd1ac},
		lookupItem{cp949: 0xb785, ucs2: 0xd1ad},
		lookupItem{cp949: 0xb786, ucs2: 0xd1ae},
		lookupItem{cp949: 0xb787, ucs2: 0xd1af},
		lookupItem{cp949: 0xb788, ucs2: 0xd1b2},
		lookupItem{cp949: 0xb789, ucs2: 0xd1b4},
		lookupItem{cp949: 0xb78a, ucs2: 0xd1b6},
		lookupItem{cp949: 0xb78b, ucs2: 0xd1b7},
		lookupItem{cp949: 0xb78c, ucs2: 0xd1b8},
		lookupItem{cp949: 0xb78d, ucs2: 0xd1b9},
		lookupItem{cp949: 0xb78e, ucs2: 0xd1bb},
		lookupItem{cp949: 0xb78f, ucs2: 0xd1bd},
		lookupItem{cp949: 0xb790, ucs2: 0xd1be},
		lookupItem{cp949: 0xb791, ucs2: 0xd1bf},
		lookupItem{cp949: 0xb792, ucs2: 0xd1c1},
		lookupItem{cp949: 0xb793, ucs2: 0xd1c2},
		lookupItem{cp949: 0xb794, ucs2: 0xd1c3},
		lookupItem{cp949: 0xb795, ucs2: 0xd1c4},
		lookupItem{cp949: 0xb796, ucs2: 0xd1c5},
		lookupItem{cp949: 0xb797, ucs2: 0xd1c6},
		lookupItem{cp949: 0xb798, ucs2: 0xd1c7},
		lookupItem{cp949: 0xb799, ucs2: 0xd1c8},
		lookupItem{cp949: 0xb79a, ucs2: 0xd1c9},
		lookupItem{cp949: 0xb79b, ucs2: 0xd1ca},
		lookupItem{cp949: 0xb79c, ucs2: 0xd1cb},
		lookupItem{cp949: 0xb79d, ucs2: 0xd1cc},
		lookupItem{cp949: 0xb79e, ucs2: 0xd1cd},
		lookupItem{cp949: 0xb79f, ucs2: 0xd1ce},
		lookupItem{cp949: 0xb7a0, ucs2: 0xd1cf},
		lookupItem{cp949: 0xb7a1, ucs2: 0xb798},
		lookupItem{cp949: 0xb7a2, ucs2: 0xb799},
		lookupItem{cp949: 0xb7a3, ucs2: 0xb79c},
		lookupItem{cp949: 0xb7a4, ucs2: 0xb7a0},
		lookupItem{cp949: 0xb7a5, ucs2: 0xb7a8},
		lookupItem{cp949: 0xb7a6, ucs2: 0xb7a9},
		lookupItem{cp949: 0xb7a7, ucs2: 0xb7ab},
		lookupItem{cp949: 0xb7a8, ucs2: 0xb7ac},
		lookupItem{cp949: 0xb7a9, ucs2: 0xb7ad},
		lookupItem{cp949: 0xb7aa, ucs2: 0xb7b4},
		lookupItem{cp949: 0xb7ab, ucs2: 0xb7b5},
		lookupItem{cp949: 0xb7ac, ucs2: 0xb7b8},
		lookupItem{cp949: 0xb7ad, ucs2: 0xb7c7},
		lookupItem{cp949: 0xb7ae, ucs2: 0xb7c9},
		lookupItem{cp949: 0xb7af, ucs2: 0xb7ec},
		lookupItem{cp949: 0xb7b0, ucs2: 0xb7ed},
		lookupItem{cp949: 0xb7b1, ucs2: 0xb7f0},
		lookupItem{cp949: 0xb7b2, ucs2: 0xb7f4},
		lookupItem{cp949: 0xb7b3, ucs2: 0xb7fc},
		lookupItem{cp949: 0xb7b4, ucs2: 0xb7fd},
		lookupItem{cp949: 0xb7b5, ucs2: 0xb7ff},
		lookupItem{cp949: 0xb7b6, ucs2: 0xb800},
		lookupItem{cp949: 0xb7b7, ucs2: 0xb801},
		lookupItem{cp949: 0xb7b8, ucs2: 0xb807},
		lookupItem{cp949: 0xb7b9, ucs2: 0xb808},
		lookupItem{cp949: 0xb7ba, ucs2: 0xb809},
		lookupItem{cp949: 0xb7bb, ucs2: 0xb80c},
		lookupItem{cp949: 0xb7bc, ucs2: 0xb810},
		lookupItem{cp949: 0xb7bd, ucs2: 0xb818},
		lookupItem{cp949: 0xb7be, ucs2: 0xb819},
		lookupItem{cp949: 0xb7bf, ucs2: 0xb81b},
		lookupItem{cp949: 0xb7c0, ucs2: 0xb81d},
		lookupItem{cp949: 0xb7c1, ucs2: 0xb824},
		lookupItem{cp949: 0xb7c2, ucs2: 0xb825},
		lookupItem{cp949: 0xb7c3, ucs2: 0xb828},
		lookupItem{cp949: 0xb7c4, ucs2: 0xb82c},
		lookupItem{cp949: 0xb7c5, ucs2: 0xb834},
		lookupItem{cp949: 0xb7c6, ucs2: 0xb835},
		lookupItem{cp949: 0xb7c7, ucs2: 0xb837},
		lookupItem{cp949: 0xb7c8, ucs2: 0xb838},
		lookupItem{cp949: 0xb7c9, ucs2: 0xb839},
		lookupItem{cp949: 0xb7ca, ucs2: 0xb840},
		lookupItem{cp949: 0xb7cb, ucs2: 0xb844},
		lookupItem{cp949: 0xb7cc, ucs2: 0xb851},
		lookupItem{cp949: 0xb7cd, ucs2: 0xb853},
		lookupItem{cp949: 0xb7ce, ucs2: 0xb85c},
		lookupItem{cp949: 0xb7cf, ucs2: 0xb85d},
		lookupItem{cp949: 0xb7d0, ucs2: 0xb860},
		lookupItem{cp949: 0xb7d1, ucs2: 0xb864},
		lookupItem{cp949: 0xb7d2, ucs2: 0xb86c},
		lookupItem{cp949: 0xb7d3, ucs2: 0xb86d},
		lookupItem{cp949: 0xb7d4, ucs2: 0xb86f},
		lookupItem{cp949: 0xb7d5, ucs2: 0xb871},
		lookupItem{cp949: 0xb7d6, ucs2: 0xb878},
		lookupItem{cp949: 0xb7d7, ucs2: 0xb87c},
		lookupItem{cp949: 0xb7d8, ucs2: 0xb88d},
		lookupItem{cp949: 0xb7d9, ucs2: 0xb8a8},
		lookupItem{cp949: 0xb7da, ucs2: 0xb8b0},
		lookupItem{cp949: 0xb7db, ucs2: 0xb8b4},
		lookupItem{cp949: 0xb7dc, ucs2: 0xb8b8},
		lookupItem{cp949: 0xb7dd, ucs2: 0xb8c0},
		lookupItem{cp949: 0xb7de, ucs2: 0xb8c1},
		lookupItem{cp949: 0xb7df, ucs2: 0xb8c3},
		lookupItem{cp949: 0xb7e0, ucs2: 0xb8c5},
		lookupItem{cp949: 0xb7e1, ucs2: 0xb8cc},
		lookupItem{cp949: 0xb7e2, ucs2: 0xb8d0},
		lookupItem{cp949: 0xb7e3, ucs2: 0xb8d4},
		lookupItem{cp949: 0xb7e4, ucs2: 0xb8dd},
		lookupItem{cp949: 0xb7e5, ucs2: 0xb8df},
		lookupItem{cp949: 0xb7e6, ucs2: 0xb8e1},
		lookupItem{cp949: 0xb7e7, ucs2: 0xb8e8},
		lookupItem{cp949: 0xb7e8, ucs2: 0xb8e9},
		lookupItem{cp949: 0xb7e9, ucs2: 0xb8ec},
		lookupItem{cp949: 0xb7ea, ucs2: 0xb8f0},
		lookupItem{cp949: 0xb7eb, ucs2: 0xb8f8},
		lookupItem{cp949: 0xb7ec, ucs2: 0xb8f9},
		lookupItem{cp949: 0xb7ed, ucs2: 0xb8fb},
		lookupItem{cp949: 0xb7ee, ucs2: 0xb8fd},
		lookupItem{cp949: 0xb7ef, ucs2: 0xb904},
		lookupItem{cp949: 0xb7f0, ucs2: 0xb918},
		lookupItem{cp949: 0xb7f1, ucs2: 0xb920},
		lookupItem{cp949: 0xb7f2, ucs2: 0xb93c},
		lookupItem{cp949: 0xb7f3, ucs2: 0xb93d},
		lookupItem{cp949: 0xb7f4, ucs2: 0xb940},
		lookupItem{cp949: 0xb7f5, ucs2: 0xb944},
		lookupItem{cp949: 0xb7f6, ucs2: 0xb94c},
		lookupItem{cp949: 0xb7f7, ucs2: 0xb94f},
		lookupItem{cp949: 0xb7f8, ucs2: 0xb951},
		lookupItem{cp949: 0xb7f9, ucs2: 0xb958},
		lookupItem{cp949: 0xb7fa, ucs2: 0xb959},
		lookupItem{cp949: 0xb7fb, ucs2: 0xb95c},
		lookupItem{cp949: 0xb7fc, ucs2: 0xb960},
		lookupItem{cp949: 0xb7fd, ucs2: 0xb968},
		lookupItem{cp949: 0xb7fe, ucs2: 0xb969},
		lookupItem{cp949: 0xb841, ucs2: 0xd1d0},
		lookupItem{cp949: 0xb842, ucs2: 0xd1d1},
		lookupItem{cp949: 0xb843, ucs2: 0xd1d2},
		lookupItem{cp949: 0xb844, ucs2: 0xd1d3},
		lookupItem{cp949: 0xb845, ucs2: 0xd1d4},
		lookupItem{cp949: 0xb846, ucs2: 0xd1d5},
		lookupItem{cp949: 0xb847, ucs2: 0xd1d6},
		lookupItem{cp949: 0xb848, ucs2: 0xd1d7},
		lookupItem{cp949: 0xb849, ucs2: 0xd1d9},
		lookupItem{cp949: 0xb84a, ucs2: 0xd1da},
		lookupItem{cp949: 0xb84b, ucs2: 0xd1db},
		lookupItem{cp949: 0xb84c, ucs2: 0xd1dc},
		lookupItem{cp949: 0xb84d, ucs2: 0xd1dd},
		lookupItem{cp949: 0xb84e, ucs2: 0xd1de},
		lookupItem{cp949: 0xb84f, ucs2: 0xd1df},
		lookupItem{cp949: 0xb850, ucs2: 0xd1e0},
		lookupItem{cp949: 0xb851, ucs2: 0xd1e1},
		lookupItem{cp949: 0xb852, ucs2: 0xd1e2},
		lookupItem{cp949: 0xb853, ucs2: 0xd1e3},
		lookupItem{cp949: 0xb854, ucs2: 0xd1e4},
		lookupItem{cp949: 0xb855, ucs2: 0xd1e5},
		lookupItem{cp949: 0xb856, ucs2: 0xd1e6},
		lookupItem{cp949: 0xb857, ucs2: 0xd1e7},
		lookupItem{cp949: 0xb858, ucs2: 0xd1e8},
		lookupItem{cp949: 0xb859, ucs2: 0xd1e9},
		lookupItem{cp949: 0xb85a, ucs2: 0xd1ea},
		lookupItem{cp949: 0xb861, ucs2: 0xd1eb},
		lookupItem{cp949: 0xb862, ucs2: 0xd1ec},
		lookupItem{cp949: 0xb863, ucs2: 0xd1ed},
		lookupItem{cp949: 0xb864, ucs2: 0xd1ee},
		lookupItem{cp949: 0xb865, ucs2: 0xd1ef},
		lookupItem{cp949: 0xb866, ucs2: 0xd1f0},
		lookupItem{cp949: 0xb867, ucs2: 0xd1f1},
		lookupItem{cp949: 0xb868, ucs2: 0xd1f2},
		lookupItem{cp949: 0xb869, ucs2: 0xd1f3},
		lookupItem{cp949: 0xb86a, ucs2: 0xd1f5},
		lookupItem{cp949: 0xb86b, ucs2: 0xd1f6},
		lookupItem{cp949: 0xb86c, ucs2: 0xd1f7},
		lookupItem{cp949: 0xb86d, ucs2: 0xd1f9},
		lookupItem{cp949: 0xb86e, ucs2: 0xd1fa},
		lookupItem{cp949: 0xb86f, ucs2: 0xd1fb},
		lookupItem{cp949: 0xb870, ucs2: 0xd1fc},
		lookupItem{cp949: 0xb871, ucs2: 0xd1fd},
		lookupItem{cp949: 0xb872, ucs2: 0xd1fe},
		lookupItem{cp949: 0xb873, ucs2: 0xd1ff},
		lookupItem{cp949: 0xb874, ucs2: 0xd200},
		lookupItem{cp949: 0xb875, ucs2: 0xd201},
		lookupItem{cp949: 0xb876, ucs2: 0xd202},
		lookupItem{cp949: 0xb877, ucs2: 0xd203},
		lookupItem{cp949: 0xb878, ucs2: 0xd204},
		lookupItem{cp949: 0xb879, ucs2: 0xd205},
		lookupItem{cp949: 0xb87a, ucs2: 0xd206},
		lookupItem{cp949: 0xb881, ucs2: 0xd208},
		lookupItem{cp949: 0xb882, ucs2: 0xd20a},
		lookupItem{cp949: 0xb883, ucs2: 0xd20b},
		lookupItem{cp949: 0xb884, ucs2: 0xd20c},
		lookupItem{cp949: 0xb885, ucs2: 0xd20d},
		lookupItem{cp949: 0xb886, ucs2: 0xd20e},
		lookupItem{cp949: 0xb887, ucs2: 0xd20f},
		lookupItem{cp949: 0xb888, ucs2: 0xd211},
		lookupItem{cp949: 0xb889, ucs2: 0xd212},
		lookupItem{cp949: 0xb88a, ucs2: 0xd213},
		lookupItem{cp949: 0xb88b, ucs2: 0xd214},
		lookupItem{cp949: 0xb88c, ucs2: 0xd215},
		lookupItem{cp949: 0xb88d, ucs2: 0xd216},
		lookupItem{cp949: 0xb88e, ucs2: 0xd217},
		lookupItem{cp949: 0xb88f, ucs2: 0xd218},
		lookupItem{cp949: 0xb890, ucs2: 0xd219},
		lookupItem{cp949: 0xb891, ucs2: 0xd21a},
		lookupItem{cp949: 0xb892, ucs2: 0xd21b},
		lookupItem{cp949: 0xb893, ucs2: 0xd21c},
		lookupItem{cp949: 0xb894, ucs2: 0xd21d},
		lookupItem{cp949: 0xb895, ucs2: 0xd21e},
		lookupItem{cp949: 0xb896, ucs2: 0xd21f},
		lookupItem{cp949: 0xb897, ucs2: 0xd220},
		lookupItem{cp949: 0xb898, ucs2: 0xd221},
		lookupItem{cp949: 0xb899, ucs2: 0xd222},
		lookupItem{cp949: 0xb89a, ucs2: 0xd223},
		lookupItem{cp949: 0xb89b, ucs2: 0xd224},
		lookupItem{cp949: 0xb89c, ucs2: 0xd225},
		lookupItem{cp949: 0xb89d, ucs2: 0xd226},
		lookupItem{cp949: 0xb89e, ucs2: 0xd227},
		lookupItem{cp949: 0xb89f, ucs2: 0xd228},
		lookupItem{cp949: 0xb8a0, ucs2: 0xd229},
		lookupItem{cp949: 0xb8a1, ucs2: 0xb96b},
		lookupItem{cp949: 0xb8a2, ucs2: 0xb96d},
		lookupItem{cp949: 0xb8a3, ucs2: 0xb974},
		lookupItem{cp949: 0xb8a4, ucs2: 0xb975},
		lookupItem{cp949: 0xb8a5, ucs2: 0xb978},
		lookupItem{cp949: 0xb8a6, ucs2: 0xb97c},
		lookupItem{cp949: 0xb8a7, ucs2: 0xb984},
		lookupItem{cp949: 0xb8a8, ucs2: 0xb985},
		lookupItem{cp949: 0xb8a9, ucs2: 0xb987},
		lookupItem{cp949: 0xb8aa, ucs2: 0xb989},
		lookupItem{cp949: 0xb8ab, ucs2: 0xb98a},
		lookupItem{cp949: 0xb8ac, ucs2: 0xb98d},
		lookupItem{cp949: 0xb8ad, ucs2: 0xb98e},
		lookupItem{cp949: 0xb8ae, ucs2: 0xb9ac},
		lookupItem{cp949: 0xb8af, ucs2: 0xb9ad},
		lookupItem{cp949: 0xb8b0, ucs2: 0xb9b0},
		lookupItem{cp949: 0xb8b1, ucs2: 0xb9b4},
		lookupItem{cp949: 0xb8b2, ucs2: 0xb9bc},
		lookupItem{cp949: 0xb8b3, ucs2: 0xb9bd},
		lookupItem{cp949: 0xb8b4, ucs2: 0xb9bf},
		lookupItem{cp949: 0xb8b5, ucs2: 0xb9c1},
		lookupItem{cp949: 0xb8b6, ucs2: 0xb9c8},
		lookupItem{cp949: 0xb8b7, ucs2: 0xb9c9},
		lookupItem{cp949: 0xb8b8, ucs2: 0xb9cc},
		lookupItem{cp949: 0xb8b9, ucs2: 0xb9ce},
		lookupItem{cp949: 0xb8ba, ucs2: 0xb9cf},
		lookupItem{cp949: 0xb8bb, ucs2: 0xb9d0},
		lookupItem{cp949: 0xb8bc, ucs2: 0xb9d1},
		lookupItem{cp949: 0xb8bd, ucs2: 0xb9d2},
		lookupItem{cp949: 0xb8be, ucs2: 0xb9d8},
		lookupItem{cp949: 0xb8bf, ucs2: 0xb9d9},
		lookupItem{cp949: 0xb8c0, ucs2: 0xb9db},
		lookupItem{cp949: 0xb8c1, ucs2: 0xb9dd},
		lookupItem{cp949: 0xb8c2, ucs2: 0xb9de},
		lookupItem{cp949: 0xb8c3, ucs2: 0xb9e1},
		lookupItem{cp949: 0xb8c4, ucs2: 0xb9e3},
		lookupItem{cp949: 0xb8c5, ucs2: 0xb9e4},
		lookupItem{cp949: 0xb8c6, ucs2: 0xb9e5},
		lookupItem{cp949: 0xb8c7, ucs2: 0xb9e8},
		lookupItem{cp949: 0xb8c8, ucs2: 0xb9ec},
".
Definition text_cp949_lookup_from_038 : string :=
"		lookupItem{cp949: 0xb8c9, ucs2: 0xb9f4},
		lookupItem{cp949: 0xb8ca, ucs2: 0xb9f5},
		lookupItem{cp949: 0xb8cb, ucs2: 0xb9f7},
		lookupItem{cp949: 0xb8cc, ucs2: 0xb9f8},
		lookupItem{cp949: 0xb8cd, ucs2: 0xb9f9},
		lookupItem{cp949: 0xb8ce, ucs2: 0xb9fa},
		lookupItem{cp949: 0xb8cf, ucs2: 0xba00},
		lookupItem{cp949: 0xb8d0, ucs2: 0xba01},
		lookupItem{cp949: 0xb8d1, ucs2: 0xba08},
		lookupItem{cp949: 0xb8d2, ucs2: 0xba15},
		lookupItem{cp949: 0xb8d3, ucs2: 0xba38},
		lookupItem{cp949: 0xb8d4, ucs2: 0xba39},
		lookupItem{cp949: 0xb8d5, ucs2: 0xba3c},
		lookupItem{cp949: 0xb8d6, ucs2: 0xba40},
		lookupItem{cp949: 0xb8d7, ucs2: 0xba42},
		lookupItem{cp949: 0xb8d8, ucs2: 0xba48},
		lookupItem{cp949: 0xb8d9, ucs2: 0xba49},
		lookupItem{cp949: 0xb8da, ucs2: 0xba4b},
		lookupItem{cp949: 0xb8db, ucs2: 0xba4d},
		lookupItem{cp949: 0xb8dc, ucs2: 0xba4e},
		lookupItem{cp949: 0xb8dd, ucs2: 0xba53},
		lookupItem{cp949: 0xb8de, ucs2: 0xba54},
		lookupItem{cp949: 0xb8df, ucs2: 0xba55},
		lookupItem{cp949: 0xb8e0, ucs2: 0xba58},
		lookupItem{cp949: 0xb8e1, ucs2: 0xba5c},
		lookupItem{cp949: 0xb8e2, ucs2: 0xba64},
		lookupItem{cp949: 0xb8e3, ucs2: 0xba65},
		lookupItem{cp949: 0xb8e4, ucs2: 0xba67},
		lookupItem{cp949: 0xb8e5, ucs2: 0xba68},
		lookupItem{cp949: 0xb8e6, ucs2: 0xba69},
		lookupItem{cp949: 0xb8e7, ucs2: 0xba70},
		lookupItem{cp949: 0xb8e8, ucs2: 0xba71},
		lookupItem{cp949: 0xb8e9, ucs2: 0xba74},
		lookupItem{cp949: 0xb8ea, ucs2: 0xba78},
		lookupItem{cp949: 0xb8eb, ucs2: 0xba83},
		lookupItem{cp949: 0xb8ec, ucs2: 0xba84},
		lookupItem{cp949: 0xb8ed, ucs2: 0xba85},
		lookupItem{cp949: 0xb8ee, ucs2: 0xba87},
		lookupItem{cp949: 0xb8ef, ucs2: 0xba8c},
		lookupItem{cp949: 0xb8f0, ucs2: 0xbaa8},
		lookupItem{cp949: 0xb8f1, ucs2: 0xbaa9},
		lookupItem{cp949: 0xb8f2, ucs2: 0xbaab},
		lookupItem{cp949: 0xb8f3, ucs2: 0xbaac},
		lookupItem{cp949: 0xb8f4, ucs2: 0xbab0},
		lookupItem{cp949: 0xb8f5, ucs2: 0xbab2},
		lookupItem{cp949: 0xb8f6, ucs2: 0xbab8},
		lookupItem{cp949: 0xb8f7, ucs2: 0xbab9},
		lookupItem{cp949: 0xb8f8, ucs2: 0xbabb},
		lookupItem{cp949: 0xb8f9, ucs2: 0xbabd},
		lookupItem{cp949: 0xb8fa, ucs2: 0xbac4},
		lookupItem{cp949: 0xb8fb, ucs2: 0xbac8},
		lookupItem{cp949: 0xb8fc, ucs2: 0xbad8},
		lookupItem{cp949: 0xb8fd, ucs2: 0xbad9},
		lookupItem{cp949: 0xb8fe, ucs2: 0xbafc},
		lookupItem{cp949: 0xb941, ucs2: 0xd22a},
		lookupItem{cp949: 0xb942, ucs2: 0xd22b},
		lookupItem{cp949: 0xb943, ucs2: 0xd22e},
		lookupItem{cp949: 0xb944, ucs2: 0xd22f},
		lookupItem{cp949: 0xb945, ucs2: 0xd231},
		lookupItem{cp949: 0xb946, ucs2: 0xd232},
		lookupItem{cp949: 0xb947, ucs2: 0xd233},
		lookupItem{cp949: 0xb948, ucs2: 0xd235},
		lookupItem{cp949: 0xb949, ucs2: 0xd236},
		lookupItem{cp949: 0xb94a, ucs2: 0xd237},
		lookupItem{cp949: 0xb94b, ucs2: 0xd238},
		lookupItem{cp949: 0xb94c, ucs2: 0xd239},
		lookupItem{cp949: 0xb94d, ucs2: 0xd23a},
		lookupItem{cp949: 0xb94e, ucs2: 0xd23b},
		lookupItem{cp949: 0xb94f, ucs2: 0xd23e},
		lookupItem{cp949: 0xb950, ucs2: 0xd240},
		lookupItem{cp949: 0xb951, ucs2: 0xd242},
		lookupItem{cp949: 0xb952, ucs2: 0xd243},
		lookupItem{cp949: 0xb953, ucs2: 0xd244},
		lookupItem{cp949: 0xb954, ucs2: 0xd245},
		lookupItem{cp949: 0xb955, ucs2: 0xd246},
		lookupItem{cp949: 0xb956, ucs2: 0xd247},
		lookupItem{cp949: 0xb957, ucs2: 0xd249},
		lookupItem{cp949: 0xb958, ucs2: 0xd24a},
		lookupItem{cp949: 0xb959, ucs2: 0xd24b},
		lookupItem{cp949: 0xb95a, ucs2: 0xd24c},
		lookupItem{cp949: 0xb961, ucs2: 0xd24d},
		lookupItem{cp949: 0xb962, ucs2: 0xd24e},
		lookupItem{cp949: 0xb963, ucs2: 0xd24f},
		lookupItem{cp949: 0xb964, ucs2: 0xd250},
		lookupItem{cp949: 0xb965, ucs2: 0xd251},
		lookupItem{cp949: 0xb966, ucs2: 0xd252},
		lookupItem{cp949: 0xb967, ucs2: 0xd253},
		lookupItem{cp949: 0xb968, ucs2: 0xd254},
		lookupItem{cp949: 0xb969, ucs2: 0xd255},
		lookupItem{cp949: 0xb96a, ucs2: 0xd256},
		lookupItem{cp949: 0xb96b, ucs2: 0xd257},
		lookupItem{cp949: 0xb96c, ucs2: 0xd258},
		lookupItem{cp949: 0xb96d, ucs2: 0xd259},
		lookupItem{cp949: 0xb96e, ucs2: 0xd25a},
		lookupItem{cp949: 0xb96f, ucs2: 0xd25b},
		lookupItem{cp949: 0xb970, ucs2: 0xd25d},
		lookupItem{cp949: 0xb971, ucs2: 0xd25e},
		lookupItem{cp949: 0xb972, ucs2: 0xd25f},
		lookupItem{cp949: 0xb973, ucs2: 0xd260},
		lookupItem{cp949: 0xb974, ucs2: 0xd261},
		lookupItem{cp949: 0xb975, ucs2: 0xd262},
		lookupItem{cp949: 0xb976, ucs2: 0xd263},
		lookupItem{cp949: 0xb977, ucs2: 0xd265},
		lookupItem{cp949: 0xb978, ucs2: 0xd266},
		lookupItem{cp949: 0xb979, ucs2: 0xd267},
		lookupItem{cp949: 0xb97a, ucs2: 0xd268},
		lookupItem{cp949: 0xb981, ucs2: 0xd269},
		lookupItem{cp949: 0xb982, ucs2: 0xd26a},
		lookupItem{cp949: 0xb983, ucs2: 0xd26b},
		lookupItem{cp949: 0xb984, ucs2: 0xd26c},
		lookupItem{cp949: 0xb985, ucs2: 0xd26d},
		lookupItem{cp949: 0xb986, ucs2: 0xd26e},
		lookupItem{cp949: 0xb987, ucs2: 0xd26f},
		lookupItem{cp949: 0xb988, ucs2: 0xd270},
		lookupItem{cp949: 0xb989, ucs2: 0xd271},
		lookupItem{cp949: 0xb98a, ucs2: 0xd272},
		lookupItem{cp949: 0xb98b, ucs2: 0xd273},
		lookupItem{cp949: 0xb98c, ucs2: 0xd274},
		lookupItem{cp949: 0xb98d, ucs2: 0xd275},
		lookupItem{cp949: 0xb98e, ucs2: 0xd276},
		lookupItem{cp949: 0xb98f, ucs2: 0xd277},
		lookupItem{cp949: 0xb990, ucs2: 0xd278},
		lookupItem{cp949: 0xb991, ucs2: 0xd279},
		lookupItem{cp949: 0xb992, ucs2: 0xd27a},
		lookupItem{cp949: 0xb993, ucs2: 0xd27b},
		lookupItem{cp949: 0xb994, ucs2: 0xd27c},
		lookupItem{cp949: 0xb995, ucs2: 0xd27d},
		lookupItem{cp949: 0xb996, ucs2: 0xd27e},
		lookupItem{cp949: 0xb997, ucs2: 0xd27f},
		lookupItem{cp949: 0xb998, ucs2: 0xd282},
		lookupItem{cp949: 0xb999, ucs2: 0xd283},
		lookupItem{cp949: 0xb99a, ucs2: 0xd285},
		lookupItem{cp949: 0xb99b, ucs2: 0xd286},
		lookupItem{cp949: 0xb99c, ucs2: 0xd287},
		lookupItem{cp949: 0xb99d, ucs2: 0xd289},
		lookupItem{cp949: 0xb99e, ucs2: 0xd28a},
		lookupItem{cp949: 0xb99f, ucs2: 0xd28b},
		lookupItem{cp949: 0xb9a0, ucs2: 0xd28c},
		lookupItem{cp949: 0xb9a1, ucs2: 0xbb00},
		lookupItem{cp949: 0xb9a2, ucs2: 0xbb04},
		lookupItem{cp949: 0xb9a3, ucs2: 0xbb0d},
		lookupItem{cp949: 0xb9a4, ucs2: 0xbb0f},
		lookupItem{cp949: 0xb9a5, ucs2: 0xbb11},
		lookupItem{cp949: 0xb9a6, ucs2: 0xbb18},
		lookupItem{cp949: 0xb9a7, ucs2: 0xbb1c},
		lookupItem{cp949: 0xb9a8, ucs2: 0xbb20},
		lookupItem{cp949: 0xb9a9, ucs2: 0xbb29},
		lookupItem{cp949: 0xb9aa, ucs2: 0xbb2b},
		lookupItem{cp949: 0xb9ab, ucs2: 0xbb34},
		lookupItem{cp949: 0xb9ac, ucs2: 0xbb35},
		lookupItem{cp949: 0xb9ad, ucs2: 0xbb36},
		lookupItem{cp949: 0xb9ae, ucs2: 0xbb38},
		lookupItem{cp949: 0xb9af, ucs2: 0xbb3b},
		lookupItem{cp949: 0xb9b0, ucs2: 0xbb3c},
		lookupItem{cp949: 0xb9b1, ucs2: 0xbb3d},
		lookupItem{cp949: 0xb9b2, ucs2: 0xbb3e},
		lookupItem{cp949: 0xb9b3, ucs2: 0xbb44},
		lookupItem{cp949: 0xb9b4, ucs2: 0xbb45},
		lookupItem{cp949: 0xb9b5, ucs2: 0xbb47},
		lookupItem{cp949: 0xb9b6, ucs2: 0xbb49},
		lookupItem{cp949: 0xb9b7, ucs2: 0xbb4d},
		lookupItem{cp949: 0xb9b8, ucs2: 0xbb4f},
		lookupItem{cp949: 0xb9b9, ucs2: 0xbb50},
		lookupItem{cp949: 0xb9ba, ucs2: 0xbb54},
		lookupItem{cp949: 0xb9bb, ucs2: 0xbb58},
		lookupItem{cp949: 0xb9bc, ucs2: 0xbb61},
		lookupItem{cp949: 0xb9bd, ucs2: 0xbb63},
		lookupItem{cp949: 0xb9be, ucs2: 0xbb6c},
		lookupItem{cp949: 0xb9bf, ucs2: 0xbb88},
		lookupItem{cp949: 0xb9c0, ucs2: 0xbb8c},
		lookupItem{cp949: 0xb9c1, ucs2: 0xbb90},
		lookupItem{cp949: 0xb9c2, ucs2: 0xbba4},
		lookupItem{cp949: 0xb9c3, ucs2: 0xbba8},
		lookupItem{cp949: 0xb9c4, ucs2: 0xbbac},
		lookupItem{cp949: 0xb9c5, ucs2: 0xbbb4},
		lookupItem{cp949: 0xb9c6, ucs2: 0xbbb7},
		lookupItem{cp949: 0xb9c7, ucs2: 0xbbc0},
		lookupItem{cp949: 0xb9c8, ucs2: 0xbbc4},
		lookupItem{cp949: 0xb9c9, ucs2: 0xbbc8},
		lookupItem{cp949: 0xb9ca, ucs2: 0xbbd0},
		lookupItem{cp949: 0xb9cb, ucs2: 0xbbd3},
		lookupItem{cp949: 0xb9cc, ucs2: 0xbbf8},
		lookupItem{cp949: 0xb9cd, ucs2: 0xbbf9},
		lookupItem{cp949: 0xb9ce, ucs2: 0xbbfc},
		lookupItem{cp949: 0xb9cf, ucs2: 0xbbff},
		lookupItem{cp949: 0xb9d0, ucs2: 0xbc00},
		lookupItem{cp949: 0xb9d1, ucs2: 0xbc02},
		lookupItem{cp949: 0xb9d2, ucs2: 0xbc08},
		lookupItem{cp949: 0xb9d3, ucs2: 0xbc09},
		lookupItem{cp949: 0xb9d4, ucs2: 0xbc0b},
		lookupItem{cp949: 0xb9d5, ucs2: 0xbc0c},
		lookupItem{cp949: 0xb9d6, ucs2: 0xbc0d},
		lookupItem{cp949: 0xb9d7, ucs2: 0xbc0f},
		lookupItem{cp949: 0xb9d8, ucs2: 0xbc11},
		lookupItem{cp949: 0xb9d9, ucs2: 0xbc14},
		lookupItem{cp949: 0xb9da, ucs2: 0xbc15},
		lookupItem{cp949: 0xb9db, ucs2: 0xbc16},
		lookupItem{cp949: 0xb9dc, ucs2: 0xbc17},
		lookupItem{cp949: 0xb9dd, ucs2: 0xbc18},
		lookupItem{cp949: 0xb9de, ucs2: 0xbc1b},
		lookupItem{cp949: 0xb9df, ucs2: 0xbc1c},
		lookupItem{cp949: 0xb9e0, ucs2: 0xbc1d},
		lookupItem{cp949: 0xb9e1, ucs2: 0xbc1e},
		lookupItem{cp949: 0xb9e2, ucs2: 0xbc1f},
		lookupItem{cp949: 0xb9e3, ucs2: 0xbc24},
		lookupItem{cp949: 0xb9e4, ucs2: 0xbc25},
		lookupItem{cp949: 0xb9e5, ucs2: 0xbc27},
		lookupItem{cp949: 0xb9e6, ucs2: 0xbc29},
		lookupItem{cp949: 0xb9e7, ucs2: 0xbc2d},
		lookupItem{cp949: 0xb9e8, ucs2: 0xbc30},
		lookupItem{cp949: 0xb9e9, ucs2: 0xbc31},
		lookupItem{cp949: 0xb9ea, ucs2: 0xbc34},
		lookupItem{cp949: 0xb9eb, ucs2: 0xbc38},
		lookupItem{cp949: 0xb9ec, ucs2: 0xbc40},
		lookupItem{cp949: 0xb9ed, ucs2: 0xbc41},
		lookupItem{cp949: 0xb9ee, ucs2: 0xbc43},
		lookupItem{cp949: 0xb9ef, ucs2: 0xbc44},
		lookupItem{cp949: 0xb9f0, ucs2: 0xbc45},
		lookupItem{cp949: 0xb9f1, ucs2: 0xbc49},
		lookupItem{cp949: 0xb9f2, ucs2: 0xbc4c},
		lookupItem{cp949: 0xb9f3, ucs2: 0xbc4d},
		lookupItem{cp949: 0xb9f4, ucs2: 0xbc50},
		lookupItem{cp949: 0xb9f5, ucs2: 0xbc5d},
		lookupItem{cp949: 0xb9f6, ucs2: 0xbc84},
		lookupItem{cp949: 0xb9f7, ucs2: 0xbc85},
		lookupItem{cp949: 0xb9f8, ucs2: 0xbc88},
		lookupItem{cp949: 0xb9f9, ucs2: 0xbc8b},
		lookupItem{cp949: 0xb9fa, ucs2: 0xbc8c},
		lookupItem{cp949: 0xb9fb, ucs2: 0xbc8e},
		lookupItem{cp949: 0xb9fc, ucs2: 0xbc94},
		lookupItem{cp949: 0xb9fd, ucs2: 0xbc95},
		lookupItem{cp949: 0xb9fe, ucs2: 0xbc97},
		lookupItem{cp949: 0xba41, ucs2: 0xd28d},
		lookupItem{cp949: 0xba42, ucs2: 0xd28e},
		lookupItem{cp949: 0xba43, ucs2: 0xd28f},
		lookupItem{cp949: 0xba44, ucs2: 0xd292},
		lookupItem{cp949: 0xba45, ucs2: 0xd293},
		lookupItem{cp949: 0xba46, ucs2: 0xd294},
		lookupItem{cp949: 0xba47, ucs2: 0xd296},
		lookupItem{cp949: 0xba48, ucs2: 0xd297},
		lookupItem{cp949: 0xba49, ucs2: 0xd298},
		lookupItem{cp949: 0xba4a, ucs2: 0xd299},
		lookupItem{cp949: 0xba4b, ucs2: 0xd29a},
		lookupItem{cp949: 0xba4c, ucs2: 0xd29b},
		lookupItem{cp949: 0xba4d, ucs2: 0xd29d},
		lookupItem{cp949: 0xba4e, ucs2: 0xd29e},
		lookupItem{cp949: 0xba4f, ucs2: 0xd29f},
		lookupItem{cp949: 0xba50, ucs2: 0xd2a1},
		lookupItem{cp949: 0xba51, ucs2: 0xd2a2},
		lookupItem{cp949: 0xba52, ucs2: 0xd2a3},
".
Definition text_cp949_lookup_from_039 : string :=
"		lookupItem{cp949: 0xba53, ucs2: 0xd2a5},
		lookupItem{cp949: 0xba54, ucs2: 0xd2a6},
		lookupItem{cp949: 0xba55, ucs2: 0xd2a7},
		lookupItem{cp949: 0xba56, ucs2: 0xd2a8},
		lookupItem{cp949: 0xba57, ucs2: 0xd2a9},
		lookupItem{cp949: 0xba58, ucs2: 0xd2aa},
		lookupItem{cp949: 0xba59, ucs2: 0xd2ab},
		lookupItem{cp949: 0xba5a, ucs2: 0xd2ad},
		lookupItem{cp949: 0xba61, ucs2: 0xd2ae},
		lookupItem{cp949: 0xba62, ucs2: 0xd2af},
		lookupItem{cp949: 0xba63, ucs2: 0xd2b0},
		lookupItem{cp949: 0xba64, ucs2: 0xd2b2},
		lookupItem{cp949: 0xba65, ucs2: 0xd2b3},
		lookupItem{cp949: 0xba66, ucs2: 0xd2b4},
		lookupItem{cp949: 0xba67, ucs2: 0xd2b5},
		lookupItem{cp949: 0xba68, ucs2: 0xd2b6},
		lookupItem{cp949: 0xba69, ucs2: 0xd2b7},
		lookupItem{cp949: 0xba6a, ucs2: 0xd2ba},
		lookupItem{cp949: 0xba6b, ucs2: 0xd2bb},
		lookupItem{cp949: 0xba6c, ucs2: 0xd2bd},
		lookupItem{cp949: 0xba6d, ucs2: 0xd2be},
		lookupItem{cp949: 0xba6e, ucs2: 0xd2c1},
		lookupItem{cp949: 0xba6f, ucs2: 0xd2c3},
		lookupItem{cp949: 0xba70, ucs2: 0xd2c4},
		lookupItem{cp949: 0xba71, ucs2: 0xd2c5},
		lookupItem{cp949: 0xba72, ucs2: 0xd2c6},
		lookupItem{cp949: 0xba73, ucs2: 0xd2c7},
		lookupItem{cp949: 0xba74, ucs2: 0xd2ca},
		lookupItem{cp949: 0xba75, ucs2: 0xd2cc},
		lookupItem{cp949: 0xba76, ucs2: 0xd2cd},
		lookupItem{cp949: 0xba77, ucs2: 0xd2ce},
		lookupItem{cp949: 0xba78, ucs2: 0xd2cf},
		lookupItem{cp949: 0xba79, ucs2: 0xd2d0},
		lookupItem{cp949: 0xba7a, ucs2: 0xd2d1},
		lookupItem{cp949: 0xba81, ucs2: 0xd2d2},
		lookupItem{cp949: 0xba82, ucs2: 0xd2d3},
		lookupItem{cp949: 0xba83, ucs2: 0xd2d5},
		lookupItem{cp949: 0xba84, ucs2: 0xd2d6},
		lookupItem{cp949: 0xba85, ucs2: 0xd2d7},
		lookupItem{cp949: 0xba86, ucs2: 0xd2d9},
		lookupItem{cp949: 0xba87, ucs2: 0xd2da},
		lookupItem{cp949: 0xba88, ucs2: 0xd2db},
		lookupItem{cp949: 0xba89, ucs2: 0xd2dd},
		lookupItem{cp949: 0xba8a, ucs2: 0xd2de},
		lookupItem{cp949: 0xba8b, ucs2: 0xd2df},
		lookupItem{cp949: 0xba8c, ucs2: 0xd2e0},
		lookupItem{cp949: 0xba8d, ucs2: 0xd2e1},
		lookupItem{cp949: 0xba8e, ucs2: 0xd2e2},
		lookupItem{cp949: 0xba8f, ucs2: 0xd2e3},
		lookupItem{cp949: 0xba90, ucs2: 0xd2e6},
		lookupItem{cp949: 0xba91, ucs2: 0xd2e7},
		lookupItem{cp949: 0xba92, ucs2: 0xd2e8},
		lookupItem{cp949: 0xba93, ucs2: 0xd2e9},
		lookupItem{cp949: 0xba94, ucs2: 0xd2ea},
		lookupItem{cp949: 0xba95, ucs2: 0xd2eb},
		lookupItem{cp949: 0xba96, ucs2: 0xd2ec},
		lookupItem{cp949: 0xba97, ucs2: 0xd2ed},
		lookupItem{cp949: 0xba98, ucs2: 0xd2ee},
		lookupItem{cp949: 0xba99, ucs2: 0xd2ef},
		lookupItem{cp949: 0xba9a, ucs2: 0xd2f2},
		lookupItem{cp949: 0xba9b, ucs2: 0xd2f3},
		lookupItem{cp949: 0xba9c, ucs2: 0xd2f5},
		lookupItem{cp949: 0xba9d, ucs2: 0xd2f6},
		lookupItem{cp949: 0xba9e, ucs2: 0xd2f7},
		lookupItem{cp949: 0xba9f, ucs2: 0xd2f9},
		lookupItem{cp949: 0xbaa0, ucs2: 0xd2fa},
		lookupItem{cp949: 0xbaa1, ucs2: 0xbc99},
		lookupItem{cp949: 0xbaa2, ucs2: 0xbc9a},
		lookupItem{cp949: 0xbaa3, ucs2: 0xbca0},
		lookupItem{cp949: 0xbaa4, ucs2: 0xbca1},
		lookupItem{cp949: 0xbaa5, ucs2: 0xbca4},
		lookupItem{cp949: 0xbaa6, ucs2: 0xbca7},
		lookupItem{cp949: 0xbaa7, ucs2: 0xbca8},
		lookupItem{cp949: 0xbaa8, ucs2: 0xbcb0},
		lookupItem{cp949: 0xbaa9, ucs2: 0xbcb1},
		lookupItem{cp949: 0xbaaa, ucs2: 0xbcb3},
		lookupItem{cp949: 0xbaab, ucs2: 0xbcb4},
		lookupItem{cp949: 0xbaac, ucs2: 0xbcb5},
		lookupItem{cp949: 0xbaad, ucs2: 0xbcbc},
		lookupItem{cp949: 0xbaae, ucs2: 0xbcbd},
		lookupItem{cp949: 0xbaaf, ucs2: 0xbcc0},
		lookupItem{cp949: 0xbab0, ucs2: 0xbcc4},
		lookupItem{cp949: 0xbab1, ucs2: 0xbccd},
		lookupItem{cp949: 0xbab2, ucs2: 0xbccf},
		lookupItem{cp949: 0xbab3, ucs2: 0xbcd0},
		lookupItem{cp949: 0xbab4, ucs2: 0xbcd1},
		lookupItem{cp949: 0xbab5, ucs2: 0xbcd5},
		lookupItem{cp949: 0xbab6, ucs2: 0xbcd8},
		lookupItem{cp949: 0xbab7, ucs2: 0xbcdc},
		lookupItem{cp949: 0xbab8, ucs2: 0xbcf4},
		lookupItem{cp949: 0xbab9, ucs2: 0xbcf5},
		lookupItem{cp949: 0xbaba, ucs2: 0xbcf6},
		lookupItem{cp949: 0xbabb, ucs2: 0xbcf8},
		lookupItem{cp949: 0xbabc, ucs2: 0xbcfc},
		lookupItem{cp949: 0xbabd, ucs2: 0xbd04},
		lookupItem{cp949: 0xbabe, ucs2: 0xbd05},
		lookupItem{cp949: 0xbabf, ucs2: 0xbd07},
		lookupItem{cp949: 0xbac0, ucs2: 0xbd09},
		lookupItem{cp949: 0xbac1, ucs2: 0xbd10},
		lookupItem{cp949: 0xbac2, ucs2: 0xbd14},
		lookupItem{cp949: 0xbac3, ucs2: 0xbd24},
		lookupItem{cp949: 0xbac4, ucs2: 0xbd2c},
		lookupItem{cp949: 0xbac5, ucs2: 0xbd40},
		lookupItem{cp949: 0xbac6, ucs2: 0xbd48},
		lookupItem{cp949: 0xbac7, ucs2: 0xbd49},
		lookupItem{cp949: 0xbac8, ucs2: 0xbd4c},
		lookupItem{cp949: 0xbac9, ucs2: 0xbd50},
		lookupItem{cp949: 0xbaca, ucs2: 0xbd58},
		lookupItem{cp949: 0xbacb, ucs2: 0xbd59},
		lookupItem{cp949: 0xbacc, ucs2: 0xbd64},
		lookupItem{cp949: 0xbacd, ucs2: 0xbd68},
		lookupItem{cp949: 0xbace, ucs2: 0xbd80},
		lookupItem{cp949: 0xbacf, ucs2: 0xbd81},
		lookupItem{cp949: 0xbad0, ucs2: 0xbd84},
		lookupItem{cp949: 0xbad1, ucs2: 0xbd87},
		lookupItem{cp949: 0xbad2, ucs2: 0xbd88},
		lookupItem{cp949: 0xbad3, ucs2: 0xbd89},
		lookupItem{cp949: 0xbad4, ucs2: 0xbd8a},
		lookupItem{cp949: 0xbad5, ucs2: 0xbd90},
		lookupItem{cp949: 0xbad6, ucs2: 0xbd91},
		lookupItem{cp949: 0xbad7, ucs2: 0xbd93},
		lookupItem{cp949: 0xbad8, ucs2: 0xbd95},
		lookupItem{cp949: 0xbad9, ucs2: 0xbd99},
		lookupItem{cp949: 0xbada, ucs2: 0xbd9a},
		lookupItem{cp949: 0xbadb, ucs2: 0xbd9c},
		lookupItem{cp949: 0xbadc, ucs2: 0xbda4},
		lookupItem{cp949: 0xbadd, ucs2: 0xbdb0},
		lookupItem{cp949: 0xbade, ucs2: 0xbdb8},
		lookupItem{cp949: 0xbadf, ucs2: 0xbdd4},
		lookupItem{cp949: 0xbae0, ucs2: 0xbdd5},
		lookupItem{cp949: 0xbae1, ucs2: 0xbdd8},
		lookupItem{cp949: 0xbae2, ucs2: 0xbddc},
		lookupItem{cp949: 0xbae3, ucs2: 0xbde9},
		lookupItem{cp949: 0xbae4, ucs2: 0xbdf0},
		lookupItem{cp949: 0xbae5, ucs2: 0xbdf4},
		lookupItem{cp949: 0xbae6, ucs2: 0xbdf8},
		lookupItem{cp949: 0xbae7, ucs2: 0xbe00},
		lookupItem{cp949: 0xbae8, ucs2: 0xbe03},
		lookupItem{cp949: 0xbae9, ucs2: 0xbe05},
		lookupItem{cp949: 0xbaea, ucs2: 0xbe0c},
		lookupItem{cp949: 0xbaeb, ucs2: 0xbe0d},
		lookupItem{cp949: 0xbaec, ucs2: 0xbe10},
		lookupItem{cp949: 0xbaed, ucs2: 0xbe14},
		lookupItem{cp949: 0xbaee, ucs2: 0xbe1c},
		lookupItem{cp949: 0xbaef, ucs2: 0xbe1d},
		lookupItem{cp949: 0xbaf0, ucs2: 0xbe1f},
		lookupItem{cp949: 0xbaf1, ucs2: 0xbe44},
		lookupItem{cp949: 0xbaf2, ucs2: 0xbe45},
		lookupItem{cp949: 0xbaf3, ucs2: 0xbe48},
		lookupItem{cp949: 0xbaf4, ucs2: 0xbe4c},
		lookupItem{cp949: 0xbaf5, ucs2: 0xbe4e},
		lookupItem{cp949: 0xbaf6, ucs2: 0xbe54},
		lookupItem{cp949: 0xbaf7, ucs2: 0xbe55},
		lookupItem{cp949: 0xbaf8, ucs2: 0xbe57},
		lookupItem{cp949: 0xbaf9, ucs2: 0xbe59},
		lookupItem{cp949: 0xbafa, ucs2: 0xbe5a},
		lookupItem{cp949: 0xbafb, ucs2: 0xbe5b},
		lookupItem{cp949: 0xbafc, ucs2: 0xbe60},
		lookupItem{cp949: 0xbafd, ucs2: 0xbe61},
		lookupItem{cp949: 0xbafe, ucs2: 0xbe64},
		lookupItem{cp949: 0xbb41, ucs2: 0xd2fb},
		lookupItem{cp949: 0xbb42, ucs2: 0xd2fc},
		lookupItem{cp949: 0xbb43, ucs2: 0xd2fd},
		lookupItem{cp949: 0xbb44, ucs2: 0xd2fe},
		lookupItem{cp949: 0xbb45, ucs2: 0xd2ff},
		lookupItem{cp949: 0xbb46, ucs2: 0xd302},
		lookupItem{cp949: 0xbb47, ucs2: 0xd304},
		lookupItem{cp949: 0xbb48, ucs2: 0xd306},
		lookupItem{cp949: 0xbb49, ucs2: 0xd307},
		lookupItem{cp949: 0xbb4a, ucs2: 0xd308},
		lookupItem{cp949: 0xbb4b, ucs2: 0xd309},
		lookupItem{cp949: 0xbb4c, ucs2: 0xd30a},
		lookupItem{cp949: 0xbb4d, ucs2: 0xd30b},
		lookupItem{cp949: 0xbb4e, ucs2: 0xd30f},
		lookupItem{cp949: 0xbb4f, ucs2: 0xd311},
		lookupItem{cp949: 0xbb50, ucs2: 0xd312},
		lookupItem{cp949: 0xbb51, ucs2: 0xd313},
		lookupItem{cp949: 0xbb52, ucs2: 0xd315},
		lookupItem{cp949: 0xbb53, ucs2: 0xd317},
		lookupItem{cp949: 0xbb54, ucs2: 0xd318},
		lookupItem{cp949: 0xbb55, ucs2: 0xd319},
		lookupItem{cp949: 0xbb56, ucs2: 0xd31a},
		lookupItem{cp949: 0xbb57, ucs2: 0xd31b},
		lookupItem{cp949: 0xbb58, ucs2: 0xd31e},
		lookupItem{cp949: 0xbb59, ucs2: 0xd322},
		lookupItem{cp949: 0xbb5a, ucs2: 0xd323},
		lookupItem{cp949: 0xbb61, ucs2: 0xd324},
		lookupItem{cp949: 0xbb62, ucs2: 0xd326},
		lookupItem{cp949: 0xbb63, ucs2: 0xd327},
		lookupItem{cp949: 0xbb64, ucs2: 0xd32a},
		lookupItem{cp949: 0xbb65, ucs2: 0xd32b},
		lookupItem{cp949: 0xbb66, ucs2: 0xd32d},
		lookupItem{cp949: 0xbb67, ucs2: 0xd32e},
		lookupItem{cp949: 0xbb68, ucs2: 0xd32f},
		lookupItem{cp949: 0xbb69, ucs2: 0xd331},
		lookupItem{cp949: 0xbb6a, ucs2: 0xd332},
		lookupItem{cp949: 0xbb6b, ucs2: 0xd333},
		lookupItem{cp949: 0xbb6c, ucs2: 0xd334},
		lookupItem{cp949: 0xbb6d, ucs2: 0xd335},
		lookupItem{cp949: 0xbb6e, ucs2: 0xd336},
		lookupItem{cp949: 0xbb6f, ucs2: 0xd337},
		lookupItem{cp949: 0xbb70, ucs2: 0xd33a},
		lookupItem{cp949: 0xbb71, ucs2: 0xd33e},
		lookupItem{cp949: 0xbb72, ucs2: 0xd33f},
		lookupItem{cp949: 0xbb73, ucs2: 0xd340},
		lookupItem{cp949: 0xbb74, ucs2: 0xd341},
		lookupItem{cp949: 0xbb75, ucs2: 0xd342},
		lookupItem{cp949: 0xbb76, ucs2: 0xd343},
		lookupItem{cp949: 0xbb77, ucs2: 0xd346},
		lookupItem{cp949: 0xbb78, ucs2: 0xd347},
		lookupItem{cp949: 0xbb79, ucs2: 0xd348},
		lookupItem{cp949: 0xbb7a, ucs2: 0xd349},
		lookupItem{cp949: 0xbb81, ucs2: 0xd34a},
		lookupItem{cp949: 0xbb82, ucs2: 0xd34b},
		lookupItem{cp949: 0xbb83, ucs2: 0xd34c},
		lookupItem{cp949: 0xbb84, ucs2: 0xd34d},
		lookupItem{cp949: 0xbb85, ucs2: 0xd34e},
		lookupItem{cp949: 0xbb86, ucs2: 0xd34f},
		lookupItem{cp949: 0xbb87, ucs2: 0xd350},
		lookupItem{cp949: 0xbb88, ucs2: 0xd351},
		lookupItem{cp949: 0xbb89, ucs2: 0xd352},
		lookupItem{cp949: 0xbb8a, ucs2: 0xd353},
		lookupItem{cp949: 0xbb8b, ucs2: 0xd354},
		lookupItem{cp949: 0xbb8c, ucs2: 0xd355},
		lookupItem{cp949: 0xbb8d, ucs2: 0xd356},
		lookupItem{cp949: 0xbb8e, ucs2: 0xd357},
		lookupItem{cp949: 0xbb8f, ucs2: 0xd358},
		lookupItem{cp949: 0xbb90, ucs2: 0xd359},
		lookupItem{cp949: 0xbb91, ucs2: 0xd35a},
		lookupItem{cp949: 0xbb92, ucs2: 0xd35b},
		lookupItem{cp949: 0xbb93, ucs2: 0xd35c},
		lookupItem{cp949: 0xbb94, ucs2: 0xd35d},
		lookupItem{cp949: 0xbb95, ucs2: 0xd35e},
		lookupItem{cp949: 0xbb96, ucs2: 0xd35f},
		lookupItem{cp949: 0xbb97, ucs2: 0xd360},
		lookupItem{cp949: 0xbb98, ucs2: 0xd361},
		lookupItem{cp949: 0xbb99, ucs2: 0xd362},
		lookupItem{cp949: 0xbb9a, ucs2: 0xd363},
		lookupItem{cp949: 0xbb9b, ucs2: 0xd364},
		lookupItem{cp949: 0xbb9c, ucs2: 0xd365},
		lookupItem{cp949: 0xbb9d, ucs2: 0xd366},
		lookupItem{cp949: 0xbb9e, ucs2: 0xd367},
		lookupItem{cp949: 0xbb9f, ucs2: 0xd368},
		lookupItem{cp949: 0xbba0, ucs2: 0xd369},
		lookupItem{cp949: 0xbba1, ucs2: 0xbe68},
		lookupItem{cp949: 0xbba2, ucs2: 0xbe6a},
		lookupItem{cp949: 0xbba3, ucs2: 0xbe70},
		lookupItem{cp949: 0xbba4, ucs2: 0xbe71},
		lookupItem{cp949: 0xbba5, ucs2: 0xbe73},
		lookupItem{cp949: 0xbba6, ucs2: 0xbe74},
".
Definition text_cp949_lookup_from_040 : string :=
"		lookupItem{cp949: 0xbba7, ucs2: 0xbe75},
		lookupItem{cp949: 0xbba8, ucs2: 0xbe7b},
		lookupItem{cp949: 0xbba9, ucs2: 0xbe7c},
		lookupItem{cp949: 0xbbaa, ucs2: 0xbe7d},
		lookupItem{cp949: 0xbbab, ucs2: 0xbe80},
		lookupItem{cp949: 0xbbac, ucs2: 0xbe84},
		lookupItem{cp949: 0xbbad, ucs2: 0xbe8c},
		lookupItem{cp949: 0xbbae, ucs2: 0xbe8d},
		lookupItem{cp949: 0xbbaf, ucs2: 0xbe8f},
		lookupItem{cp949: 0xbbb0, ucs2: 0xbe90},
		lookupItem{cp949: 0xbbb1, ucs2: 0xbe91},
		lookupItem{cp949: 0xbbb2, ucs2: 0xbe98},
		lookupItem{cp949: 0xbbb3, ucs2: 0xbe99},
		lookupItem{cp949: 0xbbb4, ucs2: 0xbea8},
		lookupItem{cp949: 0xbbb5, ucs2: 0xbed0},
		lookupItem{cp949: 0xbbb6, ucs2: 0xbed1},
		lookupItem{cp949: 0xbbb7, ucs2: 0xbed4},
		lookupItem{cp949: 0xbbb8, ucs2: 0xbed7},
		lookupItem{cp949: 0xbbb9, ucs2: 0xbed8},
		lookupItem{cp949: 0xbbba, ucs2: 0xbee0},
		lookupItem{cp949: 0xbbbb, ucs2: 0xbee3},
		lookupItem{cp949: 0xbbbc, ucs2: 0xbee4},
		lookupItem{cp949: 0xbbbd, ucs2: 0xbee5},
		lookupItem{cp949: 0xbbbe, ucs2: 0xbeec},
		lookupItem{cp949: 0xbbbf, ucs2: 0xbf01},
		lookupItem{cp949: 0xbbc0, ucs2: 0xbf08},
		lookupItem{cp949: 0xbbc1, ucs2: 0xbf09},
		lookupItem{cp949: 0xbbc2, ucs2: 0xbf18},
		lookupItem{cp949: 0xbbc3, ucs2: 0xbf19},
		lookupItem{cp949: 0xbbc4, ucs2: 0xbf1b},
		lookupItem{cp949: 0xbbc5, ucs2: 0xbf1c},
		lookupItem{cp949: 0xbbc6, ucs2: 0xbf1d},
		lookupItem{cp949: 0xbbc7, ucs2: 0xbf40},
		lookupItem{cp949: 0xbbc8, ucs2: 0xbf41},
		lookupItem{cp949: 0xbbc9, ucs2: 0xbf44},
		lookupItem{cp949: 0xbbca, ucs2: 0xbf48},
		lookupItem{cp949: 0xbbcb, ucs2: 0xbf50},
		lookupItem{cp949: 0xbbcc, ucs2: 0xbf51},
		lookupItem{cp949: 0xbbcd, ucs2: 0xbf55},
		lookupItem{cp949: 0xbbce, ucs2: 0xbf94},
		lookupItem{cp949: 0xbbcf, ucs2: 0xbfb0},
		lookupItem{cp949: 0xbbd0, ucs2: 0xbfc5},
		lookupItem{cp949: 0xbbd1, ucs2: 0xbfcc},
		lookupItem{cp949: 0xbbd2, ucs2: 0xbfcd},
		lookupItem{cp949: 0xbbd3, ucs2: 0xbfd0},
		lookupItem{cp949: 0xbbd4, ucs2: 0xbfd4},
		lookupItem{cp949: 0xbbd5, ucs2: 0xbfdc},
		lookupItem{cp949: 0xbbd6, ucs2: 0xbfdf},
		lookupItem{cp949: 0xbbd7, ucs2: 0xbfe1},
		lookupItem{cp949: 0xbbd8, ucs2: 0xc03c},
		lookupItem{cp949: 0xbbd9, ucs2: 0xc051},
		lookupItem{cp949: 0xbbda, ucs2: 0xc058},
		lookupItem{cp949: 0xbbdb, ucs2: 0xc05c},
		lookupItem{cp949: 0xbbdc, ucs2: 0xc060},
		lookupItem{cp949: 0xbbdd, ucs2: 0xc068},
		lookupItem{cp949: 0xbbde, ucs2: 0xc069},
		lookupItem{cp949: 0xbbdf, ucs2: 0xc090},
		lookupItem{cp949: 0xbbe0, ucs2: 0xc091},
		lookupItem{cp949: 0xbbe1, ucs2: 0xc094},
		lookupItem{cp949: 0xbbe2, ucs2: 0xc098},
		lookupItem{cp949: 0xbbe3, ucs2: 0xc0a0},
		lookupItem{cp949: 0xbbe4, ucs2: 0xc0a1},
		lookupItem{cp949: 0xbbe5, ucs2: 0xc0a3},
		lookupItem{cp949: 0xbbe6, ucs2: 0xc0a5},
		lookupItem{cp949: 0xbbe7, ucs2: 0xc0ac},
		lookupItem{cp949: 0xbbe8, ucs2: 0xc0ad},
		lookupItem{cp949: 0xbbe9, ucs2: 0xc0af},
		lookupItem{cp949: 0xbbea, ucs2: 0xc0b0},
		lookupItem{cp949: 0xbbeb, ucs2: 0xc0b3},
		lookupItem{cp949: 0xbbec, ucs2: 0xc0b4},
		lookupItem{cp949: 0xbbed, ucs2: 0xc0b5},
		lookupItem{cp949: 0xbbee, ucs2: 0xc0b6},
		lookupItem{cp949: 0xbbef, ucs2: 0xc0bc},
		lookupItem{cp949: 0xbbf0, ucs2: 0xc0bd},
		lookupItem{cp949: 0xbbf1, ucs2: 0xc0bf},
		lookupItem{cp949: 0xbbf2, ucs2: 0xc0c0},
		lookupItem{cp949: 0xbbf3, ucs2: 0xc0c1},
		lookupItem{cp949: 0xbbf4, ucs2: 0xc0c5},
		lookupItem{cp949: 0xbbf5, ucs2: 0xc0c8},
		lookupItem{cp949: 0xbbf6, ucs2: 0xc0c9},
		lookupItem{cp949: 0xbbf7, ucs2: 0xc0cc},
		lookupItem{cp949: 0xbbf8, ucs2: 0xc0d0},
		lookupItem{cp949: 0xbbf9, ucs2: 0xc0d8},
		lookupItem{cp949: 0xbbfa, ucs2: 0xc0d9},
		lookupItem{cp949: 0xbbfb, ucs2: 0xc0db},
		lookupItem{cp949: 0xbbfc, ucs2: 0xc0dc},
		lookupItem{cp949: 0xbbfd, ucs2: 0xc0dd},
		lookupItem{cp949: 0xbbfe, ucs2: 0xc0e4},
		lookupItem{cp949: 0xbc41, ucs2: 0xd36a},
		lookupItem{cp949: 0xbc42, ucs2: 0xd36b},
		lookupItem{cp949: 0xbc43, ucs2: 0xd36c},
		lookupItem{cp949: 0xbc44, ucs2: 0xd36d},
		lookupItem{cp949: 0xbc45, ucs2: 0xd36e},
		lookupItem{cp949: 0xbc46, ucs2: 0xd36f},
		lookupItem{cp949: 0xbc47, ucs2: 0xd370},
		lookupItem{cp949: 0xbc48, ucs2: 0xd371},
		lookupItem{cp949: 0xbc49, ucs2: 0xd372},
		lookupItem{cp949: 0xbc4a, ucs2: 0xd373},
		lookupItem{cp949: 0xbc4b, ucs2: 0xd374},
		lookupItem{cp949: 0xbc4c, ucs2: 0xd375},
		lookupItem{cp949: 0xbc4d, ucs2: 0xd376},
		lookupItem{cp949: 0xbc4e, ucs2: 0xd377},
		lookupItem{cp949: 0xbc4f, ucs2: 0xd378},
		lookupItem{cp949: 0xbc50, ucs2: 0xd379},
		lookupItem{cp949: 0xbc51, ucs2: 0xd37a},
		lookupItem{cp949: 0xbc52, ucs2: 0xd37b},
		lookupItem{cp949: 0xbc53, ucs2: 0xd37e},
		lookupItem{cp949: 0xbc54, ucs2: 0xd37f},
		lookupItem{cp949: 0xbc55, ucs2: 0xd381},
		lookupItem{cp949: 0xbc56, ucs2: 0xd382},
		lookupItem{cp949: 0xbc57, ucs2: 0xd383},
		lookupItem{cp949: 0xbc58, ucs2: 0xd385},
		lookupItem{cp949: 0xbc59, ucs2: 0xd386},
		lookupItem{cp949: 0xbc5a, ucs2: 0xd387},
		lookupItem{cp949: 0xbc61, ucs2: 0xd388},
		lookupItem{cp949: 0xbc62, ucs2: 0xd389},
		lookupItem{cp949: 0xbc63, ucs2: 0xd38a},
		lookupItem{cp949: 0xbc64, ucs2: 0xd38b},
		lookupItem{cp949: 0xbc65, ucs2: 0xd38e},
		lookupItem{cp949: 0xbc66, ucs2: 0xd392},
		lookupItem{cp949: 0xbc67, ucs2: 0xd393},
		lookupItem{cp949: 0xbc68, ucs2: 0xd394},
		lookupItem{cp949: 0xbc69, ucs2: 0xd395},
		lookupItem{cp949: 0xbc6a, ucs2: 0xd396},
		lookupItem{cp949: 0xbc6b, ucs2: 0xd397},
		lookupItem{cp949: 0xbc6c, ucs2: 0xd39a},
		lookupItem{cp949: 0xbc6d, ucs2: 0xd39b},
		lookupItem{cp949: 0xbc6e, ucs2: 0xd39d},
		lookupItem{cp949: 0xbc6f, ucs2: 0xd39e},
		lookupItem{cp949: 0xbc70, ucs2: 0xd39f},
		lookupItem{cp949: 0xbc71, ucs2: 0xd3a1},
		lookupItem{cp949: 0xbc72, ucs2: 0xd3a2},
		lookupItem{cp949: 0xbc73, ucs2: 0xd3a3},
		lookupItem{cp949: 0xbc74, ucs2: 0xd3a4},
		lookupItem{cp949: 0xbc75, ucs2: 0xd3a5},
		lookupItem{cp949: 0xbc76, ucs2: 0xd3a6},
		lookupItem{cp949: 0xbc77, ucs2: 0xd3a7},
		lookupItem{cp949: 0xbc78, ucs2: 0xd3aa},
		lookupItem{cp949: 0xbc79, ucs2: 0xd3ac},
		lookupItem{cp949: 0xbc7a, ucs2: 0xd3ae},
		lookupItem{cp949: 0xbc81, ucs2: 0xd3af},
		lookupItem{cp949: 0xbc82, ucs2: 0xd3b0},
		lookupItem{cp949: 0xbc83, ucs2: 0xd3b1},
		lookupItem{cp949: 0xbc84, ucs2: 0xd3b2},
		lookupItem{cp949: 0xbc85, ucs2: 0xd3b3},
		lookupItem{cp949: 0xbc86, ucs2: 0xd3b5},
		lookupItem{cp949: 0xbc87, ucs2: 0xd3b6},
		lookupItem{cp949: 0xbc88, ucs2: 0xd3b7},
		lookupItem{cp949: 0xbc89, ucs2: 0xd3b9},
		lookupItem{cp949: 0xbc8a, ucs2: 0xd3ba},
		lookupItem{cp949: 0xbc8b, ucs2: 0xd3bb},
		lookupItem{cp949: 0xbc8c, ucs2: 0xd3bd},
		lookupItem{cp949: 0xbc8d, ucs2: 0xd3be},
		lookupItem{cp949: 0xbc8e, ucs2: 0xd3bf},
		lookupItem{cp949: 0xbc8f, ucs2: 0xd3c0},
		lookupItem{cp949: 0xbc90, ucs2: 0xd3c1},
		lookupItem{cp949: 0xbc91, ucs2: 0xd3c2},
		lookupItem{cp949: 0xbc92, ucs2: 0xd3c3},
		lookupItem{cp949: 0xbc93, ucs2: 0xd3c6},
		lookupItem{cp949: 0xbc94, ucs2: 0xd3c7},
		lookupItem{cp949: 0xbc95, ucs2: 0xd3ca},
		lookupItem{cp949: 0xbc96, ucs2: 0xd3cb},
		lookupItem{cp949: 0xbc97, ucs2: 0xd3cc},
		lookupItem{cp949: 0xbc98, ucs2: 0xd3cd},
		lookupItem{cp949: 0xbc99, ucs2: 0xd3ce},
		lookupItem{cp949: 0xbc9a, ucs2: 0xd3cf},
		lookupItem{cp949: 0xbc9b, ucs2: 0xd3d1},
		lookupItem{cp949: 0xbc9c, ucs2: 0xd3d2},
		lookupItem{cp949: 0xbc9d, ucs2: 0xd3d3},
		lookupItem{cp949: 0xbc9e, ucs2: 0xd3d4},
		lookupItem{cp949: 0xbc9f, ucs2: 0xd3d5},
		lookupItem{cp949: 0xbca0, ucs2: 0xd3d6},
		lookupItem{cp949: 0xbca1, ucs2: 0xc0e5},
		lookupItem{cp949: 0xbca2, ucs2: 0xc0e8},
		lookupItem{cp949: 0xbca3, ucs2: 0xc0ec},
		lookupItem{cp949: 0xbca4, ucs2: 0xc0f4},
		lookupItem{cp949: 0xbca5, ucs2: 0xc0f5},
		lookupItem{cp949: 0xbca6, ucs2: 0xc0f7},
		lookupItem{cp949: 0xbca7, ucs2: 0xc0f9},
		lookupItem{cp949: 0xbca8, ucs2: 0xc100},
		lookupItem{cp949: 0xbca9, ucs2: 0xc104},
		lookupItem{cp949: 0xbcaa, ucs2: 0xc108},
		lookupItem{cp949: 0xbcab, ucs2: 0xc110},
		lookupItem{cp949: 0xbcac, ucs2: 0xc115},
		lookupItem{cp949: 0xbcad, ucs2: 0xc11c},
		lookupItem{cp949: 0xbcae, ucs2: 0xc11d},
		lookupItem{cp949: 0xbcaf, ucs2: 0xc11e},
		lookupItem{cp949: 0xbcb0, ucs2: 0xc11f},
		lookupItem{cp949: 0xbcb1, ucs2: 0xc120},
		lookupItem{cp949: 0xbcb2, ucs2: 0xc123},
		lookupItem{cp949: 0xbcb3, ucs2: 0xc124},
		lookupItem{cp949: 0xbcb4, ucs2: 0xc126},
		lookupItem{cp949: 0xbcb5, ucs2: 0xc127},
		lookupItem{cp949: 0xbcb6, ucs2: 0xc12c},
		lookupItem{cp949: 0xbcb7, ucs2: 0xc12d},
		lookupItem{cp949: 0xbcb8, ucs2: 0xc12f},
		lookupItem{cp949: 0xbcb9, ucs2: 0xc130},
		lookupItem{cp949: 0xbcba, ucs2: 0xc131},
		lookupItem{cp949: 0xbcbb, ucs2: 0xc136},
		lookupItem{cp949: 0xbcbc, ucs2: 0xc138},
		lookupItem{cp949: 0xbcbd, ucs2: 0xc139},
		lookupItem{cp949: 0xbcbe, ucs2: 0xc13c},
		lookupItem{cp949: 0xbcbf, ucs2: 0xc140},
		lookupItem{cp949: 0xbcc0, ucs2: 0xc148},
		lookupItem{cp949: 0xbcc1, ucs2: 0xc149},
		lookupItem{cp949: 0xbcc2, ucs2: 0xc14b},
		lookupItem{cp949: 0xbcc3, ucs2: 0xc14c},
		lookupItem{cp949: 0xbcc4, ucs2: 0xc14d},
		lookupItem{cp949: 0xbcc5, ucs2: 0xc154},
		lookupItem{cp949: 0xbcc6, ucs2: 0xc155},
		lookupItem{cp949: 0xbcc7, ucs2: 0xc158},
		lookupItem{cp949: 0xbcc8, ucs2: 0xc15c},
		lookupItem{cp949: 0xbcc9, ucs2: 0xc164},
		lookupItem{cp949: 0xbcca, ucs2: 0xc165},
		lookupItem{cp949: 0xbccb, ucs2: 0xc167},
		lookupItem{cp949: 0xbccc, ucs2: 0xc168},
		lookupItem{cp949: 0xbccd, ucs2: 0xc169},
		lookupItem{cp949: 0xbcce, ucs2: 0xc170},
		lookupItem{cp949: 0xbccf, ucs2: 0xc174},
		lookupItem{cp949: 0xbcd0, ucs2: 0xc178},
		lookupItem{cp949: 0xbcd1, ucs2: 0xc185},
		lookupItem{cp949: 0xbcd2, ucs2: 0xc18c},
		lookupItem{cp949: 0xbcd3, ucs2: 0xc18d},
		lookupItem{cp949: 0xbcd4, ucs2: 0xc18e},
		lookupItem{cp949: 0xbcd5, ucs2: 0xc190},
		lookupItem{cp949: 0xbcd6, ucs2: 0xc194},
		lookupItem{cp949: 0xbcd7, ucs2: 0xc196},
		lookupItem{cp949: 0xbcd8, ucs2: 0xc19c},
		lookupItem{cp949: 0xbcd9, ucs2: 0xc19d},
		lookupItem{cp949: 0xbcda, ucs2: 0xc19f},
		lookupItem{cp949: 0xbcdb, ucs2: 0xc1a1},
		lookupItem{cp949: 0xbcdc, ucs2: 0xc1a5},
		lookupItem{cp949: 0xbcdd, ucs2: 0xc1a8},
		lookupItem{cp949: 0xbcde, ucs2: 0xc1a9},
		lookupItem{cp949: 0xbcdf, ucs2: 0xc1ac},
		lookupItem{cp949: 0xbce0, ucs2: 0xc1b0},
		lookupItem{cp949: 0xbce1, ucs2: 0xc1bd},
		lookupItem{cp949: 0xbce2, ucs2: 0xc1c4},
		lookupItem{cp949: 0xbce3, ucs2: 0xc1c8},
		lookupItem{cp949: 0xbce4, ucs2: 0xc1cc},
		lookupItem{cp949: 0xbce5, ucs2: 0xc1d4},
		lookupItem{cp949: 0xbce6, ucs2: 0xc1d7},
		lookupItem{cp949: 0xbce7, ucs2: 0xc1d8},
		lookupItem{cp949: 0xbce8, ucs2: 0xc1e0},
		lookupItem{cp949: 0xbce9, ucs2: 0xc1e4},
		lookupItem{cp949: 0xbcea, ucs2: 0xc1e8},
		lookupItem{cp949: 0xbceb, ucs2: 0xc1f0},
		lookupItem{cp949: 0xbcec, ucs2: 0xc1f1},
		lookupItem{cp949: 0xbced, ucs2: 0xc1f3},
		lookupItem{cp949: 0xbcee, ucs2: 0xc1fc},
".
Definition text_cp949_lookup_from_041 : string :=
"		lookupItem{cp949: 0xbcef, ucs2: 0xc1fd},
		lookupItem{cp949: 0xbcf0, ucs2: 0xc200},
		lookupItem{cp949: 0xbcf1, ucs2: 0xc204},
		lookupItem{cp949: 0xbcf2, ucs2: 0xc20c},
		lookupItem{cp949: 0xbcf3, ucs2: 0xc20d},
		lookupItem{cp949: 0xbcf4, ucs2: 0xc20f},
		lookupItem{cp949: 0xbcf5, ucs2: 0xc211},
		lookupItem{cp949: 0xbcf6, ucs2: 0xc218},
		lookupItem{cp949: 0xbcf7, ucs2: 0xc219},
		lookupItem{cp949: 0xbcf8, ucs2: 0xc21c},
		lookupItem{cp949: 0xbcf9, ucs2: 0xc21f},
		lookupItem{cp949: 0xbcfa, ucs2: 0xc220},
		lookupItem{cp949: 0xbcfb, ucs2: 0xc228},
		lookupItem{cp949: 0xbcfc, ucs2: 0xc229},
		lookupItem{cp949: 0xbcfd, ucs2: 0xc22b},
		lookupItem{cp949: 0xbcfe, ucs2: 0xc22d},
		lookupItem{cp949: 0xbd41, ucs2: 0xd3d7},
		lookupItem{cp949: 0xbd42, ucs2: 0xd3d9},
		lookupItem{cp949: 0xbd43, ucs2: 0xd3da},
		lookupItem{cp949: 0xbd44, ucs2: 0xd3db},
		lookupItem{cp949: 0xbd45, ucs2: 0xd3dc},
		lookupItem{cp949: 0xbd46, ucs2: 0xd3dd},
		lookupItem{cp949: 0xbd47, ucs2: 0xd3de},
		lookupItem{cp949: 0xbd48, ucs2: 0xd3df},
		lookupItem{cp949: 0xbd49, ucs2: 0xd3e0},
		lookupItem{cp949: 0xbd4a, ucs2: 0xd3e2},
		lookupItem{cp949: 0xbd4b, ucs2: 0xd3e4},
		lookupItem{cp949: 0xbd4c, ucs2: 0xd3e5},
		lookupItem{cp949: 0xbd4d, ucs2: 0xd3e6},
		lookupItem{cp949: 0xbd4e, ucs2: 0xd3e7},
		lookupItem{cp949: 0xbd4f, ucs2: 0xd3e8},
		lookupItem{cp949: 0xbd50, ucs2: 0xd3e9},
		lookupItem{cp949: 0xbd51, ucs2: 0xd3ea},
		lookupItem{cp949: 0xbd52, ucs2: 0xd3eb},
		lookupItem{cp949: 0xbd53, ucs2: 0xd3ee},
		lookupItem{cp949: 0xbd54, ucs2: 0xd3ef},
		lookupItem{cp949: 0xbd55, ucs2: 0xd3f1},
		lookupItem{cp949: 0xbd56, ucs2: 0xd3f2},
		lookupItem{cp949: 0xbd57, ucs2: 0xd3f3},
		lookupItem{cp949: 0xbd58, ucs2: 0xd3f5},
		lookupItem{cp949: 0xbd59, ucs2: 0xd3f6},
		lookupItem{cp949: 0xbd5a, ucs2: 0xd3f7},
		lookupItem{cp949: 0xbd61, ucs2: 0xd3f8},
		lookupItem{cp949: 0xbd62, ucs2: 0xd3f9},
		lookupItem{cp949: 0xbd63, ucs2: 0xd3fa},
		lookupItem{cp949: 0xbd64, ucs2: 0xd3fb},
		lookupItem{cp949: 0xbd65, ucs2: 0xd3fe},
		lookupItem{cp949: 0xbd66, ucs2: 0xd400},
		lookupItem{cp949: 0xbd67, ucs2: 0xd402},
		lookupItem{cp949: 0xbd68, ucs2: 0xd403},
		lookupItem{cp949: 0xbd69, ucs2: 0xd404},
		lookupItem{cp949: 0xbd6a, ucs2: 0xd405},
		lookupItem{cp949: 0xbd6b, ucs2: 0xd406},
		lookupItem{cp949: 0xbd6c, ucs2: 0xd407},
		lookupItem{cp949: 0xbd6d, ucs2: 0xd409},
		lookupItem{cp949: 0xbd6e, ucs2: 0xd40a},
		lookupItem{cp949: 0xbd6f, ucs2: 0xd40b},
		lookupItem{cp949: 0xbd70, ucs2: 0xd40c},
		lookupItem{cp949: 0xbd71, ucs2: 0xd40d},
		lookupItem{cp949: 0xbd72, ucs2: 0xd40e},
		lookupItem{cp949: 0xbd73, ucs2: 0xd40f},
		lookupItem{cp949: 0xbd74, ucs2: 0xd410},
		lookupItem{cp949: 0xbd75, ucs2: 0xd411},
		lookupItem{cp949: 0xbd76, ucs2: 0xd412},
		lookupItem{cp949: 0xbd77, ucs2: 0xd413},
		lookupItem{cp949: 0xbd78, ucs2: 0xd414},
		lookupItem{cp949: 0xbd79, ucs2: 0xd415},
		lookupItem{cp949: 0xbd7a, ucs2: 0xd416},
		lookupItem{cp949: 0xbd81, ucs2: 0xd417},
		lookupItem{cp949: 0xbd82, ucs2: 0xd418},
		lookupItem{cp949: 0xbd83, ucs2: 0xd419},
		lookupItem{cp949: 0xbd84, ucs2: 0xd41a},
		lookupItem{cp949: 0xbd85, ucs2: 0xd41b},
		lookupItem{cp949: 0xbd86, ucs2: 0xd41c},
		lookupItem{cp949: 0xbd87, ucs2: 0xd41e},
		lookupItem{cp949: 0xbd88, ucs2: 0xd41f},
		lookupItem{cp949: 0xbd89, ucs2: 0xd420},
		lookupItem{cp949: 0xbd8a, ucs2: 0xd421},
		lookupItem{cp949: 0xbd8b, ucs2: 0xd422},
		lookupItem{cp949: 0xbd8c, ucs2: 0xd423},
		lookupItem{cp949: 0xbd8d, ucs2: 0xd424},
		lookupItem{cp949: 0xbd8e, ucs2: 0xd425},
		lookupItem{cp949: 0xbd8f, ucs2: 0xd426},
		lookupItem{cp949: 0xbd90, ucs2: 0xd427},
		lookupItem{cp949: 0xbd91, ucs2: 0xd428},
		lookupItem{cp949: 0xbd92, ucs2: 0xd429},
		lookupItem{cp949: 0xbd93, ucs2: 0xd42a},
		lookupItem{cp949: 0xbd94, ucs2: 0xd42b},
		lookupItem{cp949: 0xbd95, ucs2: 0xd42c},
		lookupItem{cp949: 0xbd96, ucs2: 0xd42d},
		lookupItem{cp949: 0xbd97, ucs2: 0xd42e},
		lookupItem{cp949: 0xbd98, ucs2: 0xd42f},
		lookupItem{cp949: 0xbd99, ucs2: 0xd430},
		lookupItem{cp949: 0xbd9a, ucs2: 0xd431},
		lookupItem{cp949: 0xbd9b, ucs2: 0xd432},
		lookupItem{cp949: 0xbd9c, ucs2: 0xd433},
		lookupItem{cp949: 0xbd9d, ucs2: 0xd434},
		lookupItem{cp949: 0xbd9e, ucs2: 0xd435},
		lookupItem{cp949: 0xbd9f, ucs2: 0xd436},
		lookupItem{cp949: 0xbda0, ucs2: 0xd437},
		lookupItem{cp949: 0xbda1, ucs2: 0xc22f},
		lookupItem{cp949: 0xbda2, ucs2: 0xc231},
		lookupItem{cp949: 0xbda3, ucs2: 0xc232},
		lookupItem{cp949: 0xbda4, ucs2: 0xc234},
		lookupItem{cp949: 0xbda5, ucs2: 0xc248},
		lookupItem{cp949: 0xbda6, ucs2: 0xc250},
		lookupItem{cp949: 0xbda7, ucs2: 0xc251},
		lookupItem{cp949: 0xbda8, ucs2: 0xc254},
		lookupItem{cp949: 0xbda9, ucs2: 0xc258},
		lookupItem{cp949: 0xbdaa, ucs2: 0xc260},
		lookupItem{cp949: 0xbdab, ucs2: 0xc265},
		lookupItem{cp949: 0xbdac, ucs2: 0xc26c},
		lookupItem{cp949: 0xbdad, ucs2: 0xc26d},
		lookupItem{cp949: 0xbdae, ucs2: 0xc270},
		lookupItem{cp949: 0xbdaf, ucs2: 0xc274},
		lookupItem{cp949: 0xbdb0, ucs2: 0xc27c},
		lookupItem{cp949: 0xbdb1, ucs2: 0xc27d},
		lookupItem{cp949: 0xbdb2, ucs2: 0xc27f},
		lookupItem{cp949: 0xbdb3, ucs2: 0xc281},
		lookupItem{cp949: 0xbdb4, ucs2: 0xc288},
		lookupItem{cp949: 0xbdb5, ucs2: 0xc289},
		lookupItem{cp949: 0xbdb6, ucs2: 0xc290},
		lookupItem{cp949: 0xbdb7, ucs2: 0xc298},
		lookupItem{cp949: 0xbdb8, ucs2: 0xc29b},
		lookupItem{cp949: 0xbdb9, ucs2: 0xc29d},
		lookupItem{cp949: 0xbdba, ucs2: 0xc2a4},
		lookupItem{cp949: 0xbdbb, ucs2: 0xc2a5},
		lookupItem{cp949: 0xbdbc, ucs2: 0xc2a8},
		lookupItem{cp949: 0xbdbd, ucs2: 0xc2ac},
		lookupItem{cp949: 0xbdbe, ucs2: 0xc2ad},
		lookupItem{cp949: 0xbdbf, ucs2: 0xc2b4},
		lookupItem{cp949: 0xbdc0, ucs2: 0xc2b5},
		lookupItem{cp949: 0xbdc1, ucs2: 0xc2b7},
		lookupItem{cp949: 0xbdc2, ucs2: 0xc2b9},
		lookupItem{cp949: 0xbdc3, ucs2: 0xc2dc},
		lookupItem{cp949: 0xbdc4, ucs2: 0xc2dd},
		lookupItem{cp949: 0xbdc5, ucs2: 0xc2e0},
		lookupItem{cp949: 0xbdc6, ucs2: 0xc2e3},
		lookupItem{cp949: 0xbdc7, ucs2: 0xc2e4},
		lookupItem{cp949: 0xbdc8, ucs2: 0xc2eb},
		lookupItem{cp949: 0xbdc9, ucs2: 0xc2ec},
		lookupItem{cp949: 0xbdca, ucs2: 0xc2ed},
		lookupItem{cp949: 0xbdcb, ucs2: 0xc2ef},
		lookupItem{cp949: 0xbdcc, ucs2: 0xc2f1},
		lookupItem{cp949: 0xbdcd, ucs2: 0xc2f6},
		lookupItem{cp949: 0xbdce, ucs2: 0xc2f8},
		lookupItem{cp949: 0xbdcf, ucs2: 0xc2f9},
		lookupItem{cp949: 0xbdd0, ucs2: 0xc2fb},
		lookupItem{cp949: 0xbdd1, ucs2: 0xc2fc},
		lookupItem{cp949: 0xbdd2, ucs2: 0xc300},
		lookupItem{cp949: 0xbdd3, ucs2: 0xc308},
		lookupItem{cp949: 0xbdd4, ucs2: 0xc309},
		lookupItem{cp949: 0xbdd5, ucs2: 0xc30c},
		lookupItem{cp949: 0xbdd6, ucs2: 0xc30d},
		lookupItem{cp949: 0xbdd7, ucs2: 0xc313},
		lookupItem{cp949: 0xbdd8, ucs2: 0xc314},
		lookupItem{cp949: 0xbdd9, ucs2: 0xc315},
		lookupItem{cp949: 0xbdda, ucs2: 0xc318},
		lookupItem{cp949: 0xbddb, ucs2: 0xc31c},
		lookupItem{cp949: 0xbddc, ucs2: 0xc324},
		lookupItem{cp949: 0xbddd, ucs2: 0xc325},
		lookupItem{cp949: 0xbdde, ucs2: 0xc328},
		lookupItem{cp949: 0xbddf, ucs2: 0xc329},
		lookupItem{cp949: 0xbde0, ucs2: 0xc345},
		lookupItem{cp949: 0xbde1, ucs2: 0xc368},
		lookupItem{cp949: 0xbde2, ucs2: 0xc369},
		lookupItem{cp949: 0xbde3, ucs2: 0xc36c},
		lookupItem{cp949: 0xbde4, ucs2: 0xc370},
		lookupItem{cp949: 0xbde5, ucs2: 0xc372},
		lookupItem{cp949: 0xbde6, ucs2: 0xc378},
		lookupItem{cp949: 0xbde7, ucs2: 0xc379},
		lookupItem{cp949: 0xbde8, ucs2: 0xc37c},
		lookupItem{cp949: 0xbde9, ucs2: 0xc37d},
		lookupItem{cp949: 0xbdea, ucs2: 0xc384},
		lookupItem{cp949: 0xbdeb, ucs2: 0xc388},
		lookupItem{cp949: 0xbdec, ucs2: 0xc38c},
		lookupItem{cp949: 0xbded, ucs2: 0xc3c0},
		lookupItem{cp949: 0xbdee, ucs2: 0xc3d8},
		lookupItem{cp949: 0xbdef, ucs2: 0xc3d9},
		lookupItem{cp949: 0xbdf0, ucs2: 0xc3dc},
		lookupItem{cp949: 0xbdf1, ucs2: 0xc3df},
		lookupItem{cp949: 0xbdf2, ucs2: 0xc3e0},
		lookupItem{cp949: 0xbdf3, ucs2: 0xc3e2},
		lookupItem{cp949: 0xbdf4, ucs2: 0xc3e8},
		lookupItem{cp949: 0xbdf5, ucs2: 0xc3e9},
		lookupItem{cp949: 0xbdf6, ucs2: 0xc3ed},
		lookupItem{cp949: 0xbdf7, ucs2: 0xc3f4},
		lookupItem{cp949: 0xbdf8, ucs2: 0xc3f5},
		lookupItem{cp949: 0xbdf9, ucs2: 0xc3f8},
		lookupItem{cp949: 0xbdfa, ucs2: 0xc408},
		lookupItem{cp949: 0xbdfb, ucs2: 0xc410},
		lookupItem{cp949: 0xbdfc, ucs2: 0xc424},
		lookupItem{cp949: 0xbdfd, ucs2: 0xc42c},
		lookupItem{cp949: 0xbdfe, ucs2: 0xc430},
		lookupItem{cp949: 0xbe41, ucs2: 0xd438},
		lookupItem{cp949: 0xbe42, ucs2: 0xd439},
		lookupItem{cp949: 0xbe43, ucs2: 0xd43a},
		lookupItem{cp949: 0xbe44, ucs2: 0xd43b},
		lookupItem{cp949: 0xbe45, ucs2: 0xd43c},
		lookupItem{cp949: 0xbe46, ucs2: 0xd43d},
		lookupItem{cp949: 0xbe47, ucs2: 0xd43e},
		lookupItem{cp949: 0xbe48, ucs2: 0xd43f},
		lookupItem{cp949: 0xbe49, ucs2: 0xd441},
		lookupItem{cp949: 0xbe4a, ucs2: 0xd442},
		lookupItem{cp949: 0xbe4b, ucs2: 0xd443},
		lookupItem{cp949: 0xbe4c, ucs2: 0xd445},
		lookupItem{cp949: 0xbe4d, ucs2: 0xd446},
		lookupItem{cp949: 0xbe4e, ucs2: 0xd447},
		lookupItem{cp949: 0xbe4f, ucs2: 0xd448},
		lookupItem{cp949: 0xbe50, ucs2: 0xd449},
		lookupItem{cp949: 0xbe51, ucs2: 0xd44a},
		lookupItem{cp949: 0xbe52, ucs2: 0xd44b},
		lookupItem{cp949: 0xbe53, ucs2: 0xd44c},
		lookupItem{cp949: 0xbe54, ucs2: 0xd44d},
		lookupItem{cp949: 0xbe55, ucs2: 0xd44e},
		lookupItem{cp949: 0xbe56, ucs2: 0xd44f},
		lookupItem{cp949: 0xbe57, ucs2: 0xd450},
		lookupItem{cp949: 0xbe58, ucs2: 0xd451},
		lookupItem{cp949: 0xbe59, ucs2: 0xd452},
		lookupItem{cp949: 0xbe5a, ucs2: 0xd453},
		lookupItem{cp949: 0xbe61, ucs2: 0xd454},
		lookupItem{cp949: 0xbe62, ucs2: 0xd455},
		lookupItem{cp949: 0xbe63, ucs2: 0xd456},
		lookupItem{cp949: 0xbe64, ucs2: 0xd457},
		lookupItem{cp949: 0xbe65, ucs2: 0xd458},
		lookupItem{cp949: 0xbe66, ucs2: 0xd459},
		lookupItem{cp949: 0xbe67, ucs2: 0xd45a},
		lookupItem{cp949: 0xbe68, ucs2: 0xd45b},
		lookupItem{cp949: 0xbe69, ucs2: 0xd45d},
		lookupItem{cp949: 0xbe6a, ucs2: 0xd45e},
		lookupItem{cp949: 0xbe6b, ucs2: 0xd45f},
		lookupItem{cp949: 0xbe6c, ucs2: 0xd461},
		lookupItem{cp949: 0xbe6d, ucs2: 0xd462},
		lookupItem{cp949: 0xbe6e, ucs2: 0xd463},
		lookupItem{cp949: 0xbe6f, ucs2: 0xd465},
		lookupItem{cp949: 0xbe70, ucs2: 0xd466},
		lookupItem{cp949: 0xbe71, ucs2: 0xd467},
		lookupItem{cp949: 0xbe72, ucs2: 0xd468},
		lookupItem{cp949: 0xbe73, ucs2: 0xd469},
		lookupItem{cp949: 0xbe74, ucs2: 0xd46a},
		lookupItem{cp949: 0xbe75, ucs2: 0xd46b},
		lookupItem{cp949: 0xbe76, ucs2: 0xd46c},
		lookupItem{cp949: 0xbe77, ucs2: 0xd46e},
		lookupItem{cp949: 0xbe78, ucs2: 0xd470},
		lookupItem{cp949: 0xbe79, ucs2: 0xd471},
		lookupItem{cp949: 0xbe7a, ucs2: 0xd472},
		lookupItem{cp949: 0xbe81, ucs2: 0xd473},
		lookupItem{cp949: 0xbe82, ucs2: 0xd474},
		lookupItem{cp949: 0xbe83, ucs2: 0xd475},
		lookupItem{cp949: 0xbe84, ucs2: 0xd476},
".
Definition text_cp949_lookup_from_042 : string :=
"		lookupItem{cp949: 0xbe85, ucs2: 0xd477},
		lookupItem{cp949: 0xbe86, ucs2: 0xd47a},
		lookupItem{cp949: 0xbe87, ucs2: 0xd47b},
		lookupItem{cp949: 0xbe88, ucs2: 0xd47d},
		lookupItem{cp949: 0xbe89, ucs2: 0xd47e},
		lookupItem{cp949: 0xbe8a, ucs2: 0xd481},
		lookupItem{cp949: 0xbe8b, ucs2: 0xd483},
		lookupItem{cp949: 0xbe8c, ucs2: 0xd484},
		lookupItem{cp949: 0xbe8d, ucs2: 0xd485},
		lookupItem{cp949: 0xbe8e, ucs2: 0xd486},
		lookupItem{cp949: 0xbe8f, ucs2: 0xd487},
		lookupItem{cp949: 0xbe90, ucs2: 0xd48a},
		lookupItem{cp949: 0xbe91, ucs2: 0xd48c},
		lookupItem{cp949: 0xbe92, ucs2: 0xd48e},
		lookupItem{cp949: 0xbe93, ucs2: 0xd48f},
		lookupItem{cp949: 0xbe94, ucs2: 0xd490},
		lookupItem{cp949: 0xbe95, ucs2: 0xd491},
		lookupItem{cp949: 0xbe96, ucs2: 0xd492},
		lookupItem{cp949: 0xbe97, ucs2: 0xd493},
		lookupItem{cp949: 0xbe98, ucs2: 0xd495},
		lookupItem{cp949: 0xbe99, ucs2: 0xd496},
		lookupItem{cp949: 0xbe9a, ucs2: 0xd497},
		lookupItem{cp949: 0xbe9b, ucs2: 0xd498},
		lookupItem{cp949: 0xbe9c, ucs2: 0xd499},
		lookupItem{cp949: 0xbe9d, ucs2: 0xd49a},
		lookupItem{cp949: 0xbe9e, ucs2: 0xd49b},
		lookupItem{cp949: 0xbe9f, ucs2: 0xd49c},
		lookupItem{cp949: 0xbea0, ucs2: 0xd49d},
		lookupItem{cp949: 0xbea1, ucs2: 0xc434},
		lookupItem{cp949: 0xbea2, ucs2: 0xc43c},
		lookupItem{cp949: 0xbea3, ucs2: 0xc43d},
		lookupItem{cp949: 0xbea4, ucs2: 0xc448},
		lookupItem{cp949: 0xbea5, ucs2: 0xc464},
		lookupItem{cp949: 0xbea6, ucs2: 0xc465},
		lookupItem{cp949: 0xbea7, ucs2: 0xc468},
		lookupItem{cp949: 0xbea8, ucs2: 0xc46c},
		lookupItem{cp949: 0xbea9, ucs2: 0xc474},
		lookupItem{cp949: 0xbeaa, ucs2: 0xc475},
		lookupItem{cp949: 0xbeab, ucs2: 0xc479},
		lookupItem{cp949: 0xbeac, ucs2: 0xc480},
		lookupItem{cp949: 0xbead, ucs2: 0xc494},
		lookupItem{cp949: 0xbeae, ucs2: 0xc49c},
		lookupItem{cp949: 0xbeaf, ucs2: 0xc4b8},
		lookupItem{cp949: 0xbeb0, ucs2: 0xc4bc},
		lookupItem{cp949: 0xbeb1, ucs2: 0xc4e9},
		lookupItem{cp949: 0xbeb2, ucs2: 0xc4f0},
		lookupItem{cp949: 0xbeb3, ucs2: 0xc4f1},
		lookupItem{cp949: 0xbeb4, ucs2: 0xc4f4},
		lookupItem{cp949: 0xbeb5, ucs2: 0xc4f8},
		lookupItem{cp949: 0xbeb6, ucs2: 0xc4fa},
		lookupItem{cp949: 0xbeb7, ucs2: 0xc4ff},
		lookupItem{cp949: 0xbeb8, ucs2: 0xc500},
		lookupItem{cp949: 0xbeb9, ucs2: 0xc501},
		lookupItem{cp949: 0xbeba, ucs2: 0xc50c},
		lookupItem{cp949: 0xbebb, ucs2: 0xc510},
		lookupItem{cp949: 0xbebc, ucs2: 0xc514},
		lookupItem{cp949: 0xbebd, ucs2: 0xc51c},
		lookupItem{cp949: 0xbebe, ucs2: 0xc528},
		lookupItem{cp949: 0xbebf, ucs2: 0xc529},
		lookupItem{cp949: 0xbec0, ucs2: 0xc52c},
		lookupItem{cp949: 0xbec1, ucs2: 0xc530},
		lookupItem{cp949: 0xbec2, ucs2: 0xc538},
		lookupItem{cp949: 0xbec3, ucs2: 0xc539},
		lookupItem{cp949: 0xbec4, ucs2: 0xc53b},
		lookupItem{cp949: 0xbec5, ucs2: 0xc53d},
		lookupItem{cp949: 0xbec6, ucs2: 0xc544},
		lookupItem{cp949: 0xbec7, ucs2: 0xc545},
		lookupItem{cp949: 0xbec8, ucs2: 0xc548},
		lookupItem{cp949: 0xbec9, ucs2: 0xc549},
		lookupItem{cp949: 0xbeca, ucs2: 0xc54a},
		lookupItem{cp949: 0xbecb, ucs2: 0xc54c},
		lookupItem{cp949: 0xbecc, ucs2: 0xc54d},
		lookupItem{cp949: 0xbecd, ucs2: 0xc54e},
		lookupItem{cp949: 0xbece, ucs2: 0xc553},
		lookupItem{cp949: 0xbecf, ucs2: 0xc554},
		lookupItem{cp949: 0xbed0, ucs2: 0xc555},
		lookupItem{cp949: 0xbed1, ucs2: 0xc557},
		lookupItem{cp949: 0xbed2, ucs2: 0xc558},
		lookupItem{cp949: 0xbed3, ucs2: 0xc559},
		lookupItem{cp949: 0xbed4, ucs2: 0xc55d},
		lookupItem{cp949: 0xbed5, ucs2: 0xc55e},
		lookupItem{cp949: 0xbed6, ucs2: 0xc560},
		lookupItem{cp949: 0xbed7, ucs2: 0xc561},
		lookupItem{cp949: 0xbed8, ucs2: 0xc564},
		lookupItem{cp949: 0xbed9, ucs2: 0xc568},
		lookupItem{cp949: 0xbeda, ucs2: 0xc570},
		lookupItem{cp949: 0xbedb, ucs2: 0xc571},
		lookupItem{cp949: 0xbedc, ucs2: 0xc573},
		lookupItem{cp949: 0xbedd, ucs2: 0xc574},
		lookupItem{cp949: 0xbede, ucs2: 0xc575},
		lookupItem{cp949: 0xbedf, ucs2: 0xc57c},
		lookupItem{cp949: 0xbee0, ucs2: 0xc57d},
		lookupItem{cp949: 0xbee1, ucs2: 0xc580},
		lookupItem{cp949: 0xbee2, ucs2: 0xc584},
		lookupItem{cp949: 0xbee3, ucs2: 0xc587},
		lookupItem{cp949: 0xbee4, ucs2: 0xc58c},
		lookupItem{cp949: 0xbee5, ucs2: 0xc58d},
		lookupItem{cp949: 0xbee6, ucs2: 0xc58f},
		lookupItem{cp949: 0xbee7, ucs2: 0xc591},
		lookupItem{cp949: 0xbee8, ucs2: 0xc595},
		lookupItem{cp949: 0xbee9, ucs2: 0xc597},
		lookupItem{cp949: 0xbeea, ucs2: 0xc598},
		lookupItem{cp949: 0xbeeb, ucs2: 0xc59c},
		lookupItem{cp949: 0xbeec, ucs2: 0xc5a0},
		lookupItem{cp949: 0xbeed, ucs2: 0xc5a9},
		lookupItem{cp949: 0xbeee, ucs2: 0xc5b4},
		lookupItem{cp949: 0xbeef, ucs2: 0xc5b5},
		lookupItem{cp949: 0xbef0, ucs2: 0xc5b8},
		lookupItem{cp949: 0xbef1, ucs2: 0xc5b9},
		lookupItem{cp949: 0xbef2, ucs2: 0xc5bb},
		lookupItem{cp949: 0xbef3, ucs2: 0xc5bc},
		lookupItem{cp949: 0xbef4, ucs2: 0xc5bd},
		lookupItem{cp949: 0xbef5, ucs2: 0xc5be},
		lookupItem{cp949: 0xbef6, ucs2: 0xc5c4},
		lookupItem{cp949: 0xbef7, ucs2: 0xc5c5},
		lookupItem{cp949: 0xbef8, ucs2: 0xc5c6},
		lookupItem{cp949: 0xbef9, ucs2: 0xc5c7},
		lookupItem{cp949: 0xbefa, ucs2: 0xc5c8},
		lookupItem{cp949: 0xbefb, ucs2: 0xc5c9},
		lookupItem{cp949: 0xbefc, ucs2: 0xc5ca},
		lookupItem{cp949: 0xbefd, ucs2: 0xc5cc},
		lookupItem{cp949: 0xbefe, ucs2: 0xc5ce},
		lookupItem{cp949: 0xbf41, ucs2: 0xd49e},
		lookupItem{cp949: 0xbf42, ucs2: 0xd49f},
		lookupItem{cp949: 0xbf43, ucs2: 0xd4a0},
		lookupItem{cp949: 0xbf44, ucs2: 0xd4a1},
		lookupItem{cp949: 0xbf45, ucs2: 0xd4a2},
		lookupItem{cp949: 0xbf46, ucs2: 0xd4a3},
		lookupItem{cp949: 0xbf47, ucs2: 0xd4a4},
		lookupItem{cp949: 0xbf48, ucs2: 0xd4a5},
		lookupItem{cp949: 0xbf49, ucs2: 0xd4a6},
		lookupItem{cp949: 0xbf4a, ucs2: 0xd4a7},
		lookupItem{cp949: 0xbf4b, ucs2: 0xd4a8},
		lookupItem{cp949: 0xbf4c, ucs2: 0xd4aa},
		lookupItem{cp949: 0xbf4d, ucs2: 0xd4ab},
		lookupItem{cp949: 0xbf4e, ucs2: 0xd4ac},
		lookupItem{cp949: 0xbf4f, ucs2: 0xd4ad},
		lookupItem{cp949: 0xbf50, ucs2: 0xd4ae},
		lookupItem{cp949: 0xbf51, ucs2: 0xd4af},
		lookupItem{cp949: 0xbf52, ucs2: 0xd4b0},
		lookupItem{cp949: 0xbf53, ucs2: 0xd4b1},
		lookupItem{cp949: 0xbf54, ucs2: 0xd4b2},
		lookupItem{cp949: 0xbf55, ucs2: 0xd4b3},
		lookupItem{cp949: 0xbf56, ucs2: 0xd4b4},
		lookupItem{cp949: 0xbf57, ucs2: 0xd4b5},
		lookupItem{cp949: 0xbf58, ucs2: 0xd4b6},
		lookupItem{cp949: 0xbf59, ucs2: 0xd4b7},
		lookupItem{cp949: 0xbf5a, ucs2: 0xd4b8},
		lookupItem{cp949: 0xbf61, ucs2: 0xd4b9},
		lookupItem{cp949: 0xbf62, ucs2: 0xd4ba},
		lookupItem{cp949: 0xbf63, ucs2: 0xd4bb},
		lookupItem{cp949: 0xbf64, ucs2: 0xd4bc},
		lookupItem{cp949: 0xbf65, ucs2: 0xd4bd},
		lookupItem{cp949: 0xbf66, ucs2: 0xd4be},
		lookupItem{cp949: 0xbf67, ucs2: 0xd4bf},
		lookupItem{cp949: 0xbf68, ucs2: 0xd4c0},
		lookupItem{cp949: 0xbf69, ucs2: 0xd4c1},
		lookupItem{cp949: 0xbf6a, ucs2: 0xd4c2},
		lookupItem{cp949: 0xbf6b, ucs2: 0xd4c3},
		lookupItem{cp949: 0xbf6c, ucs2: 0xd4c4},
		lookupItem{cp949: 0xbf6d, ucs2: 0xd4c5},
		lookupItem{cp949: 0xbf6e, ucs2: 0xd4c6},
		lookupItem{cp949: 0xbf6f, ucs2: 0xd4c7},
		lookupItem{cp949: 0xbf70, ucs2: 0xd4c8},
		lookupItem{cp949: 0xbf71, ucs2: 0xd4c9},
		lookupItem{cp949: 0xbf72, ucs2: 0xd4ca},
		lookupItem{cp949: 0xbf73, ucs2: 0xd4cb},
		lookupItem{cp949: 0xbf74, ucs2: 0xd4cd},
		lookupItem{cp949: 0xbf75, ucs2: 0xd4ce},
		lookupItem{cp949: 0xbf76, ucs2: 0xd4cf},
		lookupItem{cp949: 0xbf77, ucs2: 0xd4d1},
		lookupItem{cp949: 0xbf78, ucs2: 0xd4d2},
		lookupItem{cp949: 0xbf79, ucs2: 0xd4d3},
		lookupItem{cp949: 0xbf7a, ucs2: 0xd4d5},
		lookupItem{cp949: 0xbf81, ucs2: 0xd4d6},
		lookupItem{cp949: 0xbf82, ucs2: 0xd4d7},
		lookupItem{cp949: 0xbf83, ucs2: 0xd4d8},
		lookupItem{cp949: 0xbf84, ucs2: 0xd4d9},
		lookupItem{cp949: 0xbf85, ucs2: 0xd4da},
		lookupItem{cp949: 0xbf86, ucs2: 0xd4db},
		lookupItem{cp949: 0xbf87, ucs2: 0xd4dd},
		lookupItem{cp949: 0xbf88, ucs2: 0xd4de},
		lookupItem{cp949: 0xbf89, ucs2: 0xd4e0},
		lookupItem{cp949: 0xbf8a, ucs2: 0xd4e1},
		lookupItem{cp949: 0xbf8b, ucs2: 0xd4e2},
		lookupItem{cp949: 0xbf8c, ucs2: 0xd4e3},
		lookupItem{cp949: 0xbf8d, ucs2: 0xd4e4},
		lookupItem{cp949: 0xbf8e, ucs2: 0xd4e5},
		lookupItem{cp949: 0xbf8f, ucs2: 0xd4e6},
		lookupItem{cp949: 0xbf90, ucs2: 0xd4e7},
		lookupItem{cp949: 0xbf91, ucs2: 0xd4e9},
		lookupItem{cp949: 0xbf92, ucs2: 0xd4ea},
		lookupItem{cp949: 0xbf93, ucs2: 0xd4eb},
		lookupItem{cp949: 0xbf94, ucs2: 0xd4ed},
		lookupItem{cp949: 0xbf95, ucs2: 0xd4ee},
		lookupItem{cp949: 0xbf96, ucs2: 0xd4ef},
		lookupItem{cp949: 0xbf97, ucs2: 0xd4f1},
		lookupItem{cp949: 0xbf98, ucs2: 0xd4f2},
		lookupItem{cp949: 0xbf99, ucs2: 0xd4f3},
		lookupItem{cp949: 0xbf9a, ucs2: 0xd4f4},
		lookupItem{cp949: 0xbf9b, ucs2: 0xd4f5},
		lookupItem{cp949: 0xbf9c, ucs2: 0xd4f6},
		lookupItem{cp949: 0xbf9d, ucs2: 0xd4f7},
		lookupItem{cp949: 0xbf9e, ucs2: 0xd4f9},
		lookupItem{cp949: 0xbf9f, ucs2: 0xd4fa},
		lookupItem{cp949: 0xbfa0, ucs2: 0xd4fc},
		lookupItem{cp949: 0xbfa1, ucs2: 0xc5d0},
		lookupItem{cp949: 0xbfa2, ucs2: 0xc5d1},
		lookupItem{cp949: 0xbfa3, ucs2: 0xc5d4},
		lookupItem{cp949: 0xbfa4, ucs2: 0xc5d8},
		lookupItem{cp949: 0xbfa5, ucs2: 0xc5e0},
		lookupItem{cp949: 0xbfa6, ucs2: 0xc5e1},
		lookupItem{cp949: 0xbfa7, ucs2: 0xc5e3},
		lookupItem{cp949: 0xbfa8, ucs2: 0xc5e5},
		lookupItem{cp949: 0xbfa9, ucs2: 0xc5ec},
		lookupItem{cp949: 0xbfaa, ucs2: 0xc5ed},
		lookupItem{cp949: 0xbfab, ucs2: 0xc5ee},
		lookupItem{cp949: 0xbfac, ucs2: 0xc5f0},
		lookupItem{cp949: 0xbfad, ucs2: 0xc5f4},
		lookupItem{cp949: 0xbfae, ucs2: 0xc5f6},
		lookupItem{cp949: 0xbfaf, ucs2: 0xc5f7},
		lookupItem{cp949: 0xbfb0, ucs2: 0xc5fc},
		lookupItem{cp949: 0xbfb1, ucs2: 0xc5fd},
		lookupItem{cp949: 0xbfb2, ucs2: 0xc5fe},
		lookupItem{cp949: 0xbfb3, ucs2: 0xc5ff},
		lookupItem{cp949: 0xbfb4, ucs2: 0xc600},
		lookupItem{cp949: 0xbfb5, ucs2: 0xc601},
		lookupItem{cp949: 0xbfb6, ucs2: 0xc605},
		lookupItem{cp949: 0xbfb7, ucs2: 0xc606},
		lookupItem{cp949: 0xbfb8, ucs2: 0xc607},
		lookupItem{cp949: 0xbfb9, ucs2: 0xc608},
		lookupItem{cp949: 0xbfba, ucs2: 0xc60c},
		lookupItem{cp949: 0xbfbb, ucs2: 0xc610},
		lookupItem{cp949: 0xbfbc, ucs2: 0xc618},
		lookupItem{cp949: 0xbfbd, ucs2: 0xc619},
		lookupItem{cp949: 0xbfbe, ucs2: 0xc61b},
		lookupItem{cp949: 0xbfbf, ucs2: 0xc61c},
		lookupItem{cp949: 0xbfc0, ucs2: 0xc624},
		lookupItem{cp949: 0xbfc1, ucs2: 0xc625},
		lookupItem{cp949: 0xbfc2, ucs2: 0xc628},
		lookupItem{cp949: 0xbfc3, ucs2: 0xc62c},
		lookupItem{cp949: 0xbfc4, ucs2: 0xc62d},
		lookupItem{cp949: 0xbfc5, ucs2: 0xc62e},
		lookupItem{cp949: 0xbfc6, ucs2: 0xc630},
		lookupItem{cp949: 0xbfc7, ucs2: 0xc633},
		lookupItem{cp949: 0xbfc8, ucs2: 0xc634},
		lookupItem{cp949: 0xbfc9, ucs2: 0xc635},
		lookupItem{cp949: 0xbfca, ucs2: 0xc637},
		lookupItem{cp949: 0xbfcb, ucs2: 0xc639},
		lookupItem{cp949: 0xbfcc, ucs2: 0xc63b},
".
Definition text_cp949_lookup_from_043 : string :=
"		lookupItem{cp949: 0xbfcd, ucs2: 0xc640},
		lookupItem{cp949: 0xbfce, ucs2: 0xc641},
		lookupItem{cp949: 0xbfcf, ucs2: 0xc644},
		lookupItem{cp949: 0xbfd0, ucs2: 0xc648},
		lookupItem{cp949: 0xbfd1, ucs2: 0xc650},
		lookupItem{cp949: 0xbfd2, ucs2: 0xc651},
		lookupItem{cp949: 0xbfd3, ucs2: 0xc653},
		lookupItem{cp949: 0xbfd4, ucs2: 0xc654},
		lookupItem{cp949: 0xbfd5, ucs2: 0xc655},
		lookupItem{cp949: 0xbfd6, ucs2: 0xc65c},
		lookupItem{cp949: 0xbfd7, ucs2: 0xc65d},
		lookupItem{cp949: 0xbfd8, ucs2: 0xc660},
		lookupItem{cp949: 0xbfd9, ucs2: 0xc66c},
		lookupItem{cp949: 0xbfda, ucs2: 0xc66f},
		lookupItem{cp949: 0xbfdb, ucs2: 0xc671},
		lookupItem{cp949: 0xbfdc, ucs2: 0xc678},
		lookupItem{cp949: 0xbfdd, ucs2: 0xc679},
		lookupItem{cp949: 0xbfde, ucs2: 0xc67c},
		lookupItem{cp949: 0xbfdf, ucs2: 0xc680},
		lookupItem{cp949: 0xbfe0, ucs2: 0xc688},
		lookupItem{cp949: 0xbfe1, ucs2: 0xc689},
		lookupItem{cp949: 0xbfe2, ucs2: 0xc68b},
		lookupItem{cp949: 0xbfe3, ucs2: 0xc68d},
		lookupItem{cp949: 0xbfe4, ucs2: 0xc694},
		lookupItem{cp949: 0xbfe5, ucs2: 0xc695},
		lookupItem{cp949: 0xbfe6, ucs2: 0xc698},
		lookupItem{cp949: 0xbfe7, ucs2: 0xc69c},
		lookupItem{cp949: 0xbfe8, ucs2: 0xc6a4},
		lookupItem{cp949: 0xbfe9, ucs2: 0xc6a5},
		lookupItem{cp949: 0xbfea, ucs2: 0xc6a7},
		lookupItem{cp949: 0xbfeb, ucs2: 0xc6a9},
		lookupItem{cp949: 0xbfec, ucs2: 0xc6b0},
		lookupItem{cp949: 0xbfed, ucs2: 0xc6b1},
		lookupItem{cp949: 0xbfee, ucs2: 0xc6b4},
		lookupItem{cp949: 0xbfef, ucs2: 0xc6b8},
		lookupItem{cp949: 0xbff0, ucs2: 0xc6b9},
		lookupItem{cp949: 0xbff1, ucs2: 0xc6ba},
		lookupItem{cp949: 0xbff2, ucs2: 0xc6c0},
		lookupItem{cp949: 0xbff3, ucs2: 0xc6c1},
		lookupItem{cp949: 0xbff4, ucs2: 0xc6c3},
		lookupItem{cp949: 0xbff5, ucs2: 0xc6c5},
		lookupItem{cp949: 0xbff6, ucs2: 0xc6cc},
		lookupItem{cp949: 0xbff7, ucs2: 0xc6cd},
		lookupItem{cp949: 0xbff8, ucs2: 0xc6d0},
		lookupItem{cp949: 0xbff9, ucs2: 0xc6d4},
		lookupItem{cp949: 0xbffa, ucs2: 0xc6dc},
		lookupItem{cp949: 0xbffb, ucs2: 0xc6dd},
		lookupItem{cp949: 0xbffc, ucs2: 0xc6e0},
		lookupItem{cp949: 0xbffd, ucs2: 0xc6e1},
		lookupItem{cp949: 0xbffe, ucs2: 0xc6e8},
		lookupItem{cp949: 0xc041, ucs2: 0xd4fe},
		lookupItem{cp949: 0xc042, ucs2: 0xd4ff},
		lookupItem{cp949: 0xc043, ucs2: 0xd500},
		lookupItem{cp949: 0xc044, ucs2: 0xd501},
		lookupItem{cp949: 0xc045, ucs2: 0xd502},
		lookupItem{cp949: 0xc046, ucs2: 0xd503},
		lookupItem{cp949: 0xc047, ucs2: 0xd505},
		lookupItem{cp949: 0xc048, ucs2: 0xd506},
		lookupItem{cp949: 0xc049, ucs2: 0xd507},
		lookupItem{cp949: 0xc04a, ucs2: 0xd509},
		lookupItem{cp949: 0xc04b, ucs2: 0xd50a},
		lookupItem{cp949: 0xc04c, ucs2: 0xd50b},
		lookupItem{cp949: 0xc04d, ucs2: 0xd50d},
		lookupItem{cp949: 0xc04e, ucs2: 0xd50e},
		lookupItem{cp949: 0xc04f, ucs2: 0xd50f},
		lookupItem{cp949: 0xc050, ucs2: 0xd510},
		lookupItem{cp949: 0xc051, ucs2: 0xd511},
		lookupItem{cp949: 0xc052, ucs2: 0xd512},
		lookupItem{cp949: 0xc053, ucs2: 0xd513},
		lookupItem{cp949: 0xc054, ucs2: 0xd516},
		lookupItem{cp949: 0xc055, ucs2: 0xd518},
		lookupItem{cp949: 0xc056, ucs2: 0xd519},
		lookupItem{cp949: 0xc057, ucs2: 0xd51a},
		lookupItem{cp949: 0xc058, ucs2: 0xd51b},
		lookupItem{cp949: 0xc059, ucs2: 0xd51c},
		lookupItem{cp949: 0xc05a, ucs2: 0xd51d},
		lookupItem{cp949: 0xc061, ucs2: 0xd51e},
		lookupItem{cp949: 0xc062, ucs2: 0xd51f},
		lookupItem{cp949: 0xc063, ucs2: 0xd520},
		lookupItem{cp949: 0xc064, ucs2: 0xd521},
		lookupItem{cp949: 0xc065, ucs2: 0xd522},
		lookupItem{cp949: 0xc066, ucs2: 0xd523},
		lookupItem{cp949: 0xc067, ucs2: 0xd524},
		lookupItem{cp949: 0xc068, ucs2: 0xd525},
		lookupItem{cp949: 0xc069, ucs2: 0xd526},
		lookupItem{cp949: 0xc06a, ucs2: 0xd527},
		lookupItem{cp949: 0xc06b, ucs2: 0xd528},
		lookupItem{cp949: 0xc06c, ucs2: 0xd529},
		lookupItem{cp949: 0xc06d, ucs2: 0xd52a},
		lookupItem{cp949: 0xc06e, ucs2: 0xd52b},
		lookupItem{cp949: 0xc06f, ucs2: 0xd52c},
		lookupItem{cp949: 0xc070, ucs2: 0xd52d},
		lookupItem{cp949: 0xc071, ucs2: 0xd52e},
		lookupItem{cp949: 0xc072, ucs2: 0xd52f},
		lookupItem{cp949: 0xc073, ucs2: 0xd530},
		lookupItem{cp949: 0xc074, ucs2: 0xd531},
		lookupItem{cp949: 0xc075, ucs2: 0xd532},
		lookupItem{cp949: 0xc076, ucs2: 0xd533},
		lookupItem{cp949: 0xc077, ucs2: 0xd534},
		lookupItem{cp949: 0xc078, ucs2: 0xd535},
		lookupItem{cp949: 0xc079, ucs2: 0xd536},
		lookupItem{cp949: 0xc07a, ucs2: 0xd537},
		lookupItem{cp949: 0xc081, ucs2: 0xd538},
		lookupItem{cp949: 0xc082, ucs2: 0xd539},
		lookupItem{cp949: 0xc083, ucs2: 0xd53a},
		lookupItem{cp949: 0xc084, ucs2: 0xd53b},
		lookupItem{cp949: 0xc085, ucs2: 0xd53e},
		lookupItem{cp949: 0xc086, ucs2: 0xd53f},
		lookupItem{cp949: 0xc087, ucs2: 0xd541},
		lookupItem{cp949: 0xc088, ucs2: 0xd542},
		lookupItem{cp949: 0xc089, ucs2: 0xd543},
		lookupItem{cp949: 0xc08a, ucs2: 0xd545},
		lookupItem{cp949: 0xc08b, ucs2: 0xd546},
		lookupItem{cp949: 0xc08c, ucs2: 0xd547},
		lookupItem{cp949: 0xc08d, ucs2: 0xd548},
		lookupItem{cp949: 0xc08e, ucs2: 0xd549},
		lookupItem{cp949: 0xc08f, ucs2: 0xd54a},
		lookupItem{cp949: 0xc090, ucs2: 0xd54b},
		lookupItem{cp949: 0xc091, ucs2: 0xd54e},
		lookupItem{cp949: 0xc092, ucs2: 0xd550},
		lookupItem{cp949: 0xc093, ucs2: 0xd552},
		lookupItem{cp949: 0xc094, ucs2: 0xd553},
		lookupItem{cp949: 0xc095, ucs2: 0xd554},
		lookupItem{cp949: 0xc096, ucs2: 0xd555},
		lookupItem{cp949: 0xc097, ucs2: 0xd556},
		lookupItem{cp949: 0xc098, ucs2: 0xd557},
		lookupItem{cp949: 0xc099, ucs2: 0xd55a},
		lookupItem{cp949: 0xc09a, ucs2: 0xd55b},
		lookupItem{cp949: 0xc09b, ucs2: 0xd55d},
		lookupItem{cp949: 0xc09c, ucs2: 0xd55e},
		lookupItem{cp949: 0xc09d, ucs2: 0xd55f},
		lookupItem{cp949: 0xc09e, ucs2: 0xd561},
		lookupItem{cp949: 0xc09f, ucs2: 0xd562},
		lookupItem{cp949: 0xc0a0, ucs2: 0xd563},
		lookupItem{cp949: 0xc0a1, ucs2: 0xc6e9},
		lookupItem{cp949: 0xc0a2, ucs2: 0xc6ec},
		lookupItem{cp949: 0xc0a3, ucs2: 0xc6f0},
		lookupItem{cp949: 0xc0a4, ucs2: 0xc6f8},
		lookupItem{cp949: 0xc0a5, ucs2: 0xc6f9},
		lookupItem{cp949: 0xc0a6, ucs2: 0xc6fd},
		lookupItem{cp949: 0xc0a7, ucs2: 0xc704},
		lookupItem{cp949: 0xc0a8, ucs2: 0xc705},
		lookupItem{cp949: 0xc0a9, ucs2: 0xc708},
		lookupItem{cp949: 0xc0aa, ucs2: 0xc70c},
		lookupItem{cp949: 0xc0ab, ucs2: 0xc714},
		lookupItem{cp949: 0xc0ac, ucs2: 0xc715},
		lookupItem{cp949: 0xc0ad, ucs2: 0xc717},
		lookupItem{cp949: 0xc0ae, ucs2: 0xc719},
		lookupItem{cp949: 0xc0af, ucs2: 0xc720},
		lookupItem{cp949: 0xc0b0, ucs2: 0xc721},
		lookupItem{cp949: 0xc0b1, ucs2: 0xc724},
		lookupItem{cp949: 0xc0b2, ucs2: 0xc728},
		lookupItem{cp949: 0xc0b3, ucs2: 0xc730},
		lookupItem{cp949: 0xc0b4, ucs2: 0xc731},
		lookupItem{cp949: 0xc0b5, ucs2: 0xc733},
		lookupItem{cp949: 0xc0b6, ucs2: 0xc735},
		lookupItem{cp949: 0xc0b7, ucs2: 0xc737},
		lookupItem{cp949: 0xc0b8, ucs2: 0xc73c},
		lookupItem{cp949: 0xc0b9, ucs2: 0xc73d},
		lookupItem{cp949: 0xc0ba, ucs2: 0xc740},
		lookupItem{cp949: 0xc0bb, ucs2: 0xc744},
		lookupItem{cp949: 0xc0bc, ucs2: 0xc74a},
		lookupItem{cp949: 0xc0bd, ucs2: 0xc74c},
		lookupItem{cp949: 0xc0be, ucs2: 0xc74d},
		lookupItem{cp949: 0xc0bf, ucs2: 0xc74f},
		lookupItem{cp949: 0xc0c0, ucs2: 0xc751},
		lookupItem{cp949: 0xc0c1, ucs2: 0xc752},
		lookupItem{cp949: 0xc0c2, ucs2: 0xc753},
		lookupItem{cp949: 0xc0c3, ucs2: 0xc754},
		lookupItem{cp949: 0xc0c4, ucs2: 0xc755},
		lookupItem{cp949: 0xc0c5, ucs2: 0xc756},
		lookupItem{cp949: 0xc0c6, ucs2: 0xc757},
		lookupItem{cp949: 0xc0c7, ucs2: 0xc758},
		lookupItem{cp949: 0xc0c8, ucs2: 0xc75c},
		lookupItem{cp949: 0xc0c9, ucs2: 0xc760},
		lookupItem{cp949: 0xc0ca, ucs2: 0xc768},
		lookupItem{cp949: 0xc0cb, ucs2: 0xc76b},
		lookupItem{cp949: 0xc0cc, ucs2: 0xc774},
		lookupItem{cp949: 0xc0cd, ucs2: 0xc775},
		lookupItem{cp949: 0xc0ce, ucs2: 0xc778},
		lookupItem{cp949: 0xc0cf, ucs2: 0xc77c},
		lookupItem{cp949: 0xc0d0, ucs2: 0xc77d},
		lookupItem{cp949: 0xc0d1, ucs2: 0xc77e},
		lookupItem{cp949: 0xc0d2, ucs2: 0xc783},
		lookupItem{cp949: 0xc0d3, ucs2: 0xc784},
		lookupItem{cp949: 0xc0d4, ucs2: 0xc785},
		lookupItem{cp949: 0xc0d5, ucs2: 0xc787},
		lookupItem{cp949: 0xc0d6, ucs2: 0xc788},
		lookupItem{cp949: 0xc0d7, ucs2: 0xc789},
		lookupItem{cp949: 0xc0d8, ucs2: 0xc78a},
		lookupItem{cp949: 0xc0d9, ucs2: 0xc78e},
		lookupItem{cp949: 0xc0da, ucs2: 0xc790},
		lookupItem{cp949: 0xc0db, ucs2: 0xc791},
		lookupItem{cp949: 0xc0dc, ucs2: 0xc794},
		lookupItem{cp949: 0xc0dd, ucs2: 0xc796},
		lookupItem{cp949: 0xc0de, ucs2: 0xc797},
		lookupItem{cp949: 0xc0df, ucs2: 0xc798},
		lookupItem{cp949: 0xc0e0, ucs2: 0xc79a},
		lookupItem{cp949: 0xc0e1, ucs2: 0xc7a0},
		lookupItem{cp949: 0xc0e2, ucs2: 0xc7a1},
		lookupItem{cp949: 0xc0e3, ucs2: 0xc7a3},
		lookupItem{cp949: 0xc0e4, ucs2: 0xc7a4},
		lookupItem{cp949: 0xc0e5, ucs2: 0xc7a5},
		lookupItem{cp949: 0xc0e6, ucs2: 0xc7a6},
		lookupItem{cp949: 0xc0e7, ucs2: 0xc7ac},
		lookupItem{cp949: 0xc0e8, ucs2: 0xc7ad},
		lookupItem{cp949: 0xc0e9, ucs2: 0xc7b0},
		lookupItem{cp949: 0xc0ea, ucs2: 0xc7b4},
		lookupItem{cp949: 0xc0eb, ucs2: 0xc7bc},
		lookupItem{cp949: 0xc0ec, ucs2: 0xc7bd},
		lookupItem{cp949: 0xc0ed, ucs2: 0xc7bf},
		lookupItem{cp949: 0xc0ee, ucs2: 0xc7c0},
		lookupItem{cp949: 0xc0ef, ucs2: 0xc7c1},
		lookupItem{cp949: 0xc0f0, ucs2: 0xc7c8},
		lookupItem{cp949: 0xc0f1, ucs2: 0xc7c9},
		lookupItem{cp949: 0xc0f2, ucs2: 0xc7cc},
		lookupItem{cp949: 0xc0f3, ucs2: 0xc7ce},
		lookupItem{cp949: 0xc0f4, ucs2: 0xc7d0},
		lookupItem{cp949: 0xc0f5, ucs2: 0xc7d8},
		lookupItem{cp949: 0xc0f6, ucs2: 0xc7dd},
		lookupItem{cp949: 0xc0f7, ucs2: 0xc7e4},
		lookupItem{cp949: 0xc0f8, ucs2: 0xc7e8},
		lookupItem{cp949: 0xc0f9, ucs2: 0xc7ec},
		lookupItem{cp949: 0xc0fa, ucs2: 0xc800},
		lookupItem{cp949: 0xc0fb, ucs2: 0xc801},
		lookupItem{cp949: 0xc0fc, ucs2: 0xc804},
		lookupItem{cp949: 0xc0fd, ucs2: 0xc808},
		lookupItem{cp949: 0xc0fe, ucs2: 0xc80a},
		lookupItem{cp949: 0xc141, ucs2: 0xd564},
		lookupItem{cp949: 0xc142, ucs2: 0xd566},
		lookupItem{cp949: 0xc143, ucs2: 0xd567},
		lookupItem{cp949: 0xc144, ucs2: 0xd56a},
		lookupItem{cp949: 0xc145, ucs2: 0xd56c},
		lookupItem{cp949: 0xc146, ucs2: 0xd56e},
		lookupItem{cp949: 0xc147, ucs2: 0xd56f},
		lookupItem{cp949: 0xc148, ucs2: 0xd570},
		lookupItem{cp949: 0xc149, ucs2: 0xd571},
		lookupItem{cp949: 0xc14a, ucs2: 0xd572},
		lookupItem{cp949: 0xc14b, ucs2: 0xd573},
		lookupItem{cp949: 0xc14c, ucs2: 0xd576},
		lookupItem{cp949: 0xc14d, ucs2: 0xd577},
		lookupItem{cp949: 0xc14e, ucs2: 0xd579},
		lookupItem{cp949: 0xc14f, ucs2: 0xd57a},
		lookupItem{cp949: 0xc150, ucs2: 0xd57b},
		lookupItem{cp949: 0xc151, ucs2: 0xd57d},
		lookupItem{cp949: 0xc152, ucs2: 0xd57e},
		lookupItem{cp949: 0xc153, ucs2: 0xd57f},
		lookupItem{cp949: 0xc154, ucs2: 0xd580},
		lookupItem{cp949: 0xc155, ucs2: 0xd581},
		lookupItem{cp949: 0xc156, ucs2: 0xd582},
".
Definition text_cp949_lookup_from_044 : string :=
"		lookupItem{cp949: 0xc157, ucs2: 0xd583},
		lookupItem{cp949: 0xc158, ucs2: 0xd586},
		lookupItem{cp949: 0xc159, ucs2: 0xd58a},
		lookupItem{cp949: 0xc15a, ucs2: 0xd58b},
		lookupItem{cp949: 0xc161, ucs2: 0xd58c},
		lookupItem{cp949: 0xc162, ucs2: 0xd58d},
		lookupItem{cp949: 0xc163, ucs2: 0xd58e},
		lookupItem{cp949: 0xc164, ucs2: 0xd58f},
		lookupItem{cp949: 0xc165, ucs2: 0xd591},
		lookupItem{cp949: 0xc166, ucs2: 0xd592},
		lookupItem{cp949: 0xc167, ucs2: 0xd593},
		lookupItem{cp949: 0xc168, ucs2: 0xd594},
		lookupItem{cp949: 0xc169, ucs2: 0xd595},
		lookupItem{cp949: 0xc16a, ucs2: 0xd596},
		lookupItem{cp949: 0xc16b, ucs2: 0xd597},
		lookupItem{cp949: 0xc16c, ucs2: 0xd598},
		lookupItem{cp949: 0xc16d, ucs2: 0xd599},
		lookupItem{cp949: 0xc16e, ucs2: 0xd59a},
		lookupItem{cp949: 0xc16f, ucs2: 0xd59b},
		lookupItem{cp949: 0xc170, ucs2: 0xd59c},
		lookupItem{cp949: 0xc171, ucs2: 0xd59d},
		lookupItem{cp949: 0xc172, ucs2: 0xd59e},
		lookupItem{cp949: 0xc173, ucs2: 0xd59f},
		lookupItem{cp949: 0xc174, ucs2: 0xd5a0},
		lookupItem{cp949: 0xc175, ucs2: 0xd5a1},
		lookupItem{cp949: 0xc176, ucs2: 0xd5a2},
		lookupItem{cp949: 0xc177, ucs2: 0xd5a3},
		lookupItem{cp949: 0xc178, ucs2: 0xd5a4},
		lookupItem{cp949: 0xc179, ucs2: 0xd5a6},
		lookupItem{cp949: 0xc17a, ucs2: 0xd5a7},
		lookupItem{cp949: 0xc181, ucs2: 0xd5a8},
		lookupItem{cp949: 0xc182, ucs2: 0xd5a9},
		lookupItem{cp949: 0xc183, ucs2: 0xd5aa},
		lookupItem{cp949: 0xc184, ucs2: 0xd5ab},
		lookupItem{cp949: 0xc185, ucs2: 0xd5ac},
		lookupItem{cp949: 0xc186, ucs2: 0xd5ad},
		lookupItem{cp949: 0xc187, ucs2: 0xd5ae},
		lookupItem{cp949: 0xc188, ucs2: 0xd5af},
		lookupItem{cp949: 0xc189, ucs2: 0xd5b0},
		lookupItem{cp949: 0xc18a, ucs2: 0xd5b1},
		lookupItem{cp949: 0xc18b, ucs2: 0xd5b2},
		lookupItem{cp949: 0xc18c, ucs2: 0xd5b3},
		lookupItem{cp949: 0xc18d, ucs2: 0xd5b4},
		lookupItem{cp949: 0xc18e, ucs2: 0xd5b5},
		lookupItem{cp949: 0xc18f, ucs2: 0xd5b6},
		lookupItem{cp949: 0xc190, ucs2: 0xd5b7},
		lookupItem{cp949: 0xc191, ucs2: 0xd5b8},
		lookupItem{cp949: 0xc192, ucs2: 0xd5b9},
		lookupItem{cp949: 0xc193, ucs2: 0xd5ba},
		lookupItem{cp949: 0xc194, ucs2: 0xd5bb},
		lookupItem{cp949: 0xc195, ucs2: 0xd5bc},
		lookupItem{cp949: 0xc196, ucs2: 0xd5bd},
		lookupItem{cp949: 0xc197, ucs2: 0xd5be},
		lookupItem{cp949: 0xc198, ucs2: 0xd5bf},
		lookupItem{cp949: 0xc199, ucs2: 0xd5c0},
		lookupItem{cp949: 0xc19a, ucs2: 0xd5c1},
		lookupItem{cp949: 0xc19b, ucs2: 0xd5c2},
		lookupItem{cp949: 0xc19c, ucs2: 0xd5c3},
		lookupItem{cp949: 0xc19d, ucs2: 0xd5c4},
		lookupItem{cp949: 0xc19e, ucs2: 0xd5c5},
		lookupItem{cp949: 0xc19f, ucs2: 0xd5c6},
		lookupItem{cp949: 0xc1a0, ucs2: 0xd5c7},
		lookupItem{cp949: 0xc1a1, ucs2: 0xc810},
		lookupItem{cp949: 0xc1a2, ucs2: 0xc811},
		lookupItem{cp949: 0xc1a3, ucs2: 0xc813},
		lookupItem{cp949: 0xc1a4, ucs2: 0xc815},
		lookupItem{cp949: 0xc1a5, ucs2: 0xc816},
		lookupItem{cp949: 0xc1a6, ucs2: 0xc81c},
		lookupItem{cp949: 0xc1a7, ucs2: 0xc81d},
		lookupItem{cp949: 0xc1a8, ucs2: 0xc820},
		lookupItem{cp949: 0xc1a9, ucs2: 0xc824},
		lookupItem{cp949: 0xc1aa, ucs2: 0xc82c},
		lookupItem{cp949: 0xc1ab, ucs2: 0xc82d},
		lookupItem{cp949: 0xc1ac, ucs2: 0xc82f},
		lookupItem{cp949: 0xc1ad, ucs2: 0xc831},
		lookupItem{cp949: 0xc1ae, ucs2: 0xc838},
		lookupItem{cp949: 0xc1af, ucs2: 0xc83c},
		lookupItem{cp949: 0xc1b0, ucs2: 0xc840},
		lookupItem{cp949: 0xc1b1, ucs2: 0xc848},
		lookupItem{cp949: 0xc1b2, ucs2: 0xc849},
		lookupItem{cp949: 0xc1b3, ucs2: 0xc84c},
		lookupItem{cp949: 0xc1b4, ucs2: 0xc84d},
		lookupItem{cp949: 0xc1b5, ucs2: 0xc854},
		lookupItem{cp949: 0xc1b6, ucs2: 0xc870},
		lookupItem{cp949: 0xc1b7, ucs2: 0xc871},
		lookupItem{cp949: 0xc1b8, ucs2: 0xc874},
		lookupItem{cp949: 0xc1b9, ucs2: 0xc878},
		lookupItem{cp949: 0xc1ba, ucs2: 0xc87a},
		lookupItem{cp949: 0xc1bb, ucs2: 0xc880},
		lookupItem{cp949: 0xc1bc, ucs2: 0xc881},
		lookupItem{cp949: 0xc1bd, ucs2: 0xc883},
		lookupItem{cp949: 0xc1be, ucs2: 0xc885},
		lookupItem{cp949: 0xc1bf, ucs2: 0xc886},
		lookupItem{cp949: 0xc1c0, ucs2: 0xc887},
		lookupItem{cp949: 0xc1c1, ucs2: 0xc88b},
		lookupItem{cp949: 0xc1c2, ucs2: 0xc88c},
		lookupItem{cp949: 0xc1c3, ucs2: 0xc88d},
		lookupItem{cp949: 0xc1c4, ucs2: 0xc894},
		lookupItem{cp949: 0xc1c5, ucs2: 0xc89d},
		lookupItem{cp949: 0xc1c6, ucs2: 0xc89f},
		lookupItem{cp949: 0xc1c7, ucs2: 0xc8a1},
		lookupItem{cp949: 0xc1c8, ucs2: 0xc8a8},
		lookupItem{cp949: 0xc1c9, ucs2: 0xc8bc},
		lookupItem{cp949: 0xc1ca, ucs2: 0xc8bd},
		lookupItem{cp949: 0xc1cb, ucs2: 0xc8c4},
		lookupItem{cp949: 0xc1cc, ucs2: 0xc8c8},
		lookupItem{cp949: 0xc1cd, ucs2: 0xc8cc},
		lookupItem{cp949: 0xc1ce, ucs2: 0xc8d4},
		lookupItem{cp949: 0xc1cf, ucs2: 0xc8d5},
		lookupItem{cp949: 0xc1d0, ucs2: 0xc8d7},
		lookupItem{cp949: 0xc1d1, ucs2: 0xc8d9},
		lookupItem{cp949: 0xc1d2, ucs2: 0xc8e0},
		lookupItem{cp949: 0xc1d3, ucs2: 0xc8e1},
		lookupItem{cp949: 0xc1d4, ucs2: 0xc8e4},
		lookupItem{cp949: 0xc1d5, ucs2: 0xc8f5},
		lookupItem{cp949: 0xc1d6, ucs2: 0xc8fc},
		lookupItem{cp949: 0xc1d7, ucs2: 0xc8fd},
		lookupItem{cp949: 0xc1d8, ucs2: 0xc900},
		lookupItem{cp949: 0xc1d9, ucs2: 0xc904},
		lookupItem{cp949: 0xc1da, ucs2: 0xc905},
		lookupItem{cp949: 0xc1db, ucs2: 0xc906},
		lookupItem{cp949: 0xc1dc, ucs2: 0xc90c},
		lookupItem{cp949: 0xc1dd, ucs2: 0xc90d},
		lookupItem{cp949: 0xc1de, ucs2: 0xc90f},
		lookupItem{cp949: 0xc1df, ucs2: 0xc911},
		lookupItem{cp949: 0xc1e0, ucs2: 0xc918},
		lookupItem{cp949: 0xc1e1, ucs2: 0xc92c},
		lookupItem{cp949: 0xc1e2, ucs2: 0xc934},
		lookupItem{cp949: 0xc1e3, ucs2: 0xc950},
		lookupItem{cp949: 0xc1e4, ucs2: 0xc951},
		lookupItem{cp949: 0xc1e5, ucs2: 0xc954},
		lookupItem{cp949: 0xc1e6, ucs2: 0xc958},
		lookupItem{cp949: 0xc1e7, ucs2: 0xc960},
		lookupItem{cp949: 0xc1e8, ucs2: 0xc961},
		lookupItem{cp949: 0xc1e9, ucs2: 0xc963},
		lookupItem{cp949: 0xc1ea, ucs2: 0xc96c},
		lookupItem{cp949: 0xc1eb, ucs2: 0xc970},
		lookupItem{cp949: 0xc1ec, ucs2: 0xc974},
		lookupItem{cp949: 0xc1ed, ucs2: 0xc97c},
		lookupItem{cp949: 0xc1ee, ucs2: 0xc988},
		lookupItem{cp949: 0xc1ef, ucs2: 0xc989},
		lookupItem{cp949: 0xc1f0, ucs2: 0xc98c},
		lookupItem{cp949: 0xc1f1, ucs2: 0xc990},
		lookupItem{cp949: 0xc1f2, ucs2: 0xc998},
		lookupItem{cp949: 0xc1f3, ucs2: 0xc999},
		lookupItem{cp949: 0xc1f4, ucs2: 0xc99b},
		lookupItem{cp949: 0xc1f5, ucs2: 0xc99d},
		lookupItem{cp949: 0xc1f6, ucs2: 0xc9c0},
		lookupItem{cp949: 0xc1f7, ucs2: 0xc9c1},
		lookupItem{cp949: 0xc1f8, ucs2: 0xc9c4},
		lookupItem{cp949: 0xc1f9, ucs2: 0xc9c7},
		lookupItem{cp949: 0xc1fa, ucs2: 0xc9c8},
		lookupItem{cp949: 0xc1fb, ucs2: 0xc9ca},
		lookupItem{cp949: 0xc1fc, ucs2: 0xc9d0},
		lookupItem{cp949: 0xc1fd, ucs2: 0xc9d1},
		lookupItem{cp949: 0xc1fe, ucs2: 0xc9d3},
		lookupItem{cp949: 0xc241, ucs2: 0xd5ca},
		lookupItem{cp949: 0xc242, ucs2: 0xd5cb},
		lookupItem{cp949: 0xc243, ucs2: 0xd5cd},
		lookupItem{cp949: 0xc244, ucs2: 0xd5ce},
		lookupItem{cp949: 0xc245, ucs2: 0xd5cf},
		lookupItem{cp949: 0xc246, ucs2: 0xd5d1},
		lookupItem{cp949: 0xc247, ucs2: 0xd5d3},
		lookupItem{cp949: 0xc248, ucs2: 0xd5d4},
		lookupItem{cp949: 0xc249, ucs2: 0xd5d5},
		lookupItem{cp949: 0xc24a, ucs2: 0xd5d6},
		lookupItem{cp949: 0xc24b, ucs2: 0xd5d7},
		lookupItem{cp949: 0xc24c, ucs2: 0xd5da},
		lookupItem{cp949: 0xc24d, ucs2: 0xd5dc},
		lookupItem{cp949: 0xc24e, ucs2: 0xd5de},
		lookupItem{cp949: 0xc24f, ucs2: 0xd5df},
		lookupItem{cp949: 0xc250, ucs2: 0xd5e0},
		lookupItem{cp949: 0xc251, ucs2: 0xd5e1},
		lookupItem{cp949: 0xc252, ucs2: 0xd5e2},
		lookupItem{cp949: 0xc253, ucs2: 0xd5e3},
		lookupItem{cp949: 0xc254, ucs2: 0xd5e6},
		lookupItem{cp949: 0xc255, ucs2: 0xd5e7},
		lookupItem{cp949: 0xc256, ucs2: 0xd5e9},
		lookupItem{cp949: 0xc257, ucs2: 0xd5ea},
		lookupItem{cp949: 0xc258, ucs2: 0xd5eb},
		lookupItem{cp949: 0xc259, ucs2: 0xd5ed},
		lookupItem{cp949: 0xc25a, ucs2: 0xd5ee},
		lookupItem{cp949: 0xc261, ucs2: 0xd5ef},
		lookupItem{cp949: 0xc262, ucs2: 0xd5f0},
		lookupItem{cp949: 0xc263, ucs2: 0xd5f1},
		lookupItem{cp949: 0xc264, ucs2: 0xd5f2},
		lookupItem{cp949: 0xc265, ucs2: 0xd5f3},
		lookupItem{cp949: 0xc266, ucs2: 0xd5f6},
		lookupItem{cp949: 0xc267, ucs2: 0xd5f8},
		lookupItem{cp949: 0xc268, ucs2: 0xd5fa},
		lookupItem{cp949: 0xc269, ucs2: 0xd5fb},
		lookupItem{cp949: 0xc26a, ucs2: 0xd5fc},
		lookupItem{cp949: 0xc26b, ucs2: 0xd5fd},
		lookupItem{cp949: 0xc26c, ucs2: 0xd5fe},
		lookupItem{cp949: 0xc26d, ucs2: 0xd5ff},
		lookupItem{cp949: 0xc26e, ucs2: 0xd602},
		lookupItem{cp949: 0xc26f, ucs2: 0xd603},
		lookupItem{cp949: 0xc270, ucs2: 0xd605},
		lookupItem{cp949: 0xc271, ucs2: 0xd606},
		lookupItem{cp949: 0xc272, ucs2: 0xd607},
		lookupItem{cp949: 0xc273, ucs2: 0xd609},
		lookupItem{cp949: 0xc274, ucs2: 0xd60a},
		lookupItem{cp949: 0xc275, ucs2: 0xd60b},
		lookupItem{cp949: 0xc276, ucs2: 0xd60c},
		lookupItem{cp949: 0xc277, ucs2: 0xd60d},
		lookupItem{cp949: 0xc278, ucs2: 0xd60e},
		lookupItem{cp949: 0xc279, ucs2: 0xd60f},
		lookupItem{cp949: 0xc27a, ucs2: 0xd612},
		lookupItem{cp949: 0xc281, ucs2: 0xd616},
		lookupItem{cp949: 0xc282, ucs2: 0xd617},
		lookupItem{cp949: 0xc283, ucs2: 0xd618},
		lookupItem{cp949: 0xc284, ucs2: 0xd619},
		lookupItem{cp949: 0xc285, ucs2: 0xd61a},
		lookupItem{cp949: 0xc286, ucs2: 0xd61b},
		lookupItem{cp949: 0xc287, ucs2: 0xd61d},
		lookupItem{cp949: 0xc288, ucs2: 0xd61e},
		lookupItem{cp949: 0xc289, ucs2: 0xd61f},
		lookupItem{cp949: 0xc28a, ucs2: 0xd621},
		lookupItem{cp949: 0xc28b, ucs2: 0xd622},
		lookupItem{cp949: 0xc28c, ucs2: 0xd623},
		lookupItem{cp949: 0xc28d, ucs2: 0xd625},
		lookupItem{cp949: 0xc28e, ucs2: 0xd626},
		lookupItem{cp949: 0xc28f, ucs2: 0xd627},
		lookupItem{cp949: 0xc290, ucs2: 0xd628},
		lookupItem{cp949: 0xc291, ucs2: 0xd629},
		lookupItem{cp949: 0xc292, ucs2: 0xd62a},
		lookupItem{cp949: 0xc293, ucs2: 0xd62b},
		lookupItem{cp949: 0xc294, ucs2: 0xd62c},
		lookupItem{cp949: 0xc295, ucs2: 0xd62e},
		lookupItem{cp949: 0xc296, ucs2: 0xd62f},
		lookupItem{cp949: 0xc297, ucs2: 0xd630},
		lookupItem{cp949: 0xc298, ucs2: 0xd631},
		lookupItem{cp949: 0xc299, ucs2: 0xd632},
		lookupItem{cp949: 0xc29a, ucs2: 0xd633},
		lookupItem{cp949: 0xc29b, ucs2: 0xd634},
		lookupItem{cp949: 0xc29c, ucs2: 0xd635},
		lookupItem{cp949: 0xc29d, ucs2: 0xd636},
		lookupItem{cp949: 0xc29e, ucs2: 0xd637},
		lookupItem{cp949: 0xc29f, ucs2: 0xd63a},
		lookupItem{cp949: 0xc2a0, ucs2: 0xd63b},
		lookupItem{cp949: 0xc2a1, ucs2: 0xc9d5},
		lookupItem{cp949: 0xc2a2, ucs2: 0xc9d6},
		lookupItem{cp949: 0xc2a3, ucs2: 0xc9d9},
		lookupItem{cp949: 0xc2a4, ucs2: 0xc9da},
		lookupItem{cp949: 0xc2a5, ucs2: 0xc9dc},
		lookupItem{cp949: 0xc2a6, ucs2: 0xc9dd},
		lookupItem{cp949: 0xc2a7, ucs2: 0xc9e0},
		lookupItem{cp949: 0xc2a8, ucs2: 0xc9e2},
		lookupItem{cp949: 0xc2a9, ucs2: 0xc9e4},
		lookupItem{cp949: 0xc2aa, ucs2: 0xc9e7},
".
Definition text_cp949_lookup_from_045 : string :=
"		lookupItem{cp949: 0xc2ab, ucs2: 0xc9ec},
		lookupItem{cp949: 0xc2ac, ucs2: 0xc9ed},
		lookupItem{cp949: 0xc2ad, ucs2: 0xc9ef},
		lookupItem{cp949: 0xc2ae, ucs2: 0xc9f0},
		lookupItem{cp949: 0xc2af, ucs2: 0xc9f1},
		lookupItem{cp949: 0xc2b0, ucs2: 0xc9f8},
		lookupItem{cp949: 0xc2b1, ucs2: 0xc9f9},
		lookupItem{cp949: 0xc2b2, ucs2: 0xc9fc},
		lookupItem{cp949: 0xc2b3, ucs2: 0xca00},
		lookupItem{cp949: 0xc2b4, ucs2: 0xca08},
		lookupItem{cp949: 0xc2b5, ucs2: 0xca09},
		lookupItem{cp949: 0xc2b6, ucs2: 0xca0b},
		lookupItem{cp949: 0xc2b7, ucs2: 0xca0c},
		lookupItem{cp949: 0xc2b8, ucs2: 0xca0d},
		lookupItem{cp949: 0xc2b9, ucs2: 0xca14},
		lookupItem{cp949: 0xc2ba, ucs2: 0xca18},
		lookupItem{cp949: 0xc2bb, ucs2: 0xca29},
		lookupItem{cp949: 0xc2bc, ucs2: 0xca4c},
		lookupItem{cp949: 0xc2bd, ucs2: 0xca4d},
		lookupItem{cp949: 0xc2be, ucs2: 0xca50},
		lookupItem{cp949: 0xc2bf, ucs2: 0xca54},
		lookupItem{cp949: 0xc2c0, ucs2: 0xca5c},
		lookupItem{cp949: 0xc2c1, ucs2: 0xca5d},
		lookupItem{cp949: 0xc2c2, ucs2: 0xca5f},
		lookupItem{cp949: 0xc2c3, ucs2: 0xca60},
		lookupItem{cp949: 0xc2c4, ucs2: 0xca61},
		lookupItem{cp949: 0xc2c5, ucs2: 0xca68},
		lookupItem{cp949: 0xc2c6, ucs2: 0xca7d},
		lookupItem{cp949: 0xc2c7, ucs2: 0xca84},
		lookupItem{cp949: 0xc2c8, ucs2: 0xca98},
		lookupItem{cp949: 0xc2c9, ucs2: 0xcabc},
		lookupItem{cp949: 0xc2ca, ucs2: 0xcabd},
		lookupItem{cp949: 0xc2cb, ucs2: 0xcac0},
		lookupItem{cp949: 0xc2cc, ucs2: 0xcac4},
		lookupItem{cp949: 0xc2cd, ucs2: 0xcacc},
		lookupItem{cp949: 0xc2ce, ucs2: 0xcacd},
		lookupItem{cp949: 0xc2cf, ucs2: 0xcacf},
		lookupItem{cp949: 0xc2d0, ucs2: 0xcad1},
		lookupItem{cp949: 0xc2d1, ucs2: 0xcad3},
		lookupItem{cp949: 0xc2d2, ucs2: 0xcad8},
		lookupItem{cp949: 0xc2d3, ucs2: 0xcad9},
		lookupItem{cp949: 0xc2d4, ucs2: 0xcae0},
		lookupItem{cp949: 0xc2d5, ucs2: 0xcaec},
		lookupItem{cp949: 0xc2d6, ucs2: 0xcaf4},
		lookupItem{cp949: 0xc2d7, ucs2: 0xcb08},
		lookupItem{cp949: 0xc2d8, ucs2: 0xcb10},
		lookupItem{cp949: 0xc2d9, ucs2: 0xcb14},
		lookupItem{cp949: 0xc2da, ucs2: 0xcb18},
		lookupItem{cp949: 0xc2db, ucs2: 0xcb20},
		lookupItem{cp949: 0xc2dc, ucs2: 0xcb21},
		lookupItem{cp949: 0xc2dd, ucs2: 0xcb41},
		lookupItem{cp949: 0xc2de, ucs2: 0xcb48},
		lookupItem{cp949: 0xc2df, ucs2: 0xcb49},
		lookupItem{cp949: 0xc2e0, ucs2: 0xcb4c},
		lookupItem{cp949: 0xc2e1, ucs2: 0xcb50},
		lookupItem{cp949: 0xc2e2, ucs2: 0xcb58},
		lookupItem{cp949: 0xc2e3, ucs2: 0xcb59},
		lookupItem{cp949: 0xc2e4, ucs2: 0xcb5d},
		lookupItem{cp949: 0xc2e5, ucs2: 0xcb64},
		lookupItem{cp949: 0xc2e6, ucs2: 0xcb78},
		lookupItem{cp949: 0xc2e7, ucs2: 0xcb79},
		lookupItem{cp949: 0xc2e8, ucs2: 0xcb9c},
		lookupItem{cp949: 0xc2e9, ucs2: 0xcbb8},
		lookupItem{cp949: 0xc2ea, ucs2: 0xcbd4},
		lookupItem{cp949: 0xc2eb, ucs2: 0xcbe4},
		lookupItem{cp949: 0xc2ec, ucs2: 0xcbe7},
		lookupItem{cp949: 0xc2ed, ucs2: 0xcbe9},
		lookupItem{cp949: 0xc2ee, ucs2: 0xcc0c},
		lookupItem{cp949: 0xc2ef, ucs2: 0xcc0d},
		lookupItem{cp949: 0xc2f0, ucs2: 0xcc10},
		lookupItem{cp949: 0xc2f1, ucs2: 0xcc14},
		lookupItem{cp949: 0xc2f2, ucs2: 0xcc1c},
		lookupItem{cp949: 0xc2f3, ucs2: 0xcc1d},
		lookupItem{cp949: 0xc2f4, ucs2: 0xcc21},
		lookupItem{cp949: 0xc2f5, ucs2: 0xcc22},
		lookupItem{cp949: 0xc2f6, ucs2: 0xcc27},
		lookupItem{cp949: 0xc2f7, ucs2: 0xcc28},
		lookupItem{cp949: 0xc2f8, ucs2: 0xcc29},
		lookupItem{cp949: 0xc2f9, ucs2: 0xcc2c},
		lookupItem{cp949: 0xc2fa, ucs2: 0xcc2e},
		lookupItem{cp949: 0xc2fb, ucs2: 0xcc30},
		lookupItem{cp949: 0xc2fc, ucs2: 0xcc38},
		lookupItem{cp949: 0xc2fd, ucs2: 0xcc39},
		lookupItem{cp949: 0xc2fe, ucs2: 0xcc3b},
		lookupItem{cp949: 0xc341, ucs2: 0xd63d},
		lookupItem{cp949: 0xc342, ucs2: 0xd63e},
		lookupItem{cp949: 0xc343, ucs2: 0xd63f},
		lookupItem{cp949: 0xc344, ucs2: 0xd641},
		lookupItem{cp949: 0xc345, ucs2: 0xd642},
		lookupItem{cp949: 0xc346, ucs2: 0xd643},
		lookupItem{cp949: 0xc347, ucs2: 0xd644},
		lookupItem{cp949: 0xc348, ucs2: 0xd646},
		lookupItem{cp949: 0xc349, ucs2: 0xd647},
		lookupItem{cp949: 0xc34a, ucs2: 0xd64a},
		lookupItem{cp949: 0xc34b, ucs2: 0xd64c},
		lookupItem{cp949: 0xc34c, ucs2: 0xd64e},
		lookupItem{cp949: 0xc34d, ucs2: 0xd64f},
		lookupItem{cp949: 0xc34e, ucs2: 0xd650},
		lookupItem{cp949: 0xc34f, ucs2: 0xd652},
		lookupItem{cp949: 0xc350, ucs2: 0xd653},
		lookupItem{cp949: 0xc351, ucs2: 0xd656},
		lookupItem{cp949: 0xc352, ucs2: 0xd657},
		lookupItem{cp949: 0xc353, ucs2: 0xd659},
		lookupItem{cp949: 0xc354, ucs2: 0xd65a},
		lookupItem{cp949: 0xc355, ucs2: 0xd65b},
		lookupItem{cp949: 0xc356, ucs2: 0xd65d},
		lookupItem{cp949: 0xc357, ucs2: 0xd65e},
		lookupItem{cp949: 0xc358, ucs2: 0xd65f},
		lookupItem{cp949: 0xc359, ucs2: 0xd660},
		lookupItem{cp949: 0xc35a, ucs2: 0xd661},
		lookupItem{cp949: 0xc361, ucs2: 0xd662},
		lookupItem{cp949: 0xc362, ucs2: 0xd663},
		lookupItem{cp949: 0xc363, ucs2: 0xd664},
		lookupItem{cp949: 0xc364, ucs2: 0xd665},
		lookupItem{cp949: 0xc365, ucs2: 0xd666},
		lookupItem{cp949: 0xc366, ucs2: 0xd668},
		lookupItem{cp949: 0xc367, ucs2: 0xd66a},
		lookupItem{cp949: 0xc368, ucs2: 0xd66b},
		lookupItem{cp949: 0xc369, ucs2: 0xd66c},
		lookupItem{cp949: 0xc36a, ucs2: 0xd66d},
		lookupItem{cp949: 0xc36b, ucs2: 0xd66e},
		lookupItem{cp949: 0xc36c, ucs2: 0xd66f},
		lookupItem{cp949: 0xc36d, ucs2: 0xd672},
		lookupItem{cp949: 0xc36e, ucs2: 0xd673},
		lookupItem{cp949: 0xc36f, ucs2: 0xd675},
		lookupItem{cp949: 0xc370, ucs2: 0xd676},
		lookupItem{cp949: 0xc371, ucs2: 0xd677},
		lookupItem{cp949: 0xc372, ucs2: 0xd678},
		lookupItem{cp949: 0xc373, ucs2: 0xd679},
		lookupItem{cp949: 0xc374, ucs2: 0xd67a},
		lookupItem{cp949: 0xc375, ucs2: 0xd67b},
		lookupItem{cp949: 0xc376, ucs2: 0xd67c},
		lookupItem{cp949: 0xc377, ucs2: 0xd67d},
		lookupItem{cp949: 0xc378, ucs2: 0xd67e},
		lookupItem{cp949: 0xc379, ucs2: 0xd67f},
		lookupItem{cp949: 0xc37a, ucs2: 0xd680},
		lookupItem{cp949: 0xc381, ucs2: 0xd681},
		lookupItem{cp949: 0xc382, ucs2: 0xd682},
		lookupItem{cp949: 0xc383, ucs2: 0xd684},
		lookupItem{cp949: 0xc384, ucs2: 0xd686},
		lookupItem{cp949: 0xc385, ucs2: 0xd687},
		lookupItem{cp949: 0xc386, ucs2: 0xd688},
		lookupItem{cp949: 0xc387, ucs2: 0xd689},
		lookupItem{cp949: 0xc388, ucs2: 0xd68a},
		lookupItem{cp949: 0xc389, ucs2: 0xd68b},
		lookupItem{cp949: 0xc38a, ucs2: 0xd68e},
		lookupItem{cp949: 0xc38b, ucs2: 0xd68f},
		lookupItem{cp949: 0xc38c, ucs2: 0xd691},
		lookupItem{cp949: 0xc38d, ucs2: 0xd692},
		lookupItem{cp949: 0xc38e, ucs2: 0xd693},
		lookupItem{cp949: 0xc38f, ucs2: 0xd695},
		lookupItem{cp949: 0xc390, ucs2: 0xd696},
		lookupItem{cp949: 0xc391, ucs2: 0xd697},
		lookupItem{cp949: 0xc392, ucs2: 0xd698},
		lookupItem{cp949: 0xc393, ucs2: 0xd699},
		lookupItem{cp949: 0xc394, ucs2: 0xd69a},
		lookupItem{cp949: 0xc395, ucs2: 0xd69b},
		lookupItem{cp949: 0xc396, ucs2: 0xd69c},
		lookupItem{cp949: 0xc397, ucs2: 0xd69e},
		lookupItem{cp949: 0xc398, ucs2: 0xd6a0},
		lookupItem{cp949: 0xc399, ucs2: 0xd6a2},
		lookupItem{cp949: 0xc39a, ucs2: 0xd6a3},
		lookupItem{cp949: 0xc39b, ucs2: 0xd6a4},
		lookupItem{cp949: 0xc39c, ucs2: 0xd6a5},
		lookupItem{cp949: 0xc39d, ucs2: 0xd6a6},
		lookupItem{cp949: 0xc39e, ucs2: 0xd6a7},
		lookupItem{cp949: 0xc39f, ucs2: 0xd6a9},
		lookupItem{cp949: 0xc3a0, ucs2: 0xd6aa},
		lookupItem{cp949: 0xc3a1, ucs2: 0xcc3c},
		lookupItem{cp949: 0xc3a2, ucs2: 0xcc3d},
		lookupItem{cp949: 0xc3a3, ucs2: 0xcc3e},
		lookupItem{cp949: 0xc3a4, ucs2: 0xcc44},
		lookupItem{cp949: 0xc3a5, ucs2: 0xcc45},
		lookupItem{cp949: 0xc3a6, ucs2: 0xcc48},
		lookupItem{cp949: 0xc3a7, ucs2: 0xcc4c},
		lookupItem{cp949: 0xc3a8, ucs2: 0xcc54},
		lookupItem{cp949: 0xc3a9, ucs2: 0xcc55},
		lookupItem{cp949: 0xc3aa, ucs2: 0xcc57},
		lookupItem{cp949: 0xc3ab, ucs2: 0xcc58},
		lookupItem{cp949: 0xc3ac, ucs2: 0xcc59},
		lookupItem{cp949: 0xc3ad, ucs2: 0xcc60},
		lookupItem{cp949: 0xc3ae, ucs2: 0xcc64},
		lookupItem{cp949: 0xc3af, ucs2: 0xcc66},
		lookupItem{cp949: 0xc3b0, ucs2: 0xcc68},
		lookupItem{cp949: 0xc3b1, ucs2: 0xcc70},
		lookupItem{cp949: 0xc3b2, ucs2: 0xcc75},
		lookupItem{cp949: 0xc3b3, ucs2: 0xcc98},
		lookupItem{cp949: 0xc3b4, ucs2: 0xcc99},
		lookupItem{cp949: 0xc3b5, ucs2: 0xcc9c},
		lookupItem{cp949: 0xc3b6, ucs2: 0xcca0},
		lookupItem{cp949: 0xc3b7, ucs2: 0xcca8},
		lookupItem{cp949: 0xc3b8, ucs2: 0xcca9},
		lookupItem{cp949: 0xc3b9, ucs2: 0xccab},
		lookupItem{cp949: 0xc3ba, ucs2: 0xccac},
		lookupItem{cp949: 0xc3bb, ucs2: 0xccad},
		lookupItem{cp949: 0xc3bc, ucs2: 0xccb4},
		lookupItem{cp949: 0xc3bd, ucs2: 0xccb5},
		lookupItem{cp949: 0xc3be, ucs2: 0xccb8},
		lookupItem{cp949: 0xc3bf, ucs2: 0xccbc},
		lookupItem{cp949: 0xc3c0, ucs2: 0xccc4},
		lookupItem{cp949: 0xc3c1, ucs2: 0xccc5},
		lookupItem{cp949: 0xc3c2, ucs2: 0xccc7},
		lookupItem{cp949: 0xc3c3, ucs2: 0xccc9},
		lookupItem{cp949: 0xc3c4, ucs2: 0xccd0},
		lookupItem{cp949: 0xc3c5, ucs2: 0xccd4},
		lookupItem{cp949: 0xc3c6, ucs2: 0xcce4},
		lookupItem{cp949: 0xc3c7, ucs2: 0xccec},
		lookupItem{cp949: 0xc3c8, ucs2: 0xccf0},
		lookupItem{cp949: 0xc3c9, ucs2: 0xcd01},
		lookupItem{cp949: 0xc3ca, ucs2: 0xcd08},
		lookupItem{cp949: 0xc3cb, ucs2: 0xcd09},
		lookupItem{cp949: 0xc3cc, ucs2: 0xcd0c},
		lookupItem{cp949: 0xc3cd, ucs2: 0xcd10},
		lookupItem{cp949: 0xc3ce, ucs2: 0xcd18},
		lookupItem{cp949: 0xc3cf, ucs2: 0xcd19},
		lookupItem{cp949: 0xc3d0, ucs2: 0xcd1b},
		lookupItem{cp949: 0xc3d1, ucs2: 0xcd1d},
		lookupItem{cp949: 0xc3d2, ucs2: 0xcd24},
		lookupItem{cp949: 0xc3d3, ucs2: 0xcd28},
		lookupItem{cp949: 0xc3d4, ucs2: 0xcd2c},
		lookupItem{cp949: 0xc3d5, ucs2: 0xcd39},
		lookupItem{cp949: 0xc3d6, ucs2: 0xcd5c},
		lookupItem{cp949: 0xc3d7, ucs2: 0xcd60},
		lookupItem{cp949: 0xc3d8, ucs2: 0xcd64},
		lookupItem{cp949: 0xc3d9, ucs2: 0xcd6c},
		lookupItem{cp949: 0xc3da, ucs2: 0xcd6d},
		lookupItem{cp949: 0xc3db, ucs2: 0xcd6f},
		lookupItem{cp949: 0xc3dc, ucs2: 0xcd71},
		lookupItem{cp949: 0xc3dd, ucs2: 0xcd78},
		lookupItem{cp949: 0xc3de, ucs2: 0xcd88},
		lookupItem{cp949: 0xc3df, ucs2: 0xcd94},
		lookupItem{cp949: 0xc3e0, ucs2: 0xcd95},
		lookupItem{cp949: 0xc3e1, ucs2: 0xcd98},
		lookupItem{cp949: 0xc3e2, ucs2: 0xcd9c},
		lookupItem{cp949: 0xc3e3, ucs2: 0xcda4},
		lookupItem{cp949: 0xc3e4, ucs2: 0xcda5},
		lookupItem{cp949: 0xc3e5, ucs2: 0xcda7},
		lookupItem{cp949: 0xc3e6, ucs2: 0xcda9},
		lookupItem{cp949: 0xc3e7, ucs2: 0xcdb0},
		lookupItem{cp949: 0xc3e8, ucs2: 0xcdc4},
		lookupItem{cp949: 0xc3e9, ucs2: 0xcdcc},
		lookupItem{cp949: 0xc3ea, ucs2: 0xcdd0},
		lookupItem{cp949: 0xc3eb, ucs2: 0xcde8},
		lookupItem{cp949: 0xc3ec, ucs2: 0xcdec},
		lookupItem{cp949: 0xc3ed, ucs2: 0xcdf0},
		lookupItem{cp949: 0xc3ee, ucs2: 0xcdf8},
		lookupItem{cp949: 0xc3ef, ucs2: 0xcdf9},
		lookupItem{cp949: 0xc3f0, ucs2: 0xcdfb},
		lookupItem{cp949: 0xc3f1, ucs2: 0xcdfd},
		lookupItem{cp949: 0xc3f2, ucs2: 0xce04},
".
Definition text_cp949_lookup_from_046 : string :=
"		lookupItem{cp949: 0xc3f3, ucs2: 0xce08},
		lookupItem{cp949: 0xc3f4, ucs2: 0xce0c},
		lookupItem{cp949: 0xc3f5, ucs2: 0xce14},
		lookupItem{cp949: 0xc3f6, ucs2: 0xce19},
		lookupItem{cp949: 0xc3f7, ucs2: 0xce20},
		lookupItem{cp949: 0xc3f8, ucs2: 0xce21},
		lookupItem{cp949: 0xc3f9, ucs2: 0xce24},
		lookupItem{cp949: 0xc3fa, ucs2: 0xce28},
		lookupItem{cp949: 0xc3fb, ucs2: 0xce30},
		lookupItem{cp949: 0xc3fc, ucs2: 0xce31},
		lookupItem{cp949: 0xc3fd, ucs2: 0xce33},
		lookupItem{cp949: 0xc3fe, ucs2: 0xce35},
		lookupItem{cp949: 0xc441, ucs2: 0xd6ab},
		lookupItem{cp949: 0xc442, ucs2: 0xd6ad},
		lookupItem{cp949: 0xc443, ucs2: 0xd6ae},
		lookupItem{cp949: 0xc444, ucs2: 0xd6af},
		lookupItem{cp949: 0xc445, ucs2: 0xd6b1},
		lookupItem{cp949: 0xc446, ucs2: 0xd6b2},
		lookupItem{cp949: 0xc447, ucs2: 0xd6b3},
		lookupItem{cp949: 0xc448, ucs2: 0xd6b4},
		lookupItem{cp949: 0xc449, ucs2: 0xd6b5},
		lookupItem{cp949: 0xc44a, ucs2: 0xd6b6},
		lookupItem{cp949: 0xc44b, ucs2: 0xd6b7},
		lookupItem{cp949: 0xc44c, ucs2: 0xd6b8},
		lookupItem{cp949: 0xc44d, ucs2: 0xd6ba},
		lookupItem{cp949: 0xc44e, ucs2: 0xd6bc},
		lookupItem{cp949: 0xc44f, ucs2: 0xd6bd},
		lookupItem{cp949: 0xc450, ucs2: 0xd6be},
		lookupItem{cp949: 0xc451, ucs2: 0xd6bf},
		lookupItem{cp949: 0xc452, ucs2: 0xd6c0},
		lookupItem{cp949: 0xc453, ucs2: 0xd6c1},
		lookupItem{cp949: 0xc454, ucs2: 0xd6c2},
		lookupItem{cp949: 0xc455, ucs2: 0xd6c3},
		lookupItem{cp949: 0xc456, ucs2: 0xd6c6},
		lookupItem{cp949: 0xc457, ucs2: 0xd6c7},
		lookupItem{cp949: 0xc458, ucs2: 0xd6c9},
		lookupItem{cp949: 0xc459, ucs2: 0xd6ca},
		lookupItem{cp949: 0xc45a, ucs2: 0xd6cb},
		lookupItem{cp949: 0xc461, ucs2: 0xd6cd},
		lookupItem{cp949: 0xc462, ucs2: 0xd6ce},
		lookupItem{cp949: 0xc463, ucs2: 0xd6cf},
		lookupItem{cp949: 0xc464, ucs2: 0xd6d0},
		lookupItem{cp949: 0xc465, ucs2: 0xd6d2},
		lookupItem{cp949: 0xc466, ucs2: 0xd6d3},
		lookupItem{cp949: 0xc467, ucs2: 0xd6d5},
		lookupItem{cp949: 0xc468, ucs2: 0xd6d6},
		lookupItem{cp949: 0xc469, ucs2: 0xd6d8},
		lookupItem{cp949: 0xc46a, ucs2: 0xd6da},
		lookupItem{cp949: 0xc46b, ucs2: 0xd6db},
		lookupItem{cp949: 0xc46c, ucs2: 0xd6dc},
		lookupItem{cp949: 0xc46d, ucs2: 0xd6dd},
		lookupItem{cp949: 0xc46e, ucs2: 0xd6de},
		lookupItem{cp949: 0xc46f, ucs2: 0xd6df},
		lookupItem{cp949: 0xc470, ucs2: 0xd6e1},
		lookupItem{cp949: 0xc471, ucs2: 0xd6e2},
		lookupItem{cp949: 0xc472, ucs2: 0xd6e3},
		lookupItem{cp949: 0xc473, ucs2: 0xd6e5},
		lookupItem{cp949: 0xc474, ucs2: 0xd6e6},
		lookupItem{cp949: 0xc475, ucs2: 0xd6e7},
		lookupItem{cp949: 0xc476, ucs2: 0xd6e9},
		lookupItem{cp949: 0xc477, ucs2: 0xd6ea},
		lookupItem{cp949: 0xc478, ucs2: 0xd6eb},
		lookupItem{cp949: 0xc479, ucs2: 0xd6ec},
		lookupItem{cp949: 0xc47a, ucs2: 0xd6ed},
		lookupItem{cp949: 0xc481, ucs2: 0xd6ee},
		lookupItem{cp949: 0xc482, ucs2: 0xd6ef},
		lookupItem{cp949: 0xc483, ucs2: 0xd6f1},
		lookupItem{cp949: 0xc484, ucs2: 0xd6f2},
		lookupItem{cp949: 0xc485, ucs2: 0xd6f3},
		lookupItem{cp949: 0xc486, ucs2: 0xd6f4},
		lookupItem{cp949: 0xc487, ucs2: 0xd6f6},
		lookupItem{cp949: 0xc488, ucs2: 0xd6f7},
		lookupItem{cp949: 0xc489, ucs2: 0xd6f8},
		lookupItem{cp949: 0xc48a, ucs2: 0xd6f9},
		lookupItem{cp949: 0xc48b, ucs2: 0xd6fa},
		lookupItem{cp949: 0xc48c, ucs2: 0xd6fb},
		lookupItem{cp949: 0xc48d, ucs2: 0xd6fe},
		lookupItem{cp949: 0xc48e, ucs2: 0xd6ff},
		lookupItem{cp949: 0xc48f, ucs2: 0xd701},
		lookupItem{cp949: 0xc490, ucs2: 0xd702},
		lookupItem{cp949: 0xc491, ucs2: 0xd703},
		lookupItem{cp949: 0xc492, ucs2: 0xd705},
		lookupItem{cp949: 0xc493, ucs2: 0xd706},
		lookupItem{cp949: 0xc494, ucs2: 0xd707},
		lookupItem{cp949: 0xc495, ucs2: 0xd708},
		lookupItem{cp949: 0xc496, ucs2: 0xd709},
		lookupItem{cp949: 0xc497, ucs2: 0xd70a},
		lookupItem{cp949: 0xc498, ucs2: 0xd70b},
		lookupItem{cp949: 0xc499, ucs2: 0xd70c},
		lookupItem{cp949: 0xc49a, ucs2: 0xd70d},
		lookupItem{cp949: 0xc49b, ucs2: 0xd70e},
		lookupItem{cp949: 0xc49c, ucs2: 0xd70f},
		lookupItem{cp949: 0xc49d, ucs2: 0xd710},
		lookupItem{cp949: 0xc49e, ucs2: 0xd712},
		lookupItem{cp949: 0xc49f, ucs2: 0xd713},
		lookupItem{cp949: 0xc4a0, ucs2: 0xd714},
		lookupItem{cp949: 0xc4a1, ucs2: 0xce58},
		lookupItem{cp949: 0xc4a2, ucs2: 0xce59},
		lookupItem{cp949: 0xc4a3, ucs2: 0xce5c},
		lookupItem{cp949: 0xc4a4, ucs2: 0xce5f},
		lookupItem{cp949: 0xc4a5, ucs2: 0xce60},
		lookupItem{cp949: 0xc4a6, ucs2: 0xce61},
		lookupItem{cp949: 0xc4a7, ucs2: 0xce68},
		lookupItem{cp949: 0xc4a8, ucs2: 0xce69},
		lookupItem{cp949: 0xc4a9, ucs2: 0xce6b},
		lookupItem{cp949: 0xc4aa, ucs2: 0xce6d},
		lookupItem{cp949: 0xc4ab, ucs2: 0xce74},
		lookupItem{cp949: 0xc4ac, ucs2: 0xce75},
		lookupItem{cp949: 0xc4ad, ucs2: 0xce78},
		lookupItem{cp949: 0xc4ae, ucs2: 0xce7c},
		lookupItem{cp949: 0xc4af, ucs2: 0xce84},
		lookupItem{cp949: 0xc4b0, ucs2: 0xce85},
		lookupItem{cp949: 0xc4b1, ucs2: 0xce87},
		lookupItem{cp949: 0xc4b2, ucs2: 0xce89},
		lookupItem{cp949: 0xc4b3, ucs2: 0xce90},
		lookupItem{cp949: 0xc4b4, ucs2: 0xce91},
		lookupItem{cp949: 0xc4b5, ucs2: 0xce94},
		lookupItem{cp949: 0xc4b6, ucs2: 0xce98},
		lookupItem{cp949: 0xc4b7, ucs2: 0xcea0},
		lookupItem{cp949: 0xc4b8, ucs2: 0xcea1},
		lookupItem{cp949: 0xc4b9, ucs2: 0xcea3},
		lookupItem{cp949: 0xc4ba, ucs2: 0xcea4},
		lookupItem{cp949: 0xc4bb, ucs2: 0xcea5},
		lookupItem{cp949: 0xc4bc, ucs2: 0xceac},
		lookupItem{cp949: 0xc4bd, ucs2: 0xcead},
		lookupItem{cp949: 0xc4be, ucs2: 0xcec1},
		lookupItem{cp949: 0xc4bf, ucs2: 0xcee4},
		lookupItem{cp949: 0xc4c0, ucs2: 0xcee5},
		lookupItem{cp949: 0xc4c1, ucs2: 0xcee8},
		lookupItem{cp949: 0xc4c2, ucs2: 0xceeb},
		lookupItem{cp949: 0xc4c3, ucs2: 0xceec},
		lookupItem{cp949: 0xc4c4, ucs2: 0xcef4},
		lookupItem{cp949: 0xc4c5, ucs2: 0xcef5},
		lookupItem{cp949: 0xc4c6, ucs2: 0xcef7},
		lookupItem{cp949: 0xc4c7, ucs2: 0xcef8},
		lookupItem{cp949: 0xc4c8, ucs2: 0xcef9},
		lookupItem{cp949: 0xc4c9, ucs2: 0xcf00},
		lookupItem{cp949: 0xc4ca, ucs2: 0xcf01},
		lookupItem{cp949: 0xc4cb, ucs2: 0xcf04},
		lookupItem{cp949: 0xc4cc, ucs2: 0xcf08},
		lookupItem{cp949: 0xc4cd, ucs2: 0xcf10},
		lookupItem{cp949: 0xc4ce, ucs2: 0xcf11},
		lookupItem{cp949: 0xc4cf, ucs2: 0xcf13},
		lookupItem{cp949: 0xc4d0, ucs2: 0xcf15},
		lookupItem{cp949: 0xc4d1, ucs2: 0xcf1c},
		lookupItem{cp949: 0xc4d2, ucs2: 0xcf20},
		lookupItem{cp949: 0xc4d3, ucs2: 0xcf24},
		lookupItem{cp949: 0xc4d4, ucs2: 0xcf2c},
		lookupItem{cp949: 0xc4d5, ucs2: 0xcf2d},
		lookupItem{cp949: 0xc4d6, ucs2: 0xcf2f},
		lookupItem{cp949: 0xc4d7, ucs2: 0xcf30},
		lookupItem{cp949: 0xc4d8, ucs2: 0xcf31},
		lookupItem{cp949: 0xc4d9, ucs2: 0xcf38},
		lookupItem{cp949: 0xc4da, ucs2: 0xcf54},
		lookupItem{cp949: 0xc4db, ucs2: 0xcf55},
		lookupItem{cp949: 0xc4dc, ucs2: 0xcf58},
		lookupItem{cp949: 0xc4dd, ucs2: 0xcf5c},
		lookupItem{cp949: 0xc4de, ucs2: 0xcf64},
		lookupItem{cp949: 0xc4df, ucs2: 0xcf65},
		lookupItem{cp949: 0xc4e0, ucs2: 0xcf67},
		lookupItem{cp949: 0xc4e1, ucs2: 0xcf69},
		lookupItem{cp949: 0xc4e2, ucs2: 0xcf70},
		lookupItem{cp949: 0xc4e3, ucs2: 0xcf71},
		lookupItem{cp949: 0xc4e4, ucs2: 0xcf74},
		lookupItem{cp949: 0xc4e5, ucs2: 0xcf78},
		lookupItem{cp949: 0xc4e6, ucs2: 0xcf80},
		lookupItem{cp949: 0xc4e7, ucs2: 0xcf85},
		lookupItem{cp949: 0xc4e8, ucs2: 0xcf8c},
		lookupItem{cp949: 0xc4e9, ucs2: 0xcfa1},
		lookupItem{cp949: 0xc4ea, ucs2: 0xcfa8},
		lookupItem{cp949: 0xc4eb, ucs2: 0xcfb0},
		lookupItem{cp949: 0xc4ec, ucs2: 0xcfc4},
		lookupItem{cp949: 0xc4ed, ucs2: 0xcfe0},
		lookupItem{cp949: 0xc4ee, ucs2: 0xcfe1},
		lookupItem{cp949: 0xc4ef, ucs2: 0xcfe4},
		lookupItem{cp949: 0xc4f0, ucs2: 0xcfe8},
		lookupItem{cp949: 0xc4f1, ucs2: 0xcff0},
		lookupItem{cp949: 0xc4f2, ucs2: 0xcff1},
		lookupItem{cp949: 0xc4f3, ucs2: 0xcff3},
		lookupItem{cp949: 0xc4f4, ucs2: 0xcff5},
		lookupItem{cp949: 0xc4f5, ucs2: 0xcffc},
		lookupItem{cp949: 0xc4f6, ucs2: 0xd000},
		lookupItem{cp949: 0xc4f7, ucs2: 0xd004},
		lookupItem{cp949: 0xc4f8, ucs2: 0xd011},
		lookupItem{cp949: 0xc4f9, ucs2: 0xd018},
		lookupItem{cp949: 0xc4fa, ucs2: 0xd02d},
		lookupItem{cp949: 0xc4fb, ucs2: 0xd034},
		lookupItem{cp949: 0xc4fc, ucs2: 0xd035},
		lookupItem{cp949: 0xc4fd, ucs2: 0xd038},
		lookupItem{cp949: 0xc4fe, ucs2: 0xd03c},
		lookupItem{cp949: 0xc541, ucs2: 0xd715},
		lookupItem{cp949: 0xc542, ucs2: 0xd716},
		lookupItem{cp949: 0xc543, ucs2: 0xd717},
		lookupItem{cp949: 0xc544, ucs2: 0xd71a},
		lookupItem{cp949: 0xc545, ucs2: 0xd71b},
		lookupItem{cp949: 0xc546, ucs2: 0xd71d},
		lookupItem{cp949: 0xc547, ucs2: 0xd71e},
		lookupItem{cp949: 0xc548, ucs2: 0xd71f},
		lookupItem{cp949: 0xc549, ucs2: 0xd721},
		lookupItem{cp949: 0xc54a, ucs2: 0xd722},
		lookupItem{cp949: 0xc54b, ucs2: 0xd723},
		lookupItem{cp949: 0xc54c, ucs2: 0xd724},
		lookupItem{cp949: 0xc54d, ucs2: 0xd725},
		lookupItem{cp949: 0xc54e, ucs2: 0xd726},
		lookupItem{cp949: 0xc54f, ucs2: 0xd727},
		lookupItem{cp949: 0xc550, ucs2: 0xd72a},
		lookupItem{cp949: 0xc551, ucs2: 0xd72c},
		lookupItem{cp949: 0xc552, ucs2: 0xd72e},
		lookupItem{cp949: 0xc553, ucs2: 0xd72f},
		lookupItem{cp949: 0xc554, ucs2: 0xd730},
		lookupItem{cp949: 0xc555, ucs2: 0xd731},
		lookupItem{cp949: 0xc556, ucs2: 0xd732},
		lookupItem{cp949: 0xc557, ucs2: 0xd733},
		lookupItem{cp949: 0xc558, ucs2: 0xd736},
		lookupItem{cp949: 0xc559, ucs2: 0xd737},
		lookupItem{cp949: 0xc55a, ucs2: 0xd739},
		lookupItem{cp949: 0xc561, ucs2: 0xd73a},
		lookupItem{cp949: 0xc562, ucs2: 0xd73b},
		lookupItem{cp949: 0xc563, ucs2: 0xd73d},
		lookupItem{cp949: 0xc564, ucs2: 0xd73e},
		lookupItem{cp949: 0xc565, ucs2: 0xd73f},
		lookupItem{cp949: 0xc566, ucs2: 0xd740},
		lookupItem{cp949: 0xc567, ucs2: 0xd741},
		lookupItem{cp949: 0xc568, ucs2: 0xd742},
		lookupItem{cp949: 0xc569, ucs2: 0xd743},
		lookupItem{cp949: 0xc56a, ucs2: 0xd745},
		lookupItem{cp949: 0xc56b, ucs2: 0xd746},
		lookupItem{cp949: 0xc56c, ucs2: 0xd748},
		lookupItem{cp949: 0xc56d, ucs2: 0xd74a},
		lookupItem{cp949: 0xc56e, ucs2: 0xd74b},
		lookupItem{cp949: 0xc56f, ucs2: 0xd74c},
		lookupItem{cp949: 0xc570, ucs2: 0xd74d},
		lookupItem{cp949: 0xc571, ucs2: 0xd74e},
		lookupItem{cp949: 0xc572, ucs2: 0xd74f},
		lookupItem{cp949: 0xc573, ucs2: 0xd752},
		lookupItem{cp949: 0xc574, ucs2: 0xd753},
		lookupItem{cp949: 0xc575, ucs2: 0xd755},
		lookupItem{cp949: 0xc576, ucs2: 0xd75a},
		lookupItem{cp949: 0xc577, ucs2: 0xd75b},
		lookupItem{cp949: 0xc578, ucs2: 0xd75c},
		lookupItem{cp949: 0xc579, ucs2: 0xd75d},
		lookupItem{cp949: 0xc57a, ucs2: 0xd75e},
		lookupItem{cp949: 0xc581, ucs2: 0xd75f},
		lookupItem{cp949: 0xc582, ucs2: 0xd762},
		lookupItem{cp949: 0xc583, ucs2: 0xd764},
		lookupItem{cp949: 0xc584, ucs2: 0xd766},
		lookupItem{cp949: 0xc585, ucs2: 0xd767},
		lookupItem{cp949: 0xc586, ucs2: 0xd768},
		lookupItem{cp949: 0xc587, ucs2: 0xd76a},
		lookupItem{cp949: 0xc588, ucs2: 0xd76b},
".
Definition text_cp949_lookup_from_047 : string :=
"		lookupItem{cp949: 0xc589, ucs2: 0xd76d},
		lookupItem{cp949: 0xc58a, ucs2: 0xd76e},
		lookupItem{cp949: 0xc58b, ucs2: 0xd76f},
		lookupItem{cp949: 0xc58c, ucs2: 0xd771},
		lookupItem{cp949: 0xc58d, ucs2: 0xd772},
		lookupItem{cp949: 0xc58e, ucs2: 0xd773},
		lookupItem{cp949: 0xc58f, ucs2: 0xd775},
		lookupItem{cp949: 0xc590, ucs2: 0xd776},
		lookupItem{cp949: 0xc591, ucs2: 0xd777},
		lookupItem{cp949: 0xc592, ucs2: 0xd778},
		lookupItem{cp949: 0xc593, ucs2: 0xd779},
		lookupItem{cp949: 0xc594, ucs2: 0xd77a},
		lookupItem{cp949: 0xc595, ucs2: 0xd77b},
		lookupItem{cp949: 0xc596, ucs2: 0xd77e},
		lookupItem{cp949: 0xc597, ucs2: 0xd77f},
		lookupItem{cp949: 0xc598, ucs2: 0xd780},
		lookupItem{cp949: 0xc599, ucs2: 0xd782},
		lookupItem{cp949: 0xc59a, ucs2: 0xd783},
		lookupItem{cp949: 0xc59b, ucs2: 0xd784},
		lookupItem{cp949: 0xc59c, ucs2: 0xd785},
		lookupItem{cp949: 0xc59d, ucs2: 0xd786},
		lookupItem{cp949: 0xc59e, ucs2: 0xd787},
		lookupItem{cp949: 0xc59f, ucs2: 0xd78a},
		lookupItem{cp949: 0xc5a0, ucs2: 0xd78b},
		lookupItem{cp949: 0xc5a1, ucs2: 0xd044},
		lookupItem{cp949: 0xc5a2, ucs2: 0xd045},
		lookupItem{cp949: 0xc5a3, ucs2: 0xd047},
		lookupItem{cp949: 0xc5a4, ucs2: 0xd049},
		lookupItem{cp949: 0xc5a5, ucs2: 0xd050},
		lookupItem{cp949: 0xc5a6, ucs2: 0xd054},
		lookupItem{cp949: 0xc5a7, ucs2: 0xd058},
		lookupItem{cp949: 0xc5a8, ucs2: 0xd060},
		lookupItem{cp949: 0xc5a9, ucs2: 0xd06c},
		lookupItem{cp949: 0xc5aa, ucs2: 0xd06d},
		lookupItem{cp949: 0xc5ab, ucs2: 0xd070},
		lookupItem{cp949: 0xc5ac, ucs2: 0xd074},
		lookupItem{cp949: 0xc5ad, ucs2: 0xd07c},
		lookupItem{cp949: 0xc5ae, ucs2: 0xd07d},
		lookupItem{cp949: 0xc5af, ucs2: 0xd081},
		lookupItem{cp949: 0xc5b0, ucs2: 0xd0a4},
		lookupItem{cp949: 0xc5b1, ucs2: 0xd0a5},
		lookupItem{cp949: 0xc5b2, ucs2: 0xd0a8},
		lookupItem{cp949: 0xc5b3, ucs2: 0xd0ac},
		lookupItem{cp949: 0xc5b4, ucs2: 0xd0b4},
		lookupItem{cp949: 0xc5b5, ucs2: 0xd0b5},
		lookupItem{cp949: 0xc5b6, ucs2: 0xd0b7},
		lookupItem{cp949: 0xc5b7, ucs2: 0xd0b9},
		lookupItem{cp949: 0xc5b8, ucs2: 0xd0c0},
		lookupItem{cp949: 0xc5b9, ucs2: 0xd0c1},
		lookupItem{cp949: 0xc5ba, ucs2: 0xd0c4},
		lookupItem{cp949: 0xc5bb, ucs2: 0xd0c8},
		lookupItem{cp949: 0xc5bc, ucs2: 0xd0c9},
		lookupItem{cp949: 0xc5bd, ucs2: 0xd0d0},
		lookupItem{cp949: 0xc5be, ucs2: 0xd0d1},
		lookupItem{cp949: 0xc5bf, ucs2: 0xd0d3},
		lookupItem{cp949: 0xc5c0, ucs2: 0xd0d4},
		lookupItem{cp949: 0xc5c1, ucs2: 0xd0d5},
		lookupItem{cp949: 0xc5c2, ucs2: 0xd0dc},
		lookupItem{cp949: 0xc5c3, ucs2: 0xd0dd},
		lookupItem{cp949: 0xc5c4, ucs2: 0xd0e0},
		lookupItem{cp949: 0xc5c5, ucs2: 0xd0e4},
		lookupItem{cp949: 0xc5c6, ucs2: 0xd0ec},
		lookupItem{cp949: 0xc5c7, ucs2: 0xd0ed},
		lookupItem{cp949: 0xc5c8, ucs2: 0xd0ef},
		lookupItem{cp949: 0xc5c9, ucs2: 0xd0f0},
		lookupItem{cp949: 0xc5ca, ucs2: 0xd0f1},
		lookupItem{cp949: 0xc5cb, ucs2: 0xd0f8},
		lookupItem{cp949: 0xc5cc, ucs2: 0xd10d},
		lookupItem{cp949: 0xc5cd, ucs2: 0xd130},
		lookupItem{cp949: 0xc5ce, ucs2: 0xd131},
		lookupItem{cp949: 0xc5cf, ucs2: 0xd134},
		lookupItem{cp949: 0xc5d0, ucs2: 0xd138},
		lookupItem{cp949: 0xc5d1, ucs2: 0xd13a},
		lookupItem{cp949: 0xc5d2, ucs2: 0xd140},
		lookupItem{cp949: 0xc5d3, ucs2: 0xd141},
		lookupItem{cp949: 0xc5d4, ucs2: 0xd143},
		lookupItem{cp949: 0xc5d5, ucs2: 0xd144},
		lookupItem{cp949: 0xc5d6, ucs2: 0xd145},
		lookupItem{cp949: 0xc5d7, ucs2: 0xd14c},
		lookupItem{cp949: 0xc5d8, ucs2: 0xd14d},
		lookupItem{cp949: 0xc5d9, ucs2: 0xd150},
		lookupItem{cp949: 0xc5da, ucs2: 0xd154},
		lookupItem{cp949: 0xc5db, ucs2: 0xd15c},
		lookupItem{cp949: 0xc5dc, ucs2: 0xd15d},
		lookupItem{cp949: 0xc5dd, ucs2: 0xd15f},
		lookupItem{cp949: 0xc5de, ucs2: 0xd161},
		lookupItem{cp949: 0xc5df, ucs2: 0xd168},
		lookupItem{cp949: 0xc5e0, ucs2: 0xd16c},
		lookupItem{cp949: 0xc5e1, ucs2: 0xd17c},
		lookupItem{cp949: 0xc5e2, ucs2: 0xd184},
		lookupItem{cp949: 0xc5e3, ucs2: 0xd188},
		lookupItem{cp949: 0xc5e4, ucs2: 0xd1a0},
		lookupItem{cp949: 0xc5e5, ucs2: 0xd1a1},
		lookupItem{cp949: 0xc5e6, ucs2: 0xd1a4},
		lookupItem{cp949: 0xc5e7, ucs2: 0xd1a8},
		lookupItem{cp949: 0xc5e8, ucs2: 0xd1b0},
		lookupItem{cp949: 0xc5e9, ucs2: 0xd1b1},
		lookupItem{cp949: 0xc5ea, ucs2: 0xd1b3},
		lookupItem{cp949: 0xc5eb, ucs2: 0xd1b5},
		lookupItem{cp949: 0xc5ec, ucs2: 0xd1ba},
		lookupItem{cp949: 0xc5ed, ucs2: 0xd1bc},
		lookupItem{cp949: 0xc5ee, ucs2: 0xd1c0},
		lookupItem{cp949: 0xc5ef, ucs2: 0xd1d8},
		lookupItem{cp949: 0xc5f0, ucs2: 0xd1f4},
		lookupItem{cp949: 0xc5f1, ucs2: 0xd1f8},
		lookupItem{cp949: 0xc5f2, ucs2: 0xd207},
		lookupItem{cp949: 0xc5f3, ucs2: 0xd209},
		lookupItem{cp949: 0xc5f4, ucs2: 0xd210},
		lookupItem{cp949: 0xc5f5, ucs2: 0xd22c},
		lookupItem{cp949: 0xc5f6, ucs2: 0xd22d},
		lookupItem{cp949: 0xc5f7, ucs2: 0xd230},
		lookupItem{cp949: 0xc5f8, ucs2: 0xd234},
		lookupItem{cp949: 0xc5f9, ucs2: 0xd23c},
		lookupItem{cp949: 0xc5fa, ucs2: 0xd23d},
		lookupItem{cp949: 0xc5fb, ucs2: 0xd23f},
		lookupItem{cp949: 0xc5fc, ucs2: 0xd241},
		lookupItem{cp949: 0xc5fd, ucs2: 0xd248},
		lookupItem{cp949: 0xc5fe, ucs2: 0xd25c},
		lookupItem{cp949: 0xc641, ucs2: 0xd78d},
		lookupItem{cp949: 0xc642, ucs2: 0xd78e},
		lookupItem{cp949: 0xc643, ucs2: 0xd78f},
		lookupItem{cp949: 0xc644, ucs2: 0xd791},
		lookupItem{cp949: 0xc645, ucs2: 0xd792},
		lookupItem{cp949: 0xc646, ucs2: 0xd793},
		lookupItem{cp949: 0xc647, ucs2: 0xd794},
		lookupItem{cp949: 0xc648, ucs2: 0xd795},
		lookupItem{cp949: 0xc649, ucs2: 0xd796},
		lookupItem{cp949: 0xc64a, ucs2: 0xd797},
		lookupItem{cp949: 0xc64b, ucs2: 0xd79a},
		lookupItem{cp949: 0xc64c, ucs2: 0xd79c},
		lookupItem{cp949: 0xc64d, ucs2: 0xd79e},
		lookupItem{cp949: 0xc64e, ucs2: 0xd79f},
		lookupItem{cp949: 0xc64f, ucs2: 0xd7a0},
		lookupItem{cp949: 0xc650, ucs2: 0xd7a1},
		lookupItem{cp949: 0xc651, ucs2: 0xd7a2},
		lookupItem{cp949: 0xc652, ucs2: 0xd7a3},
		lookupItem{cp949: 0xc6a1, ucs2: 0xd264},
		lookupItem{cp949: 0xc6a2, ucs2: 0xd280},
		lookupItem{cp949: 0xc6a3, ucs2: 0xd281},
		lookupItem{cp949: 0xc6a4, ucs2: 0xd284},
		lookupItem{cp949: 0xc6a5, ucs2: 0xd288},
		lookupItem{cp949: 0xc6a6, ucs2: 0xd290},
		lookupItem{cp949: 0xc6a7, ucs2: 0xd291},
		lookupItem{cp949: 0xc6a8, ucs2: 0xd295},
		lookupItem{cp949: 0xc6a9, ucs2: 0xd29c},
		lookupItem{cp949: 0xc6aa, ucs2: 0xd2a0},
		lookupItem{cp949: 0xc6ab, ucs2: 0xd2a4},
		lookupItem{cp949: 0xc6ac, ucs2: 0xd2ac},
		lookupItem{cp949: 0xc6ad, ucs2: 0xd2b1},
		lookupItem{cp949: 0xc6ae, ucs2: 0xd2b8},
		lookupItem{cp949: 0xc6af, ucs2: 0xd2b9},
		lookupItem{cp949: 0xc6b0, ucs2: 0xd2bc},
		lookupItem{cp949: 0xc6b1, ucs2: 0xd2bf},
		lookupItem{cp949: 0xc6b2, ucs2: 0xd2c0},
		lookupItem{cp949: 0xc6b3, ucs2: 0xd2c2},
		lookupItem{cp949: 0xc6b4, ucs2: 0xd2c8},
		lookupItem{cp949: 0xc6b5, ucs2: 0xd2c9},
		lookupItem{cp949: 0xc6b6, ucs2: 0xd2cb},
		lookupItem{cp949: 0xc6b7, ucs2: 0xd2d4},
		lookupItem{cp949: 0xc6b8, ucs2: 0xd2d8},
		lookupItem{cp949: 0xc6b9, ucs2: 0xd2dc},
		lookupItem{cp949: 0xc6ba, ucs2: 0xd2e4},
		lookupItem{cp949: 0xc6bb, ucs2: 0xd2e5},
		lookupItem{cp949: 0xc6bc, ucs2: 0xd2f0},
		lookupItem{cp949: 0xc6bd, ucs2: 0xd2f1},
		lookupItem{cp949: 0xc6be, ucs2: 0xd2f4},
		lookupItem{cp949: 0xc6bf, ucs2: 0xd2f8},
		lookupItem{cp949: 0xc6c0, ucs2: 0xd300},
		lookupItem{cp949: 0xc6c1, ucs2: 0xd301},
		lookupItem{cp949: 0xc6c2, ucs2: 0xd303},
		lookupItem{cp949: 0xc6c3, ucs2: 0xd305},
		lookupItem{cp949: 0xc6c4, ucs2: 0xd30c},
		lookupItem{cp949: 0xc6c5, ucs2: 0xd30d},
		lookupItem{cp949: 0xc6c6, ucs2: 0xd30e},
		lookupItem{cp949: 0xc6c7, ucs2: 0xd310},
		lookupItem{cp949: 0xc6c8, ucs2: 0xd314},
		lookupItem{cp949: 0xc6c9, ucs2: 0xd316},
		lookupItem{cp949: 0xc6ca, ucs2: 0xd31c},
		lookupItem{cp949: 0xc6cb, ucs2: 0xd31d},
		lookupItem{cp949: 0xc6cc, ucs2: 0xd31f},
		lookupItem{cp949: 0xc6cd, ucs2: 0xd320},
		lookupItem{cp949: 0xc6ce, ucs2: 0xd321},
		lookupItem{cp949: 0xc6cf, ucs2: 0xd325},
		lookupItem{cp949: 0xc6d0, ucs2: 0xd328},
		lookupItem{cp949: 0xc6d1, ucs2: 0xd329},
		lookupItem{cp949: 0xc6d2, ucs2: 0xd32c},
		lookupItem{cp949: 0xc6d3, ucs2: 0xd330},
		lookupItem{cp949: 0xc6d4, ucs2: 0xd338},
		lookupItem{cp949: 0xc6d5, ucs2: 0xd339},
		lookupItem{cp949: 0xc6d6, ucs2: 0xd33b},
		lookupItem{cp949: 0xc6d7, ucs2: 0xd33c},
		lookupItem{cp949: 0xc6d8, ucs2: 0xd33d},
		lookupItem{cp949: 0xc6d9, ucs2: 0xd344},
		lookupItem{cp949: 0xc6da, ucs2: 0xd345},
		lookupItem{cp949: 0xc6db, ucs2: 0xd37c},
		lookupItem{cp949: 0xc6dc, ucs2: 0xd37d},
		lookupItem{cp949: 0xc6dd, ucs2: 0xd380},
		lookupItem{cp949: 0xc6de, ucs2: 0xd384},
		lookupItem{cp949: 0xc6df, ucs2: 0xd38c},
		lookupItem{cp949: 0xc6e0, ucs2: 0xd38d},
		lookupItem{cp949: 0xc6e1, ucs2: 0xd38f},
		lookupItem{cp949: 0xc6e2, ucs2: 0xd390},
		lookupItem{cp949: 0xc6e3, ucs2: 0xd391},
		lookupItem{cp949: 0xc6e4, ucs2: 0xd398},
		lookupItem{cp949: 0xc6e5, ucs2: 0xd399},
		lookupItem{cp949: 0xc6e6, ucs2: 0xd39c},
		lookupItem{cp949: 0xc6e7, ucs2: 0xd3a0},
		lookupItem{cp949: 0xc6e8, ucs2: 0xd3a8},
		lookupItem{cp949: 0xc6e9, ucs2: 0xd3a9},
		lookupItem{cp949: 0xc6ea, ucs2: 0xd3ab},
		lookupItem{cp949: 0xc6eb, ucs2: 0xd3ad},
		lookupItem{cp949: 0xc6ec, ucs2: 0xd3b4},
		lookupItem{cp949: 0xc6ed, ucs2: 0xd3b8},
		lookupItem{cp949: 0xc6ee, ucs2: 0xd3bc},
		lookupItem{cp949: 0xc6ef, ucs2: 0xd3c4},
		lookupItem{cp949: 0xc6f0, ucs2: 0xd3c5},
		lookupItem{cp949: 0xc6f1, ucs2: 0xd3c8},
		lookupItem{cp949: 0xc6f2, ucs2: 0xd3c9},
		lookupItem{cp949: 0xc6f3, ucs2: 0xd3d0},
		lookupItem{cp949: 0xc6f4, ucs2: 0xd3d8},
		lookupItem{cp949: 0xc6f5, ucs2: 0xd3e1},
		lookupItem{cp949: 0xc6f6, ucs2: 0xd3e3},
		lookupItem{cp949: 0xc6f7, ucs2: 0xd3ec},
		lookupItem{cp949: 0xc6f8, ucs2: 0xd3ed},
		lookupItem{cp949: 0xc6f9, ucs2: 0xd3f0},
		lookupItem{cp949: 0xc6fa, ucs2: 0xd3f4},
		lookupItem{cp949: 0xc6fb, ucs2: 0xd3fc},
		lookupItem{cp949: 0xc6fc, ucs2: 0xd3fd},
		lookupItem{cp949: 0xc6fd, ucs2: 0xd3ff},
		lookupItem{cp949: 0xc6fe, ucs2: 0xd401},
		lookupItem{cp949: 0xc7a1, ucs2: 0xd408},
		lookupItem{cp949: 0xc7a2, ucs2: 0xd41d},
		lookupItem{cp949: 0xc7a3, ucs2: 0xd440},
		lookupItem{cp949: 0xc7a4, ucs2: 0xd444},
		lookupItem{cp949: 0xc7a5, ucs2: 0xd45c},
		lookupItem{cp949: 0xc7a6, ucs2: 0xd460},
		lookupItem{cp949: 0xc7a7, ucs2: 0xd464},
		lookupItem{cp949: 0xc7a8, ucs2: 0xd46d},
		lookupItem{cp949: 0xc7a9, ucs2: 0xd46f},
		lookupItem{cp949: 0xc7aa, ucs2: 0xd478},
		lookupItem{cp949: 0xc7ab, ucs2: 0xd479},
		lookupItem{cp949: 0xc7ac, ucs2: 0xd47c},
		lookupItem{cp949: 0xc7ad, ucs2: 0xd47f},
		lookupItem{cp949: 0xc7ae, ucs2: 0xd480},
		lookupItem{cp949: 0xc7af, ucs2: 0xd482},
		lookupItem{cp949: 0xc7b0, ucs2: 0xd488},
		lookupItem{cp949: 0xc7b1, ucs2: 0xd489},
		lookupItem{cp949: 0xc7b2, ucs2: 0xd48b},
		lookupItem{cp949: 0xc7b3, ucs2: 0xd48d},
		lookupItem{cp949: 0xc7b4, ucs2: 0xd494},
".
Definition text_cp949_lookup_from_048 : string :=
"		lookupItem{cp949: 0xc7b5, ucs2: 0xd4a9},
		lookupItem{cp949: 0xc7b6, ucs2: 0xd4cc},
		lookupItem{cp949: 0xc7b7, ucs2: 0xd4d0},
		lookupItem{cp949: 0xc7b8, ucs2: 0xd4d4},
		lookupItem{cp949: 0xc7b9, ucs2: 0xd4dc},
		lookupItem{cp949: 0xc7ba, ucs2: 0xd4df},
		lookupItem{cp949: 0xc7bb, ucs2: 0xd4e8},
		lookupItem{cp949: 0xc7bc, ucs2: 0xd4ec},
		lookupItem{cp949: 0xc7bd, ucs2: 0xd4f0},
		lookupItem{cp949: 0xc7be, ucs2: 0xd4f8},
		lookupItem{cp949: 0xc7bf, ucs2: 0xd4fb},
		lookupItem{cp949: 0xc7c0, ucs2: 0xd4fd},
		lookupItem{cp949: 0xc7c1, ucs2: 0xd504},
		lookupItem{cp949: 0xc7c2, ucs2: 0xd508},
		lookupItem{cp949: 0xc7c3, ucs2: 0xd50c},
		lookupItem{cp949: 0xc7c4, ucs2: 0xd514},
		lookupItem{cp949: 0xc7c5, ucs2: 0xd515},
		lookupItem{cp949: 0xc7c6, ucs2: 0xd517},
		lookupItem{cp949: 0xc7c7, ucs2: 0xd53c},
		lookupItem{cp949: 0xc7c8, ucs2: 0xd53d},
		lookupItem{cp949: 0xc7c9, ucs2: 0xd540},
		lookupItem{cp949: 0xc7ca, ucs2: 0xd544},
		lookupItem{cp949: 0xc7cb, ucs2: 0xd54c},
		lookupItem{cp949: 0xc7cc, ucs2: 0xd54d},
		lookupItem{cp949: 0xc7cd, ucs2: 0xd54f},
		lookupItem{cp949: 0xc7ce, ucs2: 0xd551},
		lookupItem{cp949: 0xc7cf, ucs2: 0xd558},
		lookupItem{cp949: 0xc7d0, ucs2: 0xd559},
		lookupItem{cp949: 0xc7d1, ucs2: 0xd55c},
		lookupItem{cp949: 0xc7d2, ucs2: 0xd560},
		lookupItem{cp949: 0xc7d3, ucs2: 0xd565},
		lookupItem{cp949: 0xc7d4, ucs2: 0xd568},
		lookupItem{cp949: 0xc7d5, ucs2: 0xd569},
		lookupItem{cp949: 0xc7d6, ucs2: 0xd56b},
		lookupItem{cp949: 0xc7d7, ucs2: 0xd56d},
		lookupItem{cp949: 0xc7d8, ucs2: 0xd574},
		lookupItem{cp949: 0xc7d9, ucs2: 0xd575},
		lookupItem{cp949: 0xc7da, ucs2: 0xd578},
		lookupItem{cp949: 0xc7db, ucs2: 0xd57c},
		lookupItem{cp949: 0xc7dc, ucs2: 0xd584},
		lookupItem{cp949: 0xc7dd, ucs2: 0xd585},
		lookupItem{cp949: 0xc7de, ucs2: 0xd587},
		lookupItem{cp949: 0xc7df, ucs2: 0xd588},
		lookupItem{cp949: 0xc7e0, ucs2: 0xd589},
		lookupItem{cp949: 0xc7e1, ucs2: 0xd590},
		lookupItem{cp949: 0xc7e2, ucs2: 0xd5a5},
		lookupItem{cp949: 0xc7e3, ucs2: 0xd5c8},
		lookupItem{cp949: 0xc7e4, ucs2: 0xd5c9},
		lookupItem{cp949: 0xc7e5, ucs2: 0xd5cc},
		lookupItem{cp949: 0xc7e6, ucs2: 0xd5d0},
		lookupItem{cp949: 0xc7e7, ucs2: 0xd5d2},
		lookupItem{cp949: 0xc7e8, ucs2: 0xd5d8},
		lookupItem{cp949: 0xc7e9, ucs2: 0xd5d9},
		lookupItem{cp949: 0xc7ea, ucs2: 0xd5db},
		lookupItem{cp949: 0xc7eb, ucs2: 0xd5dd},
		lookupItem{cp949: 0xc7ec, ucs2: 0xd5e4},
		lookupItem{cp949: 0xc7ed, ucs2: 0xd5e5},
		lookupItem{cp949: 0xc7ee, ucs2: 0xd5e8},
		lookupItem{cp949: 0xc7ef, ucs2: 0xd5ec},
		lookupItem{cp949: 0xc7f0, ucs2: 0xd5f4},
		lookupItem{cp949: 0xc7f1, ucs2: 0xd5f5},
		lookupItem{cp949: 0xc7f2, ucs2: 0xd5f7},
		lookupItem{cp949: 0xc7f3, ucs2: 0xd5f9},
		lookupItem{cp949: 0xc7f4, ucs2: 0xd600},
		lookupItem{cp949: 0xc7f5, ucs2: 0xd601},
		lookupItem{cp949: 0xc7f6, ucs2: 0xd604},
		lookupItem{cp949: 0xc7f7, ucs2: 0xd608},
		lookupItem{cp949: 0xc7f8, ucs2: 0xd610},
		lookupItem{cp949: 0xc7f9, ucs2: 0xd611},
		lookupItem{cp949: 0xc7fa, ucs2: 0xd613},
		lookupItem{cp949: 0xc7fb, ucs2: 0xd614},
		lookupItem{cp949: 0xc7fc, ucs2: 0xd615},
		lookupItem{cp949: 0xc7fd, ucs2: 0xd61c},
		lookupItem{cp949: 0xc7fe, ucs2: 0xd620},
		lookupItem{cp949: 0xc8a1, ucs2: 0xd624},
		lookupItem{cp949: 0xc8a2, ucs2: 0xd62d},
		lookupItem{cp949: 0xc8a3, ucs2: 0xd638},
		lookupItem{cp949: 0xc8a4, ucs2: 0xd639},
		lookupItem{cp949: 0xc8a5, ucs2: 0xd63c},
		lookupItem{cp949: 0xc8a6, ucs2: 0xd640},
		lookupItem{cp949: 0xc8a7, ucs2: 0xd645},
		lookupItem{cp949: 0xc8a8, ucs2: 0xd648},
		lookupItem{cp949: 0xc8a9, ucs2: 0xd649},
		lookupItem{cp949: 0xc8aa, ucs2: 0xd64b},
		lookupItem{cp949: 0xc8ab, ucs2: 0xd64d},
		lookupItem{cp949: 0xc8ac, ucs2: 0xd651},
		lookupItem{cp949: 0xc8ad, ucs2: 0xd654},
		lookupItem{cp949: 0xc8ae, ucs2: 0xd655},
		lookupItem{cp949: 0xc8af, ucs2: 0xd658},
		lookupItem{cp949: 0xc8b0, ucs2: 0xd65c},
		lookupItem{cp949: 0xc8b1, ucs2: 0xd667},
		lookupItem{cp949: 0xc8b2, ucs2: 0xd669},
		lookupItem{cp949: 0xc8b3, ucs2: 0xd670},
		lookupItem{cp949: 0xc8b4, ucs2: 0xd671},
		lookupItem{cp949: 0xc8b5, ucs2: 0xd674},
		lookupItem{cp949: 0xc8b6, ucs2: 0xd683},
		lookupItem{cp949: 0xc8b7, ucs2: 0xd685},
		lookupItem{cp949: 0xc8b8, ucs2: 0xd68c},
		lookupItem{cp949: 0xc8b9, ucs2: 0xd68d},
		lookupItem{cp949: 0xc8ba, ucs2: 0xd690},
		lookupItem{cp949: 0xc8bb, ucs2: 0xd694},
		lookupItem{cp949: 0xc8bc, ucs2: 0xd69d},
		lookupItem{cp949: 0xc8bd, ucs2: 0xd69f},
		lookupItem{cp949: 0xc8be, ucs2: 0xd6a1},
		lookupItem{cp949: 0xc8bf, ucs2: 0xd6a8},
		lookupItem{cp949: 0xc8c0, ucs2: 0xd6ac},
		lookupItem{cp949: 0xc8c1, ucs2: 0xd6b0},
		lookupItem{cp949: 0xc8c2, ucs2: 0xd6b9},
		lookupItem{cp949: 0xc8c3, ucs2: 0xd6bb},
		lookupItem{cp949: 0xc8c4, ucs2: 0xd6c4},
		lookupItem{cp949: 0xc8c5, ucs2: 0xd6c5},
		lookupItem{cp949: 0xc8c6, ucs2: 0xd6c8},
		lookupItem{cp949: 0xc8c7, ucs2: 0xd6cc},
		lookupItem{cp949: 0xc8c8, ucs2: 0xd6d1},
		lookupItem{cp949: 0xc8c9, ucs2: 0xd6d4},
		lookupItem{cp949: 0xc8ca, ucs2: 0xd6d7},
		lookupItem{cp949: 0xc8cb, ucs2: 0xd6d9},
		lookupItem{cp949: 0xc8cc, ucs2: 0xd6e0},
		lookupItem{cp949: 0xc8cd, ucs2: 0xd6e4},
		lookupItem{cp949: 0xc8ce, ucs2: 0xd6e8},
		lookupItem{cp949: 0xc8cf, ucs2: 0xd6f0},
		lookupItem{cp949: 0xc8d0, ucs2: 0xd6f5},
		lookupItem{cp949: 0xc8d1, ucs2: 0xd6fc},
		lookupItem{cp949: 0xc8d2, ucs2: 0xd6fd},
		lookupItem{cp949: 0xc8d3, ucs2: 0xd700},
		lookupItem{cp949: 0xc8d4, ucs2: 0xd704},
		lookupItem{cp949: 0xc8d5, ucs2: 0xd711},
		lookupItem{cp949: 0xc8d6, ucs2: 0xd718},
		lookupItem{cp949: 0xc8d7, ucs2: 0xd719},
		lookupItem{cp949: 0xc8d8, ucs2: 0xd71c},
		lookupItem{cp949: 0xc8d9, ucs2: 0xd720},
		lookupItem{cp949: 0xc8da, ucs2: 0xd728},
		lookupItem{cp949: 0xc8db, ucs2: 0xd729},
		lookupItem{cp949: 0xc8dc, ucs2: 0xd72b},
		lookupItem{cp949: 0xc8dd, ucs2: 0xd72d},
		lookupItem{cp949: 0xc8de, ucs2: 0xd734},
		lookupItem{cp949: 0xc8df, ucs2: 0xd735},
		lookupItem{cp949: 0xc8e0, ucs2: 0xd738},
		lookupItem{cp949: 0xc8e1, ucs2: 0xd73c},
		lookupItem{cp949: 0xc8e2, ucs2: 0xd744},
		lookupItem{cp949: 0xc8e3, ucs2: 0xd747},
		lookupItem{cp949: 0xc8e4, ucs2: 0xd749},
		lookupItem{cp949: 0xc8e5, ucs2: 0xd750},
		lookupItem{cp949: 0xc8e6, ucs2: 0xd751},
		lookupItem{cp949: 0xc8e7, ucs2: 0xd754},
		lookupItem{cp949: 0xc8e8, ucs2: 0xd756},
		lookupItem{cp949: 0xc8e9, ucs2: 0xd757},
		lookupItem{cp949: 0xc8ea, ucs2: 0xd758},
		lookupItem{cp949: 0xc8eb, ucs2: 0xd759},
		lookupItem{cp949: 0xc8ec, ucs2: 0xd760},
		lookupItem{cp949: 0xc8ed, ucs2: 0xd761},
		lookupItem{cp949: 0xc8ee, ucs2: 0xd763},
		lookupItem{cp949: 0xc8ef, ucs2: 0xd765},
		lookupItem{cp949: 0xc8f0, ucs2: 0xd769},
		lookupItem{cp949: 0xc8f1, ucs2: 0xd76c},
		lookupItem{cp949: 0xc8f2, ucs2: 0xd770},
		lookupItem{cp949: 0xc8f3, ucs2: 0xd774},
		lookupItem{cp949: 0xc8f4, ucs2: 0xd77c},
		lookupItem{cp949: 0xc8f5, ucs2: 0xd77d},
		lookupItem{cp949: 0xc8f6, ucs2: 0xd781},
		lookupItem{cp949: 0xc8f7, ucs2: 0xd788},
		lookupItem{cp949: 0xc8f8, ucs2: 0xd789},
		lookupItem{cp949: 0xc8f9, ucs2: 0xd78c},
		lookupItem{cp949: 0xc8fa, ucs2: 0xd790},
		lookupItem{cp949: 0xc8fb, ucs2: 0xd798},
		lookupItem{cp949: 0xc8fc, ucs2: 0xd799},
		lookupItem{cp949: 0xc8fd, ucs2: 0xd79b},
		lookupItem{cp949: 0xc8fe, ucs2: 0xd79d},
		lookupItem{cp949: 0xcaa1, ucs2: 0x4f3d},
		lookupItem{cp949: 0xcaa2, ucs2: 0x4f73},
		lookupItem{cp949: 0xcaa3, ucs2: 0x5047},
		lookupItem{cp949: 0xcaa4, ucs2: 0x50f9},
		lookupItem{cp949: 0xcaa5, ucs2: 0x52a0},
		lookupItem{cp949: 0xcaa6, ucs2: 0x53ef},
		lookupItem{cp949: 0xcaa7, ucs2: 0x5475},
		lookupItem{cp949: 0xcaa8, ucs2: 0x54e5},
		lookupItem{cp949: 0xcaa9, ucs2: 0x5609},
		lookupItem{cp949: 0xcaaa, ucs2: 0x5ac1},
		lookupItem{cp949: 0xcaab, ucs2: 0x5bb6},
		lookupItem{cp949: 0xcaac, ucs2: 0x6687},
		lookupItem{cp949: 0xcaad, ucs2: 0x67b6},
		lookupItem{cp949: 0xcaae, ucs2: 0x67b7},
		lookupItem{cp949: 0xcaaf, ucs2: 0x67ef},
		lookupItem{cp949: 0xcab0, ucs2: 0x6b4c},
		lookupItem{cp949: 0xcab1, ucs2: 0x73c2},
		lookupItem{cp949: 0xcab2, ucs2: 0x75c2},
		lookupItem{cp949: 0xcab3, ucs2: 0x7a3c},
		lookupItem{cp949: 0xcab4, ucs2: 0x82db},
		lookupItem{cp949: 0xcab5, ucs2: 0x8304},
		lookupItem{cp949: 0xcab6, ucs2: 0x8857},
		lookupItem{cp949: 0xcab7, ucs2: 0x8888},
		lookupItem{cp949: 0xcab8, ucs2: 0x8a36},
		lookupItem{cp949: 0xcab9, ucs2: 0x8cc8},
		lookupItem{cp949: 0xcaba, ucs2: 0x8dcf},
		lookupItem{cp949: 0xcabb, ucs2: 0x8efb},
		lookupItem{cp949: 0xcabc, ucs2: 0x8fe6},
		lookupItem{cp949: 0xcabd, ucs2: 0x99d5},
		lookupItem{cp949: 0xcabe, ucs2: 0x523b},
		lookupItem{cp949: 0xcabf, ucs2: 0x5374},
		lookupItem{cp949: 0xcac0, ucs2: 0x5404},
		lookupItem{cp949: 0xcac1, ucs2: 0x606a},
		lookupItem{cp949: 0xcac2, ucs2: 0x6164},
		lookupItem{cp949: 0xcac3, ucs2: 0x6bbc},
		lookupItem{cp949: 0xcac4, ucs2: 0x73cf},
		lookupItem{cp949: 0xcac5, ucs2: 0x811a},
		lookupItem{cp949: 0xcac6, ucs2: 0x89ba},
		lookupItem{cp949: 0xcac7, ucs2: 0x89d2},
		lookupItem{cp949: 0xcac8, ucs2: 0x95a3},
		lookupItem{cp949: 0xcac9, ucs2: 0x4f83},
		lookupItem{cp949: 0xcaca, ucs2: 0x520a},
		lookupItem{cp949: 0xcacb, ucs2: 0x58be},
		lookupItem{cp949: 0xcacc, ucs2: 0x5978},
		lookupItem{cp949: 0xcacd, ucs2: 0x59e6},
		lookupItem{cp949: 0xcace, ucs2: 0x5e72},
		lookupItem{cp949: 0xcacf, ucs2: 0x5e79},
		lookupItem{cp949: 0xcad0, ucs2: 0x61c7},
		lookupItem{cp949: 0xcad1, ucs2: 0x63c0},
		lookupItem{cp949: 0xcad2, ucs2: 0x6746},
		lookupItem{cp949: 0xcad3, ucs2: 0x67ec},
		lookupItem{cp949: 0xcad4, ucs2: 0x687f},
		lookupItem{cp949: 0xcad5, ucs2: 0x6f97},
		lookupItem{cp949: 0xcad6, ucs2: 0x764e},
		lookupItem{cp949: 0xcad7, ucs2: 0x770b},
		lookupItem{cp949: 0xcad8, ucs2: 0x78f5},
		lookupItem{cp949: 0xcad9, ucs2: 0x7a08},
		lookupItem{cp949: 0xcada, ucs2: 0x7aff},
		lookupItem{cp949: 0xcadb, ucs2: 0x7c21},
		lookupItem{cp949: 0xcadc, ucs2: 0x809d},
		lookupItem{cp949: 0xcadd, ucs2: 0x826e},
		lookupItem{cp949: 0xcade, ucs2: 0x8271},
		lookupItem{cp949: 0xcadf, ucs2: 0x8aeb},
		lookupItem{cp949: 0xcae0, ucs2: 0x9593},
		lookupItem{cp949: 0xcae1, ucs2: 0x4e6b},
		lookupItem{cp949: 0xcae2, ucs2: 0x559d},
		lookupItem{cp949: 0xcae3, ucs2: 0x66f7},
		lookupItem{cp949: 0xcae4, ucs2: 0x6e34},
		lookupItem{cp949: 0xcae5, ucs2: 0x78a3},
		lookupItem{cp949: 0xcae6, ucs2: 0x7aed},
		lookupItem{cp949: 0xcae7, ucs2: 0x845b},
		lookupItem{cp949: 0xcae8, ucs2: 0x8910},
		lookupItem{cp949: 0xcae9, ucs2: 0x874e},
		lookupItem{cp949: 0xcaea, ucs2: 0x97a8},
		lookupItem{cp949: 0xcaeb, ucs2: 0x52d8},
		lookupItem{cp949: 0xcaec, ucs2: 0x574e},
		lookupItem{cp949: 0xcaed, ucs2: 0x582a},
		lookupItem{cp949: 0xcaee, ucs2: 0x5d4c},
		lookupItem{cp949: 0xcaef, ucs2: 0x611f},
		lookupItem{cp949: 0xcaf0, ucs2: 0x61be},
		lookupItem{cp949: 0xcaf1, ucs2: 0x6221},
		lookupItem{cp949: 0xcaf2, ucs2: 0x6562},
".
Definition text_cp949_lookup_from_049 : string :=
"		lookupItem{cp949: 0xcaf3, ucs2: 0x67d1},
		lookupItem{cp949: 0xcaf4, ucs2: 0x6a44},
		lookupItem{cp949: 0xcaf5, ucs2: 0x6e1b},
		lookupItem{cp949: 0xcaf6, ucs2: 0x7518},
		lookupItem{cp949: 0xcaf7, ucs2: 0x75b3},
		lookupItem{cp949: 0xcaf8, ucs2: 0x76e3},
		lookupItem{cp949: 0xcaf9, ucs2: 0x77b0},
		lookupItem{cp949: 0xcafa, ucs2: 0x7d3a},
		lookupItem{cp949: 0xcafb, ucs2: 0x90af},
		lookupItem{cp949: 0xcafc, ucs2: 0x9451},
		lookupItem{cp949: 0xcafd, ucs2: 0x9452},
		lookupItem{cp949: 0xcafe, ucs2: 0x9f95},
		lookupItem{cp949: 0xcba1, ucs2: 0x5323},
		lookupItem{cp949: 0xcba2, ucs2: 0x5cac},
		lookupItem{cp949: 0xcba3, ucs2: 0x7532},
		lookupItem{cp949: 0xcba4, ucs2: 0x80db},
		lookupItem{cp949: 0xcba5, ucs2: 0x9240},
		lookupItem{cp949: 0xcba6, ucs2: 0x9598},
		lookupItem{cp949: 0xcba7, ucs2: 0x525b},
		lookupItem{cp949: 0xcba8, ucs2: 0x5808},
		lookupItem{cp949: 0xcba9, ucs2: 0x59dc},
		lookupItem{cp949: 0xcbaa, ucs2: 0x5ca1},
		lookupItem{cp949: 0xcbab, ucs2: 0x5d17},
		lookupItem{cp949: 0xcbac, ucs2: 0x5eb7},
		lookupItem{cp949: 0xcbad, ucs2: 0x5f3a},
		lookupItem{cp949: 0xcbae, ucs2: 0x5f4a},
		lookupItem{cp949: 0xcbaf, ucs2: 0x6177},
		lookupItem{cp949: 0xcbb0, ucs2: 0x6c5f},
		lookupItem{cp949: 0xcbb1, ucs2: 0x757a},
		lookupItem{cp949: 0xcbb2, ucs2: 0x7586},
		lookupItem{cp949: 0xcbb3, ucs2: 0x7ce0},
		lookupItem{cp949: 0xcbb4, ucs2: 0x7d73},
		lookupItem{cp949: 0xcbb5, ucs2: 0x7db1},
		lookupItem{cp949: 0xcbb6, ucs2: 0x7f8c},
		lookupItem{cp949: 0xcbb7, ucs2: 0x8154},
		lookupItem{cp949: 0xcbb8, ucs2: 0x8221},
		lookupItem{cp949: 0xcbb9, ucs2: 0x8591},
		lookupItem{cp949: 0xcbba, ucs2: 0x8941},
		lookupItem{cp949: 0xcbbb, ucs2: 0x8b1b},
		lookupItem{cp949: 0xcbbc, ucs2: 0x92fc},
		lookupItem{cp949: 0xcbbd, ucs2: 0x964d},
		lookupItem{cp949: 0xcbbe, ucs2: 0x9c47},
		lookupItem{cp949: 0xcbbf, ucs2: 0x4ecb},
		lookupItem{cp949: 0xcbc0, ucs2: 0x4ef7},
		lookupItem{cp949: 0xcbc1, ucs2: 0x500b},
		lookupItem{cp949: 0xcbc2, ucs2: 0x51f1},
		lookupItem{cp949: 0xcbc3, ucs2: 0x584f},
		lookupItem{cp949: 0xcbc4, ucs2: 0x6137},
		lookupItem{cp949: 0xcbc5, ucs2: 0x613e},
		lookupItem{cp949: 0xcbc6, ucs2: 0x6168},
		lookupItem{cp949: 0xcbc7, ucs2: 0x6539},
		lookupItem{cp949: 0xcbc8, ucs2: 0x69ea},
		lookupItem{cp949: 0xcbc9, ucs2: 0x6f11},
		lookupItem{cp949: 0xcbca, ucs2: 0x75a5},
		lookupItem{cp949: 0xcbcb, ucs2: 0x7686},
		lookupItem{cp949: 0xcbcc, ucs2: 0x76d6},
		lookupItem{cp949: 0xcbcd, ucs2: 0x7b87},
		lookupItem{cp949: 0xcbce, ucs2: 0x82a5},
		lookupItem{cp949: 0xcbcf, ucs2: 0x84cb},
		lookupItem{cp949: 0xcbd0, ucs2: 0xf900},
		lookupItem{cp949: 0xcbd1, ucs2: 0x93a7},
		lookupItem{cp949: 0xcbd2, ucs2: 0x958b},
		lookupItem{cp949: 0xcbd3, ucs2: 0x5580},
		lookupItem{cp949: 0xcbd4, ucs2: 0x5ba2},
		lookupItem{cp949: 0xcbd5, ucs2: 0x5751},
		lookupItem{cp949: 0xcbd6, ucs2: 0xf901},
		lookupItem{cp949: 0xcbd7, ucs2: 0x7cb3},
		lookupItem{cp949: 0xcbd8, ucs2: 0x7fb9},
		lookupItem{cp949: 0xcbd9, ucs2: 0x91b5},
		lookupItem{cp949: 0xcbda, ucs2: 0x5028},
		lookupItem{cp949: 0xcbdb, ucs2: 0x53bb},
		lookupItem{cp949: 0xcbdc, ucs2: 0x5c45},
		lookupItem{cp949: 0xcbdd, ucs2: 0x5de8},
		lookupItem{cp949: 0xcbde, ucs2: 0x62d2},
		lookupItem{cp949: 0xcbdf, ucs2: 0x636e},
		lookupItem{cp949: 0xcbe0, ucs2: 0x64da},
		lookupItem{cp949: 0xcbe1, ucs2: 0x64e7},
		lookupItem{cp949: 0xcbe2, ucs2: 0x6e20},
		lookupItem{cp949: 0xcbe3, ucs2: 0x70ac},
		lookupItem{cp949: 0xcbe4, ucs2: 0x795b},
		lookupItem{cp949: 0xcbe5, ucs2: 0x8ddd},
		lookupItem{cp949: 0xcbe6, ucs2: 0x8e1e},
		lookupItem{cp949: 0xcbe7, ucs2: 0xf902},
		lookupItem{cp949: 0xcbe8, ucs2: 0x907d},
		lookupItem{cp949: 0xcbe9, ucs2: 0x9245},
		lookupItem{cp949: 0xcbea, ucs2: 0x92f8},
		lookupItem{cp949: 0xcbeb, ucs2: 0x4e7e},
		lookupItem{cp949: 0xcbec, ucs2: 0x4ef6},
		lookupItem{cp949: 0xcbed, ucs2: 0x5065},
		lookupItem{cp949: 0xcbee, ucs2: 0x5dfe},
		lookupItem{cp949: 0xcbef, ucs2: 0x5efa},
		lookupItem{cp949: 0xcbf0, ucs2: 0x6106},
		lookupItem{cp949: 0xcbf1, ucs2: 0x6957},
		lookupItem{cp949: 0xcbf2, ucs2: 0x8171},
		lookupItem{cp949: 0xcbf3, ucs2: 0x8654},
		lookupItem{cp949: 0xcbf4, ucs2: 0x8e47},
		lookupItem{cp949: 0xcbf5, ucs2: 0x9375},
		lookupItem{cp949: 0xcbf6, ucs2: 0x9a2b},
		lookupItem{cp949: 0xcbf7, ucs2: 0x4e5e},
		lookupItem{cp949: 0xcbf8, ucs2: 0x5091},
		lookupItem{cp949: 0xcbf9, ucs2: 0x6770},
		lookupItem{cp949: 0xcbfa, ucs2: 0x6840},
		lookupItem{cp949: 0xcbfb, ucs2: 0x5109},
		lookupItem{cp949: 0xcbfc, ucs2: 0x528d},
		lookupItem{cp949: 0xcbfd, ucs2: 0x5292},
		lookupItem{cp949: 0xcbfe, ucs2: 0x6aa2},
		lookupItem{cp949: 0xcca1, ucs2: 0x77bc},
		lookupItem{cp949: 0xcca2, ucs2: 0x9210},
		lookupItem{cp949: 0xcca3, ucs2: 0x9ed4},
		lookupItem{cp949: 0xcca4, ucs2: 0x52ab},
		lookupItem{cp949: 0xcca5, ucs2: 0x602f},
		lookupItem{cp949: 0xcca6, ucs2: 0x8ff2},
		lookupItem{cp949: 0xcca7, ucs2: 0x5048},
		lookupItem{cp949: 0xcca8, ucs2: 0x61a9},
		lookupItem{cp949: 0xcca9, ucs2: 0x63ed},
		lookupItem{cp949: 0xccaa, ucs2: 0x64ca},
		lookupItem{cp949: 0xccab, ucs2: 0x683c},
		lookupItem{cp949: 0xccac, ucs2: 0x6a84},
		lookupItem{cp949: 0xccad, ucs2: 0x6fc0},
		lookupItem{cp949: 0xccae, ucs2: 0x8188},
		lookupItem{cp949: 0xccaf, ucs2: 0x89a1},
		lookupItem{cp949: 0xccb0, ucs2: 0x9694},
		lookupItem{cp949: 0xccb1, ucs2: 0x5805},
		lookupItem{cp949: 0xccb2, ucs2: 0x727d},
		lookupItem{cp949: 0xccb3, ucs2: 0x72ac},
		lookupItem{cp949: 0xccb4, ucs2: 0x7504},
		lookupItem{cp949: 0xccb5, ucs2: 0x7d79},
		lookupItem{cp949: 0xccb6, ucs2: 0x7e6d},
		lookupItem{cp949: 0xccb7, ucs2: 0x80a9},
		lookupItem{cp949: 0xccb8, ucs2: 0x898b},
		lookupItem{cp949: 0xccb9, ucs2: 0x8b74},
		lookupItem{cp949: 0xccba, ucs2: 0x9063},
		lookupItem{cp949: 0xccbb, ucs2: 0x9d51},
		lookupItem{cp949: 0xccbc, ucs2: 0x6289},
		lookupItem{cp949: 0xccbd, ucs2: 0x6c7a},
		lookupItem{cp949: 0xccbe, ucs2: 0x6f54},
		lookupItem{cp949: 0xccbf, ucs2: 0x7d50},
		lookupItem{cp949: 0xccc0, ucs2: 0x7f3a},
		lookupItem{cp949: 0xccc1, ucs2: 0x8a23},
		lookupItem{cp949: 0xccc2, ucs2: 0x517c},
		lookupItem{cp949: 0xccc3, ucs2: 0x614a},
		lookupItem{cp949: 0xccc4, ucs2: 0x7b9d},
		lookupItem{cp949: 0xccc5, ucs2: 0x8b19},
		lookupItem{cp949: 0xccc6, ucs2: 0x9257},
		lookupItem{cp949: 0xccc7, ucs2: 0x938c},
		lookupItem{cp949: 0xccc8, ucs2: 0x4eac},
		lookupItem{cp949: 0xccc9, ucs2: 0x4fd3},
		lookupItem{cp949: 0xccca, ucs2: 0x501e},
		lookupItem{cp949: 0xcccb, ucs2: 0x50be},
		lookupItem{cp949: 0xcccc, ucs2: 0x5106},
		lookupItem{cp949: 0xcccd, ucs2: 0x52c1},
		lookupItem{cp949: 0xccce, ucs2: 0x52cd},
		lookupItem{cp949: 0xcccf, ucs2: 0x537f},
		lookupItem{cp949: 0xccd0, ucs2: 0x5770},
		lookupItem{cp949: 0xccd1, ucs2: 0x5883},
		lookupItem{cp949: 0xccd2, ucs2: 0x5e9a},
		lookupItem{cp949: 0xccd3, ucs2: 0x5f91},
		lookupItem{cp949: 0xccd4, ucs2: 0x6176},
		lookupItem{cp949: 0xccd5, ucs2: 0x61ac},
		lookupItem{cp949: 0xccd6, ucs2: 0x64ce},
		lookupItem{cp949: 0xccd7, ucs2: 0x656c},
		lookupItem{cp949: 0xccd8, ucs2: 0x666f},
		lookupItem{cp949: 0xccd9, ucs2: 0x66bb},
		lookupItem{cp949: 0xccda, ucs2: 0x66f4},
		lookupItem{cp949: 0xccdb, ucs2: 0x6897},
		lookupItem{cp949: 0xccdc, ucs2: 0x6d87},
		lookupItem{cp949: 0xccdd, ucs2: 0x7085},
		lookupItem{cp949: 0xccde, ucs2: 0x70f1},
		lookupItem{cp949: 0xccdf, ucs2: 0x749f},
		lookupItem{cp949: 0xcce0, ucs2: 0x74a5},
		lookupItem{cp949: 0xcce1, ucs2: 0x74ca},
		lookupItem{cp949: 0xcce2, ucs2: 0x75d9},
		lookupItem{cp949: 0xcce3, ucs2: 0x786c},
		lookupItem{cp949: 0xcce4, ucs2: 0x78ec},
		lookupItem{cp949: 0xcce5, ucs2: 0x7adf},
		lookupItem{cp949: 0xcce6, ucs2: 0x7af6},
		lookupItem{cp949: 0xcce7, ucs2: 0x7d45},
		lookupItem{cp949: 0xcce8, ucs2: 0x7d93},
		lookupItem{cp949: 0xcce9, ucs2: 0x8015},
		lookupItem{cp949: 0xccea, ucs2: 0x803f},
		lookupItem{cp949: 0xcceb, ucs2: 0x811b},
		lookupItem{cp949: 0xccec, ucs2: 0x8396},
		lookupItem{cp949: 0xcced, ucs2: 0x8b66},
		lookupItem{cp949: 0xccee, ucs2: 0x8f15},
		lookupItem{cp949: 0xccef, ucs2: 0x9015},
		lookupItem{cp949: 0xccf0, ucs2: 0x93e1},
		lookupItem{cp949: 0xccf1, ucs2: 0x9803},
		lookupItem{cp949: 0xccf2, ucs2: 0x9838},
		lookupItem{cp949: 0xccf3, ucs2: 0x9a5a},
		lookupItem{cp949: 0xccf4, ucs2: 0x9be8},
		lookupItem{cp949: 0xccf5, ucs2: 0x4fc2},
		lookupItem{cp949: 0xccf6, ucs2: 0x5553},
		lookupItem{cp949: 0xccf7, ucs2: 0x583a},
		lookupItem{cp949: 0xccf8, ucs2: 0x5951},
		lookupItem{cp949: 0xccf9, ucs2: 0x5b63},
		lookupItem{cp949: 0xccfa, ucs2: 0x5c46},
		lookupItem{cp949: 0xccfb, ucs2: 0x60b8},
		lookupItem{cp949: 0xccfc, ucs2: 0x6212},
		lookupItem{cp949: 0xccfd, ucs2: 0x6842},
		lookupItem{cp949: 0xccfe, ucs2: 0x68b0},
		lookupItem{cp949: 0xcda1, ucs2: 0x68e8},
		lookupItem{cp949: 0xcda2, ucs2: 0x6eaa},
		lookupItem{cp949: 0xcda3, ucs2: 0x754c},
		lookupItem{cp949: 0xcda4, ucs2: 0x7678},
		lookupItem{cp949: 0xcda5, ucs2: 0x78ce},
		lookupItem{cp949: 0xcda6, ucs2: 0x7a3d},
		lookupItem{cp949: 0xcda7, ucs2: 0x7cfb},
		lookupItem{cp949: 0xcda8, ucs2: 0x7e6b},
		lookupItem{cp949: 0xcda9, ucs2: 0x7e7c},
		lookupItem{cp949: 0xcdaa, ucs2: 0x8a08},
		lookupItem{cp949: 0xcdab, ucs2: 0x8aa1},
		lookupItem{cp949: 0xcdac, ucs2: 0x8c3f},
		lookupItem{cp949: 0xcdad, ucs2: 0x968e},
		lookupItem{cp949: 0xcdae, ucs2: 0x9dc4},
		lookupItem{cp949: 0xcdaf, ucs2: 0x53e4},
		lookupItem{cp949: 0xcdb0, ucs2: 0x53e9},
		lookupItem{cp949: 0xcdb1, ucs2: 0x544a},
		lookupItem{cp949: 0xcdb2, ucs2: 0x5471},
		lookupItem{cp949: 0xcdb3, ucs2: 0x56fa},
		lookupItem{cp949: 0xcdb4, ucs2: 0x59d1},
		lookupItem{cp949: 0xcdb5, ucs2: 0x5b64},
		lookupItem{cp949: 0xcdb6, ucs2: 0x5c3b},
		lookupItem{cp949: 0xcdb7, ucs2: 0x5eab},
		lookupItem{cp949: 0xcdb8, ucs2: 0x62f7},
		lookupItem{cp949: 0xcdb9, ucs2: 0x6537},
		lookupItem{cp949: 0xcdba, ucs2: 0x6545},
		lookupItem{cp949: 0xcdbb, ucs2: 0x6572},
		lookupItem{cp949: 0xcdbc, ucs2: 0x66a0},
		lookupItem{cp949: 0xcdbd, ucs2: 0x67af},
		lookupItem{cp949: 0xcdbe, ucs2: 0x69c1},
		lookupItem{cp949: 0xcdbf, ucs2: 0x6cbd},
		lookupItem{cp949: 0xcdc0, ucs2: 0x75fc},
		lookupItem{cp949: 0xcdc1, ucs2: 0x7690},
		lookupItem{cp949: 0xcdc2, ucs2: 0x777e},
		lookupItem{cp949: 0xcdc3, ucs2: 0x7a3f},
		lookupItem{cp949: 0xcdc4, ucs2: 0x7f94},
		lookupItem{cp949: 0xcdc5, ucs2: 0x8003},
		lookupItem{cp949: 0xcdc6, ucs2: 0x80a1},
		lookupItem{cp949: 0xcdc7, ucs2: 0x818f},
		lookupItem{cp949: 0xcdc8, ucs2: 0x82e6},
		lookupItem{cp949: 0xcdc9, ucs2: 0x82fd},
		lookupItem{cp949: 0xcdca, ucs2: 0x83f0},
		lookupItem{cp949: 0xcdcb, ucs2: 0x85c1},
		lookupItem{cp949: 0xcdcc, ucs2: 0x8831},
		lookupItem{cp949: 0xcdcd, ucs2: 0x88b4},
		lookupItem{cp949: 0xcdce, ucs2: 0x8aa5},
		lookupItem{cp949: 0xcdcf, ucs2: 0xf903},
		lookupItem{cp949: 0xcdd0, ucs2: 0x8f9c},
		lookupItem{cp949: 0xcdd1, ucs2: 0x932e},
		lookupItem{cp949: 0xcdd2, ucs2: 0x96c7},
".
Definition text_cp949_lookup_from_050 : string :=
"		lookupItem{cp949: 0xcdd3, ucs2: 0x9867},
		lookupItem{cp949: 0xcdd4, ucs2: 0x9ad8},
		lookupItem{cp949: 0xcdd5, ucs2: 0x9f13},
		lookupItem{cp949: 0xcdd6, ucs2: 0x54ed},
		lookupItem{cp949: 0xcdd7, ucs2: 0x659b},
		lookupItem{cp949: 0xcdd8, ucs2: 0x66f2},
		lookupItem{cp949: 0xcdd9, ucs2: 0x688f},
		lookupItem{cp949: 0xcdda, ucs2: 0x7a40},
		lookupItem{cp949: 0xcddb, ucs2: 0x8c37},
		lookupItem{cp949: 0xcddc, ucs2: 0x9d60},
		lookupItem{cp949: 0xcddd, ucs2: 0x56f0},
		lookupItem{cp949: 0xcdde, ucs2: 0x5764},
		lookupItem{cp949: 0xcddf, ucs2: 0x5d11},
		lookupItem{cp949: 0xcde0, ucs2: 0x6606},
		lookupItem{cp949: 0xcde1, ucs2: 0x68b1},
		lookupItem{cp949: 0xcde2, ucs2: 0x68cd},
		lookupItem{cp949: 0xcde3, ucs2: 0x6efe},
		lookupItem{cp949: 0xcde4, ucs2: 0x7428},
		lookupItem{cp949: 0xcde5, ucs2: 0x889e},
		lookupItem{cp949: 0xcde6, ucs2: 0x9be4},
		lookupItem{cp949: 0xcde7, ucs2: 0x6c68},
		lookupItem{cp949: 0xcde8, ucs2: 0xf904},
		lookupItem{cp949: 0xcde9, ucs2: 0x9aa8},
		lookupItem{cp949: 0xcdea, ucs2: 0x4f9b},
		lookupItem{cp949: 0xcdeb, ucs2: 0x516c},
		lookupItem{cp949: 0xcdec, ucs2: 0x5171},
		lookupItem{cp949: 0xcded, ucs2: 0x529f},
		lookupItem{cp949: 0xcdee, ucs2: 0x5b54},
		lookupItem{cp949: 0xcdef, ucs2: 0x5de5},
		lookupItem{cp949: 0xcdf0, ucs2: 0x6050},
		lookupItem{cp949: 0xcdf1, ucs2: 0x606d},
		lookupItem{cp949: 0xcdf2, ucs2: 0x62f1},
		lookupItem{cp949: 0xcdf3, ucs2: 0x63a7},
		lookupItem{cp949: 0xcdf4, ucs2: 0x653b},
		lookupItem{cp949: 0xcdf5, ucs2: 0x73d9},
		lookupItem{cp949: 0xcdf6, ucs2: 0x7a7a},
		lookupItem{cp949: 0xcdf7, ucs2: 0x86a3},
		lookupItem{cp949: 0xcdf8, ucs2: 0x8ca2},
		lookupItem{cp949: 0xcdf9, ucs2: 0x978f},
		lookupItem{cp949: 0xcdfa, ucs2: 0x4e32},
		lookupItem{cp949: 0xcdfb, ucs2: 0x5be1},
		lookupItem{cp949: 0xcdfc, ucs2: 0x6208},
		lookupItem{cp949: 0xcdfd, ucs2: 0x679c},
		lookupItem{cp949: 0xcdfe, ucs2: 0x74dc},
		lookupItem{cp949: 0xcea1, ucs2: 0x79d1},
		lookupItem{cp949: 0xcea2, ucs2: 0x83d3},
		lookupItem{cp949: 0xcea3, ucs2: 0x8a87},
		lookupItem{cp949: 0xcea4, ucs2: 0x8ab2},
		lookupItem{cp949: 0xcea5, ucs2: 0x8de8},
		lookupItem{cp949: 0xcea6, ucs2: 0x904e},
		lookupItem{cp949: 0xcea7, ucs2: 0x934b},
		lookupItem{cp949: 0xcea8, ucs2: 0x9846},
		lookupItem{cp949: 0xcea9, ucs2: 0x5ed3},
		lookupItem{cp949: 0xceaa, ucs2: 0x69e8},
		lookupItem{cp949: 0xceab, ucs2: 0x85ff},
		lookupItem{cp949: 0xceac, ucs2: 0x90ed},
		lookupItem{cp949: 0xcead, ucs2: 0xf905},
		lookupItem{cp949: 0xceae, ucs2: 0x51a0},
		lookupItem{cp949: 0xceaf, ucs2: 0x5b98},
		lookupItem{cp949: 0xceb0, ucs2: 0x5bec},
		lookupItem{cp949: 0xceb1, ucs2: 0x6163},
		lookupItem{cp949: 0xceb2, ucs2: 0x68fa},
		lookupItem{cp949: 0xceb3, ucs2: 0x6b3e},
		lookupItem{cp949: 0xceb4, ucs2: 0x704c},
		lookupItem{cp949: 0xceb5, ucs2: 0x742f},
		lookupItem{cp949: 0xceb6, ucs2: 0x74d8},
		lookupItem{cp949: 0xceb7, ucs2: 0x7ba1},
		lookupItem{cp949: 0xceb8, ucs2: 0x7f50},
		lookupItem{cp949: 0xceb9, ucs2: 0x83c5},
		lookupItem{cp949: 0xceba, ucs2: 0x89c0},
		lookupItem{cp949: 0xcebb, ucs2: 0x8cab},
		lookupItem{cp949: 0xcebc, ucs2: 0x95dc},
		lookupItem{cp949: 0xcebd, ucs2: 0x9928},
		lookupItem{cp949: 0xcebe, ucs2: 0x522e},
		lookupItem{cp949: 0xcebf, ucs2: 0x605d},
		lookupItem{cp949: 0xcec0, ucs2: 0x62ec},
		lookupItem{cp949: 0xcec1, ucs2: 0x9002},
		lookupItem{cp949: 0xcec2, ucs2: 0x4f8a},
		lookupItem{cp949: 0xcec3, ucs2: 0x5149},
		lookupItem{cp949: 0xcec4, ucs2: 0x5321},
		lookupItem{cp949: 0xcec5, ucs2: 0x58d9},
		lookupItem{cp949: 0xcec6, ucs2: 0x5ee3},
		lookupItem{cp949: 0xcec7, ucs2: 0x66e0},
		lookupItem{cp949: 0xcec8, ucs2: 0x6d38},
		lookupItem{cp949: 0xcec9, ucs2: 0x709a},
		lookupItem{cp949: 0xceca, ucs2: 0x72c2},
		lookupItem{cp949: 0xcecb, ucs2: 0x73d6},
		lookupItem{cp949: 0xcecc, ucs2: 0x7b50},
		lookupItem{cp949: 0xcecd, ucs2: 0x80f1},
		lookupItem{cp949: 0xcece, ucs2: 0x945b},
		lookupItem{cp949: 0xcecf, ucs2: 0x5366},
		lookupItem{cp949: 0xced0, ucs2: 0x639b},
		lookupItem{cp949: 0xced1, ucs2: 0x7f6b},
		lookupItem{cp949: 0xced2, ucs2: 0x4e56},
		lookupItem{cp949: 0xced3, ucs2: 0x5080},
		lookupItem{cp949: 0xced4, ucs2: 0x584a},
		lookupItem{cp949: 0xced5, ucs2: 0x58de},
		lookupItem{cp949: 0xced6, ucs2: 0x602a},
		lookupItem{cp949: 0xced7, ucs2: 0x6127},
		lookupItem{cp949: 0xced8, ucs2: 0x62d0},
		lookupItem{cp949: 0xced9, ucs2: 0x69d0},
		lookupItem{cp949: 0xceda, ucs2: 0x9b41},
		lookupItem{cp949: 0xcedb, ucs2: 0x5b8f},
		lookupItem{cp949: 0xcedc, ucs2: 0x7d18},
		lookupItem{cp949: 0xcedd, ucs2: 0x80b1},
		lookupItem{cp949: 0xcede, ucs2: 0x8f5f},
		lookupItem{cp949: 0xcedf, ucs2: 0x4ea4},
		lookupItem{cp949: 0xcee0, ucs2: 0x50d1},
		lookupItem{cp949: 0xcee1, ucs2: 0x54ac},
		lookupItem{cp949: 0xcee2, ucs2: 0x55ac},
		lookupItem{cp949: 0xcee3, ucs2: 0x5b0c},
		lookupItem{cp949: 0xcee4, ucs2: 0x5da0},
		lookupItem{cp949: 0xcee5, ucs2: 0x5de7},
		lookupItem{cp949: 0xcee6, ucs2: 0x652a},
		lookupItem{cp949: 0xcee7, ucs2: 0x654e},
		lookupItem{cp949: 0xcee8, ucs2: 0x6821},
		lookupItem{cp949: 0xcee9, ucs2: 0x6a4b},
		lookupItem{cp949: 0xceea, ucs2: 0x72e1},
		lookupItem{cp949: 0xceeb, ucs2: 0x768e},
		lookupItem{cp949: 0xceec, ucs2: 0x77ef},
		lookupItem{cp949: 0xceed, ucs2: 0x7d5e},
		lookupItem{cp949: 0xceee, ucs2: 0x7ff9},
		lookupItem{cp949: 0xceef, ucs2: 0x81a0},
		lookupItem{cp949: 0xcef0, ucs2: 0x854e},
		lookupItem{cp949: 0xcef1, ucs2: 0x86df},
		lookupItem{cp949: 0xcef2, ucs2: 0x8f03},
		lookupItem{cp949: 0xcef3, ucs2: 0x8f4e},
		lookupItem{cp949: 0xcef4, ucs2: 0x90ca},
		lookupItem{cp949: 0xcef5, ucs2: 0x9903},
		lookupItem{cp949: 0xcef6, ucs2: 0x9a55},
		lookupItem{cp949: 0xcef7, ucs2: 0x9bab},
		lookupItem{cp949: 0xcef8, ucs2: 0x4e18},
		lookupItem{cp949: 0xcef9, ucs2: 0x4e45},
		lookupItem{cp949: 0xcefa, ucs2: 0x4e5d},
		lookupItem{cp949: 0xcefb, ucs2: 0x4ec7},
		lookupItem{cp949: 0xcefc, ucs2: 0x4ff1},
		lookupItem{cp949: 0xcefd, ucs2: 0x5177},
		lookupItem{cp949: 0xcefe, ucs2: 0x52fe},
		lookupItem{cp949: 0xcfa1, ucs2: 0x5340},
		lookupItem{cp949: 0xcfa2, ucs2: 0x53e3},
		lookupItem{cp949: 0xcfa3, ucs2: 0x53e5},
		lookupItem{cp949: 0xcfa4, ucs2: 0x548e},
		lookupItem{cp949: 0xcfa5, ucs2: 0x5614},
		lookupItem{cp949: 0xcfa6, ucs2: 0x5775},
		lookupItem{cp949: 0xcfa7, ucs2: 0x57a2},
		lookupItem{cp949: 0xcfa8, ucs2: 0x5bc7},
		lookupItem{cp949: 0xcfa9, ucs2: 0x5d87},
		lookupItem{cp949: 0xcfaa, ucs2: 0x5ed0},
		lookupItem{cp949: 0xcfab, ucs2: 0x61fc},
		lookupItem{cp949: 0xcfac, ucs2: 0x62d8},
		lookupItem{cp949: 0xcfad, ucs2: 0x6551},
		lookupItem{cp949: 0xcfae, ucs2: 0x67b8},
		lookupItem{cp949: 0xcfaf, ucs2: 0x67e9},
		lookupItem{cp949: 0xcfb0, ucs2: 0x69cb},
		lookupItem{cp949: 0xcfb1, ucs2: 0x6b50},
		lookupItem{cp949: 0xcfb2, ucs2: 0x6bc6},
		lookupItem{cp949: 0xcfb3, ucs2: 0x6bec},
		lookupItem{cp949: 0xcfb4, ucs2: 0x6c42},
		lookupItem{cp949: 0xcfb5, ucs2: 0x6e9d},
		lookupItem{cp949: 0xcfb6, ucs2: 0x7078},
		lookupItem{cp949: 0xcfb7, ucs2: 0x72d7},
		lookupItem{cp949: 0xcfb8, ucs2: 0x7396},
		lookupItem{cp949: 0xcfb9, ucs2: 0x7403},
		lookupItem{cp949: 0xcfba, ucs2: 0x77bf},
		lookupItem{cp949: 0xcfbb, ucs2: 0x77e9},
		lookupItem{cp949: 0xcfbc, ucs2: 0x7a76},
		lookupItem{cp949: 0xcfbd, ucs2: 0x7d7f},
		lookupItem{cp949: 0xcfbe, ucs2: 0x8009},
		lookupItem{cp949: 0xcfbf, ucs2: 0x81fc},
		lookupItem{cp949: 0xcfc0, ucs2: 0x8205},
		lookupItem{cp949: 0xcfc1, ucs2: 0x820a},
		lookupItem{cp949: 0xcfc2, ucs2: 0x82df},
		lookupItem{cp949: 0xcfc3, ucs2: 0x8862},
		lookupItem{cp949: 0xcfc4, ucs2: 0x8b33},
		lookupItem{cp949: 0xcfc5, ucs2: 0x8cfc},
		lookupItem{cp949: 0xcfc6, ucs2: 0x8ec0},
		lookupItem{cp949: 0xcfc7, ucs2: 0x9011},
		lookupItem{cp949: 0xcfc8, ucs2: 0x90b1},
		lookupItem{cp949: 0xcfc9, ucs2: 0x9264},
		lookupItem{cp949: 0xcfca, ucs2: 0x92b6},
		lookupItem{cp949: 0xcfcb, ucs2: 0x99d2},
		lookupItem{cp949: 0xcfcc, ucs2: 0x9a45},
		lookupItem{cp949: 0xcfcd, ucs2: 0x9ce9},
		lookupItem{cp949: 0xcfce, ucs2: 0x9dd7},
		lookupItem{cp949: 0xcfcf, ucs2: 0x9f9c},
		lookupItem{cp949: 0xcfd0, ucs2: 0x570b},
		lookupItem{cp949: 0xcfd1, ucs2: 0x5c40},
		lookupItem{cp949: 0xcfd2, ucs2: 0x83ca},
		lookupItem{cp949: 0xcfd3, ucs2: 0x97a0},
		lookupItem{cp949: 0xcfd4, ucs2: 0x97ab},
		lookupItem{cp949: 0xcfd5, ucs2: 0x9eb4},
		lookupItem{cp949: 0xcfd6, ucs2: 0x541b},
		lookupItem{cp949: 0xcfd7, ucs2: 0x7a98},
		lookupItem{cp949: 0xcfd8, ucs2: 0x7fa4},
		lookupItem{cp949: 0xcfd9, ucs2: 0x88d9},
		lookupItem{cp949: 0xcfda, ucs2: 0x8ecd},
		lookupItem{cp949: 0xcfdb, ucs2: 0x90e1},
		lookupItem{cp949: 0xcfdc, ucs2: 0x5800},
		lookupItem{cp949: 0xcfdd, ucs2: 0x5c48},
		lookupItem{cp949: 0xcfde, ucs2: 0x6398},
		lookupItem{cp949: 0xcfdf, ucs2: 0x7a9f},
		lookupItem{cp949: 0xcfe0, ucs2: 0x5bae},
		lookupItem{cp949: 0xcfe1, ucs2: 0x5f13},
		lookupItem{cp949: 0xcfe2, ucs2: 0x7a79},
		lookupItem{cp949: 0xcfe3, ucs2: 0x7aae},
		lookupItem{cp949: 0xcfe4, ucs2: 0x828e},
		lookupItem{cp949: 0xcfe5, ucs2: 0x8eac},
		lookupItem{cp949: 0xcfe6, ucs2: 0x5026},
		lookupItem{cp949: 0xcfe7, ucs2: 0x5238},
		lookupItem{cp949: 0xcfe8, ucs2: 0x52f8},
		lookupItem{cp949: 0xcfe9, ucs2: 0x5377},
		lookupItem{cp949: 0xcfea, ucs2: 0x5708},
		lookupItem{cp949: 0xcfeb, ucs2: 0x62f3},
		lookupItem{cp949: 0xcfec, ucs2: 0x6372},
		lookupItem{cp949: 0xcfed, ucs2: 0x6b0a},
		lookupItem{cp949: 0xcfee, ucs2: 0x6dc3},
		lookupItem{cp949: 0xcfef, ucs2: 0x7737},
		lookupItem{cp949: 0xcff0, ucs2: 0x53a5},
		lookupItem{cp949: 0xcff1, ucs2: 0x7357},
		lookupItem{cp949: 0xcff2, ucs2: 0x8568},
		lookupItem{cp949: 0xcff3, ucs2: 0x8e76},
		lookupItem{cp949: 0xcff4, ucs2: 0x95d5},
		lookupItem{cp949: 0xcff5, ucs2: 0x673a},
		lookupItem{cp949: 0xcff6, ucs2: 0x6ac3},
		lookupItem{cp949: 0xcff7, ucs2: 0x6f70},
		lookupItem{cp949: 0xcff8, ucs2: 0x8a6d},
		lookupItem{cp949: 0xcff9, ucs2: 0x8ecc},
		lookupItem{cp949: 0xcffa, ucs2: 0x994b},
		lookupItem{cp949: 0xcffb, ucs2: 0xf906},
		lookupItem{cp949: 0xcffc, ucs2: 0x6677},
		lookupItem{cp949: 0xcffd, ucs2: 0x6b78},
		lookupItem{cp949: 0xcffe, ucs2: 0x8cb4},
		lookupItem{cp949: 0xd0a1, ucs2: 0x9b3c},
		lookupItem{cp949: 0xd0a2, ucs2: 0xf907},
		lookupItem{cp949: 0xd0a3, ucs2: 0x53eb},
		lookupItem{cp949: 0xd0a4, ucs2: 0x572d},
		lookupItem{cp949: 0xd0a5, ucs2: 0x594e},
		lookupItem{cp949: 0xd0a6, ucs2: 0x63c6},
		lookupItem{cp949: 0xd0a7, ucs2: 0x69fb},
		lookupItem{cp949: 0xd0a8, ucs2: 0x73ea},
		lookupItem{cp949: 0xd0a9, ucs2: 0x7845},
		lookupItem{cp949: 0xd0aa, ucs2: 0x7aba},
		lookupItem{cp949: 0xd0ab, ucs2: 0x7ac5},
		lookupItem{cp949: 0xd0ac, ucs2: 0x7cfe},
		lookupItem{cp949: 0xd0ad, ucs2: 0x8475},
		lookupItem{cp949: 0xd0ae, ucs2: 0x898f},
		lookupItem{cp949: 0xd0af, ucs2: 0x8d73},
		lookupItem{cp949: 0xd0b0, ucs2: 0x9035},
		lookupItem{cp949: 0xd0b1, ucs2: 0x95a8},
		lookupItem{cp949: 0xd0b2, ucs2: 0x52fb},
".
Definition text_cp949_lookup_from_051 : string :=
"		lookupItem{cp949: 0xd0b3, ucs2: 0x5747},
		lookupItem{cp949: 0xd0b4, ucs2: 0x7547},
		lookupItem{cp949: 0xd0b5, ucs2: 0x7b60},
		lookupItem{cp949: 0xd0b6, ucs2: 0x83cc},
		lookupItem{cp949: 0xd0b7, ucs2: 0x921e},
		lookupItem{cp949: 0xd0b8, ucs2: 0xf908},
		lookupItem{cp949: 0xd0b9, ucs2: 0x6a58},
		lookupItem{cp949: 0xd0ba, ucs2: 0x514b},
		lookupItem{cp949: 0xd0bb, ucs2: 0x524b},
		lookupItem{cp949: 0xd0bc, ucs2: 0x5287},
		lookupItem{cp949: 0xd0bd, ucs2: 0x621f},
		lookupItem{cp949: 0xd0be, ucs2: 0x68d8},
		lookupItem{cp949: 0xd0bf, ucs2: 0x6975},
		lookupItem{cp949: 0xd0c0, ucs2: 0x9699},
		lookupItem{cp949: 0xd0c1, ucs2: 0x50c5},
		lookupItem{cp949: 0xd0c2, ucs2: 0x52a4},
		lookupItem{cp949: 0xd0c3, ucs2: 0x52e4},
		lookupItem{cp949: 0xd0c4, ucs2: 0x61c3},
		lookupItem{cp949: 0xd0c5, ucs2: 0x65a4},
		lookupItem{cp949: 0xd0c6, ucs2: 0x6839},
		lookupItem{cp949: 0xd0c7, ucs2: 0x69ff},
		lookupItem{cp949: 0xd0c8, ucs2: 0x747e},
		lookupItem{cp949: 0xd0c9, ucs2: 0x7b4b},
		lookupItem{cp949: 0xd0ca, ucs2: 0x82b9},
		lookupItem{cp949: 0xd0cb, ucs2: 0x83eb},
		lookupItem{cp949: 0xd0cc, ucs2: 0x89b2},
		lookupItem{cp949: 0xd0cd, ucs2: 0x8b39},
		lookupItem{cp949: 0xd0ce, ucs2: 0x8fd1},
		lookupItem{cp949: 0xd0cf, ucs2: 0x9949},
		lookupItem{cp949: 0xd0d0, ucs2: 0xf909},
		lookupItem{cp949: 0xd0d1, ucs2: 0x4eca},
		lookupItem{cp949: 0xd0d2, ucs2: 0x5997},
		lookupItem{cp949: 0xd0d3, ucs2: 0x64d2},
		lookupItem{cp949: 0xd0d4, ucs2: 0x6611},
		lookupItem{cp949: 0xd0d5, ucs2: 0x6a8e},
		lookupItem{cp949: 0xd0d6, ucs2: 0x7434},
		lookupItem{cp949: 0xd0d7, ucs2: 0x7981},
		lookupItem{cp949: 0xd0d8, ucs2: 0x79bd},
		lookupItem{cp949: 0xd0d9, ucs2: 0x82a9},
		lookupItem{cp949: 0xd0da, ucs2: 0x887e},
		lookupItem{cp949: 0xd0db, ucs2: 0x887f},
		lookupItem{cp949: 0xd0dc, ucs2: 0x895f},
		lookupItem{cp949: 0xd0dd, ucs2: 0xf90a},
		lookupItem{cp949: 0xd0de, ucs2: 0x9326},
		lookupItem{cp949: 0xd0df, ucs2: 0x4f0b},
		lookupItem{cp949: 0xd0e0, ucs2: 0x53ca},
		lookupItem{cp949: 0xd0e1, ucs2: 0x6025},
		lookupItem{cp949: 0xd0e2, ucs2: 0x6271},
		lookupItem{cp949: 0xd0e3, ucs2: 0x6c72},
		lookupItem{cp949: 0xd0e4, ucs2: 0x7d1a},
		lookupItem{cp949: 0xd0e5, ucs2: 0x7d66},
		lookupItem{cp949: 0xd0e6, ucs2: 0x4e98},
		lookupItem{cp949: 0xd0e7, ucs2: 0x5162},
		lookupItem{cp949: 0xd0e8, ucs2: 0x77dc},
		lookupItem{cp949: 0xd0e9, ucs2: 0x80af},
		lookupItem{cp949: 0xd0ea, ucs2: 0x4f01},
		lookupItem{cp949: 0xd0eb, ucs2: 0x4f0e},
		lookupItem{cp949: 0xd0ec, ucs2: 0x5176},
		lookupItem{cp949: 0xd0ed, ucs2: 0x5180},
		lookupItem{cp949: 0xd0ee, ucs2: 0x55dc},
		lookupItem{cp949: 0xd0ef, ucs2: 0x5668},
		lookupItem{cp949: 0xd0f0, ucs2: 0x573b},
		lookupItem{cp949: 0xd0f1, ucs2: 0x57fa},
		lookupItem{cp949: 0xd0f2, ucs2: 0x57fc},
		lookupItem{cp949: 0xd0f3, ucs2: 0x5914},
		lookupItem{cp949: 0xd0f4, ucs2: 0x5947},
		lookupItem{cp949: 0xd0f5, ucs2: 0x5993},
		lookupItem{cp949: 0xd0f6, ucs2: 0x5bc4},
		lookupItem{cp949: 0xd0f7, ucs2: 0x5c90},
		lookupItem{cp949: 0xd0f8, ucs2: 0x5d0e},
		lookupItem{cp949: 0xd0f9, ucs2: 0x5df1},
		lookupItem{cp949: 0xd0fa, ucs2: 0x5e7e},
		lookupItem{cp949: 0xd0fb, ucs2: 0x5fcc},
		lookupItem{cp949: 0xd0fc, ucs2: 0x6280},
		lookupItem{cp949: 0xd0fd, ucs2: 0x65d7},
		lookupItem{cp949: 0xd0fe, ucs2: 0x65e3},
		lookupItem{cp949: 0xd1a1, ucs2: 0x671e},
		lookupItem{cp949: 0xd1a2, ucs2: 0x671f},
		lookupItem{cp949: 0xd1a3, ucs2: 0x675e},
		lookupItem{cp949: 0xd1a4, ucs2: 0x68cb},
		lookupItem{cp949: 0xd1a5, ucs2: 0x68c4},
		lookupItem{cp949: 0xd1a6, ucs2: 0x6a5f},
		lookupItem{cp949: 0xd1a7, ucs2: 0x6b3a},
		lookupItem{cp949: 0xd1a8, ucs2: 0x6c23},
		lookupItem{cp949: 0xd1a9, ucs2: 0x6c7d},
		lookupItem{cp949: 0xd1aa, ucs2: 0x6c82},
		lookupItem{cp949: 0xd1ab, ucs2: 0x6dc7},
		lookupItem{cp949: 0xd1ac, ucs2: 0x7398},
		lookupItem{cp949: 0xd1ad, ucs2: 0x7426},
		lookupItem{cp949: 0xd1ae, ucs2: 0x742a},
		lookupItem{cp949: 0xd1af, ucs2: 0x7482},
		lookupItem{cp949: 0xd1b0, ucs2: 0x74a3},
		lookupItem{cp949: 0xd1b1, ucs2: 0x7578},
		lookupItem{cp949: 0xd1b2, ucs2: 0x757f},
		lookupItem{cp949: 0xd1b3, ucs2: 0x7881},
		lookupItem{cp949: 0xd1b4, ucs2: 0x78ef},
		lookupItem{cp949: 0xd1b5, ucs2: 0x7941},
		lookupItem{cp949: 0xd1b6, ucs2: 0x7947},
		lookupItem{cp949: 0xd1b7, ucs2: 0x7948},
		lookupItem{cp949: 0xd1b8, ucs2: 0x797a},
		lookupItem{cp949: 0xd1b9, ucs2: 0x7b95},
		lookupItem{cp949: 0xd1ba, ucs2: 0x7d00},
		lookupItem{cp949: 0xd1bb, ucs2: 0x7dba},
		lookupItem{cp949: 0xd1bc, ucs2: 0x7f88},
		lookupItem{cp949: 0xd1bd, ucs2: 0x8006},
		lookupItem{cp949: 0xd1be, ucs2: 0x802d},
		lookupItem{cp949: 0xd1bf, ucs2: 0x808c},
		lookupItem{cp949: 0xd1c0, ucs2: 0x8a18},
		lookupItem{cp949: 0xd1c1, ucs2: 0x8b4f},
		lookupItem{cp949: 0xd1c2, ucs2: 0x8c48},
		lookupItem{cp949: 0xd1c3, ucs2: 0x8d77},
		lookupItem{cp949: 0xd1c4, ucs2: 0x9321},
		lookupItem{cp949: 0xd1c5, ucs2: 0x9324},
		lookupItem{cp949: 0xd1c6, ucs2: 0x98e2},
		lookupItem{cp949: 0xd1c7, ucs2: 0x9951},
		lookupItem{cp949: 0xd1c8, ucs2: 0x9a0e},
		lookupItem{cp949: 0xd1c9, ucs2: 0x9a0f},
		lookupItem{cp949: 0xd1ca, ucs2: 0x9a65},
		lookupItem{cp949: 0xd1cb, ucs2: 0x9e92},
		lookupItem{cp949: 0xd1cc, ucs2: 0x7dca},
		lookupItem{cp949: 0xd1cd, ucs2: 0x4f76},
		lookupItem{cp949: 0xd1ce, ucs2: 0x5409},
		lookupItem{cp949: 0xd1cf, ucs2: 0x62ee},
		lookupItem{cp949: 0xd1d0, ucs2: 0x6854},
		lookupItem{cp949: 0xd1d1, ucs2: 0x91d1},
		lookupItem{cp949: 0xd1d2, ucs2: 0x55ab},
		lookupItem{cp949: 0xd1d3, ucs2: 0x513a},
		lookupItem{cp949: 0xd1d4, ucs2: 0xf90b},
		lookupItem{cp949: 0xd1d5, ucs2: 0xf90c},
		lookupItem{cp949: 0xd1d6, ucs2: 0x5a1c},
		lookupItem{cp949: 0xd1d7, ucs2: 0x61e6},
		lookupItem{cp949: 0xd1d8, ucs2: 0xf90d},
		lookupItem{cp949: 0xd1d9, ucs2: 0x62cf},
		lookupItem{cp949: 0xd1da, ucs2: 0x62ff},
		lookupItem{cp949: 0xd1db, ucs2: 0xf90e},
		lookupItem{cp949: 0xd1dc, ucs2: 0xf90f},
		lookupItem{cp949: 0xd1dd, ucs2: 0xf910},
		lookupItem{cp949: 0xd1de, ucs2: 0xf911},
		lookupItem{cp949: 0xd1df, ucs2: 0xf912},
		lookupItem{cp949: 0xd1e0, ucs2: 0xf913},
		lookupItem{cp949: 0xd1e1, ucs2: 0x90a3},
		lookupItem{cp949: 0xd1e2, ucs2: 0xf914},
		lookupItem{cp949: 0xd1e3, ucs2: 0xf915},
		lookupItem{cp949: 0xd1e4, ucs2: 0xf916},
		lookupItem{cp949: 0xd1e5, ucs2: 0xf917},
		lookupItem{cp949: 0xd1e6, ucs2: 0xf918},
		lookupItem{cp949: 0xd1e7, ucs2: 0x8afe},
		lookupItem{cp949: 0xd1e8, ucs2: 0xf919},
		lookupItem{cp949: 0xd1e9, ucs2: 0xf91a},
		lookupItem{cp949: 0xd1ea, ucs2: 0xf91b},
		lookupItem{cp949: 0xd1eb, ucs2: 0xf91c},
		lookupItem{cp949: 0xd1ec, ucs2: 0x6696},
		lookupItem{cp949: 0xd1ed, ucs2: 0xf91d},
		lookupItem{cp949: 0xd1ee, ucs2: 0x7156},
		lookupItem{cp949: 0xd1ef, ucs2: 0xf91e},
		lookupItem{cp949: 0xd1f0, ucs2: 0xf91f},
		lookupItem{cp949: 0xd1f1, ucs2: 0x96e3},
		lookupItem{cp949: 0xd1f2, ucs2: 0xf920},
		lookupItem{cp949: 0xd1f3, ucs2: 0x634f},
		lookupItem{cp949: 0xd1f4, ucs2: 0x637a},
		lookupItem{cp949: 0xd1f5, ucs2: 0x5357},
		lookupItem{cp949: 0xd1f6, ucs2: 0xf921},
		lookupItem{cp949: 0xd1f7, ucs2: 0x678f},
		lookupItem{cp949: 0xd1f8, ucs2: 0x6960},
		lookupItem{cp949: 0xd1f9, ucs2: 0x6e73},
		lookupItem{cp949: 0xd1fa, ucs2: 0xf922},
		lookupItem{cp949: 0xd1fb, ucs2: 0x7537},
		lookupItem{cp949: 0xd1fc, ucs2: 0xf923},
		lookupItem{cp949: 0xd1fd, ucs2: 0xf924},
		lookupItem{cp949: 0xd1fe, ucs2: 0xf925},
		lookupItem{cp949: 0xd2a1, ucs2: 0x7d0d},
		lookupItem{cp949: 0xd2a2, ucs2: 0xf926},
		lookupItem{cp949: 0xd2a3, ucs2: 0xf927},
		lookupItem{cp949: 0xd2a4, ucs2: 0x8872},
		lookupItem{cp949: 0xd2a5, ucs2: 0x56ca},
		lookupItem{cp949: 0xd2a6, ucs2: 0x5a18},
		lookupItem{cp949: 0xd2a7, ucs2: 0xf928},
		lookupItem{cp949: 0xd2a8, ucs2: 0xf929},
		lookupItem{cp949: 0xd2a9, ucs2: 0xf92a},
		lookupItem{cp949: 0xd2aa, ucs2: 0xf92b},
		lookupItem{cp949: 0xd2ab, ucs2: 0xf92c},
		lookupItem{cp949: 0xd2ac, ucs2: 0x4e43},
		lookupItem{cp949: 0xd2ad, ucs2: 0xf92d},
		lookupItem{cp949: 0xd2ae, ucs2: 0x5167},
		lookupItem{cp949: 0xd2af, ucs2: 0x5948},
		lookupItem{cp949: 0xd2b0, ucs2: 0x67f0},
		lookupItem{cp949: 0xd2b1, ucs2: 0x8010},
		lookupItem{cp949: 0xd2b2, ucs2: 0xf92e},
		lookupItem{cp949: 0xd2b3, ucs2: 0x5973},
		lookupItem{cp949: 0xd2b4, ucs2: 0x5e74},
		lookupItem{cp949: 0xd2b5, ucs2: 0x649a},
		lookupItem{cp949: 0xd2b6, ucs2: 0x79ca},
		lookupItem{cp949: 0xd2b7, ucs2: 0x5ff5},
		lookupItem{cp949: 0xd2b8, ucs2: 0x606c},
		lookupItem{cp949: 0xd2b9, ucs2: 0x62c8},
		lookupItem{cp949: 0xd2ba, ucs2: 0x637b},
		lookupItem{cp949: 0xd2bb, ucs2: 0x5be7},
		lookupItem{cp949: 0xd2bc, ucs2: 0x5bd7},
		lookupItem{cp949: 0xd2bd, ucs2: 0x52aa},
		lookupItem{cp949: 0xd2be, ucs2: 0xf92f},
		lookupItem{cp949: 0xd2bf, ucs2: 0x5974},
		lookupItem{cp949: 0xd2c0, ucs2: 0x5f29},
		lookupItem{cp949: 0xd2c1, ucs2: 0x6012},
		lookupItem{cp949: 0xd2c2, ucs2: 0xf930},
		lookupItem{cp949: 0xd2c3, ucs2: 0xf931},
		lookupItem{cp949: 0xd2c4, ucs2: 0xf932},
		lookupItem{cp949: 0xd2c5, ucs2: 0x7459},
		lookupItem{cp949: 0xd2c6, ucs2: 0xf933},
		lookupItem{cp949: 0xd2c7, ucs2: 0xf934},
		lookupItem{cp949: 0xd2c8, ucs2: 0xf935},
		lookupItem{cp949: 0xd2c9, ucs2: 0xf936},
		lookupItem{cp949: 0xd2ca, ucs2: 0xf937},
		lookupItem{cp949: 0xd2cb, ucs2: 0xf938},
		lookupItem{cp949: 0xd2cc, ucs2: 0x99d1},
		lookupItem{cp949: 0xd2cd, ucs2: 0xf939},
		lookupItem{cp949: 0xd2ce, ucs2: 0xf93a},
		lookupItem{cp949: 0xd2cf, ucs2: 0xf93b},
		lookupItem{cp949: 0xd2d0, ucs2: 0xf93c},
		lookupItem{cp949: 0xd2d1, ucs2: 0xf93d},
		lookupItem{cp949: 0xd2d2, ucs2: 0xf93e},
		lookupItem{cp949: 0xd2d3, ucs2: 0xf93f},
		lookupItem{cp949: 0xd2d4, ucs2: 0xf940},
		lookupItem{cp949: 0xd2d5, ucs2: 0xf941},
		lookupItem{cp949: 0xd2d6, ucs2: 0xf942},
		lookupItem{cp949: 0xd2d7, ucs2: 0xf943},
		lookupItem{cp949: 0xd2d8, ucs2: 0x6fc3},
		lookupItem{cp949: 0xd2d9, ucs2: 0xf944},
		lookupItem{cp949: 0xd2da, ucs2: 0xf945},
		lookupItem{cp949: 0xd2db, ucs2: 0x81bf},
		lookupItem{cp949: 0xd2dc, ucs2: 0x8fb2},
		lookupItem{cp949: 0xd2dd, ucs2: 0x60f1},
		lookupItem{cp949: 0xd2de, ucs2: 0xf946},
		lookupItem{cp949: 0xd2df, ucs2: 0xf947},
		lookupItem{cp949: 0xd2e0, ucs2: 0x8166},
		lookupItem{cp949: 0xd2e1, ucs2: 0xf948},
		lookupItem{cp949: 0xd2e2, ucs2: 0xf949},
		lookupItem{cp949: 0xd2e3, ucs2: 0x5c3f},
		lookupItem{cp949: 0xd2e4, ucs2: 0xf94a},
		lookupItem{cp949: 0xd2e5, ucs2: 0xf94b},
		lookupItem{cp949: 0xd2e6, ucs2: 0xf94c},
		lookupItem{cp949: 0xd2e7, ucs2: 0xf94d},
		lookupItem{cp949: 0xd2e8, ucs2: 0xf94e},
		lookupItem{cp949: 0xd2e9, ucs2: 0xf94f},
		lookupItem{cp949: 0xd2ea, ucs2: 0xf950},
		lookupItem{cp949: 0xd2eb, ucs2: 0xf951},
		lookupItem{cp949: 0xd2ec, ucs2: 0x5ae9},
		lookupItem{cp949: 0xd2ed, ucs2: 0x8a25},
		lookupItem{cp949: 0xd2ee, ucs2: 0x677b},
		lookupItem{cp949: 0xd2ef, ucs2: 0x7d10},
		lookupItem{cp949: 0xd2f0, ucs2: 0xf952},
".
Definition text_cp949_lookup_from_052 : string :=
"		lookupItem{cp949: 0xd2f1, ucs2: 0xf953},
		lookupItem{cp949: 0xd2f2, ucs2: 0xf954},
		lookupItem{cp949: 0xd2f3, ucs2: 0xf955},
		lookupItem{cp949: 0xd2f4, ucs2: 0xf956},
		lookupItem{cp949: 0xd2f5, ucs2: 0xf957},
		lookupItem{cp949: 0xd2f6, ucs2: 0x80fd},
		lookupItem{cp949: 0xd2f7, ucs2: 0xf958},
		lookupItem{cp949: 0xd2f8, ucs2: 0xf959},
		lookupItem{cp949: 0xd2f9, ucs2: 0x5c3c},
		lookupItem{cp949: 0xd2fa, ucs2: 0x6ce5},
		lookupItem{cp949: 0xd2fb, ucs2: 0x533f},
		lookupItem{cp949: 0xd2fc, ucs2: 0x6eba},
		lookupItem{cp949: 0xd2fd, ucs2: 0x591a},
		lookupItem{cp949: 0xd2fe, ucs2: 0x8336},
		lookupItem{cp949: 0xd3a1, ucs2: 0x4e39},
		lookupItem{cp949: 0xd3a2, ucs2: 0x4eb6},
		lookupItem{cp949: 0xd3a3, ucs2: 0x4f46},
		lookupItem{cp949: 0xd3a4, ucs2: 0x55ae},
		lookupItem{cp949: 0xd3a5, ucs2: 0x5718},
		lookupItem{cp949: 0xd3a6, ucs2: 0x58c7},
		lookupItem{cp949: 0xd3a7, ucs2: 0x5f56},
		lookupItem{cp949: 0xd3a8, ucs2: 0x65b7},
		lookupItem{cp949: 0xd3a9, ucs2: 0x65e6},
		lookupItem{cp949: 0xd3aa, ucs2: 0x6a80},
		lookupItem{cp949: 0xd3ab, ucs2: 0x6bb5},
		lookupItem{cp949: 0xd3ac, ucs2: 0x6e4d},
		lookupItem{cp949: 0xd3ad, ucs2: 0x77ed},
		lookupItem{cp949: 0xd3ae, ucs2: 0x7aef},
		lookupItem{cp949: 0xd3af, ucs2: 0x7c1e},
		lookupItem{cp949: 0xd3b0, ucs2: 0x7dde},
		lookupItem{cp949: 0xd3b1, ucs2: 0x86cb},
		lookupItem{cp949: 0xd3b2, ucs2: 0x8892},
		lookupItem{cp949: 0xd3b3, ucs2: 0x9132},
		lookupItem{cp949: 0xd3b4, ucs2: 0x935b},
		lookupItem{cp949: 0xd3b5, ucs2: 0x64bb},
		lookupItem{cp949: 0xd3b6, ucs2: 0x6fbe},
		lookupItem{cp949: 0xd3b7, ucs2: 0x737a},
		lookupItem{cp949: 0xd3b8, ucs2: 0x75b8},
		lookupItem{cp949: 0xd3b9, ucs2: 0x9054},
		lookupItem{cp949: 0xd3ba, ucs2: 0x5556},
		lookupItem{cp949: 0xd3bb, ucs2: 0x574d},
		lookupItem{cp949: 0xd3bc, ucs2: 0x61ba},
		lookupItem{cp949: 0xd3bd, ucs2: 0x64d4},
		lookupItem{cp949: 0xd3be, ucs2: 0x66c7},
		lookupItem{cp949: 0xd3bf, ucs2: 0x6de1},
		lookupItem{cp949: 0xd3c0, ucs2: 0x6e5b},
		lookupItem{cp949: 0xd3c1, ucs2: 0x6f6d},
		lookupItem{cp949: 0xd3c2, ucs2: 0x6fb9},
		lookupItem{cp949: 0xd3c3, ucs2: 0x75f0},
		lookupItem{cp949: 0xd3c4, ucs2: 0x8043},
		lookupItem{cp949: 0xd3c5, ucs2: 0x81bd},
		lookupItem{cp949: 0xd3c6, ucs2: 0x8541},
		lookupItem{cp949: 0xd3c7, ucs2: 0x8983},
		lookupItem{cp949: 0xd3c8, ucs2: 0x8ac7},
		lookupItem{cp949: 0xd3c9, ucs2: 0x8b5a},
		lookupItem{cp949: 0xd3ca, ucs2: 0x931f},
		lookupItem{cp949: 0xd3cb, ucs2: 0x6c93},
		lookupItem{cp949: 0xd3cc, ucs2: 0x7553},
		lookupItem{cp949: 0xd3cd, ucs2: 0x7b54},
		lookupItem{cp949: 0xd3ce, ucs2: 0x8e0f},
		lookupItem{cp949: 0xd3cf, ucs2: 0x905d},
		lookupItem{cp949: 0xd3d0, ucs2: 0x5510},
		lookupItem{cp949: 0xd3d1, ucs2: 0x5802},
		lookupItem{cp949: 0xd3d2, ucs2: 0x5858},
		lookupItem{cp949: 0xd3d3, ucs2: 0x5e62},
		lookupItem{cp949: 0xd3d4, ucs2: 0x6207},
		lookupItem{cp949: 0xd3d5, ucs2: 0x649e},
		lookupItem{cp949: 0xd3d6, ucs2: 0x68e0},
		lookupItem{cp949: 0xd3d7, ucs2: 0x7576},
		lookupItem{cp949: 0xd3d8, ucs2: 0x7cd6},
		lookupItem{cp949: 0xd3d9, ucs2: 0x87b3},
		lookupItem{cp949: 0xd3da, ucs2: 0x9ee8},
		lookupItem{cp949: 0xd3db, ucs2: 0x4ee3},
		lookupItem{cp949: 0xd3dc, ucs2: 0x5788},
		lookupItem{cp949: 0xd3dd, ucs2: 0x576e},
		lookupItem{cp949: 0xd3de, ucs2: 0x5927},
		lookupItem{cp949: 0xd3df, ucs2: 0x5c0d},
		lookupItem{cp949: 0xd3e0, ucs2: 0x5cb1},
		lookupItem{cp949: 0xd3e1, ucs2: 0x5e36},
		lookupItem{cp949: 0xd3e2, ucs2: 0x5f85},
		lookupItem{cp949: 0xd3e3, ucs2: 0x6234},
		lookupItem{cp949: 0xd3e4, ucs2: 0x64e1},
		lookupItem{cp949: 0xd3e5, ucs2: 0x73b3},
		lookupItem{cp949: 0xd3e6, ucs2: 0x81fa},
		lookupItem{cp949: 0xd3e7, ucs2: 0x888b},
		lookupItem{cp949: 0xd3e8, ucs2: 0x8cb8},
		lookupItem{cp949: 0xd3e9, ucs2: 0x968a},
		lookupItem{cp949: 0xd3ea, ucs2: 0x9edb},
		lookupItem{cp949: 0xd3eb, ucs2: 0x5b85},
		lookupItem{cp949: 0xd3ec, ucs2: 0x5fb7},
		lookupItem{cp949: 0xd3ed, ucs2: 0x60b3},
		lookupItem{cp949: 0xd3ee, ucs2: 0x5012},
		lookupItem{cp949: 0xd3ef, ucs2: 0x5200},
		lookupItem{cp949: 0xd3f0, ucs2: 0x5230},
		lookupItem{cp949: 0xd3f1, ucs2: 0x5716},
		lookupItem{cp949: 0xd3f2, ucs2: 0x5835},
		lookupItem{cp949: 0xd3f3, ucs2: 0x5857},
		lookupItem{cp949: 0xd3f4, ucs2: 0x5c0e},
		lookupItem{cp949: 0xd3f5, ucs2: 0x5c60},
		lookupItem{cp949: 0xd3f6, ucs2: 0x5cf6},
		lookupItem{cp949: 0xd3f7, ucs2: 0x5d8b},
		lookupItem{cp949: 0xd3f8, ucs2: 0x5ea6},
		lookupItem{cp949: 0xd3f9, ucs2: 0x5f92},
		lookupItem{cp949: 0xd3fa, ucs2: 0x60bc},
		lookupItem{cp949: 0xd3fb, ucs2: 0x6311},
		lookupItem{cp949: 0xd3fc, ucs2: 0x6389},
		lookupItem{cp949: 0xd3fd, ucs2: 0x6417},
		lookupItem{cp949: 0xd3fe, ucs2: 0x6843},
		lookupItem{cp949: 0xd4a1, ucs2: 0x68f9},
		lookupItem{cp949: 0xd4a2, ucs2: 0x6ac2},
		lookupItem{cp949: 0xd4a3, ucs2: 0x6dd8},
		lookupItem{cp949: 0xd4a4, ucs2: 0x6e21},
		lookupItem{cp949: 0xd4a5, ucs2: 0x6ed4},
		lookupItem{cp949: 0xd4a6, ucs2: 0x6fe4},
		lookupItem{cp949: 0xd4a7, ucs2: 0x71fe},
		lookupItem{cp949: 0xd4a8, ucs2: 0x76dc},
		lookupItem{cp949: 0xd4a9, ucs2: 0x7779},
		lookupItem{cp949: 0xd4aa, ucs2: 0x79b1},
		lookupItem{cp949: 0xd4ab, ucs2: 0x7a3b},
		lookupItem{cp949: 0xd4ac, ucs2: 0x8404},
		lookupItem{cp949: 0xd4ad, ucs2: 0x89a9},
		lookupItem{cp949: 0xd4ae, ucs2: 0x8ced},
		lookupItem{cp949: 0xd4af, ucs2: 0x8df3},
		lookupItem{cp949: 0xd4b0, ucs2: 0x8e48},
		lookupItem{cp949: 0xd4b1, ucs2: 0x9003},
		lookupItem{cp949: 0xd4b2, ucs2: 0x9014},
		lookupItem{cp949: 0xd4b3, ucs2: 0x9053},
		lookupItem{cp949: 0xd4b4, ucs2: 0x90fd},
		lookupItem{cp949: 0xd4b5, ucs2: 0x934d},
		lookupItem{cp949: 0xd4b6, ucs2: 0x9676},
		lookupItem{cp949: 0xd4b7, ucs2: 0x97dc},
		lookupItem{cp949: 0xd4b8, ucs2: 0x6bd2},
		lookupItem{cp949: 0xd4b9, ucs2: 0x7006},
		lookupItem{cp949: 0xd4ba, ucs2: 0x7258},
		lookupItem{cp949: 0xd4bb, ucs2: 0x72a2},
		lookupItem{cp949: 0xd4bc, ucs2: 0x7368},
		lookupItem{cp949: 0xd4bd, ucs2: 0x7763},
		lookupItem{cp949: 0xd4be, ucs2: 0x79bf},
		lookupItem{cp949: 0xd4bf, ucs2: 0x7be4},
		lookupItem{cp949: 0xd4c0, ucs2: 0x7e9b},
		lookupItem{cp949: 0xd4c1, ucs2: 0x8b80},
		lookupItem{cp949: 0xd4c2, ucs2: 0x58a9},
		lookupItem{cp949: 0xd4c3, ucs2: 0x60c7},
		lookupItem{cp949: 0xd4c4, ucs2: 0x6566},
		lookupItem{cp949: 0xd4c5, ucs2: 0x65fd},
		lookupItem{cp949: 0xd4c6, ucs2: 0x66be},
		lookupItem{cp949: 0xd4c7, ucs2: 0x6c8c},
		lookupItem{cp949: 0xd4c8, ucs2: 0x711e},
		lookupItem{cp949: 0xd4c9, ucs2: 0x71c9},
		lookupItem{cp949: 0xd4ca, ucs2: 0x8c5a},
		lookupItem{cp949: 0xd4cb, ucs2: 0x9813},
		lookupItem{cp949: 0xd4cc, ucs2: 0x4e6d},
		lookupItem{cp949: 0xd4cd, ucs2: 0x7a81},
		lookupItem{cp949: 0xd4ce, ucs2: 0x4edd},
		lookupItem{cp949: 0xd4cf, ucs2: 0x51ac},
		lookupItem{cp949: 0xd4d0, ucs2: 0x51cd},
		lookupItem{cp949: 0xd4d1, ucs2: 0x52d5},
		lookupItem{cp949: 0xd4d2, ucs2: 0x540c},
		lookupItem{cp949: 0xd4d3, ucs2: 0x61a7},
		lookupItem{cp949: 0xd4d4, ucs2: 0x6771},
		lookupItem{cp949: 0xd4d5, ucs2: 0x6850},
		lookupItem{cp949: 0xd4d6, ucs2: 0x68df},
		lookupItem{cp949: 0xd4d7, ucs2: 0x6d1e},
		lookupItem{cp949: 0xd4d8, ucs2: 0x6f7c},
		lookupItem{cp949: 0xd4d9, ucs2: 0x75bc},
		lookupItem{cp949: 0xd4da, ucs2: 0x77b3},
		lookupItem{cp949: 0xd4db, ucs2: 0x7ae5},
		lookupItem{cp949: 0xd4dc, ucs2: 0x80f4},
		lookupItem{cp949: 0xd4dd, ucs2: 0x8463},
		lookupItem{cp949: 0xd4de, ucs2: 0x9285},
		lookupItem{cp949: 0xd4df, ucs2: 0x515c},
		lookupItem{cp949: 0xd4e0, ucs2: 0x6597},
		lookupItem{cp949: 0xd4e1, ucs2: 0x675c},
		lookupItem{cp949: 0xd4e2, ucs2: 0x6793},
		lookupItem{cp949: 0xd4e3, ucs2: 0x75d8},
		lookupItem{cp949: 0xd4e4, ucs2: 0x7ac7},
		lookupItem{cp949: 0xd4e5, ucs2: 0x8373},
		lookupItem{cp949: 0xd4e6, ucs2: 0xf95a},
		lookupItem{cp949: 0xd4e7, ucs2: 0x8c46},
		lookupItem{cp949: 0xd4e8, ucs2: 0x9017},
		lookupItem{cp949: 0xd4e9, ucs2: 0x982d},
		lookupItem{cp949: 0xd4ea, ucs2: 0x5c6f},
		lookupItem{cp949: 0xd4eb, ucs2: 0x81c0},
		lookupItem{cp949: 0xd4ec, ucs2: 0x829a},
		lookupItem{cp949: 0xd4ed, ucs2: 0x9041},
		lookupItem{cp949: 0xd4ee, ucs2: 0x906f},
		lookupItem{cp949: 0xd4ef, ucs2: 0x920d},
		lookupItem{cp949: 0xd4f0, ucs2: 0x5f97},
		lookupItem{cp949: 0xd4f1, ucs2: 0x5d9d},
		lookupItem{cp949: 0xd4f2, ucs2: 0x6a59},
		lookupItem{cp949: 0xd4f3, ucs2: 0x71c8},
		lookupItem{cp949: 0xd4f4, ucs2: 0x767b},
		lookupItem{cp949: 0xd4f5, ucs2: 0x7b49},
		lookupItem{cp949: 0xd4f6, ucs2: 0x85e4},
		lookupItem{cp949: 0xd4f7, ucs2: 0x8b04},
		lookupItem{cp949: 0xd4f8, ucs2: 0x9127},
		lookupItem{cp949: 0xd4f9, ucs2: 0x9a30},
		lookupItem{cp949: 0xd4fa, ucs2: 0x5587},
		lookupItem{cp949: 0xd4fb, ucs2: 0x61f6},
		lookupItem{cp949: 0xd4fc, ucs2: 0xf95b},
		lookupItem{cp949: 0xd4fd, ucs2: 0x7669},
		lookupItem{cp949: 0xd4fe, ucs2: 0x7f85},
		lookupItem{cp949: 0xd5a1, ucs2: 0x863f},
		lookupItem{cp949: 0xd5a2, ucs2: 0x87ba},
		lookupItem{cp949: 0xd5a3, ucs2: 0x88f8},
		lookupItem{cp949: 0xd5a4, ucs2: 0x908f},
		lookupItem{cp949: 0xd5a5, ucs2: 0xf95c},
		lookupItem{cp949: 0xd5a6, ucs2: 0x6d1b},
		lookupItem{cp949: 0xd5a7, ucs2: 0x70d9},
		lookupItem{cp949: 0xd5a8, ucs2: 0x73de},
		lookupItem{cp949: 0xd5a9, ucs2: 0x7d61},
		lookupItem{cp949: 0xd5aa, ucs2: 0x843d},
		lookupItem{cp949: 0xd5ab, ucs2: 0xf95d},
		lookupItem{cp949: 0xd5ac, ucs2: 0x916a},
		lookupItem{cp949: 0xd5ad, ucs2: 0x99f1},
		lookupItem{cp949: 0xd5ae, ucs2: 0xf95e},
		lookupItem{cp949: 0xd5af, ucs2: 0x4e82},
		lookupItem{cp949: 0xd5b0, ucs2: 0x5375},
		lookupItem{cp949: 0xd5b1, ucs2: 0x6b04},
		lookupItem{cp949: 0xd5b2, ucs2: 0x6b12},
		lookupItem{cp949: 0xd5b3, ucs2: 0x703e},
		lookupItem{cp949: 0xd5b4, ucs2: 0x721b},
		lookupItem{cp949: 0xd5b5, ucs2: 0x862d},
		lookupItem{cp949: 0xd5b6, ucs2: 0x9e1e},
		lookupItem{cp949: 0xd5b7, ucs2: 0x524c},
		lookupItem{cp949: 0xd5b8, ucs2: 0x8fa3},
		lookupItem{cp949: 0xd5b9, ucs2: 0x5d50},
		lookupItem{cp949: 0xd5ba, ucs2: 0x64e5},
		lookupItem{cp949: 0xd5bb, ucs2: 0x652c},
		lookupItem{cp949: 0xd5bc, ucs2: 0x6b16},
		lookupItem{cp949: 0xd5bd, ucs2: 0x6feb},
		lookupItem{cp949: 0xd5be, ucs2: 0x7c43},
		lookupItem{cp949: 0xd5bf, ucs2: 0x7e9c},
		lookupItem{cp949: 0xd5c0, ucs2: 0x85cd},
		lookupItem{cp949: 0xd5c1, ucs2: 0x8964},
		lookupItem{cp949: 0xd5c2, ucs2: 0x89bd},
		lookupItem{cp949: 0xd5c3, ucs2: 0x62c9},
		lookupItem{cp949: 0xd5c4, ucs2: 0x81d8},
		lookupItem{cp949: 0xd5c5, ucs2: 0x881f},
		lookupItem{cp949: 0xd5c6, ucs2: 0x5eca},
		lookupItem{cp949: 0xd5c7, ucs2: 0x6717},
		lookupItem{cp949: 0xd5c8, ucs2: 0x6d6a},
		lookupItem{cp949: 0xd5c9, ucs2: 0x72fc},
		lookupItem{cp949: 0xd5ca, ucs2: 0x7405},
		lookupItem{cp949: 0xd5cb, ucs2: 0x746f},
		lookupItem{cp949: 0xd5cc, ucs2: 0x8782},
		lookupItem{cp949: 0xd5cd, ucs2: 0x90de},
		lookupItem{cp949: 0xd5ce, ucs2: 0x4f86},
		lookupItem{cp949: 0xd5cf, ucs2: 0x5d0d},
		lookupItem{cp949: 0xd5d0, ucs2: 0x5fa0},
".
Definition text_cp949_lookup_from_053 : string :=
"		lookupItem{cp949: 0xd5d1, ucs2: 0x840a},
		lookupItem{cp949: 0xd5d2, ucs2: 0x51b7},
		lookupItem{cp949: 0xd5d3, ucs2: 0x63a0},
		lookupItem{cp949: 0xd5d4, ucs2: 0x7565},
		lookupItem{cp949: 0xd5d5, ucs2: 0x4eae},
		lookupItem{cp949: 0xd5d6, ucs2: 0x5006},
		lookupItem{cp949: 0xd5d7, ucs2: 0x5169},
		lookupItem{cp949: 0xd5d8, ucs2: 0x51c9},
		lookupItem{cp949: 0xd5d9, ucs2: 0x6881},
		lookupItem{cp949: 0xd5da, ucs2: 0x6a11},
		lookupItem{cp949: 0xd5db, ucs2: 0x7cae},
		lookupItem{cp949: 0xd5dc, ucs2: 0x7cb1},
		lookupItem{cp949: 0xd5dd, ucs2: 0x7ce7},
		lookupItem{cp949: 0xd5de, ucs2: 0x826f},
		lookupItem{cp949: 0xd5df, ucs2: 0x8ad2},
		lookupItem{cp949: 0xd5e0, ucs2: 0x8f1b},
		lookupItem{cp949: 0xd5e1, ucs2: 0x91cf},
		lookupItem{cp949: 0xd5e2, ucs2: 0x4fb6},
		lookupItem{cp949: 0xd5e3, ucs2: 0x5137},
		lookupItem{cp949: 0xd5e4, ucs2: 0x52f5},
		lookupItem{cp949: 0xd5e5, ucs2: 0x5442},
		lookupItem{cp949: 0xd5e6, ucs2: 0x5eec},
		lookupItem{cp949: 0xd5e7, ucs2: 0x616e},
		lookupItem{cp949: 0xd5e8, ucs2: 0x623e},
		lookupItem{cp949: 0xd5e9, ucs2: 0x65c5},
		lookupItem{cp949: 0xd5ea, ucs2: 0x6ada},
		lookupItem{cp949: 0xd5eb, ucs2: 0x6ffe},
		lookupItem{cp949: 0xd5ec, ucs2: 0x792a},
		lookupItem{cp949: 0xd5ed, ucs2: 0x85dc},
		lookupItem{cp949: 0xd5ee, ucs2: 0x8823},
		lookupItem{cp949: 0xd5ef, ucs2: 0x95ad},
		lookupItem{cp949: 0xd5f0, ucs2: 0x9a62},
		lookupItem{cp949: 0xd5f1, ucs2: 0x9a6a},
		lookupItem{cp949: 0xd5f2, ucs2: 0x9e97},
		lookupItem{cp949: 0xd5f3, ucs2: 0x9ece},
		lookupItem{cp949: 0xd5f4, ucs2: 0x529b},
		lookupItem{cp949: 0xd5f5, ucs2: 0x66c6},
		lookupItem{cp949: 0xd5f6, ucs2: 0x6b77},
		lookupItem{cp949: 0xd5f7, ucs2: 0x701d},
		lookupItem{cp949: 0xd5f8, ucs2: 0x792b},
		lookupItem{cp949: 0xd5f9, ucs2: 0x8f62},
		lookupItem{cp949: 0xd5fa, ucs2: 0x9742},
		lookupItem{cp949: 0xd5fb, ucs2: 0x6190},
		lookupItem{cp949: 0xd5fc, ucs2: 0x6200},
		lookupItem{cp949: 0xd5fd, ucs2: 0x6523},
		lookupItem{cp949: 0xd5fe, ucs2: 0x6f23},
		lookupItem{cp949: 0xd6a1, ucs2: 0x7149},
		lookupItem{cp949: 0xd6a2, ucs2: 0x7489},
		lookupItem{cp949: 0xd6a3, ucs2: 0x7df4},
		lookupItem{cp949: 0xd6a4, ucs2: 0x806f},
		lookupItem{cp949: 0xd6a5, ucs2: 0x84ee},
		lookupItem{cp949: 0xd6a6, ucs2: 0x8f26},
		lookupItem{cp949: 0xd6a7, ucs2: 0x9023},
		lookupItem{cp949: 0xd6a8, ucs2: 0x934a},
		lookupItem{cp949: 0xd6a9, ucs2: 0x51bd},
		lookupItem{cp949: 0xd6aa, ucs2: 0x5217},
		lookupItem{cp949: 0xd6ab, ucs2: 0x52a3},
		lookupItem{cp949: 0xd6ac, ucs2: 0x6d0c},
		lookupItem{cp949: 0xd6ad, ucs2: 0x70c8},
		lookupItem{cp949: 0xd6ae, ucs2: 0x88c2},
		lookupItem{cp949: 0xd6af, ucs2: 0x5ec9},
		lookupItem{cp949: 0xd6b0, ucs2: 0x6582},
		lookupItem{cp949: 0xd6b1, ucs2: 0x6bae},
		lookupItem{cp949: 0xd6b2, ucs2: 0x6fc2},
		lookupItem{cp949: 0xd6b3, ucs2: 0x7c3e},
		lookupItem{cp949: 0xd6b4, ucs2: 0x7375},
		lookupItem{cp949: 0xd6b5, ucs2: 0x4ee4},
		lookupItem{cp949: 0xd6b6, ucs2: 0x4f36},
		lookupItem{cp949: 0xd6b7, ucs2: 0x56f9},
		lookupItem{cp949: 0xd6b8, ucs2: 0xf95f},
		lookupItem{cp949: 0xd6b9, ucs2: 0x5cba},
		lookupItem{cp949: 0xd6ba, ucs2: 0x5dba},
		lookupItem{cp949: 0xd6bb, ucs2: 0x601c},
		lookupItem{cp949: 0xd6bc, ucs2: 0x73b2},
		lookupItem{cp949: 0xd6bd, ucs2: 0x7b2d},
		lookupItem{cp949: 0xd6be, ucs2: 0x7f9a},
		lookupItem{cp949: 0xd6bf, ucs2: 0x7fce},
		lookupItem{cp949: 0xd6c0, ucs2: 0x8046},
		lookupItem{cp949: 0xd6c1, ucs2: 0x901e},
		lookupItem{cp949: 0xd6c2, ucs2: 0x9234},
		lookupItem{cp949: 0xd6c3, ucs2: 0x96f6},
		lookupItem{cp949: 0xd6c4, ucs2: 0x9748},
		lookupItem{cp949: 0xd6c5, ucs2: 0x9818},
		lookupItem{cp949: 0xd6c6, ucs2: 0x9f61},
		lookupItem{cp949: 0xd6c7, ucs2: 0x4f8b},
		lookupItem{cp949: 0xd6c8, ucs2: 0x6fa7},
		lookupItem{cp949: 0xd6c9, ucs2: 0x79ae},
		lookupItem{cp949: 0xd6ca, ucs2: 0x91b4},
		lookupItem{cp949: 0xd6cb, ucs2: 0x96b7},
		lookupItem{cp949: 0xd6cc, ucs2: 0x52de},
		lookupItem{cp949: 0xd6cd, ucs2: 0xf960},
		lookupItem{cp949: 0xd6ce, ucs2: 0x6488},
		lookupItem{cp949: 0xd6cf, ucs2: 0x64c4},
		lookupItem{cp949: 0xd6d0, ucs2: 0x6ad3},
		lookupItem{cp949: 0xd6d1, ucs2: 0x6f5e},
		lookupItem{cp949: 0xd6d2, ucs2: 0x7018},
		lookupItem{cp949: 0xd6d3, ucs2: 0x7210},
		lookupItem{cp949: 0xd6d4, ucs2: 0x76e7},
		lookupItem{cp949: 0xd6d5, ucs2: 0x8001},
		lookupItem{cp949: 0xd6d6, ucs2: 0x8606},
		lookupItem{cp949: 0xd6d7, ucs2: 0x865c},
		lookupItem{cp949: 0xd6d8, ucs2: 0x8def},
		lookupItem{cp949: 0xd6d9, ucs2: 0x8f05},
		lookupItem{cp949: 0xd6da, ucs2: 0x9732},
		lookupItem{cp949: 0xd6db, ucs2: 0x9b6f},
		lookupItem{cp949: 0xd6dc, ucs2: 0x9dfa},
		lookupItem{cp949: 0xd6dd, ucs2: 0x9e75},
		lookupItem{cp949: 0xd6de, ucs2: 0x788c},
		lookupItem{cp949: 0xd6df, ucs2: 0x797f},
		lookupItem{cp949: 0xd6e0, ucs2: 0x7da0},
		lookupItem{cp949: 0xd6e1, ucs2: 0x83c9},
		lookupItem{cp949: 0xd6e2, ucs2: 0x9304},
		lookupItem{cp949: 0xd6e3, ucs2: 0x9e7f},
		lookupItem{cp949: 0xd6e4, ucs2: 0x9e93},
		lookupItem{cp949: 0xd6e5, ucs2: 0x8ad6},
		lookupItem{cp949: 0xd6e6, ucs2: 0x58df},
		lookupItem{cp949: 0xd6e7, ucs2: 0x5f04},
		lookupItem{cp949: 0xd6e8, ucs2: 0x6727},
		lookupItem{cp949: 0xd6e9, ucs2: 0x7027},
		lookupItem{cp949: 0xd6ea, ucs2: 0x74cf},
		lookupItem{cp949: 0xd6eb, ucs2: 0x7c60},
		lookupItem{cp949: 0xd6ec, ucs2: 0x807e},
		lookupItem{cp949: 0xd6ed, ucs2: 0x5121},
		lookupItem{cp949: 0xd6ee, ucs2: 0x7028},
		lookupItem{cp949: 0xd6ef, ucs2: 0x7262},
		lookupItem{cp949: 0xd6f0, ucs2: 0x78ca},
		lookupItem{cp949: 0xd6f1, ucs2: 0x8cc2},
		lookupItem{cp949: 0xd6f2, ucs2: 0x8cda},
		lookupItem{cp949: 0xd6f3, ucs2: 0x8cf4},
		lookupItem{cp949: 0xd6f4, ucs2: 0x96f7},
		lookupItem{cp949: 0xd6f5, ucs2: 0x4e86},
		lookupItem{cp949: 0xd6f6, ucs2: 0x50da},
		lookupItem{cp949: 0xd6f7, ucs2: 0x5bee},
		lookupItem{cp949: 0xd6f8, ucs2: 0x5ed6},
		lookupItem{cp949: 0xd6f9, ucs2: 0x6599},
		lookupItem{cp949: 0xd6fa, ucs2: 0x71ce},
		lookupItem{cp949: 0xd6fb, ucs2: 0x7642},
		lookupItem{cp949: 0xd6fc, ucs2: 0x77ad},
		lookupItem{cp949: 0xd6fd, ucs2: 0x804a},
		lookupItem{cp949: 0xd6fe, ucs2: 0x84fc},
		lookupItem{cp949: 0xd7a1, ucs2: 0x907c},
		lookupItem{cp949: 0xd7a2, ucs2: 0x9b27},
		lookupItem{cp949: 0xd7a3, ucs2: 0x9f8d},
		lookupItem{cp949: 0xd7a4, ucs2: 0x58d8},
		lookupItem{cp949: 0xd7a5, ucs2: 0x5a41},
		lookupItem{cp949: 0xd7a6, ucs2: 0x5c62},
		lookupItem{cp949: 0xd7a7, ucs2: 0x6a13},
		lookupItem{cp949: 0xd7a8, ucs2: 0x6dda},
		lookupItem{cp949: 0xd7a9, ucs2: 0x6f0f},
		lookupItem{cp949: 0xd7aa, ucs2: 0x763b},
		lookupItem{cp949: 0xd7ab, ucs2: 0x7d2f},
		lookupItem{cp949: 0xd7ac, ucs2: 0x7e37},
		lookupItem{cp949: 0xd7ad, ucs2: 0x851e},
		lookupItem{cp949: 0xd7ae, ucs2: 0x8938},
		lookupItem{cp949: 0xd7af, ucs2: 0x93e4},
		lookupItem{cp949: 0xd7b0, ucs2: 0x964b},
		lookupItem{cp949: 0xd7b1, ucs2: 0x5289},
		lookupItem{cp949: 0xd7b2, ucs2: 0x65d2},
		lookupItem{cp949: 0xd7b3, ucs2: 0x67f3},
		lookupItem{cp949: 0xd7b4, ucs2: 0x69b4},
		lookupItem{cp949: 0xd7b5, ucs2: 0x6d41},
		lookupItem{cp949: 0xd7b6, ucs2: 0x6e9c},
		lookupItem{cp949: 0xd7b7, ucs2: 0x700f},
		lookupItem{cp949: 0xd7b8, ucs2: 0x7409},
		lookupItem{cp949: 0xd7b9, ucs2: 0x7460},
		lookupItem{cp949: 0xd7ba, ucs2: 0x7559},
		lookupItem{cp949: 0xd7bb, ucs2: 0x7624},
		lookupItem{cp949: 0xd7bc, ucs2: 0x786b},
		lookupItem{cp949: 0xd7bd, ucs2: 0x8b2c},
		lookupItem{cp949: 0xd7be, ucs2: 0x985e},
		lookupItem{cp949: 0xd7bf, ucs2: 0x516d},
		lookupItem{cp949: 0xd7c0, ucs2: 0x622e},
		lookupItem{cp949: 0xd7c1, ucs2: 0x9678},
		lookupItem{cp949: 0xd7c2, ucs2: 0x4f96},
		lookupItem{cp949: 0xd7c3, ucs2: 0x502b},
		lookupItem{cp949: 0xd7c4, ucs2: 0x5d19},
		lookupItem{cp949: 0xd7c5, ucs2: 0x6dea},
		lookupItem{cp949: 0xd7c6, ucs2: 0x7db8},
		lookupItem{cp949: 0xd7c7, ucs2: 0x8f2a},
		lookupItem{cp949: 0xd7c8, ucs2: 0x5f8b},
		lookupItem{cp949: 0xd7c9, ucs2: 0x6144},
		lookupItem{cp949: 0xd7ca, ucs2: 0x6817},
		lookupItem{cp949: 0xd7cb, ucs2: 0xf961},
		lookupItem{cp949: 0xd7cc, ucs2: 0x9686},
		lookupItem{cp949: 0xd7cd, ucs2: 0x52d2},
		lookupItem{cp949: 0xd7ce, ucs2: 0x808b},
		lookupItem{cp949: 0xd7cf, ucs2: 0x51dc},
		lookupItem{cp949: 0xd7d0, ucs2: 0x51cc},
		lookupItem{cp949: 0xd7d1, ucs2: 0x695e},
		lookupItem{cp949: 0xd7d2, ucs2: 0x7a1c},
		lookupItem{cp949: 0xd7d3, ucs2: 0x7dbe},
		lookupItem{cp949: 0xd7d4, ucs2: 0x83f1},
		lookupItem{cp949: 0xd7d5, ucs2: 0x9675},
		lookupItem{cp949: 0xd7d6, ucs2: 0x4fda},
		lookupItem{cp949: 0xd7d7, ucs2: 0x5229},
		lookupItem{cp949: 0xd7d8, ucs2: 0x5398},
		lookupItem{cp949: 0xd7d9, ucs2: 0x540f},
		lookupItem{cp949: 0xd7da, ucs2: 0x550e},
		lookupItem{cp949: 0xd7db, ucs2: 0x5c65},
		lookupItem{cp949: 0xd7dc, ucs2: 0x60a7},
		lookupItem{cp949: 0xd7dd, ucs2: 0x674e},
		lookupItem{cp949: 0xd7de, ucs2: 0x68a8},
		lookupItem{cp949: 0xd7df, ucs2: 0x6d6c},
		lookupItem{cp949: 0xd7e0, ucs2: 0x7281},
		lookupItem{cp949: 0xd7e1, ucs2: 0x72f8},
		lookupItem{cp949: 0xd7e2, ucs2: 0x7406},
		lookupItem{cp949: 0xd7e3, ucs2: 0x7483},
		lookupItem{cp949: 0xd7e4, ucs2: 0xf962},
		lookupItem{cp949: 0xd7e5, ucs2: 0x75e2},
		lookupItem{cp949: 0xd7e6, ucs2: 0x7c6c},
		lookupItem{cp949: 0xd7e7, ucs2: 0x7f79},
		lookupItem{cp949: 0xd7e8, ucs2: 0x7fb8},
		lookupItem{cp949: 0xd7e9, ucs2: 0x8389},
		lookupItem{cp949: 0xd7ea, ucs2: 0x88cf},
		lookupItem{cp949: 0xd7eb, ucs2: 0x88e1},
		lookupItem{cp949: 0xd7ec, ucs2: 0x91cc},
		lookupItem{cp949: 0xd7ed, ucs2: 0x91d0},
		lookupItem{cp949: 0xd7ee, ucs2: 0x96e2},
		lookupItem{cp949: 0xd7ef, ucs2: 0x9bc9},
		lookupItem{cp949: 0xd7f0, ucs2: 0x541d},
		lookupItem{cp949: 0xd7f1, ucs2: 0x6f7e},
		lookupItem{cp949: 0xd7f2, ucs2: 0x71d0},
		lookupItem{cp949: 0xd7f3, ucs2: 0x7498},
		lookupItem{cp949: 0xd7f4, ucs2: 0x85fa},
		lookupItem{cp949: 0xd7f5, ucs2: 0x8eaa},
		lookupItem{cp949: 0xd7f6, ucs2: 0x96a3},
		lookupItem{cp949: 0xd7f7, ucs2: 0x9c57},
		lookupItem{cp949: 0xd7f8, ucs2: 0x9e9f},
		lookupItem{cp949: 0xd7f9, ucs2: 0x6797},
		lookupItem{cp949: 0xd7fa, ucs2: 0x6dcb},
		lookupItem{cp949: 0xd7fb, ucs2: 0x7433},
		lookupItem{cp949: 0xd7fc, ucs2: 0x81e8},
		lookupItem{cp949: 0xd7fd, ucs2: 0x9716},
		lookupItem{cp949: 0xd7fe, ucs2: 0x782c},
		lookupItem{cp949: 0xd8a1, ucs2: 0x7acb},
		lookupItem{cp949: 0xd8a2, ucs2: 0x7b20},
		lookupItem{cp949: 0xd8a3, ucs2: 0x7c92},
		lookupItem{cp949: 0xd8a4, ucs2: 0x6469},
		lookupItem{cp949: 0xd8a5, ucs2: 0x746a},
		lookupItem{cp949: 0xd8a6, ucs2: 0x75f2},
		lookupItem{cp949: 0xd8a7, ucs2: 0x78bc},
		lookupItem{cp949: 0xd8a8, ucs2: 0x78e8},
		lookupItem{cp949: 0xd8a9, ucs2: 0x99ac},
		lookupItem{cp949: 0xd8aa, ucs2: 0x9b54},
		lookupItem{cp949: 0xd8ab, ucs2: 0x9ebb},
		lookupItem{cp949: 0xd8ac, ucs2: 0x5bde},
		lookupItem{cp949: 0xd8ad, ucs2: 0x5e55},
		lookupItem{cp949: 0xd8ae, ucs2: 0x6f20},
		lookupItem{cp949: 0xd8af, ucs2: 0x819c},
		lookupItem{cp949: 0xd8b0, ucs2: 0x83ab},
".
Definition text_cp949_lookup_from_054 : string :=
"		lookupItem{cp949: 0xd8b1, ucs2: 0x9088},
		lookupItem{cp949: 0xd8b2, ucs2: 0x4e07},
		lookupItem{cp949: 0xd8b3, ucs2: 0x534d},
		lookupItem{cp949: 0xd8b4, ucs2: 0x5a29},
		lookupItem{cp949: 0xd8b5, ucs2: 0x5dd2},
		lookupItem{cp949: 0xd8b6, ucs2: 0x5f4e},
		lookupItem{cp949: 0xd8b7, ucs2: 0x6162},
		lookupItem{cp949: 0xd8b8, ucs2: 0x633d},
		lookupItem{cp949: 0xd8b9, ucs2: 0x6669},
		lookupItem{cp949: 0xd8ba, ucs2: 0x66fc},
		lookupItem{cp949: 0xd8bb, ucs2: 0x6eff},
		lookupItem{cp949: 0xd8bc, ucs2: 0x6f2b},
		lookupItem{cp949: 0xd8bd, ucs2: 0x7063},
		lookupItem{cp949: 0xd8be, ucs2: 0x779e},
		lookupItem{cp949: 0xd8bf, ucs2: 0x842c},
		lookupItem{cp949: 0xd8c0, ucs2: 0x8513},
		lookupItem{cp949: 0xd8c1, ucs2: 0x883b},
		lookupItem{cp949: 0xd8c2, ucs2: 0x8f13},
		lookupItem{cp949: 0xd8c3, ucs2: 0x9945},
		lookupItem{cp949: 0xd8c4, ucs2: 0x9c3b},
		lookupItem{cp949: 0xd8c5, ucs2: 0x551c},
		lookupItem{cp949: 0xd8c6, ucs2: 0x62b9},
		lookupItem{cp949: 0xd8c7, ucs2: 0x672b},
		lookupItem{cp949: 0xd8c8, ucs2: 0x6cab},
		lookupItem{cp949: 0xd8c9, ucs2: 0x8309},
		lookupItem{cp949: 0xd8ca, ucs2: 0x896a},
		lookupItem{cp949: 0xd8cb, ucs2: 0x977a},
		lookupItem{cp949: 0xd8cc, ucs2: 0x4ea1},
		lookupItem{cp949: 0xd8cd, ucs2: 0x5984},
		lookupItem{cp949: 0xd8ce, ucs2: 0x5fd8},
		lookupItem{cp949: 0xd8cf, ucs2: 0x5fd9},
		lookupItem{cp949: 0xd8d0, ucs2: 0x671b},
		lookupItem{cp949: 0xd8d1, ucs2: 0x7db2},
		lookupItem{cp949: 0xd8d2, ucs2: 0x7f54},
		lookupItem{cp949: 0xd8d3, ucs2: 0x8292},
		lookupItem{cp949: 0xd8d4, ucs2: 0x832b},
		lookupItem{cp949: 0xd8d5, ucs2: 0x83bd},
		lookupItem{cp949: 0xd8d6, ucs2: 0x8f1e},
		lookupItem{cp949: 0xd8d7, ucs2: 0x9099},
		lookupItem{cp949: 0xd8d8, ucs2: 0x57cb},
		lookupItem{cp949: 0xd8d9, ucs2: 0x59b9},
		lookupItem{cp949: 0xd8da, ucs2: 0x5a92},
		lookupItem{cp949: 0xd8db, ucs2: 0x5bd0},
		lookupItem{cp949: 0xd8dc, ucs2: 0x6627},
		lookupItem{cp949: 0xd8dd, ucs2: 0x679a},
		lookupItem{cp949: 0xd8de, ucs2: 0x6885},
		lookupItem{cp949: 0xd8df, ucs2: 0x6bcf},
		lookupItem{cp949: 0xd8e0, ucs2: 0x7164},
		lookupItem{cp949: 0xd8e1, ucs2: 0x7f75},
		lookupItem{cp949: 0xd8e2, ucs2: 0x8cb7},
		lookupItem{cp949: 0xd8e3, ucs2: 0x8ce3},
		lookupItem{cp949: 0xd8e4, ucs2: 0x9081},
		lookupItem{cp949: 0xd8e5, ucs2: 0x9b45},
		lookupItem{cp949: 0xd8e6, ucs2: 0x8108},
		lookupItem{cp949: 0xd8e7, ucs2: 0x8c8a},
		lookupItem{cp949: 0xd8e8, ucs2: 0x964c},
		lookupItem{cp949: 0xd8e9, ucs2: 0x9a40},
		lookupItem{cp949: 0xd8ea, ucs2: 0x9ea5},
		lookupItem{cp949: 0xd8eb, ucs2: 0x5b5f},
		lookupItem{cp949: 0xd8ec, ucs2: 0x6c13},
		lookupItem{cp949: 0xd8ed, ucs2: 0x731b},
		lookupItem{cp949: 0xd8ee, ucs2: 0x76f2},
		lookupItem{cp949: 0xd8ef, ucs2: 0x76df},
		lookupItem{cp949: 0xd8f0, ucs2: 0x840c},
		lookupItem{cp949: 0xd8f1, ucs2: 0x51aa},
		lookupItem{cp949: 0xd8f2, ucs2: 0x8993},
		lookupItem{cp949: 0xd8f3, ucs2: 0x514d},
		lookupItem{cp949: 0xd8f4, ucs2: 0x5195},
		lookupItem{cp949: 0xd8f5, ucs2: 0x52c9},
		lookupItem{cp949: 0xd8f6, ucs2: 0x68c9},
		lookupItem{cp949: 0xd8f7, ucs2: 0x6c94},
		lookupItem{cp949: 0xd8f8, ucs2: 0x7704},
		lookupItem{cp949: 0xd8f9, ucs2: 0x7720},
		lookupItem{cp949: 0xd8fa, ucs2: 0x7dbf},
		lookupItem{cp949: 0xd8fb, ucs2: 0x7dec},
		lookupItem{cp949: 0xd8fc, ucs2: 0x9762},
		lookupItem{cp949: 0xd8fd, ucs2: 0x9eb5},
		lookupItem{cp949: 0xd8fe, ucs2: 0x6ec5},
		lookupItem{cp949: 0xd9a1, ucs2: 0x8511},
		lookupItem{cp949: 0xd9a2, ucs2: 0x51a5},
		lookupItem{cp949: 0xd9a3, ucs2: 0x540d},
		lookupItem{cp949: 0xd9a4, ucs2: 0x547d},
		lookupItem{cp949: 0xd9a5, ucs2: 0x660e},
		lookupItem{cp949: 0xd9a6, ucs2: 0x669d},
		lookupItem{cp949: 0xd9a7, ucs2: 0x6927},
		lookupItem{cp949: 0xd9a8, ucs2: 0x6e9f},
		lookupItem{cp949: 0xd9a9, ucs2: 0x76bf},
		lookupItem{cp949: 0xd9aa, ucs2: 0x7791},
		lookupItem{cp949: 0xd9ab, ucs2: 0x8317},
		lookupItem{cp949: 0xd9ac, ucs2: 0x84c2},
		lookupItem{cp949: 0xd9ad, ucs2: 0x879f},
		lookupItem{cp949: 0xd9ae, ucs2: 0x9169},
		lookupItem{cp949: 0xd9af, ucs2: 0x9298},
		lookupItem{cp949: 0xd9b0, ucs2: 0x9cf4},
		lookupItem{cp949: 0xd9b1, ucs2: 0x8882},
		lookupItem{cp949: 0xd9b2, ucs2: 0x4fae},
		lookupItem{cp949: 0xd9b3, ucs2: 0x5192},
		lookupItem{cp949: 0xd9b4, ucs2: 0x52df},
		lookupItem{cp949: 0xd9b5, ucs2: 0x59c6},
		lookupItem{cp949: 0xd9b6, ucs2: 0x5e3d},
		lookupItem{cp949: 0xd9b7, ucs2: 0x6155},
		lookupItem{cp949: 0xd9b8, ucs2: 0x6478},
		lookupItem{cp949: 0xd9b9, ucs2: 0x6479},
		lookupItem{cp949: 0xd9ba, ucs2: 0x66ae},
		lookupItem{cp949: 0xd9bb, ucs2: 0x67d0},
		lookupItem{cp949: 0xd9bc, ucs2: 0x6a21},
		lookupItem{cp949: 0xd9bd, ucs2: 0x6bcd},
		lookupItem{cp949: 0xd9be, ucs2: 0x6bdb},
		lookupItem{cp949: 0xd9bf, ucs2: 0x725f},
		lookupItem{cp949: 0xd9c0, ucs2: 0x7261},
		lookupItem{cp949: 0xd9c1, ucs2: 0x7441},
		lookupItem{cp949: 0xd9c2, ucs2: 0x7738},
		lookupItem{cp949: 0xd9c3, ucs2: 0x77db},
		lookupItem{cp949: 0xd9c4, ucs2: 0x8017},
		lookupItem{cp949: 0xd9c5, ucs2: 0x82bc},
		lookupItem{cp949: 0xd9c6, ucs2: 0x8305},
		lookupItem{cp949: 0xd9c7, ucs2: 0x8b00},
		lookupItem{cp949: 0xd9c8, ucs2: 0x8b28},
		lookupItem{cp949: 0xd9c9, ucs2: 0x8c8c},
		lookupItem{cp949: 0xd9ca, ucs2: 0x6728},
		lookupItem{cp949: 0xd9cb, ucs2: 0x6c90},
		lookupItem{cp949: 0xd9cc, ucs2: 0x7267},
		lookupItem{cp949: 0xd9cd, ucs2: 0x76ee},
		lookupItem{cp949: 0xd9ce, ucs2: 0x7766},
		lookupItem{cp949: 0xd9cf, ucs2: 0x7a46},
		lookupItem{cp949: 0xd9d0, ucs2: 0x9da9},
		lookupItem{cp949: 0xd9d1, ucs2: 0x6b7f},
		lookupItem{cp949: 0xd9d2, ucs2: 0x6c92},
		lookupItem{cp949: 0xd9d3, ucs2: 0x5922},
		lookupItem{cp949: 0xd9d4, ucs2: 0x6726},
		lookupItem{cp949: 0xd9d5, ucs2: 0x8499},
		lookupItem{cp949: 0xd9d6, ucs2: 0x536f},
		lookupItem{cp949: 0xd9d7, ucs2: 0x5893},
		lookupItem{cp949: 0xd9d8, ucs2: 0x5999},
		lookupItem{cp949: 0xd9d9, ucs2: 0x5edf},
		lookupItem{cp949: 0xd9da, ucs2: 0x63cf},
		lookupItem{cp949: 0xd9db, ucs2: 0x6634},
		lookupItem{cp949: 0xd9dc, ucs2: 0x6773},
		lookupItem{cp949: 0xd9dd, ucs2: 0x6e3a},
		lookupItem{cp949: 0xd9de, ucs2: 0x732b},
		lookupItem{cp949: 0xd9df, ucs2: 0x7ad7},
		lookupItem{cp949: 0xd9e0, ucs2: 0x82d7},
		lookupItem{cp949: 0xd9e1, ucs2: 0x9328},
		lookupItem{cp949: 0xd9e2, ucs2: 0x52d9},
		lookupItem{cp949: 0xd9e3, ucs2: 0x5deb},
		lookupItem{cp949: 0xd9e4, ucs2: 0x61ae},
		lookupItem{cp949: 0xd9e5, ucs2: 0x61cb},
		lookupItem{cp949: 0xd9e6, ucs2: 0x620a},
		lookupItem{cp949: 0xd9e7, ucs2: 0x62c7},
		lookupItem{cp949: 0xd9e8, ucs2: 0x64ab},
		lookupItem{cp949: 0xd9e9, ucs2: 0x65e0},
		lookupItem{cp949: 0xd9ea, ucs2: 0x6959},
		lookupItem{cp949: 0xd9eb, ucs2: 0x6b66},
		lookupItem{cp949: 0xd9ec, ucs2: 0x6bcb},
		lookupItem{cp949: 0xd9ed, ucs2: 0x7121},
		lookupItem{cp949: 0xd9ee, ucs2: 0x73f7},
		lookupItem{cp949: 0xd9ef, ucs2: 0x755d},
		lookupItem{cp949: 0xd9f0, ucs2: 0x7e46},
		lookupItem{cp949: 0xd9f1, ucs2: 0x821e},
		lookupItem{cp949: 0xd9f2, ucs2: 0x8302},
		lookupItem{cp949: 0xd9f3, ucs2: 0x856a},
		lookupItem{cp949: 0xd9f4, ucs2: 0x8aa3},
		lookupItem{cp949: 0xd9f5, ucs2: 0x8cbf},
		lookupItem{cp949: 0xd9f6, ucs2: 0x9727},
		lookupItem{cp949: 0xd9f7, ucs2: 0x9d61},
		lookupItem{cp949: 0xd9f8, ucs2: 0x58a8},
		lookupItem{cp949: 0xd9f9, ucs2: 0x9ed8},
		lookupItem{cp949: 0xd9fa, ucs2: 0x5011},
		lookupItem{cp949: 0xd9fb, ucs2: 0x520e},
		lookupItem{cp949: 0xd9fc, ucs2: 0x543b},
		lookupItem{cp949: 0xd9fd, ucs2: 0x554f},
		lookupItem{cp949: 0xd9fe, ucs2: 0x6587},
		lookupItem{cp949: 0xdaa1, ucs2: 0x6c76},
		lookupItem{cp949: 0xdaa2, ucs2: 0x7d0a},
		lookupItem{cp949: 0xdaa3, ucs2: 0x7d0b},
		lookupItem{cp949: 0xdaa4, ucs2: 0x805e},
		lookupItem{cp949: 0xdaa5, ucs2: 0x868a},
		lookupItem{cp949: 0xdaa6, ucs2: 0x9580},
		lookupItem{cp949: 0xdaa7, ucs2: 0x96ef},
		lookupItem{cp949: 0xdaa8, ucs2: 0x52ff},
		lookupItem{cp949: 0xdaa9, ucs2: 0x6c95},
		lookupItem{cp949: 0xdaaa, ucs2: 0x7269},
		lookupItem{cp949: 0xdaab, ucs2: 0x5473},
		lookupItem{cp949: 0xdaac, ucs2: 0x5a9a},
		lookupItem{cp949: 0xdaad, ucs2: 0x5c3e},
		lookupItem{cp949: 0xdaae, ucs2: 0x5d4b},
		lookupItem{cp949: 0xdaaf, ucs2: 0x5f4c},
		lookupItem{cp949: 0xdab0, ucs2: 0x5fae},
		lookupItem{cp949: 0xdab1, ucs2: 0x672a},
		lookupItem{cp949: 0xdab2, ucs2: 0x68b6},
		lookupItem{cp949: 0xdab3, ucs2: 0x6963},
		lookupItem{cp949: 0xdab4, ucs2: 0x6e3c},
		lookupItem{cp949: 0xdab5, ucs2: 0x6e44},
		lookupItem{cp949: 0xdab6, ucs2: 0x7709},
		lookupItem{cp949: 0xdab7, ucs2: 0x7c73},
		lookupItem{cp949: 0xdab8, ucs2: 0x7f8e},
		lookupItem{cp949: 0xdab9, ucs2: 0x8587},
		lookupItem{cp949: 0xdaba, ucs2: 0x8b0e},
		lookupItem{cp949: 0xdabb, ucs2: 0x8ff7},
		lookupItem{cp949: 0xdabc, ucs2: 0x9761},
		lookupItem{cp949: 0xdabd, ucs2: 0x9ef4},
		lookupItem{cp949: 0xdabe, ucs2: 0x5cb7},
		lookupItem{cp949: 0xdabf, ucs2: 0x60b6},
		lookupItem{cp949: 0xdac0, ucs2: 0x610d},
		lookupItem{cp949: 0xdac1, ucs2: 0x61ab},
		lookupItem{cp949: 0xdac2, ucs2: 0x654f},
		lookupItem{cp949: 0xdac3, ucs2: 0x65fb},
		lookupItem{cp949: 0xdac4, ucs2: 0x65fc},
		lookupItem{cp949: 0xdac5, ucs2: 0x6c11},
		lookupItem{cp949: 0xdac6, ucs2: 0x6cef},
		lookupItem{cp949: 0xdac7, ucs2: 0x739f},
		lookupItem{cp949: 0xdac8, ucs2: 0x73c9},
		lookupItem{cp949: 0xdac9, ucs2: 0x7de1},
		lookupItem{cp949: 0xdaca, ucs2: 0x9594},
		lookupItem{cp949: 0xdacb, ucs2: 0x5bc6},
		lookupItem{cp949: 0xdacc, ucs2: 0x871c},
		lookupItem{cp949: 0xdacd, ucs2: 0x8b10},
		lookupItem{cp949: 0xdace, ucs2: 0x525d},
		lookupItem{cp949: 0xdacf, ucs2: 0x535a},
		lookupItem{cp949: 0xdad0, ucs2: 0x62cd},
		lookupItem{cp949: 0xdad1, ucs2: 0x640f},
		lookupItem{cp949: 0xdad2, ucs2: 0x64b2},
		lookupItem{cp949: 0xdad3, ucs2: 0x6734},
		lookupItem{cp949: 0xdad4, ucs2: 0x6a38},
		lookupItem{cp949: 0xdad5, ucs2: 0x6cca},
		lookupItem{cp949: 0xdad6, ucs2: 0x73c0},
		lookupItem{cp949: 0xdad7, ucs2: 0x749e},
		lookupItem{cp949: 0xdad8, ucs2: 0x7b94},
		lookupItem{cp949: 0xdad9, ucs2: 0x7c95},
		lookupItem{cp949: 0xdada, ucs2: 0x7e1b},
		lookupItem{cp949: 0xdadb, ucs2: 0x818a},
		lookupItem{cp949: 0xdadc, ucs2: 0x8236},
		lookupItem{cp949: 0xdadd, ucs2: 0x8584},
		lookupItem{cp949: 0xdade, ucs2: 0x8feb},
		lookupItem{cp949: 0xdadf, ucs2: 0x96f9},
		lookupItem{cp949: 0xdae0, ucs2: 0x99c1},
		lookupItem{cp949: 0xdae1, ucs2: 0x4f34},
		lookupItem{cp949: 0xdae2, ucs2: 0x534a},
		lookupItem{cp949: 0xdae3, ucs2: 0x53cd},
		lookupItem{cp949: 0xdae4, ucs2: 0x53db},
		lookupItem{cp949: 0xdae5, ucs2: 0x62cc},
		lookupItem{cp949: 0xdae6, ucs2: 0x642c},
		lookupItem{cp949: 0xdae7, ucs2: 0x6500},
		lookupItem{cp949: 0xdae8, ucs2: 0x6591},
		lookupItem{cp949: 0xdae9, ucs2: 0x69c3},
		lookupItem{cp949: 0xdaea, ucs2: 0x6cee},
		lookupItem{cp949: 0xdaeb, ucs2: 0x6f58},
		lookupItem{cp949: 0xdaec, ucs2: 0x73ed},
		lookupItem{cp949: 0xdaed, ucs2: 0x7554},
		lookupItem{cp949: 0xdaee, ucs2: 0x7622},
".
Definition text_cp949_lookup_from_055 : string :=
"		lookupItem{cp949: 0xdaef, ucs2: 0x76e4},
		lookupItem{cp949: 0xdaf0, ucs2: 0x76fc},
		lookupItem{cp949: 0xdaf1, ucs2: 0x78d0},
		lookupItem{cp949: 0xdaf2, ucs2: 0x78fb},
		lookupItem{cp949: 0xdaf3, ucs2: 0x792c},
		lookupItem{cp949: 0xdaf4, ucs2: 0x7d46},
		lookupItem{cp949: 0xdaf5, ucs2: 0x822c},
		lookupItem{cp949: 0xdaf6, ucs2: 0x87e0},
		lookupItem{cp949: 0xdaf7, ucs2: 0x8fd4},
		lookupItem{cp949: 0xdaf8, ucs2: 0x9812},
		lookupItem{cp949: 0xdaf9, ucs2: 0x98ef},
		lookupItem{cp949: 0xdafa, ucs2: 0x52c3},
		lookupItem{cp949: 0xdafb, ucs2: 0x62d4},
		lookupItem{cp949: 0xdafc, ucs2: 0x64a5},
		lookupItem{cp949: 0xdafd, ucs2: 0x6e24},
		lookupItem{cp949: 0xdafe, ucs2: 0x6f51},
		lookupItem{cp949: 0xdba1, ucs2: 0x767c},
		lookupItem{cp949: 0xdba2, ucs2: 0x8dcb},
		lookupItem{cp949: 0xdba3, ucs2: 0x91b1},
		lookupItem{cp949: 0xdba4, ucs2: 0x9262},
		lookupItem{cp949: 0xdba5, ucs2: 0x9aee},
		lookupItem{cp949: 0xdba6, ucs2: 0x9b43},
		lookupItem{cp949: 0xdba7, ucs2: 0x5023},
		lookupItem{cp949: 0xdba8, ucs2: 0x508d},
		lookupItem{cp949: 0xdba9, ucs2: 0x574a},
		lookupItem{cp949: 0xdbaa, ucs2: 0x59a8},
		lookupItem{cp949: 0xdbab, ucs2: 0x5c28},
		lookupItem{cp949: 0xdbac, ucs2: 0x5e47},
		lookupItem{cp949: 0xdbad, ucs2: 0x5f77},
		lookupItem{cp949: 0xdbae, ucs2: 0x623f},
		lookupItem{cp949: 0xdbaf, ucs2: 0x653e},
		lookupItem{cp949: 0xdbb0, ucs2: 0x65b9},
		lookupItem{cp949: 0xdbb1, ucs2: 0x65c1},
		lookupItem{cp949: 0xdbb2, ucs2: 0x6609},
		lookupItem{cp949: 0xdbb3, ucs2: 0x678b},
		lookupItem{cp949: 0xdbb4, ucs2: 0x699c},
		lookupItem{cp949: 0xdbb5, ucs2: 0x6ec2},
		lookupItem{cp949: 0xdbb6, ucs2: 0x78c5},
		lookupItem{cp949: 0xdbb7, ucs2: 0x7d21},
		lookupItem{cp949: 0xdbb8, ucs2: 0x80aa},
		lookupItem{cp949: 0xdbb9, ucs2: 0x8180},
		lookupItem{cp949: 0xdbba, ucs2: 0x822b},
		lookupItem{cp949: 0xdbbb, ucs2: 0x82b3},
		lookupItem{cp949: 0xdbbc, ucs2: 0x84a1},
		lookupItem{cp949: 0xdbbd, ucs2: 0x868c},
		lookupItem{cp949: 0xdbbe, ucs2: 0x8a2a},
		lookupItem{cp949: 0xdbbf, ucs2: 0x8b17},
		lookupItem{cp949: 0xdbc0, ucs2: 0x90a6},
		lookupItem{cp949: 0xdbc1, ucs2: 0x9632},
		lookupItem{cp949: 0xdbc2, ucs2: 0x9f90},
		lookupItem{cp949: 0xdbc3, ucs2: 0x500d},
		lookupItem{cp949: 0xdbc4, ucs2: 0x4ff3},
		lookupItem{cp949: 0xdbc5, ucs2: 0xf963},
		lookupItem{cp949: 0xdbc6, ucs2: 0x57f9},
		lookupItem{cp949: 0xdbc7, ucs2: 0x5f98},
		lookupItem{cp949: 0xdbc8, ucs2: 0x62dc},
		lookupItem{cp949: 0xdbc9, ucs2: 0x6392},
		lookupItem{cp949: 0xdbca, ucs2: 0x676f},
		lookupItem{cp949: 0xdbcb, ucs2: 0x6e43},
		lookupItem{cp949: 0xdbcc, ucs2: 0x7119},
		lookupItem{cp949: 0xdbcd, ucs2: 0x76c3},
		lookupItem{cp949: 0xdbce, ucs2: 0x80cc},
		lookupItem{cp949: 0xdbcf, ucs2: 0x80da},
		lookupItem{cp949: 0xdbd0, ucs2: 0x88f4},
		lookupItem{cp949: 0xdbd1, ucs2: 0x88f5},
		lookupItem{cp949: 0xdbd2, ucs2: 0x8919},
		lookupItem{cp949: 0xdbd3, ucs2: 0x8ce0},
		lookupItem{cp949: 0xdbd4, ucs2: 0x8f29},
		lookupItem{cp949: 0xdbd5, ucs2: 0x914d},
		lookupItem{cp949: 0xdbd6, ucs2: 0x966a},
		lookupItem{cp949: 0xdbd7, ucs2: 0x4f2f},
		lookupItem{cp949: 0xdbd8, ucs2: 0x4f70},
		lookupItem{cp949: 0xdbd9, ucs2: 0x5e1b},
		lookupItem{cp949: 0xdbda, ucs2: 0x67cf},
		lookupItem{cp949: 0xdbdb, ucs2: 0x6822},
		lookupItem{cp949: 0xdbdc, ucs2: 0x767d},
		lookupItem{cp949: 0xdbdd, ucs2: 0x767e},
		lookupItem{cp949: 0xdbde, ucs2: 0x9b44},
		lookupItem{cp949: 0xdbdf, ucs2: 0x5e61},
		lookupItem{cp949: 0xdbe0, ucs2: 0x6a0a},
		lookupItem{cp949: 0xdbe1, ucs2: 0x7169},
		lookupItem{cp949: 0xdbe2, ucs2: 0x71d4},
		lookupItem{cp949: 0xdbe3, ucs2: 0x756a},
		lookupItem{cp949: 0xdbe4, ucs2: 0xf964},
		lookupItem{cp949: 0xdbe5, ucs2: 0x7e41},
		lookupItem{cp949: 0xdbe6, ucs2: 0x8543},
		lookupItem{cp949: 0xdbe7, ucs2: 0x85e9},
		lookupItem{cp949: 0xdbe8, ucs2: 0x98dc},
		lookupItem{cp949: 0xdbe9, ucs2: 0x4f10},
		lookupItem{cp949: 0xdbea, ucs2: 0x7b4f},
		lookupItem{cp949: 0xdbeb, ucs2: 0x7f70},
		lookupItem{cp949: 0xdbec, ucs2: 0x95a5},
		lookupItem{cp949: 0xdbed, ucs2: 0x51e1},
		lookupItem{cp949: 0xdbee, ucs2: 0x5e06},
		lookupItem{cp949: 0xdbef, ucs2: 0x68b5},
		lookupItem{cp949: 0xdbf0, ucs2: 0x6c3e},
		lookupItem{cp949: 0xdbf1, ucs2: 0x6c4e},
		lookupItem{cp949: 0xdbf2, ucs2: 0x6cdb},
		lookupItem{cp949: 0xdbf3, ucs2: 0x72af},
		lookupItem{cp949: 0xdbf4, ucs2: 0x7bc4},
		lookupItem{cp949: 0xdbf5, ucs2: 0x8303},
		lookupItem{cp949: 0xdbf6, ucs2: 0x6cd5},
		lookupItem{cp949: 0xdbf7, ucs2: 0x743a},
		lookupItem{cp949: 0xdbf8, ucs2: 0x50fb},
		lookupItem{cp949: 0xdbf9, ucs2: 0x5288},
		lookupItem{cp949: 0xdbfa, ucs2: 0x58c1},
		lookupItem{cp949: 0xdbfb, ucs2: 0x64d8},
		lookupItem{cp949: 0xdbfc, ucs2: 0x6a97},
		lookupItem{cp949: 0xdbfd, ucs2: 0x74a7},
		lookupItem{cp949: 0xdbfe, ucs2: 0x7656},
		lookupItem{cp949: 0xdca1, ucs2: 0x78a7},
		lookupItem{cp949: 0xdca2, ucs2: 0x8617},
		lookupItem{cp949: 0xdca3, ucs2: 0x95e2},
		lookupItem{cp949: 0xdca4, ucs2: 0x9739},
		lookupItem{cp949: 0xdca5, ucs2: 0xf965},
		lookupItem{cp949: 0xdca6, ucs2: 0x535e},
		lookupItem{cp949: 0xdca7, ucs2: 0x5f01},
		lookupItem{cp949: 0xdca8, ucs2: 0x8b8a},
		lookupItem{cp949: 0xdca9, ucs2: 0x8fa8},
		lookupItem{cp949: 0xdcaa, ucs2: 0x8faf},
		lookupItem{cp949: 0xdcab, ucs2: 0x908a},
		lookupItem{cp949: 0xdcac, ucs2: 0x5225},
		lookupItem{cp949: 0xdcad, ucs2: 0x77a5},
		lookupItem{cp949: 0xdcae, ucs2: 0x9c49},
		lookupItem{cp949: 0xdcaf, ucs2: 0x9f08},
		lookupItem{cp949: 0xdcb0, ucs2: 0x4e19},
		lookupItem{cp949: 0xdcb1, ucs2: 0x5002},
		lookupItem{cp949: 0xdcb2, ucs2: 0x5175},
		lookupItem{cp949: 0xdcb3, ucs2: 0x5c5b},
		lookupItem{cp949: 0xdcb4, ucs2: 0x5e77},
		lookupItem{cp949: 0xdcb5, ucs2: 0x661e},
		lookupItem{cp949: 0xdcb6, ucs2: 0x663a},
		lookupItem{cp949: 0xdcb7, ucs2: 0x67c4},
		lookupItem{cp949: 0xdcb8, ucs2: 0x68c5},
		lookupItem{cp949: 0xdcb9, ucs2: 0x70b3},
		lookupItem{cp949: 0xdcba, ucs2: 0x7501},
		lookupItem{cp949: 0xdcbb, ucs2: 0x75c5},
		lookupItem{cp949: 0xdcbc, ucs2: 0x79c9},
		lookupItem{cp949: 0xdcbd, ucs2: 0x7add},
		lookupItem{cp949: 0xdcbe, ucs2: 0x8f27},
		lookupItem{cp949: 0xdcbf, ucs2: 0x9920},
		lookupItem{cp949: 0xdcc0, ucs2: 0x9a08},
		lookupItem{cp949: 0xdcc1, ucs2: 0x4fdd},
		lookupItem{cp949: 0xdcc2, ucs2: 0x5821},
		lookupItem{cp949: 0xdcc3, ucs2: 0x5831},
		lookupItem{cp949: 0xdcc4, ucs2: 0x5bf6},
		lookupItem{cp949: 0xdcc5, ucs2: 0x666e},
		lookupItem{cp949: 0xdcc6, ucs2: 0x6b65},
		lookupItem{cp949: 0xdcc7, ucs2: 0x6d11},
		lookupItem{cp949: 0xdcc8, ucs2: 0x6e7a},
		lookupItem{cp949: 0xdcc9, ucs2: 0x6f7d},
		lookupItem{cp949: 0xdcca, ucs2: 0x73e4},
		lookupItem{cp949: 0xdccb, ucs2: 0x752b},
		lookupItem{cp949: 0xdccc, ucs2: 0x83e9},
		lookupItem{cp949: 0xdccd, ucs2: 0x88dc},
		lookupItem{cp949: 0xdcce, ucs2: 0x8913},
		lookupItem{cp949: 0xdccf, ucs2: 0x8b5c},
		lookupItem{cp949: 0xdcd0, ucs2: 0x8f14},
		lookupItem{cp949: 0xdcd1, ucs2: 0x4f0f},
		lookupItem{cp949: 0xdcd2, ucs2: 0x50d5},
		lookupItem{cp949: 0xdcd3, ucs2: 0x5310},
		lookupItem{cp949: 0xdcd4, ucs2: 0x535c},
		lookupItem{cp949: 0xdcd5, ucs2: 0x5b93},
		lookupItem{cp949: 0xdcd6, ucs2: 0x5fa9},
		lookupItem{cp949: 0xdcd7, ucs2: 0x670d},
		lookupItem{cp949: 0xdcd8, ucs2: 0x798f},
		lookupItem{cp949: 0xdcd9, ucs2: 0x8179},
		lookupItem{cp949: 0xdcda, ucs2: 0x832f},
		lookupItem{cp949: 0xdcdb, ucs2: 0x8514},
		lookupItem{cp949: 0xdcdc, ucs2: 0x8907},
		lookupItem{cp949: 0xdcdd, ucs2: 0x8986},
		lookupItem{cp949: 0xdcde, ucs2: 0x8f39},
		lookupItem{cp949: 0xdcdf, ucs2: 0x8f3b},
		lookupItem{cp949: 0xdce0, ucs2: 0x99a5},
		lookupItem{cp949: 0xdce1, ucs2: 0x9c12},
		lookupItem{cp949: 0xdce2, ucs2: 0x672c},
		lookupItem{cp949: 0xdce3, ucs2: 0x4e76},
		lookupItem{cp949: 0xdce4, ucs2: 0x4ff8},
		lookupItem{cp949: 0xdce5, ucs2: 0x5949},
		lookupItem{cp949: 0xdce6, ucs2: 0x5c01},
		lookupItem{cp949: 0xdce7, ucs2: 0x5cef},
		lookupItem{cp949: 0xdce8, ucs2: 0x5cf0},
		lookupItem{cp949: 0xdce9, ucs2: 0x6367},
		lookupItem{cp949: 0xdcea, ucs2: 0x68d2},
		lookupItem{cp949: 0xdceb, ucs2: 0x70fd},
		lookupItem{cp949: 0xdcec, ucs2: 0x71a2},
		lookupItem{cp949: 0xdced, ucs2: 0x742b},
		lookupItem{cp949: 0xdcee, ucs2: 0x7e2b},
		lookupItem{cp949: 0xdcef, ucs2: 0x84ec},
		lookupItem{cp949: 0xdcf0, ucs2: 0x8702},
		lookupItem{cp949: 0xdcf1, ucs2: 0x9022},
		lookupItem{cp949: 0xdcf2, ucs2: 0x92d2},
		lookupItem{cp949: 0xdcf3, ucs2: 0x9cf3},
		lookupItem{cp949: 0xdcf4, ucs2: 0x4e0d},
		lookupItem{cp949: 0xdcf5, ucs2: 0x4ed8},
		lookupItem{cp949: 0xdcf6, ucs2: 0x4fef},
		lookupItem{cp949: 0xdcf7, ucs2: 0x5085},
		lookupItem{cp949: 0xdcf8, ucs2: 0x5256},
		lookupItem{cp949: 0xdcf9, ucs2: 0x526f},
		lookupItem{cp949: 0xdcfa, ucs2: 0x5426},
		lookupItem{cp949: 0xdcfb, ucs2: 0x5490},
		lookupItem{cp949: 0xdcfc, ucs2: 0x57e0},
		lookupItem{cp949: 0xdcfd, ucs2: 0x592b},
		lookupItem{cp949: 0xdcfe, ucs2: 0x5a66},
		lookupItem{cp949: 0xdda1, ucs2: 0x5b5a},
		lookupItem{cp949: 0xdda2, ucs2: 0x5b75},
		lookupItem{cp949: 0xdda3, ucs2: 0x5bcc},
		lookupItem{cp949: 0xdda4, ucs2: 0x5e9c},
		lookupItem{cp949: 0xdda5, ucs2: 0xf966},
		lookupItem{cp949: 0xdda6, ucs2: 0x6276},
		lookupItem{cp949: 0xdda7, ucs2: 0x6577},
		lookupItem{cp949: 0xdda8, ucs2: 0x65a7},
		lookupItem{cp949: 0xdda9, ucs2: 0x6d6e},
		lookupItem{cp949: 0xddaa, ucs2: 0x6ea5},
		lookupItem{cp949: 0xddab, ucs2: 0x7236},
		lookupItem{cp949: 0xddac, ucs2: 0x7b26},
		lookupItem{cp949: 0xddad, ucs2: 0x7c3f},
		lookupItem{cp949: 0xddae, ucs2: 0x7f36},
		lookupItem{cp949: 0xddaf, ucs2: 0x8150},
		lookupItem{cp949: 0xddb0, ucs2: 0x8151},
		lookupItem{cp949: 0xddb1, ucs2: 0x819a},
		lookupItem{cp949: 0xddb2, ucs2: 0x8240},
		lookupItem{cp949: 0xddb3, ucs2: 0x8299},
		lookupItem{cp949: 0xddb4, ucs2: 0x83a9},
		lookupItem{cp949: 0xddb5, ucs2: 0x8a03},
		lookupItem{cp949: 0xddb6, ucs2: 0x8ca0},
		lookupItem{cp949: 0xddb7, ucs2: 0x8ce6},
		lookupItem{cp949: 0xddb8, ucs2: 0x8cfb},
		lookupItem{cp949: 0xddb9, ucs2: 0x8d74},
		lookupItem{cp949: 0xddba, ucs2: 0x8dba},
		lookupItem{cp949: 0xddbb, ucs2: 0x90e8},
		lookupItem{cp949: 0xddbc, ucs2: 0x91dc},
		lookupItem{cp949: 0xddbd, ucs2: 0x961c},
		lookupItem{cp949: 0xddbe, ucs2: 0x9644},
		lookupItem{cp949: 0xddbf, ucs2: 0x99d9},
		lookupItem{cp949: 0xddc0, ucs2: 0x9ce7},
		lookupItem{cp949: 0xddc1, ucs2: 0x5317},
		lookupItem{cp949: 0xddc2, ucs2: 0x5206},
		lookupItem{cp949: 0xddc3, ucs2: 0x5429},
		lookupItem{cp949: 0xddc4, ucs2: 0x5674},
		lookupItem{cp949: 0xddc5, ucs2: 0x58b3},
		lookupItem{cp949: 0xddc6, ucs2: 0x5954},
		lookupItem{cp949: 0xddc7, ucs2: 0x596e},
		lookupItem{cp949: 0xddc8, ucs2: 0x5fff},
		lookupItem{cp949: 0xddc9, ucs2: 0x61a4},
		lookupItem{cp949: 0xddca, ucs2: 0x626e},
		lookupItem{cp949: 0xddcb, ucs2: 0x6610},
		lookupItem{cp949: 0xddcc, ucs2: 0x6c7e},
		lookupItem{cp949: 0xddcd, ucs2: 0x711a},
		lookupItem{cp949: 0xddce, ucs2: 0x76c6},
".
Definition text_cp949_lookup_from_056 : string :=
"		lookupItem{cp949: 0xddcf, ucs2: 0x7c89},
		lookupItem{cp949: 0xddd0, ucs2: 0x7cde},
		lookupItem{cp949: 0xddd1, ucs2: 0x7d1b},
		lookupItem{cp949: 0xddd2, ucs2: 0x82ac},
		lookupItem{cp949: 0xddd3, ucs2: 0x8cc1},
		lookupItem{cp949: 0xddd4, ucs2: 0x96f0},
		lookupItem{cp949: 0xddd5, ucs2: 0xf967},
		lookupItem{cp949: 0xddd6, ucs2: 0x4f5b},
		lookupItem{cp949: 0xddd7, ucs2: 0x5f17},
		lookupItem{cp949: 0xddd8, ucs2: 0x5f7f},
		lookupItem{cp949: 0xddd9, ucs2: 0x62c2},
		lookupItem{cp949: 0xddda, ucs2: 0x5d29},
		lookupItem{cp949: 0xdddb, ucs2: 0x670b},
		lookupItem{cp949: 0xdddc, ucs2: 0x68da},
		lookupItem{cp949: 0xdddd, ucs2: 0x787c},
		lookupItem{cp949: 0xddde, ucs2: 0x7e43},
		lookupItem{cp949: 0xdddf, ucs2: 0x9d6c},
		lookupItem{cp949: 0xdde0, ucs2: 0x4e15},
		lookupItem{cp949: 0xdde1, ucs2: 0x5099},
		lookupItem{cp949: 0xdde2, ucs2: 0x5315},
		lookupItem{cp949: 0xdde3, ucs2: 0x532a},
		lookupItem{cp949: 0xdde4, ucs2: 0x5351},
		lookupItem{cp949: 0xdde5, ucs2: 0x5983},
		lookupItem{cp949: 0xdde6, ucs2: 0x5a62},
		lookupItem{cp949: 0xdde7, ucs2: 0x5e87},
		lookupItem{cp949: 0xdde8, ucs2: 0x60b2},
		lookupItem{cp949: 0xdde9, ucs2: 0x618a},
		lookupItem{cp949: 0xddea, ucs2: 0x6249},
		lookupItem{cp949: 0xddeb, ucs2: 0x6279},
		lookupItem{cp949: 0xddec, ucs2: 0x6590},
		lookupItem{cp949: 0xdded, ucs2: 0x6787},
		lookupItem{cp949: 0xddee, ucs2: 0x69a7},
		lookupItem{cp949: 0xddef, ucs2: 0x6bd4},
		lookupItem{cp949: 0xddf0, ucs2: 0x6bd6},
		lookupItem{cp949: 0xddf1, ucs2: 0x6bd7},
		lookupItem{cp949: 0xddf2, ucs2: 0x6bd8},
		lookupItem{cp949: 0xddf3, ucs2: 0x6cb8},
		lookupItem{cp949: 0xddf4, ucs2: 0xf968},
		lookupItem{cp949: 0xddf5, ucs2: 0x7435},
		lookupItem{cp949: 0xddf6, ucs2: 0x75fa},
		lookupItem{cp949: 0xddf7, ucs2: 0x7812},
		lookupItem{cp949: 0xddf8, ucs2: 0x7891},
		lookupItem{cp949: 0xddf9, ucs2: 0x79d5},
		lookupItem{cp949: 0xddfa, ucs2: 0x79d8},
		lookupItem{cp949: 0xddfb, ucs2: 0x7c83},
		lookupItem{cp949: 0xddfc, ucs2: 0x7dcb},
		lookupItem{cp949: 0xddfd, ucs2: 0x7fe1},
		lookupItem{cp949: 0xddfe, ucs2: 0x80a5},
		lookupItem{cp949: 0xdea1, ucs2: 0x813e},
		lookupItem{cp949: 0xdea2, ucs2: 0x81c2},
		lookupItem{cp949: 0xdea3, ucs2: 0x83f2},
		lookupItem{cp949: 0xdea4, ucs2: 0x871a},
		lookupItem{cp949: 0xdea5, ucs2: 0x88e8},
		lookupItem{cp949: 0xdea6, ucs2: 0x8ab9},
		lookupItem{cp949: 0xdea7, ucs2: 0x8b6c},
		lookupItem{cp949: 0xdea8, ucs2: 0x8cbb},
		lookupItem{cp949: 0xdea9, ucs2: 0x9119},
		lookupItem{cp949: 0xdeaa, ucs2: 0x975e},
		lookupItem{cp949: 0xdeab, ucs2: 0x98db},
		lookupItem{cp949: 0xdeac, ucs2: 0x9f3b},
		lookupItem{cp949: 0xdead, ucs2: 0x56ac},
		lookupItem{cp949: 0xdeae, ucs2: 0x5b2a},
		lookupItem{cp949: 0xdeaf, ucs2: 0x5f6c},
		lookupItem{cp949: 0xdeb0, ucs2: 0x658c},
		lookupItem{cp949: 0xdeb1, ucs2: 0x6ab3},
		lookupItem{cp949: 0xdeb2, ucs2: 0x6baf},
		lookupItem{cp949: 0xdeb3, ucs2: 0x6d5c},
		lookupItem{cp949: 0xdeb4, ucs2: 0x6ff1},
		lookupItem{cp949: 0xdeb5, ucs2: 0x7015},
		lookupItem{cp949: 0xdeb6, ucs2: 0x725d},
		lookupItem{cp949: 0xdeb7, ucs2: 0x73ad},
		lookupItem{cp949: 0xdeb8, ucs2: 0x8ca7},
		lookupItem{cp949: 0xdeb9, ucs2: 0x8cd3},
		lookupItem{cp949: 0xdeba, ucs2: 0x983b},
		lookupItem{cp949: 0xdebb, ucs2: 0x6191},
		lookupItem{cp949: 0xdebc, ucs2: 0x6c37},
		lookupItem{cp949: 0xdebd, ucs2: 0x8058},
		lookupItem{cp949: 0xdebe, ucs2: 0x9a01},
		lookupItem{cp949: 0xdebf, ucs2: 0x4e4d},
		lookupItem{cp949: 0xdec0, ucs2: 0x4e8b},
		lookupItem{cp949: 0xdec1, ucs2: 0x4e9b},
		lookupItem{cp949: 0xdec2, ucs2: 0x4ed5},
		lookupItem{cp949: 0xdec3, ucs2: 0x4f3a},
		lookupItem{cp949: 0xdec4, ucs2: 0x4f3c},
		lookupItem{cp949: 0xdec5, ucs2: 0x4f7f},
		lookupItem{cp949: 0xdec6, ucs2: 0x4fdf},
		lookupItem{cp949: 0xdec7, ucs2: 0x50ff},
		lookupItem{cp949: 0xdec8, ucs2: 0x53f2},
		lookupItem{cp949: 0xdec9, ucs2: 0x53f8},
		lookupItem{cp949: 0xdeca, ucs2: 0x5506},
		lookupItem{cp949: 0xdecb, ucs2: 0x55e3},
		lookupItem{cp949: 0xdecc, ucs2: 0x56db},
		lookupItem{cp949: 0xdecd, ucs2: 0x58eb},
		lookupItem{cp949: 0xdece, ucs2: 0x5962},
		lookupItem{cp949: 0xdecf, ucs2: 0x5a11},
		lookupItem{cp949: 0xded0, ucs2: 0x5beb},
		lookupItem{cp949: 0xded1, ucs2: 0x5bfa},
		lookupItem{cp949: 0xded2, ucs2: 0x5c04},
		lookupItem{cp949: 0xded3, ucs2: 0x5df3},
		lookupItem{cp949: 0xded4, ucs2: 0x5e2b},
		lookupItem{cp949: 0xded5, ucs2: 0x5f99},
		lookupItem{cp949: 0xded6, ucs2: 0x601d},
		lookupItem{cp949: 0xded7, ucs2: 0x6368},
		lookupItem{cp949: 0xded8, ucs2: 0x659c},
		lookupItem{cp949: 0xded9, ucs2: 0x65af},
		lookupItem{cp949: 0xdeda, ucs2: 0x67f6},
		lookupItem{cp949: 0xdedb, ucs2: 0x67fb},
		lookupItem{cp949: 0xdedc, ucs2: 0x68ad},
		lookupItem{cp949: 0xdedd, ucs2: 0x6b7b},
		lookupItem{cp949: 0xdede, ucs2: 0x6c99},
		lookupItem{cp949: 0xdedf, ucs2: 0x6cd7},
		lookupItem{cp949: 0xdee0, ucs2: 0x6e23},
		lookupItem{cp949: 0xdee1, ucs2: 0x7009},
		lookupItem{cp949: 0xdee2, ucs2: 0x7345},
		lookupItem{cp949: 0xdee3, ucs2: 0x7802},
		lookupItem{cp949: 0xdee4, ucs2: 0x793e},
		lookupItem{cp949: 0xdee5, ucs2: 0x7940},
		lookupItem{cp949: 0xdee6, ucs2: 0x7960},
		lookupItem{cp949: 0xdee7, ucs2: 0x79c1},
		lookupItem{cp949: 0xdee8, ucs2: 0x7be9},
		lookupItem{cp949: 0xdee9, ucs2: 0x7d17},
		lookupItem{cp949: 0xdeea, ucs2: 0x7d72},
		lookupItem{cp949: 0xdeeb, ucs2: 0x8086},
		lookupItem{cp949: 0xdeec, ucs2: 0x820d},
		lookupItem{cp949: 0xdeed, ucs2: 0x838e},
		lookupItem{cp949: 0xdeee, ucs2: 0x84d1},
		lookupItem{cp949: 0xdeef, ucs2: 0x86c7},
		lookupItem{cp949: 0xdef0, ucs2: 0x88df},
		lookupItem{cp949: 0xdef1, ucs2: 0x8a50},
		lookupItem{cp949: 0xdef2, ucs2: 0x8a5e},
		lookupItem{cp949: 0xdef3, ucs2: 0x8b1d},
		lookupItem{cp949: 0xdef4, ucs2: 0x8cdc},
		lookupItem{cp949: 0xdef5, ucs2: 0x8d66},
		lookupItem{cp949: 0xdef6, ucs2: 0x8fad},
		lookupItem{cp949: 0xdef7, ucs2: 0x90aa},
		lookupItem{cp949: 0xdef8, ucs2: 0x98fc},
		lookupItem{cp949: 0xdef9, ucs2: 0x99df},
		lookupItem{cp949: 0xdefa, ucs2: 0x9e9d},
		lookupItem{cp949: 0xdefb, ucs2: 0x524a},
		lookupItem{cp949: 0xdefc, ucs2: 0xf969},
		lookupItem{cp949: 0xdefd, ucs2: 0x6714},
		lookupItem{cp949: 0xdefe, ucs2: 0xf96a},
		lookupItem{cp949: 0xdfa1, ucs2: 0x5098},
		lookupItem{cp949: 0xdfa2, ucs2: 0x522a},
		lookupItem{cp949: 0xdfa3, ucs2: 0x5c71},
		lookupItem{cp949: 0xdfa4, ucs2: 0x6563},
		lookupItem{cp949: 0xdfa5, ucs2: 0x6c55},
		lookupItem{cp949: 0xdfa6, ucs2: 0x73ca},
		lookupItem{cp949: 0xdfa7, ucs2: 0x7523},
		lookupItem{cp949: 0xdfa8, ucs2: 0x759d},
		lookupItem{cp949: 0xdfa9, ucs2: 0x7b97},
		lookupItem{cp949: 0xdfaa, ucs2: 0x849c},
		lookupItem{cp949: 0xdfab, ucs2: 0x9178},
		lookupItem{cp949: 0xdfac, ucs2: 0x9730},
		lookupItem{cp949: 0xdfad, ucs2: 0x4e77},
		lookupItem{cp949: 0xdfae, ucs2: 0x6492},
		lookupItem{cp949: 0xdfaf, ucs2: 0x6bba},
		lookupItem{cp949: 0xdfb0, ucs2: 0x715e},
		lookupItem{cp949: 0xdfb1, ucs2: 0x85a9},
		lookupItem{cp949: 0xdfb2, ucs2: 0x4e09},
		lookupItem{cp949: 0xdfb3, ucs2: 0xf96b},
		lookupItem{cp949: 0xdfb4, ucs2: 0x6749},
		lookupItem{cp949: 0xdfb5, ucs2: 0x68ee},
		lookupItem{cp949: 0xdfb6, ucs2: 0x6e17},
		lookupItem{cp949: 0xdfb7, ucs2: 0x829f},
		lookupItem{cp949: 0xdfb8, ucs2: 0x8518},
		lookupItem{cp949: 0xdfb9, ucs2: 0x886b},
		lookupItem{cp949: 0xdfba, ucs2: 0x63f7},
		lookupItem{cp949: 0xdfbb, ucs2: 0x6f81},
		lookupItem{cp949: 0xdfbc, ucs2: 0x9212},
		lookupItem{cp949: 0xdfbd, ucs2: 0x98af},
		lookupItem{cp949: 0xdfbe, ucs2: 0x4e0a},
		lookupItem{cp949: 0xdfbf, ucs2: 0x50b7},
		lookupItem{cp949: 0xdfc0, ucs2: 0x50cf},
		lookupItem{cp949: 0xdfc1, ucs2: 0x511f},
		lookupItem{cp949: 0xdfc2, ucs2: 0x5546},
		lookupItem{cp949: 0xdfc3, ucs2: 0x55aa},
		lookupItem{cp949: 0xdfc4, ucs2: 0x5617},
		lookupItem{cp949: 0xdfc5, ucs2: 0x5b40},
		lookupItem{cp949: 0xdfc6, ucs2: 0x5c19},
		lookupItem{cp949: 0xdfc7, ucs2: 0x5ce0},
		lookupItem{cp949: 0xdfc8, ucs2: 0x5e38},
		lookupItem{cp949: 0xdfc9, ucs2: 0x5e8a},
		lookupItem{cp949: 0xdfca, ucs2: 0x5ea0},
		lookupItem{cp949: 0xdfcb, ucs2: 0x5ec2},
		lookupItem{cp949: 0xdfcc, ucs2: 0x60f3},
		lookupItem{cp949: 0xdfcd, ucs2: 0x6851},
		lookupItem{cp949: 0xdfce, ucs2: 0x6a61},
		lookupItem{cp949: 0xdfcf, ucs2: 0x6e58},
		lookupItem{cp949: 0xdfd0, ucs2: 0x723d},
		lookupItem{cp949: 0xdfd1, ucs2: 0x7240},
		lookupItem{cp949: 0xdfd2, ucs2: 0x72c0},
		lookupItem{cp949: 0xdfd3, ucs2: 0x76f8},
		lookupItem{cp949: 0xdfd4, ucs2: 0x7965},
		lookupItem{cp949: 0xdfd5, ucs2: 0x7bb1},
		lookupItem{cp949: 0xdfd6, ucs2: 0x7fd4},
		lookupItem{cp949: 0xdfd7, ucs2: 0x88f3},
		lookupItem{cp949: 0xdfd8, ucs2: 0x89f4},
		lookupItem{cp949: 0xdfd9, ucs2: 0x8a73},
		lookupItem{cp949: 0xdfda, ucs2: 0x8c61},
		lookupItem{cp949: 0xdfdb, ucs2: 0x8cde},
		lookupItem{cp949: 0xdfdc, ucs2: 0x971c},
		lookupItem{cp949: 0xdfdd, ucs2: 0x585e},
		lookupItem{cp949: 0xdfde, ucs2: 0x74bd},
		lookupItem{cp949: 0xdfdf, ucs2: 0x8cfd},
		lookupItem{cp949: 0xdfe0, ucs2: 0x55c7},
		lookupItem{cp949: 0xdfe1, ucs2: 0xf96c},
		lookupItem{cp949: 0xdfe2, ucs2: 0x7a61},
		lookupItem{cp949: 0xdfe3, ucs2: 0x7d22},
		lookupItem{cp949: 0xdfe4, ucs2: 0x8272},
		lookupItem{cp949: 0xdfe5, ucs2: 0x7272},
		lookupItem{cp949: 0xdfe6, ucs2: 0x751f},
		lookupItem{cp949: 0xdfe7, ucs2: 0x7525},
		lookupItem{cp949: 0xdfe8, ucs2: 0xf96d},
		lookupItem{cp949: 0xdfe9, ucs2: 0x7b19},
		lookupItem{cp949: 0xdfea, ucs2: 0x5885},
		lookupItem{cp949: 0xdfeb, ucs2: 0x58fb},
		lookupItem{cp949: 0xdfec, ucs2: 0x5dbc},
		lookupItem{cp949: 0xdfed, ucs2: 0x5e8f},
		lookupItem{cp949: 0xdfee, ucs2: 0x5eb6},
		lookupItem{cp949: 0xdfef, ucs2: 0x5f90},
		lookupItem{cp949: 0xdff0, ucs2: 0x6055},
		lookupItem{cp949: 0xdff1, ucs2: 0x6292},
		lookupItem{cp949: 0xdff2, ucs2: 0x637f},
		lookupItem{cp949: 0xdff3, ucs2: 0x654d},
		lookupItem{cp949: 0xdff4, ucs2: 0x6691},
		lookupItem{cp949: 0xdff5, ucs2: 0x66d9},
		lookupItem{cp949: 0xdff6, ucs2: 0x66f8},
		lookupItem{cp949: 0xdff7, ucs2: 0x6816},
		lookupItem{cp949: 0xdff8, ucs2: 0x68f2},
		lookupItem{cp949: 0xdff9, ucs2: 0x7280},
		lookupItem{cp949: 0xdffa, ucs2: 0x745e},
		lookupItem{cp949: 0xdffb, ucs2: 0x7b6e},
		lookupItem{cp949: 0xdffc, ucs2: 0x7d6e},
		lookupItem{cp949: 0xdffd, ucs2: 0x7dd6},
		lookupItem{cp949: 0xdffe, ucs2: 0x7f72},
		lookupItem{cp949: 0xe0a1, ucs2: 0x80e5},
		lookupItem{cp949: 0xe0a2, ucs2: 0x8212},
		lookupItem{cp949: 0xe0a3, ucs2: 0x85af},
		lookupItem{cp949: 0xe0a4, ucs2: 0x897f},
		lookupItem{cp949: 0xe0a5, ucs2: 0x8a93},
		lookupItem{cp949: 0xe0a6, ucs2: 0x901d},
		lookupItem{cp949: 0xe0a7, ucs2: 0x92e4},
		lookupItem{cp949: 0xe0a8, ucs2: 0x9ecd},
		lookupItem{cp949: 0xe0a9, ucs2: 0x9f20},
		lookupItem{cp949: 0xe0aa, ucs2: 0x5915},
		lookupItem{cp949: 0xe0ab, ucs2: 0x596d},
		lookupItem{cp949: 0xe0ac, ucs2: 0x5e2d},
		lookupItem{cp949: 0xe0ad, ucs2: 0x60dc},
		lookupItem{cp949: 0xe0ae, ucs2: 0x6614},
".
Definition text_cp949_lookup_from_057 : string :=
"		lookupItem{cp949: 0xe0af, ucs2: 0x6673},
		lookupItem{cp949: 0xe0b0, ucs2: 0x6790},
		lookupItem{cp949: 0xe0b1, ucs2: 0x6c50},
		lookupItem{cp949: 0xe0b2, ucs2: 0x6dc5},
		lookupItem{cp949: 0xe0b3, ucs2: 0x6f5f},
		lookupItem{cp949: 0xe0b4, ucs2: 0x77f3},
		lookupItem{cp949: 0xe0b5, ucs2: 0x78a9},
		lookupItem{cp949: 0xe0b6, ucs2: 0x84c6},
		lookupItem{cp949: 0xe0b7, ucs2: 0x91cb},
		lookupItem{cp949: 0xe0b8, ucs2: 0x932b},
		lookupItem{cp949: 0xe0b9, ucs2: 0x4ed9},
		lookupItem{cp949: 0xe0ba, ucs2: 0x50ca},
		lookupItem{cp949: 0xe0bb, ucs2: 0x5148},
		lookupItem{cp949: 0xe0bc, ucs2: 0x5584},
		lookupItem{cp949: 0xe0bd, ucs2: 0x5b0b},
		lookupItem{cp949: 0xe0be, ucs2: 0x5ba3},
		lookupItem{cp949: 0xe0bf, ucs2: 0x6247},
		lookupItem{cp949: 0xe0c0, ucs2: 0x657e},
		lookupItem{cp949: 0xe0c1, ucs2: 0x65cb},
		lookupItem{cp949: 0xe0c2, ucs2: 0x6e32},
		lookupItem{cp949: 0xe0c3, ucs2: 0x717d},
		lookupItem{cp949: 0xe0c4, ucs2: 0x7401},
		lookupItem{cp949: 0xe0c5, ucs2: 0x7444},
		lookupItem{cp949: 0xe0c6, ucs2: 0x7487},
		lookupItem{cp949: 0xe0c7, ucs2: 0x74bf},
		lookupItem{cp949: 0xe0c8, ucs2: 0x766c},
		lookupItem{cp949: 0xe0c9, ucs2: 0x79aa},
		lookupItem{cp949: 0xe0ca, ucs2: 0x7dda},
		lookupItem{cp949: 0xe0cb, ucs2: 0x7e55},
		lookupItem{cp949: 0xe0cc, ucs2: 0x7fa8},
		lookupItem{cp949: 0xe0cd, ucs2: 0x817a},
		lookupItem{cp949: 0xe0ce, ucs2: 0x81b3},
		lookupItem{cp949: 0xe0cf, ucs2: 0x8239},
		lookupItem{cp949: 0xe0d0, ucs2: 0x861a},
		lookupItem{cp949: 0xe0d1, ucs2: 0x87ec},
		lookupItem{cp949: 0xe0d2, ucs2: 0x8a75},
		lookupItem{cp949: 0xe0d3, ucs2: 0x8de3},
		lookupItem{cp949: 0xe0d4, ucs2: 0x9078},
		lookupItem{cp949: 0xe0d5, ucs2: 0x9291},
		lookupItem{cp949: 0xe0d6, ucs2: 0x9425},
		lookupItem{cp949: 0xe0d7, ucs2: 0x994d},
		lookupItem{cp949: 0xe0d8, ucs2: 0x9bae},
		lookupItem{cp949: 0xe0d9, ucs2: 0x5368},
		lookupItem{cp949: 0xe0da, ucs2: 0x5c51},
		lookupItem{cp949: 0xe0db, ucs2: 0x6954},
		lookupItem{cp949: 0xe0dc, ucs2: 0x6cc4},
		lookupItem{cp949: 0xe0dd, ucs2: 0x6d29},
		lookupItem{cp949: 0xe0de, ucs2: 0x6e2b},
		lookupItem{cp949: 0xe0df, ucs2: 0x820c},
		lookupItem{cp949: 0xe0e0, ucs2: 0x859b},
		lookupItem{cp949: 0xe0e1, ucs2: 0x893b},
		lookupItem{cp949: 0xe0e2, ucs2: 0x8a2d},
		lookupItem{cp949: 0xe0e3, ucs2: 0x8aaa},
		lookupItem{cp949: 0xe0e4, ucs2: 0x96ea},
		lookupItem{cp949: 0xe0e5, ucs2: 0x9f67},
		lookupItem{cp949: 0xe0e6, ucs2: 0x5261},
		lookupItem{cp949: 0xe0e7, ucs2: 0x66b9},
		lookupItem{cp949: 0xe0e8, ucs2: 0x6bb2},
		lookupItem{cp949: 0xe0e9, ucs2: 0x7e96},
		lookupItem{cp949: 0xe0ea, ucs2: 0x87fe},
		lookupItem{cp949: 0xe0eb, ucs2: 0x8d0d},
		lookupItem{cp949: 0xe0ec, ucs2: 0x9583},
		lookupItem{cp949: 0xe0ed, ucs2: 0x965d},
		lookupItem{cp949: 0xe0ee, ucs2: 0x651d},
		lookupItem{cp949: 0xe0ef, ucs2: 0x6d89},
		lookupItem{cp949: 0xe0f0, ucs2: 0x71ee},
		lookupItem{cp949: 0xe0f1, ucs2: 0xf96e},
		lookupItem{cp949: 0xe0f2, ucs2: 0x57ce},
		lookupItem{cp949: 0xe0f3, ucs2: 0x59d3},
		lookupItem{cp949: 0xe0f4, ucs2: 0x5bac},
		lookupItem{cp949: 0xe0f5, ucs2: 0x6027},
		lookupItem{cp949: 0xe0f6, ucs2: 0x60fa},
		lookupItem{cp949: 0xe0f7, ucs2: 0x6210},
		lookupItem{cp949: 0xe0f8, ucs2: 0x661f},
		lookupItem{cp949: 0xe0f9, ucs2: 0x665f},
		lookupItem{cp949: 0xe0fa, ucs2: 0x7329},
		lookupItem{cp949: 0xe0fb, ucs2: 0x73f9},
		lookupItem{cp949: 0xe0fc, ucs2: 0x76db},
		lookupItem{cp949: 0xe0fd, ucs2: 0x7701},
		lookupItem{cp949: 0xe0fe, ucs2: 0x7b6c},
		lookupItem{cp949: 0xe1a1, ucs2: 0x8056},
		lookupItem{cp949: 0xe1a2, ucs2: 0x8072},
		lookupItem{cp949: 0xe1a3, ucs2: 0x8165},
		lookupItem{cp949: 0xe1a4, ucs2: 0x8aa0},
		lookupItem{cp949: 0xe1a5, ucs2: 0x9192},
		lookupItem{cp949: 0xe1a6, ucs2: 0x4e16},
		lookupItem{cp949: 0xe1a7, ucs2: 0x52e2},
		lookupItem{cp949: 0xe1a8, ucs2: 0x6b72},
		lookupItem{cp949: 0xe1a9, ucs2: 0x6d17},
		lookupItem{cp949: 0xe1aa, ucs2: 0x7a05},
		lookupItem{cp949: 0xe1ab, ucs2: 0x7b39},
		lookupItem{cp949: 0xe1ac, ucs2: 0x7d30},
		lookupItem{cp949: 0xe1ad, ucs2: 0xf96f},
		lookupItem{cp949: 0xe1ae, ucs2: 0x8cb0},
		lookupItem{cp949: 0xe1af, ucs2: 0x53ec},
		lookupItem{cp949: 0xe1b0, ucs2: 0x562f},
		lookupItem{cp949: 0xe1b1, ucs2: 0x5851},
		lookupItem{cp949: 0xe1b2, ucs2: 0x5bb5},
		lookupItem{cp949: 0xe1b3, ucs2: 0x5c0f},
		lookupItem{cp949: 0xe1b4, ucs2: 0x5c11},
		lookupItem{cp949: 0xe1b5, ucs2: 0x5de2},
		lookupItem{cp949: 0xe1b6, ucs2: 0x6240},
		lookupItem{cp949: 0xe1b7, ucs2: 0x6383},
		lookupItem{cp949: 0xe1b8, ucs2: 0x6414},
		lookupItem{cp949: 0xe1b9, ucs2: 0x662d},
		lookupItem{cp949: 0xe1ba, ucs2: 0x68b3},
		lookupItem{cp949: 0xe1bb, ucs2: 0x6cbc},
		lookupItem{cp949: 0xe1bc, ucs2: 0x6d88},
		lookupItem{cp949: 0xe1bd, ucs2: 0x6eaf},
		lookupItem{cp949: 0xe1be, ucs2: 0x701f},
		lookupItem{cp949: 0xe1bf, ucs2: 0x70a4},
		lookupItem{cp949: 0xe1c0, ucs2: 0x71d2},
		lookupItem{cp949: 0xe1c1, ucs2: 0x7526},
		lookupItem{cp949: 0xe1c2, ucs2: 0x758f},
		lookupItem{cp949: 0xe1c3, ucs2: 0x758e},
		lookupItem{cp949: 0xe1c4, ucs2: 0x7619},
		lookupItem{cp949: 0xe1c5, ucs2: 0x7b11},
		lookupItem{cp949: 0xe1c6, ucs2: 0x7be0},
		lookupItem{cp949: 0xe1c7, ucs2: 0x7c2b},
		lookupItem{cp949: 0xe1c8, ucs2: 0x7d20},
		lookupItem{cp949: 0xe1c9, ucs2: 0x7d39},
		lookupItem{cp949: 0xe1ca, ucs2: 0x852c},
		lookupItem{cp949: 0xe1cb, ucs2: 0x856d},
		lookupItem{cp949: 0xe1cc, ucs2: 0x8607},
		lookupItem{cp949: 0xe1cd, ucs2: 0x8a34},
		lookupItem{cp949: 0xe1ce, ucs2: 0x900d},
		lookupItem{cp949: 0xe1cf, ucs2: 0x9061},
		lookupItem{cp949: 0xe1d0, ucs2: 0x90b5},
		lookupItem{cp949: 0xe1d1, ucs2: 0x92b7},
		lookupItem{cp949: 0xe1d2, ucs2: 0x97f6},
		lookupItem{cp949: 0xe1d3, ucs2: 0x9a37},
		lookupItem{cp949: 0xe1d4, ucs2: 0x4fd7},
		lookupItem{cp949: 0xe1d5, ucs2: 0x5c6c},
		lookupItem{cp949: 0xe1d6, ucs2: 0x675f},
		lookupItem{cp949: 0xe1d7, ucs2: 0x6d91},
		lookupItem{cp949: 0xe1d8, ucs2: 0x7c9f},
		lookupItem{cp949: 0xe1d9, ucs2: 0x7e8c},
		lookupItem{cp949: 0xe1da, ucs2: 0x8b16},
		lookupItem{cp949: 0xe1db, ucs2: 0x8d16},
		lookupItem{cp949: 0xe1dc, ucs2: 0x901f},
		lookupItem{cp949: 0xe1dd, ucs2: 0x5b6b},
		lookupItem{cp949: 0xe1de, ucs2: 0x5dfd},
		lookupItem{cp949: 0xe1df, ucs2: 0x640d},
		lookupItem{cp949: 0xe1e0, ucs2: 0x84c0},
		lookupItem{cp949: 0xe1e1, ucs2: 0x905c},
		lookupItem{cp949: 0xe1e2, ucs2: 0x98e1},
		lookupItem{cp949: 0xe1e3, ucs2: 0x7387},
		lookupItem{cp949: 0xe1e4, ucs2: 0x5b8b},
		lookupItem{cp949: 0xe1e5, ucs2: 0x609a},
		lookupItem{cp949: 0xe1e6, ucs2: 0x677e},
		lookupItem{cp949: 0xe1e7, ucs2: 0x6dde},
		lookupItem{cp949: 0xe1e8, ucs2: 0x8a1f},
		lookupItem{cp949: 0xe1e9, ucs2: 0x8aa6},
		lookupItem{cp949: 0xe1ea, ucs2: 0x9001},
		lookupItem{cp949: 0xe1eb, ucs2: 0x980c},
		lookupItem{cp949: 0xe1ec, ucs2: 0x5237},
		lookupItem{cp949: 0xe1ed, ucs2: 0xf970},
		lookupItem{cp949: 0xe1ee, ucs2: 0x7051},
		lookupItem{cp949: 0xe1ef, ucs2: 0x788e},
		lookupItem{cp949: 0xe1f0, ucs2: 0x9396},
		lookupItem{cp949: 0xe1f1, ucs2: 0x8870},
		lookupItem{cp949: 0xe1f2, ucs2: 0x91d7},
		lookupItem{cp949: 0xe1f3, ucs2: 0x4fee},
		lookupItem{cp949: 0xe1f4, ucs2: 0x53d7},
		lookupItem{cp949: 0xe1f5, ucs2: 0x55fd},
		lookupItem{cp949: 0xe1f6, ucs2: 0x56da},
		lookupItem{cp949: 0xe1f7, ucs2: 0x5782},
		lookupItem{cp949: 0xe1f8, ucs2: 0x58fd},
		lookupItem{cp949: 0xe1f9, ucs2: 0x5ac2},
		lookupItem{cp949: 0xe1fa, ucs2: 0x5b88},
		lookupItem{cp949: 0xe1fb, ucs2: 0x5cab},
		lookupItem{cp949: 0xe1fc, ucs2: 0x5cc0},
		lookupItem{cp949: 0xe1fd, ucs2: 0x5e25},
		lookupItem{cp949: 0xe1fe, ucs2: 0x6101},
		lookupItem{cp949: 0xe2a1, ucs2: 0x620d},
		lookupItem{cp949: 0xe2a2, ucs2: 0x624b},
		lookupItem{cp949: 0xe2a3, ucs2: 0x6388},
		lookupItem{cp949: 0xe2a4, ucs2: 0x641c},
		lookupItem{cp949: 0xe2a5, ucs2: 0x6536},
		lookupItem{cp949: 0xe2a6, ucs2: 0x6578},
		lookupItem{cp949: 0xe2a7, ucs2: 0x6a39},
		lookupItem{cp949: 0xe2a8, ucs2: 0x6b8a},
		lookupItem{cp949: 0xe2a9, ucs2: 0x6c34},
		lookupItem{cp949: 0xe2aa, ucs2: 0x6d19},
		lookupItem{cp949: 0xe2ab, ucs2: 0x6f31},
		lookupItem{cp949: 0xe2ac, ucs2: 0x71e7},
		lookupItem{cp949: 0xe2ad, ucs2: 0x72e9},
		lookupItem{cp949: 0xe2ae, ucs2: 0x7378},
		lookupItem{cp949: 0xe2af, ucs2: 0x7407},
		lookupItem{cp949: 0xe2b0, ucs2: 0x74b2},
		lookupItem{cp949: 0xe2b1, ucs2: 0x7626},
		lookupItem{cp949: 0xe2b2, ucs2: 0x7761},
		lookupItem{cp949: 0xe2b3, ucs2: 0x79c0},
		lookupItem{cp949: 0xe2b4, ucs2: 0x7a57},
		lookupItem{cp949: 0xe2b5, ucs2: 0x7aea},
		lookupItem{cp949: 0xe2b6, ucs2: 0x7cb9},
		lookupItem{cp949: 0xe2b7, ucs2: 0x7d8f},
		lookupItem{cp949: 0xe2b8, ucs2: 0x7dac},
		lookupItem{cp949: 0xe2b9, ucs2: 0x7e61},
		lookupItem{cp949: 0xe2ba, ucs2: 0x7f9e},
		lookupItem{cp949: 0xe2bb, ucs2: 0x8129},
		lookupItem{cp949: 0xe2bc, ucs2: 0x8331},
		lookupItem{cp949: 0xe2bd, ucs2: 0x8490},
		lookupItem{cp949: 0xe2be, ucs2: 0x84da},
		lookupItem{cp949: 0xe2bf, ucs2: 0x85ea},
		lookupItem{cp949: 0xe2c0, ucs2: 0x8896},
		lookupItem{cp949: 0xe2c1, ucs2: 0x8ab0},
		lookupItem{cp949: 0xe2c2, ucs2: 0x8b90},
		lookupItem{cp949: 0xe2c3, ucs2: 0x8f38},
		lookupItem{cp949: 0xe2c4, ucs2: 0x9042},
		lookupItem{cp949: 0xe2c5, ucs2: 0x9083},
		lookupItem{cp949: 0xe2c6, ucs2: 0x916c},
		lookupItem{cp949: 0xe2c7, ucs2: 0x9296},
		lookupItem{cp949: 0xe2c8, ucs2: 0x92b9},
		lookupItem{cp949: 0xe2c9, ucs2: 0x968b},
		lookupItem{cp949: 0xe2ca, ucs2: 0x96a7},
		lookupItem{cp949: 0xe2cb, ucs2: 0x96a8},
		lookupItem{cp949: 0xe2cc, ucs2: 0x96d6},
		lookupItem{cp949: 0xe2cd, ucs2: 0x9700},
		lookupItem{cp949: 0xe2ce, ucs2: 0x9808},
		lookupItem{cp949: 0xe2cf, ucs2: 0x9996},
		lookupItem{cp949: 0xe2d0, ucs2: 0x9ad3},
		lookupItem{cp949: 0xe2d1, ucs2: 0x9b1a},
		lookupItem{cp949: 0xe2d2, ucs2: 0x53d4},
		lookupItem{cp949: 0xe2d3, ucs2: 0x587e},
		lookupItem{cp949: 0xe2d4, ucs2: 0x5919},
		lookupItem{cp949: 0xe2d5, ucs2: 0x5b70},
		lookupItem{cp949: 0xe2d6, ucs2: 0x5bbf},
		lookupItem{cp949: 0xe2d7, ucs2: 0x6dd1},
		lookupItem{cp949: 0xe2d8, ucs2: 0x6f5a},
		lookupItem{cp949: 0xe2d9, ucs2: 0x719f},
		lookupItem{cp949: 0xe2da, ucs2: 0x7421},
		lookupItem{cp949: 0xe2db, ucs2: 0x74b9},
		lookupItem{cp949: 0xe2dc, ucs2: 0x8085},
		lookupItem{cp949: 0xe2dd, ucs2: 0x83fd},
		lookupItem{cp949: 0xe2de, ucs2: 0x5de1},
		lookupItem{cp949: 0xe2df, ucs2: 0x5f87},
		lookupItem{cp949: 0xe2e0, ucs2: 0x5faa},
		lookupItem{cp949: 0xe2e1, ucs2: 0x6042},
		lookupItem{cp949: 0xe2e2, ucs2: 0x65ec},
		lookupItem{cp949: 0xe2e3, ucs2: 0x6812},
		lookupItem{cp949: 0xe2e4, ucs2: 0x696f},
		lookupItem{cp949: 0xe2e5, ucs2: 0x6a53},
		lookupItem{cp949: 0xe2e6, ucs2: 0x6b89},
		lookupItem{cp949: 0xe2e7, ucs2: 0x6d35},
		lookupItem{cp949: 0xe2e8, ucs2: 0x6df3},
		lookupItem{cp949: 0xe2e9, ucs2: 0x73e3},
		lookupItem{cp949: 0xe2ea, ucs2: 0x76fe},
		lookupItem{cp949: 0xe2eb, ucs2: 0x77ac},
		lookupItem{cp949: 0xe2ec, ucs2: 0x7b4d},
".
Definition text_cp949_lookup_from_058 : string :=
"		lookupItem{cp949: 0xe2ed, ucs2: 0x7d14},
		lookupItem{cp949: 0xe2ee, ucs2: 0x8123},
		lookupItem{cp949: 0xe2ef, ucs2: 0x821c},
		lookupItem{cp949: 0xe2f0, ucs2: 0x8340},
		lookupItem{cp949: 0xe2f1, ucs2: 0x84f4},
		lookupItem{cp949: 0xe2f2, ucs2: 0x8563},
		lookupItem{cp949: 0xe2f3, ucs2: 0x8a62},
		lookupItem{cp949: 0xe2f4, ucs2: 0x8ac4},
		lookupItem{cp949: 0xe2f5, ucs2: 0x9187},
		lookupItem{cp949: 0xe2f6, ucs2: 0x931e},
		lookupItem{cp949: 0xe2f7, ucs2: 0x9806},
		lookupItem{cp949: 0xe2f8, ucs2: 0x99b4},
		lookupItem{cp949: 0xe2f9, ucs2: 0x620c},
		lookupItem{cp949: 0xe2fa, ucs2: 0x8853},
		lookupItem{cp949: 0xe2fb, ucs2: 0x8ff0},
		lookupItem{cp949: 0xe2fc, ucs2: 0x9265},
		lookupItem{cp949: 0xe2fd, ucs2: 0x5d07},
		lookupItem{cp949: 0xe2fe, ucs2: 0x5d27},
		lookupItem{cp949: 0xe3a1, ucs2: 0x5d69},
		lookupItem{cp949: 0xe3a2, ucs2: 0x745f},
		lookupItem{cp949: 0xe3a3, ucs2: 0x819d},
		lookupItem{cp949: 0xe3a4, ucs2: 0x8768},
		lookupItem{cp949: 0xe3a5, ucs2: 0x6fd5},
		lookupItem{cp949: 0xe3a6, ucs2: 0x62fe},
		lookupItem{cp949: 0xe3a7, ucs2: 0x7fd2},
		lookupItem{cp949: 0xe3a8, ucs2: 0x8936},
		lookupItem{cp949: 0xe3a9, ucs2: 0x8972},
		lookupItem{cp949: 0xe3aa, ucs2: 0x4e1e},
		lookupItem{cp949: 0xe3ab, ucs2: 0x4e58},
		lookupItem{cp949: 0xe3ac, ucs2: 0x50e7},
		lookupItem{cp949: 0xe3ad, ucs2: 0x52dd},
		lookupItem{cp949: 0xe3ae, ucs2: 0x5347},
		lookupItem{cp949: 0xe3af, ucs2: 0x627f},
		lookupItem{cp949: 0xe3b0, ucs2: 0x6607},
		lookupItem{cp949: 0xe3b1, ucs2: 0x7e69},
		lookupItem{cp949: 0xe3b2, ucs2: 0x8805},
		lookupItem{cp949: 0xe3b3, ucs2: 0x965e},
		lookupItem{cp949: 0xe3b4, ucs2: 0x4f8d},
		lookupItem{cp949: 0xe3b5, ucs2: 0x5319},
		lookupItem{cp949: 0xe3b6, ucs2: 0x5636},
		lookupItem{cp949: 0xe3b7, ucs2: 0x59cb},
		lookupItem{cp949: 0xe3b8, ucs2: 0x5aa4},
		lookupItem{cp949: 0xe3b9, ucs2: 0x5c38},
		lookupItem{cp949: 0xe3ba, ucs2: 0x5c4e},
		lookupItem{cp949: 0xe3bb, ucs2: 0x5c4d},
		lookupItem{cp949: 0xe3bc, ucs2: 0x5e02},
		lookupItem{cp949: 0xe3bd, ucs2: 0x5f11},
		lookupItem{cp949: 0xe3be, ucs2: 0x6043},
		lookupItem{cp949: 0xe3bf, ucs2: 0x65bd},
		lookupItem{cp949: 0xe3c0, ucs2: 0x662f},
		lookupItem{cp949: 0xe3c1, ucs2: 0x6642},
		lookupItem{cp949: 0xe3c2, ucs2: 0x67be},
		lookupItem{cp949: 0xe3c3, ucs2: 0x67f4},
		lookupItem{cp949: 0xe3c4, ucs2: 0x731c},
		lookupItem{cp949: 0xe3c5, ucs2: 0x77e2},
		lookupItem{cp949: 0xe3c6, ucs2: 0x793a},
		lookupItem{cp949: 0xe3c7, ucs2: 0x7fc5},
		lookupItem{cp949: 0xe3c8, ucs2: 0x8494},
		lookupItem{cp949: 0xe3c9, ucs2: 0x84cd},
		lookupItem{cp949: 0xe3ca, ucs2: 0x8996},
		lookupItem{cp949: 0xe3cb, ucs2: 0x8a66},
		lookupItem{cp949: 0xe3cc, ucs2: 0x8a69},
		lookupItem{cp949: 0xe3cd, ucs2: 0x8ae1},
		lookupItem{cp949: 0xe3ce, ucs2: 0x8c55},
		lookupItem{cp949: 0xe3cf, ucs2: 0x8c7a},
		lookupItem{cp949: 0xe3d0, ucs2: 0x57f4},
		lookupItem{cp949: 0xe3d1, ucs2: 0x5bd4},
		lookupItem{cp949: 0xe3d2, ucs2: 0x5f0f},
		lookupItem{cp949: 0xe3d3, ucs2: 0x606f},
		lookupItem{cp949: 0xe3d4, ucs2: 0x62ed},
		lookupItem{cp949: 0xe3d5, ucs2: 0x690d},
		lookupItem{cp949: 0xe3d6, ucs2: 0x6b96},
		lookupItem{cp949: 0xe3d7, ucs2: 0x6e5c},
		lookupItem{cp949: 0xe3d8, ucs2: 0x7184},
		lookupItem{cp949: 0xe3d9, ucs2: 0x7bd2},
		lookupItem{cp949: 0xe3da, ucs2: 0x8755},
		lookupItem{cp949: 0xe3db, ucs2: 0x8b58},
		lookupItem{cp949: 0xe3dc, ucs2: 0x8efe},
		lookupItem{cp949: 0xe3dd, ucs2: 0x98df},
		lookupItem{cp949: 0xe3de, ucs2: 0x98fe},
		lookupItem{cp949: 0xe3df, ucs2: 0x4f38},
		lookupItem{cp949: 0xe3e0, ucs2: 0x4f81},
		lookupItem{cp949: 0xe3e1, ucs2: 0x4fe1},
		lookupItem{cp949: 0xe3e2, ucs2: 0x547b},
		lookupItem{cp949: 0xe3e3, ucs2: 0x5a20},
		lookupItem{cp949: 0xe3e4, ucs2: 0x5bb8},
		lookupItem{cp949: 0xe3e5, ucs2: 0x613c},
		lookupItem{cp949: 0xe3e6, ucs2: 0x65b0},
		lookupItem{cp949: 0xe3e7, ucs2: 0x6668},
		lookupItem{cp949: 0xe3e8, ucs2: 0x71fc},
		lookupItem{cp949: 0xe3e9, ucs2: 0x7533},
		lookupItem{cp949: 0xe3ea, ucs2: 0x795e},
		lookupItem{cp949: 0xe3eb, ucs2: 0x7d33},
		lookupItem{cp949: 0xe3ec, ucs2: 0x814e},
		lookupItem{cp949: 0xe3ed, ucs2: 0x81e3},
		lookupItem{cp949: 0xe3ee, ucs2: 0x8398},
		lookupItem{cp949: 0xe3ef, ucs2: 0x85aa},
		lookupItem{cp949: 0xe3f0, ucs2: 0x85ce},
		lookupItem{cp949: 0xe3f1, ucs2: 0x8703},
		lookupItem{cp949: 0xe3f2, ucs2: 0x8a0a},
		lookupItem{cp949: 0xe3f3, ucs2: 0x8eab},
		lookupItem{cp949: 0xe3f4, ucs2: 0x8f9b},
		lookupItem{cp949: 0xe3f5, ucs2: 0xf971},
		lookupItem{cp949: 0xe3f6, ucs2: 0x8fc5},
		lookupItem{cp949: 0xe3f7, ucs2: 0x5931},
		lookupItem{cp949: 0xe3f8, ucs2: 0x5ba4},
		lookupItem{cp949: 0xe3f9, ucs2: 0x5be6},
		lookupItem{cp949: 0xe3fa, ucs2: 0x6089},
		lookupItem{cp949: 0xe3fb, ucs2: 0x5be9},
		lookupItem{cp949: 0xe3fc, ucs2: 0x5c0b},
		lookupItem{cp949: 0xe3fd, ucs2: 0x5fc3},
		lookupItem{cp949: 0xe3fe, ucs2: 0x6c81},
		lookupItem{cp949: 0xe4a1, ucs2: 0xf972},
		lookupItem{cp949: 0xe4a2, ucs2: 0x6df1},
		lookupItem{cp949: 0xe4a3, ucs2: 0x700b},
		lookupItem{cp949: 0xe4a4, ucs2: 0x751a},
		lookupItem{cp949: 0xe4a5, ucs2: 0x82af},
		lookupItem{cp949: 0xe4a6, ucs2: 0x8af6},
		lookupItem{cp949: 0xe4a7, ucs2: 0x4ec0},
		lookupItem{cp949: 0xe4a8, ucs2: 0x5341},
		lookupItem{cp949: 0xe4a9, ucs2: 0xf973},
		lookupItem{cp949: 0xe4aa, ucs2: 0x96d9},
		lookupItem{cp949: 0xe4ab, ucs2: 0x6c0f},
		lookupItem{cp949: 0xe4ac, ucs2: 0x4e9e},
		lookupItem{cp949: 0xe4ad, ucs2: 0x4fc4},
		lookupItem{cp949: 0xe4ae, ucs2: 0x5152},
		lookupItem{cp949: 0xe4af, ucs2: 0x555e},
		lookupItem{cp949: 0xe4b0, ucs2: 0x5a25},
		lookupItem{cp949: 0xe4b1, ucs2: 0x5ce8},
		lookupItem{cp949: 0xe4b2, ucs2: 0x6211},
		lookupItem{cp949: 0xe4b3, ucs2: 0x7259},
		lookupItem{cp949: 0xe4b4, ucs2: 0x82bd},
		lookupItem{cp949: 0xe4b5, ucs2: 0x83aa},
		lookupItem{cp949: 0xe4b6, ucs2: 0x86fe},
		lookupItem{cp949: 0xe4b7, ucs2: 0x8859},
		lookupItem{cp949: 0xe4b8, ucs2: 0x8a1d},
		lookupItem{cp949: 0xe4b9, ucs2: 0x963f},
		lookupItem{cp949: 0xe4ba, ucs2: 0x96c5},
		lookupItem{cp949: 0xe4bb, ucs2: 0x9913},
		lookupItem{cp949: 0xe4bc, ucs2: 0x9d09},
		lookupItem{cp949: 0xe4bd, ucs2: 0x9d5d},
		lookupItem{cp949: 0xe4be, ucs2: 0x580a},
		lookupItem{cp949: 0xe4bf, ucs2: 0x5cb3},
		lookupItem{cp949: 0xe4c0, ucs2: 0x5dbd},
		lookupItem{cp949: 0xe4c1, ucs2: 0x5e44},
		lookupItem{cp949: 0xe4c2, ucs2: 0x60e1},
		lookupItem{cp949: 0xe4c3, ucs2: 0x6115},
		lookupItem{cp949: 0xe4c4, ucs2: 0x63e1},
		lookupItem{cp949: 0xe4c5, ucs2: 0x6a02},
		lookupItem{cp949: 0xe4c6, ucs2: 0x6e25},
		lookupItem{cp949: 0xe4c7, ucs2: 0x9102},
		lookupItem{cp949: 0xe4c8, ucs2: 0x9354},
		lookupItem{cp949: 0xe4c9, ucs2: 0x984e},
		lookupItem{cp949: 0xe4ca, ucs2: 0x9c10},
		lookupItem{cp949: 0xe4cb, ucs2: 0x9f77},
		lookupItem{cp949: 0xe4cc, ucs2: 0x5b89},
		lookupItem{cp949: 0xe4cd, ucs2: 0x5cb8},
		lookupItem{cp949: 0xe4ce, ucs2: 0x6309},
		lookupItem{cp949: 0xe4cf, ucs2: 0x664f},
		lookupItem{cp949: 0xe4d0, ucs2: 0x6848},
		lookupItem{cp949: 0xe4d1, ucs2: 0x773c},
		lookupItem{cp949: 0xe4d2, ucs2: 0x96c1},
		lookupItem{cp949: 0xe4d3, ucs2: 0x978d},
		lookupItem{cp949: 0xe4d4, ucs2: 0x9854},
		lookupItem{cp949: 0xe4d5, ucs2: 0x9b9f},
		lookupItem{cp949: 0xe4d6, ucs2: 0x65a1},
		lookupItem{cp949: 0xe4d7, ucs2: 0x8b01},
		lookupItem{cp949: 0xe4d8, ucs2: 0x8ecb},
		lookupItem{cp949: 0xe4d9, ucs2: 0x95bc},
		lookupItem{cp949: 0xe4da, ucs2: 0x5535},
		lookupItem{cp949: 0xe4db, ucs2: 0x5ca9},
		lookupItem{cp949: 0xe4dc, ucs2: 0x5dd6},
		lookupItem{cp949: 0xe4dd, ucs2: 0x5eb5},
		lookupItem{cp949: 0xe4de, ucs2: 0x6697},
		lookupItem{cp949: 0xe4df, ucs2: 0x764c},
		lookupItem{cp949: 0xe4e0, ucs2: 0x83f4},
		lookupItem{cp949: 0xe4e1, ucs2: 0x95c7},
		lookupItem{cp949: 0xe4e2, ucs2: 0x58d3},
		lookupItem{cp949: 0xe4e3, ucs2: 0x62bc},
		lookupItem{cp949: 0xe4e4, ucs2: 0x72ce},
		lookupItem{cp949: 0xe4e5, ucs2: 0x9d28},
		lookupItem{cp949: 0xe4e6, ucs2: 0x4ef0},
		lookupItem{cp949: 0xe4e7, ucs2: 0x592e},
		lookupItem{cp949: 0xe4e8, ucs2: 0x600f},
		lookupItem{cp949: 0xe4e9, ucs2: 0x663b},
		lookupItem{cp949: 0xe4ea, ucs2: 0x6b83},
		lookupItem{cp949: 0xe4eb, ucs2: 0x79e7},
		lookupItem{cp949: 0xe4ec, ucs2: 0x9d26},
		lookupItem{cp949: 0xe4ed, ucs2: 0x5393},
		lookupItem{cp949: 0xe4ee, ucs2: 0x54c0},
		lookupItem{cp949: 0xe4ef, ucs2: 0x57c3},
		lookupItem{cp949: 0xe4f0, ucs2: 0x5d16},
		lookupItem{cp949: 0xe4f1, ucs2: 0x611b},
		lookupItem{cp949: 0xe4f2, ucs2: 0x66d6},
		lookupItem{cp949: 0xe4f3, ucs2: 0x6daf},
		lookupItem{cp949: 0xe4f4, ucs2: 0x788d},
		lookupItem{cp949: 0xe4f5, ucs2: 0x827e},
		lookupItem{cp949: 0xe4f6, ucs2: 0x9698},
		lookupItem{cp949: 0xe4f7, ucs2: 0x9744},
		lookupItem{cp949: 0xe4f8, ucs2: 0x5384},
		lookupItem{cp949: 0xe4f9, ucs2: 0x627c},
		lookupItem{cp949: 0xe4fa, ucs2: 0x6396},
		lookupItem{cp949: 0xe4fb, ucs2: 0x6db2},
		lookupItem{cp949: 0xe4fc, ucs2: 0x7e0a},
		lookupItem{cp949: 0xe4fd, ucs2: 0x814b},
		lookupItem{cp949: 0xe4fe, ucs2: 0x984d},
		lookupItem{cp949: 0xe5a1, ucs2: 0x6afb},
		lookupItem{cp949: 0xe5a2, ucs2: 0x7f4c},
		lookupItem{cp949: 0xe5a3, ucs2: 0x9daf},
		lookupItem{cp949: 0xe5a4, ucs2: 0x9e1a},
		lookupItem{cp949: 0xe5a5, ucs2: 0x4e5f},
		lookupItem{cp949: 0xe5a6, ucs2: 0x503b},
		lookupItem{cp949: 0xe5a7, ucs2: 0x51b6},
		lookupItem{cp949: 0xe5a8, ucs2: 0x591c},
		lookupItem{cp949: 0xe5a9, ucs2: 0x60f9},
		lookupItem{cp949: 0xe5aa, ucs2: 0x63f6},
		lookupItem{cp949: 0xe5ab, ucs2: 0x6930},
		lookupItem{cp949: 0xe5ac, ucs2: 0x723a},
		lookupItem{cp949: 0xe5ad, ucs2: 0x8036},
		lookupItem{cp949: 0xe5ae, ucs2: 0xf974},
		lookupItem{cp949: 0xe5af, ucs2: 0x91ce},
		lookupItem{cp949: 0xe5b0, ucs2: 0x5f31},
		lookupItem{cp949: 0xe5b1, ucs2: 0xf975},
		lookupItem{cp949: 0xe5b2, ucs2: 0xf976},
		lookupItem{cp949: 0xe5b3, ucs2: 0x7d04},
		lookupItem{cp949: 0xe5b4, ucs2: 0x82e5},
		lookupItem{cp949: 0xe5b5, ucs2: 0x846f},
		lookupItem{cp949: 0xe5b6, ucs2: 0x84bb},
		lookupItem{cp949: 0xe5b7, ucs2: 0x85e5},
		lookupItem{cp949: 0xe5b8, ucs2: 0x8e8d},
		lookupItem{cp949: 0xe5b9, ucs2: 0xf977},
		lookupItem{cp949: 0xe5ba, ucs2: 0x4f6f},
		lookupItem{cp949: 0xe5bb, ucs2: 0xf978},
		lookupItem{cp949: 0xe5bc, ucs2: 0xf979},
		lookupItem{cp949: 0xe5bd, ucs2: 0x58e4},
		lookupItem{cp949: 0xe5be, ucs2: 0x5b43},
		lookupItem{cp949: 0xe5bf, ucs2: 0x6059},
		lookupItem{cp949: 0xe5c0, ucs2: 0x63da},
		lookupItem{cp949: 0xe5c1, ucs2: 0x6518},
		lookupItem{cp949: 0xe5c2, ucs2: 0x656d},
		lookupItem{cp949: 0xe5c3, ucs2: 0x6698},
		lookupItem{cp949: 0xe5c4, ucs2: 0xf97a},
		lookupItem{cp949: 0xe5c5, ucs2: 0x694a},
		lookupItem{cp949: 0xe5c6, ucs2: 0x6a23},
		lookupItem{cp949: 0xe5c7, ucs2: 0x6d0b},
		lookupItem{cp949: 0xe5c8, ucs2: 0x7001},
		lookupItem{cp949: 0xe5c9, ucs2: 0x716c},
		lookupItem{cp949: 0xe5ca, ucs2: 0x75d2},
		lookupItem{cp949: 0xe5cb, ucs2: 0x760d},
		lookupItem{cp949: 0xe5cc, ucs2: 0x79b3},
".
Definition text_cp949_lookup_from_059 : string :=
"		lookupItem{cp949: 0xe5cd, ucs2: 0x7a70},
		lookupItem{cp949: 0xe5ce, ucs2: 0xf97b},
		lookupItem{cp949: 0xe5cf, ucs2: 0x7f8a},
		lookupItem{cp949: 0xe5d0, ucs2: 0xf97c},
		lookupItem{cp949: 0xe5d1, ucs2: 0x8944},
		lookupItem{cp949: 0xe5d2, ucs2: 0xf97d},
		lookupItem{cp949: 0xe5d3, ucs2: 0x8b93},
		lookupItem{cp949: 0xe5d4, ucs2: 0x91c0},
		lookupItem{cp949: 0xe5d5, ucs2: 0x967d},
		lookupItem{cp949: 0xe5d6, ucs2: 0xf97e},
		lookupItem{cp949: 0xe5d7, ucs2: 0x990a},
		lookupItem{cp949: 0xe5d8, ucs2: 0x5704},
		lookupItem{cp949: 0xe5d9, ucs2: 0x5fa1},
		lookupItem{cp949: 0xe5da, ucs2: 0x65bc},
		lookupItem{cp949: 0xe5db, ucs2: 0x6f01},
		lookupItem{cp949: 0xe5dc, ucs2: 0x7600},
		lookupItem{cp949: 0xe5dd, ucs2: 0x79a6},
		lookupItem{cp949: 0xe5de, ucs2: 0x8a9e},
		lookupItem{cp949: 0xe5df, ucs2: 0x99ad},
		lookupItem{cp949: 0xe5e0, ucs2: 0x9b5a},
		lookupItem{cp949: 0xe5e1, ucs2: 0x9f6c},
		lookupItem{cp949: 0xe5e2, ucs2: 0x5104},
		lookupItem{cp949: 0xe5e3, ucs2: 0x61b6},
		lookupItem{cp949: 0xe5e4, ucs2: 0x6291},
		lookupItem{cp949: 0xe5e5, ucs2: 0x6a8d},
		lookupItem{cp949: 0xe5e6, ucs2: 0x81c6},
		lookupItem{cp949: 0xe5e7, ucs2: 0x5043},
		lookupItem{cp949: 0xe5e8, ucs2: 0x5830},
		lookupItem{cp949: 0xe5e9, ucs2: 0x5f66},
		lookupItem{cp949: 0xe5ea, ucs2: 0x7109},
		lookupItem{cp949: 0xe5eb, ucs2: 0x8a00},
		lookupItem{cp949: 0xe5ec, ucs2: 0x8afa},
		lookupItem{cp949: 0xe5ed, ucs2: 0x5b7c},
		lookupItem{cp949: 0xe5ee, ucs2: 0x8616},
		lookupItem{cp949: 0xe5ef, ucs2: 0x4ffa},
		lookupItem{cp949: 0xe5f0, ucs2: 0x513c},
		lookupItem{cp949: 0xe5f1, ucs2: 0x56b4},
		lookupItem{cp949: 0xe5f2, ucs2: 0x5944},
		lookupItem{cp949: 0xe5f3, ucs2: 0x63a9},
		lookupItem{cp949: 0xe5f4, ucs2: 0x6df9},
		lookupItem{cp949: 0xe5f5, ucs2: 0x5daa},
		lookupItem{cp949: 0xe5f6, ucs2: 0x696d},
		lookupItem{cp949: 0xe5f7, ucs2: 0x5186},
		lookupItem{cp949: 0xe5f8, ucs2: 0x4e88},
		lookupItem{cp949: 0xe5f9, ucs2: 0x4f59},
		lookupItem{cp949: 0xe5fa, ucs2: 0xf97f},
		lookupItem{cp949: 0xe5fb, ucs2: 0xf980},
		lookupItem{cp949: 0xe5fc, ucs2: 0xf981},
		lookupItem{cp949: 0xe5fd, ucs2: 0x5982},
		lookupItem{cp949: 0xe5fe, ucs2: 0xf982},
		lookupItem{cp949: 0xe6a1, ucs2: 0xf983},
		lookupItem{cp949: 0xe6a2, ucs2: 0x6b5f},
		lookupItem{cp949: 0xe6a3, ucs2: 0x6c5d},
		lookupItem{cp949: 0xe6a4, ucs2: 0xf984},
		lookupItem{cp949: 0xe6a5, ucs2: 0x74b5},
		lookupItem{cp949: 0xe6a6, ucs2: 0x7916},
		lookupItem{cp949: 0xe6a7, ucs2: 0xf985},
		lookupItem{cp949: 0xe6a8, ucs2: 0x8207},
		lookupItem{cp949: 0xe6a9, ucs2: 0x8245},
		lookupItem{cp949: 0xe6aa, ucs2: 0x8339},
		lookupItem{cp949: 0xe6ab, ucs2: 0x8f3f},
		lookupItem{cp949: 0xe6ac, ucs2: 0x8f5d},
		lookupItem{cp949: 0xe6ad, ucs2: 0xf986},
		lookupItem{cp949: 0xe6ae, ucs2: 0x9918},
		lookupItem{cp949: 0xe6af, ucs2: 0xf987},
		lookupItem{cp949: 0xe6b0, ucs2: 0xf988},
		lookupItem{cp949: 0xe6b1, ucs2: 0xf989},
		lookupItem{cp949: 0xe6b2, ucs2: 0x4ea6},
		lookupItem{cp949: 0xe6b3, ucs2: 0xf98a},
		lookupItem{cp949: 0xe6b4, ucs2: 0x57df},
		lookupItem{cp949: 0xe6b5, ucs2: 0x5f79},
		lookupItem{cp949: 0xe6b6, ucs2: 0x6613},
		lookupItem{cp949: 0xe6b7, ucs2: 0xf98b},
		lookupItem{cp949: 0xe6b8, ucs2: 0xf98c},
		lookupItem{cp949: 0xe6b9, ucs2: 0x75ab},
		lookupItem{cp949: 0xe6ba, ucs2: 0x7e79},
		lookupItem{cp949: 0xe6bb, ucs2: 0x8b6f},
		lookupItem{cp949: 0xe6bc, ucs2: 0xf98d},
		lookupItem{cp949: 0xe6bd, ucs2: 0x9006},
		lookupItem{cp949: 0xe6be, ucs2: 0x9a5b},
		lookupItem{cp949: 0xe6bf, ucs2: 0x56a5},
		lookupItem{cp949: 0xe6c0, ucs2: 0x5827},
		lookupItem{cp949: 0xe6c1, ucs2: 0x59f8},
		lookupItem{cp949: 0xe6c2, ucs2: 0x5a1f},
		lookupItem{cp949: 0xe6c3, ucs2: 0x5bb4},
		lookupItem{cp949: 0xe6c4, ucs2: 0xf98e},
		lookupItem{cp949: 0xe6c5, ucs2: 0x5ef6},
		lookupItem{cp949: 0xe6c6, ucs2: 0xf98f},
		lookupItem{cp949: 0xe6c7, ucs2: 0xf990},
		lookupItem{cp949: 0xe6c8, ucs2: 0x6350},
		lookupItem{cp949: 0xe6c9, ucs2: 0x633b},
		lookupItem{cp949: 0xe6ca, ucs2: 0xf991},
		lookupItem{cp949: 0xe6cb, ucs2: 0x693d},
		lookupItem{cp949: 0xe6cc, ucs2: 0x6c87},
		lookupItem{cp949: 0xe6cd, ucs2: 0x6cbf},
		lookupItem{cp949: 0xe6ce, ucs2: 0x6d8e},
		lookupItem{cp949: 0xe6cf, ucs2: 0x6d93},
		lookupItem{cp949: 0xe6d0, ucs2: 0x6df5},
		lookupItem{cp949: 0xe6d1, ucs2: 0x6f14},
		lookupItem{cp949: 0xe6d2, ucs2: 0xf992},
		lookupItem{cp949: 0xe6d3, ucs2: 0x70df},
		lookupItem{cp949: 0xe6d4, ucs2: 0x7136},
		lookupItem{cp949: 0xe6d5, ucs2: 0x7159},
		lookupItem{cp949: 0xe6d6, ucs2: 0xf993},
		lookupItem{cp949: 0xe6d7, ucs2: 0x71c3},
		lookupItem{cp949: 0xe6d8, ucs2: 0x71d5},
		lookupItem{cp949: 0xe6d9, ucs2: 0xf994},
		lookupItem{cp949: 0xe6da, ucs2: 0x784f},
		lookupItem{cp949: 0xe6db, ucs2: 0x786f},
		lookupItem{cp949: 0xe6dc, ucs2: 0xf995},
		lookupItem{cp949: 0xe6dd, ucs2: 0x7b75},
		lookupItem{cp949: 0xe6de, ucs2: 0x7de3},
		lookupItem{cp949: 0xe6df, ucs2: 0xf996},
		lookupItem{cp949: 0xe6e0, ucs2: 0x7e2f},
		lookupItem{cp949: 0xe6e1, ucs2: 0xf997},
		lookupItem{cp949: 0xe6e2, ucs2: 0x884d},
		lookupItem{cp949: 0xe6e3, ucs2: 0x8edf},
		lookupItem{cp949: 0xe6e4, ucs2: 0xf998},
		lookupItem{cp949: 0xe6e5, ucs2: 0xf999},
		lookupItem{cp949: 0xe6e6, ucs2: 0xf99a},
		lookupItem{cp949: 0xe6e7, ucs2: 0x925b},
		lookupItem{cp949: 0xe6e8, ucs2: 0xf99b},
		lookupItem{cp949: 0xe6e9, ucs2: 0x9cf6},
		lookupItem{cp949: 0xe6ea, ucs2: 0xf99c},
		lookupItem{cp949: 0xe6eb, ucs2: 0xf99d},
		lookupItem{cp949: 0xe6ec, ucs2: 0xf99e},
		lookupItem{cp949: 0xe6ed, ucs2: 0x6085},
		lookupItem{cp949: 0xe6ee, ucs2: 0x6d85},
		lookupItem{cp949: 0xe6ef, ucs2: 0xf99f},
		lookupItem{cp949: 0xe6f0, ucs2: 0x71b1},
		lookupItem{cp949: 0xe6f1, ucs2: 0xf9a0},
		lookupItem{cp949: 0xe6f2, ucs2: 0xf9a1},
		lookupItem{cp949: 0xe6f3, ucs2: 0x95b1},
		lookupItem{cp949: 0xe6f4, ucs2: 0x53ad},
		lookupItem{cp949: 0xe6f5, ucs2: 0xf9a2},
		lookupItem{cp949: 0xe6f6, ucs2: 0xf9a3},
		lookupItem{cp949: 0xe6f7, ucs2: 0xf9a4},
		lookupItem{cp949: 0xe6f8, ucs2: 0x67d3},
		lookupItem{cp949: 0xe6f9, ucs2: 0xf9a5},
		lookupItem{cp949: 0xe6fa, ucs2: 0x708e},
		lookupItem{cp949: 0xe6fb, ucs2: 0x7130},
		lookupItem{cp949: 0xe6fc, ucs2: 0x7430},
		lookupItem{cp949: 0xe6fd, ucs2: 0x8276},
		lookupItem{cp949: 0xe6fe, ucs2: 0x82d2},
		lookupItem{cp949: 0xe7a1, ucs2: 0xf9a6},
		lookupItem{cp949: 0xe7a2, ucs2: 0x95bb},
		lookupItem{cp949: 0xe7a3, ucs2: 0x9ae5},
		lookupItem{cp949: 0xe7a4, ucs2: 0x9e7d},
		lookupItem{cp949: 0xe7a5, ucs2: 0x66c4},
		lookupItem{cp949: 0xe7a6, ucs2: 0xf9a7},
		lookupItem{cp949: 0xe7a7, ucs2: 0x71c1},
		lookupItem{cp949: 0xe7a8, ucs2: 0x8449},
		lookupItem{cp949: 0xe7a9, ucs2: 0xf9a8},
		lookupItem{cp949: 0xe7aa, ucs2: 0xf9a9},
		lookupItem{cp949: 0xe7ab, ucs2: 0x584b},
		lookupItem{cp949: 0xe7ac, ucs2: 0xf9aa},
		lookupItem{cp949: 0xe7ad, ucs2: 0xf9ab},
		lookupItem{cp949: 0xe7ae, ucs2: 0x5db8},
		lookupItem{cp949: 0xe7af, ucs2: 0x5f71},
		lookupItem{cp949: 0xe7b0, ucs2: 0xf9ac},
		lookupItem{cp949: 0xe7b1, ucs2: 0x6620},
		lookupItem{cp949: 0xe7b2, ucs2: 0x668e},
		lookupItem{cp949: 0xe7b3, ucs2: 0x6979},
		lookupItem{cp949: 0xe7b4, ucs2: 0x69ae},
		lookupItem{cp949: 0xe7b5, ucs2: 0x6c38},
		lookupItem{cp949: 0xe7b6, ucs2: 0x6cf3},
		lookupItem{cp949: 0xe7b7, ucs2: 0x6e36},
		lookupItem{cp949: 0xe7b8, ucs2: 0x6f41},
		lookupItem{cp949: 0xe7b9, ucs2: 0x6fda},
		lookupItem{cp949: 0xe7ba, ucs2: 0x701b},
		lookupItem{cp949: 0xe7bb, ucs2: 0x702f},
		lookupItem{cp949: 0xe7bc, ucs2: 0x7150},
		lookupItem{cp949: 0xe7bd, ucs2: 0x71df},
		lookupItem{cp949: 0xe7be, ucs2: 0x7370},
		lookupItem{cp949: 0xe7bf, ucs2: 0xf9ad},
		lookupItem{cp949: 0xe7c0, ucs2: 0x745b},
		lookupItem{cp949: 0xe7c1, ucs2: 0xf9ae},
		lookupItem{cp949: 0xe7c2, ucs2: 0x74d4},
		lookupItem{cp949: 0xe7c3, ucs2: 0x76c8},
		lookupItem{cp949: 0xe7c4, ucs2: 0x7a4e},
		lookupItem{cp949: 0xe7c5, ucs2: 0x7e93},
		lookupItem{cp949: 0xe7c6, ucs2: 0xf9af},
		lookupItem{cp949: 0xe7c7, ucs2: 0xf9b0},
		lookupItem{cp949: 0xe7c8, ucs2: 0x82f1},
		lookupItem{cp949: 0xe7c9, ucs2: 0x8a60},
		lookupItem{cp949: 0xe7ca, ucs2: 0x8fce},
		lookupItem{cp949: 0xe7cb, ucs2: 0xf9b1},
		lookupItem{cp949: 0xe7cc, ucs2: 0x9348},
		lookupItem{cp949: 0xe7cd, ucs2: 0xf9b2},
		lookupItem{cp949: 0xe7ce, ucs2: 0x9719},
		lookupItem{cp949: 0xe7cf, ucs2: 0xf9b3},
		lookupItem{cp949: 0xe7d0, ucs2: 0xf9b4},
		lookupItem{cp949: 0xe7d1, ucs2: 0x4e42},
		lookupItem{cp949: 0xe7d2, ucs2: 0x502a},
		lookupItem{cp949: 0xe7d3, ucs2: 0xf9b5},
		lookupItem{cp949: 0xe7d4, ucs2: 0x5208},
		lookupItem{cp949: 0xe7d5, ucs2: 0x53e1},
		lookupItem{cp949: 0xe7d6, ucs2: 0x66f3},
		lookupItem{cp949: 0xe7d7, ucs2: 0x6c6d},
		lookupItem{cp949: 0xe7d8, ucs2: 0x6fca},
		lookupItem{cp949: 0xe7d9, ucs2: 0x730a},
		lookupItem{cp949: 0xe7da, ucs2: 0x777f},
		lookupItem{cp949: 0xe7db, ucs2: 0x7a62},
		lookupItem{cp949: 0xe7dc, ucs2: 0x82ae},
		lookupItem{cp949: 0xe7dd, ucs2: 0x85dd},
		lookupItem{cp949: 0xe7de, ucs2: 0x8602},
		lookupItem{cp949: 0xe7df, ucs2: 0xf9b6},
		lookupItem{cp949: 0xe7e0, ucs2: 0x88d4},
		lookupItem{cp949: 0xe7e1, ucs2: 0x8a63},
		lookupItem{cp949: 0xe7e2, ucs2: 0x8b7d},
		lookupItem{cp949: 0xe7e3, ucs2: 0x8c6b},
		lookupItem{cp949: 0xe7e4, ucs2: 0xf9b7},
		lookupItem{cp949: 0xe7e5, ucs2: 0x92b3},
		lookupItem{cp949: 0xe7e6, ucs2: 0xf9b8},
		lookupItem{cp949: 0xe7e7, ucs2: 0x9713},
		lookupItem{cp949: 0xe7e8, ucs2: 0x9810},
		lookupItem{cp949: 0xe7e9, ucs2: 0x4e94},
		lookupItem{cp949: 0xe7ea, ucs2: 0x4f0d},
		lookupItem{cp949: 0xe7eb, ucs2: 0x4fc9},
		lookupItem{cp949: 0xe7ec, ucs2: 0x50b2},
		lookupItem{cp949: 0xe7ed, ucs2: 0x5348},
		lookupItem{cp949: 0xe7ee, ucs2: 0x543e},
		lookupItem{cp949: 0xe7ef, ucs2: 0x5433},
		lookupItem{cp949: 0xe7f0, ucs2: 0x55da},
		lookupItem{cp949: 0xe7f1, ucs2: 0x5862},
		lookupItem{cp949: 0xe7f2, ucs2: 0x58ba},
		lookupItem{cp949: 0xe7f3, ucs2: 0x5967},
		lookupItem{cp949: 0xe7f4, ucs2: 0x5a1b},
		lookupItem{cp949: 0xe7f5, ucs2: 0x5be4},
		lookupItem{cp949: 0xe7f6, ucs2: 0x609f},
		lookupItem{cp949: 0xe7f7, ucs2: 0xf9b9},
		lookupItem{cp949: 0xe7f8, ucs2: 0x61ca},
		lookupItem{cp949: 0xe7f9, ucs2: 0x6556},
		lookupItem{cp949: 0xe7fa, ucs2: 0x65ff},
		lookupItem{cp949: 0xe7fb, ucs2: 0x6664},
		lookupItem{cp949: 0xe7fc, ucs2: 0x68a7},
		lookupItem{cp949: 0xe7fd, ucs2: 0x6c5a},
		lookupItem{cp949: 0xe7fe, ucs2: 0x6fb3},
		lookupItem{cp949: 0xe8a1, ucs2: 0x70cf},
		lookupItem{cp949: 0xe8a2, ucs2: 0x71ac},
		lookupItem{cp949: 0xe8a3, ucs2: 0x7352},
		lookupItem{cp949: 0xe8a4, ucs2: 0x7b7d},
		lookupItem{cp949: 0xe8a5, ucs2: 0x8708},
		lookupItem{cp949: 0xe8a6, ucs2: 0x8aa4},
		lookupItem{cp949: 0xe8a7, ucs2: 0x9c32},
		lookupItem{cp949: 0xe8a8, ucs2: 0x9f07},
		lookupItem{cp949: 0xe8a9, ucs2: 0x5c4b},
		lookupItem{cp949: 0xe8aa, ucs2: 0x6c83},
		lookupItem{cp949: 0xe8ab, ucs2: 0x7344},
		lookupItem{cp949: 0xe8ac, ucs2: 0x7389},
".
Definition text_cp949_lookup_from_060 : string :=
"		lookupItem{cp949: 0xe8ad, ucs2: 0x923a},
		lookupItem{cp949: 0xe8ae, ucs2: 0x6eab},
		lookupItem{cp949: 0xe8af, ucs2: 0x7465},
		lookupItem{cp949: 0xe8b0, ucs2: 0x761f},
		lookupItem{cp949: 0xe8b1, ucs2: 0x7a69},
		lookupItem{cp949: 0xe8b2, ucs2: 0x7e15},
		lookupItem{cp949: 0xe8b3, ucs2: 0x860a},
		lookupItem{cp949: 0xe8b4, ucs2: 0x5140},
		lookupItem{cp949: 0xe8b5, ucs2: 0x58c5},
		lookupItem{cp949: 0xe8b6, ucs2: 0x64c1},
		lookupItem{cp949: 0xe8b7, ucs2: 0x74ee},
		lookupItem{cp949: 0xe8b8, ucs2: 0x7515},
		lookupItem{cp949: 0xe8b9, ucs2: 0x7670},
		lookupItem{cp949: 0xe8ba, ucs2: 0x7fc1},
		lookupItem{cp949: 0xe8bb, ucs2: 0x9095},
		lookupItem{cp949: 0xe8bc, ucs2: 0x96cd},
		lookupItem{cp949: 0xe8bd, ucs2: 0x9954},
		lookupItem{cp949: 0xe8be, ucs2: 0x6e26},
		lookupItem{cp949: 0xe8bf, ucs2: 0x74e6},
		lookupItem{cp949: 0xe8c0, ucs2: 0x7aa9},
		lookupItem{cp949: 0xe8c1, ucs2: 0x7aaa},
		lookupItem{cp949: 0xe8c2, ucs2: 0x81e5},
		lookupItem{cp949: 0xe8c3, ucs2: 0x86d9},
		lookupItem{cp949: 0xe8c4, ucs2: 0x8778},
		lookupItem{cp949: 0xe8c5, ucs2: 0x8a1b},
		lookupItem{cp949: 0xe8c6, ucs2: 0x5a49},
		lookupItem{cp949: 0xe8c7, ucs2: 0x5b8c},
		lookupItem{cp949: 0xe8c8, ucs2: 0x5b9b},
		lookupItem{cp949: 0xe8c9, ucs2: 0x68a1},
		lookupItem{cp949: 0xe8ca, ucs2: 0x6900},
		lookupItem{cp949: 0xe8cb, ucs2: 0x6d63},
		lookupItem{cp949: 0xe8cc, ucs2: 0x73a9},
		lookupItem{cp949: 0xe8cd, ucs2: 0x7413},
		lookupItem{cp949: 0xe8ce, ucs2: 0x742c},
		lookupItem{cp949: 0xe8cf, ucs2: 0x7897},
		lookupItem{cp949: 0xe8d0, ucs2: 0x7de9},
		lookupItem{cp949: 0xe8d1, ucs2: 0x7feb},
		lookupItem{cp949: 0xe8d2, ucs2: 0x8118},
		lookupItem{cp949: 0xe8d3, ucs2: 0x8155},
		lookupItem{cp949: 0xe8d4, ucs2: 0x839e},
		lookupItem{cp949: 0xe8d5, ucs2: 0x8c4c},
		lookupItem{cp949: 0xe8d6, ucs2: 0x962e},
		lookupItem{cp949: 0xe8d7, ucs2: 0x9811},
		lookupItem{cp949: 0xe8d8, ucs2: 0x66f0},
		lookupItem{cp949: 0xe8d9, ucs2: 0x5f80},
		lookupItem{cp949: 0xe8da, ucs2: 0x65fa},
		lookupItem{cp949: 0xe8db, ucs2: 0x6789},
		lookupItem{cp949: 0xe8dc, ucs2: 0x6c6a},
		lookupItem{cp949: 0xe8dd, ucs2: 0x738b},
		lookupItem{cp949: 0xe8de, ucs2: 0x502d},
		lookupItem{cp949: 0xe8df, ucs2: 0x5a03},
		lookupItem{cp949: 0xe8e0, ucs2: 0x6b6a},
		lookupItem{cp949: 0xe8e1, ucs2: 0x77ee},
		lookupItem{cp949: 0xe8e2, ucs2: 0x5916},
		lookupItem{cp949: 0xe8e3, ucs2: 0x5d6c},
		lookupItem{cp949: 0xe8e4, ucs2: 0x5dcd},
		lookupItem{cp949: 0xe8e5, ucs2: 0x7325},
		lookupItem{cp949: 0xe8e6, ucs2: 0x754f},
		lookupItem{cp949: 0xe8e7, ucs2: 0xf9ba},
		lookupItem{cp949: 0xe8e8, ucs2: 0xf9bb},
		lookupItem{cp949: 0xe8e9, ucs2: 0x50e5},
		lookupItem{cp949: 0xe8ea, ucs2: 0x51f9},
		lookupItem{cp949: 0xe8eb, ucs2: 0x582f},
		lookupItem{cp949: 0xe8ec, ucs2: 0x592d},
		lookupItem{cp949: 0xe8ed, ucs2: 0x5996},
		lookupItem{cp949: 0xe8ee, ucs2: 0x59da},
		lookupItem{cp949: 0xe8ef, ucs2: 0x5be5},
		lookupItem{cp949: 0xe8f0, ucs2: 0xf9bc},
		lookupItem{cp949: 0xe8f1, ucs2: 0xf9bd},
		lookupItem{cp949: 0xe8f2, ucs2: 0x5da2},
		lookupItem{cp949: 0xe8f3, ucs2: 0x62d7},
		lookupItem{cp949: 0xe8f4, ucs2: 0x6416},
		lookupItem{cp949: 0xe8f5, ucs2: 0x6493},
		lookupItem{cp949: 0xe8f6, ucs2: 0x64fe},
		lookupItem{cp949: 0xe8f7, ucs2: 0xf9be},
		lookupItem{cp949: 0xe8f8, ucs2: 0x66dc},
		lookupItem{cp949: 0xe8f9, ucs2: 0xf9bf},
		lookupItem{cp949: 0xe8fa, ucs2: 0x6a48},
		lookupItem{cp949: 0xe8fb, ucs2: 0xf9c0},
		lookupItem{cp949: 0xe8fc, ucs2: 0x71ff},
		lookupItem{cp949: 0xe8fd, ucs2: 0x7464},
		lookupItem{cp949: 0xe8fe, ucs2: 0xf9c1},
		lookupItem{cp949: 0xe9a1, ucs2: 0x7a88},
		lookupItem{cp949: 0xe9a2, ucs2: 0x7aaf},
		lookupItem{cp949: 0xe9a3, ucs2: 0x7e47},
		lookupItem{cp949: 0xe9a4, ucs2: 0x7e5e},
		lookupItem{cp949: 0xe9a5, ucs2: 0x8000},
		lookupItem{cp949: 0xe9a6, ucs2: 0x8170},
		lookupItem{cp949: 0xe9a7, ucs2: 0xf9c2},
		lookupItem{cp949: 0xe9a8, ucs2: 0x87ef},
		lookupItem{cp949: 0xe9a9, ucs2: 0x8981},
		lookupItem{cp949: 0xe9aa, ucs2: 0x8b20},
		lookupItem{cp949: 0xe9ab, ucs2: 0x9059},
		lookupItem{cp949: 0xe9ac, ucs2: 0xf9c3},
		lookupItem{cp949: 0xe9ad, ucs2: 0x9080},
		lookupItem{cp949: 0xe9ae, ucs2: 0x9952},
		lookupItem{cp949: 0xe9af, ucs2: 0x617e},
		lookupItem{cp949: 0xe9b0, ucs2: 0x6b32},
		lookupItem{cp949: 0xe9b1, ucs2: 0x6d74},
		lookupItem{cp949: 0xe9b2, ucs2: 0x7e1f},
		lookupItem{cp949: 0xe9b3, ucs2: 0x8925},
		lookupItem{cp949: 0xe9b4, ucs2: 0x8fb1},
		lookupItem{cp949: 0xe9b5, ucs2: 0x4fd1},
		lookupItem{cp949: 0xe9b6, ucs2: 0x50ad},
		lookupItem{cp949: 0xe9b7, ucs2: 0x5197},
		lookupItem{cp949: 0xe9b8, ucs2: 0x52c7},
		lookupItem{cp949: 0xe9b9, ucs2: 0x57c7},
		lookupItem{cp949: 0xe9ba, ucs2: 0x5889},
		lookupItem{cp949: 0xe9bb, ucs2: 0x5bb9},
		lookupItem{cp949: 0xe9bc, ucs2: 0x5eb8},
		lookupItem{cp949: 0xe9bd, ucs2: 0x6142},
		lookupItem{cp949: 0xe9be, ucs2: 0x6995},
		lookupItem{cp949: 0xe9bf, ucs2: 0x6d8c},
		lookupItem{cp949: 0xe9c0, ucs2: 0x6e67},
		lookupItem{cp949: 0xe9c1, ucs2: 0x6eb6},
		lookupItem{cp949: 0xe9c2, ucs2: 0x7194},
		lookupItem{cp949: 0xe9c3, ucs2: 0x7462},
		lookupItem{cp949: 0xe9c4, ucs2: 0x7528},
		lookupItem{cp949: 0xe9c5, ucs2: 0x752c},
		lookupItem{cp949: 0xe9c6, ucs2: 0x8073},
		lookupItem{cp949: 0xe9c7, ucs2: 0x8338},
		lookupItem{cp949: 0xe9c8, ucs2: 0x84c9},
		lookupItem{cp949: 0xe9c9, ucs2: 0x8e0a},
		lookupItem{cp949: 0xe9ca, ucs2: 0x9394},
		lookupItem{cp949: 0xe9cb, ucs2: 0x93de},
		lookupItem{cp949: 0xe9cc, ucs2: 0xf9c4},
		lookupItem{cp949: 0xe9cd, ucs2: 0x4e8e},
		lookupItem{cp949: 0xe9ce, ucs2: 0x4f51},
		lookupItem{cp949: 0xe9cf, ucs2: 0x5076},
		lookupItem{cp949: 0xe9d0, ucs2: 0x512a},
		lookupItem{cp949: 0xe9d1, ucs2: 0x53c8},
		lookupItem{cp949: 0xe9d2, ucs2: 0x53cb},
		lookupItem{cp949: 0xe9d3, ucs2: 0x53f3},
		lookupItem{cp949: 0xe9d4, ucs2: 0x5b87},
		lookupItem{cp949: 0xe9d5, ucs2: 0x5bd3},
		lookupItem{cp949: 0xe9d6, ucs2: 0x5c24},
		lookupItem{cp949: 0xe9d7, ucs2: 0x611a},
		lookupItem{cp949: 0xe9d8, ucs2: 0x6182},
		lookupItem{cp949: 0xe9d9, ucs2: 0x65f4},
		lookupItem{cp949: 0xe9da, ucs2: 0x725b},
		lookupItem{cp949: 0xe9db, ucs2: 0x7397},
		lookupItem{cp949: 0xe9dc, ucs2: 0x7440},
		lookupItem{cp949: 0xe9dd, ucs2: 0x76c2},
		lookupItem{cp949: 0xe9de, ucs2: 0x7950},
		lookupItem{cp949: 0xe9df, ucs2: 0x7991},
		lookupItem{cp949: 0xe9e0, ucs2: 0x79b9},
		lookupItem{cp949: 0xe9e1, ucs2: 0x7d06},
		lookupItem{cp949: 0xe9e2, ucs2: 0x7fbd},
		lookupItem{cp949: 0xe9e3, ucs2: 0x828b},
		lookupItem{cp949: 0xe9e4, ucs2: 0x85d5},
		lookupItem{cp949: 0xe9e5, ucs2: 0x865e},
		lookupItem{cp949: 0xe9e6, ucs2: 0x8fc2},
		lookupItem{cp949: 0xe9e7, ucs2: 0x9047},
		lookupItem{cp949: 0xe9e8, ucs2: 0x90f5},
		lookupItem{cp949: 0xe9e9, ucs2: 0x91ea},
		lookupItem{cp949: 0xe9ea, ucs2: 0x9685},
		lookupItem{cp949: 0xe9eb, ucs2: 0x96e8},
		lookupItem{cp949: 0xe9ec, ucs2: 0x96e9},
		lookupItem{cp949: 0xe9ed, ucs2: 0x52d6},
		lookupItem{cp949: 0xe9ee, ucs2: 0x5f67},
		lookupItem{cp949: 0xe9ef, ucs2: 0x65ed},
		lookupItem{cp949: 0xe9f0, ucs2: 0x6631},
		lookupItem{cp949: 0xe9f1, ucs2: 0x682f},
		lookupItem{cp949: 0xe9f2, ucs2: 0x715c},
		lookupItem{cp949: 0xe9f3, ucs2: 0x7a36},
		lookupItem{cp949: 0xe9f4, ucs2: 0x90c1},
		lookupItem{cp949: 0xe9f5, ucs2: 0x980a},
		lookupItem{cp949: 0xe9f6, ucs2: 0x4e91},
		lookupItem{cp949: 0xe9f7, ucs2: 0xf9c5},
		lookupItem{cp949: 0xe9f8, ucs2: 0x6a52},
		lookupItem{cp949: 0xe9f9, ucs2: 0x6b9e},
		lookupItem{cp949: 0xe9fa, ucs2: 0x6f90},
		lookupItem{cp949: 0xe9fb, ucs2: 0x7189},
		lookupItem{cp949: 0xe9fc, ucs2: 0x8018},
		lookupItem{cp949: 0xe9fd, ucs2: 0x82b8},
		lookupItem{cp949: 0xe9fe, ucs2: 0x8553},
		lookupItem{cp949: 0xeaa1, ucs2: 0x904b},
		lookupItem{cp949: 0xeaa2, ucs2: 0x9695},
		lookupItem{cp949: 0xeaa3, ucs2: 0x96f2},
		lookupItem{cp949: 0xeaa4, ucs2: 0x97fb},
		lookupItem{cp949: 0xeaa5, ucs2: 0x851a},
		lookupItem{cp949: 0xeaa6, ucs2: 0x9b31},
		lookupItem{cp949: 0xeaa7, ucs2: 0x4e90},
		lookupItem{cp949: 0xeaa8, ucs2: 0x718a},
		lookupItem{cp949: 0xeaa9, ucs2: 0x96c4},
		lookupItem{cp949: 0xeaaa, ucs2: 0x5143},
		lookupItem{cp949: 0xeaab, ucs2: 0x539f},
		lookupItem{cp949: 0xeaac, ucs2: 0x54e1},
		lookupItem{cp949: 0xeaad, ucs2: 0x5713},
		lookupItem{cp949: 0xeaae, ucs2: 0x5712},
		lookupItem{cp949: 0xeaaf, ucs2: 0x57a3},
		lookupItem{cp949: 0xeab0, ucs2: 0x5a9b},
		lookupItem{cp949: 0xeab1, ucs2: 0x5ac4},
		lookupItem{cp949: 0xeab2, ucs2: 0x5bc3},
		lookupItem{cp949: 0xeab3, ucs2: 0x6028},
		lookupItem{cp949: 0xeab4, ucs2: 0x613f},
		lookupItem{cp949: 0xeab5, ucs2: 0x63f4},
		lookupItem{cp949: 0xeab6, ucs2: 0x6c85},
		lookupItem{cp949: 0xeab7, ucs2: 0x6d39},
		lookupItem{cp949: 0xeab8, ucs2: 0x6e72},
		lookupItem{cp949: 0xeab9, ucs2: 0x6e90},
		lookupItem{cp949: 0xeaba, ucs2: 0x7230},
		lookupItem{cp949: 0xeabb, ucs2: 0x733f},
		lookupItem{cp949: 0xeabc, ucs2: 0x7457},
		lookupItem{cp949: 0xeabd, ucs2: 0x82d1},
		lookupItem{cp949: 0xeabe, ucs2: 0x8881},
		lookupItem{cp949: 0xeabf, ucs2: 0x8f45},
		lookupItem{cp949: 0xeac0, ucs2: 0x9060},
		lookupItem{cp949: 0xeac1, ucs2: 0xf9c6},
		lookupItem{cp949: 0xeac2, ucs2: 0x9662},
		lookupItem{cp949: 0xeac3, ucs2: 0x9858},
		lookupItem{cp949: 0xeac4, ucs2: 0x9d1b},
		lookupItem{cp949: 0xeac5, ucs2: 0x6708},
		lookupItem{cp949: 0xeac6, ucs2: 0x8d8a},
		lookupItem{cp949: 0xeac7, ucs2: 0x925e},
		lookupItem{cp949: 0xeac8, ucs2: 0x4f4d},
		lookupItem{cp949: 0xeac9, ucs2: 0x5049},
		lookupItem{cp949: 0xeaca, ucs2: 0x50de},
		lookupItem{cp949: 0xeacb, ucs2: 0x5371},
		lookupItem{cp949: 0xeacc, ucs2: 0x570d},
		lookupItem{cp949: 0xeacd, ucs2: 0x59d4},
		lookupItem{cp949: 0xeace, ucs2: 0x5a01},
		lookupItem{cp949: 0xeacf, ucs2: 0x5c09},
		lookupItem{cp949: 0xead0, ucs2: 0x6170},
		lookupItem{cp949: 0xead1, ucs2: 0x6690},
		lookupItem{cp949: 0xead2, ucs2: 0x6e2d},
		lookupItem{cp949: 0xead3, ucs2: 0x7232},
		lookupItem{cp949: 0xead4, ucs2: 0x744b},
		lookupItem{cp949: 0xead5, ucs2: 0x7def},
		lookupItem{cp949: 0xead6, ucs2: 0x80c3},
		lookupItem{cp949: 0xead7, ucs2: 0x840e},
		lookupItem{cp949: 0xead8, ucs2: 0x8466},
		lookupItem{cp949: 0xead9, ucs2: 0x853f},
		lookupItem{cp949: 0xeada, ucs2: 0x875f},
		lookupItem{cp949: 0xeadb, ucs2: 0x885b},
		lookupItem{cp949: 0xeadc, ucs2: 0x8918},
		lookupItem{cp949: 0xeadd, ucs2: 0x8b02},
		lookupItem{cp949: 0xeade, ucs2: 0x9055},
		lookupItem{cp949: 0xeadf, ucs2: 0x97cb},
		lookupItem{cp949: 0xeae0, ucs2: 0x9b4f},
		lookupItem{cp949: 0xeae1, ucs2: 0x4e73},
		lookupItem{cp949: 0xeae2, ucs2: 0x4f91},
		lookupItem{cp949: 0xeae3, ucs2: 0x5112},
		lookupItem{cp949: 0xeae4, ucs2: 0x516a},
		lookupItem{cp949: 0xeae5, ucs2: 0xf9c7},
		lookupItem{cp949: 0xeae6, ucs2: 0x552f},
		lookupItem{cp949: 0xeae7, ucs2: 0x55a9},
		lookupItem{cp949: 0xeae8, ucs2: 0x5b7a},
		lookupItem{cp949: 0xeae9, ucs2: 0x5ba5},
		lookupItem{cp949: 0xeaea, ucs2: 0x5e7c},
".
Definition text_cp949_lookup_from_061 : string :=
"		lookupItem{cp949: 0xeaeb, ucs2: 0x5e7d},
		lookupItem{cp949: 0xeaec, ucs2: 0x5ebe},
		lookupItem{cp949: 0xeaed, ucs2: 0x60a0},
		lookupItem{cp949: 0xeaee, ucs2: 0x60df},
		lookupItem{cp949: 0xeaef, ucs2: 0x6108},
		lookupItem{cp949: 0xeaf0, ucs2: 0x6109},
		lookupItem{cp949: 0xeaf1, ucs2: 0x63c4},
		lookupItem{cp949: 0xeaf2, ucs2: 0x6538},
		lookupItem{cp949: 0xeaf3, ucs2: 0x6709},
		lookupItem{cp949: 0xeaf4, ucs2: 0xf9c8},
		lookupItem{cp949: 0xeaf5, ucs2: 0x67d4},
		lookupItem{cp949: 0xeaf6, ucs2: 0x67da},
		lookupItem{cp949: 0xeaf7, ucs2: 0xf9c9},
		lookupItem{cp949: 0xeaf8, ucs2: 0x6961},
		lookupItem{cp949: 0xeaf9, ucs2: 0x6962},
		lookupItem{cp949: 0xeafa, ucs2: 0x6cb9},
		lookupItem{cp949: 0xeafb, ucs2: 0x6d27},
		lookupItem{cp949: 0xeafc, ucs2: 0xf9ca},
		lookupItem{cp949: 0xeafd, ucs2: 0x6e38},
		lookupItem{cp949: 0xeafe, ucs2: 0xf9cb},
		lookupItem{cp949: 0xeba1, ucs2: 0x6fe1},
		lookupItem{cp949: 0xeba2, ucs2: 0x7336},
		lookupItem{cp949: 0xeba3, ucs2: 0x7337},
		lookupItem{cp949: 0xeba4, ucs2: 0xf9cc},
		lookupItem{cp949: 0xeba5, ucs2: 0x745c},
		lookupItem{cp949: 0xeba6, ucs2: 0x7531},
		lookupItem{cp949: 0xeba7, ucs2: 0xf9cd},
		lookupItem{cp949: 0xeba8, ucs2: 0x7652},
		lookupItem{cp949: 0xeba9, ucs2: 0xf9ce},
		lookupItem{cp949: 0xebaa, ucs2: 0xf9cf},
		lookupItem{cp949: 0xebab, ucs2: 0x7dad},
		lookupItem{cp949: 0xebac, ucs2: 0x81fe},
		lookupItem{cp949: 0xebad, ucs2: 0x8438},
		lookupItem{cp949: 0xebae, ucs2: 0x88d5},
		lookupItem{cp949: 0xebaf, ucs2: 0x8a98},
		lookupItem{cp949: 0xebb0, ucs2: 0x8adb},
		lookupItem{cp949: 0xebb1, ucs2: 0x8aed},
		lookupItem{cp949: 0xebb2, ucs2: 0x8e30},
		lookupItem{cp949: 0xebb3, ucs2: 0x8e42},
		lookupItem{cp949: 0xebb4, ucs2: 0x904a},
		lookupItem{cp949: 0xebb5, ucs2: 0x903e},
		lookupItem{cp949: 0xebb6, ucs2: 0x907a},
		lookupItem{cp949: 0xebb7, ucs2: 0x9149},
		lookupItem{cp949: 0xebb8, ucs2: 0x91c9},
		lookupItem{cp949: 0xebb9, ucs2: 0x936e},
		lookupItem{cp949: 0xebba, ucs2: 0xf9d0},
		lookupItem{cp949: 0xebbb, ucs2: 0xf9d1},
		lookupItem{cp949: 0xebbc, ucs2: 0x5809},
		lookupItem{cp949: 0xebbd, ucs2: 0xf9d2},
		lookupItem{cp949: 0xebbe, ucs2: 0x6bd3},
		lookupItem{cp949: 0xebbf, ucs2: 0x8089},
		lookupItem{cp949: 0xebc0, ucs2: 0x80b2},
		lookupItem{cp949: 0xebc1, ucs2: 0xf9d3},
		lookupItem{cp949: 0xebc2, ucs2: 0xf9d4},
		lookupItem{cp949: 0xebc3, ucs2: 0x5141},
		lookupItem{cp949: 0xebc4, ucs2: 0x596b},
		lookupItem{cp949: 0xebc5, ucs2: 0x5c39},
		lookupItem{cp949: 0xebc6, ucs2: 0xf9d5},
		lookupItem{cp949: 0xebc7, ucs2: 0xf9d6},
		lookupItem{cp949: 0xebc8, ucs2: 0x6f64},
		lookupItem{cp949: 0xebc9, ucs2: 0x73a7},
		lookupItem{cp949: 0xebca, ucs2: 0x80e4},
		lookupItem{cp949: 0xebcb, ucs2: 0x8d07},
		lookupItem{cp949: 0xebcc, ucs2: 0xf9d7},
		lookupItem{cp949: 0xebcd, ucs2: 0x9217},
		lookupItem{cp949: 0xebce, ucs2: 0x958f},
		lookupItem{cp949: 0xebcf, ucs2: 0xf9d8},
		lookupItem{cp949: 0xebd0, ucs2: 0xf9d9},
		lookupItem{cp949: 0xebd1, ucs2: 0xf9da},
		lookupItem{cp949: 0xebd2, ucs2: 0xf9db},
		lookupItem{cp949: 0xebd3, ucs2: 0x807f},
		lookupItem{cp949: 0xebd4, ucs2: 0x620e},
		lookupItem{cp949: 0xebd5, ucs2: 0x701c},
		lookupItem{cp949: 0xebd6, ucs2: 0x7d68},
		lookupItem{cp949: 0xebd7, ucs2: 0x878d},
		lookupItem{cp949: 0xebd8, ucs2: 0xf9dc},
		lookupItem{cp949: 0xebd9, ucs2: 0x57a0},
		lookupItem{cp949: 0xebda, ucs2: 0x6069},
		lookupItem{cp949: 0xebdb, ucs2: 0x6147},
		lookupItem{cp949: 0xebdc, ucs2: 0x6bb7},
		lookupItem{cp949: 0xebdd, ucs2: 0x8abe},
		lookupItem{cp949: 0xebde, ucs2: 0x9280},
		lookupItem{cp949: 0xebdf, ucs2: 0x96b1},
		lookupItem{cp949: 0xebe0, ucs2: 0x4e59},
		lookupItem{cp949: 0xebe1, ucs2: 0x541f},
		lookupItem{cp949: 0xebe2, ucs2: 0x6deb},
		lookupItem{cp949: 0xebe3, ucs2: 0x852d},
		lookupItem{cp949: 0xebe4, ucs2: 0x9670},
		lookupItem{cp949: 0xebe5, ucs2: 0x97f3},
		lookupItem{cp949: 0xebe6, ucs2: 0x98ee},
		lookupItem{cp949: 0xebe7, ucs2: 0x63d6},
		lookupItem{cp949: 0xebe8, ucs2: 0x6ce3},
		lookupItem{cp949: 0xebe9, ucs2: 0x9091},
		lookupItem{cp949: 0xebea, ucs2: 0x51dd},
		lookupItem{cp949: 0xebeb, ucs2: 0x61c9},
		lookupItem{cp949: 0xebec, ucs2: 0x81ba},
		lookupItem{cp949: 0xebed, ucs2: 0x9df9},
		lookupItem{cp949: 0xebee, ucs2: 0x4f9d},
		lookupItem{cp949: 0xebef, ucs2: 0x501a},
		lookupItem{cp949: 0xebf0, ucs2: 0x5100},
		lookupItem{cp949: 0xebf1, ucs2: 0x5b9c},
		lookupItem{cp949: 0xebf2, ucs2: 0x610f},
		lookupItem{cp949: 0xebf3, ucs2: 0x61ff},
		lookupItem{cp949: 0xebf4, ucs2: 0x64ec},
		lookupItem{cp949: 0xebf5, ucs2: 0x6905},
		lookupItem{cp949: 0xebf6, ucs2: 0x6bc5},
		lookupItem{cp949: 0xebf7, ucs2: 0x7591},
		lookupItem{cp949: 0xebf8, ucs2: 0x77e3},
		lookupItem{cp949: 0xebf9, ucs2: 0x7fa9},
		lookupItem{cp949: 0xebfa, ucs2: 0x8264},
		lookupItem{cp949: 0xebfb, ucs2: 0x858f},
		lookupItem{cp949: 0xebfc, ucs2: 0x87fb},
		lookupItem{cp949: 0xebfd, ucs2: 0x8863},
		lookupItem{cp949: 0xebfe, ucs2: 0x8abc},
		lookupItem{cp949: 0xeca1, ucs2: 0x8b70},
		lookupItem{cp949: 0xeca2, ucs2: 0x91ab},
		lookupItem{cp949: 0xeca3, ucs2: 0x4e8c},
		lookupItem{cp949: 0xeca4, ucs2: 0x4ee5},
		lookupItem{cp949: 0xeca5, ucs2: 0x4f0a},
		lookupItem{cp949: 0xeca6, ucs2: 0xf9dd},
		lookupItem{cp949: 0xeca7, ucs2: 0xf9de},
		lookupItem{cp949: 0xeca8, ucs2: 0x5937},
		lookupItem{cp949: 0xeca9, ucs2: 0x59e8},
		lookupItem{cp949: 0xecaa, ucs2: 0xf9df},
		lookupItem{cp949: 0xecab, ucs2: 0x5df2},
		lookupItem{cp949: 0xecac, ucs2: 0x5f1b},
		lookupItem{cp949: 0xecad, ucs2: 0x5f5b},
		lookupItem{cp949: 0xecae, ucs2: 0x6021},
		lookupItem{cp949: 0xecaf, ucs2: 0xf9e0},
		lookupItem{cp949: 0xecb0, ucs2: 0xf9e1},
		lookupItem{cp949: 0xecb1, ucs2: 0xf9e2},
		lookupItem{cp949: 0xecb2, ucs2: 0xf9e3},
		lookupItem{cp949: 0xecb3, ucs2: 0x723e},
		lookupItem{cp949: 0xecb4, ucs2: 0x73e5},
		lookupItem{cp949: 0xecb5, ucs2: 0xf9e4},
		lookupItem{cp949: 0xecb6, ucs2: 0x7570},
		lookupItem{cp949: 0xecb7, ucs2: 0x75cd},
		lookupItem{cp949: 0xecb8, ucs2: 0xf9e5},
		lookupItem{cp949: 0xecb9, ucs2: 0x79fb},
		lookupItem{cp949: 0xecba, ucs2: 0xf9e6},
		lookupItem{cp949: 0xecbb, ucs2: 0x800c},
		lookupItem{cp949: 0xecbc, ucs2: 0x8033},
		lookupItem{cp949: 0xecbd, ucs2: 0x8084},
		lookupItem{cp949: 0xecbe, ucs2: 0x82e1},
		lookupItem{cp949: 0xecbf, ucs2: 0x8351},
		lookupItem{cp949: 0xecc0, ucs2: 0xf9e7},
		lookupItem{cp949: 0xecc1, ucs2: 0xf9e8},
		lookupItem{cp949: 0xecc2, ucs2: 0x8cbd},
		lookupItem{cp949: 0xecc3, ucs2: 0x8cb3},
		lookupItem{cp949: 0xecc4, ucs2: 0x9087},
		lookupItem{cp949: 0xecc5, ucs2: 0xf9e9},
		lookupItem{cp949: 0xecc6, ucs2: 0xf9ea},
		lookupItem{cp949: 0xecc7, ucs2: 0x98f4},
		lookupItem{cp949: 0xecc8, ucs2: 0x990c},
		lookupItem{cp949: 0xecc9, ucs2: 0xf9eb},
		lookupItem{cp949: 0xecca, ucs2: 0xf9ec},
		lookupItem{cp949: 0xeccb, ucs2: 0x7037},
		lookupItem{cp949: 0xeccc, ucs2: 0x76ca},
		lookupItem{cp949: 0xeccd, ucs2: 0x7fca},
		lookupItem{cp949: 0xecce, ucs2: 0x7fcc},
		lookupItem{cp949: 0xeccf, ucs2: 0x7ffc},
		lookupItem{cp949: 0xecd0, ucs2: 0x8b1a},
		lookupItem{cp949: 0xecd1, ucs2: 0x4eba},
		lookupItem{cp949: 0xecd2, ucs2: 0x4ec1},
		lookupItem{cp949: 0xecd3, ucs2: 0x5203},
		lookupItem{cp949: 0xecd4, ucs2: 0x5370},
		lookupItem{cp949: 0xecd5, ucs2: 0xf9ed},
		lookupItem{cp949: 0xecd6, ucs2: 0x54bd},
		lookupItem{cp949: 0xecd7, ucs2: 0x56e0},
		lookupItem{cp949: 0xecd8, ucs2: 0x59fb},
		lookupItem{cp949: 0xecd9, ucs2: 0x5bc5},
		lookupItem{cp949: 0xecda, ucs2: 0x5f15},
		lookupItem{cp949: 0xecdb, ucs2: 0x5fcd},
		lookupItem{cp949: 0xecdc, ucs2: 0x6e6e},
		lookupItem{cp949: 0xecdd, ucs2: 0xf9ee},
		lookupItem{cp949: 0xecde, ucs2: 0xf9ef},
		lookupItem{cp949: 0xecdf, ucs2: 0x7d6a},
		lookupItem{cp949: 0xece0, ucs2: 0x8335},
		lookupItem{cp949: 0xece1, ucs2: 0xf9f0},
		lookupItem{cp949: 0xece2, ucs2: 0x8693},
		lookupItem{cp949: 0xece3, ucs2: 0x8a8d},
		lookupItem{cp949: 0xece4, ucs2: 0xf9f1},
		lookupItem{cp949: 0xece5, ucs2: 0x976d},
		lookupItem{cp949: 0xece6, ucs2: 0x9777},
		lookupItem{cp949: 0xece7, ucs2: 0xf9f2},
		lookupItem{cp949: 0xece8, ucs2: 0xf9f3},
		lookupItem{cp949: 0xece9, ucs2: 0x4e00},
		lookupItem{cp949: 0xecea, ucs2: 0x4f5a},
		lookupItem{cp949: 0xeceb, ucs2: 0x4f7e},
		lookupItem{cp949: 0xecec, ucs2: 0x58f9},
		lookupItem{cp949: 0xeced, ucs2: 0x65e5},
		lookupItem{cp949: 0xecee, ucs2: 0x6ea2},
		lookupItem{cp949: 0xecef, ucs2: 0x9038},
		lookupItem{cp949: 0xecf0, ucs2: 0x93b0},
		lookupItem{cp949: 0xecf1, ucs2: 0x99b9},
		lookupItem{cp949: 0xecf2, ucs2: 0x4efb},
		lookupItem{cp949: 0xecf3, ucs2: 0x58ec},
		lookupItem{cp949: 0xecf4, ucs2: 0x598a},
		lookupItem{cp949: 0xecf5, ucs2: 0x59d9},
		lookupItem{cp949: 0xecf6, ucs2: 0x6041},
		lookupItem{cp949: 0xecf7, ucs2: 0xf9f4},
		lookupItem{cp949: 0xecf8, ucs2: 0xf9f5},
		lookupItem{cp949: 0xecf9, ucs2: 0x7a14},
		lookupItem{cp949: 0xecfa, ucs2: 0xf9f6},
		lookupItem{cp949: 0xecfb, ucs2: 0x834f},
		lookupItem{cp949: 0xecfc, ucs2: 0x8cc3},
		lookupItem{cp949: 0xecfd, ucs2: 0x5165},
		lookupItem{cp949: 0xecfe, ucs2: 0x5344},
		lookupItem{cp949: 0xeda1, ucs2: 0xf9f7},
		lookupItem{cp949: 0xeda2, ucs2: 0xf9f8},
		lookupItem{cp949: 0xeda3, ucs2: 0xf9f9},
		lookupItem{cp949: 0xeda4, ucs2: 0x4ecd},
		lookupItem{cp949: 0xeda5, ucs2: 0x5269},
		lookupItem{cp949: 0xeda6, ucs2: 0x5b55},
		lookupItem{cp949: 0xeda7, ucs2: 0x82bf},
		lookupItem{cp949: 0xeda8, ucs2: 0x4ed4},
		lookupItem{cp949: 0xeda9, ucs2: 0x523a},
		lookupItem{cp949: 0xedaa, ucs2: 0x54a8},
		lookupItem{cp949: 0xedab, ucs2: 0x59c9},
		lookupItem{cp949: 0xedac, ucs2: 0x59ff},
		lookupItem{cp949: 0xedad, ucs2: 0x5b50},
		lookupItem{cp949: 0xedae, ucs2: 0x5b57},
		lookupItem{cp949: 0xedaf, ucs2: 0x5b5c},
		lookupItem{cp949: 0xedb0, ucs2: 0x6063},
		lookupItem{cp949: 0xedb1, ucs2: 0x6148},
		lookupItem{cp949: 0xedb2, ucs2: 0x6ecb},
		lookupItem{cp949: 0xedb3, ucs2: 0x7099},
		lookupItem{cp949: 0xedb4, ucs2: 0x716e},
		lookupItem{cp949: 0xedb5, ucs2: 0x7386},
		lookupItem{cp949: 0xedb6, ucs2: 0x74f7},
		lookupItem{cp949: 0xedb7, ucs2: 0x75b5},
		lookupItem{cp949: 0xedb8, ucs2: 0x78c1},
		lookupItem{cp949: 0xedb9, ucs2: 0x7d2b},
		lookupItem{cp949: 0xedba, ucs2: 0x8005},
		lookupItem{cp949: 0xedbb, ucs2: 0x81ea},
		lookupItem{cp949: 0xedbc, ucs2: 0x8328},
		lookupItem{cp949: 0xedbd, ucs2: 0x8517},
		lookupItem{cp949: 0xedbe, ucs2: 0x85c9},
		lookupItem{cp949: 0xedbf, ucs2: 0x8aee},
		lookupItem{cp949: 0xedc0, ucs2: 0x8cc7},
		lookupItem{cp949: 0xedc1, ucs2: 0x96cc},
		lookupItem{cp949: 0xedc2, ucs2: 0x4f5c},
		lookupItem{cp949: 0xedc3, ucs2: 0x52fa},
		lookupItem{cp949: 0xedc4, ucs2: 0x56bc},
		lookupItem{cp949: 0xedc5, ucs2: 0x65ab},
		lookupItem{cp949: 0xedc6, ucs2: 0x6628},
		lookupItem{cp949: 0xedc7, ucs2: 0x707c},
		lookupItem{cp949: 0xedc8, ucs2: 0x70b8},
		lookupItem{cp949: 0xedc9, ucs2: 0x7235},
		lookupItem{cp949: 0xedca, ucs2: 0x7dbd},
".
Definition text_cp949_lookup_from_062 : string :=
"		lookupItem{cp949: 0xedcb, ucs2: 0x828d},
		lookupItem{cp949: 0xedcc, ucs2: 0x914c},
		lookupItem{cp949: 0xedcd, ucs2: 0x96c0},
		lookupItem{cp949: 0xedce, ucs2: 0x9d72},
		lookupItem{cp949: 0xedcf, ucs2: 0x5b71},
		lookupItem{cp949: 0xedd0, ucs2: 0x68e7},
		lookupItem{cp949: 0xedd1, ucs2: 0x6b98},
		lookupItem{cp949: 0xedd2, ucs2: 0x6f7a},
		lookupItem{cp949: 0xedd3, ucs2: 0x76de},
		lookupItem{cp949: 0xedd4, ucs2: 0x5c91},
		lookupItem{cp949: 0xedd5, ucs2: 0x66ab},
		lookupItem{cp949: 0xedd6, ucs2: 0x6f5b},
		lookupItem{cp949: 0xedd7, ucs2: 0x7bb4},
		lookupItem{cp949: 0xedd8, ucs2: 0x7c2a},
		lookupItem{cp949: 0xedd9, ucs2: 0x8836},
		lookupItem{cp949: 0xedda, ucs2: 0x96dc},
		lookupItem{cp949: 0xeddb, ucs2: 0x4e08},
		lookupItem{cp949: 0xeddc, ucs2: 0x4ed7},
		lookupItem{cp949: 0xeddd, ucs2: 0x5320},
		lookupItem{cp949: 0xedde, ucs2: 0x5834},
		lookupItem{cp949: 0xeddf, ucs2: 0x58bb},
		lookupItem{cp949: 0xede0, ucs2: 0x58ef},
		lookupItem{cp949: 0xede1, ucs2: 0x596c},
		lookupItem{cp949: 0xede2, ucs2: 0x5c07},
		lookupItem{cp949: 0xede3, ucs2: 0x5e33},
		lookupItem{cp949: 0xede4, ucs2: 0x5e84},
		lookupItem{cp949: 0xede5, ucs2: 0x5f35},
		lookupItem{cp949: 0xede6, ucs2: 0x638c},
		lookupItem{cp949: 0xede7, ucs2: 0x66b2},
		lookupItem{cp949: 0xede8, ucs2: 0x6756},
		lookupItem{cp949: 0xede9, ucs2: 0x6a1f},
		lookupItem{cp949: 0xedea, ucs2: 0x6aa3},
		lookupItem{cp949: 0xedeb, ucs2: 0x6b0c},
		lookupItem{cp949: 0xedec, ucs2: 0x6f3f},
		lookupItem{cp949: 0xeded, ucs2: 0x7246},
		lookupItem{cp949: 0xedee, ucs2: 0xf9fa},
		lookupItem{cp949: 0xedef, ucs2: 0x7350},
		lookupItem{cp949: 0xedf0, ucs2: 0x748b},
		lookupItem{cp949: 0xedf1, ucs2: 0x7ae0},
		lookupItem{cp949: 0xedf2, ucs2: 0x7ca7},
		lookupItem{cp949: 0xedf3, ucs2: 0x8178},
		lookupItem{cp949: 0xedf4, ucs2: 0x81df},
		lookupItem{cp949: 0xedf5, ucs2: 0x81e7},
		lookupItem{cp949: 0xedf6, ucs2: 0x838a},
		lookupItem{cp949: 0xedf7, ucs2: 0x846c},
		lookupItem{cp949: 0xedf8, ucs2: 0x8523},
		lookupItem{cp949: 0xedf9, ucs2: 0x8594},
		lookupItem{cp949: 0xedfa, ucs2: 0x85cf},
		lookupItem{cp949: 0xedfb, ucs2: 0x88dd},
		lookupItem{cp949: 0xedfc, ucs2: 0x8d13},
		lookupItem{cp949: 0xedfd, ucs2: 0x91ac},
		lookupItem{cp949: 0xedfe, ucs2: 0x9577},
		lookupItem{cp949: 0xeea1, ucs2: 0x969c},
		lookupItem{cp949: 0xeea2, ucs2: 0x518d},
		lookupItem{cp949: 0xeea3, ucs2: 0x54c9},
		lookupItem{cp949: 0xeea4, ucs2: 0x5728},
		lookupItem{cp949: 0xeea5, ucs2: 0x5bb0},
		lookupItem{cp949: 0xeea6, ucs2: 0x624d},
		lookupItem{cp949: 0xeea7, ucs2: 0x6750},
		lookupItem{cp949: 0xeea8, ucs2: 0x683d},
		lookupItem{cp949: 0xeea9, ucs2: 0x6893},
		lookupItem{cp949: 0xeeaa, ucs2: 0x6e3d},
		lookupItem{cp949: 0xeeab, ucs2: 0x6ed3},
		lookupItem{cp949: 0xeeac, ucs2: 0x707d},
		lookupItem{cp949: 0xeead, ucs2: 0x7e21},
		lookupItem{cp949: 0xeeae, ucs2: 0x88c1},
		lookupItem{cp949: 0xeeaf, ucs2: 0x8ca1},
		lookupItem{cp949: 0xeeb0, ucs2: 0x8f09},
		lookupItem{cp949: 0xeeb1, ucs2: 0x9f4b},
		lookupItem{cp949: 0xeeb2, ucs2: 0x9f4e},
		lookupItem{cp949: 0xeeb3, ucs2: 0x722d},
		lookupItem{cp949: 0xeeb4, ucs2: 0x7b8f},
		lookupItem{cp949: 0xeeb5, ucs2: 0x8acd},
		lookupItem{cp949: 0xeeb6, ucs2: 0x931a},
		lookupItem{cp949: 0xeeb7, ucs2: 0x4f47},
		lookupItem{cp949: 0xeeb8, ucs2: 0x4f4e},
		lookupItem{cp949: 0xeeb9, ucs2: 0x5132},
		lookupItem{cp949: 0xeeba, ucs2: 0x5480},
		lookupItem{cp949: 0xeebb, ucs2: 0x59d0},
		lookupItem{cp949: 0xeebc, ucs2: 0x5e95},
		lookupItem{cp949: 0xeebd, ucs2: 0x62b5},
		lookupItem{cp949: 0xeebe, ucs2: 0x6775},
		lookupItem{cp949: 0xeebf, ucs2: 0x696e},
		lookupItem{cp949: 0xeec0, ucs2: 0x6a17},
		lookupItem{cp949: 0xeec1, ucs2: 0x6cae},
		lookupItem{cp949: 0xeec2, ucs2: 0x6e1a},
		lookupItem{cp949: 0xeec3, ucs2: 0x72d9},
		lookupItem{cp949: 0xeec4, ucs2: 0x732a},
		lookupItem{cp949: 0xeec5, ucs2: 0x75bd},
		lookupItem{cp949: 0xeec6, ucs2: 0x7bb8},
		lookupItem{cp949: 0xeec7, ucs2: 0x7d35},
		lookupItem{cp949: 0xeec8, ucs2: 0x82e7},
		lookupItem{cp949: 0xeec9, ucs2: 0x83f9},
		lookupItem{cp949: 0xeeca, ucs2: 0x8457},
		lookupItem{cp949: 0xeecb, ucs2: 0x85f7},
		lookupItem{cp949: 0xeecc, ucs2: 0x8a5b},
		lookupItem{cp949: 0xeecd, ucs2: 0x8caf},
		lookupItem{cp949: 0xeece, ucs2: 0x8e87},
		lookupItem{cp949: 0xeecf, ucs2: 0x9019},
		lookupItem{cp949: 0xeed0, ucs2: 0x90b8},
		lookupItem{cp949: 0xeed1, ucs2: 0x96ce},
		lookupItem{cp949: 0xeed2, ucs2: 0x9f5f},
		lookupItem{cp949: 0xeed3, ucs2: 0x52e3},
		lookupItem{cp949: 0xeed4, ucs2: 0x540a},
		lookupItem{cp949: 0xeed5, ucs2: 0x5ae1},
		lookupItem{cp949: 0xeed6, ucs2: 0x5bc2},
		lookupItem{cp949: 0xeed7, ucs2: 0x6458},
		lookupItem{cp949: 0xeed8, ucs2: 0x6575},
		lookupItem{cp949: 0xeed9, ucs2: 0x6ef4},
		lookupItem{cp949: 0xeeda, ucs2: 0x72c4},
		lookupItem{cp949: 0xeedb, ucs2: 0xf9fb},
		lookupItem{cp949: 0xeedc, ucs2: 0x7684},
		lookupItem{cp949: 0xeedd, ucs2: 0x7a4d},
		lookupItem{cp949: 0xeede, ucs2: 0x7b1b},
		lookupItem{cp949: 0xeedf, ucs2: 0x7c4d},
		lookupItem{cp949: 0xeee0, ucs2: 0x7e3e},
		lookupItem{cp949: 0xeee1, ucs2: 0x7fdf},
		lookupItem{cp949: 0xeee2, ucs2: 0x837b},
		lookupItem{cp949: 0xeee3, ucs2: 0x8b2b},
		lookupItem{cp949: 0xeee4, ucs2: 0x8cca},
		lookupItem{cp949: 0xeee5, ucs2: 0x8d64},
		lookupItem{cp949: 0xeee6, ucs2: 0x8de1},
		lookupItem{cp949: 0xeee7, ucs2: 0x8e5f},
		lookupItem{cp949: 0xeee8, ucs2: 0x8fea},
		lookupItem{cp949: 0xeee9, ucs2: 0x8ff9},
		lookupItem{cp949: 0xeeea, ucs2: 0x9069},
		lookupItem{cp949: 0xeeeb, ucs2: 0x93d1},
		lookupItem{cp949: 0xeeec, ucs2: 0x4f43},
		lookupItem{cp949: 0xeeed, ucs2: 0x4f7a},
		lookupItem{cp949: 0xeeee, ucs2: 0x50b3},
		lookupItem{cp949: 0xeeef, ucs2: 0x5168},
		lookupItem{cp949: 0xeef0, ucs2: 0x5178},
		lookupItem{cp949: 0xeef1, ucs2: 0x524d},
		lookupItem{cp949: 0xeef2, ucs2: 0x526a},
		lookupItem{cp949: 0xeef3, ucs2: 0x5861},
		lookupItem{cp949: 0xeef4, ucs2: 0x587c},
		lookupItem{cp949: 0xeef5, ucs2: 0x5960},
		lookupItem{cp949: 0xeef6, ucs2: 0x5c08},
		lookupItem{cp949: 0xeef7, ucs2: 0x5c55},
		lookupItem{cp949: 0xeef8, ucs2: 0x5edb},
		lookupItem{cp949: 0xeef9, ucs2: 0x609b},
		lookupItem{cp949: 0xeefa, ucs2: 0x6230},
		lookupItem{cp949: 0xeefb, ucs2: 0x6813},
		lookupItem{cp949: 0xeefc, ucs2: 0x6bbf},
		lookupItem{cp949: 0xeefd, ucs2: 0x6c08},
		lookupItem{cp949: 0xeefe, ucs2: 0x6fb1},
		lookupItem{cp949: 0xefa1, ucs2: 0x714e},
		lookupItem{cp949: 0xefa2, ucs2: 0x7420},
		lookupItem{cp949: 0xefa3, ucs2: 0x7530},
		lookupItem{cp949: 0xefa4, ucs2: 0x7538},
		lookupItem{cp949: 0xefa5, ucs2: 0x7551},
		lookupItem{cp949: 0xefa6, ucs2: 0x7672},
		lookupItem{cp949: 0xefa7, ucs2: 0x7b4c},
		lookupItem{cp949: 0xefa8, ucs2: 0x7b8b},
		lookupItem{cp949: 0xefa9, ucs2: 0x7bad},
		lookupItem{cp949: 0xefaa, ucs2: 0x7bc6},
		lookupItem{cp949: 0xefab, ucs2: 0x7e8f},
		lookupItem{cp949: 0xefac, ucs2: 0x8a6e},
		lookupItem{cp949: 0xefad, ucs2: 0x8f3e},
		lookupItem{cp949: 0xefae, ucs2: 0x8f49},
		lookupItem{cp949: 0xefaf, ucs2: 0x923f},
		lookupItem{cp949: 0xefb0, ucs2: 0x9293},
		lookupItem{cp949: 0xefb1, ucs2: 0x9322},
		lookupItem{cp949: 0xefb2, ucs2: 0x942b},
		lookupItem{cp949: 0xefb3, ucs2: 0x96fb},
		lookupItem{cp949: 0xefb4, ucs2: 0x985a},
		lookupItem{cp949: 0xefb5, ucs2: 0x986b},
		lookupItem{cp949: 0xefb6, ucs2: 0x991e},
		lookupItem{cp949: 0xefb7, ucs2: 0x5207},
		lookupItem{cp949: 0xefb8, ucs2: 0x622a},
		lookupItem{cp949: 0xefb9, ucs2: 0x6298},
		lookupItem{cp949: 0xefba, ucs2: 0x6d59},
		lookupItem{cp949: 0xefbb, ucs2: 0x7664},
		lookupItem{cp949: 0xefbc, ucs2: 0x7aca},
		lookupItem{cp949: 0xefbd, ucs2: 0x7bc0},
		lookupItem{cp949: 0xefbe, ucs2: 0x7d76},
		lookupItem{cp949: 0xefbf, ucs2: 0x5360},
		lookupItem{cp949: 0xefc0, ucs2: 0x5cbe},
		lookupItem{cp949: 0xefc1, ucs2: 0x5e97},
		lookupItem{cp949: 0xefc2, ucs2: 0x6f38},
		lookupItem{cp949: 0xefc3, ucs2: 0x70b9},
		lookupItem{cp949: 0xefc4, ucs2: 0x7c98},
		lookupItem{cp949: 0xefc5, ucs2: 0x9711},
		lookupItem{cp949: 0xefc6, ucs2: 0x9b8e},
		lookupItem{cp949: 0xefc7, ucs2: 0x9ede},
		lookupItem{cp949: 0xefc8, ucs2: 0x63a5},
		lookupItem{cp949: 0xefc9, ucs2: 0x647a},
		lookupItem{cp949: 0xefca, ucs2: 0x8776},
		lookupItem{cp949: 0xefcb, ucs2: 0x4e01},
		lookupItem{cp949: 0xefcc, ucs2: 0x4e95},
		lookupItem{cp949: 0xefcd, ucs2: 0x4ead},
		lookupItem{cp949: 0xefce, ucs2: 0x505c},
		lookupItem{cp949: 0xefcf, ucs2: 0x5075},
		lookupItem{cp949: 0xefd0, ucs2: 0x5448},
		lookupItem{cp949: 0xefd1, ucs2: 0x59c3},
		lookupItem{cp949: 0xefd2, ucs2: 0x5b9a},
		lookupItem{cp949: 0xefd3, ucs2: 0x5e40},
		lookupItem{cp949: 0xefd4, ucs2: 0x5ead},
		lookupItem{cp949: 0xefd5, ucs2: 0x5ef7},
		lookupItem{cp949: 0xefd6, ucs2: 0x5f81},
		lookupItem{cp949: 0xefd7, ucs2: 0x60c5},
		lookupItem{cp949: 0xefd8, ucs2: 0x633a},
		lookupItem{cp949: 0xefd9, ucs2: 0x653f},
		lookupItem{cp949: 0xefda, ucs2: 0x6574},
		lookupItem{cp949: 0xefdb, ucs2: 0x65cc},
		lookupItem{cp949: 0xefdc, ucs2: 0x6676},
		lookupItem{cp949: 0xefdd, ucs2: 0x6678},
		lookupItem{cp949: 0xefde, ucs2: 0x67fe},
		lookupItem{cp949: 0xefdf, ucs2: 0x6968},
		lookupItem{cp949: 0xefe0, ucs2: 0x6a89},
		lookupItem{cp949: 0xefe1, ucs2: 0x6b63},
		lookupItem{cp949: 0xefe2, ucs2: 0x6c40},
		lookupItem{cp949: 0xefe3, ucs2: 0x6dc0},
		lookupItem{cp949: 0xefe4, ucs2: 0x6de8},
		lookupItem{cp949: 0xefe5, ucs2: 0x6e1f},
		lookupItem{cp949: 0xefe6, ucs2: 0x6e5e},
		lookupItem{cp949: 0xefe7, ucs2: 0x701e},
		lookupItem{cp949: 0xefe8, ucs2: 0x70a1},
		lookupItem{cp949: 0xefe9, ucs2: 0x738e},
		lookupItem{cp949: 0xefea, ucs2: 0x73fd},
		lookupItem{cp949: 0xefeb, ucs2: 0x753a},
		lookupItem{cp949: 0xefec, ucs2: 0x775b},
		lookupItem{cp949: 0xefed, ucs2: 0x7887},
		lookupItem{cp949: 0xefee, ucs2: 0x798e},
		lookupItem{cp949: 0xefef, ucs2: 0x7a0b},
		lookupItem{cp949: 0xeff0, ucs2: 0x7a7d},
		lookupItem{cp949: 0xeff1, ucs2: 0x7cbe},
		lookupItem{cp949: 0xeff2, ucs2: 0x7d8e},
		lookupItem{cp949: 0xeff3, ucs2: 0x8247},
		lookupItem{cp949: 0xeff4, ucs2: 0x8a02},
		lookupItem{cp949: 0xeff5, ucs2: 0x8aea},
		lookupItem{cp949: 0xeff6, ucs2: 0x8c9e},
		lookupItem{cp949: 0xeff7, ucs2: 0x912d},
		lookupItem{cp949: 0xeff8, ucs2: 0x914a},
		lookupItem{cp949: 0xeff9, ucs2: 0x91d8},
		lookupItem{cp949: 0xeffa, ucs2: 0x9266},
		lookupItem{cp949: 0xeffb, ucs2: 0x92cc},
		lookupItem{cp949: 0xeffc, ucs2: 0x9320},
		lookupItem{cp949: 0xeffd, ucs2: 0x9706},
		lookupItem{cp949: 0xeffe, ucs2: 0x9756},
		lookupItem{cp949: 0xf0a1, ucs2: 0x975c},
		lookupItem{cp949: 0xf0a2, ucs2: 0x9802},
		lookupItem{cp949: 0xf0a3, ucs2: 0x9f0e},
		lookupItem{cp949: 0xf0a4, ucs2: 0x5236},
		lookupItem{cp949: 0xf0a5, ucs2: 0x5291},
		lookupItem{cp949: 0xf0a6, ucs2: 0x557c},
		lookupItem{cp949: 0xf0a7, ucs2: 0x5824},
		lookupItem{cp949: 0xf0a8, ucs2: 0x5e1d},
		lookupItem{cp949: 0xf0a9, ucs2: 0x5f1f},
		lookupItem{cp949: 0xf0aa, ucs2: 0x608c},
".
Definition text_cp949_lookup_from_063 : string :=
"		lookupItem{cp949: 0xf0ab, ucs2: 0x63d0},
		lookupItem{cp949: 0xf0ac, ucs2: 0x68af},
		lookupItem{cp949: 0xf0ad, ucs2: 0x6fdf},
		lookupItem{cp949: 0xf0ae, ucs2: 0x796d},
		lookupItem{cp949: 0xf0af, ucs2: 0x7b2c},
		lookupItem{cp949: 0xf0b0, ucs2: 0x81cd},
		lookupItem{cp949: 0xf0b1, ucs2: 0x85ba},
		lookupItem{cp949: 0xf0b2, ucs2: 0x88fd},
		lookupItem{cp949: 0xf0b3, ucs2: 0x8af8},
		lookupItem{cp949: 0xf0b4, ucs2: 0x8e44},
		lookupItem{cp949: 0xf0b5, ucs2: 0x918d},
		lookupItem{cp949: 0xf0b6, ucs2: 0x9664},
		lookupItem{cp949: 0xf0b7, ucs2: 0x969b},
		lookupItem{cp949: 0xf0b8, ucs2: 0x973d},
		lookupItem{cp949: 0xf0b9, ucs2: 0x984c},
		lookupItem{cp949: 0xf0ba, ucs2: 0x9f4a},
		lookupItem{cp949: 0xf0bb, ucs2: 0x4fce},
		lookupItem{cp949: 0xf0bc, ucs2: 0x5146},
		lookupItem{cp949: 0xf0bd, ucs2: 0x51cb},
		lookupItem{cp949: 0xf0be, ucs2: 0x52a9},
		lookupItem{cp949: 0xf0bf, ucs2: 0x5632},
		lookupItem{cp949: 0xf0c0, ucs2: 0x5f14},
		lookupItem{cp949: 0xf0c1, ucs2: 0x5f6b},
		lookupItem{cp949: 0xf0c2, ucs2: 0x63aa},
		lookupItem{cp949: 0xf0c3, ucs2: 0x64cd},
		lookupItem{cp949: 0xf0c4, ucs2: 0x65e9},
		lookupItem{cp949: 0xf0c5, ucs2: 0x6641},
		lookupItem{cp949: 0xf0c6, ucs2: 0x66fa},
		lookupItem{cp949: 0xf0c7, ucs2: 0x66f9},
		lookupItem{cp949: 0xf0c8, ucs2: 0x671d},
		lookupItem{cp949: 0xf0c9, ucs2: 0x689d},
		lookupItem{cp949: 0xf0ca, ucs2: 0x68d7},
		lookupItem{cp949: 0xf0cb, ucs2: 0x69fd},
		lookupItem{cp949: 0xf0cc, ucs2: 0x6f15},
		lookupItem{cp949: 0xf0cd, ucs2: 0x6f6e},
		lookupItem{cp949: 0xf0ce, ucs2: 0x7167},
		lookupItem{cp949: 0xf0cf, ucs2: 0x71e5},
		lookupItem{cp949: 0xf0d0, ucs2: 0x722a},
		lookupItem{cp949: 0xf0d1, ucs2: 0x74aa},
		lookupItem{cp949: 0xf0d2, ucs2: 0x773a},
		lookupItem{cp949: 0xf0d3, ucs2: 0x7956},
		lookupItem{cp949: 0xf0d4, ucs2: 0x795a},
		lookupItem{cp949: 0xf0d5, ucs2: 0x79df},
		lookupItem{cp949: 0xf0d6, ucs2: 0x7a20},
		lookupItem{cp949: 0xf0d7, ucs2: 0x7a95},
		lookupItem{cp949: 0xf0d8, ucs2: 0x7c97},
		lookupItem{cp949: 0xf0d9, ucs2: 0x7cdf},
		lookupItem{cp949: 0xf0da, ucs2: 0x7d44},
		lookupItem{cp949: 0xf0db, ucs2: 0x7e70},
		lookupItem{cp949: 0xf0dc, ucs2: 0x8087},
		lookupItem{cp949: 0xf0dd, ucs2: 0x85fb},
		lookupItem{cp949: 0xf0de, ucs2: 0x86a4},
		lookupItem{cp949: 0xf0df, ucs2: 0x8a54},
		lookupItem{cp949: 0xf0e0, ucs2: 0x8abf},
		lookupItem{cp949: 0xf0e1, ucs2: 0x8d99},
		lookupItem{cp949: 0xf0e2, ucs2: 0x8e81},
		lookupItem{cp949: 0xf0e3, ucs2: 0x9020},
		lookupItem{cp949: 0xf0e4, ucs2: 0x906d},
		lookupItem{cp949: 0xf0e5, ucs2: 0x91e3},
		lookupItem{cp949: 0xf0e6, ucs2: 0x963b},
		lookupItem{cp949: 0xf0e7, ucs2: 0x96d5},
		lookupItem{cp949: 0xf0e8, ucs2: 0x9ce5},
		lookupItem{cp949: 0xf0e9, ucs2: 0x65cf},
		lookupItem{cp949: 0xf0ea, ucs2: 0x7c07},
		lookupItem{cp949: 0xf0eb, ucs2: 0x8db3},
		lookupItem{cp949: 0xf0ec, ucs2: 0x93c3},
		lookupItem{cp949: 0xf0ed, ucs2: 0x5b58},
		lookupItem{cp949: 0xf0ee, ucs2: 0x5c0a},
		lookupItem{cp949: 0xf0ef, ucs2: 0x5352},
		lookupItem{cp949: 0xf0f0, ucs2: 0x62d9},
		lookupItem{cp949: 0xf0f1, ucs2: 0x731d},
		lookupItem{cp949: 0xf0f2, ucs2: 0x5027},
		lookupItem{cp949: 0xf0f3, ucs2: 0x5b97},
		lookupItem{cp949: 0xf0f4, ucs2: 0x5f9e},
		lookupItem{cp949: 0xf0f5, ucs2: 0x60b0},
		lookupItem{cp949: 0xf0f6, ucs2: 0x616b},
		lookupItem{cp949: 0xf0f7, ucs2: 0x68d5},
		lookupItem{cp949: 0xf0f8, ucs2: 0x6dd9},
		lookupItem{cp949: 0xf0f9, ucs2: 0x742e},
		lookupItem{cp949: 0xf0fa, ucs2: 0x7a2e},
		lookupItem{cp949: 0xf0fb, ucs2: 0x7d42},
		lookupItem{cp949: 0xf0fc, ucs2: 0x7d9c},
		lookupItem{cp949: 0xf0fd, ucs2: 0x7e31},
		lookupItem{cp949: 0xf0fe, ucs2: 0x816b},
		lookupItem{cp949: 0xf1a1, ucs2: 0x8e2a},
		lookupItem{cp949: 0xf1a2, ucs2: 0x8e35},
		lookupItem{cp949: 0xf1a3, ucs2: 0x937e},
		lookupItem{cp949: 0xf1a4, ucs2: 0x9418},
		lookupItem{cp949: 0xf1a5, ucs2: 0x4f50},
		lookupItem{cp949: 0xf1a6, ucs2: 0x5750},
		lookupItem{cp949: 0xf1a7, ucs2: 0x5de6},
		lookupItem{cp949: 0xf1a8, ucs2: 0x5ea7},
		lookupItem{cp949: 0xf1a9, ucs2: 0x632b},
		lookupItem{cp949: 0xf1aa, ucs2: 0x7f6a},
		lookupItem{cp949: 0xf1ab, ucs2: 0x4e3b},
		lookupItem{cp949: 0xf1ac, ucs2: 0x4f4f},
		lookupItem{cp949: 0xf1ad, ucs2: 0x4f8f},
		lookupItem{cp949: 0xf1ae, ucs2: 0x505a},
		lookupItem{cp949: 0xf1af, ucs2: 0x59dd},
		lookupItem{cp949: 0xf1b0, ucs2: 0x80c4},
		lookupItem{cp949: 0xf1b1, ucs2: 0x546a},
		lookupItem{cp949: 0xf1b2, ucs2: 0x5468},
		lookupItem{cp949: 0xf1b3, ucs2: 0x55fe},
		lookupItem{cp949: 0xf1b4, ucs2: 0x594f},
		lookupItem{cp949: 0xf1b5, ucs2: 0x5b99},
		lookupItem{cp949: 0xf1b6, ucs2: 0x5dde},
		lookupItem{cp949: 0xf1b7, ucs2: 0x5eda},
		lookupItem{cp949: 0xf1b8, ucs2: 0x665d},
		lookupItem{cp949: 0xf1b9, ucs2: 0x6731},
		lookupItem{cp949: 0xf1ba, ucs2: 0x67f1},
		lookupItem{cp949: 0xf1bb, ucs2: 0x682a},
		lookupItem{cp949: 0xf1bc, ucs2: 0x6ce8},
		lookupItem{cp949: 0xf1bd, ucs2: 0x6d32},
		lookupItem{cp949: 0xf1be, ucs2: 0x6e4a},
		lookupItem{cp949: 0xf1bf, ucs2: 0x6f8d},
		lookupItem{cp949: 0xf1c0, ucs2: 0x70b7},
		lookupItem{cp949: 0xf1c1, ucs2: 0x73e0},
		lookupItem{cp949: 0xf1c2, ucs2: 0x7587},
		lookupItem{cp949: 0xf1c3, ucs2: 0x7c4c},
		lookupItem{cp949: 0xf1c4, ucs2: 0x7d02},
		lookupItem{cp949: 0xf1c5, ucs2: 0x7d2c},
		lookupItem{cp949: 0xf1c6, ucs2: 0x7da2},
		lookupItem{cp949: 0xf1c7, ucs2: 0x821f},
		lookupItem{cp949: 0xf1c8, ucs2: 0x86db},
		lookupItem{cp949: 0xf1c9, ucs2: 0x8a3b},
		lookupItem{cp949: 0xf1ca, ucs2: 0x8a85},
		lookupItem{cp949: 0xf1cb, ucs2: 0x8d70},
		lookupItem{cp949: 0xf1cc, ucs2: 0x8e8a},
		lookupItem{cp949: 0xf1cd, ucs2: 0x8f33},
		lookupItem{cp949: 0xf1ce, ucs2: 0x9031},
		lookupItem{cp949: 0xf1cf, ucs2: 0x914e},
		lookupItem{cp949: 0xf1d0, ucs2: 0x9152},
		lookupItem{cp949: 0xf1d1, ucs2: 0x9444},
		lookupItem{cp949: 0xf1d2, ucs2: 0x99d0},
		lookupItem{cp949: 0xf1d3, ucs2: 0x7af9},
		lookupItem{cp949: 0xf1d4, ucs2: 0x7ca5},
		lookupItem{cp949: 0xf1d5, ucs2: 0x4fca},
		lookupItem{cp949: 0xf1d6, ucs2: 0x5101},
		lookupItem{cp949: 0xf1d7, ucs2: 0x51c6},
		lookupItem{cp949: 0xf1d8, ucs2: 0x57c8},
		lookupItem{cp949: 0xf1d9, ucs2: 0x5bef},
		lookupItem{cp949: 0xf1da, ucs2: 0x5cfb},
		lookupItem{cp949: 0xf1db, ucs2: 0x6659},
		lookupItem{cp949: 0xf1dc, ucs2: 0x6a3d},
		lookupItem{cp949: 0xf1dd, ucs2: 0x6d5a},
		lookupItem{cp949: 0xf1de, ucs2: 0x6e96},
		lookupItem{cp949: 0xf1df, ucs2: 0x6fec},
		lookupItem{cp949: 0xf1e0, ucs2: 0x710c},
		lookupItem{cp949: 0xf1e1, ucs2: 0x756f},
		lookupItem{cp949: 0xf1e2, ucs2: 0x7ae3},
		lookupItem{cp949: 0xf1e3, ucs2: 0x8822},
		lookupItem{cp949: 0xf1e4, ucs2: 0x9021},
		lookupItem{cp949: 0xf1e5, ucs2: 0x9075},
		lookupItem{cp949: 0xf1e6, ucs2: 0x96cb},
		lookupItem{cp949: 0xf1e7, ucs2: 0x99ff},
		lookupItem{cp949: 0xf1e8, ucs2: 0x8301},
		lookupItem{cp949: 0xf1e9, ucs2: 0x4e2d},
		lookupItem{cp949: 0xf1ea, ucs2: 0x4ef2},
		lookupItem{cp949: 0xf1eb, ucs2: 0x8846},
		lookupItem{cp949: 0xf1ec, ucs2: 0x91cd},
		lookupItem{cp949: 0xf1ed, ucs2: 0x537d},
		lookupItem{cp949: 0xf1ee, ucs2: 0x6adb},
		lookupItem{cp949: 0xf1ef, ucs2: 0x696b},
		lookupItem{cp949: 0xf1f0, ucs2: 0x6c41},
		lookupItem{cp949: 0xf1f1, ucs2: 0x847a},
		lookupItem{cp949: 0xf1f2, ucs2: 0x589e},
		lookupItem{cp949: 0xf1f3, ucs2: 0x618e},
		lookupItem{cp949: 0xf1f4, ucs2: 0x66fe},
		lookupItem{cp949: 0xf1f5, ucs2: 0x62ef},
		lookupItem{cp949: 0xf1f6, ucs2: 0x70dd},
		lookupItem{cp949: 0xf1f7, ucs2: 0x7511},
		lookupItem{cp949: 0xf1f8, ucs2: 0x75c7},
		lookupItem{cp949: 0xf1f9, ucs2: 0x7e52},
		lookupItem{cp949: 0xf1fa, ucs2: 0x84b8},
		lookupItem{cp949: 0xf1fb, ucs2: 0x8b49},
		lookupItem{cp949: 0xf1fc, ucs2: 0x8d08},
		lookupItem{cp949: 0xf1fd, ucs2: 0x4e4b},
		lookupItem{cp949: 0xf1fe, ucs2: 0x53ea},
		lookupItem{cp949: 0xf2a1, ucs2: 0x54ab},
		lookupItem{cp949: 0xf2a2, ucs2: 0x5730},
		lookupItem{cp949: 0xf2a3, ucs2: 0x5740},
		lookupItem{cp949: 0xf2a4, ucs2: 0x5fd7},
		lookupItem{cp949: 0xf2a5, ucs2: 0x6301},
		lookupItem{cp949: 0xf2a6, ucs2: 0x6307},
		lookupItem{cp949: 0xf2a7, ucs2: 0x646f},
		lookupItem{cp949: 0xf2a8, ucs2: 0x652f},
		lookupItem{cp949: 0xf2a9, ucs2: 0x65e8},
		lookupItem{cp949: 0xf2aa, ucs2: 0x667a},
		lookupItem{cp949: 0xf2ab, ucs2: 0x679d},
		lookupItem{cp949: 0xf2ac, ucs2: 0x67b3},
		lookupItem{cp949: 0xf2ad, ucs2: 0x6b62},
		lookupItem{cp949: 0xf2ae, ucs2: 0x6c60},
		lookupItem{cp949: 0xf2af, ucs2: 0x6c9a},
		lookupItem{cp949: 0xf2b0, ucs2: 0x6f2c},
		lookupItem{cp949: 0xf2b1, ucs2: 0x77e5},
		lookupItem{cp949: 0xf2b2, ucs2: 0x7825},
		lookupItem{cp949: 0xf2b3, ucs2: 0x7949},
		lookupItem{cp949: 0xf2b4, ucs2: 0x7957},
		lookupItem{cp949: 0xf2b5, ucs2: 0x7d19},
		lookupItem{cp949: 0xf2b6, ucs2: 0x80a2},
		lookupItem{cp949: 0xf2b7, ucs2: 0x8102},
		lookupItem{cp949: 0xf2b8, ucs2: 0x81f3},
		lookupItem{cp949: 0xf2b9, ucs2: 0x829d},
		lookupItem{cp949: 0xf2ba, ucs2: 0x82b7},
		lookupItem{cp949: 0xf2bb, ucs2: 0x8718},
		lookupItem{cp949: 0xf2bc, ucs2: 0x8a8c},
		lookupItem{cp949: 0xf2bd, ucs2: 0xf9fc},
		lookupItem{cp949: 0xf2be, ucs2: 0x8d04},
		lookupItem{cp949: 0xf2bf, ucs2: 0x8dbe},
		lookupItem{cp949: 0xf2c0, ucs2: 0x9072},
		lookupItem{cp949: 0xf2c1, ucs2: 0x76f4},
		lookupItem{cp949: 0xf2c2, ucs2: 0x7a19},
		lookupItem{cp949: 0xf2c3, ucs2: 0x7a37},
		lookupItem{cp949: 0xf2c4, ucs2: 0x7e54},
		lookupItem{cp949: 0xf2c5, ucs2: 0x8077},
		lookupItem{cp949: 0xf2c6, ucs2: 0x5507},
		lookupItem{cp949: 0xf2c7, ucs2: 0x55d4},
		lookupItem{cp949: 0xf2c8, ucs2: 0x5875},
		lookupItem{cp949: 0xf2c9, ucs2: 0x632f},
		lookupItem{cp949: 0xf2ca, ucs2: 0x6422},
		lookupItem{cp949: 0xf2cb, ucs2: 0x6649},
		lookupItem{cp949: 0xf2cc, ucs2: 0x664b},
		lookupItem{cp949: 0xf2cd, ucs2: 0x686d},
		lookupItem{cp949: 0xf2ce, ucs2: 0x699b},
		lookupItem{cp949: 0xf2cf, ucs2: 0x6b84},
		lookupItem{cp949: 0xf2d0, ucs2: 0x6d25},
		lookupItem{cp949: 0xf2d1, ucs2: 0x6eb1},
		lookupItem{cp949: 0xf2d2, ucs2: 0x73cd},
		lookupItem{cp949: 0xf2d3, ucs2: 0x7468},
		lookupItem{cp949: 0xf2d4, ucs2: 0x74a1},
		lookupItem{cp949: 0xf2d5, ucs2: 0x755b},
		lookupItem{cp949: 0xf2d6, ucs2: 0x75b9},
		lookupItem{cp949: 0xf2d7, ucs2: 0x76e1},
		lookupItem{cp949: 0xf2d8, ucs2: 0x771e},
		lookupItem{cp949: 0xf2d9, ucs2: 0x778b},
		lookupItem{cp949: 0xf2da, ucs2: 0x79e6},
		lookupItem{cp949: 0xf2db, ucs2: 0x7e09},
		lookupItem{cp949: 0xf2dc, ucs2: 0x7e1d},
		lookupItem{cp949: 0xf2dd, ucs2: 0x81fb},
		lookupItem{cp949: 0xf2de, ucs2: 0x852f},
		lookupItem{cp949: 0xf2df, ucs2: 0x8897},
		lookupItem{cp949: 0xf2e0, ucs2: 0x8a3a},
		lookupItem{cp949: 0xf2e1, ucs2: 0x8cd1},
		lookupItem{cp949: 0xf2e2, ucs2: 0x8eeb},
		lookupItem{cp949: 0xf2e3, ucs2: 0x8fb0},
		lookupItem{cp949: 0xf2e4, ucs2: 0x9032},
		lookupItem{cp949: 0xf2e5, ucs2: 0x93ad},
		lookupItem{cp949: 0xf2e6, ucs2: 0x9663},
		lookupItem{cp949: 0xf2e7, ucs2: 0x9673},
		lookupItem{cp949: 0xf2e8, ucs2: 0x9707},
".
Definition text_cp949_lookup_from_064 : string :=
"		lookupItem{cp949: 0xf2e9, ucs2: 0x4f84},
		lookupItem{cp949: 0xf2ea, ucs2: 0x53f1},
		lookupItem{cp949: 0xf2eb, ucs2: 0x59ea},
		lookupItem{cp949: 0xf2ec, ucs2: 0x5ac9},
		lookupItem{cp949: 0xf2ed, ucs2: 0x5e19},
		lookupItem{cp949: 0xf2ee, ucs2: 0x684e},
		lookupItem{cp949: 0xf2ef, ucs2: 0x74c6},
		lookupItem{cp949: 0xf2f0, ucs2: 0x75be},
		lookupItem{cp949: 0xf2f1, ucs2: 0x79e9},
		lookupItem{cp949: 0xf2f2, ucs2: 0x7a92},
		lookupItem{cp949: 0xf2f3, ucs2: 0x81a3},
		lookupItem{cp949: 0xf2f4, ucs2: 0x86ed},
		lookupItem{cp949: 0xf2f5, ucs2: 0x8cea},
		lookupItem{cp949: 0xf2f6, ucs2: 0x8dcc},
		lookupItem{cp949: 0xf2f7, ucs2: 0x8fed},
		lookupItem{cp949: 0xf2f8, ucs2: 0x659f},
		lookupItem{cp949: 0xf2f9, ucs2: 0x6715},
		lookupItem{cp949: 0xf2fa, ucs2: 0xf9fd},
		lookupItem{cp949: 0xf2fb, ucs2: 0x57f7},
		lookupItem{cp949: 0xf2fc, ucs2: 0x6f57},
		lookupItem{cp949: 0xf2fd, ucs2: 0x7ddd},
		lookupItem{cp949: 0xf2fe, ucs2: 0x8f2f},
		lookupItem{cp949: 0xf3a1, ucs2: 0x93f6},
		lookupItem{cp949: 0xf3a2, ucs2: 0x96c6},
		lookupItem{cp949: 0xf3a3, ucs2: 0x5fb5},
		lookupItem{cp949: 0xf3a4, ucs2: 0x61f2},
		lookupItem{cp949: 0xf3a5, ucs2: 0x6f84},
		lookupItem{cp949: 0xf3a6, ucs2: 0x4e14},
		lookupItem{cp949: 0xf3a7, ucs2: 0x4f98},
		lookupItem{cp949: 0xf3a8, ucs2: 0x501f},
		lookupItem{cp949: 0xf3a9, ucs2: 0x53c9},
		lookupItem{cp949: 0xf3aa, ucs2: 0x55df},
		lookupItem{cp949: 0xf3ab, ucs2: 0x5d6f},
		lookupItem{cp949: 0xf3ac, ucs2: 0x5dee},
		lookupItem{cp949: 0xf3ad, ucs2: 0x6b21},
		lookupItem{cp949: 0xf3ae, ucs2: 0x6b64},
		lookupItem{cp949: 0xf3af, ucs2: 0x78cb},
		lookupItem{cp949: 0xf3b0, ucs2: 0x7b9a},
		lookupItem{cp949: 0xf3b1, ucs2: 0xf9fe},
		lookupItem{cp949: 0xf3b2, ucs2: 0x8e49},
		lookupItem{cp949: 0xf3b3, ucs2: 0x8eca},
		lookupItem{cp949: 0xf3b4, ucs2: 0x906e},
		lookupItem{cp949: 0xf3b5, ucs2: 0x6349},
		lookupItem{cp949: 0xf3b6, ucs2: 0x643e},
		lookupItem{cp949: 0xf3b7, ucs2: 0x7740},
		lookupItem{cp949: 0xf3b8, ucs2: 0x7a84},
		lookupItem{cp949: 0xf3b9, ucs2: 0x932f},
		lookupItem{cp949: 0xf3ba, ucs2: 0x947f},
		lookupItem{cp949: 0xf3bb, ucs2: 0x9f6a},
		lookupItem{cp949: 0xf3bc, ucs2: 0x64b0},
		lookupItem{cp949: 0xf3bd, ucs2: 0x6faf},
		lookupItem{cp949: 0xf3be, ucs2: 0x71e6},
		lookupItem{cp949: 0xf3bf, ucs2: 0x74a8},
		lookupItem{cp949: 0xf3c0, ucs2: 0x74da},
		lookupItem{cp949: 0xf3c1, ucs2: 0x7ac4},
		lookupItem{cp949: 0xf3c2, ucs2: 0x7c12},
		lookupItem{cp949: 0xf3c3, ucs2: 0x7e82},
		lookupItem{cp949: 0xf3c4, ucs2: 0x7cb2},
		lookupItem{cp949: 0xf3c5, ucs2: 0x7e98},
		lookupItem{cp949: 0xf3c6, ucs2: 0x8b9a},
		lookupItem{cp949: 0xf3c7, ucs2: 0x8d0a},
		lookupItem{cp949: 0xf3c8, ucs2: 0x947d},
		lookupItem{cp949: 0xf3c9, ucs2: 0x9910},
		lookupItem{cp949: 0xf3ca, ucs2: 0x994c},
		lookupItem{cp949: 0xf3cb, ucs2: 0x5239},
		lookupItem{cp949: 0xf3cc, ucs2: 0x5bdf},
		lookupItem{cp949: 0xf3cd, ucs2: 0x64e6},
		lookupItem{cp949: 0xf3ce, ucs2: 0x672d},
		lookupItem{cp949: 0xf3cf, ucs2: 0x7d2e},
		lookupItem{cp949: 0xf3d0, ucs2: 0x50ed},
		lookupItem{cp949: 0xf3d1, ucs2: 0x53c3},
		lookupItem{cp949: 0xf3d2, ucs2: 0x5879},
		lookupItem{cp949: 0xf3d3, ucs2: 0x6158},
		lookupItem{cp949: 0xf3d4, ucs2: 0x6159},
		lookupItem{cp949: 0xf3d5, ucs2: 0x61fa},
		lookupItem{cp949: 0xf3d6, ucs2: 0x65ac},
		lookupItem{cp949: 0xf3d7, ucs2: 0x7ad9},
		lookupItem{cp949: 0xf3d8, ucs2: 0x8b92},
		lookupItem{cp949: 0xf3d9, ucs2: 0x8b96},
		lookupItem{cp949: 0xf3da, ucs2: 0x5009},
		lookupItem{cp949: 0xf3db, ucs2: 0x5021},
		lookupItem{cp949: 0xf3dc, ucs2: 0x5275},
		lookupItem{cp949: 0xf3dd, ucs2: 0x5531},
		lookupItem{cp949: 0xf3de, ucs2: 0x5a3c},
		lookupItem{cp949: 0xf3df, ucs2: 0x5ee0},
		lookupItem{cp949: 0xf3e0, ucs2: 0x5f70},
		lookupItem{cp949: 0xf3e1, ucs2: 0x6134},
		lookupItem{cp949: 0xf3e2, ucs2: 0x655e},
		lookupItem{cp949: 0xf3e3, ucs2: 0x660c},
		lookupItem{cp949: 0xf3e4, ucs2: 0x6636},
		lookupItem{cp949: 0xf3e5, ucs2: 0x66a2},
		lookupItem{cp949: 0xf3e6, ucs2: 0x69cd},
		lookupItem{cp949: 0xf3e7, ucs2: 0x6ec4},
		lookupItem{cp949: 0xf3e8, ucs2: 0x6f32},
		lookupItem{cp949: 0xf3e9, ucs2: 0x7316},
		lookupItem{cp949: 0xf3ea, ucs2: 0x7621},
		lookupItem{cp949: 0xf3eb, ucs2: 0x7a93},
		lookupItem{cp949: 0xf3ec, ucs2: 0x8139},
		lookupItem{cp949: 0xf3ed, ucs2: 0x8259},
		lookupItem{cp949: 0xf3ee, ucs2: 0x83d6},
		lookupItem{cp949: 0xf3ef, ucs2: 0x84bc},
		lookupItem{cp949: 0xf3f0, ucs2: 0x50b5},
		lookupItem{cp949: 0xf3f1, ucs2: 0x57f0},
		lookupItem{cp949: 0xf3f2, ucs2: 0x5bc0},
		lookupItem{cp949: 0xf3f3, ucs2: 0x5be8},
		lookupItem{cp949: 0xf3f4, ucs2: 0x5f69},
		lookupItem{cp949: 0xf3f5, ucs2: 0x63a1},
		lookupItem{cp949: 0xf3f6, ucs2: 0x7826},
		lookupItem{cp949: 0xf3f7, ucs2: 0x7db5},
		lookupItem{cp949: 0xf3f8, ucs2: 0x83dc},
		lookupItem{cp949: 0xf3f9, ucs2: 0x8521},
		lookupItem{cp949: 0xf3fa, ucs2: 0x91c7},
		lookupItem{cp949: 0xf3fb, ucs2: 0x91f5},
		lookupItem{cp949: 0xf3fc, ucs2: 0x518a},
		lookupItem{cp949: 0xf3fd, ucs2: 0x67f5},
		lookupItem{cp949: 0xf3fe, ucs2: 0x7b56},
		lookupItem{cp949: 0xf4a1, ucs2: 0x8cac},
		lookupItem{cp949: 0xf4a2, ucs2: 0x51c4},
		lookupItem{cp949: 0xf4a3, ucs2: 0x59bb},
		lookupItem{cp949: 0xf4a4, ucs2: 0x60bd},
		lookupItem{cp949: 0xf4a5, ucs2: 0x8655},
		lookupItem{cp949: 0xf4a6, ucs2: 0x501c},
		lookupItem{cp949: 0xf4a7, ucs2: 0xf9ff},
		lookupItem{cp949: 0xf4a8, ucs2: 0x5254},
		lookupItem{cp949: 0xf4a9, ucs2: 0x5c3a},
		lookupItem{cp949: 0xf4aa, ucs2: 0x617d},
		lookupItem{cp949: 0xf4ab, ucs2: 0x621a},
		lookupItem{cp949: 0xf4ac, ucs2: 0x62d3},
		lookupItem{cp949: 0xf4ad, ucs2: 0x64f2},
		lookupItem{cp949: 0xf4ae, ucs2: 0x65a5},
		lookupItem{cp949: 0xf4af, ucs2: 0x6ecc},
		lookupItem{cp949: 0xf4b0, ucs2: 0x7620},
		lookupItem{cp949: 0xf4b1, ucs2: 0x810a},
		lookupItem{cp949: 0xf4b2, ucs2: 0x8e60},
		lookupItem{cp949: 0xf4b3, ucs2: 0x965f},
		lookupItem{cp949: 0xf4b4, ucs2: 0x96bb},
		lookupItem{cp949: 0xf4b5, ucs2: 0x4edf},
		lookupItem{cp949: 0xf4b6, ucs2: 0x5343},
		lookupItem{cp949: 0xf4b7, ucs2: 0x5598},
		lookupItem{cp949: 0xf4b8, ucs2: 0x5929},
		lookupItem{cp949: 0xf4b9, ucs2: 0x5ddd},
		lookupItem{cp949: 0xf4ba, ucs2: 0x64c5},
		lookupItem{cp949: 0xf4bb, ucs2: 0x6cc9},
		lookupItem{cp949: 0xf4bc, ucs2: 0x6dfa},
		lookupItem{cp949: 0xf4bd, ucs2: 0x7394},
		lookupItem{cp949: 0xf4be, ucs2: 0x7a7f},
		lookupItem{cp949: 0xf4bf, ucs2: 0x821b},
		lookupItem{cp949: 0xf4c0, ucs2: 0x85a6},
		lookupItem{cp949: 0xf4c1, ucs2: 0x8ce4},
		lookupItem{cp949: 0xf4c2, ucs2: 0x8e10},
		lookupItem{cp949: 0xf4c3, ucs2: 0x9077},
		lookupItem{cp949: 0xf4c4, ucs2: 0x91e7},
		lookupItem{cp949: 0xf4c5, ucs2: 0x95e1},
		lookupItem{cp949: 0xf4c6, ucs2: 0x9621},
		lookupItem{cp949: 0xf4c7, ucs2: 0x97c6},
		lookupItem{cp949: 0xf4c8, ucs2: 0x51f8},
		lookupItem{cp949: 0xf4c9, ucs2: 0x54f2},
		lookupItem{cp949: 0xf4ca, ucs2: 0x5586},
		lookupItem{cp949: 0xf4cb, ucs2: 0x5fb9},
		lookupItem{cp949: 0xf4cc, ucs2: 0x64a4},
		lookupItem{cp949: 0xf4cd, ucs2: 0x6f88},
		lookupItem{cp949: 0xf4ce, ucs2: 0x7db4},
		lookupItem{cp949: 0xf4cf, ucs2: 0x8f1f},
		lookupItem{cp949: 0xf4d0, ucs2: 0x8f4d},
		lookupItem{cp949: 0xf4d1, ucs2: 0x9435},
		lookupItem{cp949: 0xf4d2, ucs2: 0x50c9},
		lookupItem{cp949: 0xf4d3, ucs2: 0x5c16},
		lookupItem{cp949: 0xf4d4, ucs2: 0x6cbe},
		lookupItem{cp949: 0xf4d5, ucs2: 0x6dfb},
		lookupItem{cp949: 0xf4d6, ucs2: 0x751b},
		lookupItem{cp949: 0xf4d7, ucs2: 0x77bb},
		lookupItem{cp949: 0xf4d8, ucs2: 0x7c3d},
		lookupItem{cp949: 0xf4d9, ucs2: 0x7c64},
		lookupItem{cp949: 0xf4da, ucs2: 0x8a79},
		lookupItem{cp949: 0xf4db, ucs2: 0x8ac2},
		lookupItem{cp949: 0xf4dc, ucs2: 0x581e},
		lookupItem{cp949: 0xf4dd, ucs2: 0x59be},
		lookupItem{cp949: 0xf4de, ucs2: 0x5e16},
		lookupItem{cp949: 0xf4df, ucs2: 0x6377},
		lookupItem{cp949: 0xf4e0, ucs2: 0x7252},
		lookupItem{cp949: 0xf4e1, ucs2: 0x758a},
		lookupItem{cp949: 0xf4e2, ucs2: 0x776b},
		lookupItem{cp949: 0xf4e3, ucs2: 0x8adc},
		lookupItem{cp949: 0xf4e4, ucs2: 0x8cbc},
		lookupItem{cp949: 0xf4e5, ucs2: 0x8f12},
		lookupItem{cp949: 0xf4e6, ucs2: 0x5ef3},
		lookupItem{cp949: 0xf4e7, ucs2: 0x6674},
		lookupItem{cp949: 0xf4e8, ucs2: 0x6df8},
		lookupItem{cp949: 0xf4e9, ucs2: 0x807d},
		lookupItem{cp949: 0xf4ea, ucs2: 0x83c1},
		lookupItem{cp949: 0xf4eb, ucs2: 0x8acb},
		lookupItem{cp949: 0xf4ec, ucs2: 0x9751},
		lookupItem{cp949: 0xf4ed, ucs2: 0x9bd6},
		lookupItem{cp949: 0xf4ee, ucs2: 0xfa00},
		lookupItem{cp949: 0xf4ef, ucs2: 0x5243},
		lookupItem{cp949: 0xf4f0, ucs2: 0x66ff},
		lookupItem{cp949: 0xf4f1, ucs2: 0x6d95},
		lookupItem{cp949: 0xf4f2, ucs2: 0x6eef},
		lookupItem{cp949: 0xf4f3, ucs2: 0x7de0},
		lookupItem{cp949: 0xf4f4, ucs2: 0x8ae6},
		lookupItem{cp949: 0xf4f5, ucs2: 0x902e},
		lookupItem{cp949: 0xf4f6, ucs2: 0x905e},
		lookupItem{cp949: 0xf4f7, ucs2: 0x9ad4},
		lookupItem{cp949: 0xf4f8, ucs2: 0x521d},
		lookupItem{cp949: 0xf4f9, ucs2: 0x527f},
		lookupItem{cp949: 0xf4fa, ucs2: 0x54e8},
		lookupItem{cp949: 0xf4fb, ucs2: 0x6194},
		lookupItem{cp949: 0xf4fc, ucs2: 0x6284},
		lookupItem{cp949: 0xf4fd, ucs2: 0x62db},
		lookupItem{cp949: 0xf4fe, ucs2: 0x68a2},
		lookupItem{cp949: 0xf5a1, ucs2: 0x6912},
		lookupItem{cp949: 0xf5a2, ucs2: 0x695a},
		lookupItem{cp949: 0xf5a3, ucs2: 0x6a35},
		lookupItem{cp949: 0xf5a4, ucs2: 0x7092},
		lookupItem{cp949: 0xf5a5, ucs2: 0x7126},
		lookupItem{cp949: 0xf5a6, ucs2: 0x785d},
		lookupItem{cp949: 0xf5a7, ucs2: 0x7901},
		lookupItem{cp949: 0xf5a8, ucs2: 0x790e},
		lookupItem{cp949: 0xf5a9, ucs2: 0x79d2},
		lookupItem{cp949: 0xf5aa, ucs2: 0x7a0d},
		lookupItem{cp949: 0xf5ab, ucs2: 0x8096},
		lookupItem{cp949: 0xf5ac, ucs2: 0x8278},
		lookupItem{cp949: 0xf5ad, ucs2: 0x82d5},
		lookupItem{cp949: 0xf5ae, ucs2: 0x8349},
		lookupItem{cp949: 0xf5af, ucs2: 0x8549},
		lookupItem{cp949: 0xf5b0, ucs2: 0x8c82},
		lookupItem{cp949: 0xf5b1, ucs2: 0x8d85},
		lookupItem{cp949: 0xf5b2, ucs2: 0x9162},
		lookupItem{cp949: 0xf5b3, ucs2: 0x918b},
		lookupItem{cp949: 0xf5b4, ucs2: 0x91ae},
		lookupItem{cp949: 0xf5b5, ucs2: 0x4fc3},
		lookupItem{cp949: 0xf5b6, ucs2: 0x56d1},
		lookupItem{cp949: 0xf5b7, ucs2: 0x71ed},
		lookupItem{cp949: 0xf5b8, ucs2: 0x77d7},
		lookupItem{cp949: 0xf5b9, ucs2: 0x8700},
		lookupItem{cp949: 0xf5ba, ucs2: 0x89f8},
		lookupItem{cp949: 0xf5bb, ucs2: 0x5bf8},
		lookupItem{cp949: 0xf5bc, ucs2: 0x5fd6},
		lookupItem{cp949: 0xf5bd, ucs2: 0x6751},
		lookupItem{cp949: 0xf5be, ucs2: 0x90a8},
		lookupItem{cp949: 0xf5bf, ucs2: 0x53e2},
		lookupItem{cp949: 0xf5c0, ucs2: 0x585a},
		lookupItem{cp949: 0xf5c1, ucs2: 0x5bf5},
		lookupItem{cp949: 0xf5c2, ucs2: 0x60a4},
		lookupItem{cp949: 0xf5c3, ucs2: 0x6181},
		lookupItem{cp949: 0xf5c4, ucs2: 0x6460},
		lookupItem{cp949: 0xf5c5, ucs2: 0x7e3d},
		lookupItem{cp949: 0xf5c6, ucs2: 0x8070},
		lookupItem{cp949: 0xf5c7, ucs2: 0x8525},
		lookupItem{cp949: 0xf5c8, ucs2: 0x9283},
".
Definition text_cp949_lookup_from_065 : string :=
"		lookupItem{cp949: 0xf5c9, ucs2: 0x64ae},
		lookupItem{cp949: 0xf5ca, ucs2: 0x50ac},
		lookupItem{cp949: 0xf5cb, ucs2: 0x5d14},
		lookupItem{cp949: 0xf5cc, ucs2: 0x6700},
		lookupItem{cp949: 0xf5cd, ucs2: 0x589c},
		lookupItem{cp949: 0xf5ce, ucs2: 0x62bd},
		lookupItem{cp949: 0xf5cf, ucs2: 0x63a8},
		lookupItem{cp949: 0xf5d0, ucs2: 0x690e},
		lookupItem{cp949: 0xf5d1, ucs2: 0x6978},
		lookupItem{cp949: 0xf5d2, ucs2: 0x6a1e},
		lookupItem{cp949: 0xf5d3, ucs2: 0x6e6b},
		lookupItem{cp949: 0xf5d4, ucs2: 0x76ba},
		lookupItem{cp949: 0xf5d5, ucs2: 0x79cb},
		lookupItem{cp949: 0xf5d6, ucs2: 0x82bb},
		lookupItem{cp949: 0xf5d7, ucs2: 0x8429},
		lookupItem{cp949: 0xf5d8, ucs2: 0x8acf},
		lookupItem{cp949: 0xf5d9, ucs2: 0x8da8},
		lookupItem{cp949: 0xf5da, ucs2: 0x8ffd},
		lookupItem{cp949: 0xf5db, ucs2: 0x9112},
		lookupItem{cp949: 0xf5dc, ucs2: 0x914b},
		lookupItem{cp949: 0xf5dd, ucs2: 0x919c},
		lookupItem{cp949: 0xf5de, ucs2: 0x9310},
		lookupItem{cp949: 0xf5df, ucs2: 0x9318},
		lookupItem{cp949: 0xf5e0, ucs2: 0x939a},
		lookupItem{cp949: 0xf5e1, ucs2: 0x96db},
		lookupItem{cp949: 0xf5e2, ucs2: 0x9a36},
		lookupItem{cp949: 0xf5e3, ucs2: 0x9c0d},
		lookupItem{cp949: 0xf5e4, ucs2: 0x4e11},
		lookupItem{cp949: 0xf5e5, ucs2: 0x755c},
		lookupItem{cp949: 0xf5e6, ucs2: 0x795d},
		lookupItem{cp949: 0xf5e7, ucs2: 0x7afa},
		lookupItem{cp949: 0xf5e8, ucs2: 0x7b51},
		lookupItem{cp949: 0xf5e9, ucs2: 0x7bc9},
		lookupItem{cp949: 0xf5ea, ucs2: 0x7e2e},
		lookupItem{cp949: 0xf5eb, ucs2: 0x84c4},
		lookupItem{cp949: 0xf5ec, ucs2: 0x8e59},
		lookupItem{cp949: 0xf5ed, ucs2: 0x8e74},
		lookupItem{cp949: 0xf5ee, ucs2: 0x8ef8},
		lookupItem{cp949: 0xf5ef, ucs2: 0x9010},
		lookupItem{cp949: 0xf5f0, ucs2: 0x6625},
		lookupItem{cp949: 0xf5f1, ucs2: 0x693f},
		lookupItem{cp949: 0xf5f2, ucs2: 0x7443},
		lookupItem{cp949: 0xf5f3, ucs2: 0x51fa},
		lookupItem{cp949: 0xf5f4, ucs2: 0x672e},
		lookupItem{cp949: 0xf5f5, ucs2: 0x9edc},
		lookupItem{cp949: 0xf5f6, ucs2: 0x5145},
		lookupItem{cp949: 0xf5f7, ucs2: 0x5fe0},
		lookupItem{cp949: 0xf5f8, ucs2: 0x6c96},
		lookupItem{cp949: 0xf5f9, ucs2: 0x87f2},
		lookupItem{cp949: 0xf5fa, ucs2: 0x885d},
		lookupItem{cp949: 0xf5fb, ucs2: 0x8877},
		lookupItem{cp949: 0xf5fc, ucs2: 0x60b4},
		lookupItem{cp949: 0xf5fd, ucs2: 0x81b5},
		lookupItem{cp949: 0xf5fe, ucs2: 0x8403},
		lookupItem{cp949: 0xf6a1, ucs2: 0x8d05},
		lookupItem{cp949: 0xf6a2, ucs2: 0x53d6},
		lookupItem{cp949: 0xf6a3, ucs2: 0x5439},
		lookupItem{cp949: 0xf6a4, ucs2: 0x5634},
		lookupItem{cp949: 0xf6a5, ucs2: 0x5a36},
		lookupItem{cp949: 0xf6a6, ucs2: 0x5c31},
		lookupItem{cp949: 0xf6a7, ucs2: 0x708a},
		lookupItem{cp949: 0xf6a8, ucs2: 0x7fe0},
		lookupItem{cp949: 0xf6a9, ucs2: 0x805a},
		lookupItem{cp949: 0xf6aa, ucs2: 0x8106},
		lookupItem{cp949: 0xf6ab, ucs2: 0x81ed},
		lookupItem{cp949: 0xf6ac, ucs2: 0x8da3},
		lookupItem{cp949: 0xf6ad, ucs2: 0x9189},
		lookupItem{cp949: 0xf6ae, ucs2: 0x9a5f},
		lookupItem{cp949: 0xf6af, ucs2: 0x9df2},
		lookupItem{cp949: 0xf6b0, ucs2: 0x5074},
		lookupItem{cp949: 0xf6b1, ucs2: 0x4ec4},
		lookupItem{cp949: 0xf6b2, ucs2: 0x53a0},
		lookupItem{cp949: 0xf6b3, ucs2: 0x60fb},
		lookupItem{cp949: 0xf6b4, ucs2: 0x6e2c},
		lookupItem{cp949: 0xf6b5, ucs2: 0x5c64},
		lookupItem{cp949: 0xf6b6, ucs2: 0x4f88},
		lookupItem{cp949: 0xf6b7, ucs2: 0x5024},
		lookupItem{cp949: 0xf6b8, ucs2: 0x55e4},
		lookupItem{cp949: 0xf6b9, ucs2: 0x5cd9},
		lookupItem{cp949: 0xf6ba, ucs2: 0x5e5f},
		lookupItem{cp949: 0xf6bb, ucs2: 0x6065},
		lookupItem{cp949: 0xf6bc, ucs2: 0x6894},
		lookupItem{cp949: 0xf6bd, ucs2: 0x6cbb},
		lookupItem{cp949: 0xf6be, ucs2: 0x6dc4},
		lookupItem{cp949: 0xf6bf, ucs2: 0x71be},
		lookupItem{cp949: 0xf6c0, ucs2: 0x75d4},
		lookupItem{cp949: 0xf6c1, ucs2: 0x75f4},
		lookupItem{cp949: 0xf6c2, ucs2: 0x7661},
		lookupItem{cp949: 0xf6c3, ucs2: 0x7a1a},
		lookupItem{cp949: 0xf6c4, ucs2: 0x7a49},
		lookupItem{cp949: 0xf6c5, ucs2: 0x7dc7},
		lookupItem{cp949: 0xf6c6, ucs2: 0x7dfb},
		lookupItem{cp949: 0xf6c7, ucs2: 0x7f6e},
		lookupItem{cp949: 0xf6c8, ucs2: 0x81f4},
		lookupItem{cp949: 0xf6c9, ucs2: 0x86a9},
		lookupItem{cp949: 0xf6ca, ucs2: 0x8f1c},
		lookupItem{cp949: 0xf6cb, ucs2: 0x96c9},
		lookupItem{cp949: 0xf6cc, ucs2: 0x99b3},
		lookupItem{cp949: 0xf6cd, ucs2: 0x9f52},
		lookupItem{cp949: 0xf6ce, ucs2: 0x5247},
		lookupItem{cp949: 0xf6cf, ucs2: 0x52c5},
		lookupItem{cp949: 0xf6d0, ucs2: 0x98ed},
		lookupItem{cp949: 0xf6d1, ucs2: 0x89aa},
		lookupItem{cp949: 0xf6d2, ucs2: 0x4e03},
		lookupItem{cp949: 0xf6d3, ucs2: 0x67d2},
		lookupItem{cp949: 0xf6d4, ucs2: 0x6f06},
		lookupItem{cp949: 0xf6d5, ucs2: 0x4fb5},
		lookupItem{cp949: 0xf6d6, ucs2: 0x5be2},
		lookupItem{cp949: 0xf6d7, ucs2: 0x6795},
		lookupItem{cp949: 0xf6d8, ucs2: 0x6c88},
		lookupItem{cp949: 0xf6d9, ucs2: 0x6d78},
		lookupItem{cp949: 0xf6da, ucs2: 0x741b},
		lookupItem{cp949: 0xf6db, ucs2: 0x7827},
		lookupItem{cp949: 0xf6dc, ucs2: 0x91dd},
		lookupItem{cp949: 0xf6dd, ucs2: 0x937c},
		lookupItem{cp949: 0xf6de, ucs2: 0x87c4},
		lookupItem{cp949: 0xf6df, ucs2: 0x79e4},
		lookupItem{cp949: 0xf6e0, ucs2: 0x7a31},
		lookupItem{cp949: 0xf6e1, ucs2: 0x5feb},
		lookupItem{cp949: 0xf6e2, ucs2: 0x4ed6},
		lookupItem{cp949: 0xf6e3, ucs2: 0x54a4},
		lookupItem{cp949: 0xf6e4, ucs2: 0x553e},
		lookupItem{cp949: 0xf6e5, ucs2: 0x58ae},
		lookupItem{cp949: 0xf6e6, ucs2: 0x59a5},
		lookupItem{cp949: 0xf6e7, ucs2: 0x60f0},
		lookupItem{cp949: 0xf6e8, ucs2: 0x6253},
		lookupItem{cp949: 0xf6e9, ucs2: 0x62d6},
		lookupItem{cp949: 0xf6ea, ucs2: 0x6736},
		lookupItem{cp949: 0xf6eb, ucs2: 0x6955},
		lookupItem{cp949: 0xf6ec, ucs2: 0x8235},
		lookupItem{cp949: 0xf6ed, ucs2: 0x9640},
		lookupItem{cp949: 0xf6ee, ucs2: 0x99b1},
		lookupItem{cp949: 0xf6ef, ucs2: 0x99dd},
		lookupItem{cp949: 0xf6f0, ucs2: 0x502c},
		lookupItem{cp949: 0xf6f1, ucs2: 0x5353},
		lookupItem{cp949: 0xf6f2, ucs2: 0x5544},
		lookupItem{cp949: 0xf6f3, ucs2: 0x577c},
		lookupItem{cp949: 0xf6f4, ucs2: 0xfa01},
		lookupItem{cp949: 0xf6f5, ucs2: 0x6258},
		lookupItem{cp949: 0xf6f6, ucs2: 0xfa02},
		lookupItem{cp949: 0xf6f7, ucs2: 0x64e2},
		lookupItem{cp949: 0xf6f8, ucs2: 0x666b},
		lookupItem{cp949: 0xf6f9, ucs2: 0x67dd},
		lookupItem{cp949: 0xf6fa, ucs2: 0x6fc1},
		lookupItem{cp949: 0xf6fb, ucs2: 0x6fef},
		lookupItem{cp949: 0xf6fc, ucs2: 0x7422},
		lookupItem{cp949: 0xf6fd, ucs2: 0x7438},
		lookupItem{cp949: 0xf6fe, ucs2: 0x8a17},
		lookupItem{cp949: 0xf7a1, ucs2: 0x9438},
		lookupItem{cp949: 0xf7a2, ucs2: 0x5451},
		lookupItem{cp949: 0xf7a3, ucs2: 0x5606},
		lookupItem{cp949: 0xf7a4, ucs2: 0x5766},
		lookupItem{cp949: 0xf7a5, ucs2: 0x5f48},
		lookupItem{cp949: 0xf7a6, ucs2: 0x619a},
		lookupItem{cp949: 0xf7a7, ucs2: 0x6b4e},
		lookupItem{cp949: 0xf7a8, ucs2: 0x7058},
		lookupItem{cp949: 0xf7a9, ucs2: 0x70ad},
		lookupItem{cp949: 0xf7aa, ucs2: 0x7dbb},
		lookupItem{cp949: 0xf7ab, ucs2: 0x8a95},
		lookupItem{cp949: 0xf7ac, ucs2: 0x596a},
		lookupItem{cp949: 0xf7ad, ucs2: 0x812b},
		lookupItem{cp949: 0xf7ae, ucs2: 0x63a2},
		lookupItem{cp949: 0xf7af, ucs2: 0x7708},
		lookupItem{cp949: 0xf7b0, ucs2: 0x803d},
		lookupItem{cp949: 0xf7b1, ucs2: 0x8caa},
		lookupItem{cp949: 0xf7b2, ucs2: 0x5854},
		lookupItem{cp949: 0xf7b3, ucs2: 0x642d},
		lookupItem{cp949: 0xf7b4, ucs2: 0x69bb},
		lookupItem{cp949: 0xf7b5, ucs2: 0x5b95},
		lookupItem{cp949: 0xf7b6, ucs2: 0x5e11},
		lookupItem{cp949: 0xf7b7, ucs2: 0x6e6f},
		lookupItem{cp949: 0xf7b8, ucs2: 0xfa03},
		lookupItem{cp949: 0xf7b9, ucs2: 0x8569},
		lookupItem{cp949: 0xf7ba, ucs2: 0x514c},
		lookupItem{cp949: 0xf7bb, ucs2: 0x53f0},
		lookupItem{cp949: 0xf7bc, ucs2: 0x592a},
		lookupItem{cp949: 0xf7bd, ucs2: 0x6020},
		lookupItem{cp949: 0xf7be, ucs2: 0x614b},
		lookupItem{cp949: 0xf7bf, ucs2: 0x6b86},
		lookupItem{cp949: 0xf7c0, ucs2: 0x6c70},
		lookupItem{cp949: 0xf7c1, ucs2: 0x6cf0},
		lookupItem{cp949: 0xf7c2, ucs2: 0x7b1e},
		lookupItem{cp949: 0xf7c3, ucs2: 0x80ce},
		lookupItem{cp949: 0xf7c4, ucs2: 0x82d4},
		lookupItem{cp949: 0xf7c5, ucs2: 0x8dc6},
		lookupItem{cp949: 0xf7c6, ucs2: 0x90b0},
		lookupItem{cp949: 0xf7c7, ucs2: 0x98b1},
		lookupItem{cp949: 0xf7c8, ucs2: 0xfa04},
		lookupItem{cp949: 0xf7c9, ucs2: 0x64c7},
		lookupItem{cp949: 0xf7ca, ucs2: 0x6fa4},
		lookupItem{cp949: 0xf7cb, ucs2: 0x6491},
		lookupItem{cp949: 0xf7cc, ucs2: 0x6504},
		lookupItem{cp949: 0xf7cd, ucs2: 0x514e},
		lookupItem{cp949: 0xf7ce, ucs2: 0x5410},
		lookupItem{cp949: 0xf7cf, ucs2: 0x571f},
		lookupItem{cp949: 0xf7d0, ucs2: 0x8a0e},
		lookupItem{cp949: 0xf7d1, ucs2: 0x615f},
		lookupItem{cp949: 0xf7d2, ucs2: 0x6876},
		lookupItem{cp949: 0xf7d3, ucs2: 0xfa05},
		lookupItem{cp949: 0xf7d4, ucs2: 0x75db},
		lookupItem{cp949: 0xf7d5, ucs2: 0x7b52},
		lookupItem{cp949: 0xf7d6, ucs2: 0x7d71},
		lookupItem{cp949: 0xf7d7, ucs2: 0x901a},
		lookupItem{cp949: 0xf7d8, ucs2: 0x5806},
		lookupItem{cp949: 0xf7d9, ucs2: 0x69cc},
		lookupItem{cp949: 0xf7da, ucs2: 0x817f},
		lookupItem{cp949: 0xf7db, ucs2: 0x892a},
		lookupItem{cp949: 0xf7dc, ucs2: 0x9000},
		lookupItem{cp949: 0xf7dd, ucs2: 0x9839},
		lookupItem{cp949: 0xf7de, ucs2: 0x5078},
		lookupItem{cp949: 0xf7df, ucs2: 0x5957},
		lookupItem{cp949: 0xf7e0, ucs2: 0x59ac},
		lookupItem{cp949: 0xf7e1, ucs2: 0x6295},
		lookupItem{cp949: 0xf7e2, ucs2: 0x900f},
		lookupItem{cp949: 0xf7e3, ucs2: 0x9b2a},
		lookupItem{cp949: 0xf7e4, ucs2: 0x615d},
		lookupItem{cp949: 0xf7e5, ucs2: 0x7279},
		lookupItem{cp949: 0xf7e6, ucs2: 0x95d6},
		lookupItem{cp949: 0xf7e7, ucs2: 0x5761},
		lookupItem{cp949: 0xf7e8, ucs2: 0x5a46},
		lookupItem{cp949: 0xf7e9, ucs2: 0x5df4},
		lookupItem{cp949: 0xf7ea, ucs2: 0x628a},
		lookupItem{cp949: 0xf7eb, ucs2: 0x64ad},
		lookupItem{cp949: 0xf7ec, ucs2: 0x64fa},
		lookupItem{cp949: 0xf7ed, ucs2: 0x6777},
		lookupItem{cp949: 0xf7ee, ucs2: 0x6ce2},
		lookupItem{cp949: 0xf7ef, ucs2: 0x6d3e},
		lookupItem{cp949: 0xf7f0, ucs2: 0x722c},
		lookupItem{cp949: 0xf7f1, ucs2: 0x7436},
		lookupItem{cp949: 0xf7f2, ucs2: 0x7834},
		lookupItem{cp949: 0xf7f3, ucs2: 0x7f77},
		lookupItem{cp949: 0xf7f4, ucs2: 0x82ad},
		lookupItem{cp949: 0xf7f5, ucs2: 0x8ddb},
		lookupItem{cp949: 0xf7f6, ucs2: 0x9817},
		lookupItem{cp949: 0xf7f7, ucs2: 0x5224},
		lookupItem{cp949: 0xf7f8, ucs2: 0x5742},
		lookupItem{cp949: 0xf7f9, ucs2: 0x677f},
		lookupItem{cp949: 0xf7fa, ucs2: 0x7248},
		lookupItem{cp949: 0xf7fb, ucs2: 0x74e3},
		lookupItem{cp949: 0xf7fc, ucs2: 0x8ca9},
		lookupItem{cp949: 0xf7fd, ucs2: 0x8fa6},
		lookupItem{cp949: 0xf7fe, ucs2: 0x9211},
		lookupItem{cp949: 0xf8a1, ucs2: 0x962a},
		lookupItem{cp949: 0xf8a2, ucs2: 0x516b},
		lookupItem{cp949: 0xf8a3, ucs2: 0x53ed},
		lookupItem{cp949: 0xf8a4, ucs2: 0x634c},
		lookupItem{cp949: 0xf8a5, ucs2: 0x4f69},
		lookupItem{cp949: 0xf8a6, ucs2: 0x5504},
		lookupItem{cp949: 0xf8a7, ucs2: 0x6096},
		lookupItem{cp949: 0xf8a8, ucs2: 0x6557},
".
Definition text_cp949_lookup_from_066 : string :=
"		lookupItem{cp949: 0xf8a9, ucs2: 0x6c9b},
		lookupItem{cp949: 0xf8aa, ucs2: 0x6d7f},
		lookupItem{cp949: 0xf8ab, ucs2: 0x724c},
		lookupItem{cp949: 0xf8ac, ucs2: 0x72fd},
		lookupItem{cp949: 0xf8ad, ucs2: 0x7a17},
		lookupItem{cp949: 0xf8ae, ucs2: 0x8987},
		lookupItem{cp949: 0xf8af, ucs2: 0x8c9d},
		lookupItem{cp949: 0xf8b0, ucs2: 0x5f6d},
		lookupItem{cp949: 0xf8b1, ucs2: 0x6f8e},
		lookupItem{cp949: 0xf8b2, ucs2: 0x70f9},
		lookupItem{cp949: 0xf8b3, ucs2: 0x81a8},
		lookupItem{cp949: 0xf8b4, ucs2: 0x610e},
		lookupItem{cp949: 0xf8b5, ucs2: 0x4fbf},
		lookupItem{cp949: 0xf8b6, ucs2: 0x504f},
		lookupItem{cp949: 0xf8b7, ucs2: 0x6241},
		lookupItem{cp949: 0xf8b8, ucs2: 0x7247},
		lookupItem{cp949: 0xf8b9, ucs2: 0x7bc7},
		lookupItem{cp949: 0xf8ba, ucs2: 0x7de8},
		lookupItem{cp949: 0xf8bb, ucs2: 0x7fe9},
		lookupItem{cp949: 0xf8bc, ucs2: 0x904d},
		lookupItem{cp949: 0xf8bd, ucs2: 0x97ad},
		lookupItem{cp949: 0xf8be, ucs2: 0x9a19},
		lookupItem{cp949: 0xf8bf, ucs2: 0x8cb6},
		lookupItem{cp949: 0xf8c0, ucs2: 0x576a},
		lookupItem{cp949: 0xf8c1, ucs2: 0x5e73},
		lookupItem{cp949: 0xf8c2, ucs2: 0x67b0},
		lookupItem{cp949: 0xf8c3, ucs2: 0x840d},
		lookupItem{cp949: 0xf8c4, ucs2: 0x8a55},
		lookupItem{cp949: 0xf8c5, ucs2: 0x5420},
		lookupItem{cp949: 0xf8c6, ucs2: 0x5b16},
		lookupItem{cp949: 0xf8c7, ucs2: 0x5e63},
		lookupItem{cp949: 0xf8c8, ucs2: 0x5ee2},
		lookupItem{cp949: 0xf8c9, ucs2: 0x5f0a},
		lookupItem{cp949: 0xf8ca, ucs2: 0x6583},
		lookupItem{cp949: 0xf8cb, ucs2: 0x80ba},
		lookupItem{cp949: 0xf8cc, ucs2: 0x853d},
		lookupItem{cp949: 0xf8cd, ucs2: 0x9589},
		lookupItem{cp949: 0xf8ce, ucs2: 0x965b},
		lookupItem{cp949: 0xf8cf, ucs2: 0x4f48},
		lookupItem{cp949: 0xf8d0, ucs2: 0x5305},
		lookupItem{cp949: 0xf8d1, ucs2: 0x530d},
		lookupItem{cp949: 0xf8d2, ucs2: 0x530f},
		lookupItem{cp949: 0xf8d3, ucs2: 0x5486},
		lookupItem{cp949: 0xf8d4, ucs2: 0x54fa},
		lookupItem{cp949: 0xf8d5, ucs2: 0x5703},
		lookupItem{cp949: 0xf8d6, ucs2: 0x5e03},
		lookupItem{cp949: 0xf8d7, ucs2: 0x6016},
		lookupItem{cp949: 0xf8d8, ucs2: 0x629b},
		lookupItem{cp949: 0xf8d9, ucs2: 0x62b1},
		lookupItem{cp949: 0xf8da, ucs2: 0x6355},
		lookupItem{cp949: 0xf8db, ucs2: 0xfa06},
		lookupItem{cp949: 0xf8dc, ucs2: 0x6ce1},
		lookupItem{cp949: 0xf8dd, ucs2: 0x6d66},
		lookupItem{cp949: 0xf8de, ucs2: 0x75b1},
		lookupItem{cp949: 0xf8df, ucs2: 0x7832},
		lookupItem{cp949: 0xf8e0, ucs2: 0x80de},
		lookupItem{cp949: 0xf8e1, ucs2: 0x812f},
		lookupItem{cp949: 0xf8e2, ucs2: 0x82de},
		lookupItem{cp949: 0xf8e3, ucs2: 0x8461},
		lookupItem{cp949: 0xf8e4, ucs2: 0x84b2},
		lookupItem{cp949: 0xf8e5, ucs2: 0x888d},
		lookupItem{cp949: 0xf8e6, ucs2: 0x8912},
		lookupItem{cp949: 0xf8e7, ucs2: 0x900b},
		lookupItem{cp949: 0xf8e8, ucs2: 0x92ea},
		lookupItem{cp949: 0xf8e9, ucs2: 0x98fd},
		lookupItem{cp949: 0xf8ea, ucs2: 0x9b91},
		lookupItem{cp949: 0xf8eb, ucs2: 0x5e45},
		lookupItem{cp949: 0xf8ec, ucs2: 0x66b4},
		lookupItem{cp949: 0xf8ed, ucs2: 0x66dd},
		lookupItem{cp949: 0xf8ee, ucs2: 0x7011},
		lookupItem{cp949: 0xf8ef, ucs2: 0x7206},
		lookupItem{cp949: 0xf8f0, ucs2: 0xfa07},
		lookupItem{cp949: 0xf8f1, ucs2: 0x4ff5},
		lookupItem{cp949: 0xf8f2, ucs2: 0x527d},
		lookupItem{cp949: 0xf8f3, ucs2: 0x5f6a},
		lookupItem{cp949: 0xf8f4, ucs2: 0x6153},
		lookupItem{cp949: 0xf8f5, ucs2: 0x6753},
		lookupItem{cp949: 0xf8f6, ucs2: 0x6a19},
		lookupItem{cp949: 0xf8f7, ucs2: 0x6f02},
		lookupItem{cp949: 0xf8f8, ucs2: 0x74e2},
		lookupItem{cp949: 0xf8f9, ucs2: 0x7968},
		lookupItem{cp949: 0xf8fa, ucs2: 0x8868},
		lookupItem{cp949: 0xf8fb, ucs2: 0x8c79},
		lookupItem{cp949: 0xf8fc, ucs2: 0x98c7},
		lookupItem{cp949: 0xf8fd, ucs2: 0x98c4},
		lookupItem{cp949: 0xf8fe, ucs2: 0x9a43},
		lookupItem{cp949: 0xf9a1, ucs2: 0x54c1},
		lookupItem{cp949: 0xf9a2, ucs2: 0x7a1f},
		lookupItem{cp949: 0xf9a3, ucs2: 0x6953},
		lookupItem{cp949: 0xf9a4, ucs2: 0x8af7},
		lookupItem{cp949: 0xf9a5, ucs2: 0x8c4a},
		lookupItem{cp949: 0xf9a6, ucs2: 0x98a8},
		lookupItem{cp949: 0xf9a7, ucs2: 0x99ae},
		lookupItem{cp949: 0xf9a8, ucs2: 0x5f7c},
		lookupItem{cp949: 0xf9a9, ucs2: 0x62ab},
		lookupItem{cp949: 0xf9aa, ucs2: 0x75b2},
		lookupItem{cp949: 0xf9ab, ucs2: 0x76ae},
		lookupItem{cp949: 0xf9ac, ucs2: 0x88ab},
		lookupItem{cp949: 0xf9ad, ucs2: 0x907f},
		lookupItem{cp949: 0xf9ae, ucs2: 0x9642},
		lookupItem{cp949: 0xf9af, ucs2: 0x5339},
		lookupItem{cp949: 0xf9b0, ucs2: 0x5f3c},
		lookupItem{cp949: 0xf9b1, ucs2: 0x5fc5},
		lookupItem{cp949: 0xf9b2, ucs2: 0x6ccc},
		lookupItem{cp949: 0xf9b3, ucs2: 0x73cc},
		lookupItem{cp949: 0xf9b4, ucs2: 0x7562},
		lookupItem{cp949: 0xf9b5, ucs2: 0x758b},
		lookupItem{cp949: 0xf9b6, ucs2: 0x7b46},
		lookupItem{cp949: 0xf9b7, ucs2: 0x82fe},
		lookupItem{cp949: 0xf9b8, ucs2: 0x999d},
		lookupItem{cp949: 0xf9b9, ucs2: 0x4e4f},
		lookupItem{cp949: 0xf9ba, ucs2: 0x903c},
		lookupItem{cp949: 0xf9bb, ucs2: 0x4e0b},
		lookupItem{cp949: 0xf9bc, ucs2: 0x4f55},
		lookupItem{cp949: 0xf9bd, ucs2: 0x53a6},
		lookupItem{cp949: 0xf9be, ucs2: 0x590f},
		lookupItem{cp949: 0xf9bf, ucs2: 0x5ec8},
		lookupItem{cp949: 0xf9c0, ucs2: 0x6630},
		lookupItem{cp949: 0xf9c1, ucs2: 0x6cb3},
		lookupItem{cp949: 0xf9c2, ucs2: 0x7455},
		lookupItem{cp949: 0xf9c3, ucs2: 0x8377},
		lookupItem{cp949: 0xf9c4, ucs2: 0x8766},
		lookupItem{cp949: 0xf9c5, ucs2: 0x8cc0},
		lookupItem{cp949: 0xf9c6, ucs2: 0x9050},
		lookupItem{cp949: 0xf9c7, ucs2: 0x971e},
		lookupItem{cp949: 0xf9c8, ucs2: 0x9c15},
		lookupItem{cp949: 0xf9c9, ucs2: 0x58d1},
		lookupItem{cp949: 0xf9ca, ucs2: 0x5b78},
		lookupItem{cp949: 0xf9cb, ucs2: 0x8650},
		lookupItem{cp949: 0xf9cc, ucs2: 0x8b14},
		lookupItem{cp949: 0xf9cd, ucs2: 0x9db4},
		lookupItem{cp949: 0xf9ce, ucs2: 0x5bd2},
		lookupItem{cp949: 0xf9cf, ucs2: 0x6068},
		lookupItem{cp949: 0xf9d0, ucs2: 0x608d},
		lookupItem{cp949: 0xf9d1, ucs2: 0x65f1},
		lookupItem{cp949: 0xf9d2, ucs2: 0x6c57},
		lookupItem{cp949: 0xf9d3, ucs2: 0x6f22},
		lookupItem{cp949: 0xf9d4, ucs2: 0x6fa3},
		lookupItem{cp949: 0xf9d5, ucs2: 0x701a},
		lookupItem{cp949: 0xf9d6, ucs2: 0x7f55},
		lookupItem{cp949: 0xf9d7, ucs2: 0x7ff0},
		lookupItem{cp949: 0xf9d8, ucs2: 0x9591},
		lookupItem{cp949: 0xf9d9, ucs2: 0x9592},
		lookupItem{cp949: 0xf9da, ucs2: 0x9650},
		lookupItem{cp949: 0xf9db, ucs2: 0x97d3},
		lookupItem{cp949: 0xf9dc, ucs2: 0x5272},
		lookupItem{cp949: 0xf9dd, ucs2: 0x8f44},
		lookupItem{cp949: 0xf9de, ucs2: 0x51fd},
		lookupItem{cp949: 0xf9df, ucs2: 0x542b},
		lookupItem{cp949: 0xf9e0, ucs2: 0x54b8},
		lookupItem{cp949: 0xf9e1, ucs2: 0x5563},
		lookupItem{cp949: 0xf9e2, ucs2: 0x558a},
		lookupItem{cp949: 0xf9e3, ucs2: 0x6abb},
		lookupItem{cp949: 0xf9e4, ucs2: 0x6db5},
		lookupItem{cp949: 0xf9e5, ucs2: 0x7dd8},
		lookupItem{cp949: 0xf9e6, ucs2: 0x8266},
		lookupItem{cp949: 0xf9e7, ucs2: 0x929c},
		lookupItem{cp949: 0xf9e8, ucs2: 0x9677},
		lookupItem{cp949: 0xf9e9, ucs2: 0x9e79},
		lookupItem{cp949: 0xf9ea, ucs2: 0x5408},
		lookupItem{cp949: 0xf9eb, ucs2: 0x54c8},
		lookupItem{cp949: 0xf9ec, ucs2: 0x76d2},
		lookupItem{cp949: 0xf9ed, ucs2: 0x86e4},
		lookupItem{cp949: 0xf9ee, ucs2: 0x95a4},
		lookupItem{cp949: 0xf9ef, ucs2: 0x95d4},
		lookupItem{cp949: 0xf9f0, ucs2: 0x965c},
		lookupItem{cp949: 0xf9f1, ucs2: 0x4ea2},
		lookupItem{cp949: 0xf9f2, ucs2: 0x4f09},
		lookupItem{cp949: 0xf9f3, ucs2: 0x59ee},
		lookupItem{cp949: 0xf9f4, ucs2: 0x5ae6},
		lookupItem{cp949: 0xf9f5, ucs2: 0x5df7},
		lookupItem{cp949: 0xf9f6, ucs2: 0x6052},
		lookupItem{cp949: 0xf9f7, ucs2: 0x6297},
		lookupItem{cp949: 0xf9f8, ucs2: 0x676d},
		lookupItem{cp949: 0xf9f9, ucs2: 0x6841},
		lookupItem{cp949: 0xf9fa, ucs2: 0x6c86},
		lookupItem{cp949: 0xf9fb, ucs2: 0x6e2f},
		lookupItem{cp949: 0xf9fc, ucs2: 0x7f38},
		lookupItem{cp949: 0xf9fd, ucs2: 0x809b},
		lookupItem{cp949: 0xf9fe, ucs2: 0x822a},
		lookupItem{cp949: 0xfaa1, ucs2: 0xfa08},
		lookupItem{cp949: 0xfaa2, ucs2: 0xfa09},
		lookupItem{cp949: 0xfaa3, ucs2: 0x9805},
		lookupItem{cp949: 0xfaa4, ucs2: 0x4ea5},
		lookupItem{cp949: 0xfaa5, ucs2: 0x5055},
		lookupItem{cp949: 0xfaa6, ucs2: 0x54b3},
		lookupItem{cp949: 0xfaa7, ucs2: 0x5793},
		lookupItem{cp949: 0xfaa8, ucs2: 0x595a},
		lookupItem{cp949: 0xfaa9, ucs2: 0x5b69},
		lookupItem{cp949: 0xfaaa, ucs2: 0x5bb3},
		lookupItem{cp949: 0xfaab, ucs2: 0x61c8},
		lookupItem{cp949: 0xfaac, ucs2: 0x6977},
		lookupItem{cp949: 0xfaad, ucs2: 0x6d77},
		lookupItem{cp949: 0xfaae, ucs2: 0x7023},
		lookupItem{cp949: 0xfaaf, ucs2: 0x87f9},
		lookupItem{cp949: 0xfab0, ucs2: 0x89e3},
		lookupItem{cp949: 0xfab1, ucs2: 0x8a72},
		lookupItem{cp949: 0xfab2, ucs2: 0x8ae7},
		lookupItem{cp949: 0xfab3, ucs2: 0x9082},
		lookupItem{cp949: 0xfab4, ucs2: 0x99ed},
		lookupItem{cp949: 0xfab5, ucs2: 0x9ab8},
		lookupItem{cp949: 0xfab6, ucs2: 0x52be},
		lookupItem{cp949: 0xfab7, ucs2: 0x6838},
		lookupItem{cp949: 0xfab8, ucs2: 0x5016},
		lookupItem{cp949: 0xfab9, ucs2: 0x5e78},
		lookupItem{cp949: 0xfaba, ucs2: 0x674f},
		lookupItem{cp949: 0xfabb, ucs2: 0x8347},
		lookupItem{cp949: 0xfabc, ucs2: 0x884c},
		lookupItem{cp949: 0xfabd, ucs2: 0x4eab},
		lookupItem{cp949: 0xfabe, ucs2: 0x5411},
		lookupItem{cp949: 0xfabf, ucs2: 0x56ae},
		lookupItem{cp949: 0xfac0, ucs2: 0x73e6},
		lookupItem{cp949: 0xfac1, ucs2: 0x9115},
		lookupItem{cp949: 0xfac2, ucs2: 0x97ff},
		lookupItem{cp949: 0xfac3, ucs2: 0x9909},
		lookupItem{cp949: 0xfac4, ucs2: 0x9957},
		lookupItem{cp949: 0xfac5, ucs2: 0x9999},
		lookupItem{cp949: 0xfac6, ucs2: 0x5653},
		lookupItem{cp949: 0xfac7, ucs2: 0x589f},
		lookupItem{cp949: 0xfac8, ucs2: 0x865b},
		lookupItem{cp949: 0xfac9, ucs2: 0x8a31},
		lookupItem{cp949: 0xfaca, ucs2: 0x61b2},
		lookupItem{cp949: 0xfacb, ucs2: 0x6af6},
		lookupItem{cp949: 0xfacc, ucs2: 0x737b},
		lookupItem{cp949: 0xfacd, ucs2: 0x8ed2},
		lookupItem{cp949: 0xface, ucs2: 0x6b47},
		lookupItem{cp949: 0xfacf, ucs2: 0x96aa},
		lookupItem{cp949: 0xfad0, ucs2: 0x9a57},
		lookupItem{cp949: 0xfad1, ucs2: 0x5955},
		lookupItem{cp949: 0xfad2, ucs2: 0x7200},
		lookupItem{cp949: 0xfad3, ucs2: 0x8d6b},
		lookupItem{cp949: 0xfad4, ucs2: 0x9769},
		lookupItem{cp949: 0xfad5, ucs2: 0x4fd4},
		lookupItem{cp949: 0xfad6, ucs2: 0x5cf4},
		lookupItem{cp949: 0xfad7, ucs2: 0x5f26},
		lookupItem{cp949: 0xfad8, ucs2: 0x61f8},
		lookupItem{cp949: 0xfad9, ucs2: 0x665b},
		lookupItem{cp949: 0xfada, ucs2: 0x6ceb},
		lookupItem{cp949: 0xfadb, ucs2: 0x70ab},
		lookupItem{cp949: 0xfadc, ucs2: 0x7384},
		lookupItem{cp949: 0xfadd, ucs2: 0x73b9},
		lookupItem{cp949: 0xfade, ucs2: 0x73fe},
		lookupItem{cp949: 0xfadf, ucs2: 0x7729},
		lookupItem{cp949: 0xfae0, ucs2: 0x774d},
		lookupItem{cp949: 0xfae1, ucs2: 0x7d43},
		lookupItem{cp949: 0xfae2, ucs2: 0x7d62},
		lookupItem{cp949: 0xfae3, ucs2: 0x7e23},
		lookupItem{cp949: 0xfae4, ucs2: 0x8237},
		lookupItem{cp949: 0xfae5, ucs2: 0x8852},
		lookupItem{cp949: 0xfae6, ucs2: 0xfa0a},
".
Definition text_cp949_lookup_from_067 : string :=
"		lookupItem{cp949: 0xfae7, ucs2: 0x8ce2},
		lookupItem{cp949: 0xfae8, ucs2: 0x9249},
		lookupItem{cp949: 0xfae9, ucs2: 0x986f},
		lookupItem{cp949: 0xfaea, ucs2: 0x5b51},
		lookupItem{cp949: 0xfaeb, ucs2: 0x7a74},
		lookupItem{cp949: 0xfaec, ucs2: 0x8840},
		lookupItem{cp949: 0xfaed, ucs2: 0x9801},
		lookupItem{cp949: 0xfaee, ucs2: 0x5acc},
		lookupItem{cp949: 0xfaef, ucs2: 0x4fe0},
		lookupItem{cp949: 0xfaf0, ucs2: 0x5354},
		lookupItem{cp949: 0xfaf1, ucs2: 0x593e},
		lookupItem{cp949: 0xfaf2, ucs2: 0x5cfd},
		lookupItem{cp949: 0xfaf3, ucs2: 0x633e},
		lookupItem{cp949: 0xfaf4, ucs2: 0x6d79},
		lookupItem{cp949: 0xfaf5, ucs2: 0x72f9},
		lookupItem{cp949: 0xfaf6, ucs2: 0x8105},
		lookupItem{cp949: 0xfaf7, ucs2: 0x8107},
		lookupItem{cp949: 0xfaf8, ucs2: 0x83a2},
		lookupItem{cp949: 0xfaf9, ucs2: 0x92cf},
		lookupItem{cp949: 0xfafa, ucs2: 0x9830},
		lookupItem{cp949: 0xfafb, ucs2: 0x4ea8},
		lookupItem{cp949: 0xfafc, ucs2: 0x5144},
		lookupItem{cp949: 0xfafd, ucs2: 0x5211},
		lookupItem{cp949: 0xfafe, ucs2: 0x578b},
		lookupItem{cp949: 0xfba1, ucs2: 0x5f62},
		lookupItem{cp949: 0xfba2, ucs2: 0x6cc2},
		lookupItem{cp949: 0xfba3, ucs2: 0x6ece},
		lookupItem{cp949: 0xfba4, ucs2: 0x7005},
		lookupItem{cp949: 0xfba5, ucs2: 0x7050},
		lookupItem{cp949: 0xfba6, ucs2: 0x70af},
		lookupItem{cp949: 0xfba7, ucs2: 0x7192},
		lookupItem{cp949: 0xfba8, ucs2: 0x73e9},
		lookupItem{cp949: 0xfba9, ucs2: 0x7469},
		lookupItem{cp949: 0xfbaa, ucs2: 0x834a},
		lookupItem{cp949: 0xfbab, ucs2: 0x87a2},
		lookupItem{cp949: 0xfbac, ucs2: 0x8861},
		lookupItem{cp949: 0xfbad, ucs2: 0x9008},
		lookupItem{cp949: 0xfbae, ucs2: 0x90a2},
		lookupItem{cp949: 0xfbaf, ucs2: 0x93a3},
		lookupItem{cp949: 0xfbb0, ucs2: 0x99a8},
		lookupItem{cp949: 0xfbb1, ucs2: 0x516e},
		lookupItem{cp949: 0xfbb2, ucs2: 0x5f57},
		lookupItem{cp949: 0xfbb3, ucs2: 0x60e0},
		lookupItem{cp949: 0xfbb4, ucs2: 0x6167},
		lookupItem{cp949: 0xfbb5, ucs2: 0x66b3},
		lookupItem{cp949: 0xfbb6, ucs2: 0x8559},
		lookupItem{cp949: 0xfbb7, ucs2: 0x8e4a},
		lookupItem{cp949: 0xfbb8, ucs2: 0x91af},
		lookupItem{cp949: 0xfbb9, ucs2: 0x978b},
		lookupItem{cp949: 0xfbba, ucs2: 0x4e4e},
		lookupItem{cp949: 0xfbbb, ucs2: 0x4e92},
		lookupItem{cp949: 0xfbbc, ucs2: 0x547c},
		lookupItem{cp949: 0xfbbd, ucs2: 0x58d5},
		lookupItem{cp949: 0xfbbe, ucs2: 0x58fa},
		lookupItem{cp949: 0xfbbf, ucs2: 0x597d},
		lookupItem{cp949: 0xfbc0, ucs2: 0x5cb5},
		lookupItem{cp949: 0xfbc1, ucs2: 0x5f27},
		lookupItem{cp949: 0xfbc2, ucs2: 0x6236},
		lookupItem{cp949: 0xfbc3, ucs2: 0x6248},
		lookupItem{cp949: 0xfbc4, ucs2: 0x660a},
		lookupItem{cp949: 0xfbc5, ucs2: 0x6667},
		lookupItem{cp949: 0xfbc6, ucs2: 0x6beb},
		lookupItem{cp949: 0xfbc7, ucs2: 0x6d69},
		lookupItem{cp949: 0xfbc8, ucs2: 0x6dcf},
		lookupItem{cp949: 0xfbc9, ucs2: 0x6e56},
		lookupItem{cp949: 0xfbca, ucs2: 0x6ef8},
		lookupItem{cp949: 0xfbcb, ucs2: 0x6f94},
		lookupItem{cp949: 0xfbcc, ucs2: 0x6fe0},
		lookupItem{cp949: 0xfbcd, ucs2: 0x6fe9},
		lookupItem{cp949: 0xfbce, ucs2: 0x705d},
		lookupItem{cp949: 0xfbcf, ucs2: 0x72d0},
		lookupItem{cp949: 0xfbd0, ucs2: 0x7425},
		lookupItem{cp949: 0xfbd1, ucs2: 0x745a},
		lookupItem{cp949: 0xfbd2, ucs2: 0x74e0},
		lookupItem{cp949: 0xfbd3, ucs2: 0x7693},
		lookupItem{cp949: 0xfbd4, ucs2: 0x795c},
		lookupItem{cp949: 0xfbd5, ucs2: 0x7cca},
		lookupItem{cp949: 0xfbd6, ucs2: 0x7e1e},
		lookupItem{cp949: 0xfbd7, ucs2: 0x80e1},
		lookupItem{cp949: 0xfbd8, ucs2: 0x82a6},
		lookupItem{cp949: 0xfbd9, ucs2: 0x846b},
		lookupItem{cp949: 0xfbda, ucs2: 0x84bf},
		lookupItem{cp949: 0xfbdb, ucs2: 0x864e},
		lookupItem{cp949: 0xfbdc, ucs2: 0x865f},
		lookupItem{cp949: 0xfbdd, ucs2: 0x8774},
		lookupItem{cp949: 0xfbde, ucs2: 0x8b77},
		lookupItem{cp949: 0xfbdf, ucs2: 0x8c6a},
		lookupItem{cp949: 0xfbe0, ucs2: 0x93ac},
		lookupItem{cp949: 0xfbe1, ucs2: 0x9800},
		lookupItem{cp949: 0xfbe2, ucs2: 0x9865},
		lookupItem{cp949: 0xfbe3, ucs2: 0x60d1},
		lookupItem{cp949: 0xfbe4, ucs2: 0x6216},
		lookupItem{cp949: 0xfbe5, ucs2: 0x9177},
		lookupItem{cp949: 0xfbe6, ucs2: 0x5a5a},
		lookupItem{cp949: 0xfbe7, ucs2: 0x660f},
		lookupItem{cp949: 0xfbe8, ucs2: 0x6df7},
		lookupItem{cp949: 0xfbe9, ucs2: 0x6e3e},
		lookupItem{cp949: 0xfbea, ucs2: 0x743f},
		lookupItem{cp949: 0xfbeb, ucs2: 0x9b42},
		lookupItem{cp949: 0xfbec, ucs2: 0x5ffd},
		lookupItem{cp949: 0xfbed, ucs2: 0x60da},
		lookupItem{cp949: 0xfbee, ucs2: 0x7b0f},
		lookupItem{cp949: 0xfbef, ucs2: 0x54c4},
		lookupItem{cp949: 0xfbf0, ucs2: 0x5f18},
		lookupItem{cp949: 0xfbf1, ucs2: 0x6c5e},
		lookupItem{cp949: 0xfbf2, ucs2: 0x6cd3},
		lookupItem{cp949: 0xfbf3, ucs2: 0x6d2a},
		lookupItem{cp949: 0xfbf4, ucs2: 0x70d8},
		lookupItem{cp949: 0xfbf5, ucs2: 0x7d05},
		lookupItem{cp949: 0xfbf6, ucs2: 0x8679},
		lookupItem{cp949: 0xfbf7, ucs2: 0x8a0c},
		lookupItem{cp949: 0xfbf8, ucs2: 0x9d3b},
		lookupItem{cp949: 0xfbf9, ucs2: 0x5316},
		lookupItem{cp949: 0xfbfa, ucs2: 0x548c},
		lookupItem{cp949: 0xfbfb, ucs2: 0x5b05},
		lookupItem{cp949: 0xfbfc, ucs2: 0x6a3a},
		lookupItem{cp949: 0xfbfd, ucs2: 0x706b},
		lookupItem{cp949: 0xfbfe, ucs2: 0x7575},
		lookupItem{cp949: 0xfca1, ucs2: 0x798d},
		lookupItem{cp949: 0xfca2, ucs2: 0x79be},
		lookupItem{cp949: 0xfca3, ucs2: 0x82b1},
		lookupItem{cp949: 0xfca4, ucs2: 0x83ef},
		lookupItem{cp949: 0xfca5, ucs2: 0x8a71},
		lookupItem{cp949: 0xfca6, ucs2: 0x8b41},
		lookupItem{cp949: 0xfca7, ucs2: 0x8ca8},
		lookupItem{cp949: 0xfca8, ucs2: 0x9774},
		lookupItem{cp949: 0xfca9, ucs2: 0xfa0b},
		lookupItem{cp949: 0xfcaa, ucs2: 0x64f4},
		lookupItem{cp949: 0xfcab, ucs2: 0x652b},
		lookupItem{cp949: 0xfcac, ucs2: 0x78ba},
		lookupItem{cp949: 0xfcad, ucs2: 0x78bb},
		lookupItem{cp949: 0xfcae, ucs2: 0x7a6b},
		lookupItem{cp949: 0xfcaf, ucs2: 0x4e38},
		lookupItem{cp949: 0xfcb0, ucs2: 0x559a},
		lookupItem{cp949: 0xfcb1, ucs2: 0x5950},
		lookupItem{cp949: 0xfcb2, ucs2: 0x5ba6},
		lookupItem{cp949: 0xfcb3, ucs2: 0x5e7b},
		lookupItem{cp949: 0xfcb4, ucs2: 0x60a3},
		lookupItem{cp949: 0xfcb5, ucs2: 0x63db},
		lookupItem{cp949: 0xfcb6, ucs2: 0x6b61},
		lookupItem{cp949: 0xfcb7, ucs2: 0x6665},
		lookupItem{cp949: 0xfcb8, ucs2: 0x6853},
		lookupItem{cp949: 0xfcb9, ucs2: 0x6e19},
		lookupItem{cp949: 0xfcba, ucs2: 0x7165},
		lookupItem{cp949: 0xfcbb, ucs2: 0x74b0},
		lookupItem{cp949: 0xfcbc, ucs2: 0x7d08},
		lookupItem{cp949: 0xfcbd, ucs2: 0x9084},
		lookupItem{cp949: 0xfcbe, ucs2: 0x9a69},
		lookupItem{cp949: 0xfcbf, ucs2: 0x9c25},
		lookupItem{cp949: 0xfcc0, ucs2: 0x6d3b},
		lookupItem{cp949: 0xfcc1, ucs2: 0x6ed1},
		lookupItem{cp949: 0xfcc2, ucs2: 0x733e},
		lookupItem{cp949: 0xfcc3, ucs2: 0x8c41},
		lookupItem{cp949: 0xfcc4, ucs2: 0x95ca},
		lookupItem{cp949: 0xfcc5, ucs2: 0x51f0},
		lookupItem{cp949: 0xfcc6, ucs2: 0x5e4c},
		lookupItem{cp949: 0xfcc7, ucs2: 0x5fa8},
		lookupItem{cp949: 0xfcc8, ucs2: 0x604d},
		lookupItem{cp949: 0xfcc9, ucs2: 0x60f6},
		lookupItem{cp949: 0xfcca, ucs2: 0x6130},
		lookupItem{cp949: 0xfccb, ucs2: 0x614c},
		lookupItem{cp949: 0xfccc, ucs2: 0x6643},
		lookupItem{cp949: 0xfccd, ucs2: 0x6644},
		lookupItem{cp949: 0xfcce, ucs2: 0x69a5},
		lookupItem{cp949: 0xfccf, ucs2: 0x6cc1},
		lookupItem{cp949: 0xfcd0, ucs2: 0x6e5f},
		lookupItem{cp949: 0xfcd1, ucs2: 0x6ec9},
		lookupItem{cp949: 0xfcd2, ucs2: 0x6f62},
		lookupItem{cp949: 0xfcd3, ucs2: 0x714c},
		lookupItem{cp949: 0xfcd4, ucs2: 0x749c},
		lookupItem{cp949: 0xfcd5, ucs2: 0x7687},
		lookupItem{cp949: 0xfcd6, ucs2: 0x7bc1},
		lookupItem{cp949: 0xfcd7, ucs2: 0x7c27},
		lookupItem{cp949: 0xfcd8, ucs2: 0x8352},
		lookupItem{cp949: 0xfcd9, ucs2: 0x8757},
		lookupItem{cp949: 0xfcda, ucs2: 0x9051},
		lookupItem{cp949: 0xfcdb, ucs2: 0x968d},
		lookupItem{cp949: 0xfcdc, ucs2: 0x9ec3},
		lookupItem{cp949: 0xfcdd, ucs2: 0x532f},
		lookupItem{cp949: 0xfcde, ucs2: 0x56de},
		lookupItem{cp949: 0xfcdf, ucs2: 0x5efb},
		lookupItem{cp949: 0xfce0, ucs2: 0x5f8a},
		lookupItem{cp949: 0xfce1, ucs2: 0x6062},
		lookupItem{cp949: 0xfce2, ucs2: 0x6094},
		lookupItem{cp949: 0xfce3, ucs2: 0x61f7},
		lookupItem{cp949: 0xfce4, ucs2: 0x6666},
		lookupItem{cp949: 0xfce5, ucs2: 0x6703},
		lookupItem{cp949: 0xfce6, ucs2: 0x6a9c},
		lookupItem{cp949: 0xfce7, ucs2: 0x6dee},
		lookupItem{cp949: 0xfce8, ucs2: 0x6fae},
		lookupItem{cp949: 0xfce9, ucs2: 0x7070},
		lookupItem{cp949: 0xfcea, ucs2: 0x736a},
		lookupItem{cp949: 0xfceb, ucs2: 0x7e6a},
		lookupItem{cp949: 0xfcec, ucs2: 0x81be},
		lookupItem{cp949: 0xfced, ucs2: 0x8334},
		lookupItem{cp949: 0xfcee, ucs2: 0x86d4},
		lookupItem{cp949: 0xfcef, ucs2: 0x8aa8},
		lookupItem{cp949: 0xfcf0, ucs2: 0x8cc4},
		lookupItem{cp949: 0xfcf1, ucs2: 0x5283},
		lookupItem{cp949: 0xfcf2, ucs2: 0x7372},
		lookupItem{cp949: 0xfcf3, ucs2: 0x5b96},
		lookupItem{cp949: 0xfcf4, ucs2: 0x6a6b},
		lookupItem{cp949: 0xfcf5, ucs2: 0x9404},
		lookupItem{cp949: 0xfcf6, ucs2: 0x54ee},
		lookupItem{cp949: 0xfcf7, ucs2: 0x5686},
		lookupItem{cp949: 0xfcf8, ucs2: 0x5b5d},
		lookupItem{cp949: 0xfcf9, ucs2: 0x6548},
		lookupItem{cp949: 0xfcfa, ucs2: 0x6585},
		lookupItem{cp949: 0xfcfb, ucs2: 0x66c9},
		lookupItem{cp949: 0xfcfc, ucs2: 0x689f},
		lookupItem{cp949: 0xfcfd, ucs2: 0x6d8d},
		lookupItem{cp949: 0xfcfe, ucs2: 0x6dc6},
		lookupItem{cp949: 0xfda1, ucs2: 0x723b},
		lookupItem{cp949: 0xfda2, ucs2: 0x80b4},
		lookupItem{cp949: 0xfda3, ucs2: 0x9175},
		lookupItem{cp949: 0xfda4, ucs2: 0x9a4d},
		lookupItem{cp949: 0xfda5, ucs2: 0x4faf},
		lookupItem{cp949: 0xfda6, ucs2: 0x5019},
		lookupItem{cp949: 0xfda7, ucs2: 0x539a},
		lookupItem{cp949: 0xfda8, ucs2: 0x540e},
		lookupItem{cp949: 0xfda9, ucs2: 0x543c},
		lookupItem{cp949: 0xfdaa, ucs2: 0x5589},
		lookupItem{cp949: 0xfdab, ucs2: 0x55c5},
		lookupItem{cp949: 0xfdac, ucs2: 0x5e3f},
		lookupItem{cp949: 0xfdad, ucs2: 0x5f8c},
		lookupItem{cp949: 0xfdae, ucs2: 0x673d},
		lookupItem{cp949: 0xfdaf, ucs2: 0x7166},
		lookupItem{cp949: 0xfdb0, ucs2: 0x73dd},
		lookupItem{cp949: 0xfdb1, ucs2: 0x9005},
		lookupItem{cp949: 0xfdb2, ucs2: 0x52db},
		lookupItem{cp949: 0xfdb3, ucs2: 0x52f3},
		lookupItem{cp949: 0xfdb4, ucs2: 0x5864},
		lookupItem{cp949: 0xfdb5, ucs2: 0x58ce},
		lookupItem{cp949: 0xfdb6, ucs2: 0x7104},
		lookupItem{cp949: 0xfdb7, ucs2: 0x718f},
		lookupItem{cp949: 0xfdb8, ucs2: 0x71fb},
		lookupItem{cp949: 0xfdb9, ucs2: 0x85b0},
		lookupItem{cp949: 0xfdba, ucs2: 0x8a13},
		lookupItem{cp949: 0xfdbb, ucs2: 0x6688},
		lookupItem{cp949: 0xfdbc, ucs2: 0x85a8},
		lookupItem{cp949: 0xfdbd, ucs2: 0x55a7},
		lookupItem{cp949: 0xfdbe, ucs2: 0x6684},
		lookupItem{cp949: 0xfdbf, ucs2: 0x714a},
		lookupItem{cp949: 0xfdc0, ucs2: 0x8431},
		lookupItem{cp949: 0xfdc1, ucs2: 0x5349},
		lookupItem{cp949: 0xfdc2, ucs2: 0x5599},
		lookupItem{cp949: 0xfdc3, ucs2: 0x6bc1},
		lookupItem{cp949: 0xfdc4, ucs2: 0x5f59},
		lookupItem{cp949: 0xfdc5, ucs2: 0x5fbd},
		lookupItem{cp949: 0xfdc6, ucs2: 0x63ee},
".
Definition text_cp949_lookup_from_068 : string :=
"		lookupItem{cp949: 0xfdc7, ucs2: 0x6689},
		lookupItem{cp949: 0xfdc8, ucs2: 0x7147},
		lookupItem{cp949: 0xfdc9, ucs2: 0x8af1},
		lookupItem{cp949: 0xfdca, ucs2: 0x8f1d},
		lookupItem{cp949: 0xfdcb, ucs2: 0x9ebe},
		lookupItem{cp949: 0xfdcc, ucs2: 0x4f11},
		lookupItem{cp949: 0xfdcd, ucs2: 0x643a},
		lookupItem{cp949: 0xfdce, ucs2: 0x70cb},
		lookupItem{cp949: 0xfdcf, ucs2: 0x7566},
		lookupItem{cp949: 0xfdd0, ucs2: 0x8667},
		lookupItem{cp949: 0xfdd1, ucs2: 0x6064},
		lookupItem{cp949: 0xfdd2, ucs2: 0x8b4e},
		lookupItem{cp949: 0xfdd3, ucs2: 0x9df8},
		lookupItem{cp949: 0xfdd4, ucs2: 0x5147},
		lookupItem{cp949: 0xfdd5, ucs2: 0x51f6},
		lookupItem{cp949: 0xfdd6, ucs2: 0x5308},
		lookupItem{cp949: 0xfdd7, ucs2: 0x6d36},
		lookupItem{cp949: 0xfdd8, ucs2: 0x80f8},
		lookupItem{cp949: 0xfdd9, ucs2: 0x9ed1},
		lookupItem{cp949: 0xfdda, ucs2: 0x6615},
		lookupItem{cp949: 0xfddb, ucs2: 0x6b23},
		lookupItem{cp949: 0xfddc, ucs2: 0x7098},
		lookupItem{cp949: 0xfddd, ucs2: 0x75d5},
		lookupItem{cp949: 0xfdde, ucs2: 0x5403},
		lookupItem{cp949: 0xfddf, ucs2: 0x5c79},
		lookupItem{cp949: 0xfde0, ucs2: 0x7d07},
		lookupItem{cp949: 0xfde1, ucs2: 0x8a16},
		lookupItem{cp949: 0xfde2, ucs2: 0x6b20},
		lookupItem{cp949: 0xfde3, ucs2: 0x6b3d},
		lookupItem{cp949: 0xfde4, ucs2: 0x6b46},
		lookupItem{cp949: 0xfde5, ucs2: 0x5438},
		lookupItem{cp949: 0xfde6, ucs2: 0x6070},
		lookupItem{cp949: 0xfde7, ucs2: 0x6d3d},
		lookupItem{cp949: 0xfde8, ucs2: 0x7fd5},
		lookupItem{cp949: 0xfde9, ucs2: 0x8208},
		lookupItem{cp949: 0xfdea, ucs2: 0x50d6},
		lookupItem{cp949: 0xfdeb, ucs2: 0x51de},
		lookupItem{cp949: 0xfdec, ucs2: 0x559c},
		lookupItem{cp949: 0xfded, ucs2: 0x566b},
		lookupItem{cp949: 0xfdee, ucs2: 0x56cd},
		lookupItem{cp949: 0xfdef, ucs2: 0x59ec},
		lookupItem{cp949: 0xfdf0, ucs2: 0x5b09},
		lookupItem{cp949: 0xfdf1, ucs2: 0x5e0c},
		lookupItem{cp949: 0xfdf2, ucs2: 0x6199},
		lookupItem{cp949: 0xfdf3, ucs2: 0x6198},
		lookupItem{cp949: 0xfdf4, ucs2: 0x6231},
		lookupItem{cp949: 0xfdf5, ucs2: 0x665e},
		lookupItem{cp949: 0xfdf6, ucs2: 0x66e6},
		lookupItem{cp949: 0xfdf7, ucs2: 0x7199},
		lookupItem{cp949: 0xfdf8, ucs2: 0x71b9},
		lookupItem{cp949: 0xfdf9, ucs2: 0x71ba},
		lookupItem{cp949: 0xfdfa, ucs2: 0x72a7},
		lookupItem{cp949: 0xfdfb, ucs2: 0x79a7},
		lookupItem{cp949: 0xfdfc, ucs2: 0x7a00},
		lookupItem{cp949: 0xfdfd, ucs2: 0x7fb2},
		lookupItem{cp949: 0xfdfe, ucs2: 0x8a70},
	}
)
".
Definition text_cp949_lookup_from : string := String.concat "" [
  text_cp949_lookup_from_000;
  text_cp949_lookup_from_001;
  text_cp949_lookup_from_002;
  text_cp949_lookup_from_003;
  text_cp949_lookup_from_004;
  text_cp949_lookup_from_005;
  text_cp949_lookup_from_006;
  text_cp949_lookup_from_007;
  text_cp949_lookup_from_008;
  text_cp949_lookup_from_009;
  text_cp949_lookup_from_010;
  text_cp949_lookup_from_011;
  text_cp949_lookup_from_012;
  text_cp949_lookup_from_013;
  text_cp949_lookup_from_014;
  text_cp949_lookup_from_015;
  text_cp949_lookup_from_016;
  text_cp949_lookup_from_017;
  text_cp949_lookup_from_018;
  text_cp949_lookup_from_019;
  text_cp949_lookup_from_020;
  text_cp949_lookup_from_021;
  text_cp949_lookup_from_022;
  text_cp949_lookup_from_023;
  text_cp949_lookup_from_024;
  text_cp949_lookup_from_025;
  text_cp949_lookup_from_026;
  text_cp949_lookup_from_027;
  text_cp949_lookup_from_028;
  text_cp949_lookup_from_029;
  text_cp949_lookup_from_030;
  text_cp949_lookup_from_031;
  text_cp949_lookup_from_032;
  text_cp949_lookup_from_033;
  text_cp949_lookup_from_034;
  text_cp949_lookup_from_035;
  text_cp949_lookup_from_036;
  text_cp949_lookup_from_037;
  text_cp949_lookup_from_038;
  text_cp949_lookup_from_039;
  text_cp949_lookup_from_040;
  text_cp949_lookup_from_041;
  text_cp949_lookup_from_042;
  text_cp949_lookup_from_043;
  text_cp949_lookup_from_044;
  text_cp949_lookup_from_045;
  text_cp949_lookup_from_046;
  text_cp949_lookup_from_047;
  text_cp949_lookup_from_048;
  text_cp949_lookup_from_049;
  text_cp949_lookup_from_050;
  text_cp949_lookup_from_051;
  text_cp949_lookup_from_052;
  text_cp949_lookup_from_053;
  text_cp949_lookup_from_054;
  text_cp949_lookup_from_055;
  text_cp949_lookup_from_056;
  text_cp949_lookup_from_057;
  text_cp949_lookup_from_058;
  text_cp949_lookup_from_059;
  text_cp949_lookup_from_060;
  text_cp949_lookup_from_061;
  text_cp949_lookup_from_062;
  text_cp949_lookup_from_063;
  text_cp949_lookup_from_064;
  text_cp949_lookup_from_065;
  text_cp949_lookup_from_066;
  text_cp949_lookup_from_067;
  text_cp949_lookup_from_068].
