(** Independent descriptions of the CP949 code assignment: the reference mapping, the
    arrangement of the extension syllables and of the KS X 1001 rows.  No model function is
    mentioned. *)
From Coq Require Import ZArith List.
From Verif Require Import Base Spec SpecCp949 TableRef.
Import ListNotations.
Local Open Scope Z_scope.

(** The reference mapping gives the code [c] the character [u]. *)
Definition reference (c u : Z) : Prop :=
  exists start row i, In (start, row) ref_rows /\ nth_error row i = Some u /\ c = start + Z.of_nat i.

(** The interval [a..b] in increasing order. *)
Definition interval (a b : Z) : list Z := zseq a (Z.to_nat (b - a + 1)).

(** The code positions of the extension, in increasing order: lead bytes 81..A0 with every
    trail byte, lead bytes A1..C6 with the trail bytes below A1. *)
Definition trails_low : list Z := interval 0x41 0x5A ++ interval 0x61 0x7A ++ interval 0x81 0xA0.
Definition trails_all : list Z := trails_low ++ interval 0xA1 0xFE.
Definition codes_of (leads trails : list Z) : list Z :=
  flat_map (fun l => map (fun t => l * 256 + t) trails) leads.
Definition extension_codes : list Z :=
  codes_of (interval 0x81 0xA0) trails_all ++ codes_of (interval 0xA1 0xC6) trails_low.

(** The code at row [lead], column [i] of KS X 1001 (the first column is 0). *)
Definition ks_at (lead i : Z) : Z := lead * 256 + 0xA1 + i.

(** The hanja whose reading in package hanja is not the one they are filed under in
    KS X 1001: 串 廓 金 拏 諾 寧 怒 坍 宅 不 樂 異 泌. *)
Definition filed_elsewhere : list Z :=
  [0x4E32; 0x5ED3; 0x91D1; 0x62CF; 0x8AFE; 0x5BE7; 0x6012; 0x574D; 0x5B85; 0x4E0D; 0x6A02;
   0x7570; 0x6CCC].
