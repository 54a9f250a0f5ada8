(** Programs that replace the hanja of a CP949 stream. *)
From Coq Require Import ZArith List Bool Lia.
From Verif Require Import Base Spec SpecIO SpecCp949 SpecInPlace SpecFilter Cp949Model StreamModel Cp949Facts2 TableFacts PMapFacts StreamFacts3 FilterFacts.
Import ListNotations.
Local Open Scope Z_scope.
Local Open Scope list_scope.

(** * C189 Filters that replace hanja
    False of pieces as Read returns them: the end of a piece can fall inside of a character, and
    Convert then yields replacement characters. *)
Theorem C189_refuted : exists grow stream sizes out, (exists rs, encodes rs stream) /\ delivers bytes_rd stream stream EOF /\
  filter_reads grow (list Z) bytes_rd 10 stream sizes = Ok out /\ ~ hanja_replaced stream out.
Proof. exact (ex_intro _ dbl reads_filter_refuted). Qed.
Print Assumptions C189_refuted.
(** True character by character. *)
Theorem C189_runes_partial : forall grow (RS : Type) (rd : RS -> Z -> list Z * option error * RS) s stream e fuel fuel',
  delivers rd s stream e -> (exists rs, encodes rs stream) -> (length stream + 4 <= fuel)%nat -> (2 * length stream + 2 < fuel')%nat ->
  exists out, filter_runes grow RS rd fuel fuel' s = Ok (match e with EOF => None | _ => Some e end, out) /\ hanja_replaced stream out.
Proof. exact runes_filter. Qed.
Print Assumptions C189_runes_partial.

(** True line by line, for lines that are ended by newlines only and fit the buffer of the Scanner. *)
Theorem C189_lines_partial : forall grow (RS : Type) (rd : RS -> Z -> list Z * option error * RS) s stream e ls fuel fuel',
  delivers rd s stream e -> encodes (flat_map (fun l => l ++ [10]) ls) stream ->
  Forall (fun l => ~ In 10 l /\ ~ In 13 l /\ zlen (utf8 l) < 65536) ls -> (length stream + 4 <= fuel)%nat -> (2 * length stream + 2 < fuel')%nat ->
  exists out, filter_lines grow RS rd fuel fuel' s = Ok (match e with EOF => None | _ => Some e end, out) /\ hanja_replaced stream out.
Proof. exact lines_filter. Qed.
Print Assumptions C189_lines_partial.

(** The letter A and a hanja, by characters and in pieces of two bytes. *)
Example C189_case : delivers bytes_rd [0x41; 0xD3; 0xDE] [0x41; 0xD3; 0xDE] EOF /\
  encodes [0x41; 0x5927] [0x41; 0xD3; 0xDE] /\
  filter_runes dbl (list Z) bytes_rd 7 9 [0x41; 0xD3; 0xDE] = Ok (None, [0x41; 0xB4; 0xEB]) /\
  filter_reads dbl (list Z) bytes_rd 10 [0xD3; 0xDE] [2; 2] = Ok (repeat 0x3F 6).
Proof.
  split; [apply bytes_rd_delivers|]. split.
  - apply enc_ascii; [lia|]. apply (enc_code 0xD3DE 0x5927 [] []); [apply assigned_by; vm_compute; reflexivity|constructor].
  - split; vm_compute; reflexivity.
Qed.
(** The same in a line, and an empty line. *)
Example C189_lines_case : delivers bytes_rd [0x41; 0xD3; 0xDE; 10; 10] [0x41; 0xD3; 0xDE; 10; 10] EOF /\
  encodes (flat_map (fun l => l ++ [10]) [[0x41; 0x5927]; []]) [0x41; 0xD3; 0xDE; 10; 10] /\
  Forall (fun l => ~ In 10 l /\ ~ In 13 l /\ zlen (utf8 l) < 65536) [[0x41; 0x5927]; []] /\
  filter_lines dbl (list Z) bytes_rd 9 13 [0x41; 0xD3; 0xDE; 10; 10] = Ok (None, [0x41; 0xB4; 0xEB; 10; 10]).
Proof.
  split; [apply bytes_rd_delivers|]. split.
  - cbn [flat_map app]. apply enc_ascii; [lia|]. apply (enc_code 0xD3DE 0x5927 [10; 10] [10; 10]); [apply assigned_by; vm_compute; reflexivity|].
    apply enc_ascii; [lia|]. apply enc_ascii; [lia|constructor].
  - split; [|vm_compute; reflexivity]. constructor; [|constructor; [|constructor]]; (split; [cbn; lia|split; [cbn; lia|vm_compute; reflexivity]]).
Qed.
