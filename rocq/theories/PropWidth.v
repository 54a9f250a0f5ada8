(** Fields of a given width in encoded records. *)
From Coq Require Import ZArith List Bool Lia PeanoNat.
From Verif Require Import Base Spec SpecCp949 SpecField SpecEnds Cp949Model Cp949Facts2 TableFacts PMapFacts WidthFacts.
Import ListNotations.
Local Open Scope Z_scope.
Local Open Scope list_scope.

(** * C176 Fields of a given width *)
Theorem C176_cut : forall grow rs x n, encodes rs x -> exists rs1, is_prefix rs1 rs /\ columns rs1 <= Z.of_nat n /\
  (forall rs2, is_prefix rs2 rs -> columns rs2 <= Z.of_nat n -> is_prefix rs2 rs1) /\
  To grow (utf8 rs1) = Ok (inl (firstn (if Nat.even (high_end (firstn n x)) then n else n - 1) x)).
Proof. exact cut_width. Qed.
Print Assumptions C176_cut.
Theorem C176_pad : forall grow rs x w, encodes rs x -> columns rs <= w ->
  let k := Z.to_nat (w - columns rs) in
  To grow (utf8 (rs ++ repeat 0x20 k)) = Ok (inl (x ++ repeat 0x20 k)) /\ zlen (x ++ repeat 0x20 k) = w /\
  From grow (x ++ repeat 0x20 k) = Ok (inl (utf8 (rs ++ repeat 0x20 k))).
Proof. exact pad_field. Qed.
Print Assumptions C176_pad.
Theorem C176_take : forall grow a f b x, encodes (a ++ f ++ b) x ->
  From grow (ztake (columns f) (zdrop (columns a) x)) = Ok (inl (utf8 f)).
Proof. exact take_field. Qed.
Print Assumptions C176_take.
(* a letter and two syllables, cut to four columns: the second syllable does not fit *)
Example C176_case : encodes [0x41; 0xAC00; 0xAC02] [0x41; 0xB0; 0xA1; 0x81; 0x41] /\
  columns [0x41; 0xAC00; 0xAC02] = 5 /\ firstn 4 [0x41; 0xB0; 0xA1; 0x81; 0x41] = [0x41; 0xB0; 0xA1; 0x81] /\
  high_end [0x41; 0xB0; 0xA1; 0x81] = 3%nat /\ columns [0x41; 0xAC00] = 3 /\ To wgrow (utf8 [0x41; 0xAC00]) = Ok (inl [0x41; 0xB0; 0xA1]).
Proof.
  split.
  { apply enc_ascii; [lia|]. apply (enc_code 0xB0A1 0xAC00 [0xAC02] [0x81; 0x41]); [apply assigned_by; vm_compute; reflexivity|].
    apply (enc_code 0x8141 0xAC02 [] []); [apply assigned_by; vm_compute; reflexivity|constructor]. }
  do 4 (split; [reflexivity|]). vm_compute. reflexivity.
Qed.
