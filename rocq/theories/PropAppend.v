(** Decoders and Encoders given to transform.Append. *)
From Coq Require Import ZArith List Bool Lia.
From Verif Require Import Base Spec SpecCp949 SpecAppend Cp949Model Cp949Facts2 TableFacts PMapFacts TransformModel AppendModel AppendFacts.
Import ListNotations.
Local Open Scope Z_scope.
Local Open Scope list_scope.

(** * C178 transform.Append
    False of both: a Decoder panics with an empty destination, and an Encoder with one that has
    some room, but not enough. *)
Theorem C178_Decoder_refuted : exists dst src text, 0 <= slen dst <= scap dst /\ Forall is_syllable text /\
  forall grow fuel, To grow (utf8 text) = Ok (inl src) /\ From grow src = Ok (inl (utf8 text)) /\
    Append (dec_Transform grow) (S fuel) dst src = Panic.
Proof. exact append_refuted_dec. Qed.
Print Assumptions C178_Decoder_refuted.
Theorem C178_Encoder_refuted : exists dst src, 0 <= slen dst <= scap dst /\ Forall (fun b => 0 <= b < 0x80) src /\
  forall grow fuel, To grow src = Ok (inl src) /\ Append (enc_Transform grow) (S fuel) dst src = Panic.
Proof. exact append_refuted_enc. Qed.
Print Assumptions C178_Encoder_refuted.
(** The outcome for every destination and source. *)
Theorem C178_Decoder_partial : forall grow fuel dst src, 0 <= slen dst <= scap dst -> Forall is_byte src ->
  exists r, From grow src = Ok r /\
  (forall e, r = inr e -> exists s, Append (dec_Transform grow) (S fuel) dst src = Ok (s, 0, Some e, arr dst) /\ contents s = contents dst) /\
  (forall out, r = inl out ->
    (zlen out <= room dst src -> exists s mem, Append (dec_Transform grow) (S fuel) dst src = Ok (s, zlen src, None, mem) /\
       contents s = contents dst ++ out /\ (slen dst = scap dst -> mem = arr dst) /\
       (slen dst < scap dst -> arr s = mem /\ mem = contents dst ++ out ++ zdrop (slen dst + zlen out) (arr dst))) /\
    (room dst src < zlen out -> Append (dec_Transform grow) (S fuel) dst src = Panic)).
Proof. exact append_dec. Qed.
Print Assumptions C178_Decoder_partial.
Theorem C178_Encoder_partial : forall grow fuel dst src, 0 <= slen dst <= scap dst -> Forall is_byte src ->
  exists out, To grow src = Ok (inl out) /\
  (zlen out <= room dst src \/ valid_utf8 src /\ slen dst = scap dst ->
     exists s mem, Append (enc_Transform grow) (S fuel) dst src = Ok (s, zlen src, None, mem) /\
       contents s = contents dst ++ out /\ (slen dst = scap dst -> mem = arr dst) /\
       (slen dst < scap dst -> arr s = mem /\ mem = contents dst ++ out ++ zdrop (slen dst + zlen out) (arr dst))) /\
  (room dst src < zlen out -> Append (enc_Transform grow) (S fuel) dst src = Panic).
Proof. exact append_enc. Qed.
Print Assumptions C178_Encoder_partial.
(* a destination that holds an A and has room for four bytes *)
Example C178_case : Append (dec_Transform wgrow) 1 (mkSlice [0x41; 1; 2; 3; 4] 1) [0xB0; 0xA1] =
    Ok (mkSlice [0x41; 0xEA; 0xB0; 0x80; 4] 4, 2, None, [0x41; 0xEA; 0xB0; 0x80; 4]) /\
  Append (dec_Transform wgrow) 1 (mkSlice [0x41] 1) [0xB0] = Ok (mkSlice [0x41; 0] 1, 0, Some ErrCP949UnexpectedStream, [0x41]) /\
  Append (enc_Transform wgrow) 1 (mkSlice [0x41] 1) (utf8 [0xAC00]) = Ok (mkSlice [0x41; 0xB0; 0xA1; 0] 3, 3, None, [0x41]).
Proof. split; [vm_compute; reflexivity|]. split; vm_compute; reflexivity. Qed.
