(** Property C150: transform.Chain of Decoders and Encoders (ChainModel.v). *)
From Coq Require Import ZArith List Bool Lia.
From Verif Require Import Base Spec SpecCp949 Cp949Model SourceSpec TransformModel SpecChain ChainModel ChainFacts.
Import ListNotations.
Local Open Scope Z_scope.

(** * C150 Chains of Decoders and Encoders
    False: the text between two of them must fit into 4096 bytes. *)
Theorem C150_refuted : exists src out,
  From dbl src = Ok (inl out) /\ To dbl out = Ok (inl src) /\ zlen src = 2732 /\
  forall fuel, (2 < fuel)%nat -> chain_Transform [dec_Transform dbl; enc_Transform dbl] fuel (Chain 2) (zeros 4096) src true = Panic.
Proof. exact chain_refuted. Qed.
Print Assumptions C150_refuted.
(** The outcome of every sequence of calls on every chain. *)
Theorem C150_chain_partial : exists f, char_code f /\
  forall grow cs calls fuel, cs <> [] -> (length cs < fuel)%nat -> Forall (fun x => Forall is_byte (snd (fst x))) calls ->
  exists outs, Forall2 (fun x o => chained f 4096 cs (snd (fst x)) o) calls outs /\
    (In TooLong outs -> chain_calls (map (fun c => match c with Dec => dec_Transform grow | Enc => enc_Transform grow end) cs) fuel (Chain (length cs)) calls = Panic) /\
    (~ In TooLong outs -> exists rs, chain_calls (map (fun c => match c with Dec => dec_Transform grow | Enc => enc_Transform grow end) cs) fuel (Chain (length cs)) calls = Ok rs /\
       Forall2 (fun x z => call_result (fst (fst x)) (snd (fst x)) ErrCP949UnexpectedStream (fst z) (snd z)) calls (combine outs rs)).
Proof. exact chain_lemma. Qed.
Print Assumptions C150_chain_partial.
(* a text, a text that is cut, and the text again; the third Transformer decodes what the
   second one decoded *)
Example C150_case :
  chain_calls [dec_Transform dbl; enc_Transform dbl] 3 (Chain 2)
    [([7; 7; 7; 7], [0xB0; 0xA1; 0x41], false); ([7; 7], [0xB0; 0xA1; 0xB0], true); ([7; 7], [0xB0; 0xA1; 0x41], true)] =
  Ok [([0xB0; 0xA1; 0x41; 7], 3, 3, None); ([7; 7], 0, 0, Some ErrCP949UnexpectedStream); ([0xB0; 0xA1], 3, 3, None)] /\
  chain_calls [enc_Transform dbl; dec_Transform dbl; dec_Transform dbl] 4 (Chain 3)
    [([7], [0xEA; 0xB0; 0x80], true); ([7], [0x41], true)] =
  Ok [([7], 0, 3, Some ErrCP949UnexpectedStream); ([0x41], 1, 1, None)].
Proof. vm_compute. split; reflexivity. Qed.
