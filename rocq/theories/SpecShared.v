(** Vocabulary for goroutines that share a Decoder, an Encoder or a Writer. *)
From Coq Require Import String ZArith List Bool.
From Verif Require Import Base Spec SpecCp949 SpecIO Cp949Model GoLang GoSource GoThreads SourceSpec SpecThreads.
Import ListNotations.
Local Open Scope Z_scope.
Local Open Scope list_scope.

(** ** One Writer, two goroutines *)
(** A stream given by the bytes written so far. *)
Definition log_rd (_ : nat) (x : list Z) (_ : Z) : Z * list Z * option error * list Z := (0, [], Some EOF, x).
Definition log_wr (_ : nat) (x : list Z) (bs : list Z) : Z * option error * list Z := (zlen bs, None, x ++ bs).
(** Buffers: number 0 holds "AB", number 1 "C" and number 2 "D". *)
Definition writer_memory : list (list Z) := ([] :: map snd m_multiElements) ++ [[0x41; 0x42]; [0x43]; [0x44]].
(** w, _ := NewWriter(stream); w.Write(buffer 0) *)
Definition open_and_write : list op :=
  [CallOp Cp949 "NewWriter" [Const (VExt 0)]; CallOp Cp949 "cp949Writer.Write" [Prev 0 0; Const (VSlice (buffer 0) 0 2 2)]].
(** w.Write(buffer i), where w is at [p] *)
Definition write_from (p i : nat) : op := CallOp Cp949 "cp949Writer.Write" [Const (VPtr p); Const (VSlice (buffer i) 0 1 1)].
Definition two_writers {E} (p : nat) (x : E) : list (thread E) :=
  [mkThread [write_from p 1] [] [] x; mkThread [write_from p 2] [] [] x].

(** ** Calls of Transform *)
Record job (E : Type) : Type := mkJob {
  j_decoder : bool;      (* of a Decoder or of an Encoder *)
  j_receiver : nat;
  j_dst : val; j_old : list Z;   (* where to write, and what is there before *)
  j_src : val; j_data : list Z;  (* what to convert *)
  j_eof : bool;
  j_ext : E
}.
Arguments mkJob {E}. Arguments j_decoder {E}. Arguments j_receiver {E}. Arguments j_dst {E}. Arguments j_old {E}.
Arguments j_src {E}. Arguments j_data {E}. Arguments j_eof {E}. Arguments j_ext {E}.
Definition array_of (v : val) : nat := match v with VSlice l _ _ _ => l | _ => O end.
(** A goroutine that makes this call. *)
Definition transforming {E} (j : job E) : thread E :=
  mkThread [CallOp Cp949 (if j_decoder j then "cp949Decoder.Transform" else "cp949Encoder.Transform")
              (map Const [VPtr (j_receiver j); j_dst j; j_src j; VBool (j_eof j)])] [array_of (j_dst j)] [] (j_ext j).
(** The receiver has no fields; [j_old] and [j_data] are what the slices hold, and the slice to write
    is not one of the package's own. *)
Definition job_ok {E} (A : list (list Z)) O (j : job E) : Prop :=
  fieldless O (j_receiver j) /\ slice_holds A (j_dst j) (j_old j) /\ (length m_multiElements < array_of (j_dst j))%nat /\
  slice_holds A (j_src j) (j_data j) /\ Forall is_byte (j_data j).
(** What a call of Transform does when nobody else is around (C56): the results and what the slice
    holds afterwards; [f] gives the code of each character. *)
Definition job_done {E} (f : Z -> list Z) (j : job E) (nDst nSrc : Z) (err : option error) (new : list Z) : Prop :=
  (nSrc = zlen (j_data j) /\ err = None /\
   exists rs, (if j_decoder j then decodes (j_data j) rs else reads_as (j_data j) rs) /\
     let out := if j_decoder j then utf8 rs else flat_map f rs in
     nDst = zlen out /\ (zlen out <= zlen (j_old j) -> new = out ++ zdrop (zlen out) (j_old j)) /\ (zlen (j_old j) < zlen out -> is_prefix new out)) \/
  (j_decoder j = true /\ truncated (j_data j) /\ nDst = 0 /\ nSrc = 0 /\ err = Some ErrCP949UnexpectedStream /\ new = j_old j).
(** The array of the slice is as before outside of the slice. *)
Definition outside_same (A A' : list (list Z)) (v : val) : Prop :=
  match v with
  | VSlice l o n _ => ztake o (array A' l) = ztake o (array A l) /\ zdrop (o + n) (array A' l) = zdrop (o + n) (array A l)
  | _ => False
  end.
