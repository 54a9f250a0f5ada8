(** Vocabulary for Readers of several goroutines on top of one reader that hands out messages,
    as a datagram socket or a channel does. *)
From Coq Require Import String ZArith List Bool.
From Verif Require Import Base Spec Cp949Model GoLang SpecThreads SpecCells SpecAgents SpecCrew.
Import ListNotations.
Local Open Scope Z_scope.
Local Open Scope list_scope.

(** The messages that have not been received, each with the text that it stands for; after the
    last one there is the error [e].  What does not fit the buffer is lost. *)
Definition messages : Type := list (list Z * list Z).
Definition message_rd (e : error) (_ : nat) (q : messages) (n : Z) : Z * list Z * option error * messages :=
  match q with
  | [] => (0, [], Some e, [])
  | m :: q => (zlen (ztake n (fst m)), ztake n (fst m), None, q)
  end.

(** r, _ := NewReader(reader k); for each slice v: n, err := r.Read(v), and look at v[:n] *)
Fixpoint read_all (vs : list val) : code :=
  match vs with
  | [] => Stop
  | v :: vs =>
    Act (CallOp Cp949 "cp949Reader.Read" [Prev 0 0; Const v]) (fun w =>
      match v, w with
      | VSlice l o n c, VTuple [VInt k; _] =>
        if (0 <=? k) && (k <=? n) then Act (PeekOp (Const (VSlice l o k c))) (fun _ => read_all vs) else Stop
      | _, _ => Stop
      end)
  end.
Definition reading (k : nat) (vs : list val) : code :=
  Act (CallOp Cp949 "NewReader" [Const (VExt k)]) (fun _ => read_all vs).
Definition len_of (v : val) : Z := match v with VSlice _ _ n _ => n | _ => 0 end.

(** What the Reads should return, if the calls [es] of the underlying reader are made: what is
    left of the message received last, if anything is; else, if the end has been seen, the
    error; else the next message. *)
Fixpoint read_results (e : error) (left : list Z) (ended : bool) (sizes : list Z) (es : list (entry messages)) : list (list Z * option error) :=
  match sizes with
  | [] => []
  | k :: sizes =>
    match left with
    | _ :: _ => (ztake k left, None) :: read_results e (zdrop k left) ended sizes es
    | [] =>
      if ended then ([], Some e) :: read_results e [] true sizes es
      else match es with
      | [] => []
      | call :: es =>
        match n_at call with
        | [] => ([], Some e) :: read_results e [] true sizes es
        | m :: _ => (ztake k (utf8 (snd m)), None) :: read_results e (zdrop k (utf8 (snd m))) false sizes es
        end
      end
    end
  end.
(** The messages received by the calls [es]. *)
Definition received (es : list (entry messages)) : messages :=
  flat_map (fun call => match n_ask call, n_at call with AskRead _ _, m :: _ => [m] | _, _ => [] end) es.
(** What a goroutine sees of a Read: the number of bytes, the error, and the bytes. *)
Definition seen_read (r : list Z * option error) : list val := [VTuple [VInt (zlen (fst r)); VErr (snd r)]; VStr (fst r)].
(** Goroutines, each with the parts of the memory it may write, the number of the reader, and
    the slices it reads into. *)
Definition reader_crew (gs : list (list (nat * (Z * Z)) * (nat * list val))) : list (worker unit * code) :=
  map (fun g => (mkWorker [] (fst g) [] tt, reading (fst (snd g)) (snd (snd g)))) gs.

(** A reader that hands out the bytes [s] and then reports [e]; its state is the number of bytes
    handed out.  A call gets at least one byte and not more than there is room for; otherwise
    [give] decides.  If [early], the error comes with the last byte.  (An empty buffer ends the
    stream; this never happens, see the theorem.) *)
Definition stream_rd (s : list Z) (e : error) (give : nat -> Z -> Z) (early : bool) (_ : nat) (pos : nat) (n : Z) : Z * list Z * option error * nat :=
  match skipn pos s with
  | [] => (0, [], Some e, length s)
  | more =>
    if n <=? 0 then (0, [], Some e, length s)
    else let bs := ztake (Z.max 1 (Z.min n (give pos n))) more in
      (zlen bs, bs, if early && (zlen more <=? zlen bs) then Some e else None, (pos + length bs)%nat)
  end.
(** It is not a writer: to write to it ends the stream; this never happens either. *)
Definition stream_wr (s : list Z) (_ : nat) (_ : nat) (_ : list Z) : Z * option error * nat := (0, None, length s).
(** The bytes received by the calls [es]. *)
Definition bytes_of (s : list Z) (e : error) (give : nat -> Z -> Z) (early : bool) (es : list (entry nat)) : list Z :=
  flat_map (fun call => match n_ask call with AskRead i n => snd (fst (fst (stream_rd s e give early i (n_at call) n))) | AskWrite _ _ => [] end) es.
