(** Properties C104 and C105: wrapped readers that report wrong counts, and wrapped writers that take
    only a part of what they are given. *)
From Coq Require Import ZArith List Bool.
From Verif Require Import Base Spec Utf8 SpecCp949 SpecIO SpecWrong Cp949Model StreamModel StreamModel3 WrongFacts.
Import ListNotations.
Local Open Scope Z_scope.

Definition double (old need : Z) : Z := Z.max need (2 * old).

(** * C104 Impossible counts are caught
    False: a negative count takes back bytes that are not converted yet.  Here the stream has
    the bytes 41 B0 A1, the wrapped reader reports -1 in between, and 가 is lost silently. *)
Theorem C104_refuted : exists (rd : nat -> Z -> Z * list Z * option error * nat) s r,
  read_seq3 double _ (counted rd) 9 (NewReader (s, [])) [16; 16; 16] = Ok ([0x41], Some EOF, r) /\
  map snd (snd (r_src _ r)) = [2; -1; 1; 0].
Proof. exact C104_refuted_lemma. Qed.
Print Assumptions C104_refuted.
(** When Reads return, no count was larger than the buffer, and no negative one took back
    more than was delivered before. *)
Theorem C104_counts_partial : forall grow (RS : Type) (rd : RS -> Z -> Z * list Z * option error * RS) s fuel sizes out err r,
  read_seq3 grow _ (counted rd) fuel (NewReader (s, [])) sizes = Ok (out, err, r) ->
  forall before k n after, snd (r_src _ r) = before ++ (k, n) :: after -> n <= k /\ 0 <= total before + n.
Proof. exact C104_lemma. Qed.
Print Assumptions C104_counts_partial.
(** On the first Read every impossible count is caught. *)
Theorem C104_first_partial : forall grow (RS : Type) (rd : RS -> Z -> Z * list Z * option error * RS) s k fuel, 0 < k ->
  (let '(n, _, _, _) := rd s k in n < 0 \/ k < n) ->
  Read3 grow _ rd (S fuel) (NewReader s) k = Panic.
Proof. exact C104_first_lemma. Qed.
Print Assumptions C104_first_partial.
(* a count of 17 for a buffer of 16 bytes; a run in which all is well *)
Example C104_case :
  Read3 double _ (fun s k => (k + 1, repeat 0x41 17, None, s)) 9 (NewReader tt) 16 = Panic /\
  exists r, read_seq3 double _ (counted (fun s k => (1, [0x41], None, s))) 9 (NewReader (tt, [])) [4; 4] =
    Ok ([0x41; 0x41], None, r) /\ snd (r_src _ r) = [(4, 1); (4, 1)].
Proof. split; [vm_compute; reflexivity|]. eexists. vm_compute. split; reflexivity. Qed.

(** * C105 The result of Write says what was written
    False in two ways: the count returned with an error is 0 although a part was taken, and a
    short write without an error is not noticed. *)
Theorem C105_count_refuted : exists wr e w, honest_writer (fun s => s) wr /\
  write_all double _ (uncounted wr) (NewWriter []) [utf8 [0x41; 0xAC00; 0x42]] = Ok ([(0, Some e)], w) /\
  w_dst _ w = [0x41; 0xB0; 0xA1].
Proof. exact C105_count_lemma. Qed.
Print Assumptions C105_count_refuted.
Theorem C105_short_refuted : exists (wr : list Z -> list Z -> Z * option error * list Z) w,
  fst (fst (wr [] [0xB0; 0xA1])) = 1 /\
  write_all double _ (uncounted wr) (NewWriter []) [utf8 [0xAC00]] = Ok ([(3, None)], w) /\ w_dst _ w = [0xB0].
Proof. exact C105_short_lemma. Qed.
Print Assumptions C105_short_refuted.
(** Over a writer that keeps the contract of io.Writer: a Write without an error was written
    completely, of the others the wrapped writer took some prefix. *)
Theorem C105_honest_partial : forall grow (WS : Type) (wr : WS -> list Z -> Z * option error * WS) taken s chunks,
  honest_writer taken wr -> Forall (Forall is_byte) chunks ->
  exists rows w, map w_data rows = chunks /\
    write_all grow WS (uncounted wr) (NewWriter s) chunks = Ok (map (fun x => (w_count x, w_error x)) rows, w) /\
    taken (w_dst _ w) = taken s ++ concat (map w_got rows) /\
    Forall (fun x => To grow (w_data x) = Ok (inl (w_enc x)) /\
      match w_error x with
      | None => w_count x = zlen (w_data x) /\ w_got x = w_enc x
      | Some _ => w_count x = 0 /\ is_prefix (w_got x) (w_enc x)
      end) rows.
Proof. exact C105_lemma. Qed.
Print Assumptions C105_honest_partial.
(* a disk with room for five bytes *)
Example C105_case : honest_writer (fun s => s) (disk_wr 5) /\
  exists w, write_all double _ (uncounted (disk_wr 5)) (NewWriter []) [utf8 [0xAC00]; utf8 [0x41; 0xAC00; 0x42]; utf8 [0x43]] =
    Ok ([(3, None); (0, Some (ErrOther 28)); (0, Some (ErrOther 28))], w) /\ w_dst _ w = [0xB0; 0xA1; 0x41; 0xB0; 0xA1].
Proof. split; [apply disk_wr_honest|]. eexists. vm_compute. split; reflexivity. Qed.
