(** GoStream.v again for the program compiled for machines with ints of limited width
    (GoPlatform.v): as long as the sizes stay below the limit, NewReader, Read, NewWriter, Write
    and the Transform methods do what StreamModel.v and TransformModel.v say. *)
From Coq Require Import String ZArith List Bool Lia.
From Verif Require Import Base Utf8 SortSearch TableFrom TableTo Cp949Model GoLang GoSource GoPlatform GoFacts GoHeap GoCp949 GoStream GoCp949W StreamModel StreamModel3 TransformModel Facts Utf8Facts SliceFacts SpecCp949 TableFacts Cp949Facts StreamFacts.
Import ListNotations.
Local Open Scope string_scope.
Local Open Scope list_scope.
Local Open Scope Z_scope.
Local Open Scope go_scope.
Local Opaque fromTable toTable.
Local Arguments Z.add : simpl never.
Local Arguments Z.sub : simpl never.
Local Arguments Z.leb : simpl never.
Local Arguments Z.ltb : simpl never.
Local Arguments Z.geb : simpl never.
Local Arguments Z.gtb : simpl never.
Local Arguments Z.eqb : simpl never.
Local Arguments Z.lor : simpl never.
Local Arguments Z.land : simpl never.
Local Arguments Z.shiftl : simpl never.
Local Arguments Z.shiftr : simpl never.
Local Arguments to_u16 : simpl never.
Local Arguments to_u8 : simpl never.
Local Arguments Search : simpl never.
Local Arguments DecodeRune : simpl never.
Local Arguments run : simpl never.
Local Arguments compiled : simpl never.
Local Arguments zwrite : simpl never.
Local Arguments go_div : simpl never.
Local Arguments append_to : simpl never.
Local Arguments slice_of : simpl never.
Local Arguments index_of : simpl never.
Local Arguments copy_to : simpl never.
Local Arguments field_of : simpl never.
Local Arguments set_field : simpl never.
Local Arguments store : simpl never.
Local Arguments scap : simpl never.
Local Arguments go_append : simpl never.
Local Arguments cells : simpl never.

Section Run.
Variable grow : Z -> Z -> Z.
Variable E : Type.
Variable rd : nat -> E -> Z -> Z * list Z * option error * E.
Variable wr : nat -> E -> list Z -> Z * option error * E.
Notation run w := (GoLang.run grow E rd wr (compiled w prog_cp949)).
Notation state := (state E).
Notation mk := (mkState E).
Notation grows := (grows grow).
Notation ref_grows := (ref_grows grow).
Notation changes := (changes grow).
Notation spend2 := (spend2 grow).
Notation changes_sep := (changes_sep grow).
Notation exec w n := (exec grow E rd wr (run w n) n).
Notation eval w n := (eval grow E rd wr (run w n) n).
Notation trs := (trs E).
Notation run_S := (run_S grow E rd wr).
Notation reader := (reader E).
Local Arguments ztake : simpl never.
Local Arguments zdrop : simpl never.

(** * The reader *)

(* the number of the wrapped reader or writer *)
Variable kx : nat.
Notation rob := (rob kx).
Notation rst := (rst E kx).
Notation is_reader := (is_reader E kx).
Notation wob := (wob kx).
Notation wst := (wst E kx).
Notation is_writer := (is_writer E kx).
Notation wr_model := (wr_model E wr kx).
Notation same_objs := (same_objs E).
Notation rinv := (rinv E).
Notation sep_sym := (sep_sym E rd wr).
Notation nil_rinv := (nil_rinv E).
Notation rnth := (rnth E kx).
Notation rnth_tr := (rnth_tr E kx).
Notation rf_r := (rf_r E kx).
Notation rf_tr := (rf_tr E kx).
Notation rf_cdata := (rf_cdata E kx).
Notation rf_rdata := (rf_rdata E kx).
Notation rf_err := (rf_err E kx).
Notation rset := (rset E kx).
Notation rs_cdata := (rs_cdata E kx).
Notation rs_rdata := (rs_rdata E kx).
Notation rs_err := (rs_err E kx).
Notation wnth := (wnth E kx).
Notation wf_w := (wf_w E kx).
Notation wf_tr := (wf_tr E kx).
Notation wf_buf := (wf_buf E kx).
Notation ws_buf := (ws_buf E kx).

(* public.go:67-74 *)
Definition fill_stmts (w : ity) : list stmt :=
  [Assign [LField (Var "r") "rdata"] (Call "ensureCap" [(Field (Var "r") "rdata"); (Arith Add w (Len (Field (Var "r") "rdata")) (Len (Var "buf")))]);
  Define ["n"; "err"] (Method (Field (Var "r") "r") "Read" [(Slice (Field (Var "r") "rdata") (Len (Field (Var "r") "rdata")) (Cap (Field (Var "r") "rdata")))]);
  If (And (Cmp Eq (Var "n") (Lit 0)) (Cmp Eq (Var "err") NilErr))
  (Block [Assign [LVar "err"] (ErrLit EOF)])
  (Block []);
  Assign [LField (Var "r") "rdata"] (Slice (Field (Var "r") "rdata") (Lit 0) (Arith Add w (Len (Field (Var "r") "rdata")) (Var "n")));
  Assign [LField (Var "r") "err"] (Var "err")].
(* public.go:60-92 *)
Definition read_body (w : ity) : stmt :=
  Block (If (Cmp Gt (Len (Field (Var "r") "cdata")) (Lit 0))
  (Block [Define ["n"] (CopyE (Var "buf") (Field (Var "r") "cdata"));
  Assign [LField (Var "r") "cdata"] (SliceFrom (Field (Var "r") "cdata") (Var "n"));
  Return [(Var "n"); NilErr]])
  (Block []) ::
  If (Cmp Eq (Field (Var "r") "err") NilErr)
  (Block (fill_stmts w))
  (Block [If (Cmp Eq (Len (Field (Var "r") "rdata")) (Lit 0))
  (Block [Break])
  (Block [])]) :: conv_stmts).
Lemma read_is w : f_body (func_as w f_cp949Reader_Read) = Block [While (LitB true) (read_body w); Return [(Lit 0); (Field (Var "r") "err")]].
Proof. reflexivity. Qed.

(** The wrapped reader delivers bytes. *)
Hypothesis Hrdb : forall x k, Forall is_byte (snd (fst (fst (rd kx x k)))).

(** [budget x d]: from the state [x] on the wrapped reader counts at most [d] bytes, as long as
    it reports no error and is asked for [minb] bytes or more. *)
Variable budget : E -> Z -> Prop.
Variable minb : Z.
Hypothesis Hbud : forall x d k, budget x d -> minb <= k ->
  let '(n, _, err, x') := rd kx x k in n <= d /\ (err = None -> n <> 0 -> budget x' (d - n)).
(** What [r] holds and what it may still get add up to [D] bytes at most. *)
Definition within (r : reader) (D : Z) : Prop :=
  slen (r_rdata _ r) <= D /\ (r_err _ r = None -> exists d, budget (r_src _ r) d /\ slen (r_rdata _ r) + d <= D).

Lemma go_fill O pr pt cd sc lb ob nb cb A X lr sl scr lo hi r1 : (pr < length O)%nat -> (pt < length O)%nat -> pr <> pt ->
  ref A lr sl ->
  fill3 E (rd kx) (mkReader E X scr lo hi sl None) nb = Ok r1 ->
  exists A1 lr1, ref A1 lr1 (r_rdata _ r1) /\ grows A lr A1 lr1 /\
  r_scratch _ r1 = scr /\ r_cdata_lo _ r1 = lo /\ r_cdata_hi _ r1 = hi /\
  (Forall is_byte (arr sl) -> Forall is_byte (arr (r_rdata _ r1))) /\
  (forall D, within (mkReader E X scr lo hi sl None) D -> minb <= nb -> within r1 D) /\
  exists N, forall w b n, wide w b -> 0 <= nb -> 5 * (slen sl + nb) + 8192 <= 4 * b -> slen (r_rdata _ r1) <= b -> (N <= n)%nat ->
  exec w n (Block (fill_stmts w)) [("r", VPtr pr); ("buf", VSlice lb ob nb cb)] (rst A O X pr pt cd (sv lr sl) None sc) =
  Ok (Next, [("r", VPtr pr); ("buf", VSlice lb ob nb cb)],
      rst A1 O (r_src _ r1) pr pt cd (sv lr1 (r_rdata _ r1)) (r_err _ r1) sc).
Proof.
  intros Hpr Hpt Hne Hr H. unfold fill3 in H. cbn [r_rdata r_src r_scratch r_cdata_lo r_cdata_hi r_err] in H.
  destruct (ensureCap sl (slen sl + nb)) as [b| |] eqn:Hb; try discriminate. cbn [bind] in H.
  destruct (rd kx X (scap b - slen b)) as [[[k stored] e] X1] eqn:Hrd.
  destruct (go_ensureCap grow E rd wr A (set_nth pt (tr "translateFromCp949" fromTable sc) (set_nth pr (rob pt cd (sv lr sl) None) O)) X lr sl _ b Hr Hb)
    as (A1 & l1 & Hr1 & Hg1 & Hrun).
  pose proof Hr1 as (Hl1 & Ha1 & Hok1). unfold slice_ok in Hok1.
  remember (ztake (scap b - slen b) stored) as bs eqn:Hbs.
  assert (Hbl : zlen bs <= scap b - slen b) by (subst bs; rewrite zlen_ztake by lia; lia).
  pose proof (zlen_nonneg bs) as Hb0.
  assert (Hz : zlen (zwrite (arr b) (slen b) bs) = zlen (arr b)) by (apply zlen_zwrite; unfold scap in *; lia).
  unfold reslice in H. change (scap (mkSlice (zwrite (arr b) (slen b) bs) (slen b))) with (zlen (zwrite (arr b) (slen b) bs)) in H.
  rewrite Hz in H. change (zlen (arr b)) with (scap b) in H.
  destruct ((0 <=? slen b + k) && (slen b + k <=? scap b)) eqn:Hfit; [|discriminate].
  cbn [bind arr] in H. injection H as <-.
  cbn [r_rdata r_src r_scratch r_cdata_lo r_cdata_hi r_err].
  assert (Hr2 : ref (set_nth l1 (zwrite (arr b) (slen b) bs) A1) l1 (mkSlice (zwrite (arr b) (slen b) bs) (slen b + k))).
  { split; [rewrite set_nth_len; lia|]. split; [now apply cell_set|].
    unfold slice_ok, scap in *. cbn [arr slen] in *. lia. }
  assert (Hcap : scap (mkSlice (zwrite (arr b) (slen b) bs) (slen b + k)) = scap b) by exact Hz.
  rewrite Hcap. cbn [slen].
  exists (set_nth l1 (zwrite (arr b) (slen b) bs) A1), l1. split; [assumption|]. split.
  { eapply grows_trans; [apply Hr|exact Hg1|]. apply grows_write; [|assumption]. rewrite Ha1. now apply length_zlen. }
  split; [reflexivity|]. split; [reflexivity|]. split; [reflexivity|]. split.
  { intros Hby. cbn [arr]. apply Forall_zwrite; [eapply ensureCap_bytes; eassumption|].
    subst bs. apply Forall_ztake. specialize (Hrdb X (scap b - slen b)). now rewrite Hrd in Hrdb. }
  assert (Hsb : slen b = slen sl /\ slen sl + nb <= scap b).
  { destruct (ensureCap_spec sl (slen sl + nb) (proj2 (proj2 Hr))) as (b' & Hb' & _ & _ & Hl' & Hc' & _). rewrite Hb in Hb'. injection Hb' as <-. lia. }
  split.
  { intros D [HD HD1] Hmin. destruct (HD1 eq_refl) as (d & Hd & Hle). cbn [r_rdata r_src r_err] in Hd, Hle, HD.
    pose proof (Hbud X d (scap b - slen b) Hd ltac:(lia)) as Hk. rewrite Hrd in Hk. destruct Hk as [Hk Hnext].
    split; cbn [r_rdata r_src r_err slen]; [lia|]. intros He. exists (d - k).
    destruct e; [discriminate|]. destruct (k =? 0) eqn:Hk0; [discriminate|].
    split; [apply Hnext; [reflexivity|lia]|lia]. }
  exists (S (Z.to_nat (slen sl + nb))). intros w b0 [|n] Hw Hnb Hwb Hwk Hn; [lia|].
  pose proof Hr as (_ & _ & Hokr). unfold slice_ok in Hokr.
  assert (Hw1 : wrap w (slen sl + nb) = slen sl + nb) by (apply Hw; lia).
  assert (Hw2 : wrap w (slen b + k) = slen b + k) by (apply Hw; cbn [slen] in Hwk; lia).
  eapply exec_Block'.
  { eapply execs_cons; [eapply exec_Field|].
    { cbn. rewrite rf_rdata by assumption. cbn. rewrite rf_rdata by assumption. cbn. rewrite Hw1.
      apply (Hrun w b0); [assumption|lia|lia]. }
    { reflexivity. }
    { apply (rs_rdata A1 O X pr pt cd (sv lr sl)); assumption. }
    eapply execs_cons; [eapply exec_Define|].
    { cbn. rewrite rf_r by assumption. cbn. rewrite rf_rdata by assumption. cbn. rewrite rf_rdata by assumption. cbn.
      rewrite rf_rdata by assumption. cbn.
      unfold slice_of. replace ((0 <=? slen b) && (slen b <=? scap b) && (scap b <=? scap b)) with true by lia. cbn.
      rewrite Hrd. rewrite <- Hbs. unfold store, set_arr, arr_at, set_ext. cbn [arrs objs ext].
      change (arrs E (rst A1 O X pr pt cd (sv l1 b) None sc)) with A1.
      fold (cell A1 l1). rewrite Ha1. replace (0 + slen b) with (slen b) by lia. reflexivity. }
    { reflexivity. }
    cbn [combine app].
    change (mk (set_nth l1 (zwrite (arr b) (slen b) bs) A1) (objs E (rst A1 O X pr pt cd (sv l1 b) None sc)) X1)
      with (rst (set_nth l1 (zwrite (arr b) (slen b) bs) A1) O X1 pr pt cd (sv l1 b) None sc).
    set (e1 := match e with None => if k =? 0 then Some EOF else None | Some e => Some e end).
    eapply execs_cons.
    { instantiate (1 := rst (set_nth l1 (zwrite (arr b) (slen b) bs) A1) O X1 pr pt cd (sv l1 b) None sc).
      instantiate (1 := [("n", VInt k); ("err", VErr e1); ("r", VPtr pr); ("buf", VSlice lb ob nb cb)]).
      eapply exec_If.
      { instantiate (1 := rst (set_nth l1 (zwrite (arr b) (slen b) bs) A1) O X1 pr pt cd (sv l1 b) None sc).
        instantiate (1 := (k =? 0) && is_nil e). cbn. destruct (k =? 0); reflexivity. }
      subst e1. destruct (k =? 0), e; cbn [andb is_nil]; eapply exec_Block';
        (eapply execs_cons; [eapply exec_Var; reflexivity|reflexivity] || reflexivity). }
    eapply execs_cons; [eapply exec_Field|].
    { cbn. rewrite rf_rdata by assumption. cbn. rewrite rf_rdata by assumption. cbn.
      rewrite Hw2, slice_front by lia. reflexivity. }
    { reflexivity. }
    { apply rs_rdata; assumption. }
    eapply execs_cons; [eapply exec_Field|reflexivity].
    { reflexivity. }
    { reflexivity. }
    { apply rs_err; assumption. } }
  reflexivity.
Qed.

Lemma go_convert O pr pt cd lb ob nb cb A X lr sl ls scr lo hi e r1 : (pr < length O)%nat -> (pt < length O)%nat -> pr <> pt ->
  ref A lr sl -> ref A ls scr -> sep A lr ls -> Forall is_byte (arr sl) ->
  convert grow E (mkReader E X scr lo hi sl e) = Ok r1 ->
  exists A1 ls1, ref A1 lr (r_rdata _ r1) /\ ref A1 ls1 (r_scratch _ r1) /\ sep A1 lr ls1 /\
    Forall is_byte (arr (r_rdata _ r1)) /\
    r_src _ r1 = X /\ r_err _ r1 = e /\
    r_cdata_lo _ r1 = 0 /\ 0 <= r_cdata_hi _ r1 <= slen (r_scratch _ r1) /\
    (length A <= length A1)%nat /\ (ls1 = ls \/ (length A <= ls1)%nat) /\
    (forall j, (j < length A)%nat -> sep A j ls -> sep A j lr -> cell A1 j = cell A j) /\
    spend2 A ls lr A1 ls1 lr /\
    exists cd1 env' N, (cd1 = VSlice ls1 0 (r_cdata_hi _ r1) (scap (r_scratch _ r1)) \/ r_cdata_hi _ r1 = 0 /\ cd1 = VSlice 0 0 0 0) /\
    slen (r_rdata _ r1) <= slen sl /\
    forall w b n, wide w b -> 5 * (2 * slen sl) + 8212 <= 4 * b -> (N <= n)%nat ->
    execs grow E rd wr (run w n) n conv_stmts [("r", VPtr pr); ("buf", VSlice lb ob nb cb)] (rst A O X pr pt cd (sv lr sl) e (sv ls scr)) =
    Ok (Next, env' ++ [("r", VPtr pr); ("buf", VSlice lb ob nb cb)],
      rst A1 O X pr pt cd1 (sv lr (r_rdata _ r1)) e (sv ls1 (r_scratch _ r1))).
Proof.
  intros Hpr Hpt Hne Hr Hs Hsep Hba H. unfold convert in H.
  assert (Hb : Forall is_byte (contents sl)) by (apply Forall_ztake; assumption). cbn [r_rdata r_src r_scratch r_cdata_lo r_cdata_hi r_err] in H.
  destruct (from_Translate grow fromTable scr (contents sl)) as [[[[nc out] ce] scr1]| |] eqn:Ht; try discriminate.
  cbn [bind] in H.
  set (nc1 := match e with Some _ => if nc =? 0 then slen sl else nc | None => nc end) in *.
  destruct (nc1 >? slen sl) eqn:Hgt; [discriminate|].
  pose proof Hr as (Hlr & Har & Hokr). unfold slice_ok in Hokr.
  assert (Hnc : 0 <= nc).
  { unfold from_Translate, reslice in Ht. destruct (_ && _); [|discriminate]. cbn [bind] in Ht.
    apply from_loop_count in Ht; lia. }
  assert (Hnc1 : 0 <= nc1 <= slen sl) by (unfold nc1 in *; destruct e; [destruct (nc =? 0)|]; lia).
  pose proof (contents_len sl Hokr) as Hlen.
  assert (Hrest : zlen (zdrop nc1 (contents sl)) = slen sl - nc1) by (rewrite zlen_zdrop by lia; lia).
  set (rest := zdrop nc1 (contents sl)) in *.
  assert (Hz : zlen (zwrite (arr sl) 0 rest) = zlen (arr sl)) by (apply zlen_zwrite; unfold scap in *; lia).
  rewrite reslice_spec in H by (unfold scap in *; cbn [arr]; lia). cbn [bind arr] in H. injection H as <-.
  cbn [r_rdata r_src r_scratch r_cdata_lo r_cdata_hi r_err].
  set (O1 := set_nth pr (rob pt cd (sv lr sl) e) O).
  assert (Hpt1 : (pt < length O1)%nat) by (unfold O1; now rewrite set_nth_len).
  destruct (go_from_Translate grow E rd wr O1 X pt "translateFromCp949" fromTable lr A ls scr (contents sl) 0 (slen sl) (scap sl) nc out ce scr1
     Hpt1 u16_fromTable Hs (ref_input _ _ _ Hr) Hsep Hb Ht) as (A1 & ls1 & Hs1 & Hg1 & N & Hrun).
  destruct (ref_grows _ _ _ _ _ _ Hr Hg1 Hsep) as [Hr1 Hsep1].
  assert (Hres : match ce with None => out = Some scr1 | Some _ => nc = 0 /\ out = None end).
  { unfold from_Translate, reslice in Ht. destruct (_ && _); [|discriminate]. cbn [bind] in Ht.
    eapply from_loop_results, Ht. }
  pose proof Hr1 as (Hlr1 & Har1 & _).
  assert (Hcap : scap (mkSlice (zwrite (arr sl) 0 rest) (zlen rest)) = scap sl) by exact Hz.
  rewrite Hcap. cbn [slen].
  set (A2 := set_nth lr (zwrite (arr sl) 0 rest) A1).
  assert (Hg2 : grows A1 lr A2 lr) by (apply grows_write; [rewrite Har1; now apply length_zlen|assumption]).
  destruct (ref_grows _ _ _ _ _ _ Hs1 Hg2 (sep_sym _ _ _ Hsep1)) as [Hs2 Hsep2].
  exists A2, ls1. split.
  { split; [unfold A2; rewrite set_nth_len; lia|]. split; [now apply cell_set|].
    unfold slice_ok. rewrite Hcap. cbn [slen]. lia. }
  split; [assumption|]. split; [now apply sep_sym|]. split.
  { cbn [arr]. apply Forall_zwrite; [assumption|]. apply Forall_zdrop, Hb. }
  split; [reflexivity|]. split; [reflexivity|]. split; [reflexivity|].
  pose proof Hs1 as (_ & _ & Hoks1). unfold slice_ok in Hoks1.
  split; [destruct ce; [destruct Hres as [_ ->]|subst out]; lia|].
  split; [unfold A2; rewrite set_nth_len; apply Hg1|].
  split; [apply Hg1|].
  split.
  { intros j Hj Hjs Hjr. destruct Hg1 as (La & _ & Fa & _). destruct Hg2 as (_ & _ & Fb & _).
    rewrite <- (Fa j Hj Hjs). apply Fb; [lia|]. unfold sep in Hjr. rewrite (Fa j Hj Hjs). exact Hjr. }
  split.
  { destruct Hg1 as (_ & _ & _ & _ & b & Hgb & Htb). pose proof Hs1 as (_ & Has1 & _). destruct Hs2 as (_ & Has2 & _).
    exists b, 0. rewrite Has2, <- Has1, Har. split; [exact Hgb|].
    unfold A2. rewrite cell_set by assumption. rewrite Hz. split; [constructor|].
    rewrite total_set by (rewrite Har1; now apply length_zlen). lia. }
  exists (out_val ls1 out), [("nc", VInt nc1); ("cdata", out_val ls1 out); ("cvterr", VErr ce)], (S N).
  split.
  { destruct ce; [destruct Hres as [_ ->]; right; split; reflexivity|subst out; left; reflexivity]. }
  split; [cbn [slen]; lia|].
  intros w b n Hw Hwb Hn. cbn [app].
  eapply execs_cons; [eapply exec_Define|].
  { cbn. rewrite rf_tr by assumption. cbn. rewrite rf_rdata by assumption. cbn.
    rewrite nth_error_set_nth by (rewrite set_nth_len; assumption). cbn. apply (Hrun w b); [assumption|lia|lia]. }
  { reflexivity. }
  cbn [combine app].
  change (trs A1 O1 X pt "translateFromCp949" fromTable (sv ls1 scr1)) with (rst A1 O X pr pt cd (sv lr sl) e (sv ls1 scr1)).
  eapply execs_cons; [eapply exec_If; [reflexivity|]|].
  { instantiate (1 := rst A1 O X pr pt cd (sv lr sl) e (sv ls1 scr1)).
    instantiate (1 := [("nc", VInt nc); ("cdata", out_val ls1 out); ("cvterr", VErr ce); ("r", VPtr pr); ("buf", VSlice lb ob nb cb)]).
    destruct ce; reflexivity. }
  eapply execs_cons; [eapply exec_Field|].
  { reflexivity. }
  { reflexivity. }
  { apply rs_cdata; assumption. }
  eapply execs_cons.
  { instantiate (1 := rst A1 O X pr pt (out_val ls1 out) (sv lr sl) e (sv ls1 scr1)).
    instantiate (1 := [("nc", VInt nc1); ("cdata", out_val ls1 out); ("cvterr", VErr ce); ("r", VPtr pr); ("buf", VSlice lb ob nb cb)]).
    eapply exec_If.
    { instantiate (1 := rst A1 O X pr pt (out_val ls1 out) (sv lr sl) e (sv ls1 scr1)).
      instantiate (1 := (nc =? 0) && negb (is_nil e)). cbn.
      destruct (nc =? 0); cbn; [rewrite rf_err by assumption|]; reflexivity. }
    subst nc1. destruct (nc =? 0), e; cbn [andb negb is_nil]; eapply exec_Block';
      (eapply execs_cons; [eapply exec_Var; cbn; rewrite rf_rdata by assumption; reflexivity|reflexivity] || reflexivity). }
  eapply execs_cons; [eapply exec_Field|reflexivity].
  { cbn. rewrite rf_rdata by assumption. cbn. rewrite rf_rdata by assumption. cbn. rewrite rf_rdata by assumption. cbn.
    unfold slice_of at 1. replace ((0 <=? nc1) && (nc1 <=? slen sl) && (slen sl <=? scap sl)) with true by lia. cbn.
    unfold copy_to. replace (Z.min (slen sl) (slen sl - nc1)) with (zlen rest) by lia.
    cbn. rewrite slice_front by lia. reflexivity. }
  { reflexivity. }
  { unfold store, set_arr, arr_at, cells.
    change (arrs E (rst A1 O X pr pt (out_val ls1 out) (sv lr sl) e (sv ls1 scr1))) with A1.
    unfold arr_at. change (arrs E (rst A1 O X pr pt (out_val ls1 out) (sv lr sl) e (sv ls1 scr1))) with A1.
    fold (cell A1 lr). rewrite Har1. replace (0 + nc1) with nc1 by lia.
    replace (ztake (zlen rest) (zdrop nc1 (arr sl))) with rest
      by (rewrite Hrest; unfold rest, contents; apply zdrop_ztake_len; lia).
    apply (rs_rdata A2 O X pr pt (out_val ls1 out) (sv lr sl)); assumption. }
Qed.

Lemma go_Read_loop O pr pt lb ob nb cb : (pr < length O)%nat -> (pt < length O)%nat -> pr <> pt ->
  forall fuel A ls lr cdv r bs err r',
  rinv A ls lr cdv r -> (lb < length A)%nat -> 0 <= ob -> 0 <= nb <= cb -> ob + cb <= zlen (cell A lb) ->
  sep A lb ls -> sep A lb lr ->
  Read3 grow E (rd kx) fuel r nb = Ok (bs, err, r') ->
  exists A1 ls1 lr1 cdv1, changes A ls lr A1 ls1 lr1 /\
    rinv (set_nth lb (zwrite (cell A lb) ob bs) A1) ls1 lr1 cdv1 r' /\
    zlen bs <= nb /\ (err <> None -> bs = [] /\ r_err _ r' = err) /\
  (forall D, within r D -> minb <= nb -> within r' D) /\
  exists N, forall w b D n m, wide w b -> within r D -> minb <= nb -> 10 * D + 5 * nb + 8212 <= 4 * b ->
    (N <= n)%nat -> (N <= m)%nat ->
    while_loop grow E rd wr (run w n) n (LitB true) (read_body w) m [("r", VPtr pr); ("buf", VSlice lb ob nb cb)]
      (rst A O (r_src _ r) pr pt cdv (sv lr (r_rdata _ r)) (r_err _ r) (sv ls (r_scratch _ r))) =
    Ok (match err with None => Ret (VTuple [VInt (zlen bs); VErr None]) | Some _ => Next end,
        [("r", VPtr pr); ("buf", VSlice lb ob nb cb)],
        rst (set_nth lb (zwrite (cell A lb) ob bs) A1) O (r_src _ r') pr pt cdv1 (sv lr1 (r_rdata _ r')) (r_err _ r')
          (sv ls1 (r_scratch _ r'))).
Proof.
  intros Hpr Hpt Hne. induction fuel as [|fuel IH]; intros A ls lr cdv r bs err r' Hinv Hlb Hob Hnb Hcb Hbs Hbr H; [discriminate|].
  cbn [Read3] in H.
  destruct r as [X scr lo hi sl e]. cbn [r_rdata r_src r_scratch r_cdata_lo r_cdata_hi r_err] in *.
  pose proof Hinv as (Hs & Hr & Hsep & Hby & Hlo & Hhi & lc & oc & cc & -> & Hcc & Hcd & Hlc).
  cbn [r_rdata r_src r_scratch r_cdata_lo r_cdata_hi r_err] in *.
  pose proof Hs as (Hls & Has & Hoks). unfold slice_ok in Hoks.
  destruct (hi - lo >? 0) eqn:Hpend.
  - (* pending output *)
    destruct (Hcd ltac:(lia)) as [-> ->].
    set (k := Z.min nb (hi - lo)) in *.
    assert (Hout : ztake k (cdata E (mkReader E X scr lo hi sl e)) = ztake k (zdrop lo (arr scr))).
    { unfold cdata. cbn [r_rdata r_src r_scratch r_cdata_lo r_cdata_hi r_err].
      rewrite (zdrop_ztake_len lo hi) by lia. apply ztake_ztake. lia. }
    rewrite Hout in H. injection H as <- <- <-.
    cbn [r_rdata r_src r_scratch r_cdata_lo r_cdata_hi r_err].
    set (out := ztake k (zdrop lo (arr scr))) in *.
    assert (Hzo : zlen out = k).
    { unfold out. rewrite zlen_ztake, zlen_zdrop by lia. unfold scap in *. lia. }
    assert (Hz : zlen (zwrite (cell A lb) ob out) = zlen (cell A lb)) by (apply zlen_zwrite; lia).
    assert (Hg : grows A lb (set_nth lb (zwrite (cell A lb) ob out) A) lb)
      by (apply grows_write; [now apply length_zlen|assumption]).
    destruct (ref_grows _ _ _ _ _ _ Hs Hg (sep_sym _ _ _ Hbs)) as [Hs1 _].
    destruct (ref_grows _ _ _ _ _ _ Hr Hg (sep_sym _ _ _ Hbr)) as [Hr1 _].
    exists A, ls, lr, (VSlice ls (lo + k) (hi - (lo + k)) (cc - k)).
    split; [split; [lia|]; split; [auto|]; split; [auto|]; split; [auto|apply spend2_refl]|]. split.
    { unfold rinv. cbn [r_rdata r_src r_scratch r_cdata_lo r_cdata_hi r_err].
      split; [assumption|]. split; [assumption|]. split.
      { unfold sep. destruct Hr1 as (_ & -> & _). destruct Hr as (_ & Har & _). unfold sep in Hsep. now rewrite Har in Hsep. }
      split; [assumption|]. split; [lia|]. split; [lia|]. exists ls, (lo + k), (cc - k).
      split; [reflexivity|]. split; [lia|]. split; [auto|]. left. split; [reflexivity|lia]. }
    split; [lia|]. split; [congruence|]. split; [exact (fun D H _ => H)|]. exists 1%nat. intros w b D n [|m] Hw HD Hmin Hwb _ Hm; [lia|].
    cbn [while_loop]. change (eval w n (LitB true)) with (fun (env : env) (s : state) => Ok (VBool true, s)). cbn [bind as_bool].
    assert (Hbody : exec w n (read_body w) [("r", VPtr pr); ("buf", VSlice lb ob nb cb)]
        (rst A O X pr pt (VSlice ls lo (hi - lo) cc) (sv lr sl) e (sv ls scr)) =
      Ok (Ret (VTuple [VInt (zlen out); VErr None]), [("r", VPtr pr); ("buf", VSlice lb ob nb cb)],
        rst (set_nth lb (zwrite (cell A lb) ob out) A) O X pr pt (VSlice ls (lo + k) (hi - (lo + k)) (cc - k)) (sv lr sl) e (sv ls scr))).
    { unfold read_body. eapply exec_Block'.
      { eapply execs_stop; [|discriminate]. eapply exec_If.
        { cbn. rewrite rf_cdata by assumption. cbn. rewrite Hpend. reflexivity. }
        eapply exec_Block'.
        { eapply execs_cons; [eapply exec_Define; [|reflexivity]|].
          { cbn. rewrite rf_cdata by assumption. cbn. unfold copy_to, store, set_arr, arr_at, cells, arr_at.
            change (arrs E (rst A O X pr pt (VSlice ls lo (hi - lo) cc) (sv lr sl) e (sv ls scr))) with A.
            fold k. fold (cell A ls). rewrite Has. fold out. fold (cell A lb). rewrite <- Hzo. reflexivity. }
          cbn [combine app].
          change (mk (set_nth lb (zwrite (cell A lb) ob out) A)
                     (objs E (rst A O X pr pt (VSlice ls lo (hi - lo) cc) (sv lr sl) e (sv ls scr)))
                     (ext E (rst A O X pr pt (VSlice ls lo (hi - lo) cc) (sv lr sl) e (sv ls scr))))
            with (rst (set_nth lb (zwrite (cell A lb) ob out) A) O X pr pt (VSlice ls lo (hi - lo) cc) (sv lr sl) e (sv ls scr)).
          eapply execs_cons; [eapply exec_Field|].
          { cbn. rewrite rf_cdata by assumption. cbn. unfold slice_of.
            replace ((0 <=? zlen out) && (zlen out <=? hi - lo) && (hi - lo <=? cc)) with true by lia.
            rewrite Hzo. replace (hi - lo - k) with (hi - (lo + k)) by lia. reflexivity. }
          { reflexivity. }
          { apply rs_cdata; assumption. }
          eapply execs_stop; [|discriminate]. reflexivity. }
        reflexivity. }
      reflexivity. }
    rewrite Hbody. reflexivity.
  - (* convert, reading more input first unless the input has ended *)
    assert (Hconv : forall A0 X0 lr0 sl0 e0, ref A0 lr0 sl0 -> ref A0 ls scr -> sep A0 lr0 ls -> Forall is_byte (arr sl0) ->
       changes A ls lr A0 ls lr0 ->
       (let! r := convert grow E (mkReader E X0 scr lo hi sl0 e0) in Read3 grow E (rd kx) fuel r nb) = Ok (bs, err, r') ->
       exists A1 ls1 lr1 cdv1, changes A ls lr A1 ls1 lr1 /\
         rinv (set_nth lb (zwrite (cell A lb) ob bs) A1) ls1 lr1 cdv1 r' /\
         zlen bs <= nb /\ (err <> None -> bs = [] /\ r_err _ r' = err) /\
         (forall D, within (mkReader E X0 scr lo hi sl0 e0) D -> minb <= nb -> within r' D) /\
         exists N, forall w b D n m, wide w b -> within (mkReader E X0 scr lo hi sl0 e0) D -> minb <= nb ->
           10 * D + 5 * nb + 8212 <= 4 * b ->
           (N <= n)%nat -> (N <= m)%nat ->
           exists s1 env', execs grow E rd wr (run w n) n conv_stmts [("r", VPtr pr); ("buf", VSlice lb ob nb cb)]
              (rst A0 O X0 pr pt (VSlice lc oc (hi - lo) cc) (sv lr0 sl0) e0 (sv ls scr)) =
              Ok (Next, env' ++ [("r", VPtr pr); ("buf", VSlice lb ob nb cb)], s1) /\
            while_loop grow E rd wr (run w n) n (LitB true) (read_body w) m [("r", VPtr pr); ("buf", VSlice lb ob nb cb)] s1 =
            Ok (match err with None => Ret (VTuple [VInt (zlen bs); VErr None]) | Some _ => Next end,
              [("r", VPtr pr); ("buf", VSlice lb ob nb cb)],
              rst (set_nth lb (zwrite (cell A lb) ob bs) A1) O (r_src _ r') pr pt cdv1 (sv lr1 (r_rdata _ r')) (r_err _ r')
              (sv ls1 (r_scratch _ r')))).
    { intros A0 X0 lr0 sl0 e0 Hr0 Hs0 Hsep0 Hby0 Hch0 H0.
      destruct (convert grow E (mkReader E X0 scr lo hi sl0 e0)) as [r1| |] eqn:Hc; try discriminate. cbn [bind] in H0.
      destruct (go_convert O pr pt (VSlice lc oc (hi - lo) cc) lb ob nb cb A0 X0 lr0 sl0 ls scr lo hi e0 r1 Hpr Hpt Hne Hr0 Hs0 Hsep0 Hby0 Hc)
        as (A1 & ls1 & Hr1 & Hs1 & Hsep1 & Hby1 & Hx1 & He1 & Hlo1 & Hhi1 & La & Sa & Ka & Ta & cd1 & env' & N & Hcd1 & Hshr & Hrun).
      assert (Hch1 : changes A ls lr A1 ls1 lr0).
      { eapply changes_trans; [exact Hch0|]. split; [assumption|]. split; [assumption|]. split; [auto|]. split; assumption. }
      destruct (changes_sep _ _ _ _ _ _ lb Hch1 Hlb Hbs Hbr) as [Hbs1 Hbr1].
      assert (Hcell : cell A1 lb = cell A lb) by (apply Hch1; assumption).
      assert (Hlb1 : (lb < length A1)%nat) by (destruct Hch1; lia).
      destruct (IH A1 ls1 lr0 cd1 r1 bs err r') as (A2 & ls2 & lr2 & cdv2 & Hch2 & Hinv2 & Hlen & Herr & Hle & N2 & Hrun2);
        [|assumption|assumption|assumption|rewrite Hcell; assumption|assumption|assumption|assumption|].
      { pose proof Hs1 as (_ & _ & Hok1). unfold slice_ok in Hok1.
        split; [assumption|]. split; [assumption|]. split; [assumption|]. split; [assumption|].
        rewrite Hlo1. split; [lia|]. split; [lia|]. rewrite Z.sub_0_r.
        destruct Hcd1 as [->|[-> ->]].
        - exists ls1, 0, (scap (r_scratch _ r1)). split; [reflexivity|]. split; [lia|]. split; [auto|left; split; [reflexivity|lia]].
        - exists 0%nat, 0, 0. split; [reflexivity|]. split; [lia|]. split; [lia|auto]. }
      rewrite Hcell in *.
      exists A2, ls2, lr2, cdv2. split; [eapply changes_trans; eassumption|]. split; [assumption|]. split; [assumption|].
      assert (Hkeep : forall D, within (mkReader E X0 scr lo hi sl0 e0) D -> within r1 D).
      { intros D [HD1 HD2]. cbn [r_rdata r_src r_err] in *. split; [lia|]. rewrite He1, Hx1. intros He0.
        destruct (HD2 He0) as (d & Hd & Hdd). exists d. split; [assumption|lia]. }
      split; [assumption|]. split; [intros D HD Hmin; apply Hle; [apply Hkeep; assumption|assumption]|].
      exists (S (N + N2)). intros w b D n m Hw HD Hmin Hwb Hn Hm. pose proof (proj1 HD) as HD0. cbn [r_rdata] in HD0.
      specialize (Hrun w b n Hw ltac:(lia) ltac:(lia)).
      eexists _, env'. split; [exact Hrun|]. specialize (Hrun2 w b D n m Hw (Hkeep D HD) Hmin ltac:(lia) ltac:(lia) ltac:(lia)).
      rewrite He1, Hx1 in Hrun2. exact Hrun2. }
    assert (Hskip : forall w n A0 X0 cdv0 rdv0 e0 sc0, hi - lo = (match cdv0 with VSlice _ _ k _ => k | _ => 1 end) ->
       (exists l o k c, cdv0 = VSlice l o k c) ->
       exec w n (If (Cmp Gt (Len (Field (Var "r") "cdata")) (Lit 0))
         (Block [Define ["n"] (CopyE (Var "buf") (Field (Var "r") "cdata"));
          Assign [LField (Var "r") "cdata"] (SliceFrom (Field (Var "r") "cdata") (Var "n"));
          Return [(Var "n"); NilErr]]) (Block []))
         [("r", VPtr pr); ("buf", VSlice lb ob nb cb)] (rst A0 O X0 pr pt cdv0 rdv0 e0 sc0) =
       Ok (Next, [("r", VPtr pr); ("buf", VSlice lb ob nb cb)], rst A0 O X0 pr pt cdv0 rdv0 e0 sc0)).
    { intros w n A0 X0 cdv0 rdv0 e0 sc0 Hk (l & o & k & c & ->).
      rewrite Hk in Hpend. eapply exec_If.
      { cbn. rewrite rf_cdata by assumption. cbn. rewrite Hpend. reflexivity. }
      eapply exec_Block'. { reflexivity. } reflexivity. }
    destruct e as [e|].
    + destruct (slen sl =? 0) eqn:Hsl.
      * (* the end *)
        injection H as <- <- <-. cbn [r_rdata r_src r_scratch r_cdata_lo r_cdata_hi r_err].
        exists A, ls, lr, (VSlice lc oc (hi - lo) cc).
        replace (zwrite (cell A lb) ob []) with (cell A lb)
          by (unfold zwrite; rewrite zlen_nil, Z.add_0_r; symmetry; apply ztake_zdrop).
        replace (set_nth lb (cell A lb) A) with A
          by (symmetry; apply set_nth_id, nth_error_nth'; assumption).
        split; [split; [lia|]; split; [auto|]; split; [auto|]; split; [auto|apply spend2_refl]|]. split; [exact Hinv|].
        split; [rewrite zlen_nil; lia|]. split; [auto|]. split; [exact (fun D H _ => H)|]. exists 1%nat. intros w b D n [|m] Hw HD Hmin Hwb _ Hm; [lia|].
        cbn [while_loop]. change (eval w n (LitB true)) with (fun (env : env) (s : state) => Ok (VBool true, s)). cbn [bind as_bool].
        assert (Hbody : exec w n (read_body w) [("r", VPtr pr); ("buf", VSlice lb ob nb cb)]
            (rst A O X pr pt (VSlice lc oc (hi - lo) cc) (sv lr sl) (Some e) (sv ls scr)) =
          Ok (Brk, [("r", VPtr pr); ("buf", VSlice lb ob nb cb)],
            rst A O X pr pt (VSlice lc oc (hi - lo) cc) (sv lr sl) (Some e) (sv ls scr))).
        { unfold read_body. eapply exec_Block'.
          { eapply execs_cons; [apply Hskip; [reflexivity|eauto]|].
            eapply execs_stop; [|discriminate]. eapply exec_If.
            { cbn. rewrite rf_err by assumption. reflexivity. }
            cbn [is_nil]. eapply exec_Block'.
            { eapply execs_stop; [|discriminate]. eapply exec_If.
              { cbn. rewrite rf_rdata by assumption. cbn. rewrite Hsl. reflexivity. }
              cbv iota. eapply exec_Block'. { eapply execs_stop; [reflexivity|discriminate]. } reflexivity. }
            reflexivity. }
          reflexivity. }
        rewrite Hbody. reflexivity.
      * destruct (Hconv A X lr sl (Some e) Hr Hs Hsep Hby) as (A1 & ls1 & lr1 & cdv1 & Hch & Hinv1 & Hlen & Herr & Hle & N & Hrun);
          [split; [lia|]; split; [auto|]; split; [auto|]; split; [auto|apply spend2_refl]|exact H|].
        exists A1, ls1, lr1, cdv1. split; [assumption|]. split; [assumption|]. split; [assumption|]. split; [assumption|].
        split; [assumption|]. exists (S N). intros w b D n [|m] Hw HD Hmin Hwb Hn Hm; [lia|].
        destruct (Hrun w b D n m Hw HD Hmin Hwb ltac:(lia) ltac:(lia)) as (s1 & env' & Hcv & Hloop).
        cbn [while_loop]. change (eval w n (LitB true)) with (fun (env : env) (s : state) => Ok (VBool true, s)). cbn [bind as_bool].
        assert (Hbody : exec w n (read_body w) [("r", VPtr pr); ("buf", VSlice lb ob nb cb)]
            (rst A O X pr pt (VSlice lc oc (hi - lo) cc) (sv lr sl) (Some e) (sv ls scr)) =
          Ok (Next, [("r", VPtr pr); ("buf", VSlice lb ob nb cb)], s1)).
        { unfold read_body. eapply exec_Block'.
          { eapply execs_cons; [apply Hskip; [reflexivity|eauto]|].
            eapply execs_cons; [|exact Hcv]. eapply exec_If.
            { cbn. rewrite rf_err by assumption. reflexivity. }
            cbn [is_nil]. eapply exec_Block'.
            { eapply execs_cons; [|reflexivity]. eapply exec_If.
              { cbn. rewrite rf_rdata by assumption. cbn. rewrite Hsl. reflexivity. }
              cbv iota. eapply exec_Block'. { reflexivity. } reflexivity. }
            reflexivity. }
          unfold leave. rewrite app_length, Nat.add_sub. apply skipn_app_exact. }
        rewrite Hbody. cbn [bind]. exact Hloop.
    + destruct (fill3 E (rd kx) (mkReader E X scr lo hi sl None) nb) as [r1| |] eqn:Hf; try discriminate. cbn [bind] in H.
      destruct (go_fill O pr pt (VSlice lc oc (hi - lo) cc) (sv ls scr) lb ob nb cb A X lr sl scr lo hi r1 Hpr Hpt Hne Hr Hf)
        as (A0 & lr0 & Hr0 & Hg0 & Hsc & Hl0 & Hh0 & Hby0 & Hle0 & N0 & Hrun0).
      destruct (ref_grows _ _ _ _ _ _ Hs Hg0 (sep_sym _ _ _ Hsep)) as [Hs0 Hsep0].
      destruct r1 as [X1 scr1 lo1 hi1 sl1 e1]. cbn [r_rdata r_src r_scratch r_cdata_lo r_cdata_hi r_err] in *.
      subst scr1 lo1 hi1.
      destruct (Hconv A0 X1 lr0 sl1 e1 Hr0 Hs0 (sep_sym _ _ _ Hsep0) (Hby0 Hby))
        as (A1 & ls1 & lr1 & cdv1 & Hch & Hinv1 & Hlen & Herr & Hle & N & Hrun);
        [destruct Hg0 as (La & Na & Fa & _ & b & Hgb & Htb); split; [assumption|]; split; [auto|]; split; [assumption|];
           split; [intros j Hj _ Hjr; apply Fa; assumption|];
           exists 0, b; rewrite (Fa ls Hls (sep_sym _ _ _ Hsep)); split; [constructor|]; split; [exact Hgb|lia]
        |exact H|].
      exists A1, ls1, lr1, cdv1. split; [assumption|]. split; [assumption|]. split; [assumption|]. split; [assumption|].
      split; [intros D HD Hmin; apply Hle; [apply (Hle0 D HD Hmin)|assumption]|].
      exists (S (N + N0)). intros w b D n [|m] Hw HD Hmin Hwb Hn Hm; [lia|].
      pose proof Hr as (_ & _ & Hokr). unfold slice_ok in Hokr. pose proof (proj1 HD) as HD0. cbn [r_rdata] in HD0.
      pose proof (Hle0 D HD Hmin) as HD1. pose proof (proj1 HD1) as HD2. cbn [r_rdata] in HD2.
      destruct (Hrun w b D n m Hw HD1 Hmin Hwb ltac:(lia) ltac:(lia)) as (s1 & env' & Hcv & Hloop).
      cbn [while_loop]. change (eval w n (LitB true)) with (fun (env : env) (s : state) => Ok (VBool true, s)). cbn [bind as_bool].
      assert (Hbody : exec w n (read_body w) [("r", VPtr pr); ("buf", VSlice lb ob nb cb)]
          (rst A O X pr pt (VSlice lc oc (hi - lo) cc) (sv lr sl) None (sv ls scr)) =
        Ok (Next, [("r", VPtr pr); ("buf", VSlice lb ob nb cb)], s1)).
      { unfold read_body. eapply exec_Block'.
        { eapply execs_cons; [apply Hskip; [reflexivity|eauto]|].
          eapply execs_cons; [|exact Hcv]. eapply exec_If.
          { cbn. rewrite rf_err by assumption. reflexivity. }
          cbn [is_nil]. apply (Hrun0 w b); [assumption|lia|lia|lia|lia]. }
        unfold leave. rewrite app_length, Nat.add_sub. apply skipn_app_exact. }
      rewrite Hbody. cbn [bind]. exact Hloop.
Qed.

Lemma go_Read fuel s p pt ls lr r lb ob nb cb old bs err r' :
  is_reader s p pt ls lr r -> ext E s = r_src _ r ->
  input (arrs _ s) lb ob nb cb old -> sep (arrs _ s) lb ls -> sep (arrs _ s) lb lr ->
  Read3 grow E (rd kx) fuel r nb = Ok (bs, err, r') ->
  exists s' ls' lr', is_reader s' p pt ls' lr' r' /\ ext E s' = r_src _ r' /\ same_objs s s' p pt /\
    zlen bs <= nb /\
    (length (arrs _ s) <= length (arrs _ s'))%nat /\
    (ls' = ls \/ (length (arrs _ s) <= ls')%nat) /\ (lr' = lr \/ (length (arrs _ s) <= lr')%nat) /\
    cell (arrs _ s') lb = zwrite (cell (arrs _ s) lb) ob bs /\
    (forall j, (j < length (arrs _ s))%nat -> j <> lb -> sep (arrs _ s) j ls -> sep (arrs _ s) j lr ->
       cell (arrs _ s') j = cell (arrs _ s) j) /\
    (forall D, within r D -> minb <= nb -> within r' D) /\
    exists N, forall w b D n, wide w b -> within r D -> minb <= nb -> 10 * D + 5 * nb + 8212 <= 4 * b ->
      (N <= n)%nat ->
      run w n "cp949Reader.Read" [VPtr p; VSlice lb ob nb cb] s = Ok (VTuple [VInt (zlen bs); VErr err], s').
Proof.
  intros (Hne & cdv & Hop & Hot & Hinv) Hx (Hlb & Hob & Hnb & Hcb & _) Hbs Hbr H.
  destruct s as [A O X]. cbn [arrs objs ext] in *. subst X.
  assert (Hp : (p < length O)%nat) by (apply nth_error_Some; congruence).
  assert (Hpt : (pt < length O)%nat) by (apply nth_error_Some; congruence).
  assert (Hst : mk A O (r_src _ r) = rst A O (r_src _ r) p pt cdv (sv lr (r_rdata _ r)) (r_err _ r) (sv ls (r_scratch _ r))).
  { unfold rst, GoCp949.trs. rewrite (set_nth_id p) by assumption. rewrite set_nth_id by assumption. reflexivity. }
  destruct (go_Read_loop O p pt lb ob nb cb Hp Hpt Hne fuel A ls lr cdv r bs err r' Hinv Hlb Hob Hnb Hcb Hbs Hbr H)
    as (A1 & ls1 & lr1 & cdv1 & (La & Sa & Ra & Ka & _) & Hinv1 & Hlen & Herr & Hle & N & Hrun).
  set (A2 := set_nth lb (zwrite (cell A lb) ob bs) A1) in *.
  exists (rst A2 O (r_src _ r') p pt cdv1 (sv lr1 (r_rdata _ r')) (r_err _ r') (sv ls1 (r_scratch _ r'))), ls1, lr1.
  change (arrs E (rst A2 O (r_src _ r') p pt cdv1 (sv lr1 (r_rdata _ r')) (r_err _ r') (sv ls1 (r_scratch _ r')))) with A2.
  split; [|split; [|split; [|split; [|split; [|split; [|split; [|split; [|split; [|split]]]]]]]]].
  - split; [assumption|]. exists cdv1. split; [apply rnth; assumption|]. split; [apply rnth_tr; assumption|]. assumption.
  - reflexivity.
  - split; [unfold rst, GoCp949.trs; cbn [objs]; now rewrite !set_nth_len|].
    intros q Hq1 Hq2. unfold rst, GoCp949.trs. cbn [objs]. now rewrite !nth_error_set_nth_ne by congruence.
  - assumption.
  - unfold A2. rewrite set_nth_len. assumption.
  - assumption.
  - assumption.
  - unfold A2. rewrite cell_set by lia. reflexivity.
  - intros j Hj Hjb Hjs Hjr. unfold A2. rewrite cell_set_ne by congruence. now apply Ka.
  - assumption.
  - exists (S N). intros w b D [|n] Hw HD Hmin Hwb Hn; [lia|]. specialize (Hrun w b D n n Hw HD Hmin Hwb ltac:(lia) ltac:(lia)).
    rewrite Hst, run_S. cbn [the get bind option_map prog_cp949 String.eqb Ascii.eqb Bool.eqb].
    eapply enter_ret; [reflexivity|reflexivity|]. rewrite read_is. cbn [f_params func_as f_cp949Reader_Read combine].
    eapply exec_Block.
    destruct err as [e|].
    + eapply execs_cons; [rewrite exec_While; exact Hrun|].
      destruct Herr as [-> He]; [discriminate|]. eapply execs_stop; [|discriminate].
      cbn. rewrite rf_err, He by assumption. reflexivity.
    + eapply execs_stop; [|discriminate]. rewrite exec_While. exact Hrun.
Qed.

Lemma go_NewReader A O X : nil_ok A ->
  exists s, is_reader s (S (length O)) (length O) 0 0 (NewReader X) /\ ext E s = X /\ arrs _ s = A /\
    (forall q, (q < length O)%nat -> nth_error (objs E s) q = nth_error O q) /\ length (objs E s) = S (S (length O)) /\
    forall w n, run w (S (S n)) "NewReader" [VExt kx] (mk A O X) = Ok (VTuple [VPtr (S (length O)); VErr None], s).
Proof.
  intros Hn.
  set (t0 := tr "translateFromCp949" fromTable (VSlice 0 0 0 0)).
  set (r0 := rob (length O) (VSlice 0 0 0 0) (VSlice 0 0 0 0) None).
  exists (mk A (O ++ [t0; r0]) X). split; [|split; [reflexivity|]; split; [reflexivity|]; split; [|split]].
  - split; [lia|]. exists (VSlice 0 0 0 0). cbn [objs arrs]. split; [|split; [|now apply nil_rinv]].
    + rewrite nth_error_app2 by lia. replace (S (length O) - length O)%nat with 1%nat by lia. reflexivity.
    + rewrite nth_error_app2 by lia. rewrite Nat.sub_diag. reflexivity.
  - intros q Hq. cbn [objs]. now rewrite nth_error_app1.
  - cbn [objs]. rewrite app_length. cbn. lia.
  - intros w n. rewrite run_S. cbn [the get bind option_map prog_cp949 String.eqb Ascii.eqb Bool.eqb].
    eapply enter_ret; [reflexivity|reflexivity|]. cbn [f_body func_as f_NewReader f_params combine stmt_as expr_as lhs_as int_as map].
    eapply exec_Block. eapply execs_cons; [eapply exec_Define; [apply go_fromCp949|reflexivity]|]. cbn [combine app].
    unfold GoCp949.trs. rewrite set_nth_last. change (sv 0 nil_slice) with (VSlice 0 0 0 0). fold t0.
    eapply execs_cons; [eapply exec_If; [reflexivity|]|].
    { eapply exec_Block. reflexivity. }
    cbn [leave length Nat.sub skipn].
    eapply execs_stop; [|discriminate]. cbn. rewrite app_length. cbn [length]. rewrite Nat.add_1_r, <- app_assoc. reflexivity.
Qed.

(** * The writer *)

Lemma go_Write s p pt ls wtr ld od nd cd data k err w' :
  is_writer s p pt ls wtr -> ext E s = w_dst _ wtr ->
  input (arrs _ s) ld od nd cd data -> sep (arrs _ s) ld ls -> Forall is_byte data ->
  Write grow E wr_model wtr data = Ok (k, err, w') ->
  exists s' ls', is_writer s' p pt ls' w' /\ ext E s' = w_dst _ w' /\ same_objs s s' p pt /\
    grows (arrs _ s) ls (arrs _ s') ls' /\
    exists N, forall w b n, wide w b -> zlen data <= b -> (N <= n)%nat ->
      run w n "cp949Writer.Write" [VPtr p; VSlice ld od nd cd] s = Ok (VTuple [VInt k; VErr err], s').
Proof.
  intros (Hne & Hop & Hot & Hr & Hbuf) Hx Hi Hsep Hb H.
  destruct s as [A O X0]. cbn [arrs objs ext] in *. subst X0.
  assert (Hp : (p < length O)%nat) by (apply nth_error_Some; congruence).
  assert (Hpt : (pt < length O)%nat) by (apply nth_error_Some; congruence).
  destruct wtr as [X scr buf]. cbn [w_dst w_scratch w_buf] in *. subst buf. unfold Write in H.
  cbn [w_dst w_scratch w_buf zlen length Z.of_nat Z.gtb Z.compare] in H.
  change (0 >? 0) with false in H. cbv iota in H.
  pose proof (input_len _ _ _ _ _ _ Hi) as Hnd. subst nd.
  destruct (to_Translate_spec grow scr data (proj2 (proj2 Hr)) Hb) as (scr1 & Hok1 & Hc1 & Ht).
  rewrite Ht in H. cbn [bind] in H.
  set (O1 := set_nth p (wob pt) O).
  assert (Hpt1 : (pt < length O1)%nat) by (unfold O1; now rewrite set_nth_len).
  destruct (go_to_Translate grow E rd wr O1 X pt "translateToCp949" toTable ld A ls scr data od (zlen data) cd _ _ _ _
     Hpt1 Hr Hi Hsep Ht) as (A1 & ls1 & Hr1 & Hg1 & _ & _ & N & Hrun).
  assert (Hzl : zlen data <? zlen data = false) by lia.
  rewrite Hzl in H.
  destruct (if zlen data >? 0 then wr_model X (contents scr1) else (None, X)) as [e X1] eqn:Hw.
  exists (wst A1 O X1 p pt (sv ls1 scr1)), ls1.
  assert (Hw' : w' = mkWriter E X1 scr1 [] /\ k = match e with None => zlen data | Some _ => 0 end /\ err = e)
    by (destruct e; injection H as <- <- <-; auto).
  clear H. destruct Hw' as (-> & -> & ->).
  split; [|split; [reflexivity|split; [|split; [exact Hg1|]]]].
  { split; [assumption|]. split; [apply wnth; assumption|]. cbn [w_dst w_scratch w_buf]. split; [|auto].
    unfold wst, GoCp949.trs. cbn [objs]. apply nth_error_set_nth. now rewrite set_nth_len. }
  { split; [unfold wst, GoCp949.trs; cbn [objs]; now rewrite !set_nth_len|].
    intros q Hq1 Hq2. unfold wst, GoCp949.trs. cbn [objs]. now rewrite !nth_error_set_nth_ne by congruence. }
  assert (Hst : mk A O X = wst A O X p pt (sv ls scr)).
  { unfold wst, GoCp949.trs. rewrite (set_nth_id p) by assumption. rewrite set_nth_id by assumption. reflexivity. }
  exists (S N). intros w b [|n] Hwide Hwb Hn; [lia|].
  cbn [w_dst]. rewrite Hst, run_S. cbn [the get bind option_map prog_cp949 String.eqb Ascii.eqb Bool.eqb].
  eapply enter_ret; [reflexivity|reflexivity|]. cbn [f_body func_as f_cp949Writer_Write f_params combine stmt_as expr_as lhs_as int_as map].
  eapply exec_Block. eapply execs_cons; [eapply exec_Define; reflexivity|]. cbn [combine app].
  eapply execs_cons; [eapply exec_If|].
  { cbn. rewrite wf_buf by assumption. reflexivity. }
  { eapply exec_Block. reflexivity. }
  cbn [leave length Nat.sub skipn].
  eapply execs_cons; [eapply exec_Define|].
  { cbn. rewrite wf_tr by assumption. cbn.
    rewrite nth_error_set_nth by (rewrite set_nth_len; assumption). cbn. apply (Hrun w b); [assumption|lia|lia]. }
  { reflexivity. }
  cbn [combine app]. change (trs A1 O1 X pt "translateToCp949" toTable (sv ls1 scr1)) with (wst A1 O X p pt (sv ls1 scr1)).
  eapply execs_cons; [eapply exec_If; [reflexivity|]|].
  { eapply exec_Block. reflexivity. }
  cbn [leave length Nat.sub skipn].
  assert (Hcells : cells E (wst A1 O X p pt (sv ls1 scr1)) ls1 0 (slen scr1) = contents scr1).
  { unfold cells, arr_at. change (arrs E (wst A1 O X p pt (sv ls1 scr1))) with A1. fold (cell A1 ls1).
    destruct Hr1 as (_ & -> & _). now rewrite zdrop_0. }
  set (env1 := fun v => [("n", VInt (zlen data)); ("cdata", sv ls1 scr1); ("err", VErr v); ("wdata", VSlice ld od (zlen data) cd);
                         ("w", VPtr p); ("data", VSlice ld od (zlen data) cd)]).
  assert (Hif : execs grow E rd wr (run w n) n
    [If (Cmp Gt (Var "n") (Lit 0))
      (Block [Assign [LBlank; LVar "err"] (Method (Field (Var "w") "w") "Write" [(Var "cdata")]);
       If (Cmp Ne (Var "err") NilErr) (Block [Return [(Lit 0); (Var "err")]]) (Block [])])
      (Block [])] (env1 None) (wst A1 O X p pt (sv ls1 scr1)) =
    Ok (match e with None => Next | Some _ => Ret (VTuple [VInt 0; VErr e]) end, env1 e, wst A1 O X1 p pt (sv ls1 scr1))).
  { destruct (zlen data >? 0) eqn:Hpos.
    - unfold wr_model in Hw. destruct (wr kx X (contents scr1)) as [[cnt e'] X1'] eqn:Hwr. injection Hw as -> ->.
      cbn [execs]. rewrite (exec_If _ _ _ _ _ _ _ _ _ _ _ true (wst A1 O X p pt (sv ls1 scr1))
          (Ok (match e with None => Next | Some _ => Ret (VTuple [VInt 0; VErr e]) end, env1 e, wst A1 O X1 p pt (sv ls1 scr1)))).
      + cbn [bind]. destruct e; reflexivity.
      + cbn. rewrite Hpos. reflexivity.
      + cbv iota. eapply exec_Block'.
        { eapply execs_cons.
          { cbn. rewrite wf_w by assumption. cbn. rewrite Hcells, Hwr. reflexivity. }
          cbn. destruct e; reflexivity. }
        reflexivity.
    - injection Hw as <- <-. eapply execs_cons; [|reflexivity].
      eapply exec_If; [cbn; rewrite Hpos; reflexivity|]. eapply exec_Block'. { reflexivity. } reflexivity. }
  destruct e as [e|].
  - cbn [execs] in Hif.
    match type of Hif with bind ?x _ = _ => destruct x as [[[c env'] s']| |] eqn:Hex end; try discriminate.
    cbn [bind] in Hif. eapply execs_stop; [|discriminate].
    destruct c; try discriminate. injection Hif as -> -> ->. exact Hex.
  - cbn [execs] in Hif.
    match type of Hif with bind ?x _ = _ => destruct x as [[[c env'] s']| |] eqn:Hex end; try discriminate.
    cbn [bind] in Hif. destruct c; try discriminate. injection Hif as -> ->.
    eapply execs_cons; [exact Hex|].
    eapply execs_cons; [eapply exec_Field|].
    { cbn. rewrite wf_buf by assumption. reflexivity. }
    { reflexivity. }
    { apply ws_buf; assumption. }
    eapply execs_cons; [eapply exec_If|].
    { cbn. rewrite Hzl. reflexivity. }
    { eapply exec_Block. reflexivity. }
    eapply execs_stop; [|discriminate]. reflexivity.
Qed.

Lemma go_NewWriter A O X : nil_ok A ->
  exists s, is_writer s (S (length O)) (length O) 0 (NewWriter X) /\ ext E s = X /\ arrs _ s = A /\
    (forall q, (q < length O)%nat -> nth_error (objs E s) q = nth_error O q) /\ length (objs E s) = S (S (length O)) /\
    forall w n, run w (S (S n)) "NewWriter" [VExt kx] (mk A O X) = Ok (VTuple [VPtr (S (length O)); VErr None], s).
Proof.
  intros Hn.
  set (t0 := tr "translateToCp949" toTable (VSlice 0 0 0 0)).
  set (r0 := wob (length O)).
  exists (mk A (O ++ [t0; r0]) X). split; [|split; [reflexivity|]; split; [reflexivity|]; split; [|split]].
  - split; [lia|]. cbn [objs arrs]. split; [|split; [|split; [now apply nil_ref|reflexivity]]].
    + rewrite nth_error_app2 by lia. replace (S (length O) - length O)%nat with 1%nat by lia. reflexivity.
    + rewrite nth_error_app2 by lia. rewrite Nat.sub_diag. reflexivity.
  - intros q Hq. cbn [objs]. now rewrite nth_error_app1.
  - cbn [objs]. rewrite app_length. cbn. lia.
  - intros w n. rewrite run_S. cbn [the get bind option_map prog_cp949 String.eqb Ascii.eqb Bool.eqb].
    eapply enter_ret; [reflexivity|reflexivity|]. cbn [f_body func_as f_NewWriter f_params combine stmt_as expr_as lhs_as int_as map].
    eapply exec_Block. eapply execs_cons; [eapply exec_Define; [apply go_toCp949|reflexivity]|]. cbn [combine app].
    unfold GoCp949.trs. rewrite set_nth_last. change (sv 0 nil_slice) with (VSlice 0 0 0 0). fold t0.
    eapply execs_cons; [eapply exec_If; [reflexivity|]|].
    { eapply exec_Block. reflexivity. }
    cbn [leave length Nat.sub skipn].
    eapply execs_stop; [|discriminate]. cbn. rewrite app_length. cbn [length]. rewrite Nat.add_1_r, <- app_assoc. reflexivity.
Qed.

Lemma go_transform_body f A A0 O X ldst odst ndst cdst dst src lsrc osrc csrc v r dn dv eof o dst' nDst nSrc e :
  dn = "d" \/ dn = "e" ->
  input A ldst odst ndst cdst dst -> keeps A A0 -> returns A A0 v r ->
  transform_of r dst src = (dst', nDst, nSrc, e) ->
  exists A', (length A <= length A')%nat /\ (forall j, (j < length A)%nat -> j <> ldst -> cell A' j = cell A j) /\
    input A' ldst odst ndst cdst dst' /\
    cell A' ldst = zwrite (cell A ldst) odst (match r with inl bs => ztake (Z.min ndst (zlen bs)) bs | inr _ => [] end) /\
    forall w n, run w n f [VSlice lsrc osrc (zlen src) csrc] (mk A O X) = Ok (v, mk A0 (O ++ [o]) X) ->
    exists env', exec w n (transform_body f)
      [("nDst", VInt 0); ("nSrc", VInt 0); ("err", VErr None); (dn, dv); ("dst", VSlice ldst odst ndst cdst);
       ("src", VSlice lsrc osrc (zlen src) csrc); ("atEOF", VBool eof)] (mk A O X) = 
      Ok (Ret (VTuple [VInt nDst; VInt nSrc; VErr e]), env', mk A' (O ++ [o]) X).
Proof.
  intros Hdn Hdst Hk Hret Htr. pose proof (input_keeps _ _ _ _ _ _ _ Hdst Hk) as Hdst0. pose proof Hk as [Hlen Hcell].
  pose proof (input_len _ _ _ _ _ _ Hdst) as Hnd.
  assert (Hl : (ldst < length A)%nat) by apply Hdst.
  destruct r as [bs|e0]; cbn [returns transform_of] in *.
  - destruct Hret as (l & n & c & -> & Hin & _). injection Htr as <- <- <- <-.
    pose proof (input_len _ _ _ _ _ _ Hin) as Hnb.
    set (k := Z.min ndst (zlen bs)). pose proof (zlen_nonneg bs) as Hb0.
    assert (Hn0 : 0 <= ndst) by apply Hdst.
    assert (Hzk : zlen (ztake k bs) = k) by (rewrite zlen_ztake; lia).
    exists (set_nth ldst (zwrite (cell A0 ldst) odst (ztake k bs)) A0).
    split; [now rewrite set_nth_len|]. split.
    { intros j Hj Hne. rewrite cell_set_ne by congruence. now apply Hcell. }
    split.
    { unfold go_copy. rewrite Hnd. fold k. apply input_zwrite; [assumption|lia]. }
    split; [rewrite cell_set by lia; now rewrite Hcell|].
    intros w m Hrun. eexists. unfold transform_body. eapply exec_Block.
    eapply execs_cons; [eapply exec_Define; [destruct Hdn as [-> | ->]; exact Hrun|reflexivity]|]. cbn [combine app].
    eapply execs_cons; [eapply exec_If; [reflexivity|]|].
    { eapply exec_Block. reflexivity. }
    cbn [leave length Nat.sub skipn].
    eapply execs_cons.
    { instantiate (1 := mk (set_nth ldst (zwrite (cell A0 ldst) odst (ztake k bs)) A0) (O ++ [o]) X).
      instantiate (1 := [("converted", VSlice l 0 n c); ("err", VErr None); ("nDst", VInt 0); ("nSrc", VInt 0); ("err", VErr None); (dn, dv);
        ("dst", VSlice ldst odst ndst cdst); ("src", VSlice lsrc osrc (zlen src) csrc); ("atEOF", VBool eof)]).
      destruct Hdn as [-> | ->]; cbn; unfold copy_to; subst n.
      all: fold k; unfold store, set_arr, arr_at, cells, arr_at; cbn [arrs objs ext].
      all: fold (cell A0 ldst); fold (cell A0 l).
      all: replace (ztake k (zdrop 0 (cell A0 l))) with (ztake k bs) by (destruct Hin as (_ & _ & _ & _ & Heq); rewrite zdrop_0 in *; rewrite Heq; apply ztake_ztake; lia); reflexivity. }
    eapply execs_stop; [|discriminate]. destruct Hdn as [-> | ->]; cbn; rewrite Hnb; reflexivity.
  - subst v. injection Htr as <- <- <- <-. exists A0.
    split; [assumption|]. split; [intros; now apply Hcell|]. split; [assumption|].
    split; [rewrite cell_zwrite_nil; now apply Hcell|].
    intros w m Hrun. eexists. unfold transform_body. eapply exec_Block.
    eapply execs_cons; [eapply exec_Define; [destruct Hdn as [-> | ->]; exact Hrun|reflexivity]|]. cbn [combine app].
    eapply execs_stop; [|discriminate]. eapply exec_If; [reflexivity|].
    eapply exec_Block. eapply execs_stop; [|discriminate]. reflexivity.
Qed.

Lemma go_dec_Transform A O X p ldst odst ndst cdst dst lsrc osrc nsrc csrc src eof dst' nDst nSrc e :
  nil_ok A -> input A ldst odst ndst cdst dst -> input A lsrc osrc nsrc csrc src -> Forall is_byte src ->
  dec_Transform grow dst src eof = Ok (dst', nDst, nSrc, e) ->
  exists A', (length A <= length A')%nat /\ (forall j, (j < length A)%nat -> j <> ldst -> cell A' j = cell A j) /\
    input A' ldst odst ndst cdst dst' /\
    ztake odst (cell A' ldst) = ztake odst (cell A ldst) /\
    zdrop (odst + ndst) (cell A' ldst) = zdrop (odst + ndst) (cell A ldst) /\
    exists o N, forall w b n, wide w b -> 5 * (2 * zlen src) + 8212 <= 4 * b -> (N <= n)%nat ->
      run w n "cp949Decoder.Transform" [VPtr p; VSlice ldst odst ndst cdst; VSlice lsrc osrc nsrc csrc; VBool eof] (mk A O X) =
      Ok (VTuple [VInt nDst; VInt nSrc; VErr e], mk A' (O ++ [o]) X).
Proof.
  intros Hnil Hdst Hsrc Hb H. unfold dec_Transform in H.
  destruct (From grow src) as [r| |] eqn:Hf; try discriminate. cbn [bind] in H.
  destruct (go_From grow E rd wr A O X lsrc osrc nsrc csrc src r Hnil Hsrc Hb Hf) as (A0 & v & Hk & Hret & o & N & Hrun).
  assert (Htr : transform_of r dst src = (dst', nDst, nSrc, e)) by (destruct r; injection H as <- <- <- <-; reflexivity).
  pose proof (input_len _ _ _ _ _ _ Hsrc) as Hns. subst nsrc.
  destruct (go_transform_body "From" A A0 O X ldst odst ndst cdst dst src lsrc osrc csrc v r "d" (VPtr p) eof o dst' nDst nSrc e
    (or_introl eq_refl) Hdst Hk Hret Htr) as (A' & Hlen & Hcell & Hin & Hw & Hex).
  exists A'. split; [assumption|]. split; [assumption|]. split; [assumption|].
  destruct (window A ldst odst ndst cdst dst _ A' Hdst Hw) as [Hl Hr].
  { destruct r as [bs|]; [|rewrite zlen_nil; apply Hdst]. rewrite zlen_ztake; [lia|].
    pose proof (zlen_nonneg bs). destruct Hdst as (_ & _ & ? & _). lia. }
  split; [assumption|]. split; [assumption|].
  exists o, (S N). intros w b [|n] Hwide Hwb Hn; [lia|]. destruct (Hex w n (Hrun w b n Hwide ltac:(lia) ltac:(lia))) as (env' & Hexec).
  rewrite run_S. cbn [the get bind option_map prog_cp949 String.eqb Ascii.eqb Bool.eqb].
  eapply enter_ret; [reflexivity|reflexivity|]. exact Hexec.
Qed.

Lemma go_enc_Transform A O X p ldst odst ndst cdst dst lsrc osrc nsrc csrc src eof dst' nDst nSrc e :
  nil_ok A -> input A ldst odst ndst cdst dst -> input A lsrc osrc nsrc csrc src ->
  enc_Transform grow dst src eof = Ok (dst', nDst, nSrc, e) ->
  exists A', (length A <= length A')%nat /\ (forall j, (j < length A)%nat -> j <> ldst -> cell A' j = cell A j) /\
    input A' ldst odst ndst cdst dst' /\
    ztake odst (cell A' ldst) = ztake odst (cell A ldst) /\
    zdrop (odst + ndst) (cell A' ldst) = zdrop (odst + ndst) (cell A ldst) /\
    exists o N, forall w b n, wide w b -> zlen src <= b -> (N <= n)%nat ->
      run w n "cp949Encoder.Transform" [VPtr p; VSlice ldst odst ndst cdst; VSlice lsrc osrc nsrc csrc; VBool eof] (mk A O X) =
      Ok (VTuple [VInt nDst; VInt nSrc; VErr e], mk A' (O ++ [o]) X).
Proof.
  intros Hnil Hdst Hsrc H. unfold enc_Transform in H.
  destruct (To grow src) as [r| |] eqn:Hf; try discriminate. cbn [bind] in H.
  destruct (go_To grow E rd wr A O X lsrc osrc nsrc csrc src r Hnil Hsrc Hf) as (A0 & v & Hk & Hret & o & N & Hrun).
  assert (Htr : transform_of r dst src = (dst', nDst, nSrc, e)) by (destruct r; injection H as <- <- <- <-; reflexivity).
  pose proof (input_len _ _ _ _ _ _ Hsrc) as Hns. subst nsrc.
  destruct (go_transform_body "To" A A0 O X ldst odst ndst cdst dst src lsrc osrc csrc v r "e" (VPtr p) eof o dst' nDst nSrc e
    (or_intror eq_refl) Hdst Hk Hret Htr) as (A' & Hlen & Hcell & Hin & Hw & Hex).
  exists A'. split; [assumption|]. split; [assumption|]. split; [assumption|].
  destruct (window A ldst odst ndst cdst dst _ A' Hdst Hw) as [Hl Hr].
  { destruct r as [bs|]; [|rewrite zlen_nil; apply Hdst]. rewrite zlen_ztake; [lia|].
    pose proof (zlen_nonneg bs). destruct Hdst as (_ & _ & ? & _). lia. }
  split; [assumption|]. split; [assumption|].
  exists o, (S N). intros w b [|n] Hwide Hwb Hn; [lia|]. destruct (Hex w n (Hrun w b n Hwide ltac:(lia) ltac:(lia))) as (env' & Hexec).
  rewrite run_S. cbn [the get bind option_map prog_cp949 String.eqb Ascii.eqb Bool.eqb].
  eapply enter_ret; [reflexivity|reflexivity|]. exact Hexec.
Qed.

End Run.
