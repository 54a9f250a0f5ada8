(** bufio.Scanner over any reader that delivers a text: lemmas behind C113 and C114. *)
From Coq Require Import ZArith List Bool Lia.
From Coq Require Import ZifyBool.
From Verif Require Import Base Spec Facts Utf8 Utf8Facts SliceFacts SpecCp949 SpecIO Cp949Model StreamModel BufioModel.
Import ListNotations.
Local Open Scope Z_scope.

Section ScanFacts.
Variable S : Type.
Variable rd : S -> Z -> res (list Z * option error * S).
Variable split : split_func.
Variable e : error.
Variable I : S -> list Z -> Prop.           (* what is left to read *)
Hypothesis rd_ok : forall s rem size, I s rem -> 0 < size -> exists p err s' rem',
  rd s size = Ok (p, err, s') /\ rem = p ++ rem' /\ zlen p <= size /\
  match err with
  | None => p <> [] /\ I s' rem'
  | Some e' => e' = e /\ rem' = [] /\ p = []
  end.

(** The scanner has [T] still to hand out. *)
Definition left_over (s : scanner S) (T : list Z) : Prop :=
  0 <= sc_start _ s /\ sc_start _ s + zlen (sc_pend _ s) <= sc_len _ s <= MaxScanTokenSize /\
  exists rem, T = sc_pend _ s ++ rem /\
    match sc_err _ s with
    | None => I (sc_src _ s) rem
    | Some e' => e' = e /\ rem = [] /\ sc_start _ s + zlen (sc_pend _ s) < sc_len _ s
    end.

Lemma new_left_over s T : I s T -> left_over (NewScanner S s) T.
Proof.
  intros H. unfold left_over, NewScanner. cbn [sc_start sc_pend sc_len sc_err sc_src]. cbn [zlen length].
  unfold MaxScanTokenSize. split; [lia|]. split; [cbn; lia|]. exists T. auto.
Qed.

(** One round of the loop without a token: the buffer gets longer, or the end is noticed. *)
Lemma more_step s T rem : left_over s T -> sc_err _ s = None -> T = sc_pend _ s ++ rem -> I (sc_src _ s) rem ->
  zlen (sc_pend _ s) < MaxScanTokenSize ->
  exists s2 s3, enlarge S (shift S s) = Some s2 /\ read_more S rd (Z.to_nat (maxConsecutiveEmptyReads + 1)) s2 = Ok s3 /\
    left_over s3 T /\
    exists rem', T = sc_pend _ s3 ++ rem' /\
      match sc_err _ s3 with
      | None => (length rem' < length rem)%nat /\ sc_pend _ s3 <> [] /\ I (sc_src _ s3) rem'
      | Some e' => rem = [] /\ rem' = [] /\ e' = e /\ sc_pend _ s3 = sc_pend _ s
      end.
Proof.
  intros (H0 & H1 & _) He HT HI Hs. pose proof (zlen_nonneg (sc_pend _ s)) as Hn.
  assert (exists s2, enlarge S (shift S s) = Some s2 /\ sc_src _ s2 = sc_src _ s /\ sc_pend _ s2 = sc_pend _ s /\
    sc_err _ s2 = None /\ 0 <= sc_start _ s2 /\ sc_start _ s2 + zlen (sc_pend _ s) < sc_len _ s2 <= MaxScanTokenSize)
    as (s2 & E2 & Es & Ep & Ee & Hst & Hl).
  { unfold shift. destruct (0 <? sc_start S s) eqn:B1; cbn [andb].
    - destruct (Z.eqb_spec (sc_start S s + zlen (sc_pend S s)) (sc_len S s)) as [B2|B2]; cbn [orb].
      + unfold enlarge. cbn [sc_start sc_pend sc_len sc_src sc_err sc_empties].
        destruct (Z.eqb_spec (0 + zlen (sc_pend S s)) (sc_len S s)); [lia|].
        eexists. split; [reflexivity|]. cbn [sc_start sc_pend sc_len sc_src sc_err]. repeat (split; [auto; lia|]). lia.
      + destruct (go_div (sc_len S s) 2 <? sc_start S s).
        * unfold enlarge. cbn [sc_start sc_pend sc_len sc_src sc_err sc_empties].
          destruct (Z.eqb_spec (0 + zlen (sc_pend S s)) (sc_len S s)); [lia|].
          eexists. split; [reflexivity|]. cbn [sc_start sc_pend sc_len sc_src sc_err]. repeat (split; [auto; lia|]). lia.
        * unfold enlarge. destruct (Z.eqb_spec (sc_start S s + zlen (sc_pend S s)) (sc_len S s)); [lia|].
          eexists. split; [reflexivity|]. repeat (split; [auto; lia|]). lia.
    - unfold enlarge. destruct (Z.eqb_spec (sc_start S s + zlen (sc_pend S s)) (sc_len S s)) as [B2|B2].
      + destruct (Z.leb_spec MaxScanTokenSize (sc_len S s)); [lia|].
        eexists. split; [reflexivity|]. cbn [sc_start sc_pend sc_len sc_src sc_err]. repeat (split; [auto; lia|]).
        unfold MaxScanTokenSize, startBufSize in *.
        destruct (Z.eqb_spec (sc_len S s * 2) 0); lia.
      + eexists. split; [reflexivity|]. repeat (split; [auto; lia|]). lia. }
  exists s2. rewrite E2. change (Z.to_nat (maxConsecutiveEmptyReads + 1)) with (Datatypes.S 100). generalize 100%nat as loops. intros loops.
  cbn [read_more]. rewrite Es, Ep.
  destruct (rd_ok _ _ (sc_len S s2 - (sc_start S s2 + zlen (sc_pend S s))) HI) as (p & err & s' & rem' & -> & Er & Hle & Hres); [lia|].
  cbn [bind]. destruct (Z.ltb_spec (sc_len S s2 - (sc_start S s2 + zlen (sc_pend S s))) (zlen p)); [lia|].
  pose proof (zlen_nonneg p) as Hp0.
  destruct err as [e'|].
  - destruct Hres as (-> & -> & ->). cbn [app] in Er. subst rem. rewrite app_nil_r in *. eexists. split; [reflexivity|]. split; [reflexivity|].
    unfold setErr. cbn [sc_start sc_pend sc_len sc_src sc_err sc_empties]. rewrite Ee. split.
    + unfold left_over. cbn [sc_start sc_pend sc_len sc_src sc_err]. split; [lia|]. split; [lia|].
      exists []. rewrite app_nil_r. split; [exact HT|]. split; [reflexivity|]. split; [reflexivity|lia].
    + exists []. rewrite app_nil_r. auto.
  - destruct Hres as [Hne HI']. destruct p as [|x p]; [congruence|]. set (c := x :: p) in *.
    assert (0 < zlen c) as Hpos by (subst c; rewrite zlen_cons; pose proof (zlen_nonneg p); lia).
    destruct (Z.ltb_spec 0 (zlen c)); [|lia]. eexists. split; [reflexivity|]. split; [reflexivity|].
    cbn [sc_start sc_pend sc_len sc_src sc_err sc_empties]. rewrite Ee. split.
    + unfold left_over. cbn [sc_start sc_pend sc_len sc_src sc_err]. rewrite zlen_app. split; [lia|]. split; [lia|].
      exists rem'. rewrite <- app_assoc, <- Er. auto.
    + exists rem'. rewrite <- app_assoc, <- Er. split; [exact HT|]. split.
      * rewrite Er, app_length. subst c. cbn. lia.
      * split; [|exact HI']. intros Hx. apply app_eq_nil in Hx as [_ Hx]. congruence.
Qed.

(** The first token of [T] is [t], and it takes up the first [a] bytes. *)
Variable next : list Z -> Z -> list Z -> Prop.
Hypothesis split_end : split [] true = Ok (0, None, None).
Hypothesis split_whole : forall T a t, next T a t -> split T true = Ok (a, Some t, None) /\ 0 < a <= zlen T.
Hypothesis split_part : forall T a t p q, next T a t -> T = p ++ q -> p <> [] ->
  (split p false = Ok (a, Some t, None) /\ a <= zlen p) \/
  (split p false = Ok (0, None, None) /\ zlen p < MaxScanTokenSize).

Lemma take_token s T a : left_over s T -> 0 < a <= zlen (sc_pend _ s) -> forall em,
  left_over (mkScanner S (sc_src _ s) (sc_len _ s) (sc_start _ s + a) (zdrop a (sc_pend _ s)) (sc_err _ s) em) (zdrop a T).
Proof.
  intros (H0 & H1 & rem & -> & H2) Ha em. unfold left_over. cbn [sc_start sc_pend sc_len sc_src sc_err].
  rewrite zlen_zdrop by lia. split; [lia|]. split; [lia|]. exists rem. rewrite zdrop_app_l by lia. split; [reflexivity|].
  destruct (sc_err _ s); [|exact H2]. destruct H2 as (-> & -> & H2). split; [reflexivity|]. split; [reflexivity|lia].
Qed.

Lemma no_advance (s : scanner S) : mkScanner S (sc_src _ s) (sc_len _ s) (sc_start _ s + 0) (zdrop 0 (sc_pend _ s)) (sc_err _ s) (sc_empties _ s) = s.
Proof. destruct s. cbn. rewrite Z.add_0_r. reflexivity. Qed.

Lemma scan_token : forall fuel s T a t rem, left_over s T -> next T a t -> T = sc_pend _ s ++ rem ->
  (length rem + 1 < fuel)%nat -> exists s', Scan S rd split fuel s = Ok (Some t, s') /\ left_over s' (zdrop a T).
Proof.
  induction fuel as [|fuel IH]; intros s T a t rem Hl Hn HT Hf; [lia|]. cbn [Scan].
  destruct (split_whole _ _ _ Hn) as [Hw Ha].
  assert (forall u, left_over u T -> sc_err _ u = None -> I (sc_src _ u) rem -> T = sc_pend _ u ++ rem ->
    zlen (sc_pend _ u) < MaxScanTokenSize -> exists s',
    match enlarge S (shift S u) with
        | None => Ok (None, setErr S (shift S u) ErrTooLong)
        | Some s => bind (read_more S rd (Z.to_nat (maxConsecutiveEmptyReads + 1)) s) (fun s => Scan S rd split fuel s)
    end = Ok (Some t, s') /\ left_over s' (zdrop a T)) as Hmore.
  { intros u Hu Eu HI HT' Hlt. destruct (more_step u T rem Hu Eu HT' HI Hlt) as (s2 & s3 & -> & -> & H3 & rem' & HT3 & H4).
    cbn [bind]. destruct (sc_err _ s3) as [e'|] eqn:E3.
    - destruct H4 as (-> & -> & -> & Hp). rewrite app_nil_r in HT3.
      destruct fuel as [|f]; [cbn in Hf; lia|]. cbn [Scan]. rewrite E3. rewrite orb_true_r.
      rewrite <- HT3, Hw. cbn [bind]. destruct (Z.ltb_spec a 0); [lia|]. destruct (Z.ltb_spec (zlen T) a); [lia|].
      destruct (Z.ltb_spec 0 a); [|lia]. cbn [negb orb]. eexists. split; [reflexivity|].
      replace T with (sc_pend _ s3) at 1. rewrite <- E3. apply take_token; [exact H3|]. rewrite <- HT3. lia.
    - destruct H4 as (H4 & H5 & H6). apply (IH s3 T a t rem' H3 Hn HT3). lia. }
  destruct Hl as (H0 & H1 & rem0 & E0 & H2). assert (rem0 = rem) as -> by (rewrite HT in E0; apply app_inv_head in E0; auto).
  assert (left_over s T) as Hl by (repeat split; eauto; lia).
  destruct (sc_err _ s) as [e'|] eqn:Es.
  - rewrite orb_true_r. destruct H2 as (-> & -> & H2). rewrite app_nil_r in HT. rewrite <- HT, Hw. cbn [bind].
    destruct (Z.ltb_spec a 0); [lia|]. destruct (Z.ltb_spec (zlen T) a); [lia|].
    destruct (Z.ltb_spec 0 a); [|lia]. cbn [negb orb]. eexists. split; [reflexivity|].
    rewrite HT at 1. rewrite <- Es. apply take_token; [exact Hl|]. rewrite <- HT. lia.
  - rewrite orb_false_r. destruct (Z.ltb_spec 0 (zlen (sc_pend S s))) as [Hp|Hp].
    + assert (sc_pend _ s <> []) as Hne by (intros E; rewrite E in Hp; cbn in Hp; lia).
      destruct (split_part T a t (sc_pend _ s) rem Hn HT Hne) as [[-> Hle]|[-> Hlt]]; cbn [bind].
      * destruct (Z.ltb_spec a 0); [lia|]. destruct (Z.ltb_spec (zlen (sc_pend S s)) a); [lia|].
        cbn [negb orb]. eexists. split; [reflexivity|]. rewrite <- Es. apply take_token; [exact Hl|lia].
      * cbn [Z.ltb]. change (0 <? 0) with false. destruct (Z.ltb_spec (zlen (sc_pend S s)) 0); [lia|].
        cbv iota zeta. rewrite <- Es, no_advance, Es. apply Hmore; auto.
    + cbv zeta. apply Hmore; auto. unfold MaxScanTokenSize. lia.
Qed.

Lemma scan_end : forall fuel s, left_over s [] -> (1 < fuel)%nat ->
  exists s', Scan S rd split fuel s = Ok (None, s') /\ sc_err _ s' = Some e.
Proof.
  intros [|fuel] s Hl Hf; [lia|]. cbn [Scan].
  destruct Hl as (H0 & H1 & rem & E & H2). symmetry in E. pose proof E as E'. apply app_eq_nil in E' as [Ep ->].
  rewrite app_nil_r in E.
  assert (left_over s []) as Hl by (repeat split; try lia; exists []; rewrite app_nil_r; auto).
  rewrite Ep. cbn [zlen length Z.of_nat Z.ltb Z.compare orb]. destruct (sc_err _ s) as [e'|] eqn:Es.
  - destruct H2 as (-> & _ & H2). rewrite split_end. cbn [bind].
    change (0 <? 0) with false. cbv iota zeta. cbn [sc_err sc_src sc_len sc_empties]. eexists. split; [reflexivity|]. reflexivity.
  - destruct (more_step s [] [] Hl Es) as (s2 & s3 & -> & -> & H3 & rem' & HT3 & H4); [rewrite Ep; reflexivity|exact H2|rewrite Ep; reflexivity|].
    cbn [bind]. destruct (sc_err _ s3) as [e'|] eqn:E3; [|cbn in H4; lia].
    destruct H4 as (_ & _ & -> & Hp). destruct fuel as [|f]; [lia|]. cbn [Scan]. rewrite E3, Hp, Ep.
    cbn [zlen length Z.of_nat Z.ltb Z.compare orb]. rewrite split_end. cbn [bind].
    change (0 <? 0) with false. cbv iota zeta. cbn [sc_err sc_src sc_len sc_empties]. eexists. split; [reflexivity|]. reflexivity.
Qed.

(** A token that does not fit. *)
Lemma scan_long : forall fuel s T rem, left_over s T -> T = sc_pend _ s ++ rem -> MaxScanTokenSize <= zlen T ->
  (forall p q, T = p ++ q -> p <> [] -> zlen p <= MaxScanTokenSize -> split p false = Ok (0, None, None)) ->
  (length rem + 1 < fuel)%nat ->
  exists s', Scan S rd split fuel s = Ok (None, s') /\ sc_err _ s' = Some ErrTooLong.
Proof.
  induction fuel as [|fuel IH]; intros s T rem Hl HT Hlen Hsp Hf; [lia|]. cbn [Scan].
  destruct Hl as (H0 & H1 & rem0 & E0 & H2). assert (rem0 = rem) as -> by (rewrite HT in E0; apply app_inv_head in E0; auto).
  assert (left_over s T) as Hl by (repeat split; eauto; lia).
  destruct (sc_err _ s) as [e'|] eqn:Es.
  { destruct H2 as (-> & -> & H2). rewrite app_nil_r in HT. rewrite <- HT in H1, H2. lia. }
  rewrite orb_false_r.
  assert (exists s', match enlarge S (shift S s) with
        | None => Ok (None, setErr S (shift S s) ErrTooLong)
        | Some s => bind (read_more S rd (Z.to_nat (maxConsecutiveEmptyReads + 1)) s) (fun s => Scan S rd split fuel s)
    end = Ok (None, s') /\ sc_err _ s' = Some ErrTooLong) as Hmore.
  { destruct (Z.lt_ge_cases (zlen (sc_pend S s)) MaxScanTokenSize) as [Hlt|Hge].
    - destruct (more_step s T rem Hl Es HT H2 Hlt) as (s2 & s3 & -> & -> & H3 & rem' & HT3 & H4).
      cbn [bind]. destruct (sc_err _ s3) as [e'|] eqn:E3.
      + destruct H4 as (-> & -> & _ & Hp). rewrite app_nil_r in HT. rewrite <- HT in Hlt. lia.
      + apply (IH s3 T rem' H3 HT3 Hlen Hsp). lia.
    - assert (sc_start S s = 0) as Hz by lia. assert (sc_len S s = MaxScanTokenSize) as Hz2 by lia.
      unfold shift. rewrite Hz. cbn [Z.ltb Z.compare andb]. unfold enlarge. rewrite Hz.
      destruct (Z.eqb_spec (0 + zlen (sc_pend S s)) (sc_len S s)); [|lia].
      destruct (Z.leb_spec MaxScanTokenSize (sc_len S s)); [|lia]. eexists. split; [reflexivity|].
      unfold setErr. cbn [sc_err]. rewrite Es. reflexivity. }
  destruct (Z.ltb_spec 0 (zlen (sc_pend S s))) as [Hp|Hp].
  - assert (sc_pend _ s <> []) as Hne by (intros E; rewrite E in Hp; cbn in Hp; lia).
    rewrite (Hsp _ rem HT Hne) by lia. cbn [bind]. change (0 <? 0) with false.
    destruct (Z.ltb_spec (zlen (sc_pend S s)) 0); [lia|]. cbv iota zeta. rewrite <- Es, no_advance, Es. exact Hmore.
  - exact Hmore.
Qed.

(** All tokens of a text: [t] takes up [a] bytes at the front, and so on; [rest] remains. *)
Inductive tokens : list Z -> list (list Z) -> list Z -> Prop :=
| tokens_nil T : tokens T [] T
| tokens_cons T a t ts rest : next T a t -> tokens (zdrop a T) ts rest -> tokens T (t :: ts) rest.

Lemma scan_all : forall T ts rest, tokens T ts rest -> forall fuel s, left_over s T ->
  (length T + 2 < fuel)%nat ->
  exists fuel' s', left_over s' rest /\ (length rest + 2 < fuel')%nat /\
    ScanAll S rd split fuel s = bind (ScanAll S rd split fuel' s') (fun r => Ok (ts ++ fst r, snd r)).
Proof.
  induction 1 as [T|T a t ts rest Hn Ht IH]; intros fuel s Hl Hf.
  - exists fuel, s. split; [exact Hl|]. split; [exact Hf|]. destruct (ScanAll S rd split fuel s) as [[]| |]; reflexivity.
  - destruct (split_whole _ _ _ Hn) as [_ Ha]. destruct fuel as [|fuel]; [lia|].
    pose proof Hl as (_ & _ & rem & E & _).
    destruct (scan_token (Datatypes.S fuel) s T a t rem Hl Hn E) as (s1 & E1 & Hl1).
    { rewrite E, app_length in Hf. lia. }
    destruct (IH fuel s1 Hl1) as (fuel' & s' & H1 & H2 & H3).
    { apply (f_equal (@length Z)) in E. unfold zdrop, zlen in *. rewrite skipn_length. lia. }
    exists fuel', s'. split; [exact H1|]. split; [exact H2|].
    cbn [ScanAll]. rewrite E1. cbn [bind]. rewrite H3.
    destruct (ScanAll S rd split fuel' s') as [[]| |]; reflexivity.
Qed.

Lemma scan_all_end T ts fuel s : tokens T ts [] -> left_over s T -> (length T + 2 < fuel)%nat ->
  ScanAll S rd split fuel s = Ok (ts, match e with EOF => None | _ => Some e end).
Proof.
  intros Ht Hl Hf. destruct (scan_all T ts [] Ht fuel s Hl Hf) as (fuel' & s' & H1 & H2 & ->).
  destruct fuel' as [|f]; [cbn in H2; lia|]. destruct (scan_end (Datatypes.S f) s' H1) as (s2 & E2 & E3); [cbn in H2; lia|].
  cbn [ScanAll]. rewrite E2. cbn [bind fst snd]. rewrite app_nil_r. unfold Err. rewrite E3. destruct e; reflexivity.
Qed.

Lemma scan_all_long T ts rest fuel s : tokens T ts rest -> left_over s T -> (length T + 2 < fuel)%nat ->
  MaxScanTokenSize <= zlen rest ->
  (forall p q, rest = p ++ q -> p <> [] -> zlen p <= MaxScanTokenSize -> split p false = Ok (0, None, None)) ->
  ScanAll S rd split fuel s = Ok (ts, Some ErrTooLong).
Proof.
  intros Ht Hl Hf Hlen Hsp. destruct (scan_all T ts rest Ht fuel s Hl Hf) as (fuel' & s' & H1 & H2 & ->).
  destruct fuel' as [|f]; [lia|]. pose proof H1 as (_ & _ & rem & E & _).
  destruct (scan_long (Datatypes.S f) s' rest rem H1 E Hlen Hsp) as (s2 & E2 & E3).
  { rewrite E, app_length in H2. lia. }
  cbn [ScanAll]. rewrite E2. cbn [bind fst snd]. rewrite app_nil_r. unfold Err. rewrite E3. reflexivity.
Qed.
End ScanFacts.
