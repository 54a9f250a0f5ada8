(** bufio.Scanner with a split function that skips bytes: as in BufioFacts.v, except that the
    split function may advance without a token. *)
From Coq Require Import ZArith List Bool Lia.
From Coq Require Import ZifyBool.
From Verif Require Import Base Spec Facts Utf8 Utf8Facts SliceFacts SpecCp949 SpecIO Cp949Model StreamModel BufioModel BufioFacts.
Import ListNotations.
Local Open Scope Z_scope.

Section ScanFacts.
Variable S : Type.
Variable rd : S -> Z -> res (list Z * option error * S).
Variable split : split_func.
Variable e : error.
Variable I : S -> list Z -> Prop.
Hypothesis rd_ok : forall s rem size, I s rem -> 0 < size -> exists p err s' rem',
  rd s size = Ok (p, err, s') /\ rem = p ++ rem' /\ zlen p <= size /\
  match err with
  | None => p <> [] /\ I s' rem'
  | Some e' => e' = e /\ rem' = [] /\ p = []
  end.
Notation left_over := (left_over S e I).
Definition skipped (s : scanner S) (st : Z) : scanner S :=
  mkScanner S (sc_src _ s) (sc_len _ s) (sc_start _ s + st) (zdrop st (sc_pend _ s)) (sc_err _ s) (sc_empties _ s).
Lemma skip_left s T st : left_over s T -> 0 <= st <= zlen (sc_pend _ s) -> forall em,
  left_over (mkScanner S (sc_src _ s) (sc_len _ s) (sc_start _ s + st) (zdrop st (sc_pend _ s)) (sc_err _ s) em) (zdrop st T).
Proof.
  intros (H0 & H1 & rem & -> & H2) Ha em. unfold BufioFacts.left_over. cbn [sc_start sc_pend sc_len sc_src sc_err].
  rewrite zlen_zdrop by lia. split; [lia|]. split; [lia|]. exists rem. rewrite zdrop_app_l by lia. split; [reflexivity|].
  destruct (sc_err _ s); [|exact H2]. destruct H2 as (-> & -> & H2). split; [reflexivity|]. split; [reflexivity|lia].
Qed.
Lemma left_rest s T rem : left_over s T -> T = sc_pend _ s ++ rem ->
  match sc_err _ s with None => I (sc_src _ s) rem | Some e' => e' = e /\ rem = [] /\ sc_start _ s + zlen (sc_pend _ s) < sc_len _ s end.
Proof. intros (H0 & H1 & rem0 & E0 & H2) HT. assert (rem0 = rem) as -> by (rewrite HT in E0; apply app_inv_head in E0; auto). exact H2. Qed.

Variable next : list Z -> Z -> list Z -> Prop.
Hypothesis split_whole : forall T a t, next T a t -> split T true = Ok (a, Some t, None) /\ 0 < a <= zlen T.
Hypothesis split_part : forall T a t p q, next T a t -> T = p ++ q -> p <> [] ->
  (split p false = Ok (a, Some t, None) /\ a <= zlen p) \/
  (exists st, split p false = Ok (st, None, None) /\ 0 <= st <= zlen p /\ zlen p - st < MaxScanTokenSize /\ next (zdrop st T) (a - st) t).

Lemma words_token : forall fuel s T a t rem, left_over s T -> next T a t -> T = sc_pend _ s ++ rem ->
  (length rem + 1 < fuel)%nat -> exists s', Scan S rd split fuel s = Ok (Some t, s') /\ left_over s' (zdrop a T).
Proof.
  induction fuel as [|fuel IH]; intros s T a t rem Hl Hn HT Hf; [lia|]. cbn [Scan].
  destruct (split_whole _ _ _ Hn) as [Hw Ha].
  assert (forall u T a, left_over u T -> next T a t -> sc_err _ u = None -> T = sc_pend _ u ++ rem ->
    zlen (sc_pend _ u) < MaxScanTokenSize -> exists s',
    match enlarge S (shift S u) with
        | None => Ok (None, setErr S (shift S u) ErrTooLong)
        | Some s => bind (read_more S rd (Z.to_nat (maxConsecutiveEmptyReads + 1)) s) (fun s => Scan S rd split fuel s)
    end = Ok (Some t, s') /\ left_over s' (zdrop a T)) as Hmore.
  { clear T a Hl Hn HT Hw Ha. intros u T a Hu Hn Eu HT' Hlt. pose proof (left_rest u T rem Hu HT') as HI. rewrite Eu in HI.
    destruct (split_whole _ _ _ Hn) as [Hw Ha].
    destruct (more_step S rd e I rd_ok u T rem Hu Eu HT' HI Hlt) as (s2 & s3 & -> & -> & H3 & rem' & HT3 & H4).
    cbn [bind]. destruct (sc_err _ s3) as [e'|] eqn:E3.
    - destruct H4 as (-> & -> & -> & Hp). rewrite app_nil_r in HT3.
      destruct fuel as [|f]; [cbn in Hf; lia|]. cbn [Scan]. rewrite E3. rewrite orb_true_r.
      rewrite <- HT3, Hw. cbn [bind]. destruct (Z.ltb_spec a 0); [lia|]. destruct (Z.ltb_spec (zlen T) a); [lia|].
      destruct (Z.ltb_spec 0 a); [|lia]. cbn [negb orb]. eexists. split; [reflexivity|].
      replace T with (sc_pend _ s3) at 1. rewrite <- E3. apply skip_left; [exact H3|]. rewrite <- HT3. lia.
    - destruct H4 as (H4 & H5 & H6). apply (IH s3 T a t rem' H3 Hn HT3). lia. }
  pose proof (left_rest s T rem Hl HT) as H2.
  destruct (sc_err _ s) as [e'|] eqn:Es.
  - rewrite orb_true_r. destruct H2 as (-> & -> & H2). rewrite app_nil_r in HT. rewrite <- HT, Hw. cbn [bind].
    destruct (Z.ltb_spec a 0); [lia|]. destruct (Z.ltb_spec (zlen T) a); [lia|].
    destruct (Z.ltb_spec 0 a); [|lia]. cbn [negb orb]. eexists. split; [reflexivity|].
    rewrite HT at 1. rewrite <- Es. apply skip_left; [exact Hl|]. rewrite <- HT. lia.
  - rewrite orb_false_r. destruct (Z.ltb_spec 0 (zlen (sc_pend S s))) as [Hp|Hp].
    + assert (sc_pend _ s <> []) as Hne by (intros E; rewrite E in Hp; cbn in Hp; lia).
      destruct (split_part T a t (sc_pend _ s) rem Hn HT Hne) as [[-> Hle]|(st & -> & Hst & Hlt & Hn')]; cbn [bind].
      * destruct (Z.ltb_spec a 0); [lia|]. destruct (Z.ltb_spec (zlen (sc_pend S s)) a); [lia|].
        cbn [negb orb]. eexists. split; [reflexivity|]. rewrite <- Es. apply skip_left; [exact Hl|lia].
      * destruct (Z.ltb_spec st 0); [lia|]. destruct (Z.ltb_spec (zlen (sc_pend S s)) st); [lia|].
        cbv iota zeta. cbn [sc_err]. destruct (Hmore (skipped s st) (zdrop st T) (a - st)) as (s' & E & Hs'); unfold skipped in *; cbn [sc_pend sc_err] in *.
        -- now apply skip_left.
        -- exact Hn'.
        -- exact Es.
        -- rewrite HT. now apply zdrop_app_l.
        -- rewrite zlen_zdrop by lia. lia.
        -- rewrite Es in E. rewrite E. exists s'. split; [reflexivity|]. destruct (split_whole _ _ _ Hn') as [_ Ha'].
           rewrite zdrop_zdrop in Hs' by lia. replace (a - st + st) with a in Hs' by lia. exact Hs'.
    + cbv zeta. apply Hmore; auto. unfold MaxScanTokenSize. lia.
Qed.

(** Nothing but bytes to skip. *)
Variable blank : list Z -> Prop.
Hypothesis blank_whole : forall T, blank T -> exists st, split T true = Ok (st, None, None) /\ 0 <= st <= zlen T.
Hypothesis blank_part : forall T p q, blank T -> T = p ++ q -> p <> [] ->
  exists st, split p false = Ok (st, None, None) /\ 0 <= st <= zlen p /\ zlen p - st < MaxScanTokenSize /\ blank (zdrop st T).
Lemma words_end : forall fuel s T rem, left_over s T -> blank T -> T = sc_pend _ s ++ rem -> (length rem + 1 < fuel)%nat ->
  exists s', Scan S rd split fuel s = Ok (None, s') /\ sc_err _ s' = Some e.
Proof.
  induction fuel as [|fuel IH]; intros s T rem Hl Hn HT Hf; [lia|]. cbn [Scan].
  assert (Hlast : forall f u T, blank T -> sc_err _ u = Some e -> sc_pend _ u = T -> exists s', Scan S rd split (Datatypes.S f) u = Ok (None, s') /\ sc_err _ s' = Some e).
  { clear - blank_whole. intros f u T Hb He Hp. destruct (blank_whole T Hb) as (st & E & Hst). cbn [Scan]. rewrite He, orb_true_r, Hp, E. cbn [bind].
    destruct (Z.ltb_spec st 0); [lia|]. destruct (Z.ltb_spec (zlen T) st); [lia|]. cbv iota zeta. cbn [sc_err]. eexists. split; reflexivity. }
  assert (forall u T, left_over u T -> blank T -> sc_err _ u = None -> T = sc_pend _ u ++ rem ->
    zlen (sc_pend _ u) < MaxScanTokenSize -> exists s',
    match enlarge S (shift S u) with
        | None => Ok (None, setErr S (shift S u) ErrTooLong)
        | Some s => bind (read_more S rd (Z.to_nat (maxConsecutiveEmptyReads + 1)) s) (fun s => Scan S rd split fuel s)
    end = Ok (None, s') /\ sc_err _ s' = Some e) as Hmore.
  { clear T Hl Hn HT. intros u T Hu Hn Eu HT' Hlt. pose proof (left_rest u T rem Hu HT') as HI. rewrite Eu in HI.
    destruct (more_step S rd e I rd_ok u T rem Hu Eu HT' HI Hlt) as (s2 & s3 & -> & -> & H3 & rem' & HT3 & H4).
    cbn [bind]. destruct (sc_err _ s3) as [e'|] eqn:E3.
    - destruct H4 as (-> & -> & -> & Hp). rewrite app_nil_r in HT3.
      destruct fuel as [|f]; [cbn in Hf; lia|]. apply (Hlast f s3 T); auto.
    - destruct H4 as (H4 & H5 & H6). apply (IH s3 T rem' H3 Hn HT3). lia. }
  pose proof (left_rest s T rem Hl HT) as H2.
  destruct (sc_err _ s) as [e'|] eqn:Es.
  - destruct H2 as (-> & -> & H2). rewrite app_nil_r in HT. destruct (Hlast fuel s T Hn Es (eq_sym HT)) as (s' & E & He). cbn [Scan] in E. rewrite Es in E. exists s'. auto.
  - rewrite orb_false_r. destruct (Z.ltb_spec 0 (zlen (sc_pend S s))) as [Hp|Hp].
    + assert (sc_pend _ s <> []) as Hne by (intros E; rewrite E in Hp; cbn in Hp; lia).
      destruct (blank_part T (sc_pend _ s) rem Hn HT Hne) as (st & -> & Hst & Hlt & Hn'); cbn [bind].
      destruct (Z.ltb_spec st 0); [lia|]. destruct (Z.ltb_spec (zlen (sc_pend S s)) st); [lia|].
      cbv iota zeta. cbn [sc_err]. destruct (Hmore (skipped s st) (zdrop st T)) as (s' & E & Hs'); unfold skipped in *; cbn [sc_pend sc_err] in *.
      * now apply skip_left.
      * exact Hn'.
      * exact Es.
      * rewrite HT. now apply zdrop_app_l.
      * rewrite zlen_zdrop by lia. lia.
      * rewrite Es in E. rewrite E. exists s'. auto.
    + cbv zeta. apply (Hmore s T); auto. unfold MaxScanTokenSize. lia.
Qed.

(** A token that does not fit. *)
Variable huge : list Z -> Prop.
Hypothesis huge_long : forall T, huge T -> MaxScanTokenSize <= zlen T.
Hypothesis huge_part : forall T p q, huge T -> T = p ++ q -> p <> [] -> zlen p <= MaxScanTokenSize ->
  exists st, split p false = Ok (st, None, None) /\ 0 <= st <= zlen p /\ huge (zdrop st T).
Lemma words_long : forall fuel s T rem, left_over s T -> huge T -> T = sc_pend _ s ++ rem -> (length rem + 1 < fuel)%nat ->
  exists s', Scan S rd split fuel s = Ok (None, s') /\ sc_err _ s' = Some ErrTooLong.
Proof.
  induction fuel as [|fuel IH]; intros s T rem Hl Hn HT Hf; [lia|]. cbn [Scan].
  assert (forall u T, left_over u T -> huge T -> sc_err _ u = None -> T = sc_pend _ u ++ rem -> exists s',
    match enlarge S (shift S u) with
        | None => Ok (None, setErr S (shift S u) ErrTooLong)
        | Some s => bind (read_more S rd (Z.to_nat (maxConsecutiveEmptyReads + 1)) s) (fun s => Scan S rd split fuel s)
    end = Ok (None, s') /\ sc_err _ s' = Some ErrTooLong) as Hmore.
  { clear T Hl Hn HT. intros u T Hu Hn Eu HT'. pose proof (left_rest u T rem Hu HT') as HI. rewrite Eu in HI. pose proof (huge_long T Hn) as Hlen.
    destruct (Z.lt_ge_cases (zlen (sc_pend S u)) MaxScanTokenSize) as [Hlt|Hge].
    - destruct (more_step S rd e I rd_ok u T rem Hu Eu HT' HI Hlt) as (s2 & s3 & -> & -> & H3 & rem' & HT3 & H4).
      cbn [bind]. destruct (sc_err _ s3) as [e'|] eqn:E3.
      + destruct H4 as (-> & -> & _ & Hp). rewrite app_nil_r in HT'. rewrite <- HT' in Hlt. lia.
      + apply (IH s3 T rem' H3 Hn HT3). lia.
    - destruct Hu as (H0 & H1 & _). assert (sc_start S u = 0) as Hz by lia. assert (sc_len S u = MaxScanTokenSize) as Hz2 by lia.
      unfold shift. rewrite Hz. cbn [Z.ltb Z.compare andb]. unfold enlarge. rewrite Hz.
      destruct (Z.eqb_spec (0 + zlen (sc_pend S u)) (sc_len S u)); [|lia].
      destruct (Z.leb_spec MaxScanTokenSize (sc_len S u)); [|lia]. eexists. split; [reflexivity|].
      unfold setErr. cbn [sc_err]. rewrite Eu. reflexivity. }
  pose proof (left_rest s T rem Hl HT) as H2. pose proof (huge_long T Hn) as Hlen.
  destruct (sc_err _ s) as [e'|] eqn:Es.
  { destruct H2 as (-> & -> & H2). destruct Hl as (H0 & H1 & _). rewrite app_nil_r in HT. rewrite <- HT in H1, H2. lia. }
  rewrite orb_false_r. destruct (Z.ltb_spec 0 (zlen (sc_pend S s))) as [Hp|Hp].
  - assert (sc_pend _ s <> []) as Hne by (intros E; rewrite E in Hp; cbn in Hp; lia).
    destruct (huge_part T (sc_pend _ s) rem Hn HT Hne) as (st & -> & Hst & Hn'); [destruct Hl as (H0 & H1 & _); lia|]; cbn [bind].
    destruct (Z.ltb_spec st 0); [lia|]. destruct (Z.ltb_spec (zlen (sc_pend S s)) st); [lia|].
    cbv iota zeta. cbn [sc_err]. destruct (Hmore (skipped s st) (zdrop st T)) as (s' & E & Hs'); unfold skipped in *; cbn [sc_pend sc_err] in *.
    + now apply skip_left.
    + exact Hn'.
    + exact Es.
    + rewrite HT. now apply zdrop_app_l.
    + rewrite Es in E. rewrite E. exists s'. auto.
  - cbv zeta. apply (Hmore s T); auto.
Qed.

Lemma words_all : forall T ts rest, tokens next T ts rest -> forall fuel s, left_over s T ->
  (length T + 2 < fuel)%nat ->
  exists fuel' s', left_over s' rest /\ (length rest + 2 < fuel')%nat /\
    ScanAll S rd split fuel s = bind (ScanAll S rd split fuel' s') (fun r => Ok (ts ++ fst r, snd r)).
Proof.
  induction 1 as [T|T a t ts rest Hn Ht IH]; intros fuel s Hl Hf.
  - exists fuel, s. split; [exact Hl|]. split; [exact Hf|]. destruct (ScanAll S rd split fuel s) as [[]| |]; reflexivity.
  - destruct (split_whole _ _ _ Hn) as [_ Ha]. destruct fuel as [|fuel]; [lia|].
    pose proof Hl as (_ & _ & rem & E & _).
    destruct (words_token (Datatypes.S fuel) s T a t rem Hl Hn E) as (s1 & E1 & Hl1).
    { rewrite E, app_length in Hf. lia. }
    destruct (IH fuel s1 Hl1) as (fuel' & s' & H1 & H2 & H3).
    { apply (f_equal (@length Z)) in E. unfold zdrop, zlen in *. rewrite skipn_length. lia. }
    exists fuel', s'. split; [exact H1|]. split; [exact H2|].
    cbn [ScanAll]. rewrite E1. cbn [bind]. rewrite H3.
    destruct (ScanAll S rd split fuel' s') as [[]| |]; reflexivity.
Qed.
Lemma words_all_end T ts rest fuel s : tokens next T ts rest -> blank rest -> left_over s T -> (length T + 2 < fuel)%nat ->
  ScanAll S rd split fuel s = Ok (ts, match e with EOF => None | _ => Some e end).
Proof.
  intros Ht Hb Hl Hf. destruct (words_all T ts rest Ht fuel s Hl Hf) as (fuel' & s' & H1 & H2 & ->).
  destruct fuel' as [|f]; [lia|]. pose proof H1 as (_ & _ & rem & E & _). destruct (words_end (Datatypes.S f) s' rest rem H1 Hb E) as (s2 & E2 & E3).
  { rewrite E, app_length in H2. lia. }
  cbn [ScanAll]. rewrite E2. cbn [bind fst snd]. rewrite app_nil_r. unfold Err. rewrite E3. destruct e; reflexivity.
Qed.
Lemma words_all_long T ts rest fuel s : tokens next T ts rest -> huge rest -> left_over s T -> (length T + 2 < fuel)%nat ->
  ScanAll S rd split fuel s = Ok (ts, Some ErrTooLong).
Proof.
  intros Ht Hb Hl Hf. destruct (words_all T ts rest Ht fuel s Hl Hf) as (fuel' & s' & H1 & H2 & ->).
  destruct fuel' as [|f]; [lia|]. pose proof H1 as (_ & _ & rem & E & _). destruct (words_long (Datatypes.S f) s' rest rem H1 Hb E) as (s2 & E2 & E3).
  { rewrite E, app_length in H2. lia. }
  cbn [ScanAll]. rewrite E2. cbn [bind fst snd]. rewrite app_nil_r. unfold Err. rewrite E3. reflexivity.
Qed.
End ScanFacts.
