(** Every request of a client program does what [effect] of ProgSpec.v says. *)
From Coq Require Import String ZArith List Bool Lia.
From Coq Require Import ZifyBool.
From Verif Require Import Base Utf8 SortSearch TableFrom TableTo Cp949Model GoLang GoSource GoFacts
  GoHeap GoCp949 GoStream StreamModel StreamModel3 TransformModel IoModel Facts Utf8Facts SliceFacts
  Spec SpecCp949 SpecIO TableFacts Cp949Facts Cp949Facts2 StreamFacts StreamFacts2 StreamFacts3 StreamFacts5
  PipeFacts PipeFacts2 TransformFacts SourceSpec SourceFacts SourceFacts2 ProgSpec.
Import ListNotations.
Local Open Scope string_scope.
Local Open Scope list_scope.
Local Open Scope Z_scope.
Local Open Scope go_scope.
Local Opaque fromTable toTable.
Local Arguments run : simpl never.
Local Arguments zwrite : simpl never.
Local Arguments ztake : simpl never.
Local Arguments zdrop : simpl never.
Local Arguments cell : simpl never.

(** ** Lists *)
Definition pairwise {A} (R : A -> A -> Prop) (l : list A) : Prop :=
  forall i j a b, i <> j -> nth_error l i = Some a -> nth_error l j = Some b -> R a b.

Lemma pairwise_nil {A} (R : A -> A -> Prop) : pairwise R [].
Proof. intros [|i] j a b _ H; discriminate. Qed.
Lemma pairwise_impl {A} (R R' : A -> A -> Prop) l : pairwise R l ->
  (forall a b, In a l -> In b l -> R a b -> R' a b) -> pairwise R' l.
Proof.
  intros H Hi i j a b Hij Ha Hb. apply Hi; [eapply nth_error_In; eassumption|eapply nth_error_In; eassumption|].
  eapply H; eassumption.
Qed.
Lemma nth_error_snoc {A} (l : list A) x i a : nth_error (l ++ [x]) i = Some a ->
  nth_error l i = Some a /\ (i < length l)%nat \/ i = length l /\ a = x.
Proof.
  intros H. destruct (Nat.lt_ge_cases i (length l)) as [Hi|Hi].
  - left. rewrite nth_error_app1 in H by assumption. auto.
  - right. rewrite nth_error_app2 in H by assumption. destruct (i - length l)%nat as [|m] eqn:Hm.
    + injection H as <-. split; [lia|reflexivity].
    + destruct m; discriminate.
Qed.
Lemma pairwise_snoc {A} (R : A -> A -> Prop) l x : pairwise R l ->
  (forall a, In a l -> R a x /\ R x a) -> pairwise R (l ++ [x]).
Proof.
  intros H Hx i j a b Hij Ha Hb. apply nth_error_snoc in Ha, Hb.
  destruct Ha as [[Ha _]|[-> ->]], Hb as [[Hb _]|[-> ->]].
  - eapply H; eassumption.
  - apply Hx. eapply nth_error_In; eassumption.
  - apply Hx. eapply nth_error_In; eassumption.
  - lia.
Qed.
Lemma pairwise_set {A} (R : A -> A -> Prop) l i x : pairwise R l ->
  (forall j a, j <> i -> nth_error l j = Some a -> R a x /\ R x a) -> pairwise R (set_nth i x l).
Proof.
  intros H Hx j m a b Hjm Ha Hb.
  assert (Hlt : forall n y, nth_error (set_nth i x l) n = Some y -> n = i /\ y = x \/ n <> i /\ nth_error l n = Some y).
  { intros n y Hn. destruct (Nat.eq_dec n i) as [->|Hne].
    - left. split; [reflexivity|]. assert (i < length l)%nat by (rewrite <- (set_nth_len i x l); apply nth_error_Some; congruence).
      rewrite nth_error_set_nth in Hn by assumption. congruence.
    - right. split; [assumption|]. rewrite nth_error_set_nth_ne in Hn by congruence. assumption. }
  apply Hlt in Ha, Hb. destruct Ha as [[-> ->]|[Hj Ha]], Hb as [[-> ->]|[Hm Hb]].
  - lia.
  - eapply Hx; eassumption.
  - eapply Hx; eassumption.
  - eapply H; [|eassumption|eassumption]; assumption.
Qed.
Lemma Forall2_nth {A B} (R : A -> B -> Prop) l l' i b : Forall2 R l l' -> nth_error l' i = Some b ->
  exists a, nth_error l i = Some a /\ R a b.
Proof.
  intros H. revert i. induction H as [|x y l l' Hxy _ IH]; intros [|i] Hi; try discriminate; cbn in *.
  - injection Hi as <-. eauto.
  - apply IH. assumption.
Qed.
Lemma Forall2_at {A B} (R R' : A -> B -> Prop) l l' : Forall2 R l l' ->
  (forall j a b, nth_error l j = Some a -> nth_error l' j = Some b -> R a b -> R' a b) -> Forall2 R' l l'.
Proof.
  induction 1 as [|a b l l' Hab _ IH]; intros Ho; constructor.
  - apply (Ho 0%nat); [reflexivity|reflexivity|assumption].
  - apply IH. intros j c d. apply (Ho (S j)).
Qed.
Lemma Forall2_set {A B} (R R' : A -> B -> Prop) l l' i x y : Forall2 R l l' ->
  (forall j a b, j <> i -> nth_error l j = Some a -> nth_error l' j = Some b -> R a b -> R' a b) -> R' x y ->
  Forall2 R' (set_nth i x l) (set_nth i y l').
Proof.
  intros H. revert i. induction H as [|a b l l' Hab HF IH]; intros [|i] Ho Hxy; cbn; constructor.
  - assumption.
  - eapply Forall2_at; [eassumption|]. intros j c d. apply (Ho (S j)). discriminate.
  - apply (Ho 0%nat); [discriminate|reflexivity|reflexivity|assumption].
  - apply IH; [|assumption]. intros j c d Hj. apply (Ho (S j)). congruence.
Qed.
Lemma Forall2_in {A B} (R R' : A -> B -> Prop) l l' : Forall2 R l l' ->
  (forall a b, In a l -> R a b -> R' a b) -> Forall2 R' l l'.
Proof.
  induction 1 as [|a b l l' Hab H IH]; intros Hi; constructor.
  - apply Hi; [left; reflexivity|assumption].
  - apply IH. intros c d Hc. apply Hi. right. assumption.
Qed.
Lemma map_set_same {A B} (f : A -> B) i x (l : list A) y : nth_error l i = Some y -> f x = f y -> map f (set_nth i x l) = map f l.
Proof. revert i. induction l as [|a l IH]; intros [|i]; cbn; [discriminate|discriminate|intros [= ->] ->; reflexivity|]. intros H E. f_equal. now apply IH. Qed.
Lemma NoDup_snoc {A} (l : list A) x : NoDup l -> ~ In x l -> NoDup (l ++ [x]).
Proof.
  intros H Hx. apply NoDup_rev in H. rewrite <- (rev_involutive (l ++ _)), rev_app_distr. apply NoDup_rev. cbn.
  constructor; [rewrite <- in_rev; assumption|assumption].
Qed.

(** ** Memory seen by the client *)
Lemma zwrite_ztake m o (l bs : list Z) : 0 <= o -> o + zlen bs <= m -> m <= zlen l ->
  ztake m (zwrite l o bs) = zwrite (ztake m l) o bs.
Proof.
  intros Ho Hb Hm. pose proof (zlen_nonneg bs) as H0. unfold zwrite.
  rewrite app_assoc, ztake_app_r by (rewrite zlen_app, zlen_ztake by lia; lia).
  rewrite zlen_app, zlen_ztake, <- app_assoc by lia. rewrite ztake_ztake by lia.
  f_equal. f_equal. rewrite zdrop_ztake_len by lia. f_equal. lia.
Qed.
Lemma sub_ztake o n m (l : list Z) : 0 <= o -> 0 <= n -> o + n <= m -> ztake n (zdrop o (ztake m l)) = ztake n (zdrop o l).
Proof. intros Ho Hn Hm. rewrite zdrop_ztake_len by lia. apply ztake_ztake. lia. Qed.

Definition osep (A : heap) (x y : nat * Z) : Prop := sep A (fst x) (fst y).
Definition fits (A : heap) (x : nat * Z) : Prop := (fst x < length A)%nat /\ 0 <= snd x <= zlen (cell A (fst x)).

Lemma memory_ext A A' own : (forall x, In x own -> cell A' (fst x) = cell A (fst x)) -> memory_of A' own = memory_of A own.
Proof. intros H. apply map_ext_in. intros x Hx. change (array A' (fst x)) with (cell A' (fst x)). rewrite H by assumption. reflexivity. Qed.
Lemma memory_set A A' own h l n a : pairwise (osep A) own -> nth_error own h = Some (l, n) ->
  length (cell A' l) = length (cell A l) -> ztake n (cell A' l) = a ->
  (forall x, In x own -> fst x <> l -> cell A' (fst x) = cell A (fst x)) ->
  memory_of A' own = set_nth h a (memory_of A own).
Proof.
  intros Hp Hh Hl Ha Ho. unfold memory_of.
  assert (H : forall j x, nth_error own j = Some x -> j <> h -> cell A' (fst x) = cell A (fst x)).
  { intros j x Hj Hne.
    destruct (Nat.eq_dec (fst x) l) as [E|E].
    - pose proof (Hp h j _ _ (not_eq_sym Hne) Hh Hj) as Hs. unfold osep, sep in Hs. cbn [fst] in Hs. rewrite E in Hs.
      destruct Hs as [Hs|Hs]; [congruence|]. rewrite E, Hs in *. destruct (cell A' l); [reflexivity|discriminate].
    - apply Ho; [eapply nth_error_In; eassumption|assumption]. }
  clear Hp Ho. revert h Hh H. induction own as [|x own IH]; intros [|h] Hh H; try discriminate; cbn in *.
  - injection Hh as ->. cbn [fst snd]. f_equal; [exact Ha|]. apply map_ext_in. intros y Hy. apply In_nth_error in Hy.
    destruct Hy as [j Hj]. change (array A' (fst y)) with (cell A' (fst y)). rewrite (H (S j) y Hj) by discriminate. reflexivity.
  - f_equal.
    + change (array A' (fst x)) with (cell A' (fst x)). rewrite (H 0%nat x eq_refl) by discriminate. reflexivity.
    + apply IH; [assumption|]. intros j y Hj Hne. apply (H (S j)); [assumption|congruence].
Qed.
Lemma memory_nth A own h l n : nth_error own h = Some (l, n) -> nth h (memory_of A own) [] = ztake n (cell A l).
Proof. intros H. apply nth_error_nth. unfold memory_of. rewrite nth_error_map, H. reflexivity. Qed.
Lemma memory_len A own : Forall (fits A) own -> map zlen (memory_of A own) = map snd own.
Proof.
  induction 1 as [|x own [Hx1 Hx2] _ IH]; [reflexivity|]. cbn. f_equal; [|exact IH]. change (array A (fst x)) with (cell A (fst x)).
  rewrite zlen_ztake by lia. lia.
Qed.

Lemma live_read_aux grow T (rd1 : T -> Z -> list Z * option error * T) fuel q text e n : (0 < fuel)%nat -> 0 < n ->
  delivers (as_reader (Read grow T rd1 fuel)) q text e ->
  exists bs err q', Read grow T rd1 fuel q n = Ok (bs, err, q') /\
    (err = None /\ bs <> [] /\ zlen bs <= n /\ (exists rest, text = bs ++ rest /\
       delivers (as_reader (Read grow T rd1 fuel)) q' rest e) \/
     err = Some e /\ bs = [] /\ text = [] /\ forall m, Read grow T rd1 fuel q' m = Ok ([], Some e, q')).
Proof.
  intros Hf Hn Hd. inversion Hd as [? ? ? D1 D2 D3]; subst.
  destruct (Read grow T rd1 fuel q n) as [[[bs [e'|]] q1]| |] eqn:Hr.
  - pose proof (D1 n bs e' q1 Hn) as [-> [Hb _]]; [unfold as_reader; now rewrite Hr|].
    destruct (C49_lemma grow T rd1 fuel q n bs e q1 Hr) as [-> Hst]. exists [], (Some e), q1. split; [reflexivity|].
    right. repeat split; auto. intros m. destruct fuel as [|fuel']; [lia|]. apply Hst.
  - assert (Ha : as_reader (Read grow T rd1 fuel) q n = (bs, None, q1)) by (unfold as_reader; now rewrite Hr).
    destruct (D2 n bs q1 Hn Ha) as (Hb & Hl & rest & ->).
    pose proof (D3 n bs q1 Hn Ha) as Hd'. rewrite zdrop_app_exact in Hd' by reflexivity.
    exists bs, None, q1. split; [reflexivity|]. left. repeat split; try assumption. exists rest. auto.
  - destruct (D2 n [] q Hn) as (Hb & _); [unfold as_reader; now rewrite Hr|congruence].
  - destruct (D2 n [] q Hn) as (Hb & _); [unfold as_reader; now rewrite Hr|congruence].
Qed.

(** ** The state of a program *)
Section Prog.
Variable grow : Z -> Z -> Z.
Variable T : Type.
Variable rd : nat -> T -> Z -> Z * list Z * option error * T.
Variable rd1 : nat -> T -> Z -> list Z * option error * T.
Variable wr : nat -> T -> list Z -> Z * option error * T.
Variable source : nat -> option (list Z * error).
Variable start : nat -> T.
Hypothesis Hbytes : forall k x n, Forall is_byte (snd (fst (fst (rd k x n)))).
Hypothesis Hrep : forall k, reports (rd k) (rd1 k).
Hypothesis Hsrc : forall k bytes e, source k = Some (bytes, e) -> delivers (rd1 k) (start k) bytes e.
Notation E := (nat -> T).
Notation RD := (each_rd rd).
Notation WR := (each_wr wr).
Notation state := (state E).
Notation mk := (mkState E).
Notation calls := (calls grow E RD WR prog_cp949).
Notation effect := (effect T to_char source start wr).
Notation does := (does grow E RD WR).

Lemma Hbytes' k : forall x n, Forall is_byte (snd (fst (fst (RD k x n)))).
Proof. intros x n. unfold each_rd. pose proof (Hbytes k (x k) n) as H. destruct (rd k (x k) n) as [[[c bs] err] y]. exact H. Qed.

Definition live (k fuel : nat) (q : reader T) (text : list Z) (e : error) : Prop :=
  Forall is_byte text /\ (delivers (as_reader (Read grow T (rd1 k) fuel)) q text e \/
  text = [] /\ forall n, Read grow T (rd1 k) fuel q n = Ok ([], Some e, q)).
Lemma live_read k fuel q text e n : (0 < fuel)%nat -> 0 < n -> live k fuel q text e ->
  exists bs err q', Read grow T (rd1 k) fuel q n = Ok (bs, err, q') /\
    (err = None /\ bs <> [] /\ zlen bs <= n /\ Forall is_byte bs /\ (exists rest, text = bs ++ rest /\ live k fuel q' rest e) \/
     err = Some e /\ bs = [] /\ text = [] /\ live k fuel q' [] e).
Proof.
  intros Hf Hn [Hby [Hd|[-> Hd]]].
  - destruct (live_read_aux grow T (rd1 k) fuel q text e n Hf Hn Hd) as (bs & err & q' & H1 & H2). exists bs, err, q'.
    split; [assumption|]. destruct H2 as [(? & ? & ? & rest & ? & ?)|(? & ? & ? & ?)].
    + left. subst text. apply Forall_app in Hby. destruct Hby as [Hb1 Hb2]. split; [assumption|]. split; [assumption|].
      split; [assumption|]. split; [assumption|]. exists rest. split; [reflexivity|]. split; [assumption|]. left. assumption.
    + right. split; [assumption|]. split; [assumption|]. split; [assumption|]. split; [constructor|]. right. auto.
  - exists [], (Some e), q. split; [apply Hd|]. right. split; [reflexivity|]. split; [reflexivity|]. split; [reflexivity|]. split; [assumption|]. right. auto.
Qed.

(** A Reader over a stream that ends inside a character. *)
Definition broken (k fuel : nat) (q : reader T) (text : list Z) (e : error) : Prop :=
  Forall is_byte text /\ exists n rem, inv T (rd1 k) true e n q rem /\ (n + 4 <= fuel)%nat /\ is_prefix rem text.
Lemma broken_read k fuel q text e n : 0 < n -> broken k fuel q text e ->
  exists bs err q', Read grow T (rd1 k) fuel q n = Ok (bs, err, q') /\ Forall is_byte bs /\
    (err = None /\ bs <> [] /\ zlen bs <= n /\ (exists rest rest', text = bs ++ rest /\ is_prefix rest' rest /\ broken k fuel q' rest' e) \/
     err = Some e /\ bs = [] /\ broken k fuel q' [] e).
Proof.
  intros Hn (Hby & m & rem & Hinv & Hf & z & Hz).
  destruct (read_step grow T (rd1 k) true e n Hn m q rem fuel Hinv Hf) as (bs & err & q' & rem' & Hr & Hl & (y & Hy) & Hinv' & Hcase).
  exists bs, err, q'. split; [exact Hr|].
  assert (Ht : text = bs ++ rem' ++ y ++ z) by (rewrite Hz, Hy, <- !app_assoc; reflexivity).
  rewrite Ht in Hby. apply Forall_app in Hby. destruct Hby as [Hb1 Hb2]. apply Forall_app in Hb2. destruct Hb2 as [Hb2 _].
  split; [exact Hb1|]. destruct err as [e'|].
  - right. destruct Hcase as (-> & -> & -> & _). split; [reflexivity|]. split; [reflexivity|]. split; [constructor|].
    exists m, []. split; [exact Hinv'|]. split; [exact Hf|]. exists []. reflexivity.
  - left. split; [reflexivity|]. split; [destruct Hcase as [H|H]; [exact H|lia]|]. split; [exact Hl|].
    exists (rem' ++ y ++ z), rem'. split; [exact Ht|]. split; [exists (y ++ z); reflexivity|]. split; [exact Hb2|].
    exists m, rem'. split; [exact Hinv'|]. split; [exact Hf|]. exists []. rewrite app_nil_r. reflexivity.
Qed.

Definition alive (k fuel : nat) (q : reader T) (h : stream T) : Prop :=
  match h with
  | SReader _ _ text e => live k fuel q text e
  | SBroken _ _ text e => broken k fuel q text e
  | SWriter _ _ _ => False
  end.
(** Where an open stream is: its objects and its private arrays. *)
Inductive handle : Type := HR (k p pt ls lr : nat) | HW (k p pt ls : nat).
Definition h_ptr (c : handle) : nat := match c with HR _ p _ _ _ | HW _ p _ _ => p end.
Definition h_ext (c : handle) : nat := match c with HR k _ _ _ _ | HW k _ _ _ => k end.
Definition h_objs (c : handle) : list nat := match c with HR _ p pt _ _ | HW _ p pt _ => [p; pt] end.
Definition h_locs (c : handle) : list nat := match c with HR _ _ _ ls lr => [ls; lr] | HW _ _ _ ls => [ls] end.

Definition handle_ok (s : state) (c : handle) (h : stream T) : Prop :=
  match c, h with
  | HR k p pt ls lr, (SReader _ k' _ _ | SBroken _ k' _ _) => k' = k /\ exists r q fuel,
      is_reader E k s p pt ls lr r /\ r_src _ r = ext E s /\ alike E T (fun x y => x k = y) r q /\
      (0 < fuel)%nat /\ alive k fuel q h
  | HW k p pt ls, SWriter _ k' x => k' = k /\ exists w,
      is_writer E k s p pt ls w /\ w_dst _ w = ext E s /\ ext E s k = x
  | _, _ => False
  end.
Lemma handle_ext s c h : handle_ok s c h -> wraps T h = h_ext c.
Proof. destruct c, h; cbn; intros H; try contradiction; apply H. Qed.
Lemma handle_locs s c h : handle_ok s c h -> forall m, In m (h_locs c) -> (m < length (arrs E s))%nat.
Proof.
  destruct c, h; cbn; intros H; try contradiction; destruct H as [_ H].
  - destruct H as (r & q & fuel & H & _). apply is_reader_locs in H. intros m [<-|[<-|[]]]; apply H.
  - destruct H as (r & q & fuel & H & _). apply is_reader_locs in H. intros m [<-|[<-|[]]]; apply H.
  - destruct H as (w & (_ & _ & _ & (H & _) & _) & _). intros m [<-|[]]. exact H.
Qed.
Lemma handle_objs s c h : handle_ok s c h -> forall m, In m (h_objs c) -> (m < length (objs E s))%nat.
Proof.
  destruct c, h; cbn; intros H; try contradiction; destruct H as [_ H].
  - destruct H as (r & q & fuel & (_ & cdv & H1 & H2 & _) & _). intros m [<-|[<-|[]]]; apply nth_error_Some; congruence.
  - destruct H as (r & q & fuel & (_ & cdv & H1 & H2 & _) & _). intros m [<-|[<-|[]]]; apply nth_error_Some; congruence.
  - destruct H as (w & (_ & H1 & H2 & _) & _). intros m [<-|[<-|[]]]; apply nth_error_Some; congruence.
Qed.

(** Nothing a stream depends on has changed. *)
Definition quiet (s s' : state) (c : handle) : Prop :=
  (length (arrs E s) <= length (arrs E s'))%nat /\
  (forall m, In m (h_objs c) -> nth_error (objs E s') m = nth_error (objs E s) m) /\
  (forall m, In m (h_locs c) -> cell (arrs E s') m = cell (arrs E s) m) /\ ext E s' (h_ext c) = ext E s (h_ext c).
Definition with_src {A} (r : reader A) (x : A) : reader A :=
  mkReader A x (r_scratch _ r) (r_cdata_lo _ r) (r_cdata_hi _ r) (r_rdata _ r) (r_err _ r).

Lemma ref_quiet (A A' : heap) l sl : ref A l sl -> (length A <= length A')%nat -> cell A' l = cell A l -> ref A' l sl.
Proof. intros (H1 & H2 & H3) Hl Hc. split; [lia|]. split; [congruence|assumption]. Qed.
Lemma handle_quiet s s' c h : quiet s s' c -> handle_ok s c h -> handle_ok s' c h.
Proof.
  intros (Hl & Ho & Hc & Hx). destruct c as [k p pt ls lr|k p pt ls], h as [k' text e|k' x|k' text e]; cbn in *; try contradiction.
  - intros (-> & r & q & fuel & (Hne & cdv & H1 & H2 & R1 & R2 & R3 & R4) & Hsrc' & Hal & Hf & Hlive). split; [reflexivity|].
    exists (with_src r (ext E s')), q, fuel. split; [|split; [reflexivity|split; [|auto]]].
    + split; [assumption|]. exists cdv. rewrite !Ho by auto. split; [assumption|]. split; [assumption|].
      split; [apply (ref_quiet (arrs E s)); auto|]. split; [apply (ref_quiet (arrs E s)); auto|]. split; [|exact R4].
      unfold sep in *. rewrite (Hc lr) by auto. exact R3.
    + destruct Hal as (A1 & A2). split; [|exact A2]. cbn [r_src with_src]. rewrite <- A1, Hsrc'. exact Hx.
  - intros (-> & r & q & fuel & (Hne & cdv & H1 & H2 & R1 & R2 & R3 & R4) & Hsrc' & Hal & Hf & Hlive). split; [reflexivity|].
    exists (with_src r (ext E s')), q, fuel. split; [|split; [reflexivity|split; [|auto]]].
    + split; [assumption|]. exists cdv. rewrite !Ho by auto. split; [assumption|]. split; [assumption|].
      split; [apply (ref_quiet (arrs E s)); auto|]. split; [apply (ref_quiet (arrs E s)); auto|]. split; [|exact R4].
      unfold sep in *. rewrite (Hc lr) by auto. exact R3.
    + destruct Hal as (A1 & A2). split; [|exact A2]. cbn [r_src with_src]. rewrite <- A1, Hsrc'. exact Hx.
  - intros (-> & w & (Hne & H1 & H2 & R1 & R2) & Hsrc' & Hk). split; [reflexivity|].
    exists (mkWriter E (ext E s') (w_scratch _ w) (w_buf _ w)). split; [|split; [reflexivity|congruence]].
    split; [assumption|]. rewrite !Ho by auto. split; [assumption|]. split; [assumption|].
    split; [apply (ref_quiet (arrs E s)); auto|assumption].
Qed.

Definition hsep (A : heap) (c c' : handle) : Prop :=
  (forall m m', In m (h_locs c) -> In m' (h_locs c') -> sep A m m') /\
  (forall m m', In m (h_objs c) -> In m' (h_objs c') -> m <> m').

Record Inv (s : state) (own : list (nat * Z)) (hs : list handle) (w : world T) : Prop := mkInv {
  i_nil : nil_ok (arrs E s);
  i_fits : Forall (fits (arrs E s)) own;
  i_mem : memory_of (arrs E s) own = mem _ w;
  i_bytes : Forall (Forall is_byte) (mem _ w);
  i_own : pairwise (osep (arrs E s)) own;
  i_apart : forall x c m, In x own -> In c hs -> In m (h_locs c) -> sep (arrs E s) (fst x) m;
  i_hs : pairwise (hsep (arrs E s)) hs;
  i_ok : Forall2 (handle_ok s) hs (streams _ w);
  i_once : NoDup (map (wraps T) (streams _ w));
  i_rest : forall k, ~ In k (map (wraps T) (streams _ w)) -> ext E s k = start k
}.

Lemma inv_in s own hs w c : Inv s own hs w -> In c hs -> exists h, In h (streams _ w) /\ handle_ok s c h.
Proof.
  intros Hi Hc. pose proof (i_ok _ _ _ _ Hi) as H. clear Hi. induction H as [|a b l l' Hab _ IH]; [contradiction|].
  destruct Hc as [<-|Hc]; [exists b; split; [left; reflexivity|assumption]|]. destruct (IH Hc) as (h & H1 & H2).
  exists h. split; [right; assumption|assumption].
Qed.

Lemma sep_flip (A : heap) m x : sep A m x -> sep A x m.
Proof. unfold sep. intros [H|H]; [left; congruence|]. destruct (Nat.eq_dec m x) as [->|]; auto. Qed.
(** What happens to separation when memory changes. *)
Lemma sep_step (A A' : heap) m x x' : (m < length A)%nat -> (cell A m = [] -> cell A' m = []) ->
  (x' = x \/ (length A <= x')%nat) -> sep A m x -> sep A' m x'.
Proof. intros Hm He Hx [H|H]; [|right; auto]. left. destruct Hx; lia. Qed.
Lemma sep_step2 (A A' : heap) m x x' : (m < length A)%nat -> (cell A m = [] -> cell A' m = []) ->
  (x' = x \/ (length A <= x')%nat) -> sep A m x -> sep A' x' m.
Proof. intros H1 H2 H3 H4. apply sep_flip. eapply sep_step; eassumption. Qed.

(** Requests that only touch the client's memory. *)
Lemma inv_client s own hs C H s' own' C' :
  Inv s own hs (World T C H) ->
  (length (arrs E s) <= length (arrs E s'))%nat ->
  (forall q, (q < length (objs E s))%nat -> nth_error (objs E s') q = nth_error (objs E s) q) ->
  ext E s' = ext E s ->
  (forall c m, In c hs -> In m (h_locs c) -> cell (arrs E s') m = cell (arrs E s) m) ->
  nil_ok (arrs E s') -> Forall (fits (arrs E s')) own' -> memory_of (arrs E s') own' = C' -> Forall (Forall is_byte) C' ->
  pairwise (osep (arrs E s')) own' ->
  (forall x, In x own' -> In x own /\ (cell (arrs E s) (fst x) = [] -> cell (arrs E s') (fst x) = []) \/
     (length (arrs E s) <= fst x)%nat \/ cell (arrs E s') (fst x) = []) ->
  Inv s' own' hs (World T C' H).
Proof.
  intros Hi Hlen Hobj Hext Hcell Hnil Hfits Hmem Hby Hown Hnew.
  assert (Hq : forall c, In c hs -> quiet s s' c).
  { intros c Hc. destruct (inv_in _ _ _ _ _ Hi Hc) as (h & _ & Hok). split; [assumption|]. split; [|split].
    - intros m Hm. apply Hobj. eapply handle_objs; eassumption.
    - intros m Hm. eapply Hcell; eassumption.
    - rewrite Hext. reflexivity. }
  constructor; cbn [mem streams]; try assumption.
  - intros x c m Hx Hc Hm. destruct (inv_in _ _ _ _ _ Hi Hc) as (h & _ & Hok). pose proof (handle_locs _ _ _ Hok m Hm) as Hlt.
    destruct (Hnew x Hx) as [[Ho He]|[Ho|Ho]].
    + pose proof (i_apart _ _ _ _ Hi x c m Ho Hc Hm) as Hs. destruct Hs as [Hs|Hs]; [left; assumption|right; auto].
    + left. lia.
    + right. assumption.
  - eapply pairwise_impl; [apply (i_hs _ _ _ _ Hi)|]. intros a b Ha Hb [H1 H2]. split; [|assumption].
    intros m m' Hm Hm'. specialize (H1 m m' Hm Hm'). unfold sep in *. rewrite (Hcell a m Ha Hm). exact H1.
  - eapply Forall2_in; [apply (i_ok _ _ _ _ Hi)|]. intros c h Hc Hok. eapply handle_quiet; [|eassumption]. auto.
  - apply (i_once _ _ _ _ Hi).
  - intros k Hk. rewrite Hext. apply (i_rest _ _ _ _ Hi). exact Hk.
Qed.

(** The window of a request, in memory. *)
Lemma inv_window s own hs C H w : Inv s own hs (World T C H) -> inside C w ->
  exists l m, nth_error own (w_arr w) = Some (l, m) /\ slice_at own w (VSlice l (w_off w) (w_len w) (w_cap w)) /\
    input (arrs E s) l (w_off w) (w_len w) (w_cap w) (content C w) /\ Forall is_byte (content C w) /\
    zlen (content C w) = w_len w /\ nth (w_arr w) C [] = ztake m (cell (arrs E s) l) /\ 
    w_off w + w_cap w <= m /\ m <= zlen (cell (arrs E s) l) /\
    (forall c x, In c hs -> In x (h_locs c) -> sep (arrs E s) l x).
Proof.
  intros Hi (a & Ha & Ho & Hn & Hc). pose proof (i_mem _ _ _ _ Hi) as Hm. cbn [mem] in Hm. subst C.
  unfold memory_of in Ha. apply nth_error_map_some in Ha. destruct Ha as ([l m] & Hown & Ha). cbn [fst snd] in Ha.
  pose proof (i_fits _ _ _ _ Hi) as Hf. rewrite Forall_forall in Hf. destruct (Hf (l, m)) as [Hl Hm]; [eapply nth_error_In; eassumption|].
  cbn [fst snd] in *. change (array (arrs E s) l) with (cell (arrs E s) l) in Ha.
  assert (Hza : zlen a = m) by (subst a; rewrite zlen_ztake by lia; lia).
  assert (Hnth : nth (w_arr w) (memory_of (arrs E s) own) [] = ztake m (cell (arrs E s) l)) by (eapply memory_nth; eassumption).
  assert (Hin : input (arrs E s) l (w_off w) (w_len w) (w_cap w) (content (memory_of (arrs E s) own) w)).
  { split; [assumption|]. split; [lia|]. split; [lia|]. split; [lia|]. unfold content. rewrite Hnth. apply sub_ztake; lia. }
  exists l, m. split; [assumption|]. split; [exists l, m; auto|]. split; [assumption|]. split; [|split; [|split; [|split; [|split]]]].
  - unfold content. apply Forall_ztake, Forall_zdrop. rewrite Hnth, Ha. pose proof (i_bytes _ _ _ _ Hi) as Hb. cbn [mem] in Hb.
    rewrite Forall_forall in Hb. apply Hb. rewrite <- Ha. unfold memory_of. apply in_map_iff. exists (l, m). split; [reflexivity|].
    eapply nth_error_In; eassumption.
  - eapply input_len; eassumption.
  - assumption.
  - lia.
  - lia.
  - intros c x Hc' Hx. apply (i_apart _ _ _ _ Hi (l, m) c x); [eapply nth_error_In; eassumption|assumption|assumption].
Qed.
Lemma Forall_set_nth {A} (P : A -> Prop) h (a : A) C : P a -> Forall P C -> Forall P (set_nth h a C).
Proof. intros Ha HC. revert h. induction HC as [|x C Hx HC IH]; intros [|h]; cbn; constructor; auto. Qed.
Lemma put_bytes C w bs : Forall is_byte bs -> Forall (Forall is_byte) C -> Forall (Forall is_byte) (put C w bs).
Proof.
  intros Hb HC. unfold put. apply Forall_set_nth; [|assumption]. apply Forall_zwrite; [|assumption].
  destruct (nth_in_or_default (w_arr w) C []) as [Hi| ->]; [|constructor]. rewrite Forall_forall in HC. auto.
Qed.

(** One array of the client changes. *)
Lemma inv_change s own hs C H s' h l m a :
  Inv s own hs (World T C H) -> nth_error own h = Some (l, m) ->
  (length (arrs E s) <= length (arrs E s'))%nat ->
  (forall q, (q < length (objs E s))%nat -> nth_error (objs E s') q = nth_error (objs E s) q) ->
  ext E s' = ext E s ->
  (forall j, (j < length (arrs E s))%nat -> j <> l -> cell (arrs E s') j = cell (arrs E s) j) ->
  length (cell (arrs E s') l) = length (cell (arrs E s) l) ->
  ztake m (cell (arrs E s') l) = a -> Forall is_byte a ->
  Inv s' own hs (World T (set_nth h a C) H).
Proof.
  intros Hi Hh Hlen Hobj Hext Hoth Hl Ha Hb.
  assert (He : forall j, (j < length (arrs E s))%nat -> cell (arrs E s) j = [] -> cell (arrs E s') j = []).
  { intros j Hj Hc. destruct (Nat.eq_dec j l) as [->|Hne]; [|rewrite Hoth; assumption].
    rewrite Hc in Hl. destruct (cell (arrs E s') l); [reflexivity|discriminate]. }
  pose proof (i_fits _ _ _ _ Hi) as Hf. rewrite Forall_forall in Hf.
  assert (Hin : In (l, m) own) by (eapply nth_error_In; eassumption).
  assert (Hlen' : forall x, In x own -> length (cell (arrs E s') (fst x)) = length (cell (arrs E s) (fst x))).
  { intros x Hx. destruct (Nat.eq_dec (fst x) l) as [->|Hne]; [assumption|]. rewrite Hoth; [reflexivity| |assumption]. apply Hf. assumption. }
  apply (inv_client s own hs C H s' own); try assumption.
  - intros c x Hc Hx. destruct (inv_in _ _ _ _ _ Hi Hc) as (h0 & _ & Hok). pose proof (handle_locs _ _ _ Hok x Hx) as Hlt.
    destruct (Nat.eq_dec x l) as [->|Hne]; [|now apply Hoth].
    destruct (i_apart _ _ _ _ Hi (l, m) c l Hin Hc Hx) as [Hs|Hs]; cbn [fst] in Hs; [congruence|]. rewrite Hs. auto.
  - destruct (i_nil _ _ _ _ Hi) as [N1 N2]. split; [lia|]. auto.
  - apply Forall_forall. intros x Hx. destruct (Hf x Hx) as [F1 F2]. split; [lia|]. unfold zlen in *. rewrite (Hlen' x Hx). assumption.
  - rewrite (memory_set (arrs E s) (arrs E s') own h l m a); try assumption.
    + pose proof (i_mem _ _ _ _ Hi) as Hm. cbn [mem] in Hm. now rewrite Hm.
    + apply (i_own _ _ _ _ Hi).
    + intros x Hx Hne. apply Hoth; [|assumption]. apply Hf. assumption.
  - apply Forall_set_nth; [assumption|]. apply (i_bytes _ _ _ _ Hi).
  - eapply pairwise_impl; [apply (i_own _ _ _ _ Hi)|]. intros x y Hx Hy Hs. unfold osep in *.
    destruct Hs as [Hs|Hs]; [left; assumption|]. right. apply He; [|assumption]. apply Hf. assumption.
  - intros x Hx. left. split; [assumption|]. apply He. apply Hf. assumption.
Qed.

(** The client gets one more array. *)
Lemma inv_add s own hs C H s' l n :
  Inv s own hs (World T C H) -> keeps (arrs E s) (arrs E s') ->
  (forall q, (q < length (objs E s))%nat -> nth_error (objs E s') q = nth_error (objs E s) q) ->
  ext E s' = ext E s -> fits (arrs E s') (l, n) ->
  ((length (arrs E s) <= l)%nat \/ cell (arrs E s') l = []) -> Forall is_byte (ztake n (cell (arrs E s') l)) ->
  Inv s' (own ++ [(l, n)]) hs (World T (C ++ [ztake n (cell (arrs E s') l)]) H).
Proof.
  intros Hi [Hlen Hk] Hobj Hext Hf Hfr Hb.
  pose proof (i_fits _ _ _ _ Hi) as Hfs. rewrite Forall_forall in Hfs.
  assert (Hc : forall x, In x own -> cell (arrs E s') (fst x) = cell (arrs E s) (fst x)) by (intros x Hx; apply Hk, Hfs, Hx).
  apply (inv_client s own hs C H s'); try assumption.
  - intros c m Hc' Hm. apply Hk. destruct (inv_in _ _ _ _ _ Hi Hc') as (h0 & _ & Hok). eapply handle_locs; eassumption.
  - destruct (i_nil _ _ _ _ Hi) as [N1 N2]. split; [lia|]. rewrite Hk; assumption.
  - apply Forall_app. split; [|repeat constructor; apply Hf]. apply Forall_forall. intros x Hx. destruct (Hfs x Hx). split; [lia|].
    rewrite Hc; assumption.
  - unfold memory_of at 1. rewrite map_app. cbn [map fst snd]. f_equal. pose proof (i_mem _ _ _ _ Hi) as Hm. cbn [mem] in Hm.
    rewrite <- Hm. apply memory_ext. assumption.
  - apply Forall_app. split; [apply (i_bytes _ _ _ _ Hi)|]. repeat constructor. assumption.
  - apply pairwise_snoc.
    + eapply pairwise_impl; [apply (i_own _ _ _ _ Hi)|]. intros x y Hx Hy Hs. unfold osep, sep in *. rewrite (Hc x Hx). assumption.
    + intros x Hx. assert (sep (arrs E s') l (fst x)).
      { destruct Hfr as [Hfr|Hfr]; [|right; assumption]. left. destruct (Hfs x Hx). lia. }
      unfold osep. cbn [fst]. split; [apply sep_flip|]; assumption.
  - intros x Hx. apply in_app_or in Hx. destruct Hx as [Hx|[<-|[]]].
    + left. split; [assumption|]. rewrite (Hc x Hx). auto.
    + right. exact Hfr.
Qed.

(** A stream is opened. *)
Lemma inv_open s own hs C H s' c h :
  Inv s own hs (World T C H) -> arrs E s' = arrs E s ->
  (forall q, (q < length (objs E s))%nat -> nth_error (objs E s') q = nth_error (objs E s) q) ->
  ext E s' = ext E s -> handle_ok s' c h -> ~ In (wraps T h) (map (wraps T) H) ->
  (forall m, In m (h_locs c) -> m = 0%nat) -> (forall q, In q (h_objs c) -> (length (objs E s) <= q)%nat) ->
  Inv s' own (hs ++ [c]) (World T C (H ++ [h])).
Proof.
  intros Hi Harr Hobj Hext Hok Hk Hlocs Hobjs. pose proof Hi as [I1 I2 I3 I4 I5 I6 I7 I8 I9 I10].
  cbn [mem streams] in *. rewrite <- Harr in I1, I2, I3, I5, I6, I7. destruct I1 as [N1 N2].
  assert (Hq : forall d, In d hs -> quiet s s' d).
  { intros d Hd. destruct (inv_in _ _ _ _ _ Hi Hd) as (h0 & _ & Hok0). split; [rewrite Harr; lia|]. split; [|split].
    - intros m Hm. apply Hobj. eapply handle_objs; eassumption.
    - intros m Hm. rewrite Harr. reflexivity.
    - rewrite Hext. reflexivity. }
  constructor; cbn [mem streams]; try assumption.
  - split; assumption.
  - intros x d m Hx Hd Hm. apply in_app_or in Hd. destruct Hd as [Hd|[<-|[]]]; [eapply I6; eassumption|].
    apply sep_flip. rewrite (Hlocs m Hm). right. assumption.
  - apply pairwise_snoc; [assumption|]. intros d Hd. destruct (inv_in _ _ _ _ _ Hi Hd) as (h0 & _ & Hok0). split; split.
    + intros m m' Hm Hm'. rewrite (Hlocs m' Hm'). apply sep_flip. right. assumption.
    + intros m m' Hm Hm'. pose proof (handle_objs _ _ _ Hok0 m Hm). specialize (Hobjs m' Hm'). lia.
    + intros m m' Hm Hm'. rewrite (Hlocs m Hm). right. assumption.
    + intros m m' Hm Hm'. pose proof (handle_objs _ _ _ Hok0 m' Hm'). specialize (Hobjs m Hm). lia.
  - apply Forall2_app; [|repeat constructor; assumption].
    eapply Forall2_in; [exact I8|]. intros d h0 Hd Hok0. eapply handle_quiet; [|eassumption]. auto.
  - rewrite map_app. cbn. apply NoDup_snoc; assumption.
  - intros k Hk'. rewrite Hext. apply I10. rewrite map_app, in_app_iff in Hk'. tauto.
Qed.

(** A stream is used. *)
Lemma inv_use s own hs C H s' i c c' h h' C' :
  Inv s own hs (World T C H) -> nth_error hs i = Some c -> nth_error H i = Some h ->
  (length (arrs E s) <= length (arrs E s'))%nat ->
  h_ext c' = h_ext c -> h_objs c' = h_objs c -> (forall j, j <> h_ext c -> ext E s' j = ext E s j) ->
  (forall q, ~ In q (h_objs c) -> nth_error (objs E s') q = nth_error (objs E s) q) ->
  (forall m, In m (h_locs c') -> In m (h_locs c) \/ (length (arrs E s) <= m)%nat) ->
  (forall m, (m < length (arrs E s))%nat -> (forall x, In x (h_locs c) -> sep (arrs E s) m x) ->
     (forall x, In x own -> sep (arrs E s) (fst x) m) -> cell (arrs E s') m = cell (arrs E s) m) ->
  (forall x, In x own -> length (cell (arrs E s') (fst x)) = length (cell (arrs E s) (fst x))) ->
  memory_of (arrs E s') own = C' -> Forall (Forall is_byte) C' -> handle_ok s' c' h' -> wraps T h' = h_ext c ->
  Inv s' own (set_nth i c' hs) (World T C' (set_nth i h' H)).
Proof.
  intros Hi Hc Hh Hlen Hext' Hobj' Hext Hobj Hlocs Hcell Hown Hmem Hby Hok Hw.
  pose proof Hi as [I1 I2 I3 I4 I5 I6 I7 I8 I9 I10]. cbn [mem streams] in *. destruct I1 as [N1 N2].
  rewrite Forall_forall in I2.
  assert (Hinc : In c hs) by (eapply nth_error_In; eassumption).
  destruct (Forall2_nth _ _ _ _ _ I8 Hh) as (c0 & Hc0 & Hok0). rewrite Hc in Hc0. injection Hc0 as <-.
  assert (Hwh : wraps T h = h_ext c) by (eapply handle_ext; eassumption).
  assert (Hwraps : map (wraps T) (set_nth i h' H) = map (wraps T) H) by (eapply map_set_same; [eassumption|congruence]).
  assert (Hoth : forall j d, j <> i -> nth_error hs j = Some d -> forall m, In m (h_locs d) -> cell (arrs E s') m = cell (arrs E s) m).
  { intros j d Hj Hd m Hm. assert (Hind : In d hs) by (eapply nth_error_In; eassumption).
    destruct (inv_in _ _ _ _ _ Hi Hind) as (h0 & _ & Hokd). apply Hcell; [eapply handle_locs; eassumption| |].
    - intros x Hx. apply (I7 j i d c Hj Hd Hc); assumption.
    - intros x Hx. eapply I6; eassumption. }
  assert (Hempty : forall x, In x own -> cell (arrs E s) (fst x) = [] -> cell (arrs E s') (fst x) = []).
  { intros x Hx He. specialize (Hown x Hx). rewrite He in Hown. destruct (cell (arrs E s') (fst x)); [reflexivity|discriminate]. }
  constructor; cbn [mem streams]; try assumption.
  - split; [lia|]. rewrite Hcell; [assumption|assumption| |].
    + intros x Hx. right. assumption.
    + intros x Hx. apply sep_flip. right. assumption.
  - apply Forall_forall. intros x Hx. destruct (I2 x Hx) as [F1 F2]. split; [lia|]. unfold zlen in *. rewrite (Hown x Hx). assumption.
  - eapply pairwise_impl; [exact I5|]. intros x y Hx Hy Hs. unfold osep in *. destruct Hs as [Hs|Hs]; [left; assumption|]. right. auto.
  - intros x d m Hx Hd Hm. apply In_nth_error in Hd. destruct Hd as [j Hj].
    destruct (Nat.eq_dec j i) as [->|Hji].
    + rewrite nth_error_set_nth in Hj by (apply nth_error_Some; congruence). injection Hj as <-.
      destruct (I2 x Hx) as [F1 _].
      destruct (Hlocs m Hm) as [Hm'|Hm'].
      * eapply sep_step; [exact F1|apply Hempty; assumption|left; reflexivity|]. eapply I6; eassumption.
      * left. lia.
    + rewrite nth_error_set_nth_ne in Hj by congruence. assert (In d hs) by (eapply nth_error_In; eassumption).
      destruct (I6 x d m Hx H0 Hm) as [Hs|Hs]; [left; assumption|right; auto].
  - assert (Hpw : pairwise (fun a b => hsep (arrs E s) a b) hs) by exact I7.
    intros j m a b Hjm Ha Hb.
    assert (Hget : forall n y, nth_error (set_nth i c' hs) n = Some y -> n = i /\ y = c' \/ n <> i /\ nth_error hs n = Some y).
    { intros n y Hn. destruct (Nat.eq_dec n i) as [->|Hne].
      - left. rewrite nth_error_set_nth in Hn by (apply nth_error_Some; congruence). split; congruence.
      - right. split; [assumption|]. rewrite nth_error_set_nth_ne in Hn by congruence. assumption. }
    apply Hget in Ha, Hb.
    assert (Hboth : forall n d, n <> i -> nth_error hs n = Some d ->
      (forall x x', In x (h_locs d) -> In x' (h_locs c') -> sep (arrs E s') x x') /\
      (forall x x', In x (h_objs d) -> In x' (h_objs c') -> x <> x')).
    { intros n d Hn Hd. destruct (I7 n i d c Hn Hd Hc) as [S1 S2]. rewrite Hobj'. split; [|exact S2].
      intros x x' Hx Hx'. assert (Hind : In d hs) by (eapply nth_error_In; eassumption).
      destruct (inv_in _ _ _ _ _ Hi Hind) as (h0 & _ & Hokd). pose proof (handle_locs _ _ _ Hokd x Hx) as Hlt.
      destruct (Hlocs x' Hx') as [Hx2|Hx2].
      - eapply sep_step; [exact Hlt| |left; reflexivity|apply S1; eassumption]. rewrite (Hoth n d Hn Hd x Hx). auto.
      - left. lia. }
    destruct Ha as [[-> ->]|[Hj Ha]], Hb as [[-> ->]|[Hm Hb]].
    + lia.
    + destruct (Hboth m b Hm Hb) as [B1 B2]. split.
      * intros x x' Hx Hx'. apply sep_flip. auto.
      * intros x x' Hx Hx'. apply not_eq_sym. auto.
    + apply (Hboth j a Hj Ha).
    + destruct (I7 j m a b Hjm Ha Hb) as [S1 S2]. split; [|assumption]. intros x x' Hx Hx'. unfold sep. rewrite (Hoth j a Hj Ha x Hx). exact (S1 x x' Hx Hx').
  - eapply Forall2_set; [exact I8| |assumption]. intros j d h0 Hj Hd Hh0 Hokd. eapply handle_quiet; [|eassumption].
    split; [assumption|]. split; [|split].
    + intros m Hm. apply Hobj. intros Hm'. destruct (I7 j i d c Hj Hd Hc) as [_ S2]. apply (S2 m m Hm Hm'). reflexivity.
    + apply (Hoth j d Hj Hd).
    + apply Hext. rewrite <- (handle_ext _ _ _ Hokd), <- Hwh. intros Heq. apply Hj.
      clear - I9 Hh0 Hh Heq. rewrite NoDup_nth_error in I9. apply I9.
      * rewrite map_length. apply nth_error_Some. congruence.
      * rewrite !nth_error_map, Hh0, Hh. cbn. congruence.
  - rewrite Hwraps. assumption.
  - intros k Hk. rewrite Hwraps in Hk. rewrite Hext; [now apply I10|]. intros ->. apply Hk. rewrite <- Hwh.
    apply in_map. eapply nth_error_In; eassumption.
Qed.

(** ** One request *)
Lemma go_Transform_cell dec f A O X p ldst odst ndst cdst dst lsrc osrc nsrc csrc src eof r :
  (dec = "cp949Decoder.Transform" /\ f = "From" /\ From grow src = Ok r \/
   dec = "cp949Encoder.Transform" /\ f = "To" /\ To grow src = Ok r) ->
  nil_ok A -> input A ldst odst ndst cdst dst -> input A lsrc osrc nsrc csrc src -> Forall is_byte src ->
  exists A' o, (length A <= length A')%nat /\ (forall j, (j < length A)%nat -> j <> ldst -> cell A' j = cell A j) /\
    cell A' ldst = zwrite (cell A ldst) odst (match r with inl bs => ztake ndst bs | inr _ => [] end) /\
    calls dec [VPtr p; VSlice ldst odst ndst cdst; VSlice lsrc osrc nsrc csrc; VBool eof] (mk A O X)
      (match r with inl bs => VTuple [VInt (zlen bs); VInt nsrc; VErr None] | inr e => VTuple [VInt 0; VInt 0; VErr (Some e)] end)
      (mk A' (O ++ [o]) X).
Proof.
  intros Hf Hnil Hdst Hsrc' Hb. pose proof (input_len _ _ _ _ _ _ Hsrc') as Hns. subst nsrc.
  assert (Hcall : exists A0 v o N, keeps A A0 /\ returns A A0 v r /\ (f = "From" \/ f = "To") /\
    forall n, (N <= n)%nat -> run grow E RD WR prog_cp949 n f [VSlice lsrc osrc (zlen src) csrc] (mk A O X) = Ok (v, mk A0 (O ++ [o]) X)).
  { destruct Hf as [(_ & -> & Hf)|(_ & -> & Hf)].
    - destruct (go_From grow E RD WR A O X lsrc osrc (zlen src) csrc src r Hnil Hsrc' Hb Hf) as (A0 & v & Hk & Hret & o & N & Hrun).
      exists A0, v, o, N. auto.
    - destruct (go_To grow E RD WR A O X lsrc osrc (zlen src) csrc src r Hnil Hsrc' Hf) as (A0 & v & Hk & Hret & o & N & Hrun).
      exists A0, v, o, N. auto. }
  destruct Hcall as (A0 & v & o & N & Hk & Hret & Hff & Hrun).
  destruct (transform_of r dst src) as [[[dst' nDst] nSrc] e] eqn:Htr.
  assert (Hmin : forall bs : list Z, ztake (Z.min ndst (zlen bs)) bs = ztake ndst bs).
  { intros bs. destruct (Z.le_gt_cases (zlen bs) ndst) as [Hx|Hx].
    - rewrite (ztake_all ndst bs) by lia. apply ztake_all. lia.
    - f_equal. lia. }
  set (dn := if String.eqb f "From" then "d" else "e").
  destruct (go_transform_body grow E RD WR f A A0 O X ldst odst ndst cdst dst src lsrc osrc csrc v r dn (VPtr p) eof o dst' nDst nSrc e)
    as (A' & Hlen & Hcell & _ & Hw & Hex); try assumption.
  { unfold dn. destruct (String.eqb f "From"); auto. }
  exists A', o. split; [assumption|]. split; [assumption|]. split.
  { rewrite Hw. destruct r; [rewrite Hmin|]; reflexivity. }
  assert (Hv : match r with inl bs => VTuple [VInt (zlen bs); VInt (zlen src); VErr None] | inr e => VTuple [VInt 0; VInt 0; VErr (Some e)] end =
    VTuple [VInt nDst; VInt nSrc; VErr e]).
  { destruct r; cbn in Htr; injection Htr as <- <- <- <-; reflexivity. }
  rewrite Hv. exists (S N). intros [|n] Hn; [lia|]. destruct (Hex n (Hrun n ltac:(lia))) as (env' & Hexec).
  rewrite run_S. destruct Hf as [(-> & -> & _)|(-> & -> & _)]; cbn [the get bind prog_cp949 String.eqb Ascii.eqb Bool.eqb];
    (eapply enter_ret; [reflexivity|reflexivity|]); exact Hexec.
Qed.

Lemma calls2 f args s v s' : (forall n, run grow E RD WR prog_cp949 (S (S n)) f args s = Ok (v, s')) -> calls f args s v s'.
Proof. intros H. exists 2%nat. intros [|[|n]] Hn; [lia|lia|apply H]. Qed.

Lemma put_put_nothing C w : put C w [] = C.
Proof.
  unfold put. replace (zwrite (nth (w_arr w) C []) (w_off w) []) with (nth (w_arr w) C []).
  - destruct (Nat.lt_ge_cases (w_arr w) (length C)) as [H|H].
    + apply set_nth_id. now apply nth_error_nth'.
    + generalize (w_arr w) H. clear. induction C as [|x C IH]; intros [|n] Hn; cbn in *; try reflexivity.
      f_equal. apply IH. lia.
  - unfold zwrite. rewrite zlen_nil, Z.add_0_r. symmetry. apply ztake_zdrop.
Qed.

Lemma utf8_isbytes bytes rs : decodes bytes rs -> Forall is_byte (utf8 rs).
Proof. intros H. apply utf8_bytes. eapply decodes_scalar. exact H. Qed.
Lemma code_bytes_ok data rs : reads_as data rs -> Forall is_byte (flat_map to_char rs).
Proof.
  intros H. destruct (to_chars_encodes rs (reads_as_scalar _ _ H)) as [rs' Hr]. eapply decodes_bytes, encodes_decodes, Hr.
Qed.

Definition step (s : state) own hs w q : Prop := exists a w' s' own' hs', effect w q a w' /\ Inv s' own' hs' w' /\
  does own (map h_ptr hs) s q a own' (map h_ptr hs') s'.

Lemma step_store s own hs C H h old a : Inv s own hs (World T C H) -> nth_error C h = Some old -> zlen a = zlen old ->
  Forall is_byte a -> step s own hs (World T C H) (QStore h a).
Proof.
  intros Hi Hh Hl Hb. pose proof (i_mem _ _ _ _ Hi) as Hm. cbn [mem] in Hm.
  assert (Hh' := Hh). rewrite <- Hm in Hh'. unfold memory_of in Hh'. apply nth_error_map_some in Hh'.
  destruct Hh' as ([l n] & Ho & Hold). cbn [fst snd] in Hold. change (array (arrs E s) l) with (cell (arrs E s) l) in Hold.
  pose proof (i_fits _ _ _ _ Hi) as Hf. rewrite Forall_forall in Hf. destruct (Hf (l, n)) as [F1 F2]; [eapply nth_error_In; eassumption|].
  cbn [fst snd] in *. assert (Hn : zlen a = n) by (rewrite Hl, <- Hold, zlen_ztake by lia; lia).
  eexists Done, _, _, own, hs. split; [eapply ef_store; eassumption|]. split; [|eapply do_store; eassumption].
  change (array (arrs E s) l) with (cell (arrs E s) l).
  apply (inv_change s own hs C H _ h l n a); try assumption; try reflexivity.
  - cbn [arrs set_arr]. rewrite set_nth_len. lia.
  - intros j Hj Hne. cbn [arrs set_arr]. apply cell_set_ne. congruence.
  - cbn [arrs set_arr]. rewrite cell_set by assumption. apply length_zlen. rewrite zlen_app, zlen_zdrop by lia. lia.
  - cbn [arrs set_arr]. rewrite cell_set by assumption. apply ztake_app_exact. lia.
Qed.

Lemma step_alloc s own hs C H a : Inv s own hs (World T C H) -> Forall is_byte a -> step s own hs (World T C H) (QAlloc a).
Proof.
  intros Hi Hb. eexists Done, _, _, _, hs. split; [apply ef_alloc; assumption|]. split; [|apply do_alloc].
  cbn [new_arr fst snd].
  pose proof (cell_new (arrs E s) a) as Hc.
  replace (C ++ [a]) with (C ++ [ztake (zlen a) (cell (arrs E s ++ [a]) (length (arrs E s)))])
    by (rewrite Hc, ztake_all by lia; reflexivity).
  apply (inv_add s own hs C H (mk (arrs E s ++ [a]) (objs E s) (ext E s)) (length (arrs E s)) (zlen a)); cbn [arrs objs ext]; try reflexivity.
  - assumption.
  - split; [rewrite app_length; cbn; lia|]. intros j Hj. now apply cell_old.
  - split; cbn [fst snd]; [rewrite app_length; cbn; lia|]. rewrite Hc. pose proof (zlen_nonneg a). lia.
  - left. lia.
  - rewrite Hc. now apply Forall_ztake.
Qed.

Lemma step_open_reader s own hs C H k bytes e rs : Inv s own hs (World T C H) -> source k = Some (bytes, e) ->
  decodes bytes rs -> ~ In k (map (wraps T) H) -> step s own hs (World T C H) (QOpenReader k).
Proof.
  intros Hi Hk Hd Hnot. pose proof (i_nil _ _ _ _ Hi) as Hnil. pose proof (i_rest _ _ _ _ Hi k Hnot) as Hst.
  destruct s as [A O X]. cbn [arrs objs ext] in *.
  destruct (go_NewReader grow E RD WR k A O X Hnil) as (s0 & Hr & Hx & Ha & Ho & Hol & Hrun).
  eexists Done, _, s0, own, (hs ++ [HR k (S (length O)) (length O) 0 0]).
  split; [eapply ef_open_reader; eassumption|]. split.
  - apply (inv_open (mk A O X) own hs C H s0 (HR k (S (length O)) (length O) 0 0) (SReader T k (utf8 rs) e)); try assumption.
    + cbn. split; [reflexivity|]. exists (NewReader X), (NewReader (start k)), (length bytes + 4)%nat.
      split; [assumption|]. split; [cbn; congruence|]. split; [apply new_alike; assumption|]. split; [lia|].
      split; [eapply utf8_isbytes; eassumption|]. left. apply (C79_lemma grow T (rd1 k) (start k) bytes (utf8 rs) e).
      * eapply decodes_bytes; eassumption.
      * apply Hsrc. assumption.
      * apply From_decodes. assumption.
      * lia.
    + cbn. intros m [<-|[<-|[]]]; reflexivity.
    + cbn. intros q [<-|[<-|[]]]; lia.
  - rewrite map_app. cbn [map h_ptr]. apply do_open_reader. apply calls2. exact Hrun.
Qed.
Lemma step_open_broken s own hs C H k bytes e a rs : Inv s own hs (World T C H) -> source k = Some (bytes, e) ->
  cut_after a bytes -> decodes a rs -> ~ In k (map (wraps T) H) -> step s own hs (World T C H) (QOpenReader k).
Proof.
  intros Hi Hk Hcut Hd Hnot. pose proof (i_nil _ _ _ _ Hi) as Hnil. pose proof (i_rest _ _ _ _ Hi k Hnot) as Hst.
  destruct s as [A O X]. cbn [arrs objs ext] in *.
  destruct (go_NewReader grow E RD WR k A O X Hnil) as (s0 & Hr & Hx & Ha & Ho & Hol & Hrun).
  eexists Done, _, s0, own, (hs ++ [HR k (S (length O)) (length O) 0 0]).
  split; [eapply ef_open_broken; eassumption|]. split.
  - apply (inv_open (mk A O X) own hs C H s0 (HR k (S (length O)) (length O) 0 0) (SBroken T k (utf8 rs) e)); try assumption.
    + cbn. split; [reflexivity|]. exists (NewReader X), (NewReader (start k)), (length bytes + 4)%nat.
      split; [assumption|]. split; [cbn; congruence|]. split; [apply new_alike; assumption|]. split; [lia|].
      split; [eapply utf8_isbytes; eassumption|]. exists (length bytes), (utf8 rs). split; [|split; [lia|exists []; now rewrite app_nil_r]].
      apply (new_reader_inv T (rd1 k) true); [apply Hsrc; assumption|]. exists a. split; assumption.
    + cbn. intros m [<-|[<-|[]]]; reflexivity.
    + cbn. intros q [<-|[<-|[]]]; lia.
  - rewrite map_app. cbn [map h_ptr]. apply do_open_reader. apply calls2. exact Hrun.
Qed.
Lemma step_open_writer s own hs C H k : Inv s own hs (World T C H) ->
  ~ In k (map (wraps T) H) -> step s own hs (World T C H) (QOpenWriter k).
Proof.
  intros Hi Hnot. pose proof (i_nil _ _ _ _ Hi) as Hnil. pose proof (i_rest _ _ _ _ Hi k Hnot) as Hst.
  destruct s as [A O X]. cbn [arrs objs ext] in *.
  destruct (go_NewWriter grow E RD WR k A O X Hnil) as (s0 & Hr & Hx & Ha & Ho & Hol & Hrun).
  eexists Done, _, s0, own, (hs ++ [HW k (S (length O)) (length O) 0]).
  split; [eapply ef_open_writer; eassumption|]. split.
  - apply (inv_open (mk A O X) own hs C H s0 (HW k (S (length O)) (length O) 0) (SWriter T k (start k))); try assumption.
    + cbn. split; [reflexivity|]. exists (NewWriter X). split; [assumption|]. split; [cbn; congruence|]. congruence.
    + cbn. intros m [<-|[]]; reflexivity.
    + cbn. intros q [<-|[<-|[]]]; lia.
  - rewrite map_app. cbn [map h_ptr]. apply do_open_writer. apply calls2. exact Hrun.
Qed.

Lemma objs_snoc (O : list (string * list (string * val))) o q : (q < length O)%nat -> nth_error (O ++ [o]) q = nth_error O q.
Proof. intros H. now apply nth_error_app1. Qed.

Lemma step_from s own hs C H w : Inv s own hs (World T C H) -> inside C w -> step s own hs (World T C H) (QFrom w).
Proof.
  intros Hi Hw. destruct (inv_window _ _ _ _ _ _ Hi Hw) as (l & m & Ho & Hsl & Hin & Hb & Hlen & _).
  pose proof (i_nil _ _ _ _ Hi) as Hnil. destruct s as [A O X]. cbn [arrs objs ext] in *.
  destruct (decodes_or_cut (content C w) Hb) as [(rs & Hd)|(a & Hc)].
  - destruct (go_From grow E RD WR A O X _ _ _ _ _ (inl (utf8 rs)) Hnil Hin Hb (From_decodes grow _ rs Hd))
      as (A' & v & Hk & (l' & n' & c' & -> & Hin' & Hf) & ob & N & Hrun).
    pose proof (input_len _ _ _ _ _ _ Hin') as Hn'. destruct Hin' as (L1 & _ & L3 & L4 & L5). rewrite zdrop_0 in L5. cbn [Z.add] in L4.
    eexists (Data (utf8 rs) None), _, (mk A' (O ++ [ob]) X), _, hs. split; [apply ef_from; eassumption|]. split.
    + rewrite L5. apply (inv_add (mk A O X) own hs C H (mk A' (O ++ [ob]) X) l' n'); cbn [arrs objs ext]; try assumption; try reflexivity.
      * intros q Hq. now apply objs_snoc.
      * split; cbn [fst snd]; [assumption|lia].
      * destruct Hf as [[_ Hf]|Hf]; [right|left]; assumption.
      * rewrite <- L5. eapply utf8_isbytes; eassumption.
    + rewrite L5. change (ztake n' (cell A' l')) with (ztake n' (array (arrs E (mk A' (O ++ [ob]) X)) l')).
      eapply do_from; [eassumption|]. exists N. exact Hrun.
  - destruct (go_From grow E RD WR A O X _ _ _ _ _ _ Hnil Hin Hb (From_cut grow _ a Hc))
      as (A' & v & Hk & -> & ob & N & Hrun).
    assert (Hc0 : cell A' 0 = []) by (destruct Hk as [_ Hk]; destruct Hnil as [N1 N2]; rewrite Hk by assumption; assumption).
    eexists _, _, (mk A' (O ++ [ob]) X), _, hs. split; [apply ef_from_cut; [eassumption|exists a; exact Hc]|]. split.
    + replace (C ++ [[]]) with (C ++ [ztake 0 (cell A' 0%nat)]) by (rewrite Hc0; reflexivity).
      apply (inv_add (mk A O X) own hs C H (mk A' (O ++ [ob]) X) 0%nat 0); cbn [arrs objs ext]; try assumption; try reflexivity.
      * intros q Hq. now apply objs_snoc.
      * split; cbn [fst snd]; [destruct Hk, Hnil; lia|]. rewrite Hc0. cbn. lia.
      * right. assumption.
      * rewrite Hc0. constructor.
    + replace (Data [] (Some ErrCP949UnexpectedStream)) with
        (Data (ztake 0 (array (arrs E (mk A' (O ++ [ob]) X)) 0)) (Some ErrCP949UnexpectedStream))
        by (change (array (arrs E (mk A' (O ++ [ob]) X)) 0) with (cell A' 0%nat); rewrite Hc0; reflexivity).
      eapply do_from; [eassumption|]. exists N. exact Hrun.
Qed.
Lemma step_to s own hs C H w : Inv s own hs (World T C H) -> inside C w -> step s own hs (World T C H) (QTo w).
Proof.
  intros Hi Hw. destruct (inv_window _ _ _ _ _ _ Hi Hw) as (l & m & Ho & Hsl & Hin & Hb & Hlen & _).
  pose proof (i_nil _ _ _ _ Hi) as Hnil. destruct s as [A O X]. cbn [arrs objs ext] in *.
  pose proof (string_to_runes_reads (content C w) Hb) as Hr. remember (string_to_runes (content C w)) as rs eqn:Hrs. clear Hrs.
  destruct (go_To grow E RD WR A O X _ _ _ _ _ _ Hnil Hin (To_reads grow _ rs Hb Hr))
    as (A' & v & Hk & (l' & n' & c' & -> & Hin' & Hf) & ob & N & Hrun).
  destruct Hin' as (L1 & _ & L3 & L4 & L5). rewrite zdrop_0 in L5. cbn [Z.add] in L4.
  eexists (Data (flat_map to_char rs) None), _, (mk A' (O ++ [ob]) X), _, hs. split; [apply ef_to; eassumption|]. split.
  - rewrite L5. apply (inv_add (mk A O X) own hs C H (mk A' (O ++ [ob]) X) l' n'); cbn [arrs objs ext]; try assumption; try reflexivity.
    + intros q Hq. now apply objs_snoc.
    + split; cbn [fst snd]; [assumption|lia].
    + destruct Hf as [[_ Hf]|Hf]; [right|left]; assumption.
    + rewrite <- L5. eapply code_bytes_ok; eassumption.
  - rewrite L5. change (ztake n' (cell A' l')) with (ztake n' (array (arrs E (mk A' (O ++ [ob]) X)) l')).
    eapply do_to; [eassumption|]. exists N. exact Hrun.
Qed.

Lemma inv_put s own hs C H d l m s' bs : Inv s own hs (World T C H) -> inside C d -> nth_error own (w_arr d) = Some (l, m) ->
  nth (w_arr d) C [] = ztake m (cell (arrs E s) l) -> w_off d + w_cap d <= m -> m <= zlen (cell (arrs E s) l) ->
  (length (arrs E s) <= length (arrs E s'))%nat ->
  (forall q, (q < length (objs E s))%nat -> nth_error (objs E s') q = nth_error (objs E s) q) ->
  ext E s' = ext E s ->
  (forall j, (j < length (arrs E s))%nat -> j <> l -> cell (arrs E s') j = cell (arrs E s) j) ->
  cell (arrs E s') l = zwrite (cell (arrs E s) l) (w_off d) bs -> zlen bs <= w_len d -> Forall is_byte bs ->
  Inv s' own hs (World T (put C d bs) H).
Proof.
  intros Hi (a & _ & Ho & Hn & _) Hown Hnth Hc Hm Hlen Hobj Hext Hoth Hcell Hl Hb. pose proof (zlen_nonneg bs) as H0.
  assert (Hz : zlen (zwrite (cell (arrs E s) l) (w_off d) bs) = zlen (cell (arrs E s) l)) by (apply zlen_zwrite; lia).
  unfold put. apply (inv_change s own hs C H s' (w_arr d) l m); try assumption.
  - rewrite Hcell. apply length_zlen. assumption.
  - rewrite Hcell, Hnth. apply zwrite_ztake; lia.
  - apply Forall_zwrite; [|assumption].
    destruct (nth_in_or_default (w_arr d) C []) as [Hx| ->]; [|constructor]. pose proof (i_bytes _ _ _ _ Hi) as Hby.
    rewrite Forall_forall in Hby. apply Hby. exact Hx.
Qed.

Lemma zlen_ztake_le n (l : list Z) : 0 <= n -> zlen (ztake n l) <= n.
Proof. intros H. rewrite zlen_ztake by lia. lia. Qed.

Lemma step_decode s own hs C H d w eof : Inv s own hs (World T C H) -> inside C d -> inside C w ->
  step s own hs (World T C H) (QDecode d w eof).
Proof.
  intros Hi Hd Hw. destruct (inv_window _ _ _ _ _ _ Hi Hw) as (l & m & Ho & Hsl & Hin & Hb & Hlen & _).
  destruct (inv_window _ _ _ _ _ _ Hi Hd) as (l1 & m1 & Ho1 & Hsl1 & Hin1 & _ & Hlen1 & Hnth1 & Hc1 & Hm1 & _).
  pose proof (i_nil _ _ _ _ Hi) as Hnil. destruct s as [A O X]. cbn [arrs objs ext] in *.
  assert (Hpos : 0 <= w_len d) by apply Hin1.
  destruct (decodes_or_cut (content C w) Hb) as [(rs & Hdec)|(a & Hcut)].
  - destruct (go_Transform_cell "cp949Decoder.Transform" "From" A O X 0%nat _ _ _ _ _ _ _ _ _ _ eof (inl (utf8 rs))
      (or_introl (conj eq_refl (conj eq_refl (From_decodes grow _ rs Hdec)))) Hnil Hin1 Hin Hb)
      as (A' & o & HA1 & HA2 & HA3 & Hcall).
    eexists _, _, _, own, hs. split; [eapply ef_decode; eassumption|]. split; [|eapply do_decode; eassumption].
    eapply (inv_put (mk A O X) own hs C H d l1 m1 (mk A' (O ++ [o]) X)); cbn [arrs objs ext]; try eassumption; try reflexivity.
    + intros q Hq. now apply objs_snoc.
    + now apply zlen_ztake_le.
    + apply Forall_ztake. eapply utf8_isbytes; eassumption.
  - destruct (go_Transform_cell "cp949Decoder.Transform" "From" A O X 0%nat _ _ _ _ _ _ _ _ _ _ eof (inr ErrCP949UnexpectedStream)
      (or_introl (conj eq_refl (conj eq_refl (From_cut grow _ a Hcut)))) Hnil Hin1 Hin Hb)
      as (A' & o & HA1 & HA2 & HA3 & Hcall).
    eexists _, _, _, own, hs. split; [eapply ef_decode_cut; try eassumption; exists a; exact Hcut|]. split; [|eapply do_decode; eassumption].
    rewrite <- (put_put_nothing C d).
    eapply (inv_put (mk A O X) own hs C H d l1 m1 (mk A' (O ++ [o]) X)); cbn [arrs objs ext]; try eassumption; try reflexivity.
    + intros q Hq. now apply objs_snoc.
    + constructor.
Qed.
Lemma step_encode s own hs C H d w eof : Inv s own hs (World T C H) -> inside C d -> inside C w ->
  step s own hs (World T C H) (QEncode d w eof).
Proof.
  intros Hi Hd Hw. destruct (inv_window _ _ _ _ _ _ Hi Hw) as (l & m & Ho & Hsl & Hin & Hb & Hlen & _).
  destruct (inv_window _ _ _ _ _ _ Hi Hd) as (l1 & m1 & Ho1 & Hsl1 & Hin1 & _ & Hlen1 & Hnth1 & Hc1 & Hm1 & _).
  pose proof (i_nil _ _ _ _ Hi) as Hnil. destruct s as [A O X]. cbn [arrs objs ext] in *.
  assert (Hpos : 0 <= w_len d) by apply Hin1.
  pose proof (string_to_runes_reads (content C w) Hb) as Hr. remember (string_to_runes (content C w)) as rs eqn:Hrs. clear Hrs.
  destruct (go_Transform_cell "cp949Encoder.Transform" "To" A O X 0%nat _ _ _ _ _ _ _ _ _ _ eof (inl (flat_map to_char rs))
    (or_intror (conj eq_refl (conj eq_refl (To_reads grow _ rs Hb Hr)))) Hnil Hin1 Hin Hb)
    as (A' & o & HA1 & HA2 & HA3 & Hcall).
  eexists _, _, _, own, hs. split; [eapply ef_encode; eassumption|]. split; [|eapply do_encode; eassumption].
  eapply (inv_put (mk A O X) own hs C H d l1 m1 (mk A' (O ++ [o]) X)); cbn [arrs objs ext]; try eassumption; try reflexivity.
  - intros q Hq. now apply objs_snoc.
  - now apply zlen_ztake_le.
  - apply Forall_ztake. eapply code_bytes_ok; eassumption.
Qed.

(** Read and Write. *)
Lemma alive_read k fuel q h n : (0 < fuel)%nat -> 0 < n -> wraps T h = k -> alive k fuel q h ->
  exists bs err q' h', Read grow T (rd1 k) fuel q n = Ok (bs, err, q') /\ Forall is_byte bs /\
    wraps T h' = k /\ alive k fuel q' h' /\
    forall C H i w, nth_error H i = Some h -> inside C w -> w_len w = n ->
      effect (World T C H) (QRead i w) (Data bs err) (World T (put C w bs) (set_nth i h' H)).
Proof.
  intros Hf Hn Hk Ha. destruct h as [k' text e|k' x|k' text e]; cbn in Hk, Ha; [|contradiction|]; subst k'.
  - destruct (live_read k fuel q text e n Hf Hn Ha) as (bs & err & q' & Hr & Hcase).
    destruct Hcase as [(-> & Hbne & Hbl & Hbb & rest & -> & Hl')|(-> & -> & -> & Hl')].
    + exists bs, None, q', (SReader T k rest e). split; [exact Hr|]. split; [exact Hbb|]. split; [reflexivity|]. split; [exact Hl'|].
      intros C H i w H1 H2 H3. eapply ef_read; try eassumption. lia.
    + exists [], (Some e), q', (SReader T k [] e). split; [exact Hr|]. split; [constructor|]. split; [reflexivity|]. split; [exact Hl'|].
      intros C H i w H1 H2 H3. rewrite put_put_nothing, set_nth_id by assumption. eapply ef_read_end; try eassumption. lia.
  - destruct (broken_read k fuel q text e n Hn Ha) as (bs & err & q' & Hr & Hbb & Hcase).
    destruct Hcase as [(-> & Hbne & Hbl & rest & rest' & -> & Hp & Hl')|(-> & -> & Hl')].
    + exists bs, None, q', (SBroken T k rest' e). split; [exact Hr|]. split; [exact Hbb|]. split; [reflexivity|]. split; [exact Hl'|].
      intros C H i w H1 H2 H3. eapply ef_read_broken; try eassumption. lia.
    + exists [], (Some e), q', (SBroken T k [] e). split; [exact Hr|]. split; [constructor|]. split; [reflexivity|]. split; [exact Hl'|].
      intros C H i w H1 H2 H3. rewrite put_put_nothing by assumption. eapply ef_read_broken_end; try eassumption. lia.
Qed.

Definition readable (h : stream T) : Prop := match h with SWriter _ _ _ => False | _ => True end.
Lemma step_read s own hs C H i w h : Inv s own hs (World T C H) -> nth_error H i = Some h -> readable h ->
  inside C w -> 0 < w_len w -> step s own hs (World T C H) (QRead i w).
Proof.
  intros Hi Hh Hrdb Hw Hpos. destruct (inv_window _ _ _ _ _ _ Hi Hw) as (l & m & Ho & Hsl & Hin & Hb & Hlen & Hnth & Hc & Hm & Hsep).
  destruct (Forall2_nth _ _ _ _ _ (i_ok _ _ _ _ Hi) Hh) as (c & Hhc & Hok).
  destruct c as [k p pt ls lr|]; [|destruct h; contradiction].
  assert (Hok' : wraps T h = k /\ exists r q fuel, is_reader E k s p pt ls lr r /\ r_src _ r = ext E s /\
    alike E T (fun x y => x k = y) r q /\ (0 < fuel)%nat /\ alive k fuel q h) by (destruct h; [exact Hok|contradiction|exact Hok]).
  clear Hok. destruct Hok' as (Hwk & r & q & fuel & Hr & Hx & Hal & Hf & Hlive).
  destruct (alive_read k fuel q h (w_len w) Hf Hpos Hwk Hlive) as (bs & err & q' & h' & Hread & Hbs & Hwk' & Hl & Heff).
  set (Q := fun (x : E) (y : T) => x k = y /\ forall j, j <> k -> x j = ext E s j).
  assert (HQ : answers_alike E T (RD k) (rd1 k) Q).
  { intros x y n [<- Hxo]. pose proof (Hrep k (x k) n) as Hk. destruct (rd1 k (x k) n) as [[b0 e0] y'] eqn:Hrd. destruct Hk as [j Hj].
    exists j, (update x k y'). unfold each_rd. rewrite Hj. split; [reflexivity|]. unfold Q, update. rewrite Nat.eqb_refl.
    split; [reflexivity|]. intros i0 Hi0. apply Nat.eqb_neq in Hi0. rewrite Hi0. apply Hxo. now apply Nat.eqb_neq. }
  assert (Hal' : alike E T Q r q).
  { destruct Hal as (A1 & A2). split; [|exact A2]. split; [assumption|]. intros j _. rewrite Hx. reflexivity. }
  pose proof (read_alike grow E T (RD k) (rd1 k) Q HQ fuel r q (w_len w) Hal') as Hres. rewrite Hread in Hres.
  destruct (Read3 grow E (RD k) fuel r (w_len w)) as [[[bs' err'] r']| |] eqn:Hr3; cbn in Hres; try contradiction.
  destruct Hres as [[= -> ->] Hal2]. pose proof Hal2 as ((Hq1 & Hq2) & Hal3). clear Hal2.
  assert (Hinh : In (HR k p pt ls lr) hs) by (eapply nth_error_In; eassumption).
  destruct (go_Read grow E RD WR k (Hbytes' k) fuel s p pt ls lr r l _ _ _ _ bs err r' Hr (eq_sym Hx) Hin)
    as (s' & ls' & lr' & Hr' & Hx' & [So1 So2] & Hbn & Hle & Hls & Hlr & Hcell & Hoth & _ & N & Hrun); try assumption.
  { apply (Hsep _ ls Hinh). left. reflexivity. }
  { apply (Hsep _ lr Hinh). right. left. reflexivity. }
  assert (Hso : nth_error (map h_ptr hs) i = Some p) by (rewrite nth_error_map, Hhc; reflexivity).
  pose proof Hw as (a & Ha & W1 & W2 & W3). pose proof (zlen_nonneg bs) as H0.
  assert (Hzl : length (zwrite (cell (arrs E s) l) (w_off w) bs) = length (cell (arrs E s) l)) by (apply length_zlen, zlen_zwrite; lia).
  pose proof (i_fits _ _ _ _ Hi) as Hfits. rewrite Forall_forall in Hfits.
  assert (Hlt : (l < length (arrs E s))%nat) by apply Hin.
  assert (Howncell : forall x, In x own -> fst x <> l -> cell (arrs E s') (fst x) = cell (arrs E s) (fst x)).
  { intros x Hxo Hne. apply Hoth; [apply Hfits; assumption|assumption| |].
    - apply (i_apart _ _ _ _ Hi x _ ls Hxo Hinh). left. reflexivity.
    - apply (i_apart _ _ _ _ Hi x _ lr Hxo Hinh). right. left. reflexivity. }
  assert (Hmem : memory_of (arrs E s') own = put C w bs).
  { unfold put. pose proof (i_mem _ _ _ _ Hi) as HM. cbn [mem] in HM. rewrite <- HM at 2.
    eapply memory_set; try eassumption.
    - apply (i_own _ _ _ _ Hi).
    - rewrite Hcell. assumption.
    - rewrite Hcell, Hnth. apply zwrite_ztake; lia. }
  assert (Hans : ztake (zlen bs) (zdrop (w_off w) (array (arrs E s') l)) = bs).
  { change (array (arrs E s') l) with (cell (arrs E s') l). rewrite Hcell. apply zwrite_take; lia. }
  assert (Hdoes : does own (map h_ptr hs) s (QRead i w) (Data bs err) own (map h_ptr (set_nth i (HR k p pt ls' lr') hs)) s').
  { replace (map h_ptr (set_nth i (HR k p pt ls' lr') hs)) with (map h_ptr hs)
      by (symmetry; eapply map_set_same; [eassumption|reflexivity]).
    rewrite <- Hans. eapply do_read; [eassumption|eassumption|]. exists N. exact Hrun. }
  eexists _, _, s', own, _. split; [apply Heff; [exact Hh|exact Hw|reflexivity]|]. split; [|exact Hdoes].
  { eapply (inv_use s own hs C H s' i (HR k p pt ls lr)); try eassumption; try reflexivity.
    - cbn [h_ext]. intros j Hj. rewrite Hx'. apply Hq2. assumption.
    - cbn [h_objs]. intros q0 Hq0. apply So2; intros ->; apply Hq0; cbn; auto.
    - cbn [h_locs]. intros x [<-|[<-|[]]].
      + destruct Hls as [->|]; [left; left; reflexivity|right; assumption].
      + destruct Hlr as [->|]; [left; right; left; reflexivity|right; assumption].
    - intros x Hx0 Hx1 Hx2. destruct (Nat.eq_dec x l) as [->|Hne].
      + assert (Hinl : In (l, m) own) by (eapply nth_error_In; eassumption).
        destruct (Hx2 _ Hinl) as [Hs|Hs]; cbn [fst] in Hs; [congruence|]. rewrite Hcell. rewrite Hs in Hzl |- *.
        destruct (zwrite [] (w_off w) bs); [reflexivity|discriminate].
      + apply Hoth; [assumption|assumption| |]; apply Hx1; cbn; auto.
    - intros x Hxo. destruct (Nat.eq_dec (fst x) l) as [->|Hne]; [rewrite Hcell; assumption|now rewrite Howncell].
    - apply put_bytes; [assumption|]. apply (i_bytes _ _ _ _ Hi).
    - assert (Hok' : wraps T h' = k /\ exists r q fuel, is_reader E k s' p pt ls' lr' r /\ r_src _ r = ext E s' /\
        alike E T (fun x y => x k = y) r q /\ (0 < fuel)%nat /\ alive k fuel q h').
      { split; [assumption|]. exists r', q', fuel. split; [assumption|]. split; [congruence|].
        split; [|split; assumption]. split; [assumption|exact Hal3]. }
      destruct h' as [| |]; [exact Hok'|destruct Hl|exact Hok']. }
Qed.

Lemma step_write s own hs C H i w k x : Inv s own hs (World T C H) -> nth_error H i = Some (SWriter T k x) ->
  inside C w -> step s own hs (World T C H) (QWrite i w).
Proof.
  intros Hi Hh Hw. destruct (inv_window _ _ _ _ _ _ Hi Hw) as (l & m & Ho & Hsl & Hin & Hb & Hlen & Hnth & Hc & Hm & Hsep).
  destruct (Forall2_nth _ _ _ _ _ (i_ok _ _ _ _ Hi) Hh) as (c & Hhc & Hok).
  destruct c as [|k' p pt ls]; [contradiction|]. destruct Hok as (<- & v & Hr & Hx & Hk).
  assert (Hinh : In (HW k p pt ls) hs) by (eapply nth_error_In; eassumption).
  assert (Hwok : writer_ok E v).
  { destruct Hr as (_ & _ & _ & Href & Hbuf). split; [apply Href|assumption]. }
  destruct (Write_spec grow E (wr_model E WR k) v (content C w) Hwok Hb) as (v' & Hwok' & Hspec).
  pose proof (i_fits _ _ _ _ Hi) as Hfits. rewrite Forall_forall in Hfits.
  assert (Hso : nth_error (map h_ptr hs) i = Some p) by (rewrite nth_error_map, Hhc; reflexivity).
  assert (Hgo : forall n err x', Write grow E (wr_model E WR k) v (content C w) = Ok (n, err, v') ->
    w_dst _ v' k = x' -> (forall j, j <> k -> w_dst _ v' j = ext E s j) ->
    exists s' ls', Inv s' own (set_nth i (HW k p pt ls') hs) (World T C (set_nth i (SWriter T k x') H)) /\
      does own (map h_ptr hs) s (QWrite i w) (Count n err) own (map h_ptr (set_nth i (HW k p pt ls') hs)) s').
  { intros n err x' Hwr Hx1 Hx2.
    destruct (go_Write grow E RD WR k s p pt ls v l _ _ _ _ n err v' Hr (eq_sym Hx) Hin)
      as (s' & ls' & Hr' & Hx' & [So1 So2] & (Hle & Hls & Hoth) & N & Hrun); try assumption.
    { apply (Hsep _ ls Hinh). left. reflexivity. }
    assert (Howncell : forall y, In y own -> cell (arrs E s') (fst y) = cell (arrs E s) (fst y)).
    { intros y Hy. apply Hoth; [apply Hfits; assumption|]. apply (i_apart _ _ _ _ Hi y _ ls Hy Hinh). left. reflexivity. }
    exists s', ls'. split.
    - eapply (inv_use s own hs C H s' i (HW k p pt ls)); try eassumption; try reflexivity.
      + cbn [h_ext]. intros j Hj. rewrite Hx'. apply Hx2. assumption.
      + cbn [h_objs]. intros q0 Hq0. apply So2; intros ->; apply Hq0; cbn; auto.
      + cbn [h_locs]. intros y [<-|[]]. destruct Hls as [->|]; [left; left; reflexivity|right; assumption].
      + intros y Hy0 Hy1 Hy2. apply Hoth; [assumption|]. apply Hy1. cbn. auto.
      + intros y Hy. now rewrite Howncell.
      + pose proof (i_mem _ _ _ _ Hi) as HM. cbn [mem] in HM. rewrite <- HM. apply memory_ext. assumption.
      + apply (i_bytes _ _ _ _ Hi).
      + cbn [handle_ok]. split; [reflexivity|]. exists v'. split; [assumption|]. split; congruence.
    - replace (map h_ptr (set_nth i (HW k p pt ls') hs)) with (map h_ptr hs)
        by (symmetry; eapply map_set_same; [eassumption|reflexivity]).
      eapply do_write; [eassumption|eassumption|]. exists N. exact Hrun. }
  destruct (content C w) as [|b0 rest] eqn:Hct.
  - destruct Hspec as [Hwr Hd]. destruct (Hgo 0 None x Hwr) as (s' & ls' & HI & HD).
    + rewrite Hd, Hx. assumption.
    + intros j _. rewrite Hd, Hx. reflexivity.
    + eexists _, _, s', own, _. split; [|split; [exact HI|exact HD]]. rewrite set_nth_id by assumption.
      eapply ef_write_nothing; eassumption.
  - destruct (wr k x (enc (b0 :: rest))) as [[n err] x'] eqn:Hwk.
    assert (Hm1 : wr_model E WR k (w_dst _ v) (enc (b0 :: rest)) = (err, update (ext E s) k x'))
      by (unfold wr_model, each_wr; rewrite Hx, Hk, Hwk; reflexivity).
    rewrite Hm1 in Hspec. destruct Hspec as [Hwr Hd].
    destruct (Hgo _ err x' Hwr) as (s' & ls' & HI & HD).
    + rewrite Hd. unfold update. now rewrite Nat.eqb_refl.
    + intros j Hj. rewrite Hd. unfold update. apply Nat.eqb_neq in Hj. now rewrite Hj.
    + eexists _, _, s', own, _. split; [|split; [exact HI|exact HD]].
      replace (match err with Some _ => 0 | None => zlen (b0 :: rest) end) with (match err with None => w_len w | Some _ => 0 end)
        by (rewrite Hlen; destruct err; reflexivity).
      eapply ef_write; try eassumption; rewrite Hct; [discriminate|apply string_to_runes_reads; assumption].
Qed.

Lemma step_any s own hs w q : Inv s own hs w -> (exists a w', effect w q a w') -> step s own hs w q.
Proof.
  intros Hi (a & w' & He). destruct He.
  - eapply step_store; eassumption.
  - apply step_alloc; assumption.
  - eapply step_open_reader; eassumption.
  - apply step_open_writer; assumption.
  - eapply step_read; try eassumption; [exact I|]. pose proof (zlen_nonneg bs). destruct bs; [congruence|]. rewrite zlen_cons in *. pose proof (zlen_nonneg bs). lia.
  - eapply step_read; try eassumption. exact I.
  - eapply step_write; eassumption.
  - eapply step_write; eassumption.
  - apply step_from; assumption.
  - apply step_from; assumption.
  - apply step_to; assumption.
  - apply step_decode; assumption.
  - apply step_decode; assumption.
  - apply step_encode; assumption.
  - eapply step_open_broken; eassumption.
  - eapply step_read; try eassumption; [exact I|]. pose proof (zlen_nonneg bs). destruct bs; [congruence|]. rewrite zlen_cons in *. pose proof (zlen_nonneg bs). lia.
  - eapply step_read; try eassumption. exact I.
Qed.

Lemma program_runs p : forall s own hs w, Inv s own hs w -> sensible T to_char source start wr w p ->
  exists answers own' s' hs' w', executes grow E RD WR own (map h_ptr hs) s p answers own' s' /\
    outcome T to_char source start wr w p answers w' /\ Inv s' own' hs' w'.
Proof.
  induction p as [|q next IH]; intros s own hs w Hi Hs.
  - exists [], own, s, hs, w. split; [constructor|]. split; [constructor|assumption].
  - destruct Hs as [Hs1 Hs2]. destruct (step_any _ _ _ _ _ Hi Hs1) as (a & w1 & s1 & own1 & hs1 & He & Hi1 & Hd).
    destruct (IH a s1 own1 hs1 w1 Hi1 (Hs2 a w1 He)) as (answers & own2 & s2 & hs2 & w2 & H1 & H2 & H3).
    exists (a :: answers), own2, s2, hs2, w2. split; [econstructor; eassumption|]. split; [econstructor; eassumption|assumption].
Qed.

Lemma memory_whole A : memory_of A (whole A) = A.
Proof.
  unfold memory_of, whole. rewrite map_map. cbn [fst snd].
  transitivity (map (array A) (seq 0 (length A))); [apply map_ext; intros l; apply ztake_all; lia|].
  unfold array. induction A as [|a A IH]; [reflexivity|]. cbn [length seq map nth]. f_equal. rewrite <- seq_shift, map_map. exact IH.
Qed.

Lemma inv_start A O : nil_ok A -> Forall (Forall is_byte) A -> Inv (mk A O start) (whole A) [] (World T A []).
Proof.
  intros Hn Hb. constructor; cbn [arrs objs ext mem streams map]; try assumption.
  - apply Forall_forall. intros x Hx. apply in_map_iff in Hx. destruct Hx as (l & <- & Hl). apply in_seq in Hl.
    split; cbn [fst snd]; [lia|]. pose proof (zlen_nonneg (array A l)). change (cell A l) with (array A l). lia.
  - apply memory_whole.
  - intros i j a b Hij Ha Hb'. unfold whole in *. apply nth_error_map_some in Ha, Hb'.
    destruct Ha as (x & Ha & <-), Hb' as (y & Hb' & <-). left. cbn [fst]. intros ->. apply Hij.
    pose proof (seq_NoDup (length A) 0) as Hnd. rewrite NoDup_nth_error in Hnd. apply Hnd; [|congruence].
    apply nth_error_Some. congruence.
  - intros x c m _ [].
  - intros i j a b Hij Ha. destruct i; discriminate.
  - constructor.
  - constructor.
  - reflexivity.
Qed.

Lemma inv_writer s own hs w k x : Inv s own hs w -> In (SWriter T k x) (streams _ w) -> ext E s k = x.
Proof.
  intros Hi Hin. pose proof (i_ok _ _ _ _ Hi) as H. clear Hi. induction H as [|c h hs' H' Hok _ IH]; [contradiction|].
  destruct Hin as [->|Hin]; [|auto]. destruct c; [contradiction|]. destruct Hok as (-> & v & _ & _ & Hk). exact Hk.
Qed.

End Prog.

(** Requests have one result only. *)
Section Det.
Variable grow : Z -> Z -> Z.
Variable E : Type.
Variable rd : nat -> E -> Z -> Z * list Z * option error * E.
Variable wr : nat -> E -> list Z -> Z * option error * E.

Lemma slice_at_det own w v1 v2 : slice_at own w v1 -> slice_at own w v2 -> v1 = v2.
Proof. intros (l1 & m1 & H1 & ->) (l2 & m2 & H2 & ->). congruence. Qed.

Lemma does_det own ps s q a1 own1 ps1 s1 a2 own2 ps2 s2 :
  does grow E rd wr own ps s q a1 own1 ps1 s1 -> does grow E rd wr own ps s q a2 own2 ps2 s2 ->
  a1 = a2 /\ own1 = own2 /\ ps1 = ps2 /\ s1 = s2.
Proof.
  intros H1 H2. destruct H1; inversion H2; subst; clear H2;
    repeat match goal with
    | H : nth_error ?l ?n = Some ?x, H' : nth_error ?l ?n = Some ?y |- _ =>
        rewrite H in H'; inversion H'; clear H'; subst
    | H : slice_at ?o ?w ?x, H' : slice_at ?o ?w ?y |- _ =>
        pose proof (slice_at_det _ _ _ _ H H') as Hv; clear H'; inversion Hv; clear Hv; subst
    end;
    try match goal with
    | H : calls _ _ _ _ _ _ _ _ _ _, H' : calls _ _ _ _ _ _ _ _ _ _ |- _ =>
        destruct (calls_det _ _ _ _ _ _ _ _ _ _ _ _ H H') as [Hv ?]; inversion Hv; subst
    end; auto.
Qed.

Lemma executes_det own ps s p outs1 own1 s1 : executes grow E rd wr own ps s p outs1 own1 s1 ->
  forall outs2 own2 s2, executes grow E rd wr own ps s p outs2 own2 s2 -> outs1 = outs2 /\ own1 = own2 /\ s1 = s2.
Proof.
  induction 1 as [|own ps s q next a own1 ps1 s1 outs own' s' Hd _ IH]; intros outs2 own2 s2 H2; inversion H2; subst; clear H2; [auto|].
  match goal with H : does _ _ _ _ _ _ _ _ _ _ _ _ |- _ => destruct (does_det _ _ _ _ _ _ _ _ _ _ _ _ Hd H) as (? & ? & ? & ?) end.
  subst. match goal with H : executes _ _ _ _ _ _ _ _ _ _ _ |- _ => destruct (IH _ _ _ H) as (? & ? & ?) end. subst. auto.
Qed.
End Det.

Lemma program_correct : exists f, char_code f /\
  forall grow T rd rd1 wr source start A O p,
    (forall k x n, Forall is_byte (snd (fst (fst (rd k x n))))) -> (forall k, reports (rd k) (rd1 k)) ->
    (forall k bytes e, source k = Some (bytes, e) -> delivers (rd1 k) (start k) bytes e) ->
    has_nil A -> Forall (Forall is_byte) A -> sensible T f source start wr (World T A []) p ->
  exists answers own s w,
    executes grow (nat -> T) (each_rd rd) (each_wr wr) (whole A) [] (mkState _ A O start) p answers own s /\
    (forall answers' own' s', executes grow (nat -> T) (each_rd rd) (each_wr wr) (whole A) [] (mkState _ A O start) p answers' own' s' ->
       answers' = answers /\ own' = own /\ s' = s) /\
    outcome T f source start wr (World T A []) p answers w /\
    memory_of (arrs _ s) own = mem T w /\
    (forall k x, In (SWriter T k x) (streams T w) -> ext _ s k = x) /\
    (forall k, ~ In k (map (wraps T) (streams T w)) -> ext _ s k = start k).
Proof.
  exists to_char. split; [apply char_code_to_char|].
  intros grow T rd rd1 wr source start A O p Hb Hr Hs Hn HA Hp.
  destruct (program_runs grow T rd rd1 wr source start Hb Hr Hs p _ _ _ _ (inv_start grow T rd1 start A O Hn HA) Hp)
    as (answers & own & s & hs & w & H1 & H2 & H3).
  exists answers, own, s, w. split; [exact H1|]. split; [|split; [exact H2|split; [|split]]].
  - intros a' o' s' H'. destruct (executes_det _ _ _ _ _ _ _ _ _ _ _ H1 _ _ _ H') as (-> & -> & ->). auto.
  - apply (i_mem _ _ _ _ _ _ _ _ H3).
  - intros k x. eapply inv_writer; eassumption.
  - apply (i_rest _ _ _ _ _ _ _ _ H3).
Qed.
