(** Which slices a function may write through: a check of the syntax trees, and what it
    implies for the processes of GoThreads.v.

    [ty] and [st] check that a function writes only through slices that are its own: made by
    itself, held in the fields of an object, or passed for a parameter that is not on the list
    of shared ones.  [prel] relates two processes that do the same accesses at corresponding
    places of two memories.  [run_related]: a checked function makes related processes out of
    related arguments. *)
From Coq Require Import String ZArith List Bool Lia.
From Verif Require Import Base Utf8 SortSearch Cp949Model GoLang GoThreads Facts SliceFacts ThreadFacts.
Import ListNotations.
Local Open Scope list_scope.
Local Open Scope Z_scope.
Local Open Scope proc_scope.

(** ** The check.  [true]: the thread's own slice, which it may write (or no slice at all);
    [false]: a slice that others may read at the same time. *)
Definition tenv : Type := list (string * bool).
Definition sub (b want : bool) : bool := implb want b.
Fixpoint ends (m s : string) : bool :=
  String.eqb m s || match s with EmptyString => false | String _ s => ends m s end.

Section Check.
(* parameters and result of every function *)
Variable sigs : list (string * (list bool * bool)).
(* the slices of map literals are at positions 1 to [K] *)
Variable K : nat.
(* what the function returns *)
Variable resty : bool.

Definition subs (ts : list (option bool)) (ps : list bool) : bool :=
  Nat.eqb (length ts) (length ps) &&
  forallb (fun x => match fst x with Some b => sub b (snd x) | None => false end) (combine ts ps).
Definition typed (t : option bool) : bool := match t with Some _ => true | None => false end.
Definition is_own (t : option bool) : bool := match t with Some b => b | None => false end.
Definition when (c : bool) (b : bool) : option bool := if c then Some b else None.

Fixpoint nodecl (c : stmt) : bool :=
  match c with Define _ _ => false | If _ a b => nodecl a && nodecl b | _ => true end.

Fixpoint ty (g : tenv) (e : expr) {struct e} : option bool :=
  match e with
  | Lit _ | LitB _ | LitS _ | NilErr | NilSlice | NilPtr | ErrLit _ | TableLit _ => Some true
  | Var x => get x g
  | Arith _ _ a b | Cmp _ a b | Concat a b | Index a b | Make a b => when (typed (ty g a) && typed (ty g b)) true
  | And a b | Or a b => when (typed (ty g a) && is_own (ty g b)) true
  | Not a | Conv _ a | Runes a | Str a | Len a | Cap a | MapGet _ a | MapGet2 _ a | DecodeRuneE a => when (typed (ty g a)) true
  | MapSlice2 m a => when (typed (ty g a) && Nat.leb (length m) K) false
  | Slice a b c => if typed (ty g b) && typed (ty g c) then ty g a else None
  | SliceFrom a b => if typed (ty g b) then ty g a else None
  | Append a es => when (is_own (ty g a) && forallb (fun e => typed (ty g e)) es) true
  | AppendS a b | CopyE a b | EncodeRuneE a b => when (is_own (ty g a) && typed (ty g b)) true
  | Field a _ => when (typed (ty g a)) true
  | New _ fs => when (forallb (fun x => is_own (ty g (snd x))) fs) true
  | Call f es =>
    match get f sigs with
    | Some (ps, r) => when (subs (map (ty g) es) ps) r
    | None => None
    end
  | Method a m es =>
    when (typed (ty g a) &&
      forallb (fun x => negb (ends ("." ++ m) (fst x)) ||
                        (subs (Some true :: map (ty g) es) (fst (snd x)) && snd (snd x))) sigs &&
      (if String.eqb m "Read" then forallb is_own (map (ty g) es) else forallb typed (map (ty g) es))) true
  | SearchE n i body =>
    when (typed (ty g n) && match st ((i, true) :: g) body with Some _ => true | None => false end) true
  end
with st (g : tenv) (c : stmt) {struct c} : option tenv :=
  match c with
  | Define xs e => match ty g e with Some b => Some (map (fun x => (x, b)) xs ++ g) | None => None end
  | Assign ls e =>
    match ty g e with
    | Some b =>
      if forallb (fun l =>
           match l with
           | LBlank => true
           | LVar x => match get x g with Some b' => sub b b' | None => false end
           | LField a _ => typed (ty g a) && b
           | LIndex a i => is_own (ty g a) && typed (ty g i)
           end) ls then Some g else None
    | None => None
    end
  | ExprS e => if typed (ty g e) then Some g else None
  | Block cs =>
    match (fix go (g : tenv) (cs : list stmt) {struct cs} : option tenv :=
       match cs with
       | [] => Some g
       | c :: cs => match st g c with Some g => go g cs | None => None end
       end) g cs with Some _ => Some g | None => None end
  | If e a b =>
    if typed (ty g e) && nodecl a && nodecl b then
      match st g a, st g b with Some _, Some _ => Some g | _, _ => None end
    else None
  | While e a =>
    if typed (ty g e) && nodecl a then match st g a with Some _ => Some g | None => None end else None
  | Range i x e a =>
    if typed (ty g e) then match st ((i, true) :: (x, true) :: g) a with Some _ => Some g | None => None end else None
  | Return es => if forallb (fun e => match ty g e with Some b => sub b resty | None => false end) es then Some g else None
  | Continue | Break => Some g
  end.

Lemma ty_SearchE g n i body : ty g (SearchE n i body) =
  when (typed (ty g n) && match st ((i, true) :: g) body with Some _ => true | None => false end) true.
Proof. reflexivity. Qed.
Lemma st_Define g xs e : st g (Define xs e) =
  match ty g e with Some b => Some (map (fun x => (x, b)) xs ++ g) | None => None end.
Proof. reflexivity. Qed.
Definition lhs_ok (g : tenv) (b : bool) (l : lhs) : bool :=
  match l with
  | LBlank => true
  | LVar x => match get x g with Some b' => sub b b' | None => false end
  | LField a _ => typed (ty g a) && b
  | LIndex a i => is_own (ty g a) && typed (ty g i)
  end.
Lemma st_Assign g ls e : st g (Assign ls e) =
  match ty g e with Some b => if forallb (lhs_ok g b) ls then Some g else None | None => None end.
Proof. reflexivity. Qed.
Lemma st_ExprS g e : st g (ExprS e) = if typed (ty g e) then Some g else None.
Proof. reflexivity. Qed.
Fixpoint sts (g : tenv) (cs : list stmt) {struct cs} : option tenv :=
  match cs with
  | [] => Some g
  | c :: cs => match st g c with Some g => sts g cs | None => None end
  end.
Lemma st_Block g cs : st g (Block cs) = match sts g cs with Some _ => Some g | None => None end.
Proof. reflexivity. Qed.
Lemma st_If g e a b : st g (If e a b) =
  if typed (ty g e) && nodecl a && nodecl b then
    match st g a, st g b with Some _, Some _ => Some g | _, _ => None end
  else None.
Proof. reflexivity. Qed.
Lemma st_While g e a : st g (While e a) =
  if typed (ty g e) && nodecl a then match st g a with Some _ => Some g | None => None end else None.
Proof. reflexivity. Qed.
Lemma st_Range g i x e a : st g (Range i x e a) =
  if typed (ty g e) then match st ((i, true) :: (x, true) :: g) a with Some _ => Some g | None => None end else None.
Proof. reflexivity. Qed.
Lemma st_Return g es : st g (Return es) =
  if forallb (fun e => match ty g e with Some b => sub b resty | None => false end) es then Some g else None.
Proof. reflexivity. Qed.
End Check.

(** Parameters through which nothing is written. *)
Definition shared_param (x : string) : bool :=
  String.eqb x "in" || String.eqb x "data" || String.eqb x "src".
Definition shared_result (f : string) : bool := String.eqb f "SplitMultiElement".
Definition sig_of (x : string * func) : string * (list bool * bool) :=
  (fst x, (map (fun y => negb (shared_param y)) (f_params (snd x)), negb (shared_result (fst x)))).
Definition check_func (K : nat) (sigs : list (string * (list bool * bool))) (x : string * func) : bool :=
  let fn := snd x in
  let '(ps, r) := snd (sig_of x) in
  match st sigs K r (map (fun y => (fst y, true)) (f_results fn) ++ combine (f_params fn) ps) (f_body fn) with
  | Some _ => forallb (fun y => is_own (ty sigs K r [] (snd y))) (f_results fn)
  | None => false
  end.
Definition check (K : nat) (prog : list (string * func)) : bool := forallb (check_func K (map sig_of prog)) prog.

(** ** Corresponding memories *)
Record world : Type := mkWorld { wa : list (nat * nat); wo : list (nat * nat) }.
Definition wle (w w' : world) : Prop := incl (wa w) (wa w') /\ incl (wo w) (wo w').
Definition add_arr (w : world) (l l' : nat) : world := mkWorld ((l, l') :: wa w) (wo w).
Definition add_obj (w : world) (l l' : nat) : world := mkWorld (wa w) ((l, l') :: wo w).
Lemma wle_refl w : wle w w. Proof. split; apply incl_refl. Qed.
Lemma wle_trans a b c : wle a b -> wle b c -> wle a c.
Proof. intros [] []. split; eapply incl_tran; eassumption. Qed.
Lemma wle_arr w l l' : wle w (add_arr w l l').
Proof. split; [apply incl_tl, incl_refl|apply incl_refl]. Qed.
Lemma wle_obj w l l' : wle w (add_obj w l l').
Proof. split; [apply incl_refl|apply incl_tl, incl_refl]. Qed.
Local Hint Resolve wle_refl wle_arr wle_obj : core.

Section Rel.
(* arrays that nobody writes *)
Variable R : nat -> Prop.
Variable K : nat.
Hypothesis HR : forall l, (l <= K)%nat -> R l.

Section List2.
Context {A : Type} (P : A -> A -> Prop).
Fixpoint list_rel (l l' : list A) : Prop :=
  match l, l' with
  | [], [] => True
  | a :: l, a' :: l' => P a a' /\ list_rel l l'
  | _, _ => False
  end.
End List2.

Fixpoint val_rel (w : world) (b : bool) (v v' : val) {struct v} : Prop :=
  match v, v' with
  | VSlice l o n c, VSlice l' o' n' c' =>
    o = o' /\ n = n' /\ c = c' /\
    (In (l, l') (wa w) \/ (l = l' /\ R l /\ (b = false \/ (n = 0 /\ c = 0))))
  | VPtr l, VPtr l' => In (l, l') (wo w)
  | VTuple vs, VTuple vs' =>
    (fix go (vs vs' : list val) {struct vs} : Prop :=
       match vs, vs' with
       | [], [] => True
       | v :: vs, v' :: vs' => val_rel w b v v' /\ go vs vs'
       | _, _ => False
       end) vs vs'
  | VInt z, VInt z' => z = z'
  | VBool z, VBool z' => z = z'
  | VStr z, VStr z' => z = z'
  | VErr z, VErr z' => z = z'
  | VNil, VNil => True
  | VExt z, VExt z' => z = z'
  | VTable z, VTable z' => z = z'
  | VItem z, VItem z' => z = z'
  | _, _ => False
  end.
Definition vals_rel w b : list val -> list val -> Prop := list_rel (val_rel w b).
Lemma val_rel_tuple w b vs vs' : val_rel w b (VTuple vs) (VTuple vs') = vals_rel w b vs vs'.
Proof. reflexivity. Qed.

Section ValInd.
Variable P : val -> Prop.
Hypothesis HT : forall vs, Forall P vs -> P (VTuple vs).
Hypothesis HO : forall v, (forall vs, v <> VTuple vs) -> P v.
Fixpoint val_all (v : val) : P v.
Proof.
  destruct v; try (apply HO; congruence). apply HT. induction vs as [|v vs IH]; constructor; [apply val_all|exact IH].
Qed.
End ValInd.

Lemma val_rel_mono w w' b b' v : wle w w' -> (b' = true -> b = true) -> forall v', val_rel w b v v' -> val_rel w' b' v v'.
Proof.
  intros [Ha Ho] Hb. pattern v. apply val_all; clear v.
  - intros vs H v' Hv. destruct v'; try contradiction Hv. rewrite val_rel_tuple in *. revert vs0 Hv.
    induction H as [|v vs Hv _ IH]; intros [|v' vs'] H'; try contradiction H'; [exact I|]. destruct H'. split; auto.
  - intros v Hn v' H. destruct v, v'; try contradiction H; try exact H.
    + cbn in *. destruct H as (-> & -> & -> & H). repeat split; auto. destruct H as [H|(-> & H & H')]; [left; now apply Ha|right].
      repeat split; auto. destruct H' as [H'|H']; [left|right; exact H']. destruct b'; [|reflexivity]. now rewrite Hb in H' by reflexivity.
    + apply Ho, H.
    + congruence.
Qed.
Lemma vals_rel_mono w w' b b' vs vs' : wle w w' -> (b' = true -> b = true) -> vals_rel w b vs vs' -> vals_rel w' b' vs vs'.
Proof.
  intros H Hb. revert vs'. induction vs as [|v vs IH]; intros [|v' vs'] Hv; try contradiction Hv; [exact I|].
  destruct Hv. split; [eapply val_rel_mono; eauto|apply IH; assumption].
Qed.
Lemma val_rel_sub w w' b b' v v' : wle w w' -> sub b b' = true -> val_rel w b v v' -> val_rel w' b' v v'.
Proof. intros Hw Hs. apply val_rel_mono; [assumption|]. destruct b, b'; cbn in Hs; congruence. Qed.

Definition field_rel w (x x' : string * val) : Prop := fst x = fst x' /\ val_rel w true (snd x) (snd x').
Definition fields_rel w : list (string * val) -> list (string * val) -> Prop := list_rel (field_rel w).
Definition obj_rel w (o o' : string * list (string * val)) : Prop := fst o = fst o' /\ fields_rel w (snd o) (snd o').
Fixpoint env_rel w (g : tenv) (env env' : env) : Prop :=
  match g, env, env' with
  | [], [], [] => True
  | (x, b) :: g, (y, v) :: env, (y', v') :: env' => x = y /\ x = y' /\ val_rel w b v v' /\ env_rel w g env env'
  | _, _, _ => False
  end.
Lemma env_rel_mono w w' g : wle w w' -> forall env env', env_rel w g env env' -> env_rel w' g env env'.
Proof.
  intros Hw. induction g as [|[x b] g IH]; intros [|[y v] env] [|[y' v'] env'] H; try contradiction H; [exact I|].
  destruct H as (? & ? & ? & ?). repeat split; auto. eapply val_rel_mono; eauto.
Qed.
Lemma fields_rel_mono w w' fs fs' : wle w w' -> fields_rel w fs fs' -> fields_rel w' fs fs'.
Proof.
  intros Hw. revert fs'. induction fs as [|[x v] fs IH]; intros [|[y v'] fs'] H; try contradiction H; [exact I|].
  destruct H as [[H1 H2] H3]. split; [split; [exact H1|eapply val_rel_mono; eauto]|apply IH, H3].
Qed.
Lemma obj_rel_mono w w' o o' : wle w w' -> obj_rel w o o' -> obj_rel w' o o'.
Proof. intros Hw [H1 H2]. split; [exact H1|eapply fields_rel_mono; eauto]. Qed.

(** ** Related processes *)
Inductive prel {A} (Q : world -> A -> A -> Prop) : world -> proc A -> proc A -> Prop :=
| prel_ok w a a' : Q w a a' -> prel Q w (Done (Ok a)) (Done (Ok a'))
| prel_panic w : prel Q w (Done Panic) (Done Panic)
| prel_fuel w : prel Q w (Done Fuel) (Done Fuel)
| prel_load w l l' o n k k' :
    (In (l, l') (wa w) \/ (l = l' /\ R l)) ->
    (forall r, zlen r <= Z.max 0 n -> prel Q w (k r) (k' r)) -> prel Q w (Load l o n k) (Load l' o n k')
| prel_save w l l' o bs k k' :
    (In (l, l') (wa w) \/ (l = l' /\ R l /\ bs = [])) ->
    prel Q w k k' -> prel Q w (Save l o bs k) (Save l' o bs k')
| prel_new w a k k' :
    (forall l l', prel Q (add_arr w l l') (k l) (k' l')) -> prel Q w (NewArr a k) (NewArr a k')
| prel_get w l l' k k' :
    In (l, l') (wo w) -> (forall o o', obj_rel w o o' -> prel Q w (k o) (k' o')) -> prel Q w (GetObj l k) (GetObj l' k')
| prel_set w l l' f v v' k k' :
    In (l, l') (wo w) -> val_rel w true v v' -> prel Q w k k' -> prel Q w (SetField l f v k) (SetField l' f v' k')
| prel_obj w T fs fs' k k' :
    fields_rel w fs fs' -> (forall l l', prel Q (add_obj w l l') (k l) (k' l')) -> prel Q w (NewObj T fs k) (NewObj T fs' k')
| prel_read w i n k k' :
    (forall c bs e, prel Q w (k c bs e) (k' c bs e)) -> prel Q w (ExtRead i n k) (ExtRead i n k')
| prel_write w i bs k k' :
    (forall c e, prel Q w (k c e) (k' c e)) -> prel Q w (ExtWrite i bs k) (ExtWrite i bs k').

Lemma prel_bind {A B} (Q : world -> A -> A -> Prop) (S : world -> B -> B -> Prop) w m m' f f' :
  prel Q w m m' -> (forall w' a a', wle w w' -> Q w' a a' -> prel S w' (f a) (f' a')) ->
  prel S w (tbind m f) (tbind m' f').
Proof.
  intros H. induction H; intros Hf; cbn [tbind]; try (constructor; auto; fail).
  - apply Hf; auto.
  - constructor. intros l l'. apply H0. intros. apply Hf; [|assumption]. eapply wle_trans; [|eassumption]; auto.
  - constructor; [assumption|]. intros l l'. apply H1. intros. apply Hf; [|assumption]. eapply wle_trans; [|eassumption]; auto.
Qed.
Lemma prel_weaken {A} (Q S : world -> A -> A -> Prop) w p p' :
  prel Q w p p' -> (forall w' a a', wle w w' -> Q w' a a' -> S w' a a') -> prel S w p p'.
Proof.
  intros H. induction H; intros Hf; try (constructor; auto; fail).
  - constructor. intros l l'. apply H0. intros. apply Hf; [|assumption]. eapply wle_trans; [|eassumption]; auto.
  - constructor; [assumption|]. intros l l'. apply H1. intros. apply Hf; [|assumption]. eapply wle_trans; [|eassumption]; auto.
Qed.
(** Computations on equal data. *)
Lemma prel_pure {A B} (S : world -> B -> B -> Prop) w (r : res A) f f' :
  (forall a, prel S w (f a) (f' a)) -> prel S w (tbind (pure r) f) (tbind (pure r) f').
Proof. intros H. destruct r; cbn; [apply H|constructor|constructor]. Qed.

Lemma as_int_rel w b v v' : val_rel w b v v' -> as_int v = as_int v'.
Proof. destruct v, v'; cbn; intros H; try contradiction; try reflexivity. now subst. Qed.
Lemma as_bool_rel w b v v' : val_rel w b v v' -> as_bool v = as_bool v'.
Proof. destruct v, v'; cbn; intros H; try contradiction; try reflexivity. now subst. Qed.
Lemma as_ints_rel w b vs vs' : vals_rel w b vs vs' -> as_ints vs = as_ints vs'.
Proof.
  revert vs'. induction vs as [|v vs IH]; intros [|v' vs'] H; try contradiction H; [reflexivity|].
  destruct H as [H1 H2]. cbn [as_ints]. now rewrite (as_int_rel _ _ _ _ H1), (IH vs' H2).
Qed.
Lemma compare_rel w b b1 o v v' u u' : val_rel w b v v' -> val_rel w b1 u u' -> compare o v u = compare o v' u'.
Proof. intros H1 H2. destruct v, v'; cbn in H1; try contradiction; subst; try reflexivity; destruct u, u'; cbn in H2; try contradiction; subst; reflexivity. Qed.
Lemma zlen_ztake_le (n : Z) (l : list Z) : zlen (ztake n l) <= Z.max 0 n.
Proof. unfold zlen, ztake. rewrite firstn_length. lia. Qed.
Lemma zlen_nil (bs : list Z) : zlen bs <= 0 -> bs = [].
Proof. destruct bs; [reflexivity|]. unfold zlen. cbn [length]. lia. Qed.

Notation V b := (fun w => val_rel w b).

Section Ops.
Variable grow : Z -> Z -> Z.
Lemma append_rel w a a' bs : val_rel w true a a' -> prel (V true) w (append_toT grow a bs) (append_toT grow a' bs).
Proof.
  intros H. destruct a, a'; cbn in H; try contradiction; try constructor. destruct H as (-> & -> & -> & H). cbn [append_toT].
  destruct (Z.leb_spec (len0 + zlen bs) cap0) as [Hc|Hc].
  - constructor.
    + destruct H as [H|(-> & H & [H'|[-> ->]])]; [now left|discriminate|]. right. repeat split; auto. apply zlen_nil. lia.
    + constructor. cbn. repeat split; auto. destruct H as [H|(-> & H & [H'|[-> ->]])]; [now left|discriminate|].
      right. repeat split; auto. right. pose proof (zlen_nonneg bs). lia.
  - constructor.
    + destruct H as [H|(-> & H & _)]; auto.
    + intros r _. constructor. intros l l'. constructor. cbn. repeat split; auto.
Qed.
Lemma index_rel w b a a' i : val_rel w b a a' -> prel (V true) w (index_ofT a i) (index_ofT a' i).
Proof.
  intros H. destruct a, a'; cbn in H; try contradiction; try constructor.
  - destruct H as (-> & -> & -> & H). cbn [index_ofT]. destruct (_ && _); [|constructor]. constructor.
    + destruct H as [H|(-> & H & _)]; auto.
    + intros r _. constructor. reflexivity.
  - subst. cbn [index_ofT]. apply prel_pure. intros it. constructor. reflexivity.
Qed.
Lemma copy_rel w b a a' c c' : val_rel w true a a' -> val_rel w b c c' -> prel (V true) w (copy_toT a c) (copy_toT a' c').
Proof.
  intros H H2. destruct a, a'; cbn in H; try contradiction; try solve [constructor].
  destruct c, c'; cbn in H2; try contradiction; try solve [constructor].
  destruct H as (-> & -> & -> & H). destruct H2 as (-> & -> & -> & H2). cbn [copy_toT]. constructor.
  - destruct H2 as [H2|(-> & H2 & _)]; auto.
  - intros r Hr. constructor; [|constructor; reflexivity]. destruct H as [H|(-> & H & [H'|[-> ->]])]; [now left|discriminate|].
    right. repeat split; auto. apply zlen_nil. lia.
Qed.
Lemma get_rel w fs fs' f : fields_rel w fs fs' -> match get f fs, get f fs' with Some v, Some v' => val_rel w true v v' | None, None => True | _, _ => False end.
Proof.
  revert fs'. induction fs as [|[x v] fs IH]; intros [|[x' v'] fs'] H; try contradiction H; [exact I|].
  destruct H as [[H1 H2] H3]. cbn in H1. subst x'. cbn [get]. destruct (String.eqb x f); [exact H2|apply IH, H3].
Qed.
Lemma field_of_rel w b a a' f : val_rel w b a a' -> prel (V true) w (field_ofT a f) (field_ofT a' f).
Proof.
  intros H. destruct a, a'; cbn in H; try contradiction; try constructor.
  - assumption.
  - intros o o' [_ Ho]. pose proof (get_rel w (snd o) (snd o') f Ho) as Hg.
    destruct (get f (snd o)), (get f (snd o')); try contradiction; constructor. exact Hg.
  - subst. cbn [field_ofT]. destruct (String.eqb f "cp949"); [constructor; reflexivity|]. destruct (String.eqb f "ucs2"); constructor. reflexivity.
Qed.
Lemma slice_rel w b a a' lo hi : val_rel w b a a' -> prel (V b) w (pure (slice_of a lo hi)) (pure (slice_of a' lo hi)).
Proof.
  intros H. destruct a, a'; cbn in H; try contradiction; try constructor. destruct H as (-> & -> & -> & H). cbn [slice_of].
  set (h := match hi with Some h => h | None => len0 end).
  destruct ((0 <=? lo) && (lo <=? h) && (h <=? cap0)) eqn:Hb; [|constructor].
  apply andb_prop in Hb. destruct Hb as [Hb H3]. apply andb_prop in Hb. destruct Hb as [H1 H2].
  apply Z.leb_le in H1, H2, H3. constructor. cbn. repeat split; auto.
  destruct H as [H|(-> & H & H')]; [now left|right]. repeat split; auto. destruct H' as [H'|[-> ->]]; [now left|right]. lia.
Qed.
Lemma ext_rel w (b : bool) i m args args' : vals_rel w b args args' -> (String.eqb m "Read" = true -> b = true) ->
  prel (V true) w (ext_callT i m args) (ext_callT i m args').
Proof.
  intros H Hb. destruct args as [|a args], args' as [|a' args']; try contradiction H; [constructor|].
  destruct H as [H1 H2]. destruct args, args'; try contradiction H2; destruct a, a'; cbn in H1; try contradiction; try constructor.
  destruct H1 as (-> & -> & -> & H1). unfold ext_callT. destruct (String.eqb_spec m "Read") as [->|].
  - constructor. intros c bs e. constructor; [|constructor; cbn; auto].
    destruct H1 as [H1|(-> & H1 & [H'|[-> ->]])]; [now left| |].
    + rewrite Hb in H' by reflexivity. discriminate.
    + right. repeat split; auto.
  - destruct (String.eqb m "Write"); [|constructor]. constructor.
    + destruct H1 as [H1|(-> & H1 & _)]; auto.
    + intros r _. constructor. intros c e. constructor. cbn. auto.
Qed.
Lemma search_rel w f f' : (forall k, prel (fun _ a a' => a = a') w (f k) (f' k)) ->
  (forall w', wle w w' -> forall k, prel (fun _ a a' => a = a') w' (f k) (f' k)) ->
  forall n i j, forall w', wle w w' -> prel (fun _ a a' => a = a') w' (search_loopT n f i j) (search_loopT n f' i j).
Proof.
  intros _ H. induction n as [|n IH]; intros i j w' Hw; cbn [search_loopT]; destruct (i <? j); try (constructor; reflexivity); try constructor.
  eapply prel_bind; [apply H, Hw|]. intros w2 a a' Hw2 ->. destruct (negb a'); apply IH; (eapply wle_trans; [eassumption|assumption]).
Qed.

Section Fund.
Variable sigs : list (string * (list bool * bool)).
Variable callT : string -> list val -> proc val.
Variable loops : nat.
Fixpoint args_rel w (ps : list bool) (vs vs' : list val) : Prop :=
  match ps, vs, vs' with
  | [], [], [] => True
  | b :: ps, v :: vs, v' :: vs' => val_rel w b v v' /\ args_rel w ps vs vs'
  | _, _, _ => False
  end.
Hypothesis Hcall : forall f ps r, get f sigs = Some (ps, r) ->
  forall w vs vs', args_rel w ps vs vs' -> prel (V r) w (callT f vs) (callT f vs').
Hypothesis Hnone : forall f vs, get f sigs = None -> callT f vs = Done Fuel.
Notation evT := (evalT grow callT loops).
Notation exT := (execT grow callT loops).

Definition ctl_rel w (resty : bool) (k k' : ctl) : Prop :=
  match k, k' with
  | Next, Next | Brk, Brk | Cont, Cont => True
  | Ret v, Ret v' => val_rel w resty v v'
  | _, _ => False
  end.
(** How a statement ends: with [declares] it may have declared variables. *)
Definition out_rel (resty declares : bool) (g g' : tenv) (w : world) (x x' : ctl * env) : Prop :=
  ctl_rel w resty (fst x) (fst x') /\
  exists pre, env_rel w (pre ++ g) (snd x) (snd x') /\ (declares = false -> pre = []) /\ (fst x = Next -> pre ++ g = g').

Definition goodE (e : expr) : Prop := forall resty g b, ty sigs K resty g e = Some b ->
  forall w env env', env_rel w g env env' -> prel (V b) w (evT e env) (evT e env').
Definition goodS (c : stmt) : Prop := forall resty g g', st sigs K resty g c = Some g' ->
  forall w env env', env_rel w g env env' -> prel (out_rel resty (negb (nodecl c)) g g') w (exT c env) (exT c env').

Lemma env_get w g x : forall env env', env_rel w g env env' ->
  match get x g with
  | Some b => exists v v', get x env = Some v /\ get x env' = Some v' /\ val_rel w b v v'
  | None => True
  end.
Proof.
  induction g as [|[y b] g IH]; intros [|[z v] env] [|[z' v'] env'] H; try contradiction H; [exact I|].
  destruct H as (<- & <- & H1 & H2). cbn [get]. destruct (String.eqb y x); [eauto|apply IH, H2].
Qed.
Lemma env_set w g x b v v' : get x g = Some b -> val_rel w b v v' -> forall env env', env_rel w g env env' ->
  env_rel w g (set x v env) (set x v' env').
Proof.
  induction g as [|[y b0] g IH]; intros Hg Hv [|[z u] env] [|[z' u'] env'] H; try contradiction H; [discriminate|].
  destruct H as (<- & <- & H1 & H2). cbn [get set] in *. destruct (String.eqb y x).
  - injection Hg as ->. repeat split; auto.
  - repeat split; auto.
Qed.
Lemma env_len w g : forall env env', env_rel w g env env' -> length env = length g /\ length env' = length g.
Proof.
  induction g as [|[y b0] g IH]; intros [|[z u] env] [|[z' u'] env'] H; try contradiction H; [auto|].
  destruct H as (_ & _ & _ & H). apply IH in H. cbn. lia.
Qed.
Lemma env_app w g1 g2 : forall e1 e1' e2 e2', env_rel w g1 e1 e1' -> env_rel w g2 e2 e2' -> env_rel w (g1 ++ g2) (e1 ++ e2) (e1' ++ e2').
Proof.
  induction g1 as [|[y b0] g IH]; intros [|[z u] env] [|[z' u'] env'] e2 e2' H H2; try contradiction H; [exact H2|].
  destruct H as (-> & -> & H1 & H). cbn. repeat split; auto.
Qed.
Lemma env_skip w pre g : forall env env', env_rel w (pre ++ g) env env' -> env_rel w g (skipn (length pre) env) (skipn (length pre) env').
Proof.
  induction pre as [|[y b] pre IH]; intros env env' H; [exact H|].
  destruct env as [|[z u] env], env' as [|[z' u'] env']; try contradiction H. cbn in *. apply IH, H.
Qed.
Lemma env_leave w w0 pre g env env' e1 e1' : env_rel w0 g env env' -> env_rel w (pre ++ g) e1 e1' -> env_rel w g (leave env e1) (leave env' e1').
Proof.
  intros H0 H. unfold leave. pose proof (env_len _ _ _ _ H0). pose proof (env_len _ _ _ _ H) as Hl. rewrite app_length in Hl.
  replace (length e1 - length env)%nat with (length pre) by lia. replace (length e1' - length env')%nat with (length pre) by lia.
  now apply env_skip.
Qed.
Lemma env_vals w b xs : forall vs vs', length vs = length xs -> vals_rel w b vs vs' ->
  env_rel w (map (fun x => (x, b)) xs) (combine xs vs) (combine xs vs').
Proof.
  induction xs as [|x xs IH]; intros [|v vs] [|v' vs'] Hl H; try contradiction H; try discriminate; [exact I|].
  destruct H. cbn. repeat split; auto.
Qed.
Lemma values_rel w b n v v' : val_rel w b v v' ->
  match values n v, values n v' with
  | Ok vs, Ok vs' => length vs = n /\ vals_rel w b vs vs'
  | Fuel, Fuel => True
  | _, _ => False
  end.
Proof.
  intros H. destruct n as [|[|n]]; [| |].
  - destruct v, v'; cbn in H; try contradiction; try exact I. change (vals_rel w b vs vs0) in H. cbn [values].
    destruct vs, vs0; cbn in *; try contradiction; auto.
  - cbn. repeat split; auto.
  - destruct v, v'; cbn in H; try contradiction; try exact I. change (vals_rel w b vs vs0) in H. cbn [values].
    assert (Hl : length vs = length vs0). { revert vs0 H. induction vs as [|v vs IH]; intros [|v0 vs0] H; try contradiction H; [reflexivity|]. cbn. f_equal. apply IH, H. }
    rewrite <- Hl. destruct (Nat.eqb_spec (length vs) (S (S n))); [auto|exact I].
Qed.
Lemma tuple_rel w b vs vs' : vals_rel w b vs vs' -> val_rel w b (tuple vs) (tuple vs').
Proof.
  intros H. destruct vs as [|v [|u vs]], vs' as [|v' [|u' vs']]; try contradiction H.
  - exact I.
  - apply H.
  - destruct H as [_ []].
  - destruct H as [_ []].
  - exact H.
Qed.

Lemma evals_typed g resty es : Forall goodE es ->
  forall w env env', env_rel w g env env' -> forallb (fun e => typed (ty sigs K resty g e)) es = true ->
  prel (fun w => vals_rel w false) w (evalsT grow callT loops env es) (evalsT grow callT loops env' es).
Proof.
  induction 1 as [|e es He _ IH]; intros w env env' Henv H; [constructor; exact I|].
  cbn [forallb] in H. apply andb_prop in H. destruct H as [H1 H2]. cbn [evalsT].
  destruct (ty sigs K resty g e) as [b|] eqn:Hb; [|discriminate].
  eapply prel_bind; [eapply He; eassumption|]. intros w1 v v' Hw1 Hv.
  eapply prel_bind; [apply IH; [eapply env_rel_mono; eassumption|exact H2]|]. intros w2 vs vs' Hw2 Hvs.
  constructor. split; [eapply val_rel_mono; [exact Hw2| |exact Hv]; discriminate|exact Hvs].
Qed.
Lemma evals_want g resty b es : Forall goodE es ->
  forall w env env', env_rel w g env env' -> forallb (fun e => match ty sigs K resty g e with Some b' => sub b' b | None => false end) es = true ->
  prel (fun w => vals_rel w b) w (evalsT grow callT loops env es) (evalsT grow callT loops env' es).
Proof.
  induction 1 as [|e es He _ IH]; intros w env env' Henv H; [constructor; exact I|].
  cbn [forallb] in H. apply andb_prop in H. destruct H as [H1 H2]. cbn [evalsT].
  destruct (ty sigs K resty g e) as [b'|] eqn:Hb; [|discriminate].
  eapply prel_bind; [eapply He; eassumption|]. intros w1 v v' Hw1 Hv.
  eapply prel_bind; [apply IH; [eapply env_rel_mono; eassumption|exact H2]|]. intros w2 vs vs' Hw2 Hvs.
  constructor. split; [eapply val_rel_sub; eassumption|exact Hvs].
Qed.
Lemma evals_args g resty es : Forall goodE es -> forall ps, subs (map (ty sigs K resty g) es) ps = true ->
  forall w env env', env_rel w g env env' ->
  prel (fun w => args_rel w ps) w (evalsT grow callT loops env es) (evalsT grow callT loops env' es).
Proof.
  induction 1 as [|e es He _ IH]; intros ps H w env env' Henv.
  - destruct ps; [|discriminate]. constructor. exact I.
  - destruct ps as [|p ps]; [discriminate|]. unfold subs in H. cbn in H. apply andb_prop in H. destruct H as [Hl H].
    apply andb_prop in H. destruct H as [H1 H2].
    destruct (ty sigs K resty g e) as [b'|] eqn:Hb; [|discriminate]. cbn [evalsT].
    eapply prel_bind; [eapply He; eassumption|]. intros w1 v v' Hw1 Hv.
    eapply prel_bind; [apply (IH ps); [|eapply env_rel_mono; eassumption]|].
    + unfold subs. now rewrite Hl, H2.
    + intros w2 vs vs' Hw2 Hvs. constructor. split; [eapply val_rel_sub; eassumption|exact Hvs].
Qed.
Lemma ends_app T m : ends m (T ++ m) = true.
Proof.
  induction T as [|a T IH]; cbn [append].
  - destruct m; cbn [ends]; rewrite ?String.eqb_refl; reflexivity.
  - cbn [ends]. rewrite IH. apply orb_true_r.
Qed.

Ltac tysplit := repeat match goal with
  | H : (if ?c then _ else None) = Some _ |- _ => destruct c eqn:?; [|discriminate H]
  | H : when ?c _ = Some _ |- _ => unfold when in H
  | H : Some _ = Some _ |- _ => injection H as <-
  | H : _ && _ = true |- _ => apply andb_prop in H; destruct H
  | H : typed ?t = true |- _ => destruct t eqn:?; [clear H|discriminate H]
  | H : is_own ?t = true |- _ => destruct t as [[|]|] eqn:?; try discriminate H; clear H
  end.
Ltac kidsplit := repeat match goal with H : Forall _ (_ :: _) |- _ => inversion H; subst; clear H end.
Ltac mono w := cbv beta in *;
  repeat match goal with H : env_rel ?w0 ?g _ _, Hw : wle ?w0 w |- _ => apply (env_rel_mono _ _ g Hw) in H end;
  repeat match goal with
         | H : val_rel ?w0 ?b _ _, Hw : wle ?w0 w |- _ => apply (val_rel_mono _ _ b b _ Hw (fun x => x)) in H
         | H : vals_rel ?w0 ?b _ _, Hw : wle ?w0 w |- _ => apply (vals_rel_mono _ _ b b _ _ Hw (fun x => x)) in H
         end.
(* evaluate a subexpression *)
Ltac sube := eapply prel_bind;
  [ match goal with
    | G : goodE ?e, H : ty sigs K ?rt ?g ?e = Some ?b, Henv : env_rel ?w ?g ?env ?env' |- prel _ ?w (evT ?e ?env) _ =>
      exact (G rt g b H w env env' Henv)
    end
  | let w := fresh "w" in let v := fresh "v" in let v' := fresh "v'" in let Hw := fresh "Hw" in let Hv := fresh "Hv" in
    intros w v v' Hw Hv; mono w ].
Ltac ints := repeat match goal with
  | H : val_rel _ _ ?v ?v' |- context [as_int ?v] => rewrite (as_int_rel _ _ _ _ H)
  | H : val_rel _ _ ?v ?v' |- context [as_bool ?v] => rewrite (as_bool_rel _ _ _ _ H)
  | |- prel _ _ (tbind (pure _) _) (tbind (pure _) _) => apply prel_pure; intros ?
  end.
Lemma slice_at_le m x : forall i l n, slice_at i m x = Some (l, n) -> (i <= l < i + length m)%nat.
Proof.
  induction m as [|[k es] m IH]; intros i l n H; [discriminate|]. cbn in H. destruct (k =? x); [injection H as <- <-; cbn; lia|].
  apply IH in H. cbn. lia.
Qed.


Lemma typed_list (ts : list (option bool)) : forallb typed ts = true -> exists bs, ts = map Some bs.
Proof.
  induction ts as [|[b|] ts IH]; cbn; intros H; [exists []; reflexivity| |discriminate].
  destruct (IH H) as [bs ->]. exists (b :: bs). reflexivity.
Qed.
Lemma own_typed (ts : list (option bool)) : forallb is_own ts = true -> forallb typed ts = true.
Proof. induction ts as [|[[|]|] ts IH]; cbn; intros H; auto; discriminate. Qed.
Lemma subs_refl bs : subs (map Some bs) bs = true.
Proof.
  unfold subs. rewrite map_length, Nat.eqb_refl. cbn. induction bs as [|[|] bs IH]; cbn; auto.
Qed.
Lemma args_sub w bs ps : subs (map Some bs) ps = true -> forall vs vs', args_rel w bs vs vs' -> args_rel w ps vs vs'.
Proof.
  revert ps. induction bs as [|b bs IH]; intros [|p ps] H vs vs' Hv; try discriminate; [exact Hv|].
  unfold subs in H. cbn in H. apply andb_prop in H. destruct H as [Hl H]. apply andb_prop in H. destruct H as [H1 H2].
  destruct vs as [|v vs], vs' as [|v' vs']; try contradiction Hv. destruct Hv as [Hv1 Hv2]. split.
  - eapply val_rel_sub; eauto.
  - apply IH; [|exact Hv2]. unfold subs. now rewrite Hl, H2.
Qed.
Lemma args_vals w (b : bool) bs : (b = true -> forallb is_own (map Some bs) = true) -> forall vs vs', args_rel w bs vs vs' -> vals_rel w b vs vs'.
Proof.
  induction bs as [|c bs IH]; intros H vs vs' Hv; destruct vs as [|v vs], vs' as [|v' vs']; try contradiction Hv; [exact I|].
  destruct Hv as [H1 H2]. split.
  - eapply val_rel_mono; [apply wle_refl| |exact H1]. intros Hb. specialize (H Hb). cbn in H. now apply andb_prop in H.
  - apply IH; [|exact H2]. intros Hb. specialize (H Hb). cbn in H. now apply andb_prop in H.
Qed.
Lemma get_sigs f x : get f sigs = Some x -> exists f', String.eqb f' f = true /\ In (f', x) sigs.
Proof.
  clear. induction sigs as [|[y v] l IH]; cbn; [discriminate|]. destruct (String.eqb y f) eqn:Hy.
  - intros H. injection H as ->. eauto.
  - intros H. destruct (IH H) as (f' & H1 & H2). eauto.
Qed.
Lemma fields_typed g resty fs : Forall goodE (map snd fs) ->
  forall w env env', env_rel w g env env' -> forallb (fun x => is_own (ty sigs K resty g (snd x))) fs = true ->
  prel (fun w => fields_rel w) w (fieldsT grow callT loops env fs) (fieldsT grow callT loops env' fs).
Proof.
  induction fs as [|[f e] fs IH]; intros Hg w env env' Henv H; [constructor; exact I|].
  cbn [forallb snd map] in *. inversion Hg as [|? ? He Hes]; subst. tysplit. cbn [fieldsT].
  sube. eapply prel_bind; [apply IH; eassumption|]. intros w2 vs vs' Hw2 Hvs. mono w2.
  constructor. split; [split; [reflexivity|exact Hv]|exact Hvs].
Qed.

Lemma good_expr e : Forall goodE (kids e) -> Forall goodS (kid_stmts e) -> goodE e.
Proof.
  intros Hk Hs resty g b Ht w env env' Henv.
  destruct e; cbn [kids kid_stmts] in Hk, Hs; kidsplit; try rewrite ty_SearchE in Ht; cbn [ty] in Ht; tysplit;
    try solve [constructor; cbn; auto]; 
    try (rewrite ?evT_Append, ?evT_New, ?evT_Call, ?evT_Method, ?evT_SearchE;
         cbn [evalT]; repeat (sube; ints); try solve [constructor; cbn; auto]).
  all: try solve [apply index_rel with (b := b); assumption | eapply index_rel; eassumption | eapply slice_rel; eassumption
    | eapply field_of_rel; eassumption | eapply copy_rel; eassumption].
  - constructor. cbn. repeat split; auto. right. repeat split; auto. apply HR. lia.
  - cbn [evalT]. pose proof (env_get w g x env env' Henv) as H. rewrite Ht in H. destruct H as (v & v' & -> & -> & H). constructor. exact H.
  - match goal with H1 : val_rel _ _ v v', H2 : val_rel _ _ v0 v'0 |- _ => rewrite (compare_rel _ _ _ o _ _ _ _ H1 H2) end.
    apply prel_pure. intros r. constructor. reflexivity.
  - destruct a; [|constructor; reflexivity]. match goal with H : goodE e2 |- _ => eapply H; eassumption end.
  - destruct a; [constructor; reflexivity|]. match goal with H : goodE e2 |- _ => eapply H; eassumption end.
  - destruct v, v'; try contradiction; try constructor. destruct v0, v'0; try contradiction; try constructor. cbn in *. congruence.
  - destruct v, v'; try contradiction; try constructor. cbn in Hv. subst. constructor. intros l l'. constructor. cbn. repeat split; auto.
  - destruct v, v'; try contradiction; try constructor. cbn in Hv. destruct Hv as (-> & -> & -> & H). constructor.
    + destruct H as [H|(-> & H & _)]; auto.
    + intros r _. constructor. reflexivity.
  - destruct v, v'; try contradiction; try constructor; cbn in *; [tauto|congruence].
  - destruct v, v'; try contradiction; try constructor; cbn in *; tauto.
  - eapply prel_bind; [eapply evals_typed; eassumption|]. intros w1 vs vs' Hw1 Hvs. mono w1. rewrite (as_ints_rel _ _ _ _ Hvs).
    apply prel_pure. intros bs. apply append_rel. assumption.
  - destruct v0, v'0; try contradiction; try constructor. cbn in Hv0. destruct Hv0 as (-> & -> & -> & H). constructor.
    + destruct H as [H|(-> & H & _)]; auto.
    + intros r _. apply append_rel. assumption.
  - destruct (_ && _); [|constructor]. constructor. intros l l'. constructor. cbn. repeat split; auto.
  - constructor. destruct (map_get m a); cbn; auto.
  - constructor. destruct (slice_at 1 m a) as [[l n]|] eqn:Hm.
    + apply slice_at_le in Hm. match goal with H : (_ <=? _)%nat = true |- _ => apply Nat.leb_le in H end.
      cbn. repeat split; auto. right. repeat split; auto. apply HR. lia.
    + cbn. repeat split; auto. right. repeat split; auto. apply HR. lia.
  - eapply prel_bind; [eapply fields_typed; eassumption|]. intros w1 vs vs' Hw1 Hvs. constructor; [exact Hvs|]. intros l l'. constructor. cbn. auto.
  - destruct (get f sigs) as [[ps r]|] eqn:Hf; [|discriminate]. tysplit.
    eapply prel_bind; [eapply evals_args; eassumption|]. intros w1 vs vs' Hw1 Hvs. eapply Hcall; eassumption.
  - rename H0 into Hext, H3 into Hsig. assert (Hty : forallb typed (map (ty sigs K resty g) args) = true) by (destruct (String.eqb m "Read"); [apply own_typed, Hext|exact Hext]).
    destruct (typed_list _ Hty) as [bs Hbs]. rewrite Hbs in *.
    eapply prel_bind; [eapply (evals_args g resty args) with (ps := bs); [assumption|rewrite Hbs; apply subs_refl|exact Henv]|].
    intros w1 vs vs' Hw1 Hvs. mono w1. destruct v, v'; try contradiction; try constructor.
    + exact Hv.
    + intros o o' [Ho _]. rewrite <- Ho. destruct (get (fst o ++ "." ++ m) sigs) as [[ps r]|] eqn:Hf.
      * destruct (get_sigs _ _ Hf) as (f' & Hf1 & Hf2). apply String.eqb_eq in Hf1. subst f'.
        rewrite forallb_forall in Hsig. specialize (Hsig _ Hf2).
        cbn [fst snd] in Hsig. rewrite ends_app in Hsig. cbn [negb orb] in Hsig. apply andb_prop in Hsig. destruct Hsig as [Hps Hr]. subst r.
        eapply Hcall; [exact Hf|]. apply (args_sub w1 (true :: bs)); [exact Hps|]. split; [exact Hv|exact Hvs].
      * rewrite !Hnone by assumption. constructor.
    + cbn in Hv. subst. eapply ext_rel with (b := String.eqb m "Read").
      * eapply args_vals; [|exact Hvs]. destruct (String.eqb m "Read"); [intros _; exact Hext|discriminate].
      * auto.
  - destruct v, v'; try contradiction; try constructor. cbn in Hv. destruct Hv as (-> & -> & -> & H). constructor.
    + destruct H as [H|(-> & H & _)]; auto.
    + intros r _. destruct (DecodeRune r). constructor. cbn. auto.
  - destruct v, v'; try contradiction; try constructor. cbn in Hv. destruct Hv as (-> & -> & -> & H).
    destruct (Z.gtb_spec (zlen (EncodeRune a)) len0); [constructor|]. constructor; [|constructor; reflexivity].
    destruct H as [H|(-> & H & [H'|[-> ->]])]; [now left|discriminate|]. right. repeat split; auto. apply zlen_nil. lia.
  - destruct (st sigs K resty ((i, true) :: g) body) as [g'|] eqn:Hst; [|congruence].
    eapply prel_bind.
    + eapply search_rel with (w := w0); [| |apply wle_refl]; [intros k|intros w' Hw' k]; mono w'.
      * eapply prel_bind; [match goal with H : goodS body |- _ => eapply H; [exact Hst|] end|].
        { repeat split; [exact Henv]. }
        intros w2 [c env1] [c' env1'] _ [Hc _]. cbn [fst] in Hc. destruct c, c'; try contradiction; try constructor.
        rewrite (as_bool_rel _ _ _ _ Hc). destruct (as_bool v1); constructor. reflexivity.
      * eapply prel_bind; [match goal with H : goodS body |- _ => eapply H; [exact Hst|] end|].
        { repeat split; [exact Henv]. }
        intros w2 [c env1] [c' env1'] _ [Hc _]. cbn [fst] in Hc. destruct c, c'; try contradiction; try constructor.
        rewrite (as_bool_rel _ _ _ _ Hc). destruct (as_bool v1); constructor. reflexivity.
    + intros w1 z z' _ ->. constructor. reflexivity.
Qed.

Lemma assign_rel g resty b ls : Forall goodE (flat_map lhs_exprs ls) -> forallb (lhs_ok sigs K resty g b) ls = true ->
  forall w vs vs' env env', env_rel w g env env' -> vals_rel w b vs vs' ->
  prel (fun w => env_rel w g) w (assignsT grow callT loops ls vs env) (assignsT grow callT loops ls vs' env').
Proof.
  induction ls as [|l ls IH]; intros Hg H w vs vs' env env' Henv Hvs; [constructor; exact Henv|].
  destruct vs as [|v vs], vs' as [|v' vs']; try contradiction Hvs; [constructor; exact Henv|]. destruct Hvs as [Hv Hvs].
  cbn [flat_map] in Hg. apply Forall_app in Hg. destruct Hg as [Hg1 Hg2].
  cbn [forallb] in H. apply andb_prop in H. destruct H as [Hl H]. cbn [assignsT].
  eapply prel_bind with (Q := fun w => env_rel w g).
  - destruct l; cbn [lhs_ok lhs_exprs] in *; kidsplit; tysplit; cbn [assign1T].
    + constructor. exact Henv.
    + destruct (get x g) as [b'|] eqn:Hx; [|discriminate]. constructor. eapply env_set; [exact Hx| |exact Henv].
      eapply val_rel_sub; [apply wle_refl|exact Hl|exact Hv].
    + subst b. sube. destruct v0, v'0; try contradiction; try constructor; try assumption. constructor. exact Henv.
    + sube. sube. ints. destruct v0, v'0; try contradiction; try constructor. cbn in Hv0. destruct Hv0 as (-> & -> & -> & H').
      match goal with |- context [(0 <=? ?z) && (?z <? ?n)] => destruct (Z.leb_spec 0 z); [|constructor]; destruct (Z.ltb_spec z n); [|constructor] end.
      constructor; [|constructor; exact Henv]. destruct H' as [H'|(-> & _ & [H'|[-> ->]])]; [now left|discriminate|lia].
  - intros w1 e1 e1' Hw1 He1. mono w1. apply IH; assumption.
Qed.

Lemma good_stmt' c : Forall goodE (stmt_exprs c) -> Forall goodS (stmt_stmts c) -> goodS c.
Proof.
  intros Hk Hs resty g g' Ht w env env' Henv.
  destruct c; cbn [stmt_exprs stmt_stmts] in Hk, Hs; kidsplit.
  - rewrite st_Define in Ht. destruct (ty sigs K resty g e) as [b|] eqn:Hb; [|discriminate]. injection Ht as <-.
    rewrite exT_Define, exT_Define. sube. pose proof (values_rel _ _ (length xs) _ _ Hv) as H.
    destruct (values (length xs) v), (values (length xs) v'); try contradiction; cbn [tbind pure]; constructor.
    destruct H as [Hx1 Hx2]. split; [exact I|]. exists (map (fun x => (x, b)) xs). split; [|split; [discriminate|reflexivity]].
    cbn [snd]. apply env_app; [apply env_vals; assumption|exact Henv].
  - rewrite st_Assign in Ht. destruct (ty sigs K resty g e) as [b|] eqn:Hb; [|discriminate].
    destruct (forallb (lhs_ok sigs K resty g b) ls) eqn:Hls; [|discriminate]. injection Ht as <-.
    rewrite exT_Assign, exT_Assign. sube. pose proof (values_rel _ _ (length ls) _ _ Hv) as H.
    destruct (values (length ls) v), (values (length ls) v'); try contradiction; cbn [tbind pure]; try constructor.
    destruct H as [_ H]. eapply prel_bind; [eapply assign_rel; eassumption|]. intros w1 e1 e1' _ He1. constructor.
    split; [exact I|]. exists []. split; [exact He1|split; reflexivity].
  - rewrite st_ExprS in Ht. tysplit. rewrite exT_ExprS, exT_ExprS. sube. constructor. split; [exact I|]. exists []. split; [exact Henv|split; reflexivity].
  - rewrite st_Block in Ht. destruct (sts sigs K resty g ss) as [g1|] eqn:Hsts; [|discriminate]. injection Ht as <-.
    rewrite exT_Block, exT_Block.
    assert (H : forall g0 g2 pre0, g0 = pre0 ++ g -> sts sigs K resty g0 ss = Some g2 -> forall w env env', env_rel w g0 env env' ->
      prel (fun w x x' => ctl_rel w resty (fst x) (fst x') /\ exists pre, env_rel w (pre ++ g) (snd x) (snd x')) w
        (execsT grow callT loops ss env) (execsT grow callT loops ss env')).
    { clear Hsts Henv w env env'. induction ss as [|c ss IH]; intros g0 g2 pre0 Hpre Hsts w env env' Henv.
      - constructor. split; [exact I|]. exists pre0. subst. exact Henv.
      - cbn [sts] in Hsts. destruct (st sigs K resty g0 c) as [g3|] eqn:Hc; [|discriminate]. kidsplit. cbn [execsT].
        eapply prel_bind; [eapply H1; eassumption|]. intros w1 [k e1] [k' e1'] Hw1 [Hk1 (pre & He1 & _ & Hn)]. cbn [fst snd] in *.
        destruct k, k'; try contradiction; try (constructor; split; [exact Hk1|]; exists (pre ++ pre0); rewrite <- app_assoc; exact He1).
        rewrite Hn in He1 by reflexivity. eapply IH; [assumption| |exact Hsts|exact He1].
        rewrite <- (Hn eq_refl), app_assoc. reflexivity. }
    eapply prel_bind; [eapply (H g g1 []); [reflexivity|exact Hsts|exact Henv]|].
    intros w1 [k e1] [k' e1'] Hw1 [Hk1 (pre & He1)]. cbn [fst snd] in *. constructor. split; [exact Hk1|].
    exists []. split; [|split; reflexivity]. cbn [snd app]. eapply env_leave; eassumption.
  - rewrite st_If in Ht. tysplit.
    rewrite exT_If, exT_If. sube. ints. cbn [nodecl].
    assert (Hbr : forall c g1, nodecl c = true -> goodS c -> st sigs K resty g c = Some g1 ->
      prel (out_rel resty (negb (nodecl c2 && nodecl c3)) g g) w0 (exT c env) (exT c env')).
    { intros c g1 Hnd Hgc Hc1. eapply prel_weaken; [eapply Hgc; eassumption|]. rewrite Hnd.
      intros w1 x x' _ [Hx (pre & Hp1 & Hp2 & _)]. rewrite (Hp2 eq_refl) in *. split; [exact Hx|]. exists []. split; [exact Hp1|split; reflexivity]. }
    destruct a; eapply Hbr; eassumption.
  - rewrite st_While in Ht. tysplit.
    rewrite exT_While, exT_While.
    match goal with |- prel _ _ (whileT _ _ _ ?e ?body _ _) _ =>
      assert (H : forall n w env env', env_rel w g env env' ->
        prel (out_rel resty false g g) w (whileT grow callT loops e body n env) (whileT grow callT loops e body n env')) end; [|now apply H].
    clear w env env' Henv. induction n as [|n IH]; intros w env env' Henv; [constructor|]. cbn [whileT]. sube. ints.
    destruct a; [|constructor; split; [exact I|]; exists []; split; [exact Henv|split; reflexivity]].
    eapply prel_bind; [match goal with H : goodS ?c |- prel _ _ (exT ?c _) _ => eapply H; eassumption end|].
    intros w1 [k e1] [k' e1'] Hw1 [Hk1 (pre & He1 & Hp & _)]. cbn [fst snd] in *.
    match goal with H : nodecl _ = true |- _ => rewrite H in Hp end. rewrite (Hp eq_refl) in He1. cbn [app] in He1.
    destruct k, k'; try contradiction; try (apply IH; exact He1); constructor; (split; [exact Hk1 || exact I|]; exists []; split; [exact He1|split; reflexivity]).
  - rewrite st_Range in Ht. tysplit.
    rewrite exT_Range, exT_Range. sube. destruct v, v'; try contradiction; try constructor. cbn in Hv. destruct Hv as (-> & -> & -> & Hl).
    generalize (Z.to_nat len0) as n, 0 as k. intros n.
    assert (H : forall k w1 env env', wle w0 w1 -> env_rel w1 g env env' ->
      prel (out_rel resty false g g) w1 (rangeT grow callT loops i x loc off0 c n k env) (rangeT grow callT loops i x loc0 off0 c n k env')).
    2: { intros k. apply H; [apply wle_refl|exact Henv]. }
    clear env env' Henv. induction n as [|n IH]; intros k w1 env env' Hw1 Henv.
    + constructor. split; [exact I|]; exists []; split; [exact Henv|split; reflexivity].
    + cbn [rangeT]. constructor.
      * destruct Hl as [Hl|(-> & Hl & _)]; [left; now apply Hw1|auto].
      * intros r _. eapply prel_bind.
        { match goal with H : goodS ?c, H2 : st _ _ _ _ ?c = Some _ |- _ => eapply H; [exact H2|] end. repeat split; [exact Henv]. }
        intros w2 [k1 e1] [k1' e1'] Hw2 [Hk1 (pre & He1 & _)]. cbn [fst snd] in *.
        assert (He2 : env_rel w2 g (leave env e1) (leave env' e1')).
        { eapply env_leave with (pre := pre ++ [(i, true); (x, true)]); [exact Henv|]. rewrite <- app_assoc. exact He1. }
        destruct k1, k1'; try contradiction; try (apply IH; [eapply wle_trans; eassumption|exact He2]);
          constructor; (split; [exact Hk1 || exact I|]; exists []; split; [exact He2|split; reflexivity]).
  - rewrite st_Return in Ht. tysplit. rewrite exT_Return, exT_Return.
    eapply prel_bind; [eapply evals_want; eassumption|]. intros w1 vs vs' Hw1 Hvs. mono w1. constructor.
    split; [apply tuple_rel, Hvs|]. exists []. split; [exact Henv|split; reflexivity].
  - injection Ht as <-. constructor. split; [exact I|]. exists []. split; [exact Henv|split; reflexivity].
  - injection Ht as <-. constructor. split; [exact I|]. exists []. split; [exact Henv|split; reflexivity].
Qed.
Lemma good_all : (forall e, goodE e) /\ (forall c, goodS c).
Proof. split; [apply (expr_all goodE goodS)|apply (stmt_all goodE goodS)]; (apply good_expr || apply good_stmt'). Qed.

(** Calls *)
Lemma env_params w : forall xs ps vs vs', args_rel w ps vs vs' -> length xs = length ps ->
  env_rel w (combine xs ps) (combine xs vs) (combine xs vs').
Proof.
  induction xs as [|x xs IH]; intros [|p ps] vs vs' H Hl; try discriminate; destruct vs, vs'; try contradiction H; [exact I|].
  destruct H. cbn. repeat split; auto.
Qed.
Lemma args_len w : forall ps vs vs', args_rel w ps vs vs' -> length vs = length ps /\ length vs' = length ps.
Proof.
  induction ps as [|p ps IH]; intros vs vs' H; destruct vs, vs'; try contradiction H; [auto|]. destruct H as [_ H]. apply IH in H. cbn. lia.
Qed.
Lemma zero_rel resty rs : forallb (fun y => is_own (ty sigs K resty [] (snd y))) rs = true -> forall w g env env', env_rel w g env env' ->
  prel (fun w => env_rel w (map (fun y => (fst y, true)) rs ++ g)) w (zero_resultsT grow callT loops rs env) (zero_resultsT grow callT loops rs env').
Proof.
  induction rs as [|[x e] rs IH]; intros H w g env env' Henv; [constructor; exact Henv|].
  cbn [forallb snd] in H. tysplit. cbn [zero_resultsT].
  eapply prel_bind; [eapply (proj1 good_all e); [eassumption|exact I]|]. intros w1 v v' Hw1 Hv. mono w1.
  eapply prel_bind; [apply IH; eassumption|]. intros w2 e1 e1' Hw2 He. mono w2. constructor. cbn. repeat split; auto.
Qed.
Lemma enter_rel x ps r : snd (sig_of x) = (ps, r) -> check_func K sigs x = true -> forall w vs vs', args_rel w ps vs vs' ->
  prel (V r) w (enterT grow callT loops (snd x) vs) (enterT grow callT loops (snd x) vs').
Proof.
  intros Hsig Hc w vs vs' Hvs. unfold check_func in Hc. rewrite Hsig in Hc.
  destruct (st sigs K r _ _) as [g'|] eqn:Hst; [|discriminate].
  unfold enterT. destruct (args_len _ _ _ _ Hvs) as [Hl1 Hl2]. rewrite Hl1, Hl2. destruct (negb _) eqn:Hn; [constructor|].
  apply negb_false_iff, Nat.eqb_eq in Hn.
  eapply prel_bind; [eapply zero_rel; [exact Hc|apply env_params; [exact Hvs|exact Hn]]|].
  intros w1 e1 e1' Hw1 He1. eapply prel_bind; [eapply (proj2 good_all (f_body (snd x))); eassumption|].
  intros w2 [k e2] [k' e2'] Hw2 [Hk _]. cbn [fst] in Hk. destruct k, k'; try contradiction; constructor; [exact I|exact Hk].
Qed.

End Fund.

Theorem run_related prog : check K prog = true ->
  forall n f ps r, get f (map sig_of prog) = Some (ps, r) ->
  forall w vs vs', args_rel w ps vs vs' -> prel (V r) w (runT grow prog n f vs) (runT grow prog n f vs').
Proof.
  intros Hc. induction n as [|n IH]; intros f ps r Hf w vs vs' Hvs; [constructor|]. cbn [runT].
  assert (H : exists fn, get f prog = Some fn /\ snd (sig_of (f, fn)) = (ps, r) /\ check_func K (map sig_of prog) (f, fn) = true).
  { unfold check in Hc. clear IH. revert Hc Hf. generalize (map sig_of prog) at 1 3 as sg. intros sg Hc Hf.
    induction prog as [|[y fn] p IHp]; [discriminate|]. cbn [forallb] in Hc. apply andb_prop in Hc. destruct Hc as [Hc1 Hc2].
    cbn [map get] in *. cbn [sig_of fst snd] in Hf. destruct (String.eqb_spec y f) as [->|].
    - exists fn. injection Hf as <- <-. auto.
    - apply IHp; assumption. }
  destruct H as (fn & -> & Hsig & Hfn). cbn [the tbind pure].
  eapply (enter_rel (map sig_of prog)) with (x := (f, fn)); try eassumption.
  intros f0 vs0 Hf0. destruct n; [reflexivity|]. cbn [runT]. replace (get f0 prog) with (@None func); [reflexivity|].
  clear -Hf0. induction prog as [|[y fn] p IHp]; [reflexivity|]. cbn in *. destruct (String.eqb y f0); [discriminate|auto].
Qed.
End Ops.
End Rel.
