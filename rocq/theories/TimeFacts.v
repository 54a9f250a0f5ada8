(** A bound on the steps of code without loops (GoTime.v) that is computed from its syntax, up
    to what its allocations cost. *)
From Coq Require Import String ZArith List Bool Lia.
From Verif Require Import Base Utf8 SortSearch Cp949Model GoLang GoTime Facts MemorySpec ThreadFacts.
Import ListNotations.
Local Open Scope list_scope.
Local Open Scope Z_scope.
Local Open Scope go_scope.

Definition osum (l : list (option Z)) : option Z :=
  fold_right (fun a b => match a, b with Some x, Some y => Some (x + y) | _, _ => None end) (Some 0) l.
Definition omax (a b : option Z) : option Z :=
  match a, b with Some x, Some y => Some (Z.max x y) | _, _ => None end.

(** Expressions that are never strings. *)
Definition no_string (e : expr) : bool :=
  match e with
  | Lit _ | LitB _ | NilErr | NilSlice | NilPtr | ErrLit _ | TableLit _ | Arith _ _ _ _ | Conv _ _ | Len _ | Cap _
  | MapGet _ _ | Index _ _ | SearchE _ _ _ | Field (Index _ _) _ => true
  | _ => false
  end.
Definition is_eq (o : cop) : bool := match o with Eq => true | _ => false end.
(** The length of a table. *)
Definition is_table_len (e : expr) : bool := match e with Len (Field _ f) => String.eqb f "table" | _ => false end.

Section Bounds.
(* What is known about the functions called. *)
Variable known : string -> option Z.
Fixpoint ebound (e : expr) : option Z :=
  match e with
  | Lit _ | LitB _ | LitS _ | NilErr | NilSlice | NilPtr | ErrLit _ | TableLit _ | Var _ => Some 1
  | Not a | Conv _ a | Len a | Cap a | MapGet _ a | MapGet2 _ a | MapSlice2 _ a | Field a _ => osum [Some 1; ebound a]
  | Arith _ _ a b | And a b | Or a b | Index a b | SliceFrom a b | Make a b => osum [Some 1; ebound a; ebound b]
  | Cmp o a b => if no_string a || no_string b || negb (is_eq o) then osum [Some 1; ebound a; ebound b] else None
  | Slice a b c => osum [Some 1; ebound a; ebound b; ebound c]
  | Append a es => osum (Some (1 + zlen es) :: ebound a :: map ebound es)
  | Call f es => osum (Some 1 :: known f :: map ebound es)
  | DecodeRuneE a => osum [Some 5; ebound a]
  | EncodeRuneE a b => osum [Some 5; ebound a; ebound b]
  | SearchE n _ c =>
    if is_table_len n && no_effect_stmt c then osum [Some 17; ebound n; option_map (Z.mul 16) (sbound c)] else None
  | Concat _ _ | Runes _ | Str _ | AppendS _ _ | CopyE _ _ | New _ _ | Method _ _ _ => None
  end
with sbound (c : stmt) : option Z :=
  match c with
  | Define xs e => osum [Some (1 + zlen xs); ebound e]
  | Assign ls e => osum (Some (1 + zlen ls) :: ebound e :: map (fun l =>
      match l with
      | LBlank | LVar _ => Some 0
      | LField a f => if String.eqb f "table" then None else ebound a
      | LIndex a i => osum [ebound a; ebound i]
      end) ls)
  | ExprS e => osum [Some 1; ebound e]
  | Block cs => osum (Some 1 :: map sbound cs)
  | If e a b => osum [Some 1; ebound e; omax (sbound a) (sbound b)]
  | Return es => osum (Some 1 :: map ebound es)
  | Continue | Break => Some 1
  | While _ _ | Range _ _ _ _ => None
  end.
Definition lbound (l : lhs) : option Z :=
  match l with
  | LBlank | LVar _ => Some 0
  | LField a f => if String.eqb f "table" then None else ebound a
  | LIndex a i => osum [ebound a; ebound i]
  end.
End Bounds.

Lemma osum_cons a l b : osum (a :: l) = Some b -> exists x y, a = Some x /\ osum l = Some y /\ b = x + y.
Proof. cbn. destruct a; [|discriminate]. fold (osum l). destruct (osum l); [|discriminate]. intros [= <-]. eauto. Qed.
Lemma osum_nil b : osum [] = Some b -> b = 0.
Proof. cbn. congruence. Qed.
Lemma omax_Some a b c : omax a b = Some c -> exists x y, a = Some x /\ b = Some y /\ c = Z.max x y.
Proof. destruct a, b; try discriminate. intros [= <-]. eauto. Qed.
Ltac unsum := repeat match goal with
  | H : osum (_ :: _) = Some _ |- _ => apply osum_cons in H; destruct H as (?b & ?b & ? & H & ->)
  | H : osum [] = Some _ |- _ => apply osum_nil in H; subst
  | H : Some ?x = Some ?y |- _ => assert (y = x) by congruence; clear H; subst y
  | H : omax _ _ = Some _ |- _ => apply omax_Some in H; destruct H as (?b & ?b & ? & ? & ->)
  end.

Ltac un := repeat match goal with
  | H : bind _ _ = Ok _ |- _ => apply bind_Ok in H; destruct H as [?x [? H]]
  | H : Ok _ = Ok _ |- _ => injection H as; subst
  | x : (_ * _)%type |- _ => destruct x
  end.

(** ** The storage only grows *)
Lemma allocated_app A B : allocated (A ++ B) = allocated A + allocated B.
Proof. induction A as [|a A IH]; cbn [app allocated]; lia. Qed.
Lemma allocated_set A l a : zlen (nth l A []) <= zlen a -> allocated A <= allocated (set_nth l a A).
Proof.
  revert l; induction A as [|x A IH]; intros [|l] H; cbn [set_nth allocated nth] in *; try lia.
  specialize (IH l H). lia.
Qed.
Lemma zwrite_longer a o bs : zlen a <= zlen (zwrite a o bs).
Proof. unfold zwrite, ztake, zdrop, zlen. rewrite !app_length, firstn_length, skipn_length. lia. Qed.

Section Costs.
Variable grow : Z -> Z -> Z.
Variable E : Type.
Variable rd : nat -> E -> Z -> Z * list Z * option error * E.
Variable wr : nat -> E -> list Z -> Z * option error * E.
Notation state := (state E).
Notation size s := (allocated (arrs E s)).

Lemma store_size s l o bs : size s <= size (store E s l o bs).
Proof. unfold store, set_arr. cbn [arrs]. apply allocated_set, zwrite_longer. Qed.
Lemma append_size s a bs v s' : append_to grow E s a bs = Ok (v, s') ->
  objs E s' = objs E s /\ size s <= size s' /\ append_steps grow E s a bs <= zlen bs + (size s' - size s).
Proof.
  destruct a; try discriminate. cbn [append_to append_steps]. pose proof (zlen_nonneg bs).
  destruct (_ <=? _).
  - intros [= <- <-]. split; [reflexivity|]. pose proof (store_size s loc (off + len) bs). lia.
  - intros [= <- <-]. split; [reflexivity|]. cbn [arrs]. rewrite allocated_app. cbn [allocated]. rewrite !zlen_app.
    pose proof (zlen_nonneg (cells E s loc off len)). pose proof (zlen_nonneg (zeros (Z.max (len + zlen bs) (grow cap (len + zlen bs)) - (len + zlen bs)))). lia.
Qed.

(** Fields named "table" hold tables of a moderate size. *)
Definition tables (s : state) : Prop :=
  Forall (fun o => forall v, get "table" (snd o) = Some v -> exists t, v = VTable t /\ zlen t <= 32768) (objs E s).

Lemma set_field_ok s a f v s' : tables s -> String.eqb f "table" = false -> set_field E s a f v = Ok s' ->
  tables s' /\ arrs E s' = arrs E s.
Proof.
  intros Ht Hf H. destruct a; try discriminate. cbn [set_field] in H.
  destruct (nth_error (objs E s) loc) as [[T fs]|] eqn:Hn; [|discriminate]. cbn in H.
  destruct (get f fs); [|discriminate]. cbn in H. injection H as <-.
  split; [|reflexivity]. unfold tables in *. cbn [objs].
  assert (forall v0, get "table" (set f v fs) = Some v0 -> get "table" fs = Some v0) as Hg.
  { clear -Hf. induction fs as [|[g w] fs IH]; cbn; [auto|]. intros v0.
    destruct (String.eqb_spec g f) as [->|Hgf]; cbn.
    - rewrite Hf. auto.
    - destruct (String.eqb g "table"); auto. }
  revert loc Hn. induction Ht as [|o O Ho HO IH]; intros [|loc] Hn; try discriminate.
  - injection Hn as ->. constructor; [|assumption]. cbn [snd]. intros w Hw. apply (Ho w). cbn [snd]. auto.
  - constructor; [assumption|]. eapply IH. eassumption.
Qed.
Lemma field_table_ok s a v : tables s -> field_of E s a "table" = Ok v -> exists t, v = VTable t /\ zlen t <= 32768.
Proof.
  intros Ht H. destruct a; try discriminate. cbn [field_of] in H.
  destruct (nth_error (objs E s) loc) as [o|] eqn:Hn; [|discriminate]. cbn in H.
  destruct (get "table" (snd o)) as [w|] eqn:Hg; [|discriminate]. cbn in H. injection H as <-.
  apply (proj1 (Forall_forall _ _) Ht o); [eapply nth_error_In; eassumption|assumption].
Qed.

Lemma probes_bound f w b n fuel z : (forall k r, f k = Ok r -> w k <= b) -> 0 <= b -> (fuel <= n)%nat ->
  forall i j, search_loop fuel f i j = Ok z -> probes fuel f w i j <= Z.of_nat n * b.
Proof.
  intros Hw Hb. revert n. induction fuel as [|fuel IH]; intros n Hn i j H; cbn [search_loop probes] in *.
  - destruct (i <? j); [discriminate|lia].
  - destruct (i <? j); [|lia]. destruct (f _) as [r| |] eqn:Hf; try discriminate. cbn [bind] in H.
    apply Hw in Hf. destruct n as [|n]; [lia|]. rewrite Nat2Z.inj_succ.
    destruct (negb r); eapply (IH n) in H; lia.
Qed.

Section Body.
Variable call : string -> list val -> state -> res (val * state).
Variable call_steps : string -> list val -> state -> Z.
Variable loops : nat.
Notation eval := (eval grow E rd wr call loops).
Notation exec := (exec grow E rd wr call loops).
Notation evals := (GoTime.evals grow E rd wr call loops).
Notation eval_steps := (eval_steps grow E rd wr call call_steps loops).
Notation exec_steps := (exec_steps grow E rd wr call call_steps loops).
Variable known : string -> option Z.
Notation ebound := (ebound known).
Notation sbound := (sbound known).
(* Steps per byte allocated. *)
Notation price := 5.
Hypothesis Hcall : forall f b, known f = Some b -> 0 <= b /\
  forall args s v s', tables s -> call f args s = Ok (v, s') ->
    tables s' /\ size s <= size s' /\ call_steps f args s <= b + price * (size s' - size s).

(** In [b] steps plus what is allocated. *)
Definition within (b t : Z) (s s' : state) : Prop := tables s' /\ size s <= size s' /\ t <= b + price * (size s' - size s).
Definition efine (e : expr) : Prop := forall b, ebound e = Some b -> 0 <= b /\
  forall env s v s', tables s -> eval e env s = Ok (v, s') -> within b (eval_steps e env s) s s'.
Definition sfine (c : stmt) : Prop := forall b, sbound c = Some b -> 0 <= b /\
  forall env s k env' s', tables s -> exec c env s = Ok (k, env', s') -> within b (exec_steps c env s) s s'.

Lemma no_string_ok e env s v s' : no_string e = true -> eval e env s = Ok (v, s') -> forall x, v <> VStr x.
Proof.
  intros Hn H x ->. destruct e; try discriminate; cbn [GoLang.eval] in H; un; try congruence.
  - destruct v; try discriminate; un; discriminate.
  - destruct v; try discriminate; un; discriminate.
  - destruct v; try discriminate; cbn [index_of] in *; un; try congruence.
    destruct (_ && _); congruence.
  - destruct e; try discriminate. cbn [GoLang.eval] in *. un.
    destruct v0; try discriminate; cbn [index_of] in *; un.
    + destruct (_ && _); un; discriminate.
    + cbn [field_of] in *. destruct (String.eqb f "cp949"); [congruence|]. destruct (String.eqb f "ucs2"); [congruence|discriminate].
Qed.

Definition all_steps (env : env) := fix all (es : list expr) (s : state) {struct es} : Z :=
  match es with
  | [] => 0
  | e :: es => eval_steps e env s + after E (eval e env s) (fun _ s => all es s)
  end.
Lemma evals_fine es : Forall efine es -> forall b, osum (map ebound es) = Some b -> 0 <= b /\
  forall env s vs s', tables s -> evals es env s = Ok (vs, s') -> within b (all_steps env es s) s s' /\ length vs = length es.
Proof.
  induction 1 as [|e es He Hes IH]; intros b Hb; cbn [map] in Hb; unsum.
  - split; [lia|]. intros env s vs s' Ht H. cbn in H. injection H as <- <-. split; [|reflexivity]. split; [assumption|]. change (all_steps env [] s) with 0. lia.
  - destruct (He _ H) as [H0 He']. destruct (IH _ Hb) as [H1 IH']. split; [lia|].
    intros env s vs s' Ht Hv. cbn [GoTime.evals] in Hv. un.
    destruct (He' _ _ _ _ Ht H2) as (Ht1 & Hs1 & Hc1). destruct (IH' _ _ _ _ Ht1 H3) as [(Ht2 & Hs2 & Hc2) Hl].
    split; [|cbn; congruence]. split; [assumption|].
    change (all_steps env (e :: es) s) with (eval_steps e env s + after E (eval e env s) (fun _ s => all_steps env es s)).
    rewrite H2. cbn [after]. lia.
Qed.

Ltac known_parts := repeat match goal with
  | H : Forall _ (_ :: _) |- _ => inversion H; subst; clear H
  | H : Forall _ [] |- _ => clear H
  | IH : efine ?a, H : ebound ?a = Some _ |- _ => let H0 := fresh "H0" in let IH' := fresh "IH" in
      destruct (IH _ H) as [H0 IH']; clear IH
  | IH : sfine ?a, H : sbound ?a = Some _ |- _ => let H0 := fresh "H0" in let IH' := fresh "IH" in
      destruct (IH _ H) as [H0 IH']; clear IH
  end.
Ltac follow := repeat match goal with
  | IH : (forall env s v s', tables s -> eval ?a env s = Ok (v, s') -> within _ _ s s'),
    Ht : tables ?s, H : eval ?a ?env ?s = Ok (?v, ?s1) |- _ =>
    lazymatch goal with
    | _ : eval_steps a env s <= _ |- _ => fail
    | _ => let H1 := fresh in let H2 := fresh in let H3 := fresh in
           destruct (IH _ _ _ _ Ht H) as (H1 & H2 & H3)
    end
  end.
Ltac count := repeat match goal with
  | H : eval ?a ?env ?s = Ok _ |- context [after _ (eval ?a ?env ?s) _] => rewrite H; cbn [after]
  end.
Ltac close := split; [assumption|split; lia].

Lemma evals_eq es env s :
  (fix evals (es : list expr) (s : state) {struct es} : res (list val * state) :=
     match es with
     | [] => Ok ([], s)
     | e :: es => let! (v, s) := eval e env s in let! (vs, s) := evals es s in Ok (v :: vs, s)
     end) es s = evals es env s.
Proof. revert s; induction es as [|e es IH]; intros s; [reflexivity|]. cbn [GoTime.evals]. destruct (eval e env s) as [[v s1]| |]; cbn; [|reflexivity..]. now rewrite IH. Qed.

Lemma as_ints_len vs bs : as_ints vs = Ok bs -> zlen bs = Z.of_nat (length vs).
Proof.
  revert bs; induction vs as [|v vs IH]; intros bs H; cbn in H; un; [reflexivity|]. rewrite zlen_cons, (IH _ H1). cbn [length]. lia.
Qed.

Lemma expr_step e : Forall efine (kids e) -> Forall sfine (kid_stmts e) -> efine e.
Proof.
  intros He Hc b Hb.
  destruct e; cbn [TimeFacts.ebound] in Hb; cbn [kids kid_stmts] in He, Hc; try discriminate.
  (* leaves *)
  1-9: unsum; split; [lia|]; intros ? ? ? ? Ht H; cbn [GoLang.eval] in H; un; cbn [GoTime.eval_steps]; close.
  - (* Arith *) unsum; known_parts. split; [lia|]. intros env s v s' Ht H. cbn [GoLang.eval] in H; un. follow. cbn [GoTime.eval_steps]. count. close.
  - (* Cmp *) destruct (no_string e1 || no_string e2 || negb (is_eq o)) eqn:Hn; [|discriminate].
    unsum; known_parts. split; [lia|]. intros env s v s' Ht H. cbn [GoLang.eval] in H; un. follow. cbn [GoTime.eval_steps]. count.
    assert (match v0, v1 with VStr x, VStr y => Z.min (zlen x) (zlen y) | _, _ => 0 end = 0) as ->; [|close].
    apply orb_prop in Hn. destruct Hn as [Hn|Hn]; [apply orb_prop in Hn; destruct Hn as [Hn|Hn]|].
    + match goal with H1 : eval e1 _ _ = Ok _ |- _ => pose proof (no_string_ok _ _ _ _ _ Hn H1) as Hv end.
      destruct v0; try reflexivity. exfalso. eapply Hv; reflexivity.
    + match goal with H1 : eval e2 _ _ = Ok _ |- _ => pose proof (no_string_ok _ _ _ _ _ Hn H1) as Hv end.
      destruct v0, v1; try reflexivity. exfalso. eapply Hv; reflexivity.
    + destruct v0, v1; try reflexivity. destruct o; try discriminate.
  - (* And *) unsum; known_parts. split; [lia|]. intros env s v s' Ht H. cbn [GoLang.eval] in H; un. follow. cbn [GoTime.eval_steps]. count.
    destruct v0; try discriminate. cbn [as_bool] in *. un. destruct x; un; follow; close.
  - (* Or *) unsum; known_parts. split; [lia|]. intros env s v s' Ht H. cbn [GoLang.eval] in H; un. follow. cbn [GoTime.eval_steps]. count.
    destruct v0; try discriminate. cbn [as_bool] in *. un. destruct x; un; follow; close.
  - unsum; known_parts. split; [lia|]. intros env s v s' Ht H. cbn [GoLang.eval] in H; un. follow. cbn [GoTime.eval_steps]. count. close.
  - unsum; known_parts. split; [lia|]. intros env s v s' Ht H. cbn [GoLang.eval] in H; un. follow. cbn [GoTime.eval_steps]. count. close.
  - unsum; known_parts. split; [lia|]. intros env s v s' Ht H. cbn [GoLang.eval] in H; un. follow. cbn [GoTime.eval_steps]. count. destruct v0; un; try discriminate; close.
  - unsum; known_parts. split; [lia|]. intros env s v s' Ht H. cbn [GoLang.eval] in H; un. follow. cbn [GoTime.eval_steps]. count. destruct v0; un; try discriminate; close.
  - unsum; known_parts. split; [lia|]. intros env s v s' Ht H. cbn [GoLang.eval] in H; un. follow. cbn [GoTime.eval_steps]. count. close.
  - unsum; known_parts. split; [lia|]. intros env s v s' Ht H. cbn [GoLang.eval] in H; un. follow. cbn [GoTime.eval_steps]. count. close.
  - unsum; known_parts. split; [lia|]. intros env s v s' Ht H. cbn [GoLang.eval] in H; un. follow. cbn [GoTime.eval_steps]. count. close.
  - (* Append *)
    apply osum_cons in Hb. destruct Hb as (b1 & b2 & Hb1 & Hb & ->). apply osum_cons in Hb. destruct Hb as (b3 & b4 & Hb3 & Hb & ->).
    assert (b1 = 1 + zlen es) by congruence. clear Hb1. subst b1. inversion He as [|? ? Ha Hes]; subst. destruct (Ha _ Hb3) as [H0 IHa]. destruct (evals_fine _ Hes _ Hb) as [H1 IHes].
    pose proof (zlen_nonneg es) as Hz. split; [lia|]. intros env s v s' Ht H2. cbn [GoLang.eval] in H2.
    apply bind_Ok in H2. destruct H2 as [[va s1] [Hva H2]]. rewrite evals_eq in H2. apply bind_Ok in H2. destruct H2 as [[vs s2] [Hvs H2]].
    apply bind_Ok in H2. destruct H2 as [bs [Hbs H2]].
    follow. destruct (IHes _ _ _ _ H Hvs) as [(Ht2 & Hs2 & Hc2) Hl].
    destruct (append_size _ _ _ _ _ H2) as (Ho & Hs3 & Hc3). apply as_ints_len in Hbs as Hbl.
    cbn [GoTime.eval_steps]. fold (all_steps env). count. rewrite Hvs. cbn [after]. rewrite Hbs.
    unfold within. unfold tables in *. rewrite Ho. split; [assumption|]. rewrite Hbl, Hl in Hc3. change (Z.of_nat (length es)) with (zlen es) in Hc3. lia.
  - (* Make *) unsum; known_parts. split; [lia|]. intros env s v s' Ht H. cbn [GoLang.eval] in H; un. follow. cbn [GoTime.eval_steps]. count.
    destruct v1; try discriminate. cbn [as_int] in *. un. destruct (_ && _); [|discriminate]. unfold new_arr in *. un.
    unfold within, tables in *. cbn [objs arrs]. rewrite allocated_app. cbn [allocated]. pose proof (zlen_nonneg (zeros x0)). close.
  - unsum; known_parts. split; [lia|]. intros env s v s' Ht H. cbn [GoLang.eval] in H; un. follow. cbn [GoTime.eval_steps]. count. close.
  - unsum; known_parts. split; [lia|]. intros env s v s' Ht H. cbn [GoLang.eval] in H; un. follow. cbn [GoTime.eval_steps]. count. close.
  - unsum; known_parts. split; [lia|]. intros env s v s' Ht H. cbn [GoLang.eval] in H; un. follow. cbn [GoTime.eval_steps]. count. close.
  - unsum; known_parts. split; [lia|]. intros env s v s' Ht H. cbn [GoLang.eval] in H; un. follow. cbn [GoTime.eval_steps]. count. close.
  - (* Call *)
    apply osum_cons in Hb. destruct Hb as (b1 & b2 & Hb1 & Hb & ->). apply osum_cons in Hb. destruct Hb as (b3 & b4 & Hb3 & Hb & ->).
    injection Hb1 as <-. destruct (Hcall _ _ Hb3) as [H0 Hf]. destruct (evals_fine _ He _ Hb) as [H1 IHes].
    split; [lia|]. intros env s v s' Ht H2. cbn [GoLang.eval] in H2.
    rewrite evals_eq in H2. apply bind_Ok in H2. destruct H2 as [[vs s2] [Hvs H2]].
    destruct (IHes _ _ _ _ Ht Hvs) as [(Ht2 & Hs2 & Hc2) Hl]. destruct (Hf _ _ _ _ Ht2 H2) as (Ht3 & Hs3 & Hc3).
    cbn [GoTime.eval_steps]. fold (all_steps env). rewrite Hvs. cbn [after]. close.
  - unsum; known_parts. split; [lia|]. intros env s v s' Ht H. cbn [GoLang.eval] in H; un. follow. cbn [GoTime.eval_steps]. count.
    destruct v0; un; try discriminate. destruct (DecodeRune _). un. close.
  - unsum; known_parts. split; [lia|]. intros env s v s' Ht H. cbn [GoLang.eval] in H; un. follow. cbn [GoTime.eval_steps]. count.
    destruct v0; un; try discriminate. destruct (_ >? _); [discriminate|]. un.
    pose proof (store_size s1 loc off (EncodeRune x)). unfold within, tables in *. close.
  - (* SearchE *)
    destruct (is_table_len e && no_effect_stmt body) eqn:Hs; [|discriminate]. apply andb_prop in Hs. destruct Hs as [Hs Hne].
    apply osum_cons in Hb. destruct Hb as (b1 & b2 & Hb1 & Hb & ->). apply osum_cons in Hb. destruct Hb as (b3 & b4 & Hb3 & Hb & ->).
    apply osum_cons in Hb. destruct Hb as (b5 & b6 & Hb5 & Hb & ->). apply osum_nil in Hb. subst b6. injection Hb1 as <-.
    assert (option_map (Z.mul 16) (sbound body) = Some b5) as Hb5' by exact Hb5. clear Hb5. rename Hb5' into Hb5.
    destruct (sbound body) as [bb|] eqn:Hbb; [|discriminate]. assert (b5 = 16 * bb) as -> by (unfold option_map in Hb5; congruence). clear Hb5.
    known_parts. split; [lia|]. intros env s v s' Ht H. cbn [GoLang.eval] in H.
    apply bind_Ok in H. destruct H as [[vn s1] [Hn H]]. apply bind_Ok in H. destruct H as [x [Hx H]].
    apply bind_Ok in H. destruct H as [z [Hz H]]. assert (s1 = s') by congruence. subst s1. follow.
    destruct vn; try discriminate. cbn in Hx. injection Hx as ->.
    assert (x <= 32768) as Hsize.
    { destruct e; try discriminate. destruct e; try discriminate. cbn [is_table_len] in Hs. apply String.eqb_eq in Hs. subst f.
      cbn [GoLang.eval] in Hn. apply bind_Ok in Hn. destruct Hn as [[w s2] [Hn H']]. apply bind_Ok in Hn. destruct Hn as [[w1 s3] [Hn H'']].
      apply bind_Ok in H''. destruct H'' as [w2 [Hf H'']]. injection H'' as -> ->.
      assert (tables s2) as Ht2 by (destruct w; try discriminate; injection H' as _ ->; assumption).
      destruct (field_table_ok _ _ _ Ht2 Hf) as (t & -> & Hl). injection H' as <- _. exact Hl. }
    cbn [GoTime.eval_steps]. count.
    match goal with |- context [probes ?n ?f ?w 0 x] => set (P := probes n f w 0 x) end.
    assert (P <= 16 * (1 + bb)) as Hp; [|split; [assumption|split; lia]].
    unfold P. unfold Search in Hz. change 16 with (Z.of_nat 16) at 1.
    eapply probes_bound; [|lia| |exact Hz].
    + intros k r Hr. apply bind_Ok in Hr. destruct Hr as [[[c env1] s2] [Hr _]].
      pose proof Hr as Hs2. apply IH0 in Hr as (_ & _ & Hr); [|assumption].
      apply no_effect_exec in Hs2; [|assumption]. subst s2.
      rewrite Z.sub_diag, Z.mul_0_r, Z.add_0_r in Hr. apply Z.add_le_mono_l. exact Hr.
    + destruct (Z.leb_spec x 1) as [Hx|Hx]; [rewrite Z.log2_up_eqn0 by lia; cbn; lia|].
      pose proof (Z.log2_up_le_mono x 32768 Hsize) as Hl. change (Z.log2_up 32768) with 15 in Hl. lia.
Qed.

Notation assign := (GoTime.assign grow E rd wr call loops).
Fixpoint assigns (ls : list lhs) (vs : list val) (env : env) (s : state) : res (GoLang.env * state) :=
  match ls, vs with
  | l :: ls, v :: vs => let! (env, s) := assign l v env s in assigns ls vs env s
  | _, _ => Ok (env, s)
  end.
Fixpoint assigns_steps (ls : list lhs) (vs : list val) (env : env) (s : state) : Z :=
  match ls, vs with
  | l :: ls, v :: vs =>
    1 + match l with
        | LBlank | LVar _ => 0
        | LField a _ => eval_steps a env s
        | LIndex a i => eval_steps a env s + after E (eval a env s) (fun _ s => eval_steps i env s)
        end + after E (assign l v env s) (fun env s => assigns_steps ls vs env s)
  | _, _ => 0
  end.
Lemma assigns_fine ls : Forall efine (flat_map lhs_exprs ls) -> forall b, osum (map (lbound known) ls) = Some b -> 0 <= b /\
  forall vs env s env' s', tables s -> assigns ls vs env s = Ok (env', s') -> within (zlen ls + b) (assigns_steps ls vs env s) s s'.
Proof.
  induction ls as [|l ls IH]; intros He b Hb; cbn [map flat_map] in *.
  - apply osum_nil in Hb. subst b. split; [lia|]. intros vs env s env' s' Ht H. cbn [assigns] in H. injection H as <- <-.
    split; [assumption|]. cbn [assigns_steps]. change (zlen (@nil lhs)) with 0. lia.
  - apply osum_cons in Hb. destruct Hb as (b1 & b2 & Hb1 & Hb & ->).
    apply Forall_app in He. destruct He as [Hl Hls]. destruct (IH Hls _ Hb) as [H0 IH']. clear IH.
    rewrite zlen_cons. pose proof (zlen_nonneg ls) as Hz.
    assert (0 <= b1 /\ forall v env s env' s', tables s -> assign l v env s = Ok (env', s') ->
       within (1 + b1) (1 + match l with
        | LBlank | LVar _ => 0
        | LField a _ => eval_steps a env s
        | LIndex a i => eval_steps a env s + after E (eval a env s) (fun _ s => eval_steps i env s)
        end) s s') as [H1 Hl1].
    { clear IH'. destruct l; cbn [lhs_exprs lbound] in *; unsum; known_parts.
      - split; [lia|]. intros v env s env' s' Ht H. cbn in H. injection H as <- <-. close.
      - split; [lia|]. intros v env s env' s' Ht H. cbn in H. injection H as <- <-. close.
      - destruct (String.eqb f "table") eqn:Hf; [discriminate|]. known_parts. split; [lia|]. intros v env s env' s' Ht Ha.
        cbn [GoTime.assign] in Ha. apply bind_Ok in Ha. destruct Ha as [[va s1] [Ha Hs]]. apply bind_Ok in Hs. destruct Hs as [s2 [Hs Ho]].
        injection Ho as <- <-. follow. destruct (set_field_ok _ _ _ _ _ ltac:(eassumption) Hf Hs) as [Ht2 Har].
        unfold within. rewrite Har. close.
      - split; [lia|]. intros v env s env' s' Ht Ha. cbn [GoTime.assign] in Ha. un. follow.
        destruct v0; try discriminate. destruct (_ && _); [|discriminate]. un. count.
        match goal with |- within _ _ _ (store E ?s1 ?l ?o ?bs) => pose proof (store_size s1 l o bs) end.
        unfold within, tables in *. close. }
    split; [lia|]. intros vs env s env' s' Ht Ha. destruct vs as [|v vs]; cbn [assigns assigns_steps] in *.
    + injection Ha as <- <-. close.
    + apply bind_Ok in Ha. destruct Ha as [[env1 s1] [Ha1 Ha2]]. destruct (Hl1 _ _ _ _ _ Ht Ha1) as (Ht1 & Hs1 & Hc1).
      destruct (IH' _ _ _ _ _ Ht1 Ha2) as (Ht2 & Hs2 & Hc2). rewrite Ha1. cbn [after]. close.
Qed.

Fixpoint execs (cs : list stmt) (env : env) (s : state) : res (ctl * GoLang.env * state) :=
  match cs with
  | [] => Ok (Next, env, s)
  | c :: cs =>
    let! (k, env, s) := exec c env s in
    match k with Next => execs cs env s | _ => Ok (k, env, s) end
  end.
Fixpoint execs_steps (cs : list stmt) (env : env) (s : state) : Z :=
  match cs with
  | [] => 0
  | c :: cs =>
    exec_steps c env s + after E (exec c env s) (fun ke s =>
    match fst ke with Next => execs_steps cs (snd ke) s | _ => 0 end)
  end.
Lemma execs_fine cs : Forall sfine cs -> forall b, osum (map sbound cs) = Some b -> 0 <= b /\
  forall env s k env' s', tables s -> execs cs env s = Ok (k, env', s') -> within b (execs_steps cs env s) s s'.
Proof.
  induction 1 as [|c cs Hc _ IH]; intros b Hb; cbn [map] in Hb; unsum.
  - split; [lia|]. intros env s k env' s' Ht H. cbn in H. injection H as <- <- <-. cbn [execs_steps]. close.
  - destruct (Hc _ H) as [H0 Hc']. destruct (IH _ Hb) as [H1 IH']. split; [lia|]. intros env s k env' s' Ht Hx.
    cbn [execs] in Hx. apply bind_Ok in Hx. destruct Hx as [[[k1 env1] s1] [Hx1 Hx2]].
    destruct (Hc' _ _ _ _ _ Ht Hx1) as (Ht1 & Hs1 & Hc1). cbn [execs_steps]. rewrite Hx1. cbn [after fst snd].
    destruct k1; [|injection Hx2 as <- <- <-; close..].
    destruct (IH' _ _ _ _ _ Ht1 Hx2) as (Ht2 & Hs2 & Hc2). close.
Qed.

Lemma sbound_eq c : sbound c =
  match c with
  | Define xs e => osum [Some (1 + zlen xs); ebound e]
  | Assign ls e => osum (Some (1 + zlen ls) :: ebound e :: map (lbound known) ls)
  | ExprS e => osum [Some 1; ebound e]
  | Block cs => osum (Some 1 :: map sbound cs)
  | If e a b => osum [Some 1; ebound e; omax (sbound a) (sbound b)]
  | Return es => osum (Some 1 :: map ebound es)
  | Continue | Break => Some 1
  | While _ _ | Range _ _ _ _ => None
  end.
Proof. destruct c; reflexivity. Qed.
Lemma stmt_step c : Forall efine (stmt_exprs c) -> Forall sfine (stmt_stmts c) -> sfine c.
Proof.
  intros He Hc b Hb.
  rewrite sbound_eq in Hb. destruct c; cbv beta iota in Hb; cbn [stmt_exprs stmt_stmts] in He, Hc; try discriminate.
  - (* Define *) unsum; known_parts. pose proof (zlen_nonneg xs). split; [lia|]. intros env s k env' s' Ht Hx.
    change (exec (Define xs e) env s) with
      (let! (v, s) := eval e env s in let! vs := values (length xs) v in Ok (Next, combine xs vs ++ env, s)) in Hx.
    un. follow. change (exec_steps (Define xs e) env s) with (1 + (zlen xs + eval_steps e env s)). close.
  - (* Assign *) inversion He as [|? ? He1 He2]; subst. clear He.
    apply osum_cons in Hb. destruct Hb as (b1 & b2 & Hb1 & Hb & ->). apply osum_cons in Hb. destruct Hb as (b3 & b4 & Hb3 & Hb & ->).
    assert (b1 = 1 + zlen ls) by congruence. clear Hb1. subst b1.
    destruct (assigns_fine ls He2 b4 Hb) as [H1 Ha]. known_parts. pose proof (zlen_nonneg ls). split; [lia|].
    intros env s k env' s' Ht Hx.
    change (exec (Assign ls e) env s) with (let! (v, s) := eval e env s in let! vs := values (length ls) v in
      let! (env, s) := assigns ls vs env s in Ok (Next, env, s)) in Hx.
    apply bind_Ok in Hx. destruct Hx as [[v s1] [Hv Hx]]. apply bind_Ok in Hx. destruct Hx as [vs [Hvs Hx]].
    apply bind_Ok in Hx. destruct Hx as [[env1 s2] [Hx Ho]]. injection Ho as <- <- <-. follow.
    destruct (Ha _ _ _ _ _ ltac:(eassumption) Hx) as (Ht2 & Hs2 & Hc2).
    change (exec_steps (Assign ls e) env s) with (1 + (eval_steps e env s + after E (eval e env s) (fun v s =>
      match values (length ls) v with Ok vs => assigns_steps ls vs env s | _ => 0 end))).
    count. rewrite Hvs. close.
  - (* ExprS *) unsum; known_parts. split; [lia|]. intros env s k env' s' Ht Hx.
    change (exec (ExprS e) env s) with (let! (_, s) := eval e env s in Ok (Next, env, s)) in Hx.
    un. follow. change (exec_steps (ExprS e) env' s) with (1 + eval_steps e env' s). close.
  - (* Block *)
    apply osum_cons in Hb. destruct Hb as (b1 & b2 & Hb1 & Hb & ->). injection Hb1 as <-.
    destruct (execs_fine _ Hc _ Hb) as [H0 H1]. split; [lia|]. intros env s k env' s' Ht Hx.
    change (exec (Block ss) env s) with (let! (k, env', s) := execs ss env s in Ok (k, leave env env', s)) in Hx.
    apply bind_Ok in Hx. destruct Hx as [[[k1 env1] s1] [Hx Ho]]. injection Ho as <- <- <-.
    destruct (H1 _ _ _ _ _ Ht Hx) as (Ht2 & Hs2 & Hc2).
    change (exec_steps (Block ss) env s) with (1 + execs_steps ss env s). close.
  - (* If *) unsum; known_parts. split; [lia|]. intros env s k env' s' Ht Hx.
    change (exec (If c1 c2 c3) env s) with
      (let! (v, s) := eval c1 env s in let! b := as_bool v in if b then exec c2 env s else exec c3 env s) in Hx.
    apply bind_Ok in Hx. destruct Hx as [[v s1] [Hv Hx]]. apply bind_Ok in Hx. destruct Hx as [x [Hb' Hx]].
    follow. destruct v; try discriminate. cbn [as_bool] in Hb'. injection Hb' as ->.
    change (exec_steps (If c1 c2 c3) env s) with (1 + (eval_steps c1 env s + after E (eval c1 env s) (fun v s =>
      match v with VBool b => if b then exec_steps c2 env s else exec_steps c3 env s | _ => 0 end))). count.
    destruct x;
      match goal with IH : (forall env s k env' s', tables s -> exec ?c env s = _ -> _), Hx : exec ?c _ _ = Ok _ |- _ =>
        destruct (IH _ _ _ _ _ ltac:(eassumption) Hx) as (Ht2 & Hs2 & Hc2) end; close.
  - (* Return *)
    apply osum_cons in Hb. destruct Hb as (b1 & b2 & Hb1 & Hb & ->). injection Hb1 as <-.
    destruct (evals_fine _ He _ Hb) as [H0 H1]. split; [lia|]. intros env s k env' s' Ht Hx.
    rewrite ex_Return in Hx. unfold ThreadFacts.evals in Hx. rewrite evals_eq in Hx. apply bind_Ok in Hx. destruct Hx as [[vs s1] [Hx Ho]]. injection Ho as <- <- <-.
    destruct (H1 _ _ _ _ Ht Hx) as [(Ht2 & Hs2 & Hc2) _].
    change (exec_steps (Return es) env s) with (1 + all_steps env es s). close.
  - unsum. split; [lia|]. intros env s k env' s' Ht Hx. cbn in Hx. injection Hx as <- <- <-. change (exec_steps Continue env s) with 1. close.
  - unsum. split; [lia|]. intros env s k env' s' Ht Hx. cbn in Hx. injection Hx as <- <- <-. change (exec_steps Break env s) with 1. close.
Qed.

Theorem exprs_fine e : efine e.
Proof. apply (expr_all _ _ expr_step stmt_step). Qed.
Theorem stmts_fine c : sfine c.
Proof. apply (stmt_all _ _ expr_step stmt_step). Qed.
End Body.
End Costs.
