(* C94: the contexts of WASM plugins *)
From Coq Require Import String List Ascii Bool Arith ZArith Lia.
From Verif Require Import M_GoStr M_Context.
Import ListNotations.
Open Scope list_scope.
Open Scope nat_scope.

(* ---- specification ---- *)
(* the name under which an operation looks a context up *)
Definition asks (s : st) (o : op) (n : gstr) : Prop := match o with Base m => m = n | Child c r => exists x, at_ s c = Some x /\ join (x_name x) r = n | _ => False end.
(* the numbers that a context gives out: to callers, and to its new children *)
Definition gives (s : st) (o : op) (c : nat) : list Z :=
  match o with
  | NextId d => if d =? c then match snd (step s o) with OId n => [n] | _ => [] end else []
  | Child d r => if d =? c then match snd (step s o) with OCtx i => if i =? length (heap s) then match at_ (fst (step s o)) i with Some x => [x_id x] | None => [] end else [] | _ => [] end else []
  | _ => []
  end.
Fixpoint given (s : st) (l : list op) (c : nat) : list Z := match l with [] => [] | o :: r => gives s o c ++ given (fst (step s o)) r c end.
(* what a context sees: its own properties, then those of its parent *)
Inductive sees (s : st) : nat -> gstr -> value -> Prop :=
| Sees_own c x k v : at_ s c = Some x -> x_props x k = Some v -> sees s c k v
| Sees_up c x k v p : at_ s c = Some x -> x_props x k = None -> x_parent x = Some p -> sees s p k v -> sees s c k v.
Inductive below (s : st) (top : nat) : nat -> Prop :=
| Below_self : below s top top
| Below_up c x p : at_ s c = Some x -> x_parent x = Some p -> below s top p -> below s top c.

(* ---- lemmas ---- *)
Lemma geqb_true a b : geqb a b = true <-> a = b.
Proof. unfold geqb. destruct (gstr_eq_dec a b); split; congruence. Qed.
Lemma geqb_refl a : geqb a a = true. Proof. apply geqb_true; reflexivity. Qed.
Lemma geqb_false a b : a <> b -> geqb a b = false.
Proof. intro H. destruct (geqb a b) eqn:E; [|reflexivity]. apply geqb_true in E. contradiction. Qed.
Lemma put_nth l i f : forall j, nth_error (put l i f) j = if j =? i then match nth_error l j with Some x => Some (f x) | None => None end else nth_error l j.
Proof.
  revert i; induction l as [|a r IH]; intros i j; cbn.
  - destruct j; cbn; destruct i; reflexivity || (destruct (j =? i); reflexivity).
  - destruct i as [|i], j as [|j]; cbn; try reflexivity. apply IH.
Qed.
Lemma put_len l i f : length (put l i f) = length l.
Proof. revert i; induction l as [|a r IH]; intros [|i]; cbn; congruence. Qed.
Lemma at_change s i f j : at_ (change s i f) j = if j =? i then match at_ s j with Some x => Some (f x) | None => None end else at_ s j.
Proof. apply put_nth. Qed.
Lemma at_lt s i x : at_ s i = Some x -> i < length (heap s).
Proof. intro H. apply nth_error_Some. unfold at_ in H. congruence. Qed.
Lemma at_new s n j : at_ (fst (new_context s n)) j = if j =? length (heap s) then Some (mkctx n 1 1 None none) else at_ s j.
Proof.
  unfold at_, new_context; cbn. destruct (j =? length (heap s)) eqn:E.
  - apply Nat.eqb_eq in E as ->. rewrite nth_error_app2 by lia. rewrite Nat.sub_diag. reflexivity.
  - apply Nat.eqb_neq in E. destruct (Nat.ltb_spec j (length (heap s))); [apply nth_error_app1; assumption|].
    rewrite nth_error_app2 by lia. destruct (j - length (heap s)) as [|d] eqn:Ed; [lia|]. cbn. destruct d; cbn; symmetry; apply nth_error_None; lia.
Qed.
Definition bump (z : Z) (x : ctx) : ctx := mkctx (x_name x) (x_id x) z (x_parent x) (x_props x).
Lemma next_id_eq s c x : at_ s c = Some x -> next_id s c = (change s c (bump (i32 (x_latest x + 1))), i32 (x_latest x + 1)).
Proof. intro H. unfold next_id. rewrite H. reflexivity. Qed.
(* a child that is made *)
Lemma child_made s c r x : at_ s c = Some x -> registry s (join (x_name x) r) = None ->
  exists s', child s c r = (s', length (heap s)) /\ registry s' = register (join (x_name x) r) (length (heap s)) (registry s) /\ length (heap s') = S (length (heap s)) /\
    (forall j, at_ s' j = if j =? length (heap s) then Some (mkctx (join (x_name x) r) (i32 (x_latest x + 1)) (i32 (x_latest x + 1)) (Some c) none)
                          else if j =? c then Some (bump (i32 (x_latest x + 1)) x) else at_ s j).
Proof.
  intros Hx Hr. pose proof (at_lt _ _ _ Hx) as Hlt. unfold child. rewrite Hx. cbv zeta. rewrite Hr.
  destruct (new_context s (join (x_name x) r)) as [s1 i] eqn:En. assert (i = length (heap s)) as -> by (injection En; auto).
  assert (s1 = fst (new_context s (join (x_name x) r))) as E1 by (rewrite En; reflexivity).
  assert (forall j, at_ s1 j = if j =? length (heap s) then Some (mkctx (join (x_name x) r) 1 1 None none) else at_ s j) as A by (intro j; rewrite E1; apply at_new).
  assert (at_ s1 c = Some x) as Hc by (rewrite A; replace (c =? length (heap s)) with false by (symmetry; apply Nat.eqb_neq; lia); exact Hx).
  unfold adopt. rewrite (next_id_eq _ _ _ Hc). eexists. split; [reflexivity|]. split; [rewrite E1; reflexivity|]. split.
  - cbn. rewrite !put_len, E1. cbn. rewrite app_length. cbn. lia.
  - intro j. rewrite at_change, at_change. rewrite A. destruct (j =? length (heap s)) eqn:Ej.
    + apply Nat.eqb_eq in Ej as ->. replace (length (heap s) =? c) with false by (symmetry; apply Nat.eqb_neq; lia). reflexivity.
    + destruct (j =? c) eqn:Ec; [apply Nat.eqb_eq in Ec as ->; rewrite Hx; reflexivity|reflexivity].
Qed.

(* ---- the invariant ---- *)
Record ok (s : st) : Prop := { ok_name : forall n i, registry s n = Some i -> exists x, at_ s i = Some x /\ x_name x = n;
  ok_parent : forall i x p, at_ s i = Some x -> x_parent x = Some p -> p < i }.
Lemma ok_init : ok init.
Proof. split; [discriminate|]. intros [|i] x p H; discriminate. Qed.
Lemma ok_change s i f : (forall x, x_name (f x) = x_name x /\ x_parent (f x) = x_parent x) -> ok s -> ok (change s i f).
Proof.
  intros Hf [H1 H2]. split.
  - intros n j H. destruct (H1 n j H) as (x & Hx & Hn). rewrite at_change, Hx. destruct (j =? i); [exists (f x); split; [reflexivity|]; rewrite (proj1 (Hf x)); exact Hn|exists x; auto].
  - intros j x p H Hp. rewrite at_change in H. destruct (j =? i).
    + destruct (at_ s j) as [y|] eqn:Ey; [|discriminate]. injection H as <-. rewrite (proj2 (Hf y)) in Hp. eapply H2; eassumption.
    + eapply H2; eassumption.
Qed.
Lemma ok_new s n : ok s -> ok (fst (new_context s n)).
Proof.
  intros [H1 H2]. split.
  - intros m i H. rewrite at_new. cbn in H. unfold register in H. destruct (geqb m n) eqn:E.
    + injection H as <-. rewrite Nat.eqb_refl. apply geqb_true in E. eexists; split; [reflexivity|]. cbn. congruence.
    + destruct (H1 m i H) as (x & Hx & Hn). pose proof (at_lt _ _ _ Hx). replace (i =? length (heap s)) with false by (symmetry; apply Nat.eqb_neq; lia). exists x; auto.
  - intros i x p H Hp. rewrite at_new in H. destruct (i =? length (heap s)); [injection H as <-; discriminate|]. eapply H2; eassumption.
Qed.
Lemma ok_child s c r : ok s -> ok (fst (child s c r)).
Proof.
  intros Hok. destruct (at_ s c) as [x|] eqn:Ex; [|unfold child; rewrite Ex; exact Hok].
  destruct (registry s (join (x_name x) r)) as [i|] eqn:Er; [unfold child; rewrite Ex; cbv zeta; rewrite Er; exact Hok|].
  destruct (child_made s c r x Ex Er) as (s' & E & Hreg & _ & Hat). rewrite E. cbn [fst]. destruct Hok as [H1 H2]. pose proof (at_lt _ _ _ Ex) as Hlt. split.
  - intros m i H. rewrite Hreg in H. unfold register in H. rewrite Hat. destruct (geqb m (join (x_name x) r)) eqn:Em.
    + injection H as <-. rewrite Nat.eqb_refl. apply geqb_true in Em. eexists; split; [reflexivity|]. cbn. congruence.
    + destruct (H1 m i H) as (y & Hy & Hn). pose proof (at_lt _ _ _ Hy). replace (i =? length (heap s)) with false by (symmetry; apply Nat.eqb_neq; lia).
      destruct (i =? c) eqn:Ec; [|exists y; auto]. apply Nat.eqb_eq in Ec as ->. rewrite Ex in Hy. injection Hy as <-. exists (bump (i32 (x_latest x + 1)) x). split; [reflexivity|exact Hn].
  - intros i y p H Hp. rewrite Hat in H. destruct (i =? length (heap s)) eqn:Ei.
    + injection H as <-. cbn in Hp. injection Hp as <-. apply Nat.eqb_eq in Ei. lia.
    + destruct (i =? c) eqn:Ec; [injection H as <-; cbn in Hp; apply Nat.eqb_eq in Ec as ->|]; eapply H2; eassumption.
Qed.
Lemma ok_step s o : ok s -> ok (fst (step s o)).
Proof.
  intro H. destruct o as [n|n|c r|c|c k v]; cbn [step].
  - unfold get_base. destruct (registry s n) as [i|]; [exact H|]. pose proof (ok_new s n H) as H'. destruct (new_context s n); exact H'.
  - pose proof (ok_new s n H) as H'. destruct (new_context s n); exact H'.
  - destruct (at_ s c); [|exact H]. pose proof (ok_child s c r H) as H'. destruct (child s c r); exact H'.
  - destruct (at_ s c) as [x|] eqn:E; [|exact H]. rewrite (next_id_eq _ _ _ E). cbn [fst]. apply ok_change; [intro; split; reflexivity|exact H].
  - cbn. apply ok_change; [intro; split; reflexivity|exact H].
Qed.
Lemma ok_run l : forall s, ok s -> ok (run s l).
Proof. induction l as [|o r IH]; intros s H; [exact H|]. change (run s (o :: r)) with (run (fst (step s o)) r). apply IH, ok_step, H. Qed.
Lemma reach_ok l : ok (run init l).
Proof. apply ok_run, ok_init. Qed.

(* ---- names ---- *)
Lemma ask_result s o n i : ok s -> asks s o n -> snd (step s o) = OCtx i -> registry (fst (step s o)) n = Some i /\ (registry s n = None \/ registry s n = Some i).
Proof.
  intros Hok Ha H. destruct o as [m|m|c r|c|c k v]; try contradiction Ha; cbn [step] in *.
  - cbn in Ha. subst m. unfold get_base in *. destruct (registry s n) as [j|] eqn:E; cbn in *.
    + injection H as <-. split; [exact E|right; reflexivity].
    + injection H as <-. split; [unfold register; rewrite geqb_refl; reflexivity|left; reflexivity].
  - destruct Ha as (x & Hx & <-). rewrite Hx in *. destruct (registry s (join (x_name x) r)) as [j|] eqn:E.
    + unfold child in *. rewrite Hx in *. cbv zeta in *. rewrite E in *. cbn in *. injection H as <-. split; [exact E|right; reflexivity].
    + destruct (child_made s c r x Hx E) as (s' & Es & Hr & _). rewrite Es in *. cbn in *. injection H as <-. split; [rewrite Hr; unfold register; rewrite geqb_refl; reflexivity|left; reflexivity].
Qed.
Lemma registered_stays s o n i : registry s n = Some i -> o <> New n -> registry (fst (step s o)) n = Some i.
Proof.
  intros H Hn. destruct o as [m|m|c r|c|c k v]; cbn [step].
  - unfold get_base. destruct (registry s m) as [j|] eqn:E; [exact H|]. cbn. unfold register. rewrite geqb_false by congruence. exact H.
  - cbn. unfold register. rewrite geqb_false by congruence. exact H.
  - destruct (at_ s c) as [x|] eqn:Ex; [|exact H]. destruct (registry s (join (x_name x) r)) as [j|] eqn:E.
    + unfold child. rewrite Ex. cbv zeta. rewrite E. exact H.
    + destruct (child_made s c r x Ex E) as (s' & Es & Hr & _). rewrite Es. cbn. rewrite Hr. unfold register. rewrite geqb_false by congruence. exact H.
  - destruct (at_ s c) as [x|] eqn:Ex; [|exact H]. rewrite (next_id_eq _ _ _ Ex). exact H.
  - exact H.
Qed.
(* who asks for a name gets the context of that name *)
Theorem C94_named : forall l o n i, asks (run init l) o n -> snd (step (run init l) o) = OCtx i -> exists x, at_ (fst (step (run init l) o)) i = Some x /\ x_name x = n.
Proof.
  intros l o n i Ha H. pose proof (reach_ok l) as Hok. destruct (ask_result _ _ _ _ Hok Ha H) as [Hr _]. apply (ok_name _ (ok_step _ o Hok)) in Hr. exact Hr.
Qed.
Print Assumptions C94_named.
(* and the same one as everybody before, unless a new one has been forced in between *)
Theorem C94_same : forall l o i n l2 o', let s := run init l in asks s o n -> snd (step s o) = OCtx i -> ~ In (New n) l2 ->
  let s2 := run (fst (step s o)) l2 in asks s2 o' n -> snd (step s2 o') = OCtx i.
Proof.
  intros l o i n l2 o' s Ha H Hno s2 Ha2.
  assert (ok s) as Hok by apply reach_ok. destruct (ask_result _ _ _ _ Hok Ha H) as [Hr _].
  assert (registry s2 n = Some i) as Hr2.
  { unfold s2. clear Ha2 s2 Ha H. generalize dependent (fst (step s o)). induction l2 as [|e r IH]; intros t Ht; [exact Ht|].
    change (run t (e :: r)) with (run (fst (step t e)) r). apply IH; [intro Hi; apply Hno; right; exact Hi|]. apply registered_stays; [exact Ht|]. intros ->. apply Hno. left; reflexivity. }
  assert (ok s2) as Hok2 by (apply ok_run, ok_step, Hok).
  assert (exists j, snd (step s2 o') = OCtx j) as [j Hj].
  { destruct o' as [m|m|c r|c|c k v]; try contradiction Ha2; cbn [step].
    - destruct (get_base s2 m); eexists; reflexivity.
    - destruct Ha2 as (x & Hx & _). rewrite Hx. destruct (child s2 c r). eexists; reflexivity. }
  destruct (ask_result _ _ _ _ Hok2 Ha2 Hj) as [_ [Hn|Hs]]; congruence.
Qed.
Print Assumptions C94_same.

Lemma dot_longer a b : length (join a b) = S (length a + length b).
Proof. unfold join. rewrite !app_length. cbn. lia. Qed.
Lemma join_assoc a b c : join a (join b c) = join (join a b) c.
Proof. unfold join. rewrite <- !app_assoc. reflexivity. Qed.
(* children of different parents are different contexts: the names are put together with dots *)
Theorem C94_mixed_up_refuted : forall a b c, exists s, run init [Base a; Base (join a b); Child 0 (join b c)] = s /\ snd (step s (Child 1 c)) = OCtx 2 /\
  (exists x, at_ s 2 = Some x /\ x_parent x = Some 0) /\ (exists x, at_ s 1 = Some x /\ x_name x = join a b).
Proof.
  intros a b c. eexists. split; [reflexivity|].
  assert (geqb (join a b) a = false) as E1 by (apply geqb_false; intro E; apply (f_equal (@length _)) in E; rewrite dot_longer in E; lia).
  assert (geqb (join (join a b) c) (join a b) = false) as E2 by (apply geqb_false; intro E; apply (f_equal (@length _)) in E; rewrite dot_longer in E; lia).
  assert (geqb (join (join a b) c) a = false) as E3 by (apply geqb_false; intro E; apply (f_equal (@length _)) in E; rewrite !dot_longer in E; lia).
  cbn [run fold_left].
  set (s1 := mkst [mkctx a 1 1 None none] (register a 0 (registry init))).
  assert (fst (step init (Base a)) = s1) as -> by reflexivity.
  set (s2 := mkst [mkctx a 1 1 None none; mkctx (join a b) 1 1 None none] (register (join a b) 1 (registry s1))).
  assert (fst (step s1 (Base (join a b))) = s2) as -> by (cbn [step]; unfold get_base; cbn [registry s1]; unfold register at 1; rewrite E1; reflexivity).
  destruct (child_made s2 0 (join b c) (mkctx a 1 1 None none) eq_refl) as (s3 & E & Hr & _ & Hat).
  { cbn [x_name]. rewrite join_assoc. cbn [registry s2]. unfold register at 1. rewrite E2. cbn [registry s1]. unfold register. rewrite E3. reflexivity. }
  assert (fst (step s2 (Child 0 (join b c))) = s3) as -> by (cbn [step]; change (at_ s2 0) with (Some (mkctx a 1 1 None none)); rewrite E; reflexivity).
  cbn [length heap s2] in *.
  assert (at_ s3 1 = Some (mkctx (join a b) 1 1 None none)) as H1 by (rewrite Hat; reflexivity).
  split; [|split].
  - cbn [step]. rewrite H1. unfold child. rewrite H1. cbv zeta. rewrite Hr. cbn [x_name]. unfold register at 1. rewrite join_assoc, geqb_refl. reflexivity.
  - rewrite Hat. eexists; split; reflexivity.
  - rewrite H1. eexists; split; reflexivity.
Qed.
Print Assumptions C94_mixed_up_refuted.

(* ---- numbers ---- *)
Lemma i32_shift (a b : Z) : (i32 (i32 a + b) = i32 (a + b))%Z.
Proof.
  unfold i32. f_equal. replace ((a + 2 ^ 31) mod 2 ^ 32 - 2 ^ 31 + b + 2 ^ 31)%Z with ((a + 2 ^ 31) mod 2 ^ 32 + b)%Z by lia.
  rewrite Zplus_mod_idemp_l. f_equal. lia.
Qed.
Lemma i32_inj (a b : Z) : i32 a = i32 b -> ((a - b) mod 2 ^ 32 = 0)%Z.
Proof.
  unfold i32. intro H. assert ((a + 2 ^ 31) mod 2 ^ 32 = (b + 2 ^ 31) mod 2 ^ 32)%Z as E by lia.
  replace (a - b)%Z with ((a + 2 ^ 31) - (b + 2 ^ 31))%Z by lia. rewrite Zminus_mod, E, Z.sub_diag. reflexivity.
Qed.
(* how one operation changes the latest number of a context *)
Lemma gives_step s o c x : at_ s c = Some x ->
  exists y, at_ (fst (step s o)) c = Some y /\ ((gives s o c = [] /\ x_latest y = x_latest x) \/ (gives s o c = [i32 (x_latest x + 1)] /\ x_latest y = i32 (x_latest x + 1))).
Proof.
  intro Hx. pose proof (at_lt _ _ _ Hx) as Hlt. assert (forall n, at_ (fst (new_context s n)) c = Some x) as A.
  { intro n. rewrite at_new. replace (c =? length (heap s)) with false by (symmetry; apply Nat.eqb_neq; lia). exact Hx. }
  destruct o as [n|n|d r|d|d k v].
  - exists x. split; [|left; split; reflexivity]. cbn [step]. unfold get_base. destruct (registry s n); [exact Hx|]. specialize (A n). destruct (new_context s n). exact A.
  - exists x. split; [|left; split; reflexivity]. cbn [step]. specialize (A n). destruct (new_context s n). exact A.
  - unfold gives. cbn [step]. destruct (at_ s d) as [z|] eqn:Ez.
    2:{ exists x. split; [exact Hx|]. left. destruct (d =? c); split; reflexivity. }
    destruct (registry s (join (x_name z) r)) as [j|] eqn:Er.
    + assert (child s d r = (s, j)) as Ec by (unfold child; rewrite Ez; cbv zeta; rewrite Er; reflexivity).
      rewrite Ec. cbn [fst snd]. exists x. split; [exact Hx|].
      destruct (d =? c); [|left; split; reflexivity].
      destruct (j =? length (heap s)) eqn:Ej; [|left; split; reflexivity].
      left. split; [|reflexivity]. apply Nat.eqb_eq in Ej as ->. destruct (at_ s (length (heap s))) eqn:Eat; [apply at_lt in Eat; lia|reflexivity].
    + destruct (child_made s d r z Ez Er) as (s' & Es & _ & _ & Hat). rewrite Es. cbn [fst snd]. rewrite !Hat. rewrite Nat.eqb_refl.
      replace (c =? length (heap s)) with false by (symmetry; apply Nat.eqb_neq; lia). rewrite (Nat.eqb_sym c d). destruct (d =? c) eqn:Ed.
      * apply Nat.eqb_eq in Ed. subst d. rewrite Hx in Ez. injection Ez as <-. eexists. split; [reflexivity|]. right. split; reflexivity.
      * exists x. split; [exact Hx|]. left; split; reflexivity.
  - unfold gives. cbn [step]. destruct (at_ s d) as [z|] eqn:Ez.
    2:{ exists x. split; [exact Hx|]. left. destruct (d =? c); split; reflexivity. }
    rewrite (next_id_eq _ _ _ Ez). cbn [fst snd]. rewrite at_change. rewrite (Nat.eqb_sym c d). destruct (d =? c) eqn:Ed.
    + apply Nat.eqb_eq in Ed. subst d. rewrite Hx in Ez. injection Ez as <-. rewrite Hx. eexists. split; [reflexivity|]. right. split; reflexivity.
    + exists x. split; [exact Hx|]. left; split; reflexivity.
  - cbn [step fst gives]. unfold set_prop. rewrite at_change, Hx. destruct (c =? d); eexists; (split; [reflexivity|left; split; reflexivity]).
Qed.
(* the numbers of a context count up from its own *)
Theorem C94_numbers : forall l s c x, at_ s c = Some x -> given s l c = map (fun k => i32 (x_latest x + Z.of_nat k)) (seq 1 (length (given s l c))).
Proof.
  induction l as [|o r IH]; intros s c x Hx; [reflexivity|]. cbn [given].
  destruct (gives_step s o c x Hx) as (y & Hy & [[E1 E2]|[E1 E2]]); rewrite E1.
  - cbn [app]. specialize (IH _ _ _ Hy). rewrite E2 in IH. exact IH.
  - cbn [app length seq map]. f_equal. specialize (IH _ _ _ Hy). rewrite IH at 1. rewrite <- (seq_shift _ 1), map_map. apply map_ext. intro k. rewrite E2, i32_shift. f_equal. lia.
Qed.
Print Assumptions C94_numbers.
(* so the filters of a plugin, and its root context, have different numbers, as long as less than 2^32 have been given *)
Theorem C94_distinct : forall l s c x, at_ s c = Some x -> (Z.of_nat (length (given s l c)) < 2 ^ 32)%Z -> NoDup (i32 (x_latest x) :: given s l c).
Proof.
  intros l s c x Hx Hn. rewrite (C94_numbers l s c x Hx). set (n := length (given s l c)) in *.
  replace (i32 (x_latest x) :: map (fun k => i32 (x_latest x + Z.of_nat k)) (seq 1 n)) with (map (fun k => i32 (x_latest x + Z.of_nat k)) (seq 0 (S n)))
    by (cbn [seq map]; f_equal; f_equal; lia).
  assert (forall m a, (Z.of_nat m <= 2 ^ 32)%Z -> NoDup (map (fun k => i32 (x_latest x + Z.of_nat k)) (seq a m))) as A.
  { induction m as [|m IH]; intros a Hm; [constructor|]. cbn [seq map]. constructor; [|apply IH; lia].
    intro Hi. apply in_map_iff in Hi as (k & E & Hk). apply in_seq in Hk. apply i32_inj in E. rewrite Z.mod_small in E by lia. lia. }
  apply A. lia.
Qed.
Print Assumptions C94_distinct.
(* the number after that is the context's own again *)
Theorem C94_wraps_refuted : forall z, (i32 (z + 2 ^ 32) = i32 z)%Z.
Proof. intro z. unfold i32. f_equal. replace (z + 2 ^ 32 + 2 ^ 31)%Z with (z + 2 ^ 31 + 1 * 2 ^ 32)%Z by lia. apply Z.mod_add. lia. Qed.
Print Assumptions C94_wraps_refuted.
(* contexts of different plugins have different numbers: a plugin's first filter has that of the next plugin *)
Theorem C94_number_shared_refuted : forall a b c, b <> c -> let s := run init [Base a; Child 0 b] in
  snd (step s (NextId 1)) = OId 3 /\ exists x, at_ (fst (step (fst (step s (NextId 1))) (Child 0 c))) 2 = Some x /\ x_id x = 3%Z.
Proof.
  intros a b c Hbc s.
  assert (forall z, geqb (join a z) a = false) as E1 by (intro z; apply geqb_false; intro E; apply (f_equal (@length _)) in E; rewrite dot_longer in E; lia).
  assert (geqb (join a c) (join a b) = false) as E2 by (apply geqb_false; unfold join; intro E; apply app_inv_head, app_inv_head in E; congruence).
  set (s1 := mkst [mkctx a 1 1 None none] (register a 0 (registry init))).
  destruct (child_made s1 0 b (mkctx a 1 1 None none) eq_refl) as (s2 & E & Hr & Hl & Hat).
  { cbn [x_name registry s1]. unfold register. rewrite E1. reflexivity. }
  assert (s = s2) as ->.
  { unfold s. cbn [run fold_left]. assert (fst (step init (Base a)) = s1) as -> by reflexivity. cbn [step]. change (at_ s1 0) with (Some (mkctx a 1 1 None none)). rewrite E. reflexivity. }
  cbn [length heap s1 x_name x_latest] in *.
  assert (at_ s2 1 = Some (mkctx (join a b) 2 2 (Some 0) none)) as H1 by (rewrite Hat; reflexivity).
  assert (at_ s2 0 = Some (mkctx a 1 2 None none)) as H0 by (rewrite Hat; reflexivity).
  cbn [step]. rewrite H1. rewrite (next_id_eq _ _ _ H1). cbn [fst snd x_latest]. split; [reflexivity|].
  set (s3 := change s2 1 (bump (i32 (2 + 1)))). assert (at_ s3 0 = Some (mkctx a 1 2 None none)) as H3 by (unfold s3; rewrite at_change; exact H0).
  rewrite H3. destruct (child_made s3 0 c _ H3) as (s4 & E4 & _ & _ & Hat4).
  { unfold s3. cbn [registry change x_name]. rewrite Hr. unfold register at 1. rewrite E2. cbn [registry s1]. unfold register. rewrite E1. reflexivity. }
  rewrite E4. cbn [fst]. assert (length (heap s3) = 2) as Hl3 by (unfold s3; cbn; rewrite put_len; exact Hl). rewrite Hat4, Hl3. cbn. eexists. split; reflexivity.
Qed.
Print Assumptions C94_number_shared_refuted.

(* ---- properties ---- *)
Lemma sees_fun s c k v : sees s c k v -> forall w, sees s c k w -> v = w.
Proof. induction 1 as [c x k v Hx Hp|c x k v p Hx Hn Hp H IH]; intros w Hw; inversion Hw; subst; try congruence. apply IH. congruence. Qed.
Lemma get_from_sees s : ok s -> forall f c k v, c < f -> (get_from s f c k = Some v <-> sees s c k v).
Proof.
  intros Hok. induction f as [|f IH]; intros c k v Hc; [lia|]. cbn. destruct (at_ s c) as [x|] eqn:Ex.
  2:{ split; [discriminate|]. intro H; inversion H; congruence. }
  destruct (x_props x k) as [w|] eqn:Ek.
  { split; intro H; [injection H as ->; econstructor; eassumption|]. inversion H; subst; congruence. }
  destruct (x_parent x) as [p|] eqn:Ep.
  2:{ split; [discriminate|]. intro H; inversion H; subst; congruence. }
  pose proof (ok_parent _ Hok _ _ _ Ex Ep) as Hlt. rewrite IH by lia. split; intro H; [eapply Sees_up; eassumption|]. inversion H; subst; [congruence|]. congruence.
Qed.
Theorem C94_sees : forall l c k v, get_prop (run init l) c k = Some v <-> sees (run init l) c k v.
Proof. intros. apply get_from_sees; [apply reach_ok|lia]. Qed.
Print Assumptions C94_sees.

Lemma set_own s c k v x : at_ s c = Some x -> get_prop (set_prop s c k v) c k = Some v.
Proof.
  intro Hx. unfold get_prop. cbn [get_from]. unfold set_prop. rewrite at_change, Nat.eqb_refl, Hx. cbn [x_props]. rewrite geqb_refl. reflexivity.
Qed.
Lemma set_other s c k v d k' : k' <> k \/ ~ below s c d \/ (d <> c /\ exists x w, at_ s d = Some x /\ x_props x k' = Some w) -> forall f, get_from (set_prop s c k v) f d k' = get_from s f d k'.
Proof.
  intros H f. revert d H. induction f as [|f IH]; intros d H; [reflexivity|]. cbn [get_from]. unfold set_prop at 1. rewrite at_change.
  destruct (at_ s d) as [x|] eqn:Ex; [|destruct (d =? c); reflexivity].
  destruct (d =? c) eqn:Ed.
  - apply Nat.eqb_eq in Ed. subst d. destruct H as [H|[H|[H _]]]; [|contradiction H; apply Below_self|contradiction].
    cbn [x_props x_parent]. rewrite geqb_false by exact H. destruct (x_props x k'); [reflexivity|]. destruct (x_parent x); [apply IH; left; exact H|reflexivity].
  - destruct (x_props x k') as [w|] eqn:Ew; [reflexivity|]. destruct (x_parent x) as [p|] eqn:Ep; [|reflexivity]. apply IH.
    destruct H as [H|[H|(_ & y & w & Hy & Hw)]]; [left; exact H|right; left; intro Hb; apply H; eapply Below_up; eassumption|congruence].
Qed.
(* setting a property: its own context sees it; nobody sees another one, nor anybody who is not below that context or has a value of its own *)
Theorem C94_set : forall l c k v, let s := run init l in let s' := fst (step s (SetProp c k v)) in
  (at_ s c <> None -> get_prop s' c k = Some v) /\
  (forall d k', k' <> k \/ ~ below s c d \/ (d <> c /\ exists x w, at_ s d = Some x /\ x_props x k' = Some w) -> get_prop s' d k' = get_prop s d k').
Proof.
  intros l c k v s s'. split.
  - intro H. destruct (at_ s c) as [x|] eqn:E; [|contradiction]. apply (set_own s c k v x E).
  - intros d k' H. apply set_other. exact H.
Qed.
Print Assumptions C94_set.

(* ---- plugins ---- *)
Lemma sets_props l : forall s c x k, at_ s c = Some x -> exists y, at_ (sets s c l) c = Some y /\ x_props y k = match find (fun p => geqb (fst p) k) (rev l) with Some p => Some (snd p) | None => x_props x k end.
Proof.
  induction l as [|[a v] r IH] using rev_ind; intros s c x k Hx; [exists x; split; [exact Hx|reflexivity]|].
  unfold sets. rewrite fold_left_app. cbn [fold_left fst snd]. change (fold_left _ r s) with (sets s c r).
  destruct (IH s c x k Hx) as (y & Hy & Ey). unfold set_prop. rewrite at_change, Nat.eqb_refl, Hy. eexists. split; [reflexivity|]. cbn [x_props].
  rewrite rev_unit. cbn [find fst snd]. destruct (geqb k a) eqn:E; destruct (geqb a k) eqn:E'; try reflexivity; try exact Ey.
  - apply geqb_true in E. subst. rewrite geqb_refl in E'. discriminate.
  - apply geqb_true in E'. subst. rewrite geqb_refl in E. discriminate.
Qed.
Lemma sets_at l : forall s c d, d <> c -> at_ (sets s c l) d = at_ s d.
Proof.
  induction l as [|[a v] r IH]; intros s c d H; [reflexivity|]. change (sets s c ((a, v) :: r)) with (sets (set_prop s c a v) c r). rewrite IH by exact H. unfold set_prop. rewrite at_change.
  replace (d =? c) with false by (symmetry; apply Nat.eqb_neq; exact H). reflexivity.
Qed.
Lemma child_at s b r x : ok s -> at_ s b = Some x -> exists s' i y, child s b r = (s', i) /\ at_ s' i = Some y /\ x_name y = join (x_name x) r /\
  (forall d z, at_ s d = Some z -> exists z', at_ s' d = Some z' /\ x_props z' = x_props z /\ x_name z' = x_name z).
Proof.
  intros Hok Hx. destruct (registry s (join (x_name x) r)) as [i|] eqn:Er.
  - destruct (ok_name _ Hok _ _ Er) as (y & Hy & Hn). exists s, i, y. split; [unfold child; rewrite Hx; cbv zeta; rewrite Er; reflexivity|]. split; [exact Hy|]. split; [exact Hn|].
    intros d z Hz. exists z. auto.
  - destruct (child_made s b r x Hx Er) as (s' & E & _ & _ & Hat). exists s', (length (heap s)). eexists. split; [exact E|]. split; [rewrite Hat, Nat.eqb_refl; reflexivity|]. split; [reflexivity|].
    intros d z Hz. pose proof (at_lt _ _ _ Hz). rewrite Hat. replace (d =? length (heap s)) with false by (symmetry; apply Nat.eqb_neq; lia).
    destruct (d =? b) eqn:Ed; [apply Nat.eqb_eq in Ed; subst d; rewrite Hx in Hz; injection Hz as <-|]; eexists; split; try eassumption; try reflexivity; split; reflexivity.
Qed.
Definition config_of (s : st) (c : nat) : option (value * value) := match get_prop s c k_name, get_prop s c k_bytes with Some a, Some b => Some (a, b) | _, _ => None end.
(* a plugin's context has its name and its configuration, also after any others have been added under other names *)
Theorem C94_own_config : forall l b p others, let s := run init l in at_ s b <> None ->
  let '(s1, c) := add_plugin s b p in
  forall s2, fold_left (fun a o => match a with None => None | Some t => match at_ t (fst o) with None => None | Some _ => let '(t', d) := add_plugin t (fst o) (snd o) in if d =? c then None else Some t' end end) others (Some s1) = Some s2 ->
  config_of s2 c = Some (VStr (p_name p), VStr (p_config p)).
Proof.
  intros l b p others s Hb. assert (ok s) as Hok by apply reach_ok. destruct (at_ s b) as [x|] eqn:Ex; [|contradiction]. clear Hb.
  unfold add_plugin at 1. destruct (child_at s b (p_root p) x Hok Ex) as (s0 & c & y & Ec & Hy & _ & _). rewrite Ec.
  assert (forall t, ok t -> forall q d z, at_ t d = Some z -> ok (sets t d q)) as Oks.
  { intros t Ht q d z _. revert t Ht. induction q as [|a r IH]; intros t Ht; [exact Ht|]. change (sets t d (a :: r)) with (sets (set_prop t d (fst a) (snd a)) d r). apply IH. apply ok_change; [intro; split; reflexivity|exact Ht]. }
  assert (ok s0) as Hok0 by (pose proof (ok_child s b (p_root p) Hok) as H; rewrite Ec in H; exact H).
  pose (good := fun t : st => ok t /\ exists z, at_ t c = Some z /\ x_props z k_name = Some (VStr (p_name p)) /\ x_props z k_bytes = Some (VStr (p_config p))).
  assert (good (sets s0 c (plugin_props p))) as G1.
  { split; [eapply Oks; eassumption|]. destruct (sets_props (plugin_props p) s0 c y k_name Hy) as (z & Hz & E1).
    destruct (sets_props (plugin_props p) s0 c y k_bytes Hy) as (z' & Hz' & E2). rewrite Hz in Hz'. injection Hz' as <-. exists z. split; [exact Hz|]. split; [rewrite E1|rewrite E2]; reflexivity. }
  intros s2 H2. assert (good s2) as [_ (z & Hz & E1 & E2)].
  { revert H2. generalize dependent (sets s0 c (plugin_props p)). intros t Gt. revert t Gt. induction others as [|[b' q] r IH]; intros t Gt H2; [injection H2 as <-; exact Gt|].
    cbn [fold_left fst snd] in H2. destruct (at_ t b') as [xb|] eqn:Eb.
    2:{ exfalso. clear -H2. induction r; [discriminate|]. apply IHr, H2. }
    destruct Gt as (Okt & z & Hz & E1 & E2). unfold add_plugin in H2. destruct (child_at t b' (p_root q) xb Okt Eb) as (t0 & d & yd & Ed & Hyd & _ & Hkeep). rewrite Ed in H2.
    destruct (d =? c) eqn:Edc.
    { exfalso. clear -H2. induction r; [discriminate|]. apply IHr, H2. }
    eapply IH; [|exact H2]. assert (ok t0) as Okt0 by (pose proof (ok_child t b' (p_root q) Okt) as H; rewrite Ed in H; exact H).
    split; [eapply Oks; eassumption|]. destruct (Hkeep c z Hz) as (z' & Hz' & Ep & _). exists z'. rewrite sets_at; [|apply Nat.eqb_neq in Edc; congruence]. split; [exact Hz'|]. rewrite Ep. auto. }
  unfold config_of, get_prop. cbn [get_from]. rewrite Hz, E1, E2. reflexivity.
Qed.
Print Assumptions C94_own_config.
(* every plugin sees its own name and configuration: with the same root id the one that was added last gives them to both *)
Theorem C94_config_refuted : forall l b p q, let s := run init l in at_ s b <> None -> p_root p = p_root q ->
  let '(s1, c) := add_plugin s b p in let '(s2, d) := add_plugin s1 b q in d = c /\ config_of s2 c = Some (VStr (p_name q), VStr (p_config q)).
Proof.
  intros l b p q s Hb Hroot. assert (ok s) as Hok by apply reach_ok. destruct (at_ s b) as [x|] eqn:Ex; [|contradiction]. clear Hb.
  unfold add_plugin. destruct (child_at s b (p_root p) x Hok Ex) as (s0 & c & y & Ec & Hy & Hyn & Hkeep). rewrite Ec.
  set (s1 := sets s0 c (plugin_props p)).
  assert (registry s1 = registry s0) as Hreg by (unfold s1; generalize (plugin_props p); intro q0; generalize s0; induction q0 as [|a r IH]; intro t; [reflexivity|change (sets t c (a :: r)) with (sets (set_prop t c (fst a) (snd a)) c r); rewrite IH; reflexivity]).
  assert (registry s0 (join (x_name x) (p_root p)) = Some c) as Hr0.
  { destruct (registry s (join (x_name x) (p_root p))) as [i|] eqn:Er.
    - unfold child in Ec. rewrite Ex in Ec. cbv zeta in Ec. rewrite Er in Ec. injection Ec as <- <-. exact Er.
    - destruct (child_made s b (p_root p) x Ex Er) as (s' & E & Hr & _). rewrite E in Ec. injection Ec as <- <-. rewrite Hr. unfold register. rewrite geqb_refl. reflexivity. }
  assert (exists xb, at_ s1 b = Some xb /\ x_name xb = x_name x) as (xb & Hxb & Hn).
  { destruct (Hkeep b x Ex) as (z & Hz & _ & Hzn). destruct (Nat.eq_dec b c) as [->|Hne].
    - assert (forall q0 t u, at_ t c = Some u -> exists v, at_ (sets t c q0) c = Some v /\ x_name v = x_name u) as A.
      { induction q0 as [|a r IH]; intros t u Hu; [exists u; auto|]. change (sets t c (a :: r)) with (sets (set_prop t c (fst a) (snd a)) c r). edestruct (IH (set_prop t c (fst a) (snd a))) as (v & Hv & Hvn); [unfold set_prop; rewrite at_change, Nat.eqb_refl, Hu; reflexivity|]. exists v. split; [exact Hv|exact Hvn]. }
      destruct (A (plugin_props p) s0 z Hz) as (v & Hv & Hvn). exists v. split; [exact Hv|congruence].
    - exists z. unfold s1. rewrite sets_at by exact Hne. split; [exact Hz|exact Hzn]. }
  assert (child s1 b (p_root q) = (s1, c)) as Eq.
  { unfold child. rewrite Hxb. cbv zeta. rewrite Hn, Hreg, <- Hroot, Hr0. reflexivity. }
  rewrite Eq. split; [reflexivity|].
  destruct (sets_props (plugin_props p) s0 c y k_name Hy) as (z & Hz & _). fold s1 in Hz.
  destruct (sets_props (plugin_props q) s1 c z k_name Hz) as (w & Hw & E1). destruct (sets_props (plugin_props q) s1 c z k_bytes Hz) as (w' & Hw' & E2).
  rewrite Hw in Hw'. injection Hw' as <-. unfold config_of, get_prop. cbn [get_from]. rewrite Hw, E1, E2. reflexivity.
Qed.
Print Assumptions C94_config_refuted.

(* ---- two goroutines ---- *)
(* both make the context *)
Theorem C94_race_refuted : forall s c x n, at_ s c = Some x -> registry s n = None ->
  let '(_, p, q) := two s c (Looking n) (Looking n) [true; false; true; false; true; false] in p = Returned (length (heap s)) /\ q = Returned (S (length (heap s))).
Proof.
  intros s c x n Hx Hn. cbn [two advance]. rewrite Hn. cbn [two advance]. rewrite Hn. cbn [two advance]. unfold new_context; cbn [two advance]. split; [reflexivity|]. f_equal. cbn. rewrite app_length. cbn. lia.
Qed.
Print Assumptions C94_race_refuted.
(* and one may be seen before it has its number and its parent *)
Theorem C94_half_made_refuted : forall s c x n, at_ s c = Some x -> registry s n = None ->
  exists s', two s c (Looking n) (Looking n) [true; true; false] = (s', Made (length (heap s)), Returned (length (heap s))) /\ at_ s' (length (heap s)) = Some (mkctx n 1 1 None none).
Proof.
  intros s c x n Hx Hn. exists (fst (new_context s n)). split.
  - cbn [two advance]. rewrite Hn. cbn [two advance]. destruct (new_context s n) as [s1 i] eqn:E. assert (i = length (heap s)) as -> by (injection E; auto).
    cbn [two advance]. replace (registry s1 n) with (Some (length (heap s))) by (injection E as <-; cbn; unfold register; rewrite geqb_refl; reflexivity). reflexivity.
  - rewrite at_new, Nat.eqb_refl. reflexivity.
Qed.
Print Assumptions C94_half_made_refuted.

Definition p1 : plugin := mkpl (lit "stats") (lit "a") (lit "vm") 1 (lit "{}").
Definition p2 : plugin := mkpl (lit "other") (lit "b") (lit "vm") 2 (lit "[]").
Example C94_case :
  let s := run init [Base (lit "root"); SetProp 0 (lit "metric.handler") (VRef 9)] in let '(s1, c) := add_plugin s 0 p1 in let '(s2, d) := add_plugin s1 0 p2 in
  c = 1 /\ d = 2 /\ config_of s2 1 = Some (VStr (lit "a"), VStr (lit "{}")) /\ config_of s2 2 = Some (VStr (lit "b"), VStr (lit "[]")) /\ get_prop s2 2 (lit "metric.handler") = Some (VRef 9) /\
  given s2 [NextId 1; NextId 2; NextId 1] 1 = [3; 4]%Z.
Proof. vm_compute. repeat split; reflexivity. Qed.
Print Assumptions C94_case.
