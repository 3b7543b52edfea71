(* C28: load balancing. *)
From Coq Require Import List String Bool NArith ZArith QArith Qround Qfield Lqa Lia Permutation SpecFloat.
From Verif Require Import M_GoMap L_GoMap M_AdsLb L_AdsLb.
Import ListNotations.
Close Scope Q_scope.
Open Scope nat_scope.
Open Scope string_scope.

(* --- random --- *)
Theorem C28_random_member : forall draw es, match random_next draw es with Some a => In a es | None => es = [] end.
Proof.
  intros draw es. unfold random_next. destruct es as [|a [|b es]]; [reflexivity|now left|].
  destruct (nth_error _ _) eqn:E; [now apply nth_error_In in E|]. apply nth_error_None in E. cbn [List.length] in E.
  pose proof (Nat.mod_upper_bound draw (S (S (List.length es))) ltac:(lia)). lia.
Qed.
Print Assumptions C28_random_member.
Example C28_random_member_ex : random_next 7 ["a"; "b"; "c"] = Some "b".
Proof. reflexivity. Qed.

(* --- least request (power of n choices) --- *)
Lemma ins_addr_perm : forall x l, Permutation (ins_addr x l) (x :: l).
Proof. intros x l. induction l as [|y l IH]; cbn; [apply Permutation_refl|]. destruct (String.ltb y x); [|apply Permutation_refl]. eapply Permutation_trans; [apply perm_skip, IH|apply perm_swap]. Qed.
Lemma sort_addrs_perm : forall l, Permutation (sort_addrs l) l.
Proof. induction l as [|x l IH]; cbn; [constructor|]. eapply Permutation_trans; [apply ins_addr_perm|]. now apply perm_skip. Qed.
Lemma lupd_len {X} : forall (l : list X) i x, List.length (lupd l i x) = List.length l.
Proof. induction l as [|y l IH]; intros [|i] x; cbn; auto. Qed.
Lemma lupd_nth {X} : forall (l : list X) i x j, nth_error (lupd l i x) j = if Nat.eqb i j then match nth_error l j with Some _ => Some x | None => None end else nth_error l j.
Proof. induction l as [|y l IH]; intros i x j; destruct i as [|i], j as [|j]; cbn; try reflexivity; try (now destruct (Nat.eqb _ _)). apply IH. Qed.
Lemma lupd_split {X} : forall (l : list X) i x a, nth_error l i = Some a -> exists p q, l = (p ++ a :: q)%list /\ List.length p = i /\ lupd l i x = (p ++ x :: q)%list.
Proof.
  induction l as [|y l IH]; intros [|i] x a H; cbn in H; try discriminate.
  - injection H as <-. exists [], l. auto.
  - destruct (IH i x a H) as (p & q & -> & Hl & Hu). exists (y :: p), q. cbn. rewrite Hu, Hl. auto.
Qed.
Lemma lswap_perm : forall l i j, Permutation (lswap l i j) l.
Proof.
  intros l i j. unfold lswap. destruct (nth_error l i) as [a|] eqn:Ei; [|reflexivity]. destruct (nth_error l j) as [b|] eqn:Ej; [|reflexivity].
  destruct (Nat.eq_dec i j) as [<-|Hn].
  - rewrite Ei in Ej. injection Ej as <-. destruct (lupd_split l i a a Ei) as (p & q & -> & Hl & ->). 
    destruct (lupd_split (p ++ a :: q)%list i a a Ei) as (p' & q' & H1 & Hl' & ->). rewrite <- H1. reflexivity.
  - destruct (lupd_split l i b a Ei) as (p & q & -> & Hl & ->). assert (Ej': nth_error (p ++ b :: q)%list j = Some b).
    { destruct (Nat.lt_ge_cases j i) as [H|H].
      - rewrite nth_error_app1 in Ej by lia. now rewrite nth_error_app1 by lia.
      - rewrite nth_error_app2 in Ej by lia. rewrite nth_error_app2 by lia. subst i. destruct (j - List.length p) as [|d] eqn:Ed; [lia|]. exact Ej. }
    destruct (lupd_split (p ++ b :: q)%list j a b Ej') as (p' & q' & H1 & Hl' & ->).
    assert (Hp: Permutation (p ++ a :: q) (a :: p ++ q)) by (symmetry; apply Permutation_middle). rewrite Hp.
    assert (Hp1: Permutation (p' ++ a :: q') (a :: p' ++ q')) by (symmetry; apply Permutation_middle). rewrite Hp1. apply perm_skip.
    apply (Permutation_cons_inv (a := b)). transitivity (p' ++ b :: q')%list; [apply Permutation_middle|]. rewrite <- H1. symmetry. apply Permutation_middle.
Qed.
Lemma p2c_pick_spec : forall draw n l i, i + n <= List.length l -> exists l', p2c_pick draw l i n = Some l' /\ Permutation l' l.
Proof.
  intros draw n. induction n as [|n IH]; intros l i H; [exists l; split; [reflexivity|apply Permutation_refl]|].
  cbn [p2c_pick]. destruct (List.length l - i) as [|m] eqn:E; [lia|]. set (l1 := lswap l _ _). assert (Hp: Permutation l1 l) by apply lswap_perm.
  destruct (IH l1 (S i)) as (l' & -> & Hl); [rewrite (Permutation_length Hp); lia|]. exists l'. split; [reflexivity|]. now rewrite Hl.
Qed.
Lemma p2c_pick_none : forall draw n l i, List.length l < i + n -> i <= List.length l -> p2c_pick draw l i n = None.
Proof.
  intros draw n. induction n as [|n IH]; intros l i H Hi; [lia|]. cbn [p2c_pick]. destruct (List.length l - i) as [|m] eqn:E; [reflexivity|].
  apply IH; rewrite (Permutation_length (lswap_perm _ _ _)); lia.
Qed.
Lemma p2c_best_spec : forall st l, match p2c_best st l with Some a => In a l /\ forall b, In b l -> (active_count st a <= active_count st b)%N | None => l = [] end.
Proof.
  intros st l. unfold p2c_best. induction l as [|b l IH] using rev_ind; [reflexivity|]. rewrite fold_left_app. cbn [fold_left]. destruct (fold_left _ l None) as [a|].
  - destruct IH as [Hi Hm]. destruct (N.ltb (active_count st b) (active_count st a)) eqn:E.
    + apply N.ltb_lt in E. split; [apply in_or_app; right; now left|]. intros c Hc. apply in_app_or in Hc. destruct Hc as [Hc|[<-|[]]]; [specialize (Hm c Hc); lia|lia].
    + apply N.ltb_ge in E. split; [apply in_or_app; now left|]. intros c Hc. apply in_app_or in Hc. destruct Hc as [Hc|[<-|[]]]; [now apply Hm|assumption].
  - subst l. split; [now left|]. intros c [<-|[]]. lia.
Qed.
(* With between 1 and [length es] choices: the answer is an endpoint of the list, the one with the fewest active
   requests among [choice] sampled endpoints (all of them if choice = length es), whatever the random draws. *)
Theorem C28_least_request : forall draw choice es st, es <> [] -> 1 <= choice <= List.length es ->
  exists a, p2c_next draw choice es st = Picked (Some a) /\ In a es /\
    exists sample rest, Permutation (sample ++ rest) es /\ (2 <= List.length es -> List.length sample = choice) /\ In a sample /\
      forall b, In b sample -> (active_count st a <= active_count st b)%N.
Proof.
  intros draw choice es st Hne Hc. unfold p2c_next. destruct es as [|a [|b es]]; [congruence| |].
  - exists a. split; [reflexivity|]. split; [now left|]. exists [a], []. cbn. split; [apply Permutation_refl|]. split; [lia|]. split; [now left|]. intros b [<-|[]]. lia.
  - set (l := a :: b :: es) in *. assert (Hl: List.length (sort_addrs l) = List.length l) by apply Permutation_length, sort_addrs_perm.
    destruct (p2c_pick_spec draw choice (sort_addrs l) 0) as (l' & -> & Hp); [lia|]. assert (Hpl: Permutation l' l) by (etransitivity; [exact Hp|apply sort_addrs_perm]).
    pose proof (p2c_best_spec st (skipn (List.length l' - choice) l')) as Hb. set (d := List.length l' - choice) in *.
    assert (Hsk: List.length (skipn d l') = choice) by (rewrite skipn_length; subst d; rewrite (Permutation_length Hpl); lia).
    destruct (p2c_best st (skipn d l')) as [x|]; [|rewrite Hb in Hsk; cbn in Hsk; lia]. destruct Hb as [Hi Hm]. exists x. split; [reflexivity|]. split.
    + eapply Permutation_in; [exact Hpl|]. rewrite <- (firstn_skipn d l'). apply in_or_app. now right.
    + exists (skipn d l'), (firstn d l'). split; [|auto]. rewrite Permutation_app_comm, firstn_skipn. exact Hpl.
Qed.
Print Assumptions C28_least_request.
Definition ex_stats : estats := [("a", mkstats 0 3); ("b", mkstats 0 1); ("c", mkstats 0 2)].
Example C28_least_request_ex : p2c_next (fun i => i) 2 ["b"; "a"; "c"] ex_stats = Picked (Some "b") /\ p2c_next (fun _ => 0) 2 ["b"; "a"; "c"] ex_stats = Picked (Some "c").
Proof. vm_compute. auto. Qed.
(* A choice count above the number of endpoints panics; the code takes the count of the cluster's configuration, default
   2, and does not cap it (lb_wlr.go:79-86; the case of a single endpoint is handled before). *)
Theorem C28_choice_count_refuted : forall draw choice es st, 2 <= List.length es -> List.length es < choice -> p2c_next draw choice es st = Panics.
Proof.
  intros draw choice es st H2 Hc. unfold p2c_next. destruct es as [|a [|b es]]; cbn in H2; [lia|lia|]. rewrite p2c_pick_none; [reflexivity| |lia].
  rewrite (Permutation_length (sort_addrs_perm _)). exact Hc.
Qed.
Print Assumptions C28_choice_count_refuted.
Theorem C28_choice_zero_refuted : forall draw es st, 2 <= List.length es -> p2c_next draw 0 es st = Picked None.
Proof.
  intros draw es st H2. unfold p2c_next. destruct es as [|a [|b es]]; cbn in H2; [lia|lia|]. cbn [p2c_pick]. rewrite Nat.sub_0_r, skipn_all2 by lia. reflexivity.
Qed.
Print Assumptions C28_choice_zero_refuted.

(* --- weighted round robin --- *)
(* whatever the floating point arithmetic does, the answer is an endpoint of the list that has a load *)
Lemma wrr_fold_in : forall A loads st T es m,
  match snd (fold_left (wrr_visit A loads st T) es (m, None)) with Some (b, _) => In b es /\ mget b loads <> None | None => True end.
Proof.
  intros A loads st T es m. induction es as [|b es IH] using rev_ind; [exact I|]. rewrite fold_left_app. cbn [fold_left].
  destruct (fold_left (wrr_visit A loads st T) es (m, None)) as [mm sel]. cbn [snd] in IH. unfold wrr_visit.
  assert (Hold: match sel with Some (c, _) => In c (es ++ [b]) /\ mget c loads <> None | None => True end).
  { destruct sel as [[c lc]|]; [|exact I]. split; [apply in_or_app; left|]; apply IH. }
  assert (Hb: In b (es ++ [b])) by (apply in_or_app; right; now left).
  destruct (mget b loads) as [lb|] eqn:Eb; [|exact Hold]. assert (Hn: mget b loads <> None) by congruence. cbv zeta.
  repeat match goal with |- context [if ?c then _ else _] => destruct c | |- context [match sel with _ => _ end] => destruct sel as [[c lc]|] end; cbn [snd]; try exact Hold; try (split; assumption); try exact I.
Qed.
Theorem C28_round_robin_member : forall A es loads st a st', wrr_next A es loads st = (Some a, st') -> In a es /\ mget a loads <> None.
Proof.
  intros A es loads st a st' H. unfold wrr_next in H. pose proof (wrr_fold_in A loads st (wrr_total A loads st) es (fmax A)) as G.
  destruct (snd _) as [[b l]|]; [|discriminate]. injection H as <- <-. exact G.
Qed.
Print Assumptions C28_round_robin_member.
(* the balancer called [n] times in a row *)
Fixpoint wrr_run (A : arith) (es : list string) (loads : gmap (F A)) (n : nat) (st : estats) : list (option string) * estats :=
  match n with
  | O => ([], st)
  | S n' => let (p, st1) := wrr_next A es loads st in let (ps, st2) := wrr_run A es loads n' st1 in (p :: ps, st2)
  end.

(* Exact arithmetic: none is returned iff every endpoint already has its share of the total, and the pick is one of
   least relative load. *)
Theorem C28_rational_least : forall pow es loads st,
  let T := wrr_total (exact pow) loads st in
  match fst (wrr_next (exact pow) es loads st) with
  | Some a => In a es /\ exists l, below loads st T a l /\ forall b lb, In b es -> below loads st T b lb -> (relq st T a l <= relq st T b lb)%Q
  | None => forall b lb, In b es -> ~ below loads st T b lb
  end.
Proof.
  intros pow es loads st T. destruct (wrr_next (exact pow) es loads st) as [[a|] st'] eqn:E; cbn [fst].
  - apply wrr_next_some in E. destruct E as [_ (l & es1 & es2 & -> & Hb & H1 & H2)]. fold T in Hb, H1, H2. clearbody T. split; [apply in_or_app; right; now left|]. exists l. split; [exact Hb|].
    intros b lb Hi Hbb. apply in_app_or in Hi. destruct Hi as [Hi|[<-|Hi]].
    + destruct (H1 b lb Hi Hbb); lra.
    + destruct Hb as [Hg _], Hbb as [Hg' _]. rewrite Hg in Hg'. injection Hg' as <-. apply Qle_refl.
    + destruct (H2 b lb Hi Hbb); lra.
  - intros b lb. eapply wrr_next_none. exact E.
Qed.
Print Assumptions C28_rational_least.

Lemma rr_count_inc : forall st a b, rr_count (inc_rr st a) b = if String.eqb b a then match mget b st with Some x => u32 (st_rr x + 1) | None => 0%N end else rr_count st b.
Proof.
  intros st a b. unfold rr_count, inc_rr, on_entry. destruct (mget a st) as [x|] eqn:E; [rewrite mget_mset|]; destruct (String.eqb b a) eqn:Eb; try reflexivity; apply String.eqb_eq in Eb; subst; now rewrite E.
Qed.
Lemma entry_inc : forall st a b, mget b (inc_rr st a) = None <-> mget b st = None.
Proof.
  intros st a b. unfold inc_rr, on_entry. destruct (mget a st) as [x|] eqn:E; [|reflexivity]. rewrite mget_mset. destruct (String.eqb b a) eqn:Eb; [|reflexivity].
  apply String.eqb_eq in Eb. subst. split; intros; congruence.
Qed.
Lemma sum_counts_perm : forall st l l', Permutation l l' -> sum_counts st l = sum_counts st l'.
Proof. intros st l l' H. unfold sum_counts. induction H; cbn [fold_right]; lia. Qed.
Lemma sum_counts_const : forall st k l, (forall a, In a l -> rr_count st a = k) -> sum_counts st l = (N.of_nat (List.length l) * k)%N.
Proof. intros st k l H. unfold sum_counts in *. induction l as [|a l IH]; cbn [fold_right List.length]; [reflexivity|]. rewrite H by now left. rewrite IH by (intros; apply H; now right). lia. Qed.
Lemma sum_counts_app : forall st l l', sum_counts st (l ++ l') = (sum_counts st l + sum_counts st l')%N.
Proof. intros st l l'. unfold sum_counts in *. induction l as [|a l IH]; cbn [fold_right app]; [reflexivity|]. rewrite IH. lia. Qed.
Lemma before : forall (es1 es2 p q : list string) a b, NoDup (es1 ++ b :: es2) -> (es1 ++ b :: es2)%list = (p ++ a :: q)%list -> In a es2 -> In b p.
Proof.
  intros es1 es2 p q a b Hnd H Hi. assert (Hab: a <> b). { intros ->. apply NoDup_remove_2 in Hnd. apply Hnd, in_or_app. now right. }
  assert (Ha1: ~ In a es1). { intros H1. apply NoDup_remove_1 in Hnd. apply in_split in H1. destruct H1 as (u & v & ->). rewrite <- app_assoc in Hnd. cbn in Hnd. apply NoDup_remove_2 in Hnd. apply Hnd. rewrite !in_app_iff. auto. }
  destruct (app_eq_app _ _ _ _ H) as (m & [[H1 H2]|[H1 H2]]); destruct m as [|c m]; cbn in H2; injection H2 as -> H2.
  - congruence.
  - subst. exfalso. apply Ha1, in_or_app. right. now left.
  - congruence.
  - subst. apply in_or_app. right. now left.
Qed.
Section RR.
Variable pow : Q -> Q -> Q.
Variables (es : list string) (loads : gmap Q) (l : Q) (k : N).
Hypothesis Hnd : NoDup es.
Hypothesis Hkeys : Permutation (map fst loads) es.
Hypothesis Hload : forall a la, mget a loads = Some la -> (la == l)%Q.
Hypothesis Hshare : (Q_of k < l * Q_of (N.of_nat (List.length es) * k + 1))%Q.
Hypothesis Hfit : (N.of_nat (List.length es) * (k + 1) < 4294967296)%N.
Lemma has_load : forall a, In a es -> exists la, mget a loads = Some la.
Proof. intros a H. assert (Hi: In a (map fst loads)) by (eapply Permutation_in; [symmetry; exact Hkeys|exact H]). destruct (mget a loads) eqn:E; [eauto|]. exfalso. apply mget_none in E. now apply E. Qed.
Lemma round_step : forall es1 b es2 st, es = (es1 ++ b :: es2)%list ->
  (forall a, In a es -> mget a st <> None) -> (forall a, In a es1 -> rr_count st a = (k + 1)%N) -> (forall a, In a (b :: es2) -> rr_count st a = k) ->
  wrr_next (exact pow) es loads st = (Some b, inc_rr st b).
Proof.
  intros es1 b es2 st He Hent H1 H2.
  assert (Hlen: N.of_nat (List.length es) = (N.of_nat (List.length es1) + 1 + N.of_nat (List.length es2))%N) by (rewrite He, app_length; cbn; lia).
  assert (HT: wrr_total (exact pow) loads st = (N.of_nat (List.length es) * k + N.of_nat (List.length es1) + 1)%N).
  { rewrite wrr_total_spec. change (F (exact pow)) with Q. rewrite (sum_counts_perm st _ _ Hkeys). replace (sum_counts st es) with (sum_counts st (es1 ++ b :: es2)) by (now rewrite <- He). rewrite sum_counts_app, (sum_counts_const st _ _ H1), (sum_counts_const st _ _ H2).
    cbn [List.length]. unfold u32. rewrite N.mod_small; nia. }
  assert (Hl0: (0 < l)%Q). { assert (0 <= Q_of k)%Q by apply Q_of_nonneg. assert (0 <= Q_of (N.of_nat (List.length es) * k + 1))%Q by apply Q_of_nonneg. apply Qnot_le_lt. intros Hn. assert (l * Q_of (N.of_nat (List.length es) * k + 1) <= 0)%Q by nra. lra. }
  set (T := wrr_total (exact pow) loads st) in *. assert (HTl: (Q_of (N.of_nat (List.length es) * k + 1) <= Q_of T)%Q). { rewrite HT. unfold Q_of. rewrite <- Zle_Qle. lia. }
  assert (Hb: In b es) by (rewrite He; apply in_or_app; right; now left). destruct (has_load b Hb) as [lb Elb]. pose proof (Hload b lb Elb) as Elbl.
  assert (Hbb: below loads st T b lb). { split; [assumption|]. unfold qcount. rewrite H2 by now left. rewrite Elbl. eapply Qlt_le_trans; [exact Hshare|]. rewrite (Qmult_comm l), (Qmult_comm l). apply Qmult_le_compat_r; [assumption|lra]. }
  destruct (wrr_next (exact pow) es loads st) as [[a|] st'] eqn:En.
  2: { exfalso. eapply (wrr_next_none _ _ _ _ _ En b lb Hb). exact Hbb. }
  destruct (wrr_next_some _ _ _ _ _ _ En) as [-> (la & p & q & Hpq & Ha & Hp & Hq)]. fold T in Ha, Hp, Hq. cut (a = b); [now intros ->|].
  assert (Hela: (la == l)%Q) by (apply (Hload a); apply Ha). assert (HTp: (0 < l * Q_of T)%Q). { assert (0 <= qcount st b)%Q by apply Q_of_nonneg. destruct Hbb as [_ Hlt]. rewrite Elbl in Hlt. lra. }
  assert (Hin: In a (es1 ++ b :: es2)) by (rewrite <- He, Hpq; apply in_or_app; right; now left).
  destruct (string_dec a b) as [|Hab]; [assumption|exfalso]. apply in_app_or in Hin. destruct Hin as [Hin|[Hin|Hin]]; [|congruence|].
  - assert (Hrel: (relq st T b lb < relq st T a la)%Q). { unfold relq, qcount. rewrite (H1 a Hin), (H2 b) by now left. rewrite Hela, Elbl. unfold Qdiv. apply Qmult_lt_compat_r; [now apply Qinv_lt_0_compat|]. apply Q_of_lt. lia. }
    assert (Hbpq: In b (p ++ a :: q)) by (now rewrite <- Hpq). apply in_app_or in Hbpq. destruct Hbpq as [Hi|[Hi|Hi]]; [destruct (Hp b lb Hi Hbb); lra|congruence|destruct (Hq b lb Hi Hbb); lra].
  - assert (Hi: In b p) by (eapply before; [rewrite <- He; exact Hnd|rewrite <- He; exact Hpq|exact Hin]).
    assert (Hrel: (relq st T b lb == relq st T a la)%Q). { unfold relq, qcount. rewrite (H2 a) by now right. rewrite (H2 b) by now left. rewrite Hela, Elbl. reflexivity. }
    destruct (Hp b lb Hi Hbb); lra.
Qed.
Lemma round_run : forall es2 es1 st, es = (es1 ++ es2)%list ->
  (forall a, In a es -> mget a st <> None) -> (forall a, In a es1 -> rr_count st a = (k + 1)%N) -> (forall a, In a es2 -> rr_count st a = k) ->
  exists st', wrr_run (exact pow) es loads (List.length es2) st = (map Some es2, st') /\ (forall a, In a es -> mget a st' <> None /\ rr_count st' a = (k + 1)%N).
Proof.
  induction es2 as [|b es2 IH]; intros es1 st He Hent H1 H2; cbn [wrr_run List.length map].
  - exists st. split; [reflexivity|]. intros a Ha. split; [now apply Hent|]. apply H1. rewrite He, app_nil_r in Ha. exact Ha.
  - rewrite (round_step es1 b es2 st He Hent H1 H2). destruct (IH (es1 ++ [b])%list (inc_rr st b)) as (st' & -> & Hst).
    + rewrite <- app_assoc. exact He.
    + intros a Ha. rewrite entry_inc. now apply Hent.
    + intros a Ha. rewrite rr_count_inc. destruct (String.eqb a b) eqn:E.
      * apply String.eqb_eq in E. subst a. assert (Hk: rr_count st b = k) by (apply H2; now left). unfold rr_count in Hk. assert (Hn: mget b st <> None) by (apply Hent; rewrite He; apply in_or_app; right; now left).
        destruct (mget b st) as [x|]; [|congruence]. rewrite Hk. unfold u32. rewrite N.mod_small; [reflexivity|]. assert (1 <= List.length es) by (rewrite He, app_length; cbn; lia). nia.
      * apply in_app_or in Ha. destruct Ha as [Ha|[<-|[]]]; [now apply H1|]. now rewrite String.eqb_refl in E.
    + intros a Ha. rewrite rr_count_inc. destruct (String.eqb a b) eqn:E; [|apply H2; now right]. apply String.eqb_eq in E. subst a. exfalso. rewrite He in Hnd. apply NoDup_remove_2 in Hnd. apply Hnd, in_or_app. now right.
    + exists st'. auto.
Qed.
End RR.
(* Exact arithmetic: n endpoints of equal load l, each picked k times so far.  As long as k < l * (n*k + 1), the next n
   picks are the n endpoints, each once, in list order, and every count is k+1 afterwards. *)
Theorem C28_rational_each_once : forall pow es loads l k st, NoDup es -> Permutation (map fst loads) es ->
  (forall a la, mget a loads = Some la -> (la == l)%Q) ->
  (forall a, In a es -> mget a st <> None /\ rr_count st a = k) ->
  (N.of_nat (List.length es) * (k + 1) < 4294967296)%N ->
  (Q_of k < l * Q_of (N.of_nat (List.length es) * k + 1))%Q ->
  exists st', wrr_run (exact pow) es loads (List.length es) st = (map Some es, st') /\
    forall a, In a es -> mget a st' <> None /\ rr_count st' a = (k + 1)%N.
Proof.
  intros pow es loads l k st Hnd Hk Hl Hc Hf Hs. apply (round_run pow es loads l k Hnd Hk Hl Hs Hf es [] st); [reflexivity| | |].
  - intros a Ha. now apply Hc.
  - intros a [].
  - intros a Ha. now apply Hc.
Qed.
Print Assumptions C28_rational_each_once.
Lemma Q_of_mult : forall n m, (Q_of (n * m) == Q_of n * Q_of m)%Q.
Proof. intros. unfold Q_of. rewrite N2Z.inj_mul, inject_Z_mult. reflexivity. Qed.
Lemma wrr_run_app : forall A es loads n m st, wrr_run A es loads (n + m) st =
  let (p, st1) := wrr_run A es loads n st in let (q, st2) := wrr_run A es loads m st1 in ((p ++ q)%list, st2).
Proof.
  intros A es loads n m. induction n as [|n IH]; intros st; cbn [wrr_run Nat.add]; [now destruct (wrr_run A es loads m st)|].
  destruct (wrr_next A es loads st) as [p st1]. rewrite IH. destruct (wrr_run A es loads n st1) as [ps st2]. destruct (wrr_run A es loads m st2). reflexivity.
Qed.
(* Loads of exactly 1/n: the picks cycle through the endpoints for as long as the 32 bit counters last. *)
Theorem C28_rational_cycles : forall pow es loads st rounds, NoDup es -> Permutation (map fst loads) es ->
  (forall a la, mget a loads = Some la -> (la * Q_of (N.of_nat (List.length es)) == 1)%Q) ->
  (forall a, In a es -> mget a st <> None /\ rr_count st a = 0%N) ->
  (N.of_nat (List.length es) * (N.of_nat rounds + 1) < 4294967296)%N ->
  fst (wrr_run (exact pow) es loads (rounds * List.length es) st) = List.concat (repeat (map Some es) rounds).
Proof.
  intros pow es loads st rounds Hnd Hk Hl Hc Hf.
  assert (Hn: es = [] \/ (0 < Q_of (N.of_nat (List.length es)))%Q). { destruct es; [now left|right]. apply (Q_of_lt 0). cbn. lia. }
  destruct Hn as [->|Hn]. { rewrite Nat.mul_0_r. cbn. clear. induction rounds; cbn; auto. }
  assert (G: forall r k st0, (forall a, In a es -> mget a st0 <> None /\ rr_count st0 a = k) -> (N.of_nat (List.length es) * (k + N.of_nat r + 1) < 4294967296)%N ->
    fst (wrr_run (exact pow) es loads (r * List.length es) st0) = List.concat (repeat (map Some es) r)).
  2: { apply (G rounds 0%N st Hc). lia. }
  clear Hf Hc st. induction r as [|r IH]; intros k st0 Hc Hf; [reflexivity|]. cbn [Nat.mul repeat List.concat]. rewrite wrr_run_app.
  assert (Hz: ~ (Q_of (N.of_nat (List.length es)) == 0)%Q) by (intros Hz; rewrite Hz in Hn; lra).
  destruct (C28_rational_each_once pow es loads (1 / Q_of (N.of_nat (List.length es))) k st0 Hnd Hk) as (st1 & -> & H1).
  - intros a la Ha. specialize (Hl a la Ha). rewrite <- Hl. field. exact Hz.
  - exact Hc.
  - nia.
  - rewrite Q_of_plus, Q_of_mult.
    apply Qlt_le_trans with (Q_of k + 1 / Q_of (N.of_nat (List.length es)))%Q.
    + assert (0 < 1 / Q_of (N.of_nat (List.length es)))%Q by (apply Qlt_shift_div_l; lra). lra.
    + apply Qle_lteq. right. change (Q_of 1) with 1%Q. field. exact Hz.
  - specialize (IH (k + 1)%N st1 H1). destruct (wrr_run (exact pow) es loads (r * List.length es) st1) as [q st2]. cbn [fst] in *. rewrite IH; [reflexivity|]. lia.
Qed.
Print Assumptions C28_rational_cycles.
Example C28_rational_cycles_ex : forall pow, fst (wrr_run (exact pow) ["b"; "a"] [("a", 1 # 2); ("b", 2 # 4)]%Q 5 [("a", mkstats 0 0); ("b", mkstats 0 0)]) = [Some "b"; Some "a"; Some "b"; Some "a"; Some "b"].
Proof. intros. vm_compute. reflexivity. Qed.

(* --- loads that sum to 1 or more always leave a pick, loads that sum to less do not --- *)
Definition load_sum (loads : gmap Q) : Q := fold_right (fun e s => snd e + s)%Q 0%Q loads.
Lemma nodup_pairs : forall (loads : gmap Q) a l, NoDup (map fst loads) -> In (a, l) loads -> mget a loads = Some l.
Proof. intros. now apply in_mget. Qed.
Theorem C28_rational_total : forall pow es loads st, Permutation (map fst loads) es -> NoDup es -> (1 <= load_sum loads)%Q ->
  (sum_counts st es + 1 < 4294967296)%N -> exists a st', wrr_next (exact pow) es loads st = (Some a, st') /\ In a es.
Proof.
  intros pow es loads st Hk Hnd Hs Hf. destruct (wrr_next (exact pow) es loads st) as [[a|] st'] eqn:E.
  - exists a, st'. split; [reflexivity|]. eapply C28_round_robin_member. exact E.
  - exfalso. pose proof (wrr_next_none pow es loads st st' E) as Hno. assert (HT: wrr_total (exact pow) loads st = (sum_counts st es + 1)%N).
    { rewrite wrr_total_spec. change (F (exact pow)) with Q. rewrite (sum_counts_perm st _ _ Hk). unfold u32. now rewrite N.mod_small. }
    assert (Hndk: NoDup (map fst loads)) by (eapply Permutation_NoDup; [symmetry; exact Hk|exact Hnd]).
    assert (G: forall ls, incl ls loads -> (load_sum ls * Q_of (wrr_total (exact pow) loads st) <= Q_of (sum_counts st (map fst ls)))%Q).
    { induction ls as [|[a l] ls IH]; intros Hi; [apply Qle_bool_iff; reflexivity|]. unfold load_sum, sum_counts in *. cbn [fold_right map fst snd] in *. rewrite Q_of_plus, Qmult_plus_distr_l.
      assert (Hil: In (a, l) loads) by (apply Hi; now left). assert (Hae: In a es) by (eapply Permutation_in; [exact Hk|]; apply (in_map fst) in Hil; exact Hil).
      apply Qplus_le_compat; [|apply IH; intros x Hx; apply Hi; now right]. apply Qnot_lt_le. intros Hlt. apply (Hno a l Hae). split; [now apply nodup_pairs|exact Hlt]. }
    specialize (G loads (incl_refl _)). rewrite HT, (sum_counts_perm st _ _ Hk), Q_of_plus in G. change (Q_of 1) with 1%Q in G. assert (0 <= Q_of (sum_counts st es))%Q by apply Q_of_nonneg. nra.
Qed.
Print Assumptions C28_rational_total.
Lemma sum_counts_notin : forall st a ks, ~ In a ks -> sum_counts (inc_rr st a) ks = sum_counts st ks.
Proof.
  intros st a ks H. unfold sum_counts. induction ks as [|b ks IH]; cbn [fold_right]; [reflexivity|]. rewrite rr_count_inc. destruct (String.eqb b a) eqn:E; [apply String.eqb_eq in E; subst; exfalso; apply H; now left|].
  rewrite IH; [reflexivity|]. intros Hi. apply H. now right.
Qed.
Lemma sum_counts_inc : forall st a ks, NoDup ks -> In a ks -> mget a st <> None -> (rr_count st a + 1 < 4294967296)%N -> sum_counts (inc_rr st a) ks = (sum_counts st ks + 1)%N.
Proof.
  intros st a ks Hnd Hi He Hf. induction ks as [|b ks IH]; [destruct Hi|]. apply NoDup_cons_iff in Hnd. destruct Hnd as [Hn Hnd]. unfold sum_counts in *. cbn [fold_right]. rewrite rr_count_inc. destruct (String.eqb b a) eqn:E.
  - apply String.eqb_eq in E. subst b. pose proof (sum_counts_notin st a ks Hn) as Hs. unfold sum_counts in Hs. rewrite Hs. unfold rr_count in *. destruct (mget a st) as [x|]; [|congruence]. unfold u32. rewrite N.mod_small; lia.
  - destruct Hi as [->|Hi]; [now rewrite String.eqb_refl in E|]. rewrite (IH Hnd Hi). lia.
Qed.
Lemma sum_counts_ge : forall st a ks, In a ks -> (rr_count st a <= sum_counts st ks)%N.
Proof. intros st a ks H. unfold sum_counts. induction ks as [|b ks IH]; [destruct H|]. cbn [fold_right]. destruct H as [->|H]; [lia|]. specialize (IH H). lia. Qed.
Theorem C28_rational_dries_up : forall pow es loads st n ps st', Permutation (map fst loads) es -> NoDup es -> (forall a l, mget a loads = Some l -> (0 <= l)%Q) ->
  (forall a, In a es -> mget a st <> None /\ rr_count st a = 0%N) -> (N.of_nat n < 4294967296)%N ->
  wrr_run (exact pow) es loads n st = (ps, st') -> (forall p, In p ps -> p <> None) ->
  (Q_of (N.of_nat n) * (1 - load_sum loads) <= Q_of (N.of_nat (List.length es)))%Q.
Proof.
  intros pow es loads st n ps st' Hk Hnd Hl Hz Hf Hrun Hps. assert (Hndk: NoDup (map fst loads)) by (eapply Permutation_NoDup; [symmetry; exact Hk|exact Hnd]).
  assert (G: forall m st0 t ps0 st1, (forall a, In a es -> mget a st0 <> None) -> sum_counts st0 es = t -> (forall a l, mget a loads = Some l -> (Q_of (rr_count st0 a) <= l * Q_of t + 1)%Q) ->
    (t + N.of_nat m < 4294967296)%N -> wrr_run (exact pow) es loads m st0 = (ps0, st1) -> (forall p, In p ps0 -> p <> None) ->
    sum_counts st1 es = (t + N.of_nat m)%N /\ (forall a l, mget a loads = Some l -> (Q_of (rr_count st1 a) <= l * Q_of (t + N.of_nat m) + 1)%Q)).
  { induction m as [|m IH]; intros st0 t ps0 st1 He Ht Hc Hfit Hr Hp; cbn [wrr_run] in Hr.
    - injection Hr as <- <-. rewrite N.add_0_r. auto.
    - destruct (wrr_next (exact pow) es loads st0) as [p st2] eqn:En. destruct (wrr_run (exact pow) es loads m st2) as [ps2 st3] eqn:Er. injection Hr as <- <-.
      destruct p as [a|]; [|exfalso; apply (Hp None); [now left|reflexivity]]. destruct (wrr_next_some _ _ _ _ _ _ En) as [-> (la & q1 & q2 & Hq & [Hga Hlt] & _)].
      assert (Hae: In a es) by (rewrite Hq; apply in_or_app; right; now left).
      assert (HT: wrr_total (exact pow) loads st0 = (t + 1)%N). { rewrite wrr_total_spec. change (F (exact pow)) with Q. rewrite (sum_counts_perm st0 _ _ Hk), Ht. unfold u32. rewrite N.mod_small; lia. }
      rewrite HT in Hlt. pose proof (sum_counts_ge st0 a es Hae) as Hge. assert (Hcf: (rr_count st0 a + 1 < 4294967296)%N) by lia.
      replace (t + N.of_nat (S m))%N with ((t + 1) + N.of_nat m)%N by lia. apply (IH (inc_rr st0 a) (t + 1)%N ps2 st3); try assumption.
      + intros b Hb. rewrite entry_inc. now apply He.
      + rewrite sum_counts_inc; auto. lia.
      + intros b lb Hb. rewrite rr_count_inc. destruct (String.eqb b a) eqn:E.
        * apply String.eqb_eq in E. subst b. unfold qcount, rr_count in *. assert (Hne: mget a st0 <> None) by (now apply He). destruct (mget a st0) as [x|]; [|congruence]. unfold u32. rewrite N.mod_small by lia. rewrite Q_of_plus. change (Q_of 1) with 1%Q. change (F (exact pow)) with Q in *. rewrite Hga in Hb. injection Hb as <-. lra.
        * specialize (Hc b lb Hb). specialize (Hl b lb Hb). rewrite Q_of_plus. change (Q_of 1) with 1%Q. nra.
      + lia.
      + intros p Hi. apply Hp. now right. }
  destruct (G n st 0%N ps st') as [Hsum Hc]; auto.
  - intros a Ha. now apply Hz.
  - rewrite (sum_counts_const st 0%N); [lia|]. intros a Ha. now apply Hz.
  - intros a l Ha. destruct (Hz a) as [_ ->]. { eapply Permutation_in; [exact Hk|]. apply mget_in in Ha. apply (in_map fst) in Ha. exact Ha. } change (Q_of 0) with 0%Q. specialize (Hl a l Ha). lra.
  - cbn [N.add] in *.
    assert (B: forall ls, incl ls loads -> (Q_of (sum_counts st' (map fst ls)) <= load_sum ls * Q_of (N.of_nat n) + Q_of (N.of_nat (List.length ls)))%Q).
    { induction ls as [|[a l] ls IH]; intros Hi; [apply Qle_bool_iff; reflexivity|]. unfold load_sum, sum_counts in *. cbn [fold_right map fst snd List.length] in *. rewrite Q_of_plus, Nat2N.inj_succ, <- N.add_1_r, Q_of_plus. change (Q_of 1) with 1%Q.
      assert (Hil: In (a, l) loads) by (apply Hi; now left). specialize (Hc a l (nodup_pairs _ _ _ Hndk Hil)). specialize (IH (fun x Hx => Hi x (or_intror Hx))). lra. }
    specialize (B loads (incl_refl _)). rewrite (sum_counts_perm st' _ _ Hk), Hsum in B. rewrite <- (Permutation_length Hk), map_length. lra.
Qed.
Print Assumptions C28_rational_dries_up.
Example C28_rational_dries_up_ex : forall pow, let es := ["a"; "b"; "c"] in let loads := [("a", 33 # 100); ("b", 33 # 100); ("c", 33 # 100)]%Q in
  (load_sum loads == 99 # 100)%Q /\ fst (wrr_run (exact pow) es loads 2 [("a", mkstats 33 0); ("b", mkstats 33 0); ("c", mkstats 32 0)]) = [Some "c"; None].
Proof. intros. vm_compute. auto. Qed.
(* In the program itself (IEEE-754 binary64): three healthy endpoints with equal weights in one locality.  The loads are
   rounded to two decimals, 0.33 each; the first 99 connections get an address, the hundredth panics (the address is nil),
   and so does every later one, as nothing changes. *)
Definition three : list locality := [mklocality "l" 0 None [mklbep (Some "a") 1 None; mklbep (Some "b") 1 None; mklbep (Some "c") 1 None]].
Definition over140 (pow : f64 -> f64 -> f64) : F (go_float pow) := fdiv (go_float pow) (f64_of_Z 140) (f64_of_Z 100).
Fixpoint clients (pow : f64 -> f64 -> f64) (n : nat) (st : estats) : list outcome * estats :=
  match n with
  | O => ([], st)
  | S n' => let (o, st1) := client_address (go_float pow) (over140 pow) (f64_of_Z 1) (fun _ => 0) PRoundRobin three st in
            let (os, st2) := clients pow n' st1 in (o :: os, st2)
  end.
Definition fresh_stats : estats := endpoints_updated ["a"; "b"; "c"] [].
Theorem C28_round_robin_none_refuted : forall pow,
  (forall o, In o (fst (clients pow 99 fresh_stats)) -> exists a, o = Picked (Some a)) /\
  forall n o, In o (fst (clients pow n (snd (clients pow 99 fresh_stats)))) -> o = Panics.
Proof.
  intros pow. destruct (clients pow 99 fresh_stats) as [os st] eqn:E. vm_compute in E. injection E as <- <-. split.
  - intros o Ho. cbn [fst] in Ho. repeat (destruct Ho as [<-|Ho]; [eexists; reflexivity|]). destruct Ho.
  - cbn [snd]. assert (Hs: client_address (go_float pow) (over140 pow) (f64_of_Z 1) (fun _ => 0) PRoundRobin three [("c", mkstats 33 0); ("b", mkstats 33 0); ("a", mkstats 33 0)] = (Panics, [("c", mkstats 33 0); ("b", mkstats 33 0); ("a", mkstats 33 0)])) by (vm_compute; reflexivity).
    induction n as [|n IH]; intros o Ho; [destruct Ho|]. cbn [clients] in Ho. rewrite Hs in Ho. destruct (clients pow n _) as [os2 st2]. destruct Ho as [<-|Ho]; [reflexivity|]. now apply IH.
Qed.
Print Assumptions C28_round_robin_none_refuted.

(* --- the address of a new client --- *)
Lemma in_eligible : forall ls a, In a (eligible_addrs ls) <-> exists l e, In l ls /\ In e (lo_eps l) /\ e_addr e = Some a /\ is_healthy e = true.
Proof.
  intros ls a. unfold eligible_addrs. rewrite in_flat_map. split.
  - intros (l & Hl & H). rewrite in_flat_map in H. destruct H as (e & He & H). exists l, e. destruct (e_addr e) as [b|]; [|destruct H]. destruct (is_healthy e); [|destruct H]. destruct H as [->|[]]. auto.
  - intros (l & e & Hl & He & Ha & Hh). exists l. split; [assumption|]. apply in_flat_map. exists e. split; [assumption|]. rewrite Ha, Hh. now left.
Qed.
Lemma p2c_next_in : forall draw choice es st a, p2c_next draw choice es st = Picked (Some a) -> In a es.
Proof.
  intros draw choice es st a H. unfold p2c_next in H. destruct es as [|x [|y es]]; [discriminate|injection H as <-; now left|]. set (l := x :: y :: es) in *.
  destruct (Nat.le_gt_cases choice (List.length (sort_addrs l))) as [Hle|Hgt].
  - destruct (p2c_pick_spec draw choice (sort_addrs l) 0 Hle) as (l' & Hp & Hpl). rewrite Hp in H. injection H as H. pose proof (p2c_best_spec st (skipn (List.length l' - choice) l')) as Hb. rewrite H in Hb. destruct Hb as [Hi _].
    eapply Permutation_in; [apply sort_addrs_perm|]. eapply Permutation_in; [exact Hpl|]. rewrite <- (firstn_skipn (List.length l' - choice) l'). apply in_or_app. now right.
  - rewrite p2c_pick_none in H by (lia || (unfold l; lia)). discriminate.
Qed.
(* Whatever the policy, the weights, the statistics, the draws and the rounding: an address handed to a client is the
   address of a healthy endpoint of the cluster. *)
Theorem C28_client_eligible : forall A over bias draw p ls st a st', client_address A over bias draw p ls st = (Picked (Some a), st') ->
  exists l e, In l ls /\ In e (lo_eps l) /\ e_addr e = Some a /\ (e_health e = 0 \/ e_health e = 1 \/ e_health e = 5)%N.
Proof.
  intros A over bias draw p ls st a st' H. assert (Hc: choose_address A over bias draw p ls st = (Picked (Some a), st')).
  { unfold client_address in H. destruct (choose_address A over bias draw p ls st) as [[[b|]|] st1]; [exact H| |discriminate]. destruct (existsb _ ls); discriminate. }
  assert (Hi: In a (eligible_addrs ls)).
  { unfold choose_address in Hc. cbv zeta in Hc. destruct p as [| |choice|].
    - injection Hc as Hc _. pose proof (C28_random_member (draw 0) (eligible_addrs ls)) as Hr. now rewrite Hc in Hr.
    - destruct (wrr_next A _ _ st) as [b st2] eqn:E. injection Hc as -> ->. apply C28_round_robin_member in E. apply E.
    - destruct (weights_equal ls); [injection Hc as Hc _; eapply p2c_next_in; exact Hc|]. destruct (wrr_next A _ _ st) as [b st2] eqn:E. injection Hc as -> ->. apply C28_round_robin_member in E. apply E.
    - injection Hc as Hc _. destruct (eligible_addrs ls); [discriminate|]. injection Hc as ->. now left. }
  apply in_eligible in Hi. destruct Hi as (l & e & Hl & He & Ha & Hh). exists l, e. repeat split; try assumption. unfold is_healthy in Hh. rewrite !orb_true_iff, !N.eqb_eq in Hh. tauto.
Qed.
Print Assumptions C28_client_eligible.
Example C28_client_eligible_ex : forall pow draw, fst (client_address (go_float pow) (over140 pow) (f64_of_Z 1) draw (PLeast 2)
  [mklocality "l" 0 None [mklbep (Some "a") 2 None; mklbep (Some "b") 5 None]] fresh_stats) = Picked (Some "b").
Proof. intros. vm_compute. reflexivity. Qed.
(* Random and the default policy fail only without eligible endpoint, but then the program does not report an error, it
   panics if an (unhealthy) endpoint has a socket address. *)
Theorem C28_client_always : forall A over bias draw p ls st, p = PRandom \/ p = POther -> eligible_addrs ls <> [] ->
  exists a st', client_address A over bias draw p ls st = (Picked (Some a), st').
Proof.
  intros A over bias draw p ls st Hp Hne. unfold client_address, choose_address. cbv zeta. destruct Hp as [-> | ->].
  - pose proof (C28_random_member (draw 0) (eligible_addrs ls)) as Hr. destruct (random_next (draw 0) (eligible_addrs ls)) as [a|]; [eauto|congruence].
  - destruct (eligible_addrs ls) as [|a r]; [congruence|]. cbn. eauto.
Qed.
Print Assumptions C28_client_always.
Theorem C28_no_healthy_refuted : forall A over bias draw p ls st, (forall l e, In l ls -> In e (lo_eps l) -> is_healthy e = false) ->
  (exists l e a, In l ls /\ In e (lo_eps l) /\ e_addr e = Some a) -> fst (client_address A over bias draw p ls st) = Panics.
Proof.
  intros A over bias draw p ls st Hu (l & e & a & Hl & He & Ha). assert (Hnil: eligible_addrs ls = []).
  { destruct (eligible_addrs ls) as [|b r] eqn:E; [reflexivity|]. assert (Hi: In b (eligible_addrs ls)) by (rewrite E; now left). apply in_eligible in Hi. destruct Hi as (l' & e' & H1 & H2 & _ & H3). rewrite (Hu l' e' H1 H2) in H3. discriminate. }
  assert (Hx: existsb (fun l => existsb (fun e => match e_addr e with Some _ => true | None => false end) (lo_eps l)) ls = true).
  { apply existsb_exists. exists l. split; [assumption|]. apply existsb_exists. exists e. split; [assumption|]. now rewrite Ha. }
  unfold client_address, choose_address. cbv zeta. rewrite Hnil. destruct p as [| |choice|]; cbn [random_next wrr_next fold_left snd p2c_next hd_error].
  - now rewrite Hx.
  - now rewrite Hx.
  - destruct (weights_equal ls); now rewrite Hx.
  - now rewrite Hx.
Qed.
Print Assumptions C28_no_healthy_refuted.

(* --- weighted clusters --- *)
Theorem C28_cluster_member : forall A ws st sel st', select_cluster A ws st = (sel, st') -> sel = "" \/ In sel (map fst ws).
Proof.
  intros A ws st sel st' H. unfold select_cluster in H. destruct ws as [|e0 ws0] eqn:Ews; [injection H as <- _; now left|]. rewrite <- Ews in *. clear Ews. injection H as <- _.
  generalize (fold_left (fun n e => u32 (n + snd e)) ws 0%N) as tw. intros tw. generalize (u32 (fold_left (fun n e => u32 (n + match mget (fst e) st with Some c => c | None => 0 end)) ws 0 + 1)%N) as T. intros T.
  induction ws as [|[n w] ws IH] using rev_ind; [now left|]. rewrite fold_left_app. cbn [fold_left]. destruct (fold_left (sel_visit A tw T st) ws (fmax A, ("", 0%N))) as [m [s sw]]. cbn [fst snd] in IH.
  assert (Hold: s = "" \/ In s (map fst (ws ++ [(n, w)]))) by (destruct IH; [now left|right; rewrite map_app; apply in_or_app; now left]).
  assert (Hn: In n (map fst (ws ++ [(n, w)]))) by (rewrite map_app; apply in_or_app; right; now left).
  unfold sel_visit. cbv zeta. repeat match goal with |- context [if ?c then _ else _] => destruct c end; cbn [fst snd]; auto.
Qed.
Print Assumptions C28_cluster_member.
Definition ccount (st : gmap N) (n : string) : N := match mget n st with Some c => c | None => 0%N end.
Definition cweights (ws : gmap N) : N := fold_right (fun e s => (snd e + s)%N) 0%N ws.
Definition ccounts (ws : gmap N) (st : gmap N) : N := fold_right (fun e s => (ccount st (fst e) + s)%N) 0%N ws.
Definition cbelow (W T : N) (st : gmap N) (e : string * N) : Prop := (Q_of (ccount st (fst e)) < Q_of (snd e) / Q_of W * Q_of T)%Q.
Lemma u32_fold {X} (f : X -> N) : forall l n, u32 (fold_left (fun n e => u32 (n + f e)) l n) = u32 (n + fold_right (fun e s => (f e + s)%N) 0%N l).
Proof.
  induction l as [|e l IH]; intros n; [cbn; now rewrite N.add_0_r|]. cbn [fold_left fold_right]. rewrite IH. unfold u32. rewrite N.add_mod_idemp_l by discriminate. f_equal. lia.
Qed.
Lemma u32_idem_fold {X} (f : X -> N) : forall l, fold_left (fun n e => u32 (n + f e)) l 0%N = u32 (fold_right (fun e s => (f e + s)%N) 0%N l).
Proof.
  intros l. rewrite <- (N.add_0_l (fold_right _ _ _)), <- u32_fold. destruct l as [|x l _] using rev_ind; [reflexivity|]. rewrite fold_left_app. cbn [fold_left]. unfold u32. now rewrite N.mod_mod.
Qed.
(* Exact arithmetic, positive total weight, no counter overflow: a cluster is always selected, it has positive weight and
   has not yet had its share of the connections. *)
Theorem C28_rational_cluster_selected : forall pow ws st, (0 < cweights ws < 4294967296)%N -> (ccounts ws st + 1 < 4294967296)%N ->
  exists w, In (fst (select_cluster (exact pow) ws st), w) ws /\ (0 < w)%N /\
    cbelow (cweights ws) (ccounts ws st + 1) st (fst (select_cluster (exact pow) ws st), w).
Proof.
  intros pow ws st Hw Hc. unfold select_cluster. destruct ws as [|e0 ws0] eqn:Ews; [cbn in Hw; lia|]. rewrite <- Ews in *. clear Ews. cbn [fst].
  assert (HW0: fold_left (fun n e => u32 (n + snd e)) ws 0%N = cweights ws). { rewrite (u32_idem_fold snd). fold (cweights ws). unfold u32. rewrite N.mod_small; [reflexivity|lia]. }
  assert (HT0: u32 (fold_left (fun n e => u32 (n + match mget (fst e) st with Some c => c | None => 0 end)) ws 0 + 1)%N = (ccounts ws st + 1)%N).
  { pose proof (u32_idem_fold (fun e : string * N => ccount st (fst e)) ws) as Hcc. unfold ccount at 1 in Hcc. rewrite Hcc. fold (ccounts ws st). unfold u32. rewrite N.add_mod_idemp_l by discriminate. now rewrite N.mod_small. }
  rewrite HW0, HT0. clear HW0 HT0.
  set (W := cweights ws) in *. set (T := (ccounts ws st + 1)%N) in *.
  assert (G: forall l, match fold_left (sel_visit (exact pow) W T st) l (fmax (exact pow), ("", 0%N)) with
    | (m, (s, sw)) => (m = fmax (exact pow) /\ forall e, In e l -> ~ cbelow W T st e) \/ ((m < 1)%Q /\ In (s, sw) l /\ cbelow W T st (s, sw)) end).
  { induction l as [|[n w] l IH] using rev_ind; [left; split; [reflexivity|intros e []]|]. rewrite fold_left_app. cbn [fold_left]. destruct (fold_left (sel_visit (exact pow) W T st) l (fmax (exact pow), ("", 0%N))) as [m [s sw]].
    unfold sel_visit. fold (ccount st n). cbv zeta. cbn [fleb fltb feqb fmul fdiv f_of exact].
    destruct (Qle_bool (Q_of w / Q_of W * Q_of T) (Q_of (ccount st n))) eqn:E.
    - apply Qle_bool_iff in E. assert (Hno: ~ cbelow W T st (n, w)) by (unfold cbelow; cbn [fst snd]; lra). destruct IH as [[Hm H]|(H1 & H2 & H3)].
      + left. split; [assumption|]. intros e He. apply in_app_or in He. destruct He as [He|[<-|[]]]; [now apply H|exact Hno].
      + right. repeat split; try assumption. apply in_or_app. now left.
    - apply Qleb_false in E. assert (Hyes: cbelow W T st (n, w)) by exact E. set (ml := (Q_of w / Q_of W * Q_of T)%Q) in *. set (c := Q_of (ccount st n)) in *. assert (H0: (0 <= c)%Q) by apply Q_of_nonneg.
      assert (Hrel: (c / ml < 1)%Q) by (apply Qlt_shift_div_r; lra). assert (Hnin: In (n, w) (l ++ [(n, w)])) by (apply in_or_app; right; now left). pose proof (fmax_ge1 pow) as Hmax.
      destruct IH as [[Hm H]|(H1 & H2 & H3)].
      + subst m. destruct (negb (Qle_bool (fmax (exact pow)) (c / ml))) eqn:El; [right; auto|]. exfalso. apply Qltb_false in El. apply (Qlt_irrefl 1). eapply Qle_lt_trans; [exact Hmax|]. eapply Qle_lt_trans; [exact El|exact Hrel].
      + assert (H2': In (s, sw) (l ++ [(n, w)])) by (apply in_or_app; now left). repeat match goal with |- context [if ?c then _ else _] => destruct c end; right; auto. }
  specialize (G ws). destruct (fold_left (sel_visit (exact pow) W T st) ws (fmax (exact pow), ("", 0%N))) as [m [s sw]]. cbn [fst snd]. destruct G as [[_ H]|(_ & Hi & Hb)].
  - exfalso. assert (HW: (0 < Q_of W)%Q) by (apply (Q_of_lt 0); lia).
    assert (B: forall l, incl l ws -> (Q_of (cweights l) / Q_of W * Q_of T <= Q_of (ccounts l st))%Q).
    { induction l as [|e l IH]; intros Hl; [cbn [cweights ccounts fold_right]; change (Q_of 0) with 0%Q; unfold Qdiv; lra|]. unfold cweights, ccounts in *. cbn [fold_right]. rewrite !Q_of_plus. specialize (IH (fun x Hx => Hl x (or_intror Hx))). specialize (H e (Hl e (or_introl eq_refl))). unfold cbelow in H. apply Qnot_lt_le in H. unfold Qdiv in *. rewrite !Qmult_plus_distr_l. lra. }
    specialize (B ws (incl_refl _)). fold W in B. assert (HTT: (Q_of W / Q_of W * Q_of T == Q_of T)%Q) by (field; lra). rewrite HTT in B. unfold T in B. rewrite Q_of_plus in B. change (Q_of 1) with 1%Q in B. lra.
  - exists sw. split; [assumption|]. split; [|exact Hb]. destruct (N.eq_dec sw 0) as [->|]; [|lia]. exfalso. unfold cbelow in Hb. cbn [fst snd] in Hb. change (Q_of 0) with 0%Q in Hb. assert (0 <= Q_of (ccount st s))%Q by apply Q_of_nonneg. unfold Qdiv in Hb. rewrite !Qmult_0_l in Hb. lra.
Qed.
Print Assumptions C28_rational_cluster_selected.
Example C28_cluster_ex : forall pow, fst (select_cluster (exact pow) [("v1", 90); ("v2", 10); ("v3", 0)]%N [("v1", 9); ("v2", 0); ("v3", 0)]%N) = "v2".
Proof. intros. vm_compute. reflexivity. Qed.
