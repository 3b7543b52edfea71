(* C28 in the arithmetic the program runs in: IEEE-754 binary64 and uint32 counters. *)
From Coq Require Import String List Bool NArith ZArith QArith Lia Permutation SpecFloat.
From Verif Require Import M_GoMap L_GoMap M_AdsLb L_AdsLb P_AdsLb.
From Verif Require L_Float2 L_Float3.
Import ListNotations.
Close Scope Q_scope.
Open Scope nat_scope.
Open Scope string_scope.

(* endpoints with their loads in percent; the program keeps a load as the float64 quotient p/100 (endpoint.go:352) *)
Definition percent_loads (pow : f64 -> f64 -> f64) (ws : gmap N) : gmap (F (go_float pow)) :=
  map (fun e => (fst e, fdiv (go_float pow) (f_of (go_float pow) (snd e)) (f_of (go_float pow) 100))) ws.
Definition percent_sum (ws : gmap N) : N := fold_right (fun e s => (snd e + s)%N) 0%N ws.

Lemma mget_percent : forall pow a ws, mget a (percent_loads pow ws) = match mget a ws with Some p => Some (L_Float2.share p 100) | None => None end.
Proof. intros pow a ws. unfold percent_loads. induction ws as [|[b p] ws IH]; [reflexivity|]. cbn [map mget fst snd]. destruct (String.eqb a b); [reflexivity|exact IH]. Qed.
Lemma total_spec : forall pow (ws : gmap N) st, (sum_counts st (map fst ws) + 1 < 4294967296)%N -> wrr_total (go_float pow) (percent_loads pow ws) st = (sum_counts st (map fst ws) + 1)%N.
Proof.
  intros pow ws st H. unfold wrr_total. rewrite (u32_idem_fold (fun e : string * F (go_float pow) => rr_count st (fst e))).
  replace (fold_right (fun e s => (rr_count st (fst e) + s)%N) 0%N (percent_loads pow ws)) with (sum_counts st (map fst ws)).
  - unfold u32. rewrite (N.mod_small (sum_counts st (map fst ws))) by lia. apply N.mod_small. lia.
  - unfold sum_counts, percent_loads. clear H. induction ws as [|e ws IH]; [reflexivity|]. cbn [map fold_right fst]. now rewrite IH.
Qed.
Lemma count_bound : forall (ws : gmap N) st a p, (sum_counts st (map fst ws) + 1 < 4294967296)%N -> mget a ws = Some p -> (rr_count st a < 4294967296)%N.
Proof. intros ws st a p Hs H. assert (Hi: In a (map fst ws)) by (apply mget_in in H; apply (in_map fst) in H; exact H). pose proof (sum_counts_ge st a _ Hi). lia. Qed.

(* One pick, T connections including this one.  An endpoint a picked has had at most its share of the T; no endpoint
   still below its share has a smaller count relative to its percentage; among endpoints of the same percentage and count
   the first in the list is taken.  None is returned only if every endpoint has had its share. *)
Theorem C28_round_robin_least : forall pow es (ws : gmap N) st, (forall a p, mget a ws = Some p -> p <= 65536)%N -> (sum_counts st (map fst ws) + 1 < 4294967296)%N ->
  let T := (sum_counts st (map fst ws) + 1)%N in
  match wrr_next (go_float pow) es (percent_loads pow ws) st with
  | (Some a, st') => st' = inc_rr st a /\ exists p es1 es2, es = (es1 ++ a :: es2)%list /\ mget a ws = Some p /\ (0 < p)%N /\ (100 * rr_count st a <= p * T)%N /\
      (forall b pb, In b es -> mget b ws = Some pb -> (100 * rr_count st b < pb * T)%N -> (rr_count st a * pb <= rr_count st b * p)%N) /\
      (forall b, In b es1 -> mget b ws = Some p -> (100 * rr_count st b < p * T)%N -> (rr_count st a < rr_count st b)%N)
  | (None, _) => forall b pb, In b es -> mget b ws = Some pb -> (pb * T <= 100 * rr_count st b)%N
  end.
Proof.
  intros pow es ws st Hp Hs T. unfold wrr_next. rewrite (total_spec pow ws st Hs). fold T.
  pose proof (L_Float3.pick_spec pow ws (percent_loads pow ws) st T (fun a => mget_percent pow a ws) (fun a p H => conj (Hp a p H) (count_bound ws st a p Hs H)) ltac:(subst T; lia) es) as G.
  destruct (snd _) as [[a l]|]; [split; [reflexivity|exact G]|exact G].
Qed.
Print Assumptions C28_round_robin_least.
Example C28_round_robin_least_ex : forall pow,
  wrr_next (go_float pow) ["a"; "b"; "c"] (percent_loads pow [("a", 29); ("b", 57); ("c", 14)]%N) [("a", mkstats 29 0); ("b", mkstats 56 0); ("c", mkstats 14 0)] =
  (Some "b", [("b", mkstats 57 0); ("a", mkstats 29 0); ("c", mkstats 14 0)]).
Proof. intros. vm_compute. reflexivity. Qed.

(* Percentages that add up to 100 or more: there is always a pick. *)
Theorem C28_round_robin_total : forall pow es (ws : gmap N) st, Permutation (map fst ws) es -> NoDup es -> (forall a p, mget a ws = Some p -> p <= 65536)%N ->
  (100 <= percent_sum ws)%N -> (sum_counts st es + 1 < 4294967296)%N ->
  exists a st', wrr_next (go_float pow) es (percent_loads pow ws) st = (Some a, st') /\ In a es.
Proof.
  intros pow es ws st Hk Hnd Hp Hs Hf. rewrite <- (sum_counts_perm st _ _ Hk) in Hf. pose proof (C28_round_robin_least pow es ws st Hp Hf) as G. cbv zeta in G.
  destruct (wrr_next (go_float pow) es (percent_loads pow ws) st) as [[a|] st'].
  - destruct G as [_ (p & es1 & es2 & -> & _)]. exists a, st'. split; [reflexivity|]. apply in_or_app. right. now left.
  - exfalso. assert (Hndk: NoDup (map fst ws)) by (eapply Permutation_NoDup; [symmetry; exact Hk|exact Hnd]).
    set (T := (sum_counts st (map fst ws) + 1)%N) in *.
    assert (B: forall ls, incl ls ws -> (percent_sum ls * T <= 100 * sum_counts st (map fst ls))%N).
    { induction ls as [|[a p] ls IH]; intros Hi; [cbn; lia|]. unfold percent_sum, sum_counts in *. cbn [fold_right map fst snd] in *. specialize (IH (fun x Hx => Hi x (or_intror Hx))).
      assert (Hil: In (a, p) ws) by (apply Hi; now left). assert (Hae: In a es) by (eapply Permutation_in; [exact Hk|]; apply (in_map fst) in Hil; exact Hil).
      specialize (G a p Hae (in_mget _ _ _ Hndk Hil)). clearbody T. lia. }
    specialize (B ws (incl_refl _)). subst T. nia.
Qed.
Print Assumptions C28_round_robin_total.
Example C28_round_robin_total_ex : percent_sum [("a", 33); ("b", 34); ("c", 33)]%N = 100%N /\ forall pow,
  fst (wrr_next (go_float pow) ["a"; "b"; "c"] (percent_loads pow [("a", 33); ("b", 34); ("c", 33)]%N) [("a", mkstats 66 0); ("b", mkstats 68 0); ("c", mkstats 66 0)]) = Some "b".
Proof. split; [reflexivity|]. intros. vm_compute. reflexivity. Qed.

(* Percentages that add up to s < 100: at most 100*n/(100-s) connections in a row get an endpoint. *)
Theorem C28_round_robin_dries_up_refuted : forall pow es (ws : gmap N) st n ps st', Permutation (map fst ws) es -> NoDup es -> (forall a p, mget a ws = Some p -> p <= 65536)%N ->
  (forall a, In a es -> mget a st <> None /\ rr_count st a = 0%N) -> (N.of_nat n < 4294967296)%N ->
  wrr_run (go_float pow) es (percent_loads pow ws) n st = (ps, st') -> (forall p, In p ps -> p <> None) ->
  (N.of_nat n * (100 - percent_sum ws) <= 100 * N.of_nat (List.length es))%N.
Proof.
  intros pow es ws st n ps st' Hk Hnd Hl Hz Hf Hrun Hps. assert (Hndk: NoDup (map fst ws)) by (eapply Permutation_NoDup; [symmetry; exact Hk|exact Hnd]).
  assert (G: forall m st0 t ps0 st1, (forall a, In a es -> mget a st0 <> None) -> sum_counts st0 es = t -> (forall a p, mget a ws = Some p -> (100 * rr_count st0 a <= p * t + 100)%N) ->
    (t + N.of_nat m < 4294967296)%N -> wrr_run (go_float pow) es (percent_loads pow ws) m st0 = (ps0, st1) -> (forall p, In p ps0 -> p <> None) ->
    sum_counts st1 es = (t + N.of_nat m)%N /\ (forall a p, mget a ws = Some p -> (100 * rr_count st1 a <= p * (t + N.of_nat m) + 100)%N)).
  { clear Hf Hrun Hps Hz n ps st' st. induction m as [|m IH]; intros st0 t ps0 st1 He Ht Hc Hfit Hr Hp; cbn [wrr_run] in Hr.
    - injection Hr as <- <-. rewrite N.add_0_r. auto.
    - assert (Hsm: (sum_counts st0 (map fst ws) + 1 < 4294967296)%N) by (rewrite (sum_counts_perm st0 _ _ Hk), Ht; lia).
      pose proof (C28_round_robin_least pow es ws st0 Hl Hsm) as GG. cbv zeta in GG. rewrite (sum_counts_perm st0 _ _ Hk), Ht in GG.
      destruct (wrr_next (go_float pow) es (percent_loads pow ws) st0) as [p st2] eqn:En. destruct (wrr_run (go_float pow) es (percent_loads pow ws) m st2) as [ps2 st3] eqn:Er. injection Hr as <- <-.
      destruct p as [a|]; [|exfalso; apply (Hp None); [now left|reflexivity]]. destruct GG as [-> (la & q1 & q2 & Hq & Hga & _ & Hlt & _)].
      assert (Hae: In a es) by (rewrite Hq; apply in_or_app; right; now left).
      pose proof (sum_counts_ge st0 a es Hae) as Hge. assert (Hcf: (rr_count st0 a + 1 < 4294967296)%N) by lia.
      replace (t + N.of_nat (S m))%N with ((t + 1) + N.of_nat m)%N by lia. apply (IH (inc_rr st0 a) (t + 1)%N ps2 st3); try assumption.
      + intros b Hb. rewrite entry_inc. now apply He.
      + rewrite sum_counts_inc; auto. lia.
      + intros b lb Hb. rewrite rr_count_inc. destruct (String.eqb b a) eqn:E.
        * apply String.eqb_eq in E. subst b. unfold rr_count in *. assert (Hne: mget a st0 <> None) by (now apply He). destruct (mget a st0) as [x|]; [|congruence]. unfold u32. rewrite N.mod_small by lia. rewrite Hga in Hb. injection Hb as <-. lia.
        * specialize (Hc b lb Hb). nia.
      + lia.
      + intros p Hi. apply Hp. now right. }
  destruct (G n st 0%N ps st') as [Hsum Hc]; auto.
  - intros a Ha. now apply Hz.
  - rewrite (sum_counts_const st 0%N); [lia|]. intros a Ha. now apply Hz.
  - intros a l Ha. destruct (Hz a) as [_ ->]; [|lia]. eapply Permutation_in; [exact Hk|]. apply mget_in in Ha. apply (in_map fst) in Ha. exact Ha.
  - cbn [N.add] in *.
    assert (B: forall ls, incl ls ws -> (100 * sum_counts st' (map fst ls) <= percent_sum ls * N.of_nat n + 100 * N.of_nat (List.length ls))%N).
    { induction ls as [|[a l] ls IH]; intros Hi; [cbn; lia|]. unfold percent_sum, sum_counts in *. cbn [fold_right map fst snd List.length] in *.
      assert (Hil: In (a, l) ws) by (apply Hi; now left). specialize (Hc a l (in_mget _ _ _ Hndk Hil)). specialize (IH (fun x Hx => Hi x (or_intror Hx))). lia. }
    specialize (B ws (incl_refl _)). rewrite (sum_counts_perm st' _ _ Hk), Hsum in B. rewrite <- (Permutation_length Hk), map_length. nia.
Qed.
Print Assumptions C28_round_robin_dries_up_refuted.

(* n endpoints of the same percentage p: the picks go through the list, again and again, as long as the shares and the
   counters last. *)
Section RR.
Variable pow : f64 -> f64 -> f64.
Variables (es : list string) (ws : gmap N) (p k : N).
Hypothesis Hnd : NoDup es.
Hypothesis Hkeys : Permutation (map fst ws) es.
Hypothesis Hp : (p <= 65536)%N.
Hypothesis Hload : forall a pa, mget a ws = Some pa -> pa = p.
Hypothesis Hshare : (100 * k < p * (N.of_nat (List.length es) * k + 1))%N.
Hypothesis Hfit : (N.of_nat (List.length es) * (k + 1) < 4294967296)%N.
Lemma has_load_f : forall a, In a es -> mget a ws = Some p.
Proof. intros a H. assert (Hi: In a (map fst ws)) by (eapply Permutation_in; [symmetry; exact Hkeys|exact H]). destruct (mget a ws) as [pa|] eqn:E; [now rewrite (Hload a pa E)|]. exfalso. apply mget_none in E. now apply E. Qed.
Lemma round_step_f : forall es1 b es2 st, es = (es1 ++ b :: es2)%list ->
  (forall a, In a es1 -> rr_count st a = (k + 1)%N) -> (forall a, In a (b :: es2) -> rr_count st a = k) ->
  wrr_next (go_float pow) es (percent_loads pow ws) st = (Some b, inc_rr st b).
Proof.
  intros es1 b es2 st He H1 H2.
  assert (Hlen: N.of_nat (List.length es) = (N.of_nat (List.length es1) + 1 + N.of_nat (List.length es2))%N) by (rewrite He, app_length; cbn; lia).
  assert (HT: sum_counts st (map fst ws) = (N.of_nat (List.length es) * k + N.of_nat (List.length es1))%N).
  { rewrite (sum_counts_perm st _ _ Hkeys). replace (sum_counts st es) with (sum_counts st (es1 ++ b :: es2)) by (now rewrite <- He). rewrite sum_counts_app, (sum_counts_const st _ _ H1), (sum_counts_const st _ _ H2). cbn [List.length]. lia. }
  assert (Hsm: (sum_counts st (map fst ws) + 1 < 4294967296)%N) by (rewrite HT; nia).
  pose proof (C28_round_robin_least pow es ws st (fun a pa H => eq_ind_r (fun x => (x <= 65536)%N) Hp (Hload a pa H)) Hsm) as G. cbv zeta in G. rewrite HT in G.
  set (T := (N.of_nat (List.length es) * k + N.of_nat (List.length es1) + 1)%N) in *.
  assert (Hb: In b es) by (rewrite He; apply in_or_app; right; now left).
  assert (Hopen: forall c, rr_count st c = k -> (100 * rr_count st c < p * T)%N) by (intros c ->; subst T; nia).
  destruct (wrr_next (go_float pow) es (percent_loads pow ws) st) as [[a|] st'].
  2: { exfalso. specialize (G b p Hb (has_load_f b Hb)). specialize (Hopen b (H2 b (or_introl eq_refl))). clearbody T. lia. }
  destruct G as [-> (pa & q1 & q2 & Hq & Hga & Hp0 & _ & Hmin & Htie)]. cut (a = b); [now intros ->|]. pose proof (Hload a pa Hga) as ->.
  assert (Hin: In a (es1 ++ b :: es2)) by (rewrite <- He, Hq; apply in_or_app; right; now left).
  destruct (string_dec a b) as [|Hab]; [assumption|exfalso]. apply in_app_or in Hin. destruct Hin as [Hin|[Hin|Hin]]; [|congruence|].
  - specialize (Hmin b p Hb (has_load_f b Hb) (Hopen b (H2 b (or_introl eq_refl)))). rewrite (H1 a Hin), (H2 b (or_introl eq_refl)) in Hmin. nia.
  - assert (Hi: In b q1) by (eapply before; [rewrite <- He; exact Hnd|rewrite <- He; exact Hq|exact Hin]).
    specialize (Htie b Hi (has_load_f b Hb) (Hopen b (H2 b (or_introl eq_refl)))). rewrite (H2 a (or_intror Hin)), (H2 b (or_introl eq_refl)) in Htie. lia.
Qed.
Lemma round_run_f : forall es2 es1 st, es = (es1 ++ es2)%list ->
  (forall a, In a es -> mget a st <> None) -> (forall a, In a es1 -> rr_count st a = (k + 1)%N) -> (forall a, In a es2 -> rr_count st a = k) ->
  exists st', wrr_run (go_float pow) es (percent_loads pow ws) (List.length es2) st = (map Some es2, st') /\ (forall a, In a es -> mget a st' <> None /\ rr_count st' a = (k + 1)%N).
Proof.
  induction es2 as [|b es2 IH]; intros es1 st He Hent H1 H2; cbn [wrr_run List.length map].
  - exists st. split; [reflexivity|]. intros a Ha. split; [now apply Hent|]. apply H1. rewrite He, app_nil_r in Ha. exact Ha.
  - rewrite (round_step_f es1 b es2 st He H1 H2). destruct (IH (es1 ++ [b])%list (inc_rr st b)) as (st' & -> & Hst).
    + rewrite <- app_assoc. exact He.
    + intros a Ha. rewrite entry_inc. now apply Hent.
    + intros a Ha. rewrite rr_count_inc. destruct (String.eqb a b) eqn:E.
      * apply String.eqb_eq in E. subst a. assert (Hk: rr_count st b = k) by (apply H2; now left). unfold rr_count in Hk. assert (Hn: mget b st <> None) by (apply Hent; rewrite He; apply in_or_app; right; now left).
        destruct (mget b st) as [x|]; [|congruence]. rewrite Hk. unfold u32. rewrite N.mod_small; [reflexivity|]. assert (1 <= List.length es) by (rewrite He, app_length; cbn; lia). nia.
      * apply in_app_or in Ha. destruct Ha as [Ha|[<-|[]]]; [now apply H1|]. now rewrite String.eqb_refl in E.
    + intros a Ha. rewrite rr_count_inc. destruct (String.eqb a b) eqn:E; [|apply H2; now right]. apply String.eqb_eq in E. subst a. exfalso. rewrite He in Hnd. apply NoDup_remove_2 in Hnd. apply Hnd, in_or_app. now right.
    + exists st'. auto.
Qed.
End RR.
Theorem C28_round_robin_each_once : forall pow es (ws : gmap N) p k st, NoDup es -> Permutation (map fst ws) es -> (p <= 65536)%N ->
  (forall a pa, mget a ws = Some pa -> pa = p) ->
  (forall a, In a es -> mget a st <> None /\ rr_count st a = k) ->
  (N.of_nat (List.length es) * (k + 1) < 4294967296)%N -> (100 * k < p * (N.of_nat (List.length es) * k + 1))%N ->
  exists st', wrr_run (go_float pow) es (percent_loads pow ws) (List.length es) st = (map Some es, st') /\
    forall a, In a es -> mget a st' <> None /\ rr_count st' a = (k + 1)%N.
Proof.
  intros pow es ws p k st Hnd Hk Hp Hl Hc Hf Hs. apply (round_run_f pow es ws p k Hnd Hk Hp Hl Hs Hf es [] st); [reflexivity| | |].
  - intros a Ha. now apply Hc.
  - intros a [].
  - intros a Ha. now apply Hc.
Qed.
Print Assumptions C28_round_robin_each_once.
Theorem C28_round_robin_cycles : forall pow es (ws : gmap N) p st rounds, NoDup es -> Permutation (map fst ws) es -> (p <= 65536)%N ->
  (forall a pa, mget a ws = Some pa -> pa = p) -> (100 <= p * N.of_nat (List.length es))%N ->
  (forall a, In a es -> mget a st <> None /\ rr_count st a = 0%N) ->
  (N.of_nat (List.length es) * N.of_nat rounds < 4294967296)%N ->
  fst (wrr_run (go_float pow) es (percent_loads pow ws) (rounds * List.length es) st) = List.concat (repeat (map Some es) rounds).
Proof.
  intros pow es ws p st rounds Hnd Hk Hp Hl Hs Hc Hf.
  assert (G: forall r k st0, (forall a, In a es -> mget a st0 <> None /\ rr_count st0 a = k) -> (N.of_nat (List.length es) * (k + N.of_nat r) < 4294967296)%N ->
    fst (wrr_run (go_float pow) es (percent_loads pow ws) (r * List.length es) st0) = List.concat (repeat (map Some es) r)).
  2: { apply (G rounds 0%N st Hc). lia. }
  clear Hf Hc st. induction r as [|r IH]; intros k st0 Hc Hf; [reflexivity|]. cbn [Nat.mul repeat List.concat]. rewrite wrr_run_app.
  destruct (C28_round_robin_each_once pow es ws p k st0 Hnd Hk Hp Hl Hc) as (st1 & -> & H1); [nia|nia|].
  specialize (IH (k + 1)%N st1 H1). destruct (wrr_run (go_float pow) es (percent_loads pow ws) (r * List.length es) st1) as [q st2]. cbn [fst] in *. rewrite IH; [reflexivity|]. lia.
Qed.
Print Assumptions C28_round_robin_cycles.
Example C28_round_robin_cycles_ex : forall pow, fst (wrr_run (go_float pow) ["b"; "c"; "a"] (percent_loads pow [("a", 34); ("b", 34); ("c", 34)]%N) 6 [("a", mkstats 0 0); ("b", mkstats 0 0); ("c", mkstats 0 0)]) =
  [Some "b"; Some "c"; Some "a"; Some "b"; Some "c"; Some "a"].
Proof. intros. vm_compute. reflexivity. Qed.
