(* C28 for the whole program: one locality of equally weighted healthy endpoints. *)
From Coq Require Import String List Bool NArith ZArith QArith Lia Permutation SpecFloat.
From Verif Require Import M_GoMap L_GoMap M_AdsLb L_AdsLb P_AdsLb P_AdsLbF.
From Verif Require L_Float2 L_Float5.
Import ListNotations.
Close Scope Q_scope.
Open Scope nat_scope.
Open Scope string_scope.

(* 100/n rounded to the nearest integer, halves to the even one *)
Definition percent_of (n : N) : N :=
  let q := (100 / n)%N in let r := (2 * (100 mod n))%N in
  if N.ltb n r then (q + 1)%N else if N.eqb n r then if N.even q then q else (q + 1)%N else q.

Notation fl := L_Float2.fl.
Lemma percent_float : forall n, (0 < n < 4294967296)%N -> f64_round Z.odd (SFmul 53 1024 (SFdiv 53 1024 (fl 1) (fl n)) (fl 100)) = fl (percent_of n).
Proof.
  intros n H. destruct (N.le_gt_cases n 200) as [Hn|Hn].
  - assert (C: forallb (fun k => let n := N.of_nat k in match SFcompare (f64_round Z.odd (SFmul 53 1024 (SFdiv 53 1024 (fl 1) (fl n)) (fl 100))) (fl (percent_of n)), f64_round Z.odd (SFmul 53 1024 (SFdiv 53 1024 (fl 1) (fl n)) (fl 100)), fl (percent_of n) with
        | Some Eq, S754_finite s m e, S754_finite s' m' e' => Bool.eqb s s' && Pos.eqb m m' && Z.eqb e e' | Some Eq, S754_zero s, S754_zero s' => Bool.eqb s s' | _, _, _ => false end) (seq 1 200) = true) by (vm_compute; reflexivity).
    rewrite forallb_forall in C. specialize (C (N.to_nat n)). cbv zeta in C. rewrite N2Nat.id in C. specialize (C ltac:(apply in_seq; lia)).
    destruct (SFcompare _ _) as [[]|]; try discriminate. destruct (f64_round Z.odd _) as [s|s| |s m e], (fl (percent_of n)) as [s'|s'| |s' m' e']; try discriminate.
    + apply Bool.eqb_prop in C. now subst.
    + apply andb_prop in C. destruct C as [C C3]. apply andb_prop in C. destruct C as [C1 C2]. apply Bool.eqb_prop in C1. apply Pos.eqb_eq in C2. apply Z.eqb_eq in C3. now subst.
  - rewrite L_Float5.big_n by lia. unfold percent_of. rewrite N.div_small, N.mod_small by lia. cbv zeta. replace (N.ltb n (2 * 100)) with false by (symmetry; apply N.ltb_ge; lia). replace (N.eqb n (2 * 100)) with false by (symmetry; apply N.eqb_neq; lia). reflexivity.
Qed.

(* a locality of healthy endpoints with distinct socket addresses [addrs], all of weight w *)
Definition equal_locality (l : locality) (addrs : list string) (w : N) : Prop :=
  map e_addr (lo_eps l) = map Some addrs /\ NoDup addrs /\ Forall (fun e => (e_health e = 0 \/ e_health e = 1 \/ e_health e = 5)%N /\ weight_of (e_weight e) = w) (lo_eps l).
Lemma equal_healthy : forall l addrs w e, equal_locality l addrs w -> In e (lo_eps l) -> is_healthy e = true.
Proof. intros l addrs w e (_ & _ & H) Hi. rewrite Forall_forall in H. destruct (H e Hi) as [[E|[E|E]] _]; unfold is_healthy; rewrite E; reflexivity. Qed.
Lemma equal_eligible : forall l addrs w, equal_locality l addrs w -> eligible_addrs [l] = addrs.
Proof.
  intros l addrs w H. unfold eligible_addrs. cbn [flat_map]. rewrite app_nil_r. pose proof (equal_healthy l addrs w) as Hh. destruct H as (Ha & Hn & H).
  assert (G: forall es as_, (forall e, In e es -> is_healthy e = true) -> map e_addr es = map Some as_ -> flat_map (fun e => match e_addr e with Some a => if is_healthy e then [a] else [] | None => [] end) es = as_).
  { clear. induction es as [|e es IH]; intros [|a as_] Hh Ha; cbn in Ha; try discriminate; [reflexivity|]. injection Ha as E Ha. cbn [flat_map]. rewrite E, (Hh e (or_introl eq_refl)). cbn [app]. f_equal. apply IH; [|exact Ha]. intros x Hx. apply Hh. now right. }
  apply G; [|exact Ha]. intros e He. apply Hh; [|exact He]. repeat split; assumption.
Qed.
Lemma mget_mset_eq {V} : forall k (v : V) m, mget k (mset k v m) = Some v.
Proof. intros. rewrite mget_mset, String.eqb_refl. reflexivity. Qed.
Lemma map_mset {V W} (f : V -> W) : forall k v (m : gmap V), map (fun e => (fst e, f (snd e))) (mset k v m) = mset k (f v) (map (fun e => (fst e, f (snd e))) m).
Proof. intros k v m. unfold mset. cbn [map fst snd]. f_equal. unfold mdel. induction m as [|[a b] m IH]; [reflexivity|]. cbn [filter map fst snd]. destruct (negb (String.eqb k a)) eqn:E; cbn [filter map fst snd]; rewrite ?E, ?IH; reflexivity. Qed.
Section Equal.
Variable pow : f64 -> f64 -> f64.
Notation A := (go_float pow).
Variables (l : locality) (addrs : list string) (w o : N).
Hypothesis He : equal_locality l addrs w.
Hypothesis Hne : addrs <> [].
Hypothesis Hw : (0 < w)%N.
Hypothesis Hfit : (N.of_nat (List.length addrs) * w < 4294967296)%N.
Hypothesis Hlw : (0 < weight_of (lo_weight l) < 4294967296)%N.
Hypothesis Ho : (100 <= o <= 65536)%N.
Notation n := (N.of_nat (List.length addrs)).
Definition overf : F A := fdiv A (f_of A o) (f_of A 100).
Lemma n_pos : (0 < n)%N. Proof. destruct addrs; [congruence|cbn; lia]. Qed.
Lemma n_bound : (n < 4294967296)%N. Proof. pose proof n_pos. nia. Qed.
Lemma eps_len : List.length (lo_eps l) = List.length addrs.
Proof. destruct He as (E & _). rewrite <- (map_length e_addr), E, map_length. reflexivity. Qed.
Lemma health_one : health_score A (lo_eps l) = fl 1.
Proof.
  unfold health_score. pose proof eps_len as EL. pose proof n_pos as NP. destruct (lo_eps l) as [|e es] eqn:E; [cbn in EL; lia|]. rewrite <- E in *. clear E.
  assert (Ef: filter is_healthy (lo_eps l) = lo_eps l).
  { assert (G: forall e, In e (lo_eps l) -> is_healthy e = true) by (intros; eapply equal_healthy; eassumption). clear - G. induction (lo_eps l) as [|x xs IH]; [reflexivity|]. cbn. rewrite (G x (or_introl eq_refl)). f_equal. apply IH. intros y Hy. apply G. now right. }
  rewrite Ef, EL. apply L_Float5.div_self. split; [exact NP|exact n_bound].
Qed.
Lemma over_avail : fmin1 A (fmul A overf (fl 1)) = fl 1.
Proof.
  destruct (L_Float5.over_min o Ho) as (r & Hr & R1 & R2). change (fmul A overf (fl 1)) with (SFmul 53 1024 (SFdiv 53 1024 (fl o) (fl 100)) (fl 1)).
  rewrite (L_Float5.mul_one _ r Hr) by (try exact R2; apply L_Float5.pos_bound; exact R1). unfold fmin1. cbn [fltb f_of go_float]. fold (fl 1). apply (L_Float5.min_one _ r Hr). apply R1.
Qed.
Lemma prio_one : priority_loads A [l] overf = [(lo_prio l, fl 1)].
Proof.
  assert (S1: fmin1 A (fmul A overf (health_score A (flat_map (fun l0 => if N.eqb (lo_prio l0) (lo_prio l) then lo_eps l0 else []) [l]))) = fl 1).
  { cbn [flat_map]. rewrite N.eqb_refl, app_nil_r, health_one. exact over_avail. }
  unfold priority_loads, priorities. cbn [map fold_right ninsert]. cbn [fold_left fst snd app]. rewrite S1. reflexivity.
Qed.
Lemma loc_one : getF A (lo_name l) (locality_loads A [l] overf) = fl 1.
Proof.
  unfold locality_loads. rewrite prio_one. cbv zeta. cbn [fold_left flat_map fst snd]. rewrite String.eqb_refl, app_nil_r, health_one, over_avail. cbn [nget]. rewrite N.eqb_refl.
  set (lw := weight_of (lo_weight l)) in *.
  assert (E: fmul A (fmul A (f_of A lw) (fl 1)) (fl 1) = fl lw). { change (SFmul 53 1024 (SFmul 53 1024 (fl lw) (fl 1)) (fl 1) = fl lw). rewrite !L_Float5.fl_mul_one by exact Hlw. reflexivity. }
  rewrite E. assert (E2: fadd A (f_of A 0) (fl lw) = fl lw). { change (SFadd 53 1024 (fl 0) (fl lw) = fl lw). rewrite L_Float5.add_fl by lia. reflexivity. } rewrite E2.
  unfold getF. rewrite !mget_mset_eq. change (fdiv A (fl lw) (fl lw)) with (SFdiv 53 1024 (fl lw) (fl lw)). rewrite L_Float5.div_self by exact Hlw. vm_compute. reflexivity.
Qed.
Lemma totals_n : forall st, getF A (lo_name l) (fold_left (fun m l => fold_left (fun m e =>
      match e_addr e with
      | Some a => if is_healthy e then mset (lo_name l) (fadd A (getF A (lo_name l) m) (ep_weight A st None e a)) m else m
      | None => m
      end) (lo_eps l) m) [l] []) = fl (n * w).
Proof.
  intros st. cbn [fold_left].
  assert (G: forall es as_ k m, (forall e, In e es -> is_healthy e = true /\ weight_of (e_weight e) = w) -> map e_addr es = map Some as_ -> getF A (lo_name l) m = fl (k * w) -> ((k + N.of_nat (List.length as_)) * w < 4294967296)%N ->
    getF A (lo_name l) (fold_left (fun m e => match e_addr e with Some a => if is_healthy e then mset (lo_name l) (fadd A (getF A (lo_name l) m) (ep_weight A st None e a)) m else m | None => m end) es m) = fl ((k + N.of_nat (List.length as_)) * w)).
  { clear - Hw. induction es as [|e es IH]; intros [|a as_] k m Hh Ha Hm Hf; cbn in Ha; try discriminate.
    - cbn [fold_left List.length]. rewrite Hm. f_equal. lia.
    - injection Ha as E Ha. cbn [fold_left]. rewrite E. destruct (Hh e (or_introl eq_refl)) as [H1 H2]. rewrite H1. cbn [List.length] in *.
      replace (k + N.of_nat (S (List.length as_)))%N with ((k + 1) + N.of_nat (List.length as_))%N by lia. apply IH; [intros x Hx; apply Hh; now right|exact Ha| |lia].
      unfold getF at 1. rewrite mget_mset_eq. rewrite Hm. unfold ep_weight. rewrite H1, H2. change (fadd A (fl (k * w)) (f_of A w)) with (SFadd 53 1024 (fl (k * w)) (fl w)). rewrite L_Float5.add_fl by nia. f_equal. lia. }
  rewrite (G (lo_eps l) addrs 0%N []); try reflexivity; try exact Hfit.
  - intros e Hi. split; [eapply equal_healthy; eassumption|]. destruct He as (_ & _ & HF). rewrite Forall_forall in HF. apply (HF e Hi).
  - apply He.
Qed.
Lemma loads_equal : forall st, load_distribution A [l] st overf None = percent_loads pow (fold_left (fun m a => mset a (percent_of n) m) addrs []).
Proof.
  intros st. unfold load_distribution. cbv zeta. cbn [fold_left]. pose proof (totals_n st) as HT. cbn [fold_left] in HT. set (tot := (fold_left (fun m e => match e_addr e with Some a => if is_healthy e then mset (lo_name l) (fadd A (getF A (lo_name l) m) (ep_weight A st None e a)) m else m | None => m end) (lo_eps l) [])) in *.
  assert (V: forall e a, In e (lo_eps l) -> fdiv A (fround_even A (fmul A (fmul A (fdiv A (ep_weight A st None e a) (getF A (lo_name l) tot)) (getF A (lo_name l) (locality_loads A [l] overf))) (f_of A 100))) (f_of A 100) = L_Float2.share (percent_of n) 100).
  { intros e a Hi. rewrite HT, loc_one. clear tot HT. unfold ep_weight. rewrite (equal_healthy l addrs w e He Hi). destruct He as (_ & _ & HF). rewrite Forall_forall in HF. destruct (HF e Hi) as [_ ->].
    change (SFdiv 53 1024 (f64_round Z.odd (SFmul 53 1024 (SFmul 53 1024 (SFdiv 53 1024 (fl w) (fl (n * w))) (fl 1)) (fl 100))) (fl 100) = L_Float2.share (percent_of n) 100).
    destruct (L_Float5.share_equal n w n_pos Hw Hfit) as [-> (r & Hr & Rb & Ri)]. rewrite (L_Float5.mul_one _ r Hr (L_Float5.share_pos n r n_pos n_bound Rb) Ri). rewrite percent_float by (split; [exact n_pos|exact n_bound]). reflexivity. }
  assert (G: forall es as_ m m', (forall e, In e es -> In e (lo_eps l)) -> map e_addr es = map Some as_ -> m = percent_loads pow m' ->
    fold_left (fun m e => match e_addr e with Some a => mset a (fdiv A (fround_even A (fmul A (fmul A (fdiv A (ep_weight A st None e a) (getF A (lo_name l) tot)) (getF A (lo_name l) (locality_loads A [l] overf))) (f_of A 100))) (f_of A 100)) m | None => m end) es m
    = percent_loads pow (fold_left (fun m a => mset a (percent_of n) m) as_ m')).
  { induction es as [|e es IH]; intros [|a as_] m m' Hi Ha Hm; cbn in Ha; try discriminate; [exact Hm|]. injection Ha as E Ha. cbn [fold_left]. rewrite E. apply IH; [intros x Hx; apply Hi; now right|exact Ha|].
    rewrite V by (apply Hi; now left). subst m. symmetry. apply (map_mset (fun x => L_Float2.share x 100)). }
  apply G; [auto|apply He|reflexivity].
Qed.
End Equal.

(* The loads the program computes for n equally weighted healthy endpoints in one locality, whatever their common weight,
   the weight and the priority of the locality and the over-provisioning factor of at least 100%: each 100/n percent,
   rounded to an integer (half to even). *)
Theorem C28_equal_loads : forall pow l addrs w o st, equal_locality l addrs w -> addrs <> [] -> (0 < w)%N -> (N.of_nat (List.length addrs) * w < 4294967296)%N ->
  (0 < weight_of (lo_weight l) < 4294967296)%N -> (100 <= o <= 65536)%N ->
  exists ws, load_distribution (go_float pow) [l] st (fdiv (go_float pow) (f_of (go_float pow) o) (f_of (go_float pow) 100)) None = percent_loads pow ws /\
    Permutation (map fst ws) addrs /\ forall a p, mget a ws = Some p -> p = percent_of (N.of_nat (List.length addrs)).
Proof.
  intros pow l addrs w o st He Hne Hw Hfit Hlw Ho. exists (fold_left (fun m a => mset a (percent_of (N.of_nat (List.length addrs))) m) addrs []). split; [|split].
  - now apply (loads_equal pow l addrs w o).
  - destruct He as (_ & Hnd & _). set (p := percent_of _). clearbody p. clear - Hnd.
    assert (G: forall as_ m, NoDup as_ -> (forall a, In a as_ -> ~ In a (map fst m)) -> Permutation (map fst (fold_left (fun (m : gmap N) a => mset a p m) as_ m)) (as_ ++ map fst m)).
    { induction as_ as [|a as_ IH]; intros m H1 H2; [apply Permutation_refl|]. cbn [fold_left app]. apply NoDup_cons_iff in H1. destruct H1 as [H1 H1']. assert (E: mset a p m = (a, p) :: m).
      { unfold mset. f_equal. unfold mdel. assert (Hn: ~ In a (map fst m)) by (apply H2; now left). clear - Hn. induction m as [|[b x] m IHm]; [reflexivity|]. cbn [filter fst]. destruct (String.eqb a b) eqn:E; [apply String.eqb_eq in E; subst; exfalso; apply Hn; now left|]. cbn. f_equal. apply IHm. intros Hi. apply Hn. now right. }
      rewrite E. rewrite IH; [|exact H1'|].
      - cbn [map fst]. symmetry. apply Permutation_middle.
      - intros b Hb [Hc|Hc]; [cbn in Hc; subst; contradiction|]. apply (H2 b); [now right|exact Hc]. }
    rewrite G; [rewrite app_nil_r; reflexivity|exact Hnd|intros a _ []].
  - intros a p. set (q := percent_of _). assert (G: forall as_ (m : gmap N), (forall b x, mget b m = Some x -> x = q) -> forall b x, mget b (fold_left (fun m a => mset a q m) as_ m) = Some x -> x = q).
    { clear. induction as_ as [|a as_ IH]; intros m H b x Hb; [now apply (H b)|]. cbn [fold_left] in Hb. apply (IH (mset a q m)) in Hb; [exact Hb|]. intros c y. rewrite mget_mset. destruct (String.eqb c a); [congruence|apply H]. }
    apply G. intros b x. discriminate.
Qed.
Print Assumptions C28_equal_loads.

Lemma percent_le : forall n, (percent_of n <= 65536)%N.
Proof.
  intros n. unfold percent_of. assert (100 / n <= 100)%N. { destruct (N.eq_dec n 0) as [->|]; [now cbn|]. apply N.div_le_upper_bound; nia. }
  cbv zeta. destruct (N.ltb n (2 * (100 mod n))), (N.eqb n (2 * (100 mod n))), (N.even (100 / n)); lia.
Qed.
(* n clients in a row, round robin *)
Fixpoint rr_clients (A : arith) (over : F A) (ls : list locality) (n : nat) (st : estats) : list outcome * estats :=
  match n with
  | O => ([], st)
  | S n' => let (o, st1) := client_address A over (f_of A 1) (fun _ => 0) PRoundRobin ls st in let (os, st2) := rr_clients A over ls n' st1 in (o :: os, st2)
  end.
Lemma rr_clients_run : forall pow l addrs w o, equal_locality l addrs w -> addrs <> [] -> (0 < w)%N -> (N.of_nat (List.length addrs) * w < 4294967296)%N ->
  (0 < weight_of (lo_weight l) < 4294967296)%N -> (100 <= o <= 65536)%N ->
  let over := fdiv (go_float pow) (f_of (go_float pow) o) (f_of (go_float pow) 100) in
  exists ws, Permutation (map fst ws) addrs /\ (forall a p, mget a ws = Some p -> p = percent_of (N.of_nat (List.length addrs))) /\
  forall n st, rr_clients (go_float pow) over [l] n st = let (ps, st') := wrr_run (go_float pow) addrs (percent_loads pow ws) n st in (map (fun p => match p with Some a => Picked (Some a) | None => Panics end) ps, st').
Proof.
  intros pow l addrs w o He Hne Hw Hfit Hlw Ho over. exists (fold_left (fun m a => mset a (percent_of (N.of_nat (List.length addrs))) m) addrs []).
  assert (L: forall st, load_distribution (go_float pow) [l] st over None = percent_loads pow (fold_left (fun m a => mset a (percent_of (N.of_nat (List.length addrs))) m) addrs [])) by (intros; now apply (loads_equal pow l addrs w o)).
  destruct (C28_equal_loads pow l addrs w o [] He Hne Hw Hfit Hlw Ho) as (ws & E & P1 & P2). fold over in E. rewrite L in E.
  assert (Hinj: forall a b, percent_loads pow a = percent_loads pow b -> map fst a = map fst b). { unfold percent_loads. intros a b H. apply (f_equal (map fst)) in H. rewrite !map_map in H. exact H. }
  split; [rewrite (Hinj _ _ E); exact P1|]. split.
  - intros a p. set (q := percent_of _). assert (G: forall as_ (m : gmap N), (forall b x, mget b m = Some x -> x = q) -> forall b x, mget b (fold_left (fun m a => mset a q m) as_ m) = Some x -> x = q).
    { clear. induction as_ as [|a as_ IH]; intros m H b x Hb; [now apply (H b)|]. cbn [fold_left] in Hb. apply (IH (mset a q m)) in Hb; [exact Hb|]. intros c y. rewrite mget_mset. destruct (String.eqb c a); [congruence|apply H]. }
    apply G. intros b x. discriminate.
  - assert (Hx: existsb (fun l => existsb (fun e => match e_addr e with Some _ => true | None => false end) (lo_eps l)) [l] = true).
    { destruct He as (Ha & _). destruct addrs as [|a as_]; [congruence|]. destruct (lo_eps l) as [|e es] eqn:El; cbn in Ha; [discriminate|]. injection Ha as Ha _. cbn [existsb]. rewrite El. cbn [existsb]. rewrite Ha. reflexivity. }
    induction n as [|n IH]; intros st; [reflexivity|]. cbn [rr_clients wrr_run]. unfold client_address, choose_address. rewrite (equal_eligible l addrs w He), L, Hx.
    destruct (wrr_next (go_float pow) addrs _ st) as [[a|] st1]; rewrite IH; destruct (wrr_run (go_float pow) addrs _ n st1) as [ps st2]; reflexivity.
Qed.
(* If n times the rounded percentage reaches 100, the clients go through the endpoints in order for as long as the 32 bit
   counters last. *)
Theorem C28_equal_endpoints_cycle : forall pow l addrs w o rounds st, equal_locality l addrs w -> (0 < w)%N -> (N.of_nat (List.length addrs) * w < 4294967296)%N ->
  (0 < weight_of (lo_weight l) < 4294967296)%N -> (100 <= o <= 65536)%N ->
  (100 <= percent_of (N.of_nat (List.length addrs)) * N.of_nat (List.length addrs))%N ->
  (forall a, In a addrs -> mget a st <> None /\ rr_count st a = 0%N) -> (N.of_nat (List.length addrs) * N.of_nat rounds < 4294967296)%N ->
  fst (rr_clients (go_float pow) (fdiv (go_float pow) (f_of (go_float pow) o) (f_of (go_float pow) 100)) [l] (rounds * List.length addrs) st) =
  List.concat (repeat (map (fun a => Picked (Some a)) addrs) rounds).
Proof.
  intros pow l addrs w o rounds st He Hw Hfit Hlw Ho Hp Hst Hr. assert (Hne: addrs <> []) by (intros ->; cbn in Hp; lia).
  destruct (rr_clients_run pow l addrs w o He Hne Hw Hfit Hlw Ho) as (ws & P1 & P2 & R). cbv zeta in R. rewrite R.
  assert (Hb: (percent_of (N.of_nat (List.length addrs)) <= 65536)%N) by apply percent_le.
  pose proof (C28_round_robin_cycles pow addrs ws _ st rounds (proj1 (proj2 He)) P1 Hb P2 Hp Hst Hr) as C.
  destruct (wrr_run (go_float pow) addrs (percent_loads pow ws) (rounds * List.length addrs) st) as [ps st']. cbn [fst] in *. rewrite C. clear.
  induction rounds as [|r IH]; [reflexivity|]. cbn [repeat List.concat]. rewrite map_app, IH, map_map. reflexivity.
Qed.
Print Assumptions C28_equal_endpoints_cycle.
(* Otherwise the clients panic after at most 100*n/(100 - n*percentage) connections. *)
Theorem C28_equal_endpoints_fail_refuted : forall pow l addrs w o m st, equal_locality l addrs w -> addrs <> [] -> (0 < w)%N -> (N.of_nat (List.length addrs) * w < 4294967296)%N ->
  (0 < weight_of (lo_weight l) < 4294967296)%N -> (100 <= o <= 65536)%N ->
  (forall a, In a addrs -> mget a st <> None /\ rr_count st a = 0%N) -> (N.of_nat m < 4294967296)%N ->
  (100 * N.of_nat (List.length addrs) < N.of_nat m * (100 - percent_of (N.of_nat (List.length addrs)) * N.of_nat (List.length addrs)))%N ->
  In Panics (fst (rr_clients (go_float pow) (fdiv (go_float pow) (f_of (go_float pow) o) (f_of (go_float pow) 100)) [l] m st)).
Proof.
  intros pow l addrs w o m st He Hne Hw Hfit Hlw Ho Hst Hm Hp.
  destruct (rr_clients_run pow l addrs w o He Hne Hw Hfit Hlw Ho) as (ws & P1 & P2 & R). cbv zeta in R. rewrite R.
  assert (Hb: (percent_of (N.of_nat (List.length addrs)) <= 65536)%N) by apply percent_le.
  destruct (wrr_run (go_float pow) addrs (percent_loads pow ws) m st) as [ps st'] eqn:E. cbn [fst].
  assert (D: (exists p, In p ps /\ p = None) \/ forall p, In p ps -> p <> None). { clear. induction ps as [|[a|] ps IH]; [right; intros p []| |left; exists None; split; [now left|reflexivity]]. destruct IH as [(p & H1 & H2)|H]; [left; exists p; split; [now right|exact H2]|right]. intros p [<-|Hp]; [discriminate|now apply H]. }
  destruct D as [(p & H1 & ->)|D]; [apply in_map_iff; exists None; split; [reflexivity|exact H1]|exfalso].
  pose proof (C28_round_robin_dries_up_refuted pow addrs ws st m ps st' P1 (proj1 (proj2 He)) (fun a p H => eq_ind_r (fun x => (x <= 65536)%N) Hb (P2 a p H)) Hst Hm E D) as B.
  assert (S1: percent_sum ws = (percent_of (N.of_nat (List.length addrs)) * N.of_nat (List.length addrs))%N).
  { assert (Hndk: NoDup (map fst ws)) by (eapply Permutation_NoDup; [symmetry; exact P1|apply He]). set (q := percent_of (N.of_nat (List.length addrs))) in *. clearbody q. rewrite <- (Permutation_length P1), map_length.
    assert (G: forall ls, incl ls ws -> percent_sum ls = (q * N.of_nat (List.length ls))%N). { clear - Hndk P2. induction ls as [|[a p] ls IH]; intros Hi; [cbn; lia|]. unfold percent_sum in *. cbn [fold_right snd List.length]. rewrite IH by (intros x Hx; apply Hi; now right). rewrite (P2 a p) by (apply in_mget; [exact Hndk|apply Hi; now left]). rewrite Nat2N.inj_succ, N.mul_succ_r. lia. }
    apply G, incl_refl. }
  rewrite S1 in B. lia.
Qed.
Print Assumptions C28_equal_endpoints_fail_refuted.
(* The numbers of equal endpoints for which round robin works. *)
Theorem C28_equal_endpoints_numbers : forall n, (0 < n)%N -> ((100 <= percent_of n * n)%N <->
  (n = 1 \/ n = 2 \/ 4 <= n <= 6 \/ n = 10 \/ n = 13 \/ n = 15 \/ n = 17 \/ n = 18 \/ 20 <= n <= 22 \/ 25 <= n <= 28 \/ 34 <= n <= 39 \/ 50 <= n <= 66 \/ 100 <= n <= 199)%N).
Proof.
  intros n Hn. destruct (N.le_gt_cases n 200) as [H|H].
  - assert (C: forallb (fun k => let n := N.of_nat k in Bool.eqb (N.leb 100 (percent_of n * n))
      (N.eqb n 1 || N.eqb n 2 || (N.leb 4 n && N.leb n 6) || N.eqb n 10 || N.eqb n 13 || N.eqb n 15 || N.eqb n 17 || N.eqb n 18 || (N.leb 20 n && N.leb n 22) || (N.leb 25 n && N.leb n 28) || (N.leb 34 n && N.leb n 39) || (N.leb 50 n && N.leb n 66) || (N.leb 100 n && N.leb n 199))) (seq 1 200) = true) by (vm_compute; reflexivity).
    rewrite forallb_forall in C. specialize (C (N.to_nat n)). cbv zeta in C. rewrite N2Nat.id in C. specialize (C ltac:(apply in_seq; lia)). apply Bool.eqb_prop in C. rewrite <- N.leb_le, C.
    rewrite !orb_true_iff, !andb_true_iff, !N.leb_le, !N.eqb_eq. lia.
  - assert (E: percent_of n = 0%N). { unfold percent_of. rewrite N.div_small, N.mod_small by lia. cbv zeta. replace (N.ltb n (2 * 100)) with false by (symmetry; apply N.ltb_ge; lia). replace (N.eqb n (2 * 100)) with false by (symmetry; apply N.eqb_neq; lia). reflexivity. }
    rewrite E. lia.
Qed.
Print Assumptions C28_equal_endpoints_numbers.
Example C28_equal_endpoints_ex : equal_locality (mklocality "l" 0 (Some 3%N) [mklbep (Some "a") 1 (Some 7%N); mklbep (Some "b") 0 (Some 7%N); mklbep (Some "c") 5 (Some 7%N)]) ["a"; "b"; "c"] 7 /\ percent_of 3 = 33%N /\ percent_of 7 = 14%N /\ percent_of 6 = 17%N.
Proof. split; [|vm_compute; auto]. split; [reflexivity|]. split; [repeat constructor; cbn; intuition discriminate|]. repeat (apply Forall_cons; [cbn; auto|]). apply Forall_nil. Qed.
