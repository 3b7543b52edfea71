(* C100: proofs about M_Run.v *)
From Coq Require Import List String Bool Arith Lia.
From Verif Require Import M_GoStr M_Identity L_GoStr M_Run.
Import ListNotations.
Open Scope list_scope.

Lemma run_cons cfgs s e h : run cfgs s (e :: h) = run cfgs (step cfgs s e) h. Proof. reflexivity. Qed.
Lemma upd_same {X} (f : nat -> X) i x : upd f i x i = x. Proof. unfold upd. rewrite Nat.eqb_refl. reflexivity. Qed.
Lemma upd_other {X} (f : nat -> X) i j x : j <> i -> upd f i x j = f j. Proof. unfold upd. intro N. destruct (Nat.eqb_spec j i); congruence. Qed.

(* Run: an error exactly if discovery cannot be connected or the dialer of a configured Bifrost cannot be made; no tunnel and no metrics
   have begun then, and if Connect failed nothing has *)
Theorem C100_run_result : forall h c conn dial, let r := run_handler h c conn dial in
  (snd r = true <-> conn = true /\ (c_bifrost c = true -> dial = true)) /\ (conn = false -> fst r = h) /\
  (snd r = false -> (tunnels (fst r), starting (fst r), pushers (fst r), servers (fst r)) = (tunnels h, starting h, pushers h, servers h)).
Proof. intros h c [|] [|]; unfold run_handler; destruct (c_bifrost c) eqn:B, (c_push c) eqn:P; cbn; repeat split; intros; try discriminate; try destruct H; auto; try (symmetry; auto). Qed.
Print Assumptions C100_run_result.
(* a Run that fails at the dialer leaves discovery running *)
Theorem C100_failed_run_refuted : forall h c conn dial, discovering (fst (run_handler h c conn dial)) = (if conn then S (discovering h) else discovering h).
Proof. intros h c [|] [|]; unfold run_handler; destruct (c_bifrost c), (c_push c); reflexivity. Qed.
Print Assumptions C100_failed_run_refuted.
Theorem C100_failed_run_refuted_ex : let c := mkcfg None true false false [] in let r := run_handler (mkh 0 false (fun _ => None) [] 0 0 []) c true false in snd r = false /\ discovering (fst r) = 1.
Proof. split; reflexivity. Qed.
Print Assumptions C100_failed_run_refuted_ex.
(* otherwise one of the two ways of giving metrics begins, by the configuration, and a tunnel client for a configured Bifrost *)
Theorem C100_run_starts : forall h c conn dial, snd (run_handler h c conn dial) = true -> let g := fst (run_handler h c conn dial) in
  (starting g, pushers g) = (if c_push c then (starting h, S (pushers h)) else (S (starting h), pushers h)) /\
  List.length (tunnels g) = List.length (tunnels h) + (if c_bifrost c then 1 else 0) /\ servers g = servers h.
Proof.
  intros h c [|] [|]; unfold run_handler; destruct (c_bifrost c) eqn:B, (c_push c) eqn:P; cbn; intro; try discriminate;
    rewrite ?app_length; cbn; repeat split; lia.
Qed.
Print Assumptions C100_run_starts.
(* how many successful Runs of i are in a history, and in what they result *)
Fixpoint runs (cfgs : nat -> cfg) (i : nat) (h : list event) : nat :=
  match h with
  | [] => 0
  | Run j conn dial :: r => (if Nat.eqb j i && conn && (negb (c_bifrost (cfgs i)) || dial) then 1 else 0) + runs cfgs i r
  | _ :: r => runs cfgs i r
  end.
Lemma counts cfgs i h : forall s, let g := hs (run cfgs s h) i in
  (if c_push (cfgs i) then pushers g = pushers (hs s i) + runs cfgs i h /\ starting g + List.length (servers g) = starting (hs s i) + List.length (servers (hs s i))
   else pushers g = pushers (hs s i) /\ starting g + List.length (servers g) = starting (hs s i) + List.length (servers (hs s i)) + runs cfgs i h).
Proof.
  induction h as [|e h IH]; intros s; cbn [run fold_left runs]; [destruct (c_push (cfgs i)); cbn; lia|].
  specialize (IH (step cfgs s e)). cbv zeta in IH |- *. fold (run cfgs (step cfgs s e) h).
  destruct (c_push (cfgs i)) eqn:P; destruct IH as [I1 I2]; rewrite I1, I2; clear I1 I2;
    (destruct e as [j conn dial|j v t|j]; cbn [runs step];
     [unfold run_handler|destruct (starting (hs s j)) eqn:E|]; cbn [hs];
     (destruct (Nat.eq_dec j i) as [->|N];
       [rewrite ?upd_same, ?Nat.eqb_refl|rewrite ?upd_other by auto; rewrite ?(proj2 (Nat.eqb_neq j i) N)]));
    try (destruct conn, (c_bifrost (cfgs i)), dial; cbn; rewrite ?P; cbn); cbn [pushers starting servers];
    rewrite ?app_length; cbn [List.length andb]; try (rewrite E); try lia.
Qed.
Theorem C100_one_way : forall cfgs l h i, let g := hs (run cfgs (start l) h) i in
  if c_push (cfgs i) then pushers g = runs cfgs i h /\ starting g = 0 /\ servers g = [] else pushers g = 0 /\ starting g + List.length (servers g) = runs cfgs i h.
Proof.
  intros cfgs l h i g. pose proof (counts cfgs i h (start l)) as H. cbv zeta in H. fold g in H. destruct (c_push (cfgs i)); cbn in H; [|exact H].
  destruct H as [H1 H2]. split; [exact H1|]. destruct (servers g); cbn in H2; split; [lia|reflexivity|lia|lia].
Qed.
Print Assumptions C100_one_way.

(* a port belongs to one server *)
Definition on_tcp (v : server) : bool := s_tcp v.
Definition own (cfgs : nat -> cfg) (s : st) : Prop :=
  forall i p, ports s p = Some i <-> c_port (cfgs i) = Some p /\ List.length (filter on_tcp (servers (hs s i))) = 1.
Definition atmost (s : st) : Prop := forall i, List.length (filter on_tcp (servers (hs s i))) <= 1.
Definition notcp (cfgs : nat -> cfg) (s : st) : Prop := forall i, c_port (cfgs i) = None -> filter on_tcp (servers (hs s i)) = [].
Lemma servers_step cfgs s e : (exists i v t n, e = Metrics i v t /\ starting (hs s i) = S n) \/
  (ports (step cfgs s e) = ports s /\ forall j, servers (hs (step cfgs s e) j) = servers (hs s j)).
Proof.
  destruct e as [i conn dial|i v t|i]; cbn.
  - right. split; [reflexivity|]. intro j. destruct (Nat.eq_dec j i) as [->|N]; [rewrite upd_same|rewrite upd_other by auto; reflexivity].
    unfold run_handler. destruct conn, (c_bifrost (cfgs i)), dial, (c_push (cfgs i)); reflexivity.
  - destruct (starting (hs s i)) eqn:E; [right; auto|]. left. exists i, v, t, n. auto.
  - right. split; [reflexivity|]. intro j. destruct (Nat.eq_dec j i) as [->|N]; [rewrite upd_same|rewrite upd_other by auto]; reflexivity.
Qed.
Lemma own_step cfgs s e : own cfgs s -> atmost s -> notcp cfgs s -> own cfgs (step cfgs s e) /\ atmost (step cfgs s e) /\ notcp cfgs (step cfgs s e).
Proof.
  intros O A T. destruct (servers_step cfgs s e) as [(i & v & t & n & -> & E)|[P S]].
  2: { split; [|split]; [intros j p; rewrite P, S; apply O|intro j; rewrite S; apply A|intro j; rewrite S; apply T]. }
  cbn [step]. rewrite E. unfold own, atmost, notcp. cbn [ports hs].
  set (new := metrics_server cfgs s i (hs s i) v t).
  assert (F : forall j, filter on_tcp (servers (upd (hs s) i (mkh (discovering (hs s i)) (done (hs s i)) (lbls (hs s i)) (tunnels (hs s i)) n (pushers (hs s i)) (servers (hs s i) ++ [new])) j)) =
    filter on_tcp (servers (hs s j)) ++ (if Nat.eqb j i && s_tcp new then [new] else [])).
  { intro j. destruct (Nat.eqb_spec j i) as [->|N]; [rewrite upd_same|rewrite upd_other by auto; cbn; rewrite app_nil_r; reflexivity].
    cbn [servers]. rewrite filter_app. cbn. unfold on_tcp at 2. destruct (s_tcp new); reflexivity. }
  destruct (c_port (cfgs i)) as [p0|] eqn:C.
  - destruct (s_tcp new) eqn:W.
    + assert (Q : ports s p0 = None) by (unfold new in W; cbn in W; rewrite C in W; destruct (ports s p0); [discriminate|reflexivity]).
      assert (Z : List.length (filter on_tcp (servers (hs s i))) = 0).
      { pose proof (A i) as A1. destruct (List.length (filter on_tcp (servers (hs s i)))) as [|[|k]] eqn:L; [reflexivity| |lia].
        exfalso. pose proof (proj2 (O i p0) (conj C L)). congruence. }
      split; [|split].
      * intros j p. rewrite F, app_length. unfold upd. destruct (Nat.eqb_spec p p0) as [->|N1]; destruct (Nat.eqb_spec j i) as [->|N2]; cbn [andb List.length].
        -- rewrite Z. split; auto.
        -- split; [congruence|]. intros [K1 K2]. exfalso. rewrite Nat.add_0_r in K2. pose proof (proj2 (O j p0) (conj K1 K2)). congruence.
        -- rewrite Z. split; [|intros [K _]; congruence]. intro K. apply O in K. destruct K. congruence.
        -- rewrite Nat.add_0_r. apply O.
      * intro j. rewrite F, app_length. destruct (Nat.eqb_spec j i) as [->|N]; cbn; [lia|]. pose proof (A j). lia.
      * intros j N. rewrite F. destruct (Nat.eqb_spec j i) as [->|N2]; [congruence|]. cbn. rewrite app_nil_r. auto.
    + assert (F' : forall j, filter on_tcp (servers (upd (hs s) i (mkh (discovering (hs s i)) (done (hs s i)) (lbls (hs s i)) (tunnels (hs s i)) n (pushers (hs s i)) (servers (hs s i) ++ [new])) j)) = filter on_tcp (servers (hs s j)))
        by (intro j; rewrite F, andb_false_r, app_nil_r; reflexivity).
      split; [intros j q; rewrite F'; apply O|split; intro j; rewrite F'; auto].
  - assert (W : s_tcp new = false) by (unfold new; cbn; rewrite C; reflexivity). rewrite W in F.
    assert (F' : forall j, filter on_tcp (servers (upd (hs s) i (mkh (discovering (hs s i)) (done (hs s i)) (lbls (hs s i)) (tunnels (hs s i)) n (pushers (hs s i)) (servers (hs s i) ++ [new])) j)) = filter on_tcp (servers (hs s j)))
      by (intro j; rewrite F, andb_false_r, app_nil_r; reflexivity).
    split; [intros j q; rewrite F'; apply O|split; intro j; rewrite F'; auto].
Qed.
Lemma own_run cfgs h : forall s, own cfgs s -> atmost s -> notcp cfgs s -> own cfgs (run cfgs s h) /\ atmost (run cfgs s h) /\ notcp cfgs (run cfgs s h).
Proof. induction h as [|e h IH]; intros s O A T; [auto|]. rewrite run_cons. destruct (own_step cfgs s e O A T) as (O' & A' & T'). auto. Qed.
Lemma own_all cfgs l h : own cfgs (run cfgs (start l) h) /\ atmost (run cfgs (start l) h).
Proof.
  destruct (own_run cfgs h (start l)) as (A & B & C); auto; unfold own, atmost, notcp, start; cbn; auto. intros i p. split; [discriminate|intros [_ K]; discriminate].
Qed.
(* a metrics port is held by at most one server, that of a handler configured for it; an answer is that handler's *)
Theorem C100_port_owner : forall cfgs l h p i, let s := run cfgs (start l) h in
  (ports s p = Some i <-> c_port (cfgs i) = Some p /\ exists v, In v (servers (hs s i)) /\ s_tcp v = true) /\
  (ask s p = MetricsOf i -> c_port (cfgs i) = Some p).
Proof.
  intros cfgs l h p i s. destruct (own_all cfgs l h) as [O A]. fold s in O, A. split.
  - rewrite (O i p). split; intros [C V]; (split; [exact C|]).
    + destruct (filter on_tcp (servers (hs s i))) as [|v r] eqn:E; [discriminate|]. exists v. apply (filter_In on_tcp). rewrite E. left. reflexivity.
    + destruct V as (v & V). apply (filter_In on_tcp) in V. pose proof (A i). destruct (filter on_tcp (servers (hs s i))) as [|x r]; [destruct V|cbn in *; lia].
  - unfold ask. destruct (ports s p) as [j|] eqn:E; [|discriminate]. destruct (existsb _ _); [|discriminate]. intro K. injection K as <-. apply O, E.
Qed.
Print Assumptions C100_port_owner.

(* a free port: the goroutine that Run started makes the metrics available *)
Theorem C100_available : forall cfgs s i p v n, ports s p = None -> c_port (cfgs i) = Some p -> starting (hs s i) = S n ->
  ask (step cfgs s (Metrics i v true)) p = MetricsOf i.
Proof.
  intros cfgs s i p v n P C E. cbn [step]. rewrite E, C. unfold metrics_server. rewrite C, P. cbn [s_tcp]. unfold ask. cbn [ports hs].
  rewrite !upd_same. cbn [servers]. rewrite existsb_app. cbn. rewrite orb_true_r. reflexivity.
Qed.
Print Assumptions C100_available.

(* the port is never given back: not when the context is done, not by anything else *)
Theorem C100_released_refuted : forall cfgs h s p i, ports s p = Some i -> ports (run cfgs s h) p = Some i.
Proof.
  intros cfgs. induction h as [|e h IH]; intros s p i P; [exact P|]. rewrite run_cons. apply IH.
  destruct (servers_step cfgs s e) as [(j & v & t & n & -> & E)|[Q _]]; [|rewrite Q; exact P].
  cbn [step]. rewrite E. cbn [ports]. destruct (c_port (cfgs j)) as [q|] eqn:C; [|exact P]. unfold metrics_server. rewrite C. cbn [s_tcp].
  destruct (ports s q) eqn:Q; [exact P|]. unfold upd. destruct (Nat.eqb_spec p q) as [->|N]; [congruence|exact P].
Qed.
Print Assumptions C100_released_refuted.
Lemma serves_keep cfgs s e i : existsb (fun v => s_tcp v && s_serves v) (servers (hs s i)) = true -> existsb (fun v => s_tcp v && s_serves v) (servers (hs (step cfgs s e) i)) = true.
Proof.
  intro V. destruct (servers_step cfgs s e) as [(j & v & t & n & -> & E)|[_ S]]; [|rewrite S; exact V].
  cbn [step]. rewrite E. cbn [hs]. destruct (Nat.eq_dec i j) as [->|N]; [rewrite upd_same|rewrite upd_other by auto; exact V]. cbn [servers]. rewrite existsb_app, V. reflexivity.
Qed.
(* the metrics of a cancelled handler stay available for ever *)
Theorem C100_stopped_refuted : forall cfgs h s p i, ask s p = MetricsOf i -> ask (run cfgs s h) p = MetricsOf i.
Proof.
  intros cfgs. induction h as [|e h IH]; intros s p i P; [exact P|]. rewrite run_cons. apply IH. unfold ask in *. destruct (ports s p) as [j|] eqn:E; [|discriminate].
  pose proof (C100_released_refuted cfgs [e] s p j E) as R. cbn in R. unfold run in R. cbn in R. rewrite R.
  destruct (existsb _ _) eqn:V in P; [|discriminate]. injection P as <-. rewrite (serves_keep cfgs s e j V). reflexivity.
Qed.
Print Assumptions C100_stopped_refuted.
(* so a handler that is run afterwards on the port is not measured over TCP, whatever happens to the first *)
Theorem C100_second_refuted : forall cfgs h s p i j, ask s p = MetricsOf i -> i <> j -> ask (run cfgs s h) p <> MetricsOf j.
Proof. intros cfgs h s p i j A N. rewrite (C100_stopped_refuted cfgs h s p i A). congruence. Qed.
Print Assumptions C100_second_refuted.
Theorem C100_second_refuted_ex : let cfgs := fun _ => mkcfg (Some 90) false false false [] in
  let s := run cfgs (start (fun _ _ => None)) [Run 0 true true; Metrics 0 true true; Cancel 0; Run 1 true true; Metrics 1 true true] in
  ask s 90 = MetricsOf 0 /\ done (hs s 0) = true /\ servers (hs s 1) = [mksrv false false true].
Proof. vm_compute. auto. Qed.
Print Assumptions C100_second_refuted_ex.
(* a port is taken though the context is done already *)
Theorem C100_late_refuted : forall cfgs s i p v, ports s p = None -> c_port (cfgs i) = Some p -> c_push (cfgs i) = false -> c_bifrost (cfgs i) = false ->
  ask (run cfgs s [Run i true true; Cancel i; Metrics i v true]) p = MetricsOf i.
Proof.
  intros cfgs s i p v P C N B. unfold run. cbn [fold_left]. apply (C100_available cfgs _ i p v (starting (hs s i))); auto.
  cbn. rewrite !upd_same. unfold run_handler. rewrite N, B. reflexivity.
Qed.
Print Assumptions C100_late_refuted.
(* without a stream handler the port is taken and nobody answers on it *)
Theorem C100_hangs_refuted : forall cfgs l h i p v n, let s := run cfgs (start l) h in ports s p = None -> c_port (cfgs i) = Some p -> starting (hs s i) = S n ->
  ask (step cfgs s (Metrics i v false)) p = Hangs.
Proof.
  intros cfgs l h i p v n s P C E. destruct (own_all cfgs l h) as [O A]. fold s in O, A.
  cbn [step]. rewrite E, C. unfold metrics_server. rewrite C, P. cbn [s_tcp]. unfold ask. cbn [ports hs].
  rewrite !upd_same. cbn [servers]. rewrite existsb_app. cbn. rewrite orb_false_r.
  destruct (existsb (fun v0 => s_tcp v0 && s_serves v0) (servers (hs s i))) eqn:V; [|reflexivity]. exfalso. apply existsb_exists in V. destruct V as (x & X & Y).
  apply andb_true_iff in Y. destruct Y as [Y _]. pose proof (proj2 (proj1 (C100_port_owner cfgs l h p i)) (conj C (ex_intro _ x (conj X Y)))) as K. fold s in K. congruence.
Qed.
Print Assumptions C100_hangs_refuted.

(* virtual listeners: there is a tunnel client exactly after a successful Run with Bifrost; the metrics server has always one then *)
Theorem C100_virtual : forall cfgs l h i ok, virtual_listener (hs (run cfgs (start l) h) i) ok = true <-> c_bifrost (cfgs i) = true /\ runs cfgs i h <> 0 /\ ok = true.
Proof.
  intros cfgs l h i ok.
  assert (X : forall h s, List.length (tunnels (hs (run cfgs s h) i)) = List.length (tunnels (hs s i)) + (if c_bifrost (cfgs i) then runs cfgs i h else 0)).
  { clear. induction h as [|e h IH]; intro s; [cbn; destruct (c_bifrost (cfgs i)); lia|]. rewrite run_cons, IH.
    destruct e as [j conn dial|j v t|j]; cbn [runs step];
     [unfold run_handler|destruct (starting (hs s j)) eqn:E|]; cbn [hs];
     (destruct (Nat.eq_dec j i) as [->|N];
       [rewrite ?upd_same, ?Nat.eqb_refl|rewrite ?upd_other by auto; rewrite ?(proj2 (Nat.eqb_neq j i) N)]);
     try (destruct conn, (c_bifrost (cfgs i)), dial, (c_push (cfgs i)); cbn [negb andb orb fst tunnels]); cbn [tunnels andb]; rewrite ?app_length; cbn [List.length]; try lia. }
  specialize (X h (start l)). cbn in X. unfold virtual_listener. destruct (tunnels (hs (run cfgs (start l) h) i)); cbn in X; destruct (c_bifrost (cfgs i)).
  - split; [discriminate|]. intros (_ & K & _). lia.
  - split; [discriminate|]. intros (K & _). discriminate.
  - split; [intros ->; repeat split; lia|tauto].
  - discriminate.
Qed.
Print Assumptions C100_virtual.

(* Run with Bifrost writes the service name into the labels of the environment; every other label stays; without Bifrost all do *)
Theorem C100_labels_changed_refuted : forall h c conn dial k, snd (run_handler h c conn dial) = true ->
  lbls (fst (run_handler h c conn dial)) k =
    (if c_bifrost c && geqb k service_label then Some (canonical_name (lbls h) (c_workload c)) else lbls h k).
Proof. intros h c [|] [|] k; unfold run_handler; destruct (c_bifrost c), (c_push c); cbn; intro; try discriminate; reflexivity. Qed.
Print Assumptions C100_labels_changed_refuted.
(* the tunnel client is given the labels, with the canonical name of the workload as the service name *)
Theorem C100_tunnel_labels : forall h c conn dial, snd (run_handler h c conn dial) = true -> c_bifrost c = true ->
  exists l, tunnels (fst (run_handler h c conn dial)) = tunnels h ++ [l] /\ l service_label = Some (canonical_name (lbls h) (c_workload c)) /\ (forall k, k <> service_label -> l k = lbls h k).
Proof.
  intros h c conn dial S B. exists (with_service c (lbls h)). unfold run_handler in *. rewrite B in *. destruct conn, dial; try discriminate.
  cbn. split; [destruct (c_push c); reflexivity|]. split; [reflexivity|]. intros k N. unfold with_service.
  destruct (geqb k service_label) eqn:G; [exfalso; apply N; apply geqb_eq; exact G|reflexivity].
Qed.
Print Assumptions C100_tunnel_labels.
(* running again changes nothing more in the labels *)
Theorem C100_labels_stable : forall c l k, with_service c (with_service c l) k = with_service c l k.
Proof. intros c l k. unfold with_service. destruct (geqb k service_label); reflexivity. Qed.
Print Assumptions C100_labels_stable.
