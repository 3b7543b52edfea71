(* More about C100: the listeners of a metrics server *)
From Coq Require Import List String Bool Arith Lia.
From Verif Require Import M_GoStr M_Identity M_Run P_Run.
Import ListNotations.
Open Scope list_scope.

(* a metrics server listens on its port if that is free, and on a virtual port exactly if Bifrost is configured, the metrics are to be
   exposed through it and the tunnel client gives a listener: the client is always there *)
Theorem C100_metrics_listeners : forall cfgs l h i v t n, let s := run cfgs (start l) h in starting (hs s i) = S n ->
  exists w, servers (hs (step cfgs s (Metrics i v t)) i) = servers (hs s i) ++ [w] /\ starting (hs (step cfgs s (Metrics i v t)) i) = n /\ s_serves w = t /\
    (s_virtual w = true <-> c_bifrost (cfgs i) = true /\ c_expose (cfgs i) = true /\ v = true) /\
    (s_tcp w = true <-> exists p, c_port (cfgs i) = Some p /\ ports s p = None).
Proof.
  intros cfgs l h i v t n s E. exists (metrics_server cfgs s i (hs s i) v t). cbn [step]. rewrite E. cbn [hs]. rewrite upd_same.
  split; [reflexivity|]. split; [reflexivity|]. split; [reflexivity|]. unfold metrics_server. cbn [s_virtual s_tcp]. split.
  - pose proof (C100_virtual cfgs l h i v) as V. fold s in V. pose proof (C100_one_way cfgs l h i) as W. cbv zeta in W. fold s in W.
    assert (N : runs cfgs i h <> 0) by (destruct (c_push (cfgs i)); [destruct W as (_ & W & _); congruence|lia]).
    rewrite !andb_true_iff, V. tauto.
  - destruct (c_port (cfgs i)) as [p|].
    + split; [|intros (q & Q & R); injection Q as <-; rewrite R; reflexivity]. destruct (ports s p) eqn:R; [discriminate|]. intros _. exists p. auto.
    + split; [discriminate|]. intros (q & Q & _). discriminate.
Qed.
Print Assumptions C100_metrics_listeners.
Theorem C100_metrics_listeners_ex : let cfgs := fun _ => mkcfg (Some 90) true true false [] in
  servers (hs (run cfgs (start (fun _ _ => None)) [Run 0 true true; Metrics 0 true true; Run 0 true true; Metrics 0 true true]) 0) = [mksrv true true true; mksrv false true true].
Proof. vm_compute. reflexivity. Qed.
Print Assumptions C100_metrics_listeners_ex.
(* the context changes nothing but itself: goroutines and servers stay as they are *)
Theorem C100_cancel : forall cfgs s i j, let g := hs (step cfgs s (Cancel i)) j in
  (discovering g, lbls g, tunnels g, starting g, pushers g, servers g) = (discovering (hs s j), lbls (hs s j), tunnels (hs s j), starting (hs s j), pushers (hs s j), servers (hs s j)) /\
  (done g = true <-> done (hs s j) = true \/ j = i).
Proof.
  intros cfgs s i j. cbn. unfold upd. destruct (Nat.eqb_spec j i) as [->|N]; cbn; split; auto; [split; auto|split; auto; intros [H|H]; [exact H|congruence]].
Qed.
Print Assumptions C100_cancel.
