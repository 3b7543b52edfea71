(* More about C101: the queues of the topics *)
From Coq Require Import List String Bool Arith Lia.
From Verif Require Import M_GoStr M_Identity M_Run M_PortMap P_PortMap.
Import ListNotations.
Open Scope list_scope.

(* within a topic, what is published first is handled first: a change joins the end of its queue, the front is handled, and that
   concerns its port alone *)
Theorem C101_topic_order : forall s p,
  (forall o, live s p = None -> opens (step s (Open p o)) = opens s ++ [(p, o)] /\ releases (step s (Open p o)) = releases s /\ live (step s (Open p o)) p = Some o) /\
  (forall o, live s p = Some o -> releases (step s (Close p)) = releases s ++ [p] /\ opens (step s (Close p)) = opens s /\ live (step s (Close p)) p = None) /\
  (forall o r, opens s = (p, o) :: r -> opens (step s HandleOpen) = r /\ releases (step s HandleOpen) = releases s /\
     table (step s HandleOpen) p = Some (conf_of p o) /\ forall q, q <> p -> table (step s HandleOpen) q = table s q) /\
  (forall r, releases s = p :: r -> releases (step s HandleRelease) = r /\ opens (step s HandleRelease) = opens s /\
     table (step s HandleRelease) p = None /\ forall q, q <> p -> table (step s HandleRelease) q = table s q).
Proof.
  intros s p. split; [|split; [|split]]; intros; cbn [step]; rewrite H; cbn [live opens releases table]; rewrite ?upd_same; repeat split; intros; rewrite ?upd_other by auto; reflexivity.
Qed.
Print Assumptions C101_topic_order.
(* publishing changes neither the ports map nor the config map *)
Theorem C101_publish_only : forall s e, (exists p o, e = Open p o) \/ (exists p, e = Close p \/ e = Broken p) ->
  table (step s e) = table s /\ cm (step s e) = cm s /\ due (step s e) = due s.
Proof.
  intros s e [(p & o & ->)|(p & [->| ->])]; cbn [step]; try (destruct (live s p)); cbn; auto.
Qed.
Print Assumptions C101_publish_only.
(* a port that somebody listens on is not opened again; a port nobody listens on is not released *)
Theorem C101_exclusive : forall s p o o', live s p = Some o -> step s (Open p o') = s.
Proof. intros s p o o' L. cbn. rewrite L. reflexivity. Qed.
Print Assumptions C101_exclusive.
Theorem C101_release_once : forall s p, live s p = None -> step s (Close p) = s.
Proof. intros s p L. cbn. rewrite L. reflexivity. Qed.
Print Assumptions C101_release_once.
(* all that waits can be handled, which opens and closes nothing *)
Theorem C101_drains : forall s, exists h, (forall e, In e h -> e = HandleOpen \/ e = HandleRelease \/ e = Reconcile true) /\
  let t := run s h in opens t = [] /\ releases t = [] /\ due t = false /\ live t = live s /\ (forall p, settled p t).
Proof.
  intros s. assert (A : forall n s, List.length (opens s) = n -> let t := run s (repeat HandleOpen n) in opens t = [] /\ releases t = releases s /\ live t = live s).
  { clear. induction n as [|n IH]; intros s L; cbn [repeat]; [destruct (opens s) eqn:E; [cbn; auto|discriminate]|]. rewrite run_cons. destruct (opens s) as [|[p o] r] eqn:E; [discriminate|].
    cbn [step]. rewrite E. cbn in L. injection L as L. exact (IH (mkst (live s) r (releases s) (upd (table s) p (Some (conf_of p o))) (cm s) true) L). }
  assert (B : forall n s, List.length (releases s) = n -> let t := run s (repeat HandleRelease n) in releases t = [] /\ opens t = opens s /\ live t = live s).
  { clear. induction n as [|n IH]; intros s L; cbn [repeat]; [destruct (releases s) eqn:E; [cbn; auto|discriminate]|]. rewrite run_cons. destruct (releases s) as [|p r] eqn:E; [discriminate|].
    cbn [step]. rewrite E. cbn in L. injection L as L. exact (IH (mkst (live s) (opens s) r (upd (table s) p None) (cm s) true) L). }
  set (s1 := run s (repeat HandleOpen (List.length (opens s)))). destruct (A _ s eq_refl) as (A1 & A2 & A3). fold s1 in A1, A2, A3.
  set (s2 := run s1 (repeat HandleRelease (List.length (releases s1)))). destruct (B _ s1 eq_refl) as (B1 & B2 & B3). fold s2 in B1, B2, B3.
  exists (repeat HandleOpen (List.length (opens s)) ++ repeat HandleRelease (List.length (releases s1)) ++ [Reconcile true]). split.
  - intros e K. apply in_app_or in K. destruct K as [K|K]; [apply repeat_spec in K; auto|]. apply in_app_or in K. destruct K as [K|[K|[]]]; [apply repeat_spec in K; auto|auto].
  - cbv zeta. unfold run. rewrite !fold_left_app. fold (run s (repeat HandleOpen (List.length (opens s)))). fold s1. fold (run s1 (repeat HandleRelease (List.length (releases s1)))). fold s2.
    cbn [fold_left step]. unfold settled. destruct (due s2) eqn:D; cbn [andb opens releases due live]; rewrite ?B1, ?B2, ?A1, ?D; (repeat split; [congruence|intros o []|intros []]).
Qed.
Print Assumptions C101_drains.
