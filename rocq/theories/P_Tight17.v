(* Theorems added after wrong programs that the earlier ones let pass (batch 19): C99 *)
From Coq Require Import List Bool Arith.
From Verif Require Import M_AdsConn.
Import ListNotations.

(* a new connection: the three subscriptions wait to be sent, in a queue with room for all answers; they can all be sent before
   anything else happens, and no fourth *)
Theorem C99_first_requests : forall s, ph s = Connecting -> ctx_done s = false ->
  (exists a, step s ConnOk = mkst (Up a) false /\ queue a = 3 /\ broken a = None /\ first a = None /\ rc a = Top /\ sn a = Idle /\ rf a = Waits) /\
  (exists b, run s [ConnOk; Take; Sent; Take; Sent; Take; Sent] = mkst (Up b) false /\ queue b = 0 /\ rc b = Top /\ sn b = Idle /\
     run s [ConnOk; Take; Sent; Take; Sent; Take; Sent; Take] = mkst (Up b) false).
Proof. intros [p c] P C. cbn in P, C. subst. split; eexists; repeat split. Qed.
Print Assumptions C99_first_requests.
(* when the user's context is done, the end of a connection, or the wait for the next, is the end of the loop *)
Theorem C99_done_stops : forall s, ctx_done s = true ->
  (forall a r, ph s = Up a -> rc a = RDone r -> sn a = SDone -> rf a = FDone -> ph (step s WaitReturns) = Stopped) /\
  (ph s = Waiting -> ph (step s CtxWake) = Stopped) /\ (ph s = Connecting -> ph (step s ConnFail) = Stopped /\ ph (step s ConnOk) = Connecting).
Proof.
  intros [p c] C. cbn in C. subst c. split; [|split].
  - intros a r P A B D. cbn in P. subst p. cbn [step ph]. unfold step_up. rewrite A, B, D. destruct (first a) as [[|]|]; reflexivity.
  - cbn. intros ->. reflexivity.
  - cbn. intros ->. split; reflexivity.
Qed.
Print Assumptions C99_done_stops.
