(* Theorems added after wrong programs that the earlier ones let pass (batch 18): C98 *)
From Coq Require Import List Bool Arith ZArith.
From Verif Require Import M_GoStr M_Integration M_Pusher.
Import ListNotations.

(* whose event it is; the gateway's events are nobody's *)
Definition actor (e : event) : option nat :=
  match e with Tick i _ => Some i | Answer i => Some i | Cancel i => Some i | Delete i _ => Some i | Exit i => Some i | Arrives _ | Lost _ => None end.
(* an instance runs, stops and ends by its own events alone, and only its own cancellation cancels it *)
Theorem C98_independent : forall keys s e j, actor e <> Some j -> pcs (step keys s e) j = pcs s j /\ cancelled (step keys s e) j = cancelled s j.
Proof.
  intros keys s e j N. assert (U : forall X (f : nat -> X) i x, i <> j -> upd f i x j = f j).
  { intros X f i x K. unfold upd. destruct (Nat.eqb_spec j i); congruence. }
  destruct e; cbn in N |- *; assert (K : forall i, Some i <> Some j -> i <> j) by congruence;
    repeat (match goal with |- context [match ?x with _ => _ end] => lazymatch x with context [match _ with _ => _ end] => fail | _ => destruct x end end; cbn);
    rewrite ?U by auto; auto.
Qed.
Print Assumptions C98_independent.
Theorem C98_cancelled_only : forall keys s e j, cancelled (step keys s e) j = true <-> cancelled s j = true \/ e = Cancel j.
Proof.
  intros keys s e j. destruct e; cbn;
    repeat (match goal with |- context [match ?x with _ => _ end] => lazymatch x with context [match _ with _ => _ end] => fail | _ => destruct x end end; cbn);
    try (split; [auto|intros [H|H]; [exact H|discriminate]]).
  unfold upd. destruct (Nat.eqb_spec j i) as [->|N]; split; auto. intros [H|H]; [exact H|congruence].
Qed.
Print Assumptions C98_cancelled_only.
(* a running instance goes on: its exit takes nothing from another, whose next tick sends *)
Theorem C98_independent_ex : forall keys v, flying (run keys start [Exit 0; Tick 1 v]) = [(1, v)] /\ pcs (run keys start [Exit 0; Tick 1 v]) 1 = Pushing.
Proof. intros. split; reflexivity. Qed.
Print Assumptions C98_independent_ex.
