(* C102: the attribute store with a lock. *)
From Coq Require Import String List Ascii Bool Arith ZArith Lia.
From Verif Require Import M_GoStr M_Dotn M_DotnConc.
Import ListNotations.
Open Scope list_scope.

(* ---- specification: the store with no lock, one call after another; [None] when a call panics ---- *)
Fixpoint plainly (pi : gstr -> option Z) (h : list call) (m : store) : option (store * list answer) :=
  match h with
  | [] => Some (m, [])
  | CGet k :: r => match dotn_get pi m k with
                   | GSome v => match plainly pi r m with Some (m', l) => Some (m', AFound v :: l) | None => None end
                   | GNone => match plainly pi r m with Some (m', l) => Some (m', AMissing :: l) | None => None end
                   | GPanic => None
                   end
  | CSet k v :: r => match plainly pi r (dotn_set m k v) with Some (m', l) => Some (m', ADone :: l) | None => None end
  | CReset (Some d) :: r => match plainly pi r d with Some (m', l) => Some (m', ADone :: l) | None => None end
  | CReset None :: r => None (* a nil map: see below *)
  end.
Definition a_write (c : call) : Prop := match c with CGet _ => False | _ => True end.

(* when no call panics, the answers and the data are those of the store with no lock, in the order in which the lock is taken, and the lock is free at the end *)
Theorem C102_same_as_without_a_lock : forall pi h m m' l, plainly pi h m = Some (m', l) ->
  calls pi h (fresh_store (Some m)) = (fresh_store (Some m'), l).
Proof.
  intros pi h; induction h as [|[k|k v|[d|]] r IH]; intros m m' l H; cbn [plainly] in H.
  - inversion H; subst; reflexivity.
  - cbn [calls do_call]. unfold do_get. cbn [fresh_store writer waiting orb data].
    destruct (dotn_get pi m k) as [v| |]; [| |discriminate];
      destruct (plainly pi r m) as [[m1 l1]|] eqn:E; try discriminate; inversion H; subst;
      change (mkCS (Some m) 0 false false) with (fresh_store (Some m)); rewrite (IH _ _ _ E); reflexivity.
  - cbn [calls do_call]. unfold do_set. cbn.
    destruct (plainly pi r (dotn_set m k v)) as [[m1 l1]|] eqn:E; try discriminate. inversion H; subst.
    change (mkCS (Some (dotn_set m k v)) 0 false false) with (fresh_store (Some (dotn_set m k v))). rewrite (IH _ _ _ E). reflexivity.
  - cbn [calls do_call]. unfold do_reset. cbn.
    destruct (plainly pi r d) as [[m1 l1]|] eqn:E; try discriminate. inversion H; subst.
    change (mkCS (Some d) 0 false false) with (fresh_store (Some d)). rewrite (IH _ _ _ E). reflexivity.
  - discriminate.
Qed.
Print Assumptions C102_same_as_without_a_lock.

(* a history of several goroutines' calls in the order in which the lock is granted is one of the interleavings: what the caller of the last write finds *)
Theorem C102_one_answer_each : forall pi h s, length (snd (calls pi h s)) = length h.
Proof. intros pi h; induction h as [|c r IH]; intro s; cbn [calls]; [reflexivity|]. destruct (do_call pi c s) as [s1 a]. specialize (IH s1). destruct (calls pi r s1) as [s2 l]. cbn [snd length] in *. now rewrite IH. Qed.
Print Assumptions C102_one_answer_each.

Lemma calls_app : forall pi h1 h2 s, calls pi (h1 ++ h2) s = (fst (calls pi h2 (fst (calls pi h1 s))), snd (calls pi h1 s) ++ snd (calls pi h2 (fst (calls pi h1 s)))).
Proof.
  intros pi h1; induction h1 as [|c r IH]; intros h2 s; cbn [app calls].
  - cbn [fst snd app]. destruct (calls pi h2 s); reflexivity.
  - destruct (do_call pi c s) as [s1 a]. rewrite IH. destruct (calls pi r s1) as [s2 l]. reflexivity.
Qed.

(* no call blocks unless an earlier call of the history panicked *)
Lemma free_calls : forall pi h d, ~ In APanics (snd (calls pi h (fresh_store d))) -> ~ In ABlocks (snd (calls pi h (fresh_store d))) /\ exists d', fst (calls pi h (fresh_store d)) = fresh_store d'.
Proof.
  intros pi h; induction h as [|c r IH]; intros d H; cbn [calls] in *.
  - split; [intros []|exists d; reflexivity].
  - assert (D : forall a d1, do_call pi c (fresh_store d) = (fresh_store d1, a) -> a <> ABlocks -> ~ In ABlocks (snd (calls pi (c :: r) (fresh_store d))) /\ exists d', fst (calls pi (c :: r) (fresh_store d)) = fresh_store d').
    { intros a d1 E Na. cbn [calls]. rewrite E in *. specialize (IH d1). destruct (calls pi r (fresh_store d1)) as [s2 l]. cbn [snd fst] in *.
      destruct IH as [I1 I2]; [intro X; apply H; right; exact X|]. split; [intros [X|X]; [congruence|auto]|exact I2]. }
    destruct c as [k|k v|d'].
    + destruct (dotn_get pi (match d with Some m => m | None => [] end) k) as [v| |] eqn:G.
      * eapply D; [cbn [do_call]; unfold do_get; cbn [fresh_store writer waiting orb data]; rewrite G; reflexivity|discriminate].
      * eapply D; [cbn [do_call]; unfold do_get; cbn [fresh_store writer waiting orb data]; rewrite G; reflexivity|discriminate].
      * exfalso. apply H. cbn [do_call]. unfold do_get. cbn [fresh_store writer waiting orb data]. rewrite G. destruct (calls pi r _). left. reflexivity.
    + destruct d as [m|].
      * eapply D; [reflexivity|discriminate].
      * exfalso. apply H. cbn. destruct (calls pi r _). left. reflexivity.
    + eapply D; [reflexivity|discriminate].
Qed.
Theorem C102_blocked_only_after_a_panic : forall pi d h1 c h2,
  nth_error (snd (calls pi (h1 ++ c :: h2) (fresh_store d))) (length h1) = Some ABlocks ->
  In APanics (snd (calls pi h1 (fresh_store d))).
Proof.
  intros pi d h1 c h2 H.
  assert (Dec : In APanics (snd (calls pi h1 (fresh_store d))) \/ ~ In APanics (snd (calls pi h1 (fresh_store d)))).
  { generalize (snd (calls pi h1 (fresh_store d))). intro l. induction l as [|a l IHl]; [right; intros []|].
    destruct a; try (destruct IHl as [I|I]; [left; right; exact I|right; intros [X|X]; [discriminate|auto]]). left; left; reflexivity. }
  destruct Dec as [Y|N]; [exact Y|exfalso].
  rewrite calls_app in H. cbn [snd] in H. rewrite nth_error_app2 in H by (rewrite C102_one_answer_each; lia).
  rewrite C102_one_answer_each, Nat.sub_diag in H.
  destruct (free_calls pi h1 d N) as [_ [d1 E]]. rewrite E in H. cbn [calls] in H.
  destruct (do_call pi c (fresh_store d1)) as [s1 a] eqn:Ec. destruct (calls pi h2 s1) as [s2 l]. cbn in H. injection H as ->.
  destruct c as [k|k v|d']; cbn [do_call] in Ec.
  - unfold do_get in Ec. cbn [fresh_store writer waiting orb data] in Ec. destruct (dotn_get pi _ k); discriminate.
  - unfold do_set in Ec. cbn in Ec. destruct d1; discriminate.
  - unfold do_reset in Ec. cbn in Ec. discriminate.
Qed.
Print Assumptions C102_blocked_only_after_a_panic.

(* a nil map can be read: nothing is found, nothing panics *)
Theorem C102_nil_map_reads : forall pi k, exists s, do_get pi k (fresh_store None) = (s, AMissing) /\ s = fresh_store None.
Proof.
  intros pi k. eexists; split; [|reflexivity]. unfold do_get. cbn [fresh_store writer waiting orb data].
  assert (E : dotn_get pi [] k = GNone). { unfold dotn_get. destruct (gsplit DOT (unescape k)); reflexivity. } rewrite E. reflexivity.
Qed.
Print Assumptions C102_nil_map_reads.

(* ---- where it fails: the locks are released without defer ---- *)
Lemma held_writer : forall pi h s, writer s = true -> snd (calls pi h s) = map (fun _ => ABlocks) h /\ data (fst (calls pi h s)) = data s /\ writer (fst (calls pi h s)) = true.
Proof.
  intros pi h; induction h as [|c r IH]; intros s W; cbn [calls map]; [auto|].
  assert (E : exists s1, do_call pi c s = (s1, ABlocks) /\ data s1 = data s /\ writer s1 = true).
  { destruct c; cbn [do_call]; unfold do_get, do_set, do_reset, write_blocks; rewrite W; cbn [orb]; eexists; repeat split; exact W. }
  destruct E as [s1 [E [D1 W1]]]. rewrite E. destruct (IH s1 W1) as [A [B C]]. destruct (calls pi r s1) as [s2 l]. cbn [fst snd] in *. rewrite A, B. auto.
Qed.
(* a write to a store made from a nil map panics with the write lock held: every call after it blocks, for ever *)
Theorem C102_nil_map_write_locks_for_ever_refuted : forall pi k v h,
  snd (calls pi (CSet k v :: h) (fresh_store None)) = APanics :: map (fun _ => ABlocks) h.
Proof. intros. cbn [calls do_call]. unfold do_set. cbn. pose proof (held_writer pi h (mkCS None 0 true false) eq_refl) as [E _]. destruct (calls pi h _) as [s2 l]. cbn [snd] in *. rewrite E. reflexivity. Qed.
Print Assumptions C102_nil_map_write_locks_for_ever_refuted.

(* the same after a Reset to a nil map, whatever was there *)
Theorem C102_reset_to_nil_then_write_refuted : forall pi m k v h,
  snd (calls pi (CReset None :: CSet k v :: h) (fresh_store (Some m))) = ADone :: APanics :: map (fun _ => ABlocks) h.
Proof. intros. pose proof (C102_nil_map_write_locks_for_ever_refuted pi k v h) as E. cbn [calls do_call] in *. unfold do_reset, do_set in *. cbn in *. destruct (calls pi h _) as [s2 l]. cbn [snd] in *. now rewrite E. Qed.
Print Assumptions C102_reset_to_nil_then_write_refuted.

Lemma leaked_reader : forall pi h s, 0 < readers s -> data (fst (calls pi h s)) = data s /\ 0 < readers (fst (calls pi h s)).
Proof.
  intros pi h; induction h as [|c r IH]; intros s R; cbn [calls]; [auto|].
  assert (E : exists s1 a, do_call pi c s = (s1, a) /\ data s1 = data s /\ 0 < readers s1).
  { assert (L : (0 <? readers s) = true) by (apply Nat.ltb_lt; lia).
    destruct c as [k|k v|d]; cbn [do_call]; unfold do_get, do_set, do_reset, write_blocks; rewrite ?L, ?orb_true_r.
    - destruct (writer s || waiting s); [eexists; eexists; repeat split; exact R|].
      destruct (dotn_get pi _ k); eexists; eexists; repeat split; cbn; lia.
    - eexists; eexists; repeat split; exact R.
    - eexists; eexists; repeat split; exact R. }
  destruct E as [s1 [a [E [D1 R1]]]]. rewrite E. destruct (IH s1 R1) as [A B]. destruct (calls pi r s1) as [s2 l]. cbn [fst] in *. rewrite A. auto.
Qed.
Lemma waiting_blocks : forall pi h s, waiting s = true -> snd (calls pi h s) = map (fun _ => ABlocks) h.
Proof.
  intros pi h; induction h as [|c r IH]; intros s W; cbn [calls map]; [auto|].
  assert (E : exists s1, do_call pi c s = (s1, ABlocks) /\ waiting s1 = true).
  { destruct c; cbn [do_call]; unfold do_get, do_set, do_reset, write_blocks; rewrite W; rewrite ?orb_true_r; cbn [orb]; eexists; repeat split; exact W. }
  destruct E as [s1 [E W1]]. rewrite E. specialize (IH s1 W1). destruct (calls pi r s1) as [s2 l]. cbn [snd] in *. now rewrite IH.
Qed.
(* once a Get has panicked, no write ever takes effect again, the first write blocks, and after it every call blocks, reads included *)
Theorem C102_panicking_get_stops_all_writes_refuted : forall pi m k h1 w h2,
  dotn_get pi m k = GPanic -> a_write w ->
  data (fst (calls pi (CGet k :: h1 ++ w :: h2) (fresh_store (Some m)))) = Some m /\
  exists l1, length l1 = length h1 /\
    snd (calls pi (CGet k :: h1 ++ w :: h2) (fresh_store (Some m))) = APanics :: l1 ++ ABlocks :: map (fun _ => ABlocks) h2.
Proof.
  intros pi m k h1 w h2 G W.
  assert (E0 : do_call pi (CGet k) (fresh_store (Some m)) = (mkCS (Some m) 1 false false, APanics)).
  { cbn [do_call]. unfold do_get. cbn [fresh_store writer waiting orb data]. rewrite G. reflexivity. }
  cbn [calls]. rewrite E0. destruct (leaked_reader pi (h1 ++ w :: h2) (mkCS (Some m) 1 false false) (le_n 1)) as [D _].
  destruct (calls pi (h1 ++ w :: h2) _) as [s2 l] eqn:E. cbn [fst snd] in *. split; [exact D|].
  exists (snd (calls pi h1 (mkCS (Some m) 1 false false))). split; [apply C102_one_answer_each|].
  rewrite calls_app in E. injection E as _ <-. f_equal. f_equal.
  destruct (leaked_reader pi h1 (mkCS (Some m) 1 false false) (le_n 1)) as [_ R].
  set (s := fst (calls pi h1 (mkCS (Some m) 1 false false))) in *.
  assert (B : do_call pi w s = (blocked_writer s, ABlocks)).
  { assert (L : (0 <? readers s) = true) by (apply Nat.ltb_lt; lia).
    destruct w as [k'|k' v|d]; [destruct W| |]; cbn [do_call]; unfold do_set, do_reset, write_blocks; rewrite L, orb_true_r; reflexivity. }
  cbn [calls]. rewrite B. pose proof (waiting_blocks pi h2 (blocked_writer s) eq_refl) as Q. destruct (calls pi h2 (blocked_writer s)) as [s3 l3]. cbn [snd] in *. now rewrite Q.
Qed.
Print Assumptions C102_panicking_get_stops_all_writes_refuted.

(* that is reached with an ordinary list attribute and the index -1 *)
Theorem C102_panicking_get_is_reachable_refuted : forall pi l v, pi (lit "-1") = Some (-1)%Z ->
  snd (calls pi [CSet (lit "a") (VArr l); CGet (lit "a.-1"); CSet (lit "b") v; CGet (lit "b")] (fresh_store (Some []))) = [ADone; APanics; ABlocks; ABlocks].
Proof.
  intros pi l v H.
  assert (G : dotn_get pi (dotn_set [] (lit "a") (VArr l)) (lit "a.-1") = GPanic).
  { change (dotn_get pi (dotn_set [] (lit "a") (VArr l)) (lit "a.-1")) with (match pi (lit "-1") with None => GNone | Some ip => if (Z.of_nat (length l) <? ip + 1)%Z then GNone else if (ip <? 0)%Z then GPanic else match nth_error l (Z.to_nat ip) with Some v => GSome v | None => GPanic end end).
    rewrite H. change (-1 + 1)%Z with 0%Z. destruct (Z.ltb_spec (Z.of_nat (length l)) 0); [lia|reflexivity]. }
  pose proof (C102_panicking_get_stops_all_writes_refuted pi (dotn_set [] (lit "a") (VArr l)) (lit "a.-1") [] (CSet (lit "b") v) [CGet (lit "b")] G I) as [_ [l1 [L1 E]]].
  destruct l1; [|discriminate]. remember [CGet (lit "a.-1"); CSet (lit "b") v; CGet (lit "b")] as h eqn:Eh.
  cbn [calls do_call]. unfold do_set at 1. cbn [write_blocks fresh_store writer waiting readers orb data Nat.ltb Nat.leb].
  change (mkCS (Some (dotn_set [] (lit "a") (VArr l))) 0 false false) with (fresh_store (Some (dotn_set [] (lit "a") (VArr l)))).
  cbn [app map] in E. rewrite <- Eh in E. destruct (calls pi h _) as [s2 l2]. cbn [snd] in *. now rewrite E.
Qed.
Print Assumptions C102_panicking_get_is_reachable_refuted.

(* a run in which everything works *)
Theorem C102_concrete : forall pi v, snd (calls pi [CSet (lit "a.b") (VScalar v); CGet (lit "a.b"); CGet (lit "x"); CReset (Some []); CGet (lit "a.b")] (fresh_store (Some []))) = [ADone; AFound (VScalar v); AMissing; ADone; AMissing].
Proof. intros. rewrite (C102_same_as_without_a_lock pi _ [] [] [ADone; AFound (VScalar v); AMissing; ADone; AMissing]); reflexivity. Qed.
Print Assumptions C102_concrete.
