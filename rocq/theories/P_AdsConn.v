(* C99: proofs about M_AdsConn.v *)
From Coq Require Import List Bool Arith Lia.
From Verif Require Import M_AdsConn.
Import ListNotations.

Lemma run_cons s e h : run s (e :: h) = run (step s e) h. Proof. reflexivity. Qed.
Lemma run_app s g h : run s (g ++ h) = run (run s g) h. Proof. apply fold_left_app. Qed.
Ltac cases := repeat (match goal with
  | |- context [match ?x with _ => _ end] => lazymatch x with context [match _ with _ => _ end] => fail | _ => destruct x eqn:? end
  end; cbn [broken rc sn rf queue first]).

(* what holds of every connection *)
Definition inv_att (h : list event) (c : bool) (a : att) : Prop :=
  (broken a = Some Canceled -> In (Break Canceled) h) /\
  (first a = Some Canceled -> c = true \/ broken a = Some Canceled) /\
  (sn a = SDone -> first a <> None) /\ (rf a = FDone -> first a <> None) /\ (forall e, rc a = RDone (Some e) -> first a <> None) /\
  queue a <= capacity.
Definition inv_ph (h : list event) (c : bool) (p : phase) : Prop :=
  match p with Up a => inv_att h c a | Stopped => c = true \/ In (Break Canceled) h | _ => True end.
Definition inv (h : list event) (s : st) : Prop := (ctx_done s = true -> In Cancel h) /\ inv_ph h (ctx_done s) (ph s).

Lemma step_ctx s e : ctx_done (step s e) = match e with Cancel => true | _ => ctx_done s end.
Proof. destruct s as [p c]. destruct e, p; cbn; unfold step_up, up; cases; cbn; congruence. Qed.
Lemma inv_more h x c a : inv_att h c a -> inv_att (h ++ [x]) c a.
Proof. intros (A & B). split; [intro Q; apply in_or_app; auto|exact B]. Qed.
Lemma inv_up h c a e : inv_att h c a -> e <> Cancel -> inv_ph (h ++ [e]) c (ph (step_up (mkst (Up a) c) a e)).
Proof.
  intros I N. pose proof (inv_more h e c a I) as I'. destruct a as [br r n f q fi].
  assert (L : In e (h ++ [e])) by (apply in_or_app; right; left; reflexivity).
  destruct e; try (exact I'); try congruence; unfold step_up, up, note, group_done; cbn [broken rc sn rf queue first ctx_done];
    cases; cbn [ph inv_ph]; try exact I';
    destruct I' as (B1 & B2 & B3 & B4 & B5 & B6); cbn [broken rc sn rf queue first] in *;
    repeat match goal with H : (_ <? _) = true |- _ => apply Nat.ltb_lt in H | H : _ || _ = true |- _ => apply orb_true_iff in H end; subst; auto;
    unfold inv_att; cbn [broken rc sn rf queue first];
    repeat split; intros; try discriminate; try congruence; auto; try (unfold capacity in *; lia); try (left; congruence); try (eapply B5; eauto; fail).
  all: repeat match goal with H : Some _ = Some _ |- _ => injection H as H; subst end; auto; try discriminate.
  all: try (destruct B2 as [X|X]; congruence).
  all: try (destruct B2 as [X|X]; [congruence|left; exact X|right; apply B1; exact X]).
  all: try (destruct B2 as [X|X]; [congruence|left; exact X|discriminate]).
  all: try (destruct B2 as [X|X]; [congruence|left; exact X|right; auto]).
  all: try (match goal with H : _ \/ false = true |- _ => destruct H; [left; assumption|discriminate] end).
  all: try (exfalso; apply (B3 eq_refl); reflexivity).
Qed.
Lemma inv_step h s e : inv h s -> inv (h ++ [e]) (step s e).
Proof.
  intros [A B]. assert (W : forall x, In x h -> In x (h ++ [e])) by (intros; apply in_or_app; auto).
  assert (L : In e (h ++ [e])) by (apply in_or_app; right; left; reflexivity). split.
  - rewrite step_ctx. destruct e; intro Q; auto.
  - rewrite step_ctx. destruct s as [p c]. cbn [ph ctx_done] in *. destruct p as [|a| |].
    + destruct e; cbn; auto; destruct c; cbn; auto. unfold inv_att, fresh, capacity; cbn. repeat split; try discriminate. lia.
    + destruct e; try (apply (inv_up h c a _ B); discriminate). cbn. apply (inv_more h Cancel) in B. destruct B as (B1 & B2 & B3). split; [exact B1|]. split; [auto|exact B3].
    + destruct e; cbn; auto; destruct c; cbn; auto.
    + destruct e; cbn; destruct B as [B|B]; auto.
Qed.
Lemma inv_run h : forall g s, inv g s -> inv (g ++ h) (run s h).
Proof.
  induction h as [|e h IH]; intros g s I; [rewrite app_nil_r; exact I|]. rewrite run_cons.
  replace (g ++ e :: h) with ((g ++ [e]) ++ h) by (rewrite <- app_assoc; reflexivity). apply IH, inv_step, I.
Qed.
Lemma inv_all h : inv h (run start h).
Proof. apply (inv_run h []). split; cbn; [discriminate|exact I]. Qed.

(* the loop ends only after the user's context or a stream that ended with Canceled *)
Theorem C99_stops_only : forall h, ph (run start h) = Stopped -> In Cancel h \/ In (Break Canceled) h.
Proof. intros h S. destruct (inv_all h) as [A B]. rewrite S in B. destruct B as [B|B]; auto. Qed.
Print Assumptions C99_stops_only.

(* a connection that ends for another reason is followed by the next attempt, which begins with a fresh connection *)
Theorem C99_next_attempt : forall s a r, ph s = Up a -> rc a = RDone r -> sn a = SDone -> rf a = FDone -> ctx_done s = false -> first a = Some Other ->
  ph (step s WaitReturns) = Waiting /\ ph (run s [WaitReturns; Timer; ConnOk]) = Up fresh /\ ph (run s [WaitReturns; Timer; ConnFail]) = Waiting.
Proof. intros [p c] a r Q A B C D E. cbn in *. subst. unfold step_up. cbn. rewrite A, B, C, E. cbn. auto. Qed.
Print Assumptions C99_next_attempt.

(* no connection after the user's context is done *)
Theorem C99_canceled_final : forall h s, ctx_done s = true -> (forall a, ph s <> Up a) -> forall a, ph (run s h) <> Up a.
Proof.
  induction h as [|e h IH]; intros s C N; [exact N|]. rewrite run_cons. apply IH.
  - rewrite step_ctx. destruct e; auto.
  - destruct s as [p c]. cbn in *. subst c. destruct p; try (exfalso; eapply N; reflexivity); destruct e; cbn; intros; congruence.
Qed.
Print Assumptions C99_canceled_final.
Theorem C99_stopped_final : forall h s, ph s = Stopped -> ph (run s h) = Stopped.
Proof.
  induction h as [|e h IH]; intros s C; [exact C|]. rewrite run_cons. apply IH. destruct s as [p c]. cbn in *. subst p. destruct e; reflexivity.
Qed.
Print Assumptions C99_stopped_final.
Theorem C99_queue : forall h a, ph (run start h) = Up a -> queue a <= 100.
Proof. intros h a Q. destruct (inv_all h) as [A B]. rewrite Q in B. apply B. Qed.
Print Assumptions C99_queue.

(* nobody takes the note of the receiver any more: it waits for ever *)
Definition deadlocked (a : att) : Prop := rf a = FDone /\ (rc a = Notify \/ exists n, rc a = Enq n).
Theorem C99_deadlock_refuted : forall h s a, ph s = Up a -> deadlocked a -> exists b, ph (run s h) = Up b /\ deadlocked b.
Proof.
  induction h as [|e h IH]; intros s a Q D; [exists a; auto|]. rewrite run_cons. destruct s as [p c]. cbn in Q. subst p.
  assert (X : exists b, ph (step (mkst (Up a) c) e) = Up b /\ deadlocked b).
  { destruct a as [br r n f q fi]. destruct D as [F R]. cbn in F, R. subst f.
    destruct e; cbn [step]; unfold step_up, up; cbn [ph broken rc sn rf queue first ctx_done]; cases; cbn [ph];
      try (eexists; split; [reflexivity|split; cbn; [reflexivity|auto]]; fail); subst; destruct R as [R|[m R]]; try discriminate;
      (eexists; split; [reflexivity|split; cbn; [reflexivity|]]); eauto. }
  destruct X as (b & X & Y). exact (IH _ b X Y).
Qed.
Print Assumptions C99_deadlock_refuted.
(* it is reached while the user's context is alive, when an answer cannot be sent, and when that context ends *)
Theorem C99_deadlock_refuted_reached : 
  (exists a, run start [ConnOk; ReadTop; Response (Some 0); Take; SendFails; RefreshStop; Enqueue] = mkst (Up a) false /\ deadlocked a) /\
  (exists a, run start [ConnOk; ReadTop; Response (Some 1); Cancel; RefreshStop] = mkst (Up a) true /\ deadlocked a).
Proof. split; eexists; (split; [reflexivity|]); split; cbn; eauto. Qed.
Print Assumptions C99_deadlock_refuted_reached.

(* a response of an unsupported type: the connection stays, nothing is received any more *)
Definition deaf (a : att) : Prop := rc a = RDone None /\ sn a = Idle /\ queue a = 0 /\ first a = None /\ rf a <> FDone.
Theorem C99_deaf_refuted : forall h s a, ph s = Up a -> ctx_done s = false -> deaf a -> ~ In Cancel h -> exists b, ph (run s h) = Up b /\ deaf b.
Proof.
  induction h as [|e h IH]; intros s a Q C D N; [exists a; auto|]. rewrite run_cons. destruct s as [p c]. cbn in Q, C. subst p c.
  assert (X : exists b, ph (step (mkst (Up a) false) e) = Up b /\ deaf b).
  { destruct a as [br r n f q fi]. destruct D as (D1 & D2 & D3 & D4 & D5). cbn in D1, D2, D3, D4, D5. subst.
    destruct e; cbn [step]; unfold step_up, up, group_done; cbn [ph broken rc sn rf queue first ctx_done orb]; cases; cbn [ph];
      try (exfalso; apply N; left; reflexivity); try congruence;
      (eexists; split; [reflexivity|repeat split; cbn; auto; discriminate]). }
  destruct X as (b & X & Y). apply (IH _ b X); auto.
  - rewrite step_ctx. destruct e; auto. exfalso. apply N. left. reflexivity.
  - intro K. apply N. right. exact K.
Qed.
Print Assumptions C99_deaf_refuted.
Theorem C99_deaf_refuted_reached : exists a, run start [ConnOk; Take; Sent; Take; Sent; Take; Sent; ReadTop; Response None] = mkst (Up a) false /\ deaf a.
Proof.
  exists (mka None (RDone None) Idle Waits 0 None). split; [vm_compute; reflexivity|]. unfold deaf. cbn. repeat split. discriminate.
Qed.
Print Assumptions C99_deaf_refuted_reached.

(* a stream that ends with Canceled is the end, though the user's context is not done *)
Theorem C99_canceled_status_refuted : run start [ConnOk; ReadTop; Break Canceled; RecvFails; SendStop; RefreshStop; WaitReturns] = mkst Stopped false.
Proof. reflexivity. Qed.
Print Assumptions C99_canceled_status_refuted.

(* otherwise a connection whose stream has ended can always be given up *)
Definition internal (e : event) : bool := match e with Cancel | Break _ | Response _ | ConnFail | ConnOk | Timer | CtxWake => false | _ => true end.
Definition can (s : st) : Prop := exists h, forallb internal h = true /\ (ph (run s h) = Waiting \/ ph (run s h) = Stopped).
Lemma can_step s e : internal e = true -> can (step s e) -> can s.
Proof. intros I (h & H & K). exists (e :: h). cbn. rewrite I, H. auto. Qed.
Lemma can_done c br r q fi : can (mkst (Up (mka br (RDone r) SDone FDone q fi)) c).
Proof. exists [WaitReturns]. split; [reflexivity|]. cbn. unfold step_up; cbn. destruct fi as [[|]|], c; cbn; auto. Qed.
Ltac go e := apply (can_step _ e); [reflexivity|]; cbn [step step_up ph broken rc sn rf queue first ctx_done up group_done orb note]; unfold step_up, up, group_done, note; cbn [ph broken rc sn rf queue first ctx_done orb].
Definition gd (c : bool) (fi : option err) : bool := c || match fi with Some _ => true | None => false end.
Lemma can_ref c br r f q fi : gd c fi = true -> can (mkst (Up (mka br (RDone r) SDone f q fi)) c).
Proof.
  unfold gd. intro G. assert (X : forall q, can (mkst (Up (mka br (RDone r) SDone Waits q fi)) c)).
  { intro q0. go RefreshStop. rewrite G. apply can_done. }
  destruct f; [apply X| |apply can_done]. go Refreshed. apply X.
Qed.
Lemma can_snd c br r n f q fi : gd c fi = true -> can (mkst (Up (mka br (RDone r) n f q fi)) c).
Proof.
  intro G. destruct n; [| |apply can_ref, G].
  - go SendStop. unfold gd in G. rewrite G. apply can_ref. unfold gd. destruct fi; apply orb_true_r.
  - go SendFails. apply can_ref. unfold gd. destruct fi; apply orb_true_r.
Qed.
Lemma can_top c br n f q fi : (c = true \/ br <> None) -> can (mkst (Up (mka br Top n f q fi)) c) /\ can (mkst (Up (mka br Recv n f q fi)) c).
Proof.
  intro B. assert (X : can (mkst (Up (mka br Recv n f q fi)) c)).
  { go RecvFails. destruct c; [apply can_snd; unfold gd; destruct fi; reflexivity|]. destruct B as [B|B]; [discriminate|]. destruct br as [e|]; [|congruence].
    apply can_snd. unfold gd. destruct fi; reflexivity. }
  split; [|exact X]. go ReadTop. match goal with |- context [if ?x then _ else _] => destruct x eqn:G end; [|exact X]. apply can_snd. unfold gd. destruct fi; apply orb_true_r.
Qed.
Lemma can_notify c br n f q fi : (c = true \/ br <> None) -> f <> FDone -> can (mkst (Up (mka br Notify n f q fi)) c).
Proof.
  intros B F. assert (X : forall q, can (mkst (Up (mka br Notify n Waits q fi)) c)) by (intro q0; go Hand; apply can_top, B).
  destruct f; [apply X| |congruence]. go Refreshed. apply X.
Qed.
Lemma can_enq c br n f fi : forall k q, (c = true \/ br <> None) -> f <> FDone -> q + S k <= capacity -> can (mkst (Up (mka br (Enq (S k)) n f q fi)) c).
Proof.
  induction k as [|k IH]; intros q B F R; go Enqueue.
  - destruct (q <? capacity) eqn:E; [apply can_notify; auto|apply Nat.ltb_ge in E; lia].
  - destruct (q <? capacity) eqn:E; [|apply Nat.ltb_ge in E; lia]. apply IH; auto. lia.
Qed.
Lemma can_end : forall s a, ph s = Up a -> ctx_done s = true \/ broken a <> None -> ~ deadlocked a -> ~ (ctx_done s = false /\ deaf a) ->
  (forall n, rc a = Enq n -> n <> 0 /\ queue a + n <= 100) -> (sn a = SDone -> first a <> None) -> (rf a = FDone -> first a <> None) -> (forall e, rc a = RDone (Some e) -> first a <> None) -> can s.
Proof.
  intros [p c] a Q B D F R S1 S2 S3. cbn in *. subst p. destruct a as [br r n f q fi]. cbn in *. destruct r as [| |k| |r].
  - apply can_top; auto. - apply can_top; auto.
  - destruct (R k eq_refl) as [R1 R2]. destruct k as [|k]; [congruence|]. apply can_enq; auto. intro K. apply D. split; cbn; eauto.
  - apply can_notify; auto. intro K. apply D. split; cbn; auto.
  - destruct (gd c fi) eqn:G; [apply can_snd, G|]. unfold gd in G. apply orb_false_iff in G. destruct G as [-> G]. destruct fi; [discriminate|].
    assert (X : forall q, can (mkst (Up (mka br (RDone r) Sending f q None)) false)) by (intro q0; go SendFails; apply can_ref; reflexivity).
    destruct n; [| apply X |exfalso; apply S1; reflexivity].
    destruct q as [|q]; [|go Take; apply X]. exfalso. destruct r as [e|].
    + apply (S3 e eq_refl). reflexivity.
    + apply F. split; [reflexivity|]. repeat split; cbn. intro K. apply (S2 K). reflexivity.
Qed.
(* requests that the receiver still has to enqueue *)
Definition pending (a : att) : nat := match rc a with Enq n => n | _ => 0 end.
Lemma enq_pos : forall h s, (forall a, ph s = Up a -> rc a <> Enq 0) -> forall a, ph (run s h) = Up a -> rc a <> Enq 0.
Proof.
  induction h as [|e h IH]; intros s K; [exact K|]. rewrite run_cons. apply IH. destruct s as [p c]. cbn [ph] in K. intros a. destruct p as [|b| |].
  - destruct e; cbn; try congruence; destruct c; cbn; intro Q; try congruence. injection Q as <-. discriminate.
  - specialize (K b eq_refl). destruct b as [br r n f q fi]. cbn in K. destruct e; cbn [step ph]; unfold step_up, up; cbn [broken rc sn rf queue first ctx_done ph];
      cases; cbn [ph]; intro Q; try discriminate; injection Q as <-; cbn; congruence.
  - destruct e; cbn; try congruence; destruct c; cbn; congruence.
  - destruct e; cbn; congruence.
Qed.
Theorem C99_ends : forall h a, let s := run start h in ph s = Up a -> ctx_done s = true \/ broken a <> None ->
  ~ deadlocked a -> ~ (ctx_done s = false /\ deaf a) -> queue a + pending a <= 100 ->
  exists g, forallb internal g = true /\ (ph (run s g) = Waiting \/ ph (run s g) = Stopped).
Proof.
  intros h a s Q B D F R. destruct (inv_all h) as [_ I]. fold s in I. rewrite Q in I. destruct I as (_ & _ & I3 & I4 & I5 & _).
  apply (can_end s a Q B D F); auto. intros n E. unfold pending in R. rewrite E in R. split; [|exact R].
  intros ->. exact (enq_pos h start (fun a H => ltac:(discriminate H)) a Q E).
Qed.
Print Assumptions C99_ends.
Theorem C99_ends_ex : ph (run start [ConnOk; ReadTop; Break Other; Response (Some 1); Take; SendFails; Enqueue; Enqueue; Hand; Refreshed; RefreshStop; ReadTop; WaitReturns; Timer; ConnOk]) = Up fresh.
Proof. reflexivity. Qed.
Print Assumptions C99_ends_ex.
(* exactly one receiver answers: each response of a known type leads to its answer and its further requests, then to one refresh *)
Theorem C99_answered : forall k s a, ph s = Up a -> rc a = Recv -> rf a = Waits -> sn a = Idle -> broken a = None -> ctx_done s = false -> queue a = 0 -> k < 100 ->
  let s' := run s (Response (Some k) :: repeat Enqueue (S k)) in
  ph s' = Up (mka None Notify Idle Waits (S k) (first a)) /\ ph (step s' Hand) = Up (mka None Top Idle Refreshing (S k) (first a)).
Proof.
  intros k [p c] a Q R1 R2 R3 R4 C R5 K. cbn in Q, C. subst p c. destruct a as [br r n f q fi]. cbn in R1, R2, R3, R4, R5. subst.
  intro s'. change s' with (run (mkst (Up (mka None (Enq (S k)) Idle Waits 0 fi)) false) (repeat Enqueue (S k))). clear s'.
  assert (X : forall k q, q + S k <= 100 -> run (mkst (Up (mka None (Enq (S k)) Idle Waits q fi)) false) (repeat Enqueue (S k)) = mkst (Up (mka None Notify Idle Waits (q + S k) fi)) false).
  { clear. induction k as [|k IH]; intros q L; cbn [repeat]; rewrite run_cons; cbn [step ph]; unfold step_up; cbn [rc broken sn rf queue first ctx_done up];
      (destruct (q <? capacity) eqn:E; [|apply Nat.ltb_ge in E; unfold capacity in E; lia]).
    - cbn. rewrite Nat.add_1_r. reflexivity.
    - change (repeat Enqueue (S k)) with (Enqueue :: repeat Enqueue k) in IH. cbn [repeat]. rewrite <- (Nat.add_succ_comm q (S k)). apply IH. lia. }
  rewrite X by lia. cbn. auto.
Qed.
Print Assumptions C99_answered.
