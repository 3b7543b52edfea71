(* More about C99: a connection on which nothing fails *)
From Coq Require Import List Bool Arith Lia.
From Verif Require Import M_AdsConn P_AdsConn.
Import ListNotations.

(* what may go wrong *)
Definition trouble (e : event) : bool := match e with Cancel | Break _ | SendFails | Response None => true | _ => false end.
Definition healthy (a : att) : Prop := broken a = None /\ first a = None /\ sn a <> SDone /\ rf a <> FDone /\ (forall r, rc a <> RDone r) /\ rc a <> Enq 0.
Lemma healthy_step s e : trouble e = false -> ctx_done s = false -> (forall a, ph s = Up a -> healthy a) -> ph s <> Stopped ->
  ctx_done (step s e) = false /\ (forall a, ph (step s e) = Up a -> healthy a) /\ ph (step s e) <> Stopped /\ ((exists a, ph s = Up a) -> exists a, ph (step s e) = Up a).
Proof.
  intros T C H S. destruct s as [p c]. cbn in C, H, S. subst c. destruct p as [|a| |]; [| | |congruence].
  - destruct e; try discriminate T; cbn; repeat split; try congruence; intros; try (destruct H0; discriminate); try (injection H0 as <-); cbn; try discriminate; try congruence.
  - specialize (H a eq_refl). destruct a as [br r n f q fi]. destruct H as (H1 & H2 & H3 & H4 & H5 & H6). cbn in H1, H2, H3, H4, H5, H6. subst br fi.
    destruct e as [| | |e| |x| | | | | | | | | | | |]; try discriminate T; cbn [step ph]; unfold step_up, up, group_done; cbn [broken rc sn rf queue first ctx_done orb];
      cases; cbn [ctx_done ph]; try discriminate; try congruence; subst;
      (split; [reflexivity|]); (split; [intros b K; injection K as <-; unfold healthy; cbn; repeat split; try congruence; intros; try congruence|]);
      (split; [discriminate|intros _; eexists; reflexivity]).
    all: exfalso; eapply H5; reflexivity.
  - destruct e; try discriminate T; cbn; repeat split; try congruence; intros; try (destruct H0; discriminate).
Qed.
(* while nothing fails a connection that was made stays, and its goroutines with it: no hang, no reconnection, no end *)
Theorem C99_healthy : forall h, forallb (fun e => negb (trouble e)) h = true ->
  ph (run start h) <> Stopped /\ (forall a, ph (run start h) = Up a -> broken a = None /\ first a = None /\ sn a <> SDone /\ rf a <> FDone /\ (forall r, rc a <> RDone r)) /\
  forall g a, forallb (fun e => negb (trouble e)) g = true -> ph (run start h) = Up a -> exists b, ph (run start (h ++ g)) = Up b.
Proof.
  assert (X : forall h s, forallb (fun e => negb (trouble e)) h = true -> ctx_done s = false -> (forall a, ph s = Up a -> healthy a) -> ph s <> Stopped ->
    ctx_done (run s h) = false /\ (forall a, ph (run s h) = Up a -> healthy a) /\ ph (run s h) <> Stopped /\ ((exists a, ph s = Up a) -> exists a, ph (run s h) = Up a)).
  { induction h as [|e h IH]; intros s F C H S; [cbn; auto|]. cbn in F. apply andb_true_iff in F. destruct F as [F1 F2]. apply negb_true_iff in F1.
    destruct (healthy_step s e F1 C H S) as (A & B & D & E). rewrite run_cons. destruct (IH _ F2 A B D) as (A' & B' & D' & E'). split; [exact A'|]. split; [exact B'|]. split; [exact D'|]. intro K. exact (E' (E K)). }
  intros h F. destruct (X h start F eq_refl) as (A & B & D & _); [discriminate|discriminate|]. split; [exact D|]. split.
  - intros a Q. destruct (B a Q) as (B1 & B2 & B3 & B4 & B5 & _). auto.
  - intros g a G Q. rewrite run_app. destruct (X g _ G A B D) as (_ & _ & _ & E). apply E. exists a. exact Q.
Qed.
Print Assumptions C99_healthy.
(* and it always can get to where all requests are sent, all API results refreshed, and the receiver waits for the next response *)
Definition calm_event (e : event) : bool := match e with ReadTop | Enqueue | Hand | Refreshed | Take | Sent => true | _ => false end.
Definition rest (s : st) : Prop := exists g, forallb calm_event g = true /\ exists a, ph (run s g) = Up a /\ rc a = Recv /\ sn a = Idle /\ rf a = Waits /\ queue a = 0.
Lemma rest_step s e : calm_event e = true -> rest (step s e) -> rest s.
Proof. intros C (g & G & a & R). exists (e :: g). cbn. rewrite C. eauto. Qed.
Ltac hop e := apply (rest_step _ e); [reflexivity|]; cbn [step ph]; unfold step_up, up, group_done; cbn [ph broken rc sn rf queue first ctx_done orb].
Notation S_ r n f q := (mkst (Up (mka None r n f q None)) false).
Lemma rest_send r f : (forall f', rest (S_ r Idle f' 0)) -> forall q, rest (S_ r Idle f q).
Proof. intros B. induction q as [|q IH]; [apply B|]. hop Take. hop Sent. exact IH. Qed.
Lemma rest_recv f : rest (S_ Recv Idle f 0) \/ f = FDone.
Proof.
  assert (X : rest (S_ Recv Idle Waits 0)) by (exists []; split; [reflexivity|]; eexists; repeat split).
  destruct f; auto. left. hop Refreshed. exact X.
Qed.
Lemma rest_top f : f <> FDone -> rest (S_ Top Idle f 0).
Proof. intro F. hop ReadTop. destruct (rest_recv f); [assumption|congruence]. Qed.
Lemma rest_notify f : f <> FDone -> rest (S_ Notify Idle f 0).
Proof. assert (X : rest (S_ Notify Idle Waits 0)) by (hop Hand; apply rest_top; discriminate). intro F. destruct f; [exact X| |congruence]. hop Refreshed. exact X. Qed.
Lemma rest_enq f : f <> FDone -> forall n, rest (S_ (Enq (S n)) Idle f 0).
Proof. intro F. induction n as [|n IH]; hop Enqueue; cbn [Nat.ltb Nat.leb capacity]; hop Take; hop Sent; [apply rest_notify, F|exact IH]. Qed.
Theorem C99_healthy_rests : forall h a, forallb (fun e => negb (trouble e)) h = true -> ph (run start h) = Up a ->
  exists g, forallb calm_event g = true /\ exists b, ph (run start (h ++ g)) = Up b /\ rc b = Recv /\ sn b = Idle /\ rf b = Waits /\ queue b = 0.
Proof.
  intros h a F Q. destruct (C99_healthy h F) as (_ & H & _). destruct (H a Q) as (H1 & H2 & H3 & H4 & H5).
  assert (H6 : rc a <> Enq 0) by exact (enq_pos h start (fun x K => ltac:(discriminate K)) a Q).
  assert (C : ctx_done (run start h) = false).
  { clear Q H H1 H2 H3 H4 H5 H6 a. assert (X : forall h s, forallb (fun e => negb (trouble e)) h = true -> ctx_done s = false -> ctx_done (run s h) = false).
    { clear h F. induction h as [|e h IH]; intros s F C; [exact C|]. cbn in F. apply andb_true_iff in F. destruct F as [F1 F2]. rewrite run_cons. apply IH; [exact F2|].
      rewrite step_ctx. destruct e; auto; discriminate. }
    apply X; [exact F|reflexivity]. }
  assert (R : rest (run start h)).
  { destruct (run start h) as [p c]. cbn in Q, C. subst p c. destruct a as [br r n f q fi]. cbn in H1, H2, H3, H4, H5, H6. subst br fi.
    assert (I : forall q0, rest (S_ r Idle f q0)).
    { induction q0 as [|q0 IH]; [|hop Take; hop Sent; exact IH]. destruct r as [| |k| |x].
      - apply rest_top, H4. - destruct (rest_recv f); [assumption|congruence]. - destruct k; [congruence|]. apply rest_enq, H4. - apply rest_notify, H4. - exfalso. apply (H5 x). reflexivity. }
    destruct n; [apply I|hop Sent; apply I|congruence]. }
  destruct R as (g & G & b & R). exists g. split; [exact G|]. exists b. rewrite run_app. exact R.
Qed.
Print Assumptions C99_healthy_rests.
Theorem C99_healthy_ex : let h := [ConnFail; Timer; ConnOk; ReadTop; Response (Some 1); Take; Enqueue] in
  forallb (fun e => negb (trouble e)) h = true /\ exists a, ph (run start h) = Up a /\ rc a = Enq 1 /\ sn a = Sending.
Proof. split; [reflexivity|]. eexists. repeat split. Qed.
Print Assumptions C99_healthy_ex.
