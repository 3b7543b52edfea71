(* C36, C37, C61: hand-over of tunnelled streams, error reporting to the client, client listeners. *)
From Coq Require Import String List Bool Arith ZArith Lia.
From Verif Require Import M_GoMap M_Tunnel.
Import ListNotations.
Open Scope nat_scope.

Lemma bset_nth : forall l j y i x z, nth_error l j = Some z -> nth_error (bset l j y) i = Some x -> (i = j /\ x = y) \/ (i <> j /\ nth_error l i = Some x).
Proof.
  induction l as [|w l IH]; intros [|j] y [|i] x z H H0; cbn in *; try discriminate.
  - left. split; congruence.
  - right. split; [lia|assumption].
  - right. split; [lia|assumption].
  - destruct (IH j y i x z H H0) as [[-> ->]|[Hn Hq]]; [now left|right; split; [lia|assumption]].
Qed.
Lemma bset_other : forall l j y i, i <> j -> nth_error (bset l j y) i = nth_error l i.
Proof. induction l as [|w l IH]; intros [|j] y [|i] H; cbn; try reflexivity; try congruence. apply IH. congruence. Qed.
Definition sumb (f : bjob -> nat) (l : list bjob) : nat := fold_right (fun x n => f x + n) 0 l.
Lemma sumb_app : forall f a b, sumb f (a ++ b) = sumb f a + sumb f b.
Proof. intros f a b. unfold sumb. induction a as [|x a IH]; cbn; [reflexivity|]. rewrite IH. lia. Qed.
Lemma sumb_set : forall f l j x y, nth_error l j = Some x -> sumb f (bset l j y) + f x = sumb f l + f y.
Proof.
  intros f l. unfold sumb. induction l as [|z l IH]; intros [|j] x y H; cbn in H; try discriminate; cbn.
  - injection H as ->. lia.
  - specialize (IH j x y H). lia.
Qed.
Definition nb (a b : nat) : nat := if Nat.eqb a b then 1 else 0.
Definition opens (id : nat) (x : bjob) : nat := match x with BOpen i _ => nb i id | _ => 0 end.
Definition cnt (id : nat) (s : bsrv) : nat := count_occ Nat.eq_dec (b_chans s) id + sumb (opens id) (b_jobs s) + count_occ Nat.eq_dec (map fst (b_deliv s)) id.
Lemma nb_refl : forall a, nb a a = 1. Proof. intros. unfold nb. now rewrite Nat.eqb_refl. Qed.
Lemma nb_neq : forall a b, a <> b -> nb a b = 0. Proof. intros a b H. unfold nb. apply Nat.eqb_neq in H. now rewrite H. Qed.
Lemma count_bdel : forall id x l, count_occ Nat.eq_dec (bdel id l) x = if Nat.eqb id x then 0 else count_occ Nat.eq_dec l x.
Proof.
  intros id x l. unfold bdel. induction l as [|y l IH]; cbn [filter]; [now destruct (Nat.eqb id x)|]. destruct (Nat.eqb id y) eqn:E; cbn [negb].
  - apply Nat.eqb_eq in E. subst y. rewrite IH. destruct (Nat.eqb id x) eqn:Q; [reflexivity|]. apply Nat.eqb_neq in Q. now rewrite count_occ_cons_neq.
  - apply Nat.eqb_neq in E. destruct (Nat.eq_dec y x) as [->|Hn]; [rewrite !count_occ_cons_eq, IH by reflexivity; apply Nat.eqb_neq in E; now rewrite E|]. now rewrite !count_occ_cons_neq.
Qed.
Lemma count_in : forall (l : list nat) x, In x l -> 1 <= count_occ Nat.eq_dec l x.
Proof. intros l x H. apply (count_occ_In Nat.eq_dec) in H. lia. Qed.
Lemma hand_jobs : forall f l i j x y x' y', nth_error l i = Some x -> nth_error l j = Some y -> i <> j -> sumb f (bset (bset l i x') j y') + f x + f y = sumb f l + f x' + f y'.
Proof.
  intros f l i j x y x' y' Hi Hj Hn. pose proof (sumb_set f l i x x' Hi) as H1. assert (Hj': nth_error (bset l i x') j = Some y) by (rewrite bset_other by congruence; assumption). pose proof (sumb_set f (bset l i x') j y y' Hj') as H2. lia.
Qed.
Lemma cnt_step : forall s l s' id, bstep s l s' -> (cnt id s <= 1 /\ (b_next s <= id -> cnt id s = 0)) -> cnt id s' <= 1 /\ (b_next s' <= id -> cnt id s' = 0).
Proof.
  intros s0 l s' x Hs [H1 H2]. unfold cnt in *.
  destruct Hs as [s|s id st Hi|s id st Hi|s i j id st Hw Ho|s i id Hw|s i id Hw]; cbn [b_chans b_jobs b_deliv b_next map fst] in *.
  - rewrite sumb_app. cbn [sumb fold_right opens]. destruct (Nat.eq_dec (b_next s) x) as [<-|Hn]; [rewrite count_occ_cons_eq by reflexivity; specialize (H2 (Nat.le_refl _)); split; lia|]. rewrite count_occ_cons_neq by assumption. split; [lia|]. intros. specialize (H2 ltac:(lia)). lia.
  - rewrite sumb_app, count_bdel. cbn [sumb fold_right opens]. destruct (Nat.eqb id x) eqn:E; [apply Nat.eqb_eq in E; subst id; rewrite nb_refl; pose proof (count_in _ _ Hi); split; [lia|]; intros Hx; specialize (H2 Hx); lia|]. apply Nat.eqb_neq in E. rewrite (nb_neq _ _ E). split; [lia|]. intros Hx. specialize (H2 Hx). lia.
  - rewrite sumb_app. cbn [sumb fold_right opens]. split; [lia|]. intros Hx. specialize (H2 Hx). lia.
  - assert (Hn: i <> j) by (intros ->; congruence). pose proof (hand_jobs (opens x) _ _ _ _ _ (BServed id st) BDone Hw Ho Hn) as HS. cbn [opens] in HS. destruct (Nat.eq_dec id x) as [->|E]; [rewrite count_occ_cons_eq by reflexivity; rewrite nb_refl in HS; split; [lia|]; intros Hx; specialize (H2 Hx); lia|]. rewrite count_occ_cons_neq by assumption. rewrite (nb_neq _ _ E) in HS. split; [lia|]. intros Hx. specialize (H2 Hx). lia.
  - pose proof (sumb_set (opens x) _ _ _ (BTimeout id) Hw) as HS. cbn [opens] in HS. split; [lia|]. intros Hx. specialize (H2 Hx). lia.
  - pose proof (sumb_set (opens x) _ _ _ (BExpired id) Hw) as HS. cbn [opens] in HS. rewrite count_bdel. destruct (Nat.eqb id x); (split; [lia|]); intros Hx; specialize (H2 Hx); lia.
Qed.
Lemma bsteps_snoc_inv : forall ls a l c, bsteps a (ls ++ [l]) c -> exists b, bsteps a ls b /\ bstep b l c.
Proof.
  induction ls as [|x ls IH]; intros a l c H; cbn in H; inversion H as [|? ? s1 ? ? H1 H2]; subst.
  - inversion H2; subst. exists a. split; [constructor|assumption].
  - destruct (IH _ _ _ H2) as (b & Hb & Hs). exists b. split; [econstructor; eassumption|assumption].
Qed.
Lemma cnt_reach : forall ls s id, bsteps new_bsrv ls s -> cnt id s <= 1 /\ (b_next s <= id -> cnt id s = 0).
Proof.
  intros ls. induction ls as [|l ls IH] using rev_ind; intros s id H; [inversion H; subst; cbn; lia|]. apply bsteps_snoc_inv in H. destruct H as (b & Hb & Hs). eapply cnt_step; [exact Hs|now apply IH].
Qed.
(* what every job of a reachable state stands for *)
Definition jobs_ok (ls : list blabel) (s : bsrv) : Prop :=
  (forall j id st, nth_error (b_jobs s) j = Some (BOpen id st) -> In (LOpen id st) ls /\ In (LRequest id) ls) /\
  (forall j id st, nth_error (b_jobs s) j = Some (BServed id st) -> In (id, st) (b_deliv s)) /\
  (forall id st, In (id, st) (b_deliv s) -> In (LOpen id st) ls /\ In (LRequest id) ls /\ exists j, nth_error (b_jobs s) j = Some (BServed id st)) /\
  (forall id, In id (b_chans s) -> In (LRequest id) ls) /\
  (forall j id, nth_error (b_jobs s) j = Some (BExpired id) -> ~ In id (b_chans s) /\ id < b_next s) /\
  (forall j id, (nth_error (b_jobs s) j = Some (BWait id) \/ nth_error (b_jobs s) j = Some (BTimeout id)) -> id < b_next s).
Lemma snoc_nth : forall (l : list bjob) y i x, nth_error (l ++ [y]) i = Some x -> (i = length l /\ x = y) \/ nth_error l i = Some x.
Proof.
  intros l y i x H. destruct (Nat.lt_ge_cases i (length l)) as [Hl|Hl]; [rewrite nth_error_app1 in H by assumption; now right|]. rewrite nth_error_app2 in H by assumption.
  destruct (i - length l) as [|d] eqn:E; [|destruct d; discriminate]. left. split; [lia|]. cbn in H. congruence.
Qed.
Lemma keep_nth : forall (l : list bjob) y i x, nth_error l i = Some x -> nth_error (l ++ [y]) i = Some x.
Proof. intros l y i x H. rewrite nth_error_app1; [assumption|]. apply nth_error_Some. congruence. Qed.
Lemma bset_same : forall l j y z, nth_error l j = Some z -> nth_error (bset l j y) j = Some y.
Proof. induction l as [|w l IH]; intros [|j] y z H; cbn in *; try discriminate; [reflexivity|]. eapply IH; exact H. Qed.
Lemma in_bdel : forall id x l, In x (bdel id l) <-> In x l /\ x <> id.
Proof. intros id x l. unfold bdel. rewrite filter_In, negb_true_iff, Nat.eqb_neq. split; intros [A B]; split; auto. Qed.
Lemma jobs_step : forall ls s l s', jobs_ok ls s -> bstep s l s' -> jobs_ok (ls ++ [l]) s'.
Proof.
  intros ls s0 l s' (A & B & C & D & E & F) Hs. unfold jobs_ok.
  assert (M: forall x y, In x ls -> In x (ls ++ [y])) by (intros; apply in_or_app; now left).
  assert (L: forall y : blabel, In y (ls ++ [y])) by (intros; apply in_or_app; right; now left).
  destruct Hs as [s|s id st Hi|s id st Hi|s i j id st Hw Ho|s i id Hw|s i id Hw]; cbn [b_chans b_jobs b_deliv b_next] in *.
  - split; [|split; [|split; [|split; [|split]]]].
    + intros k id st H. apply snoc_nth in H. destruct H as [[_ H]|H]; [discriminate|]. destruct (A _ _ _ H). auto.
    + intros k id st H. apply snoc_nth in H. destruct H as [[_ H]|H]; [discriminate|eauto].
    + intros id st H. destruct (C _ _ H) as (C1 & C2 & k & C3). split; [auto|]. split; [auto|]. exists k. now apply keep_nth.
    + intros id [<-|H]; [apply L|]. apply M. now apply D.
    + intros k id H. apply snoc_nth in H. destruct H as [[_ H]|H]; [discriminate|]. destruct (E _ _ H) as [E1 E2]. split; [|lia]. intros [Hc|Hc]; [lia|contradiction].
    + intros k id H. destruct H as [H|H]; apply snoc_nth in H; destruct H as [[_ H]|H]; try discriminate; [injection H as <-; lia| |]; (assert (id < b_next s) by (eapply F; eauto)); lia.
  - split; [|split; [|split; [|split; [|split]]]].
    + intros k id' st' H. apply snoc_nth in H. destruct H as [[_ H]|H]; [injection H as <- <-; split; [apply L|apply M; now apply D]|]. destruct (A _ _ _ H). auto.
    + intros k id' st' H. apply snoc_nth in H. destruct H as [[_ H]|H]; [discriminate|eauto].
    + intros id' st' H. destruct (C _ _ H) as (C1 & C2 & k & C3). split; [auto|]. split; [auto|]. exists k. now apply keep_nth.
    + intros id' H. apply in_bdel in H. apply M. now apply D.
    + intros k id' H. apply snoc_nth in H. destruct H as [[_ H]|H]; [discriminate|]. destruct (E _ _ H) as [E1 E2]. split; [|assumption]. intros Hc. apply in_bdel in Hc. tauto.
    + intros k id' H. destruct H as [H|H]; apply snoc_nth in H; destruct H as [[_ H]|H]; try discriminate; eapply F; eauto.
  - split; [|split; [|split; [|split; [|split]]]].
    + intros k id' st' H. apply snoc_nth in H. destruct H as [[_ H]|H]; [discriminate|]. destruct (A _ _ _ H). auto.
    + intros k id' st' H. apply snoc_nth in H. destruct H as [[_ H]|H]; [discriminate|eauto].
    + intros id' st' H. destruct (C _ _ H) as (C1 & C2 & k & C3). split; [auto|]. split; [auto|]. exists k. now apply keep_nth.
    + intros id' H. apply M. now apply D.
    + intros k id' H. apply snoc_nth in H. destruct H as [[_ H]|H]; [discriminate|]. eauto.
    + intros k id' H. destruct H as [H|H]; apply snoc_nth in H; destruct H as [[_ H]|H]; try discriminate; eapply F; eauto.
  - assert (Hn: i <> j) by (intros ->; congruence). assert (Ho': nth_error (bset (b_jobs s) i (BServed id st)) j = Some (BOpen id st)) by (rewrite bset_other by congruence; assumption).
    assert (Inv: forall k x, nth_error (bset (bset (b_jobs s) i (BServed id st)) j BDone) k = Some x -> x = BDone \/ (k = i /\ x = BServed id st) \/ (k <> i /\ k <> j /\ nth_error (b_jobs s) k = Some x)).
    { intros k x H. destruct (bset_nth _ _ _ _ _ _ Ho' H) as [[_ ->]|[Hk H1]]; [now left|]. right. destruct (bset_nth _ _ _ _ _ _ Hw H1) as [[-> ->]|[Hk1 H2]]; [now left|now right]. }
    split; [|split; [|split; [|split; [|split]]]].
    + intros k id' st' H. destruct (Inv _ _ H) as [H0|[[_ H0]|(_ & _ & H0)]]; try discriminate. destruct (A _ _ _ H0). auto.
    + intros k id' st' H. destruct (Inv _ _ H) as [H0|[[_ H0]|(_ & _ & H0)]]; try discriminate; [injection H0 as -> ->; now left|right; eauto].
    + intros id' st' [H|H].
      * injection H as <- <-. destruct (A _ _ _ Ho). split; [auto|]. split; [auto|]. exists i. rewrite bset_other by congruence. eapply bset_same; exact Hw.
      * destruct (C _ _ H) as (C1 & C2 & k & C3). split; [auto|]. split; [auto|]. exists k. rewrite !bset_other; [assumption| |]; intros ->; congruence.
    + intros id' H. apply M. now apply D.
    + intros k id' H. destruct (Inv _ _ H) as [H0|[[_ H0]|(_ & _ & H0)]]; try discriminate. eauto.
    + intros k id' [H|H]; destruct (Inv _ _ H) as [H0|[[_ H0]|(_ & _ & H0)]]; try discriminate; eapply F; eauto.
  - assert (Inv: forall k x, nth_error (bset (b_jobs s) i (BTimeout id)) k = Some x -> (k = i /\ x = BTimeout id) \/ (k <> i /\ nth_error (b_jobs s) k = Some x)) by (intros; eapply bset_nth; eauto).
    split; [|split; [|split; [|split; [|split]]]].
    + intros k id' st' H. destruct (Inv _ _ H) as [[_ H0]|[_ H0]]; [discriminate|]. destruct (A _ _ _ H0). auto.
    + intros k id' st' H. destruct (Inv _ _ H) as [[_ H0]|[_ H0]]; [discriminate|eauto].
    + intros id' st' H. destruct (C _ _ H) as (C1 & C2 & k & C3). split; [auto|]. split; [auto|]. exists k. rewrite bset_other; [assumption|intros ->; congruence].
    + intros id' H. apply M. now apply D.
    + intros k id' H. destruct (Inv _ _ H) as [[_ H0]|[_ H0]]; [discriminate|eauto].
    + intros k id' [H|H]; destruct (Inv _ _ H) as [[-> H0]|[_ H0]]; try discriminate; try (eapply F; eauto; fail). injection H0 as ->. eapply F; eauto.
  - assert (Inv: forall k x, nth_error (bset (b_jobs s) i (BExpired id)) k = Some x -> (k = i /\ x = BExpired id) \/ (k <> i /\ nth_error (b_jobs s) k = Some x)) by (intros; eapply bset_nth; eauto).
    split; [|split; [|split; [|split; [|split]]]].
    + intros k id' st' H. destruct (Inv _ _ H) as [[_ H0]|[_ H0]]; [discriminate|]. destruct (A _ _ _ H0). auto.
    + intros k id' st' H. destruct (Inv _ _ H) as [[_ H0]|[_ H0]]; [discriminate|eauto].
    + intros id' st' H. destruct (C _ _ H) as (C1 & C2 & k & C3). split; [auto|]. split; [auto|]. exists k. rewrite bset_other; [assumption|intros ->; congruence].
    + intros id' H. apply in_bdel in H. apply M. now apply D.
    + intros k id' H. destruct (Inv _ _ H) as [[-> H0]|[_ H0]].
      * injection H0 as ->. split; [intros Hc; apply in_bdel in Hc; tauto|]. eapply F; eauto.
      * destruct (E _ _ H0) as [E1 E2]. split; [|assumption]. intros Hc. apply in_bdel in Hc. tauto.
    + intros k id' [H|H]; destruct (Inv _ _ H) as [[-> H0]|[_ H0]]; try discriminate; eapply F; eauto.
Qed.
Lemma jobs_reach : forall ls s, bsteps new_bsrv ls s -> jobs_ok ls s.
Proof.
  intros ls. induction ls as [|l ls IH] using rev_ind; intros s H.
  - inversion H; subst. assert (Z: forall j (x : bjob), nth_error (b_jobs new_bsrv) j <> Some x) by (intros [|j] x; discriminate). split; [intros j id st H0; now apply Z in H0|]. split; [intros j id st H0; now apply Z in H0|]. split; [intros id st []|]. split; [intros id []|]. split; [intros j id H0; now apply Z in H0|]. intros j id [H0|H0]; now apply Z in H0.
  - apply bsteps_snoc_inv in H. destruct H as (b & Hb & Hs). eapply jobs_step; [exact (IH b Hb)|exact Hs].
Qed.
(* Every hand-over gives a stream to the connection request whose identifier the stream was opened with, and each request
   gets at most one stream; each request that was served was served by a hand-over. *)
Theorem C36_hand_over : forall ls s, bsteps new_bsrv ls s ->
  NoDup (map fst (b_deliv s)) /\
  (forall id st, In (id, st) (b_deliv s) -> In (LRequest id) ls /\ In (LOpen id st) ls /\ exists j, nth_error (b_jobs s) j = Some (BServed id st)) /\
  (forall j id st, nth_error (b_jobs s) j = Some (BServed id st) -> In (id, st) (b_deliv s)).
Proof.
  intros ls s H. destruct (jobs_reach _ _ H) as (A & B & C & D & E & F). split; [|split].
  - rewrite (NoDup_count_occ Nat.eq_dec). intros id. destruct (cnt_reach _ _ id H) as [H1 _]. unfold cnt in H1. lia.
  - intros id st Hi. destruct (C _ _ Hi) as (C1 & C2 & C3). auto.
  - exact B.
Qed.
Print Assumptions C36_hand_over.
(* If no stream is opened twice, no stream is handed over twice. *)
Theorem C36_stream_once : forall ls s, bsteps new_bsrv ls s -> (forall l1 l2 i j st, ls = l1 ++ l2 -> In (LOpen i st) l1 -> ~ In (LOpen j st) l2) -> NoDup (map snd (b_deliv s)).
Proof.
  intros ls s H Hu. destruct (C36_hand_over _ _ H) as (N & C & _).
  assert (U: forall a b st, In (a, st) (b_deliv s) -> In (b, st) (b_deliv s) -> a = b).
  { intros a b st Ha Hb. destruct (C _ _ Ha) as (_ & Ha' & _), (C _ _ Hb) as (_ & Hb' & _). destruct (Nat.eq_dec a b) as [|Hn]; [assumption|]. exfalso.
    apply in_split in Ha'. destruct Ha' as (l1 & l2 & ->). apply in_app_or in Hb'. destruct Hb' as [Hb'|[Hb'|Hb']].
    - apply in_split in Hb'. destruct Hb' as (k1 & k2 & ->). apply (Hu (k1 ++ [LOpen b st]) (k2 ++ LOpen a st :: l2) b a st).
      + rewrite <- !app_assoc. reflexivity.
      + apply in_or_app. right. now left.
      + apply in_or_app. right. now left.
    - congruence.
    - apply (Hu (l1 ++ [LOpen a st]) l2 a b st); [now rewrite <- app_assoc|apply in_or_app; right; now left|assumption]. }
  clear - N U. induction (b_deliv s) as [|[a st] l IH]; [constructor|]. cbn in N |- *. inversion N as [|? ? Hn N']; subst. constructor.
  - intros Hc. apply in_map_iff in Hc. destruct Hc as ([b st'] & Hst & Hb). cbn in Hst. subst st'. assert (a = b) by (apply (U a b st); [now left|now right]). subst b. apply Hn. apply in_map_iff. exists (a, st). auto.
  - apply IH; [assumption|]. intros x y z Hx Hy. apply (U x y z); now right.
Qed.
Print Assumptions C36_stream_once.
(* Opening a stream for an identifier that was never issued, was already used, or has expired is rejected. *)
Theorem C36_rejected : forall ls s id st s', bsteps new_bsrv ls s ->
  b_next s <= id \/ (exists st0, In (id, st0) (b_deliv s)) \/ (exists j st0, nth_error (b_jobs s) j = Some (BOpen id st0)) \/ (exists j, nth_error (b_jobs s) j = Some (BExpired id)) ->
  bstep s (LOpen id st) s' -> b_jobs s' = b_jobs s ++ [BRejected id st] /\ b_deliv s' = b_deliv s /\ b_chans s' = b_chans s.
Proof.
  intros ls s id st s' H Hc Hs. assert (Hn: ~ In id (b_chans s)).
  { destruct (cnt_reach _ _ id H) as [C1 C2]. intros Hi. apply count_in in Hi. unfold cnt in *. destruct Hc as [Hc|[(st0 & Hc)|[(j & st0 & Hc)|(j & Hc)]]].
    - specialize (C2 Hc). lia.
    - apply (in_map fst) in Hc. apply count_in in Hc. cbn [fst] in Hc. lia.
    - assert (1 <= sumb (opens id) (b_jobs s)); [|lia]. pose proof (sumb_set (opens id) _ _ _ BDone Hc) as Q. cbn [opens] in Q. rewrite nb_refl in Q. lia.
    - destruct (jobs_reach _ _ H) as (_ & _ & _ & _ & E & _). destruct (E _ _ Hc) as [E1 _]. apply E1. apply (count_occ_In Nat.eq_dec). lia. }
  inversion Hs; subst; [contradiction|]. auto.
Qed.
Print Assumptions C36_rejected.
Ltac bone := eapply BS_cons; [|].
Example C36_ex : exists ls s, bsteps new_bsrv ls s /\ b_deliv s = [(0, 77)] /\ In (BRejected 0 78) (b_jobs s).
Proof.
  eexists _, _. split; [|split].
  { bone. apply B_request. bone. apply B_request. bone. apply (B_open _ 0 77). cbn; auto. bone. eapply (B_hand _ 0 2); reflexivity. bone. apply (B_reject _ 0 78). cbn. intuition discriminate. apply BS_nil. }
  - reflexivity.
  - cbn. auto.
Qed.
(* A stream can be accepted (the client is told so) and never reach the request: the request timed out in between.  The
   goroutine serving the stream waits for ever. *)
Theorem C36_accepted_not_delivered_refuted : exists ls s, bsteps new_bsrv ls s /\ In (BOpen 0 7) (b_jobs s) /\
  forall ls' s', bsteps s ls' s' -> In (BOpen 0 7) (b_jobs s') /\ forall st, ~ In (0, st) (b_deliv s').
Proof.
  eexists _, _. split; [|split].
  { bone. apply B_request. bone. eapply (B_timeout _ 0); reflexivity. bone. apply (B_open _ 0 7). cbn; auto. bone. eapply (B_expire _ 0); reflexivity. apply BS_nil. }
  - cbn. auto.
  - intros ls' s' Hs. cbn in Hs.
    cut (forall a b ls, bsteps a ls b -> (nth_error (b_jobs a) 1 = Some (BOpen 0 7) /\ (forall j, nth_error (b_jobs a) j <> Some (BWait 0)) /\ 1 <= b_next a /\ forall st, ~ In (0, st) (b_deliv a)) -> (nth_error (b_jobs b) 1 = Some (BOpen 0 7) /\ (forall j, nth_error (b_jobs b) j <> Some (BWait 0)) /\ 1 <= b_next b /\ forall st, ~ In (0, st) (b_deliv b))).
    { intros G. destruct (G _ _ _ Hs) as (G1 & _ & _ & G2). { cbn. split; [reflexivity|]. split; [intros [|[|[|j]]]; discriminate|]. split; [lia|tauto]. } split; [eapply nth_error_In; exact G1|exact G2]. }
    clear. intros a b ls H. induction H as [s|a l b ls c Hs H IH]; [auto|]. intros (G1 & G2 & G3 & G4). apply IH. clear IH H.
    destruct Hs as [s|s id st Hi|s id st Hi|s i j id st Hw Ho|s i id Hw|s i id Hw]; cbn [b_jobs b_next b_deliv] in *.
    + split; [now apply keep_nth|]. split; [|split; [lia|assumption]]. intros k Hk. apply snoc_nth in Hk. destruct Hk as [[_ Hk]|Hk]; [injection Hk; lia|now apply (G2 k)].
    + split; [now apply keep_nth|]. split; [|split; assumption]. intros k Hk. apply snoc_nth in Hk. destruct Hk as [[_ Hk]|Hk]; [discriminate|now apply (G2 k)].
    + split; [now apply keep_nth|]. split; [|split; assumption]. intros k Hk. apply snoc_nth in Hk. destruct Hk as [[_ Hk]|Hk]; [discriminate|now apply (G2 k)].
    + assert (Hid: id <> 0) by (intros ->; now apply (G2 i)). assert (Hn: i <> j) by (intros ->; congruence). assert (Ho': nth_error (bset (b_jobs s) i (BServed id st)) j = Some (BOpen id st)) by (rewrite bset_other by congruence; assumption).
      split; [rewrite !bset_other; [assumption| |]; intros <-; congruence|]. split; [|split; [assumption|]].
      * intros k Hk. destruct (bset_nth _ _ _ _ _ _ Ho' Hk) as [[_ Hq]|[_ H1]]; [discriminate|]. destruct (bset_nth _ _ _ _ _ _ Hw H1) as [[_ Hq]|[_ H2]]; [discriminate|now apply (G2 k)].
      * intros st' [Hq|Hq]; [congruence|now apply (G4 st')].
    + split; [rewrite bset_other; [assumption|intros <-; congruence]|]. split; [|split; assumption]. intros k Hk. destruct (bset_nth _ _ _ _ _ _ Hw Hk) as [[_ Hq]|[_ H2]]; [discriminate|now apply (G2 k)].
    + split; [rewrite bset_other; [assumption|intros <-; congruence]|]. split; [|split; assumption]. intros k Hk. destruct (bset_nth _ _ _ _ _ _ Hw Hk) as [[_ Hq]|[_ H2]]; [discriminate|now apply (G2 k)].
Qed.
Print Assumptions C36_accepted_not_delivered_refuted.

(* ================= C37 ================= *)
(* A rejected TCP stream looks like success to the client, for every rejection. *)
Theorem C37_tcp_rejection_lost_refuted : client_open_tcp (over_wire (server_open_tcp false)) = None /\ forall t e, client_open_tcp (over_wire (set_error t e)) = None.
Proof. split; reflexivity. Qed.
Print Assumptions C37_tcp_rejection_lost_refuted.
(* A refused control stream gives the client the server's error text, except if that text is empty; an accepted one gives
   no error. *)
Theorem C37_control_rejection : (forall t e, e <> ""%string -> client_control (over_wire (server_control (Some (t, e)))) = Some e) /\ client_control (over_wire (server_control None)) = None.
Proof. split; [|reflexivity]. intros t e H. unfold client_control. cbn. apply String.eqb_neq in H. now rewrite H. Qed.
Print Assumptions C37_control_rejection.
Theorem C37_empty_error_refuted : forall t, client_control (over_wire (server_control (Some (t, ""%string)))) = None.
Proof. reflexivity. Qed.
Print Assumptions C37_empty_error_refuted.
Example C37_ex : client_control (over_wire (server_control (Some ("errAuthenticationFailure"%string, "could not authenticate"%string)))) = Some "could not authenticate"%string.
Proof. reflexivity. Qed.

(* ================= C61: client listeners ================= *)
(* A fresh listener that nobody closed accepts requests and survives every response. *)
Theorem C61_open_listener_ok : forall p n, mp_chclosed p = false -> mport_request p <> Panic /\ mport_response n p <> Panic /\ exists q, mport_close p = Done q /\ mp_chclosed q = true.
Proof.
  intros p n H. unfold mport_request, mport_response, mport_close. rewrite H. split; [destruct (mp_known p); discriminate|]. split; [destruct (mp_known p); [destruct (Z.eqb n 0)|]; discriminate|]. eexists. split; reflexivity.
Qed.
Print Assumptions C61_open_listener_ok.
Example C61_ex : mport_request (mkmp false true) = Done true. Proof. reflexivity. Qed.
(* Closing a listener twice panics; a connection request or a refused port arriving after the user closed the listener
   panics in the control stream goroutine. *)
Theorem C61_closed_listener_panics_refuted : exists q, mport_close (mkmp false true) = Done q /\ mport_close q = Panic /\ mport_request q = Panic /\ mport_response 0 q = Panic.
Proof. eexists. repeat split; reflexivity. Qed.
Print Assumptions C61_closed_listener_panics_refuted.
