(* C27: watch delivery. *)
From Coq Require Import List Bool Arith Lia.
From Verif Require Import M_AdsWatch.
Import ListNotations.

(* specification: the value a consumer has or will receive next *)
Definition latest (w : watch) : option resp := match w_out w with Some v => Some v | None => w_got w end.

Lemma wset_nth : forall l k w j, nth_error (wset l k w) j = if Nat.eqb k j then match nth_error l j with Some _ => Some w | None => None end else nth_error l j.
Proof. induction l as [|x l IH]; intros [|k] w [|j]; cbn; try reflexivity; try (now destruct (Nat.eqb _ _)). apply IH. Qed.
Lemma wset_same : forall l k w w0, nth_error l k = Some w0 -> nth_error (wset l k w) k = Some w.
Proof. intros l k w w0 H. now rewrite wset_nth, Nat.eqb_refl, H. Qed.
Lemma wset_other : forall l k w j, k <> j -> nth_error (wset l k w) j = nth_error l j.
Proof. intros l k w j H. rewrite wset_nth. apply Nat.eqb_neq in H. now rewrite H. Qed.
Lemma nth_app1 : forall (l : list watch) x k w, nth_error l k = Some w -> nth_error (l ++ [x]) k = Some w.
Proof. intros l x k w H. rewrite nth_error_app1; [assumption|]. apply nth_error_Some. congruence. Qed.
Lemma in_observers : forall i ws k0 k, In k (observers i k0 ws) <-> exists w, k0 <= k /\ nth_error ws (k - k0) = Some w /\ w_reg w = true /\ w_input w = i.
Proof.
  intros i ws. induction ws as [|x ws IH]; intros k0 k; cbn [observers].
  - split; [intros []|]. intros (w & _ & H & _). destruct (k - k0); discriminate.
  - assert (Hsh: forall w, (S k0 <= k /\ nth_error ws (k - S k0) = Some w) <-> (k0 <= k /\ k <> k0 /\ nth_error (x :: ws) (k - k0) = Some w)).
    { intros w. split.
      - intros [H1 H2]. replace (k - k0) with (S (k - S k0)) by lia. cbn. auto with arith. split; [lia|]. split; [lia|assumption].
      - intros (H1 & H2 & H3). split; [lia|]. replace (k - k0) with (S (k - S k0)) in H3 by lia. exact H3. }
    assert (Hrest: In k (observers i (S k0) ws) <-> exists w, k0 <= k /\ k <> k0 /\ nth_error (x :: ws) (k - k0) = Some w /\ w_reg w = true /\ w_input w = i).
    { rewrite IH. split; intros (w & H).
      - destruct H as (H1 & H2 & H3). exists w. destruct (proj1 (Hsh w) (conj H1 H2)) as (? & ? & ?). tauto.
      - destruct H as (H1 & H2 & H3 & H4). exists w. destruct (proj2 (Hsh w)) as (? & ?); [tauto|]. tauto. }
    destruct (w_reg x && Nat.eqb (w_input x) i)%bool eqn:E.
    + apply andb_true_iff in E. destruct E as [E1 E2]. apply Nat.eqb_eq in E2. cbn [In]. rewrite Hrest. split.
      * intros [<-|(w & H1 & H2 & H3)]; [exists x; rewrite Nat.sub_diag; auto|exists w; tauto].
      * intros (w & H1 & H2 & H3). destruct (Nat.eq_dec k k0); [left; congruence|right]. exists w. tauto.
    + rewrite Hrest. split; intros (w & H); exists w; [tauto|]. destruct H as (H1 & H2 & H3 & H4). repeat split; try assumption.
      intros ->. rewrite Nat.sub_diag in H2. injection H2 as <-. rewrite H3, H4, Nat.eqb_refl in E. discriminate.
Qed.
Lemma observers_spec : forall i ws k, In k (observers i 0 ws) <-> exists w, nth_error ws k = Some w /\ w_reg w = true /\ w_input w = i.
Proof. intros i ws k. rewrite in_observers, Nat.sub_0_r. split; intros (w & H); exists w; intuition lia. Qed.
Lemma ssteps_app : forall a ls1 b ls2 c, ssteps a ls1 b -> ssteps b ls2 c -> ssteps a (ls1 ++ ls2) c.
Proof. intros a ls1 b ls2 c H. induction H; cbn; [auto|]. intros H2. econstructor; eauto. Qed.
Lemma ssteps_snoc_inv : forall ls a l c, ssteps a (ls ++ [l]) c -> exists b, ssteps a ls b /\ sstep b l c.
Proof.
  induction ls as [|x ls IH]; intros a l c H; cbn in H; inversion H as [|? ? s1 ? ? H1 H2]; subst.
  - inversion H2; subst. exists a. split; [constructor|assumption].
  - destruct (IH _ _ _ H2) as (b & Hb & Hs). exists b. split; [econstructor; eassumption|assumption].
Qed.

(* --- what is wrong: the engine can block for good --- *)
Definition blocked (s : wstate) (r : list nat) (k : nat) (ks : list nat) : Prop :=
  s_eng s = ERefresh r (k :: ks) /\ s_done s = false /\ exists w, nth_error (s_watches s) k = Some w /\ w_tok w = true /\ (w_phase w = PGot \/ w_phase w = PCancel).
Lemma blocked_step : forall s r k ks l s', blocked s r k ks -> sstep s l s' -> l <> LStop -> blocked s' r k ks.
Proof.
  intros s r k ks l s' (He & Hd & w & Hw & Ht & Hp) Hs Hl. destruct Hs; try congruence.
  - (* update *) unfold blocked. cbn. eauto 8.
  - (* watch *) unfold blocked. cbn. split; [assumption|]. split; [assumption|]. destruct (Nat.eq_dec k0 k) as [->|Hn]; [|rewrite wset_other by assumption; eauto].
    rewrite Hw in H. injection H as <-. rewrite He in H0. cbn in H0. inversion H0; subst; destruct Hp; congruence.
  - (* consume *) unfold blocked. cbn. split; [assumption|]. split; [assumption|]. destruct (Nat.eq_dec k0 k) as [->|Hn]; [|rewrite wset_other by assumption; eauto].
    rewrite Hw in H. injection H as <-. erewrite wset_same by eassumption. eexists. split; [reflexivity|]. cbn. auto.
  - (* ctx *) unfold blocked. cbn. split; [assumption|]. split; [assumption|]. destruct (Nat.eq_dec k0 k) as [->|Hn]; [|rewrite wset_other by assumption; eauto].
    rewrite Hw in H. injection H as <-. erewrite wset_same by eassumption. eexists. split; [reflexivity|]. cbn. auto.
Qed.
Lemma blocked_forever : forall ls s r k ks s', blocked s r k ks -> ssteps s ls s' -> ~ In LStop ls -> s_eng s' = ERefresh r (k :: ks).
Proof.
  intros ls s r k ks s' Hb Hs. revert Hb. induction Hs as [s|s l s1 ls s2 H1 H2 IH]; intros Hb Hn; [apply Hb|]. apply IH; [|intros H; apply Hn; now right].
  eapply blocked_step; [exact Hb|exact H1|]. intros ->. apply Hn. now left.
Qed.
Definition ok (n : nat) := mkresp n false.
Definition T1 (v : nat) : nat -> option resp := setr (fun _ => None) 0 (Some (ok v)).
Definition wat (once tok : bool) (p : phase) (out got : option resp) := mkwatch 0 once true tok p false out got.
Ltac one := eapply SS_cons; [|].
(* (a) an application asks for the properties of a host (TCP/HTTP watch), gets its answer, and two resource updates arrive
   before the watch goroutine runs its deferred cancel: the cancel waits for the lock held by the refresher, which waits
   for the channel of the cancelled watch.  Nobody's context was cancelled. *)
Theorem C27_cancel_deadlock_refuted : exists ls s r k ks, ssteps winit ls s /\ ~ In LStop ls /\ (forall k', ~ In (LCancelCtx k') ls) /\
  forall ls' s', ssteps s ls' s' -> ~ In LStop ls' -> s_eng s' = ERefresh r (k :: ks).
Proof.
  exists [LUpdate; LRegister 0 true; LWatch 0; LWatch 0; LWatch 0; LWatch 0; LUpdate; LEngine; LEngine; LEngine; LEngine; LUpdate; LEngine; LEngine].
  eexists _, [], 0, []. split; [|split; [cbn; intuition discriminate|split; [cbn; intuition discriminate|]]].
  { one. apply (S_update _ 0 (ok 1)). one. now apply S_register. cbn. one. eapply S_watch; [reflexivity|]. now apply W_token. cbn.
    one. eapply S_watch; [reflexivity|]. now apply W_get. cbn. one. eapply S_watch; [reflexivity|]. now eapply W_drain_empty. cbn. one. eapply S_watch; [reflexivity|]. now eapply W_send. cbn.
    one. apply (S_update _ 0 (ok 2)). one. apply (S_refresh _ [0]); [reflexivity|intros i; cbn; split; [intros [<-|[]]; eauto|intros (w & [<-|[]] & <-); cbn; auto]|repeat constructor; intros []]. cbn.
    one. eapply S_changed; [reflexivity|reflexivity|]. cbn. discriminate. cbn. one. eapply S_notify; reflexivity. cbn. one. apply S_unlock. reflexivity. cbn.
    one. apply (S_update _ 0 (ok 3)). one. apply (S_refresh _ [0]); [reflexivity|intros i; cbn; split; [intros [<-|[]]; eauto|intros (w & [<-|[]] & <-); cbn; auto]|repeat constructor; intros []]. cbn.
    one. eapply S_changed; [reflexivity|reflexivity|]. cbn. discriminate. cbn. apply SS_nil. }
  intros ls' s' Hs Hn. eapply blocked_forever; [|exact Hs|exact Hn]. split; [reflexivity|]. split; [reflexivity|]. eexists. split; [reflexivity|]. cbn. auto.
Qed.
Print Assumptions C27_cancel_deadlock_refuted.
(* (b) a listener watch that is never cancelled: two updates between its receive from resultUpdated and its get(). *)
Theorem C27_get_deadlock_refuted : exists ls s r k ks, ssteps winit ls s /\ ~ In LStop ls /\ (forall k', ~ In (LCancelCtx k') ls) /\ (forall i, ~ In (LRegister i true) ls) /\
  forall ls' s', ssteps s ls' s' -> ~ In LStop ls' -> s_eng s' = ERefresh r (k :: ks).
Proof.
  exists [LUpdate; LRegister 0 false; LWatch 0; LUpdate; LEngine; LEngine; LEngine; LEngine; LUpdate; LEngine; LEngine].
  eexists _, [], 0, []. split; [|split; [cbn; intuition discriminate|split; [cbn; intuition discriminate|split; [cbn; intuition discriminate|]]]].
  { one. apply (S_update _ 0 (ok 1)). one. now apply S_register. cbn. one. eapply S_watch; [reflexivity|]. now apply W_token. cbn.
    one. apply (S_update _ 0 (ok 2)). one. apply (S_refresh _ [0]); [reflexivity|intros i; cbn; split; [intros [<-|[]]; eauto|intros (w & [<-|[]] & <-); cbn; auto]|repeat constructor; intros []]. cbn.
    one. eapply S_changed; [reflexivity|reflexivity|]. cbn. discriminate. cbn. one. eapply S_notify; reflexivity. cbn. one. apply S_unlock. reflexivity. cbn.
    one. apply (S_update _ 0 (ok 3)). one. apply (S_refresh _ [0]); [reflexivity|intros i; cbn; split; [intros [<-|[]]; eauto|intros (w & [<-|[]] & <-); cbn; auto]|repeat constructor; intros []]. cbn.
    one. eapply S_changed; [reflexivity|reflexivity|]. cbn. discriminate. cbn. apply SS_nil. }
  intros ls' s' Hs Hn. eapply blocked_forever; [|exact Hs|exact Hn]. split; [reflexivity|]. split; [reflexivity|]. eexists. split; [reflexivity|]. cbn. auto.
Qed.
Print Assumptions C27_get_deadlock_refuted.
(* (c) the drain of sendLatest: ch was full when its length was read, the consumer takes the element, and the watch waits
   for a second element that nobody can send. *)
Definition drained (s : wstate) (r : list nat) (k : nat) (ks : list nat) : Prop :=
  s_eng s = ERefresh r (k :: ks) /\ s_done s = false /\ exists w v, nth_error (s_watches s) k = Some w /\ w_tok w = true /\ w_phase w = PDrainRecv v /\ w_out w = None /\ w_ctx w = false.
Lemma drained_step : forall s r k ks l s', drained s r k ks -> sstep s l s' -> l <> LStop -> l <> LCancelCtx k -> drained s' r k ks.
Proof.
  intros s r k ks l s' (He & Hd & w & v & Hw & Ht & Hp & Ho & Hc) Hs Hl Hl'. destruct Hs; try congruence.
  - unfold drained. cbn. eauto 12.
  - unfold drained. cbn. split; [assumption|]. split; [assumption|]. destruct (Nat.eq_dec k0 k) as [->|Hn]; [|rewrite wset_other by assumption; eauto 8].
    rewrite Hw in H. injection H as <-. inversion H0; subst; congruence.
  - unfold drained. cbn. split; [assumption|]. split; [assumption|]. destruct (Nat.eq_dec k0 k) as [->|Hn]; [|rewrite wset_other by assumption; eauto 8]. congruence.
  - unfold drained. cbn. split; [assumption|]. split; [assumption|]. destruct (Nat.eq_dec k0 k) as [->|Hn]; [congruence|]. rewrite wset_other by assumption; eauto 8.
Qed.
Lemma drained_forever : forall ls s r k ks s', drained s r k ks -> ssteps s ls s' -> ~ In LStop ls -> ~ In (LCancelCtx k) ls -> s_eng s' = ERefresh r (k :: ks).
Proof.
  intros ls s r k ks s' Hb Hs. revert Hb. induction Hs as [s|s l s1 ls s2 H1 H2 IH]; intros Hb Hn Hc; [apply Hb|]. apply IH; [|intros H; apply Hn; now right|intros H; apply Hc; now right].
  eapply drained_step; [exact Hb|exact H1| |]; intros ->; [apply Hn|apply Hc]; now left.
Qed.
Theorem C27_drain_deadlock_refuted : exists ls s r k ks, ssteps winit ls s /\ ~ In LStop ls /\ (forall k', ~ In (LCancelCtx k') ls) /\
  forall ls' s', ssteps s ls' s' -> ~ In LStop ls' -> ~ In (LCancelCtx k) ls' -> s_eng s' = ERefresh r (k :: ks).
Proof.
  exists [LUpdate; LRegister 0 false; LWatch 0; LWatch 0; LWatch 0; LWatch 0; LUpdate; LEngine; LEngine; LEngine; LEngine; LWatch 0; LWatch 0; LWatch 0; LConsume 0;
          LUpdate; LEngine; LEngine; LEngine; LEngine; LUpdate; LEngine; LEngine].
  eexists _, [], 0, []. split; [|split; [cbn; intuition discriminate|split; [cbn; intuition discriminate|]]].
  { one. apply (S_update _ 0 (ok 1)). one. now apply S_register. cbn. one. eapply S_watch; [reflexivity|]. now apply W_token. cbn.
    one. eapply S_watch; [reflexivity|]. now apply W_get. cbn. one. eapply S_watch; [reflexivity|]. now eapply W_drain_empty. cbn. one. eapply S_watch; [reflexivity|]. now eapply W_send. cbn.
    one. apply (S_update _ 0 (ok 2)). one. apply (S_refresh _ [0]); [reflexivity|intros i; cbn; split; [intros [<-|[]]; eauto|intros (w & [<-|[]] & <-); cbn; auto]|repeat constructor; intros []]. cbn.
    one. eapply S_changed; [reflexivity|reflexivity|]. cbn. discriminate. cbn. one. eapply S_notify; reflexivity. cbn. one. apply S_unlock. reflexivity. cbn.
    one. eapply S_watch; [reflexivity|]. now apply W_token. cbn. one. eapply S_watch; [reflexivity|]. now apply W_get. cbn. one. eapply S_watch; [reflexivity|]. now eapply W_drain_full. cbn.
    one. eapply S_consume; reflexivity. cbn.
    one. apply (S_update _ 0 (ok 3)). one. apply (S_refresh _ [0]); [reflexivity|intros i; cbn; split; [intros [<-|[]]; eauto|intros (w & [<-|[]] & <-); cbn; auto]|repeat constructor; intros []]. cbn.
    one. eapply S_changed; [reflexivity|reflexivity|]. cbn. discriminate. cbn. one. eapply S_notify; reflexivity. cbn. one. apply S_unlock. reflexivity. cbn.
    one. apply (S_update _ 0 (ok 4)). one. apply (S_refresh _ [0]); [reflexivity|intros i; cbn; split; [intros [<-|[]]; eauto|intros (w & [<-|[]] & <-); cbn; auto]|repeat constructor; intros []]. cbn.
    one. eapply S_changed; [reflexivity|reflexivity|]. cbn. discriminate. cbn. apply SS_nil. }
  intros ls' s' Hs Hn Hc. eapply drained_forever; [|exact Hs|exact Hn|exact Hc]. split; [reflexivity|]. split; [reflexivity|]. eexists _, _. split; [reflexivity|]. cbn. auto.
Qed.
Print Assumptions C27_drain_deadlock_refuted.

(* (d) a second watch on the same input, registered after the resources changed and before the refresher ran, stores the new
   result without telling the first watch; the refresher then sees no change.  The first watch stays with the old value. *)
Definition stale (s : wstate) : Prop :=
  s_truth s 0 = Some (ok 2) /\ s_results s 0 = Some (ok 2) /\ (exists r ks, (s_eng s = EIdle \/ s_eng s = ERefresh r ks) /\ ~ In 0 ks /\ (s_eng s = EIdle -> ks = [])) /\
  exists w, nth_error (s_watches s) 0 = Some w /\ w_input w = 0 /\ w_tok w = false /\ w_phase w = PSelect /\ w_ctx w = false /\ latest w = Some (ok 1).
Lemma stale_step : forall s l s', stale s -> sstep s l s' -> l <> LUpdate -> l <> LCancelCtx 0 -> stale s'.
Proof.
  intros s l s' (Ht & Hr & (r & ks & He & Hnk & Hid) & w & Hw & Hi & Htok & Hp & Hc & Hl) Hs Hu Hx.
  assert (Hwex: exists w0, nth_error (s_watches s) 0 = Some w0 /\ w_input w0 = 0 /\ w_tok w0 = false /\ w_phase w0 = PSelect /\ w_ctx w0 = false /\ latest w0 = Some (ok 1)) by (exists w; auto 12).
  destruct Hs as [s0 i v|s0 i once H|s0 inputs H H0 H1|s0 i rr H H0|s0 i rr v H H0 H1|s0 rr k kks w0 H H0 H1|s0 rr k kks H H0|s0 H|s0 k w0 w' H H0|s0 k w0 v H H0|s0 k w0 H|s0]; unfold stale; cbn [s_truth s_results s_watches s_eng].
  - congruence.
  - split; [assumption|]. split; [|split].
    + destruct (s_truth s0 i) as [v|] eqn:E; [|assumption]. unfold setr. destruct (Nat.eqb 0 i) eqn:Ei; [|assumption]. apply Nat.eqb_eq in Ei. subst i. congruence.
    + exists [], []. auto 12.
    + exists w. split; [now apply nth_app1|]. auto 12.
  - repeat (split; [assumption|]). split; [|assumption]. exists inputs, []. repeat split; auto 12.
  - repeat (split; [assumption|]). split; [|assumption]. exists rr, []. repeat split; auto 12; discriminate.
  - split; [assumption|]. split; [|split; [|assumption]].
    + unfold setr. destruct (Nat.eqb 0 i) eqn:Ei; [|assumption]. apply Nat.eqb_eq in Ei. subst i. congruence.
    + exists rr, (observers i 0 (s_watches s0)). split; [auto 12|]. split; [|discriminate]. rewrite observers_spec. intros (w1 & Hw1 & _ & Hi1). rewrite Hw in Hw1. injection Hw1 as <-. rewrite Hi in Hi1. subst i. congruence.
  - repeat (split; [assumption|]). assert (Hk: k <> 0 /\ ~ In 0 kks). { destruct He as [He|He]; rewrite He in H; [discriminate|]. injection H as -> ->. split; intros Hz; apply Hnk; [left; auto 12|now right]. }
    split; [exists rr, kks; intuition discriminate|]. exists w. rewrite wset_other by tauto. auto 12.
  - repeat (split; [assumption|]). split; [|assumption]. exists [], []. auto 12.
  - repeat (split; [assumption|]). split; [|assumption]. exists [], []. auto 12.
  - repeat (split; [assumption|]). split; [exists r, ks; auto 12|]. destruct (Nat.eq_dec k 0) as [->|Hn]; [|exists w; rewrite wset_other by assumption; auto 12].
    rewrite Hw in H. injection H as <-. inversion H0; subst; congruence.
  - repeat (split; [assumption|]). split; [exists r, ks; auto 12|]. destruct (Nat.eq_dec k 0) as [->|Hn]; [|exists w; rewrite wset_other by assumption; auto 12].
    rewrite Hw in H. injection H as <-. erewrite wset_same by eassumption. eexists. split; [reflexivity|]. cbn. unfold latest in *. rewrite H0 in Hl. cbn. auto 12.
  - repeat (split; [assumption|]). split; [exists r, ks; auto 12|]. destruct (Nat.eq_dec k 0) as [->|Hn]; [congruence|]. exists w; rewrite wset_other by assumption; auto 12.
  - repeat (split; [assumption|]). split; [exists r, ks; auto 12|assumption].
Qed.
Theorem C27_stale_watch_refuted : exists ls s, ssteps winit ls s /\ (forall k, ~ In (LCancelCtx k) ls) /\ s_truth s 0 = Some (ok 2) /\
  forall ls' s', ssteps s ls' s' -> ~ In LUpdate ls' -> ~ In (LCancelCtx 0) ls' ->
    exists w, nth_error (s_watches s') 0 = Some w /\ w_phase w = PSelect /\ latest w = Some (ok 1).
Proof.
  exists [LUpdate; LRegister 0 false; LWatch 0; LWatch 0; LWatch 0; LWatch 0; LUpdate; LRegister 0 false]. eexists. split; [|split; [cbn; intuition discriminate|]].
  { one. apply (S_update _ 0 (ok 1)). one. now apply S_register. cbn. one. eapply S_watch; [reflexivity|]. now apply W_token. cbn.
    one. eapply S_watch; [reflexivity|]. now apply W_get. cbn. one. eapply S_watch; [reflexivity|]. now eapply W_drain_empty. cbn. one. eapply S_watch; [reflexivity|]. now eapply W_send. cbn.
    one. apply (S_update _ 0 (ok 2)). one. now apply S_register. cbn. apply SS_nil. }
  split; [reflexivity|]. intros ls' s' Hs Hu Hc. match type of Hs with ssteps ?a _ _ => assert (Hst: stale a) end.
  { split; [reflexivity|]. split; [reflexivity|]. split; [exists [], []; cbn; auto|]. eexists. split; [reflexivity|]. cbn. repeat split; reflexivity. }
  enough (Hst': stale s') by (destruct Hst' as (_ & _ & _ & w & H); exists w; tauto).
  revert Hst. clear - Hs Hu Hc. induction Hs as [s|s l s1 ls s2 H1 H2 IH]; intros Hst; [assumption|]. apply IH; [intros H; apply Hu; now right|intros H; apply Hc; now right|].
  eapply stale_step; [exact Hst|exact H1| |]; intros ->; [apply Hu|apply Hc]; now left.
Qed.
Print Assumptions C27_stale_watch_refuted.

(* --- what holds --- *)
Definition sends_of (s : wstate) : list nat := match s_eng s with EIdle => [] | ERefresh _ ks => ks end.
Definition active (w : watch) : Prop := w_phase w <> PCancel /\ w_phase w <> PDone.
Definition basics (s : wstate) : Prop :=
  (forall k w, nth_error (s_watches s) k = Some w -> (w_reg w = true <-> w_phase w <> PDone)) /\
  (forall k, In k (sends_of s) -> exists w, nth_error (s_watches s) k = Some w /\ w_phase w <> PDone) /\
  (forall i, s_truth s i = None -> s_results s i = None).
Lemma wstep_reg : forall free res w w', wstep free res w w' -> (w_reg w = true <-> w_phase w <> PDone) -> (w_reg w' = true <-> w_phase w' <> PDone).
Proof.
  intros free res w w' H Hr. assert (Hreg: w_phase w <> PDone -> w_reg w = true) by (apply Hr).
  destruct H; cbn; (split; intros Hh); try discriminate; try (apply Hreg; congruence); try (now destruct (results (w_input w))); try (unfold after_send; now destruct (_ && _)%bool); try congruence.
  now destruct (res (w_input w)).
Qed.
Lemma wstep_input : forall free res w w', wstep free res w w' -> w_input w' = w_input w /\ w_ctx w' = w_ctx w /\ w_once w' = w_once w.
Proof. intros free res w w' H. destruct H; auto. Qed.
Lemma wstep_done : forall free res w w', wstep free res w w' -> w_phase w <> PDone /\ (free = false -> w_phase w' <> PDone).
Proof.
  intros free res w w' H. split; [destruct H; congruence|]. intros ->. destruct H; cbn; try discriminate.
  - unfold after_send. now destruct (_ && _)%bool.
  - unfold after_send. now destruct (_ && _)%bool.
  - unfold after_send. now destruct (_ && _)%bool.
Qed.
Lemma nth_wset : forall l k w0 w k' w', nth_error l k = Some w0 -> nth_error (wset l k w) k' = Some w' -> (k' = k /\ w' = w) \/ (k' <> k /\ nth_error l k' = Some w').
Proof.
  intros l k w0 w k' w' H H'. rewrite wset_nth in H'. destruct (Nat.eqb k k') eqn:E.
  - apply Nat.eqb_eq in E. subst k'. rewrite H in H'. left. split; congruence.
  - apply Nat.eqb_neq in E. right. auto.
Qed.
Lemma basics_set : forall s k w w', nth_error (s_watches s) k = Some w -> basics s -> (w_reg w' = true <-> w_phase w' <> PDone) -> (w_phase w <> PDone -> sends_of s <> [] -> w_phase w' <> PDone) ->
  forall ks, incl ks (sends_of s) ->
  (forall j x, nth_error (wset (s_watches s) k w') j = Some x -> (w_reg x = true <-> w_phase x <> PDone)) /\
  (forall j, In j ks -> exists x, nth_error (wset (s_watches s) k w') j = Some x /\ w_phase x <> PDone).
Proof.
  intros s k w w' Hw (H1 & H2 & _) Hr Hp ks Hi. split.
  - intros j x Hj. destruct (nth_wset _ _ _ _ _ _ Hw Hj) as [[_ ->]|[_ H]]; [assumption|eauto].
  - intros j Hj. specialize (Hi j Hj). destruct (H2 j Hi) as (x & Hx & Hd). destruct (Nat.eq_dec j k) as [->|Hn].
    + exists w'. split; [eapply wset_same; exact Hw|]. apply Hp; [congruence|]. intros E. rewrite E in Hi. destruct Hi.
    + exists x. rewrite wset_other by auto. auto.
Qed.
Lemma basics_step : forall s l s', basics s -> sstep s l s' -> basics s'.
Proof.
  intros s l s' Hb Hs. pose proof Hb as (H1 & H2 & H3).
  destruct Hs as [s0 i v|s0 i once H|s0 inputs H H0 H1'|s0 i rr H H0|s0 i rr v H H0 H1'|s0 rr k kks w0 H H0 H1'|s0 rr k kks H H0|s0 H|s0 k w0 w' H H0|s0 k w0 v H H0|s0 k w0 H|s0]; unfold basics; cbn [s_truth s_results s_watches s_eng].
  - split; [assumption|]. split; [assumption|]. intros j. unfold setr. destruct (Nat.eqb j i); [discriminate|apply H3].
  - split; [|split].
    + intros k w Hk. destruct (Nat.lt_ge_cases k (List.length (s_watches s0))) as [Hlt|Hge]; [rewrite nth_error_app1 in Hk by assumption; eauto|]. rewrite nth_error_app2 in Hk by assumption.
      destruct (k - List.length (s_watches s0)) as [|d]; [|destruct d; discriminate]. injection Hk as <-. cbn. split; [discriminate|reflexivity].
    + intros k [].
    + intros j Hj. destruct (s_truth s0 i) as [v|] eqn:E; [|now apply H3]. unfold setr. destruct (Nat.eqb j i) eqn:Ei; [|now apply H3]. apply Nat.eqb_eq in Ei. congruence.
  - split; [assumption|]. split; [intros k []|assumption].
  - split; [assumption|]. split; [intros k []|assumption].
  - split; [assumption|]. split.
    + intros k Hk. unfold sends_of in Hk. cbn in Hk. apply observers_spec in Hk. destruct Hk as (w & Hw & Hr & _). exists w. split; [assumption|]. now apply (H1 k w Hw).
    + intros j Hj. unfold setr. destruct (Nat.eqb j i) eqn:Ei; [apply Nat.eqb_eq in Ei; congruence|now apply H3].
  - destruct (basics_set s0 k w0 (with_tok w0 true (w_phase w0)) H0 Hb (H1 k w0 H0) ltac:(auto) kks) as [Ha Hc]; [unfold sends_of; rewrite H; intros x Hx; now right|]. split; [exact Ha|]. split; [exact Hc|assumption].
  - split; [assumption|]. split; [intros j []|assumption].
  - split; [assumption|]. split; [intros j []|assumption].
  - assert (Hd: w_phase w0 <> PDone -> sends_of s0 <> [] -> w_phase w' <> PDone). { intros _ Hn. apply (wstep_done _ _ _ _ H0). unfold sends_of in Hn. destruct (s_eng s0); [congruence|reflexivity]. }
    destruct (basics_set s0 k w0 w' H Hb (wstep_reg _ _ _ _ H0 (H1 k w0 H)) Hd (sends_of s0) (incl_refl _)) as [Ha Hc]. split; [exact Ha|]. split; [exact Hc|assumption].
  - match goal with |- context [wset _ _ ?x] => destruct (basics_set s0 k w0 x H Hb (H1 k w0 H) ltac:(auto) (sends_of s0) (incl_refl _)) as [Ha Hc] end. split; [exact Ha|]. split; [exact Hc|assumption].
  - match goal with |- context [wset _ _ ?x] => destruct (basics_set s0 k w0 x H Hb (H1 k w0 H) ltac:(auto) (sends_of s0) (incl_refl _)) as [Ha Hc] end. split; [exact Ha|]. split; [exact Hc|assumption].
  - split; [assumption|]. split; [assumption|assumption].
Qed.
Lemma basics_reach : forall ls s, ssteps winit ls s -> basics s.
Proof.
  intros ls. induction ls as [|l ls IH] using rev_ind; intros s H.
  - inversion H; subst. repeat split; cbn; try (intros [|k] w Hw; discriminate); try (intros k []).
    + destruct k; discriminate.
    + destruct k; discriminate.
  - apply ssteps_snoc_inv in H. destruct H as (b & Hb & Hs). eapply basics_step; eauto.
Qed.
(* In every reachable state the refresher can go on unless the update channel of the watch it is about to notify is full;
   such a watch has not finished. *)
Theorem C27_engine_waits_only_for_full_channel : forall ls s, ssteps winit ls s -> s_eng s <> EIdle ->
  (exists s', sstep s LEngine s') \/
  (exists r k ks w, s_eng s = ERefresh r (k :: ks) /\ nth_error (s_watches s) k = Some w /\ w_tok w = true /\ w_phase w <> PDone).
Proof.
  intros ls s H Hne. pose proof (basics_reach ls s H) as (H1 & H2 & H3). destruct (s_eng s) as [|ins [|k ks]] eqn:E; [congruence| |].
  - left. destruct ins as [|i ins]; [eexists; now apply S_unlock|]. destruct (s_truth s i) as [v|] eqn:Et.
    + destruct (s_results s i) as [v'|] eqn:Er.
      * destruct (Nat.eq_dec (r_val v) (r_val v')) as [E1|E1]; [destruct (bool_dec (r_err v) (r_err v')) as [E2|E2]|].
        -- eexists. eapply S_same; [exact E|]. destruct v, v'. cbn in *. congruence.
        -- eexists. eapply S_changed; [exact E|exact Et|]. congruence.
        -- eexists. eapply S_changed; [exact E|exact Et|]. congruence.
      * eexists. eapply S_changed; [exact E|exact Et|]. congruence.
    + eexists. eapply S_same; [exact E|]. now rewrite Et, H3.
  - destruct (H2 k) as (w & Hw & Hd); [unfold sends_of; rewrite E; now left|]. destruct (w_tok w) eqn:Et; [right; exists ins, k, ks, w; auto|]. left. eexists. eapply S_notify; eassumption.
Qed.
Print Assumptions C27_engine_waits_only_for_full_channel.
(* A watch without context cancellation that is in its loop -- not between receive and get(), not cancelling, not caught by
   the drain race -- and will not end after its current response lets the refresher continue by its own steps alone. *)
Definition stays (w : watch) : Prop :=
  match w_phase w with
  | PSelect => True
  | PDrain v | PSend v => after_send w v = PSelect
  | PDrainRecv v => after_send w v = PSelect /\ w_out w <> None
  | _ => False
  end.
Lemma to_select : forall s k w, nth_error (s_watches s) k = Some w -> stays w -> (w_phase w <> PSelect -> forall v, w_phase w = PSend v -> w_out w = None) ->
  exists ls s' w', ssteps s ls s' /\ Forall (eq (LWatch k)) ls /\ s_eng s' = s_eng s /\ nth_error (s_watches s') k = Some w' /\ w_phase w' = PSelect /\ w_tok w' = w_tok w.
Proof.
  assert (Send: forall s k w v, nth_error (s_watches s) k = Some w -> w_phase w = PSend v -> w_out w = None -> after_send w v = PSelect ->
    exists ls s' w', ssteps s ls s' /\ Forall (eq (LWatch k)) ls /\ s_eng s' = s_eng s /\ nth_error (s_watches s') k = Some w' /\ w_phase w' = PSelect /\ w_tok w' = w_tok w).
  { intros s k w v Hw Hp Ho Ha. eexists [LWatch k], _, _. split; [eapply SS_cons; [|apply SS_nil]; eapply S_watch; [exact Hw|eapply W_send; eassumption]|].
    split; [repeat constructor|]. split; [reflexivity|]. split; [eapply wset_same; exact Hw|]. cbn. auto. }
  assert (Drain: forall s k w v, nth_error (s_watches s) k = Some w -> w_phase w = PDrain v -> w_out w = None -> after_send w v = PSelect ->
    exists ls s' w', ssteps s ls s' /\ Forall (eq (LWatch k)) ls /\ s_eng s' = s_eng s /\ nth_error (s_watches s') k = Some w' /\ w_phase w' = PSelect /\ w_tok w' = w_tok w).
  { intros s k w v Hw Hp Ho Ha. set (s1 := mkws (s_truth s) (s_results s) (wset (s_watches s) k (with_phase w (PSend v))) (s_eng s) (s_done s)).
    destruct (Send s1 k (with_phase w (PSend v)) v) as (ls & s' & w' & H1 & H2 & H3 & H4 & H5 & H6); [eapply wset_same; exact Hw|reflexivity|exact Ho|exact Ha|].
    exists (LWatch k :: ls), s', w'. split; [eapply SS_cons; [eapply S_watch; [exact Hw|eapply W_drain_empty; eassumption]|exact H1]|]. split; [now constructor|]. split; [exact H3|]. split; [exact H4|]. split; [exact H5|exact H6]. }
  assert (Recv: forall s k w v, nth_error (s_watches s) k = Some w -> w_phase w = PDrainRecv v -> w_out w <> None -> after_send w v = PSelect ->
    exists ls s' w', ssteps s ls s' /\ Forall (eq (LWatch k)) ls /\ s_eng s' = s_eng s /\ nth_error (s_watches s') k = Some w' /\ w_phase w' = PSelect /\ w_tok w' = w_tok w).
  { intros s k w v Hw Hp Ho Ha. destruct (w_out w) as [x|] eqn:Eo; [|congruence]. set (s1 := mkws (s_truth s) (s_results s) (wset (s_watches s) k (with_out w None (PDrain v))) (s_eng s) (s_done s)).
    destruct (Drain s1 k (with_out w None (PDrain v)) v) as (ls & s' & w' & H1 & H2 & H3 & H4 & H5 & H6); [eapply wset_same; exact Hw|reflexivity|reflexivity|exact Ha|].
    exists (LWatch k :: ls), s', w'. split; [eapply SS_cons; [eapply S_watch; [exact Hw|eapply W_drain_recv; eassumption]|exact H1]|]. split; [now constructor|]. split; [exact H3|]. split; [exact H4|]. split; [exact H5|exact H6]. }
  intros s k w Hw Hst Hso. unfold stays in Hst. destruct (w_phase w) as [| |v|v|v| |] eqn:Ep; try contradiction.
  - exists [], s, w. split; [constructor|]. split; [constructor|]. auto.
  - destruct (w_out w) as [x|] eqn:Eo; [|eapply Drain; eassumption]. set (s1 := mkws (s_truth s) (s_results s) (wset (s_watches s) k (with_phase w (PDrainRecv v))) (s_eng s) (s_done s)).
    destruct (Recv s1 k (with_phase w (PDrainRecv v)) v) as (ls & s' & w' & H1 & H2 & H3 & H4 & H5 & H6); [eapply wset_same; exact Hw|reflexivity|cbn; congruence|exact Hst|].
    exists (LWatch k :: ls), s', w'. split; [eapply SS_cons; [eapply S_watch; [exact Hw|eapply W_drain_full; eassumption]|exact H1]|]. split; [now constructor|]. split; [exact H3|]. split; [exact H4|]. split; [exact H5|exact H6].
  - destruct Hst as [Hst Ho]. eapply Recv; eassumption.
  - eapply Send; try eassumption. apply (Hso ltac:(discriminate) v eq_refl).
Qed.
Lemma send_empty_w : forall free res w w', wstep free res w w' -> forall v, w_phase w' = PSend v -> w_out w' = None.
Proof.
  intros free res w w' H v. destruct H; cbn; try discriminate; intros Hp; try assumption.
  - now destruct (res (w_input w)).
  - unfold after_send in Hp. destruct (_ && _)%bool; discriminate.
  - unfold after_send in Hp. destruct (_ && _)%bool; discriminate.
  - unfold after_send in Hp. destruct (_ && _)%bool; discriminate.
Qed.
Lemma send_empty : forall ls s, ssteps winit ls s -> forall k w v, nth_error (s_watches s) k = Some w -> w_phase w = PSend v -> w_out w = None.
Proof.
  intros ls. induction ls as [|l ls IH] using rev_ind; intros s H k w v Hw Hp.
  - inversion H; subst. destruct k; discriminate.
  - apply ssteps_snoc_inv in H. destruct H as (b & Hb & Hs). specialize (IH b Hb).
    destruct Hs as [s0 i v0|s0 i once H|s0 inputs H H0 H1'|s0 i rr H H0|s0 i rr v0 H H0 H1'|s0 rr k0 kks w0 H H0 H1'|s0 rr k0 kks H H0|s0 H|s0 k0 w0 w' H H0|s0 k0 w0 v0 H H0|s0 k0 w0 H|s0]; cbn [s_watches] in Hw; try (eapply IH; eassumption).
    + destruct (Nat.lt_ge_cases k (List.length (s_watches s0))) as [Hlt|Hge]; [rewrite nth_error_app1 in Hw by assumption; eapply IH; eassumption|]. rewrite nth_error_app2 in Hw by assumption.
      destruct (k - List.length (s_watches s0)) as [|d]; [|destruct d; discriminate]. injection Hw as <-. discriminate.
    + destruct (nth_wset _ _ _ _ _ _ H0 Hw) as [[-> ->]|[_ Hx]]; [|eapply IH; eassumption]. cbn in *. eapply IH; eassumption.
    + destruct (nth_wset _ _ _ _ _ _ H Hw) as [[-> ->]|[_ Hx]]; [|eapply IH; eassumption]. eapply send_empty_w; eassumption.
    + destruct (nth_wset _ _ _ _ _ _ H Hw) as [[-> ->]|[_ Hx]]; [reflexivity|]. eapply IH; eassumption.
    + destruct (nth_wset _ _ _ _ _ _ H Hw) as [[-> ->]|[_ Hx]]; [|eapply IH; eassumption]. cbn in *. eapply IH; eassumption.
Qed.
Theorem C27_watch_unblocks : forall ls s r k ks w, ssteps winit ls s -> s_eng s = ERefresh r (k :: ks) -> nth_error (s_watches s) k = Some w -> stays w ->
  exists ls1 s1 s2, ssteps s ls1 s1 /\ Forall (eq (LWatch k)) ls1 /\ sstep s1 LEngine s2 /\ s_eng s2 = ERefresh r ks.
Proof.
  intros ls s r k ks w Hreach He Hw Hst. destruct (to_select s k w Hw Hst) as (ls1 & s1 & w1 & H1 & H2 & H3 & H4 & H5 & H6); [intros _ v Hv; eapply send_empty; eassumption|].
  rewrite He in H3. destruct (w_tok w1) eqn:Et.
  - set (s1' := mkws (s_truth s1) (s_results s1) (wset (s_watches s1) k (with_tok w1 false PGot)) (s_eng s1) (s_done s1)).
    eexists (ls1 ++ [LWatch k]), s1', _. split; [eapply ssteps_app; [exact H1|]; eapply SS_cons; [|apply SS_nil]; eapply S_watch; [exact H4|now apply W_token]|].
    split; [apply Forall_app; split; [assumption|repeat constructor]|]. split; [eapply S_notify; [exact H3|eapply wset_same; exact H4|reflexivity]|]. reflexivity.
  - eexists ls1, s1, _. split; [exact H1|]. split; [exact H2|]. split; [eapply S_notify; [exact H3|exact H4|exact Et]|]. reflexivity.
Qed.
Print Assumptions C27_watch_unblocks.
Example C27_stays_ex : stays (mkwatch 0 false true true (PDrain (ok 1)) false (Some (ok 0)) None).
Proof. reflexivity. Qed.

(* --- the latest value --- *)
Definition only_watch (s : wstate) (k i : nat) : Prop := forall j x, nth_error (s_watches s) j = Some x -> w_input x = i -> j = k.
Definition on_its_way (s : wstate) (k : nat) (w : watch) (v : resp) : Prop :=
  w_tok w = true \/ w_phase w = PGot \/ In k (sends_of s) \/ w_phase w = PDrain v \/ w_phase w = PDrainRecv v \/ w_phase w = PSend v.
Definition fresh (s : wstate) : Prop := forall k w v, nth_error (s_watches s) k = Some w -> only_watch s k (w_input w) -> s_done s = false -> w_ctx w = false -> active w ->
  s_results s (w_input w) = Some v -> on_its_way s k w v \/ (w_phase w = PSelect /\ latest w = Some v).
Lemma only_wset : forall s k w0 w' ts rs e d, nth_error (s_watches s) k = Some w0 -> w_input w' = w_input w0 ->
  forall j i, only_watch (mkws ts rs (wset (s_watches s) k w') e d) j i -> only_watch s j i.
Proof.
  intros s k w0 w' ts rs e d Hk Hi j i Ho m x Hm Hx. destruct (Nat.eq_dec m k) as [->|Hn].
  - apply (Ho k w'); [cbn; eapply wset_same; exact Hk|]. rewrite Hi. congruence.
  - apply (Ho m x); [cbn; rewrite wset_other by auto; exact Hm|assumption].
Qed.
Lemma fresh_step : forall s l s', basics s -> fresh s -> sstep s l s' -> fresh s'.
Proof.
  intros s l s' (B1 & B2 & B3) Hf Hs.
  destruct Hs as [s0 i v0|s0 i once H|s0 inputs H H0 H1'|s0 i rr H H0|s0 i rr v0 H H0 H1'|s0 rr k0 kks w0 H H0 H1'|s0 rr k0 kks H H0|s0 H|s0 k0 w0 w' H H0|s0 k0 w0 v0 H H0|s0 k0 w0 H|s0];
    intros k w v Hw Ho Hd Hc Ha Hr; cbn [s_watches s_done s_results] in Hw, Hd, Hr.
  - exact (Hf k w v Hw Ho Hd Hc Ha Hr).
  - destruct (Nat.lt_ge_cases k (List.length (s_watches s0))) as [Hlt|Hge].
    + rewrite nth_error_app1 in Hw by assumption. assert (Hi: w_input w <> i).
      { intros Hi. assert (Hx: List.length (s_watches s0) = k); [|lia]. eapply (Ho (List.length (s_watches s0)) _); [cbn; rewrite nth_error_app2, Nat.sub_diag by lia; reflexivity|]. cbn. congruence. }
      assert (Ho': only_watch s0 k (w_input w)) by (intros j x Hj Hx; apply (Ho j x); [cbn; now apply nth_app1|assumption]).
      assert (Hr': s_results s0 (w_input w) = Some v). { destruct (s_truth s0 i); [|assumption]. unfold setr in Hr. apply Nat.eqb_neq in Hi. now rewrite Hi in Hr. }
      destruct (Hf k w v Hw Ho' Hd Hc Ha Hr') as [Hx|Hx]; [left|right; exact Hx]. unfold on_its_way, sends_of in *. cbn [s_eng]. rewrite H in Hx. exact Hx.
    + rewrite nth_error_app2 in Hw by assumption. destruct (k - List.length (s_watches s0)) as [|d]; [|destruct d; discriminate]. injection Hw as <-. cbn in Hr. left. left. cbn.
      destruct (s_truth s0 i) as [t|] eqn:E; [reflexivity|]. rewrite (B3 i E) in Hr. discriminate.
  - destruct (Hf k w v Hw Ho Hd Hc Ha Hr) as [Hx|Hx]; [left|right; exact Hx]. unfold on_its_way, sends_of in *. cbn [s_eng]. rewrite H in Hx. exact Hx.
  - destruct (Hf k w v Hw Ho Hd Hc Ha Hr) as [Hx|Hx]; [left|right; exact Hx]. unfold on_its_way, sends_of in *. cbn [s_eng]. rewrite H in Hx. exact Hx.
  - unfold setr in Hr. destruct (Nat.eqb (w_input w) i) eqn:Ei.
    + apply Nat.eqb_eq in Ei. left. right. right. left. unfold sends_of. cbn [s_eng]. apply observers_spec. exists w. split; [assumption|]. split; [|assumption]. apply (B1 k w Hw). apply Ha.
    + destruct (Hf k w v Hw Ho Hd Hc Ha Hr) as [Hx|Hx]; [left|right; exact Hx]. unfold on_its_way, sends_of in *. cbn [s_eng]. rewrite H in Hx. cbn in Hx. tauto.
  - pose proof (only_wset s0 k0 w0 (with_tok w0 true (w_phase w0)) _ _ _ _ H0 eq_refl _ _ Ho) as Ho'. destruct (nth_wset _ _ _ _ _ _ H0 Hw) as [[-> ->]|[Hn Hx]].
    + left. left. reflexivity.
    + destruct (Hf k w v Hx Ho' Hd Hc Ha Hr) as [Hy|Hy]; [left|right; exact Hy]. unfold on_its_way, sends_of in *. cbn [s_eng]. rewrite H in Hy. cbn [In] in Hy. destruct Hy as [?|[?|[[?|?]|?]]]; try tauto. congruence.
  - congruence.
  - destruct (Hf k w v Hw Ho Hd Hc Ha Hr) as [Hx|Hx]; [left|right; exact Hx]. unfold on_its_way, sends_of in *. cbn [s_eng]. rewrite H in Hx. exact Hx.
  - destruct (wstep_input _ _ _ _ H0) as (Hi & Hcx & _). pose proof (only_wset s0 k0 w0 w' _ _ _ _ H Hi _ _ Ho) as Ho'. destruct (nth_wset _ _ _ _ _ _ H Hw) as [[-> ->]|[Hn Hx]].
    + rewrite Hi in Ho', Hr. rewrite Hcx in Hc. assert (Ha0: active w0).
      { destruct Ha as [Ha1 Ha2]. pose proof (wstep_done _ _ _ _ H0) as [Hd0 _]. split; [|assumption]. intros Hp. apply Ha2. inversion H0; subst; congruence || reflexivity. }
      specialize (Hf k0 w0 v H Ho' Hd Hc Ha0 Hr). unfold on_its_way in *. change (sends_of (mkws _ _ _ (s_eng s0) _)) with (sends_of s0).
      inversion H0; subst; cbn [w_phase w_tok with_tok with_phase with_out w_out w_got] in *;
      repeat match goal with Hq : w_phase ?x = _ |- _ => rewrite Hq in * end.
      * auto.
      * congruence.
      * rewrite Hr. auto 8.
      * destruct Hf as [Hf|[Hf _]]; [left|discriminate]. intuition (try discriminate); match goal with Hq : PDrain _ = PDrain _ |- _ => injection Hq as -> end; auto 8.
      * destruct Hf as [Hf|[Hf _]]; [left|discriminate]. intuition (try discriminate); match goal with Hq : PDrain _ = PDrain _ |- _ => injection Hq as -> end; auto 8.
      * destruct Hf as [Hf|[Hf _]]; [left|discriminate]. intuition (try discriminate); match goal with Hq : PDrainRecv _ = PDrainRecv _ |- _ => injection Hq as -> end; auto 8.
      * congruence.
      * destruct Hf as [Hf|[Hf _]]; [|discriminate]. unfold latest. cbn [w_out].
        assert (Hsel: after_send w0 v0 = PSelect). { destruct Ha as [Ha1 _]. cbn in Ha1. unfold after_send in *. destruct (_ && _)%bool; congruence. }
        intuition (try discriminate). match goal with Hq : PSend _ = PSend _ |- _ => injection Hq as -> end. auto.
      * congruence.
      * exfalso. apply (proj2 Ha). reflexivity.
    + exact (Hf k w v Hx Ho' Hd Hc Ha Hr).
  - match type of Hw with nth_error (wset _ _ ?x) _ = _ => pose proof (only_wset s0 k0 w0 x _ _ _ _ H eq_refl _ _ Ho) as Ho' end. destruct (nth_wset _ _ _ _ _ _ H Hw) as [[-> ->]|[Hn Hx]].
    + destruct (Hf k0 w0 v H Ho' Hd Hc Ha Hr) as [Hy|[Hy1 Hy2]]; [left; exact Hy|right]. split; [exact Hy1|]. unfold latest in *. rewrite H0 in Hy2. exact Hy2.
    + exact (Hf k w v Hx Ho' Hd Hc Ha Hr).
  - match type of Hw with nth_error (wset _ _ ?x) _ = _ => pose proof (only_wset s0 k0 w0 x _ _ _ _ H eq_refl _ _ Ho) as Ho' end. destruct (nth_wset _ _ _ _ _ _ H Hw) as [[-> ->]|[Hn Hx]].
    + discriminate.
    + exact (Hf k w v Hx Ho' Hd Hc Ha Hr).
  - discriminate.
Qed.
(* A watch that is the only one on its input, whose context and client are alive, that is at rest and whose input was
   refreshed since the last change, has handed the current value to its consumer (or has it ready in the channel). *)
Theorem C27_latest_value : forall ls s k w v, ssteps winit ls s -> nth_error (s_watches s) k = Some w -> only_watch s k (w_input w) ->
  s_done s = false -> w_ctx w = false -> s_eng s = EIdle -> s_truth s (w_input w) = Some v -> s_results s (w_input w) = s_truth s (w_input w) ->
  w_phase w = PSelect -> w_tok w = false -> latest w = Some v.
Proof.
  intros ls s k w v Hs Hw Ho Hd Hc He Ht Hr Hp Htok. assert (Hf: fresh s).
  { revert s Hs Hw Ho Hd He Ht Hr. induction ls as [|l ls IH] using rev_ind; intros s Hs _ _ _ _ _ _.
    - inversion Hs; subst. intros j x u Hx. destruct j; discriminate.
    - apply ssteps_snoc_inv in Hs. destruct Hs as (b & Hb & Hs). eapply fresh_step; [eapply basics_reach; exact Hb| |exact Hs].
      clear - Hb. revert b Hb. induction ls as [|l ls IH] using rev_ind; intros b Hb; [inversion Hb; subst; intros j x u Hx; destruct j; discriminate|].
      apply ssteps_snoc_inv in Hb. destruct Hb as (c & Hc & Hs). eapply fresh_step; [eapply basics_reach; exact Hc|eauto|exact Hs]. }
  destruct (Hf k w v Hw Ho Hd Hc) as [Hx|[_ Hx]]; [split; congruence|congruence| |exact Hx]. unfold on_its_way, sends_of in Hx. rewrite He, Hp, Htok in Hx. cbn in Hx. intuition discriminate.
Qed.
Print Assumptions C27_latest_value.
Example C27_latest_ex : exists ls s w, ssteps winit ls s /\ nth_error (s_watches s) 0 = Some w /\ only_watch s 0 (w_input w) /\ s_done s = false /\ w_ctx w = false /\ s_eng s = EIdle /\
  s_truth s 0 = Some (ok 1) /\ s_results s 0 = Some (ok 1) /\ w_phase w = PSelect /\ w_tok w = false.
Proof.
  exists [LUpdate; LRegister 0 false; LWatch 0; LWatch 0; LWatch 0; LWatch 0]. eexists _, _. split.
  { one. apply (S_update _ 0 (ok 1)). one. now apply S_register. cbn. one. eapply S_watch; [reflexivity|]. now apply W_token. cbn.
    one. eapply S_watch; [reflexivity|]. now apply W_get. cbn. one. eapply S_watch; [reflexivity|]. now eapply W_drain_empty. cbn. one. eapply S_watch; [reflexivity|]. now eapply W_send. cbn. apply SS_nil. }
  split; [reflexivity|]. split; [|repeat split]. intros [|j] x Hj Hx; [reflexivity|]. destruct j; discriminate.
Qed.
