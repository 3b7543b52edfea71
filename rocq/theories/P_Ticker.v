(* C91: the ticks of WASM filters. *)
From Coq Require Import List Arith ZArith Lia Bool.
From Verif Require Import M_Ticker.
Import ListNotations.
Open Scope list_scope.

Lemma put_same l t x y h : nth_error l t = Some (y, h) -> nth_error (put l t x) t = Some (x, h).
Proof. revert t. induction l as [|[z k] l IH]; intros [|t] H; cbn in *; try discriminate; [congruence|auto]. Qed.
Lemma put_other l t x u : u <> t -> nth_error (put l t x) u = nth_error l u.
Proof. revert t u. induction l as [|[z k] l IH]; intros [|t] [|u] H; cbn; try reflexivity; [congruence|apply IH; congruence]. Qed.
Lemma put_length l t x : length (put l t x) = length l.
Proof. revert t. induction l as [|[z k] l IH]; intros [|t]; cbn; congruence. Qed.

Lemma run_app s t1 u t2 v : run s t1 u -> run u t2 v -> run s (t1 ++ t2) v.
Proof.
  intros H1 H2. induction H2 as [|u tr w e v H2 IH S]; [rewrite app_nil_r; exact H1|]. rewrite app_assoc. eapply R_snoc; [apply IH; exact H1|exact S].
Qed.
Lemma run_cons s e u tr v : step s e u -> run u tr v -> run s (e :: tr) v.
Proof. intros S R. apply (run_app s [e] u tr v); [apply (R_snoc s [] s e u); [apply R_nil|exact S]|exact R]. Qed.
Lemma run_inv_cons s e tr v : run s (e :: tr) v -> exists u, step s e u /\ run u tr v.
Proof.
  intro R. remember (e :: tr) as l eqn:E. revert e tr E. induction R as [|s tr' u e' v R IH S]; intros e tr E; [discriminate|].
  destruct tr' as [|a tr']; cbn in E.
  - injection E as <- <-. inversion R; subst; [exists v; split; [exact S|apply R_nil]|]. destruct tr; discriminate.
  - injection E as -> <-. destruct (IH e tr' eq_refl) as [w [A B]]. exists w. split; [exact A|]. eapply R_snoc; eassumption.
Qed.

(* a ticker ticks exactly if it holds the lock; only the owner of the lock sends; a channel in a property belongs to a ticker that has begun *)
Definition begun (s : st) (t : nat) : Prop := exists x h, nth_error (tickers s) t = Some (x, h) /\ forall p, x <> Starting p.
Definition inv (s : st) : Prop :=
  (forall t, is s t InTick <-> lock s = Some (Ticker t)) /\ (forall t, sending s = Some t -> lock s <> None /\ begun s t) /\ (forall h t, chan s h = Some t -> begun s t).

Lemma is_put_same s t x y c l se cr : is s t y -> is (mkst (put (tickers s) t x) c l se cr) t x.
Proof. intros [h H]. exists h. cbn. eapply put_same. exact H. Qed.
Lemma is_put s t u x y c l se cr : is s t y -> is (mkst (put (tickers s) t x) c l se cr) u = is (mkst (put (tickers s) t x) c l se cr) u. Proof. reflexivity. Qed.
Lemma is_put_iff s t u x y z c l se cr : is s t y -> (is (mkst (put (tickers s) t x) c l se cr) u z <-> (u = t /\ z = x) \/ (u <> t /\ is s u z)).
Proof.
  intros [h H]. unfold is. cbn [tickers]. destruct (Nat.eq_dec u t) as [->|N].
  - rewrite (put_same _ _ x _ _ H). split; [intros [k E]; left; split; congruence|]. intros [[_ ->]|[A _]]; [exists h; reflexivity|congruence].
  - rewrite put_other by exact N. split; [intro E; right; split; [exact N|exact E]|]. intros [[A _]|[_ A]]; [congruence|exact A].
Qed.
Lemma is_det s t x y : is s t x -> is s t y -> x = y.
Proof. intros [h H] [k K]. congruence. Qed.
Lemma begun_put s t u x y c l se cr : is s t y -> (forall p, x <> Starting p) -> begun s u -> begun (mkst (put (tickers s) t x) c l se cr) u.
Proof.
  intros [h H] X [z [k [N Z]]]. unfold begun. cbn [tickers]. destruct (Nat.eq_dec u t) as [->|D].
  - exists x, h. split; [eapply put_same; exact H|exact X].
  - exists z, k. split; [rewrite put_other by exact D; exact N|exact Z].
Qed.

Lemma inv_init : inv init.
Proof.
  split; [|split].
  - intro t. split; [intros [h H]; destruct t; discriminate|intro H; discriminate].
  - intros t H. discriminate.
  - intros h t H. discriminate.
Qed.
Lemma inv_step s e s' : inv s -> step s e s' -> inv s'.
Proof.
  intros [I1 [I2 I3]] S. destruct S.
  - (* enter *) split; [|split].
    + intro t. change (is (mkst (tickers s) (chan s) (Some (Caller c)) (sending s) false) t InTick) with (is s t InTick). rewrite I1. cbn [lock]. split; congruence.
    + intros t H'. cbn in *. split; [congruence|]. exact (proj2 (I2 t H')).
    + exact I3.
  - (* leave *) split; [|split].
    + intro t. change (is (mkst (tickers s) (chan s) None None false) t InTick) with (is s t InTick). rewrite I1. cbn [lock]. split; congruence.
    + intros t H'. discriminate.
    + exact I3.
  - (* set *)
    assert (B : forall t, begun s t -> begun (mkst (tickers s ++ [(Starting p, h)]) (chan s) (lock s) None false) t).
    { intros t [x [k [N X]]]. exists x, k. split; [|exact X]. cbn [tickers]. rewrite nth_error_app1; [exact N|]. apply nth_error_Some. congruence. }
    split; [|split].
    + intro t. cbn [lock]. rewrite <- I1. unfold is. cbn [tickers]. split; intros [k N].
      * destruct (Nat.lt_ge_cases t (length (tickers s))) as [L|L]; [rewrite nth_error_app1 in N by exact L; exists k; exact N|].
        rewrite nth_error_app2 in N by exact L. destruct (t - length (tickers s)) as [|m]; [discriminate|destruct m; discriminate].
      * exists k. rewrite nth_error_app1; [exact N|]. apply nth_error_Some. congruence.
    + intros t H'. discriminate.
    + intros h' t H'. apply B. exact (I3 h' t H').
  - (* begin *) destruct (0 <? p)%Z.
    + assert (Hs : is s t (Starting p)) by (exists h; assumption).
      assert (B : forall c l se cr u, begun s u -> begun (mkst (put (tickers s) t Waiting) c l se cr) u) by (intros; eapply begun_put; [exact Hs|discriminate|assumption]).
      split; [|split].
      * intro u. rewrite (is_put_iff s t u Waiting _ InTick _ _ _ _ Hs). cbn [lock]. rewrite <- I1. split.
        -- intros [[_ A]|[_ A]]; [discriminate|exact A].
        -- intro A. right. split; [intros ->; pose proof (is_det _ _ _ _ A Hs); discriminate|exact A].
      * intros u H'. cbn in *. destruct (I2 u H') as [A C]. split; [exact A|apply B; exact C].
      * intros h' u H'. cbn in H'. unfold upd in H'. destruct (h' =? h); [|apply B; exact (I3 h' u H')]. injection H' as <-.
        exists Waiting, h. split; [cbn; eapply put_same; eassumption|discriminate].
    + split; [|split]; assumption.
  - (* fire *) split; [|split].
    + intro u. rewrite (is_put_iff s t u WantLock _ InTick _ _ _ _ H0). cbn [lock]. rewrite <- I1. split.
      * intros [[_ A]|[_ A]]; [discriminate|exact A].
      * intro A. right. split; [intros ->; pose proof (is_det _ _ _ _ A H0); discriminate|exact A].
    + intros u H'. cbn in *. destruct (I2 u H') as [A C]. split; [exact A|]. eapply begun_put; [exact H0|discriminate|exact C].
    + intros h' u H'. eapply begun_put; [exact H0|discriminate|exact (I3 h' u H')].
  - (* tick *) split; [|split].
    + intro u. rewrite (is_put_iff s t u InTick _ InTick _ _ _ _ H0). cbn [lock]. split.
      * intros [[-> _]|[_ A]]; [reflexivity|]. apply I1 in A. congruence.
      * intro A. left. split; [congruence|reflexivity].
    + intros u H'. cbn in *. destruct (I2 u H') as [A C]. congruence.
    + intros h' u H'. eapply begun_put; [exact H0|discriminate|exact (I3 h' u H')].
  - (* end *) split; [|split].
    + intro u. rewrite (is_put_iff s t u Waiting _ InTick _ _ _ _ H0). cbn [lock]. split.
      * intros [[_ A]|[N A]]; [discriminate|]. apply I1 in A. congruence.
      * discriminate.
    + intros u H'. discriminate.
    + intros h' u H'. eapply begun_put; [exact H0|discriminate|exact (I3 h' u H')].
  - (* overwrite *) split; [exact I1|split].
    + intros u H'. discriminate.
    + intros h' u H'. cbn in H'. unfold upd in H'. destruct (h' =? h); [discriminate|exact (I3 h' u H')].
  - (* none *) split; [exact I1|split; assumption].
  - (* call *) split; [exact I1|split; [|exact I3]]. intros u H'. cbn in *. injection H' as <-. split; [congruence|exact (I3 h t H2)].
  - (* done *) split; [|split].
    + intro u. rewrite (is_put_iff s t u Stopped _ InTick _ _ _ _ H1). cbn [lock]. rewrite <- I1. split.
      * intros [[_ A]|[_ A]]; [discriminate|exact A].
      * intro A. right. split; [intros ->; pose proof (is_det _ _ _ _ A H1); discriminate|exact A].
    + intros u H'. discriminate.
    + intros h' u H'. eapply begun_put; [exact H1|discriminate|exact (I3 h' u H')].
Qed.
Lemma inv_run s tr s' : inv s -> run s tr s' -> inv s'.
Proof. intros I R. induction R; [exact I|]. eapply inv_step; [apply IHR; exact I|eassumption]. Qed.

(* ---- ticks are calls under the lock ---- *)
(* A tick begins only when nobody holds the instance, and nobody else gets it before the tick ends. *)
Theorem C91_exclusive : forall tr s t e s', run init tr s -> is s t InTick -> step s e s' ->
  lock s = Some (Ticker t) /\ (forall c, e <> Enter c) /\ (forall u, e <> TickBegin u) /\ (is s' t InTick \/ e = TickEnd t).
Proof.
  intros tr s t e s' R T S. destruct (inv_run _ _ _ inv_init R) as [I1 _]. pose proof (proj1 (I1 t) T) as L. split; [exact L|]. destruct S.
  all: try congruence.
  all: split; [intros; congruence|]; split; [intros; congruence|].
  all: try (left; exact T).
  - left. destruct T as [k T]. exists k. cbn. rewrite nth_error_app1; [exact T|]. apply nth_error_Some. congruence.
  - left. destruct (0 <? p)%Z; [|exact T]. assert (Hs : is s t0 (Starting p)) by (exists h; assumption).
    rewrite (is_put_iff s t0 t Waiting _ InTick _ _ _ _ Hs). right. split; [intros ->; pose proof (is_det _ _ _ _ T Hs); discriminate|exact T].
  - left. rewrite (is_put_iff s t0 t WantLock _ InTick _ _ _ _ H0). right. split; [intros ->; pose proof (is_det _ _ _ _ T H0); discriminate|exact T].
  - right. congruence.
  - left. rewrite (is_put_iff s t0 t Stopped _ InTick _ _ _ _ H1). right. split; [intros ->; pose proof (is_det _ _ _ _ T H1); discriminate|exact T].
Qed.
Print Assumptions C91_exclusive.

(* ---- a ticker that was stopped never ticks again ---- *)
Lemma stopped_step s e s' t : step s e s' -> is s t Stopped -> is s' t Stopped /\ e <> TickBegin t /\ e <> Fire t.
Proof.
  intros S T. destruct S.
  all: try (split; [exact T|split; discriminate]).
  - split; [|split; discriminate]. destruct T as [k T]. exists k. cbn. rewrite nth_error_app1; [exact T|]. apply nth_error_Some. congruence.
  - split; [|split; discriminate]. destruct (0 <? p)%Z; [|exact T]. assert (Hs : is s t0 (Starting p)) by (exists h; assumption).
    rewrite (is_put_iff s t0 t Waiting _ Stopped _ _ _ _ Hs). right. split; [intros ->; pose proof (is_det _ _ _ _ T Hs); discriminate|exact T].
  - assert (N : t <> t0) by (intros ->; pose proof (is_det _ _ _ _ T H0); discriminate).
    split; [|split; congruence]. rewrite (is_put_iff s t0 t WantLock _ Stopped _ _ _ _ H0). right. split; assumption.
  - assert (N : t <> t0) by (intros ->; pose proof (is_det _ _ _ _ T H0); discriminate).
    split; [|split; congruence]. rewrite (is_put_iff s t0 t InTick _ Stopped _ _ _ _ H0). right. split; assumption.
  - assert (N : t <> t0) by (intros ->; pose proof (is_det _ _ _ _ T H0); discriminate).
    split; [|split; congruence]. rewrite (is_put_iff s t0 t Waiting _ Stopped _ _ _ _ H0). right. split; assumption.
  - split; [|split; discriminate]. rewrite (is_put_iff s t0 t Stopped _ Stopped _ _ _ _ H1). destruct (Nat.eq_dec t t0); [left; split; [assumption|reflexivity]|right; split; assumption].
Qed.
(* Once Done has returned from stopping t, it never ticks again, whatever happens. *)
Theorem C91_stopped : forall s t s1 tr s2, step s (DoneEnd t) s1 -> run s1 tr s2 -> ~ In (TickBegin t) tr.
Proof.
  intros s t s1 tr s2 S R.
  assert (T : is s1 t Stopped) by (inversion S; subst; eapply is_put_same; eassumption).
  assert (X : is s2 t Stopped /\ ~ In (TickBegin t) tr).
  { clear S. induction R as [|s0 tr0 u e v R IH S]; [split; [exact T|intros []]|]. destruct (IH T) as [A B]. destruct (stopped_step _ _ _ _ S A) as [C [D _]].
    split; [exact C|]. intro I. apply in_app_or in I. destruct I as [I|[I|[]]]; [exact (B I)|congruence]. }
  apply X.
Qed.
Print Assumptions C91_stopped.

(* ---- when Done returns ---- *)
(* A Done that finds a ticker waits, with the lock of the instance, until that ticker is in its select; it can return at once exactly then. *)
Theorem C91_done_returns_now : forall tr s t, run init tr s -> crashed s = false -> sending s = Some t -> ((exists s', step s (DoneEnd t) s') <-> is s t Waiting).
Proof.
  intros tr s t R C S. split.
  - intros [s' X]. inversion X; subst. assumption.
  - intro W. eexists. apply S_done; assumption.
Qed.
Print Assumptions C91_done_returns_now.
(* If it is not, then Done never returns, and nobody ever gets the instance again: no caller, no tick of any filter. *)
Definition stuck (s : st) (t : nat) : Prop := inv s /\ sending s = Some t /\ ~ is s t Waiting.
Lemma stuck_step s e s' t : stuck s t -> step s e s' -> stuck s' t /\ lock s' = lock s /\ (forall u, e <> DoneEnd u) /\ (forall c, e <> Enter c) /\ (forall u, e <> TickBegin u).
Proof.
  intros [I [S W]] X. pose proof (inv_step _ _ _ I X) as I'. destruct (proj1 (proj2 I) t S) as [L [z [k [N Z]]]].
  destruct X; try congruence.
  - (* begin *) destruct (0 <? p)%Z; (split; [|split; [reflexivity|split; [|split]; intros; discriminate]]); (split; [exact I'|split; [exact S|]]); [|exact W].
    assert (Hs : is s t0 (Starting p)) by (exists h; assumption). rewrite (is_put_iff s t0 t Waiting _ Waiting _ _ _ _ Hs). intros [[-> _]|[_ A]]; [|exact (W A)].
    rewrite N in H0. injection H0 as -> _. exact (Z p eq_refl).
  - (* fire *) split; [|split; [reflexivity|split; [|split]; intros; discriminate]]. split; [exact I'|split; [exact S|]].
    rewrite (is_put_iff s t0 t WantLock _ Waiting _ _ _ _ H0). intros [[_ A]|[_ A]]; [discriminate|exact (W A)].
Qed.
Theorem C91_done_stuck : forall tr s t, run init tr s -> sending s = Some t -> ~ is s t Waiting ->
  forall tr' s', run s tr' s' -> sending s' = Some t /\ lock s' = lock s /\ (forall u, ~ In (DoneEnd u) tr') /\ (forall c, ~ In (Enter c) tr') /\ (forall u, ~ In (TickBegin u) tr').
Proof.
  intros tr s t R S W tr' s' R'. assert (K : stuck s t) by (split; [exact (inv_run _ _ _ inv_init R)|split; assumption]). clear R S W.
  assert (X : stuck s' t /\ lock s' = lock s /\ (forall u, ~ In (DoneEnd u) tr') /\ (forall c, ~ In (Enter c) tr') /\ (forall u, ~ In (TickBegin u) tr')).
  { induction R' as [|s tr0 u e v R IH S]; [split; [exact K|]; split; [reflexivity|]; split; [intros ? []|split; intros ? []]|].
    destruct (IH K) as [A [B [C [D E]]]]. destruct (stuck_step _ _ _ _ A S) as [A' [B' [C' [D' E']]]].
    split; [exact A'|]. split; [congruence|]. split; [|split]; intros x I; apply in_app_or in I; destruct I as [I|[I|[]]];
      [exact (C x I)|exact (C' x (eq_sym (eq_sym I)))|exact (D x I)|exact (D' x I)|exact (E x I)|exact (E' x I)]. }
  destruct X as [[_ [A _]] X]. split; [exact A|exact X].
Qed.
Print Assumptions C91_done_stuck.

(* ... as for a tick that calls Done for its own ticker, ... *)
Theorem C91_done_in_own_tick : forall tr s t h s1, run init tr s -> is s t InTick -> chan s h = Some t -> step s (DoneCall h) s1 ->
  forall tr' s', run s1 tr' s' -> (forall u, ~ In (DoneEnd u) tr') /\ (forall c, ~ In (Enter c) tr') /\ (forall u, ~ In (TickBegin u) tr').
Proof.
  intros tr s t h s1 R T C S tr' s' R'.
  assert (X : sending s1 = Some t /\ tickers s1 = tickers s) by (inversion S; subst; cbn; split; [congruence|reflexivity]). destruct X as [X Y].
  assert (W : ~ is s1 t Waiting). { intros [k K]. rewrite Y in K. destruct T as [k' T]. congruence. }
  destruct (C91_done_stuck (tr ++ [DoneCall h]) s1 t (R_snoc _ _ _ _ _ R S) X W _ _ R') as [_ [_ Z]]. exact Z.
Qed.
Print Assumptions C91_done_in_own_tick.
(* ... for a ticker that has just fired and waits for the lock, ... *)
Theorem C91_done_while_firing : forall tr s t h s1, run init tr s -> is s t WantLock -> chan s h = Some t -> step s (DoneCall h) s1 ->
  forall tr' s', run s1 tr' s' -> (forall u, ~ In (DoneEnd u) tr') /\ (forall c, ~ In (Enter c) tr') /\ (forall u, ~ In (TickBegin u) tr').
Proof.
  intros tr s t h s1 R T C S tr' s' R'.
  assert (X : sending s1 = Some t /\ tickers s1 = tickers s) by (inversion S; subst; cbn; split; [congruence|reflexivity]). destruct X as [X Y].
  assert (W : ~ is s1 t Waiting). { intros [k K]. rewrite Y in K. destruct T as [k' T]. congruence. }
  destruct (C91_done_stuck (tr ++ [DoneCall h]) s1 t (R_snoc _ _ _ _ _ R S) X W _ _ R') as [_ [_ Z]]. exact Z.
Qed.
Print Assumptions C91_done_while_firing.
(* ... and always for a second Done with the same holder, unless another period was set, or the property overwritten, in between: two filters of a
   stream share their holder, and each of them calls Done when the stream is closed. *)
Lemma chan_step s e s' h t : step s e s' -> chan s h = Some t -> chan s' h = Some t \/ (e = Overwrite h) \/ exists u, e = Begin u.
Proof.
  intros S C. destruct S; try (left; exact C).
  - right. right. exists t0. reflexivity.
  - cbn. unfold upd. destruct (h =? h0) eqn:T; [apply Nat.eqb_eq in T; subst; right; left; reflexivity|left; exact C].
Qed.
Theorem C91_second_done : forall tr s h t s1 tr1 s2 s3, run init tr s -> chan s h = Some t -> step s (DoneEnd t) s1 ->
  run s1 tr1 s2 -> ~ In (Overwrite h) tr1 -> (forall u, ~ In (Begin u) tr1) -> step s2 (DoneCall h) s3 ->
  forall tr' s', run s3 tr' s' -> (forall u, ~ In (DoneEnd u) tr') /\ (forall c, ~ In (Enter c) tr') /\ (forall u, ~ In (TickBegin u) tr').
Proof.
  intros tr s h t s1 tr1 s2 s3 R C S R1 NO NB S3 tr' s' R'.
  assert (T : is s1 t Stopped) by (inversion S; subst; eapply is_put_same; eassumption).
  assert (C1 : chan s1 h = Some t) by (inversion S; subst; exact C).
  assert (X : is s2 t Stopped /\ chan s2 h = Some t).
  { clear S S3 R C. induction R1 as [|s1 tr0 u e v R1 IH S]; [split; assumption|].
    destruct (IH ltac:(intro I; apply NO; apply in_or_app; left; exact I) ltac:(intros x I; apply (NB x); apply in_or_app; left; exact I) T C1) as [A B].
    split; [exact (proj1 (stopped_step _ _ _ _ S A))|]. destruct (chan_step _ _ _ _ _ S B) as [Z|[Z|[x Z]]]; [exact Z| |].
    - destruct NO. apply in_or_app. right. left. exact Z.
    - destruct (NB x). apply in_or_app. right. left. exact Z. }
  destruct X as [T2 C2].
  assert (X : sending s3 = Some t /\ tickers s3 = tickers s2) by (inversion S3; subst; cbn; split; [congruence|reflexivity]). destruct X as [X Y].
  assert (W : ~ is s3 t Waiting). { intros [k K]. rewrite Y in K. destruct T2 as [k' T2]. congruence. }
  pose proof (R_snoc _ _ _ _ _ (run_app _ _ _ _ _ (R_snoc _ _ _ _ _ R S) R1) S3) as RR.
  destruct (C91_done_stuck _ s3 t RR X W _ _ R') as [_ [_ Z]]. exact Z.
Qed.
Print Assumptions C91_second_done.

(* ---- tickers that nothing stops ---- *)
(* A ticker whose channel is in no property, because a later period, set for the same holder, has replaced it or the filter has overwritten it, is never
   stopped. *)
Definition orphan (s : st) (t : nat) : Prop := begun s t /\ ~ is s t Stopped /\ sending s <> Some t /\ forall h, chan s h <> Some t.
Lemma orphan_step s e s' t : inv s -> orphan s t -> step s e s' -> orphan s' t.
Proof.
  intros I [B [NS [ND NC]]] S. destruct S.
  - split; [exact B|split; [exact NS|split; [exact ND|exact NC]]].
  - split; [exact B|split; [exact NS|split; [discriminate|exact NC]]].
  - assert (L : forall x k, nth_error (tickers s) t = Some (x, k) -> nth_error (tickers s ++ [(Starting p, h)]) t = Some (x, k)).
    { intros x k N. rewrite nth_error_app1; [exact N|]. apply nth_error_Some. congruence. }
    destruct B as [z [k [N Z]]]. split; [exists z, k; split; [apply L; exact N|exact Z]|]. split; [|split; [discriminate|exact NC]].
    intros [k' N']. cbn in N'. rewrite (L _ _ N) in N'. apply NS. exists k'. congruence.
  - destruct (0 <? p)%Z; [|split; [exact B|split; [exact NS|split; [exact ND|exact NC]]]].
    assert (Hs : is s t0 (Starting p)) by (exists h; assumption).
    assert (NE : t0 <> t). { intros ->. destruct B as [z [k [N Z]]]. destruct Hs as [k' Hs]. rewrite N in Hs. injection Hs as -> _. exact (Z p eq_refl). }
    split; [eapply begun_put; [exact Hs|discriminate|exact B]|]. split; [|split; [exact ND|]].
    + rewrite (is_put_iff s t0 t Waiting _ Stopped _ _ _ _ Hs). intros [[_ A]|[_ A]]; [discriminate|exact (NS A)].
    + intros h'. cbn. unfold upd. destruct (h' =? h); [congruence|apply NC].
  - split; [eapply begun_put; [exact H0|discriminate|exact B]|]. split; [|split; [exact ND|exact NC]].
    rewrite (is_put_iff s t0 t WantLock _ Stopped _ _ _ _ H0). intros [[_ A]|[_ A]]; [discriminate|exact (NS A)].
  - split; [eapply begun_put; [exact H0|discriminate|exact B]|]. split; [|split; [exact ND|exact NC]].
    rewrite (is_put_iff s t0 t InTick _ Stopped _ _ _ _ H0). intros [[_ A]|[_ A]]; [discriminate|exact (NS A)].
  - split; [eapply begun_put; [exact H0|discriminate|exact B]|]. split; [|split; [discriminate|exact NC]].
    rewrite (is_put_iff s t0 t Waiting _ Stopped _ _ _ _ H0). intros [[_ A]|[_ A]]; [discriminate|exact (NS A)].
  - split; [exact B|split; [exact NS|split; [discriminate|]]]. intros h'. cbn. unfold upd. destruct (h' =? h); [discriminate|apply NC].
  - split; [exact B|split; [exact NS|split; [exact ND|exact NC]]].
  - split; [exact B|split; [exact NS|split; [|exact NC]]]. cbn. intro E. injection E as ->. exact (NC h H2).
  - assert (NE : t <> t0) by (intros ->; exact (ND H0)).
    split; [eapply begun_put; [exact H1|discriminate|exact B]|]. split; [|split; [discriminate|exact NC]].
    rewrite (is_put_iff s t0 t Stopped _ Stopped _ _ _ _ H1). intros [[A _]|[_ A]]; [exact (NE A)|exact (NS A)].
Qed.
Theorem C91_replaced : forall tr s h t t' p s1, run init tr s -> chan s h = Some t -> ~ is s t Stopped -> sending s = None -> (forall k, chan s k = Some t -> k = h) ->
  nth_error (tickers s) t' = Some (Starting p, h) -> (0 < p)%Z -> step s (Begin t') s1 -> forall tr' s', run s1 tr' s' -> ~ In (DoneEnd t) tr' /\ ~ is s' t Stopped.
Proof.
  intros tr s h t t' p s1 R C NS SN U N P S tr' s' R'.
  pose proof (inv_run _ _ _ inv_init R) as I. pose proof (inv_step _ _ _ I S) as I1.
  assert (O : orphan s1 t).
  { pose proof (proj2 (proj2 I) h t C) as B. assert (Hs : is s t' (Starting p)) by (exists h; exact N).
    assert (NE : t <> t'). { intros ->. destruct B as [z [k [N' Z]]]. rewrite N in N'. injection N' as <- _. exact (Z p eq_refl). }
    assert (E1 : s1 = mkst (put (tickers s) t' Waiting) (upd (chan s) h (Some t')) (lock s) (sending s) false).
    { inversion S; subst. assert (p0 = p /\ h0 = h) by (rewrite N in *; split; congruence). destruct H as [-> ->]. apply Z.ltb_lt in P. rewrite P. reflexivity. }
    rewrite E1. split; [eapply begun_put; [exact Hs|discriminate|exact B]|]. split; [|split].
    - rewrite (is_put_iff s t' t Waiting _ Stopped _ _ _ _ Hs). intros [[_ A]|[_ A]]; [discriminate|exact (NS A)].
    - cbn. congruence.
    - intros k. cbn. unfold upd. destruct (k =? h) eqn:T; [congruence|]. intro X. apply Nat.eqb_neq in T. exact (T (U k X)). }
  clear S R C NS SN U N. assert (X : orphan s' t /\ inv s' /\ ~ In (DoneEnd t) tr').
  { induction R' as [|s1 tr0 u e v R' IH S]; [split; [exact O|split; [exact I1|intros []]]|]. destruct (IH I1 O) as [A [B D]].
    split; [exact (orphan_step _ _ _ _ B A S)|]. split; [exact (inv_step _ _ _ B S)|]. intro J. apply in_app_or in J. destruct J as [J|[J|[]]]; [exact (D J)|].
    subst e. inversion S; subst. destruct A as [_ [_ [A _]]]. contradiction. }
  destruct X as [[_ [A _]] [_ D]]. split; assumption.
Qed.
Print Assumptions C91_replaced.

(* ---- the end of the process ---- *)
(* The process ends exactly when the goroutine of a period that is not positive runs; the call that set it was successful. *)
Theorem C91_crash : forall tr s e s', run init tr s -> step s e s' -> crashed s' = true -> exists t h p, e = Begin t /\ nth_error (tickers s) t = Some (Starting p, h) /\ (p <= 0)%Z.
Proof.
  intros tr s e s' R S C. destruct S; cbn in C; try congruence. destruct (0 <? p)%Z eqn:T; [discriminate|]. apply Z.ltb_ge in T. exists t, h, p. split; [reflexivity|split; assumption].
Qed.
Print Assumptions C91_crash.
Theorem C91_bad_period : forall tr s h p s1, run init tr s -> (p <= 0)%Z -> step s (SetPeriod h p) s1 -> exists s2, step s1 (Begin (length (tickers s))) s2 /\ crashed s2 = true.
Proof.
  intros tr s h p s1 R P S. inversion S; subst.
  assert (N : nth_error (tickers s ++ [(Starting p, h)]) (length (tickers s)) = Some (Starting p, h)) by (rewrite nth_error_app2, Nat.sub_diag by lia; reflexivity).
  eexists. split; [eapply S_begin; [reflexivity|exact N]|]. apply Z.ltb_ge in P. rewrite P. reflexivity.
Qed.
Print Assumptions C91_bad_period.
(* A positive period never ends the process, and its ticker then waits for its time. *)
Theorem C91_good_period : forall s t h p s1, nth_error (tickers s) t = Some (Starting p, h) -> (0 < p)%Z -> step s (Begin t) s1 -> crashed s1 = false /\ is s1 t Waiting /\ chan s1 h = Some t.
Proof.
  intros s t h p s1 N P S. inversion S; subst. assert (X : p0 = p /\ h0 = h) by (rewrite N in *; split; congruence). destruct X as [-> ->].
  apply Z.ltb_lt in P. rewrite P. split; [reflexivity|]. split; [exists h; cbn; eapply put_same; exact N|]. cbn. unfold upd. rewrite Nat.eqb_refl. reflexivity.
Qed.
Print Assumptions C91_good_period.

(* The result code: success exactly if context and plugin are there, and then, and only then, a ticker is started. *)
Theorem C91_result : forall root plugin, (fst (set_tick_result root plugin) = ResultOk <-> root = true /\ plugin = true) /\ (snd (set_tick_result root plugin) = true <-> root = true /\ plugin = true).
Proof. intros [] []; cbn; split; split; try intros [? ?]; try intro; try split; congruence. Qed.
Print Assumptions C91_result.

(* ---- concrete runs ---- *)
Ltac go := match goal with
  | |- run _ [] _ => apply R_nil
  | |- run _ (_ :: _) _ => eapply run_cons; [first
      [ eapply S_enter; reflexivity | eapply S_leave; reflexivity | eapply S_set; reflexivity | eapply S_begin; reflexivity
      | eapply S_fire; [reflexivity|eexists; reflexivity] | eapply S_tick; [reflexivity|eexists; reflexivity|reflexivity]
      | eapply S_end; [reflexivity|eexists; reflexivity|reflexivity|reflexivity] | eapply S_overwrite; reflexivity
      | eapply S_none; reflexivity | eapply S_call; reflexivity | eapply S_done; [reflexivity|reflexivity|eexists; reflexivity] ]|cbn; go]
  end.
(* A stream sets a period, the filter ticks twice, the stream is closed, and others go on. *)
Theorem C91_example : exists s, run init [Enter 0; SetPeriod 7 100; Leave 0; Begin 0; Fire 0; TickBegin 0; TickEnd 0; Fire 0; TickBegin 0; TickEnd 0;
  Enter 1; DoneCall 7; DoneEnd 0; Leave 1; Enter 2; Leave 2] s /\ is s 0 Stopped /\ crashed s = false.
Proof. eexists. split; [go|]. split; [exists 7; reflexivity|reflexivity]. Qed.
Print Assumptions C91_example.

(* Refuted: closing a stream stops its ticks.  Here Done comes before the goroutine has put its channel into the property, and the ticks go on; here two
   periods were set. *)
Theorem C91_done_stops_refuted : exists s, run init [Enter 0; SetPeriod 7 100; DoneNone 7; Leave 0; Begin 0; Fire 0; TickBegin 0; TickEnd 0; Fire 0; TickBegin 0] s.
Proof. eexists. go. Qed.
Print Assumptions C91_done_stops_refuted.
Theorem C91_two_periods_refuted : exists s, run init [Enter 0; SetPeriod 7 100; SetPeriod 7 200; Leave 0; Begin 0; Begin 1; Enter 0; DoneCall 7; DoneEnd 1; Leave 0; Fire 0; TickBegin 0; TickEnd 0] s.
Proof. eexists. go. Qed.
Print Assumptions C91_two_periods_refuted.
(* Refuted: closing a stream ends.  A stream with two filters (holder 7), one of which ticks: the Done of the second never returns, and the instance is
   never free again for anybody. *)
Theorem C91_close_returns_refuted : exists s, run init [Enter 0; SetPeriod 7 100; Leave 0; Begin 0; Enter 0; DoneCall 7; DoneEnd 0; Leave 0; Enter 0; DoneCall 7] s /\
  forall tr s', run s tr s' -> (forall u, ~ In (DoneEnd u) tr) /\ (forall c, ~ In (Enter c) tr) /\ (forall u, ~ In (TickBegin u) tr).
Proof.
  eexists. assert (R : run init [Enter 0; SetPeriod 7 100; Leave 0; Begin 0; Enter 0; DoneCall 7; DoneEnd 0; Leave 0; Enter 0; DoneCall 7]
    (mkst [(Stopped, 7)] (upd (fun _ => None) 7 (Some 0)) (Some (Caller 0)) (Some 0) false)) by go.
  split; [exact R|]. intros tr s' R'. refine (proj2 (proj2 (C91_done_stuck _ _ 0 R eq_refl _ _ _ R'))). intros [h H]. discriminate.
Qed.
Print Assumptions C91_close_returns_refuted.
(* Refuted: setting the period to 0, by which a filter of other hosts ends its ticks, does so here. *)
Theorem C91_zero_period_refuted : exists s, run init [Enter 0; SetPeriod 7 0; Leave 0; Begin 0] s /\ crashed s = true.
Proof. eexists. split; [go|reflexivity]. Qed.
Print Assumptions C91_zero_period_refuted.
