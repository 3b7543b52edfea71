(* C30, C31: connection pool. *)
From Coq Require Import List Bool Arith Lia.
From Verif Require Import M_Pool.
Import ListNotations.

(* specification: the raw connections a user holds, those idle in the pool, and all the pool knows of *)
Definition held_raws (p : pool) : list nat := map snd (p_held p).
Definition idle_raws (p : pool) : list nat := map snd (p_chan p).

(* --- lists of jobs --- *)
Definition sumj (f : job -> nat) (l : list job) : nat := fold_right (fun x n => f x + n) 0 l.
Lemma sumj_app : forall f a b, sumj f (a ++ b) = sumj f a + sumj f b.
Proof. intros f a b. unfold sumj. induction a as [|x a IH]; cbn; [reflexivity|]. rewrite IH. lia. Qed.
Lemma sumj_set : forall f l j x y, nth_error l j = Some x -> sumj f (jset l j y) + f x = sumj f l + f y.
Proof.
  intros f l. unfold sumj. induction l as [|z l IH]; intros [|j] x y H; cbn in H; try discriminate; cbn.
  - injection H as ->. lia.
  - specialize (IH j x y H). lia.
Qed.
Lemma sumj_zero : forall f l, (forall j x, nth_error l j = Some x -> f x = 0) -> sumj f l = 0.
Proof.
  intros f l. unfold sumj. induction l as [|z l IH]; intros H; cbn; [reflexivity|]. rewrite (H 0 z eq_refl), IH; [reflexivity|]. intros j x Hj. apply (H (S j) x Hj).
Qed.
Lemma sumj_ge : forall f l j x, nth_error l j = Some x -> f x <= sumj f l.
Proof. intros f l. unfold sumj. induction l as [|z l IH]; intros [|j] x H; cbn in H; try discriminate; cbn; [injection H as ->; lia|]. specialize (IH j x H). lia. Qed.
Lemma jset_nth : forall l j y i, nth_error (jset l j y) i = if Nat.eqb j i then match nth_error l i with Some _ => Some y | None => None end else nth_error l i.
Proof. induction l as [|x l IH]; intros [|j] y [|i]; cbn; try reflexivity; try (now destruct (Nat.eqb _ _)). apply IH. Qed.
Lemma jset_inv : forall l j y x0 i x, nth_error l j = Some x0 -> nth_error (jset l j y) i = Some x -> (i = j /\ x = y) \/ (i <> j /\ nth_error l i = Some x).
Proof.
  intros l j y x0 i x H0 H. rewrite jset_nth in H. destruct (Nat.eqb j i) eqn:E.
  - apply Nat.eqb_eq in E. subst. rewrite H0 in H. left. split; congruence.
  - apply Nat.eqb_neq in E. right. auto.
Qed.
Lemma jset_same : forall l j y x0, nth_error l j = Some x0 -> nth_error (jset l j y) j = Some y.
Proof. intros l j y x0 H. now rewrite jset_nth, Nat.eqb_refl, H. Qed.
Lemma snoc_inv : forall (l : list job) y i x, nth_error (l ++ [y]) i = Some x -> (i = length l /\ x = y) \/ nth_error l i = Some x.
Proof.
  intros l y i x H. destruct (Nat.lt_ge_cases i (length l)) as [Hl|Hl]; [rewrite nth_error_app1 in H by assumption; now right|]. rewrite nth_error_app2 in H by assumption.
  destruct (i - length l) as [|d] eqn:E; [|destruct d; discriminate]. left. split; [lia|]. cbn in H. congruence.
Qed.
Lemma nth_lt : forall (l : list job) i x, nth_error l i = Some x -> i < length l.
Proof. intros l i x H. apply nth_error_Some. congruence. Qed.

Lemma psteps_snoc_inv : forall ls a l c, psteps a (ls ++ [l]) c -> exists b, psteps a ls b /\ pstep b l c.
Proof.
  induction ls as [|x ls IH]; intros a l c H; cbn in H; inversion H as [|? ? s1 ? ? H1 H2]; subst.
  - inversion H2; subst. exists a. split; [constructor|assumption].
  - destruct (IH _ _ _ H2) as (b & Hb & Hs). exists b. split; [econstructor; eassumption|assumption].
Qed.
Ltac pcases Hs := destruct Hs as
  [p k Hk|p j k Hj Hlk|p j k n i r Hj Hch|p j k n i Hj Hsh|p j k n i Hj Hsh Hlt|p j k Hj|p j Hj|p j i r Hj Hch|p j Hj Hch Hcc|p j Hj Hch Hcc|p j i Hj|p j r Hj Hop Hlt|p j r Hj Hor|p j i Hj|p i Hi|p i Hi|p i Hi|p w Hw|p Hop Hlk|p j Hj|p j i r Hj Hcc Hch|p j Hj Hcc].

(* --- the mutex --- *)
Definition owns (x : job) : Prop := match x with JPurge _ _ _ | JPush _ | JRelease _ => True | _ => False end.
Definition lock_ok (p : pool) : Prop :=
  (forall j x, nth_error (p_jobs p) j = Some x -> owns x -> p_lock p = Some j) /\
  (forall j, p_lock p = Some j -> exists x, nth_error (p_jobs p) j = Some x /\ owns x).
Lemma lock_set : forall p j x y lk, lock_ok p -> nth_error (p_jobs p) j = Some x ->
  ((owns x <-> owns y) /\ lk = p_lock p) \/ (owns x /\ ~ owns y /\ lk = None) \/ (~ owns x /\ owns y /\ p_lock p = None /\ lk = Some j) ->
  (forall i z, nth_error (jset (p_jobs p) j y) i = Some z -> owns z -> lk = Some i) /\
  (forall i, lk = Some i -> exists z, nth_error (jset (p_jobs p) j y) i = Some z /\ owns z).
Proof.
  intros p j x y lk [L1 L2] Hj Hc. split.
  - intros i z Hz Hoz. destruct (jset_inv _ _ _ _ _ _ Hj Hz) as [[-> ->]|[Hn Hz']].
    + destruct Hc as [[Hxy ->]|[(Hx & Hy & ->)|(Hx & Hy & Hl & ->)]]; [apply (L1 j x Hj); tauto|contradiction|reflexivity].
    + specialize (L1 i z Hz' Hoz) as Hli. destruct Hc as [[Hxy ->]|[(Hx & Hy & ->)|(Hx & Hy & Hl & ->)]]; [assumption| |congruence]. specialize (L1 j x Hj Hx). congruence.
  - intros i Hl. destruct Hc as [[Hxy ->]|[(Hx & Hy & ->)|(Hx & Hy & Hl' & ->)]]; [|discriminate|].
    + destruct (L2 i Hl) as (z & Hz & Hoz). destruct (Nat.eq_dec i j) as [->|Hn].
      * exists y. split; [eapply jset_same; exact Hj|]. rewrite Hj in Hz. injection Hz as <-. tauto.
      * exists z. rewrite jset_nth. apply not_eq_sym in Hn. apply Nat.eqb_neq in Hn. rewrite Hn. auto.
    + injection Hl as <-. exists y. split; [eapply jset_same; exact Hj|assumption].
Qed.
Lemma lock_snoc : forall p y, lock_ok p -> ~ owns y ->
  (forall i z, nth_error (p_jobs p ++ [y]) i = Some z -> owns z -> p_lock p = Some i) /\
  (forall i, p_lock p = Some i -> exists z, nth_error (p_jobs p ++ [y]) i = Some z /\ owns z).
Proof.
  intros p y [L1 L2] Hy. split.
  - intros i z Hz Ho. destruct (snoc_inv _ _ _ _ Hz) as [[-> ->]|H]; [contradiction|eauto].
  - intros i Hl. destruct (L2 i Hl) as (z & Hz & Ho). exists z. split; [|assumption]. rewrite nth_error_app1; [assumption|]. eapply nth_lt. exact Hz.
Qed.
Lemma lock_step : forall p l p', lock_ok p -> pstep p l p' -> lock_ok p'.
Proof.
  intros p0 l p' L Hs. pcases Hs; unfold lock_ok; cbn [p_jobs p_lock with_jobs];
    try (apply lock_snoc; [assumption|intros []]); try exact L;
    try (eapply lock_set; [exact L|exact Hj|]; cbn [owns]; tauto).
  - (* purged *) destruct k; cbn [p_jobs p_lock with_jobs]; eapply lock_set; try exact L; try exact Hj; cbn [owns]; tauto.
  - (* close *) rewrite <- Hlk. apply lock_snoc; [assumption|intros []].
Qed.

(* --- the capacity --- *)
Definition in_hand (x : job) : nat := match x with JPurge _ _ (Some _) => 1 | _ => 0 end.
Definition cap_ok (p : pool) : Prop := length (p_chan p) + sumj in_hand (p_jobs p) <= p_cap p.
Lemma cap_step : forall p l p', lock_ok p -> cap_ok p -> pstep p l p' -> cap_ok p'.
Proof.
  intros p0 l p' L C Hs. unfold cap_ok in *.
  pcases Hs; try (destruct k); cbn [p_jobs p_chan p_cap with_jobs];
    try match goal with Hj : nth_error (p_jobs ?q) ?j = Some ?x |- context [jset (p_jobs ?q) ?j ?y] => pose proof (sumj_set in_hand _ _ _ y Hj) as HS; cbn [in_hand] in HS end;
    try match goal with H : p_chan ?q = _ |- _ => rewrite H in *; cbn [length] in * end;
    rewrite ?sumj_app, ?app_length in *; cbn [sumj fold_right in_hand length] in *; try lia.
  (* push *) assert (Hz: sumj in_hand (p_jobs p) = 0); [|lia]. apply sumj_zero. intros i x Hx. destruct L as [L1 _]. assert (Hlj: p_lock p = Some j) by (apply (L1 j _ Hj); exact I).
  destruct x as [|k n [h|]| | | | | |]; try reflexivity. assert (p_lock p = Some i) by (apply (L1 i _ Hx); exact I). assert (i = j) by congruence. subst i. rewrite Hj in Hx. discriminate.
Qed.
Lemma lock_reach : forall initial cap ls p, psteps (new_pool initial cap) ls p -> lock_ok p.
Proof.
  intros initial cap ls. induction ls as [|l ls IH] using rev_ind; intros p H.
  - inversion H; subst. split; [intros [|j] x Hx; discriminate|discriminate].
  - apply psteps_snoc_inv in H. destruct H as (b & Hb & Hs). eapply lock_step; eauto.
Qed.
Theorem C30_capacity : forall initial cap ls p, initial <= cap -> psteps (new_pool initial cap) ls p -> length (p_chan p) <= cap.
Proof.
  intros initial cap ls p Hi H. cut (cap_ok p /\ p_cap p = cap); [unfold cap_ok; lia|]. revert p H. induction ls as [|l ls IH] using rev_ind; intros p H.
  - inversion H; subst. unfold cap_ok. cbn. rewrite map_length, seq_length. lia.
  - apply psteps_snoc_inv in H. destruct H as (b & Hb & Hs). destruct (IH b Hb) as [IH1 IH2]. split; [eapply cap_step; [eapply lock_reach; exact Hb|exact IH1|exact Hs]|].
    rewrite <- IH2. clear - Hs. pcases Hs; try (destruct k); reflexivity.
Qed.
Print Assumptions C30_capacity.

(* --- exclusive hand-out --- *)
Section Tot.
Variable f : item -> nat.
Variable g : nat -> nat.
Definition sumi (l : list item) : nat := fold_right (fun x n => f x + n) 0 l.
Definition gk (k : kind) : nat := match k with KPut r => g r | _ => 0 end.
Definition wt (x : job) : nat :=
  match x with
  | JStart k => gk k
  | JPurge k _ h => gk k + match h with Some i => f i | None => 0 end
  | JTaken i => f i
  | JPush r => g r
  | _ => 0
  end.
Definition tot (p : pool) : nat := sumi (p_held p) + sumi (p_chan p) + sumj wt (p_jobs p).
Lemma sumi_app : forall a b, sumi (a ++ b) = sumi a + sumi b.
Proof. intros a b. unfold sumi. induction a as [|x a IH]; cbn; [reflexivity|]. rewrite IH. lia. Qed.
Lemma sumi_cons : forall x l, sumi (x :: l) = f x + sumi l.
Proof. reflexivity. Qed.
Lemma sumi_nil : sumi [] = 0.
Proof. reflexivity. Qed.
Lemma sumj_one : forall h x, sumj h [x] = h x.
Proof. intros. unfold sumj. cbn. lia. Qed.
Lemma sumi_del : forall i l, In i l -> sumi (del_item i l) + f i = sumi l.
Proof.
  intros i l. unfold sumi. induction l as [|x l IH]; intros H; [destruct H|]. cbn. destruct (Nat.eqb (fst i) (fst x) && Nat.eqb (snd i) (snd x))%bool eqn:E.
  - apply andb_true_iff in E. rewrite !Nat.eqb_eq in E. assert (i = x) by (destruct i, x; cbn in *; f_equal; tauto). subst. lia.
  - cbn. destruct H as [->|H]; [rewrite !Nat.eqb_refl in E; discriminate|]. specialize (IH H). lia.
Qed.
Lemma tot_step : forall p l p', pstep p l p' -> (forall i, In i (p_held p) -> g (snd i) <= f i) ->
  (tot p' <= tot p /\ p_nraw p' = p_nraw p /\ p_nwrap p' = p_nwrap p) \/
  (tot p' = tot p + f (p_nwrap p, p_nraw p) /\ p_nraw p' = S (p_nraw p) /\ p_nwrap p' = S (p_nwrap p)) \/
  (exists r, tot p' + g r = tot p + f (p_nwrap p, r) /\ g r <= tot p /\ p_nraw p' = p_nraw p /\ p_nwrap p' = S (p_nwrap p)) \/
  (l = PUserReclose /\ exists i : item, tot p' = tot p + g (snd i) /\ p_nraw p' = p_nraw p /\ p_nwrap p' = p_nwrap p).
Proof.
  intros p0 l p' Hs Hg. unfold tot.
  pcases Hs; try (destruct k as [|rk|]); cbn [p_jobs p_chan p_held p_nraw p_nwrap with_jobs];
    try match goal with Hj : nth_error (p_jobs ?q) ?j = Some ?x |- context [jset (p_jobs ?q) ?j ?y] => pose proof (sumj_set wt _ _ _ y Hj) as HS; pose proof (sumj_ge wt _ _ _ Hj) as HG; cbn [wt gk] in HS, HG end;
    try match goal with H : p_chan ?q = _ |- _ => rewrite H in * end;
    rewrite ?sumj_app, ?sumi_app, ?sumj_one, ?sumi_cons, ?sumi_nil in *; cbn [wt gk] in *; change (sumi []) with 0 in *;
    try (left; repeat split; lia).
  - (* spawn put *) exfalso. now apply (Hk rk).
  - (* create *) right. left. repeat split; lia.
  - (* push *) right. right. left. exists r. repeat split; try lia.
  - (* user put *) left. pose proof (sumi_del i _ Hi) as HD. specialize (Hg i Hi). repeat split; lia.
  - (* user discard *) left. pose proof (sumi_del i _ Hi) as HD. repeat split; lia.
  - (* reclose *) right. right. right. split; [reflexivity|]. exists i. repeat split; lia.
Qed.
End Tot.
Definition eqn (a b : nat) : nat := if Nat.eqb a b then 1 else 0.
Definition tot_raw (r : nat) := tot (fun i => eqn (snd i) r) (fun x => eqn x r).
Definition tot_wid (w : nat) := tot (fun i => eqn (fst i) w) (fun _ => 0).
Lemma eqn_refl : forall a, eqn a a = 1.
Proof. intros. unfold eqn. now rewrite Nat.eqb_refl. Qed.
Lemma eqn_neq : forall a b, a <> b -> eqn a b = 0.
Proof. intros a b H. unfold eqn. apply Nat.eqb_neq in H. now rewrite H. Qed.
Lemma eqn_le : forall a b, eqn a b <= 1.
Proof. intros. unfold eqn. destruct (Nat.eqb a b); lia. Qed.
Lemma sumi_init : forall n r (h : item -> nat), (forall m, h (m, m) = m) -> sumi (fun i => eqn (h i) r) (map (fun m => (m, m)) (seq 0 n)) = if Nat.ltb r n then 1 else 0.
Proof.
  intros n r h Hh. induction n as [|n IH]; [reflexivity|]. rewrite seq_S, map_app, sumi_app, IH. unfold sumi. cbn [map fold_right Nat.add]. rewrite Hh.
  destruct (Nat.ltb r n) eqn:E1, (Nat.ltb r (S n)) eqn:E2; rewrite ?Nat.ltb_lt, ?Nat.ltb_ge in *; try lia.
  - rewrite eqn_neq by lia. reflexivity.
  - assert (r = n) by lia. subst. now rewrite eqn_refl.
  - rewrite eqn_neq by lia. reflexivity.
Qed.
Lemma raw_inv : forall initial cap ls p, psteps (new_pool initial cap) ls p -> ~ In PUserReclose ls -> forall r, tot_raw r p <= 1 /\ (p_nraw p <= r -> tot_raw r p = 0).
Proof.
  intros initial cap ls. induction ls as [|l ls IH] using rev_ind; intros p H Hn r.
  - inversion H; subst. unfold tot_raw, tot. cbn [p_held p_chan p_jobs p_nraw new_pool]. rewrite (sumi_init initial r snd) by reflexivity. change (sumi _ []) with 0. change (sumj _ []) with 0. destruct (Nat.ltb r initial) eqn:E; [apply Nat.ltb_lt in E|]; lia.
  - apply psteps_snoc_inv in H. destruct H as (b & Hb & Hs). assert (Hnb: ~ In PUserReclose ls) by (intros Hi; apply Hn, in_or_app; now left). destruct (IH b Hb Hnb r) as [IH1 IH2].
    destruct (tot_step (fun i => eqn (snd i) r) (fun x => eqn x r) b l p Hs ltac:(auto)) as [(H1 & H2 & H3)|[(H1 & H2 & H3)|[(x & H1 & H4 & H2 & H3)|(-> & _)]]]; fold (tot_raw r p) in *; fold (tot_raw r b) in *.
    + rewrite H2. split; [lia|]. intros Hr. specialize (IH2 Hr). lia.
    + rewrite H2. cbn [snd] in H1. destruct (Nat.eq_dec (p_nraw b) r) as [<-|Hne]; [rewrite eqn_refl in H1; rewrite IH2 in H1 by lia; split; lia|]. rewrite eqn_neq in H1 by assumption. split; [lia|]. intros Hr. specialize (IH2 ltac:(lia)). lia.
    + rewrite H2. cbn [snd] in H1. split; [lia|]. intros Hr. specialize (IH2 Hr). lia.
    + exfalso. apply Hn, in_or_app. right. now left.
Qed.
Lemma wid_inv : forall initial cap ls p, psteps (new_pool initial cap) ls p -> forall w, tot_wid w p <= 1 /\ (p_nwrap p <= w -> tot_wid w p = 0).
Proof.
  intros initial cap ls. induction ls as [|l ls IH] using rev_ind; intros p H w.
  - inversion H; subst. unfold tot_wid, tot. cbn [p_held p_chan p_jobs p_nwrap new_pool]. rewrite (sumi_init initial w fst) by reflexivity. change (sumi _ []) with 0. change (sumj _ []) with 0. destruct (Nat.ltb w initial) eqn:E; [apply Nat.ltb_lt in E|]; lia.
  - apply psteps_snoc_inv in H. destruct H as (b & Hb & Hs). destruct (IH b Hb w) as [IH1 IH2].
    destruct (tot_step (fun i => eqn (fst i) w) (fun _ => 0) b l p Hs ltac:(intros; apply Nat.le_0_l)) as [(H1 & H2 & H3)|[(H1 & H2 & H3)|[(x & H1 & H4 & H2 & H3)|(-> & i & H1 & H2 & H3)]]]; fold (tot_wid w p) in *; fold (tot_wid w b) in *; rewrite H3; cbn [fst] in *.
    + split; [lia|]. intros Hr. specialize (IH2 Hr). lia.
    + destruct (Nat.eq_dec (p_nwrap b) w) as [<-|Hne]; [rewrite eqn_refl in H1; rewrite IH2 in H1 by lia; split; lia|]. rewrite eqn_neq in H1 by assumption. split; [lia|]. intros Hr. specialize (IH2 ltac:(lia)). lia.
    + destruct (Nat.eq_dec (p_nwrap b) w) as [<-|Hne]; [rewrite eqn_refl in H1; rewrite IH2 in H1 by lia; split; lia|]. rewrite eqn_neq in H1 by assumption. split; [lia|]. intros Hr. specialize (IH2 ltac:(lia)). lia.
    + split; [lia|]. intros Hr. specialize (IH2 Hr). lia.
Qed.
Lemma sumi_count : forall r l, sumi (fun i => eqn (snd i) r) l = count_occ Nat.eq_dec (map snd l) r.
Proof.
  intros r l. unfold sumi. induction l as [|x l IH]; cbn; [reflexivity|]. rewrite IH. destruct (Nat.eq_dec (snd x) r) as [->|H]; [now rewrite eqn_refl|]. now rewrite eqn_neq.
Qed.
(* As long as no user closes a connection twice: no raw connection is held twice, idle twice, or both held and idle. *)
Theorem C30_exclusive : forall initial cap ls p, psteps (new_pool initial cap) ls p -> ~ In PUserReclose ls -> NoDup (held_raws p ++ idle_raws p).
Proof.
  intros initial cap ls p H Hn. rewrite (NoDup_count_occ Nat.eq_dec). intros r. rewrite count_occ_app. destruct (raw_inv initial cap ls p H Hn r) as [Hr _]. unfold tot_raw, tot in Hr. rewrite !sumi_count in Hr. unfold held_raws, idle_raws. lia.
Qed.
Print Assumptions C30_exclusive.
(* Without that hypothesis: two closes of one connection hand it to two users. *)
Ltac pone := eapply PS_cons; [|].
Theorem C30_double_close_refuted : exists ls p i i', psteps (new_pool 0 5) ls p /\ In i (p_held p) /\ In i' (p_held p) /\ fst i <> fst i' /\ snd i = snd i'.
Proof.
  eexists _, _, (2, 0), (1, 0). split.
  { pone. apply (P_spawn _ KGet); discriminate. pone. eapply (P_lock _ 0); reflexivity. cbn. pone. eapply (P_purged _ 0 KGet); reflexivity. cbn. pone. eapply (P_create _ 0); reflexivity. cbn.
  pone. apply (P_user_put _ (0, 0)); now left. cbn. pone. eapply (P_lock _ 1); reflexivity. cbn. pone. eapply (P_purged _ 1 (KPut 0)); reflexivity. cbn. pone. eapply (P_push _ 1); [reflexivity|reflexivity|cbn; lia]. cbn. pone. eapply (P_release _ 1); reflexivity. cbn.
  pone. apply (P_user_reclose _ (0, 0)); now left. cbn. pone. eapply (P_lock _ 2); reflexivity. cbn. pone. eapply (P_recv _ 2); reflexivity. cbn. pone. eapply (P_keep _ 2); [reflexivity|reflexivity|cbn; lia]. cbn. pone. eapply (P_purged _ 2 (KPut 0)); reflexivity. cbn. pone. eapply (P_push _ 2); [reflexivity|reflexivity|cbn; lia]. cbn. pone. eapply (P_release _ 2); reflexivity. cbn.
  pone. apply (P_spawn _ KGet); discriminate. pone. eapply (P_lock _ 3); reflexivity. cbn. pone. eapply (P_recv _ 3); reflexivity. cbn. pone. eapply (P_keep _ 3); [reflexivity|reflexivity|cbn; lia]. cbn. pone. eapply (P_recv _ 3); reflexivity. cbn. pone. eapply (P_keep _ 3); [reflexivity|reflexivity|cbn; lia]. cbn. pone. eapply (P_purged _ 3 KGet); reflexivity. cbn. pone. eapply (P_take _ 3); reflexivity. cbn. pone. eapply (P_acquire _ 3); reflexivity. cbn.
  pone. apply (P_spawn _ KGet); discriminate. pone. eapply (P_lock _ 4); reflexivity. cbn. pone. eapply (P_recv _ 4); reflexivity. cbn. pone. eapply (P_keep _ 4); [reflexivity|reflexivity|cbn; lia]. cbn. pone. eapply (P_purged _ 4 KGet); reflexivity. cbn. pone. eapply (P_take _ 4); reflexivity. cbn. pone. eapply (P_acquire _ 4); reflexivity. cbn.
  apply PS_nil. }
  cbn. auto.
Qed.
Print Assumptions C30_double_close_refuted.

(* --- idle timers and held connections --- *)
Lemma in_del_nat : forall w x l, In x (del_nat w l) <-> In x l /\ x <> w.
Proof. intros w x l. unfold del_nat. rewrite filter_In, negb_true_iff, Nat.eqb_neq. split; intros [H1 H2]; split; auto. Qed.
Lemma held_tot : forall w p, In w (map fst (p_held p)) -> 1 <= sumi (fun i => eqn (fst i) w) (p_held p).
Proof. intros w p H. unfold sumi. induction (p_held p) as [|x l IH]; [destruct H|]. cbn. destruct H as [->|H]; [rewrite eqn_refl; lia|]. specialize (IH H). lia. Qed.
Lemma chan_tot : forall w (l : list item), In w (map fst l) -> 1 <= sumi (fun i => eqn (fst i) w) l.
Proof. intros w l H. unfold sumi. induction l as [|x l IH]; [destruct H|]. cbn. destruct H as [->|H]; [rewrite eqn_refl; lia|]. specialize (IH H). lia. Qed.
Lemma del_item_in : forall i x l, In x (del_item i l) -> In x l.
Proof. intros i x l. induction l as [|y l IH]; [auto|]. cbn. destruct (_ && _)%bool; [now right|]. intros [->|H]; [now left|right; auto]. Qed.
Lemma memn_in : forall w l, memn w l = true <-> In w l.
Proof. intros w l. unfold memn. rewrite existsb_exists. split; [intros (x & H1 & H2); apply Nat.eqb_eq in H2; now subst|]. intros H. exists w. split; [assumption|apply Nat.eqb_refl]. Qed.
(* If the wrapper is still in the channel whenever Put arms its timer, the idle timer never closes a connection that is
   in a user's hands. *)
Theorem C30_timer_spares_held : forall initial cap ls p w p', psteps (new_pool initial cap) ls p -> (forall j, ~ In (PRelease j true) ls) ->
  pstep p (PTimer w) p' -> ~ In w (map fst (p_held p)).
Proof.
  intros initial cap ls p w p' H Hn Hs. assert (Hw: In w (p_timers p)) by (inversion Hs; subst; assumption). clear Hs p'.
  cut (forall x, In x (p_timers p) -> ~ In x (map fst (p_held p)) /\ x < p_nwrap p). { intros G. now apply G. } clear Hw w.
  revert p H. induction ls as [|l ls IH] using rev_ind; intros q H x Hx.
  - inversion H; subst. destruct Hx.
  - apply psteps_snoc_inv in H. destruct H as (b & Hb & Hs). assert (Hnb: forall j, ~ In (PRelease j true) ls) by (intros j Hi; apply (Hn j), in_or_app; now left). specialize (IH Hnb b Hb).
    assert (Hlast: forall j, l <> PRelease j true) by (intros j ->; apply (Hn j), in_or_app; right; now left).
    pose proof (wid_inv _ _ _ _ Hb) as Hwid. clear Hb Hn Hnb.
    pcases Hs; try (destruct k); cbn [p_timers p_held p_nwrap with_jobs] in *; try (now apply IH).
    + (* create *) destruct (IH x Hx) as [I1 I2]. split; [|lia]. cbn. intros [Hq|Hq]; [lia|contradiction].
    + (* acquire *) apply in_del_nat in Hx. destruct Hx as [Hx Hne]. destruct (IH x Hx) as [I1 I2]. split; [|assumption]. cbn. intros [Hq|Hq]; [congruence|contradiction].
    + (* push *) destruct (IH x Hx). split; [assumption|lia].
    + (* release *) destruct Hx as [<-|Hx]; [|now apply IH]. assert (Hc: In (fst i) (map fst (p_chan p))). { apply memn_in. destruct (memn (fst i) (map fst (p_chan p))) eqn:E; [reflexivity|]. exfalso. apply (Hlast j). reflexivity. }
      destruct (Hwid (fst i)) as [W1 W2]. pose proof (chan_tot _ _ Hc) as HC. unfold tot_wid, tot in W1, W2. split.
      * intros Hh. apply held_tot in Hh. lia.
      * destruct (Nat.lt_ge_cases (fst i) (p_nwrap p)) as [|Hge]; [assumption|]. specialize (W2 Hge). lia.
    + (* user put *) destruct (IH x Hx) as [I1 I2]. split; [|assumption]. intros Hq. apply I1. apply in_map_iff in Hq. destruct Hq as (y & Hy & Hq). apply del_item_in in Hq. apply in_map_iff. eauto.
    + (* user discard *) apply in_del_nat in Hx. destruct Hx as [Hx _]. destruct (IH x Hx) as [I1 I2]. split; [|assumption]. intros Hq. apply I1. apply in_map_iff in Hq. destruct Hq as (y & Hy & Hq). apply del_item_in in Hq. apply in_map_iff. eauto.
    + (* timer *) apply in_del_nat in Hx. now apply IH.
    + (* drain *) apply in_del_nat in Hx. now apply IH.
Qed.
Print Assumptions C30_timer_spares_held.
(* The hypothesis is needed: another Get can take the wrapper between Put's send and its Release; the timer then closes
   the connection while the user works with it. *)
Theorem C30_timer_race_refuted : exists ls p w p', psteps (new_pool 0 5) ls p /\ ~ In PUserReclose ls /\ pstep p (PTimer w) p' /\ In w (map fst (p_held p)) /\ In w (p_shut p').
Proof.
  eexists _, _, 1, _. split; [|split; [|split; [apply P_timer|]]].
  { pone. apply (P_spawn _ KGet); discriminate. pone. eapply (P_lock _ 0); reflexivity. cbn. pone. eapply (P_purged _ 0 KGet); reflexivity. cbn. pone. eapply (P_create _ 0); reflexivity. cbn.
    pone. apply (P_spawn _ KGet); discriminate. pone. eapply (P_lock _ 1); reflexivity. cbn. pone. eapply (P_purged _ 1 KGet); reflexivity. cbn.
    pone. apply (P_user_put _ (0, 0)); now left. cbn. pone. eapply (P_lock _ 2); reflexivity. cbn. pone. eapply (P_purged _ 2 (KPut 0)); reflexivity. cbn. pone. eapply (P_push _ 2); [reflexivity|reflexivity|cbn; lia]. cbn.
    pone. eapply (P_take _ 1); reflexivity. cbn. pone. eapply (P_acquire _ 1); reflexivity. cbn. pone. eapply (P_release _ 2); reflexivity. cbn. apply PS_nil. }
  - cbn. intuition discriminate.
  - cbn. auto.
  - cbn. auto.
Qed.
Print Assumptions C30_timer_race_refuted.
(* Get can also hand out a connection that its idle timer has just closed. *)
Theorem C30_closed_handed_out_refuted : exists ls p, psteps (new_pool 0 5) ls p /\ ~ In PUserReclose ls /\ (forall j, ~ In (PRelease j true) ls) /\ exists i, In i (p_held p) /\ In (fst i) (p_shut p).
Proof.
  eexists _, _. split; [|split; [|split]].
  { pone. apply (P_spawn _ KGet); discriminate. pone. eapply (P_lock _ 0); reflexivity. cbn. pone. eapply (P_purged _ 0 KGet); reflexivity. cbn. pone. eapply (P_create _ 0); reflexivity. cbn.
    pone. apply (P_user_put _ (0, 0)); now left. cbn. pone. eapply (P_lock _ 1); reflexivity. cbn. pone. eapply (P_purged _ 1 (KPut 0)); reflexivity. cbn. pone. eapply (P_push _ 1); [reflexivity|reflexivity|cbn; lia]. cbn. pone. eapply (P_release _ 1); reflexivity. cbn.
    pone. apply (P_spawn _ KGet); discriminate. pone. eapply (P_lock _ 2); reflexivity. cbn. pone. eapply (P_recv _ 2); reflexivity. cbn. pone. eapply (P_keep _ 2); [reflexivity|reflexivity|cbn; lia]. cbn. pone. eapply (P_purged _ 2 KGet); reflexivity. cbn. pone. eapply (P_take _ 2); reflexivity. cbn.
    pone. apply (P_timer _ 1). now left. cbn. pone. eapply (P_acquire _ 2); reflexivity. cbn. apply PS_nil. }
  - cbn. intuition discriminate.
  - cbn. intros j. intuition discriminate.
  - exists (1, 0). cbn. auto.
Qed.
Print Assumptions C30_closed_handed_out_refuted.

(* --- no connection is lost, and no closed one is made idle again --- *)
(* the wrapper is in the hands of a goroutine inside a pool operation *)
Definition carried (p : pool) (i : item) : Prop := exists j, nth_error (p_jobs p) j = Some (JTaken i) \/ exists k n, nth_error (p_jobs p) j = Some (JPurge k n (Some i)).
Definition accounted (p : pool) (i : item) : Prop := In i (p_chan p) \/ carried p i \/ In i (p_held p) \/ In i (p_past p) \/ In (fst i) (p_shut p).
Lemma del_item_or : forall i x l, In x l -> In x (del_item i l) \/ x = i.
Proof.
  intros i x l. induction l as [|y l IH]; intros H; [destruct H|]. cbn. destruct (Nat.eqb (fst i) (fst y) && Nat.eqb (snd i) (snd y))%bool eqn:E.
  - apply andb_true_iff in E. rewrite !Nat.eqb_eq in E. assert (i = y) by (destruct i, y; cbn in *; f_equal; tauto). subst. destruct H as [->|H]; auto.
  - destruct H as [->|H]; [left; now left|]. destruct (IH H); [left; now right|now right].
Qed.
Lemma carried_set : forall p js lk ch he pa sh ti nr nw op cc cp j x y i, nth_error (p_jobs p) j = Some x -> (x <> JTaken i) -> (forall k n, x <> JPurge k n (Some i)) -> js = jset (p_jobs p) j y -> carried p i -> carried (mkpool cp ch op cc lk js he pa sh ti nr nw) i.
Proof.
  intros p js lk ch he pa sh ti nr nw op cc cp j x y i Hj N1 N2 -> (m & Hm). exists m. cbn [p_jobs].
  assert (Hne: j <> m) by (intros ->; destruct Hm as [Hm|(k & n & Hm)]; rewrite Hj in Hm; [apply N1|apply (N2 k n)]; congruence).
  rewrite jset_nth. apply Nat.eqb_neq in Hne. now rewrite Hne.
Qed.
Lemma carried_snoc : forall p js lk ch he pa sh ti nr nw op cc cp y i, js = p_jobs p ++ [y] -> carried p i -> carried (mkpool cp ch op cc lk js he pa sh ti nr nw) i.
Proof.
  intros p js lk ch he pa sh ti nr nw op cc cp y i -> (m & Hm). exists m. cbn [p_jobs]. destruct Hm as [Hm|(k & n & Hm)]; [left|right; exists k, n]; (rewrite nth_error_app1; [assumption|eapply nth_lt; exact Hm]).
Qed.
Lemma carried_same : forall p js lk ch he pa sh ti nr nw op cc cp i, js = p_jobs p -> carried p i -> carried (mkpool cp ch op cc lk js he pa sh ti nr nw) i.
Proof. intros p js lk ch he pa sh ti nr nw op cc cp i -> H. exact H. Qed.
Lemma item_dec : forall a b : item, {a = b} + {a <> b}.
Proof. decide equality; apply Nat.eq_dec. Qed.
(* A wrapper that once was idle, in a user's hands or on its way to one is always in one of those places, unless a user
   has given it back or it has been closed. *)
Theorem C30_no_leak : forall p l p' i, pstep p l p' -> accounted p i -> accounted p' i.
Proof.
  intros p0 l p' i0 Hs A. unfold accounted in *.
  pcases Hs; try (destruct k); unfold with_jobs; cbn [p_chan p_held p_past p_shut p_jobs] in *;
    destruct A as [A|[A|[A|[A|A]]]];
    try (now (left; first [assumption|apply in_or_app; now left])); try (now (right; right; left; first [assumption|now right]));
    try (now (right; right; right; left; first [assumption|now right])); try (now (right; right; right; right; first [assumption|now right]));
    try (now (right; left; eapply carried_snoc; [reflexivity|exact A])); try (now (right; left; eapply carried_same; [reflexivity|exact A]));
    try (now (right; left; eapply carried_set; [exact Hj|discriminate|discriminate|reflexivity|exact A]));
    try (now (rewrite Hch in A; destruct A));
    try (rewrite Hch in A; destruct A as [A|A]; [subst i0|now left]).
  all: try (right; left; exists j; right; eexists; eexists; cbn; eapply jset_same; exact Hj).
  all: try (right; left; exists j; left; cbn; eapply jset_same; exact Hj).
  all: try (now (right; right; right; right; now left)).
  all: try (destruct (del_item_or i _ _ A) as [B|B]; [right; right; left; exact B|subst; right; right; right; left; now left]).
  all: try (destruct (item_dec i i0) as [<-|Hne]; [|right; left; eapply carried_set; [exact Hj|congruence|congruence|reflexivity|exact A]]).
  all: try (right; right; right; right; apply memn_in; assumption).
  all: try (left; apply in_or_app; right; now left).
  all: try (right; right; left; now left).
Qed.
Print Assumptions C30_no_leak.
(* When a connection becomes idle in the pool, it has not been closed. *)
Theorem C30_idle_is_open : forall initial cap ls p l p' i, psteps (new_pool initial cap) ls p -> pstep p l p' ->
  In i (p_chan p') -> ~ In i (p_chan p) -> ~ In (fst i) (p_shut p').
Proof.
  intros initial cap ls p l p' i H Hs Hi Hn.
  assert (B: forall x, In x (p_shut p) -> x < p_nwrap p).
  { clear - H. assert (G: (forall x, In x (p_timers p) -> x < p_nwrap p) /\ (forall x, In x (p_shut p) -> x < p_nwrap p) /\ (forall i j, nth_error (p_jobs p) j = Some (JRelease i) -> fst i < p_nwrap p)); [|apply G].
    revert p H. induction ls as [|l ls IH] using rev_ind; intros p H.
    - inversion H; subst. cbn. split; [intros ? []|]. split; [intros ? []|]. intros i [|j] Hj; discriminate.
    - apply psteps_snoc_inv in H. destruct H as (b & Hb & Hs). destruct (IH b Hb) as (T & S & R). pose proof (wid_inv _ _ _ _ Hb) as Hwid. clear IH Hb.
      assert (Ht: forall i : item, 1 <= sumi (fun x => eqn (fst x) (fst i)) (p_held b) + sumi (fun x => eqn (fst x) (fst i)) (p_chan b) -> fst i < p_nwrap b).
      { intros i Hle. destruct (Nat.lt_ge_cases (fst i) (p_nwrap b)) as [|Hge]; [assumption|]. destruct (Hwid (fst i)) as [_ W]. specialize (W Hge). unfold tot_wid, tot in W. lia. }
      pcases Hs; try (destruct k); unfold with_jobs; cbn [p_timers p_shut p_nwrap p_jobs] in *;
        (split; [intros x Hx; try (apply in_del_nat in Hx; destruct Hx as [Hx _])|split; [intros x Hx|intros i' j' Hj'; try (destruct (jset_inv _ _ _ _ _ _ Hj Hj') as [[_ Hq]|[_ Hq]]); try (destruct (snoc_inv _ _ _ _ Hj') as [[_ Hq]|Hq])]]);
        try discriminate; try (destruct Hx as [<-|Hx]);
        try (now apply T); try (now apply S); try (now (eapply R; eassumption)); try (apply T in Hx; lia); try (apply S in Hx; lia); try (apply R in Hq; lia).
      + injection Hq as ->. cbn. lia.
      + apply Ht. assert (G: In (fst i) (map fst (p_held p))) by (now apply in_map). apply held_tot in G. lia.
      + apply Ht. rewrite Hch. assert (G: In (fst i) (map fst (i :: r))) by now left. apply chan_tot in G. rewrite Hch in *. lia. }
  rename i into ii; rename Hi into HI; rename Hn into HN. pcases Hs; try (destruct k); unfold with_jobs in *; cbn [p_chan p_shut] in *; try contradiction; try (exfalso; apply HN; rewrite Hch; now right).
  1-3: (apply in_app_iff in HI; destruct HI as [HI|[<-|[]]]; [contradiction|intros Hc; apply memn_in in Hc; congruence]).
  apply in_app_iff in HI. destruct HI as [HI|[<-|[]]]; [contradiction|]. cbn. intros Hc. apply B in Hc. lia.
Qed.
Print Assumptions C30_idle_is_open.

(* --- C31: the mutex --- *)
Definition stuck (p : pool) (j : nat) : Prop := p_lock p = Some j /\ p_chan p = [] /\ exists k n, nth_error (p_jobs p) j = Some (JPurge k (S n) None).
Lemma stuck_step : forall p j l p', lock_ok p -> stuck p j -> pstep p l p' -> stuck p' j.
Proof.
  intros p0 j0 l p' L (Hl & Hc & k0 & n0 & Hj0) Hs. destruct L as [L1 _].
  assert (Only: forall i x, nth_error (p_jobs p0) i = Some x -> owns x -> i = j0) by (intros i x Hx Ho; specialize (L1 i x Hx Ho); congruence).
  assert (Keep: forall i x y, nth_error (p_jobs p0) i = Some x -> i <> j0 -> nth_error (jset (p_jobs p0) i y) j0 = Some (JPurge k0 (S n0) None)).
  { intros i x y Hx Hn. rewrite jset_nth. apply Nat.eqb_neq in Hn. now rewrite Hn. }
  pcases Hs; unfold stuck; try (destruct k); cbn [p_lock p_chan p_jobs with_jobs]; try congruence;
    try (assert (j = j0) by (eapply Only; [exact Hj|exact I]); subst j; exfalso; congruence);
    (split; [try assumption; congruence|]); (split; [try assumption; congruence|]); exists k0, n0; try assumption;
    try (eapply Keep; [exact Hj|intros ->; congruence]);
    try (rewrite nth_error_app1; [assumption|eapply nth_lt; exact Hj0]).
Qed.
(* Two concurrent Gets with one idle connection: the second is purging (it holds the mutex and expects the connection) when
   the first receives it.  The second then waits for ever on the empty channel: every later Put, Get, Len or Close waits
   for the mutex. *)
Theorem C31_purge_deadlock_refuted : exists ls p j, psteps (new_pool 1 5) ls p /\ p_lock p = Some j /\
  forall ls' p', psteps p ls' p' -> p_lock p' = Some j.
Proof.
  eexists _, _, 1. split; [|split].
  { pone. apply (P_spawn _ KGet); discriminate. pone. eapply (P_lock _ 0); reflexivity. cbn. pone. eapply (P_recv _ 0); reflexivity. cbn. pone. eapply (P_keep _ 0); [reflexivity|reflexivity|cbn; lia]. cbn. pone. eapply (P_purged _ 0 KGet); reflexivity. cbn.
    pone. apply (P_spawn _ KGet); discriminate. pone. eapply (P_lock _ 1); reflexivity. cbn. pone. eapply (P_take _ 0); reflexivity. cbn. apply PS_nil. }
  - reflexivity.
  - intros ls' p' Hs. match type of Hs with psteps ?a _ _ => assert (Hst: lock_ok a /\ stuck a 1) end.
    { split; [split|].
      - intros [|[|j]] x Hx Ho; cbn in Hx; [injection Hx as <-; destruct Ho|reflexivity|destruct j; discriminate].
      - intros j [= <-]. eexists. split; [reflexivity|exact I].
      - split; [reflexivity|]. split; [reflexivity|]. exists KGet, 0. reflexivity. }
    clear - Hs Hst. induction Hs as [p|p l p1 ls p2 H1 H2 IH]; [apply Hst|]. apply IH. destruct Hst. split; [eapply lock_step|eapply stuck_step]; eauto.
Qed.
Print Assumptions C31_purge_deadlock_refuted.
(* If no Get receives from the channel while another goroutine holds the mutex, the holder of the mutex can always go on
   until it releases it, by its own steps. *)
Definition purge_ok (p : pool) : Prop := forall j k n h, nth_error (p_jobs p) j = Some (JPurge k n h) ->
  match h with None => n <= length (p_chan p) | Some _ => 1 <= n /\ n - 1 <= length (p_chan p) end.
Definition drain_ok (p : pool) : Prop := (p_open p = true -> forall j, nth_error (p_jobs p) j <> Some JDrain) /\ (p_open p = false -> forall j k n h, nth_error (p_jobs p) j = Some (JPurge k n h) -> n = 0 /\ h = None).
Lemma drain_step : forall p l p', lock_ok p -> drain_ok p -> pstep p l p' -> drain_ok p'.
Proof.
  intros p0 l p' [L1 L2] [D1 D2] Hs. split.
  - intros Ho ii HI. pcases Hs; try (destruct k); cbn [p_open p_jobs with_jobs] in *; try congruence;
      try (destruct (jset_inv _ _ _ _ _ _ Hj HI) as [[_ ?]|[_ ?]]; [discriminate|now apply (D1 Ho ii)]);
      try (destruct (snoc_inv _ _ _ _ HI) as [[_ ?]|?]; [discriminate|now apply (D1 Ho ii)]); try (now apply (D1 Ho ii)).
  - intros Ho ii kk nn hh HI. pcases Hs; try (destruct k); cbn [p_open p_jobs with_jobs] in *; try congruence;
      try (destruct (jset_inv _ _ _ _ _ _ Hj HI) as [[_ Hq]|[_ Hq]]; [try discriminate|now apply (D2 Ho ii kk)]);
      try (destruct (snoc_inv _ _ _ _ HI) as [[_ Hq]|Hq]; [discriminate|try (now apply (D2 Ho ii kk))]); try (now apply (D2 Ho ii kk));
      try (destruct (D2 Ho _ _ _ _ Hj); discriminate).
    + rewrite Ho in Hq. injection Hq as _ -> ->. auto.
    + rewrite Ho in Hq. injection Hq as _ -> ->. auto.
    + rewrite Ho in Hq. injection Hq as _ -> ->. auto.
    + exfalso. specialize (L1 ii _ Hq I). congruence.
Qed.
Lemma purge_step : forall p l p', lock_ok p -> drain_ok p -> purge_ok p -> (forall j, l <> PTake j true) -> pstep p l p' -> purge_ok p'.
Proof.
  intros p0 l p' [L1 L2] [D1 D2] P Hnt Hs ii kk nn hh HI.
  assert (Oth: forall a b x y, nth_error (p_jobs p0) a = Some x -> nth_error (p_jobs p0) b = Some y -> owns x -> owns y -> a = b).
  { intros a b x y Ha Hb Hx Hy. specialize (L1 _ _ Ha Hx) as Q1. specialize (L1 _ _ Hb Hy) as Q2. congruence. }
  assert (Z: sumj in_hand (p_jobs p0) <= 1).
  { clear - Oth. unfold sumj. assert (G: forall l, (forall a b x y, nth_error l a = Some x -> nth_error l b = Some y -> owns x -> owns y -> a = b) -> fold_right (fun x n => in_hand x + n) 0 l <= 1).
    { induction l as [|x l IH]; intros Ho; cbn; [lia|]. destruct (in_hand x) eqn:E; [apply IH; intros a b u v Ha Hb Hu Hv; assert (S a = S b) by (eapply Ho; [exact Ha|exact Hb|exact Hu|exact Hv]); lia|].
      assert (Hz: sumj in_hand l = 0). { apply sumj_zero. intros a u Ha. destruct (in_hand u) eqn:Eu; [reflexivity|]. exfalso. assert (0 = S a); [|lia]. apply (Ho 0 (S a) x u eq_refl Ha); [destruct x as [|? ? [|]| | | | | |]; try discriminate; exact I|destruct u as [|? ? [|]| | | | | |]; try discriminate; exact I]. }
      unfold sumj in Hz. rewrite Hz. destruct x as [|? ? [|]| | | | | |]; cbn in E |- *; lia. }
    now apply G. }
  unfold purge_ok in P. pcases Hs; try (destruct k as [|rk|]); cbn [p_jobs p_chan with_jobs] in *;
    try (destruct (jset_inv _ _ _ _ _ _ Hj HI) as [[Hij Hq]|[Hij Hq]]);
    try (destruct (snoc_inv _ _ _ _ HI) as [[Hij Hq]|Hq]); try discriminate;
    try (apply (P ii kk nn hh); assumption);
    try (exfalso; apply Hij; eapply Oth; [exact Hq|exact Hj|exact I|exact I]);
    try (injection Hq as -> -> ->);
    try (specialize (P _ _ _ _ Hj); cbn in P); try rewrite Hch in *; rewrite ?app_length; cbn [length] in *; try lia.
  all: try (destruct (p_open p); lia).
  (* remaining: a take by a Get while nobody purges; a drain *)
  - exfalso. specialize (L1 ii _ Hq I). apply (Hnt j). now rewrite L1.
  - destruct (D2 ltac:(destruct (p_open p) eqn:E; [exfalso; now apply (D1 eq_refl j)|reflexivity]) _ _ _ _ HI) as [-> ->]. lia.
Qed.
Definition pool_ok (p : pool) : Prop := lock_ok p /\ drain_ok p /\ purge_ok p /\ cap_ok p.
Lemma pool_ok_step : forall p l p', pool_ok p -> (forall j, l <> PTake j true) -> pstep p l p' -> pool_ok p'.
Proof. intros p l p' (L & D & P & C) Hn Hs. split; [eapply lock_step; eassumption|]. split; [eapply drain_step; eassumption|]. split; [eapply purge_step; eassumption|eapply cap_step; eassumption]. Qed.
Lemma pool_ok_reach : forall initial cap ls p, initial <= cap -> psteps (new_pool initial cap) ls p -> (forall j, ~ In (PTake j true) ls) -> pool_ok p.
Proof.
  intros initial cap ls. induction ls as [|l ls IH] using rev_ind; intros p Hc H Hn.
  - inversion H; subst. assert (E: forall j x, nth_error (p_jobs (new_pool initial cap)) j <> Some x) by (intros [|j] x; discriminate). split; [split; [intros j x Hx; now apply E in Hx|discriminate]|]. split; [split; [intros _ j; apply E|discriminate]|]. split; [intros j k n h Hx; now apply E in Hx|]. unfold cap_ok. cbn. rewrite map_length, seq_length. lia.
  - apply psteps_snoc_inv in H. destruct H as (b & Hb & Hs). eapply pool_ok_step; [apply (IH b Hc Hb)| |exact Hs].
    + intros j Hi. apply (Hn j), in_or_app. now left.
    + intros j ->. apply (Hn j), in_or_app. right. now left.
Qed.
(* the number of own steps the holder of the mutex still needs *)
Definition to_go (x : job) : nat := match x with JPurge _ n None => 2 * n + 3 | JPurge _ n (Some _) => 2 * n + 2 | JPush _ => 2 | JRelease _ => 1 | _ => 0 end.
Definition own_label (j : nat) (l : plabel) : Prop := l = PJob j \/ exists b, l = PRelease j b.
Lemma holder_step : forall p j x, pool_ok p -> nth_error (p_jobs p) j = Some x -> owns x ->
  exists l p', pstep p l p' /\ own_label j l /\ (p_lock p' = None \/ exists y, nth_error (p_jobs p') j = Some y /\ owns y /\ to_go y < to_go x).
Proof.
  intros p j x (L & D & P & C) Hx Ho. destruct x as [k|k n h|b|i|r|i| |]; try destruct Ho.
  - destruct h as [i|].
    + specialize (P _ _ _ _ Hx) as HP. cbn in HP. destruct n as [|n]; [lia|]. destruct (memn (fst i) (p_shut p)) eqn:E.
      * eexists _, _. split; [eapply P_drop; eassumption|]. split; [now left|]. right. eexists. split; [cbn; eapply jset_same; exact Hx|]. split; [exact I|cbn; lia].
      * eexists _, _. split; [eapply P_keep; [eassumption|eassumption|]|].
        { unfold cap_ok in C. pose proof (sumj_ge in_hand _ _ _ Hx) as G. cbn in G. lia. }
        split; [now left|]. right. eexists. split; [cbn; eapply jset_same; exact Hx|]. split; [exact I|cbn; lia].
    + specialize (P _ _ _ _ Hx) as HP. cbn in HP. destruct n as [|n].
      * eexists _, _. split; [eapply P_purged; eassumption|]. split; [now left|]. destruct k; [now left| |now left]. right. eexists. split; [cbn; eapply jset_same; exact Hx|]. split; [exact I|cbn; lia].
      * destruct (p_chan p) as [|i r] eqn:E; [cbn in HP; lia|]. eexists _, _. split; [eapply P_recv; eassumption|]. split; [now left|]. right. eexists. split; [cbn; eapply jset_same; exact Hx|]. split; [exact I|cbn; lia].
  - destruct (p_open p) eqn:Eo; [destruct (Nat.lt_ge_cases (length (p_chan p)) (p_cap p)) as [Hl|Hl]|].
    + eexists _, _. split; [eapply P_push; eassumption|]. split; [now left|]. right. eexists. split; [cbn; eapply jset_same; exact Hx|]. split; [exact I|cbn; lia].
    + eexists _, _. split; [eapply P_push_refused; [eassumption|now right]|]. split; [now left|]. now left.
    + eexists _, _. split; [eapply P_push_refused; [eassumption|now left]|]. split; [now left|]. now left.
  - eexists _, _. split; [eapply P_release; eassumption|]. split; [right; eexists; reflexivity|]. now left.
Qed.
(* If no Get receives from the channel while the mutex is held, then in every reachable state the goroutine holding the
   mutex can go on, with its own steps only, until the mutex is free; the number of steps it needs is bounded by twice the
   capacity plus 3.  (Missing for the full claim: C31_purge_deadlock_refuted.) *)
Theorem C31_holder_progress : forall initial cap ls p j, initial <= cap -> psteps (new_pool initial cap) ls p -> (forall i, ~ In (PTake i true) ls) ->
  p_lock p = Some j -> exists ls' p', psteps p ls' p' /\ Forall (own_label j) ls' /\ length ls' <= 2 * cap + 3 /\ p_lock p' = None.
Proof.
  intros initial cap ls p j Hc H Hn Hl. pose proof (pool_ok_reach _ _ _ _ Hc H Hn) as OK. pose proof (C30_capacity _ _ _ _ Hc H) as HC.
  destruct OK as (L & D & P & C). destruct (proj2 L j Hl) as (x & Hx & Ho).
  assert (B: to_go x <= 2 * cap + 3). { destruct x as [k|k n [i|]|b|i|r|i| |]; cbn; try lia; specialize (P _ _ _ _ Hx); cbn in P; try lia.
    assert (Hcap: p_cap p = cap). { clear - H. remember (new_pool initial cap) as a eqn:Ea. assert (Hq: p_cap a = cap) by (subst; reflexivity). clear Ea. induction H as [|a l b ls c Hs H IH]; [assumption|]. apply IH. rewrite <- Hq. clear - Hs. pcases Hs; try (destruct k); reflexivity. }
    unfold cap_ok in C. pose proof (sumj_ge in_hand _ _ _ Hx) as G. cbn in G. lia. }
  assert (OK: pool_ok p) by (split; [exact L|split; [exact D|split; [exact P|exact C]]]). clear - OK Hx Ho B.
  cut (forall m q y, to_go y <= m -> pool_ok q -> nth_error (p_jobs q) j = Some y -> owns y -> exists ls' p', psteps q ls' p' /\ Forall (own_label j) ls' /\ length ls' <= m /\ p_lock p' = None).
  { intros G. destruct (G (to_go x) p x (Nat.le_refl _) OK Hx Ho) as (ls' & p' & G1 & G2 & G3 & G4). exists ls', p'. repeat split; try assumption. lia. }
  clear. induction m as [|m IH]; intros q y Hm OK Hy Ho; [destruct y as [k|k n [i|]|b|i|r|i| |]; cbn in Hm; try lia; destruct Ho|].
  destruct (holder_step q j y OK Hy Ho) as (l & q' & Hs & Hol & [Hd|(z & Hz & Hoz & Hlt)]).
  - exists [l], q'. split; [econstructor; [exact Hs|constructor]|]. split; [constructor; [assumption|constructor]|]. split; [cbn; lia|assumption].
  - assert (OK': pool_ok q'). { eapply pool_ok_step; [exact OK| |exact Hs]. intros i. destruct Hol as [->|(b & ->)]; discriminate. }
    destruct (IH q' z ltac:(lia) OK' Hz Hoz) as (ls' & p' & G1 & G2 & G3 & G4). exists (l :: ls'), p'. split; [econstructor; eassumption|]. split; [now constructor|]. split; [cbn; lia|assumption].
Qed.
Print Assumptions C31_holder_progress.
(* a state meeting the hypotheses: a Get holding the mutex with one idle connection *)
Example C31_holder_ex : exists ls p, psteps (new_pool 1 5) ls p /\ (forall i, ~ In (PTake i true) ls) /\ p_lock p = Some 0 /\ p_chan p <> [].
Proof.
  eexists _, _. split; [|split; [|split]].
  { pone. apply (P_spawn _ KGet); discriminate. pone. eapply (P_lock _ 0); reflexivity. cbn. apply PS_nil. }
  - intros i. cbn. intuition discriminate.
  - reflexivity.
  - discriminate.
Qed.
Example C30_exclusive_ex : exists ls p, psteps (new_pool 2 2) ls p /\ ~ In PUserReclose ls /\ held_raws p = [0] /\ idle_raws p = [1].
Proof.
  eexists _, _. split; [|split; [|split]].
  { pone. apply (P_spawn _ KGet); discriminate. pone. eapply (P_lock _ 0); reflexivity. cbn. pone. eapply (P_recv _ 0); reflexivity. cbn. pone. eapply (P_keep _ 0); [reflexivity|reflexivity|cbn; lia]. cbn. pone. eapply (P_recv _ 0); reflexivity. cbn. pone. eapply (P_keep _ 0); [reflexivity|reflexivity|cbn; lia]. cbn. pone. eapply (P_purged _ 0 KGet); reflexivity. cbn. pone. eapply (P_take _ 0); reflexivity. cbn. pone. eapply (P_acquire _ 0); reflexivity. cbn. apply PS_nil. }
  - cbn. intuition discriminate.
  - reflexivity.
  - reflexivity.
Qed.
