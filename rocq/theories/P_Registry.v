(* C32: pool registry. *)
From Coq Require Import String List Bool ZArith Lia.
From Verif Require Import M_GoMap L_GoMap M_Registry.
Import ListNotations.
Open Scope Z_scope.

Definition sumr (f : rjob -> Z) (l : list rjob) : Z := fold_right (fun x n => f x + n) 0 l.
Lemma sumr_app : forall f a b, sumr f (a ++ b) = sumr f a + sumr f b.
Proof. intros f a b. unfold sumr. induction a as [|x a IH]; cbn [fold_right app]; [lia|]. rewrite IH. lia. Qed.
Lemma sumr_set : forall f l j x y, nth_error l j = Some x -> sumr f (rset l j y) = sumr f l - f x + f y.
Proof.
  intros f l. unfold sumr. induction l as [|z l IH]; intros [|j] x y H; cbn in H; try discriminate; cbn [fold_right rset].
  - injection H as ->. lia.
  - rewrite (IH j x y H). lia.
Qed.
(* what a goroutine still has to add to the counter *)
Definition pend (x : rjob) : Z := match x with RAdd1 => 1 | RRem1 => -1 | _ => 0 end.
Definition reg_ok (r : registry) : Prop := NoDup (mkeys (r_store r)) /\ 0 <= r_count r < two64 /\ (r_count r + sumr pend (r_jobs r)) mod two64 = Z.of_nat (length (r_store r)) mod two64.
Lemma len_mdel : forall id q (m : gmap nat), NoDup (mkeys m) -> mget id m = Some q -> S (length (mdel id m)) = length m.
Proof.
  intros id q m. induction m as [|[k v] m IH]; intros Hn H; cbn in H; [discriminate|]. inversion Hn as [|? ? Hk Hn']; subst. unfold mdel. cbn [filter fst]. destruct (String.eqb id k) eqn:E; cbn [negb length].
  - apply String.eqb_eq in E. subst. f_equal. fold (mdel k m). clear - Hk. induction m as [|[a b] m IH]; [reflexivity|]. unfold mdel. cbn [filter fst]. destruct (String.eqb k a) eqn:E; [apply String.eqb_eq in E; subst; exfalso; apply Hk; now left|]. cbn [negb length]. f_equal. apply IH. intros Hc. apply Hk. now right.
  - f_equal. now apply IH.
Qed.
Lemma len_mdel_none : forall id (m : gmap nat), mget id m = None -> mdel id m = m.
Proof.
  intros id m. induction m as [|[k v] m IH]; intros H; [reflexivity|]. cbn in H. unfold mdel. cbn [filter fst]. destruct (String.eqb id k) eqn:E; [discriminate|]. cbn [negb]. f_equal. now apply IH.
Qed.
Ltac modpos := apply Z.mod_pos_bound; reflexivity.
Lemma modeq_add : forall a b c, a mod two64 = b mod two64 -> (a + c) mod two64 = (b + c) mod two64.
Proof. intros a b c H. rewrite <- Zplus_mod_idemp_l, H, Zplus_mod_idemp_l. reflexivity. Qed.
Lemma reg_step : forall r l r', reg_ok r -> rstep r l r' -> reg_ok r'.
Proof.
  intros r0 l r' (N & B & E) Hs. unfold reg_ok.
  destruct Hs as [r id p Hc|r id p q Hc Hg|r id p Hc Hg|r j Hj|r j Hj|r id Hg|r id q Hg|r j Hj|r j Hj|r p|r j Hj|r j Hj Hi|r j id p Hj Hg Hc|r j id Hj]; cbn [rupd r_store r_count r_jobs r_pclosed]; try tauto;
    try (rewrite !(sumr_set _ _ _ _ _ Hj); cbn [pend]).
  - (* store *) split; [now apply nodup_mset|]. split; [assumption|]. rewrite sumr_app. cbn [sumr fold_right pend]. unfold mset. rewrite (len_mdel_none _ _ Hg). cbn [length]. rewrite Nat2Z.inj_succ. replace (r_count r + (sumr pend (r_jobs r) + (1 + 0))) with (r_count r + sumr pend (r_jobs r) + 1) by lia. unfold Z.succ. now apply modeq_add.
  - (* count *) split; [assumption|]. split; [modpos|]. rewrite <- E. rewrite Zplus_mod_idemp_l. f_equal. lia.
  - (* cmp *) split; [assumption|]. split; [assumption|]. rewrite sumr_app, (sumr_set _ _ _ _ _ Hj). cbn [pend]. rewrite <- E. f_equal. destruct (r_count r =? 1); cbn; lia.
  - (* rem *) split; [now apply nodup_mdel|]. split; [assumption|]. rewrite sumr_app. cbn [sumr fold_right pend]. pose proof (len_mdel _ _ _ N Hg) as HL. rewrite <- HL in E. rewrite Nat2Z.inj_succ in E. apply (modeq_add _ _ (-1)) in E. replace (Z.succ (Z.of_nat (length (mdel id (r_store r)))) + -1) with (Z.of_nat (length (mdel id (r_store r)))) in E by lia. rewrite <- E. f_equal. lia.
  - split; [assumption|]. split; [modpos|]. rewrite <- E. rewrite Zplus_mod_idemp_l. f_equal. lia.
  - split; [assumption|]. split; [assumption|]. rewrite <- E. f_equal. lia.
  - split; [assumption|]. split; [assumption|]. rewrite <- E. f_equal. lia.
  - split; [assumption|]. split; [assumption|]. rewrite <- E. f_equal. lia.
  - split; [assumption|]. split; [assumption|]. rewrite <- E. f_equal. lia.
  - (* clean *) split; [now apply nodup_mdel|]. split; [assumption|]. rewrite sumr_app, (sumr_set _ _ _ _ _ Hj). cbn [pend]. destruct (mget id (r_store r)) as [q|] eqn:Hg.
    + cbn [sumr fold_right pend]. pose proof (len_mdel _ _ _ N Hg) as HL. rewrite <- HL in E. rewrite Nat2Z.inj_succ in E. apply (modeq_add _ _ (-1)) in E. replace (Z.succ (Z.of_nat (length (mdel id (r_store r)))) + -1) with (Z.of_nat (length (mdel id (r_store r)))) in E by lia. rewrite <- E. f_equal. lia.
    + rewrite (len_mdel_none _ _ Hg). cbn [sumr fold_right]. rewrite <- E. f_equal. lia.
Qed.
Lemma reg_reach : forall r ls r', reg_ok r -> rsteps r ls r' -> reg_ok r'.
Proof. intros r ls r' H Hs. induction Hs as [|a l b ls c H1 H2 IH]; [assumption|]. apply IH. eapply reg_step; eauto. Qed.
Lemma reg_new_ok : reg_ok new_registry.
Proof. repeat split; try constructor; cbn; lia. Qed.
(* no AddPool or RemovePool is between its map operation and its counter update *)
Definition quiescent (r : registry) : Prop := forall x, In x (r_jobs r) -> x <> RAdd1 /\ x <> RRem1.
Lemma quiescent_pend : forall r, quiescent r -> sumr pend (r_jobs r) = 0.
Proof.
  intros r H. unfold quiescent in H. unfold sumr. induction (r_jobs r) as [|x l IH]; [reflexivity|]. cbn [fold_right]. rewrite IH by (intros y Hy; apply H; now right). destruct (H x (or_introl eq_refl)). destruct x; cbn; congruence.
Qed.
(* Whenever no operation is in progress, Len is the number of registered pools, whatever was done concurrently before; the
   registered ids are distinct. *)
Theorem C32_count : forall ls r, rsteps new_registry ls r -> quiescent r -> Z.of_nat (length (r_store r)) < 2 ^ 63 ->
  reg_len r = Z.of_nat (length (r_store r)) /\ NoDup (mkeys (r_store r)).
Proof.
  intros ls r H Hq Hb. destruct (reg_reach _ _ _ reg_new_ok H) as (N & B & E). split; [|assumption]. rewrite (quiescent_pend _ Hq), Z.add_0_r in E. rewrite !Z.mod_small in E by (unfold two64 in *; lia). unfold reg_len. rewrite E. destruct (Z.of_nat (length (r_store r)) <? 2 ^ 63) eqn:Q; [reflexivity|]. apply Z.ltb_ge in Q. lia.
Qed.
Print Assumptions C32_count.
(* A registered id keeps its pool in every step, except that a RemovePool of that very id (by a user or the cleanup) can
   remove it; in particular AddPool never replaces a pool. *)
Theorem C32_never_replaced : forall r l r' id p, rstep r l r' -> get_pool id r = Some p ->
  get_pool id r' = Some p \/ (get_pool id r' = None /\ (l = RLRemove id \/ exists j, l = RLCleanup j id)).
Proof.
  intros r0 l r' id0 p0 Hs H. unfold get_pool in *.
  destruct Hs as [r id p Hc|r id p q Hc Hg|r id p Hc Hg|r j Hj|r j Hj|r id Hg|r id q Hg|r j Hj|r j Hj|r p|r j Hj|r j Hj Hi|r j id p Hj Hg Hc|r j id Hj]; cbn [rupd r_store]; try (now left).
  - left. rewrite mget_mset. destruct (String.eqb id0 id) eqn:E; [|assumption]. apply String.eqb_eq in E. subst. congruence.
  - rewrite mget_mdel. destruct (String.eqb id0 id) eqn:E; [|now left]. apply String.eqb_eq in E. subst. right. auto.
  - rewrite mget_mdel. destruct (String.eqb id0 id) eqn:E; [|now left]. apply String.eqb_eq in E. subst. right. split; [reflexivity|]. right. now exists j.
Qed.
Print Assumptions C32_never_replaced.
(* AddPool of an open pool registers it, or leaves the pool that is already there; an id appears only through AddPool. *)
Theorem C32_add : forall r id p r', rstep r (RLAdd id p) r' -> pclosed r p = false ->
  get_pool id r' = Some (match get_pool id r with Some q => q | None => p end) /\ forall id', id' <> id -> get_pool id' r' = get_pool id' r.
Proof.
  intros r id p r' Hs Hc. unfold get_pool. inversion Hs; subst; try congruence.
  - match goal with H : mget id _ = Some _ |- _ => rewrite H end. auto.
  - match goal with H : mget id _ = None |- _ => rewrite H end. cbn [rupd r_store]. split; [rewrite mget_mset, String.eqb_refl; reflexivity|]. intros id' Hn. rewrite mget_mset. apply String.eqb_neq in Hn. now rewrite Hn.
Qed.
Print Assumptions C32_add.
(* RemovePool leaves no entry for the id and touches no other. *)
Theorem C32_removed : forall r id r', rstep r (RLRemove id) r' -> has_pool id r' = false /\ forall id', id' <> id -> get_pool id' r' = get_pool id' r.
Proof.
  intros r id r' Hs. unfold has_pool, get_pool. inversion Hs; subst.
  - match goal with H : mget id _ = None |- _ => rewrite H end. auto.
  - cbn [rupd r_store]. split; [rewrite mget_mdel, String.eqb_refl; reflexivity|]. intros id' Hn. rewrite mget_mdel. apply String.eqb_neq in Hn. now rewrite Hn.
Qed.
Print Assumptions C32_removed.
(* An id that is not registered stays so until an AddPool of it. *)
Theorem C32_absent_until_added : forall r l r' id, rstep r l r' -> get_pool id r = None -> get_pool id r' <> None -> exists p, l = RLAdd id p /\ get_pool id r' = Some p /\ pclosed r p = false.
Proof.
  intros r0 l r' id0 Hs H Hn. unfold get_pool in *.
  destruct Hs as [r id p Hc|r id p q Hc Hg|r id p Hc Hg|r j Hj|r j Hj|r id Hg|r id q Hg|r j Hj|r j Hj|r p|r j Hj|r j Hj Hi|r j id p Hj Hg Hc|r j id Hj]; cbn [rupd r_store] in *; try congruence.
  - rewrite mget_mset in Hn |- *. destruct (String.eqb id0 id) eqn:E; [|congruence]. apply String.eqb_eq in E. subst. exists p. auto.
  - rewrite mget_mdel in Hn. destruct (String.eqb id0 id); congruence.
  - rewrite mget_mdel in Hn. destruct (String.eqb id0 id); congruence.
Qed.
Print Assumptions C32_absent_until_added.
(* Close without concurrent operations and without pool errors closes every pool and empties the registry. *)
Theorem C32_close : forall perr visit store s c, NoDup (mkeys store) -> (forall x, In x store <-> In x visit) -> reg_close perr visit store = (s, c, true) ->
  s = [] /\ forall p, In p c <-> exists id, mget id store = Some p.
Proof.
  intros perr visit store s c Hn Hv H.
  assert (G: forall v st s c, reg_close perr v st = (s, c, true) -> c = map snd v /\ s = fold_left (fun m e => mdel (fst e) m) v st).
  { clear. induction v as [|[id p] v IH]; intros st s c H; cbn in H; [injection H as <- <-; auto|]. destruct (perr p); [discriminate|]. destruct (reg_close perr v (mdel id st)) as [[s1 c1] ok] eqn:E. injection H as <- <- ->. destruct (IH _ _ _ E) as [-> ->]. auto. }
  destruct (G _ _ _ _ H) as [-> ->]. split.
  - assert (K: forall (v st : gmap nat), (forall x, In x st -> In (fst x) (map fst v)) -> fold_left (fun m e => mdel (fst e) m) v st = ([] : gmap nat)).
    { clear. induction v as [|[id p] v IH]; intros st Hs; [destruct st as [|x st]; [reflexivity|]; destruct (Hs x (or_introl eq_refl))|]. cbn [fold_left fst]. apply IH. intros x Hx. unfold mdel in Hx. apply filter_In in Hx. destruct Hx as [Hx Hne]. destruct (Hs x Hx) as [He|He]; [|assumption]. cbn in He. rewrite He, String.eqb_refl in Hne. discriminate. }
    apply K. intros x Hx. apply in_map. now apply Hv.
  - intros p. rewrite in_map_iff. split.
    + intros ([id q] & <- & Hi). exists id. apply in_mget; [assumption|]. now apply Hv.
    + intros (id & Hg). apply mget_in in Hg. exists (id, p). split; [reflexivity|now apply Hv].
Qed.
Print Assumptions C32_close.
(* If closing one pool fails, Close gives up: the remaining pools stay open and registered, and the registry is not closed. *)
Theorem C32_close_error_refuted : exists perr visit s c, reg_close perr visit visit = (s, c, false) /\ mget "b" s = Some 2%nat /\ ~ In 2%nat c /\ perr 2%nat = false.
Proof. exists (fun p => Nat.eqb p 1), [("a"%string, 1%nat); ("b"%string, 2%nat)]. eexists _, _. split; [reflexivity|]. cbn. intuition discriminate. Qed.
Print Assumptions C32_close_error_refuted.
Ltac norm := match goal with |- rsteps ?s _ _ => let s' := eval vm_compute in s in change s with s' end.
Ltac rone := norm; eapply RS_cons; [|].
(* Two concurrent AddPool calls into an empty registry: both compare the counter with 1 when it is already 2, so the cleanup
   never starts; pools that close stay registered although nothing is in progress. *)
Theorem C32_cleanup_never_starts_refuted : exists ls r, rsteps new_registry ls r /\ get_pool "a" r = Some 1%nat /\ pclosed r 1 = true /\
  forall l r', rstep r l r' -> (exists id p, l = RLAdd id p) \/ (exists id, l = RLRemove id) \/ (exists p, l = RLPoolCloses p).
Proof.
  eexists _, _. split; [|split; [|split]].
  { rone. apply (R_add_store _ "a" 1%nat); reflexivity. rone. apply (R_add_store _ "b" 2%nat); reflexivity.
    rone. apply (R_add_count _ 0%nat); reflexivity. rone. apply (R_add_count _ 1%nat); reflexivity. rone. apply (R_add_cmp _ 0%nat); reflexivity. rone. apply (R_add_cmp _ 1%nat); reflexivity.
    rone. apply (R_pool_closes _ 1%nat). norm. apply RS_nil. }
  - reflexivity.
  - reflexivity.
  - intros l r' Hs. remember (mkreg _ _ _ _ _ _) as r0 eqn:E.
    assert (J: forall j x, nth_error (r_jobs r0) j = Some x -> x = REnd). { subst r0. cbn. intros [|[|[|j]]] x Hx; cbn in Hx; congruence. }
    clear E. destruct Hs as [r id p Hc|r id p q Hc Hg|r id p Hc Hg|r j Hj|r j Hj|r id Hg|r id q Hg|r j Hj|r j Hj|r p|r j Hj|r j Hj Hi|r j id p Hj Hg Hc|r j id Hj]; try (specialize (J _ _ Hj); discriminate); eauto 6.
Qed.
Print Assumptions C32_cleanup_never_starts_refuted.
(* The cleanup can remove a live pool: it sees a closed pool, the user replaces it, then it removes the id. *)
Theorem C32_cleanup_removes_live_refuted : exists ls r j id p r', rsteps new_registry ls r /\ get_pool id r = Some p /\ pclosed r p = false /\ rstep r (RLCleanup j id) r' /\ get_pool id r' = None.
Proof.
  eexists _, _, 1%nat, "a"%string, 2%nat, _. split; [|split; [|split; [|split; [eapply R_clean|]]]].
  { rone. apply (R_add_store _ "a" 1%nat); reflexivity. rone. apply (R_add_count _ 0%nat); reflexivity. rone. apply (R_add_cmp _ 0%nat); reflexivity. rone. apply (R_start _ 1%nat); reflexivity.
    rone. apply (R_pool_closes _ 1%nat). rone. apply (R_visit _ 1%nat "a" 1%nat); reflexivity. rone. eapply (R_rem _ "a"); reflexivity. rone. apply (R_add_store _ "a" 2%nat); reflexivity. norm. apply RS_nil. }
  all: reflexivity.
Qed.
Print Assumptions C32_cleanup_removes_live_refuted.
Example C32_ex : exists ls r, rsteps new_registry ls r /\ quiescent r /\ reg_len r = 2.
Proof.
  eexists _, _. split; [|split].
  { rone. apply (R_add_store _ "a" 1%nat); reflexivity. rone. apply (R_add_store _ "b" 2%nat); reflexivity. rone. apply (R_add_count _ 1%nat); reflexivity. rone. apply (R_add_count _ 0%nat); reflexivity. norm. apply RS_nil. }
  - intros x. cbn. intuition (subst; discriminate).
  - reflexivity.
Qed.
