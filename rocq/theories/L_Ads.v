From Coq Require Import List String Bool Lia.
From Verif Require Import M_GoMap L_GoMap M_Ads S_Ads.
Import ListNotations.
Open Scope string_scope.

Lemma sub_for : forall s n, is_subscribed_for s n = true <-> subscribed s n.
Proof. intros. unfold is_subscribed_for, is_subscribed_for_all, subscribed. rewrite orb_true_iff, !mem_in. tauto. Qed.
Lemma sub_for_false : forall s n, is_subscribed_for s n = false <-> ~ subscribed s n.
Proof. intros. rewrite <- sub_for. destruct (is_subscribed_for s n); intuition congruence. Qed.
Lemma sub_dec : forall s n, subscribed s n \/ ~ subscribed s n.
Proof. intros. destruct (is_subscribed_for s n) eqn:E; [left; now apply sub_for|right; now apply sub_for_false]. Qed.
Lemma unmarshal_some : forall t a m, unmarshal_to t a = Some m <-> a = AnyOf m /\ kind_of m = Some t.
Proof.
  intros t a m. split.
  - destruct a as [x|]; [|discriminate]. cbn. destruct t, x; intros H; try discriminate; injection H as <-; auto.
  - intros [-> H]. destruct m; cbn in *; try discriminate; injection H as <-; reflexivity.
Qed.
Lemma unmarshal_none : forall t a, unmarshal_to t a = None <-> ~ decodable t a.
Proof.
  intros. unfold decodable. split.
  - intros H (m & Hm). apply unmarshal_some in Hm. congruence.
  - intros H. destruct (unmarshal_to t a) eqn:E; [|reflexivity]. exfalso. apply H. apply unmarshal_some in E. eauto.
Qed.

Definition nd (m : gmap message) := NoDup (mkeys m).

(* --- AddResources --- *)
Lemma add_loop_spec : forall t s rs typed typed', t <> NDS -> nd typed -> add_loop s t rs typed = inl typed' ->
  nd typed' /\ forall n m, mget n typed' = Some m <-> mget n typed = Some m \/ (subscribed s n /\ offers t rs n m).
Proof.
  intros t s rs typed typed' Ht. revert typed. 
  assert (Hof: forall rs n m, offers t rs n m <-> In (Some (mkresource n (Some (AnyOf m)))) rs /\ kind_of m = Some t) by (intros; destruct t; cbn; tauto).
  induction rs as [|[r|] rest IH]; cbn; intros typed Hn H.
  - injection H as <-. split; [assumption|]. intros. rewrite Hof. cbn. tauto.
  - destruct (r_any r) as [a|] eqn:Ea.
    + destruct (unmarshal_to t a) as [x|] eqn:Eu; [|discriminate]. apply unmarshal_some in Eu. destruct Eu as [-> Ek].
      destruct (negb (is_subscribed_for s (r_name r))) eqn:Es.
      * apply negb_true_iff, sub_for_false in Es. destruct (IH _ Hn H) as [H1 H2]. split; [assumption|]. intros n m. rewrite H2, !Hof. cbn.
        split; [intuition|]. intros [|(Hs & [He|He] & Hk)]; [tauto| |tauto]. injection He as ->. cbn in *. tauto.
      * apply negb_false_iff, sub_for in Es. destruct (mget (r_name r) typed) eqn:Eg; [discriminate|].
        destruct (IH (mset (r_name r) x typed)) as [H1 H2]; [now apply nodup_mset|assumption|]. split; [assumption|]. intros n m. rewrite H2, mget_mset, !Hof. cbn.
        destruct r as [rn ra]. cbn in *. subst ra. destruct (String.eqb n rn) eqn:E.
        -- apply String.eqb_eq in E. subst rn. split.
           ++ intros [He|He]; [injection He as <-; right; auto|right; tauto].
           ++ intros [He|(Hs & [He|He] & Hk)]; [congruence| |right; auto]. injection He as ->. now left.
        -- apply String.eqb_neq in E. split; [intuition|]. intros [|(Hs & [He|He] & Hk)]; [tauto| |tauto]. injection He as -> ->. congruence.
    + destruct (IH _ Hn H) as [H1 H2]. split; [assumption|]. intros n m. rewrite H2, !Hof. cbn. split; [intuition|].
      intros [|(Hs & [He|He] & Hk)]; [tauto| |tauto]. injection He as ->. cbn in *. discriminate.
  - destruct (IH _ Hn H) as [H1 H2]. split; [assumption|]. intros n m. rewrite H2, !Hof. cbn. split; [intuition|]. intros [|(Hs & [He|He] & Hk)]; [tauto|discriminate|tauto].
Qed.

Lemma table_loop_spec : forall s tbl typed del typed' del', nd typed -> table_loop s tbl typed del = (inl typed', del') ->
  nd typed' /\ (forall n m, mget n typed' = Some m <-> mget n typed = Some m \/ (subscribed s n /\ exists ips, In (n, Some ips) tbl /\ m = MNameInfo ips))
  /\ (forall n, In n del' <-> In n del \/ (~ subscribed s n /\ exists ips, In (n, Some ips) tbl)).
Proof.
  induction tbl as [|[n0 [ips|]] rest IH]; cbn; intros typed del typed' del' Hn H.
  - injection H as <- <-. split; [assumption|]. split; [intros; split; [tauto|intros [|(_ & x & [] & _)]; assumption]|]. intros; split; [tauto|intros [|(_ & x & [])]; assumption].
  - destruct (negb (is_subscribed_for s n0)) eqn:Es.
    + apply negb_true_iff, sub_for_false in Es. destruct (IH _ _ _ _ Hn H) as (H1 & H2 & H3). split; [assumption|]. split.
      * intros n m. rewrite H2. split; [intros [|(Hs & i & Hi & ->)]; [tauto|right; eauto]|]. intros [|(Hs & i & [He|Hi] & ->)]; [tauto| |right; eauto]. injection He as -> ->. contradiction.
      * intros n. rewrite H3, in_app_iff. cbn. split.
        -- intros [[|[<-|[]]]|(Hs & i & Hi)]; [tauto|right; eauto|right; eauto].
        -- intros [|(Hs & i & [He|Hi])]; [tauto| |right; eauto]. injection He as -> ->. tauto.
    + apply negb_false_iff, sub_for in Es. destruct (mget n0 typed) eqn:Eg; [discriminate|].
      destruct (IH (mset n0 (MNameInfo ips) typed) del typed' del') as (H1 & H2 & H3); [now apply nodup_mset|assumption|]. split; [assumption|]. split.
      * intros n m. rewrite H2, mget_mset. destruct (String.eqb n n0) eqn:E.
        -- apply String.eqb_eq in E. subst n0. split.
           ++ intros [He|(Hs & i & Hi & ->)]; [injection He as <-; right; split; eauto|right; eauto].
           ++ intros [He|(Hs & i & [He|Hi] & ->)]; [congruence|injection He as ->; now left|right; eauto].
        -- apply String.eqb_neq in E. split; [intros [|(Hs & i & Hi & ->)]; [tauto|right; eauto]|]. intros [|(Hs & i & [He|Hi] & ->)]; [tauto| |right; eauto]. injection He as -> ->. congruence.
      * intros n. rewrite H3. split; [intros [|(Hs & i & Hi)]; [tauto|right; eauto]|]. intros [|(Hs & i & [He|Hi])]; [tauto| |right; eauto]. injection He as -> ->. contradiction.
  - destruct (IH _ _ _ _ Hn H) as (H1 & H2 & H3). split; [assumption|]. split.
    + intros n m. rewrite H2. split; [intros [|(Hs & i & Hi & ->)]; [tauto|right; eauto]|]. intros [|(Hs & i & [He|Hi] & ->)]; [tauto|discriminate|right; eauto].
    + intros n. rewrite H3. split; [intros [|(Hs & i & Hi)]; [tauto|right; eauto]|]. intros [|(Hs & i & [He|Hi])]; [tauto|discriminate|right; eauto].
Qed.
(* the names collected on error are unsubscribed ones of the table, too *)
Lemma table_loop_del : forall s tbl typed del x del', table_loop s tbl typed del = (x, del') ->
  forall n, In n del' -> In n del \/ (~ subscribed s n /\ exists ips, In (n, Some ips) tbl).
Proof.
  induction tbl as [|[n0 [ips|]] rest IH]; cbn; intros typed del x del' H n Hi.
  - injection H as <- <-. now left.
  - destruct (negb (is_subscribed_for s n0)) eqn:Es.
    + apply negb_true_iff, sub_for_false in Es. destruct (IH _ _ _ _ H n Hi) as [H1|[H1 [i H2]]]; [|right; split; [assumption|]; eauto]. apply in_app_iff in H1.
      destruct H1 as [|[<-|[]]]; [now left|]. right. split; [assumption|]. eauto.
    + destruct (mget n0 typed); [injection H as <- <-; tauto|]. destruct (IH _ _ _ _ H n Hi) as [H1|[H1 [i H2]]]; [now left|]. right; split; [assumption|]; eauto.
  - destruct (IH _ _ _ _ H n Hi) as [H1|[H1 [i H2]]]; [now left|]. right; split; [assumption|]; eauto.
Qed.
Lemma offers_nds_cons : forall r rs n m, offers NDS (r :: rs) n m <->
  (exists rn tbl ips, r = Some (mkresource rn (Some (AnyOf (MNameTable tbl)))) /\ In (n, Some ips) tbl /\ m = MNameInfo ips) \/ offers NDS rs n m.
Proof.
  intros. split.
  - intros (rn & tb & i & [Hi|Hi] & Hj & ->); [left|right]; exists rn, tb, i; auto.
  - intros [(rn & tb & i & -> & Hj & ->)|(rn & tb & i & Hi & Hj & ->)]; exists rn, tb, i; (split; [|auto]); [now left|now right].
Qed.
Lemma add_istio_loop_spec : forall s rs typed typed', nd typed -> add_istio_loop s rs typed = inl typed' ->
  nd typed' /\ forall n m, mget n typed' = Some m <-> mget n typed = Some m \/ (subscribed s n /\ offers NDS rs n m).
Proof.
  induction rs as [|[r|] rest IH]; cbn [add_istio_loop]; intros typed typed' Hn H.
  - injection H as <-. split; [assumption|]. intros. split; [tauto|]. intros [|(_ & ? & ? & ? & [] & _)]; assumption.
  - destruct (r_any r) as [a|] eqn:Ea.
    + destruct a as [x|]; [|discriminate]. destruct x; cbn in H; try discriminate.
      destruct (table_loop s table typed []) as [[ty|] del] eqn:Et; cbn in H; [|discriminate].
      destruct (table_loop_spec _ _ _ _ _ _ Hn Et) as (H1 & H2 & _). destruct (IH _ _ H1 H) as (H3 & H4). split; [assumption|].
      destruct r as [rn ra]. cbn [r_any] in Ea. subst ra.
      intros n m. rewrite H4, H2, offers_nds_cons. split.
      * intros [[|(Hs & i & Hi & ->)]|(Hs & Ho)]; [tauto| |tauto]; right; (split; [assumption|]). left. exists rn, table, i. auto.
      * intros [|(Hs & [(rn' & tb & i & He & Hi & ->)|Ho])]; [tauto| |tauto]. injection He as <- <-. left. right. split; [assumption|]. eauto.
    + destruct (IH _ _ Hn H) as [H1 H2]. split; [assumption|]. intros n m. rewrite H2, offers_nds_cons. split; [tauto|].
      intros [|(Hs & [(rn' & tb & i & He & Hi & ->)|Ho])]; [tauto| |tauto]. injection He as ->. discriminate.
  - destruct (IH _ _ Hn H) as [H1 H2]. split; [assumption|]. intros n m. rewrite H2, offers_nds_cons. split; [tauto|].
    intros [|(Hs & [(rn' & tb & i & He & Hi & ->)|Ho])]; [tauto|discriminate|tauto].
Qed.

Lemma mget_merge_res : forall typed s n, nd typed -> mget n (c_res (merge_resources typed s)) =
  match mget n typed with Some m => Some m | None => mget n (c_res s) end.
Proof.
  intros. unfold merge_resources. cbn [c_res set_res_init]. destruct (c_res s) as [|e l] eqn:E; [cbn; now destruct (mget n typed)|]. now rewrite mget_mmerge.
Qed.
(* what a successful add does *)
Lemma added_intro : forall s ty (b : string -> message -> Prop), nd ty -> (forall n m, mget n ty = Some m <-> mget n [] = Some m \/ (subscribed s n /\ b n m)) ->
  added s (merge_resources ty s) b.
Proof.
  intros s ty b H1 H2. split; [reflexivity|]. intros n m. unfold get_resource. rewrite mget_merge_res by assumption. destruct (mget n ty) as [m'|] eqn:Em.
  - assert (Hb := proj1 (H2 n m') Em). destruct Hb as [Hb|Hb]; [discriminate|]. split.
    + intros E. injection E as <-. now left.
    + intros [Hm|[_ Hm]]; [|exfalso; apply Hm; split; [apply Hb|]; exists m'; apply Hb]. rewrite <- Em. apply H2. now right.
  - split.
    + intros E. right. split; [assumption|]. intros [Hs [m' Hm]]. rewrite (proj2 (H2 n m')) in Em; [discriminate|tauto].
    + intros [Hm|[Hm _]]; [|assumption]. rewrite (proj2 (H2 n m)) in Em; [discriminate|tauto].
Qed.
Lemma added_nil : forall s (b : string -> message -> Prop), (forall n m, ~ b n m) -> added s s b.
Proof. intros s b Hb. split; [reflexivity|]. intros n m. split; [|intros [[_ H]|[H _]]; [exfalso; eapply Hb; exact H|exact H]]. intros H. right. split; [assumption|]. intros [_ [m' Hm]]. eapply Hb; exact Hm. Qed.
Lemma add_ok : forall t rs s s', t <> NDS -> add_resources t rs s = (s', None) -> added s s' (offers t rs).
Proof.
  intros t rs s s' Ht H. unfold add_resources in H. destruct rs as [|r0 rs0].
  - injection H as <-. apply added_nil. intros n m Hb. destruct t; cbn in Hb; tauto.
  - remember (r0 :: rs0) as rs. destruct (add_loop s t rs []) as [ty|e] eqn:E; [|discriminate]. injection H as <-.
    destruct (add_loop_spec t s rs [] ty Ht) as [H1 H2]; [constructor|exact E|]. now apply added_intro.
Qed.
Lemma add_err : forall t rs s s' e, add_resources t rs s = (s', Some e) -> s' = s.
Proof. intros t rs s s' e H. unfold add_resources in H. destruct rs; [discriminate|]. destruct (add_loop _ _ _ _); [discriminate|]. now injection H as <- _. Qed.
Lemma add_istio_ok : forall rs s s', add_istio_resources rs s = (s', None) -> added s s' (offers NDS rs).
Proof.
  intros rs s s' H. unfold add_istio_resources in H. destruct rs as [|r0 rs0].
  - injection H as <-. apply added_nil. intros n m (? & ? & ? & [] & _).
  - remember (r0 :: rs0) as rs. destruct (add_istio_loop s rs []) as [ty|e] eqn:E; [|discriminate]. injection H as <-.
    destruct (add_istio_loop_spec s rs [] ty) as [H1 H2]; [constructor|exact E|]. now apply added_intro.
Qed.
Lemma add_istio_err : forall rs s s' e, add_istio_resources rs s = (s', Some e) -> s' = s.
Proof. intros rs s s' e H. unfold add_istio_resources in H. destruct rs; [discriminate|]. destruct (add_istio_loop _ _ _); [discriminate|]. now injection H as <- _. Qed.

(* --- SetResources --- *)
Lemma kind_name : forall m t, kind_of m = Some t -> t <> NDS -> exists n, resource_name m = Some n.
Proof. intros [] t H Ht; cbn in *; try discriminate; eauto. injection H as <-. congruence. Qed.
(* [cleared brings s res res']: res' is res without some of the unsubscribed names of the response *)
Definition cleared (brings : string -> message -> Prop) (s : cache) (res res' : gmap message) : Prop :=
  (forall n, mget n res' = mget n res \/ (mget n res' = None /\ ~ subscribed s n /\ exists m, brings n m)) /\ (nd res -> nd res').
Lemma cleared_refl : forall b s r, cleared b s r r.
Proof. split; auto. Qed.
Lemma cleared_trans : forall b s r1 r2 r3, cleared b s r1 r2 -> cleared b s r2 r3 -> cleared b s r1 r3.
Proof. intros b s r1 r2 r3 [H1 H1'] [H2 H2']. split; [|auto]. intros n. destruct (H2 n) as [E|?]; [rewrite E; apply H1|tauto]. Qed.
Lemma cleared_weak : forall (b b' : string -> message -> Prop) s r r', (forall n m, b n m -> b' n m) -> cleared b s r r' -> cleared b' s r r'.
Proof. intros b b' s r r' Hb [H1 H1']. split; [|auto]. intros n. destruct (H1 n) as [E|(E & Hs & m & Hm)]; [tauto|]. right. split; [assumption|]. split; [assumption|]. eauto. Qed.
Lemma cleared_sub : forall b s r r' n, cleared b s r r' -> subscribed s n -> mget n r' = mget n r.
Proof. intros b s r r' n [H _] Hs. destruct (H n) as [|(_ & Hc & _)]; [assumption|contradiction]. Qed.
Lemma cleared_none : forall b s r r' n, cleared b s r r' -> (forall m, ~ b n m) -> mget n r' = mget n r.
Proof. intros b s r r' n [H _] Hs. destruct (H n) as [|(_ & _ & m & Hm)]; [assumption|]. exfalso. eapply Hs; exact Hm. Qed.
Lemma cleared_mono : forall b s r r' n, cleared b s r r' -> mget n r = None -> mget n r' = None.
Proof. intros b s r r' n [H _] Hs. destruct (H n) as [E|[? _]]; congruence. Qed.

Definition loop_result (t : rtype) (s : cache) (rs : list (option any)) (res typed res' : gmap message) (x : gmap message + gerr) : Prop :=
  cleared (carries t rs) s res res' /\
  (forall typed', x = inl typed' -> nd typed' /\ (forall n m, mget n typed' = Some m <-> mget n typed = Some m \/ (subscribed s n /\ carries t rs n m))
     /\ (forall n m, ~ subscribed s n -> carries t rs n m -> mget n res' = None)).
Lemma set_loop_spec : forall t s rs res typed res' x, t <> NDS -> nd typed -> set_loop s t rs res typed = (res', x) ->
  loop_result t s rs res typed res' x.
Proof.
  intros t s rs res typed res' x Ht. revert res typed. unfold loop_result.
  assert (Hof: forall rs n m, carries t rs n m <-> In (Some (AnyOf m)) rs /\ kind_of m = Some t /\ resource_name m = Some n) by (intros; destruct t; cbn; tauto).
  assert (Hw: forall r rs n m, carries t rs n m -> carries t (r :: rs) n m) by (intros; rewrite !Hof in *; cbn; tauto).
  induction rs as [|[a|] rest IH]; cbn [set_loop]; intros res typed Hn H.
  - injection H as <- <-. split; [apply cleared_refl|]. intros ty E. injection E as <-. split; [assumption|]. split; intros; rewrite Hof in *; cbn in *; tauto.
  - destruct (unmarshal_to t a) as [m0|] eqn:Eu.
    2: { injection H as <- <-. split; [apply cleared_refl|]. intros ty E. discriminate. }
    apply unmarshal_some in Eu. destruct Eu as [-> Ek]. destruct (kind_name _ _ Ek Ht) as [n0 En]. rewrite En in H.
    destruct (negb (is_subscribed_for s n0)) eqn:Es.
    + apply negb_true_iff, sub_for_false in Es. destruct (IH _ _ Hn H) as (H1 & H3). split.
      * eapply cleared_trans; [|eapply cleared_weak; [apply Hw|exact H1]]. split; [|intros; now apply nodup_mdel].
        intros n. rewrite mget_mdel. destruct (String.eqb n n0) eqn:E; [|tauto]. apply String.eqb_eq in E. subst n0. right. split; [reflexivity|]. split; [assumption|]. exists m0. apply Hof. cbn. tauto.
      * intros ty E. destruct (H3 ty E) as (H4 & H5 & H6). split; [assumption|]. split.
        -- intros n m. rewrite H5, !Hof. cbn. split; [intuition|]. intros [|(Hs & [He|He] & Hk & Hm)]; [tauto| |tauto]. injection He as ->. rewrite En in Hm. injection Hm as ->. contradiction.
        -- intros n m Hs Hc. apply Hof in Hc. destruct Hc as ([He|He] & Hk & Hm); [|apply (H6 n m); [assumption|]; apply Hof; tauto].
           injection He as ->. rewrite En in Hm. injection Hm as ->. eapply cleared_mono; [exact H1|]. now rewrite mget_mdel, String.eqb_refl.
    + apply negb_false_iff, sub_for in Es. destruct (mget n0 typed) eqn:Eg.
      { injection H as <- <-. split; [apply cleared_refl|]. intros ty E. discriminate. }
      destruct (IH res (mset n0 m0 typed)) as (H1 & H3); [now apply nodup_mset|assumption|]. split; [eapply cleared_weak; [apply Hw|exact H1]|].
      intros ty E. destruct (H3 ty E) as (H4 & H5 & H6). split; [assumption|]. split.
      * intros n m. rewrite H5, mget_mset, !Hof. cbn. destruct (String.eqb n n0) eqn:E'.
        -- apply String.eqb_eq in E'. subst n0. split.
           ++ intros [He|He]; [injection He as <-; right; tauto|tauto].
           ++ intros [He|(Hs & [He|He] & Hk & Hm)]; [congruence| |right; tauto]. injection He as ->. now left.
        -- apply String.eqb_neq in E'. split; [intuition|]. intros [|(Hs & [He|He] & Hk & Hm)]; [tauto| |tauto]. injection He as ->. congruence.
      * intros n m Hs Hc. apply Hof in Hc. destruct Hc as ([He|He] & Hk & Hm); [|apply (H6 n m); [assumption|]; apply Hof; tauto].
        injection He as ->. rewrite En in Hm. injection Hm as ->. contradiction.
  - destruct (IH _ _ Hn H) as (H1 & H3). split; [eapply cleared_weak; [apply Hw|exact H1]|]. intros ty E. destruct (H3 ty E) as (H4 & H5 & H6). split; [assumption|]. split.
    + intros n m. rewrite H5, !Hof. cbn. split; [intuition|]. intros [|(Hs & [He|He] & Hk)]; [tauto|discriminate|tauto].
    + intros n m Hs Hc. apply Hof in Hc. destruct Hc as ([He|He] & Hk & Hm); [discriminate|]. apply (H6 n m); [assumption|]; apply Hof; tauto.
Qed.
Lemma carries_nds_cons : forall r rs n m, carries NDS (r :: rs) n m <->
  (exists tbl ips, r = Some (AnyOf (MNameTable tbl)) /\ In (n, Some ips) tbl /\ m = MNameInfo ips) \/ carries NDS rs n m.
Proof.
  intros. split.
  - intros (tb & i & [Hi|Hi] & Hj & ->); [left|right]; exists tb, i; auto.
  - intros [(tb & i & -> & Hj & ->)|(tb & i & Hi & Hj & ->)]; exists tb, i; (split; [|auto]); [now left|now right].
Qed.
Lemma set_istio_loop_spec : forall s rs res typed res' x, nd typed -> set_istio_loop s rs res typed = (res', x) ->
  loop_result NDS s rs res typed res' x.
Proof.
  intros s rs res typed res' x. revert res typed. unfold loop_result.
  assert (Hw: forall r rs n m, carries NDS rs n m -> carries NDS (r :: rs) n m) by (intros; apply carries_nds_cons; tauto).
  induction rs as [|[a|] rest IH]; cbn [set_istio_loop]; intros res typed Hn H.
  - injection H as <- <-. split; [apply cleared_refl|]. intros ty E. injection E as <-. split; [assumption|]. split; intros.
    + split; [tauto|]. intros [|(_ & ? & ? & [] & _)]; assumption.
    + destruct H0 as (? & ? & [] & _).
  - assert (Hbad: (res, inr EDecode) = (res', x) -> loop_result NDS s (Some a :: rest) res typed res' x).
    { intros E. injection E as <- <-. split; [apply cleared_refl|]. intros ty E. discriminate. }
    destruct a as [m0|]; [|apply Hbad, H]. destruct m0; cbn [unmarshal_to] in H; try (apply Hbad, H). clear Hbad.
    destruct (table_loop s table typed []) as [y del] eqn:Et.
    assert (Hdel: cleared (carries NDS (Some (AnyOf (MNameTable table)) :: rest)) s res (fold_left (fun m n => mdel n m) del res)).
    { split; [|intros; now apply nodup_dels]. intros n. rewrite mget_dels. destruct (mem n del) eqn:E; [|tauto]. apply mem_in in E. right. split; [reflexivity|].
      destruct (table_loop_del _ _ _ _ _ _ Et n E) as [[]|[Hs [ips Hi]]]. split; [assumption|]. exists (MNameInfo ips). apply carries_nds_cons. left. exists table, ips. auto. }
    destruct y as [ty|e].
    + destruct (table_loop_spec _ _ _ _ _ _ Hn Et) as (T1 & T2 & T3). destruct (IH _ _ T1 H) as (H1 & H3). split.
      * eapply cleared_trans; [exact Hdel|]. eapply cleared_weak; [apply Hw|exact H1].
      * intros ty' E. destruct (H3 ty' E) as (H4 & H5 & H6). split; [assumption|]. split.
        -- intros n m. rewrite H5, T2, carries_nds_cons. split.
           ++ intros [[|(Hs & i & Hi & ->)]|(Hs & Hc)]; [tauto| |tauto]. right; split; [assumption|]. left. exists table, i. auto.
           ++ intros [|(Hs & [(tb & i & He & Hi & ->)|Ho])]; [tauto| |tauto]. injection He as <-. left. right. split; [assumption|]. eauto.
        -- intros n m Hs Hc. apply carries_nds_cons in Hc. destruct Hc as [(tb & i & He & Hi & ->)|Hc]; [|eauto].
           injection He as <-. eapply cleared_mono; [exact H1|]. rewrite mget_dels. rewrite (proj2 (mem_in n del)); [reflexivity|]. apply T3. right. eauto.
    + injection H as <- <-. split; [assumption|]. intros ty E. discriminate.
  - destruct (IH _ _ Hn H) as (H1 & H3). split; [eapply cleared_weak; [apply Hw|exact H1]|]. intros ty E. destruct (H3 ty E) as (H4 & H5 & H6). split; [assumption|]. split.
    + intros n m. rewrite H5, carries_nds_cons. split; [tauto|]. intros [|(Hs & [(tb & i & He & Hi & ->)|Ho])]; [tauto|discriminate|tauto].
    + intros n m Hs Hc. apply carries_nds_cons in Hc. destruct Hc as [(tb & i & He & Hi & ->)|Hc]; [discriminate|eauto].
Qed.
Lemma assign_get : forall typed s n, nd typed -> mget n (c_res (assign_resources typed s)) =
  if is_subscribed_for_all s then mget n typed else match mget n typed with Some m => Some m | None => mget n (c_res s) end.
Proof.
  intros. unfold assign_resources. cbn [c_res set_res_init]. destruct (c_res s) as [|e l] eqn:E.
  - cbn [mget]. destruct (is_subscribed_for_all s), (mget n typed); reflexivity.
  - destruct (is_subscribed_for_all s); [reflexivity|]. now rewrite mget_mmerge.
Qed.
Lemma assigned_intro : forall t s rs res0 res ty (replace : bool), (res0 = if replace then [] else c_res s) ->
  loop_result t s rs res0 [] res (inl ty) ->
  assigned (replace || is_subscribed_for_all s) s (assign_resources ty (set_res s res)) (carries t rs).
Proof.
  intros t s rs res0 res ty replace Hr (H1 & H3). destruct (H3 ty eq_refl) as (H4 & H5 & H6).
  assert (Hg: forall n, get_resource n (assign_resources ty (set_res s res)) = if is_subscribed_for_all s then mget n ty else match mget n ty with Some m => Some m | None => mget n res end).
  { intros n. unfold get_resource. rewrite assign_get by assumption. reflexivity. }
  split; [reflexivity|]. intros n m. rewrite Hg. destruct (mget n ty) as [m'|] eqn:Em.
  - assert (Hb := proj1 (H5 n m') Em). destruct Hb as [Hb|Hb]; [discriminate|]. split.
    + intros E. left. destruct (is_subscribed_for_all s); injection E as <-; assumption.
    + intros [Hm|(_ & _ & Hm)]; [|exfalso; eapply Hm; apply Hb]. rewrite (proj2 (H5 n m)) in Em by tauto. injection Em as <-. now destruct (is_subscribed_for_all s).
  - assert (Hno: forall m', ~ (subscribed s n /\ carries t rs n m')). { intros m' Hm. rewrite (proj2 (H5 n m')) in Em by tauto. discriminate. }
    split.
    + destruct (is_subscribed_for_all s) eqn:Ea; [discriminate|]. intros E. right. rewrite orb_false_r.
      destruct (proj1 H1 n) as [E1|[E1 _]]; [|congruence]. rewrite E in E1. symmetry in E1. subst res0. destruct replace; [discriminate|]. split; [reflexivity|]. split; [exact E1|].
      intros m' Hm. destruct (sub_dec s n) as [Hs|Hs]; [eapply Hno; split; eassumption|]. rewrite (H6 n m' Hs Hm) in E. discriminate.
    + intros [Hm|(Ha & Hm & Hb)]; [exfalso; eapply Hno; exact Hm|]. apply orb_false_iff in Ha. destruct Ha as [-> Ha]. rewrite Ha. cbn in Hr. subst res0. now rewrite (cleared_none _ _ _ _ _ H1 Hb).
Qed.
Lemma assigned_nil : forall s (b : string -> message -> Prop), (forall n m, ~ b n m) -> assigned true s (set_res s []) b.
Proof. intros s b Hb. split; [reflexivity|]. intros n m. unfold get_resource. cbn [set_res c_res mget]. split; [discriminate|]. intros [[_ H]|[H _]]; [exfalso; eapply Hb; exact H|discriminate]. Qed.
Lemma set_ok : forall t rs replace s s', t <> NDS -> set_resources t rs replace s = (s', None) ->
  assigned (match rs with [] => true | _ => replace || is_subscribed_for_all s end) s s' (carries t rs).
Proof.
  intros t rs replace s s' Ht H. unfold set_resources in H. destruct rs as [|r0 rs0].
  - injection H as <-. apply assigned_nil. intros n m Hb. destruct t; cbn in Hb; tauto.
  - cbv zeta in H. remember (if replace then [] else c_res s) as res0. remember (r0 :: rs0) as rs.
    destruct (set_loop s t rs res0 []) as [res x] eqn:E. apply set_loop_spec in E; [|assumption|constructor].
    destruct x as [ty|e]; [|discriminate]. injection H as <-. eapply assigned_intro; eassumption.
Qed.
Lemma set_istio_ok : forall rs s s', set_istio_resources rs s = (s', None) ->
  assigned (match rs with [] => true | _ => is_subscribed_for_all s end) s s' (carries NDS rs).
Proof.
  intros rs s s' H. unfold set_istio_resources in H. destruct rs as [|r0 rs0].
  - injection H as <-. apply assigned_nil. intros n m Hb. destruct Hb as (? & ? & Hb & _). destruct Hb.
  - remember (r0 :: rs0) as rs. destruct (set_istio_loop s rs (c_res s) []) as [res x] eqn:E. apply set_istio_loop_spec in E; [|constructor].
    destruct x as [ty|e]; [|discriminate]. injection H as <-. exact (assigned_intro NDS s rs (c_res s) res ty false eq_refl E).
Qed.
(* a failed Set with replace = false only clears unsubscribed names *)
Lemma set_err : forall t rs s s' e, t <> NDS -> set_resources t rs false s = (s', Some e) ->
  c_sub s' = c_sub s /\ cleared (carries t rs) s (c_res s) (c_res s').
Proof.
  intros t rs s s' e Ht H. unfold set_resources in H. destruct rs as [|r0 rs0]; [discriminate|]. cbv zeta in H. remember (r0 :: rs0) as rs.
  destruct (set_loop s t rs (c_res s) []) as [res x] eqn:E. apply set_loop_spec in E; [|assumption|constructor]. destruct x; [discriminate|]. injection H as <- _. split; [reflexivity|]. apply E.
Qed.
Lemma set_istio_err : forall rs s s' e, set_istio_resources rs s = (s', Some e) ->
  c_sub s' = c_sub s /\ cleared (carries NDS rs) s (c_res s) (c_res s').
Proof.
  intros rs s s' e H. unfold set_istio_resources in H. destruct rs as [|r0 rs0]; [discriminate|]. remember (r0 :: rs0) as rs.
  destruct (set_istio_loop s rs (c_res s) []) as [res x] eqn:E. apply set_istio_loop_spec in E; [|constructor]. destruct x; [discriminate|]. injection H as <- _. split; [reflexivity|]. apply E.
Qed.
(* every Set, whatever its outcome: each entry is one of before or a subscribed one of the response *)
Lemma set_any : forall t rs replace s s' e, t <> NDS -> set_resources t rs replace s = (s', e) ->
  c_sub s' = c_sub s /\ (forall n m, get_resource n s' = Some m -> get_resource n s = Some m \/ (subscribed s n /\ carries t rs n m)) /\ (nd (c_res s) -> nd (c_res s')).
Proof.
  intros t rs replace s s' e Ht H. unfold set_resources in H. destruct rs as [|r0 rs0].
  - injection H as <- _. split; [reflexivity|]. split; [discriminate|]. intros _. constructor.
  - cbv zeta in H. remember (if replace then [] else c_res s) as res0. remember (r0 :: rs0) as rs.
    destruct (set_loop s t rs res0 []) as [res x] eqn:E. apply set_loop_spec in E; [|assumption|constructor].
    assert (Hc: forall n m, mget n res = Some m -> get_resource n s = Some m).
    { intros n m Hm. destruct (proj1 (proj1 E) n) as [E1|[E1 _]]; [|congruence]. rewrite E1 in Hm. subst res0. destruct replace; [discriminate|exact Hm]. }
    assert (Hnd: nd (c_res s) -> nd res). { intros Hn. apply (proj1 E). subst res0. destruct replace; [constructor|assumption]. }
    destruct x as [ty|er]; injection H as <- _; (split; [reflexivity|]); [|split; [intros n m Hm; left; exact (Hc n m Hm)|exact Hnd]].
    destruct E as [_ E]. destruct (E ty eq_refl) as (H4 & H5 & _). split.
    + intros n m. unfold get_resource at 1. rewrite assign_get by assumption.
      destruct (mget n ty) as [m'|] eqn:Em.
      * apply H5 in Em. destruct Em as [Em|Em]; [discriminate|]. intros Hx. right. now destruct (is_subscribed_for_all (set_res s res)); injection Hx as <-.
      * destruct (is_subscribed_for_all (set_res s res)); [discriminate|]. cbn. auto.
    + intros Hn. unfold assign_resources. cbn [c_res set_res_init]. cbn [c_res set_res]. destruct res; [assumption|]. destruct (is_subscribed_for_all _); [assumption|]. apply nodup_mmerge. exact (Hnd Hn).
Qed.
Lemma set_istio_any : forall rs s s' e, set_istio_resources rs s = (s', e) ->
  c_sub s' = c_sub s /\ (forall n m, get_resource n s' = Some m -> get_resource n s = Some m \/ (subscribed s n /\ carries NDS rs n m)) /\ (nd (c_res s) -> nd (c_res s')).
Proof.
  intros rs s s' e H. unfold set_istio_resources in H. destruct rs as [|r0 rs0].
  - injection H as <- _. split; [reflexivity|]. split; [discriminate|]. intros _. constructor.
  - remember (r0 :: rs0) as rs.
    destruct (set_istio_loop s rs (c_res s) []) as [res x] eqn:E. apply set_istio_loop_spec in E; [|constructor].
    assert (Hc: forall n m, mget n res = Some m -> get_resource n s = Some m).
    { intros n m Hm. destruct (proj1 (proj1 E) n) as [E1|[E1 _]]; [|congruence]. now rewrite E1 in Hm. }
    assert (Hnd: nd (c_res s) -> nd res). { intros Hn. now apply (proj1 E). }
    destruct x as [ty|er]; injection H as <- _; (split; [reflexivity|]); [|split; [intros n m Hm; left; exact (Hc n m Hm)|exact Hnd]].
    destruct E as [_ E]. destruct (E ty eq_refl) as (H4 & H5 & _). split.
    + intros n m. unfold get_resource at 1. rewrite assign_get by assumption.
      destruct (mget n ty) as [m'|] eqn:Em.
      * apply H5 in Em. destruct Em as [Em|Em]; [discriminate|]. intros Hx. right. now destruct (is_subscribed_for_all (set_res s res)); injection Hx as <-.
      * destruct (is_subscribed_for_all (set_res s res)); [discriminate|]. cbn. auto.
    + intros Hn. unfold assign_resources. cbn [c_res set_res_init]. cbn [c_res set_res]. destruct res; [assumption|]. destruct (is_subscribed_for_all _); [assumption|]. apply nodup_mmerge. exact (Hnd Hn).
Qed.
Lemma add_any : forall t rs s s' e, t <> NDS -> add_resources t rs s = (s', e) ->
  c_sub s' = c_sub s /\ (forall n m, get_resource n s' = Some m -> get_resource n s = Some m \/ (subscribed s n /\ offers t rs n m)) /\ (nd (c_res s) -> nd (c_res s')).
Proof.
  intros t rs s s' [e|] Ht H; [apply add_err in H; subst; tauto|]. unfold add_resources in H. destruct rs as [|r0 rs0]; [injection H as <-; tauto|].
  remember (r0 :: rs0) as rs. destruct (add_loop s t rs []) as [ty|er] eqn:E; [|discriminate]. injection H as <-.
  apply add_loop_spec in E; [|assumption|constructor]. destruct E as [H4 H5]. split; [reflexivity|]. split.
  - intros n m. unfold get_resource at 1. rewrite mget_merge_res by assumption. destruct (mget n ty) as [m'|] eqn:Em; [|now left].
    intros Hx. injection Hx as <-. apply H5 in Em. destruct Em as [Em|Em]; [discriminate|]. now right.
  - intros Hn. unfold merge_resources. cbn [c_res set_res_init]. destruct (c_res s) eqn:Er; [assumption|]. apply nodup_mmerge. assumption.
Qed.
Lemma add_istio_any : forall rs s s' e, add_istio_resources rs s = (s', e) ->
  c_sub s' = c_sub s /\ (forall n m, get_resource n s' = Some m -> get_resource n s = Some m \/ (subscribed s n /\ offers NDS rs n m)) /\ (nd (c_res s) -> nd (c_res s')).
Proof.
  intros rs s s' [e|] H; [apply add_istio_err in H; subst; tauto|]. unfold add_istio_resources in H. destruct rs as [|r0 rs0]; [injection H as <-; tauto|].
  remember (r0 :: rs0) as rs. destruct (add_istio_loop s rs []) as [ty|er] eqn:E; [|discriminate]. injection H as <-.
  apply add_istio_loop_spec in E; [|constructor]. destruct E as [H4 H5]. split; [reflexivity|]. split.
  - intros n m. unfold get_resource at 1. rewrite mget_merge_res by assumption. destruct (mget n ty) as [m'|] eqn:Em; [|now left].
    intros Hx. injection Hx as <-. apply H5 in Em. destruct Em as [Em|Em]; [discriminate|]. now right.
  - intros Hn. unfold merge_resources. cbn [c_res set_res_init]. destruct (c_res s) eqn:Er; [assumption|]. apply nodup_mmerge. assumption.
Qed.
