(* C67 the TCP dialer and C68 the HTTP transport: endpoint and TLS settings of the connections they hand out. *)
From Coq Require Import List String Ascii Bool Arith Lia.
From Verif Require Import M_GoMap L_GoMap M_Dial.
Import ListNotations.
Open Scope string_scope.

Lemma setnth_len {X} : forall (l : list X) n x, List.length (setnth l n x) = List.length l.
Proof. induction l as [|y l IH]; intros [|n] x; cbn; auto. Qed.
Lemma setnth_get {X} : forall (l : list X) n x m, nth_error (setnth l n x) m = if Nat.eqb n m then match nth_error l m with Some _ => Some x | None => None end else nth_error l m.
Proof. induction l as [|y l IH]; intros [|n] x [|m]; cbn; try reflexivity; [now destruct (Nat.eqb n m)|apply IH]. Qed.

(* ---- C67 ---- *)
(* the dials of a history, in order *)
Definition dials (ls : list dlabel) : list (disc * string * nat) := flat_map (fun l => match l with LDial o a c => [(o, a, c)] | _ => [] end) ls.
Definition of_pool (d : dialer) (pid : nat) (a : string) (s : tlsset) : Prop := exists p, nth_error (d_pools d) pid = Some p /\ dp_addr p = a /\ dp_tls p = s.
Record dinv (ls : list dlabel) (d : dialer) : Prop := {
  di_len : List.length (d_calls d) = List.length (dials ls);
  di_call : forall j k ph, nth_error (d_calls d) j = Some (k, ph) -> exists o address, nth_error (dials ls) j = Some (o, address, ca_ctx k) /\
    (plan o address = Some (ca_addr k, ca_tls k) \/ (plan o address = None /\ ph = DFail ENoEndpoint));
  di_pool : forall pid p, nth_error (d_pools d) pid = Some p -> (exists o address, In (o, address, dp_ctx p) (dials ls) /\ plan o address = Some (dp_addr p, dp_tls p)) /\
    forall c, In c (dp_idle p) -> cn_addr c = dp_addr p /\ cn_tls c = dp_tls p;
  di_reg : forall a pid, mget a (d_reg d) = Some pid -> exists s, of_pool d pid a s;
  di_phase : forall j k ph, nth_error (d_calls d) j = Some (k, ph) -> match ph with
    | DAdd pid | DGet pid => exists s, of_pool d pid (ca_addr k) s
    | DDone pid c => cn_addr c = ca_addr k /\ of_pool d pid (ca_addr k) (cn_tls c)
    | _ => True end }.
Lemma dials_app : forall a b, dials (a ++ b) = (dials a ++ dials b)%list.
Proof. intros. unfold dials. apply flat_map_app. Qed.
Lemma nth_app_l {X} : forall (l r : list X) n x, nth_error l n = Some x -> nth_error (l ++ r) n = Some x.
Proof. intros l r n x H. rewrite nth_error_app1; [assumption|]. apply nth_error_Some. congruence. Qed.
Lemma of_pool_set : forall d pid p q, nth_error (d_pools d) pid = Some p -> dp_addr q = dp_addr p -> dp_tls q = dp_tls p -> forall i a s, of_pool d i a s -> of_pool (set_pool d pid q) i a s.
Proof.
  intros d pid p q Hp Ha Ht i a s (x & Hx & Hxa & Hxs). unfold of_pool, set_pool. cbn. destruct (Nat.eq_dec pid i) as [->|Hn].
  - exists q. rewrite setnth_get, Nat.eqb_refl, Hx. rewrite Hp in Hx. injection Hx as <-. split; [reflexivity|]. split; congruence.
  - exists x. rewrite setnth_get. apply Nat.eqb_neq in Hn. rewrite Hn. auto.
Qed.
(* a step that changes nothing but the phase of one call *)
Lemma dinv_phase : forall ls l d j k ph0 ph, dials [l] = [] -> dinv ls d -> nth_error (d_calls d) j = Some (k, ph0) -> ph0 <> DFail ENoEndpoint ->
  match ph with DAdd pid | DGet pid => exists s, of_pool d pid (ca_addr k) s | DDone pid c => cn_addr c = ca_addr k /\ of_pool d pid (ca_addr k) (cn_tls c) | _ => True end ->
  dinv (ls ++ [l]) (set_phase d j k ph).
Proof.
  intros ls l d j k ph0 ph Hl H Hj Hne Hph. destruct H as [H1 H2 H3 H4 H5]. split; try rewrite dials_app, Hl, app_nil_r; cbn [d_calls d_pools d_reg set_phase].
  - now rewrite setnth_len.
  - intros j' k' ph' Hj'. rewrite setnth_get in Hj'. destruct (Nat.eqb_spec j j') as [<-|Hn]; [|now apply H2]. rewrite Hj in Hj'. injection Hj' as <- <-. destruct (H2 j k ph0 Hj) as (o & ad & E & [E'|[_ E']]); [|contradiction]. eauto.
  - intros pid p Hp. destruct (H3 pid p Hp) as [(o & ad & Hi & He) H']. split; [|assumption]. exists o, ad. auto.
  - exact H4.
  - intros j' k' ph' Hj'. rewrite setnth_get in Hj'. destruct (Nat.eqb_spec j j') as [<-|Hn]; [|exact (H5 j' k' ph' Hj')]. rewrite Hj in Hj'. injection Hj' as <- <-. exact Hph.
Qed.
Lemma dinv_pool : forall ls l d pid p q, dials [l] = [] -> dinv ls d -> nth_error (d_pools d) pid = Some p -> dp_addr q = dp_addr p -> dp_tls q = dp_tls p -> dp_ctx q = dp_ctx p ->
  (forall c, In c (dp_idle q) -> cn_addr c = dp_addr p /\ cn_tls c = dp_tls p) -> dinv (ls ++ [l]) (set_pool d pid q).
Proof.
  intros ls l d pid p q Hl H Hp Ha Ht Hc Hi. pose proof (of_pool_set d pid p q Hp Ha Ht) as Ho. destruct H as [H1 H2 H3 H4 H5]. split; try rewrite dials_app, Hl, app_nil_r; cbn [d_calls d_pools d_reg set_pool].
  - assumption.
  - intros j k ph Hj. destruct (H2 j k ph Hj) as (o & ad & E). exists o, ad. assumption.
  - intros i x Hx. rewrite setnth_get in Hx. destruct (Nat.eqb_spec pid i) as [<-|Hn]; [|now apply (H3 i)]. rewrite Hp in Hx. injection Hx as <-. rewrite Ha, Ht, Hc. split; [|assumption]. apply (H3 pid p Hp).
  - intros a i Hr. destruct (H4 a i Hr) as [s Hs]. exists s. now apply Ho.
  - intros j k ph Hj. specialize (H5 j k ph Hj). destruct ph; try exact I; [destruct H5 as [s Hs]; exists s; now apply Ho..|]. destruct H5 as [E Hs]. split; [assumption|now apply Ho].
Qed.
Lemma dinv_step : forall ls d l d', dinv ls d -> dstep d l d' -> dinv (ls ++ [l]) d'.
Proof.
  intros ls d l d' H Hs. pose proof H as Hinv. destruct H as [H1 H2 H3 H4 H5]. destruct Hs as
    [d o address ctx a s Hp|d o address ctx Hp|d j k pid Hj Hr|d j k Hj Hr|d j k pid p Hj Hp|d j k Hj|d j k pid p Hj Hp Ho|d j k pid p c r Hj Hp Ho Hi|d j k pid p Hj Hp Ho Hi Hc|d j k pid p Hj Hp Ho Hi|d j k pid c p Hj Hp Ho|d pid p c r Hp Hi|d pid p Hp|d a pid p Hr Hp Ho|d ctx].
  - split; rewrite ?dials_app; cbn [d_calls d_pools d_reg dials flat_map app]; fold (dials ls).
    + rewrite !app_length. cbn. congruence.
    + intros j k ph Hj. destruct (Nat.lt_ge_cases j (List.length (d_calls d))) as [L|L].
      * rewrite nth_error_app1 in Hj by assumption. destruct (H2 j k ph Hj) as (o' & ad & E & E'). exists o', ad. split; [now apply nth_app_l|assumption].
      * rewrite nth_error_app2 in Hj by assumption. destruct (j - List.length (d_calls d)) as [|n] eqn:En; [|destruct n; discriminate]. injection Hj as <- <-. exists o, address. cbn. rewrite nth_error_app2 by lia. replace (j - List.length (dials ls)) with 0 by lia. auto.
    + intros pid p Hp'. destruct (H3 pid p Hp') as [(o' & ad & Hi & He) H']. split; [|assumption]. exists o', ad. split; [apply in_or_app; now left|assumption].
    + exact H4.
    + intros j k ph Hj. destruct (Nat.lt_ge_cases j (List.length (d_calls d))) as [L|L].
      * rewrite nth_error_app1 in Hj by assumption. exact (H5 j k ph Hj).
      * rewrite nth_error_app2 in Hj by assumption. destruct (j - List.length (d_calls d)) as [|n]; [|destruct n; discriminate]. injection Hj as <- <-. exact I.
  - split; rewrite ?dials_app; cbn [d_calls d_pools d_reg dials flat_map app]; fold (dials ls).
    + rewrite !app_length. cbn. congruence.
    + intros j k ph Hj. destruct (Nat.lt_ge_cases j (List.length (d_calls d))) as [L|L].
      * rewrite nth_error_app1 in Hj by assumption. destruct (H2 j k ph Hj) as (o' & ad & E & E'). exists o', ad. split; [now apply nth_app_l|assumption].
      * rewrite nth_error_app2 in Hj by assumption. destruct (j - List.length (d_calls d)) as [|n] eqn:En; [|destruct n; discriminate]. injection Hj as <- <-. exists o, address. cbn. rewrite nth_error_app2 by lia. replace (j - List.length (dials ls)) with 0 by lia. auto.
    + intros pid p Hp'. destruct (H3 pid p Hp') as [(o' & ad & Hi & He) H']. split; [|assumption]. exists o', ad. split; [apply in_or_app; now left|assumption].
    + exact H4.
    + intros j k ph Hj. destruct (Nat.lt_ge_cases j (List.length (d_calls d))) as [L|L].
      * rewrite nth_error_app1 in Hj by assumption. exact (H5 j k ph Hj).
      * rewrite nth_error_app2 in Hj by assumption. destruct (j - List.length (d_calls d)) as [|n]; [|destruct n; discriminate]. injection Hj as <- <-. exact I.
  - eapply dinv_phase; [reflexivity|exact Hinv|eassumption|discriminate|exact I].
  - assert (Hext: forall i a s, of_pool d i a s -> of_pool (mkdialer (d_pools d ++ [mkdpool (ca_addr k) (ca_tls k) (ca_ctx k) true []]) (d_reg d) (setnth (d_calls d) j (k, DAdd (List.length (d_pools d)))) (d_cancelled d)) i a s).
    { intros i a s (x & Hx & E). exists x. split; [now apply nth_app_l|assumption]. }
    destruct (H2 j k DHas Hj) as (o & ad & Eo & [Ep|[_ Ep]]); [|discriminate].
    split; rewrite ?dials_app; cbn [d_calls d_pools d_reg dials flat_map app]; rewrite ?app_nil_r; fold (dials ls).
    + now rewrite setnth_len.
    + intros j' k' ph' Hj'. rewrite setnth_get in Hj'. destruct (Nat.eqb_spec j j') as [<-|Hn]; [|now apply H2]. rewrite Hj in Hj'. injection Hj' as <- <-. eauto.
    + intros pid p Hp. destruct (Nat.lt_ge_cases pid (List.length (d_pools d))) as [L|L].
      * rewrite nth_error_app1 in Hp by assumption. now apply (H3 pid).
      * rewrite nth_error_app2 in Hp by assumption. destruct (pid - List.length (d_pools d)) as [|n]; [|destruct n; discriminate]. injection Hp as <-. cbn. split; [|intros c []]. exists o, ad. split; [eapply nth_error_In; eassumption|assumption].
    + intros a pid Hg. destruct (H4 a pid Hg) as [s Hs]. exists s. now apply Hext.
    + intros j' k' ph' Hj'. rewrite setnth_get in Hj'. destruct (Nat.eqb_spec j j') as [<-|Hn].
      * rewrite Hj in Hj'. injection Hj' as <- <-. exists (ca_tls k), (mkdpool (ca_addr k) (ca_tls k) (ca_ctx k) true []). cbn. rewrite nth_error_app2 by lia. rewrite Nat.sub_diag. auto.
      * specialize (H5 j' k' ph' Hj'). destruct ph'; try exact I; [destruct H5 as [s Hs]; exists s; now apply Hext..|]. destruct H5 as [E Hs]. split; [assumption|now apply Hext].
  - pose proof (dinv_phase ls (LStep j) d j k (DAdd pid) DGetPool eq_refl Hinv Hj ltac:(discriminate) I) as [K1 K2 K3 K4 K5]. cbn [d_calls d_pools d_reg set_phase] in *. split; cbn [d_calls d_pools d_reg]; try assumption.
    intros a i Hg. destruct (dp_open p); [|now apply K4]. destruct (mget (ca_addr k) (d_reg d)) eqn:Eg; [now apply K4|]. rewrite mget_mset in Hg. destruct (String.eqb_spec a (ca_addr k)) as [->|Hn]; [|now apply K4]. injection Hg as <-. exact (H5 j k (DAdd pid) Hj).
  - eapply dinv_phase; [reflexivity|exact Hinv|eassumption|discriminate|]. destruct (mget (ca_addr k) (d_reg d)) as [pid|] eqn:Eg; [|exact I]. now apply H4.
  - eapply dinv_phase; [reflexivity|exact Hinv|eassumption|discriminate|exact I].
  - destruct (H3 pid p Hp) as [_ Hid]. pose proof (dinv_pool ls (LStep j) d pid p (with_idle p r) eq_refl Hinv Hp eq_refl eq_refl eq_refl) as K. specialize (K ltac:(cbn; intros x Hx; apply Hid; rewrite Hi; now right)).
    assert (Hc: cn_addr c = dp_addr p /\ cn_tls c = dp_tls p) by (apply Hid; rewrite Hi; now left). destruct (H5 j k (DGet pid) Hj) as (s & q & Hq & Ha & Hs). rewrite Hp in Hq. injection Hq as <-.
    destruct K as [K1 K2 K3 K4 K5]. split; cbn [d_calls d_pools d_reg set_phase]; try assumption.
    + now rewrite setnth_len.
    + intros j' k' ph' Hj'. rewrite setnth_get in Hj'. destruct (Nat.eqb_spec j j') as [<-|Hn]; [|now apply K2]. cbn in Hj'. rewrite Hj in Hj'. injection Hj' as <- <-. destruct (K2 j k (DGet pid) Hj) as (o & ad & E & [E'|[_ E']]); [|discriminate]. eauto.
    + intros j' k' ph' Hj'. rewrite setnth_get in Hj'. destruct (Nat.eqb_spec j j') as [<-|Hn]; [|exact (K5 j' k' ph' Hj')]. cbn in Hj'. rewrite Hj in Hj'. injection Hj' as <- <-. split; [destruct Hc; congruence|]. apply (of_pool_set d pid p (with_idle p r) Hp eq_refl eq_refl). exists p. destruct Hc; auto.
  - eapply dinv_phase; [reflexivity|exact Hinv|eassumption|discriminate|]. destruct (H5 j k (DGet pid) Hj) as (s & q & Hq & Ha & Hs). rewrite Hp in Hq. injection Hq as <-. cbn. split; [assumption|]. exists p. auto.
  - eapply dinv_phase; [reflexivity|exact Hinv|eassumption|discriminate|exact I].
  - destruct (H5 j k (DDone pid c) Hj) as (E & q & Hq & Ha & Hs). rewrite Hp in Hq. injection Hq as <-. eapply (dinv_pool ls (LPut j) d pid p); try reflexivity; try assumption. cbn. intros x Hx. apply in_app_or in Hx. destruct Hx as [Hx|[<-|[]]]; [now apply (H3 pid p Hp)|]. split; congruence.
  - eapply (dinv_pool ls (LDrop pid) d pid p); try reflexivity; try assumption. cbn. intros x Hx. apply (H3 pid p Hp). rewrite Hi. now right.
  - eapply (dinv_pool ls (LIdle pid) d pid p); try reflexivity; try assumption. intros x [].
  - split; rewrite ?dials_app; cbn [d_calls d_pools d_reg dials flat_map app]; rewrite ?app_nil_r; fold (dials ls); first [exact H1|exact H2|exact H3|exact H5|idtac].
    intros b i Hg. rewrite mget_mdel in Hg. destruct (String.eqb b a); [discriminate|]. now apply H4.
  - split; rewrite ?dials_app; cbn [d_calls d_pools d_reg dials flat_map app]; rewrite ?app_nil_r; fold (dials ls); first [exact H1|exact H2|exact H3|exact H4|exact H5].
Qed.
Lemma dinv_steps : forall ls0 d ls d', dinv ls0 d -> dsteps d ls d' -> dinv (ls0 ++ ls) d'.
Proof.
  intros ls0 d ls d' H Hs. revert ls0 H. induction Hs as [d|d l d1 ls d2 Hs Hss IH]; intros ls0 H; [now rewrite app_nil_r|]. replace (ls0 ++ l :: ls)%list with ((ls0 ++ [l]) ++ ls)%list by now rewrite <- app_assoc. apply IH. eapply dinv_step; eassumption.
Qed.
Lemma dinv_new : dinv [] new_dialer.
Proof. split; cbn; try reflexivity; intros [|?]; try discriminate; intros; discriminate. Qed.
(* Whatever the interleaving: a connection handed out by the j-th dial leads to the endpoint the discovery named for that dial, or to the
   address itself if it named none. *)
Theorem C67_endpoint : forall ls d j k pid c, dsteps new_dialer ls d -> nth_error (d_calls d) j = Some (k, DDone pid c) ->
  exists o address ctx, nth_error (dials ls) j = Some (o, address, ctx) /\
    match o with DProp p => pr_addr p = Some (cn_addr c) | _ => cn_addr c = address end.
Proof.
  intros ls d j k pid c Hs Hj. pose proof (dinv_steps [] _ _ _ dinv_new Hs) as [H1 H2 H3 H4 H5]. cbn in *. destruct (H2 _ _ _ Hj) as (o & ad & E & [Ep|[_ Ep]]); [|discriminate]. exists o, ad, (ca_ctx k). split; [assumption|].
  destruct (H5 _ _ _ Hj) as [Ea _]. rewrite Ea. unfold plan in Ep. destruct o as [| |p]; [congruence|congruence|]. destruct (pr_addr p); congruence.
Qed.
Print Assumptions C67_endpoint.
(* If the dials of the history agree on the TLS settings of every address, every connection has the settings its own dial asked for. *)
Definition settled (ls : list dlabel) : Prop := forall o1 a1 c1 o2 a2 c2 a s1 s2, In (o1, a1, c1) (dials ls) -> In (o2, a2, c2) (dials ls) -> plan o1 a1 = Some (a, s1) -> plan o2 a2 = Some (a, s2) -> s1 = s2.
Theorem C67_settings : forall ls d j k pid c, dsteps new_dialer ls d -> settled ls -> nth_error (d_calls d) j = Some (k, DDone pid c) ->
  exists o address ctx, nth_error (dials ls) j = Some (o, address, ctx) /\ cn_tls c = match o with DProp p => pr_tls p | _ => None end.
Proof.
  intros ls d j k pid c Hs Hset Hj. pose proof (dinv_steps [] _ _ _ dinv_new Hs) as [H1 H2 H3 H4 H5]. cbn in *. destruct (H2 _ _ _ Hj) as (o & ad & E & [Ep|[_ Ep]]); [|discriminate]. exists o, ad, (ca_ctx k). split; [assumption|].
  destruct (H5 _ _ _ Hj) as [Ea (p & Hp & Hpa & Hpt)]. destruct (H3 _ _ Hp) as [(o' & ad' & Hi & Ep') _]. rewrite Hpa, Hpt in Ep'.
  assert (E2: cn_tls c = ca_tls k) by (eapply Hset; [exact Hi|eapply nth_error_In; exact E|exact Ep'|exact Ep]). rewrite E2. unfold plan in Ep. destruct o as [| |q]; [congruence|congruence|]. destruct (pr_addr q); congruence.
Qed.
Print Assumptions C67_settings.
(* In general the settings are those of some dial to the same address: the one that made the pool. *)
Theorem C67_settings_origin : forall ls d j k pid c, dsteps new_dialer ls d -> nth_error (d_calls d) j = Some (k, DDone pid c) ->
  exists o address ctx, In (o, address, ctx) (dials ls) /\ plan o address = Some (cn_addr c, cn_tls c).
Proof.
  intros ls d j k pid c Hs Hj. pose proof (dinv_steps [] _ _ _ dinv_new Hs) as [H1 H2 H3 H4 H5]. cbn in *. destruct (H5 _ _ _ Hj) as [Ea (p & Hp & Hpa & Hpt)]. destruct (H3 _ _ Hp) as [(o' & ad' & Hi & Ep') _]. exists o', ad', (dp_ctx p). rewrite Ea. rewrite Hpa, Hpt in Ep'. auto.
Qed.
Print Assumptions C67_settings_origin.


(* a dial that runs alone: first to its address, or with a pool *)
Lemma nth_last {X} : forall (l : list X) x, nth_error (l ++ [x]) (List.length l) = Some x.
Proof. intros. rewrite nth_error_app2, Nat.sub_diag by lia. reflexivity. Qed.
Lemma setnth_last {X} : forall (l : list X) x y, setnth (l ++ [x]) (List.length l) y = (l ++ [y])%list.
Proof. induction l as [|z l IH]; intros; cbn; [reflexivity|now rewrite IH]. Qed.
Lemma dial_first : forall d o address ctx a s, plan o address = Some (a, s) -> mget a (d_reg d) = None -> memn ctx (d_cancelled d) = false ->
  let j := List.length (d_calls d) in
  exists d', dsteps d [LDial o address ctx; LStep j; LStep j; LStep j; LStep j] d' /\ nth_error (d_calls d') j = Some (mkcall a s ctx, DDone (List.length (d_pools d)) (mkconn a s)) /\
    d_reg d' = mset a (List.length (d_pools d)) (d_reg d) /\ d_pools d' = (d_pools d ++ [mkdpool a s ctx true []])%list /\ d_cancelled d' = d_cancelled d.
Proof.
  intros d o address ctx a s Hp Hr Hc j. eexists. split; [|split; [|split; [|split]]].
  - eapply DS_cons; [eapply D_dial; eassumption|]. eapply DS_cons; [eapply D_has_not; [apply nth_last|exact Hr]|]. cbn [d_pools d_reg d_calls d_cancelled ca_addr ca_tls ca_ctx]. unfold j. rewrite setnth_last.
    eapply DS_cons; [eapply D_add; [apply nth_last|apply nth_last]|]. cbn [d_pools d_reg d_calls d_cancelled ca_addr dp_open]. rewrite Hr, setnth_last.
    eapply DS_cons; [eapply D_getpool; apply nth_last|]. unfold set_phase. cbn [d_pools d_reg d_calls d_cancelled ca_addr]. rewrite setnth_last, mget_mset, String.eqb_refl.
    eapply DS_cons; [eapply D_get_new; [apply nth_last|apply nth_last|reflexivity|reflexivity|exact Hc]|apply DS_nil].
  - unfold set_phase. cbn [d_calls dp_addr dp_tls]. rewrite setnth_last. apply nth_last.
  - reflexivity.
  - reflexivity.
  - reflexivity.
Qed.
Lemma dial_again : forall d o address ctx a s pid p, plan o address = Some (a, s) -> mget a (d_reg d) = Some pid -> nth_error (d_pools d) pid = Some p ->
  let j := List.length (d_calls d) in
  exists d', dsteps d [LDial o address ctx; LStep j; LStep j] d' /\ nth_error (d_calls d') j = Some (mkcall a s ctx, DGet pid) /\ d_pools d' = d_pools d /\ d_cancelled d' = d_cancelled d /\ d_reg d' = d_reg d.
Proof.
  intros d o address ctx a s pid p Hp Hr Hq j. eexists. split; [|split; [|split; [|split]]].
  - eapply DS_cons; [eapply D_dial; eassumption|]. eapply DS_cons; [eapply D_has; [apply nth_last|exact Hr]|]. unfold set_phase. cbn [d_pools d_reg d_calls d_cancelled]. unfold j. rewrite setnth_last.
    eapply DS_cons; [eapply D_getpool; apply nth_last|]. unfold set_phase. cbn [d_pools d_reg d_calls d_cancelled ca_addr]. rewrite setnth_last, Hr. apply DS_nil.
  - apply nth_last.
  - reflexivity.
  - reflexivity.
  - reflexivity.
Qed.
Lemma dsteps_app : forall d1 ls1 d2 ls2 d3, dsteps d1 ls1 d2 -> dsteps d2 ls2 d3 -> dsteps d1 (ls1 ++ ls2) d3.
Proof. intros d1 ls1 d2 ls2 d3 H. revert ls2 d3. induction H; intros; cbn; [assumption|]. econstructor; [eassumption|auto]. Qed.
(* Defect: when the discovery fails for a moment the connection is made in plaintext, to the address given by the caller. *)
Theorem C67_discovery_error_refuted : forall ls d a ctx, dsteps new_dialer ls d -> mget a (d_reg d) = None -> memn ctx (d_cancelled d) = false ->
  exists ls' d' k pid, dsteps d (LDial DErr a ctx :: ls') d' /\ nth_error (d_calls d') (List.length (d_calls d)) = Some (k, DDone pid (mkconn a None)).
Proof.
  intros ls d a ctx _ Hr Hc. destruct (dial_first d DErr a ctx a None eq_refl Hr Hc) as (d' & Hs & Hj & _). do 4 eexists. split; eassumption.
Qed.
Print Assumptions C67_discovery_error_refuted.
(* Defect: the settings [s1] of the first dial to an endpoint are used for a later dial that asks for [s2]: plaintext where mutual TLS is
   asked for, or the server name and verification data of another service. *)
Theorem C67_stale_settings_refuted : forall h1 h2 a s1 s2 ctx, exists ls d k pid, dsteps new_dialer ls d /\
  nth_error (dials ls) 1 = Some (DProp (mkprop s2 (Some a)), h2, ctx) /\ nth_error (dials ls) 0 = Some (DProp (mkprop s1 (Some a)), h1, ctx) /\
  nth_error (d_calls d) 1 = Some (k, DDone pid (mkconn a s1)) /\ ca_tls k = s2.
Proof.
  intros h1 h2 a s1 s2 ctx. destruct (dial_first new_dialer (DProp (mkprop s1 (Some a))) h1 ctx a s1 eq_refl eq_refl eq_refl) as (d1 & Hs1 & Hj1 & Hr1 & Hp1 & Hc1). cbn in Hs1, Hj1, Hr1, Hp1, Hc1.
  assert (Hl1: List.length (d_calls d1) = 1). { pose proof (dinv_steps [] _ _ _ dinv_new Hs1) as [H _ _ _ _]. exact H. }
  destruct (dial_again d1 (DProp (mkprop s2 (Some a))) h2 ctx a s2 0 (mkdpool a s1 ctx true []) eq_refl) as (d2 & Hs2 & Hj2 & Hp2 & Hc2 & _); [rewrite Hr1; cbn; now rewrite String.eqb_refl|now rewrite Hp1|]. rewrite Hl1 in *.
  do 4 eexists. split; [|split; [|split; [|split]]].
  - eapply dsteps_app; [exact Hs1|]. eapply dsteps_app; [exact Hs2|]. eapply DS_cons; [|apply DS_nil]. eapply D_get_new; [exact Hj2|rewrite Hp2, Hp1; reflexivity|reflexivity|reflexivity|rewrite Hc2, Hc1; reflexivity].
  - reflexivity.
  - reflexivity.
  - unfold set_phase. cbn [d_calls]. rewrite setnth_get. cbn [Nat.eqb]. rewrite Hj2. reflexivity.
  - reflexivity.
Qed.
Print Assumptions C67_stale_settings_refuted.
(* Defect: once the context of the first dial is cancelled no later dial to the endpoint gets a new connection, however long it may wait. *)
Theorem C67_first_context_refuted : forall d j k pid p l d' c, nth_error (d_calls d) j = Some (k, DGet pid) -> nth_error (d_pools d) pid = Some p ->
  dp_idle p = [] -> In (dp_ctx p) (d_cancelled d) -> dstep d l d' -> nth_error (d_calls d') j <> Some (k, DDone pid c).
Proof.
  intros d j k pid p l d' c Hj Hp Hi Hc Hs Hd. assert (Hm: memn (dp_ctx p) (d_cancelled d) = true) by (apply existsb_exists; exists (dp_ctx p); split; [assumption|apply Nat.eqb_refl]).
  assert (Hjl: j < List.length (d_calls d)) by (apply nth_error_Some; congruence).
  destruct Hs as [d o address ctx a s Hp'|d o address ctx Hp'|d i k' pid' Hj' Hr|d i k' Hj' Hr|d i k' pid' p' Hj' Hp'|d i k' Hj'|d i k' pid' p' Hj' Hp' Ho|d i k' pid' p' c' r Hj' Hp' Ho Hi'|d i k' pid' p' Hj' Hp' Ho Hi' Hc'|d i k' pid' p' Hj' Hp' Ho Hi'|d i k' pid' c' p' Hj' Hp' Ho|d pid' p' c' r Hp' Hi'|d pid' p' Hp'|d a pid' p' Hr Hp' Ho|d ctx];
    cbn [d_calls set_phase set_pool] in Hd; try rewrite nth_error_app1 in Hd by assumption; try (rewrite setnth_get in Hd; destruct (Nat.eqb_spec i j) as [->|]); try congruence; rewrite Hj in Hd, Hj'; try discriminate.
Qed.
Print Assumptions C67_first_context_refuted.
(* Defect: a dial that comes after a pool closed itself and before the registry notices fails, without dialling. *)
Theorem C67_closed_pool_refuted : forall o address a s ctx, plan o address = Some (a, s) -> exists ls d k, dsteps new_dialer ls d /\ nth_error (dials ls) 1 = Some (o, address, ctx) /\ nth_error (d_calls d) 1 = Some (k, DFail EPoolClosed) /\
  ~ In (LRefused 1) ls /\ d_cancelled d = [].
Proof.
  intros o address a s ctx Hpl. destruct (dial_first new_dialer o address ctx a s Hpl eq_refl eq_refl) as (d1 & Hs1 & Hj1 & Hr1 & Hp1 & Hc1). cbn in Hs1, Hj1, Hr1, Hp1, Hc1.
  assert (Hl1: List.length (d_calls d1) = 1). { pose proof (dinv_steps [] _ _ _ dinv_new Hs1) as [H _ _ _ _]. exact H. }
  set (p0 := mkdpool a s ctx true []) in *. set (p1 := mkdpool a s ctx false []).
  assert (Hs2: dstep d1 (LIdle 0) (set_pool d1 0 p1)) by (apply (D_idle d1 0 p0); now rewrite Hp1).
  assert (Hp2: d_pools (set_pool d1 0 p1) = [p1]) by (unfold set_pool; cbn; now rewrite Hp1).
  destruct (dial_again (set_pool d1 0 p1) o address ctx a s 0 p1 Hpl) as (d3 & Hs3 & Hj3 & Hp3 & Hc3 & _); [cbn; rewrite Hr1; cbn; now rewrite String.eqb_refl|now rewrite Hp2|]. cbn [d_calls set_pool] in Hs3, Hj3. rewrite Hl1 in *.
  do 3 eexists. split; [|split; [|split; [|split]]].
  - eapply dsteps_app; [exact Hs1|]. eapply DS_cons; [exact Hs2|]. eapply dsteps_app; [exact Hs3|]. eapply DS_cons; [|apply DS_nil]. eapply D_get_closed; [exact Hj3|rewrite Hp3, Hp2; reflexivity|reflexivity].
  - reflexivity.
  - unfold set_phase. cbn [d_calls]. rewrite setnth_get. cbn [Nat.eqb]. rewrite Hj3. reflexivity.
  - cbn. intros H. repeat destruct H as [H|H]; try discriminate; assumption.
  - cbn. rewrite Hc3. cbn. exact Hc1.
Qed.
Print Assumptions C67_closed_pool_refuted.
(* the hypotheses of C67_settings are met by two dials that agree *)
Example C67_ex : exists ls d k, settled ls /\ dsteps new_dialer ls d /\ List.length (dials ls) = 1 /\ nth_error (d_calls d) 0 = Some (k, DDone 0 (mkconn "10.0.0.1:5432" (Some ("db.ns", 7)))).
Proof.
  destruct (dial_first new_dialer (DProp (mkprop (Some ("db.ns", 7)) (Some "10.0.0.1:5432"))) "db:5432" 1 "10.0.0.1:5432" (Some ("db.ns", 7)) eq_refl eq_refl eq_refl) as (d & Hs & Hj & _).
  do 3 eexists. split; [|split; [exact Hs|split; [reflexivity|exact Hj]]]. intros o1 a1 c1 o2 a2 c2 a s1 s2 [E1|[]] [E2|[]] P1 P2. injection E1 as <- <- <-. injection E2 as <- <- <-. congruence.
Qed.

(* ---- C68 ---- *)
(* how the request should be secured *)
Definition wanted (r : hreq) : sec := match hr_want r with Some t => MeshTLS (fst t) (Some (snd t)) | None => if hr_https r then GoTLS (hr_host r) else Plain end.

Definition hcalls (ls : list hlabel) : list (disc * bool * string) := flat_map (fun l => match l with HCall o s a => [(o, s, a)] | _ => [] end) ls.
Lemma hcalls_app : forall a b, hcalls (a ++ b) = (hcalls a ++ hcalls b)%list.
Proof. intros. unfold hcalls. apply flat_map_app. Qed.
Lemma take_idle_spec : forall https a l c rest, take_idle https a l = Some (c, rest) -> In c l /\ hc_https c = https /\ hc_host c = a /\ forall x, In x rest -> In x l.
Proof.
  intros https a. induction l as [|x l IH]; intros c rest H; cbn in H; [discriminate|]. destruct (Bool.eqb (hc_https x) https && String.eqb (hc_host x) a) eqn:E.
  - injection H as <- <-. apply andb_true_iff in E. destruct E as [E1 E2]. apply Bool.eqb_prop in E1. apply String.eqb_eq in E2. split; [now left|]. split; [assumption|]. split; [assumption|]. intros y Hy. now right.
  - destruct (take_idle https a l) as [[c' r']|]; [|discriminate]. injection H as <- <-. destruct (IH c' r' eq_refl) as (H1 & H2 & H3 & H4). split; [now right|]. split; [assumption|]. split; [assumption|]. intros y [<-|Hy]; [now left|right; auto].
Qed.
(* what holds under every interleaving *)
Definition asked (ls : list hlabel) (r : hreq) : Prop := exists o s a, In (o, s, a) (hcalls ls) /\ hplan o s a = Some r.
Definition sec_ok (ls : list hlabel) (x : sec) : Prop := match x with
  | MeshTLS n v => exists r1 t1 r2 t2, asked ls r1 /\ hr_want r1 = Some t1 /\ asked ls r2 /\ hr_want r2 = Some t2 /\ n = fst t1 /\ v = Some (snd t2)
  | _ => True end.
Definition cfg_ok (ls : list hlabel) (h : htransport) : Prop := sec_ok ls (MeshTLS (h_name h) (h_verif h)).
Record hinv (ls : list hlabel) (h : htransport) : Prop := {
  hi_len : List.length (h_reqs h) = List.length (hcalls ls);
  hi_req : forall j r ph, nth_error (h_reqs h) j = Some (r, ph) -> ph = RFail \/ exists o s a, nth_error (hcalls ls) j = Some (o, s, a) /\ hplan o s a = Some r;
  hi_phase : forall j r ph, nth_error (h_reqs h) j = Some (r, ph) -> match ph with
    | RName t => hr_want r = Some t
    | RVerif t => hr_want r = Some t /\ exists r1 t1, asked ls r1 /\ hr_want r1 = Some t1 /\ h_name h = fst t1
    | RWrap | RSend => hr_want r <> None -> cfg_ok ls h
    | RDone c => hc_https c = hr_https r /\ hc_host c = hr_host r /\ sec_ok ls (hc_sec c)
    | RFail => True end;
  hi_dialer : h_dialer h = true -> cfg_ok ls h;
  hi_cfg : h_verif h <> None -> cfg_ok ls h;
  hi_idle : forall c, In c (h_idle h) -> sec_ok ls (hc_sec c) }.
Lemma asked_app : forall ls l r, asked ls r -> asked (ls ++ [l]) r.
Proof. intros ls l r (o & s & a & Hi & E). exists o, s, a. split; [rewrite hcalls_app; apply in_or_app; now left|assumption]. Qed.
Lemma sec_app : forall ls l x, sec_ok ls x -> sec_ok (ls ++ [l]) x.
Proof. intros ls l [| |n v] H; [exact I|exact I|]. destruct H as (r1 & t1 & r2 & t2 & A1 & W1 & A2 & W2 & E1 & E2). exists r1, t1, r2, t2. repeat split; try assumption; now apply asked_app. Qed.
Lemma hinv_new : hinv [] new_transport.
Proof. split; cbn; try reflexivity; try discriminate; try congruence; try (intros [|?]; discriminate). intros c []. Qed.
Lemma hinv_step : forall ls h l h', hinv ls h -> hstep h l h' -> hinv (ls ++ [l]) h'.
Proof.
  intros ls h l h' [H1 H2 H3 H4 H5 H6] Hs.
  assert (Hcfg: cfg_ok ls h -> cfg_ok (ls ++ [l]) h) by (unfold cfg_ok; apply sec_app).
  destruct Hs as [h o https host r Hp|h o https host Hp|h j r t Hj|h j r t Hj|h j r Hj|h j r Hj|h j r c Hj|h x rest Hi].
  1,2: assert (Hnew: forall j q ph x, nth_error (h_reqs h ++ [x]) j = Some (q, ph) -> nth_error (h_reqs h) j = Some (q, ph) \/ (j = List.length (h_reqs h) /\ x = (q, ph)))
    by (intros j q ph x Hj; destruct (Nat.lt_ge_cases j (List.length (h_reqs h))) as [L|L]; [rewrite nth_error_app1 in Hj by assumption; now left|rewrite nth_error_app2 in Hj by assumption; right; destruct (j - List.length (h_reqs h)) as [|n] eqn:En; [injection Hj as <-; split; [lia|reflexivity]|destruct n; discriminate]]).
  - assert (Hask: asked (ls ++ [HCall o https host]) r) by (exists o, https, host; split; [rewrite hcalls_app; apply in_or_app; right; now left|assumption]).
    split; cbn [h_reqs h_idle h_name h_verif h_dialer]; try rewrite hcalls_app; cbn [hcalls flat_map app].
    + rewrite !app_length. cbn. unfold hcalls in *. congruence.
    + intros j q ph Hj. apply Hnew in Hj. destruct Hj as [Hj|[-> Hj]].
      * destruct (H2 j q ph Hj) as [->|(o' & s' & a' & E & E')]; [now left|]. right. exists o', s', a'. split; [now apply nth_app_l|assumption].
      * injection Hj as <- <-. right. exists o, https, host. rewrite H1, nth_last. auto.
    + intros j q ph Hj. apply Hnew in Hj. destruct Hj as [Hj|[-> Hj]].
      * specialize (H3 j q ph Hj). destruct ph; try exact H3.
        -- destruct H3 as (E & r1 & t1 & A & B). split; [assumption|]. exists r1, t1. split; [now apply asked_app|assumption].
        -- intros W. apply Hcfg. now apply H3.
        -- intros W. apply Hcfg. now apply H3.
        -- destruct H3 as (A & B & C). split; [assumption|]. split; [assumption|now apply sec_app].
      * injection Hj as <- <-. destruct (hr_want r) as [t|] eqn:Ew; [reflexivity|]. congruence.
    + intros K. apply Hcfg. now apply H4.
    + intros K. apply Hcfg. now apply H5.
    + intros c Hc. apply sec_app. now apply H6.
  - split; cbn [h_reqs h_idle h_name h_verif h_dialer]; try rewrite hcalls_app; cbn [hcalls flat_map app].
    + rewrite !app_length. cbn. unfold hcalls in *. congruence.
    + intros j q ph Hj. apply Hnew in Hj. destruct Hj as [Hj|[-> Hj]].
      * destruct (H2 j q ph Hj) as [->|(o' & s' & a' & E & E')]; [now left|]. right. exists o', s', a'. split; [now apply nth_app_l|assumption].
      * injection Hj as <- <-. now left.
    + intros j q ph Hj. apply Hnew in Hj. destruct Hj as [Hj|[-> Hj]].
      * specialize (H3 j q ph Hj). destruct ph; try exact H3.
        -- destruct H3 as (E & r1 & t1 & A & B). split; [assumption|]. exists r1, t1. split; [now apply asked_app|assumption].
        -- intros W. apply Hcfg. now apply H3.
        -- intros W. apply Hcfg. now apply H3.
        -- destruct H3 as (A & B & C). split; [assumption|]. split; [assumption|now apply sec_app].
      * injection Hj as <- <-. exact I.
    + intros K. apply Hcfg. now apply H4.
    + intros K. apply Hcfg. now apply H5.
    + intros c Hc. apply sec_app. now apply H6.
  - assert (Ew: hr_want r = Some t) by exact (H3 j r _ Hj).
    assert (Ha: asked ls r). { destruct (H2 j r _ Hj) as [K|(o & s & a & E & E')]; [discriminate|]. exists o, s, a. split; [eapply nth_error_In; eassumption|assumption]. }
    assert (Hc: forall n v, sec_ok ls (MeshTLS n v) -> sec_ok (ls ++ [HStep j]) (MeshTLS (fst t) v)).
    { intros n v (r1 & t1 & r2 & t2 & A1 & W1 & A2 & W2 & E1 & E2). exists r, t, r2, t2. repeat split; try assumption; now apply asked_app. }
    split; cbn [h_reqs h_idle h_name h_verif h_dialer]; try rewrite hcalls_app; cbn [hcalls flat_map app]; rewrite ?app_nil_r.
    + rewrite setnth_len. exact H1.
    + intros i q ph Hi. rewrite setnth_get in Hi. destruct (Nat.eqb_spec j i) as [<-|Hn]; [|now apply H2]. rewrite Hj in Hi. injection Hi as <- <-. right. destruct (H2 j r _ Hj) as [K|K]; [discriminate|exact K].
    + intros i q ph Hi. rewrite setnth_get in Hi. destruct (Nat.eqb_spec j i) as [<-|Hn].
      * rewrite Hj in Hi. injection Hi as <- <-. split; [assumption|]. exists r, t. split; [now apply asked_app|auto].
      * specialize (H3 i q ph Hi). destruct ph; try exact H3.
        -- destruct H3 as (E & _). split; [assumption|]. exists r, t. split; [now apply asked_app|auto].
        -- intros W. eapply Hc. now apply H3.
        -- intros W. eapply Hc. now apply H3.
        -- destruct H3 as (A & B & C). split; [assumption|]. split; [assumption|now apply sec_app].
    + intros K. eapply Hc. now apply H4.
    + intros K. eapply Hc. now apply H5.
    + intros c Hc'. apply sec_app. now apply H6.
  - destruct (H3 j r _ Hj) as (Ew & r1 & t1 & A1 & W1 & E1).
    assert (Ha: asked ls r). { destruct (H2 j r _ Hj) as [K|(o & s & a & E & E')]; [discriminate|]. exists o, s, a. split; [eapply nth_error_In; eassumption|assumption]. }
    assert (Hc: sec_ok (ls ++ [HStep j]) (MeshTLS (h_name h) (Some (snd t)))).
    { exists r1, t1, r, t. repeat split; try assumption; now apply asked_app. }
    split; cbn [h_reqs h_idle h_name h_verif h_dialer]; try rewrite hcalls_app; cbn [hcalls flat_map app]; rewrite ?app_nil_r; try (intros; exact Hc).
    + rewrite setnth_len. exact H1.
    + intros i q ph Hi. rewrite setnth_get in Hi. destruct (Nat.eqb_spec j i) as [<-|Hn]; [|now apply H2]. rewrite Hj in Hi. injection Hi as <- <-. right. destruct (H2 j r _ Hj) as [K|K]; [discriminate|exact K].
    + intros i q ph Hi. rewrite setnth_get in Hi. destruct (Nat.eqb_spec j i) as [<-|Hn].
      * rewrite Hj in Hi. injection Hi as <- <-. intros _. exact Hc.
      * specialize (H3 i q ph Hi). destruct ph; try exact H3; try (intros _; exact Hc).
        -- destruct H3 as (E & r2 & t2 & A & B). split; [assumption|]. exists r2, t2. split; [now apply asked_app|assumption].
        -- destruct H3 as (A & B & C). split; [assumption|]. split; [assumption|now apply sec_app].
    + intros c Hc'. apply sec_app. now apply H6.
  - assert (Hc: hr_want r <> None -> cfg_ok (ls ++ [HStep j]) h) by (intros K; apply Hcfg; exact (H3 j r _ Hj K)).
    split; cbn [h_reqs h_idle h_name h_verif h_dialer]; try rewrite hcalls_app; cbn [hcalls flat_map app]; rewrite ?app_nil_r.
    + rewrite setnth_len. exact H1.
    + intros i q ph Hi. rewrite setnth_get in Hi. destruct (Nat.eqb_spec j i) as [<-|Hn]; [|now apply H2]. rewrite Hj in Hi. injection Hi as <- <-. right. destruct (H2 j r _ Hj) as [K|K]; [discriminate|exact K].
    + intros i q ph Hi. rewrite setnth_get in Hi. destruct (Nat.eqb_spec j i) as [<-|Hn].
      * rewrite Hj in Hi. injection Hi as <- <-. exact Hc.
      * specialize (H3 i q ph Hi). destruct ph; try exact H3.
        -- destruct H3 as (E & r2 & t2 & A & B). split; [assumption|]. exists r2, t2. split; [now apply asked_app|assumption].
        -- intros W. apply Hcfg. now apply H3.
        -- intros W. apply Hcfg. now apply H3.
        -- destruct H3 as (A & B & C). split; [assumption|]. split; [assumption|now apply sec_app].
    + destruct (hr_want r); [intros _; apply Hc; discriminate|discriminate].
    + intros K. apply Hcfg. now apply H5.
    + intros c Hc'. apply sec_app. now apply H6.
  - assert (G: forall c idle', hc_https c = hr_https r -> hc_host c = hr_host r -> sec_ok ls (hc_sec c) -> (forall x, In x idle' -> In x (h_idle h)) ->
      hinv (ls ++ [HStep j]) (mkht (h_name h) (h_verif h) (h_dialer h) idle' (setnth (h_reqs h) j (r, RDone c)))).
    { intros c idle' E1 E2 Hc Hin. split; cbn [h_reqs h_idle h_name h_verif h_dialer]; try rewrite hcalls_app; cbn [hcalls flat_map app]; rewrite ?app_nil_r.
      + rewrite setnth_len. exact H1.
      + intros i q ph Hi. rewrite setnth_get in Hi. destruct (Nat.eqb_spec j i) as [<-|Hn]; [|now apply H2]. rewrite Hj in Hi. injection Hi as <- <-. right. destruct (H2 j r _ Hj) as [K|K]; [discriminate|exact K].
      + intros i q ph Hi. rewrite setnth_get in Hi. destruct (Nat.eqb_spec j i) as [<-|Hn].
        * rewrite Hj in Hi. injection Hi as <- <-. split; [assumption|]. split; [assumption|now apply sec_app].
        * specialize (H3 i q ph Hi). destruct ph; try exact H3.
          -- destruct H3 as (E & r2 & t2 & A & B). split; [assumption|]. exists r2, t2. split; [now apply asked_app|assumption].
          -- intros W. apply Hcfg. now apply H3.
          -- intros W. apply Hcfg. now apply H3.
          -- destruct H3 as (A & B & C). split; [assumption|]. split; [assumption|now apply sec_app].
      + intros K. apply Hcfg. now apply H4.
      + intros K. apply Hcfg. now apply H5.
      + intros x Hx. apply sec_app. apply H6. now apply Hin. }
    destruct (take_idle (hr_https r) (hr_host r) (h_idle h)) as [[c rest]|] eqn:Et.
    + apply take_idle_spec in Et. destruct Et as (A & B & C & D). apply G; auto.
    + apply (G (hdial h (hr_https r) (hr_host r)) (h_idle h)); [reflexivity|reflexivity| |auto]. cbn. destruct (h_dialer h) eqn:Ed; [now apply H4|]. destruct (hr_https r); exact I.
  - destruct (H3 j r _ Hj) as (A & B & C). split; cbn [h_reqs h_idle h_name h_verif h_dialer]; try rewrite hcalls_app; cbn [hcalls flat_map app]; rewrite ?app_nil_r; try assumption.
    + intros i q ph Hi. specialize (H3 i q ph Hi). destruct ph; try exact H3.
      * destruct H3 as (E & r2 & t2 & A' & B'). split; [assumption|]. exists r2, t2. split; [now apply asked_app|assumption].
      * intros W. apply Hcfg. now apply H3.
      * intros W. apply Hcfg. now apply H3.
      * destruct H3 as (A' & B' & C'). split; [assumption|]. split; [assumption|now apply sec_app].
    + intros K. apply Hcfg. now apply H4.
    + intros K. apply Hcfg. now apply H5.
    + intros x Hx. apply sec_app. apply in_app_or in Hx. destruct Hx as [Hx|[<-|[]]]; auto.
  - split; cbn [h_reqs h_idle h_name h_verif h_dialer]; try rewrite hcalls_app; cbn [hcalls flat_map app]; rewrite ?app_nil_r; try assumption.
    + intros i q ph Hi'. specialize (H3 i q ph Hi'). destruct ph; try exact H3.
      * destruct H3 as (E & r2 & t2 & A' & B'). split; [assumption|]. exists r2, t2. split; [now apply asked_app|assumption].
      * intros W. apply Hcfg. now apply H3.
      * intros W. apply Hcfg. now apply H3.
      * destruct H3 as (A' & B' & C'). split; [assumption|]. split; [assumption|now apply sec_app].
    + intros K. apply Hcfg. now apply H4.
    + intros K. apply Hcfg. now apply H5.
    + intros y Hy. apply sec_app. apply H6. rewrite Hi. now right.
Qed.
Lemma hinv_steps : forall serial ls0 h ls h', hinv ls0 h -> hsteps serial h ls h' -> hinv (ls0 ++ ls) h'.
Proof.
  intros serial ls0 h ls h' H Hs. revert ls0 H. induction Hs as [h|h l h1 ls h2 _ Hs Hss IH]; intros ls0 H; [now rewrite app_nil_r|]. replace (ls0 ++ l :: ls)%list with ((ls0 ++ [l]) ++ ls)%list by now rewrite <- app_assoc. apply IH. eapply hinv_step; eassumption.
Qed.
(* Under every interleaving: the j-th request is sent over a connection to the endpoint that the discovery named for it (or to the
   request's own host), and over https if TLS was asked for. *)
Theorem C68_endpoint : forall ls h j r c, hsteps false new_transport ls h -> nth_error (h_reqs h) j = Some (r, RDone c) ->
  exists o s host, nth_error (hcalls ls) j = Some (o, s, host) /\ match o with
    | DProp p => exists a, pr_addr p = Some a /\ match pr_tls p with
        | Some _ => hc_https c = true /\ hc_host c = (if has_colon a then a else a ++ ":80")
        | None => hc_https c = s /\ hc_host c = a end
    | _ => hc_https c = s /\ hc_host c = host end.
Proof.
  intros ls h j r c Hs Hj. pose proof (hinv_steps false [] _ _ _ hinv_new Hs) as [H1 H2 H3 H4 H5 H6]. cbn [app] in *. destruct (H2 _ _ _ Hj) as [K|(o & s & a & E & E')]; [discriminate|]. destruct (H3 _ _ _ Hj) as (E1 & E2 & _).
  exists o, s, a. split; [assumption|]. rewrite E1, E2. unfold hplan in E'. destruct o as [| |p]; [injection E' as <-; auto|injection E' as <-; auto|]. destruct (pr_addr p) as [b|]; [|discriminate]. exists b. split; [reflexivity|]. destruct (pr_tls p); injection E' as <-; auto.
Qed.
Print Assumptions C68_endpoint.
(* No mesh connection is ever made without verification; its server name and its verification data each come from some request. *)
Theorem C68_always_verified : forall ls h j r c n v, hsteps false new_transport ls h -> nth_error (h_reqs h) j = Some (r, RDone c) -> hc_sec c = MeshTLS n v ->
  exists p1 p2 s1 s2 h1 h2 t1 t2, In (DProp p1, s1, h1) (hcalls ls) /\ pr_tls p1 = Some t1 /\ In (DProp p2, s2, h2) (hcalls ls) /\ pr_tls p2 = Some t2 /\ n = fst t1 /\ v = Some (snd t2).
Proof.
  intros ls h j r c n v Hs Hj Hc. pose proof (hinv_steps false [] _ _ _ hinv_new Hs) as [H1 H2 H3 H4 H5 H6]. cbn [app] in *. destruct (H3 _ _ _ Hj) as (_ & _ & K). rewrite Hc in K. destruct K as (r1 & t1 & r2 & t2 & (o1 & s1 & a1 & I1 & P1) & W1 & (o2 & s2 & a2 & I2 & P2) & W2 & E1 & E2).
  assert (G: forall o s a r t, hplan o s a = Some r -> hr_want r = Some t -> exists p, o = DProp p /\ pr_tls p = Some t).
  { intros o s a q t P W. unfold hplan in P. destruct o as [| |p]; [injection P as <-; discriminate|injection P as <-; discriminate|]. destruct (pr_addr p); [|discriminate]. destruct (pr_tls p) as [t'|] eqn:Et; injection P as <-; [|discriminate]. cbn in W. exists p. split; congruence. }
  destruct (G _ _ _ _ _ P1 W1) as (p1 & -> & T1). destruct (G _ _ _ _ _ P2 W2) as (p2 & -> & T2). exists p1, p2, s1, s2, a1, a2, t1, t2. repeat split; assumption.
Qed.
Print Assumptions C68_always_verified.

(* One request at a time. *)
Definition conn_ok (ls : list hlabel) (c : hconn) : Prop := exists r, asked ls r /\ hc_https c = hr_https r /\ hc_host c = hr_host r /\ hc_sec c = wanted r.
Definition some_tls (t : tlsset) : bool := match t with Some _ => true | None => false end.
Record sinv (ls : list hlabel) (h : htransport) : Prop := {
  si_last : forall j r ph, nth_error (h_reqs h) j = Some (r, ph) -> ended ph \/ S j = List.length (h_reqs h);
  si_phase : forall j r ph, nth_error (h_reqs h) j = Some (r, ph) -> match ph with
    | RName t => hr_want r = Some t
    | RVerif t => hr_want r = Some t /\ h_name h = fst t
    | RWrap => forall t, hr_want r = Some t -> h_name h = fst t /\ h_verif h = Some (snd t)
    | RSend => (forall t, hr_want r = Some t -> h_name h = fst t /\ h_verif h = Some (snd t)) /\ h_dialer h = some_tls (hr_want r)
    | RDone c => conn_ok ls c
    | RFail => True end;
  si_idle : forall c, In c (h_idle h) -> conn_ok ls c }.
Lemma conn_app : forall ls l c, conn_ok ls c -> conn_ok (ls ++ [l]) c.
Proof. intros ls l c (r & A & B). exists r. split; [now apply asked_app|assumption]. Qed.
Lemma sinv_step : forall ls h l h', hinv ls h -> sinv ls h -> (forall o s a r ph, l = HCall o s a -> In (r, ph) (h_reqs h) -> ended ph) -> hstep h l h' -> sinv (ls ++ [l]) h'.
Proof.
  intros ls h l h' Hv [S1 S2 S3] Hser Hs.
  assert (G: forall j r ph0 ph nm vf dl idle', nth_error (h_reqs h) j = Some (r, ph0) -> ~ ended ph0 ->
    (match ph with
    | RName t => hr_want r = Some t
    | RVerif t => hr_want r = Some t /\ nm = fst t
    | RWrap => forall t, hr_want r = Some t -> nm = fst t /\ vf = Some (snd t)
    | RSend => (forall t, hr_want r = Some t -> nm = fst t /\ vf = Some (snd t)) /\ dl = some_tls (hr_want r)
    | RDone c => conn_ok ls c
    | RFail => True end) -> (forall c, In c idle' -> In c (h_idle h)) ->
    sinv (ls ++ [l]) (mkht nm vf dl idle' (setnth (h_reqs h) j (r, ph)))).
  { intros j r ph0 ph nm vf dl idle' Hj Hne Hph Hin.
    assert (HL: S j = List.length (h_reqs h)) by (destruct (S1 _ _ _ Hj); [contradiction|assumption]).
    split; cbn [h_reqs h_idle h_name h_verif h_dialer].
    - intros i q ph' Hi. rewrite setnth_len. rewrite setnth_get in Hi. destruct (Nat.eqb_spec j i) as [<-|Hn]; [now right|]. exact (S1 _ _ _ Hi).
    - intros i q ph' Hi. rewrite setnth_get in Hi. destruct (Nat.eqb_spec j i) as [<-|Hn].
      + rewrite Hj in Hi. injection Hi as <- <-. destruct ph; try exact Hph. now apply conn_app.
      + assert (He: ended ph') by (destruct (S1 _ _ _ Hi) as [K|K]; [assumption|exfalso; lia]). specialize (S2 _ _ _ Hi). destruct ph'; try contradiction; [now apply conn_app|exact I].
    - intros c Hc. apply conn_app. apply S3. now apply Hin. }
  destruct Hs as [h o https host r Hp|h o https host Hp|h j r t Hj|h j r t Hj|h j r Hj|h j r Hj|h j r c Hj|h x rest Hi].
  1,2: split; cbn [h_reqs h_idle h_name h_verif h_dialer];
    [intros j q ph Hj; rewrite app_length; cbn [List.length]; destruct (Nat.lt_ge_cases j (List.length (h_reqs h))) as [L|L];
      [rewrite nth_error_app1 in Hj by assumption; left; eapply Hser; [reflexivity|eapply nth_error_In; exact Hj]|rewrite nth_error_app2 in Hj by assumption; right; destruct (j - List.length (h_reqs h)) as [|n] eqn:En; [lia|destruct n; discriminate]]
    |intros j q ph Hj; destruct (Nat.lt_ge_cases j (List.length (h_reqs h))) as [L|L];
      [rewrite nth_error_app1 in Hj by assumption; assert (He: ended ph) by (eapply Hser; [reflexivity|eapply nth_error_In; exact Hj]); specialize (S2 _ _ _ Hj); destruct ph; try contradiction; [now apply conn_app|exact I]
      |rewrite nth_error_app2 in Hj by assumption; destruct (j - List.length (h_reqs h)) as [|n]; [injection Hj as <- <-|destruct n; discriminate]]
    |intros c Hc; apply conn_app; now apply S3].
  - destruct (hr_want r) as [t|] eqn:Ew; [reflexivity|]. congruence.
  - exact I.
  - specialize (S2 _ _ _ Hj). cbn in S2. eapply G; [exact Hj|exact (fun K => K)| |auto]. auto.
  - specialize (S2 _ _ _ Hj). cbn in S2. destruct S2 as [W E]. eapply G; [exact Hj|exact (fun K => K)| |auto]. intros t' W'. split; congruence.
  - specialize (S2 _ _ _ Hj). cbn in S2. eapply G; [exact Hj|exact (fun K => K)| |auto]. auto.
  - specialize (S2 _ _ _ Hj). cbn in S2. destruct S2 as [W D]. assert (Ha: asked ls r). { destruct (hi_req _ _ Hv j r _ Hj) as [K|(o & s & a & E & E')]; [discriminate|]. exists o, s, a. split; [eapply nth_error_In; eassumption|assumption]. }
    destruct (take_idle (hr_https r) (hr_host r) (h_idle h)) as [[c rest]|] eqn:Et.
    + apply take_idle_spec in Et. destruct Et as (A & _ & _ & B). eapply G; [exact Hj|exact (fun K => K)| |exact B]. now apply S3.
    + eapply G; [exact Hj|exact (fun K => K)| |auto]. exists r. split; [assumption|]. split; [reflexivity|]. split; [reflexivity|]. cbn. rewrite D. unfold wanted. destruct (hr_want r) as [t|]; [|reflexivity]. destruct (W t eq_refl) as [-> ->]. reflexivity.
  - split; cbn [h_reqs h_idle h_name h_verif h_dialer]; [exact S1| |].
    + intros i q ph Hi. specialize (S2 _ _ _ Hi). destruct ph; try exact S2. now apply conn_app.
    + intros x Hx. apply conn_app. apply in_app_or in Hx. destruct Hx as [Hx|[<-|[]]]; [now apply S3|]. exact (S2 _ _ _ Hj).
  - split; cbn [h_reqs h_idle h_name h_verif h_dialer]; [exact S1| |].
    + intros i q ph Hi'. specialize (S2 _ _ _ Hi'). destruct ph; try exact S2. now apply conn_app.
    + intros y Hy. apply conn_app. apply S3. rewrite Hi. now right.
Qed.
Lemma sinv_steps : forall ls0 h ls h', hinv ls0 h -> sinv ls0 h -> hsteps true h ls h' -> sinv (ls0 ++ ls) h'.
Proof.
  intros ls0 h ls h' Hv H Hs. revert ls0 Hv H. induction Hs as [h|h l h1 ls h2 Hser Hs Hss IH]; intros ls0 Hv H; [now rewrite app_nil_r|]. replace (ls0 ++ l :: ls)%list with ((ls0 ++ [l]) ++ ls)%list by now rewrite <- app_assoc. apply IH; [eapply hinv_step; eassumption|].
  eapply sinv_step; [exact Hv|exact H| |exact Hs]. intros o s a r ph -> Hi. eapply Hser; [reflexivity|do 3 eexists; reflexivity|exact Hi].
Qed.
(* While requests come one at a time, and as long as the discovery asks for the same settings whenever scheme and endpoint are the same,
   each request is secured as the discovery asked for it.  Partial: the full property has neither condition; both are needed (below). *)
Theorem C68_serial : forall ls h j r c o s host, hsteps true new_transport ls h ->
  (forall o1 s1 h1 o2 s2 h2 r1 r2, In (o1, s1, h1) (hcalls ls) -> In (o2, s2, h2) (hcalls ls) -> hplan o1 s1 h1 = Some r1 -> hplan o2 s2 h2 = Some r2 ->
     hr_https r1 = hr_https r2 -> hr_host r1 = hr_host r2 -> hr_want r1 = hr_want r2) ->
  nth_error (h_reqs h) j = Some (r, RDone c) -> nth_error (hcalls ls) j = Some (o, s, host) ->
  match o with
  | DProp p => match pr_tls p with
      | Some t => hc_sec c = MeshTLS (fst t) (Some (snd t))
      | None => exists a, pr_addr p = Some a /\ hc_sec c = if s then GoTLS a else Plain end
  | _ => hc_sec c = if s then GoTLS host else Plain end.
Proof.
  intros ls h j r c o s host Hs Hcon Hj Hc. pose proof (hinv_steps true [] _ _ _ hinv_new Hs) as Hv. assert (Hn: sinv [] new_transport) by (split; cbn; try (intros [|?]; discriminate); intros ? []). pose proof (sinv_steps [] _ _ _ hinv_new Hn Hs) as [_ S2 _]. cbn [app] in *.
  specialize (S2 _ _ _ Hj). cbn in S2. destruct S2 as (q & (o' & s' & a' & Hi & Hq) & E1 & E2 & E3). destruct (hi_phase _ _ Hv _ _ _ Hj) as (F1 & F2 & _). destruct (hi_req _ _ Hv _ _ _ Hj) as [K|(o2 & s2 & a2 & N & P)]; [discriminate|]. rewrite Hc in N. injection N as <- <- <-.
  assert (W: hr_want q = hr_want r) by (eapply Hcon; [exact Hi|eapply nth_error_In; exact Hc|exact Hq|exact P|congruence|congruence]).
  assert (E: hc_sec c = wanted r) by (rewrite E3; unfold wanted; rewrite W; replace (hr_https q) with (hr_https r) by congruence; replace (hr_host q) with (hr_host r) by congruence; reflexivity). rewrite E. unfold wanted.
  unfold hplan in P. destruct o as [| |p]; [injection P as <-; reflexivity..|]. destruct (pr_addr p) as [a|]; [|discriminate]. destruct (pr_tls p) as [t|]; injection P as <-; [reflexivity|]. exists a. split; reflexivity.
Qed.
Print Assumptions C68_serial.
Lemma hone : forall (sr : bool) h l h1 ls h2, (forall o s a, l = HCall o s a -> sr = false \/ forall r ph, In (r, ph) (h_reqs h) -> ended ph) -> hstep h l h1 -> hsteps sr h1 ls h2 -> hsteps sr h (l :: ls) h2.
Proof. intros sr h l h1 ls h2 H. apply HS_cons. intros -> (o & s & a & ->) r ph Hi. destruct (H o s a eq_refl) as [K|K]; [discriminate|eauto]. Qed.
Definition tls_disc (t : string * nat) (a : string) : disc := DProp (mkprop (Some t) (Some a)).
Definition full (a : string) : string := if has_colon a then a else a ++ ":80".
Ltac nrm := cbn [h_name h_verif h_dialer h_idle h_reqs set_req setnth app hr_want hr_https hr_host fst snd hdial take_idle].
Lemma first_send : forall sr t a s host, hsteps sr new_transport [HCall (tls_disc t a) s host; HStep 0; HStep 0; HStep 0; HStep 0]
  (mkht (fst t) (Some (snd t)) true [] [(mkhreq true (full a) (Some t), RDone (mkhc true (full a) (MeshTLS (fst t) (Some (snd t)))))]).
Proof.
  intros. eapply hone; [intros; right; intros ? ? []|apply H_call; reflexivity|]; nrm. eapply hone; [discriminate|eapply H_name; reflexivity|]; nrm. eapply hone; [discriminate|eapply H_verif; reflexivity|]; nrm. eapply hone; [discriminate|eapply H_wrap; reflexivity|]; nrm. eapply hone; [discriminate|eapply H_send; reflexivity|]; nrm. apply HS_nil.
Qed.
(* Defect: with two requests at the same time, the first is sent to its own endpoint but with the server name and the verification data
   of the other: the endpoint is accepted when it presents the other service's certificate. *)
Theorem C68_concurrent_refuted : forall t1 a1 t2 a2 s1 s2 h1 h2, exists ls h r c, hsteps false new_transport ls h /\
  hcalls ls = [(tls_disc t1 a1, s1, h1); (tls_disc t2 a2, s2, h2)] /\ nth_error (h_reqs h) 0 = Some (r, RDone c) /\
  hc_host c = full a1 /\ hc_sec c = MeshTLS (fst t2) (Some (snd t2)).
Proof.
  intros. exists [HCall (tls_disc t1 a1) s1 h1; HCall (tls_disc t2 a2) s2 h2; HStep 0; HStep 0; HStep 0; HStep 1; HStep 1; HStep 0]. do 3 eexists. split; [|split; [reflexivity|]].
  - eapply hone; [intros; now left|apply H_call; reflexivity|]; nrm. eapply hone; [intros; now left|apply H_call; reflexivity|]; nrm. eapply hone; [discriminate|eapply H_name; reflexivity|]; nrm. eapply hone; [discriminate|eapply H_verif; reflexivity|]; nrm. eapply hone; [discriminate|eapply H_wrap; reflexivity|]; nrm.
    eapply hone; [discriminate|eapply (H_name _ 1); reflexivity|]; nrm. eapply hone; [discriminate|eapply (H_verif _ 1); reflexivity|]; nrm. eapply hone; [discriminate|eapply (H_send _ 0); reflexivity|]; nrm. apply HS_nil.
  - split; [reflexivity|]. split; reflexivity.
Qed.
Print Assumptions C68_concurrent_refuted.
(* Defect: a request for which the discovery asked for no TLS replaces the dialer of a request under way; that one is then secured by
   Go's defaults for its endpoint, without the mesh's certificates and verification. *)
Theorem C68_dialer_replaced_refuted : forall t1 a1 s1 h1 h2, exists ls h r c, hsteps false new_transport ls h /\
  hcalls ls = [(tls_disc t1 a1, s1, h1); (DNone, false, h2)] /\ nth_error (h_reqs h) 0 = Some (r, RDone c) /\ hc_sec c = GoTLS (full a1).
Proof.
  intros. exists [HCall (tls_disc t1 a1) s1 h1; HCall DNone false h2; HStep 0; HStep 0; HStep 0; HStep 1; HStep 0]. do 3 eexists. split; [|split; [reflexivity|]].
  - eapply hone; [intros; now left|apply H_call; reflexivity|]; nrm. eapply hone; [intros; now left|apply H_call; reflexivity|]; nrm. eapply hone; [discriminate|eapply H_name; reflexivity|]; nrm. eapply hone; [discriminate|eapply H_verif; reflexivity|]; nrm. eapply hone; [discriminate|eapply H_wrap; reflexivity|]; nrm.
    eapply hone; [discriminate|eapply (H_wrap _ 1); reflexivity|]; nrm. eapply hone; [discriminate|eapply (H_send _ 0); reflexivity|]; nrm. apply HS_nil.
  - split; reflexivity.
Qed.
Print Assumptions C68_dialer_replaced_refuted.
(* Defect: and the other way round, a plain-text request is sent with mesh TLS to a server that speaks none. *)
Theorem C68_plain_wrapped_refuted : forall t1 a1 s1 h1 h2, exists ls h r c, hsteps false new_transport ls h /\
  hcalls ls = [(tls_disc t1 a1, s1, h1); (DNone, false, h2)] /\ nth_error (h_reqs h) 1 = Some (r, RDone c) /\ hc_https c = false /\ hc_host c = h2 /\ hc_sec c = MeshTLS (fst t1) (Some (snd t1)).
Proof.
  intros. exists [HCall (tls_disc t1 a1) s1 h1; HCall DNone false h2; HStep 1; HStep 0; HStep 0; HStep 0; HStep 1]. do 3 eexists. split; [|split; [reflexivity|]].
  - eapply hone; [intros; now left|apply H_call; reflexivity|]; nrm. eapply hone; [intros; now left|apply H_call; reflexivity|]; nrm. eapply hone; [discriminate|eapply (H_wrap _ 1); reflexivity|]; nrm. eapply hone; [discriminate|eapply H_name; reflexivity|]; nrm. eapply hone; [discriminate|eapply H_verif; reflexivity|]; nrm. eapply hone; [discriminate|eapply H_wrap; reflexivity|]; nrm.
    eapply hone; [discriminate|eapply (H_send _ 1); reflexivity|]; nrm. apply HS_nil.
  - split; [reflexivity|]. split; [reflexivity|]. split; reflexivity.
Qed.
Print Assumptions C68_plain_wrapped_refuted.
(* Defect: even one at a time, after the discovery has changed the settings of an endpoint a request is sent over the kept connection
   that was made with the old ones. *)
Theorem C68_stale_settings_refuted : forall t1 t2 a h1 h2, exists ls h r c, hsteps true new_transport ls h /\
  hcalls ls = [(tls_disc t1 a, false, h1); (tls_disc t2 a, false, h2)] /\ nth_error (h_reqs h) 1 = Some (r, RDone c) /\ hc_sec c = MeshTLS (fst t1) (Some (snd t1)).
Proof.
  intros. exists [HCall (tls_disc t1 a) false h1; HStep 0; HStep 0; HStep 0; HStep 0; HKeep 0; HCall (tls_disc t2 a) false h2; HStep 1; HStep 1; HStep 1; HStep 1]. do 3 eexists. split; [|split; [reflexivity|]].
  - eapply hone; [intros; right; intros ? ? []|apply H_call; reflexivity|]; nrm. eapply hone; [discriminate|eapply H_name; reflexivity|]; nrm. eapply hone; [discriminate|eapply H_verif; reflexivity|]; nrm. eapply hone; [discriminate|eapply H_wrap; reflexivity|]; nrm. eapply hone; [discriminate|eapply H_send; reflexivity|]; nrm. eapply hone; [discriminate|eapply (H_keep _ 0); reflexivity|]; nrm.
    eapply hone; [intros; right; intros ? ? [E|[]]; injection E as <- <-; exact I|apply H_call; reflexivity|]; nrm. eapply hone; [discriminate|eapply (H_name _ 1); reflexivity|]; nrm. eapply hone; [discriminate|eapply (H_verif _ 1); reflexivity|]; nrm. eapply hone; [discriminate|eapply (H_wrap _ 1); reflexivity|]; nrm. eapply hone; [discriminate|eapply (H_send _ 1); reflexivity|]; nrm. apply HS_nil.
  - cbn. rewrite String.eqb_refl. cbn. split; reflexivity.
Qed.
Print Assumptions C68_stale_settings_refuted.
(* Defect: when the discovery fails the request is sent in plain text, with no error, and so it is when it knows nothing of the host. *)
Theorem C68_discovery_error_refuted : forall o host, o = DErr \/ o = DNone -> exists ls h r c, hsteps true new_transport ls h /\ hcalls ls = [(o, false, host)] /\
  nth_error (h_reqs h) 0 = Some (r, RDone c) /\ hc_host c = host /\ hc_sec c = Plain.
Proof.
  intros o host Ho. exists [HCall o false host; HStep 0; HStep 0]. do 3 eexists. split; [|split; [reflexivity|]].
  - eapply hone; [intros; right; intros ? ? []|apply (H_call _ _ _ _ (mkhreq false host None)); destruct Ho as [-> | ->]; reflexivity|]; nrm. eapply hone; [discriminate|eapply H_wrap; reflexivity|]; nrm. eapply hone; [discriminate|eapply H_send; reflexivity|]; nrm. apply HS_nil.
  - split; [reflexivity|]. split; reflexivity.
Qed.
Print Assumptions C68_discovery_error_refuted.
(* the hypotheses of C68_serial and C68_always_verified are met *)
Example C68_ex : exists ls h r c, hsteps true new_transport ls h /\
  (forall o1 s1 h1 o2 s2 h2 r1 r2, In (o1, s1, h1) (hcalls ls) -> In (o2, s2, h2) (hcalls ls) -> hplan o1 s1 h1 = Some r1 -> hplan o2 s2 h2 = Some r2 ->
     hr_https r1 = hr_https r2 -> hr_host r1 = hr_host r2 -> hr_want r1 = hr_want r2) /\
  nth_error (h_reqs h) 0 = Some (r, RDone c) /\ hc_sec c = MeshTLS "api.ns" (Some 3).
Proof.
  exists [HCall (tls_disc ("api.ns", 3) "10.0.0.2:8443") false "api"; HStep 0; HStep 0; HStep 0; HStep 0]. do 3 eexists. split; [apply first_send|]. split; [|split; reflexivity].
  intros o1 s1 h1 o2 s2 h2 r1 r2 [E1|[]] [E2|[]] P1 P2 _ _. injection E1 as <- <- <-. injection E2 as <- <- <-. congruence.
Qed.
