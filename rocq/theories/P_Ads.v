(* Property theorems C20-C24: the ADS client's resource caches and the xDS protocol. *)
From Coq Require Import List String Bool Lia.
From Verif Require Import M_GoMap L_GoMap M_Ads S_Ads L_Ads L_AdsClient.
Import ListNotations.
Open Scope string_scope.

(* sample data *)
Definition cfg_sotw := mkconfig false true true (fun _ => true).
Definition cfg_delta := mkconfig true true true (fun _ => true).
Definition cl (n : string) : message := MCluster (mkcluster n true None).
Definition cla (n : string) : message := MCla n ["10.0.0.1"].
Definition sotw (t : rtype) (v n : string) (l : list message) := RespSotW (type_url t) v n (map (fun m => Some (AnyOf m)) l) true.
Definition delta (t : rtype) (n : string) (l : list (string * message)) (rem : list string) :=
  RespDelta (type_url t) n (map (fun e => Some (mkresource (fst e) (Some (AnyOf (snd e))))) l) rem true.
(* a response whose last resource cannot be decoded *)
Definition sotw_bad (t : rtype) (v n : string) (l : list message) := RespSotW (type_url t) v n (map (fun m => Some (AnyOf m)) l ++ [Some AnyBad])%list true.
Definition delta_bad (t : rtype) (n : string) := RespDelta (type_url t) n [Some (mkresource "x" (Some AnyBad))] [] true.

(* ---- C20 ---- *)
Definition op_ok (o : op) : Prop := match o with OAdd t _ | OSet t _ _ => t <> NDS | _ => True end.
Lemma exec_prov : forall o s, op_ok o -> (forall n m, get_resource n (exec s o) = Some m -> get_resource n s = Some m \/ (subscribed s n /\ op_brings o n m)) /\ (nd (c_res s) -> nd (c_res (exec s o))).
Proof.
  intros o s Ho. destruct o; cbn [exec op_ok op_brings] in *.
  - destruct names; cbn; tauto.
  - cbn; tauto.
  - cbn; tauto.
  - destruct (add_resources t rs s) as [s' e] eqn:E. destruct (add_any _ _ _ _ _ Ho E) as (_ & H & H'). split; [|assumption]. cbn. intros n m Hm. specialize (H n m Hm). tauto.
  - destruct (add_istio_resources rs s) as [s' e] eqn:E. destruct (add_istio_any _ _ _ _ E) as (_ & H & H'). split; [|assumption]. exact H.
  - destruct (set_resources t rs replace s) as [s' e] eqn:E. destruct (set_any _ _ _ _ _ _ Ho E) as (_ & H & H'). split; [|assumption]. cbn. intros n m Hm. specialize (H n m Hm). tauto.
  - destruct (set_istio_resources rs s) as [s' e] eqn:E. destruct (set_istio_any _ _ _ _ E) as (_ & H & H'). split; [|assumption]. exact H.
  - unfold get_resource. cbn. split; [|intros; now apply nodup_dels]. intros n m. rewrite mget_dels. destruct (mem n names); [discriminate|tauto].
  - unfold get_resource. cbn. split; [discriminate|]. intros; constructor.
  - cbn; tauto.
  - cbn; tauto.
Qed.
(* At most one resource per name, after every history of operations. *)
Theorem C20_one_per_name : forall ops, Forall op_ok ops -> NoDup (map fst (get_resources (exec_all ops))).
Proof.
  intros ops Ho. unfold exec_all, get_resources. assert (H: nd (c_res empty_cache)) by constructor. revert H. generalize empty_cache. induction Ho as [|o ops Ho1 Ho IH]; intros s H; [exact H|].
  cbn [fold_left]. apply IH. now apply exec_prov.
Qed.
Print Assumptions C20_one_per_name.
(* Whatever the history, a resource that can be read was part of an operation at which its name was subscribed. *)
Theorem C20_only_subscribed_are_stored : forall ops n m, Forall op_ok ops -> get_resource n (exec_all ops) = Some m ->
  exists pre o post, ops = (pre ++ o :: post)%list /\ op_brings o n m /\ subscribed (exec_all pre) n.
Proof.
  intros ops. induction ops as [|o ops IH] using rev_ind; intros n m Ho H; [discriminate|].
  apply Forall_app in Ho. destruct Ho as [Ho Hl]. inversion Hl; subst. unfold exec_all in H. rewrite fold_left_app in H. cbn in H.
  destruct (exec_prov o (fold_left exec ops empty_cache) H2) as [Hp _]. destruct (Hp n m H) as [Hb|[Hs Hb]].
  - destruct (IH n m Ho Hb) as (pre & o' & post & -> & Hx & Hy). exists pre, o', (post ++ [o])%list. split; [now rewrite <- app_assoc|tauto].
  - exists ops, o, []. tauto.
Qed.
Print Assumptions C20_only_subscribed_are_stored.
(* If no subscription change drops a name whose resource is cached, every cached resource is subscribed. *)
Theorem C20_subscribed : forall ops, Forall op_ok ops ->
  (forall pre o post, ops = (pre ++ o :: post)%list -> forall n m, get_resource n (exec_all pre) = Some m -> subscribed (exec_all pre) n -> subscribed (exec (exec_all pre) o) n) ->
  forall n m, get_resource n (exec_all ops) = Some m -> subscribed (exec_all ops) n.
Proof.
  intros ops. induction ops as [|o ops IH] using rev_ind; intros Ho Hk n m H; [discriminate|].
  apply Forall_app in Ho. destruct Ho as [Ho Hl]. inversion Hl; subst. unfold exec_all in *. rewrite fold_left_app in *. cbn in *.
  assert (IH': forall n m, get_resource n (fold_left exec ops empty_cache) = Some m -> subscribed (fold_left exec ops empty_cache) n).
  { apply IH; [assumption|]. intros pre o' post -> n' m' Hg Hs. eapply (Hk pre o' (post ++ [o])%list); [now rewrite <- app_assoc|eassumption|assumption]. }
  destruct (exec_prov o (fold_left exec ops empty_cache) H2) as [Hp _]. destruct (Hp n m H) as [Hb|[Hs Hb]].
  - eapply (Hk ops o []); [reflexivity|eassumption|eauto].
  - assert (Hsub: c_sub (exec (fold_left exec ops empty_cache) o) = c_sub (fold_left exec ops empty_cache)).
    { destruct o; cbn [exec op_brings op_ok] in *; try contradiction.
      - destruct (add_resources t rs _) eqn:E. apply add_any in E; [|assumption]. apply E.
      - destruct (add_istio_resources rs _) eqn:E. apply add_istio_any in E. apply E.
      - destruct (set_resources t rs replace _) eqn:E. apply set_any in E; [|assumption]. apply E.
      - destruct (set_istio_resources rs _) eqn:E. apply set_istio_any in E. apply E. }
    unfold subscribed in *. now rewrite Hsub.
Qed.
Print Assumptions C20_subscribed.
(* Without that hypothesis the claim is false of the client: in incremental mode a cluster list that drops
   cluster "a" unsubscribes from its endpoints but keeps them cached; *)
Theorem C20_subscribed_refuted : exists es n m, let c := run cfg_delta new_client es in
  get_resource n (c EDS) = Some m /\ ~ subscribed (c EDS) n.
Proof.
  exists [EConnect; EResp (delta CDS "1" [("a", cl "a"); ("b", cl "b")] []); EResp (delta EDS "2" [("a", cla "a")] []); EResp (delta CDS "3" [] ["a"])], "a", (cla "a").
  split; [vm_compute; reflexivity|]. unfold subscribed. intros [H|H]; vm_compute in H; intuition discriminate.
Qed.
Print Assumptions C20_subscribed_refuted.
(* and a reconnect forgets the endpoint subscription but not the endpoints. *)
Theorem C20_subscribed_reconnect_refuted : exists es n m, let c := run cfg_sotw new_client es in
  get_resource n (c EDS) = Some m /\ ~ subscribed (c EDS) n.
Proof.
  exists [EConnect; EResp (sotw CDS "1" "n1" [cl "a"]); EResp (sotw EDS "1" "n2" [cla "a"]); EConnect], "a", (cla "a").
  split; [vm_compute; reflexivity|]. unfold subscribed. intros [H|H]; vm_compute in H; intuition discriminate.
Qed.
Print Assumptions C20_subscribed_reconnect_refuted.
(* On one state-of-the-world stream, as long as no parent refers to the name "*", every cached resource is
   subscribed. *)
Lemma step_sub_inv : forall g c resp, g_incremental g = false -> (forall t, t = EDS \/ t = RDS -> ~ In "*" (c_sub (c t))) ->
  (forall t n m, get_resource n (c t) = Some m -> subscribed (c t) n) ->
  forall t n m, get_resource n (fst (step g c (EResp resp)) t) = Some m -> subscribed (fst (step g c (EResp resp)) t) n.
Proof.
  intros g c resp Hg Hw Hi t n m. cbn [step]. destruct (receive g c resp) as [[c3 reqs]|] eqn:E; [|apply Hi]. cbn [fst].
  apply receive_inv in E. destruct E as (t0 & c1 & e & c2 & r & rs & Ht & Hh & Ha & Hu & ->).
  assert (H2: forall t n m, get_resource n (c2 t) = Some m -> subscribed (c2 t) n).
  { intros t' n' m'. unfold subscribed, get_resource. destruct (answered_view _ _ _ _ _ _ t' Ha) as [-> ->]. destruct (rtype_eq_dec t' t0) as [->|Hne].
    - destruct (handle_any _ _ _ _ _ Hh Ht) as (Hs & Hr & _). rewrite Hs. intros Hm. destruct (Hr _ _ Hm) as [Hm'|[Hm' _]]; [now apply Hi in Hm'|assumption].
    - rewrite (handle_other _ _ _ _ _ _ Hh Ht Hne). apply Hi. }
  assert (Hw2: forall t, t = EDS \/ t = RDS -> ~ In "*" (c_sub (c2 t))).
  { intros t' Ht'. destruct (answered_view _ _ _ _ _ _ t' Ha) as [-> _]. destruct (rtype_eq_dec t' t0) as [->|Hne].
    - destruct (handle_any _ _ _ _ _ Hh Ht) as (-> & _). auto.
    - rewrite (handle_other _ _ _ _ _ _ Hh Ht Hne). auto. }
  destruct (dep t0) as [d|] eqn:Ed.
  2: { rewrite (updated_other _ _ _ _ _ t Hu) by (rewrite Ed; discriminate). apply H2. }
  destruct (rtype_eq_dec t d) as [->|Hne].
  2: { rewrite (updated_other _ _ _ _ _ t Hu) by congruence. apply H2. }
  assert (Hd: d = EDS \/ d = RDS) by (destruct t0; cbn in Ed; try discriminate; injection Ed as <-; tauto).
  assert (Hs := updated_spec _ _ _ _ _ Hu). rewrite Ed in Hs. destruct Hs as (n0 & Hs). apply resub_spec in Hs.
  destruct Hs as (_ & _ & _ & _ & Hnil & Hcons & _ & _ & Hres & _). rewrite Hres, Hg. cbn [negb andb].
  destruct (mem n (c_sub (c2 d))) eqn:Em; cbn [andb].
  - destruct (mem n (references n0)) eqn:En; cbn [negb]; [|discriminate]. intros _. apply mem_in in En. right. apply Hcons; [|assumption]. intros Hc. rewrite Hc in En. destruct En.
  - intros Hm. apply H2 in Hm. exfalso. destruct Hm as [Hm|Hm]; [eapply Hw2; eassumption|]. apply mem_in in Hm. congruence.
Qed.
Theorem C20_sotw_stream : forall g rs, g_incremental g = false ->
  (forall k t, t = EDS \/ t = RDS -> ~ In "*" (c_sub (run g new_client (EConnect :: map EResp (firstn k rs)) t))) ->
  forall t n m, let c := run g new_client (EConnect :: map EResp rs) in get_resource n (c t) = Some m -> subscribed (c t) n.
Proof.
  intros g rs Hg. induction rs as [|resp rs IH] using rev_ind; intros Hw t n m.
  - cbn. destruct t; discriminate.
  - rewrite map_app. change (EConnect :: map EResp rs ++ map EResp [resp])%list with ((EConnect :: map EResp rs) ++ [EResp resp])%list. rewrite run_app. cbn [run map].
    apply step_sub_inv; [assumption| |].
    + intros t' Ht'. specialize (Hw (List.length rs) t' Ht'). now rewrite firstn_app, PeanoNat.Nat.sub_diag, firstn_all, firstn_O, app_nil_r in Hw.
    + apply IH. intros k t' Ht'. destruct (PeanoNat.Nat.le_gt_cases k (List.length rs)).
      * specialize (Hw k t' Ht'). rewrite firstn_app in Hw. replace (k - List.length rs) with 0 in Hw by lia. now rewrite firstn_O, app_nil_r in Hw.
      * specialize (Hw (List.length rs) t' Ht'). rewrite firstn_app, PeanoNat.Nat.sub_diag, firstn_all, firstn_O, app_nil_r in Hw. rewrite firstn_all2 by lia. assumption.
Qed.
Print Assumptions C20_sotw_stream.
(* A successful add makes precisely the subscribed resources of the response readable, keeps all others, and
   leaves the subscription alone; a rejected add changes nothing. *)
Theorem C20_add : forall t rs s s', t <> NDS -> add_resources t rs s = (s', None) -> added s s' (offers t rs).
Proof. exact add_ok. Qed.
Print Assumptions C20_add.
Theorem C20_add_name_table : forall rs s s', add_istio_resources rs s = (s', None) -> added s s' (offers NDS rs).
Proof. exact add_istio_ok. Qed.
Print Assumptions C20_add_name_table.
Theorem C20_add_rejected : forall t rs s s' e, add_resources t rs s = (s', Some e) -> s' = s.
Proof. exact add_err. Qed.
Print Assumptions C20_add_rejected.
Theorem C20_add_name_table_rejected : forall rs s s' e, add_istio_resources rs s = (s', Some e) -> s' = s.
Proof. exact add_istio_err. Qed.
Print Assumptions C20_add_name_table_rejected.
(* an add is rejected precisely when some resource cannot be decoded or two subscribed ones share a name *)
Lemma add_loop_err : forall t s rs typed e, add_loop s t rs typed = inr e ->
  (exists r a, In (Some r) rs /\ r_any r = Some a /\ ~ decodable t a) \/
  (exists n, subscribed s n /\ ((mget n typed <> None /\ exists a, In (Some (mkresource n (Some a))) rs) \/
     exists l1 l2 l3 a1 a2, rs = (l1 ++ Some (mkresource n (Some a1)) :: l2 ++ Some (mkresource n (Some a2)) :: l3)%list)).
Proof.
  intros t s rs. induction rs as [|[r|] rest IH]; cbn [add_loop]; intros typed e H; [discriminate| |].
  - assert (Hgo: forall ty, add_loop s t rest ty = inr e -> (forall n, mget n ty <> None -> mget n typed <> None \/ (n = r_name r /\ exists a, r_any r = Some a)) -> 
      (exists r0 a, In (Some r0) (Some r :: rest) /\ r_any r0 = Some a /\ ~ decodable t a) \/
      (exists n, subscribed s n /\ ((mget n typed <> None /\ exists a, In (Some (mkresource n (Some a))) (Some r :: rest)) \/
        exists l1 l2 l3 a1 a2, (Some r :: rest) = (l1 ++ Some (mkresource n (Some a1)) :: l2 ++ Some (mkresource n (Some a2)) :: l3)%list))).
    { intros ty Hl Hty. destruct (IH ty e Hl) as [(r0 & a & H1 & H2 & H3)|(n & Hs & [[H1 [a H2]]|(l1 & l2 & l3 & a1 & a2 & ->)])].
      - left. exists r0, a. split; [now right|auto].
      - right. exists n. split; [assumption|]. destruct (Hty n H1) as [H3|[-> [a0 H3]]].
        + left. split; [assumption|]. exists a. now right.
        + right. apply in_split in H2. destruct H2 as (l2 & l3 & ->). exists [], l2, l3, a0, a. cbn. destruct r as [rn ra]. cbn in *. now subst ra.
      - right. exists n. split; [assumption|]. right. exists (Some r :: l1), l2, l3, a1, a2. reflexivity. }
    destruct (r_any r) as [a|] eqn:Ea; [|apply (Hgo typed); [assumption|tauto]].
    destruct (unmarshal_to t a) as [m|] eqn:Eu.
    2: { left. exists r, a. split; [now left|]. split; [assumption|]. now apply unmarshal_none. }
    destruct (negb (is_subscribed_for s (r_name r))) eqn:Es; [apply (Hgo typed); [assumption|tauto]|].
    destruct (mget (r_name r) typed) eqn:Eg.
    + right. exists (r_name r). split; [now apply negb_false_iff, sub_for in Es|]. left. split; [congruence|]. exists a. left. destruct r as [rn ra]. cbn in *. now subst ra.
    + apply (Hgo _ H). intros n. rewrite mget_mset. destruct (String.eqb n (r_name r)) eqn:En; [|tauto]. apply String.eqb_eq in En. intros _. right. split; [assumption|]. eauto.
  - destruct (IH typed e H) as [(r0 & a & H1 & H2 & H3)|(n & Hs & [[H1 [a H2]]|(l1 & l2 & l3 & a1 & a2 & ->)])].
    + left. exists r0, a. split; [now right|auto].
    + right. exists n. split; [assumption|]. left. split; [assumption|]. exists a. now right.
    + right. exists n. split; [assumption|]. right. exists (None :: l1), l2, l3, a1, a2. reflexivity.
Qed.
Theorem C20_add_rejected_why : forall t rs s s' e, add_resources t rs s = (s', Some e) ->
  (exists r a, In (Some r) rs /\ r_any r = Some a /\ ~ decodable t a) \/
  (exists n a1 a2 l1 l2 l3, subscribed s n /\ rs = (l1 ++ Some (mkresource n (Some a1)) :: l2 ++ Some (mkresource n (Some a2)) :: l3)%list).
Proof.
  intros t rs s s' e H. unfold add_resources in H. destruct rs as [|r0 rs0]; [discriminate|]. remember (r0 :: rs0) as rs.
  destruct (add_loop s t rs []) as [ty|er] eqn:E; [discriminate|]. apply add_loop_err in E. destruct E as [E|(n & Hs & [[H1 _]|(l1 & l2 & l3 & a1 & a2 & E)])]; [now left|now destruct H1|].
  right. exists n, a1, a2, l1, l2, l3. auto.
Qed.
Print Assumptions C20_add_rejected_why.
Theorem C20_remove : forall names s n, get_resource n (remove_resources names s) = if in_dec string_dec n names then None else get_resource n s.
Proof.
  intros names s n. unfold get_resource. cbn. rewrite mget_dels. destruct (in_dec string_dec n names) as [H|H]; [now rewrite (proj2 (mem_in _ _) H)|now rewrite (proj2 (mem_false _ _) H)].
Qed.
Print Assumptions C20_remove.
Example C20_ex : let s := subscribe ["a"; "b"] empty_cache in
  let s' := fst (add_resources EDS [Some (mkresource "a" (Some (AnyOf (cla "a")))); None; Some (mkresource "z" (Some (AnyOf (cla "z"))))] s) in
  get_resource "a" s' = Some (cla "a") /\ get_resource "z" s' = None /\
  snd (add_resources EDS [Some (mkresource "b" (Some (AnyOf (cla "b")))); Some (mkresource "b" (Some (AnyOf (cla "b"))))] s') = Some (EDuplicate "b").
Proof. vm_compute. auto. Qed.
(* the hypotheses of C20_sotw_stream are met by a stream that subscribes to endpoints *)
Example C20_ex_stream : let rs := [sotw CDS "1" "n1" [cl "a"]; sotw EDS "1" "n2" [cla "a"; cla "q"]] in
  let c := run cfg_sotw new_client (EConnect :: map EResp rs) in get_resource "a" (c EDS) = Some (cla "a") /\ c_sub (c EDS) = ["a"].
Proof. vm_compute. auto. Qed.

(* computing a step on concrete histories through the first-order requests only *)
Lemma receive_by : forall g c resp r reqs, snd (step g c (EResp resp)) = r :: reqs -> receive g c resp = Some (fst (step g c (EResp resp)), r :: reqs).
Proof. intros g c resp r reqs. cbn [step]. destruct (receive g c resp) as [[c' l]|]; cbn; [intros ->; reflexivity|discriminate]. Qed.
(* ---- C21 ---- *)
Lemma accepted_handle : forall g c resp c3 r rs, receive g c resp = Some (c3, r :: rs) -> req_error r = None ->
  exists t c1, rtype_of_url (url_of resp) = Some t /\ handle_response c resp = (c1, None) /\
    (forall t', dep t <> Some t' -> c_res (c3 t') = c_res (c1 t') /\ c_sub (c3 t') = c_sub (c1 t')).
Proof.
  intros g c resp c3 r rs H He. apply receive_inv in H. destruct H as (t & c1 & e & c2 & r' & rs' & Ht & Hh & Ha & Hu & Heq). injection Heq as <- <-.
  assert (Hr := answered_error _ _ _ _ _ _ Ha). exists t, c1.
  split; [assumption|]. split; [congruence|]. intros t' Hd.
  rewrite (updated_other _ _ _ _ _ t' Hu Hd). destruct (answered_view _ _ _ _ _ _ t' Ha) as [-> ->]. tauto.
Qed.
(* Clusters, listeners and name tables: in every history, after an accepted state-of-the-world response the cache
   holds exactly the resources of that response. *)
Theorem C21_replaced_exactly : forall g es t v nonce rs valid c' r reqs, t = CDS \/ t = LDS \/ t = NDS ->
  receive g (run g new_client (EConnect :: es)) (RespSotW (type_url t) v nonce rs valid) = Some (c', r :: reqs) -> req_error r = None ->
  forall n m, get_resource n (c' t) = Some m <-> carries t rs n m.
Proof.
  intros g es t v nonce rs valid c' r reqs Ht H He n m. set (c := run g new_client (EConnect :: es)) in *.
  assert (Hw: In "*" (c_sub (c t))) by (apply run_wild; assumption).
  destruct (accepted_handle _ _ _ _ _ _ H He) as (t' & c1 & Ht' & Hh & Hv). cbn [url_of] in Ht'. rewrite url_rtype in Ht'. injection Ht' as <-.
  destruct (Hv t) as [Hr _]. { destruct t; cbn; try discriminate. }
  unfold get_resource. rewrite Hr. change (get_resource n (c1 t) = Some m <-> carries t rs n m).
  cbn [handle_response] in Hh. destruct valid; [|discriminate]. unfold handle_sotw in Hh. rewrite url_rtype in Hh.
  assert (Hsub: subscribed (c t) n) by now left. assert (Hall: is_subscribed_for_all (c t) = true) by now apply mem_in.
  assert (Hass: exists s' all, c1 t = s' /\ assigned all (c t) s' (carries t rs) /\ all = true).
  { destruct Ht as [->|[->| ->]].
    - destruct (set_resources CDS rs true (c CDS)) as [s' e] eqn:E. injection Hh as <- ->. exists s'. eexists. split; [apply upd_same|]. split; [eapply set_ok; [discriminate|exact E]|]. now destruct rs.
    - destruct (set_resources LDS rs true (c LDS)) as [s' e] eqn:E. injection Hh as <- ->. exists s'. eexists. split; [apply upd_same|]. split; [eapply set_ok; [discriminate|exact E]|]. now destruct rs.
    - destruct (set_istio_resources rs (c NDS)) as [s' e] eqn:E. injection Hh as <- ->. exists s'. eexists. split; [apply upd_same|]. split; [eapply set_istio_ok; exact E|]. rewrite Hall. now destruct rs. }
  destruct Hass as (s' & all & -> & [_ Ha] & ->). rewrite Ha. split; [intros [[_ ?]|[? _]]; [assumption|discriminate]|intros ?; left; tauto].
Qed.
Print Assumptions C21_replaced_exactly.
(* Endpoints and routes: an accepted response with at least one resource updates the subscribed resources it
   carries, drops the unsubscribed ones, and keeps what it does not mention. *)
Theorem C21_endpoints_routes : forall g es t v nonce rs valid c' r reqs, t = EDS \/ t = RDS -> rs <> [] ->
  let c := run g new_client (EConnect :: es) in
  receive g c (RespSotW (type_url t) v nonce rs valid) = Some (c', r :: reqs) -> req_error r = None ->
  assigned (is_subscribed_for_all (c t)) (c t) (c' t) (carries t rs).
Proof.
  intros g es t v nonce rs valid c' r reqs Ht Hrs c H He.
  destruct (accepted_handle _ _ _ _ _ _ H He) as (t' & c1 & Ht' & Hh & Hv). cbn [url_of] in Ht'. rewrite url_rtype in Ht'. injection Ht' as <-.
  destruct (Hv t) as [Hr Hs]. { destruct t; cbn; try discriminate. }
  cbn [handle_response] in Hh. destruct valid; [|discriminate]. unfold handle_sotw in Hh. rewrite url_rtype in Hh.
  assert (Hass: assigned (is_subscribed_for_all (c t)) (c t) (c1 t) (carries t rs)).
  { destruct Ht as [->| ->].
    - destruct (set_resources EDS rs false (c EDS)) as [s' e] eqn:E. injection Hh as <- ->. apply set_ok in E; [|discriminate]. rewrite upd_same. destruct rs; [congruence|exact E].
    - destruct (set_resources RDS rs false (c RDS)) as [s' e] eqn:E. injection Hh as <- ->. apply set_ok in E; [|discriminate]. rewrite upd_same. destruct rs; [congruence|exact E]. }
  unfold assigned, get_resource in *. rewrite Hr, Hs. exact Hass.
Qed.
Print Assumptions C21_endpoints_routes.
(* so "nothing from before" is false for them: *)
Theorem C21_stale_endpoints_refuted : exists es resp n m c' r reqs,
  receive cfg_sotw (run cfg_sotw new_client (EConnect :: es)) resp = Some (c', r :: reqs) /\ req_error r = None /\
  resp = sotw EDS "2" "n3" [cla "b"] /\ get_resource n (c' EDS) = Some m /\ ~ carries EDS [Some (AnyOf (cla "b"))] n m.
Proof.
  exists [EResp (sotw CDS "1" "n1" [cl "a"; cl "b"]); EResp (sotw EDS "1" "n2" [cla "a"; cla "b"])], (sotw EDS "2" "n3" [cla "b"]), "a", (cla "a"). do 3 eexists.
  split; [apply receive_by; vm_compute; reflexivity|]. split; [reflexivity|]. split; [reflexivity|]. split; [vm_compute; reflexivity|]. cbn. intros ([H|[]] & _). discriminate.
Qed.
Print Assumptions C21_stale_endpoints_refuted.
Example C21_ex : exists c' r reqs, receive cfg_sotw (run cfg_sotw new_client [EConnect; EResp (sotw CDS "1" "n1" [cl "a"; cl "b"])]) (sotw CDS "2" "n2" [cl "b"]) = Some (c', r :: reqs)
  /\ req_error r = None /\ get_resource "a" (c' CDS) = None /\ get_resource "b" (c' CDS) = Some (cl "b").
Proof. do 3 eexists. split; [apply receive_by; vm_compute; reflexivity|]. vm_compute. auto. Qed.

(* ---- C22 ---- *)
(* an accepted response is acknowledged with its own version and nonce; no other request precedes *)
Theorem C22_ack : forall g c resp r, answer g c resp r -> req_error r = None ->
  match resp with
  | RespSotW url v nonce _ _ => exists names, r = ReqSotW url v names nonce None
  | RespDelta url nonce _ _ _ => r = ReqDelta url [] [] nonce None
  end.
Proof.
  intros g c resp r (c' & rs & H) He. apply receive_inv in H. destruct H as (t & c1 & e & c2 & r' & rs' & Ht & Hh & Ha & Hu & Heq). injection Heq as <- <-.
  rewrite (answered_error _ _ _ _ _ _ Ha) in He. subst e. destruct resp; cbn in Ha; injection Ha as _ <-; [eexists; reflexivity|reflexivity].
Qed.
Print Assumptions C22_ack.
(* a rejected incremental response is answered with its own nonce and the error *)
Theorem C22_nack_delta : forall g c url nonce rs rem valid r e, answer g c (RespDelta url nonce rs rem valid) r -> req_error r = Some e ->
  r = ReqDelta url [] [] nonce (Some e).
Proof.
  intros g c url nonce rs rem valid r e (c' & reqs & H) He. apply receive_inv in H. destruct H as (t & c1 & e' & c2 & r' & rs' & Ht & Hh & Ha & Hu & Heq). injection Heq as <- <-.
  rewrite (answered_error _ _ _ _ _ _ Ha) in He. subst e'. cbn in Ha. injection Ha as _ <-. reflexivity.
Qed.
Print Assumptions C22_nack_delta.
(* a rejected state-of-the-world response is answered, in every history, with the error and the version of the last
   acknowledged response of that type ("" if none) *)
Theorem C22_nack_sotw : forall g es t v nonce rs valid r e,
  answer g (run g new_client es) (RespSotW (type_url t) v nonce rs valid) r -> req_error r = Some e ->
  exists names nonce', r = ReqSotW (type_url t) (last_acked t "" (trace g new_client es)) names nonce' (Some e).
Proof.
  intros g es t v nonce rs valid r e (c' & reqs & H) He. apply receive_inv in H. destruct H as (t' & c1 & e' & c2 & r' & rs' & Ht & Hh & Ha & Hu & Heq). injection Heq as <- <-.
  rewrite (answered_error _ _ _ _ _ _ Ha) in He. subst e'. cbn [url_of] in Ht. rewrite url_rtype in Ht. injection Ht as <-. cbn in Ha. injection Ha as _ <-. unfold last_version. rewrite url_rtype.
  destruct (handle_any _ _ _ _ t Hh (url_rtype t)) as (_ & _ & _ & -> & _). rewrite run_ver. cbn. eexists. eexists. reflexivity.
Qed.
Print Assumptions C22_nack_sotw.
(* missing: the nonce. The nonce is looked up as if it were a resource type, so it is empty for every nonce that
   is not literally one of the five type URLs. *)
Theorem C22_nack_sotw_nonce_refuted : forall g c url v nonce rs valid r e, (forall t, nonce <> type_url t) ->
  answer g c (RespSotW url v nonce rs valid) r -> req_error r = Some e ->
  exists version names, r = ReqSotW url version names "" (Some e).
Proof.
  intros g c url v nonce rs valid r e Hn (c' & reqs & H) He. apply receive_inv in H. destruct H as (t & c1 & e' & c2 & r' & rs' & Ht & Hh & Ha & Hu & Heq). injection Heq as <- <-.
  rewrite (answered_error _ _ _ _ _ _ Ha) in He. subst e'. cbn in Ha. injection Ha as _ <-. unfold last_nonce at 1.
  destruct (rtype_of_url nonce) as [t'|] eqn:E; [apply rtype_url in E; exfalso; eapply Hn; exact E|]. do 2 eexists; reflexivity.
Qed.
Print Assumptions C22_nack_sotw_nonce_refuted.
(* every response of a supported type is answered, by exactly one ACK or NACK first; others end the stream *)
Theorem C22_answered : forall g c resp, (exists r, answer g c resp r) <-> (exists t, url_of resp = type_url t).
Proof.
  intros g c resp. unfold answer. split.
  - intros (r & c' & rs & H). apply receive_inv in H. destruct H as (t & ? & ? & ? & ? & ? & Ht & _). exists t. now apply rtype_url.
  - intros [t Ht]. unfold receive. rewrite Ht, url_rtype. destruct (handle_response c resp) as [c1 e].
    destruct (match e with Some e0 => (c1, nack g c1 resp e0) | None => ack g c1 resp end) as [c2 r]. destruct (on_updated g t c2) as [c3 rs]. eauto.
Qed.
Print Assumptions C22_answered.
Example C22_ex : answer cfg_sotw (run cfg_sotw new_client [EConnect; EResp (sotw CDS "7" "n1" [cl "a"])]) (sotw_bad CDS "8" "n2" [])
  (ReqSotW (type_url CDS) "7" ["*"] "" (Some EDecode)).
Proof. do 2 eexists. apply receive_by. vm_compute. reflexivity. Qed.

(* ---- C23 ---- *)
(* False of the code for state-of-the-world cluster responses: a response whose second cluster is malformed is
   rejected, but the clusters are gone and so are the endpoints of the clusters. *)
Theorem C23_rejected_clusters_refuted : exists es resp c' r e reqs, let c := run cfg_sotw new_client es in
  receive cfg_sotw c resp = Some (c', r :: reqs) /\ req_error r = Some e /\
  get_resource "a" (c CDS) = Some (cl "a") /\ get_resource "a" (c' CDS) = None /\
  get_resource "a" (c EDS) = Some (cla "a") /\ get_resource "a" (c' EDS) = None.
Proof.
  exists [EConnect; EResp (sotw CDS "1" "n1" [cl "a"]); EResp (sotw EDS "1" "n2" [cla "a"])], (sotw_bad CDS "2" "n3" [cl "a"]). do 4 eexists.
  split; [apply receive_by; vm_compute; reflexivity|]. split; [reflexivity|]. vm_compute. auto.
Qed.
Print Assumptions C23_rejected_clusters_refuted.
(* and for incremental name tables: *)
Theorem C23_rejected_name_table_refuted : exists es resp c' r e reqs, let c := run cfg_delta new_client es in
  receive cfg_delta c resp = Some (c', r :: reqs) /\ req_error r = Some e /\
  get_resource "svc" (c NDS) = Some (MNameInfo ["10.0.0.1"]) /\ get_resource "svc" (c' NDS) = None.
Proof.
  exists [EConnect; EResp (delta NDS "n1" [("t", MNameTable [("svc", Some ["10.0.0.1"])])] [])], (delta_bad NDS "n2"). do 4 eexists.
  split; [apply receive_by; vm_compute; reflexivity|]. split; [reflexivity|]. vm_compute. auto.
Qed.
Print Assumptions C23_rejected_name_table_refuted.

(* the dependent subscription is in step with the parents, or the parents refer to nothing *)
Definition synced (c : client) (t : rtype) : Prop :=
  match t with
  | CDS => cla_references (list_clusters c) = [] \/ forall x, In x (cla_references (list_clusters c)) <-> In x (c_sub (c EDS))
  | LDS => route_references (list_listeners c) = [] \/ forall x, In x (route_references (list_listeners c)) <-> In x (c_sub (c RDS))
  | _ => True
  end.
Lemma lists_ext : forall c c', c_res (c' CDS) = c_res (c CDS) -> c_res (c' LDS) = c_res (c LDS) -> list_clusters c' = list_clusters c /\ list_listeners c' = list_listeners c.
Proof. intros c c' H1 H2. unfold list_clusters, list_listeners, get_resources. now rewrite H1, H2. Qed.
Lemma updated_synced : forall g t c c' rs, on_updated g t c = (c', rs) -> synced c' t.
Proof.
  intros g t c c' rs H. destruct t; cbn [synced]; try exact I; cbn [on_updated] in H.
  - unfold on_clusters_updated in H. assert (Hl: list_clusters c' = list_clusters c).
    { unfold list_clusters, get_resources. unfold cla_references in H. apply resub_spec in H. destruct H as [H _]. now rewrite H by discriminate. }
    rewrite Hl. unfold cla_references in *. apply resub_spec in H. destruct H as (_ & _ & _ & _ & _ & H & _).
    destruct (references (map cla_reference (list_clusters c))) as [|a l] eqn:E; [now left|]. right. intros x. symmetry. apply H. discriminate.
  - unfold on_listeners_updated in H. assert (Hl: list_listeners c' = list_listeners c).
    { unfold list_listeners, get_resources. unfold route_references in H. apply resub_spec in H. destruct H as [H _]. now rewrite H by discriminate. }
    rewrite Hl. unfold route_references in *. apply resub_spec in H. destruct H as (_ & _ & _ & _ & _ & H & _).
    destruct (references (map route_config_name (list_listeners c))) as [|a l] eqn:E; [now left|]. right. intros x. symmetry. apply H. discriminate.
Qed.
Lemma synced_ext : forall c c' t, (forall t, c_res (c' t) = c_res (c t)) -> (forall t, c_sub (c' t) = c_sub (c t)) -> synced c t -> synced c' t.
Proof. intros c c' t Hr Hs. destruct (lists_ext c c' (Hr CDS) (Hr LDS)) as [E1 E2]. destruct t; cbn [synced]; rewrite ?E1, ?E2, ?Hs; tauto. Qed.
(* later responses of other types keep it *)
Lemma step_synced : forall g c resp t, synced c t -> synced (fst (step g c (EResp resp))) t.
Proof.
  intros g c resp t Hs. cbn [step]. destruct (receive g c resp) as [[c3 reqs]|] eqn:E; [|exact Hs]. cbn [fst].
  apply receive_inv in E. destruct E as (t0 & c1 & e & c2 & r & rs & Ht & Hh & Ha & Hu & ->).
  destruct (rtype_eq_dec t t0) as [->|Hne]; [eapply updated_synced; exact Hu|].
  assert (Hsub: forall t', c_sub (c2 t') = c_sub (c t')).
  { intros t'. destruct (answered_view _ _ _ _ _ _ t' Ha) as [-> _]. destruct (rtype_eq_dec t' t0) as [->|Hn']; [now destruct (handle_any _ _ _ _ _ Hh Ht) as (-> & _)|]. now rewrite (handle_other _ _ _ _ _ _ Hh Ht Hn'). }
  assert (Hres: forall t', t' <> t0 -> c_res (c2 t') = c_res (c t')).
  { intros t' Hn'. destruct (answered_view _ _ _ _ _ _ t' Ha) as [_ ->]. now rewrite (handle_other _ _ _ _ _ _ Hh Ht Hn'). }
  assert (Hold: forall t', dep t0 <> Some t' -> c3 t' = c2 t') by (intros; eapply updated_other; eassumption).
  destruct t; cbn [synced] in *; try exact I.
  - assert (Hc: list_clusters c3 = list_clusters c).
    { unfold list_clusters, get_resources. rewrite Hold by (destruct t0; discriminate). now rewrite Hres by congruence. }
    rewrite Hc, Hold by (destruct t0; cbn; congruence). now rewrite Hsub.
  - assert (Hc: list_listeners c3 = list_listeners c).
    { unfold list_listeners, get_resources. rewrite Hold by (destruct t0; discriminate). now rewrite Hres by congruence. }
    rewrite Hc, Hold by (destruct t0; cbn; congruence). now rewrite Hsub.
Qed.
Lemma run_synced : forall g rs c t, synced c t -> synced (run g c (map EResp rs)) t.
Proof. induction rs as [|r rs IH]; intros c t H; cbn; [assumption|]. apply IH. now apply step_synced. Qed.

(* a rejected response whose own cache keeps its view changes no view at all, once the dependants are in step *)
Lemma rejected_same : forall g c resp c' r e reqs, receive g c resp = Some (c', r :: reqs) -> req_error r = Some e ->
  (forall t c1, handle_response c resp = (c1, Some e) -> rtype_of_url (url_of resp) = Some t -> c_res (c1 t) = c_res (c t)) ->
  (forall t, rtype_of_url (url_of resp) = Some t -> synced c t) -> (g_incremental g = true \/ forall t, rtype_of_url (url_of resp) = Some t -> dep t = None) ->
  forall t, same_view (c t) (c' t).
Proof.
  intros g c resp c' r e reqs H He Hk Hsy Hg t. apply receive_inv in H. destruct H as (t0 & c1 & e' & c2 & r' & rs' & Ht & Hh & Ha & Hu & Heq). injection Heq as <- <-.
  rewrite (answered_error _ _ _ _ _ _ Ha) in He. subst e'. injection Ha as <- _.
  assert (Hv: forall t, c_res (c1 t) = c_res (c t) /\ c_sub (c1 t) = c_sub (c t)).
  { intros t'. destruct (rtype_eq_dec t' t0) as [->|Hn]; [split; [eapply Hk; eassumption|]; now destruct (handle_any _ _ _ _ _ Hh Ht) as (-> & _)|]. now rewrite (handle_other _ _ _ _ _ _ Hh Ht Hn). }
  assert (Hsame: forall c3 t, c3 t = c1 t -> same_view (c t) (c3 t)).
  { intros c3 t' E. destruct (Hv t') as [E1 E2]. unfold same_view, get_resource. rewrite E, E1, E2. split; [reflexivity|tauto]. }
  destruct (dep t0) as [d|] eqn:Ed.
  2: { apply Hsame. rewrite (updated_other _ _ _ _ _ t Hu) by (rewrite Ed; discriminate). reflexivity. }
  destruct (rtype_eq_dec t d) as [->|Hne].
  2: { apply Hsame. rewrite (updated_other _ _ _ _ _ t Hu) by (rewrite Ed; congruence). reflexivity. }
  destruct Hg as [Hg|Hg]; [|rewrite (Hg t0 Ht) in Ed; discriminate].
  assert (Hs1: synced c1 t0) by (apply (synced_ext c); [apply Hv|apply Hv|auto]).
  assert (Hs := updated_spec _ _ _ _ _ Hu). rewrite Ed in Hs. 
  assert (Hnames: exists names0, resubscribe g c1 d (references names0) = (c', reqs) /\ (references names0 = [] \/ forall x, In x (references names0) <-> In x (c_sub (c1 d)))).
  { destruct t0; cbn in Ed; try discriminate; injection Ed as <-; cbn [on_updated synced] in *; [exists (map cla_reference (list_clusters c1))|exists (map route_config_name (list_listeners c1))]; split; assumption. }
  destruct Hnames as (n0 & Hr & Hn). apply resub_spec in Hr. destruct Hr as (_ & _ & _ & _ & Hnil & Hcons & _ & _ & Hres & _).
  destruct (Hv d) as [E1 E2]. unfold same_view. split.
  - intros n. rewrite Hres, Hg. cbn. unfold get_resource. now rewrite E1.
  - intros x. destruct (references n0) as [|a l] eqn:En.
    + rewrite Hnil by reflexivity. now rewrite E2.
    + destruct Hn as [Hn|Hn]; [discriminate|]. rewrite Hcons by discriminate. rewrite Hn. now rewrite E2.
Qed.
(* Incremental responses other than name tables, once a response of that type was processed on the stream:
   a rejected one has no effect. *)
Theorem C23_incremental : forall g es first rs url nonce resources removed valid c' r e reqs, g_incremental g = true ->
  let c := run g new_client (es ++ EResp first :: map EResp rs)%list in
  url_of first = url -> url <> type_url NDS ->
  receive g c (RespDelta url nonce resources removed valid) = Some (c', r :: reqs) -> req_error r = Some e ->
  forall t, same_view (c t) (c' t).
Proof.
  intros g es first rs url nonce resources removed valid c' r e reqs Hg c Hf Hn H He.
  assert (Hsup: exists t, rtype_of_url url = Some t). { apply receive_inv in H. destruct H as (t & ? & ? & ? & ? & ? & Ht & _). eauto. }
  destruct Hsup as [t0 Ht0]. assert (Ht0n: t0 <> NDS) by (intros ->; apply Hn; now apply rtype_url).
  eapply rejected_same; [exact H|exact He| | |now left].
  - intros t c1 Hh Ht. cbn [url_of handle_response] in *. assert (t = t0) by congruence. subst t. destruct valid; [|injection Hh as <- _; reflexivity].
    unfold handle_delta in Hh. rewrite Ht0 in Hh. destruct t0; try congruence; cbv iota beta zeta in Hh;
      (match type of Hh with context [add_resources ?a ?b ?cc] => destruct (add_resources a b cc) as [s [e1|]] eqn:Ea end; cbn in Hh;
      [|discriminate]); injection Hh as <- Hee; subst e1; apply add_err in Ea; subst; rewrite upd_same; reflexivity.
  - intros t Ht. cbn [url_of] in Ht. assert (t = t0) by congruence. subst t. unfold c. rewrite run_app. cbn [run]. apply run_synced.
    cbn [step]. set (cx := run g new_client es). destruct (receive g cx first) as [[c3 reqs']|] eqn:E.
    + cbn [fst]. apply receive_inv in E. destruct E as (t1 & c1 & e1 & c2 & r1 & rs1 & Ht1 & _ & _ & Hu & _). rewrite Hf, Ht0 in Ht1. injection Ht1 as <-. eapply updated_synced; exact Hu.
    + unfold receive in E. rewrite Hf, Ht0 in E. destruct (handle_response cx first) as [c1 e1]. destruct (match e1 with Some e0 => (c1, nack g c1 first e0) | None => ack g c1 first end) as [c2 r2]. destruct (on_updated g t0 c2). discriminate.
Qed.
Print Assumptions C23_incremental.
(* State-of-the-world name tables: no effect, in every history. *)
Theorem C23_name_table_sotw : forall g es v nonce rs valid c' r e reqs, let c := run g new_client (EConnect :: es) in
  receive g c (RespSotW (type_url NDS) v nonce rs valid) = Some (c', r :: reqs) -> req_error r = Some e ->
  forall t, same_view (c t) (c' t).
Proof.
  intros g es v nonce rs valid c' r e reqs c H He t.
  apply receive_inv in H. destruct H as (t0 & c1 & e' & c2 & r' & rs' & Ht & Hh & Ha & Hu & Heq). injection Heq as <- <-.
  rewrite (answered_error _ _ _ _ _ _ Ha) in He. subst e'. injection Ha as <- _. cbn [url_of] in Ht. rewrite url_rtype in Ht. injection Ht as <-. cbn in Hu. injection Hu as <- _.
  destruct (rtype_eq_dec t NDS) as [->|Hn].
  - cbn [handle_response] in Hh. destruct valid; [|injection Hh as <- _; split; [reflexivity|tauto]]. unfold handle_sotw in Hh. rewrite url_rtype in Hh.
    destruct (set_istio_resources rs (c NDS)) as [s' e1] eqn:E. injection Hh as <- ->. rewrite upd_same. apply set_istio_err in E. destruct E as [E1 E2]. split; [|rewrite E1; tauto].
    intros n. apply (cleared_sub _ _ _ _ n E2). left. apply run_wild. tauto.
  - rewrite (handle_other _ _ _ _ NDS t Hh (url_rtype NDS) Hn). split; [reflexivity|tauto].
Qed.
Print Assumptions C23_name_table_sotw.
(* State-of-the-world endpoints and routes: the subscription and every subscribed resource stay. *)
Theorem C23_endpoints_routes_sotw : forall g c t0 v nonce rs valid c' r e reqs, t0 = EDS \/ t0 = RDS ->
  receive g c (RespSotW (type_url t0) v nonce rs valid) = Some (c', r :: reqs) -> req_error r = Some e ->
  forall t, c_sub (c' t) = c_sub (c t) /\ forall n, (t = t0 -> subscribed (c t) n) -> get_resource n (c' t) = get_resource n (c t).
Proof.
  intros g c t0 v nonce rs valid c' r e reqs Ht0 H He t.
  apply receive_inv in H. destruct H as (t1 & c1 & e' & c2 & r' & rs' & Ht & Hh & Ha & Hu & Heq). injection Heq as <- <-.
  rewrite (answered_error _ _ _ _ _ _ Ha) in He. subst e'. injection Ha as <- _. cbn [url_of] in Ht. rewrite url_rtype in Ht. injection Ht as <-.
  assert (c' = c1) by (destruct Ht0 as [->| ->]; cbn in Hu; now injection Hu as <- _). subst c'.
  destruct (rtype_eq_dec t t0) as [->|Hn].
  - cbn [handle_response] in Hh. destruct valid; [|injection Hh as <- _; split; [reflexivity|tauto]]. unfold handle_sotw in Hh. rewrite url_rtype in Hh.
    assert (Hs: exists s', c1 t0 = s' /\ set_resources t0 rs false (c t0) = (s', Some e)).
    { destruct Ht0 as [->| ->]; cbv iota beta zeta in Hh; match type of Hh with context [set_resources ?a ?b ?d ?f] => destruct (set_resources a b d f) as [s' e1] eqn:E end; injection Hh as Hc1 Hee; subst c1 e1; exists s'; (split; [apply upd_same|reflexivity]). }
    destruct Hs as (s' & Hc1 & E). rewrite Hc1.
    assert (Hnn: t0 <> NDS) by (destruct Ht0 as [->| ->]; discriminate).
    apply set_err in E; [|exact Hnn]. destruct E as [E1 E2].
    split; [exact E1|]. intros n Hs.
    apply (cleared_sub _ _ _ _ n E2).
    apply Hs. reflexivity.
  - rewrite (handle_other _ _ _ _ _ t Hh (url_rtype t0) Hn). split; [reflexivity|tauto].
Qed.
Print Assumptions C23_endpoints_routes_sotw.
Example C23_ex : exists c' r reqs, let c := run cfg_delta new_client ([EConnect] ++ EResp (delta CDS "1" [("a", cl "a")] []) :: map EResp [delta EDS "2" [("a", cla "a")] []])%list in
  receive cfg_delta c (delta_bad CDS "3") = Some (c', r :: reqs) /\ req_error r = Some EDecode /\ get_resource "a" (c' EDS) = Some (cla "a") /\ reqs = [].
Proof. do 3 eexists. split; [apply receive_by; vm_compute; reflexivity|]. vm_compute. auto. Qed.

(* ---- C24 ---- *)
Definition on_parent (t : rtype) (resp : response) : Prop := url_of resp = type_url t.
Lemma refs_empty : forall (P : string -> Prop) l, (forall n, In n l <-> P n) -> l = [] <-> forall n, ~ P n.
Proof. intros P l H. split; [intros -> n Hn; now apply H in Hn|]. intros Hn. destruct l as [|a l]; [reflexivity|]. exfalso. apply (Hn a). apply H. now left. Qed.
(* In every history: after a cluster (listener) response was processed, and however many further responses, if the
   cached clusters (listeners) refer to any name then the subscription is exactly the set of these names. *)
Theorem C24_endpoint_subscription : forall g es first rs, on_parent CDS first ->
  let c := run g new_client (es ++ EResp first :: map EResp rs)%list in
  (exists n, references_endpoints c n) -> forall n, In n (c_sub (c EDS)) <-> references_endpoints c n.
Proof.
  intros g es first rs Hf c [n0 Hn0] n. assert (Hnd: nd_inv c) by apply run_nd.
  assert (Hs: synced c CDS).
  { unfold c. rewrite run_app. cbn [run]. apply run_synced. cbn [step]. set (cx := run g new_client es). destruct (receive g cx first) as [[c3 reqs']|] eqn:E.
    - cbn [fst]. apply receive_inv in E. destruct E as (t1 & c1 & e1 & c2 & r1 & rs1 & Ht1 & _ & _ & Hu & _). rewrite Hf, url_rtype in Ht1. injection Ht1 as <-. eapply updated_synced; exact Hu.
    - exfalso. destruct (proj2 (C22_answered g cx first)) as (r & c' & rs' & E'); [exists CDS; exact Hf|]. congruence. }
  cbn [synced] in Hs. destruct Hs as [Hs|Hs].
  - exfalso. eapply (proj1 (refs_empty _ _ (fun n => endpoint_refs c n (Hnd CDS))) Hs). exact Hn0.
  - rewrite <- Hs. apply endpoint_refs. apply Hnd.
Qed.
Print Assumptions C24_endpoint_subscription.
Theorem C24_route_subscription : forall g es first rs, on_parent LDS first ->
  let c := run g new_client (es ++ EResp first :: map EResp rs)%list in
  (exists n, references_route c n) -> forall n, In n (c_sub (c RDS)) <-> references_route c n.
Proof.
  intros g es first rs Hf c [n0 Hn0] n. assert (Hnd: nd_inv c) by apply run_nd.
  assert (Hs: synced c LDS).
  { unfold c. rewrite run_app. cbn [run]. apply run_synced. cbn [step]. set (cx := run g new_client es). destruct (receive g cx first) as [[c3 reqs']|] eqn:E.
    - cbn [fst]. apply receive_inv in E. destruct E as (t1 & c1 & e1 & c2 & r1 & rs1 & Ht1 & _ & _ & Hu & _). rewrite Hf, url_rtype in Ht1. injection Ht1 as <-. eapply updated_synced; exact Hu.
    - exfalso. destruct (proj2 (C22_answered g cx first)) as (r & c' & rs' & E'); [exists LDS; exact Hf|]. congruence. }
  cbn [synced] in Hs. destruct Hs as [Hs|Hs].
  - exfalso. eapply (proj1 (refs_empty _ _ (fun n => route_refs c n (Hnd LDS))) Hs). exact Hn0.
  - rewrite <- Hs. apply route_refs. apply Hnd.
Qed.
Print Assumptions C24_route_subscription.
(* A re-subscription request follows the answer only if the set of names changed, and then exactly one. *)
Theorem C24_request_iff_changed : forall g es resp c' r reqs, on_parent CDS resp -> let c := run g new_client es in
  receive g c resp = Some (c', r :: reqs) ->
  (reqs = [] <-> forall n, references_endpoints c' n <-> In n (c_sub (c EDS))) /\ (reqs <> [] -> exists r', reqs = [r']).
Proof.
  intros g es resp c' r reqs Hf c H. apply receive_inv in H. destruct H as (t0 & c1 & e' & c2 & r' & rs' & Ht & Hh & Ha & Hu & Heq). injection Heq as <- <-.
  rewrite Hf, url_rtype in Ht. injection Ht as <-. assert (Hnd: nd_inv c) by apply run_nd.
  assert (Hl: list_clusters c' = list_clusters c2). { unfold list_clusters, get_resources. now rewrite (updated_other _ _ _ _ _ CDS Hu) by discriminate. }
  assert (Hnd': nd (c_res (c' CDS))). { rewrite (updated_other _ _ _ _ _ CDS Hu) by discriminate. destruct (answered_view _ _ _ _ _ _ CDS Ha) as [_ ->]. eapply handle_any; [exact Hh|rewrite Hf; apply url_rtype|apply Hnd]. }
  assert (He: c_sub (c2 EDS) = c_sub (c EDS)). { destruct (answered_view _ _ _ _ _ _ EDS Ha) as [-> _]. rewrite (handle_other _ _ _ _ CDS EDS Hh); [reflexivity|rewrite Hf; apply url_rtype|discriminate]. }
  assert (Hr: forall n, references_endpoints c' n <-> In n (cla_references (list_clusters c2))) by (intros n; rewrite <- Hl; symmetry; now apply endpoint_refs).
  cbn [on_updated] in Hu. unfold on_clusters_updated, cla_references in *. apply resub_spec in Hu. destruct Hu as (_ & _ & _ & _ & _ & _ & H1 & _ & _ & H2). split; [|assumption].
  rewrite H1. split; intros Hx n; specialize (Hx n); rewrite ?He, ?Hr in *; assumption.
Qed.
Print Assumptions C24_request_iff_changed.
(* False when the last reference disappears: the old subscription stays, *)
Theorem C24_last_reference_refuted : exists es first, on_parent CDS first /\
  let c := run cfg_sotw new_client (es ++ [EResp first])%list in (forall n, ~ references_endpoints c n) /\ In "a" (c_sub (c EDS)).
Proof.
  exists [EConnect; EResp (sotw CDS "1" "n1" [cl "a"])], (sotw CDS "2" "n2" []). split; [reflexivity|]. split; [|vm_compute; now left].
  intros n (_ & k & x & H & _). vm_compute in H. discriminate.
Qed.
Print Assumptions C24_last_reference_refuted.
(* and every further empty cluster list sends the same request again. *)
Theorem C24_repeated_request_refuted : exists es c' r r', let c := run cfg_sotw new_client es in
  receive cfg_sotw c (sotw CDS "3" "n3" []) = Some (c', [r; r']) /\ (forall n, In n (c_sub (c' EDS)) <-> In n (c_sub (c EDS))) /\
  r' = ReqSotW (type_url EDS) "" [] "" None.
Proof.
  exists [EConnect; EResp (sotw CDS "1" "n1" [cl "a"]); EResp (sotw CDS "2" "n2" [])]. do 3 eexists. split; [apply receive_by; vm_compute; reflexivity|]. split; [|reflexivity]. intros n. vm_compute. tauto.
Qed.
Print Assumptions C24_repeated_request_refuted.
Example C24_ex : let c := run cfg_sotw new_client ([EConnect] ++ EResp (sotw CDS "1" "n1" [cl "b"; cl "a"]) :: map EResp [sotw EDS "1" "n2" [cla "a"]])%list in
  references_endpoints c "a" /\ get_subscribed_names (c EDS) = ["a"; "b"].
Proof. split; [|reflexivity]. split; [discriminate|]. exists "a", (mkcluster "a" true None). vm_compute. auto. Qed.
