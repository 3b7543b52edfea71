(* C25 host name resolution and C26 choice of the upstream cluster of an HTTP destination. *)
From Coq Require Import List String Bool Ascii Permutation Lia.
From Verif Require Import M_GoMap L_GoMap M_Ads S_Ads L_Ads L_AdsClient M_AdsRoute S_AdsRoute.
Import ListNotations.
Open Scope string_scope.

(* ---- the caches hold messages of their own kind ---- *)
Definition kind_ok (t : rtype) (m : message) : Prop := match t with NDS => exists ips, m = MNameInfo ips | _ => kind_of m = Some t end.
Definition kinds (c : client) : Prop := forall t n m, get_resource n (c t) = Some m -> kind_ok t m.
Lemma brought_kind : forall resp t n m, rtype_of_url (url_of resp) = Some t -> brought resp n m -> kind_ok t m.
Proof.
  intros [url v nn rs va|url nn rs rem va] t n m Ht (t' & Ht' & H); cbn [url_of] in Ht; assert (t' = t) by congruence; subst t'; destruct t; cbn in *; firstorder; subst; eauto.
Qed.
Lemma updated_res : forall g t c c' rs t' n m, on_updated g t c = (c', rs) -> get_resource n (c' t') = Some m -> get_resource n (c t') = Some m.
Proof.
  intros g t c c' rs t' n m H Hg. assert (Hs := updated_spec _ _ _ _ _ H). destruct (dep t) as [d|] eqn:Ed; [|destruct Hs as [-> _]; exact Hg].
  destruct Hs as (n0 & Hs). destruct (rtype_eq_dec t' d) as [->|Hne].
  - apply resub_spec in Hs. destruct Hs as (_ & _ & _ & _ & _ & _ & _ & _ & Hres & _). rewrite Hres in Hg. destruct (negb (g_incremental g) && _); [discriminate|exact Hg].
  - now rewrite (updated_other _ _ _ _ _ t' H) in Hg by congruence.
Qed.
Lemma step_kinds : forall g c e, kinds c -> kinds (fst (step g c e)).
Proof.
  intros g c [|resp] Hk; cbn [step].
  - intros t n m H. apply (Hk t n m). destruct t; exact H.
  - destruct (receive g c resp) as [[c3 reqs]|] eqn:E; [|exact Hk]. cbn [fst]. apply receive_inv in E. destruct E as (t & c1 & e & c2 & r & rs & Ht & Hh & Ha & Hu & ->).
    intros t' n m H. apply (updated_res _ _ _ _ _ _ _ _ Hu) in H. destruct (answered_view _ _ _ _ _ _ t' Ha) as [_ Hr]. unfold get_resource in H. rewrite Hr in H.
    destruct (rtype_eq_dec t' t) as [->|Hn].
    + destruct (handle_any _ _ _ _ _ Hh Ht) as (_ & Hb & _). destruct (Hb n m H) as [Hb'|[_ Hb']]; [exact (Hk t n m Hb')|]. eapply brought_kind; eassumption.
    + rewrite (handle_other _ _ _ _ _ _ Hh Ht Hn) in H. exact (Hk t' n m H).
Qed.
Lemma run_kinds : forall g es, kinds (run g new_client es).
Proof. intros. apply (run_inv kinds g (step_kinds g)). intros t n m H. discriminate. Qed.

(* ---- C25 ---- *)
Lemma first_known_some : forall (c : client) names m, first_known names (get_resources (c NDS)) = Some m <->
  exists n, first_with (knows c) names n /\ get_resource n (c NDS) = Some m.
Proof.
  intros c names m. induction names as [|h rest IH]; cbn [first_known].
  - split; [discriminate|]. intros (n & (l1 & l2 & E & _) & _). destruct l1; discriminate.
  - unfold get_resources in *. destruct (mget h (c_res (c NDS))) as [m'|] eqn:E.
    + split.
      * intros H. injection H as ->. exists h. split; [|exact E]. exists [], rest. split; [reflexivity|]. split; [exists m; exact E|intros x []].
      * intros (n & (l1 & l2 & El & Hk & Hn) & Hg). destruct l1 as [|a l1]; cbn in El; injection El as -> ->; [unfold get_resource in Hg; congruence|].
        exfalso. apply (Hn a); [now left|]. exists m'. exact E.
    + rewrite IH. split; intros (n & (l1 & l2 & El & Hk & Hn) & Hg).
      * exists n. split; [|exact Hg]. exists (h :: l1), l2. split; [now rewrite El|]. split; [assumption|]. intros x [<-|Hx]; [intros [m' Hm']; unfold get_resource in Hm'; congruence|auto].
      * destruct l1 as [|a l1]; cbn in El; injection El as -> ->; [unfold get_resource in Hg; congruence|]. exists n. split; [|exact Hg]. exists l1, l2. split; [reflexivity|]. split; [assumption|]. intros x Hx. apply Hn. now right.
Qed.
Lemma first_known_none : forall (c : client) names, first_known names (get_resources (c NDS)) = None <-> forall n, In n names -> ~ knows c n.
Proof.
  intros c names. unfold get_resources. induction names as [|h rest IH]; cbn [first_known]; [split; [intros _ n []|reflexivity]|].
  destruct (mget h (c_res (c NDS))) as [m|] eqn:E; split; intros H.
  - discriminate.
  - exfalso. apply (H h); [now left|]. now exists m.
  - intros n [<-|Hn]; [intros [m Hm]; unfold get_resource in Hm; congruence|]. exact (proj1 IH H n Hn).
  - apply IH. intros n Hn. apply H. now right.
Qed.
Theorem C25_ip_literal : forall lib domains c host ip, parse_ip lib host = Some ip -> resolve_host lib domains c host = inl [ip].
Proof. intros lib domains c host ip H. unfold resolve_host. now rewrite H. Qed.
Print Assumptions C25_ip_literal.
(* In every reachable state, a name that is no IP literal resolves to [ips] iff the name table knows one of the
   candidates and [ips] are the (parsable) addresses it stores under the first of them it knows. *)
Theorem C25_resolved_iff : forall lib domains g es host ips, parse_ip lib host = None -> let c := run g new_client es in
  resolve_host lib domains c host = inl ips <->
  exists n addrs, first_with (knows c) (candidates domains host) n /\ get_resource n (c NDS) = Some (MNameInfo addrs) /\ ips = filter_map (parse_ip lib) addrs.
Proof.
  intros lib domains g es host ips Hp c. unfold resolve_host. rewrite Hp. fold (candidates domains host). split.
  - destruct (first_known (candidates domains host) (get_resources (c NDS))) as [m|] eqn:E; [|discriminate]. apply first_known_some in E. destruct E as (n & Hf & Hg).
    destruct (run_kinds g es NDS n m Hg) as [addrs ->]. intros H. injection H as <-. eauto.
  - intros (n & addrs & Hf & Hg & ->). rewrite (proj2 (first_known_some c _ (MNameInfo addrs))); [reflexivity|eauto].
Qed.
Print Assumptions C25_resolved_iff.
(* Otherwise, and only then, the answer is the not-found error; there is no other error. *)
Theorem C25_not_found_iff : forall lib domains g es host, let c := run g new_client es in
  (resolve_host lib domains c host = inr HostNotFound <-> parse_ip lib host = None /\ forall n, In n (candidates domains host) -> ~ knows c n) /\
  (forall e, resolve_host lib domains c host = inr e -> e = HostNotFound).
Proof.
  intros lib domains g es host c. unfold resolve_host. destruct (parse_ip lib host) as [ip|]; [split; [split; [discriminate|intros [? _]; discriminate]|discriminate]|]. fold (candidates domains host).
  destruct (first_known (candidates domains host) (get_resources (c NDS))) as [m|] eqn:E.
  - pose proof E as E'. apply first_known_some in E'. destruct E' as (n & Hf & Hg). destruct (run_kinds g es NDS n m Hg) as [addrs ->].
    split; [|discriminate]. split; [discriminate|]. intros [_ H]. exfalso. rewrite (proj2 (first_known_none c _) H) in E. discriminate.
  - split; [|intros e H; now injection H]. split; [|reflexivity]. intros _. split; [reflexivity|]. now apply first_known_none.
Qed.
Print Assumptions C25_not_found_iff.
(* the addresses: in table order, those that are valid *)
Theorem C25_addresses : forall lib addrs ip, In ip (filter_map (parse_ip lib) addrs) <-> exists a, In a addrs /\ parse_ip lib a = Some ip.
Proof.
  intros lib addrs ip. induction addrs as [|a r IH]; cbn; [split; [intros []|intros (x & [] & _)]|].
  destruct (parse_ip lib a) as [i|] eqn:E; cbn; rewrite IH; split.
  - intros [<-|(x & Hx & Hp)]; eauto.
  - intros (x & [->|Hx] & Hp); [left; congruence|eauto].
  - intros (x & Hx & Hp); eauto.
  - intros (x & [->|Hx] & Hp); [congruence|eauto].
Qed.
Print Assumptions C25_addresses.

(* a tiny library for examples: dotted strings are IPs, no regex, no case folding *)
Definition ex_lib : netlib := mknetlib (fun s => match s with String "1"%char _ => Some s | "0.0.0.0" => Some s | _ => None end) (fun _ _ => false) (fun s => s).
Definition ex_cfg := mkconfig false true true (fun _ => true).
Definition ex_resp t ms := EResp (RespSotW (type_url t) "1" "n" (map (fun m => Some (AnyOf m)) ms) true).
Definition ex_table := ex_resp NDS [MNameTable [("svc.ns", Some ["10.0.0.1"; "bad"; "10.0.0.2"]); ("svc.other", Some ["10.0.0.9"])]].
Example C25_ex : let c := run ex_cfg new_client [EConnect; ex_table] in
  resolve_host ex_lib ["x"; "ns"; "other"] c "svc" = inl ["10.0.0.1"; "10.0.0.2"] /\ resolve_host ex_lib ["x"] c "svc" = inr HostNotFound
  /\ first_with (knows c) (candidates ["x"; "ns"; "other"] "svc") "svc.ns".
Proof.
  split; [reflexivity|]. split; [reflexivity|]. exists ["svc"; "svc.x"], ["svc.other"]. split; [reflexivity|]. split; [eexists; reflexivity|].
  intros x [<-|[<-|[]]] [m H]; discriminate.
Qed.

(* ---- C26 ---- *)
Lemma filter_nil {A} : forall (p : A -> bool) l, filter p l = [] <-> forall x, In x l -> p x = false.
Proof.
  induction l as [|a l IH]; cbn; [split; [intros _ x []|reflexivity]|]. destruct (p a) eqn:E; split; intros H; try discriminate.
  - rewrite (H a) in E by now left. discriminate.
  - intros x [<-|Hx]; [assumption|]. apply IH; assumption.
  - apply IH. intros x Hx. apply H. now right.
Qed.
Lemma filter_one {A} : forall (P : A -> Prop) (p : A -> bool) l a, (forall x, p x = true <-> P x) -> filter p l = [a] <-> only_one P l a.
Proof.
  intros P p l a Hp. assert (Hf: forall x, p x = false <-> ~ P x) by (intros x; rewrite <- Hp; destruct (p x); split; congruence). induction l as [|b l IH]; cbn.
  - split; [discriminate|]. intros (l1 & l2 & E & _). destruct l1; discriminate.
  - destruct (p b) eqn:E; split.
    + intros H. injection H as -> H. exists [], l. split; [reflexivity|]. split; [now apply Hp|]. split; [intros x []|]. intros x Hx. apply Hf. now apply (proj1 (filter_nil p l) H).
    + intros (l1 & l2 & El & Ha & H1 & H2). destruct l1 as [|c l1]; cbn in El; injection El as -> ->; [|exfalso; apply (H1 c); [now left|now apply Hp]].
      f_equal. apply filter_nil. intros x Hx. apply Hf. auto.
    + intros H. apply IH in H. destruct H as (l1 & l2 & -> & Ha & H1 & H2). exists (b :: l1), l2. split; [reflexivity|]. split; [assumption|]. split; [|assumption]. intros x [<-|Hx]; [now apply Hf|auto].
    + intros (l1 & l2 & El & Ha & H1 & H2). apply IH. destruct l1 as [|c l1]; cbn in El; injection El as -> ->; [apply Hp in Ha; congruence|]. exists l1, l2. split; [reflexivity|]. split; [assumption|]. split; [|assumption]. intros x Hx. apply H1. now right.
Qed.
Lemma filter_many {A} : forall (P : A -> Prop) (p : A -> bool) l, (forall x, p x = true <-> P x) -> (exists a b r, filter p l = a :: b :: r) <-> ambiguous P l.
Proof.
  intros P p l Hp. split.
  - induction l as [|x l IH]; cbn; [intros (a & b & r & H); discriminate|]. destruct (p x) eqn:E.
    + intros (a & b & r & H). injection H as -> H. assert (Hb: In b (filter p l)) by (rewrite H; now left). apply filter_In in Hb. destruct Hb as [Hb Hpb]. apply in_split in Hb. destruct Hb as (l2 & l3 & ->).
      exists [], l2, l3, a, b. split; [reflexivity|]. split; now apply Hp.
    + intros H. destruct (IH H) as (l1 & l2 & l3 & a & b & -> & Ha & Hb). exists (x :: l1), l2, l3, a, b. auto.
  - intros (l1 & l2 & l3 & a & b & -> & Ha & Hb). apply Hp in Ha, Hb. rewrite filter_app. cbn. rewrite Ha, filter_app. cbn. rewrite Hb.
    destruct (filter p l1) as [|x [|y r]]; cbn; eauto. destruct (filter p l2) as [|x r]; cbn; eauto.
Qed.
Lemma usable_spec : forall lib r, usable lib r = true <-> routes_root lib r.
Proof.
  intros lib r. unfold usable, routes_upstream, routes_root. rewrite andb_true_iff, orb_true_iff, negb_true_iff, String.eqb_neq. destruct (rt_weighted r); intuition congruence.
Qed.
Lemma vhost_spec : forall lib d vh, mem d (vh_domains vh) && match usable_routes lib vh with [] => false | _ => true end = true <-> serves lib d vh.
Proof.
  intros lib d vh. unfold serves. rewrite andb_true_iff, mem_in. unfold usable_routes. split; intros [H1 H2]; (split; [exact H1|]).
  - destruct (filter (usable lib) (vh_routes vh)) as [|r rs] eqn:E; [discriminate|]. assert (Hr: In r (filter (usable lib) (vh_routes vh))) by (rewrite E; now left). apply filter_In in Hr. exists r. now rewrite <- usable_spec.
  - destruct H2 as (r & Hr & Hu). apply usable_spec in Hu. destruct (filter (usable lib) (vh_routes vh)) as [|r' rs] eqn:E; [|reflexivity]. rewrite (proj1 (filter_nil _ _) E r Hr) in Hu. discriminate.
Qed.
Lemma dest_eq : forall lib ips host port, domain_matches lib ips host port = destinations lib ips host port.
Proof. intros. unfold domain_matches, destinations. now destruct (parse_ip lib host). Qed.
Definition served lib vhs d := exists vh, In vh vhs /\ serves lib d vh.
Lemma vhosts_nil : forall lib d vhs, vhosts_for lib d vhs = [] <-> ~ served lib vhs d.
Proof.
  intros. unfold vhosts_for. rewrite filter_nil. split.
  - intros H (vh & Hi & Hs). apply vhost_spec in Hs. rewrite (H vh Hi) in Hs. discriminate.
  - intros H vh Hi. destruct (_ && _) eqn:E; [|reflexivity]. apply vhost_spec in E. exfalso. apply H. exists vh. auto.
Qed.
Lemma first_vhosts_spec : forall lib vhs ds l, l <> [] -> first_vhosts lib ds vhs = l <-> exists d, first_with (served lib vhs) ds d /\ vhosts_for lib d vhs = l.
Proof.
  intros lib vhs ds l Hl. induction ds as [|d ds IH]; cbn [first_vhosts].
  - split; [congruence|]. intros (d & (l1 & l2 & E & _) & _). destruct l1; discriminate.
  - destruct (vhosts_for lib d vhs) as [|v vs] eqn:E.
    + rewrite IH. apply vhosts_nil in E. split; intros (d' & (l1 & l2 & El & Hp & Hn) & Hv); exists d'; (split; [|exact Hv]).
      * exists (d :: l1), l2. rewrite El. split; [reflexivity|]. split; [assumption|]. intros x [<-|Hx]; auto.
      * destruct l1 as [|a l1]; cbn in El; injection El as -> ->; [contradiction|]. exists l1, l2. split; [reflexivity|]. split; [assumption|]. intros x Hx. apply Hn. now right.
    + assert (Hs: served lib vhs d). { assert (Hv: In v (vhosts_for lib d vhs)) by (rewrite E; now left). unfold vhosts_for in Hv. apply filter_In in Hv. exists v. split; [apply Hv|]. apply vhost_spec. apply Hv. }
      split.
      * intros <-. exists d. split; [|exact E]. exists [], ds. split; [reflexivity|]. split; [assumption|intros x []].
      * intros (d' & (l1 & l2 & El & Hp & Hn) & Hv). destruct l1 as [|a l1]; cbn in El; injection El as -> ->; [congruence|]. exfalso. apply (Hn a); [now left|assumption].
Qed.
Lemma first_vhosts_nil : forall lib vhs ds, first_vhosts lib ds vhs = [] <-> forall d, In d ds -> ~ served lib vhs d.
Proof.
  intros lib vhs ds. induction ds as [|d ds IH]; cbn [first_vhosts]; [split; [intros _ d []|reflexivity]|].
  destruct (vhosts_for lib d vhs) as [|v vs] eqn:E.
  - rewrite IH. apply vhosts_nil in E. split; [intros H x [<-|Hx]; auto|]. intros H x Hx. apply H. now right.
  - split; [discriminate|]. intros H. rewrite (proj2 (vhosts_nil lib d vhs)) in E; [discriminate|]. apply H. now left.
Qed.

(* listeners *)
Lemma http_spec : forall l, l_outbound l && is_http l = true <-> http_outbound l.
Proof.
  intros l. unfold http_outbound, is_http. rewrite andb_true_iff, existsb_exists. split; intros [H1 H2]; (split; [exact H1|]).
  - destruct H2 as (ch & Hc & Hf). apply existsb_exists in Hf. destruct Hf as (f & Hi & Hf). exists ch, f. split; [assumption|]. split; [assumption|]. destruct f; [right; eauto|now left|discriminate].
  - destruct H2 as (ch & f & Hc & Hi & Hf). exists ch. split; [assumption|]. apply existsb_exists. exists f. split; [assumption|]. destruct Hf as [->|[r ->]]; reflexivity.
Qed.
Lemma on_spec : forall lib ip port l, listening_on lib ip port l = true <-> on_addr lib ip port l.
Proof. intros. unfold listening_on, on_addr. apply String.eqb_eq. Qed.
Lemma listeners_in : forall c l, nd (c_res (c LDS)) -> In l (list_listeners c) <-> exists k, listens c k l.
Proof.
  intros c l Hn. unfold list_listeners, get_resources. rewrite in_flat_map. split.
  - intros ([k m] & Hi & Hl). cbn in Hl. destruct m; try (now destruct Hl). destruct Hl as [->|[]]. exists k. unfold listens. now apply in_resources.
  - intros (k & Hk). exists (k, MListener l). split; [now apply in_resources|now left].
Qed.
Lemma listeners_one : forall c (P : listener -> Prop) p l, nd (c_res (c LDS)) -> (forall x, p x = true <-> P x) ->
  filter p (list_listeners c) = [l] <-> exists k, listens c k l /\ P l /\ forall k' l', listens c k' l' -> P l' -> k' = k.
Proof.
  intros c P p l Hn Hp.
  assert (G: forall E : gmap message, nd E -> filter p (flat_map (fun e => match snd e with MListener x => [x] | _ => [] end) E) = [l] <->
    exists k, In (k, MListener l) E /\ P l /\ forall k' l', In (k', MListener l') E -> P l' -> k' = k).
  { assert (Hnil: forall E : gmap message, filter p (flat_map (fun e => match snd e with MListener x => [x] | _ => [] end) E) = [] <-> forall k l', In (k, MListener l') E -> ~ P l').
    { intros E. rewrite filter_nil. split.
      - intros H k l' Hi HP. apply Hp in HP. rewrite (H l') in HP; [discriminate|]. apply in_flat_map. exists (k, MListener l'). split; [assumption|now left].
      - intros H x Hx. apply in_flat_map in Hx. destruct Hx as ([k m] & Hi & Hx). cbn in Hx. destruct m; try (now destruct Hx). destruct Hx as [->|[]]. destruct (p x) eqn:Ep; [|reflexivity]. apply Hp in Ep. exfalso. eapply H; eassumption. }
    induction E as [|[k m] E IH]; intros HE; cbn [flat_map].
    - split; [discriminate|]. intros (k & [] & _).
    - assert (Hk: ~ In k (mkeys E) /\ nd E) by (inversion HE; subst; split; assumption). destruct Hk as [Hk HE'].
      assert (Skip: (forall l', m = MListener l' -> ~ P l') -> (filter p (flat_map (fun e => match snd e with MListener x => [x] | _ => [] end) E) = [l] <->
        (exists k0, In (k0, MListener l) ((k, m) :: E) /\ P l /\ (forall k' l', In (k', MListener l') ((k, m) :: E) -> P l' -> k' = k0)))).
      { intros Hm. rewrite (IH HE'). split; intros (k0 & Hi & HP & Hu); exists k0.
        - split; [now right|]. split; [assumption|]. intros k' l' [Hx|Hx] HP'; [injection Hx as -> Hx; exfalso; eapply Hm; eassumption|eauto].
        - destruct Hi as [Hi|Hi]; [injection Hi as -> Hi; exfalso; eapply Hm; eassumption|]. split; [assumption|]. split; [assumption|]. intros k' l' Hx HP'. eapply Hu; [right; eassumption|assumption]. }
      cbn [snd]. destruct m as [x|x y|x|x y|x|x]; cbn [app]; try (apply Skip; discriminate). cbn [filter]. destruct (p x) eqn:Ep.
      + split.
        * intros H. injection H as -> H. exists k. split; [now left|]. split; [now apply Hp|]. intros k' l' [Hx|Hx] HP'; [now injection Hx|]. exfalso. eapply (proj1 (Hnil E) H); eassumption.
        * intros (k0 & Hi & HP & Hu). assert (k = k0) by (eapply Hu; [now left|now apply Hp]). subst k0.
          assert (x = l). { destruct Hi as [Hi|Hi]; [now injection Hi|]. exfalso. apply Hk. apply in_map_iff. exists (k, MListener l). split; [reflexivity|assumption]. } subst x.
          f_equal. apply Hnil. intros k' l' Hx HP'. assert (k' = k) by (eapply Hu; [right; eassumption|assumption]). subst k'. apply Hk. apply in_map_iff. exists (k, MListener l'). split; [reflexivity|assumption].
      + apply Skip. intros l' El. injection El as ->. intros HP. apply Hp in HP. congruence. }
  unfold list_listeners, get_resources. rewrite (G (c_res (c LDS)) Hn). unfold listens. split; intros (k & Hi & HP & Hu); exists k; (split; [now apply in_resources|]); (split; [assumption|]); intros k' l' Hx HP'; eapply Hu; try eassumption; now apply in_resources.
Qed.
Lemma listener_one : forall lib c ips port l, nd (c_res (c LDS)) -> http_listener lib c ips port = inl l <->
  exists k, listens c k l /\ candidate_listener lib c ips port l /\ forall k' l', listens c k' l' -> candidate_listener lib c ips port l' -> k' = k.
Proof.
  intros lib c ips port l Hn. unfold http_listener; cbv beta zeta.
  set (p1 := fun l0 => l_outbound l0 && is_http l0 && existsb (fun ip => listening_on lib ip port l0) ips).
  set (p2 := fun l0 => l_outbound l0 && is_http l0 && listening_on lib "0.0.0.0" port l0).
  set (P1 := fun l0 => http_outbound l0 /\ exists ip, In ip ips /\ on_addr lib ip port l0).
  set (P2 := fun l0 => http_outbound l0 /\ on_addr lib "0.0.0.0" port l0).
  assert (E1: forall x, p1 x = true <-> P1 x).
  { intros x. unfold p1, P1. rewrite andb_true_iff, http_spec, existsb_exists. split; intros [H1 (ip & H2 & H3)]; (split; [assumption|]); exists ip; (split; [assumption|]); now apply on_spec. }
  assert (E2: forall x, p2 x = true <-> P2 x) by (intros x; unfold p2, P2; now rewrite andb_true_iff, http_spec, on_spec).
  assert (one: forall (x : list listener), (match x with [] => inr NoListener | [l0] => inl l0 | _ => inr ManyListeners end = inl l) <-> x = [l]).
  { intros [|a [|b x]]; split; intros H; try discriminate; congruence. }
  destruct (filter p1 (list_listeners c)) as [|a r] eqn:F.
  - assert (H0: forall k l', listens c k l' -> ~ P1 l').
    { intros k l' Hl HP. apply E1 in HP. rewrite (proj1 (filter_nil _ _) F l') in HP; [discriminate|]. apply listeners_in; eauto. }
    rewrite one, (listeners_one c P2 p2 l Hn E2). 
    assert (Hc: forall k l', listens c k l' -> P2 l' <-> candidate_listener lib c ips port l').
    { intros k l' Hl. unfold candidate_listener, P2. split.
      - intros [H1 H2]. split; [assumption|]. right. split; [|assumption]. intros l'' k' Hl'' Ho ip Hi Ha. apply (H0 k' l'' Hl''). split; eauto.
      - intros [H1 [H2|[_ H2]]]; [exfalso; apply (H0 k l' Hl); split; assumption|split; assumption]. }
    split; intros (k & Hk & HP & Hu); exists k; (split; [assumption|]); (split; [now apply (Hc k)|]); intros k' l' Hl' HP'; apply (Hu k' l' Hl'); now apply (Hc k').
  - etransitivity; [exact (one (a :: r))|]. rewrite <- F, (listeners_one c P1 p1 l Hn E1).
    assert (Ha: In a (list_listeners c) /\ P1 a). { assert (Hi: In a (filter p1 (list_listeners c))) by (rewrite F; now left). apply filter_In in Hi. rewrite E1 in Hi. exact Hi. }
    destruct Ha as [Ha HPa]. apply listeners_in in Ha; [|assumption]. destruct Ha as [ka Ha].
    assert (Hc: forall l', P1 l' <-> candidate_listener lib c ips port l').
    { intros l'. unfold candidate_listener, P1. split; [intros [H1 H2]; split; [assumption|now left]|]. intros [H1 [H2|[H2 _]]]; [split; assumption|]. exfalso. destruct HPa as [Ho (ip & Hi & Hon)]. eapply H2; eassumption. }
    split; intros (k & Hk & HP & Hu); exists k; (split; [assumption|]); (split; [now apply Hc|]); intros k' l' Hl' HP'; apply (Hu k' l' Hl'); now apply Hc.
Qed.

(* In every reachable state: the HTTP destination host:port is given upstream cluster [cl] and route [r] iff
   - the host resolves to [ips] and exactly one listener qualifies,
   - its route configuration [vhs] is known,
   - [d] is the destination of highest precedence that any virtual host serves, only [vh] serves it,
   - [r] is the only route of [vh] for "/" to an upstream cluster, and its cluster is known. *)
Theorem C26_selected_iff : forall lib select domains g es host port cl r, let c := run g new_client es in
  http_target lib select domains c host port = inl (cl, r) <->
  exists ips k l rc nm vhs d vh,
    resolve_host lib domains c host = inl ips /\
    (listens c k l /\ candidate_listener lib c ips port l /\ forall k' l', listens c k' l' -> candidate_listener lib c ips port l' -> k' = k) /\
    chains_route (l_chains l) = Some rc /\ rc <> "" /\ get_resource rc (c RDS) = Some (MRoute nm vhs) /\
    first_with (fun d => exists vh, In vh vhs /\ serves lib d vh) (destinations lib ips host port) d /\
    only_one (serves lib d) vhs vh /\
    only_one (routes_root lib) (vh_routes vh) r /\
    exists cn, cn <> "" /\ (rt_cluster r <> "" -> cn = rt_cluster r) /\ (rt_cluster r = "" -> exists ws, rt_weighted r = Some ws /\ cn = select ws) /\
      get_resource cn (c CDS) = Some (MCluster cl).
Proof.
  intros lib select domains g es host port cl r c. assert (Hn: nd (c_res (c LDS))) by apply run_nd. unfold http_target.
  destruct (resolve_host lib domains c host) as [ips|e] eqn:Er.
  2: { split; [discriminate|]. intros (ips & H). decompose [ex and] H. congruence. }
  destruct (http_listener lib c ips port) as [l|e] eqn:El.
  2: { split; [discriminate|]. intros (ips' & k & l & rc & nm & vhs & d & vh & H1 & H2 & _). injection H1 as <-. assert (Hx: http_listener lib c ips port = inl l) by (apply listener_one; eauto). congruence. }
  pose proof (proj1 (listener_one lib c ips port l Hn) El) as (k & Hl). unfold route_config_name.
  assert (Hsame: forall k' l', (listens c k' l' /\ candidate_listener lib c ips port l' /\ (forall k'' l'', listens c k'' l'' -> candidate_listener lib c ips port l'' -> k'' = k')) -> l' = l).
  { intros k' l' H. assert (Hx: http_listener lib c ips port = inl l') by (apply listener_one; eauto). congruence. }
  destruct (chains_route (l_chains l)) as [rc|] eqn:Ec.
  2: { cbn [String.eqb]. split; [discriminate|]. intros (ips' & k' & l' & rc & nm & vhs & d & vh & H1 & H2 & H3 & _). injection H1 as <-. rewrite (Hsame _ _ H2) in H3. congruence. }
  destruct (String.eqb rc "") eqn:Erc.
  { apply String.eqb_eq in Erc. split; [discriminate|]. intros (ips' & k' & l' & rc' & nm & vhs & d & vh & H1 & H2 & H3 & H4 & _). injection H1 as <-. rewrite (Hsame _ _ H2) in H3. congruence. }
  apply String.eqb_neq in Erc.
  assert (Hmsg: (exists nm vhs, get_resource rc (c RDS) = Some (MRoute nm vhs)) \/ (forall nm vhs, get_resource rc (c RDS) <> Some (MRoute nm vhs))).
  { destruct (get_resource rc (c RDS)) as [[]|]; try (right; discriminate). left; eauto. }
  destruct Hmsg as [(nm & vhs & Hm)|Hm].
  2: { split.
       - destruct (get_resource rc (c RDS)) as [[]|]; try discriminate. exfalso. eapply Hm. reflexivity.
       - intros (ips' & k' & l' & rc' & nm & vhs & d & vh & H1 & H2 & H3 & H4 & H5 & _). injection H1 as <-. rewrite (Hsame _ _ H2) in H3. exfalso. eapply Hm. replace rc with rc' by congruence. exact H5. }
  rewrite Hm, dest_eq.
  assert (Hvh: forall vh, first_vhosts lib (destinations lib ips host port) vhs = [vh] <->
    exists d, first_with (fun d => exists vh, In vh vhs /\ serves lib d vh) (destinations lib ips host port) d /\ only_one (serves lib d) vhs vh).
  { intros vh. rewrite (first_vhosts_spec lib vhs _ [vh]) by discriminate. split; intros (d & H1 & H2); exists d; (split; [exact H1|]).
    - apply (filter_one _ _ _ _ (vhost_spec lib d)). exact H2.
    - apply (filter_one _ _ _ _ (vhost_spec lib d)) in H2. exact H2. }
  split.
  - destruct (first_vhosts lib (destinations lib ips host port) vhs) as [|vh [|]] eqn:Ev; try discriminate. destruct (proj1 (Hvh vh) eq_refl) as (d & Hd & Ho).
    destruct (usable_routes lib vh) as [|r' [|]] eqn:Eu; try discriminate. apply (filter_one _ _ _ _ (usable_spec lib)) in Eu.
    destruct (String.eqb (target_cluster_name select r') "") eqn:Et; [discriminate|]. apply String.eqb_neq in Et.
    destruct (get_resource (target_cluster_name select r') (c CDS)) as [m|] eqn:Eg; [|discriminate]. intros H. destruct m; try discriminate. injection H as -> ->.
    exists ips, k, l, rc, nm, vhs, d, vh. split; [reflexivity|]. split; [exact Hl|]. repeat (split; [assumption|]). exists (target_cluster_name select r). split; [assumption|].
    unfold target_cluster_name in *. destruct (String.eqb (rt_cluster r) "") eqn:Ecl; (split; [intros Hc|split; [intros Hc|exact Eg]]).
    + apply String.eqb_eq in Ecl. contradiction.
    + destruct (rt_weighted r) as [ws|]; [eauto|congruence].
    + reflexivity.
    + apply String.eqb_neq in Ecl. contradiction.
  - intros (ips' & k' & l' & rc' & nm' & vhs' & d & vh & H1 & H2 & H3 & H4 & H5 & H6 & H7 & H8 & cn & H9 & H10 & H11 & H12). injection H1 as <-. rewrite (Hsame _ _ H2) in H3.
    assert (rc' = rc) by congruence. subst rc'. rewrite Hm in H5. injection H5 as <- <-.
    rewrite (proj2 (Hvh vh)) by eauto. unfold usable_routes. rewrite (proj2 (filter_one _ _ _ _ (usable_spec lib)) H8).
    assert (Hcn: target_cluster_name select r = cn).
    { unfold target_cluster_name. destruct (String.eqb (rt_cluster r) "") eqn:Ecl; [apply String.eqb_eq in Ecl|apply String.eqb_neq in Ecl; symmetry; auto]. destruct (H11 Ecl) as (ws & -> & ->). reflexivity. }
    rewrite Hcn. rewrite (proj2 (String.eqb_neq cn "") H9), H12. reflexivity.
Qed.
Print Assumptions C26_selected_iff.
(* Absence and ambiguity are errors: once the route configuration is found, *)
Theorem C26_absent_or_ambiguous : forall lib select domains g es host port, let c := run g new_client es in
  forall ips l rc nm vhs, resolve_host lib domains c host = inl ips -> http_listener lib c ips port = inl l ->
  chains_route (l_chains l) = Some rc -> rc <> "" -> get_resource rc (c RDS) = Some (MRoute nm vhs) ->
  (http_target lib select domains c host port = inr NoVhost <-> forall d vh, In d (destinations lib ips host port) -> In vh vhs -> ~ serves lib d vh) /\
  (http_target lib select domains c host port = inr ManyVhosts <->
     exists d, first_with (fun d => exists vh, In vh vhs /\ serves lib d vh) (destinations lib ips host port) d /\ ambiguous (serves lib d) vhs).
Proof.
  intros lib select domains g es host port c ips l rc nm vhs H1 H2 H3 H4 H5. unfold http_target. rewrite H1, H2. unfold route_config_name. rewrite H3, (proj2 (String.eqb_neq rc "") H4), H5, dest_eq.
  pose proof (first_vhosts_nil lib vhs (destinations lib ips host port)) as Hnil.
  assert (Hmany: forall a b r, first_vhosts lib (destinations lib ips host port) vhs = a :: b :: r -> exists d, first_with (served lib vhs) (destinations lib ips host port) d /\ ambiguous (serves lib d) vhs).
  { intros a b r H. apply first_vhosts_spec in H; [|discriminate]. destruct H as (d & Hd & H). exists d. split; [exact Hd|]. apply (filter_many _ _ _ (vhost_spec lib d)). do 3 eexists. exact H. }
  assert (Hmany': forall d, first_with (served lib vhs) (destinations lib ips host port) d -> ambiguous (serves lib d) vhs -> exists a b r, first_vhosts lib (destinations lib ips host port) vhs = a :: b :: r).
  { intros d Hd Ha. apply (filter_many _ _ _ (vhost_spec lib d)) in Ha. destruct Ha as (a & b & r & H). exists a, b, r. apply first_vhosts_spec; [discriminate|]. exists d. split; [exact Hd|exact H]. }
  destruct (first_vhosts lib (destinations lib ips host port) vhs) as [|vh [|vh2 vs]] eqn:Ev.
  - split; (split; [intros H|]); try discriminate; try reflexivity.
    + intros d vh Hd Hv Hs. apply (proj1 Hnil eq_refl d Hd). exists vh. auto.
    + intros (d & Hd & Ha). destruct (Hmany' d Hd Ha) as (a & b & r & H). discriminate.
  - assert (Hr: forall e, (e = NoVhost \/ e = ManyVhosts) -> match usable_routes lib vh with | [] => inr NoRoute | [r] => if String.eqb (target_cluster_name select r) "" then inr NoClusterName else match get_resource (target_cluster_name select r) (c CDS) with Some (MCluster cl) => inl (cl, r) | _ => inr NoCluster end | _ => inr ManyRoutes end <> inr e).
    { intros e He. destruct (usable_routes lib vh) as [|r [|]]; try (destruct He; subst; intros X; discriminate X). destruct (String.eqb _ _); [destruct He; subst; intros X; discriminate X|]. 
    clear - He. destruct (get_resource _ _) as [[]|]; destruct He as [He|He]; rewrite He; congruence. }
    split; (split; [intros H; exfalso; eapply Hr; [|exact H]; auto|]).
    + intros H. exfalso. assert (Hx: [vh] = []) by (apply Hnil; intros d Hd (v & Hv & Hs); exact (H d v Hd Hv Hs)). discriminate.
    + intros (d & Hd & Ha). destruct (Hmany' d Hd Ha) as (a & b & r & H). discriminate.
  - split; (split; [intros H|]); try discriminate; try reflexivity.
    + intros H. exfalso. assert (Hx: vh :: vh2 :: vs = []) by (apply Hnil; intros d Hd (v & Hv & Hs); exact (H d v Hd Hv Hs)). discriminate.
    + eapply Hmany. reflexivity.
Qed.
Print Assumptions C26_absent_or_ambiguous.
(* Never an arbitrary choice: the outcome, error or not, does not depend on the iteration order of the maps. *)
Lemma filter_perm {A} : forall (p : A -> bool) l l', Permutation l l' -> Permutation (filter p l) (filter p l').
Proof.
  intros p l l' H. induction H as [|x l l' H IH|x y l|l1 l2 l3 H1 IH1 H2 IH2]; cbn.
  - constructor.
  - destruct (p x); [now constructor|assumption].
  - destruct (p x), (p y); try reflexivity. constructor.
  - etransitivity; eassumption.
Qed.
Lemma perm_shape {A} : forall l l' : list A, Permutation l l' -> (l = [] /\ l' = []) \/ (exists a, l = [a] /\ l' = [a]) \/ (exists a b r a' b' r', l = a :: b :: r /\ l' = a' :: b' :: r').
Proof.
  intros l l' H. pose proof (Permutation_length H) as Hl. destruct l as [|a [|b r]], l' as [|a' [|b' r']]; try discriminate Hl; auto.
  - right; left. exists a. apply Permutation_length_1 in H. subst. auto.
  - right; right. do 6 eexists. split; reflexivity.
Qed.
Theorem C26_order_independent : forall lib select domains (c c' : client) host port, nd (c_res (c LDS)) -> nd (c_res (c' LDS)) ->
  (forall t n, get_resource n (c' t) = get_resource n (c t)) ->
  http_target lib select domains c' host port = http_target lib select domains c host port.
Proof.
  intros lib select domains c c' host port Hn Hn' He.
  assert (Hk: forall names, first_known names (get_resources (c' NDS)) = first_known names (get_resources (c NDS))).
  { induction names as [|h r IH]; cbn; [reflexivity|]. pose proof (He NDS h) as H. unfold get_resource in H. unfold get_resources in *. now rewrite H, IH. }
  assert (Hr: resolve_host lib domains c' host = resolve_host lib domains c host) by (unfold resolve_host; now rewrite Hk).
  assert (Hp: Permutation (list_listeners c') (list_listeners c)).
  { unfold list_listeners, get_resources. apply Permutation_flat_map. apply NoDup_Permutation.
    - apply (NoDup_map_inv fst). exact Hn'.
    - apply (NoDup_map_inv fst). exact Hn.
    - intros [k m]. rewrite (in_resources (c' LDS) k m Hn'), (in_resources (c LDS) k m Hn). now rewrite He. }
  assert (Hl: forall ips, http_listener lib c' ips port = http_listener lib c ips port).
  { intros ips. unfold http_listener; cbv beta zeta.
    set (p1 := fun l0 => l_outbound l0 && is_http l0 && existsb (fun ip => listening_on lib ip port l0) ips).
    set (p2 := fun l0 => l_outbound l0 && is_http l0 && listening_on lib "0.0.0.0" port l0).
    destruct (perm_shape _ _ (filter_perm p1 _ _ Hp)) as [[-> ->]|[(a & -> & ->)|(a & b & r & a' & b' & r' & -> & ->)]]; [|reflexivity|reflexivity].
    destruct (perm_shape _ _ (filter_perm p2 _ _ Hp)) as [[-> ->]|[(a & -> & ->)|(a & b & r & a' & b' & r' & -> & ->)]]; reflexivity. }
  unfold http_target. rewrite Hr. destruct (resolve_host lib domains c host) as [ips|]; [|reflexivity]. rewrite Hl. destruct (http_listener lib c ips port) as [l|]; [|reflexivity].
  rewrite He. destruct (String.eqb (route_config_name l) ""); [reflexivity|]. destruct (get_resource (route_config_name l) (c RDS)) as [[]|]; try reflexivity.
  destruct (first_vhosts lib (domain_matches lib ips host port) vhosts) as [|vh [|]]; try reflexivity. destruct (usable_routes lib vh) as [|r [|]]; try reflexivity. now rewrite He.
Qed.
Print Assumptions C26_order_independent.

Definition ex_route n cl := mkroute n "/" "" None None cl None.
Definition ex_http_events := [EConnect; ex_table;
  ex_resp LDS [MListener (mklistener "0.0.0.0_80" true "0.0.0.0" 80 [[FHcm (Some "80")]])];
  ex_resp RDS [MRoute "80" [mkvhost "v1" ["10.0.0.2"; "svc:80"] [ex_route "r1" "c1"]; mkvhost "v2" ["svc"; "10.0.0.1:80"] [ex_route "r2" "c2"]; mkvhost "v3" ["dup"] [ex_route "r3" "c2"]; mkvhost "v4" ["dup"] [ex_route "r4" "c2"]]];
  ex_resp CDS [MCluster (mkcluster "c2" false None)]].
Example C26_ex : let c := run ex_cfg new_client ex_http_events in let sel := fun _ => "" in
  http_target ex_lib sel ["ns"] c "svc" 80 = inl (mkcluster "c2" false None, ex_route "r2" "c2") /\
  http_target ex_lib sel ["ns"] c "10.0.0.3" 80 = inr NoVhost /\ http_target ex_lib sel ["ns"] c "10.0.0.2" 80 = inr NoCluster.
Proof. vm_compute. auto. Qed.
