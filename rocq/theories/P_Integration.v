(* C78: the integration handler is set up as configured *)
From Coq Require Import String List Ascii Bool Arith ZArith Lia.
From Verif Require Import M_GoStr M_GoMap M_Identity M_Regex M_Integration L_GoStr L_GoMap L_Regex S_Regex P_Identity.
Import ListNotations.
Open Scope list_scope.

(* ---- enabling ---- *)
(* The handler that leaves everything alone is returned exactly if neither the environment nor the configuration enables it. *)
Theorem C78_passthrough : forall w arg e, fst (new_handler w arg (Some e)) = Ret Passthrough <->
  i_enabled e = false /\ exists c, arg = Some c /\ c_enabled c = false.
Proof.
  intros w arg e. unfold new_handler. cbn [fst]. set (c := set_defaults w match arg with Some c => c | None => default_config w end).
  destruct (i_enabled e) eqn:Ee; cbn [negb andb].
  - split; [|intros [H _]; discriminate H]. intros H. exfalso.
    match type of H with match ?g with _ => _ end = _ => destruct g as [[ca e1]| |] end; try discriminate H.
    destruct (c_push c) as [p|]; [|discriminate H]. destruct (p_addr p); [discriminate H|]. cbn [http_transport h_conf h_ca] in H.
    destruct (w_streams w (client_filters c)); [|discriminate H]. destruct ca; [|discriminate H]. discriminate H.
  - destruct (c_enabled c) eqn:Ec; cbn [negb].
    + split; [|intros [_ (c0 & -> & X)]; unfold c in Ec; cbn in Ec; congruence]. intros H. exfalso.
      match type of H with match ?g with _ => _ end = _ => destruct g as [[ca e1]| |] end; try discriminate H.
      destruct (c_push c) as [p|]; [|discriminate H]. destruct (p_addr p); [discriminate H|]. cbn [http_transport h_conf h_ca] in H.
      destruct (w_streams w (client_filters c)); [|discriminate H]. destruct ca; [|discriminate H]. discriminate H.
    + split; [|reflexivity]. intros _. split; [reflexivity|]. destruct arg as [c0|]; [exists c0; now split|discriminate Ec].
Qed.
Print Assumptions C78_passthrough.
(* It hands out what it is given, does not use the mesh and cannot fail. *)
Theorem C78_passthrough_transparent : forall w x d,
  http_transport w Passthrough x = Ret (Plain x, Passthrough) /\ serve_http w Passthrough x = Ret (Plain x, Passthrough) /\
  tcp_listener w Passthrough x = Ret (Plain x, Passthrough) /\ tcp_dialer w Passthrough (Some d) = Ret (Plain d, Passthrough) /\
  tcp_dialer w Passthrough None = Ret (Plain default_dialer, Passthrough) /\ grpc_options w Passthrough = Ret (None, Passthrough).
Proof. intros. repeat split. Qed.
Print Assumptions C78_passthrough_transparent.

(* ---- defaults ---- *)
(* The caller's configuration is changed: exactly the unset fields get their default; nothing else. *)
Theorem C78_defaults : forall w c e, exists d, snd (new_handler w (Some c) e) = Some d /\
  c_enabled d = c_enabled c /\ c_tls d = c_tls c /\ c_server d = c_server c /\ c_client d = c_client c /\
  (c_path c = [] -> c_path d = lit "/stats/prometheus") /\ (c_path c <> [] -> c_path d = c_path c) /\
  (c_addr c = [] -> c_addr d = lit ":16090") /\ (c_addr c <> [] -> c_addr d = c_addr c) /\
  (c_runtime c = [] -> c_runtime d = lit "wazero") /\ (c_runtime c <> [] -> c_runtime d = c_runtime c) /\
  (c_bifrost c = [] -> c_bifrost d = w_getenv w "BIFROST_ADDRESS"%string) /\ (c_bifrost c <> [] -> c_bifrost d = c_bifrost c) /\
  (c_expose c = None -> c_expose d = Some true) /\ (forall b, c_expose c = Some b -> c_expose d = Some b) /\
  (c_dialer c = None -> c_dialer d = Some default_dialer) /\ (forall n, c_dialer c = Some n -> c_dialer d = Some n) /\
  (c_getter c = None -> c_getter d = Some (getter_auto w)) /\ (forall g, c_getter c = Some g -> c_getter d = Some g) /\
  (c_push c = None -> c_push d = None) /\
  (forall p, c_push c = Some p -> exists q, c_push d = Some q /\ p_addr q = p_addr p /\ p_unique q = p_unique p /\
     (p_interval p = 0%Z -> p_interval q = 5%Z) /\ (p_interval p <> 0%Z -> p_interval q = p_interval p) /\
     (p_label p = [] -> p_label q = lit "nasp_instance_id") /\ (p_label p <> [] -> p_label q = p_label p)).
Proof.
  intros w c e. exists (set_defaults w c). split; [reflexivity|]. destruct c as [en pa ad pu tl se cl ge ru bi ex di].
  cbn [set_defaults c_enabled c_path c_addr c_push c_tls c_server c_client c_getter c_runtime c_bifrost c_expose c_dialer].
  assert (OE: forall s d, (s = [] -> or_else s d = d) /\ (s <> [] -> or_else s d = s)) by (intros [|a s] d; split; intros H; try reflexivity; [now elim H|discriminate H]).
  repeat match goal with |- _ /\ _ => split end; try reflexivity; try (apply OE); try (now intros ->); try (intros ? ->; reflexivity).
  intros p ->. cbn [option_map]. exists (push_defaults p). split; [reflexivity|]. destruct p as [a i u l]. cbn [push_defaults p_addr p_interval p_unique p_label].
  repeat match goal with |- _ /\ _ => split end; try reflexivity; try (apply OE); try (now intros ->). intros H. apply Z.eqb_neq in H. now rewrite H.
Qed.
Print Assumptions C78_defaults.
(* Doing so twice is doing it once: a configuration can be reused. *)
Theorem C78_defaults_idempotent : forall w c, set_defaults w (set_defaults w c) = set_defaults w c.
Proof.
  intros w [en pa ad pu tl se cl ge ru bi ex di]. unfold set_defaults. cbn [c_enabled c_path c_addr c_push c_tls c_server c_client c_getter c_runtime c_bifrost c_expose c_dialer].
  assert (OE: forall s d, or_else (or_else s d) d = or_else s d) by (intros [|a s] d; [destruct d; reflexivity|reflexivity]).
  rewrite !OE. f_equal.
  - destruct pu as [[a i u l]|]; [|reflexivity]. cbn [option_map]. unfold push_defaults. cbn [p_addr p_interval p_unique p_label]. rewrite OE. destruct (Z.eqb_spec i 0) as [->|N]; [reflexivity|]. now rewrite (proj2 (Z.eqb_neq i 0) N).
  - destruct ge; reflexivity.
  - destruct ex; reflexivity.
  - destruct di; reflexivity.
Qed.
Print Assumptions C78_defaults_idempotent.

(* ---- success, error, panic ---- *)
(* With TLS on, creating an enabled handler fails exactly if the CA configuration cannot be had, or metrics are to be pushed and there is no address or the filters
   do not load; otherwise the handler has the CA of the getter, and its four products can be had whenever their filters load. *)
Definition wanted (w : world) (c : config) : getter := match c_getter c with Some g => g | None => getter_auto w end.
Theorem C78_created : forall w c e ca e1, c_tls c = true -> i_enabled e = true \/ c_enabled c = true -> wanted w c e = Ret (ca, e1) ->
  let r := fst (new_handler w (Some c) (Some e)) in
  (c_push c = None -> exists f, r = Ret (Full f) /\ h_ca f = Some ca /\ h_job f = None) /\
  (forall p, c_push c = Some p -> p_addr p = [] -> r = Err) /\
  (forall p, c_push c = Some p -> p_addr p <> [] -> w_streams w (client_filters (set_defaults w c)) = false -> r = Err) /\
  (forall p, c_push c = Some p -> p_addr p <> [] -> w_streams w (client_filters (set_defaults w c)) = true ->
     exists f, r = Ret (Full f) /\ h_ca f = Some ca /\ h_job f = Some (job_name (node_id (i_id (h_env f))))).
Proof.
  intros w c e ca e1 T En G r. unfold r, new_handler. cbn [fst]. set (d := set_defaults w c).
  assert (Ed: negb (i_enabled e) && negb (c_enabled d) = false) by (change (c_enabled d) with (c_enabled c); destruct En as [-> | ->]; [reflexivity|apply andb_false_r]). rewrite Ed.
  change (c_tls d) with (c_tls c). rewrite T.
  assert (Gd: (match c_getter d with Some g => g | None => getter_auto w end) e = Ret (ca, e1)) by (unfold d, set_defaults; cbn [c_getter]; unfold wanted in G; destruct (c_getter c); exact G).
  rewrite Gd. cbv iota beta zeta. change (c_push d) with (option_map push_defaults (c_push c)).
  split; [|split; [|split]].
  - intros ->. cbn [option_map]. eexists. repeat split.
  - intros p -> E. cbn [option_map push_defaults p_addr]. now rewrite E.
  - intros p -> E S. cbn [option_map push_defaults p_addr]. destruct (p_addr p); [now elim E|]. cbn [http_transport h_conf]. now rewrite S.
  - intros p -> E S. cbn [option_map push_defaults p_addr]. destruct (p_addr p); [now elim E|]. cbn [http_transport h_conf]. rewrite S. cbn [h_ca discovery h_client]. eexists. repeat split.
Qed.
Print Assumptions C78_created.
Theorem C78_errors : forall w c e, c_tls c = true -> i_enabled e = true \/ c_enabled c = true ->
  (wanted w c e = Err -> fst (new_handler w (Some c) (Some e)) = Err) /\ fst (new_handler w (Some c) None) = Err.
Proof.
  intros w c e T En. split; [|reflexivity]. intros G. unfold new_handler. cbn [fst]. set (d := set_defaults w c).
  assert (Ed: negb (i_enabled e) && negb (c_enabled d) = false) by (change (c_enabled d) with (c_enabled c); destruct En as [-> | ->]; [reflexivity|apply andb_false_r]). rewrite Ed.
  change (c_tls d) with (c_tls c). rewrite T.
  assert (Gd: (match c_getter d with Some g => g | None => getter_auto w end) e = Err) by (unfold d, set_defaults; cbn [c_getter]; unfold wanted in G; destruct (c_getter c); exact G).
  now rewrite Gd.
Qed.
Print Assumptions C78_errors.
(* What an enabled handler with a CA hands out: the argument behind the default filters; servers use the configured filters if there are any. *)
Theorem C78_products : forall w f x, h_ca f <> None ->
  let c := h_conf f in
  (w_streams w (client_filters c) = true -> exists f', http_transport w (Full f) x = Ret (Meshed x (client_filters c) ["istio-http/1.1"; "istio"; "http/1.1"]%string, Full f')) /\
  (forall fs, (c_server c = [] -> fs = server_filters c) -> (c_server c <> [] -> fs = c_server c) -> w_streams w fs = true ->
     exists f', serve_http w (Full f) x = Ret (Meshed x fs ["h2"; "http/1.1"; "http/1.0"]%string, Full f')) /\
  (w_streams w (tcp_server_filters c) = true -> exists f', tcp_listener w (Full f) x = Ret (Meshed x (tcp_server_filters c) ["istio-peer-exchange"; "istio"]%string, Full f')) /\
  (w_streams w (tcp_client_filters c) = true -> exists f', tcp_dialer w (Full f) (Some x) = Ret (Meshed x (tcp_client_filters c) ["istio-peer-exchange"; "istio"]%string, Full f')) /\
  (forall y, w_streams w (tcp_client_filters c) = true -> c_dialer c = Some y -> exists f', tcp_dialer w (Full f) None = Ret (Meshed y (tcp_client_filters c) ["istio-peer-exchange"; "istio"]%string, Full f')) /\
  (w_streams w (client_filters c) = true -> exists f', grpc_options w (Full f) = Ret (Some (Meshed 0 (client_filters c) ["istio-h2"; "h2"]%string), Full f')).
Proof.
  intros w f x HC c. destruct (h_ca f) as [ca|] eqn:EC; [|now elim HC].
  assert (D: exists f', discovery f = Ret f') by (unfold discovery; rewrite EC; destruct (h_client f); eexists; reflexivity). destruct D as [f' D].
  assert (SF: forall fs, (c_server c = [] -> fs = server_filters c) -> (c_server c <> [] -> fs = c_server c) -> fs = match c_server c with [] => server_filters c | l => l end).
  { intros fs A B. destruct (c_server c); [now apply A|apply B; discriminate]. }
  unfold http_transport, serve_http, tcp_listener, tcp_dialer, grpc_options. fold c. rewrite EC, D.
  split; [intros S; exists f'; now rewrite S|]. split; [intros fs A B S; exists f'; rewrite <- (SF fs A B), S; reflexivity|]. split; [intros S; exists f'; now rewrite S|]. split; [intros S; exists f'; now rewrite S|].
  split; [intros y S ->; exists f'; now rewrite S|intros S; exists f'; now rewrite S].
Qed.
Print Assumptions C78_products.
(* The configured client filters have no effect on anything. *)
Definition forget_client (c : config) : config :=
  mkconf (c_enabled c) (c_path c) (c_addr c) (c_push c) (c_tls c) (c_server c) [] (c_getter c) (c_runtime c) (c_bifrost c) (c_expose c) (c_dialer c).
Definition forget_conf (f : full) : full := mkfull (forget_client (h_conf f)) (h_env f) (h_ca f) (h_node f) (h_job f) (h_client f).
Theorem C78_client_filters_ignored_refuted : forall w f x r h,
  http_transport w (Full f) x = Ret (r, h) -> exists h', http_transport w (Full (forget_conf f)) x = Ret (r, h').
Proof.
  intros w f x r h H. unfold http_transport in *. change (client_filters (h_conf (forget_conf f))) with (client_filters (h_conf f)). change (h_ca (forget_conf f)) with (h_ca f).
  destruct (w_streams w (client_filters (h_conf f))); [|discriminate H]. destruct (h_ca f) eqn:E; [|discriminate H]. unfold discovery in *. change (h_client (forget_conf f)) with (h_client f). change (h_ca (forget_conf f)) with (h_ca f). rewrite E in *. destruct (h_client f); injection H as <- _; eexists; reflexivity.
Qed.
Print Assumptions C78_client_filters_ignored_refuted.
(* Without TLS the handler is created, but everything it should hand out panics (as soon as the filters load), and pushing metrics makes the construction itself panic. *)
Theorem C78_without_tls_panics_refuted : forall w c e, c_tls c = false -> i_enabled e = true \/ c_enabled c = true -> (forall l, w_streams w l = true) ->
  (c_push c = None -> exists f, fst (new_handler w (Some c) (Some e)) = Ret (Full f) /\
     forall x, http_transport w (Full f) x = Crash /\ serve_http w (Full f) x = Crash /\ tcp_listener w (Full f) x = Crash /\ tcp_dialer w (Full f) None = Crash /\ grpc_options w (Full f) = Crash /\ discovery f = Crash) /\
  (forall p, c_push c = Some p -> p_addr p <> [] -> fst (new_handler w (Some c) (Some e)) = Crash).
Proof.
  intros w c e T En S. unfold new_handler. cbn [fst]. set (d := set_defaults w c).
  assert (Ed: negb (i_enabled e) && negb (c_enabled d) = false) by (change (c_enabled d) with (c_enabled c); destruct En as [-> | ->]; [reflexivity|apply andb_false_r]). rewrite Ed.
  change (c_tls d) with (c_tls c). rewrite T. cbv iota beta zeta. change (c_push d) with (option_map push_defaults (c_push c)). split.
  - intros ->. cbn [option_map]. eexists. split; [reflexivity|]. intros x. unfold http_transport, serve_http, tcp_listener, tcp_dialer, grpc_options, discovery. cbn [h_conf h_ca h_client]. rewrite !S. repeat split.
  - intros p -> E. cbn [option_map push_defaults p_addr]. destruct (p_addr p); [now elim E|]. cbn [http_transport h_conf h_ca]. now rewrite S.
Qed.
Print Assumptions C78_without_tls_panics_refuted.

(* ---- where the CA configuration comes from ---- *)
Theorem C78_auto : forall w e,
  (w_getenv w "HEIMDALL_URL" <> [] -> getter_auto w e = getter_heimdall w (w_getenv w "HEIMDALL_URL") (w_getenv w "HEIMDALL_AUTH_TOKEN") (w_getenv w "NASP_APP_VERSION") e) /\
  (w_getenv w "HEIMDALL_URL" = [] -> w_token w = FFile -> getter_auto w e = of_opt (option_map (fun c => (c, e)) (w_local w (i_cluster e) (i_caaddr e)))) /\
  (w_getenv w "HEIMDALL_URL" = [] -> w_token w = FDir \/ w_token w = FMissing -> getter_auto w e = of_opt (option_map (fun c => (c, e)) (w_remote w (i_cluster e) (i_revision e)))) /\
  (w_getenv w "HEIMDALL_URL" = [] -> w_token w = FFails -> getter_auto w e = Crash).
Proof.
  intros w e. unfold getter_auto, getter_local, getter_remote. split; [|split; [|split]].
  - intros H. destruct (w_getenv w "HEIMDALL_URL"); [now elim H|reflexivity].
  - intros -> ->. now destruct (w_local w (i_cluster e) (i_caaddr e)).
  - intros -> [-> | ->]; now destruct (w_remote w (i_cluster e) (i_revision e)).
  - now intros -> ->.
Qed.
Print Assumptions C78_auto.
(* Heimdall decides the whole identity of the workload except whether the integration is on, the certificate lifetime and the trust domain. *)
Theorem C78_heimdall : forall w url tok ver e ca o, w_heimdall w url tok ver = Some (ca, o) ->
  exists e', getter_heimdall w url tok ver e = Ret (ca, e') /\
  i_enabled e' = i_enabled e /\ secret_ttl e' = secret_ttl e /\ e_trust (i_id e') = e_trust (i_id e) /\
  node_id (i_id e') = node_id (i_id o) /\ cluster_name (i_id e') = cluster_name (i_id o) /\ spiffe_id (i_id e') = spiffe_id (i_id o) /\
  i_labels e' = i_labels o /\ i_extra e' = i_extra o /\ i_search e' = i_search o /\
  i_cluster e' = ca_cluster ca /\ i_revision e' = ca_rev ca /\ i_caaddr e' = ca_san ca /\ i_version e' = i_version o /\
  (forall k, k <> "CLUSTER_ID"%string \/ In k (mkeys (i_extra o)) -> NoDup (mkeys (i_extra o)) -> mget k (node_metadata e') = mget k (node_metadata o)).
Proof.
  intros w url tok ver e ca o H. unfold getter_heimdall. rewrite H. eexists. split; [reflexivity|]. repeat match goal with |- _ /\ _ => split end; try reflexivity.
  intros k K ND. unfold node_metadata. cbn [set_cluster override i_id i_extra i_labels i_platform i_owner i_containers i_network i_cluster i_mesh i_version e_pod e_ns e_workload e_ips].
  assert (NE: NoDup (mkeys (map (fun kv : string * gstr => (fst kv, MText (snd kv))) (i_extra o)))) by (unfold mkeys in *; rewrite map_map; cbn; exact ND).
  rewrite !mget_mmerge by exact NE. destruct (mget k (map (fun kv : string * gstr => (fst kv, MText (snd kv))) (i_extra o))) eqn:EX; [reflexivity|].
  assert (K2: k <> "CLUSTER_ID"%string). { destruct K as [K|K]; [exact K|]. apply mget_none in EX. exfalso. apply EX. unfold mkeys in *. rewrite map_map. exact K. }
  cbn [mget]. destruct (String.eqb_spec k "CLUSTER_ID"); [contradiction|]. reflexivity.
Qed.
Print Assumptions C78_heimdall.

(* ---- node metadata ---- *)
Lemma extra_get : forall k (m : gmap gstr), mget k (map (fun kv => (fst kv, MText (snd kv))) m) = option_map MText (mget k m).
Proof. intros k m. induction m as [|[a v] m IH]; [reflexivity|]. cbn. destruct (String.eqb k a); [reflexivity|exact IH]. Qed.
(* What the control plane learns about the workload: the additional metadata, which win, then the standard entries, and nothing else. *)
Theorem C78_metadata : forall e, NoDup (mkeys (i_extra e)) ->
  (forall k v, mget k (i_extra e) = Some v -> mget k (node_metadata e) = Some (MText v)) /\
  (forall k, mget k (i_extra e) = None -> mget k (node_metadata e) =
     if (String.eqb k "NAME") then Some (MText (e_pod (i_id e))) else if (String.eqb k "NAMESPACE") then Some (MText (e_ns (i_id e)))
     else if (String.eqb k "OWNER") then Some (MText (i_owner e)) else if (String.eqb k "WORKLOAD_NAME") then Some (MText (e_workload (i_id e)))
     else if (String.eqb k "ISTIO_VERSION") then Some (MText (i_version e)) else if (String.eqb k "MESH_ID") then Some (MText (i_mesh e))
     else if (String.eqb k "CLUSTER_ID") then Some (MText (i_cluster e)) else if (String.eqb k "NETWORK") then Some (MText (i_network e))
     else if (String.eqb k "LABELS") then Some (MObj (i_labels e)) else if (String.eqb k "PLATFORM_METADATA") then Some (MObj (i_platform e))
     else if (String.eqb k "APP_CONTAINERS") then Some (MText (gjoin comma (i_containers e)))
     else if (String.eqb k "INSTANCE_IPS") then Some (MText (gjoin comma (e_ips (i_id e)))) else None).
Proof.
  intros e ND. assert (NE: NoDup (mkeys (map (fun kv : string * gstr => (fst kv, MText (snd kv))) (i_extra e)))) by (unfold mkeys in *; rewrite map_map; cbn; exact ND).
  split; intros k; unfold node_metadata; rewrite mget_mmerge by exact NE; rewrite extra_get.
  - intros v ->. reflexivity.
  - intros ->. cbn [option_map mget]. repeat match goal with |- (if ?b then _ else _) = _ => destruct b; [reflexivity|] end. reflexivity.
Qed.
Print Assumptions C78_metadata.

(* ---- labels and auto registration ---- *)
(* An enabled handler that serves its metrics marks the workload: monitoring, an identifier, the path and -- if the address has one -- the port; all other labels stay.  With a
   Pushgateway no label changes. *)
Theorem C78_labels : forall w c e,
  (c_push c <> None -> i_labels (handler_env w c e) = i_labels e) /\
  (c_push c = None -> let l := i_labels (handler_env w c e) in
     mget l_monitoring l = Some (lit "true") /\ mget l_uid l = Some (w_uuid w) /\ mget l_path l = Some (b64 (c_path c)) /\
     (forall a b, c_addr c = a ++ colon :: b -> ~ In colon b -> mget l_port l = Some b) /\
     (~ In colon (c_addr c) -> mget l_port l = mget l_port (i_labels e)) /\
     (forall k, k <> l_monitoring -> k <> l_uid -> k <> l_path -> k <> l_port -> mget k l = mget k (i_labels e))).
Proof.
  intros w c e.
  assert (L: forall x e0, i_labels (match c_bifrost c with _ :: _ => set_extra x e0 | [] => e0 end) = i_labels e0) by (intros x e0; destruct (c_bifrost c); reflexivity).
  split; intros P; unfold handler_env.
  - destruct (c_push c); [|now elim P]. apply (L (mdel "AUTO_REGISTER_GROUP" (i_extra e)) e).
  - rewrite P. cbv zeta. rewrite L. cbn [set_labels i_labels]. unfold monitoring_labels.
    set (l1 := mset l_uid (w_uuid w) (mset l_monitoring (lit "true") (i_labels e))).
    set (l2 := if gcontains (c_addr c) (lit ":") then _ else _).
    assert (G: forall k, mget k (mset l_path (b64 (c_path c)) l2) = if String.eqb k l_path then Some (b64 (c_path c)) else mget k l2) by (intros; apply mget_mset).
    assert (G2: forall k, k <> l_port -> mget k l2 = mget k l1).
    { intros k K. unfold l2. destruct (gcontains (c_addr c) (lit ":")); [|reflexivity]. destruct (1 <? _); [|reflexivity]. rewrite mget_mset. apply String.eqb_neq in K. now rewrite K. }
    assert (G1: forall k, mget k l1 = if String.eqb k l_uid then Some (w_uuid w) else if String.eqb k l_monitoring then Some (lit "true") else mget k (i_labels e)) by (intros k; unfold l1; now rewrite !mget_mset).
    repeat match goal with |- _ /\ _ => split end.
    + rewrite G. cbn [String.eqb]. rewrite G2 by discriminate. rewrite G1. reflexivity.
    + rewrite G, G2 by discriminate. rewrite G1. reflexivity.
    + rewrite G. reflexivity.
    + intros a b Ea Nb. rewrite G. change (String.eqb l_port l_path) with false. cbv iota. unfold l2.
      assert (C: gcontains (c_addr c) (lit ":") = true) by (apply gcontains_spec; exists a, b; rewrite Ea; reflexivity). rewrite C.
      assert (SP: exists ps, gsplit colon (c_addr c) = ps ++ [b] /\ ps <> []).
      { rewrite Ea. clear - Nb. induction a as [|x a IH]; cbn [app gsplit].
        - rewrite Ascii.eqb_refl. rewrite gsplit_nosep by exact Nb. exists [[]]. split; [reflexivity|discriminate].
        - destruct IH as (ps & E & N). destruct (Ascii.eqb x colon); [exists ([] :: ps); rewrite E; split; [reflexivity|discriminate]|]. rewrite E. destruct ps as [|q qs]; [now elim N|]. cbn [app]. exists ((x :: q) :: qs). split; [reflexivity|discriminate]. }
      destruct SP as (ps & E & N). rewrite E, app_length, last_last. cbn [List.length]. assert (Lp: 1 < List.length ps + 1) by (destruct ps; [now elim N|cbn; lia]). apply Nat.ltb_lt in Lp. rewrite Lp. rewrite mget_mset. now rewrite String.eqb_refl.
    + intros N. rewrite G. change (String.eqb l_port l_path) with false. cbv iota. unfold l2.
      assert (C: gcontains (c_addr c) (lit ":") = false). { destruct (gcontains (c_addr c) (lit ":")) eqn:C; [|reflexivity]. exfalso. apply gcontains_spec in C. destruct C as (a & b & C). apply N. rewrite C. apply in_or_app. right. now left. }
      rewrite C, G1. reflexivity.
    + intros k A B C D. rewrite G. apply String.eqb_neq in A, B, C. rewrite C, G2 by exact D. now rewrite G1, B, A.
Qed.
Print Assumptions C78_labels.
(* The labels reach the node properties that plugins and the control plane see; with a Bifrost address the workload is not registered automatically, whatever the additional metadata say. *)
Theorem C78_handler_node : forall w c e f, fst (new_handler w (Some c) (Some e)) = Ret (Full f) ->
  h_conf f = set_defaults w c /\ h_node f = node_properties (h_env f) /\
  (exists e1, h_env f = handler_env w (set_defaults w c) e1 /\ (c_tls c = false -> e1 = e) /\ (c_tls c = true -> exists ca, wanted w c e = Ret (ca, e1) /\ h_ca f = Some ca)) /\
  (c_bifrost (h_conf f) <> [] -> mget "AUTO_REGISTER_GROUP" (i_extra (h_env f)) = None).
Proof.
  intros w c e f H. unfold new_handler in H. cbn [fst] in H. set (d := set_defaults w c) in *.
  destruct (negb (i_enabled e) && negb (c_enabled d)); [discriminate H|]. change (c_tls d) with (c_tls c) in H.
  assert (Gd: (match c_getter d with Some g => g | None => getter_auto w end) e = wanted w c e) by (unfold d, set_defaults, wanted; cbn [c_getter]; destruct (c_getter c); reflexivity). rewrite Gd in H.
  set (got := if c_tls c then _ else _) in H. destruct got as [[ca e1]| |] eqn:EG; try discriminate H.
  assert (X: (c_tls c = false -> e1 = e) /\ (c_tls c = true -> exists ca0, wanted w c e = Ret (ca0, e1) /\ ca = Some ca0)).
  { unfold got in EG. destruct (c_tls c); [|injection EG as <- <-; split; [reflexivity|discriminate]]. destruct (wanted w c e) as [[ca0 e0]| |]; try discriminate EG. injection EG as <- <-. split; [discriminate|]. intros _. exists ca0. split; reflexivity. }
  assert (B: c_bifrost d <> [] -> mget "AUTO_REGISTER_GROUP" (i_extra (handler_env w d e1)) = None).
  { intros N. unfold handler_env. destruct (c_bifrost d); [now elim N|]. cbn [set_extra i_extra]. rewrite mget_mdel. now rewrite String.eqb_refl. }
  assert (F: h_conf f = d /\ h_env f = handler_env w d e1 /\ h_node f = node_properties (handler_env w d e1) /\ h_ca f = ca).
  { destruct (c_push d) as [p|]; [|injection H as <-; repeat split]. destruct (p_addr p); [discriminate H|]. cbn [http_transport h_conf h_ca discovery h_client] in H. destruct (w_streams w (client_filters d)); [|discriminate H]. destruct ca; [|discriminate H]. injection H as <-. repeat split. }
  destruct F as (F1 & F2 & F3 & F4). rewrite F1, F2, F3, F4. split; [reflexivity|]. split; [reflexivity|]. split; [|exact B]. exists e1. split; [reflexivity|]. split; [apply X|]. intros T. destruct (proj2 X T) as (ca0 & E1 & E2). exists ca0. now split.
Qed.
Print Assumptions C78_handler_node.

(* ---- metrics path label: base64 without padding can be read back ---- *)
Fixpoint index_of (a : ascii) (l : gstr) : nat := match l with [] => 0 | b :: r => if Ascii.eqb a b then 0 else S (index_of a r) end.
Definition bits6 (a : ascii) : list bool := let n := index_of a b64_alphabet in map (fun k => Nat.testbit n k) [5; 4; 3; 2; 1; 0].
Fixpoint bytes_of (l : list bool) : gstr :=
  match l with
  | b7 :: b6 :: b5 :: b4 :: b3 :: b2 :: b1 :: b0 :: r => Ascii b0 b1 b2 b3 b4 b5 b6 b7 :: bytes_of r
  | _ => []
  end.
(* a reader: the six bits of each character in order; bits beyond the last whole byte are padding *)
Definition unb64 (s : gstr) : gstr := bytes_of (flat_map bits6 s).
Lemma bits6_char : forall a b c d e f, bits6 (b64_char a b c d e f) = [a; b; c; d; e; f].
Proof. intros [] [] [] [] [] []; vm_compute; reflexivity. Qed.
Lemma b64_bits_ok : forall m l, List.length l <= m -> Nat.even (List.length l) = true -> exists pad, flat_map bits6 (b64_bits l) = l ++ pad /\ List.length pad < 6.
Proof.
  induction m as [|m IH]; intros l Hn Ev.
  - destruct l; [|cbn in Hn; lia]. exists []. split; [reflexivity|cbn; lia].
  - destruct l as [|a [|b [|c [|d [|e [|f r]]]]]]; try discriminate Ev.
    + exists []. split; [reflexivity|cbn; lia].
    + exists [false; false; false; false]. cbn [b64_bits flat_map]. rewrite bits6_char. split; [reflexivity|cbn; lia].
    + exists [false; false]. cbn [b64_bits flat_map]. rewrite bits6_char. split; [reflexivity|cbn; lia].
    + cbn [b64_bits flat_map]. rewrite bits6_char. destruct (IH r) as (pad & E & L); [cbn in Hn; lia|exact Ev|]. exists pad. rewrite E. split; [reflexivity|exact L].
Qed.
Lemma bytes_of_bits : forall s pad, List.length pad < 8 -> bytes_of (flat_map byte_bits s ++ pad) = s.
Proof.
  induction s as [|a s IH]; intros pad L.
  - cbn [flat_map app]. do 8 (destruct pad as [|? pad]; [reflexivity|]). cbn in L. lia.
  - destruct a as [b0 b1 b2 b3 b4 b5 b6 b7]. cbn [flat_map byte_bits app bytes_of]. f_equal. now apply IH.
Qed.
Lemma bits_even : forall s, Nat.even (List.length (flat_map byte_bits s)) = true.
Proof. induction s as [|[] s IH]; [reflexivity|]. cbn [flat_map byte_bits app List.length]. exact IH. Qed.
Theorem C78_path_label : forall p, unb64 (b64 p) = p.
Proof.
  intros p. unfold unb64, b64. destruct (b64_bits_ok _ (flat_map byte_bits p) (le_n _) (bits_even p)) as (pad & E & L). rewrite E. apply bytes_of_bits. lia.
Qed.
Print Assumptions C78_path_label.
Example C78_path_label_case : b64 (lit "/stats/prometheus") = lit "L3N0YXRzL3Byb21ldGhldXM".
Proof. vm_compute. reflexivity. Qed.

(* ---- Pushgateway job names ---- *)
Definition special (a : ascii) : bool := Ascii.eqb "."%char a || Ascii.eqb "/"%char a || Ascii.eqb "%"%char a.
Lemma rfind_job : forall post pre, rfind job_rx pre post =
  (fix go (pre post : gstr) : option mtch := match post with [] => None | a :: t => if special a then Some (mkmt pre (a :: pre) t []) else go (a :: pre) t end) pre post.
Proof.
  induction post as [|a t IH]; intros pre; [reflexivity|]. cbn [rfind]. unfold job_rx at 1. unfold one, special. cbn [rm].
  destruct (Ascii.eqb "."%char a); [reflexivity|]. destruct (Ascii.eqb "/"%char a); [reflexivity|]. destruct (Ascii.eqb "%"%char a); [reflexivity|]. cbn [orb]. apply IH.
Qed.
Lemma rfind_cons : forall pre a t, rfind job_rx pre (a :: t) = if special a then Some (mkmt pre (a :: pre) t []) else rfind job_rx (a :: pre) t.
Proof. intros. now rewrite !rfind_job. Qed.
Lemma rfind_pre : forall t pre m, rfind job_rx pre t = Some m -> List.length pre <= List.length (mt_pre m).
Proof. induction t as [|a t IH]; intros pre m H; [discriminate H|]. rewrite rfind_cons in H. destruct (special a); [injection H as <-; reflexivity|]. apply IH in H. cbn in H. lia. Qed.
Definition job_char (a : ascii) : ascii := if special a then "_"%char else a.
Lemma replace_job : forall post fuel pre, List.length post < fuel -> replace_all fuel job_rx (lit "_") pre post = map job_char post.
Proof.
  assert (K: forall n post fuel pre, List.length post <= n -> List.length post < fuel -> replace_all fuel job_rx (lit "_") pre post = map job_char post).
  { induction n as [|n IH]; intros post fuel pre Ln Lf.
    - destruct post; [|cbn in Ln; lia]. destruct fuel; reflexivity.
    - destruct post as [|a t]; [destruct fuel; reflexivity|]. destruct fuel as [|f]; [lia|]. cbn [map]. unfold job_char at 1. cbn [replace_all]. rewrite rfind_cons. destruct (special a) eqn:Sp.
      + cbn [mt_pre mt_to mt_post]. rewrite Nat.sub_diag. cbn [firstn app lit list_ascii_of_string]. f_equal. apply IH; cbn in Ln, Lf; lia.
      + specialize (IH t (S f) (a :: pre) ltac:(cbn in Ln; lia) ltac:(cbn in Lf; lia)). rewrite <- IH. cbn [replace_all]. destruct (rfind job_rx (a :: pre) t) as [m|] eqn:R; [|reflexivity].
        pose proof (rfind_pre _ _ _ R) as P. cbn [List.length] in P. cbn [List.length]. replace (List.length (mt_pre m) - List.length pre) with (S (List.length (mt_pre m) - S (List.length pre))) by lia. reflexivity. }
  intros post fuel pre L. apply (K (List.length post)); [reflexivity|exact L].
Qed.
(* A job name is the node id with every '.', '/' and '%' replaced by '_', so it can be a path segment of a URL ... *)
Theorem C78_job_name : forall id, job_name id = map job_char id /\ (forall a, In a (job_name id) -> a <> "."%char /\ a <> "/"%char /\ a <> "%"%char).
Proof.
  intros id. assert (E: job_name id = map job_char id) by (apply replace_job; lia). split; [exact E|]. rewrite E. intros a I. apply in_map_iff in I. destruct I as (b & <- & _). unfold job_char. destruct (special b) eqn:S; [repeat split; discriminate|].
  unfold special in S. apply orb_false_iff in S. destruct S as [S S3]. apply orb_false_iff in S. destruct S as [S1 S2]. apply Ascii.eqb_neq in S1, S2, S3. repeat split; congruence.
Qed.
Print Assumptions C78_job_name.
(* ... and node ids without '_', '/' and '%' have different job names. *)
Theorem C78_job_name_injective : forall a b, (forall x, In x (a ++ b) -> x <> "_"%char /\ x <> "/"%char /\ x <> "%"%char) -> job_name a = job_name b -> a = b.
Proof.
  intros a b H E. rewrite (proj1 (C78_job_name a)), (proj1 (C78_job_name b)) in E. revert b H E. induction a as [|x a IH]; intros [|y b] H E; try discriminate E; [reflexivity|].
  injection E as E1 E2. assert (Hx: x <> "_"%char /\ x <> "/"%char /\ x <> "%"%char) by (apply H; now left). assert (Hy: y <> "_"%char /\ y <> "/"%char /\ y <> "%"%char) by (apply H; apply in_or_app; right; now left).
  f_equal.
  - unfold job_char, special in E1. destruct (Ascii.eqb_spec "." x) as [Ex|Ex], (Ascii.eqb_spec "." y) as [Ey|Ey]; cbn [orb] in E1; try congruence;
    repeat match type of E1 with context [Ascii.eqb ?p ?q] => destruct (Ascii.eqb_spec p q) end; cbn [orb] in E1; try (exfalso; now intuition congruence); intuition congruence.
  - apply IH; [|exact E2]. intros z I. apply H. apply in_app_or in I. destruct I as [I|I]; [right|]; [apply in_or_app; now left|apply in_or_app; right; now right].
Qed.
Print Assumptions C78_job_name_injective.
Theorem C78_job_name_collides_refuted : exists e f, node_id e <> node_id f /\ job_name (node_id e) = job_name (node_id f).
Proof.
  exists (mkenv (lit "sidecar") (lit "web.a") (lit "shop") [] [] [lit "10.0.0.1"] [] []), (mkenv (lit "sidecar") (lit "web_a") (lit "shop") [] [] [lit "10.0.0.1"] [] []).
  split; [discriminate|]. vm_compute. reflexivity.
Qed.
Print Assumptions C78_job_name_collides_refuted.

(* ---- one discovery client? ---- *)
Definition dinv (s : dstate) : Prop :=
  (d_field s = None -> forall i, d_pc s i = Start \/ d_pc s i = Creating) /\ (forall c, d_field s = Some c -> c < d_next s).
Lemma dinv_step : forall s t, dstep s t -> dinv s -> dinv t.
Proof.
  intros s t H [I J]. destruct H as [s i P|s i P|s i c P F]; split; cbn [d_field d_pc d_next].
  - intros N j. unfold upd. destruct (j =? i); [rewrite N; now right|now apply I].
  - exact J.
  - discriminate.
  - intros c E. injection E as <-. lia.
  - intros N. congruence.
  - exact J.
Qed.
Lemma dinv_all : forall s, dsteps d_init s -> dinv s.
Proof. intros s H. remember d_init as a. induction H as [s|s t u H1 IH H2]; subst; [split; [now left|discriminate]|]. apply (dinv_step t); [exact H2|now apply IH]. Qed.
(* Concurrent calls never get nil ... *)
Theorem C78_discovery_client_exists : forall s i, dsteps d_init s -> d_pc s i = Seen \/ d_pc s i = Stored -> exists t c, dstep s t /\ d_pc t i = Done c.
Proof.
  intros s i R P. destruct (dinv_all s R) as [I _]. destruct (d_field s) as [c|] eqn:F.
  - eexists. exists c. split; [apply (d_return s i c P F)|]. cbn [d_pc]. unfold upd. now rewrite Nat.eqb_refl.
  - destruct (I eq_refl i) as [X|X]; destruct P as [P|P]; congruence.
Qed.
Print Assumptions C78_discovery_client_exists.
(* ... and once a client exists and no call is in the middle of creating one, all calls get that client. *)
Lemma settled : forall s c t, d_field s = Some c -> (forall i, d_pc s i <> Creating) -> dsteps s t ->
  d_field t = Some c /\ (forall i, d_pc t i <> Creating) /\ (forall i x, d_pc t i = Done x -> d_pc s i = Done x \/ x = c).
Proof.
  intros s c t F N R. induction R as [s|s t u R IH H]; [split; [exact F|split; [exact N|intros i x H; now left]]|]. destruct (IH F N) as (A & B & C). clear IH. destruct H as [t i P|t i P|t i x P Fx]; cbn [d_field d_pc].
  - split; [exact A|]. rewrite A. split; intros j; unfold upd; destruct (j =? i); try discriminate; [apply B|apply C].
  - now elim (B i).
  - split; [exact A|]. split; [intros j; unfold upd; destruct (j =? i); [discriminate|apply B]|]. intros j y. unfold upd. destruct (j =? i); [intros E; injection E as <-; right; congruence|apply C].
Qed.
Theorem C78_discovery_client_shared : forall s c t, dsteps d_init s -> d_field s = Some c -> (forall i, d_pc s i <> Creating) -> dsteps s t ->
  forall i, (forall x, d_pc s i <> Done x) -> forall x, d_pc t i = Done x -> x = c.
Proof. intros s c t _ F N R i ND x D. destruct (settled s c t F N R) as (_ & _ & C). destruct (C i x D) as [X|X]; [now elim (ND x)|exact X]. Qed.
Print Assumptions C78_discovery_client_shared.
(* Hence calls one after the other share one client. *)
Theorem C78_discovery_client_sequential : forall s t i j a b, dsteps d_init s -> (forall k, k <> i -> d_pc s k = Start) -> d_pc s i = Done a -> dsteps s t -> d_pc t j = Done b -> b = a.
Proof.
  intros s t i j a b R Z D R2 E.
  assert (F: d_field s = Some a /\ forall k, d_pc s k <> Creating).
  { split; [|intros k X; destruct (Nat.eq_dec k i) as [->|K]; [congruence|rewrite (Z k K) in X; discriminate X]].
    (* what the only active call returned is in the field *)
    assert (G: forall u, dsteps d_init u -> (forall k, k <> i -> d_pc u k = Start) -> forall x, d_pc u i = Done x -> d_field u = Some x).
    { clear. intros u Ru. remember d_init as o. induction Ru as [u|u v x Ru IH H]; intros Zu y Y; [subst; discriminate Y|].
      assert (Zv: forall k, k <> i -> d_pc v k = Start).
      { intros k K. specialize (Zu k K). clear - H Zu. destruct H as [v l P|v l P|v l c P Fc]; cbn [d_pc] in Zu; unfold upd in Zu; destruct (Nat.eqb_spec k l) as [Ekl|]; try exact Zu; try discriminate Zu. rewrite Ekl. exact P. }
      specialize (IH Heqo Zv). destruct H as [v l P|v l P|v l c P Fc]; cbn [d_pc d_field] in *; unfold upd in Y; destruct (Nat.eqb_spec i l) as [Eil|].
      - destruct (d_field v); discriminate Y.
      - now apply IH.
      - discriminate Y.
      - rewrite (Zv l ltac:(congruence)) in P. discriminate P.
      - injection Y as <-. exact Fc.
      - now apply IH. }
    now apply G. }
  destruct F as [F N]. destruct (settled s a t F N R2) as (_ & _ & C). destruct (C j b E) as [X|X]; [|exact X]. destruct (Nat.eq_dec j i) as [->|K]; [congruence|rewrite (Z j K) in X; discriminate X].
Qed.
Print Assumptions C78_discovery_client_sequential.
(* Two concurrent first calls can get two clients; Run connects one of them and the other is never connected. *)
Theorem C78_discovery_client_race_refuted : exists s, dsteps d_init s /\ d_pc s 0 = Done 0 /\ d_pc s 1 = Done 1.
Proof.
  eexists. split.
  - eapply ds_step. eapply ds_step. eapply ds_step. eapply ds_step. eapply ds_step. eapply ds_step. apply ds_refl.
    + apply (d_check _ 0). reflexivity.
    + apply (d_check _ 1). reflexivity.
    + apply (d_store _ 0). reflexivity.
    + apply (d_return _ 0 0); [right; reflexivity|reflexivity].
    + apply (d_store _ 1). reflexivity.
    + apply (d_return _ 1 1); [right; reflexivity|reflexivity].
  - split; reflexivity.
Qed.
Print Assumptions C78_discovery_client_race_refuted.

(* ---- a concrete set-up meets the hypotheses ---- *)
Definition ex_env : ienv := mkie false (mkenv (lit "sidecar") (lit "web-0") (lit "shop") (lit "web") (lit "web") [lit "10.0.0.1"] [] []) [] [] [("app"%string, lit "web")] [] [] [] 0%Z [("AUTO_REGISTER_GROUP"%string, lit "web")] (lit "c1") [] [] [] [].
Definition ex_world : world := mkworld (fun k => if String.eqb k "BIFROST_ADDRESS" then lit "bifrost:8001" else []) FFile (fun _ _ _ => None) (fun c a => Some (mkca a c [])) (fun _ _ => None) (lit "u-1") (fun _ => true).
Definition ex_conf : config := mkconf true [] (lit "[::]:9090") None true [] [] None [] [] None None.
Example C78_case : exists f, fst (new_handler ex_world (Some ex_conf) (Some ex_env)) = Ret (Full f) /\ mget l_port (i_labels (h_env f)) = Some (lit "9090") /\
  mget "app" (i_labels (h_env f)) = Some (lit "web") /\ mget "AUTO_REGISTER_GROUP" (n_meta (h_node f)) = None /\ mget "CLUSTER_ID" (n_meta (h_node f)) = Some (MText (lit "c1")).
Proof. eexists. split; [reflexivity|]. vm_compute. repeat split. Qed.
