(* C73: the Heimdall configuration endpoint *)
From Coq Require Import String List Ascii Bool ZArith Lia.
From Verif Require Import M_GoStr L_GoStr M_Identity P_Identity M_HeimdallSrv.
Import ListNotations.
Open Scope list_scope.
Definition space : ascii := " "%char.
(* 200 exactly when: the header is two words, the second a token the cluster accepts for the audience of an existing group,
   and the control plane is found and issues a CA token for the caller's service account *)
Lemma two_words : forall h a b, gsplit space h = [a; b] <-> h = a ++ space :: b /\ ~ In space a /\ ~ In space b.
Proof.
  intros h a b; split.
  - intros E. split; [ rewrite <- (gjoin_split space h), E; reflexivity |]. split; apply (gsplit_in space h); rewrite E; cbn; auto.
  - intros (-> & A & B). rewrite gsplit_app by exact A. rewrite gsplit_nosep by exact B. reflexivity.
Qed.
Definition caller_sa (u : user) : okey := mkkey (k_ns (u_sa u)) (match k_name (u_sa u) with [] => lit "default" | n => n end).
Theorem C73_ok_iff : forall z review claims groups found issue ip header c e,
  config_handler z review claims groups found issue ip header = Ok200 c e <->
  exists scheme token u aud g m t,
    header = scheme ++ space :: token /\ ~ In space scheme /\ ~ In space token /\
    authenticate review claims token = Some (u, aud) /\ groups (u_wg u) = Some g /\ found = Some m /\
    issue (k_name (caller_sa u)) (k_ns (caller_sa u)) (lit "istio-ca") 86400%Z = Some t /\
    c = mkca (m_addr m ++ lit ":15012") (m_san m) t (m_pem m) (z_cluster z) (z_rev z) (m_mesh m) (m_trust m) /\
    e = environment_of z u (k_name (caller_sa u)) (u_wg u) g c ip.
Proof.
  intros z review claims groups found issue ip header c e. unfold config_handler. split.
  - destruct header as [|ch hs] eqn:H; [ discriminate |]. rewrite <- H. clear H ch hs.
    destruct (gsplit " " header) as [|a [|b [|? ?]]] eqn:S; try discriminate.
    apply two_words in S. destruct S as (S1 & S2 & S3).
    destruct (authenticate review claims b) as [[u aud]|] eqn:A; [| discriminate ].
    destruct (groups (u_wg u)) as [g|] eqn:G; [| discriminate ].
    unfold ca_config. destruct found as [m|]; [| discriminate ].
    destruct (issue _ _ _ _) as [t|] eqn:I; [| discriminate ]. intros E. injection E as <- <-.
    exists a, b, u, aud, g, m, t. repeat split; auto.
  - intros (scheme & token & u & aud & g & m & t & -> & S2 & S3 & A & G & -> & I & -> & ->).
    destruct (scheme ++ space :: token) as [|ch hs] eqn:H; [ destruct scheme; discriminate |]. rewrite <- H.
    assert (gsplit " " (scheme ++ space :: token) = [scheme; token]) as -> by (apply two_words; auto).
    rewrite A, G. unfold ca_config. unfold caller_sa in I. cbn [k_name k_ns] in *. rewrite I. reflexivity.
Qed.
(* the caller holds a token Kubernetes accepted for exactly the audience of the group whose data it gets *)
Theorem C73_only_for_token_audience : forall z review claims groups found issue ip header c e,
  (forall k g, groups k = Some g -> k <> okey0) ->
  config_handler z review claims groups found issue ip header = Ok200 c e ->
  exists scheme token name, header = scheme ++ space :: token /\ review token (aud_generate (mkkey (v_ns e) (v_workload e))) = Some name /\
    groups (mkkey (v_ns e) (v_workload e)) <> None.
Proof.
  intros z review claims groups found issue ip header c e HG H. apply C73_ok_iff in H.
  destruct H as (scheme & token & u & aud & g & m & t & E & S2 & S3 & A & G & F & I & C & EV).
  exists scheme, token, (u_name u). split; [ exact E |].
  assert (mkkey (v_ns e) (v_workload e) = u_wg u) as K by (subst e; cbn; destruct (u_wg u); reflexivity). rewrite K.
  assert (NZ : u_wg u <> okey0) by (eapply HG; eauto).
  clear -A G NZ. unfold authenticate in A.
  destruct (claims token) as [auds|]; [| discriminate ]. destruct (review token (first_valid auds)) as [name|] eqn:R; [| discriminate ].
  assert (u_name u = name /\ u_wg u = aud_parse (first_valid auds)) as [-> W].
  { destruct (ghas_prefix name (lit "system:serviceaccount:")); [ destruct (gsplit colon name) as [|? [|? [|? [|? [|? ?]]]]]; try discriminate |]; injection A as <- <-; auto. }
  assert (aud_valid (first_valid auds) = true) as V.
  { unfold first_valid. destruct (find aud_valid auds) as [a|] eqn:FF; [ apply find_some in FF; tauto |]. exfalso. apply NZ. rewrite W. unfold first_valid. rewrite FF. reflexivity. }
  split; [| congruence ]. rewrite W. rewrite parse_valid; [ exact R | exact V | congruence ].
Qed.
(* the CA token is for the service account the token review named, not one of the caller's choice *)
Theorem C73_ca_token_for_caller : forall z review claims groups found issue ip header c e,
  config_handler z review claims groups found issue ip header = Ok200 c e ->
  exists token name aud, review token aud = Some name /\
   (forall ns sa, sa <> [] -> name = lit "system:serviceaccount:" ++ ns ++ colon :: sa -> ~ In colon ns -> ~ In colon sa ->
      issue sa ns (lit "istio-ca") 86400%Z = Some (c_token c) /\ v_sa e = sa).
Proof.
  intros z review claims groups found issue ip header c e H. apply C73_ok_iff in H.
  destruct H as (scheme & token & u & aud & g & m & t & E & S2 & S3 & A & G & F & I & -> & ->).
  unfold authenticate in A. destruct (claims token) as [auds|]; [| discriminate ]. destruct (review token (first_valid auds)) as [name|] eqn:R; [| discriminate ].
  exists token, name, (first_valid auds). split; [ exact R |]. intros ns sa NE Nm N1 N2.
  assert (ghas_prefix name (lit "system:serviceaccount:") = true) as P by (apply ghas_prefix_spec; exists (ns ++ colon :: sa); exact Nm).
  rewrite P in A.
  assert (gsplit colon name = [lit "system"; lit "serviceaccount"; ns; sa]) as Sp.
  { subst name. change (lit "system:serviceaccount:" ++ ns ++ colon :: sa) with (lit "system" ++ colon :: lit "serviceaccount" ++ colon :: ns ++ colon :: sa).
    rewrite gsplit_app by (cbn; intuition discriminate). rewrite gsplit_app by (cbn; intuition discriminate).
    rewrite gsplit_app by exact N1. rewrite gsplit_nosep by exact N2. reflexivity. }
  rewrite Sp in A. injection A as <- <-. unfold caller_sa in *. cbn [u_sa k_name k_ns c_token v_sa environment_of] in *.
  destruct sa as [|a sa]; [ congruence |]. split; [ exact I | reflexivity ].
Qed.
(* what the environment says *)
Theorem C73_environment : forall z review claims groups found issue ip header c e,
  config_handler z review claims groups found issue ip header = Ok200 c e ->
  exists g, groups (mkkey (v_ns e) (v_workload e)) = Some g /\
    v_owner e = lit "kubernetes://apis/v1/namespaces/" ++ v_ns e ++ lit "/workloadgroups/" ++ v_workload e /\
    v_net e = g_net g /\ v_type e = lit "sidecar" /\ v_sa e <> [] /\
    v_cluster e = z_cluster z /\ v_rev e = z_rev z /\ v_dns e = z_dns z /\ v_search e = [lit "svc." ++ z_dns z; z_dns z] /\
    v_ca e = c_endpoint c /\ v_trust e = c_trustd c /\ v_mesh e = c_meshid c /\
    v_ips e = [if geqb ip (lit "::1") then lit "127.0.0.1" else ip] /\
    In (lit "service.istio.io/canonical-name", canonical_name (g_labels g) (v_workload e)) (v_labels e) /\
    In (lit "service.istio.io/canonical-revision", canonical_revision (g_labels g)) (v_labels e) /\
    In (lit "topology.istio.io/network", g_net g) (v_labels e) /\ In (lit "istio.io/rev", z_rev z) (v_labels e) /\
    In (lit "security.istio.io/tlsMode", lit "istio") (v_labels e) /\ NoDup (map fst (v_labels e)).
Proof.
  intros z review claims groups found issue ip header c e H. apply C73_ok_iff in H.
  destruct H as (scheme & token & u & aud & g & m & t & E & S2 & S3 & A & G & F & I & -> & ->).
  exists g. unfold environment_of. cbn [v_owner v_net v_type v_sa v_cluster v_rev v_dns v_search v_ca v_trust v_mesh v_ips v_labels v_ns v_workload c_endpoint c_trustd c_meshid c_cluster c_rev].
  destruct (u_wg u) as [wn ww] eqn:W. cbn [k_ns k_name].
  split; [ exact G |]. repeat (split; [ try reflexivity |]).
  - unfold caller_sa. cbn. destruct (k_name (u_sa u)); discriminate.
  - cbn; tauto.
  - cbn; tauto.
  - cbn; tauto.
  - cbn; tauto.
  - cbn; tauto.
  - cbn [map fst]. repeat constructor; cbn; intuition discriminate.
Qed.
(* every refusal is one of the three error codes and carries nothing *)
Theorem C73_missing_or_malformed_header : forall z review claims groups found issue ip header,
  length (gsplit space header) <> 2 -> config_handler z review claims groups found issue ip header = Unauthorized401.
Proof. intros. unfold config_handler. destruct header; [ reflexivity |]. destruct (gsplit " " (a :: header)) as [|x [|y [|? ?]]] eqn:E; try reflexivity. exfalso; apply H; unfold space; rewrite E; reflexivity. Qed.
Theorem C73_rejected_token : forall z review claims groups found issue ip scheme token, ~ In space scheme -> ~ In space token ->
  (claims token = None \/ (exists auds, claims token = Some auds /\ review token (first_valid auds) = None)) ->
  config_handler z review claims groups found issue ip (scheme ++ space :: token) = Unauthorized401.
Proof.
  intros z review claims groups found issue ip scheme token A B H. unfold config_handler.
  destruct (scheme ++ space :: token) as [|ch hs] eqn:Q; [ reflexivity |]. rewrite <- Q.
  assert (gsplit " " (scheme ++ space :: token) = [scheme; token]) as -> by (apply two_words; auto).
  unfold authenticate. destruct H as [->|(auds & -> & R)]; [ reflexivity |]. rewrite R. reflexivity.
Qed.
(* the client's header is one the server takes apart, whether or not the caller wrote the scheme itself *)
Theorem C73_client_header : forall token, ~ In space token -> gsplit space (client_header token) = [lit "Bearer"; token] /\ client_header (lit "Bearer " ++ token) = client_header token.
Proof.
  intros token N. assert (ghas_prefix token (lit "Bearer ") = false) as P.
  { destruct (ghas_prefix token (lit "Bearer ")) eqn:Q; [| reflexivity ]. apply ghas_prefix_spec in Q. destruct Q as [r ->]. exfalso. apply N. apply in_or_app. left. cbn. tauto. }
  unfold client_header. rewrite P. split.
  - change (lit "Bearer " ++ token) with (lit "Bearer" ++ space :: token). apply two_words. repeat split; auto. cbn; intuition discriminate.
  - assert (ghas_prefix (lit "Bearer " ++ token) (lit "Bearer ") = true) as -> by (apply ghas_prefix_spec; exists token; reflexivity). reflexivity.
Qed.
Theorem C73_end_to_end : forall z review claims groups found issue ip token u aud g m t pod, ~ In space token ->
  authenticate review claims token = Some (u, aud) -> groups (u_wg u) = Some g -> found = Some m ->
  issue (k_name (caller_sa u)) (k_ns (caller_sa u)) (lit "istio-ca") 86400%Z = Some t ->
  exists c e, client_result pod (config_handler z review claims groups found issue ip (client_header token)) = Some (c, e, pod, (lit "AUTO_REGISTER_GROUP", k_name (u_wg u))) /\
    c_token c = t /\ v_ns e = k_ns (u_wg u).
Proof.
  intros z review claims groups found issue ip token u aud g m t pod N A G F I.
  destruct (C73_client_header token N) as [H _]. apply two_words in H. destruct H as (H & _ & _).
  destruct (config_handler z review claims groups found issue ip (client_header token)) as [c e| | |] eqn:R.
  - pose proof R as R'. apply C73_ok_iff in R'. destruct R' as (sc & tk & u' & aud' & g' & m' & t' & E & S2 & S3 & A' & G' & F' & I' & C & EV).
    assert (gsplit space (client_header token) = [sc; tk]) as Q by (apply two_words; auto). rewrite (proj1 (C73_client_header token N)) in Q. injection Q as <- <-.
    rewrite A in A'. injection A' as <- <-. rewrite I in I'. injection I' as <-. exists c, e. subst c e. cbn. auto.
  - exfalso. assert (config_handler z review claims groups found issue ip (client_header token) = Ok200 (mkca (m_addr m ++ lit ":15012") (m_san m) t (m_pem m) (z_cluster z) (z_rev z) (m_mesh m) (m_trust m)) (environment_of z u (k_name (caller_sa u)) (u_wg u) g (mkca (m_addr m ++ lit ":15012") (m_san m) t (m_pem m) (z_cluster z) (z_rev z) (m_mesh m) (m_trust m)) ip)).
    { apply C73_ok_iff. exists (lit "Bearer"), token, u, aud, g, m, t. repeat split; auto. cbn; intuition discriminate. } congruence.
  - exfalso. assert (config_handler z review claims groups found issue ip (client_header token) = Ok200 (mkca (m_addr m ++ lit ":15012") (m_san m) t (m_pem m) (z_cluster z) (z_rev z) (m_mesh m) (m_trust m)) (environment_of z u (k_name (caller_sa u)) (u_wg u) g (mkca (m_addr m ++ lit ":15012") (m_san m) t (m_pem m) (z_cluster z) (z_rev z) (m_mesh m) (m_trust m)) ip)).
    { apply C73_ok_iff. exists (lit "Bearer"), token, u, aud, g, m, t. repeat split; auto. cbn; intuition discriminate. } congruence.
  - exfalso. assert (config_handler z review claims groups found issue ip (client_header token) = Ok200 (mkca (m_addr m ++ lit ":15012") (m_san m) t (m_pem m) (z_cluster z) (z_rev z) (m_mesh m) (m_trust m)) (environment_of z u (k_name (caller_sa u)) (u_wg u) g (mkca (m_addr m ++ lit ":15012") (m_san m) t (m_pem m) (z_cluster z) (z_rev z) (m_mesh m) (m_trust m)) ip)).
    { apply C73_ok_iff. exists (lit "Bearer"), token, u, aud, g, m, t. repeat split; auto. cbn; intuition discriminate. } congruence.
Qed.
(* start-up: the DNS domain is never empty, a configured cluster ID is used *)
Theorem C73_start : forall cl dns rev reg z, start cl dns rev reg = Some z -> z_cluster z = cl /\ z_rev z = rev /\ z_dns z <> [] /\ (dns <> [] -> z_dns z = dns) /\ (dns = [] -> z_dns z = lit "cluster.local") /\ (cl = [] -> reg <> None).
Proof.
  intros cl dns rev reg z. unfold start. destruct cl as [|a cl].
  - destruct reg as [r|]; [| discriminate ]. intros E; injection E as <-. cbn. destruct dns; repeat split; try congruence; discriminate.
  - intros E; injection E as <-. cbn. destruct dns; repeat split; try congruence; discriminate.
Qed.
Theorem C73_start_total : forall cl dns rev reg, start cl dns rev reg = None <-> cl = [] /\ reg = None.
Proof. intros cl dns rev reg. unfold start. destruct cl, reg; split; intros H; try discriminate; try tauto; destruct H; discriminate. Qed.
(* ---------- where the English claim is false ---------- *)
(* the cluster ID found in the registry is thrown away: callers get an empty cluster ID *)
Theorem C73_registry_cluster_id_lost_refuted : forall dns rev id z, start [] dns rev (Some id) = Some z -> z_cluster z = [].
Proof. intros. apply C73_start in H. tauto. Qed.
Theorem C73_registry_first_local : forall l n, registry_id false (Some l) = Some n <-> exists a b, l = a ++ (n, true) :: b /\ forall x, In x a -> snd x = false.
Proof.
  intros l n. unfold registry_id. split.
  - intros H. induction l as [|[m lo] l IH]; cbn in *; [ discriminate |]. destruct lo; cbn in *.
    + injection H as ->. exists [], l. split; [ reflexivity | intros ? [] ].
    + destruct (IH H) as (a & b & -> & C). exists ((m, false) :: a), b. split; [ reflexivity |]. intros x [<-|X]; auto.
  - intros (a & b & -> & C). induction a as [|[m lo] a IH]; cbn; [ reflexivity |]. pose proof (C (m, lo) (or_introl eq_refl)) as Q. cbn in Q. subst lo. cbn. apply IH. intros; apply C; right; auto.
Qed.
(* any scheme will do *)
Theorem C73_scheme_not_checked_refuted : forall z review claims groups found issue ip s1 s2 token, ~ In space s1 -> ~ In space s2 -> ~ In space token ->
  config_handler z review claims groups found issue ip (s1 ++ space :: token) = config_handler z review claims groups found issue ip (s2 ++ space :: token).
Proof.
  intros z review claims groups found issue ip s1 s2 token A B C. unfold config_handler.
  destruct (s1 ++ space :: token) as [|c1 h1] eqn:Q1; [ destruct s1; discriminate |]. rewrite <- Q1.
  destruct (s2 ++ space :: token) as [|c2 h2] eqn:Q2; [ destruct s2; discriminate |]. rewrite <- Q2.
  assert (gsplit " " (s1 ++ space :: token) = [s1; token]) as -> by (apply two_words; auto).
  assert (gsplit " " (s2 ++ space :: token) = [s2; token]) as -> by (apply two_words; auto). reflexivity.
Qed.
(* the caller's service account is not compared with the group's: any service account that can have a token for the
   group's audience gets the group's environment, in the group's namespace, under its own name *)
Theorem C73_membership_not_checked_refuted : forall z review claims groups m issue ip token auds k g ns sa t,
  ~ In space token -> claims token = Some auds -> first_valid auds = aud_generate k -> no_colon k -> groups k = Some g ->
  sa <> [] -> ~ In colon ns -> ~ In colon sa -> ns <> k_ns k ->
  review token (aud_generate k) = Some (lit "system:serviceaccount:" ++ ns ++ colon :: sa) -> issue sa ns (lit "istio-ca") 86400%Z = Some t ->
  exists c e, config_handler z review claims groups (Some m) issue ip (lit "Bearer " ++ token) = Ok200 c e /\ v_ns e = k_ns k /\ v_workload e = k_name k /\ v_sa e = sa.
Proof.
  intros z review claims groups m issue ip token auds k g ns sa t N C F NC G NE N1 N2 D R I.
  assert (authenticate review claims token = Some (mkuser (lit "system:serviceaccount:" ++ ns ++ colon :: sa) (mkkey ns sa) k, aud_generate k)) as A.
  { unfold authenticate. rewrite C, F, R.
    assert (ghas_prefix (lit "system:serviceaccount:" ++ ns ++ colon :: sa) (lit "system:serviceaccount:") = true) as -> by (apply ghas_prefix_spec; eexists; reflexivity).
    assert (gsplit colon (lit "system:serviceaccount:" ++ ns ++ colon :: sa) = [lit "system"; lit "serviceaccount"; ns; sa]) as ->.
    { change (lit "system:serviceaccount:" ++ ns ++ colon :: sa) with (lit "system" ++ colon :: lit "serviceaccount" ++ colon :: ns ++ colon :: sa).
      rewrite gsplit_app by (cbn; intuition discriminate). rewrite gsplit_app by (cbn; intuition discriminate).
      rewrite gsplit_app by exact N1. rewrite gsplit_nosep by exact N2. reflexivity. }
    rewrite (proj1 (C52_roundtrip k NC)). reflexivity. }
  do 2 eexists. split; [ apply C73_ok_iff; exists (lit "Bearer"), token; do 2 eexists; exists g, m, t |].
  - split; [ reflexivity |]. split; [ cbn; intuition discriminate |]. split; [ exact N |]. split; [ exact A |]. split; [ exact G |]. split; [ reflexivity |].
    split; [ unfold caller_sa; cbn; destruct sa; [ congruence | exact I ] |]. split; reflexivity.
  - cbn. unfold caller_sa. cbn. destruct sa; [ congruence | auto ].
Qed.
(* a caller that is not a service account gets a CA token for the service account "default" of the empty namespace *)
Theorem C73_non_service_account_default_refuted : forall z review claims groups found issue ip header c e,
  config_handler z review claims groups found issue ip header = Ok200 c e ->
  (forall token aud name, review token aud = Some name -> ghas_prefix name (lit "system:serviceaccount:") = false) ->
  issue (lit "default") [] (lit "istio-ca") 86400%Z = Some (c_token c) /\ v_sa e = lit "default".
Proof.
  intros z review claims groups found issue ip header c e H HN. apply C73_ok_iff in H.
  destruct H as (scheme & token & u & aud & g & m & t & E & S2 & S3 & A & G & F & I & -> & ->).
  unfold authenticate in A. destruct (claims token) as [auds|]; [| discriminate ]. destruct (review token (first_valid auds)) as [name|] eqn:R; [| discriminate ].
  rewrite (HN _ _ _ R) in A. injection A as <- <-. unfold caller_sa in *. cbn in *. auto.
Qed.
(* ---------- non-vacuity ---------- *)
Definition ex_review : reviewer := fun tok aud => if geqb tok (lit "tok") && geqb aud (lit "nasp-heimdall:workloadgroup:prod:reviews") then Some (lit "system:serviceaccount:dev:bob") else None.
Definition ex_claims (tok : gstr) : option (list gstr) := if geqb tok (lit "tok") then Some [lit "other"; lit "nasp-heimdall:workloadgroup:prod:reviews"] else None.
Definition ex_groups (k : okey) : option wginfo := if geqb (k_ns k) (lit "prod") && geqb (k_name k) (lit "reviews") then Some (mkwgi (fun _ => None) (lit "net1")) else None.
Definition ex_mesh : mesh := mkmesh (lit "10.0.0.1") (lit "istiod.istio-system.svc") (lit "PEM") (lit "mesh1") (lit "cluster.local").
Definition ex_issue : issuer := fun sa ns aud secs => Some (lit "ca-token-" ++ ns ++ lit "/" ++ sa).
Definition ex_z : settings := mksettings (lit "c1") (lit "cluster.local") (lit "1-17").
Example C73_ex_ok : match config_handler ex_z ex_review ex_claims ex_groups (Some ex_mesh) ex_issue (lit "::1") (client_header (lit "tok")) with
  | Ok200 c e => c_token c = lit "ca-token-dev/bob" /\ v_ns e = lit "prod" /\ v_sa e = lit "bob" /\ v_ips e = [lit "127.0.0.1"] /\ c_endpoint c = lit "10.0.0.1:15012"
  | _ => False end.
Proof. vm_compute. repeat split. Qed.
Example C73_ex_bad : config_handler ex_z ex_review ex_claims ex_groups (Some ex_mesh) ex_issue (lit "::1") (client_header (lit "forged")) = Unauthorized401 /\
  config_handler ex_z ex_review ex_claims (fun _ => None) (Some ex_mesh) ex_issue (lit "::1") (client_header (lit "tok")) = NotFound404 /\
  config_handler ex_z ex_review ex_claims ex_groups None ex_issue (lit "::1") (lit "Basic tok") = Internal500.
Proof. vm_compute. repeat split. Qed.
Print Assumptions C73_ok_iff.
Print Assumptions C73_only_for_token_audience.
Print Assumptions C73_ca_token_for_caller.
Print Assumptions C73_environment.
Print Assumptions C73_missing_or_malformed_header.
Print Assumptions C73_rejected_token.
Print Assumptions C73_client_header.
Print Assumptions C73_end_to_end.
Print Assumptions C73_start.
Print Assumptions C73_start_total.
Print Assumptions C73_registry_cluster_id_lost_refuted.
Print Assumptions C73_registry_first_local.
Print Assumptions C73_scheme_not_checked_refuted.
Print Assumptions C73_membership_not_checked_refuted.
Print Assumptions C73_non_service_account_default_refuted.
