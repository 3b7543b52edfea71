(* Heimdall's pod mutator, components/heimdall/pkg/webhooks/pod_mutator.go and pkg/k8sutil/meta.go, and the environment the
   workload reads back, pkg/environment/istio.go *)
From Coq Require Import String List Ascii Bool Arith ZArith.
From Verif Require Import M_GoStr.
Import ListNotations.
Open Scope list_scope.
(* a Go map[string]string *)
Definition smap := list (gstr * gstr).
Fixpoint sget (m : smap) (k : gstr) : option gstr := match m with [] => None | (k', v) :: r => if geqb k' k then Some v else sget r k end.
Fixpoint sset (m : smap) (k v : gstr) : smap := match m with [] => [(k, v)] | (k', v') :: r => if geqb k' k then (k', v) :: r else (k', v') :: sset r k v end.
Definition sdel (m : smap) (k : gstr) : smap := filter (fun e => negb (geqb (fst e) k)) m.
(* m[k] with the zero value *)
Definition sidx (m : smap) (k : gstr) : gstr := match sget m k with Some v => v | None => [] end.
(* an owner reference: API version, kind, name, *Controller *)
Record oref := mkoref { o_api : gstr; o_kind : gstr; o_name : gstr; o_ctrl : bool }.
Inductive evalue := Lit (v : gstr) | Field (path : gstr).
Record container := mkcont { n_name : gstr; n_env : list (gstr * evalue); n_ports : list (gstr * Z); n_mounts : list (gstr * gstr) }.
Inductive volsrc := SaToken (aud : gstr) (secs : Z) (path : gstr) | ConfigMapVol (name : gstr) | OtherVol.
Record pod := mkpod { p_name : gstr; p_gen : gstr; p_ns : gstr; p_owners : list oref; p_labels : smap; p_annot : smap;
  p_conts : list container; p_vols : list (gstr * volsrc) }.
Record config := mkconfig { f_cluster : gstr; f_mesh : gstr; f_version : gstr; f_ca : gstr; f_net : gstr; f_rev : gstr }.
(* meta.go:25: (.+)-\d{8,10}$ : the digits contain no dash, so the dash is the last one; the greedy group is all before it *)
Definition dash : ascii := "-"%char.
Definition is_digit (a : ascii) : bool := (48 <=? nat_of_ascii a) && (nat_of_ascii a <=? 57).
Fixpoint span_digits (s : gstr) : gstr * gstr :=
  match s with [] => ([], []) | c :: r => if is_digit c then let '(d, t) := span_digits r in (c :: d, t) else ([], s) end.
Definition cron_name (s : gstr) : option gstr :=
  let '(d, t) := span_digits (rev s) in
  match t with
  | c :: ((_ :: _) as pre) => if Ascii.eqb c dash && (8 <=? length d) && (length d <=? 10) then Some (rev pre) else None
  | _ => None
  end.
(* strings.TrimSuffix *)
Definition trim_suffix (s p : gstr) : gstr := if ghas_suffix s p then firstn (length s - length p) s else s.
(* meta.go:28-94 GetDeployMetaFromPod: name, API version and kind, and the labels the pod has afterwards: deployMeta is a
   shallow copy, so the delete at line 76 removes the label from the pod itself *)
Definition deploy_meta (p : pod) : (gstr * gstr * gstr) * smap :=
  let pick '(nm, api, kind, lb) := ((match nm with [] => p_name p | _ => nm end, api, kind), lb) in
  let plain := (p_name p, lit "v1", lit "Pod", p_labels p) in
  pick (match p_gen p with
  | [] => plain
  | _ =>
      match find o_ctrl (p_owners p) with
      | None => plain
      | Some r =>
          let hash := sidx (p_labels p) (lit "pod-template-hash") in
          let dc := sidx (p_labels p) (lit "deploymentconfig") in
          if geqb (o_kind r) (lit "ReplicaSet") && negb (geqb hash []) && ghas_suffix (o_name r) hash
          then (trim_suffix (o_name r) (dash :: hash), o_api r, lit "Deployment", p_labels p)
          else if geqb (o_kind r) (lit "ReplicationController") && negb (geqb dc [])
          then (dc, o_api r, lit "DeploymentConfig", sdel (p_labels p) (lit "deploymentconfig"))
          else if geqb (o_kind r) (lit "Job")
          then match cron_name (o_name r) with
               | Some n => (n, lit "batch/v1beta1", lit "CronJob", p_labels p)
               | None => (o_name r, o_api r, o_kind r, p_labels p)
               end
          else (o_name r, o_api r, o_kind r, p_labels p)
      end
  end).
Definition with_labels (p : pod) (l : smap) : pod := mkpod (p_name p) (p_gen p) (p_ns p) (p_owners p) l (p_annot p) (p_conts p) (p_vols p).
(* pod_mutator.go:180-188 *)
Definition set_annotations (p : pod) : pod :=
  mkpod (p_name p) (p_gen p) (p_ns p) (p_owners p) (p_labels p)
    (sset (sset (sset (sset (p_annot p) (lit "sidecar.istio.io/inject") (lit "false")) (lit "prometheus.io/path") (lit "/stats/prometheus"))
      (lit "prometheus.io/port") (lit "16090")) (lit "prometheus.io/scrape") (lit "true")) (p_conts p) (p_vols p).
(* pod_mutator.go:191-199 *)
Fixpoint first_value (vs : list gstr) : gstr := match vs with [] => [] | [] :: r => first_value r | v :: _ => v end.
(* if _, ok := m[k]; !ok { m[k] = v } *)
Definition set_default (m : smap) (k v : gstr) : smap := match sget m k with Some _ => m | None => sset m k v end.
(* pod_mutator.go:190-218 setLabels *)
Definition set_labels (f : config) (p : pod) : pod :=
  let '((name, _, _), lb) := deploy_meta p in
  let l1 := set_default lb (lit "security.istio.io/tlsMode") (lit "istio") in
  let l2 := set_default l1 (lit "service.istio.io/canonical-name") (first_value [sidx l1 (lit "app.kubernetes.io/name"); sidx l1 (lit "app"); name]) in
  let l3 := set_default l2 (lit "service.istio.io/canonical-revision") (first_value [sidx l2 (lit "app.kubernetes.io/version"); sidx l2 (lit "version"); lit "latest"]) in
  with_labels p (sset (sset l3 (lit "istio.io/rev") (f_rev f)) (lit "topology.istio.io/network") (f_net f)).
Definition comma : ascii := ","%char.
Definition colonc : ascii := ":"%char.
(* strings.ToLower of a kind *)
Definition lower (s : gstr) : gstr := map lower_ascii s.
(* pod_mutator.go:220-336 setEnvs. order: the order in which range visits the label map. Kinds are ASCII *)
Definition nasp_env (f : config) (owner workload ns : gstr) (names : list gstr) (lbs : smap) : list (gstr * evalue) :=
  [ (lit "NASP_ENABLED", Lit (lit "true"));
    (lit "NASP_TYPE", Lit (lit "sidecar"));
    (lit "NASP_POD_NAME", Field (lit "metadata.name"));
    (lit "NASP_POD_NAMESPACE", Field (lit "metadata.namespace"));
    (lit "NASP_POD_OWNER", Lit owner);
    (lit "NASP_POD_SERVICE_ACCOUNT", Field (lit "spec.serviceAccountName"));
    (lit "NASP_WORKLOAD_NAME", Lit workload);
    (lit "NASP_APP_CONTAINERS", Lit (gjoin comma names));
    (lit "NASP_INSTANCE_IP", Field (lit "status.podIPs"));
    (lit "NASP_LABELS", Lit (gjoin comma (map (fun e => fst e ++ colonc :: snd e) lbs)));
    (lit "NASP_NETWORK", Lit (f_net f));
    (lit "NASP_SEARCH_DOMAINS", Lit (ns ++ lit ".svc.cluster.local,svc.cluster.local"));
    (lit "NASP_CLUSTER_ID", Lit (f_cluster f));
    (lit "NASP_DNS_DOMAIN", Lit (lit "cluster.local"));
    (lit "NASP_MESH_ID", Lit (f_mesh f));
    (lit "NASP_ISTIO_CA_ADDR", Lit (f_ca f));
    (lit "NASP_ISTIO_VERSION", Lit (f_version f));
    (lit "NASP_ISTIO_REVISION", Lit (f_rev f)) ].
Definition owner_string (api ns kind name : gstr) : gstr :=
  lit "kubernetes://apis/" ++ api ++ lit "/namespaces/" ++ ns ++ lit "/" ++ lower kind ++ lit "s/" ++ name.
Definition set_envs (f : config) (order : smap -> smap) (p : pod) : pod :=
  let '((name, api, kind), lb) := deploy_meta p in
  let env := nasp_env f (owner_string api (p_ns p) kind name) name (p_ns p) (map n_name (p_conts p)) (order lb) in
  mkpod (p_name p) (p_gen p) (p_ns p) (p_owners p) lb (p_annot p)
    (map (fun c => mkcont (n_name c) (n_env c ++ env) (n_ports c ++ [(lit "http-envoy-prom", 16090%Z)]) (n_mounts c)) (p_conts p)) (p_vols p).
(* pod_mutator.go:130-168 setVolumes *)
Definition set_volumes (cm : gstr) (p : pod) : pod :=
  mkpod (p_name p) (p_gen p) (p_ns p) (p_owners p) (p_labels p) (p_annot p) (p_conts p)
    (p_vols p ++ [(lit "istio-token", SaToken (lit "istio-ca") 43200%Z (lit "istio-token")); (lit "istiod-ca-cert", ConfigMapVol cm)]).
(* pod_mutator.go:109-128 setVolumeMounts *)
Definition set_mounts (p : pod) : pod :=
  mkpod (p_name p) (p_gen p) (p_ns p) (p_owners p) (p_labels p) (p_annot p)
    (map (fun c => mkcont (n_name c) (n_env c) (n_ports c) (n_mounts c ++ [(lit "istiod-ca-cert", lit "/var/run/secrets/istio"); (lit "istio-token", lit "/var/run/secrets/tokens")])) (p_conts p)) (p_vols p).
(* pod_mutator.go:69-101 Handle after decoding: request.Namespace for a pod without one; cm is the name of the root
   certificate config map, None when it is not found. None: the request is refused *)
Definition mutate (f : config) (order : smap -> smap) (req_ns : gstr) (cm : option gstr) (p0 : pod) : option pod :=
  let p := mkpod (p_name p0) (p_gen p0) (match p_ns p0 with [] => req_ns | n => n end) (p_owners p0) (p_labels p0) (p_annot p0) (p_conts p0) (p_vols p0) in
  match cm with
  | None => None
  | Some c => Some (set_mounts (set_volumes c (set_envs f order (set_labels f (set_annotations p)))))
  end.
(* ---------- what the workload reads back: pkg/environment/istio.go:53-63 with go-envconfig ---------- *)
(* the process environment: of two variables of the same name the last counts (Kubernetes) *)
Fixpoint env_get (env : list (gstr * evalue)) (k : gstr) : option evalue :=
  match env with [] => None | (k', v) :: r => match env_get r k with Some w => Some w | None => if geqb k' k then Some v else None end end.
(* strings.TrimSpace, the ASCII spaces *)
Definition is_space (a : ascii) : bool := let n := nat_of_ascii a in (n =? 32) || ((9 <=? n) && (n <=? 13)).
Fixpoint trim_left (s : gstr) : gstr := match s with [] => [] | c :: r => if is_space c then trim_left r else s end.
Definition trim_space (s : gstr) : gstr := rev (trim_left (rev (trim_left s))).
(* go-envconfig: a []string is split at commas, a map[string]string at commas and the first colon; None: an error *)
Definition parse_slice (v : gstr) : list gstr := map trim_space (gsplit comma v).
Fixpoint parse_pairs (ps : list gstr) : option smap :=
  match ps with
  | [] => Some []
  | p :: r =>
      match gsplitn colonc 2 p, parse_pairs r with
      | k :: v :: _, Some m => Some (sset m (trim_space k) (trim_space v))
      | _, _ => None
      end
  end.
Definition parse_map (v : gstr) : option smap := parse_pairs (rev (gsplit comma v)).

(* pkg/environment/istio.go:25-51: the environment; metadata maps as smap *)
Record ienv := mkienv {
  i_enabled : bool; i_type : gstr; i_pod : gstr; i_ns : gstr; i_owner : gstr; i_sa : gstr; i_workload : gstr; i_conts : list gstr; i_ips : list gstr;
  i_labels : smap; i_platform : smap; i_net : gstr; i_search : list gstr; i_ttl : Z; i_additional : smap;
  i_cluster : gstr; i_dns : gstr; i_trust : gstr; i_mesh : gstr; i_ca : gstr; i_version : gstr; i_rev : gstr }.
(* istio.go:150-178 Override *)
Definition override (e o : ienv) : ienv :=
  mkienv (i_enabled e) (i_type o) (i_pod o) (i_ns o) (i_owner o) (i_sa o) (i_workload o) (i_conts o) (i_ips o)
    (i_labels o) (i_platform o) (i_net o) (i_search o) (i_ttl e) (i_additional o)
    (i_cluster o) (i_dns o) (i_trust e) (i_mesh o) (i_ca o) (i_version o) (i_rev o).
(* istio.go:53-63 GetIstioEnvironment: the process environment by full name; an unset or empty variable leaves the zero
   value. Enabled and SecretTTL are parsed by functions given as arguments; None: an error *)
Definition read_env (get : gstr -> option gstr) (pbool : gstr -> option bool) (pdur : gstr -> option Z) : option ienv :=
  let str k := match get (lit "NASP_" ++ k) with Some v => v | None => [] end in
  let slice k := match str k with [] => [] | v => parse_slice v end in
  let mp k := match str k with [] => Some [] | v => parse_map v end in
  match (match str (lit "ENABLED") with [] => Some false | v => pbool v end),
        (match str (lit "SECRET_TTL") with [] => Some 0%Z | v => pdur v end),
        mp (lit "LABELS"), mp (lit "PLATFORM_METADATA"), mp (lit "ADDITIONAL_METADATA") with
  | Some en, Some ttl, Some lb, Some pm, Some am =>
      Some (mkienv en (str (lit "TYPE")) (str (lit "POD_NAME")) (str (lit "POD_NAMESPACE")) (str (lit "POD_OWNER")) (str (lit "POD_SERVICE_ACCOUNT"))
        (str (lit "WORKLOAD_NAME")) (slice (lit "APP_CONTAINERS")) (slice (lit "INSTANCE_IP")) lb pm (str (lit "NETWORK")) (slice (lit "SEARCH_DOMAINS")) ttl am
        (str (lit "CLUSTER_ID")) (str (lit "DNS_DOMAIN")) (str (lit "TRUST_DOMAIN")) (str (lit "MESH_ID")) (str (lit "ISTIO_CA_ADDR")) (str (lit "ISTIO_VERSION")) (str (lit "ISTIO_REVISION")))
  | _, _, _, _, _ => None
  end.
