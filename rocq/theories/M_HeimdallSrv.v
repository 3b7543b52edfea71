(* Heimdall: the /config endpoint, components/heimdall/pkg/server/server.go, and its client in pkg/ca/istio/config.go *)
From Coq Require Import String List Ascii Bool ZArith.
From Verif Require Import M_GoStr M_Identity.
Import ListNotations.
Open Scope list_scope.
(* what discovery of the control plane finds (config.go:108-157): address, SAN, root certificate, mesh and trust domain *)
Record mesh := mkmesh { m_addr : gstr; m_san : gstr; m_pem : gstr; m_mesh : gstr; m_trust : gstr }.
Record caconf := mkca { c_endpoint : gstr; c_san : gstr; c_token : gstr; c_pem : gstr; c_cluster : gstr; c_rev : gstr; c_meshid : gstr; c_trustd : gstr }.
(* TokenRequest: service account, namespace, audience, seconds *)
Definition issuer := gstr -> gstr -> gstr -> Z -> option gstr.
(* config.go:89-169 with a service account (saObjectKey is never nil here). Simplified: the lookups are one result *)
Definition ca_config (found : option mesh) (issue : issuer) (cluster rev : gstr) (sa : okey) : option caconf :=
  match found with
  | None => None
  | Some m =>
      match issue (k_name sa) (k_ns sa) (lit "istio-ca") 86400%Z with
      | None => None
      | Some t => Some (mkca (m_addr m ++ lit ":15012") (m_san m) t (m_pem m) cluster rev (m_mesh m) (m_trust m))
      end
  end.
(* the parts of a WorkloadGroup the handler reads *)
Record wginfo := mkwgi { g_labels : lmap; g_net : gstr }.
Record envr := mkenvr {
  v_type : gstr; v_ns : gstr; v_owner : gstr; v_sa : gstr; v_workload : gstr; v_ips : list gstr; v_labels : list (gstr * gstr);
  v_net : gstr; v_cluster : gstr; v_dns : gstr; v_search : list gstr; v_trust : gstr; v_mesh : gstr; v_ca : gstr; v_rev : gstr }.
Inductive reply := Ok200 (c : caconf) (e : envr) | Unauthorized401 | NotFound404 | Internal500.
(* server.go:41-45: the package variables, after Run *)
Record settings := mksettings { z_cluster : gstr; z_dns : gstr; z_rev : gstr }.
(* server.go:64-82 Run: registry is the result of getClusterIDFromRegistry (192-212), None an error. Its value is dropped *)
Definition start (env_cluster env_dns env_rev : gstr) (registry : option gstr) : option settings :=
  let dns := match env_dns with [] => lit "cluster.local" | d => d end in
  match env_cluster with
  | [] => match registry with None => None | Some _ => Some (mksettings env_cluster dns env_rev) end
  | _ => Some (mksettings env_cluster dns env_rev)
  end.
(* server.go:192-212: the first local cluster; the list of clusters is (name, is local); None: listing failed. An "invalid"
   error gives "" without an error (the first argument) *)
Definition registry_id (invalid : bool) (clusters : option (list (gstr * bool))) : option gstr :=
  if invalid then Some [] else
  match clusters with
  | None => None
  | Some l => match find snd l with Some (n, _) => Some n | None => None end
  end.
(* server.go:140-172 *)
Definition environment_of (z : settings) (u : user) (sa : gstr) (key : okey) (g : wginfo) (c : caconf) (ip : gstr) : envr :=
  mkenvr (lit "sidecar") (k_ns key)
    (lit "kubernetes://apis/v1/namespaces/" ++ k_ns (u_wg u) ++ lit "/workloadgroups/" ++ k_name key)
    sa (k_name key) [if geqb ip (lit "::1") then lit "127.0.0.1" else ip]
    [(lit "security.istio.io/tlsMode", lit "istio");
     (lit "service.istio.io/canonical-revision", canonical_revision (g_labels g));
     (lit "istio.io/rev", c_rev c);
     (lit "topology.istio.io/network", g_net g);
     (lit "service.istio.io/canonical-name", canonical_name (g_labels g) (k_name key));
     (lit "app.kubernetes.io/name", k_name key);
     (lit "app", k_name key)]
    (g_net g) (c_cluster c) (z_dns z) [lit "svc." ++ z_dns z; z_dns z] (c_trustd c) (c_meshid c) (c_endpoint c) (z_rev z).
(* server.go:88-175, the handler of POST /config. header: "" when missing *)
Definition config_handler (z : settings) (review : reviewer) (claims : gstr -> option (list gstr)) (groups : okey -> option wginfo)
  (found : option mesh) (issue : issuer) (ip : gstr) (header : gstr) : reply :=
  match header with
  | [] => Unauthorized401
  | _ =>
      match gsplit " "%char header with
      | [_; token] =>
          match authenticate review claims token with
          | None => Unauthorized401
          | Some (u, _) =>
              let sa := match k_name (u_sa u) with [] => lit "default" | n => n end in
              match groups (u_wg u) with
              | None => NotFound404
              | Some g =>
                  match ca_config found issue (z_cluster z) (z_rev z) (mkkey (k_ns (u_sa u)) sa) with
                  | None => Internal500
                  | Some c => Ok200 c (environment_of z u sa (u_wg u) g c ip)
                  end
              end
          end
      | _ => Unauthorized401
      end
  end.
(* config.go:440-442: the header the client sends *)
Definition client_header (token : gstr) : gstr := if ghas_prefix token (lit "Bearer ") then token else lit "Bearer " ++ token.
(* config.go:469-490: what the client returns: on 200 the environment with its own pod name, the group recorded for
   auto registration; None an error. TLS verification is off, so the reply is whatever the peer sent *)
Definition client_result (pod : gstr) (r : reply) : option (caconf * envr * gstr * (gstr * gstr)) :=
  match r with Ok200 c e => Some (c, e, pod, (lit "AUTO_REGISTER_GROUP", v_workload e)) | _ => None end.
