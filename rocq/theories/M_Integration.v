(* Model: construction and configuration of the Istio integration handler.
   Files: /repo/pkg/istio/istio.go, /repo/pkg/istio/istio_passthrough_handler.go, /repo/pkg/environment/istio.go
   (lines refer to istio.go in pkg/istio unless another file is named).

   Simplified: listeners, transports and dialers are numbers; what is built around them is recorded as data (filters, ALPN names,
   discovery client).  Logging, metrics registry and WASM virtual machines are not modelled; whether NewStreamHandler succeeds
   for a list of filters is an argument.  Connections, TLS and discovery are the subject of C67-C69, C75.  Go's maps are those of M_GoMap.v. *)
From Coq Require Import String List Ascii Bool Arith ZArith.
From Verif Require Import M_GoStr M_GoMap M_Identity M_Regex.
Import ListNotations.
Open Scope list_scope.

(* environment/istio.go:26-54; the fields that identities are made of are those of M_Identity.v (Type, PodName, PodNamespace,
   PodServiceAccount, WorkloadName, InstanceIPs, DNSDomain, TrustDomain) *)
Record ienv := mkie
  { i_enabled : bool; i_id : env; i_owner : gstr; i_containers : list gstr; i_labels : gmap gstr; i_platform : gmap gstr;
    i_network : gstr; i_search : list gstr; i_ttl : Z; i_extra : gmap gstr; i_cluster : gstr; i_mesh : gstr;
    i_caaddr : gstr; i_version : gstr; i_revision : gstr }.
(* environment/istio.go:144-150 GetSecretTTL, in seconds *)
Definition secret_ttl (e : ienv) : Z := if (i_ttl e =? 0)%Z then (24 * 3600)%Z else i_ttl e.
(* environment/istio.go:152-175 Override: Enabled, SecretTTL and TrustDomain stay *)
Definition override (e o : ienv) : ienv :=
  mkie (i_enabled e)
    (mkenv (e_type (i_id o)) (e_pod (i_id o)) (e_ns (i_id o)) (e_sa (i_id o)) (e_workload (i_id o)) (e_ips (i_id o)) (e_dns (i_id o)) (e_trust (i_id e)))
    (i_owner o) (i_containers o) (i_labels o) (i_platform o) (i_network o) (i_search o) (i_ttl e) (i_extra o) (i_cluster o) (i_mesh o)
    (i_caaddr o) (i_version o) (i_revision o).
Definition set_cluster (c r a v : gstr) (e : ienv) : ienv :=
  mkie (i_enabled e) (i_id e) (i_owner e) (i_containers e) (i_labels e) (i_platform e) (i_network e) (i_search e) (i_ttl e) (i_extra e) c (i_mesh e) a v r.
Definition set_labels (l : gmap gstr) (e : ienv) : ienv :=
  mkie (i_enabled e) (i_id e) (i_owner e) (i_containers e) l (i_platform e) (i_network e) (i_search e) (i_ttl e) (i_extra e) (i_cluster e) (i_mesh e) (i_caaddr e) (i_version e) (i_revision e).
Definition set_extra (x : gmap gstr) (e : ienv) : ienv :=
  mkie (i_enabled e) (i_id e) (i_owner e) (i_containers e) (i_labels e) (i_platform e) (i_network e) (i_search e) (i_ttl e) x (i_cluster e) (i_mesh e) (i_caaddr e) (i_version e) (i_revision e).

(* environment/istio.go:177-211 GetNodePropertiesFromEnvironment: the metadata entries are strings or objects of strings *)
Inductive mval := MText (s : gstr) | MObj (m : gmap gstr).
Definition comma : ascii := ","%char.
Definition node_metadata (e : ienv) : gmap mval :=
  let i := i_id e in
  mmerge (map (fun kv => (fst kv, MText (snd kv))) (i_extra e))
    [("NAME", MText (e_pod i)); ("NAMESPACE", MText (e_ns i)); ("OWNER", MText (i_owner e)); ("WORKLOAD_NAME", MText (e_workload i));
     ("ISTIO_VERSION", MText (i_version e)); ("MESH_ID", MText (i_mesh e)); ("CLUSTER_ID", MText (i_cluster e)); ("NETWORK", MText (i_network e));
     ("LABELS", MObj (i_labels e)); ("PLATFORM_METADATA", MObj (i_platform e));
     ("APP_CONTAINERS", MText (gjoin comma (i_containers e))); ("INSTANCE_IPS", MText (gjoin comma (e_ips i)))]%string.
Record node := mknode { n_id : gstr; n_cluster : gstr; n_meta : gmap mval }.
Definition node_properties (e : ienv) : node := mknode (node_id (i_id e)) (cluster_name (i_id e)) (node_metadata e).

(* ca/istio/istio_ca.go:40-49, the fields read here *)
Record caconf := mkca { ca_san : gstr; ca_cluster : gstr; ca_rev : gstr }.
Inductive out (X : Type) := Ret (x : X) | Err | Crash.
Arguments Ret {X} x. Arguments Err {X}. Arguments Crash {X}.
(* 75: a getter may change the environment it is given *)
Definition getter := ienv -> out (caconf * ienv).
(* what the process and its surroundings provide: environment variables; os.Stat of the token file; the three sources of a CA
   configuration; a fresh UUID; NewStreamHandler *)
Inductive filestat := FFile | FDir | FMissing | FFails.
Record filter := mkfilter { f_name : string; f_root : string; f_runtime : gstr; f_file : string }.
Record world := mkworld
  { w_getenv : string -> gstr; w_token : filestat;
    w_heimdall : gstr -> gstr -> gstr -> option (caconf * ienv);    (* url, token, version: CA configuration and environment *)
    w_local : gstr -> gstr -> option caconf; w_remote : gstr -> gstr -> option caconf;
    w_uuid : gstr; w_streams : list filter -> bool }.
Definition of_opt {X} (o : option X) : out X := match o with Some x => Ret x | None => Err end.
(* 78-80 *)
Definition getter_remote (w : world) : getter :=
  fun e => match w_remote w (i_cluster e) (i_revision e) with Some c => Ret (c, e) | None => Err end.
(* 81-83 *)
Definition getter_local (w : world) : getter :=
  fun e => match w_local w (i_cluster e) (i_caaddr e) with Some c => Ret (c, e) | None => Err end.
(* 84-100 *)
Definition getter_heimdall (w : world) (url token version : gstr) : getter :=
  fun e => match w_heimdall w url token version with
           | None => Err
           | Some (c, o) => Ret (c, set_cluster (ca_cluster c) (ca_rev c) (ca_san c) (i_version o) (override e o))
           end.
(* 101-121: os.Stat failing with anything but NotExist leaves a nil FileInfo, whose IsDir is called *)
Definition getter_auto (w : world) : getter :=
  fun e => match w_getenv w "HEIMDALL_URL" with
           | _ :: _ => getter_heimdall w (w_getenv w "HEIMDALL_URL") (w_getenv w "HEIMDALL_AUTH_TOKEN") (w_getenv w "NASP_APP_VERSION") e
           | [] => match w_token w with
                   | FFile => getter_local w e
                   | FDir | FMissing => getter_remote w e
                   | FFails => Crash
                   end
           end.

(* 141-146 (seconds) *)
Record push := mkpush { p_addr : gstr; p_interval : Z; p_unique : bool; p_label : gstr }.
(* 124-139; [c_getter]: None is nil *)
Record config := mkconf
  { c_enabled : bool; c_path : gstr; c_addr : gstr; c_push : option push; c_tls : bool; c_server : list filter; c_client : list filter;
    c_getter : option getter; c_runtime : gstr; c_bifrost : gstr; c_expose : option bool; c_dialer : option nat }.
Definition or_else (s d : gstr) : gstr := match s with [] => d | _ => s end.
Definition default_dialer : nat := 0.
(* 153-160 *)
Definition push_defaults (p : push) : push :=
  mkpush (p_addr p) (if (p_interval p =? 0)%Z then 5%Z else p_interval p) (p_unique p) (or_else (p_label p) (lit "nasp_instance_id")).
(* 162-188 SetDefaults *)
Definition set_defaults (w : world) (c : config) : config :=
  mkconf (c_enabled c) (or_else (c_path c) (lit "/stats/prometheus")) (or_else (c_addr c) (lit ":16090")) (option_map push_defaults (c_push c))
    (c_tls c) (c_server c) (c_client c) (match c_getter c with Some g => Some g | None => Some (getter_auto w) end)
    (or_else (c_runtime c) (lit "wazero")) (or_else (c_bifrost c) (w_getenv w "BIFROST_ADDRESS"))
    (match c_expose c with Some b => Some b | None => Some true end) (match c_dialer c with Some d => Some d | None => Some default_dialer end).
(* 66-73 *)
Definition default_config (w : world) : config := mkconf true (lit "/stats/prometheus") (lit ":16090") None true [] [] (Some (getter_auto w)) [] [] None None.

(* base64.RawURLEncoding.EncodeToString, over bits *)
Definition byte_bits (a : ascii) : list bool := match a with Ascii b0 b1 b2 b3 b4 b5 b6 b7 => [b7; b6; b5; b4; b3; b2; b1; b0] end.
Definition b64_alphabet : gstr := lit "ABCDEFGHIJKLMNOPQRSTUVWXYZabcdefghijklmnopqrstuvwxyz0123456789-_".
Definition bit (b : bool) : nat := if b then 1 else 0.
Definition b64_char (a b c d e f : bool) : ascii := nth (32 * bit a + 16 * bit b + 8 * bit c + 4 * bit d + 2 * bit e + bit f) b64_alphabet zero.
Fixpoint b64_bits (l : list bool) : gstr :=
  match l with
  | a :: b :: c :: d :: e :: f :: r => b64_char a b c d e f :: b64_bits r
  | [a; b; c; d] => [b64_char a b c d false false]
  | [a; b] => [b64_char a b false false false false]
  | _ => []
  end.
Definition b64 (s : gstr) : gstr := b64_bits (flat_map byte_bits s).

(* k8s/labels/labels.go:49-53 *)
Definition l_monitoring : string := "nasp.k8s.cisco.com/monitoring".
Definition l_port : string := "nasp.k8s.cisco.com/monitoring-port".
Definition l_path : string := "nasp.k8s.cisco.com/monitoring-path".
Definition l_uid : string := "nasp.k8s.cisco.com/uid".
(* 251-264 *)
Definition monitoring_labels (w : world) (c : config) (l : gmap gstr) : gmap gstr :=
  let l1 := mset l_uid (w_uuid w) (mset l_monitoring (lit "true") l) in
  let l2 := if gcontains (c_addr c) (lit ":") then
              let p := gsplit colon (c_addr c) in if 1 <? List.length p then mset l_port (last p []) l1 else l1
            else l1 in
  mset l_path (b64 (c_path c)) l2.
(* 251-269: the environment of the handler; deleting from a nil map is allowed *)
Definition handler_env (w : world) (c : config) (e : ienv) : ienv :=
  let e1 := match c_push c with None => set_labels (monitoring_labels w c (i_labels e)) e | Some _ => e end in
  match c_bifrost c with _ :: _ => set_extra (mdel "AUTO_REGISTER_GROUP" (i_extra e1)) e1 | [] => e1 end.
(* 297-298: regexp.MustCompile of a dot, a slash or a percent sign; ReplaceAllString with "_" *)
Definition job_rx : rx := Alt (one "."%char) (Alt (one "/"%char) (one "%"%char)).
Fixpoint replace_all (fuel : nat) (r : rx) (by_ : gstr) (pre post : gstr) : gstr :=
  match fuel with
  | O => post
  | S f => match rfind r pre post with
           | None => post
           | Some m => firstn (List.length (mt_pre m) - List.length pre) post ++ by_ ++ replace_all f r by_ (mt_to m) (mt_post m)
           end
  end.
Definition job_name (id : gstr) : gstr := replace_all (S (List.length id)) job_rx (lit "_") [] id.

(* 190-202: the handler; [h_job]: the Pushgateway job if there is a pusher *)
Record full := mkfull { h_conf : config; h_env : ienv; h_ca : option caconf; h_node : node; h_job : option gstr; h_client : bool (* a discovery client exists *) }.
Inductive handler := Passthrough | Full (f : full).
Definition with_client (f : full) : full := mkfull (h_conf f) (h_env f) (h_ca f) (h_node f) (h_job f) true.
(* 615-671, 786-839: the default filters *)
Definition metadata_exchange (rt : gstr) : filter := mkfilter "istio-metadata-exchange" "" rt "metadata-exchange-filter.wasm".
Definition tcp_exchange (rt : gstr) : filter := mkfilter "tcp-metadata-exchange" "tcp-metadata-exchange" rt "tcp-metadata-exchange-filter.wasm".
Definition stats (dir root : string) (rt : gstr) : filter := mkfilter dir root rt "stats-filter.wasm".
Definition client_filters (c : config) : list filter := [metadata_exchange (c_runtime c); stats "istio-stats-outbound" "stats_outbound" (c_runtime c)].
Definition server_filters (c : config) : list filter := [metadata_exchange (c_runtime c); stats "istio-stats-inbound" "stats_inbound" (c_runtime c)].
Definition tcp_client_filters (c : config) : list filter := [tcp_exchange (c_runtime c); stats "istio-stats-outbound" "stats_outbound" (c_runtime c)].
Definition tcp_server_filters (c : config) : list filter := [tcp_exchange (c_runtime c); stats "istio-stats-inbound" "stats_inbound" (c_runtime c)].

(* what a call hands out: its argument, or something built around it *)
Inductive product := Plain (x : nat) | Meshed (x : nat) (filters : list filter) (alpn : list string).
(* 315-353 GetDiscoveryClient, one call at a time: it dereferences the CA client unless a client exists *)
Definition discovery (f : full) : out full :=
  if h_client f then Ret f else match h_ca f with Some _ => Ret (with_client f) | None => Crash end.
(* 359-394 GetHTTPTransport: stream handler, CA client, discovery client, in this order *)
Definition http_transport (w : world) (h : handler) (x : nat) : out (product * handler) :=
  match h with
  | Passthrough => Ret (Plain x, h)
  | Full f =>
      if w_streams w (client_filters (h_conf f)) then
        match h_ca f with
        | None => Crash
        | Some _ => match discovery f with
                    | Ret f' => Ret (Meshed x (client_filters (h_conf f)) ["istio-http/1.1"; "istio"; "http/1.1"]%string, Full f')
                    | Err => Err | Crash => Crash
                    end
        end
      else Err
  end.
(* 442-487 ServeHTTP on a listener: the server blocks; what it serves is the product.  The discovery client is used by a goroutine. *)
Definition serve_http (w : world) (h : handler) (x : nat) : out (product * handler) :=
  match h with
  | Passthrough => Ret (Plain x, h)
  | Full f =>
      let fs := match c_server (h_conf f) with [] => server_filters (h_conf f) | l => l end in
      if w_streams w fs then
        match h_ca f with
        | None => Crash
        | Some _ => match discovery f with
                    | Ret f' => Ret (Meshed x fs ["h2"; "http/1.1"; "http/1.0"]%string, Full f')
                    | Err => Err | Crash => Crash
                    end
        end
      else Err
  end.
(* 713-751 GetTCPListener *)
Definition tcp_listener (w : world) (h : handler) (x : nat) : out (product * handler) :=
  match h with
  | Passthrough => Ret (Plain x, h)
  | Full f =>
      if w_streams w (tcp_server_filters (h_conf f)) then
        match h_ca f with
        | None => Crash
        | Some _ => match discovery f with
                    | Ret f' => Ret (Meshed x (tcp_server_filters (h_conf f)) ["istio-peer-exchange"; "istio"]%string, Full f')
                    | Err => Err | Crash => Crash
                    end
        end
      else Err
  end.
(* 753-784 GetTCPDialer: the CA client comes before the stream handler; passthrough handler 40-46 *)
Definition tcp_dialer (w : world) (h : handler) (d : option nat) : out (product * handler) :=
  match h with
  | Passthrough => Ret (Plain (match d with Some x => x | None => default_dialer end), h)
  | Full f =>
      match h_ca f with
      | None => Crash
      | Some _ =>
          let x := match d with Some x => x | None => match c_dialer (h_conf f) with Some y => y | None => default_dialer end end in
          if w_streams w (tcp_client_filters (h_conf f)) then
            match discovery f with
            | Ret f' => Ret (Meshed x (tcp_client_filters (h_conf f)) ["istio-peer-exchange"; "istio"]%string, Full f')
            | Err => Err | Crash => Crash
            end
          else Err
      end
  end.
(* 396-431 GetGRPCDialOptions: None is the empty list of options of the passthrough handler *)
Definition grpc_options (w : world) (h : handler) : out (option product * handler) :=
  match h with
  | Passthrough => Ret (None, h)
  | Full f =>
      if w_streams w (client_filters (h_conf f)) then
        match h_ca f with
        | None => Crash
        | Some _ => match discovery f with
                    | Ret f' => Ret (Some (Meshed 0 (client_filters (h_conf f)) ["istio-h2"; "h2"]%string), Full f')
                    | Err => Err | Crash => Crash
                    end
        end
      else Err
  end.

(* 216-313 NewIstioIntegrationHandler: its result and the configuration the caller's pointer refers to afterwards.
   [e]: the result of GetIstioEnvironment("NASP_") *)
Definition new_handler (w : world) (arg : option config) (e : option ienv) : out handler * option config :=
  let c := set_defaults w (match arg with Some c => c | None => default_config w end) in
  let after := match arg with Some _ => Some c | None => None end in
  (match e with
   | None => Err
   | Some e =>
       if negb (i_enabled e) && negb (c_enabled c) then Ret Passthrough
       else
         let got := if c_tls c then
                      match (match c_getter c with Some g => g | None => getter_auto w end) e with
                      | Ret (ca, e') => Ret (Some ca, e')
                      | Err => Err | Crash => Crash
                      end
                    else Ret (None, e) in
         match got with
         | Err => Err | Crash => Crash
         | Ret (ca, e1) =>
             let e2 := handler_env w c e1 in
             let f := mkfull c e2 ca (node_properties e2) None false in
             match c_push c with
             | None => Ret (Full f)
             | Some p =>
                 match p_addr p with
                 | [] => Err
                 | _ :: _ => match http_transport w (Full f) 0 with
                             | Ret (_, Full f') => Ret (Full (mkfull (h_conf f') (h_env f') (h_ca f') (h_node f') (Some (job_name (node_id (i_id e2)))) (h_client f')))
                             | Ret (_, Passthrough) => Ret Passthrough
                             | Err => Err | Crash => Crash
                             end
                 end
             end
         end
   end, after).

(* 315-353 again, as concurrent calls see it: the field is read, then read again or written, then read *)
Inductive pc := Start | Seen | Creating | Stored | Done (client : nat).
Record dstate := mkd { d_field : option nat; d_next : nat; d_pc : nat -> pc }.
Definition upd (f : nat -> pc) (i : nat) (p : pc) : nat -> pc := fun j => if j =? i then p else f j.
Inductive dstep : dstate -> dstate -> Prop :=
| d_check : forall s i, d_pc s i = Start ->
    dstep s (mkd (d_field s) (d_next s) (upd (d_pc s) i (match d_field s with Some _ => Seen | None => Creating end)))
| d_store : forall s i, d_pc s i = Creating -> dstep s (mkd (Some (d_next s)) (S (d_next s)) (upd (d_pc s) i Stored))
| d_return : forall s i c, d_pc s i = Seen \/ d_pc s i = Stored -> d_field s = Some c -> dstep s (mkd (d_field s) (d_next s) (upd (d_pc s) i (Done c))).
Inductive dsteps : dstate -> dstate -> Prop :=
| ds_refl : forall s, dsteps s s
| ds_step : forall s t u, dsteps s t -> dstep t u -> dsteps s u.
Definition d_init : dstate := mkd None 0 (fun _ => Start).
