(* Model: the ADS client's resource caches and its handling of discovery responses.
   Paths are relative to /repo/pkg/ads/.

   Simplifications, common to the whole file: protobuf decoding is abstracted, an Any value is either a
   decoded message or undecodable; messages keep only the fields the modelled code reads; logging, node
   identification in requests and gRPC transport are dropped; request queueing (requestsChan, capacity 100)
   is an unbounded queue; the mutexes make each cache operation atomic; the load-balancing statistics that
   onClustersUpdated etc. also touch are modelled in M_AdsStats.v. *)
From Coq Require Import List String Bool.
From Verif Require Import M_GoMap.
Import ListNotations.
Open Scope string_scope.

(* the five resource types of client.go:65-71 and their type URLs (resource_v3.*Type of
   envoyproxy/go-control-plane and istio_xds_v3.NameTableType of istio.io/istio) *)
Inductive rtype := CDS | EDS | LDS | RDS | NDS.
Definition rtype_eqb (a b : rtype) : bool :=
  match a, b with CDS, CDS | EDS, EDS | LDS, LDS | RDS, RDS | NDS, NDS => true | _, _ => false end.
Definition type_url (t : rtype) : string :=
  match t with
  | CDS => "type.googleapis.com/envoy.config.cluster.v3.Cluster"
  | EDS => "type.googleapis.com/envoy.config.endpoint.v3.ClusterLoadAssignment"
  | LDS => "type.googleapis.com/envoy.config.listener.v3.Listener"
  | RDS => "type.googleapis.com/envoy.config.route.v3.RouteConfiguration"
  | NDS => "type.googleapis.com/istio.networking.nds.v1.NameTable"
  end.
(* client.go:508-519 validateResourceType, and the lookup c.resources[url] *)
Definition rtype_of_url (u : string) : option rtype :=
  if String.eqb u (type_url CDS) then Some CDS
  else if String.eqb u (type_url EDS) then Some EDS
  else if String.eqb u (type_url LDS) then Some LDS
  else if String.eqb u (type_url RDS) then Some RDS
  else if String.eqb u (type_url NDS) then Some NDS
  else None.

(* --- protobuf messages (only the fields read by the modelled code) --- *)
(* envoy Cluster: name, discovery type (EDS or anything else), eds_cluster_config.service_name if present *)
Record cluster := mkcluster { cl_name : string; cl_is_eds : bool; cl_eds_service : option string }.
(* a network filter of a listener: an HTTP connection manager, with the RDS route config name if its route
   specifier is RDS; a filter of that name with an undecodable config; or any other filter *)
Inductive lfilter := FHcm (rds : option string) | FHcmBad | FOther (name : string).
(* envoy Listener: name, outbound?, socket address as text and port, filter chains *)
Record listener := mklistener { l_name : string; l_outbound : bool; l_addr : string; l_port : nat; l_chains : list (list lfilter) }.
(* a route: RouteMatch (prefix, path, safe_regex, case_sensitive; "" / None when absent) and RouteAction (cluster,
   weighted_clusters as name and weight, "" / None when absent) *)
Record route := mkroute { rt_name : string; rt_prefix : string; rt_path : string; rt_regex : option string; rt_case : option bool;
  rt_cluster : string; rt_weighted : option (list (string * nat)) }.
Record vhost := mkvhost { vh_name : string; vh_domains : list string; vh_routes : list route }.
Inductive message :=
| MCluster (c : cluster)
| MCla (name : string) (addrs : list string)
| MListener (l : listener)
| MRoute (name : string) (vhosts : list vhost)
| MNameTable (table : list (string * option (list string)))   (* name -> NameInfo (nil or its IPs) *)
| MNameInfo (ips : list string).

(* anypb.Any: payload that decodes to a message of the type its type URL says, or not *)
Inductive any := AnyOf (m : message) | AnyBad.

(* common.go:455-470 newEmptyResource + Any.UnmarshalTo: fails on another message type or bad bytes *)
Definition unmarshal_to (t : rtype) (a : any) : option message :=
  match a with
  | AnyOf m =>
      match t, m with
      | CDS, MCluster _ | EDS, MCla _ _ | LDS, MListener _ | RDS, MRoute _ _ | NDS, MNameTable _ => Some m
      | _, _ => None
      end
  | AnyBad => None
  end.
(* common.go:303-314 name of a resource *)
Definition resource_name (m : message) : option string :=
  match m with
  | MCluster c => Some (cl_name c)
  | MCla n _ => Some n
  | MListener l => Some (l_name l)
  | MRoute n _ => Some n
  | _ => None
  end.

Inductive gerr := EInvalid | EDecode | EDuplicate (name : string) | ENoName.

(* common.go:35-53 resourceSubscription and resourceCache *)
Record cache := mkcache {
  c_sub : list string;          (* subscription.resourceNames (a set) *)
  c_ver : string;               (* subscription.sotwResponseVersion *)
  c_nonce : string;             (* subscription.sotwResponseNonce *)
  c_res : gmap message;         (* resources *)
  c_init : bool }.
Definition empty_cache := mkcache [] "" "" [] false.

Definition set_sub (s : cache) x := mkcache x (c_ver s) (c_nonce s) (c_res s) (c_init s).
Definition set_res (s : cache) x := mkcache (c_sub s) (c_ver s) (c_nonce s) x (c_init s).
Definition set_res_init (s : cache) x := mkcache (c_sub s) (c_ver s) (c_nonce s) x true.

(* common.go:439-453 *)
Definition is_subscribed_for_all (s : cache) : bool := mem "*" (c_sub s).
Definition is_subscribed_for (s : cache) (n : string) : bool := is_subscribed_for_all s || mem n (c_sub s).

(* common.go:55-67 *)
Definition subscribe (names : list string) (s : cache) : cache :=
  match names with [] => s | _ => set_sub s (set_of names) end.
(* common.go:76-81 *)
Definition reset_subscription (s : cache) : cache := set_sub s [].
(* common.go:83-88 *)
Definition reset_initialized (s : cache) : cache := mkcache (c_sub s) (c_ver s) (c_nonce s) (c_res s) false.
(* common.go:91-107 *)
Definition get_subscribed_names (s : cache) : list string := sort_strings (set_of (c_sub s)).
(* common.go:120-145 *)
Definition store_version (v : string) (s : cache) := mkcache (c_sub s) v (c_nonce s) (c_res s) (c_init s).
Definition store_nonce (n : string) (s : cache) := mkcache (c_sub s) (c_ver s) n (c_res s) (c_init s).
(* common.go:147-155 *)
Definition remove_resources (names : list string) (s : cache) : cache :=
  set_res s (fold_left (fun m n => mdel n m) names (c_res s)).
(* common.go:159-164 *)
Definition remove_all_resources (s : cache) : cache := set_res s [].

(* discovery_v3.Resource: name and optional payload; a nil *Resource is None *)
Record resource := mkresource { r_name : string; r_any : option any }.

(* common.go:176-196, the loop of AddResources *)
Fixpoint add_loop (s : cache) (t : rtype) (rs : list (option resource)) (typed : gmap message) : gmap message + gerr :=
  match rs with
  | [] => inl typed
  | None :: rest => add_loop s t rest typed
  | Some r :: rest =>
      match r_any r with
      | None => add_loop s t rest typed
      | Some a =>
          match unmarshal_to t a with
          | None => inr EDecode
          | Some m =>
              if negb (is_subscribed_for s (r_name r)) then add_loop s t rest typed
              else match mget (r_name r) typed with
                   | Some _ => inr (EDuplicate (r_name r))
                   | None => add_loop s t rest (mset (r_name r) m typed)
                   end
          end
      end
  end.
(* common.go:199-205 and 257-263: update resources *)
Definition merge_resources (typed : gmap message) (s : cache) : cache :=
  set_res_init s (match c_res s with [] => typed | res => mmerge typed res end).
(* common.go:168-213 *)
Definition add_resources (t : rtype) (rs : list (option resource)) (s : cache) : cache * option gerr :=
  match rs with
  | [] => (s, None)
  | _ => match add_loop s t rs [] with
         | inl typed => (merge_resources typed s, None)
         | inr e => (s, Some e)
         end
  end.

(* common.go:235-250 and 369-385, the entries of one name table; [del] collects the names the SotW variant
   deletes from the old resources (line 377) *)
Fixpoint table_loop (s : cache) (tbl : list (string * option (list string))) (typed : gmap message) (del : list string)
  : (gmap message + gerr) * list string :=
  match tbl with
  | [] => (inl typed, del)
  | (_, None) :: rest => table_loop s rest typed del
  | (n, Some ips) :: rest =>
      if negb (is_subscribed_for s n) then table_loop s rest typed (del ++ [n])
      else match mget n typed with
           | Some _ => (inr (EDuplicate n), del)
           | None => table_loop s rest (mset n (MNameInfo ips) typed) del
           end
  end.
(* common.go:224-254 *)
Fixpoint add_istio_loop (s : cache) (rs : list (option resource)) (typed : gmap message) : gmap message + gerr :=
  match rs with
  | [] => inl typed
  | None :: rest => add_istio_loop s rest typed
  | Some r :: rest =>
      match r_any r with
      | None => add_istio_loop s rest typed
      | Some a =>
          match unmarshal_to NDS a with
          | Some (MNameTable tbl) =>
              match fst (table_loop s tbl typed []) with
              | inl typed' => add_istio_loop s rest typed'
              | inr e => inr e
              end
          | _ => inr EDecode
          end
      end
  end.
(* common.go:215-270 *)
Definition add_istio_resources (rs : list (option resource)) (s : cache) : cache * option gerr :=
  match rs with
  | [] => (s, None)
  | _ => match add_istio_loop s rs [] with
         | inl typed => (merge_resources typed s, None)
         | inr e => (s, Some e)
         end
  end.

(* common.go:287-327, the loop of SetResources: also threads s.resources, from which unsubscribed names are
   deleted as they are met *)
Fixpoint set_loop (s : cache) (t : rtype) (rs : list (option any)) (res typed : gmap message) : gmap message * (gmap message + gerr) :=
  match rs with
  | [] => (res, inl typed)
  | None :: rest => set_loop s t rest res typed
  | Some a :: rest =>
      match unmarshal_to t a with
      | None => (res, inr EDecode)
      | Some m =>
          match resource_name m with
          | None => (res, inr ENoName)
          | Some n =>
              if negb (is_subscribed_for s n) then set_loop s t rest (mdel n res) typed
              else match mget n typed with
                   | Some _ => (res, inr (EDuplicate n))
                   | None => set_loop s t rest res (mset n m typed)
                   end
          end
      end
  end.
(* common.go:329-341 and 391-403: set resources *)
Definition assign_resources (typed : gmap message) (s : cache) : cache :=
  set_res_init s (match c_res s with
                  | [] => typed
                  | res => if is_subscribed_for_all s then typed else mmerge typed res
                  end).
(* common.go:275-343 *)
Definition set_resources (t : rtype) (rs : list (option any)) (replace : bool) (s : cache) : cache * option gerr :=
  match rs with
  | [] => (set_res s [], None)
  | _ =>
      let res0 := if replace then [] else c_res s in
      match set_loop s t rs res0 [] with
      | (res, inl typed) => (assign_resources typed (set_res s res), None)
      | (res, inr e) => (set_res s res, Some e)
      end
  end.

(* common.go:356-389 *)
Fixpoint set_istio_loop (s : cache) (rs : list (option any)) (res typed : gmap message) : gmap message * (gmap message + gerr) :=
  match rs with
  | [] => (res, inl typed)
  | None :: rest => set_istio_loop s rest res typed
  | Some a :: rest =>
      match unmarshal_to NDS a with
      | Some (MNameTable tbl) =>
          match table_loop s tbl typed [] with
          | (inl typed', del) => set_istio_loop s rest (fold_left (fun m n => mdel n m) del res) typed'
          | (inr e, del) => (fold_left (fun m n => mdel n m) del res, inr e)
          end
      | _ => (res, inr EDecode)
      end
  end.
(* common.go:347-407 *)
Definition set_istio_resources (rs : list (option any)) (s : cache) : cache * option gerr :=
  match rs with
  | [] => (set_res s [], None)
  | _ =>
      match set_istio_loop s rs (c_res s) [] with
      | (res, inl typed) => (assign_resources typed (set_res s res), None)
      | (res, inr e) => (set_res s res, Some e)
      end
  end.

(* common.go:410-437 GetResources/GetResource: a deep copy of the map / of one entry *)
Definition get_resource (n : string) (s : cache) : option message := mget n (c_res s).
Definition get_resources (s : cache) : gmap message := c_res s.

(* --- the client --- *)
(* the parts of config.ClientConfig used here: IncrementalXDSEnabled, Sot/DeltaWildcardSubscriptionSupported and
   which discovery services the management server provides (ManagementServerCapabilities) *)
Record config := mkconfig { g_incremental : bool; g_sotw_wild : bool; g_delta_wild : bool; g_provided : rtype -> bool }.

(* client.go:62-78 newClient: one empty cache per type *)
Definition client := rtype -> cache.
Definition new_client : client := fun _ => empty_cache.
Definition upd (c : client) (t : rtype) (f : cache -> cache) : client := fun t' => if rtype_eqb t t' then f (c t') else c t'.

(* DiscoveryRequest / DeltaDiscoveryRequest without the node field *)
Inductive request :=
| ReqSotW (url version : string) (names : list string) (nonce : string) (err : option gerr)
| ReqDelta (url : string) (subscribe unsubscribe : list string) (nonce : string) (err : option gerr).

(* DiscoveryResponse / DeltaDiscoveryResponse; [valid] is the outcome of resp.Validate() *)
Inductive response :=
| RespSotW (url version nonce : string) (resources : list (option any)) (valid : bool)
| RespDelta (url nonce : string) (resources : list (option resource)) (removed : list string) (valid : bool).

(* client.go:108-139 *)
Definition is_initialized (g : config) (c : client) : bool :=
  forallb (fun t => negb (g_provided g t) || c_init (c t)) [CDS; EDS; LDS; RDS; NDS].

(* client.go:236-240, 260-264, 585-589, 612-616: ["*"] is sent as an empty list when wildcards are unsupported *)
Definition wild (supported : bool) (names : list string) : list string :=
  match names with
  | [n] => if String.eqb n "*" then if supported then names else [] else names
  | _ => names
  end.
(* client.go:227-250 *)
Definition delta_subscription_request (g : config) (t : rtype) (sub unsub : list string) : request :=
  ReqDelta (type_url t) (wild (g_delta_wild g) sub) unsub "" None.
(* client.go:252-278 *)
Definition sotw_subscription_request (g : config) (t : rtype) (names : list string) (version nonce : string) : request :=
  ReqSotW (type_url t) version (wild (g_sotw_wild g) names) nonce None.

(* client.go:141-151 *)
Definition reset (c : client) : client :=
  fun t => match t with
           | EDS | RDS => reset_subscription (reset_initialized (c t))
           | _ => reset_initialized (c t)
           end.
(* client.go:153-224 connectToStream, after the stream is established *)
Definition connect (g : config) (c0 : client) : client * list request :=
  let c1 := reset c0 in
  let c := fun t => match t with CDS | LDS | NDS => subscribe ["*"] (c1 t) | _ => c1 t end in
  let req t := if g_incremental g then delta_subscription_request g t ["*"] []
               else sotw_subscription_request g t ["*"] (c_ver (c t)) (c_nonce (c t)) in
  (c, [req CDS; req LDS; req NDS]).

(* client.go:442-466 *)
Definition handle_sotw (c : client) (url : string) (resources : list (option any)) : client * option gerr :=
  match rtype_of_url url with
  | None => (c, None)
  | Some t =>
      let (s, e) := match t with
                    | CDS | LDS => set_resources t resources true (c t)
                    | EDS | RDS => set_resources t resources false (c t)
                    | NDS => set_istio_resources resources (c t)
                    end in
      (upd c t (fun _ => s), e)
  end.
(* client.go:468-485 *)
Definition handle_delta (c : client) (url : string) (resources : list (option resource)) (removed : list string) : client * option gerr :=
  match rtype_of_url url with
  | None => (c, None)
  | Some t =>
      let (s, e) := match t with
                    | NDS => add_istio_resources resources (remove_all_resources (c t))
                    | _ => match add_resources t resources (c t) with
                           | (s, None) => (remove_resources removed s, None)
                           | (s, Some e) => (s, Some e)
                           end
                    end in
      (upd c t (fun _ => s), e)
  end.
(* client.go:412-440 *)
Definition handle_response (c : client) (resp : response) : client * option gerr :=
  match resp with
  | RespSotW url _ _ resources valid => if valid then handle_sotw c url resources else (c, Some EInvalid)
  | RespDelta url _ resources removed valid => if valid then handle_delta c url resources removed else (c, Some EInvalid)
  end.

(* client.go:532-576 accessors: "" / nil for an unknown type *)
Definition last_version (c : client) (url : string) : string :=
  match rtype_of_url url with Some t => c_ver (c t) | None => "" end.
Definition last_nonce (c : client) (url : string) : string :=
  match rtype_of_url url with Some t => c_nonce (c t) | None => "" end.
Definition subscribed_names (c : client) (url : string) : list string :=
  match rtype_of_url url with Some t => get_subscribed_names (c t) | None => [] end.

(* client.go:578-603 ack with util.go:101-140 *)
Definition ack (g : config) (c : client) (resp : response) : client * request :=
  match resp with
  | RespSotW url version nonce _ _ =>
      let c' := match rtype_of_url url with
                | Some t => upd c t (fun s => store_nonce nonce (store_version version s))
                | None => c
                end in
      (c', ReqSotW url version (wild (g_sotw_wild g) (subscribed_names c' url)) nonce None)
  | RespDelta url nonce _ _ _ => (c, ReqDelta url [] [] nonce None)
  end.
(* client.go:607-629 nack with util.go:114-153; note that the type argument of getLastAckSotWResponseNonce is
   the nonce of the response *)
Definition nack (g : config) (c : client) (resp : response) (e : gerr) : request :=
  match resp with
  | RespSotW url _ nonce _ _ =>
      ReqSotW url (last_version c url) (wild (g_sotw_wild g) (subscribed_names c url)) (last_nonce c nonce) (Some e)
  | RespDelta url nonce _ _ _ => ReqDelta url [] [] nonce (Some e)
  end.

(* internal/endpoint/endpoint.go:53-72 *)
Definition cla_reference (c : cluster) : string :=
  if cl_is_eds c then
    match cl_eds_service c with
    | Some s => if String.eqb s "" then cl_name c else s
    | None => cl_name c
    end
  else "".
(* internal/listener/listener.go:153-175 *)
Fixpoint filters_route (fs : list lfilter) : option string :=
  match fs with
  | [] => None
  | FHcm (Some r) :: _ => Some r
  | _ :: rest => filters_route rest
  end.
Fixpoint chains_route (cs : list (list lfilter)) : option string :=
  match cs with
  | [] => None
  | fs :: rest => match filters_route fs with Some r => Some r | None => chains_route rest end
  end.
Definition route_config_name (l : listener) : string :=
  match chains_route (l_chains l) with Some r => r | None => "" end.

(* cluster.go:123-138 listClusters and listener.go:102-116 listListeners, without options *)
Definition list_clusters (c : client) : list cluster :=
  flat_map (fun e => match snd e with MCluster x => [x] | _ => [] end) (get_resources (c CDS)).
Definition list_listeners (c : client) : list listener :=
  flat_map (fun e => match snd e with MListener x => [x] | _ => [] end) (get_resources (c LDS)).

(* internal/endpoint/endpoint.go:32-51 and internal/listener/listener.go:132-150: sorted distinct non-empty names *)
Definition references (names : list string) : list string :=
  sort_strings (set_of (filter (fun n => negb (String.eqb n "")) names)).
Definition cla_references (cs : list cluster) : list string := references (map cla_reference cs).
Definition route_references (ls : list listener) : list string := references (map route_config_name ls).

(* internal/util/util.go:224-251 *)
Definition subtract (a b : list string) : list string := filter (fun x => negb (mem x b)) a.
(* internal/util/util.go:254-266 *)
Fixpoint slice_equal (a b : list string) : bool :=
  match a, b with
  | [], [] => true
  | x :: a', y :: b' => String.eqb x y && slice_equal a' b'
  | _, _ => false
  end.

(* cluster.go:40-75 and listener.go:39-74: re-subscribe the dependent type [t] to [names] *)
Definition resubscribe (g : config) (c : client) (t : rtype) (names : list string) : client * list request :=
  let subscribed := get_subscribed_names (c t) in
  if slice_equal names subscribed then (c, [])
  else
    let unsub := subtract subscribed names in
    let c1 := match unsub with
              | [] => c
              | _ => if g_incremental g then c else upd c t (remove_resources unsub)
              end in
    let c2 := upd c1 t (subscribe names) in
    (c2, [if g_incremental g then delta_subscription_request g t names unsub
          else sotw_subscription_request g t names (c_ver (c2 t)) (c_nonce (c2 t))]).
(* cluster.go:31-75 *)
Definition on_clusters_updated (g : config) (c : client) := resubscribe g c EDS (cla_references (list_clusters c)).
(* listener.go:30-74 *)
Definition on_listeners_updated (g : config) (c : client) := resubscribe g c RDS (route_references (list_listeners c)).

(* client.go:317-366, one iteration of handleStreamReceive after a response was received.  None: the receive
   loop ends (unsupported type).  The [err] tested on line 351 is the one of recv (the handler's error is
   shadowed), so the updates run after a rejection too.  onEndpointsUpdated/onRouteConfigurationsUpdated only
   touch statistics. *)
Definition url_of (resp : response) : string := match resp with RespSotW u _ _ _ _ => u | RespDelta u _ _ _ _ => u end.
Definition on_updated (g : config) (t : rtype) (c : client) : client * list request :=
  match t with
  | CDS => on_clusters_updated g c
  | LDS => on_listeners_updated g c
  | _ => (c, [])
  end.
Definition receive (g : config) (c : client) (resp : response) : option (client * list request) :=
  match rtype_of_url (url_of resp) with
  | None => None
  | Some t =>
      let (c1, e) := handle_response c resp in
      let (c2, r) := match e with
                     | Some e => (c1, nack g c1 resp e)
                     | None => ack g c1 resp
                     end in
      let (c3, rs) := on_updated g t c2 in
      Some (c3, r :: rs)
  end.

(* histories: streams are established and responses arrive; after an unsupported response only a reconnect
   changes anything *)
Inductive event := EConnect | EResp (r : response).
Definition step (g : config) (c : client) (e : event) : client * list request :=
  match e with
  | EConnect => connect g c
  | EResp r => match receive g c r with Some x => x | None => (c, []) end
  end.
Fixpoint run (g : config) (c : client) (es : list event) : client :=
  match es with
  | [] => c
  | e :: rest => run g (fst (step g c e)) rest
  end.
