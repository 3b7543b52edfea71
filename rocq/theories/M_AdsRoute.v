(* Model: host name resolution and the choice of the upstream cluster for an HTTP destination.
   Paths are relative to /repo/pkg/ads/.

   [netlib] collects the library functions that are not modelled: net.ParseIP (here: to the canonical text that
   IP.String gives back, None for nil), regexp.MatchString (false on a bad expression) and strings.ToLower.  The
   theorems hold for every choice of them. *)
From Coq Require Import List String Bool Ascii Decimal DecimalString Nat.
From Verif Require Import M_GoMap M_Ads.
Import ListNotations.
Open Scope string_scope.

Record netlib := mknetlib { parse_ip : string -> option string; regex_match : string -> string -> bool; to_lower : string -> string }.

(* strconv.Itoa on a non-negative number *)
Definition itoa (n : nat) : string := NilEmpty.string_of_uint (Nat.to_uint n).
Fixpoint has_colon (s : string) : bool :=
  match s with EmptyString => false | String c rest => Ascii.eqb c ":" || has_colon rest end.
(* net.JoinHostPort: IPv6 hosts are bracketed *)
Definition join_host_port (h : string) (port : nat) : string :=
  if has_colon h then "[" ++ h ++ "]:" ++ itoa port else h ++ ":" ++ itoa port.

Fixpoint filter_map {A B} (f : A -> option B) (l : list A) : list B :=
  match l with [] => [] | a :: r => match f a with Some b => b :: filter_map f r | None => filter_map f r end end.

Inductive herr :=
| HostNotFound | NotNameInfo
| NoListener | ManyListeners | NoRouteName | NoRouteConfig
| NoVhost | ManyVhosts | NoRoute | ManyRoutes | NoClusterName | NoCluster.

(* nametable.go:52-56: first name that is in the table *)
Fixpoint first_known (names : list string) (tbl : gmap message) : option message :=
  match names with
  | [] => None
  | h :: rest => match mget h tbl with Some m => Some m | None => first_known rest tbl end
  end.
(* nametable.go:29-72 *)
Definition resolve_host (lib : netlib) (domains : list string) (c : client) (host : string) : list string + herr :=
  match parse_ip lib host with
  | Some ip => inl [ip]
  | None =>
      match first_known (host :: map (fun d => host ++ "." ++ d) domains) (get_resources (c NDS)) with
      | None => inr HostNotFound
      | Some (MNameInfo ips) => inl (filter_map (parse_ip lib) ips)
      | Some _ => inr NotNameInfo
      end
  end.

(* internal/listener/listener.go:47-69 listeningOnFilter; TCPAddr.String of a nil IP prints an empty host *)
Definition listening_on (lib : netlib) (ip : string) (port : nat) (l : listener) : bool :=
  String.eqb (join_host_port (match parse_ip lib (l_addr l) with Some i => i | None => "" end) (l_port l)) (join_host_port ip port).
(* internal/listener/listener.go:71-89 hasNetworkFilter with the name of the HTTP connection manager *)
Definition is_http (l : listener) : bool :=
  existsb (existsb (fun f => match f with FHcm _ | FHcmBad => true | FOther _ => false end)) (l_chains l).
(* api_http_client.go:264-296; internal/listener/listener.go:91-131 Or and Filter *)
Definition http_listener (lib : netlib) (c : client) (ips : list string) (port : nat) : listener + herr :=
  let sel p := filter (fun l => l_outbound l && is_http l && p l) (list_listeners c) in
  let ls := match sel (fun l => existsb (fun ip => listening_on lib ip port l) ips) with
            | [] => sel (listening_on lib "0.0.0.0" port)
            | ls => ls
            end in
  match ls with
  | [] => inr NoListener
  | [l] => inl l
  | _ => inr ManyListeners
  end.

Fixpoint has_prefix (p s : string) : bool :=
  match p, s with
  | EmptyString, _ => true
  | String a p', String b s' => Ascii.eqb a b && has_prefix p' s'
  | _, EmptyString => false
  end.
(* internal/route/route.go:33-35; routes without an action have an empty cluster and no weighted clusters *)
Definition routes_upstream (r : route) : bool := negb (String.eqb (rt_cluster r) "") || match rt_weighted r with Some _ => true | None => false end.
(* internal/route/route.go:45-76 for a given request path; strings.EqualFold as equality of the lower-cased strings *)
Definition matches_path (lib : netlib) (path : string) (r : route) : bool :=
  if negb (String.eqb (rt_prefix r) "") || negb (String.eqb (rt_path r) "") then
    let ignore := match rt_case r with Some sensitive => negb sensitive | None => false end in
    let fold s := if ignore then to_lower lib s else s in
    if negb (String.eqb (rt_prefix r) "") then has_prefix (fold (rt_prefix r)) (fold path)
    else String.eqb (fold path) (fold (rt_path r))
  else match rt_regex r with Some e => regex_match lib e path | None => false end.
(* api_http_client.go:209-212 routeFilters; internal/route/route.go:83-112 Filter *)
Definition usable (lib : netlib) (r : route) : bool := routes_upstream r && matches_path lib "/" r.
Definition usable_routes (lib : netlib) (vh : vhost) : list route := filter (usable lib) (vh_routes vh).
(* internal/virtualhost/virtualhost.go:27-85 *)
Definition vhosts_for (lib : netlib) (d : string) (vhs : list vhost) : list vhost :=
  filter (fun vh => mem d (vh_domains vh) && match usable_routes lib vh with [] => false | _ => true end) vhs.

(* api_http_client.go:194-207 *)
Definition domain_matches (lib : netlib) (ips : list string) (host : string) (port : nat) : list string :=
  (map (fun ip => join_host_port ip port) ips ++ ips ++
   match parse_ip lib host with
   | None => [join_host_port host port; host]
   | Some _ => []
   end)%list.
(* api_http_client.go:213-222 *)
Fixpoint first_vhosts (lib : netlib) (ds : list string) (vhs : list vhost) : list vhost :=
  match ds with
  | [] => []
  | d :: rest => match vhosts_for lib d vhs with [] => first_vhosts lib rest vhs | l => l end
  end.
(* internal/route/route.go:115-136; [select] is the weighted choice of internal/cluster/cluster.go:65-117 *)
Definition target_cluster_name (select : list (string * nat) -> string) (r : route) : string :=
  if String.eqb (rt_cluster r) "" then match rt_weighted r with Some ws => select ws | None => "" end else rt_cluster r.

(* api_http_client.go:171-262 *)
Definition http_target (lib : netlib) (select : list (string * nat) -> string) (domains : list string) (c : client) (host : string) (port : nat)
  : (cluster * route) + herr :=
  match resolve_host lib domains c host with
  | inr e => inr e
  | inl ips =>
    match http_listener lib c ips port with
    | inr e => inr e
    | inl l =>
      if String.eqb (route_config_name l) "" then inr NoRouteName else
      match get_resource (route_config_name l) (c RDS) with
      | Some (MRoute _ vhs) =>
        match first_vhosts lib (domain_matches lib ips host port) vhs with
        | [] => inr NoVhost
        | [vh] =>
          match usable_routes lib vh with
          | [] => inr NoRoute
          | [r] =>
            let n := target_cluster_name select r in
            if String.eqb n "" then inr NoClusterName else
            match get_resource n (c CDS) with
            | Some (MCluster cl) => inl (cl, r)
            | _ => inr NoCluster
            end
          | _ => inr ManyRoutes
          end
        | _ => inr ManyVhosts
        end
      | _ => inr NoRouteConfig
      end
    end
  end.
