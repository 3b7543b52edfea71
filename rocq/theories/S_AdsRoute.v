(* Specification vocabulary for host resolution (C25) and HTTP destinations (C26). *)
From Coq Require Import List String Bool.
From Verif Require Import M_GoMap M_Ads M_AdsRoute.
Import ListNotations.
Open Scope string_scope.

(* the name as given, then completed with each search domain, in that order *)
Definition candidates (domains : list string) (host : string) : list string := host :: map (fun d => host ++ "." ++ d) domains.
Definition knows (c : client) (n : string) : Prop := exists m, get_resource n (c NDS) = Some m.

(* the element of a list at which a property first holds *)
Definition first_with {A} (P : A -> Prop) (l : list A) (a : A) : Prop :=
  exists l1 l2, l = (l1 ++ a :: l2)%list /\ P a /\ forall x, In x l1 -> ~ P x.
(* exactly one position of the list satisfies the property *)
Definition only_one {A} (P : A -> Prop) (l : list A) (a : A) : Prop :=
  exists l1 l2, l = (l1 ++ a :: l2)%list /\ P a /\ (forall x, In x l1 -> ~ P x) /\ (forall x, In x l2 -> ~ P x).
(* at least two positions satisfy it *)
Definition ambiguous {A} (P : A -> Prop) (l : list A) : Prop :=
  exists l1 l2 l3 a b, l = (l1 ++ a :: l2 ++ b :: l3)%list /\ P a /\ P b.

(* a route that sends requests for "/" to an upstream cluster *)
Definition routes_root (lib : netlib) (r : route) : Prop :=
  (rt_cluster r <> "" \/ rt_weighted r <> None) /\ matches_path lib "/" r = true.
(* a virtual host that lists the destination and can route it *)
Definition serves (lib : netlib) (d : string) (vh : vhost) : Prop :=
  In d (vh_domains vh) /\ exists r, In r (vh_routes vh) /\ routes_root lib r.
(* precedence of the destinations: ip:port of every address, ip of every address, host:port, host *)
Definition destinations (lib : netlib) (ips : list string) (host : string) (port : nat) : list string :=
  (map (fun ip => join_host_port ip port) ips ++ ips ++
   (if parse_ip lib host then [] else [join_host_port host port; host]))%list.

(* outbound HTTP listeners on one of the addresses, else on the wildcard address *)
Definition on_addr (lib : netlib) (ip : string) (port : nat) (l : listener) : Prop :=
  join_host_port (match parse_ip lib (l_addr l) with Some i => i | None => "" end) (l_port l) = join_host_port ip port.
Definition http_outbound (l : listener) : Prop :=
  l_outbound l = true /\ exists ch f, In ch (l_chains l) /\ In f ch /\ (f = FHcmBad \/ exists r, f = FHcm r).
Definition candidate_listener (lib : netlib) (c : client) (ips : list string) (port : nat) (l : listener) : Prop :=
  http_outbound l /\
  ((exists ip, In ip ips /\ on_addr lib ip port l) \/
   ((forall l' k, get_resource k (c LDS) = Some (MListener l') -> http_outbound l' -> forall ip, In ip ips -> ~ on_addr lib ip port l') /\ on_addr lib "0.0.0.0" port l)).
Definition listens (c : client) (k : string) (l : listener) : Prop := get_resource k (c LDS) = Some (MListener l).
