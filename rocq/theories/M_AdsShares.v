(* Model: the selection counters of weighted clusters over time.  Paths are relative to /repo/pkg/ads/.

   The choice itself is [select_cluster] of M_AdsLb.v, in IEEE-754 binary64.  It reads the counters as one snapshot (the code reads
   them one after the other under separate locks) and counts the selected cluster in a second step, so that any number of
   requests can have chosen and not yet been counted.  Messages keep the fields the modelled functions read; log lines are left out. *)
From Coq Require Import List String Bool NArith.
From Verif Require Import M_GoMap M_AdsLb M_AdsProps.
Import ListNotations.
Open Scope string_scope.

(* the oneof of a RouteAction or a TCP proxy: one cluster, weighted clusters, or something else (cluster_header, redirect, ...) *)
Inductive target := One (cluster : string) | Weighted (clusters : list (string * N)) | Elsewhere.

(* the counters of the known clusters; the selections that are not counted yet, oldest first *)
Record shares := mkshares { counts : gmap N; pending : list string }.

(* internal/cluster/stats.go:52-59 *)
Definition reset_count (n : string) (st : gmap N) : gmap N := match mget n st with Some _ => mset n 0%N st | None => st end.
(* internal/cluster/stats.go:43-50 and cluster.go:114 of that directory: uint32 ++ of a known cluster *)
Definition count_one (n : string) (st : gmap N) : gmap N := match mget n st with Some c => mset n (u32 (c + 1)) st | None => st end.

(* internal/route/route.go:111-129 GetTargetClusterName and api_tcp_client.go:243-257: the cluster of a request and, if it was
   selected by weight, the name that is going to be counted.  [order]: the weights in the order the map is visited *)
Definition choose (pow : (f64 -> f64 -> f64)) (t : target) (order : gmap N) (st : gmap N) : string * list string :=
  match t with
  | One c => (c, [])
  | Weighted _ => let sel := fst (select_cluster (go_float pow) order st) in (sel, [sel])
  | Elsewhere => ("", [])
  end.

(* route_config.go:59-93 onRouteConfigurationsUpdated: virtual hosts and routes of every configuration *)
Definition routes_updated (cfgs : list (list (list target))) (st : gmap N) : gmap N :=
  fold_left (fun s cfg => fold_left (fun s vh => fold_left (fun s t => match t with One c => reset_count c s | _ => s end) vh s) cfg s) cfgs st.
(* listener.go:81-104 (end of onListenersUpdated): the TCP proxies of the filter chains of every listener *)
Definition listeners_updated (ls : list (list (list target))) (st : gmap N) : gmap N :=
  fold_left (fun s l => fold_left (fun s fc => fold_left (fun s t => match t with One c => if String.eqb c "" then s else reset_count c s | _ => s end) fc s) l s) ls st.
(* cluster.go:80-120 (end of onClustersUpdated): counters of new clusters, then Keep (internal/util/util.go:62-78).  Endpoint statistics: C28, C29 *)
Definition clusters_updated (names : list string) (st : gmap N) : gmap N :=
  filter (fun e => mem (fst e) names) (fold_left (fun s n => match mget n s with Some _ => s | None => mset n 0%N s end) names st).

Inductive event :=
| Choose (route : nat) (t : target) (order : gmap N)   (* a request or connection by a route or TCP proxy *)
| Count (i : nat)                                      (* the i-th pending selection is counted *)
| Routes (cfgs : list (list (list target)))
| Listeners (ls : list (list (list target)))
| Clusters (names : list string).

Fixpoint drop_nth (i : nat) (l : list string) : list string :=
  match l, i with [], _ => [] | _ :: r, O => r | x :: r, S j => x :: drop_nth j r end.
(* one event, and the (route, cluster) it yields *)
Definition step (pow : (f64 -> f64 -> f64)) (e : event) (s : shares) : shares * list (nat * string) :=
  match e with
  | Choose r t o => let (n, p) := choose pow t o (counts s) in (mkshares (counts s) (pending s ++ p), [(r, n)])
  | Count i => (match nth_error (pending s) i with Some n => mkshares (count_one n (counts s)) (drop_nth i (pending s)) | None => s end, [])
  | Routes cfgs => (mkshares (routes_updated cfgs (counts s)) (pending s), [])
  | Listeners ls => (mkshares (listeners_updated ls (counts s)) (pending s), [])
  | Clusters names => (mkshares (clusters_updated names (counts s)) (pending s), [])
  end.
Definition run (pow : (f64 -> f64 -> f64)) (h : list event) (s : shares) : shares * list (nat * string) :=
  fold_left (fun acc e => let (s', l) := step pow e (fst acc) in (s', (snd acc ++ l)%list)) h (s, []).
