(* Model: running Istio integration handlers in a process, /repo/pkg/istio/istio.go 517-560 (Run), 562-573 (GetVirtualTCPListener),
   575-613 (RunMetricsServer).

   Ports are numbers (MetricsAddress as resolved; None if it is empty); net.Listen fails exactly on a port that is held.  A metrics
   server is the result of lines 578-607: which of its two listeners it has, and whether ServeHTTP serves them; ServeHTTP fails if no
   stream handler can be made (448-451; its other errors come from the listeners, M_Net.v) and does not look at its context except for
   the TLS settings (M_Serve.v).  612 shuts down a http.Server that nobody serves, which does nothing to these listeners.  The tunnel
   client is that of C33-C37 (outcomes are arguments), discovery that of M_AdsConn.v, the pusher that of M_Pusher.v.  Logging is left out. *)
From Coq Require Import List String Bool Arith.
From Verif Require Import M_GoStr M_Identity.
Import ListNotations.
Open Scope list_scope.

(* /repo/components/bifrost/pkg/k8s/labels.go:19 *)
Definition service_label : gstr := lit "client.bifrost.k8s.cisco.com/service-name".
(* the settings that are read here; [c_expose]: ExposeMetricsThroughBifrost is set and true; [c_push]: there is a PushgatewayConfig *)
Record cfg := mkcfg { c_port : option nat; c_bifrost : bool; c_expose : bool; c_push : bool; c_workload : gstr }.
Record server := mksrv { s_tcp : bool; s_virtual : bool; s_serves : bool }.
(* a handler: how often discovery was connected (518; its goroutine is that of M_AdsConn.v), its context, the labels of its environment, the tunnel clients made so far (the last one is in
   use), with the labels they were given, RunMetricsServer goroutines before 578, pushers, metrics servers *)
Record hst := mkh { discovering : nat; done : bool; lbls : lmap; tunnels : list lmap; starting : nat; pushers : nat; servers : list server }.
Record st := mkst { ports : nat -> option nat (* which handler holds it *); hs : nat -> hst }.
Definition upd {X} (f : nat -> X) (i : nat) (x : X) : nat -> X := fun j => if Nat.eqb j i then x else f j.
Definition start (l : nat -> lmap) : st := mkst (fun _ => None) (fun i => mkh 0 false (l i) [] 0 0 []).

(* 528-530: GetLabels gives out the map of the environment itself *)
Definition with_service (c : cfg) (l : lmap) : lmap :=
  fun k => if geqb k service_label then Some (canonical_name l (c_workload c)) else l k.

Section Run.
Variable cfgs : nat -> cfg.
(* 517-560; [conn]: Connect returns no error; [dial]: GetTCPDialer succeeds.  The result: whether Run returns nil *)
Definition run_handler (h : hst) (c : cfg) (conn dial : bool) : hst * bool :=
  if negb conn then (h, false)
  else if c_bifrost c && negb dial then (mkh (S (discovering h)) (done h) (lbls h) (tunnels h) (starting h) (pushers h) (servers h), false)
  else
    let l := if c_bifrost c then with_service c (lbls h) else lbls h in
    let t := if c_bifrost c then tunnels h ++ [l] else tunnels h in
    (if c_push c then mkh (S (discovering h)) (done h) l t (starting h) (S (pushers h)) (servers h)
     else mkh (S (discovering h)) (done h) l t (S (starting h)) (pushers h) (servers h), true).
(* 562-573: [ok]: the tunnel client gives a listener *)
Definition virtual_listener (h : hst) (ok : bool) : bool := match tunnels h with [] => false | _ => ok end.
(* 578-607 *)
Definition metrics_server (s : st) (i : nat) (h : hst) (virt stream : bool) : server :=
  let c := cfgs i in
  mksrv (match c_port c with Some p => match ports s p with None => true | Some _ => false end | None => false end)
        (c_bifrost c && c_expose c && virtual_listener h virt) stream.
Inductive event :=
| Run (i : nat) (conn dial : bool)
| Metrics (i : nat) (virt stream : bool)   (* a RunMetricsServer goroutine gets to 609 *)
| Cancel (i : nat).                        (* the context that was given to Run; 609-612 *)
Definition step (s : st) (e : event) : st :=
  match e with
  | Run i conn dial => mkst (ports s) (upd (hs s) i (fst (run_handler (hs s i) (cfgs i) conn dial)))
  | Metrics i virt stream =>
      let h := hs s i in
      match starting h with
      | 0 => s
      | S n => let v := metrics_server s i h virt stream in
               mkst (match c_port (cfgs i) with Some p => if s_tcp v then upd (ports s) p (Some i) else ports s | None => ports s end)
                    (upd (hs s) i (mkh (discovering h) (done h) (lbls h) (tunnels h) n (pushers h) (servers h ++ [v])))
      end
  | Cancel i => let h := hs s i in mkst (ports s) (upd (hs s) i (mkh (discovering h) true (lbls h) (tunnels h) (starting h) (pushers h) (servers h)))
  end.
Definition run (s : st) (h : list event) : st := fold_left step h s.
(* what a request for the metrics on a port meets: nobody listens; the metrics of a handler; a connection that nobody answers *)
Inductive answer := Refused | MetricsOf (i : nat) | Hangs.
Definition ask (s : st) (p : nat) : answer :=
  match ports s p with
  | None => Refused
  | Some i => if existsb (fun v => s_tcp v && s_serves v) (servers (hs s i)) then MetricsOf i else Hangs
  end.
End Run.
