(* Model: how inbound servers get their TLS settings: GetListenerProperties of the xDS discovery client, /repo/pkg/istio/discovery/xds.go,
   the callback that applies them, /repo/pkg/istio/istio.go:442-516, :746-748, and the settings a listener starts with.

   The xDS client behind it (which responses come for an address: C27, C65) is the environment: it hands any responses to a watch, in
   order.  One callback run (three assignments) is one step; so is GetListenerProperties' registration, which holds the mutex. *)
From Coq Require Import List String Bool Arith.
From Verif Require Import M_GoMap M_AdsProps M_Dial.
Import ListNotations.
Open Scope string_scope.

Inductive lresp := LRErr | LRProps (p : lprops).
(* what a UnifiedListener enforces: TLS mode, client certificate required, verifier (None: no check of client certificates; else the
   verification data of the properties) *)
Record enforced := mkenf { en_mode : string; en_require : bool; en_verifier : option (option nat) }.
(* network/http.go:89, istio.go:459-460 and :722-740: permissive, RequestClientCert, no verifier *)
Definition initial : enforced := mkenf "PERMISSIVE" false None.
(* istio.go:497-512 *)
Definition apply_props (p : lprops) : enforced :=
  mkenf (if lp_tls p && lp_permissive p then "PERMISSIVE" else if lp_tls p then "STRICT" else "DISABLED") (lp_require p) (Some (lp_verifier p)).

(* a server: its address, its context, the listener once it exists, and whether its goroutine has called GetListenerProperties *)
Record server := mksv { sv_addr : string; sv_ctx : nat; sv_ul : option enforced; sv_watched : bool }.
(* listenerPropertiesContexts, xds.go:41, and the goroutines of :170-187: the server whose callback they call, None if the xDS client
   failed (:165-168) or the goroutine has ended *)
Record entry := mken { en_resp : option lresp; en_watcher : option nat }.
Record world := mkw { w_servers : list server; w_entries : gmap entry; w_cancelled : list nat }.
Definition new_world : world := mkw [] [] [].
Inductive slabel :=
| SStart (a : string) (ctx : nat)      (* ServeHTTP or WrapListener is called *)
| SListen (j : nat)                    (* the unified listener of server j is made, http.go:89 *)
| SWatch (j : nat) (ok : bool)         (* server j's goroutine calls GetListenerProperties; ok: the xDS client accepts the watch *)
| SDeliver (a : string) (r : lresp)    (* a response reaches the goroutine of address a *)
| SCancel (ctx : nat)
| SStop (a : string).                  (* the goroutine sees its context cancelled *)
Definition upd_server (w : world) (j : nat) (s : server) : world := mkw (setnth (w_servers w) j s) (w_entries w) (w_cancelled w).
Definition set_ul (s : server) (e : enforced) : server := mksv (sv_addr s) (sv_ctx s) (Some e) (sv_watched s).
Definition watched (s : server) : server := mksv (sv_addr s) (sv_ctx s) (sv_ul s) true.
(* the callback, istio.go:490-513, does nothing before the listener exists (:493-496) *)
Definition callback (p : lprops) (s : server) : server := match sv_ul s with Some _ => set_ul s (apply_props p) | None => s end.
Inductive sstep : world -> slabel -> world -> Prop :=
| S_start : forall w a ctx, sstep w (SStart a ctx) (mkw (w_servers w ++ [mksv a ctx None false])%list (w_entries w) (w_cancelled w))
| S_listen : forall w j s, nth_error (w_servers w) j = Some s -> sv_ul s = None -> sstep w (SListen j) (upd_server w j (set_ul s initial))
(* xds.go:154-190 *)
| S_watch_again : forall w j s e ok, nth_error (w_servers w) j = Some s -> sv_watched s = false -> mget (sv_addr s) (w_entries w) = Some e ->
    sstep w (SWatch j ok) (upd_server w j (watched s))
| S_watch : forall w j s ok, nth_error (w_servers w) j = Some s -> sv_watched s = false -> mget (sv_addr s) (w_entries w) = None ->
    sstep w (SWatch j ok) (mkw (setnth (w_servers w) j (watched s)) (mset (sv_addr s) (mken None (if ok then Some j else None)) (w_entries w)) (w_cancelled w))
(* :176-185, updateListenerPropertiesResponse :193-202 *)
| S_deliver : forall w a r e j s, mget a (w_entries w) = Some e -> en_watcher e = Some j -> nth_error (w_servers w) j = Some s ->
    sstep w (SDeliver a r) (mkw (match r with LRProps p => setnth (w_servers w) j (callback p s) | LRErr => w_servers w end)
      (mset a (mken (Some r) (Some j)) (w_entries w)) (w_cancelled w))
| S_cancel : forall w ctx, sstep w (SCancel ctx) (mkw (w_servers w) (w_entries w) (ctx :: w_cancelled w))
| S_stop : forall w a e j s, mget a (w_entries w) = Some e -> en_watcher e = Some j -> nth_error (w_servers w) j = Some s -> memn (sv_ctx s) (w_cancelled w) = true ->
    sstep w (SStop a) (mkw (w_servers w) (mset a (mken (en_resp e) None) (w_entries w)) (w_cancelled w)).
Inductive ssteps : world -> list slabel -> world -> Prop :=
| SS_nil : forall w, ssteps w [] w
| SS_cons : forall w l w1 ls w2, sstep w l w1 -> ssteps w1 ls w2 -> ssteps w (l :: ls) w2.
(* what GetListenerProperties reports for an address now (xds.go:136-151): None while it retries and in the end fails *)
Definition reported (w : world) (a : string) : option lresp := match mget a (w_entries w) with Some e => en_resp e | None => None end.
