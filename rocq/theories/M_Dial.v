(* Model: the TCP dialer, /repo/pkg/istio/tcp/dialer.go, and the HTTP transport, /repo/pkg/istio/http/transport.go, as small-step
   relations over concurrent calls.

   Pools: Get and Put are single steps here (C30, C31 treat their inside); errors of the stream handler, the dial wrappers (C29) and
   logging are left out.  A context is a number, cancelled or not; a TLS setting is the server name and the verification data of the
   client properties. *)
From Coq Require Import List String Ascii Bool Arith.
From Verif Require Import M_GoMap.
Import ListNotations.
Open Scope string_scope.

Definition tlsset := option (string * nat).  (* None: plaintext *)
(* ClientProperties: TLS settings; Address() fails if there is no endpoint (api_tcp_client.go:64-69) *)
Record prop := mkprop { pr_tls : tlsset; pr_addr : option string }.
(* outcome of GetTCPClientPropertiesByHost *)
Inductive disc := DErr | DNone | DProp (p : prop).
(* dialer.go:55-70 address and TLS configuration; the error of the discovery is dropped at :57 *)
Definition plan (d : disc) (address : string) : option (string * tlsset) :=
  match d with
  | DErr | DNone => Some (address, None)
  | DProp p => match pr_addr p with Some a => Some (a, pr_tls p) | None => None end
  end.

Record conn := mkconn { cn_addr : string; cn_tls : tlsset }.
(* a pool: what its factory captured (:81-98) and its idle connections *)
Record dpool := mkdpool { dp_addr : string; dp_tls : tlsset; dp_ctx : nat; dp_open : bool; dp_idle : list conn }.
Record call := mkcall { ca_addr : string; ca_tls : tlsset; ca_ctx : nat }.
Inductive derr := ENoEndpoint | EPoolNotFound | EPoolClosed | EDial.
Inductive dphase :=
| DHas                       (* before HasPool, :101 *)
| DAdd (pid : nat)           (* pool made, before AddPool, :111 *)
| DGetPool                   (* before GetPool, :114 *)
| DGet (pid : nat)           (* before cp.Get(), :121 *)
| DDone (pid : nat) (c : conn)
| DFail (e : derr).
Record dialer := mkdialer { d_pools : list dpool; d_reg : gmap nat; d_calls : list (call * dphase); d_cancelled : list nat }.
Definition new_dialer : dialer := mkdialer [] [] [] [].

Fixpoint setnth {X} (l : list X) (n : nat) (x : X) : list X :=
  match l, n with [], _ => [] | _ :: r, O => x :: r | y :: r, S n' => y :: setnth r n' x end.
Definition set_phase (d : dialer) (j : nat) (k : call) (ph : dphase) : dialer := mkdialer (d_pools d) (d_reg d) (setnth (d_calls d) j (k, ph)) (d_cancelled d).
Definition set_pool (d : dialer) (i : nat) (p : dpool) : dialer := mkdialer (setnth (d_pools d) i p) (d_reg d) (d_calls d) (d_cancelled d).
Definition with_idle (p : dpool) (l : list conn) : dpool := mkdpool (dp_addr p) (dp_tls p) (dp_ctx p) (dp_open p) l.
Definition memn (x : nat) (l : list nat) : bool := existsb (Nat.eqb x) l.

Inductive dlabel :=
| LDial (o : disc) (address : string) (ctx : nat)   (* a call of DialContext: the discovery's answer, the arguments *)
| LStep (j : nat)                                   (* call j goes on *)
| LRefused (j : nat)                                (* dialling fails in call j *)
| LPut (j : nat)                                    (* the user closes the connection of call j: it is kept, pool/conn.go:37-43 *)
| LDrop (pid : nat)                                 (* an idle connection is closed *)
| LIdle (pid : nat)                                 (* idle timeout: the pool closes itself, pool/channel.go:298-322 *)
| LCleanup (a : string)                             (* a closed pool leaves the registry, pool/syncmap_registry.go:164-175 *)
| LCancel (ctx : nat).

Inductive dstep : dialer -> dlabel -> dialer -> Prop :=
| D_dial : forall d o address ctx a s, plan o address = Some (a, s) ->
    dstep d (LDial o address ctx) (mkdialer (d_pools d) (d_reg d) (d_calls d ++ [(mkcall a s ctx, DHas)])%list (d_cancelled d))
| D_dial_fail : forall d o address ctx, plan o address = None ->
    dstep d (LDial o address ctx) (mkdialer (d_pools d) (d_reg d) (d_calls d ++ [(mkcall address None ctx, DFail ENoEndpoint)])%list (d_cancelled d))
(* :101-112 *)
| D_has : forall d j k pid, nth_error (d_calls d) j = Some (k, DHas) -> mget (ca_addr k) (d_reg d) = Some pid -> dstep d (LStep j) (set_phase d j k DGetPool)
| D_has_not : forall d j k, nth_error (d_calls d) j = Some (k, DHas) -> mget (ca_addr k) (d_reg d) = None ->
    dstep d (LStep j) (mkdialer (d_pools d ++ [mkdpool (ca_addr k) (ca_tls k) (ca_ctx k) true []])%list (d_reg d)
      (setnth (d_calls d) j (k, DAdd (List.length (d_pools d)))) (d_cancelled d))
(* AddPool: LoadOrStore, not for a closed pool *)
| D_add : forall d j k pid p, nth_error (d_calls d) j = Some (k, DAdd pid) -> nth_error (d_pools d) pid = Some p ->
    dstep d (LStep j) (mkdialer (d_pools d)
      (if dp_open p then match mget (ca_addr k) (d_reg d) with Some _ => d_reg d | None => mset (ca_addr k) pid (d_reg d) end else d_reg d)
      (setnth (d_calls d) j (k, DGetPool)) (d_cancelled d))
| D_getpool : forall d j k, nth_error (d_calls d) j = Some (k, DGetPool) ->
    dstep d (LStep j) (set_phase d j k (match mget (ca_addr k) (d_reg d) with Some pid => DGet pid | None => DFail EPoolNotFound end))
| D_get_closed : forall d j k pid p, nth_error (d_calls d) j = Some (k, DGet pid) -> nth_error (d_pools d) pid = Some p -> dp_open p = false ->
    dstep d (LStep j) (set_phase d j k (DFail EPoolClosed))
| D_get_idle : forall d j k pid p c r, nth_error (d_calls d) j = Some (k, DGet pid) -> nth_error (d_pools d) pid = Some p -> dp_open p = true -> dp_idle p = c :: r ->
    dstep d (LStep j) (set_phase (set_pool d pid (with_idle p r)) j k (DDone pid c))
(* the factory, :81-98, with the context of the call that made the pool *)
| D_get_new : forall d j k pid p, nth_error (d_calls d) j = Some (k, DGet pid) -> nth_error (d_pools d) pid = Some p -> dp_open p = true -> dp_idle p = [] ->
    memn (dp_ctx p) (d_cancelled d) = false -> dstep d (LStep j) (set_phase d j k (DDone pid (mkconn (dp_addr p) (dp_tls p))))
| D_get_refused : forall d j k pid p, nth_error (d_calls d) j = Some (k, DGet pid) -> nth_error (d_pools d) pid = Some p -> dp_open p = true -> dp_idle p = [] ->
    dstep d (LRefused j) (set_phase d j k (DFail EDial))
| D_put : forall d j k pid c p, nth_error (d_calls d) j = Some (k, DDone pid c) -> nth_error (d_pools d) pid = Some p -> dp_open p = true ->
    dstep d (LPut j) (set_pool d pid (with_idle p (dp_idle p ++ [c])%list))
| D_drop : forall d pid p c r, nth_error (d_pools d) pid = Some p -> dp_idle p = c :: r -> dstep d (LDrop pid) (set_pool d pid (with_idle p r))
| D_idle : forall d pid p, nth_error (d_pools d) pid = Some p ->
    dstep d (LIdle pid) (set_pool d pid (mkdpool (dp_addr p) (dp_tls p) (dp_ctx p) false []))
| D_cleanup : forall d a pid p, mget a (d_reg d) = Some pid -> nth_error (d_pools d) pid = Some p -> dp_open p = false ->
    dstep d (LCleanup a) (mkdialer (d_pools d) (mdel a (d_reg d)) (d_calls d) (d_cancelled d))
| D_cancel : forall d ctx, dstep d (LCancel ctx) (mkdialer (d_pools d) (d_reg d) (d_calls d) (ctx :: d_cancelled d)).
Inductive dsteps : dialer -> list dlabel -> dialer -> Prop :=
| DS_nil : forall d, dsteps d [] d
| DS_cons : forall d l d1 ls d2, dstep d l d1 -> dsteps d1 ls d2 -> dsteps d (l :: ls) d2.

(* ---- HTTP transport ---- *)
(* The transport holds one *tls.Config (transport.go:31, made with InsecureSkipVerify in istio.go:368-384) and, when it wraps a
   *http.Transport, one dialer for all requests (network/http.go:40-51); net/http keeps connections by scheme and host. *)
(* how a connection is secured: not at all; by Go's defaults for the host; with a server name and the verification data of client
   properties (None: no verification) *)
Inductive sec := Plain | GoTLS (host : string) | MeshTLS (name : string) (v : option nat).
Record hconn := mkhc { hc_https : bool; hc_host : string; hc_sec : sec }.
(* a request: the URL's scheme is https (from the caller or set at :62), its host, and what the discovery said *)
Record hreq := mkhreq { hr_https : bool; hr_host : string; hr_want : tlsset }.
Inductive rphase :=
| RName (t : string * nat)   (* :60 before the assignment of ServerName *)
| RVerif (t : string * nat)  (* before SetCertVerifierToTLSConfig, :66 *)
| RWrap                      (* before WrapHTTPTransport, :77 *)
| RSend                      (* before the inner RoundTrip, :77 *)
| RDone (c : hconn) | RFail.
Record htransport := mkht { h_name : string; h_verif : option nat (* the shared configuration *);
  h_dialer : bool (* the dialer installed last has the TLS configuration *); h_idle : list hconn; h_reqs : list (hreq * rphase) }.
Definition new_transport : htransport := mkht "" None false [] [].
(* strings.Contains(s, ":") *)
Fixpoint has_colon (s : string) : bool := match s with EmptyString => false | String c r => Ascii.eqb c ":"%char || has_colon r end.
(* :44-66 scheme and host of the request that is sent; the error of the discovery is dropped at :47 *)
Definition hplan (d : disc) (https : bool) (host : string) : option hreq :=
  match d with
  | DErr | DNone => Some (mkhreq https host None)
  | DProp p =>
      match pr_addr p with
      | None => None
      | Some a =>
          match pr_tls p with
          | None => Some (mkhreq https a None)
          | Some t => Some (mkhreq true (if has_colon a then a else a ++ ":80") (Some t))
          end
      end
  end.
Fixpoint take_idle (https : bool) (a : string) (l : list hconn) : option (hconn * list hconn) :=
  match l with
  | [] => None
  | c :: r => if Bool.eqb (hc_https c) https && String.eqb (hc_host c) a then Some (c, r)
              else match take_idle https a r with Some (c', r') => Some (c', c :: r') | None => None end
  end.
(* a new connection: DialTLSContext for https, else DialContext, which does TLS too when the dialer has a configuration
   (network/dialer.go:116-126); the configuration is read when dialling (network/dialer.go:168-173) *)
Definition hdial (h : htransport) (https : bool) (a : string) : hconn :=
  mkhc https a (if h_dialer h then MeshTLS (h_name h) (h_verif h) else if https then GoTLS a else Plain).
Inductive hlabel := HCall (o : disc) (https : bool) (host : string) | HStep (j : nat) | HKeep (j : nat) | HClose.
Definition set_req (h : htransport) (j : nat) (r : hreq) (ph : rphase) : htransport := mkht (h_name h) (h_verif h) (h_dialer h) (h_idle h) (setnth (h_reqs h) j (r, ph)).
Inductive hstep : htransport -> hlabel -> htransport -> Prop :=
| H_call : forall h o https host r, hplan o https host = Some r ->
    hstep h (HCall o https host) (mkht (h_name h) (h_verif h) (h_dialer h) (h_idle h) (h_reqs h ++ [(r, match hr_want r with Some t => RName t | None => RWrap end)])%list)
| H_call_fail : forall h o https host, hplan o https host = None ->
    hstep h (HCall o https host) (mkht (h_name h) (h_verif h) (h_dialer h) (h_idle h) (h_reqs h ++ [(mkhreq https host None, RFail)])%list)
| H_name : forall h j r t, nth_error (h_reqs h) j = Some (r, RName t) ->
    hstep h (HStep j) (mkht (fst t) (h_verif h) (h_dialer h) (h_idle h) (setnth (h_reqs h) j (r, RVerif t)))
| H_verif : forall h j r t, nth_error (h_reqs h) j = Some (r, RVerif t) ->
    hstep h (HStep j) (mkht (h_name h) (Some (snd t)) (h_dialer h) (h_idle h) (setnth (h_reqs h) j (r, RWrap)))
| H_wrap : forall h j r, nth_error (h_reqs h) j = Some (r, RWrap) ->
    hstep h (HStep j) (mkht (h_name h) (h_verif h) (match hr_want r with Some _ => true | None => false end) (h_idle h) (setnth (h_reqs h) j (r, RSend)))
| H_send : forall h j r, nth_error (h_reqs h) j = Some (r, RSend) ->
    hstep h (HStep j) (match take_idle (hr_https r) (hr_host r) (h_idle h) with
      | Some (c, rest) => mkht (h_name h) (h_verif h) (h_dialer h) rest (setnth (h_reqs h) j (r, RDone c))
      | None => set_req h j r (RDone (hdial h (hr_https r) (hr_host r)))
      end)
(* the connection of an answered request is kept *)
| H_keep : forall h j r c, nth_error (h_reqs h) j = Some (r, RDone c) ->
    hstep h (HKeep j) (mkht (h_name h) (h_verif h) (h_dialer h) (h_idle h ++ [c])%list (h_reqs h))
| H_close : forall h x rest, h_idle h = x :: rest -> hstep h HClose (mkht (h_name h) (h_verif h) (h_dialer h) rest (h_reqs h)).
(* [serial]: a request starts only when every earlier one has got its connection or failed *)
Definition ended (ph : rphase) : Prop := match ph with RDone _ | RFail => True | _ => False end.
Inductive hsteps (serial : bool) : htransport -> list hlabel -> htransport -> Prop :=
| HS_nil : forall h, hsteps serial h [] h
| HS_cons : forall h l h1 ls h2, (serial = true -> (exists o s a, l = HCall o s a) -> forall r ph, In (r, ph) (h_reqs h) -> ended ph) ->
    hstep h l h1 -> hsteps serial h1 ls h2 -> hsteps serial h (l :: ls) h2.
