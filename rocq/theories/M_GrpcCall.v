(* Model: gRPC calls of a client through the WASM filters.
   Files: /repo/pkg/proxywasm/grpc/dialer.go, grpc/wrappers.go, and for gRPC messages stream.go:126-143,186-199, host.go:128-202,
   middleware/envoy_middleware.go:105-175,236-280 (BeforeRequest and AfterResponse of an outbound stream).

   A filter is guest code, any function of what it sees.  Every action a user, a filter, discovery or the server can observe is written
   to a log.  Simplified: the metadata maps of a response are not nil; the messages themselves are not changed by anything here and not
   modelled; of the attributes only those of the URL, the status and the metadata are in the log (the others: M_EnvoyProps.v); of the
   two middlewares of istio.go:422-424 the second does nothing before a request. *)
From Coq Require Import String Ascii List Bool ZArith Arith.
From Verif Require Import M_GoMap.
Import ListNotations.
Open Scope list_scope.

(* google.golang.org/grpc/metadata.MD; [lower] is strings.ToLower *)
Definition metadata := gmap (list string).
Section Call.
Variable lower : string -> string.
Definition md_get (k : string) (m : metadata) : list string := match mget (lower k) m with Some l => l | None => [] end.
Definition md_set (k v : string) (m : metadata) : metadata := mset (lower k) [v] m.
Definition md_append (k v : string) (m : metadata) : metadata := mset (lower k) (md_get k m ++ [v]) m.
Definition md_delete (k : string) (m : metadata) : metadata := mdel (lower k) m.
(* metadata.Join of two *)
Definition md_join (a b : metadata) : metadata :=
  fold_left (fun acc e => mset (fst e) ((match mget (fst e) acc with Some l => l | None => [] end) ++ snd e) acc) b a.

(* wrappers.go:143-180 with header.go:48-76: how a filter reads and changes metadata *)
Inductive hop := HSet (k v : string) | HAdd (k v : string) | HDel (k : string).
Definition do_hop (m : metadata) (h : hop) : metadata := match h with HSet k v => md_set k v m | HAdd k v => md_append k v m | HDel k => md_delete k m end.
Definition header_get (k : string) (m : metadata) : option string := match md_get k m with v :: _ => Some v | [] => None end.

(* wrappers.go:67-105; codes 0..16 in the order of google.golang.org/grpc/codes *)
Definition http_status (code : nat) : Z :=
  Z.of_nat match code with
  | 0 => 200 | 1 => 499 | 2 => 500 | 3 => 400 | 4 => 504 | 5 => 404 | 6 => 409 | 7 => 403 | 8 => 429 | 9 => 400
  | 10 => 409 | 11 => 400 | 12 => 501 | 13 => 500 | 14 => 503 | 15 => 500 | 16 => 401 | _ => 500
  end.

(* url.URL, what filters see of it *)
Record url := mkurl { u_scheme : string; u_host : string; u_path : string; u_query : string }.
Definition no_url : url := mkurl "" "" "" "".
Variable parse : string -> option url.       (* url.Parse *)
(* wrappers.go:107-119: the parsed URL is taken when parsing failed, and is nil then *)
Definition wrap_url (raw : string) : option url := match parse raw with Some _ => Some no_url | None => None end.
Fixpoint trim_slash (s : string) : string := match s with String "/"%char r => trim_slash r | _ => s end.
(* dialer.go:118 *)
Definition raw_url (target method : string) : string := ("https://" ++ target ++ "/" ++ trim_slash method)%string.

Inductive verdict := Continue | Pause | Fail.
(* SendHttpResp (host.go:183-202) finds no response before the call, and none it can change after it: GRPCResponse has no GetHTTPResponse *)
Inductive call := CReq (h : hop) | CResp (h : hop) | CSend (status : Z).
Inductive act :=
| Inc (t : string) | Dec (t : string)               (* discovery's counts of active requests *)
| Open | Close                                      (* the stream *)
| SeeRequest (u : url) (m : metadata)               (* what BeforeRequest makes attributes of *)
| OnRequest (f : nat) (n : nat) (cs : list call) (v : verdict)
| Invoke (method : string) (m : metadata)           (* the call itself *)
| OnResponse (f : nat) (n : nat) (cs : list call) (v : verdict)
| SeeResponse (status : Z) (grpc : nat) (h t : metadata).
Inductive outcome := OOk | ORefused (* error, by the stream or a filter *) | ORpc (code : nat) (* the error of the call *) | OPanic.
Definition guest (X : Type) := nat -> X -> metadata -> option metadata -> X * list call * verdict.
Section Guest.
Context {X : Type}.
Variable G : guest X.
Record world := mkw { w_x : X; w_req : metadata; w_resp : option metadata }.
Definition do_call (w : world) (c : call) : world :=
  match c with
  | CReq h => mkw (w_x w) (do_hop (w_req w) h) (w_resp w)
  | CResp h => mkw (w_x w) (w_req w) (match w_resp w with Some m => Some (do_hop m h) | None => None end)
  | CSend _ => w
  end.
Definition callback (f : nat) (w : world) : world * list call * verdict :=
  let '(x, cs, v) := G f (w_x w) (w_req w) (w_resp w) in
  let w' := fold_left do_call cs w in (mkw x (w_req w') (w_resp w'), cs, v).
(* stream.go:126-148; Body() of a GRPCRequest is nil *)
Fixpoint on_request (fs : list nat) (w : world) : bool * world * list act :=
  match fs with
  | [] => (true, w, [])
  | f :: r => match callback f w with
              | (w', cs, v) =>
                  let e := OnRequest f (length (w_req w)) cs v in
                  match v with
                  | Fail => (false, w', [e])
                  | Pause => (true, w', [e])
                  | Continue => let '(ok, w2, l) := on_request r w' in (ok, w2, e :: l)
                  end
              end
  end.
(* stream.go:186-205 *)
Fixpoint on_response (fs : list nat) (w : world) : bool * world * list act :=
  match fs with
  | [] => (true, w, [])
  | f :: r => match callback f w with
              | (w', cs, v) =>
                  let e := OnResponse f (match w_resp w with Some m => length m | None => 0 end) cs v in
                  match v with
                  | Fail => (false, w', [e])
                  | _ => let '(ok, w2, l) := on_response r w' in (ok, w2, e :: l)
                  end
              end
  end.
(* the answer of the server: header and trailer, or the code of the error *)
Inductive answer := Answer (h t : metadata) | Failed (code : nat).
(* dialer.go:92-153 RequestInterceptor.  [disc]: there is a discovery client; [stream]: NewStream succeeds; [mw]: the middlewares of
   istio.go are registered; [md]: the caller's outgoing metadata, whose keys are in lower case *)
Definition intercept (disc stream mw : bool) (fs : list nat) (x : X) (target method : string) (md : metadata) (rpc : string -> metadata -> answer) : outcome * list act :=
  let counted (r : outcome * list act) := if disc then (fst r, Inc target :: snd r ++ [Dec target]) else r in
  let streamed (r : outcome * list act) := (fst r, Open :: snd r ++ [Close]) in
  counted
   (if negb stream then (ORefused, [])
    else streamed
      (let m0 := md_join [("content-type", ["application/grpc"])]%string md in
       match wrap_url (raw_url target method), mw with
       | None, true => (OPanic, [])
       | u, _ =>
         let see := match u, mw with Some u, true => [SeeRequest u m0] | _, _ => [] end in
         match on_request fs (mkw x m0 None) with
         | (false, _, l) => (ORefused, see ++ l)
         | (true, w, l) =>
             match rpc method (w_req w) with
             | Failed c => (ORpc c, see ++ l ++ [Invoke method (w_req w)])
             | Answer h t =>
                 match on_response fs (mkw (w_x w) (w_req w) (Some h)) with
                 | (false, _, l2) => (ORefused, see ++ l ++ Invoke method (w_req w) :: l2)
                 | (true, w2, l2) => (OOk, see ++ l ++ Invoke method (w_req w) :: l2 ++
                     (if mw then [SeeResponse (http_status 0) 0 (match w_resp w2 with Some h => h | None => [] end) t] else []))
                 end
             end
         end
       end)).
End Guest.
End Call.

(* dialer.go:60-90 Dial: what discovery says of the address.  The result: address and server name of the connection, or an error *)
Inductive found := NotFound | NoEndpoint | Found (addr server : string).
Definition dial (d : found) (addr server : string) : option (string * string) :=
  match d with NotFound => Some (addr, server) | NoEndpoint => None | Found a s => Some (a, s) end.

(* ---- several calls and dials at a time: the counts and the connection state, which the dialer keeps for all of them ---- *)
Inductive phase :=
| PIdle | PCounted (* before the call *) | PCalled (c : nat) (* on connection c *) | PReported (c : nat) (s : option nat) (* the state given to filters and caller *)
| PEnd (r : option (nat * option nat)).
Record gsys := mkg { g_active : string -> Z; g_state : option nat (* dialer.go:43 *); g_conns : list nat; g_calls : list (string * phase) }.
Definition bump (t : string) (d : Z) (f : string -> Z) : string -> Z := fun x => if String.eqb x t then (f x + d)%Z else f x.
Inductive gstep (s : gsys) : gsys -> Prop :=
(* dialer.go:80-88 *)
| GDial : forall c, gstep s (mkg (g_active s) (Some c) (c :: g_conns s) (g_calls s))
| GStart : forall l r t, g_calls s = l ++ (t, PIdle) :: r -> gstep s (mkg (bump t 1 (g_active s)) (g_state s) (g_conns s) (l ++ (t, PCounted) :: r))
| GCall : forall l r t c, g_calls s = l ++ (t, PCounted) :: r -> In c (g_conns s) -> gstep s (mkg (g_active s) (g_state s) (g_conns s) (l ++ (t, PCalled c) :: r))
(* dialer.go:135-139 *)
| GReport : forall l r t c, g_calls s = l ++ (t, PCalled c) :: r -> gstep s (mkg (g_active s) (g_state s) (g_conns s) (l ++ (t, PReported c (g_state s)) :: r))
(* every way out, also by an error or a panic *)
| GEnd : forall l r t p, g_calls s = l ++ (t, p) :: r -> (p = PCounted \/ (exists c, p = PCalled c) \/ (exists c o, p = PReported c o)) ->
    gstep s (mkg (bump t (-1) (g_active s)) (g_state s) (g_conns s) (l ++ (t, PEnd (match p with PReported c o => Some (c, o) | _ => None end)) :: r)).
Inductive greach (ts : list string) : gsys -> Prop :=
| GInit : greach ts (mkg (fun _ => 0%Z) None [] (map (fun t => (t, PIdle)) ts))
| GNext : forall s s', greach ts s -> gstep s s' -> greach ts s'.
