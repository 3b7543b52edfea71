(* Model: tunnel (bifrost) server and client, /repo/pkg/network/tunnel.

   Not modelled: muxado, TCP listeners and proxying, logging, the event bus, keep-alive pings, JSON syntax (a message is its
   decoded content; which fields survive is modelled).  Every access to a sync.Map, to the port provider (a mutex protects
   each of its operations) and to the authenticator is one atomic step. *)
From Coq Require Import String List Bool ZArith.
From Verif Require Import M_GoMap.
Import ListNotations.
Open Scope Z_scope.

(* ---- server/port_provider.go ---- *)
Record prov := mkprov { pv_min : Z; pv_max : Z; pv_ports : list Z (* keys of the ports map *) }.
Definition taken (n : Z) (p : prov) : bool := existsb (Z.eqb n) (pv_ports p).
(* NewPortProvider, :33-44 *)
Definition new_prov (mn mx : Z) : option prov := if mx <? mn then None else Some (mkprov mn mx []).
(* the loop of GetFreePort from i, with fuel portMax - i iterations, :50-55 *)
Fixpoint first_free (p : prov) (i : Z) (fuel : nat) : option Z :=
  match fuel with
  | O => None
  | S f => if taken i p then first_free p (i + 1) f else Some i
  end.
(* GetFreePort, :46-58 *)
Definition get_free_port (p : prov) : Z * prov :=
  match first_free p (pv_min p) (Z.to_nat (pv_max p - pv_min p)) with
  | Some i => (i, mkprov (pv_min p) (pv_max p) (i :: pv_ports p))
  | None => (0, p)
  end.
(* GetPort, :60-75 *)
Definition get_port (n : Z) (p : prov) : bool * prov :=
  if (n <? pv_min p) || (pv_max p <? n) then (false, p)
  else if taken n p then (false, p)
  else (true, mkprov (pv_min p) (pv_max p) (n :: pv_ports p)).
(* ReleasePort, :77-82 *)
Definition release_port (n : Z) (p : prov) : prov := mkprov (pv_min p) (pv_max p) (filter (fun x => negb (Z.eqb n x)) (pv_ports p)).

(* ---- ports of sessions, server/session.go, whole operations one after the other ---- *)
Record sess := mksess { ss_ports : gmap Z (* s.ports: name -> assigned port *); ss_open : bool (* s.ctxc != nil *) }.
Record srv := mksrv { sv_prov : prov; sv_sess : nat -> sess; sv_got : list (nat * Z) (* every port the provider handed to a session *) }.
Definition sset (f : nat -> sess) (i : nat) (x : sess) : nat -> sess := fun j => if Nat.eqb i j then x else f j.
(* requestPort, session.go:165-205; lis: the listener could be created *)
Definition request_port (sid : nat) (name : string) (req : Z) (lis : bool) (s : srv) : srv * option Z :=
  let '(assigned, p') := if 0 <? req then (let '(ok, p') := get_port req (sv_prov s) in ((if ok then req else 0), p')) else get_free_port (sv_prov s) in
  if assigned =? 0 then (mksrv p' (sv_sess s) (sv_got s), None)
  else (mksrv p' (sset (sv_sess s) sid (mksess (mset name assigned (ss_ports (sv_sess s sid))) (ss_open (sv_sess s sid)))) ((sid, assigned) :: sv_got s),
        if lis then Some assigned else None).
(* Close, session.go:127-163 *)
Definition close_session (sid : nat) (s : srv) : srv :=
  if ss_open (sv_sess s sid) then
    mksrv (fold_left (fun p e => release_port (snd e) p) (ss_ports (sv_sess s sid)) (sv_prov s)) (sset (sv_sess s) sid (mksess [] false)) (sv_got s)
  else s.
Inductive sop := OpReq (sid : nat) (name : string) (req : Z) (lis : bool) | OpClose (sid : nat).
Definition sop_apply (s : srv) (o : sop) : srv := match o with OpReq i n r l => fst (request_port i n r l s) | OpClose i => close_session i s end.
Definition new_srv (p : prov) : srv := mksrv p (fun _ => mksess [] true) [].

(* the same with interleaving inside the operations: each goroutine that serves a port request or a Close *)
Inductive tjob :=
| TGot (sid : nat) (name : string) (n : Z)         (* requestPort got port n, before s.ports.Store, session.go:191 *)
| TScan (sid : nat) (todo : list string)            (* Close in s.ports.Range; names still to visit (the names at its start) *)
| TVisit (sid : nat) (name : string) (n : Z) (todo : list string) (* inside the callback, before ReleasePort, :137 *)
| TDel (sid : nat) (name : string) (todo : list string)           (* before s.ports.Delete, :141 *)
| TEnd.
Record tsrv := mkt { t_prov : prov; t_sess : nat -> sess; t_jobs : list tjob; t_own : list (nat * Z) (* handed out, and not released by that session *) }.
Fixpoint tset (l : list tjob) (j : nat) (x : tjob) : list tjob :=
  match l, j with [], _ => [] | _ :: r, O => x :: r | y :: r, S j' => y :: tset r j' x end.
Definition pair_eqb (a b : nat * Z) : bool := (Nat.eqb (fst a) (fst b) && Z.eqb (snd a) (snd b))%bool.
Inductive tstep : tsrv -> tsrv -> Prop :=
| T_request : forall s sid name n p', get_free_port (t_prov s) = (n, p') -> n <> 0 ->
    tstep s (mkt p' (t_sess s) (t_jobs s ++ [TGot sid name n]) ((sid, n) :: t_own s))
| T_store : forall s j sid name n, nth_error (t_jobs s) j = Some (TGot sid name n) ->
    tstep s (mkt (t_prov s) (sset (t_sess s) sid (mksess (mset name n (ss_ports (t_sess s sid))) (ss_open (t_sess s sid)))) (tset (t_jobs s) j TEnd) (t_own s))
| T_close : forall s sid, ss_open (t_sess s sid) = true ->
    tstep s (mkt (t_prov s) (t_sess s) (t_jobs s ++ [TScan sid (mkeys (ss_ports (t_sess s sid)))]) (t_own s))
| T_visit : forall s j sid name todo n, nth_error (t_jobs s) j = Some (TScan sid (name :: todo)) -> mget name (ss_ports (t_sess s sid)) = Some n ->
    tstep s (mkt (t_prov s) (t_sess s) (tset (t_jobs s) j (TVisit sid name n todo)) (t_own s))
| T_gone : forall s j sid name todo, nth_error (t_jobs s) j = Some (TScan sid (name :: todo)) -> mget name (ss_ports (t_sess s sid)) = None ->
    tstep s (mkt (t_prov s) (t_sess s) (tset (t_jobs s) j (TScan sid todo)) (t_own s))
| T_release : forall s j sid name n todo, nth_error (t_jobs s) j = Some (TVisit sid name n todo) ->
    tstep s (mkt (release_port n (t_prov s)) (t_sess s) (tset (t_jobs s) j (TDel sid name todo)) (filter (fun e => negb (pair_eqb (sid, n) e)) (t_own s)))
| T_delete : forall s j sid name todo, nth_error (t_jobs s) j = Some (TDel sid name todo) ->
    tstep s (mkt (t_prov s) (sset (t_sess s) sid (mksess (mdel name (ss_ports (t_sess s sid))) (ss_open (t_sess s sid)))) (tset (t_jobs s) j (TScan sid todo)) (t_own s))
| T_closed : forall s j sid, nth_error (t_jobs s) j = Some (TScan sid []) ->
    tstep s (mkt (t_prov s) (sset (t_sess s) sid (mksess (ss_ports (t_sess s sid)) false)) (tset (t_jobs s) j TEnd) (t_own s)).
Inductive tsteps : tsrv -> tsrv -> Prop := TS_nil : forall s, tsteps s s | TS_cons : forall a b c, tstep a b -> tsteps b c -> tsteps a c.
Definition new_tsrv (p : prov) : tsrv := mkt p (fun _ => mksess [] true) [] [].

(* ---- control stream, server/session.go:333-392 and auth/k8stoken.go ---- *)
(* outcome of Authenticator.Authenticate: (ok, err != nil) *)
Definition auth_result := (bool * bool)%type.
(* authError != nil, :362-366; errors.WrapIfWithDetails(nil, ...) is nil *)
Definition auth_error (r : auth_result) : bool := let '(ok, err) := r in if err then true else false.
(* k8sAuthenticator.Authenticate, k8stoken.go:58-90: outcome of creating the token review *)
Record review := mkreview { rv_create_err : bool; rv_status_error : string; rv_authenticated : bool }.
Definition k8s_authenticate (r : review) : auth_result :=
  if rv_create_err r then (false, true)
  else if negb (String.eqb (rv_status_error r) "") then (false, true)
  else if negb (rv_authenticated r) then (false, true)
  else (true, false).
(* openControlStream as goroutines; a stream is a number, its token is in the message *)
Inductive cjob :=
| CChecked (st : nat) (token : string) (exists_ : bool) (* after reading s.ctrlStream, :354 *)
| CDecided (st : nat) (token : string) (err : bool)     (* response sent, :375 *)
| CEnd.
Record csrv := mkc { c_auth : option (string -> auth_result) (* server.authenticator *); c_ctrl : option nat (* s.ctrlStream *);
  c_all : list (nat * string) (* control streams ever established, with their tokens *); c_jobs : list cjob; c_closed : bool }.
Fixpoint cset (l : list cjob) (j : nat) (x : cjob) : list cjob :=
  match l, j with [], _ => [] | _ :: r, O => x :: r | y :: r, S j' => y :: cset r j' x end.
Inductive cstep : csrv -> csrv -> Prop :=
| C_msg : forall s st token, cstep s (mkc (c_auth s) (c_ctrl s) (c_all s) (c_jobs s ++ [CChecked st token (match c_ctrl s with Some _ => true | None => false end)]) (c_closed s))
| C_decide : forall s j st token ex, nth_error (c_jobs s) j = Some (CChecked st token ex) ->
    cstep s (mkc (c_auth s) (c_ctrl s) (c_all s) (cset (c_jobs s) j (CDecided st token (if ex then true else match c_auth s with Some a => auth_error (a token) | None => false end))) (c_closed s))
| C_refuse : forall s j st token, nth_error (c_jobs s) j = Some (CDecided st token true) ->   (* s.Close(), :379-385 *)
    cstep s (mkc (c_auth s) (c_ctrl s) (c_all s) (cset (c_jobs s) j CEnd) true)
| C_establish : forall s j st token, nth_error (c_jobs s) j = Some (CDecided st token false) -> (* :389 *)
    cstep s (mkc (c_auth s) (Some st) ((st, token) :: c_all s) (cset (c_jobs s) j CEnd) (c_closed s)).
Inductive csteps : csrv -> csrv -> Prop := CS_nil : forall s, csteps s s | CS_cons : forall a b c, cstep a b -> csteps b c -> csteps a c.
Definition new_csrv (a : option (string -> auth_result)) : csrv := mkc a None [] [] false.

(* ---- hand-over of back-channel streams, server/session.go:207-331; identifiers are fresh numbers (UUIDs) ---- *)
Inductive bjob :=
| BWait (id : nat)                 (* RequestConn waiting in the select, :231-237 *)
| BServed (id st : nat)            (* RequestConn received stream st *)
| BTimeout (id : nat)              (* RequestConn timed out, before s.backChannels.Delete, :234 *)
| BExpired (id : nat)
| BOpen (id st : nat)              (* openTCPStream took the channel of id and answered "ok", before ch <- stream, :326 *)
| BRejected (id st : nat)          (* openTCPStream answered with an error *)
| BDone.
Record bsrv := mkb { b_chans : list nat (* keys of s.backChannels *); b_jobs : list bjob; b_next : nat (* next identifier *); b_deliv : list (nat * nat) (* (id, stream) handed over *) }.
Fixpoint bset (l : list bjob) (j : nat) (x : bjob) : list bjob :=
  match l, j with [], _ => [] | _ :: r, O => x :: r | y :: r, S j' => y :: bset r j' x end.
Definition bdel (id : nat) (l : list nat) : list nat := filter (fun x => negb (Nat.eqb id x)) l.
Inductive blabel := LRequest (id : nat) | LOpen (id st : nat) | LHand (id st : nat) | LOther.
Inductive bstep : bsrv -> blabel -> bsrv -> Prop :=
| B_request : forall s, bstep s (LRequest (b_next s)) (mkb (b_next s :: b_chans s) (b_jobs s ++ [BWait (b_next s)]) (S (b_next s)) (b_deliv s))
| B_open : forall s id st, In id (b_chans s) -> bstep s (LOpen id st) (mkb (bdel id (b_chans s)) (b_jobs s ++ [BOpen id st]) (b_next s) (b_deliv s))
| B_reject : forall s id st, ~ In id (b_chans s) -> bstep s (LOpen id st) (mkb (b_chans s) (b_jobs s ++ [BRejected id st]) (b_next s) (b_deliv s))
| B_hand : forall s i j id st, nth_error (b_jobs s) i = Some (BWait id) -> nth_error (b_jobs s) j = Some (BOpen id st) ->
    bstep s (LHand id st) (mkb (b_chans s) (bset (bset (b_jobs s) i (BServed id st)) j BDone) (b_next s) ((id, st) :: b_deliv s))
| B_timeout : forall s i id, nth_error (b_jobs s) i = Some (BWait id) -> bstep s LOther (mkb (b_chans s) (bset (b_jobs s) i (BTimeout id)) (b_next s) (b_deliv s))
| B_expire : forall s i id, nth_error (b_jobs s) i = Some (BTimeout id) -> bstep s LOther (mkb (bdel id (b_chans s)) (bset (b_jobs s) i (BExpired id)) (b_next s) (b_deliv s)).
Inductive bsteps : bsrv -> list blabel -> bsrv -> Prop :=
| BS_nil : forall s, bsteps s [] s
| BS_cons : forall a l b ls c, bstep a l b -> bsteps b ls c -> bsteps a (l :: ls) c.
Definition new_bsrv : bsrv := mkb [] [] 0 [].

(* ---- responses, api/message.go:55-81 and client/session.go ---- *)
Record response := mkresp { rs_type : string; rs_msg : string; rs_err : option string (* the Go error, json:"-" *) }.
Definition no_error : response := mkresp "" "" None.
(* SetError, message.go:61-65 *)
Definition set_error (t : string) (e : string) : response := mkresp t e (Some e).
(* json.Marshal then json.Unmarshal of a BaseReponse, message.go:55-59 *)
Definition over_wire (r : response) : response := mkresp (rs_type r) (rs_msg r) None.
(* OpenTCPStream, client/session.go:93-111: Some e is the returned error, None a usable connection *)
Definition client_open_tcp (r : response) : option string := rs_err r.
(* createControlStream, client/session.go:135-151 *)
Definition client_control (r : response) : option string := if String.eqb (rs_msg r) "" then None else Some (rs_msg r).
(* openTCPStream's answer, server/session.go:308-324; known: the id was in backChannels *)
Definition server_open_tcp (known : bool) : response := if known then no_error else set_error "errInvalidStreamID" "invalid stream id".
(* openControlStream's answer, server/session.go:352-377; e: the error text if the stream is refused *)
Definition server_control (refused : option (string * string)) : response := match refused with None => no_error | Some (t, e) => set_error t e end.

(* ---- client listener, client/port.go:71-106 and client/stream.go:67-140 ---- *)
Inductive outcome (A : Type) := Done (a : A) | Panic.
Arguments Done {A} a. Arguments Panic {A}.
Record mport := mkmp { mp_chclosed : bool (* connChan closed *); mp_known : bool (* in client.managedPorts *) }.
(* managedPort.Close, port.go:102-106: closing a closed channel panics *)
Definition mport_close (p : mport) : outcome mport := if mp_chclosed p then Panic else Done (mkmp true (mp_known p)).
(* requestConnection after the stream is open, stream.go:98-108: sending on a closed channel panics; true: offered to Accept *)
Definition mport_request (p : mport) : outcome bool := if mp_known p then (if mp_chclosed p then Panic else Done true) else Done false.
(* requestPortResponse, stream.go:114-140: a zero port closes and forgets the listener *)
Definition mport_response (assigned : Z) (p : mport) : outcome mport :=
  if mp_known p then (if assigned =? 0 then (if mp_chclosed p then Panic else Done (mkmp true false)) else Done p) else Done p.
