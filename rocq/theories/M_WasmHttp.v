(* Model: HTTP requests and responses passing through WASM filters.
   Files: /repo/pkg/proxywasm/http/handler.go, http/transport.go, http/middleware.go, stream.go:126-233, host.go:104-197 (the HTTP
   host functions).

   A filter is guest code: [guest f ev w] gives its new state, the host calls it made, in order, and its verdict, for any function
   [guest] of everything it can see.  Every callback is written to a log.
   Simplified: header keys are canonical; URL, protocol and trailers are not modelled (Trailer() of a response returns its header);
   the properties are the subject of M_EnvoyProps.v.  What net/http does after a handler: a status that was not written is 200; a
   status outside 100..999 makes WriteHeader panic, which closes the connection.  The rules net/http has for statuses without a body
   and for Content-Length are not modelled. *)
From Coq Require Import String List Ascii Bool Arith ZArith.
From Verif Require Import M_GoStr M_GoMap.
Import ListNotations.
Open Scope list_scope.

(* http.Header *)
Definition headers := gmap (list gstr).
Definition hvals (k : string) (h : headers) : list gstr := match mget k h with Some l => l | None => [] end.
Definition hadd (k : string) (v : gstr) (h : headers) : headers := mset k (hvals k h ++ [v]) h.

(* what Read of a body returns; after the list the body is at its end *)
Inductive rd := RData (b : gstr) | RLast (b : gstr) (* with io.EOF *) | RErr.
(* the body as it came, or the buffer that filters see *)
Inductive body := Src (l : list rd) | Buf (b : gstr).
Record req := mkreq { q_method : gstr; q_host : gstr; q_hdr : headers; q_len : Z; q_body : option body; q_ctx : nat }.
Record resp := mkresp { p_status : Z; p_hdr : headers; p_len : Z; p_body : option body }.

Inductive event := EReqHeaders | EReqBody (n : nat) (eos : bool) | ERespHeaders | ERespBody (n : nat) (eos : bool).
Inductive verdict := Continue | Pause | Fail.
(* host calls that change something *)
Inductive call :=
| CReqHdr (f : headers -> headers)              (* host.go:131-138: set, add, delete, replace *)
| CRespHdr (f : headers -> headers)             (* :158-165 *)
| CReqBody (b : gstr)                           (* :140-146: the buffer's new content *)
| CRespBody (b : gstr)                          (* :148-154 *)
| CSend (status : Z) (b : gstr) (h : list (string * gstr)). (* :183-202 SendHttpResp *)

Record entry := mkent { en_filter : nat; en_event : event; en_calls : list call; en_verdict : verdict }.
(* [w_x]: the state of the guests; [w_resp]: the response property of the stream, None before a response is known *)
Record world (X : Type) := mkw { w_x : X; w_req : req; w_resp : option resp; w_log : list entry }.
Arguments mkw {X} _ _ _ _. Arguments w_x {X} _. Arguments w_req {X} _. Arguments w_resp {X} _. Arguments w_log {X} _.
Definition guest (X : Type) := nat -> event -> world X -> X * list call * verdict.
Section Guest.
Context {X : Type}.
Notation world := (world X).
Variable G : guest X.

Definition with_req (w : world) (q : req) : world := mkw (w_x w) q (w_resp w) (w_log w).
Definition with_resp (w : world) (p : resp) : world := mkw (w_x w) (w_req w) (Some p) (w_log w).
Definition set_qbody (q : req) (b : option body) : req := mkreq (q_method q) (q_host q) (q_hdr q) (q_len q) b (q_ctx q).
Definition set_qhdr (q : req) (h : headers) : req := mkreq (q_method q) (q_host q) h (q_len q) (q_body q) (q_ctx q).
Definition set_pbody (p : resp) (b : option body) : resp := mkresp (p_status p) (p_hdr p) (p_len p) b.
Definition set_phdr (p : resp) (h : headers) : resp := mkresp (p_status p) h (p_len p) (p_body p).
(* a body buffer exists while the body passes; a local response (SendHttpResp) replaces the body of the response, and the buffer of
   the old body is lost *)
Definition do_call (w : world) (c : call) : world :=
  match c with
  | CReqHdr f => with_req w (set_qhdr (w_req w) (f (q_hdr (w_req w))))
  | CRespHdr f => match w_resp w with Some p => with_resp w (set_phdr p (f (p_hdr p))) | None => w end
  | CReqBody b => match q_body (w_req w) with Some (Buf _) => with_req w (set_qbody (w_req w) (Some (Buf b))) | _ => w end
  | CRespBody b => match w_resp w with Some p => match p_body p with Some (Buf _) => with_resp w (set_pbody p (Some (Buf b))) | _ => w end | None => w end
  | CSend st b hs =>
      match w_resp w with
      | Some p => with_resp w (mkresp st (fold_left (fun h kv => hadd (fst kv) (snd kv) h) hs (p_hdr p)) (p_len p) (Some (Src [RData b])))
      | None => w
      end
  end.
Definition callback (f : nat) (ev : event) (w : world) : verdict * world :=
  let '(x, cs, v) := G f ev w in
  let w' := fold_left do_call cs w in
  (v, mkw x (w_req w') (w_resp w') (w_log w' ++ [mkent f ev cs v])).

(* stream.go:129-143 *)
Fixpoint headers_pass (fs : list nat) (w : world) : verdict * world :=
  match fs with
  | [] => (Continue, w)
  | f :: r => match callback f EReqHeaders w with
              | (Continue, w') => headers_pass r w'
              | other => other
              end
  end.
(* stream.go:184-197, 167-179, 218-230: a pause is not looked at; false: a callback failed *)
Fixpoint all_pass (fs : list nat) (ev : event) (w : world) : bool * world :=
  match fs with
  | [] => (true, w)
  | f :: r => match callback f ev w with
              | (Fail, w') => (false, w')
              | (_, w') => all_pass r ev w'
              end
  end.
(* what ended the loop over a body: its end, a read error, a failing filter before or at the end *)
Inductive bres := BDone | BReadErr | BFail (at_end : bool).
(* stream.go:145-184 and 199-233: [add] appends the bytes read to the buffer *)
Fixpoint body_loop (fs : list nat) (add : gstr -> world -> world) (ev : nat -> bool -> event) (l : list rd) (w : world) : bres * world :=
  match l with
  | [] => let (ok, w') := all_pass fs (ev 0 true) (add [] w) in (if ok then BDone else BFail true, w')
  | RErr :: _ => (BReadErr, w)
  | RLast b :: _ => let (ok, w') := all_pass fs (ev (length b) true) (add b w) in (if ok then BDone else BFail true, w')
  | RData b :: r =>
      match b with
      | [] => body_loop fs add ev r w
      | _ => let (ok, w') := all_pass fs (ev (length b) false) (add b w) in
             if ok then body_loop fs add ev r w' else (BFail false, w')
      end
  end.
Definition add_req (b : gstr) (w : world) : world :=
  match q_body (w_req w) with Some (Buf b0) => with_req w (set_qbody (w_req w) (Some (Buf (b0 ++ b)))) | _ => w end.
Definition add_resp (b : gstr) (w : world) : world :=
  match w_resp w with Some p => match p_body p with Some (Buf b0) => with_resp w (set_pbody p (Some (Buf (b0 ++ b)))) | _ => w end | None => w end.
Definition script (b : body) : list rd := match b with Src l => l | Buf b => [RData b] end.
(* the bytes a reader of a body gets before its end or an error *)
Fixpoint bytes_of (l : list rd) : gstr := match l with [] => [] | RData b :: r => b ++ bytes_of r | RLast b :: _ => b | RErr :: _ => [] end.
(* stream.go:126-184 HandleHTTPRequest; the result: no error *)
Definition handle_request (fs : list nat) (w : world) : bool * world :=
  match headers_pass fs w with
  | (Fail, w') => (false, w')
  | (Pause, w') => (true, w')
  | (Continue, w') =>
      match q_body (w_req w') with
      | None => (true, w')
      | Some b => match body_loop fs add_req EReqBody (script b) (with_req w' (set_qbody (w_req w') (Some (Buf [])))) with
                  | (BDone, w2) => (true, w2)
                  | (_, w2) => (false, w2)
                  end
      end
  end.
Definition is_send (c : call) : bool := match c with CSend _ _ _ => true | _ => false end.
(* a local response in the callbacks since log entry n *)
Definition replaced (n : nat) (w : world) : bool := existsb (fun e => existsb is_send (en_calls e)) (skipn n (w_log w)).
(* stream.go:186-233 HandleHTTPResponse; the error, and whether the body that came is left with unread data: nothing closes it *)
Definition handle_response (fs : list nat) (w : world) : bool * bool * world :=
  let had := match w_resp w with Some p => match p_body p with Some _ => true | None => false end | None => false end in
  match all_pass fs ERespHeaders w with
  | (false, w') => (false, had, w')
  | (true, w') =>
      let lost := had && replaced (length (w_log w)) w' in
      match w_resp w' with
      | None => (true, false, w')
      | Some p =>
          match p_body p with
          | None => (true, false, w')
          | Some b => match body_loop fs add_resp ERespBody (script b) (with_resp w' (set_pbody p (Some (Buf [])))) with
                      | (BDone, w2) => (true, lost, w2)
                      | (BReadErr, w2) => (false, lost, w2)
                      | (BFail e, w2) => (false, lost || negb e, w2)
                      end
          end
      end
  end.

(* http/middleware.go: the registered middlewares, in the order in which range visits the map *)
Inductive phase := BeforeRequest | AfterRequest | BeforeResponse | AfterResponse.
Definition middleware := phase -> world -> world.

(* handler.go.  What an application does with its ResponseWriter *)
Inductive aact := AStatus (code : Z) | AWrite (b : gstr) | AHeader (f : headers -> headers).
Definition app := req -> headers -> list aact.
(* handler.go:154-188 customResponseWriter: status, body, header of the underlying writer *)
Record crw := mkcrw { c_status : Z; c_body : gstr; c_hdr : headers }.
Definition do_act (c : crw) (a : aact) : crw :=
  match a with
  | AStatus s => mkcrw s (c_body c) (c_hdr c)
  | AWrite b => mkcrw (c_status c) (c_body c ++ b) (c_hdr c)
  | AHeader f => mkcrw (c_status c) (c_body c) (f (c_hdr c))
  end.
(* what the client gets *)
Inductive sent := Sent (status : Z) (h : headers) (b : gstr) | Aborted.
Record result := mkres { r_calls : list req (* requests the application was called with *); r_sent : sent; r_log : list entry }.
Definition unwritten (h : headers) : sent := Sent 200 h [].
(* handler.go:139-151 writeResponse *)
Definition write_response (p : resp) : sent :=
  if (p_status p <? 100)%Z || (999 <? p_status p)%Z then Aborted
  else Sent (p_status p) (p_hdr p) (match p_body p with Some b => bytes_of (script b) | None => [] end).
Definition resp_or (w : world) (p : resp) : resp := match w_resp w with Some q => q | None => p end.
Definition method_key : string := ":method".
(* handler.go:57-137 ServeHTTP and serve.  [stream]: NewStream succeeds; [flush]: the handler is not a gRPC server or the writer can flush;
   [h0]: the header of the writer *)
Definition serve (mw : middleware) (ap : app) (fs : list nat) (stream flush : bool) (x : X) (q : req) (h0 : headers) : result :=
  if negb stream then mkres [] (unwritten h0) []
  else if negb flush then mkres [] (unwritten h0) []
  else
    let q1 := set_qhdr q (hadd method_key (q_method q) (q_hdr q)) in
    let p0 := mkresp 0 h0 0 None in
    match handle_request fs (mw BeforeRequest (mkw x q1 (Some p0) [])) with
    | (false, w) => mkres [] (unwritten (p_hdr (resp_or w p0))) (w_log w)
    | (true, w) =>
        let p := resp_or w p0 in
        if (0 <? p_status p)%Z then mkres [] (write_response p) (w_log w)
        else
          let c := fold_left do_act (ap (w_req w) (p_hdr p)) (mkcrw 0 [] (p_hdr p)) in
          let w1 := mw AfterRequest (with_resp w (set_phdr p (c_hdr c))) in
          let p1 := resp_or w1 p0 in
          let w2 := mw BeforeResponse (with_resp w1 (mkresp (if (c_status c =? 0)%Z then 200%Z else c_status c) (p_hdr p1) (Z.of_nat (length (c_body c))) (Some (Src [RData (c_body c)])))) in
          match handle_response fs w2 with
          | (false, _, w3) => mkres [w_req w] (unwritten (p_hdr (resp_or w3 p0))) (w_log w3)
          | (true, _, w3) => let w4 := mw AfterResponse w3 in mkres [w_req w] (write_response (resp_or w4 p0)) (w_log w4)
          end
    end.

(* transport.go.  [rt]: the inner transport; contexts are numbers, 0 is context.Background() *)
Record tresult := mktr { t_calls : list req (* requests given to the inner transport *); t_resp : option resp; t_left : bool (* a response body left unread and open *); t_log : list entry }.
(* transport.go:49-92 RoundTrip; the header of the request is cloned (:60), the body is the caller's *)
Definition round_trip (mw : middleware) (rt : req -> option resp) (fs : list nat) (stream : bool) (x : X) (q : req) : tresult :=
  if negb stream then mktr [] None false []
  else
    let q1 := mkreq (q_method q) (q_host q) (q_hdr q) (q_len q) (q_body q) 0 in
    match handle_request fs (mw BeforeRequest (mkw x q1 None [])) with
    | (false, w) => mktr [] None false (w_log w)
    | (true, w) =>
        let w1 := mw AfterRequest w in
        match rt (w_req w1) with
        | None => mktr [w_req w1] None false (w_log w1)
        | Some p =>
            match handle_response fs (mw BeforeResponse (with_resp w1 p)) with
            | (false, o, w3) => mktr [w_req w1] None o (w_log w3)
            | (true, o, w3) => let w4 := mw AfterResponse w3 in mktr [w_req w1] (w_resp w4) o (w_log w4)
            end
        end
    end.
End Guest.
