(* Model: the client of the certificate service of Istio, /repo/pkg/ca/istio/istio_ca_client.go, and the connections that GetCertificate of
   /repo/pkg/ca/istio/istio_ca.go opens.

   PEM blocks are numbers; what the crypto libraries make of them is arbitrary.  grpc is reduced to: Dial works or not, a connection is open or closed,
   Close of a closed one is an error (grpc.ErrClientConnClosing), a call over a closed one fails, the answer over an open one is arbitrary. *)
From Coq Require Import String List Ascii Bool Arith ZArith.
From Verif Require Import M_GoStr.
Import ListNotations.
Open Scope list_scope.

Record lib := mklib { expiry : nat -> option Z (* NotAfter; None: cannot be parsed *); pair_ok : nat -> nat -> bool (* tls.X509KeyPair(cert, key) *); pool_ok : nat -> bool (* AppendCertsFromPEM *); system_pool : bool }.
(* 57-61 TLSOptions; None: nil.  Istiod's root certificate, the key, the certificate *)
Record tls := mktls { t_root : option nat; t_key : option nat; t_cert : option nat }.
Record opts := mkopts { p_endpoint : gstr; p_san : gstr; p_prov : gstr; p_tls : option tls }.

(* 172-190 getRootCertificate *)
Definition roots_ok (L : lib) (r : option nat) : bool := match r with None => system_pool L | Some p => pool_ok L p end.
(* 159-166: the name that the server's certificate must have; empty: the one of the endpoint *)
Definition server_name (o : opts) : gstr :=
  let n := if gcontains (p_endpoint o) (lit "localhost") then lit "istiod.istio-system.svc" else [] in
  match p_san o with [] => n | s => s end.
(* 206-228 buildConnection: dial: whether grpc.Dial works *)
Definition build_ok (L : lib) (o : opts) (dial : bool) : bool := (match p_tls o with None => true | Some t => roots_ok L (t_root t) end) && dial.
(* 131-155, 192-204: what a handshake presents *)
Inductive shown := SToken (* an empty certificate *) | SCert (c k : nat) | SError.
Definition key_ok (L : lib) (c : nat) (k : option nat) : bool := match k with Some k => pair_ok L c k | None => false end.
Definition handshake (L : lib) (t : tls) (now : Z) : shown * bool (* usingMtls is set *) :=
  match t_cert t with
  | None => (SToken, false)
  | Some c =>
    match expiry L c with
    | None => (SToken, false)
    | Some e => if (e <? now)%Z then (SToken, false) else if key_ok L c (t_key t) then (SCert c (match t_key t with Some k => k | None => 0 end), true) else (SError, false)
    end
  end.

(* a client: its connection, the connections that are open, how many were made, and usingMtls *)
Record cl := mkcl { c_conn : nat; c_open : list nat; c_made : nat; c_mtls : bool }.
(* 69-85 NewCitadelClient *)
Definition new_client (L : lib) (o : opts) (dial : bool) : option cl := if build_ok L o dial then Some (mkcl 0 [0] 1 false) else None.
Inductive out := OChain (l : list gstr) | OErr | OPanic | ONone.
(* 230-253 reconnectIfNeeded; Some true: go on *)
Definition reconnect (L : lib) (o : opts) (dial : bool) (c : cl) : option bool * cl :=
  if geqb (p_prov o) [] || c_mtls c then (Some true, c)
  else match p_tls o with
  | None => (None, c)                                      (* nil dereference *)
  | Some t =>
    match t_cert t with
    | Some ce => if key_ok L ce (t_key t) then
        if existsb (Nat.eqb (c_conn c)) (c_open c) then
          let op := remove Nat.eq_dec (c_conn c) (c_open c) in
          if build_ok L o dial then (Some true, mkcl (c_made c) (c_made c :: op) (S (c_made c)) (c_mtls c)) else (Some false, mkcl (c_conn c) op (c_made c) (c_mtls c))
        else (Some false, c)
      else (Some true, c)
    | None => (Some true, c)
    end
  end.
(* 94-123 CSRSign; answer: the chain that comes over an open connection, None: an error *)
Definition sign (L : lib) (o : opts) (dial : bool) (answer : option (list gstr)) (c : cl) : out * cl :=
  match reconnect L o dial c with
  | (None, c') => (OPanic, c')
  | (Some false, c') => (OErr, c')
  | (Some true, c') =>
      if existsb (Nat.eqb (c_conn c')) (c_open c') then
        match answer with Some l => if Nat.leb (length l) 1 then (OErr, c') else (OChain l, c') | None => (OErr, c') end
      else (OErr, c')
  end.
(* what happens to a client; a handshake takes place when grpc connects *)
Inductive ev := EHandshake (now : Z) | ESign (dial : bool) (answer : option (list gstr)).
Definition step (L : lib) (o : opts) (c : cl) (e : ev) : out * cl :=
  match e with
  | ESign d a => sign L o d a c
  | EHandshake now => (ONone, match p_tls o with Some t => if existsb (Nat.eqb (c_conn c)) (c_open c) && snd (handshake L t now) then mkcl (c_conn c) (c_open c) (c_made c) true else c | None => c end)
  end.
Fixpoint run (L : lib) (o : opts) (c : cl) (es : list ev) : cl := match es with [] => c | e :: r => run L o (snd (step L o c e)) r end.
(* 87-91 Close *)
Definition close (c : cl) : cl := mkcl (c_conn c) (remove Nat.eq_dec (c_conn c) (c_open c)) (c_made c) (c_mtls c).

(* istio_ca.go:71-140 GetCertificate of one host: what is in its cache (NotAfter), how many connections are open; dial, answer: as above; pair: NotAfter of the
   certificate that the chain and the key make, None: they do not fit *)
Definition ca_opts (endpoint san : gstr) (root : option nat) : opts := mkopts endpoint san [] (Some (mktls root None None)).
Record ca := mkca { k_cached : option Z; k_open : nat }.
Record request := mkreq { q_now : Z; q_dial : bool; q_answer : option (list gstr); q_pair : option Z }.
Definition get_certificate (L : lib) (o : opts) (q : request) (s : ca) : bool * ca :=
  if match k_cached s with Some e => (q_now q <? e)%Z | None => false end then (true, s)
  else match new_client L o (q_dial q) with
  | None => (false, s)
  | Some c =>
      let '(r, c') := sign L o (q_dial q) (q_answer q) c in
      let op := k_open s + length (c_open c') in          (* the client is not closed *)
      match r with
      | OChain _ => match q_pair q with Some e => (true, mkca (Some e) op) | None => (false, mkca (k_cached s) op) end
      | _ => (false, mkca (k_cached s) op)
      end
  end.
Fixpoint run_ca (L : lib) (o : opts) (s : ca) (qs : list request) : ca := match qs with [] => s | q :: r => run_ca L o (snd (get_certificate L o q s)) r end.
