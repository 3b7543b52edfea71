(* Model: WrapTLSConfig and the recording of the local certificate.  /repo/pkg/network/tls.go:43-162,
   /repo/pkg/network/connection_state.go:216-223 (SetLocalCertificate), /repo/pkg/network/dialer.go:127-168.
   The native choice of crypto/tls (Config.getCertificate and Conn.getClientCertificate of Go 1.19) is the reference. *)
From Coq Require Import List String Bool Ascii Arith.
From Verif Require Import M_GoStr.
Import ListNotations.
Open Scope list_scope.

(* a tls.Certificate: its chain of DER blocks; a block either parses as an x509 certificate or not *)
Record tcert := mktc { tc_chain : list nat }.
Definition zero_cert : tcert := mktc [].                       (* new(tls.Certificate) *)
Inductive got := GErr (e : string) | GCert (c : option tcert). (* (cert, err); GCert None is (nil, nil) *)
(* what a callback can see: the SNI name and what the peer supports (SupportsCertificate == nil) *)
Record hello := mkh { h_name : gstr; h_supports : tcert -> bool }.
Record cfg := mkcfg {
  f_certs : list tcert;                                (* Certificates *)
  f_names : option (list (gstr * tcert));              (* NameToCertificate *)
  f_get : option (hello -> got);                       (* GetCertificate *)
  f_getc : option (hello -> got);                      (* GetClientCertificate *)
  f_tickets : bool }.                                  (* not SessionTicketsDisabled *)
Fixpoint name_get (m : list (gstr * tcert)) (k : gstr) : option tcert :=
  match m with [] => None | (k', c) :: r => if geqb k' k then Some c else name_get r k end.

(* labels := Split(name, "."); labels[0] = "*"; Join (tls.go:80-83) *)
Definition wildcard (name : gstr) : gstr := match gsplit "."%char name with _ :: r => gjoin "."%char (lit "*" :: r) | [] => lit "*" end.
(* the NameToCertificate lookup, tls.go:74-88 and the same text in crypto/tls; ToLower on ASCII names *)
Definition by_name (f : cfg) (h : hello) : option tcert :=
  match f_names f with
  | None => None
  | Some m =>
      let name := map lower_ascii (h_name h) in
      match name_get m name with
      | Some c => Some c
      | None => match name with [] => None | _ => name_get m (wildcard name) end
      end
  end.
Definition supported (f : cfg) (h : hello) : option tcert := find (h_supports h) (f_certs f).

(* ---- the library: crypto/tls/common.go Config.getCertificate ---- *)
Definition native_rest (f : cfg) (h : hello) : got :=
  match f_certs f with
  | [] => GErr "tls: no certificates configured"
  | [c] => GCert (Some c)
  | c :: _ => match by_name f h with
              | Some d => GCert (Some d)
              | None => match supported f h with Some d => GCert (Some d) | None => GCert (Some c) end
              end
  end.
Definition native_server (f : cfg) (h : hello) : got :=
  match f_get f with
  | Some g =>
      if (match f_certs f with [] => true | _ => false end || negb (match h_name h with [] => true | _ => false end))%bool
      then match g h with
           | GErr e => GErr e
           | GCert (Some c) => GCert (Some c)
           | GCert None => native_rest f h
           end
      else native_rest f h
  | None => native_rest f h
  end.
(* crypto/tls/handshake_client.go Conn.getClientCertificate *)
Definition native_client (f : cfg) (h : hello) : got :=
  match f_getc f with
  | Some g => g h
  | None => match supported f h with Some d => GCert (Some d) | None => GCert (Some zero_cert) end
  end.

(* ---- the wrapper ---- *)
(* getCert of the server callback, tls.go:57-98 *)
Definition wrapped_get (f : cfg) (h : hello) : got :=
  match f_get f with
  | Some g => g h
  | None =>
      match f_certs f with
      | [c] => GCert (Some c)
      | _ => match by_name f h with
             | Some d => GCert (Some d)
             | None => match supported f h with Some d => GCert (Some d) | None => GCert (Some zero_cert) end
             end
      end
  end.
(* getCert of the client callback, tls.go:124-145: the loop over Certificates runs even if the callback answered *)
Definition wrapped_getc (f : cfg) (h : hello) : got :=
  match (match f_getc f with Some g => g h | None => GCert (Some zero_cert) end) with
  | GErr e => GErr e
  | GCert c => match supported f h with Some d => GCert (Some d) | None => GCert c end
  end.
(* SetLocalCertificate, connection_state.go:216-223: cert.Certificate[0] of an empty chain panics; an unparsable block is ignored *)
Inductive recorded := RPanic | RKept (c : option nat).
Definition set_local (parses : nat -> bool) (old : option nat) (c : tcert) : recorded :=
  match tc_chain c with [] => RPanic | b :: _ => RKept (if parses b then Some b else old) end.
(* the callbacks of the wrapped configuration: [state]: a connection state is reachable from the handshake's context or
   connection (tls.go:105-113 and 151-155); the result is the certificate handed to crypto/tls and the recorded one *)
Inductive answer := APanic | AGot (g : got) (local : option nat).
Definition record_cert (parses : nat -> bool) (state : bool) (old : option nat) (g : got) : answer :=
  match g with
  | GCert (Some c) => if state then match set_local parses old c with RPanic => APanic | RKept l => AGot g l end else AGot g old
  | _ => AGot g old
  end.
Definition is_server (f : cfg) : bool := (match f_certs f with [] => false | _ => true end || match f_get f with Some _ => true | None => false end)%bool.
Definition is_client (f : cfg) : bool := (match f_certs f with [] => false | _ => true end || match f_getc f with Some _ => true | None => false end)%bool.
(* the wrapped configuration without the recording: tls.go:47-57 and 121-123 *)
Definition wrap (f : cfg) : cfg :=
  mkcfg (if (is_server f || is_client f)%bool then [] else f_certs f) (f_names f)
    (if is_server f then Some (wrapped_get f) else f_get f)
    (if is_client f then Some (wrapped_getc f) else f_getc f)
    (if is_server f then false else f_tickets f).
(* a server handshake under the wrapped configuration: the callback of the wrapped configuration, then crypto/tls *)
Definition server_handshake (parses : nat -> bool) (state : bool) (old : option nat) (f : cfg) (h : hello) : answer :=
  if is_server f then
    match record_cert parses state old (wrapped_get f h) with
    | APanic => APanic
    | AGot g l => AGot (match g with GCert None => GErr "tls: no certificates configured" | g => g end) l
    end
  else AGot (native_server f h) old.
Definition client_handshake (parses : nat -> bool) (state : bool) (old : option nat) (f : cfg) (h : hello) : answer :=
  if is_client f then record_cert parses state old (wrapped_getc f h) else AGot (native_client f h) old.
