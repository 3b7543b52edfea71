(* pkg/tls/verify/verify.go, san.go, util.go and pkg/ads/cert_validation.go *)
From Coq Require Import String List Ascii Bool Arith.
From Verif Require Import M_GoStr M_Matcher.
Import ListNotations.
Open Scope list_scope.
(* the fields of x509.Certificate the code reads; URIs and IPs in their String() form *)
Record cert := mkcert { c_raw : gstr; c_emails : list gstr; c_uris : list gstr; c_dns : list gstr; c_ips : list gstr }.
(* Library behaviour taken as a parameter: certificate parsing, hex SHA-256 of a certificate, base64 SHA-256 of its public
   key (None if it cannot be marshalled), PEM parsing into a root pool, and x509 path building: roots (None = the system
   roots), intermediates, leaf, time -> chains or an error. A root pool is the list of its certificates. *)
Record xlib := mkxlib { x_parse : gstr -> option cert; x_hash : cert -> gstr; x_spki : cert -> option gstr;
  x_pem : gstr -> list cert; x_verify : option (list cert) -> list cert -> nat -> cert -> option (list (list cert)) }.
(* san.go:26-38 *)
Inductive santype := SEmail | SDns | SUri | SIp.
Inductive outcome (A : Type) := OK (a : A) | Err | Panic.
Arguments OK {A}. Arguments Err {A}. Arguments Panic {A}.
Section V.
Variable L : mlib.
Variable X : xlib.
Record sanmatcher := mksan { sm_type : santype; sm_matcher : matcher L }.
(* verify.go:34-78 CertVerifierConfig; cf_time is the time the Time function (or time.Now) returns *)
Record vconfig := mkcfg { cf_time : nat; cf_roots : option (list cert); cf_system : bool; cf_spki : list gstr; cf_hash : list gstr; cf_sans : list sanmatcher }.
(* verify.go:150-198 verify. The assignment of an empty pool to config.Roots is made to a local copy here: it is idempotent. *)
Fixpoint parse_all (chain : list gstr) : option (list cert) :=
  match chain with
  | [] => Some []
  | a :: r => match x_parse X a with None => None | Some c => match parse_all r with None => None | Some cs => Some (c :: cs) end end
  end.
Definition verify_chain (cf : vconfig) (chain : list gstr) : outcome (list (list cert)) :=
  match parse_all chain with
  | None => Err
  | Some certs =>
      match certs with
      | [] => Panic (* certs[1:] of an empty slice *)
      | leaf :: inter =>
          let roots := if negb (cf_system cf) && match cf_roots cf with None => true | _ => false end then Some [] else cf_roots cf in
          let from_pool := match roots with Some p => x_verify X (Some p) inter (cf_time cf) leaf | None => None end in
          match roots with
          | Some _ =>
              if negb (cf_system cf) then match from_pool with Some ch => OK ch | None => Err end
              else match from_pool with
                   | Some (c :: cs) => OK (c :: cs)
                   | _ => match x_verify X None inter (cf_time cf) leaf with Some ch => OK ch | None => Err end
                   end
          | None => match x_verify X None inter (cf_time cf) leaf with Some ch => OK ch | None => Err end
          end
      end
  end.
(* verify.go:200-217 verifySPKIHash *)
Definition verify_spki (cf : vconfig) (c : cert) : bool :=
  match cf_spki cf with
  | [] => true
  | l => match x_spki X c with None => false | Some h => existsb (fun x => geqb x h) l end
  end.
(* verify.go:219-233 verifyCertificateHash *)
Definition verify_hash (cf : vconfig) (c : cert) : bool :=
  match cf_hash cf with [] => true | l => existsb (fun x => geqb x (x_hash X c)) l end.
(* verify.go:235-283 verifyTypedSANs *)
Definition san_values (t : santype) (c : cert) : list gstr :=
  match t with SEmail => c_emails c | SUri => c_uris c | SDns => c_dns c | SIp => c_ips c end.
Definition verify_sans (cf : vconfig) (c : cert) : bool :=
  match cf_sans cf with
  | [] => true
  | l => existsb (fun m => existsb (fun v => matcher_match L (sm_matcher m) v) (san_values (sm_type m) c)) l
  end.
(* verify.go:94-113 VerifyCertificate *)
Definition verify_certificate (cf : vconfig) (chain : list gstr) : outcome (list cert) :=
  match verify_chain cf chain with
  | OK ((leaf :: rest) :: _) => if verify_hash cf leaf && verify_spki cf leaf && verify_sans cf leaf then OK (leaf :: rest) else Err
  | OK _ => Err
  | Err => Err
  | Panic => Panic
  end.
(* util.go:93-106 SetCertVerifierToTLSConfig: the peer verification callback *)
Definition verify_peer (cf : vconfig) (tls_roots : option (list cert)) (raw : list gstr) : outcome unit :=
  let cf' := mkcfg (cf_time cf) (match cf_roots cf with None => tls_roots | r => r end) (cf_system cf) (cf_spki cf) (cf_hash cf) (cf_sans cf) in
  match verify_certificate cf' raw with OK _ => OK tt | Err => Err | Panic => Panic end.
(* san.go:49-67 NewSANMatcherFromString *)
Definition san_from_string (s : gstr) : outcome sanmatcher :=
  match gsplitn ":"%char 2 s with
  | p0 :: r =>
      let t := if geqb p0 (lit "EMAIL") then Some SEmail else if geqb p0 (lit "DNS") then Some SDns else if geqb p0 (lit "URI") then Some SUri else if geqb p0 (lit "IP") then Some SIp else None in
      match t with
      | None => Err
      | Some t => match r with
                  | p1 :: _ => match matcher_from_string L p1 with Some m => OK (mksan t m) | None => Err end
                  | [] => Panic (* p[1] *)
                  end
      end
  | [] => Panic
  end.
(* the validation context message: trusted CA data as the bytes read from its source (None: not set; an unreadable file
   gives []), the pins, the deprecated untyped and the typed SAN matchers; the SAN type is None when unspecified and
   Some None for a type this code does not know *)
Record vctx := mkvctx { vc_ca : option gstr; vc_spki : list gstr; vc_hash : list gstr; vc_untyped : list (option (xpat * bool));
  vc_typed : list (option (option santype) * option (xpat * bool)) }.
(* cert_validation.go:73-108: the SAN matchers of one entry *)
Definition entry_sans (e : option (option santype) * option (xpat * bool)) : list sanmatcher :=
  match fst e with
  | Some None => []
  | Some (Some t) => match matcher_from_xds L (snd e) with Some m => [mksan t m] | None => [] end
  | None => flat_map (fun t => match matcher_from_xds L (snd e) with Some m => [mksan t m] | None => [] end) [SDns; SEmail; SIp; SUri]
  end.
(* cert_validation.go:28-108 GetCertVerifierConfigFromValidationContext; also returns the message, which the code extends *)
Definition config_from_context (now : nat) (vc : vctx) : vconfig * vctx :=
  let typed := vc_typed vc ++ map (fun p => (None, p)) (vc_untyped vc) in
  let roots := match vc_ca vc with Some (c :: d) => Some (x_pem X (c :: d)) | _ => None end in
  (mkcfg now roots false (vc_spki vc) (vc_hash vc) (flat_map entry_sans typed), mkvctx (vc_ca vc) (vc_spki vc) (vc_hash vc) (vc_untyped vc) typed).
End V.
Arguments mksan {L}. Arguments sm_type {L}. Arguments sm_matcher {L}. Arguments mkcfg {L}.
Arguments cf_time {L}. Arguments cf_roots {L}. Arguments cf_system {L}. Arguments cf_spki {L}. Arguments cf_hash {L}. Arguments cf_sans {L}.
