(* Model: the attributes of a request that WASM filters read, and the headers added for the application.
   Files: /repo/pkg/proxywasm/middleware/envoy_middleware.go, /repo/pkg/proxywasm/properties.go, host.go:104-128 (GetProperty,
   SetProperty), stream.go:75-100 (NewStream), header.go:87-110, http/wrappers.go, /repo/pkg/network/cert.go.  Lines refer to
   envoy_middleware.go unless another file is named.

   The attributes are kept in the dotted map of M_Dotn.v.  Simplified: header names are canonical, header maps are lists in the order
   in which range yields them; the path, the query and the other parts of a URL are given; times are nanoseconds; the text
   that envoyutil.XFCCElement.String makes of its fields is an argument, as is the digest of a certificate; the attributes of the
   plugin manager (the parent) are an arbitrary function.  Logging is left out. *)
From Coq Require Import String List Ascii Bool Arith NArith ZArith.
From Verif Require Import M_GoStr M_Dotn M_WasmMap.
Import ListNotations.
Open Scope list_scope.

(* binary.LittleEndian.PutUint64(b, uint64(z)) *)
Definition u64 (z : Z) : Z := (z mod 2 ^ 64)%Z.
Definition le64 (z : Z) : gstr :=
  map (fun i => ascii_of_N (Z.to_N ((u64 z / i) mod 256)%Z)) [1; 2 ^ 8; 2 ^ 16; 2 ^ 24; 2 ^ 32; 2 ^ 40; 2 ^ 48; 2 ^ 56]%Z.
(* properties.go:58-95 Stringify *)
Definition strings_of (m : list (gstr * dval)) : list (gstr * gstr) :=
  flat_map (fun kv => match snd kv with VStr s => [(fst kv, s)] | _ => [] end) m.
Definition stringify (v : dval) : gstr :=
  match v with
  | VPrim (PBool b) => [ascii_of_nat (if b then 1 else 0)]
  | VPrim (PInt64 z) | VPrim (PUint64 z) | VPrim (PInt z) => le64 z
  | VStr s => s
  | VStore m | VMap m => serialize (strings_of m)     (* Get gives a store as map[string]interface{} (dotn.go:69-70) *)
  | VStrMap m => serialize m
  | _ => []
  end.

(* properties.go:23-56, stream.go:79: a stream's own attributes over those of the plugin manager *)
Section S.
Variable parse_int8 : gstr -> option Z.
Record stream := mkst { s_outbound : bool; s_own : store; s_parent : gstr -> gout }.
Definition with_own (s : stream) (m : store) : stream := mkst (s_outbound s) m (s_parent s).
(* properties.go:42-52 *)
Definition sget (s : stream) (key : gstr) : gout :=
  match dotn_get parse_int8 (s_own s) key with
  | GSome v => GSome v
  | GPanic => GPanic
  | GNone => s_parent s key
  end.
Definition sset (s : stream) (key : gstr) (v : dval) : stream := with_own s (dotn_set (s_own s) key v).
(* stream.go:75-100: listener_metadata is the stream itself *)
Definition new_stream (outbound : bool) (dir : Z) (parent : gstr -> gout) : stream :=
  sset (sset (mkst outbound [] parent) (lit "listener_direction") (VStr (le64 dir))) (lit "listener_metadata") (VScalar 0).

(* host.go:104-118 GetProperty; None: NotFound *)
Definition nul_to_dot (k : gstr) : gstr := map (fun c => if Ascii.eqb c NUL then DOT else c) k.
Fixpoint trim_dots (k : gstr) : gstr :=       (* strings.TrimRight(k, ".") *)
  match k with
  | [] => []
  | c :: r => match trim_dots r with [] => if Ascii.eqb c DOT then [] else [c] | r' => c :: r' end
  end.
Inductive answer := Found (s : gstr) | NotFound | Panics.
Definition get_property (s : stream) (key : gstr) : answer :=
  match sget s (trim_dots (nul_to_dot key)) with GSome v => Found (stringify v) | GNone => NotFound | GPanic => Panics end.
(* host.go:120-126 SetProperty *)
Definition set_property (s : stream) (key value : gstr) : stream := sset s key (VStr value).

(* http.Header *)
Definition hdrs := list (gstr * list gstr).
(* http/wrappers.go:131-138: an empty value counts as missing *)
Definition hget (h : hdrs) (k : gstr) : option gstr := match dget h k with Some ((_ :: _) as v :: _) => Some v | _ => None end.
Definition hadd (h : hdrs) (k v : gstr) : hdrs := dput h k (match dget h k with Some l => l | None => [] end ++ [v]).
(* header.go:87-98 *)
Definition byte_size (h : hdrs) : Z :=
  fold_right (fun kv n => (Z.of_nat (length (fst kv)) + fold_right (fun v n => Z.of_nat (length v) + n) 0 (snd kv) + n)%Z) 0%Z h.
(* header.go:100-108 *)
Definition flatten (h : hdrs) : list (gstr * gstr) := map (fun kv => (fst kv, gjoin ","%char (snd kv))) h.

(* strconv.Atoi: the value, and whether there is an error.  The value is 0 if the text is not a number, the nearest int if it is too large *)
Fixpoint digits (s : gstr) (acc : Z) : option Z :=
  match s with
  | [] => Some acc
  | c :: r => let d := Z.of_nat (nat_of_ascii c) in if (48 <=? d)%Z && (d <=? 57)%Z then digits r (acc * 10 + (d - 48))%Z else None
  end.
Definition max_int : Z := (2 ^ 63 - 1)%Z.
Definition atoi (s : gstr) : Z * bool :=
  let '(neg, d) := match s with c :: r => if Ascii.eqb c "-" then (true, r) else if Ascii.eqb c "+" then (false, r) else (false, s) | [] => (false, []) end in
  match d with
  | [] => (0%Z, true)
  | _ => match digits d 0 with
         | None => (0%Z, true)
         | Some n => if neg then (if (n <=? 2 ^ 63)%Z then (- n, false)%Z else (- 2 ^ 63, true)%Z) else (if (n <=? max_int)%Z then (n, false) else (max_int, true))
         end
  end.
(* net.SplitHostPort *)
Definition has (c : ascii) (s : gstr) : bool := existsb (Ascii.eqb c) s.
Fixpoint cut_last (c : ascii) (s : gstr) : option (gstr * gstr) :=      (* around the last c *)
  match s with
  | [] => None
  | x :: r => match cut_last c r with Some (a, b) => Some (x :: a, b) | None => if Ascii.eqb c x then Some ([], r) else None end
  end.
Fixpoint cut_first (c : ascii) (s : gstr) : option (gstr * gstr) :=
  match s with
  | [] => None
  | x :: r => if Ascii.eqb c x then Some ([], r) else match cut_first c r with Some (a, b) => Some (x :: a, b) | None => None end
  end.
Definition split_host_port (s : gstr) : option (gstr * gstr) :=
  match cut_last ":"%char s with
  | None => None
  | Some (host, port) =>
      match s with
      | x :: rest =>
          if Ascii.eqb x "[" then
            match cut_first "]"%char rest with
            | None => None
            | Some (h, after) =>
                match after with
                | c :: p => if Ascii.eqb c ":" && geqb p port then
                              if has "["%char rest then None else if has "]"%char after then None else Some (h, port)
                            else None
                | [] => None
                end
            end
          else if has ":"%char host then None else if has "["%char s then None else if has "]"%char s then None else Some (host, port)
      | [] => None
      end
  end.

(* network/cert.go: what is read of a certificate *)
Record cert := mkcert { c_subject : gstr; c_uris : list gstr; c_dns : list gstr; c_digest : gstr }.
Definition first (l : list gstr) : gstr := match l with [] => [] | x :: _ => x end.    (* cert.go:63-85 *)
(* network.ConnectionState; the state of the handshake if it is complete *)
Record conn := mkconn
  { k_remote : gstr; k_local : gstr; k_peer : option cert; k_cert : option cert; k_tls : option (gstr * Z * gstr); k_ttfb : Z }.
Record req := mkreq
  { q_uri : gstr; q_path : gstr; q_query : gstr; q_scheme : gstr; q_host : gstr; q_method : gstr; q_proto : gstr; q_hdr : hdrs; q_trl : hdrs; q_conn : option conn }.
Definition with_hdr (q : req) (h : hdrs) : req :=
  mkreq (q_uri q) (q_path q) (q_query q) (q_scheme q) (q_host q) (q_method q) (q_proto q) h (q_trl q) (q_conn q).
(* http/wrappers.go:89-95: Trailer gives the header *)
Record resp := mkresp { p_code : Z; p_hdr : hdrs; p_len : Z; p_conn : option conn }.
Definition p_trl (p : resp) : hdrs := p_hdr p.

(* 231-236 *)
Definition req_size (q : req) : Z :=
  match hget (q_hdr q) (lit "Content-Length") with
  | Some v => let (n, err) := atoi v in if err then n else 0%Z
  | None => 0%Z
  end.
(* 227-273 setRequestProperties *)
Definition request_info (q : req) (ttfb : Z) : list (gstr * dval) :=
  [(lit "path", VStr (q_uri q)); (lit "url_path", VStr (q_path q)); (lit "host", VStr (q_host q)); (lit "scheme", VStr (q_scheme q));
   (lit "method", VStr (q_method q)); (lit "headers", VStrMap (flatten (q_hdr q))); (lit "trailers", VStrMap (flatten (q_trl q)));
   (lit "referer", VPrim PFunc); (lit "useragent", VPrim PFunc); (lit "time", VPrim (PInt64 ttfb)); (lit "id", VPrim PFunc);
   (lit "protocol", VStr (q_proto q)); (lit "query", VStr (q_query q)); (lit "size", VPrim (PInt (req_size q)));
   (lit "total_size", VPrim (PUint64 (u64 (req_size q + byte_size (q_hdr q) + byte_size (q_trl q)))))].
Definition set_request (q : req) (ttfb : Z) (s : stream) : stream := sset s (lit "request") (VMap (request_info q ttfb)).
(* 183-202 *)
Definition conn_info (c : conn) : list (gstr * dval) :=
  (lit "mtls", VPrim (PBool (match k_peer c with Some _ => true | None => false end))) ::
  match k_peer c with
  | Some p => [(lit "subject_peer_certificate", VStr (c_subject p)); (lit "dns_san_peer_certificate", VStr (first (c_dns p)));
               (lit "uri_san_peer_certificate", VStr (first (c_uris p))); (lit "sha256_peer_certificate_digest", VStr (c_digest p))]
  | None => []
  end ++
  match k_cert c with
  | Some p => [(lit "subject_local_certificate", VStr (c_subject p)); (lit "dns_san_local_certificate", VStr (first (c_dns p)));
               (lit "uri_san_local_certificate", VStr (first (c_uris p)))]
  | None => []
  end ++
  match k_tls c with
  | Some (name, version, proto) => [(lit "requested_server_name", VStr name); (lit "tls_version", VScalar version) (* a uint16 *); (lit "negotiated_protocol", VStr proto)]
  | None => []
  end.
Definition set_port (key port : gstr) (s : stream) : stream :=
  let (n, err) := atoi port in if err then s else sset s key (VPrim (PInt n)).
(* 175-225 SetEnvoyConnectionInfo *)
Definition set_connection (c : conn) (s : stream) : stream :=
  let remote := if s_outbound s then lit "upstream" else lit "source" in
  let ckey := if s_outbound s then lit "upstream" else lit "connection" in
  let s1 := sset s ckey (VMap (conn_info c)) in
  let s2 := match split_host_port (k_remote c) with
            | Some (ip, port) =>
                set_port (lit "upstream.port") port
                  (sset (set_port (remote ++ lit ".port") port (sset s1 (remote ++ lit ".address") (VStr ip))) (lit "upstream.address") (VStr ip))
            | None => s1
            end in
  match split_host_port (k_local c) with
  | Some (ip, port) => set_port (lit "destination.port") port (sset s2 (lit "destination.address") (VStr ip))
  | None => s2
  end.
(* 73-81 *)
Definition string_attr (s : stream) (key : gstr) : gstr := match sget s key with GSome (VStr v) => v | _ => [] end.
Variable xfcc : gstr -> gstr -> gstr -> list gstr -> gstr.    (* By, Hash, Subject, DNS *)
(* 72-94 setXForwardedHeaders *)
Definition forwarded (s : stream) (q : req) : req :=
  with_hdr q (hadd (hadd (q_hdr q) (lit "X-Forwarded-Client-Cert")
      (xfcc (string_attr s (lit "connection.uri_san_local_certificate")) (string_attr s (lit "connection.sha256_peer_certificate_digest"))
            (string_attr s (lit "connection.uri_san_peer_certificate")) [string_attr s (lit "dns_san_peer_certificate")]))
    (lit "X-Forwarded-Proto") (lit "https")).
(* 38-45, 96-103, 124-126 BeforeRequest; [now]: the clock *)
Definition before_request (now : Z) (q : req) (s : stream) : req * stream :=
  if s_outbound s then (q, set_request q now s)
  else match q_conn q with
       | Some c => let s' := set_connection c (set_request q (k_ttfb c) s) in (forwarded s' q, s')
       | None => (q, s)
       end.
(* 56-63, 108-109, 131-135 BeforeResponse *)
Definition before_response (p : resp) (s : stream) : stream :=
  if s_outbound s then match p_conn p with Some c => set_connection c s | None => s end else s.
Definition int_attr (s : stream) (key : gstr) : Z := match sget s key with GSome (VPrim (PInt z)) => z | _ => 0%Z end.
(* 146-173 setResponseInfo *)
Definition response_info (p : resp) (s : stream) : list (gstr * dval) :=
  [(lit "flags", VPrim (PInt (int_attr s (lit "response.flags")))); (lit "code", VPrim (PInt (p_code p)));
   (lit "grpc_status", VPrim (PInt (int_attr s (lit "grpc.status")))); (lit "headers", VStrMap (flatten (p_hdr p)));
   (lit "trailers", VStrMap (flatten (p_trl p)))].
Definition set_response (now : Z) (p : resp) (s : stream) : stream :=
  let s1 := sset s (lit "response") (VMap (response_info p s)) in
  match sget s1 (lit "request.time") with
  | GSome (VPrim (PInt64 t)) => sset s1 (lit "request.duration") (VPrim (PInt64 (now - t)))
  | _ => s1
  end.
(* 111-118, 137-144 AfterResponse, the same in both directions *)
Definition after_response (now : Z) (p : resp) (s : stream) : stream :=
  sset (set_response now p s) (lit "response.total_size") (VPrim (PUint64 (u64 (p_len p + byte_size (p_trl p) + byte_size (p_hdr p))))).
End S.
