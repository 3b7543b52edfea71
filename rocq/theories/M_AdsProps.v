(* Model: TCP destination cluster, inbound listener properties and transport socket selection.
   Paths are relative to /repo/pkg/ads/.

   Messages keep the fields the modelled functions read.  The listeners and clusters that list/get functions of the caches
   return are arguments (C20-C24 treat the caches); lists stand for maps, in any order.  Metadata (JSON) is not modelled
   except the string fields of 'envoy.transport_socket_match'.  A validation context is a number (C42 treats its content). *)
From Coq Require Import List String Bool NArith.
From Verif Require Import M_GoMap M_AdsRoute M_AdsLb.
Import ListNotations.
Open Scope string_scope.

(* ---- TCP destination: api_tcp_client.go:216-318 ---- *)
(* a network filter: a TCP proxy (cluster, weighted clusters; a oneof, so at most one is set), a filter of that name whose
   configuration does not decode, or any other filter *)
Inductive nfilter := NTcp (cl : string) (weighted : option (list (string * N))) | NTcpBad | NOther.
Record tlistener := mktl { tl_outbound : bool; tl_addr : string; tl_port : nat; tl_chains : list (list nfilter) }.

(* :248-252 the weights as a map: the last entry of a name counts *)
Definition weight_map (ws : list (string * N)) : gmap N := fold_left (fun m e => mset (fst e) (snd e) m) ws [].
(* :233-260 the loop over the filters of one chain, with the cluster name found so far; break leaves this loop only *)
Fixpoint chain_name (A : arith) (fs : list nfilter) (cur : string) (st : gmap N) : string * gmap N :=
  match fs with
  | [] => (cur, st)
  | NTcp c w :: rest =>
      if String.eqb c "" then
        match w with
        | Some ws =>
            let (n, st') := select_cluster A (weight_map ws) st in
            if String.eqb n "" then chain_name A rest n st' else (n, st')
        | None => chain_name A rest cur st
        end
      else (c, st)
  | _ :: rest => chain_name A rest cur st
  end.
(* :232-261 the loop over the filter chains *)
Fixpoint chains_name (A : arith) (cs : list (list nfilter)) (cur : string) (st : gmap N) : string * gmap N :=
  match cs with
  | [] => (cur, st)
  | fs :: rest => let (n, st') := chain_name A fs cur st in chains_name A rest n st'
  end.
(* internal/listener/listener.go:71-89 with the name of the TCP proxy *)
Definition is_tcp (l : tlistener) : bool := existsb (existsb (fun f => match f with NTcp _ _ | NTcpBad => true | NOther => false end)) (tl_chains l).
(* internal/listener/listener.go:47-69 *)
Definition tl_listening_on (lib : netlib) (ip : string) (port : nat) (l : tlistener) : bool :=
  String.eqb (join_host_port (match parse_ip lib (tl_addr l) with Some i => i | None => "" end) (tl_port l)) (join_host_port ip port).
(* api_tcp_client.go:280-318 getTCPOutboundListener *)
Definition tcp_listener (lib : netlib) (all : list tlistener) (ips : list string) (port : nat) : tlistener + herr :=
  let sel p := filter (fun l => tl_outbound l && is_tcp l && p l) all in
  let ls := match sel (fun l => existsb (fun ip => tl_listening_on lib ip port l) ips) with
            | [] => sel (tl_listening_on lib "0.0.0.0" port)
            | ls => ls
            end in
  match ls with
  | [] => inr NoListener
  | [l] => inl l
  | _ => inr ManyListeners
  end.
(* api_tcp_client.go:220-278 getTCPClientTargetCluster; [resolved] is the result of ResolveHost, [known]: the cluster cache has
   the name.  The statistics also change when an error is returned. *)
Definition tcp_target (lib : netlib) (A : arith) (resolved : list string + herr) (all : list tlistener) (known : string -> bool) (port : nat) (st : gmap N)
  : (string + herr) * gmap N :=
  match resolved with
  | inr e => (inr e, st)
  | inl ips =>
    match tcp_listener lib all ips port with
    | inr e => (inr e, st)
    | inl l =>
      let (n, st') := chains_name A (tl_chains l) "" st in
      if String.eqb n "" then (inr NoClusterName, st')
      else if known n then (inl n, st') else (inr NoCluster, st')
    end
  end.

(* ---- inbound listener properties: api_listener_properties.go:178-337 ---- *)
Inductive ipaddr := V4 (n : N) | V6 (n : N).
(* a CidrRange: address_prefix and prefix_len (0 if absent) *)
Record cidr := mkcidr { cd_addr : string; cd_len : N }.
(* a FilterChain: destination_port, prefix_ranges ([] if absent), transport_protocol; its DownstreamTlsContext if it has a
   transport socket that decodes to one: require_client_certificate and validation context *)
Record dctx := mkdctx { dc_require : bool; dc_valid : option nat }.
Record fchain := mkfc { fc_port : option N; fc_ranges : list cidr; fc_transport : string; fc_tls : option dctx }.
Record ilistener := mkil { il_inbound : bool; il_chains : list fchain; il_default : option fchain }.
(* net.ParseIP is a parameter; IPv4-mapped IPv6 addresses count as V4 (as To4 does) *)
Definition addr_parser := string -> option ipaddr.
(* net.ParseCIDR of "addr/len"; an IPv4-mapped IPv6 prefix is not modelled *)
Definition parse_cidr (pa : addr_parser) (c : cidr) : option (ipaddr * N) :=
  match pa (cd_addr c) with
  | Some (V4 n) => if N.leb (cd_len c) 32 then Some (V4 n, cd_len c) else None
  | Some (V6 n) => if N.leb (cd_len c) 128 then Some (V6 n, cd_len c) else None
  | None => None
  end.
(* IPNet.Contains; a nil IP is in no network *)
Definition net_contains (net : ipaddr * N) (ip : option ipaddr) : bool :=
  match net, ip with
  | (V4 n, len), Some (V4 a) => N.eqb (N.shiftr n (32 - len)) (N.shiftr a (32 - len))
  | (V6 n, len), Some (V6 a) => N.eqb (N.shiftr n (128 - len)) (N.shiftr a (128 - len))
  | _, _ => false
  end.
(* :318-337 matchPrefixRanges; None: an error *)
Fixpoint match_ranges (pa : addr_parser) (rs : list cidr) (ip : option ipaddr) : option bool :=
  match rs with
  | [] => Some false
  | c :: rest =>
      if String.eqb (cd_addr c) "" then match_ranges pa rest ip
      else match parse_cidr pa c with
           | None => None
           | Some net => if net_contains net ip then Some true else match_ranges pa rest ip
           end
  end.
Definition dst_port (fc : fchain) : N := match fc_port fc with Some p => p | None => 0%N end.
(* :262-287 step 1 *)
Definition by_port (fcs : list fchain) (port : N) : list fchain :=
  match filter (fun fc => N.eqb port (dst_port fc)) fcs with
  | [] => filter (fun fc => N.eqb 0 (dst_port fc)) fcs
  | l => l
  end.
(* :289-303 the first loop of step 2 *)
Fixpoint by_range (pa : addr_parser) (ip : option ipaddr) (fcs : list fchain) : option (list fchain) :=
  match fcs with
  | [] => Some []
  | fc :: rest =>
      match fc_ranges fc with
      | [] => by_range pa ip rest
      | rs =>
          match match_ranges pa rs ip with
          | None => None
          | Some ok => match by_range pa ip rest with
                       | Some l => Some (if ok then fc :: l else l)
                       | None => None
                       end
          end
      end
  end.
(* :257-316 findFilterChain *)
Definition find_filter_chain (pa : addr_parser) (fcs : list fchain) (port : N) (ip : option ipaddr) : option (list fchain) :=
  match by_range pa ip (by_port fcs port) with
  | None => None
  | Some [] => Some (filter (fun fc => match fc_ranges fc with [] => true | _ => false end) (by_port fcs port))
  | Some l => Some l
  end.
(* ListenerProperties *)
Record lprops := mklp { lp_tls : bool; lp_permissive : bool; lp_require : bool; lp_verifier : option nat }.
Inductive lerr := LBadCidr | LMany | LNone.
(* :212-234; xds_filters.TLSTransportProtocol and RawBufferTransportProtocol *)
Definition fold_chain (p : lprops * bool) (fc : fchain) : lprops * bool :=
  let (lp, raw) := p in
  if String.eqb (fc_transport fc) "tls" then
    (match fc_tls fc with
     | Some d => mklp true false (dc_require d) (match dc_valid d with Some v => Some v | None => lp_verifier lp end)
     | None => mklp true false (lp_require lp) (lp_verifier lp)
     end, raw)
  else if String.eqb (fc_transport fc) "raw_buffer" then (lp, true) else (lp, raw).
Definition chain_props (fcs : list fchain) : lprops :=
  let '(lp, raw) := fold_left fold_chain fcs (mklp false false false None, false) in
  mklp (lp_tls lp) (lp_tls lp && raw) (lp_require lp) (lp_verifier lp).
(* :191-205 the chains that count for one listener *)
Definition listener_chains (pa : addr_parser) (port : N) (ip : option ipaddr) (l : ilistener) : option (list fchain) :=
  match find_filter_chain pa (il_chains l) port ip with
  | None => None
  | Some [] => Some (match il_default l with Some d => [d] | None => [] end)
  | Some l => Some l
  end.
(* :187-250; metadata errors are not modelled *)
Fixpoint listener_loop (pa : addr_parser) (port : N) (ip : option ipaddr) (ls : list ilistener) (found : option lprops) : lprops + lerr :=
  match ls with
  | [] => match found with Some lp => inl lp | None => inr LNone end
  | l :: rest =>
      match listener_chains pa port ip l with
      | None => inr LBadCidr
      | Some [] => listener_loop pa port ip rest found
      | Some fcs => match found with
                    | Some _ => inr LMany
                    | None => listener_loop pa port ip rest (Some (chain_props fcs))
                    end
      end
  end.
(* :178-255 getListenerProperties of an initialised client; [host] is the text of the address *)
Definition listener_properties (pa : addr_parser) (all : list ilistener) (host : string) (port : N) : lprops + lerr :=
  listener_loop pa port (pa host) (filter il_inbound all) None.

(* ---- transport sockets: internal/cluster/cluster.go:133-216 and api_tcp_client.go:396-425 ---- *)
(* a metadata value: a string or something else *)
Inductive mvalue := MVStr (s : string) | MVOther.
(* an UpstreamTlsContext: sni and validation context *)
Record uctx := mkuctx { uc_sni : string; uc_valid : option nat }.
Record tsocket := mkts { ts_name : string; ts_ctx : option uctx }.
Record tsmatch := mktm { tm_match : list (string * mvalue) (* a map: distinct keys *); tm_socket : option tsocket }.
Record tcluster := mktc { tc_matches : list tsmatch; tc_socket : option tsocket }.
Inductive res (X : Type) := Ret (x : X) | Crash.
Arguments Ret {X} x. Arguments Crash {X}.
(* cluster.go:196-204; both type assertions panic on anything but a string, and on a missing key *)
Fixpoint criteria_ok (ep : gmap mvalue) (sm : list (string * mvalue)) : res bool :=
  match sm with
  | [] => Ret true
  | (k, v) :: rest =>
      match mget k ep, v with
      | Some (MVStr a), MVStr b => if String.eqb a b then criteria_ok ep rest else Ret false
      | _, _ => Crash
      end
  end.
Definition opt_list {X} (o : option X) : list X := match o with Some x => [x] | None => [] end.
(* cluster.go:181-208 *)
Fixpoint match_sockets (ep : gmap mvalue) (ms : list tsmatch) : res (list tsocket) :=
  match ms with
  | [] => Ret []
  | m :: rest =>
      match (match tm_match m with
             | [] => Ret true
             | sm => if Nat.eqb (List.length ep) (List.length sm) then criteria_ok ep sm else Ret false
             end) with
      | Crash => Crash
      | Ret ok => match match_sockets ep rest with
                  | Ret l => Ret ((if ok then opt_list (tm_socket m) else []) ++ l)%list
                  | Crash => Crash
                  end
      end
  end.
(* cluster.go:178-216 *)
Definition matching_sockets (c : tcluster) (ep : gmap mvalue) : res (list tsocket) :=
  match match_sockets ep (tc_matches c) with
  | Ret l => Ret (l ++ opt_list (tc_socket c))%list
  | Crash => Crash
  end.
(* wellknown.TransportSocketTLS, TransportSocketRawBuffer *)
Definition tls_name := "envoy.transport_sockets.tls".
Definition raw_name := "envoy.transport_sockets.raw_buffer".
Definition is_tls (s : tsocket) : bool := String.eqb (ts_name s) tls_name.
Definition is_raw (s : tsocket) : bool := String.eqb (ts_name s) raw_name.
(* cluster.go:133-147 *)
Definition server_name (l : list tsocket) : string :=
  match l with
  | s :: _ => if is_tls s then match ts_ctx s with Some c => uc_sni c | None => "" end else ""
  | [] => ""
  end.
(* cluster.go:150-157 *)
Definition uses_tls (l : list tsocket) : bool := match l with s :: _ => is_tls s | [] => false end.
(* cluster.go:160-176 *)
Definition is_permissive (l : list tsocket) : bool := existsb is_tls l && existsb is_raw l.
(* ClientProperties without address and metadata; api_tcp_client.go:411-425 *)
Record cprops := mkcp { cp_tls : bool; cp_permissive : bool; cp_server : string; cp_verifier : option nat }.
(* [tsm]: the endpoint's 'envoy.transport_socket_match' metadata: absent, an object, or something else (api_tcp_client.go:396-401, where
   errors.WrapIff of a nil error is nil: no properties and no error) *)
Inductive tsm_meta := TsmAbsent | TsmObject (ep : gmap mvalue) | TsmOther.
Definition client_props (c : tcluster) (tsm : tsm_meta) : res (option cprops) :=
  match tsm with
  | TsmOther => Ret None
  | _ =>
    match matching_sockets c (match tsm with TsmObject ep => ep | _ => [] end) with
    | Crash => Crash
    | Ret l => Ret (Some (mkcp (uses_tls l) (is_permissive l) (server_name l)
                 (match l with s :: _ => match ts_ctx s with Some u => uc_valid u | None => None end | [] => None end)))
    end
  end.
(* the peer certificate callback of pkg/tls/verify/util.go:93-104: it dereferences the verifier configuration *)
Definition peer_check (verifier : option nat) (verify : nat -> bool) : res bool :=
  match verifier with Some v => Ret (verify v) | None => Crash end.
