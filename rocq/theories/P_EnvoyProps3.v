(* C80, continued: whole requests, forwarded headers, responses, attributes that filters set, addresses. *)
From Coq Require Import String List Ascii Bool Arith NArith ZArith Lia.
From Verif Require Import M_GoStr L_GoStr M_Dotn P_Dotn M_WasmMap P_WasmMap M_EnvoyProps P_EnvoyProps P_EnvoyProps2.
Import ListNotations.
Open Scope list_scope.

(* ---------- streams ---------- *)
Lemma new_stream_get : forall o d parent ns, ns <> lit "listener_direction" -> ns <> lit "listener_metadata" -> dget (s_own (new_stream o d parent)) ns = None.
Proof.
  intros o d parent ns H1 H2. apply geqb_neq in H1. apply geqb_neq in H2. change (s_own (new_stream o d parent)) with [(lit "listener_direction", VStr (le64 d)); (lit "listener_metadata", VScalar 0)]. cbn [dget]. now rewrite H1, H2.
Qed.
Lemma new_group : forall o d parent ns, ns <> lit "listener_direction" -> ns <> lit "listener_metadata" -> group (new_stream o d parent) ns.
Proof. intros. unfold group. rewrite new_stream_get by assumption. exact I. Qed.
(* a new stream tells its direction, and every group of attributes is free *)
Theorem C80_new_stream : forall pi o d parent, reads pi (new_stream o d parent) [lit "listener_direction"] (le64 d) /\ connection_groups (new_stream o d parent) /\ group (new_stream o d parent) (lit "request") /\ group (new_stream o d parent) (lit "response").
Proof.
  intros pi o d parent. split; [reflexivity|]. split; [|split; apply new_group; discriminate].
  unfold connection_groups. change (s_outbound (new_stream o d parent)) with o. destruct o; repeat split; apply new_group; discriminate.
Qed.
Print Assumptions C80_new_stream.
Opaque dotn_set.
Lemma out_req : forall q t s, s_outbound (set_request q t s) = s_outbound s.
Proof. reflexivity. Qed.
Lemma group_after_request : forall q t s ns, group s (lit "request") -> group s ns -> group (set_request q t s) ns.
Proof. intros q t s ns H1 H2. pose proof (set_request_view q t s H1) as H. cbv zeta in H. revert H. generalize (set_request q t s). clear H1. intros x (_ & O & _). exact (O ns H2). Qed.
Lemma groups_after_request : forall q t s, group s (lit "request") -> connection_groups s -> connection_groups (set_request q t s).
Proof. intros q t s H (H1 & H2 & H3 & H4). unfold connection_groups. rewrite out_req. split; [|split; [|split]]; apply group_after_request; assumption. Qed.
Lemma get_same_ns : forall pi s s' ns p, name ns -> (forall n, In n p -> name n) -> s_parent s' = s_parent s -> dget (s_own s') ns = dget (s_own s) ns -> get_property pi s' (gjoin NUL (ns :: p)) = get_property pi s (gjoin NUL (ns :: p)).
Proof.
  intros pi s s' ns p Hn Hp E1 E2. rewrite !get_property_path; try discriminate; try (intros n [<-|H]; auto). rewrite E1. cbn [get_loop]. rewrite !name_plain by exact Hn. now rewrite E2.
Qed.
(* An inbound request with a known connection: before the first filter runs the attributes of the request and of the connection can be read,
   and what the filters had read of the request before the connection was added is unchanged. *)
Theorem C80_inbound : forall pi xf now q c d parent, q_conn q = Some c ->
  let s0 := new_stream false d parent in let r := before_request pi xf now q s0 in let s' := snd r in
  (forall p, (forall n, In n p -> name n) -> get_property pi s' (gjoin NUL (lit "request" :: p)) = get_property pi (set_request q (k_ttfb c) s0) (gjoin NUL (lit "request" :: p))) /\
  reads pi s' (at_ "request" "path") (q_uri q) /\ reads pi s' (at_ "request" "host") (q_host q) /\ reads pi s' (at_ "request" "method") (q_method q) /\ reads pi s' (at_ "request" "time") (le64 (k_ttfb c)) /\
  reads pi s' (at_ "connection" "mtls") [ascii_of_nat (match k_peer c with Some _ => 1 | None => 0 end)] /\
  (forall p, k_peer c = Some p -> reads pi s' (at_ "connection" "uri_san_peer_certificate") (first (c_uris p))) /\
  (forall ip port, split_host_port (k_remote c) = Some (ip, port) -> reads pi s' (at_ "source" "address") ip) /\
  (forall ip port, split_host_port (k_local c) = Some (ip, port) -> reads pi s' (at_ "destination" "address") ip).
Proof.
  intros pi xf now q c d parent Hc s0 r s'. assert (Hs: s' = set_connection c (set_request q (k_ttfb c) s0)) by (unfold s', r, before_request; cbn [s_outbound s0 new_stream sset with_own]; rewrite Hc; reflexivity).
  clearbody s' . clear r. destruct (C80_new_stream pi false d parent) as (_ & G1 & G5 & _). fold s0 in G1, G5.
  set (s1 := set_request q (k_ttfb c) s0) in *.
  assert (CG: connection_groups s1) by (apply groups_after_request; assumption).
  destruct (set_connection_view c s1 CG) as (V & O & D). rewrite <- Hs in V, O, D.
  pose proof (C80_request pi q (k_ttfb c) s0 G5) as R. cbv zeta in R. fold s1 in R.
  pose proof (C80_connection pi c s1 CG) as K. cbv zeta in K. rewrite <- Hs in K.
  assert (F: forall p, (forall n, In n p -> name n) -> get_property pi s' (gjoin NUL (lit "request" :: p)) = get_property pi s1 (gjoin NUL (lit "request" :: p))).
  { intros p Hp. apply get_same_ns; [nm|exact Hp|rewrite Hs; unfold set_connection, set_port; repeat match goal with |- context [split_host_port ?a] => destruct (split_host_port a) as [[? ?]|] | |- context [atoi ?p] => destruct (atoi p) as [? [|]] end; reflexivity|apply D; discriminate]. }
  assert (F2: forall k x, name (lit k) -> reads pi s1 [lit "request"; lit k] x -> reads pi s' [lit "request"; lit k] x).
  { intros k x Hk Hx. unfold reads in *. rewrite (F [lit k]); [exact Hx|]. intros n [<-|[]]. exact Hk. }
  destruct R as (R1 & _ & _ & R2 & _ & R3 & _ & R4 & _). destruct K as (K1 & K2 & _ & _ & K3 & K4).
  split; [exact F|]. do 4 (split; [apply F2; [nm|assumption]|]). split; [exact K1|]. split; [intros p Hp; apply (K2 p Hp)|]. split; intros ip port H; [apply (K3 ip port H)|apply (K4 ip port H)].
Qed.
Print Assumptions C80_inbound.
(* the peer's address is also given as the upstream's *)
Theorem C80_upstream_inbound_refuted : forall pi c s ip port, connection_groups s -> s_outbound s = false -> split_host_port (k_remote c) = Some (ip, port) ->
  let s' := set_connection c s in reads pi s' (at_ "source" "address") ip /\ reads pi s' (at_ "upstream" "address") ip.
Proof.
  intros pi c s ip port Hg Ho Hp s'. pose proof (C80_connection pi c s Hg) as K. cbv zeta in K. destruct K as (_ & _ & _ & _ & K & _). destruct (K ip port Hp) as [K1 _]. rewrite Ho in K1. split; [exact K1|].
  destruct (set_connection_view c s Hg) as (V & _). fold s' in V. apply (reads_eq pi s' _ _ (VStr ip)); [nm|nm| |reflexivity]. rewrite V. unfold conn_asgs. rewrite !latest_app, (latest_addr_ns (lit "destination")); [|nm|discriminate]. rewrite (latest_address _ _ ip port Hp). reflexivity.
Qed.
Print Assumptions C80_upstream_inbound_refuted.
(* without a connection state an inbound request leaves no trace: no attribute, no header *)
Theorem C80_no_connection : forall pi xf now q s, s_outbound s = false -> q_conn q = None -> before_request pi xf now q s = (q, s).
Proof. intros pi xf now q s H1 H2. unfold before_request. now rewrite H1, H2. Qed.
Print Assumptions C80_no_connection.
Theorem C80_outbound : forall pi xf now q s, s_outbound s = true -> before_request pi xf now q s = (q, set_request q now s).
Proof. intros pi xf now q s H1. unfold before_request. now rewrite H1. Qed.
Print Assumptions C80_outbound.

(* ---------- forwarded headers ---------- *)
Definition values (h : hdrs) (k : gstr) : list gstr := match dget h k with Some l => l | None => [] end.
Lemma hadd_get : forall h k v k', values (hadd h k v) k' = if geqb k' k then values h k ++ [v] else values h k'.
Proof.
  intros h k v k'. unfold hadd, values. destruct (geqb k' k) eqn:E; [apply geqb_eq in E; subst; now rewrite dget_put_same|]. apply geqb_neq in E. now rewrite dget_put_other by assumption.
Qed.
Definition peer_of (o : option cert) (f : cert -> gstr) : gstr := match o with Some p => f p | None => [] end.
Lemma string_attr_conn : forall pi s k, name k -> opens (s_own s) (lit "connection") -> (forall x, s_parent s x = GNone) ->
  string_attr pi s (lit "connection" ++ DOT :: k) = match view (s_own s) (lit "connection") k with Some (VStr v) => v | _ => [] end.
Proof.
  intros pi s k Hk Ho Hp. unfold string_attr. destruct (view (s_own s) (lit "connection") k) as [v|] eqn:E.
  - rewrite (sget_view pi s _ _ v); [reflexivity|nm|exact Hk|exact E].
  - rewrite sget_absent; [now rewrite Hp|nm|exact Hk|exact Ho|exact E].
Qed.
Lemma inbound_info : forall c k, geqb k (lit "address") = false -> geqb k (lit "port") = false -> latest (conn_asgs false c) (lit "connection") k = latest (map (fun kv => (lit "connection", fst kv, snd kv)) (conn_info c)) (lit "connection") k.
Proof. intros c k H1 H2. exact (conn_latest_info false c k H1 H2). Qed.
(* The application is told about the peer by one more X-Forwarded-Client-Cert value, after those the client sent; the element has this
   workload's URI, the digest and the URI of the peer's certificate and an empty DNS name; everything else about the request is as it was but
   X-Forwarded-Proto, which gets "https". *)
Theorem C80_forwarded : forall pi xf now q c d parent, q_conn q = Some c -> (forall x, parent x = GNone) ->
  let q' := fst (before_request pi xf now q (new_stream false d parent)) in
  q' = with_hdr q (q_hdr q') /\
  values (q_hdr q') (lit "X-Forwarded-Client-Cert") = values (q_hdr q) (lit "X-Forwarded-Client-Cert") ++
     [xf (peer_of (k_cert c) (fun p => first (c_uris p))) (peer_of (k_peer c) c_digest) (peer_of (k_peer c) (fun p => first (c_uris p))) [[]]] /\
  values (q_hdr q') (lit "X-Forwarded-Proto") = values (q_hdr q) (lit "X-Forwarded-Proto") ++ [lit "https"] /\
  (forall k, k <> lit "X-Forwarded-Client-Cert" -> k <> lit "X-Forwarded-Proto" -> values (q_hdr q') k = values (q_hdr q) k).
Proof.
  intros pi xf now q c d parent Hc Hp q'. set (s0 := new_stream false d parent). set (s1 := set_request q (k_ttfb c) s0). set (s' := set_connection c s1).
  assert (Hq: q' = forwarded pi xf s' q) by (unfold q', before_request; cbn [s_outbound new_stream sset with_own]; rewrite Hc; reflexivity). clearbody q'. subst q'.
  destruct (C80_new_stream pi false d parent) as (_ & G1 & G5 & _). fold s0 in G1, G5.
  assert (CG: connection_groups s1) by (apply groups_after_request; assumption).
  destruct (set_connection_view c s1 CG) as (V & O & D). fold s' in V, O, D.
  destruct (set_request_view q (k_ttfb c) s0 G5) as (V1 & _ & _ & D1). fold s1 in V1, D1.
  assert (P: forall x, s_parent s' x = GNone).
  { assert (E: s_parent s' = parent) by (unfold s', s1, s0, set_connection, set_port; repeat match goal with |- context [split_host_port ?a] => destruct (split_host_port a) as [[? ?]|] | |- context [atoi ?p] => destruct (atoi p) as [? [|]] end; reflexivity). rewrite E. exact Hp. }
  assert (OC: opens (s_own s') (lit "connection")) by (apply O; apply CG).
  assert (N0: forall k, view (s_own s1) (lit "connection") k = None).
  { intros k. unfold view. rewrite D1 by discriminate. unfold s0. rewrite new_stream_get by discriminate. reflexivity. }
  assert (S1: string_attr pi s' (lit "connection.uri_san_local_certificate") = peer_of (k_cert c) (fun p => first (c_uris p))).
  { change (lit "connection.uri_san_local_certificate") with (lit "connection" ++ DOT :: lit "uri_san_local_certificate"). rewrite string_attr_conn; [|nm|exact OC|exact P]. rewrite V, N0. change (s_outbound s1) with false. rewrite (inbound_info c (lit "uri_san_local_certificate")) by reflexivity. unfold conn_info, peer_of. clear.
    destruct (k_peer c), (k_cert c), (k_tls c) as [[[? ?] ?]|]; vm_compute; reflexivity. }
  assert (S2: string_attr pi s' (lit "connection.sha256_peer_certificate_digest") = peer_of (k_peer c) c_digest).
  { change (lit "connection.sha256_peer_certificate_digest") with (lit "connection" ++ DOT :: lit "sha256_peer_certificate_digest"). rewrite string_attr_conn; [|nm|exact OC|exact P]. rewrite V, N0. change (s_outbound s1) with false. rewrite (inbound_info c (lit "sha256_peer_certificate_digest")) by reflexivity. unfold conn_info, peer_of. clear.
    destruct (k_peer c), (k_cert c), (k_tls c) as [[[? ?] ?]|]; vm_compute; reflexivity. }
  assert (S3: string_attr pi s' (lit "connection.uri_san_peer_certificate") = peer_of (k_peer c) (fun p => first (c_uris p))).
  { change (lit "connection.uri_san_peer_certificate") with (lit "connection" ++ DOT :: lit "uri_san_peer_certificate"). rewrite string_attr_conn; [|nm|exact OC|exact P]. rewrite V, N0. change (s_outbound s1) with false. rewrite (inbound_info c (lit "uri_san_peer_certificate")) by reflexivity. unfold conn_info, peer_of. clear.
    destruct (k_peer c), (k_cert c), (k_tls c) as [[[? ?] ?]|]; vm_compute; reflexivity. }
  assert (S4: string_attr pi s' (lit "dns_san_peer_certificate") = []).
  { assert (E: dget (s_own s') (lit "dns_san_peer_certificate") = None).
    { rewrite D by discriminate. rewrite D1 by discriminate. unfold s0. apply new_stream_get; discriminate. }
    unfold string_attr, sget. assert (E2: dotn_get pi (s_own s') (lit "dns_san_peer_certificate") = GNone) by (unfold dotn_get; change (gsplit DOT (unescape (lit "dns_san_peer_certificate"))) with [lit "dns_san_peer_certificate"]; cbn [get_loop]; change (restore (lit "dns_san_peer_certificate")) with (lit "dns_san_peer_certificate"); now rewrite E).
    rewrite E2, P. reflexivity. }
  unfold forwarded. rewrite S1, S2, S3, S4. clear. cbn [q_hdr with_hdr]. split; [reflexivity|]. rewrite !hadd_get. split; [reflexivity|]. split; [reflexivity|].
  intros k H1 H2. rewrite !hadd_get. apply geqb_neq in H1. apply geqb_neq in H2. now rewrite H1, H2.
Qed.
Print Assumptions C80_forwarded.
(* a client that sends the header itself is believed by whoever reads the first value; https is claimed for plain text too *)
Theorem C80_spoofed_refuted : forall pi xf now q c d parent v vs, q_conn q = Some c -> (forall x, parent x = GNone) ->
  dget (q_hdr q) (lit "X-Forwarded-Client-Cert") = Some (v :: vs) -> v <> [] ->
  hget (q_hdr (fst (before_request pi xf now q (new_stream false d parent)))) (lit "X-Forwarded-Client-Cert") = Some v.
Proof.
  intros pi xf now q c d parent v vs Hc Hp Hv Hn. pose proof (C80_forwarded pi xf now q c d parent Hc Hp) as H. cbv zeta in H. destruct H as (_ & H & _). revert H. generalize (q_hdr (fst (before_request pi xf now q (new_stream false d parent)))). intros h H. unfold values in H. rewrite Hv in H. unfold hget. destruct (dget h (lit "X-Forwarded-Client-Cert")) as [l|]; [|discriminate]. rewrite H. cbn [app]. destruct v; [congruence|reflexivity].
Qed.
Print Assumptions C80_spoofed_refuted.

(* ---------- responses ---------- *)
Lemma resp_good : forall pi p s k v, In (k, v) (response_info pi p s) -> name k /\ scalar v.
Proof. intros pi p s k v H. cbn [response_info In] in H. repeat (destruct H as [H|H]; [injection H as <- <-; split; [nm|sc]|]). contradiction. Qed.
Definition resp_asgs (pi : gstr -> option Z) (p : resp) (s : stream) : list asg := map (fun kv => (lit "response", fst kv, snd kv)) (response_info pi p s).
Lemma set_resp_view : forall pi p s x, x = sset s (lit "response") (VMap (response_info pi p s)) -> group s (lit "response") ->
  (forall ns k, view (s_own x) ns k = match latest (resp_asgs pi p s) ns k with Some v => Some v | None => view (s_own s) ns k end) /\
  (forall ns, opens (s_own s) ns -> opens (s_own x) ns) /\ opens (s_own x) (lit "response") /\ (forall ns, ns <> lit "response" -> dget (s_own x) ns = dget (s_own s) ns) /\ s_parent x = s_parent s.
Proof.
  intros pi p s x Hx Hg. assert (Hs: s_own x = dotn_set (s_own s) (lit "response") (VMap (response_info pi p s))) by (rewrite Hx; reflexivity). assert (Hp: s_parent x = s_parent s) by (rewrite Hx; reflexivity). clear Hx. rewrite Hs, Hp. clear Hs Hp.
  destruct (set_map (s_own s) (lit "response") (response_info pi p s)) as (m0 & -> & V & O & O2 & D); [nm|apply resp_good|exact Hg|].
  destruct (do_all (resp_asgs pi p s) m0) as (V3 & O3 & D3).
  - apply Forall_forall. intros a Ha. apply in_map_iff in Ha. destruct Ha as ([k v] & <- & Hk). destruct (resp_good _ _ _ _ _ Hk). split; [nm|auto].
  - intros a Ha. apply in_map_iff in Ha. destruct Ha as ([k v] & <- & Hk). exact O2.
  - unfold resp_asgs in *. split; [intros; rewrite V3, V; reflexivity|]. split; [auto|]. split; [auto|]. split; [|reflexivity]. intros ns Hne. rewrite D3; [auto|]. rewrite map_map. intros Hi. apply in_map_iff in Hi. destruct Hi as (y & Hy & _). apply Hne. symmetry. exact Hy.
Qed.
Definition is_time (o : option dval) (t : Z) : Prop := o = Some (VPrim (PInt64 t)).
(* After a response filters (when the stream is closed) read its status, headers, flags and size; the duration if the start is known. *)
Theorem C80_response : forall pi now p s, group s (lit "response") -> group s (lit "request") ->
  let s' := after_response pi now p s in
  reads pi s' (at_ "response" "code") (le64 (p_code p)) /\ reads pi s' (at_ "response" "flags") (le64 (int_attr pi s (lit "response.flags"))) /\
  reads pi s' (at_ "response" "grpc_status") (le64 (int_attr pi s (lit "grpc.status"))) /\
  reads pi s' (at_ "response" "headers") (serialize (flatten (p_hdr p))) /\
  (forall k vs, name k -> dget (p_hdr p) k = Some vs -> reads pi s' [lit "response"; lit "headers"; k] (gjoin ","%char vs)) /\
  (* the headers are given as trailers too, and counted twice *)
  reads pi s' (at_ "response" "trailers") (serialize (flatten (p_hdr p))) /\
  reads pi s' (at_ "response" "total_size") (le64 (p_len p + 2 * byte_size (p_hdr p))) /\
  (forall t, is_time (view (s_own s) (lit "request") (lit "time")) t -> reads pi s' (at_ "request" "duration") (le64 (now - t))).
Proof.
  intros pi now p s G1 G2 s'. unfold after_response, set_response in s'.
  remember (sset s (lit "response") (VMap (response_info pi p s))) as s1 eqn:E1. destruct (set_resp_view pi p s s1 E1 G1) as (V & O & OR & D & P).
  set (s2 := match sget pi s1 (lit "request.time") with GSome (VPrim (PInt64 t)) => sset s1 (lit "request.duration") (VPrim (PInt64 (now - t))) | _ => s1 end) in *.
  assert (OQ: opens (s_own s1) (lit "request")) by (apply O; exact G2). clear E1.
  assert (V2: (forall k, view (s_own s2) (lit "response") k = view (s_own s1) (lit "response") k) /\ opens (s_own s2) (lit "response") /\
     (forall t, is_time (view (s_own s) (lit "request") (lit "time")) t -> view (s_own s2) (lit "request") (lit "duration") = Some (VPrim (PInt64 (now - t))))).
  { assert (K: forall t, (forall k, view (s_own (sset s1 (lit "request.duration") (VPrim (PInt64 t)))) (lit "response") k = view (s_own s1) (lit "response") k) /\ opens (s_own (sset s1 (lit "request.duration") (VPrim (PInt64 t)))) (lit "response") /\ view (s_own (sset s1 (lit "request.duration") (VPrim (PInt64 t)))) (lit "request") (lit "duration") = Some (VPrim (PInt64 t))).
    { intros t. change (lit "request.duration") with (lit "request" ++ DOT :: lit "duration"). rewrite sset2; [|nm|nm|sc]. unfold do_asg. cbn [fst snd]. destruct (set2 (s_own s1) (lit "request") (lit "duration") (VPrim (PInt64 t))) as (W & WO & _); [nm|nm|sc|exact OQ|]. split; [intros k; rewrite W; reflexivity|]. split; [apply WO; exact OR|rewrite W; reflexivity]. }
    split; [|split].
    - intros k. unfold s2. destruct (sget pi s1 (lit "request.time")) as [[ | | | | | |[]]| |]; try reflexivity. apply K.
    - unfold s2. destruct (sget pi s1 (lit "request.time")) as [[ | | | | | |[]]| |]; try exact OR. apply K.
    - intros t Ht. assert (E: sget pi s1 (lit "request.time") = GSome (VPrim (PInt64 t))).
      { change (lit "request.time") with (lit "request" ++ DOT :: lit "time"). apply sget_view; [nm|nm|]. rewrite V. replace (latest (resp_asgs pi p s) (lit "request") (lit "time")) with (@None dval) by reflexivity. exact Ht. }
      unfold s2. rewrite E. apply K. }
  destruct V2 as (V2 & O2 & V3). clearbody s2.
  assert (W: (forall k, geqb k (lit "total_size") = false -> view (s_own s') (lit "response") k = view (s_own s1) (lit "response") k) /\ view (s_own s') (lit "response") (lit "total_size") = Some (VPrim (PUint64 (u64 (p_len p + byte_size (p_trl p) + byte_size (p_hdr p))))) /\ (forall k, view (s_own s') (lit "request") k = view (s_own s2) (lit "request") k)).
  { unfold s'. change (lit "response.total_size") with (lit "response" ++ DOT :: lit "total_size"). rewrite sset2; [|nm|nm|sc]. unfold do_asg. cbn [fst snd]. match goal with |- context [set_scalar _ _ ?v] => destruct (set2 (s_own s2) (lit "response") (lit "total_size") v) as (W & _ & _); [nm|nm|sc|exact O2|] end.
    split; [|split]; intros; rewrite W; [rewrite H, andb_false_r; apply V2|reflexivity|reflexivity]. }
  destruct W as (W1 & W2 & W3). clearbody s'.
  assert (R: forall k v, name (lit k) -> geqb (lit k) (lit "total_size") = false -> latest (resp_asgs pi p s) (lit "response") (lit k) = Some v -> view (s_own s') (lit "response") (lit k) = Some v) by (intros k v _ H1 H2; now rewrite W1, V, H2).
  split; [apply (reads_eq pi s' _ _ (VPrim (PInt (p_code p)))); [nm|nm|apply R; [nm|reflexivity|reflexivity]|reflexivity]|].
  split; [apply (reads_eq pi s' _ _ (VPrim (PInt (int_attr pi s (lit "response.flags"))))); [nm|nm|apply R; [nm|reflexivity|reflexivity]|reflexivity]|].
  split; [apply (reads_eq pi s' _ _ (VPrim (PInt (int_attr pi s (lit "grpc.status"))))); [nm|nm|apply R; [nm|reflexivity|reflexivity]|reflexivity]|].
  split; [apply (reads_eq pi s' _ _ (VStrMap (flatten (p_hdr p)))); [nm|nm|apply R; [nm|reflexivity|reflexivity]|reflexivity]|].
  split; [intros k vs Hk Hv; apply (reads_in_map pi s' _ _ _ (flatten (p_hdr p))); [nm|nm|exact Hk|apply R; [nm|reflexivity|reflexivity]|rewrite flatten_get, Hv; reflexivity]|].
  split; [apply (reads_eq pi s' _ _ (VStrMap (flatten (p_hdr p)))); [nm|nm|apply R; [nm|reflexivity|reflexivity]|reflexivity]|].
  split.
  - eapply reads_eq; [nm|nm|exact W2|]. cbn [stringify]. rewrite le64_u64. f_equal. unfold p_trl. lia.
  - intros t Ht. eapply reads_eq; [nm|nm|rewrite W3; apply V3; exact Ht|reflexivity].
Qed.
Print Assumptions C80_response.
(* the status of a gRPC call is stored with its own type, and what a filter sets is a text: neither is taken over *)
Theorem C80_flags_and_status_refuted : forall pi s ns k v, name ns -> name k -> view (s_own s) ns k = Some v -> (exists z, v = VPrim (PCode z)) \/ (exists x, v = VStr x) -> int_attr pi s (ns ++ DOT :: k) = 0%Z.
Proof. intros pi s ns k v H1 H2 Hv H. unfold int_attr. rewrite (sget_view pi s ns k v H1 H2 Hv). destruct H as [[z ->]|[x ->]]; reflexivity. Qed.
Print Assumptions C80_flags_and_status_refuted.
