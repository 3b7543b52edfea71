(* C80: what filters read of a request, a connection and a response, and what the application is told. *)
From Coq Require Import String List Ascii Bool Arith NArith ZArith Lia.
From Verif Require Import M_GoStr L_GoStr M_Dotn P_Dotn M_WasmMap P_WasmMap M_EnvoyProps P_EnvoyProps.
Import ListNotations.
Open Scope list_scope.
Notation at_ ns k := [lit ns; lit k].

Lemma sget_other : forall s k v, s_parent (sset s k v) = s_parent s /\ s_outbound (sset s k v) = s_outbound s.
Proof. intros; split; reflexivity. Qed.
Ltac sc := solve [left; eexists; reflexivity | right; left; eexists; reflexivity | right; right; left; eexists; reflexivity | right; right; right; eexists; reflexivity].

(* ---------- requests ---------- *)
Definition req_asgs (q : req) (t : Z) : list asg := map (fun kv => (lit "request", fst kv, snd kv)) (request_info q t).
Lemma req_good : forall q t k v, In (k, v) (request_info q t) -> name k /\ scalar v.
Proof. intros q t k v H. cbn [request_info In] in H. repeat (destruct H as [H|H]; [injection H as <- <-; split; [nm|sc]|]). contradiction. Qed.
Lemma set_request_view : forall q t s, group s (lit "request") ->
  let s' := set_request q t s in
  (forall ns k, view (s_own s') ns k = match latest (req_asgs q t) ns k with Some v => Some v | None => view (s_own s) ns k end) /\
  (forall ns, opens (s_own s) ns -> opens (s_own s') ns) /\ opens (s_own s') (lit "request") /\ (forall ns, ns <> lit "request" -> dget (s_own s') ns = dget (s_own s) ns).
Proof.
  intros q t s Hg s'. assert (Hs: s_own s' = dotn_set (s_own s) (lit "request") (VMap (request_info q t))) by reflexivity. clearbody s'. rewrite Hs. clear Hs.
  destruct (set_map (s_own s) (lit "request") (request_info q t)) as (m0 & -> & V & O & O2 & D); [nm|apply req_good|exact Hg|].
  destruct (do_all (req_asgs q t) m0) as (V3 & O3 & D3).
  - apply Forall_forall. intros a Ha. apply in_map_iff in Ha. destruct Ha as ([k v] & <- & Hk). destruct (req_good _ _ _ _ Hk). split; [nm|auto].
  - intros a Ha. apply in_map_iff in Ha. destruct Ha as ([k v] & <- & Hk). exact O2.
  - unfold req_asgs in *. split; [intros; rewrite V3, V; reflexivity|]. split; [auto|]. split; [auto|]. intros ns Hne. rewrite D3; [auto|]. rewrite map_map. intros Hi. apply in_map_iff in Hi. destruct Hi as (x & Hx & _). apply Hne. symmetry. exact Hx.
Qed.
(* headers are a map of texts below the attribute *)
Lemma flatten_get : forall h k, dget (flatten h) k = option_map (gjoin ","%char) (dget h k).
Proof. induction h as [|[k' v] h IH]; intros k; [reflexivity|]. cbn. destruct (geqb k k'); [reflexivity|apply IH]. Qed.
Lemma reads_in_map : forall pi s ns k x m v, name ns -> name k -> name x -> view (s_own s) ns k = Some (VStrMap m) -> dget m x = Some v -> reads pi s [ns; k; x] v.
Proof.
  intros pi s ns k x m v Hn Hk Hx Hv Hm. unfold reads. rewrite get_property_path; [|discriminate|intros n [<-|[<-|[<-|[]]]]; assumption]. cbn [get_loop]. rewrite !name_plain by assumption.
  unfold view in Hv. destruct (dget (s_own s) ns) as [[y|y| | | | |]|]; try discriminate; rewrite Hv, Hm; reflexivity.
Qed.
Lemma reads_miss_map : forall pi s ns k x m, name ns -> name k -> name x -> view (s_own s) ns k = Some (VStrMap m) -> dget m x = None -> s_parent s (gjoin DOT [ns; k; x]) = GNone -> get_property pi s (gjoin NUL [ns; k; x]) = NotFound.
Proof.
  intros pi s ns k x m Hn Hk Hx Hv Hm Hp. rewrite get_property_path; [|discriminate|intros n [<-|[<-|[<-|[]]]]; assumption]. rewrite Hp. cbn [get_loop]. rewrite !name_plain by assumption.
  unfold view in Hv. destruct (dget (s_own s) ns) as [[y|y| | | | |]|]; try discriminate; rewrite Hv, Hm; reflexivity.
Qed.
Lemma le64_u64 : forall z, le64 (u64 z) = le64 z.
Proof. intros z. unfold le64. assert (E: u64 (u64 z) = u64 z) by (apply Z.mod_mod; discriminate). now rewrite E. Qed.
Lemma reads_eq : forall pi s ns k v x, name ns -> name k -> view (s_own s) ns k = Some v -> stringify v = x -> reads pi s [ns; k] x.
Proof. intros; subst; now apply reads_view. Qed.
Ltac rd V := eapply reads_eq; [nm|nm|rewrite V; reflexivity|cbn [stringify]; try reflexivity].

(* What a filter reads of a request, once the attributes are set: path, host, ... as they came, each header with its values joined. *)
Theorem C80_request : forall pi q t s, group s (lit "request") ->
  let s' := set_request q t s in
  reads pi s' (at_ "request" "path") (q_uri q) /\ reads pi s' (at_ "request" "url_path") (q_path q) /\ reads pi s' (at_ "request" "query") (q_query q) /\
  reads pi s' (at_ "request" "host") (q_host q) /\ reads pi s' (at_ "request" "scheme") (q_scheme q) /\ reads pi s' (at_ "request" "method") (q_method q) /\
  reads pi s' (at_ "request" "protocol") (q_proto q) /\ reads pi s' (at_ "request" "time") (le64 t) /\
  reads pi s' (at_ "request" "headers") (serialize (flatten (q_hdr q))) /\ reads pi s' (at_ "request" "trailers") (serialize (flatten (q_trl q))) /\
  (forall k vs, name k -> dget (q_hdr q) k = Some vs -> reads pi s' [lit "request"; lit "headers"; k] (gjoin ","%char vs)) /\
  (forall k vs, name k -> dget (q_trl q) k = Some vs -> reads pi s' [lit "request"; lit "trailers"; k] (gjoin ","%char vs)).
Proof.
  intros pi q t s Hg s'. destruct (set_request_view q t s Hg) as (V & _). fold s' in V. clearbody s'.
  do 10 (split; [solve [rd V]|]). split; intros k vs Hk Hv; eapply reads_in_map; try (rewrite V; reflexivity); try nm; try exact Hk; rewrite flatten_get, Hv; reflexivity.
Qed.
Print Assumptions C80_request.
(* The request id, user agent and referer are never readable: the answer is the empty text, whatever the headers are. *)
Theorem C80_request_id_refuted : forall pi q t s, group s (lit "request") ->
  let s' := set_request q t s in
  reads pi s' (at_ "request" "id") [] /\ reads pi s' (at_ "request" "useragent") [] /\ reads pi s' (at_ "request" "referer") [].
Proof. intros pi q t s Hg s'. destruct (set_request_view q t s Hg) as (V & _). fold s' in V. clearbody s'. split; [|split]; rd V. Qed.
Print Assumptions C80_request_id_refuted.
(* A valid content length is not counted: the size is 0 and the total the bytes of headers and trailers.  Only a number that no int holds counts. *)
Theorem C80_request_size_refuted : forall pi q t s, group s (lit "request") ->
  let s' := set_request q t s in
  (forall v n, hget (q_hdr q) (lit "Content-Length") = Some v -> atoi v = (n, false) -> reads pi s' (at_ "request" "size") (le64 0) /\ reads pi s' (at_ "request" "total_size") (le64 (byte_size (q_hdr q) + byte_size (q_trl q)))) /\
  (forall v, hget (q_hdr q) (lit "Content-Length") = Some v -> atoi v = (max_int, true) -> reads pi s' (at_ "request" "size") (le64 max_int)).
Proof.
  intros pi q t s Hg s'. destruct (set_request_view q t s Hg) as (V & _). fold s' in V. clearbody s'. split; intros v n.
  - intros Hv Ha. assert (Hs: req_size q = 0%Z) by (unfold req_size; now rewrite Hv, Ha). split.
    + rd V. now rewrite Hs.
    + rd V. rewrite Hs, Z.add_0_l. apply le64_u64.
  - intros Ha. assert (Hs: req_size q = max_int) by (unfold req_size; now rewrite n, Ha). rd V. now rewrite Hs.
Qed.
Print Assumptions C80_request_size_refuted.
(* Header attributes are found under the canonical name only; Envoy's are lower case. *)
Theorem C80_header_case_refuted : forall pi q t s vs, group s (lit "request") -> dget (q_hdr q) (lit "X-Request-Id") = Some vs -> dget (q_hdr q) (lit "x-request-id") = None ->
  s_parent s (lit "request.headers.x-request-id") = GNone ->
  let s' := set_request q t s in reads pi s' [lit "request"; lit "headers"; lit "X-Request-Id"] (gjoin ","%char vs) /\
    get_property pi s' (gjoin NUL [lit "request"; lit "headers"; lit "x-request-id"]) = NotFound.
Proof.
  intros pi q t s vs Hg H1 H2 Hp s'. pose proof (C80_request pi q t s Hg) as H. cbv zeta in H. destruct (set_request_view q t s Hg) as (V & _). assert (Hp': s_parent s' = s_parent s) by reflexivity. fold s' in H, V. clearbody s'.
  destruct H as (_ & _ & _ & _ & _ & _ & _ & _ & _ & _ & H & _). split; [apply H; [nm|exact H1]|]. eapply reads_miss_map; [nm|nm|nm|rewrite V; reflexivity|rewrite flatten_get, H2; reflexivity|]. rewrite Hp'. exact Hp.
Qed.
Print Assumptions C80_header_case_refuted.

(* ---------- connections ---------- *)
Lemma conn_good : forall c k v, In (k, v) (conn_info c) -> name k /\ scalar v.
Proof.
  intros c k v H. unfold conn_info in H. destruct H as [H|H]; [injection H as <- <-; split; [nm|sc]|]. rewrite !in_app_iff in H. destruct H as [H|[H|H]].
  - destruct (k_peer c); [|destruct H]. cbn [In] in H. repeat (destruct H as [H|H]; [injection H as <- <-; split; [nm|sc]|]). contradiction.
  - destruct (k_cert c); [|destruct H]. cbn [In] in H. repeat (destruct H as [H|H]; [injection H as <- <-; split; [nm|sc]|]). contradiction.
  - destruct (k_tls c) as [[[? ?] ?]|]; [|destruct H]. cbn [In] in H. repeat (destruct H as [H|H]; [injection H as <- <-; split; [nm|sc]|]). contradiction.
Qed.
Definition port_asg (ns port : gstr) : list asg := let (n, err) := atoi port in if err then [] else [(ns, lit "port", VPrim (PInt n))].
Definition addr_asgs (ns addr : gstr) : list asg := match split_host_port addr with Some (ip, port) => (ns, lit "address", VStr ip) :: port_asg ns port | None => [] end.
Definition remote_ns (o : bool) : gstr := if o then lit "upstream" else lit "source".
Definition conn_ns (o : bool) : gstr := if o then lit "upstream" else lit "connection".
Definition conn_asgs (o : bool) (c : conn) : list asg :=
  map (fun kv => (conn_ns o, fst kv, snd kv)) (conn_info c) ++ addr_asgs (remote_ns o) (k_remote c) ++ addr_asgs (lit "upstream") (k_remote c) ++ addr_asgs (lit "destination") (k_local c).
Lemma set_port_own : forall s ns port, name ns -> s_own (set_port (ns ++ lit ".port") port s) = fold_left do_asg (port_asg ns port) (s_own s).
Proof. intros s ns port Hn. unfold set_port, port_asg. destruct (atoi port) as [n [|]]; [reflexivity|]. change (lit ".port") with (DOT :: lit "port"). rewrite sset2; [reflexivity|exact Hn|nm|sc]. Qed.
Lemma set_address_own : forall s ns ip, name ns -> s_own (sset s (ns ++ lit ".address") (VStr ip)) = do_asg (s_own s) (ns, lit "address", VStr ip).
Proof. intros s ns ip Hn. change (lit ".address") with (DOT :: lit "address"). apply sset2; [exact Hn|nm|sc]. Qed.
Lemma upstream_name : name (lit "upstream"). Proof. nm. Qed.
Lemma destination_name : name (lit "destination"). Proof. nm. Qed.
Lemma remote_name : forall o, name (remote_ns o). Proof. intros [|]; nm. Qed.
Lemma conn_name : forall o, name (conn_ns o). Proof. intros [|]; nm. Qed.
Lemma conn_own : forall c s, group s (conn_ns (s_outbound s)) ->
  exists m0, s_own (set_connection c s) = fold_left do_asg (conn_asgs (s_outbound s) c) m0 /\ (forall a b, view m0 a b = view (s_own s) a b) /\ (forall a, opens (s_own s) a -> opens m0 a) /\ opens m0 (conn_ns (s_outbound s)) /\ (forall a, a <> conn_ns (s_outbound s) -> dget m0 a = dget (s_own s) a).
Proof.
  intros c s Hg. destruct (set_map (s_own s) (conn_ns (s_outbound s)) (conn_info c)) as (m0 & E & R); [apply conn_name|apply conn_good|exact Hg|]. exists m0. split; [|exact R].
  unfold conn_asgs. rewrite !fold_left_app. refine (eq_trans _ (f_equal (fun x => fold_left do_asg (addr_asgs (lit "destination") (k_local c)) (fold_left do_asg (addr_asgs (lit "upstream") (k_remote c)) (fold_left do_asg (addr_asgs (remote_ns (s_outbound s)) (k_remote c)) x))) E)). clear E R Hg. cbv beta. unfold set_connection, addr_asgs.
  assert (U: forall s port, s_own (set_port (lit "upstream.port") port s) = fold_left do_asg (port_asg (lit "upstream") port) (s_own s)) by (intros; apply (set_port_own s0 (lit "upstream")); nm).
  assert (U2: forall s port, s_own (set_port (lit "destination.port") port s) = fold_left do_asg (port_asg (lit "destination") port) (s_own s)) by (intros; apply (set_port_own s0 (lit "destination")); nm).
  assert (A: forall s ip, s_own (sset s (lit "upstream.address") (VStr ip)) = do_asg (s_own s) (lit "upstream", lit "address", VStr ip)) by (intros; apply (set_address_own s0 (lit "upstream")); nm).
  assert (A2: forall s ip, s_own (sset s (lit "destination.address") (VStr ip)) = do_asg (s_own s) (lit "destination", lit "address", VStr ip)) by (intros; apply (set_address_own s0 (lit "destination")); nm).
  fold (remote_ns (s_outbound s)) (conn_ns (s_outbound s)).
  destruct (split_host_port (k_remote c)) as [[ip port]|]; destruct (split_host_port (k_local c)) as [[ip2 port2]|]; cbn [fold_left];
    rewrite ?U2, ?A2, ?U, ?A, ?set_port_own, ?set_address_own by apply remote_name; reflexivity.
Qed.
Lemma addr_good : forall ns a, name ns -> Forall good (addr_asgs ns a) /\ forall x, In x (addr_asgs ns a) -> fst (fst x) = ns.
Proof.
  intros ns a Hn. unfold addr_asgs, port_asg. destruct (split_host_port a) as [[ip port]|]; [|split; [constructor|intros ? []]]. destruct (atoi port) as [n [|]]; (split; [repeat (apply Forall_cons; [split; [exact Hn|split; [nm|sc]]|]); apply Forall_nil|intros x Hx; cbn in Hx; intuition; subst; reflexivity]).
Qed.
Definition connection_groups (s : stream) : Prop := group s (conn_ns (s_outbound s)) /\ group s (remote_ns (s_outbound s)) /\ group s (lit "upstream") /\ group s (lit "destination").
Lemma set_connection_view : forall c s, connection_groups s ->
  let s' := set_connection c s in
  (forall ns k, view (s_own s') ns k = match latest (conn_asgs (s_outbound s) c) ns k with Some v => Some v | None => view (s_own s) ns k end) /\
  (forall ns, opens (s_own s) ns -> opens (s_own s') ns) /\
  (forall ns, ns <> conn_ns (s_outbound s) -> ns <> remote_ns (s_outbound s) -> ns <> lit "upstream" -> ns <> lit "destination" -> dget (s_own s') ns = dget (s_own s) ns).
Proof.
  intros c s (H1 & H2 & H3 & H4) s'. destruct (conn_own c s H1) as (m0 & E & V & O & O2 & D). fold s' in E. clearbody s'. rewrite E. clear E.
  destruct (addr_good (remote_ns (s_outbound s)) (k_remote c) (remote_name _)) as [G1 N1]. destruct (addr_good (lit "upstream") (k_remote c) upstream_name) as [G2 N2]. destruct (addr_good (lit "destination") (k_local c) destination_name) as [G3 N3].
  assert (M: forall a, In a (conn_asgs (s_outbound s) c) -> fst (fst a) = conn_ns (s_outbound s) \/ fst (fst a) = remote_ns (s_outbound s) \/ fst (fst a) = lit "upstream" \/ fst (fst a) = lit "destination").
  { intros a Ha. unfold conn_asgs in Ha. rewrite !in_app_iff in Ha. destruct Ha as [Ha|[Ha|[Ha|Ha]]]; [left|right; left; auto|right; right; left; auto|right; right; right; auto]. apply in_map_iff in Ha. destruct Ha as (x & <- & _). reflexivity. }
  destruct (do_all (conn_asgs (s_outbound s) c) m0) as (V3 & O3 & D3).
  - unfold conn_asgs. rewrite !Forall_app. split; [|auto]. apply Forall_forall. intros a Ha. apply in_map_iff in Ha. destruct Ha as ([k v] & <- & Hk). destruct (conn_good _ _ _ Hk). split; [apply conn_name|auto].
  - intros a Ha. destruct (M a Ha) as [->|[->|[->| ->]]]; [exact O2|apply O; exact H2|apply O; exact H3|apply O; exact H4].
  - split; [intros; rewrite V3, V; reflexivity|]. split; [auto|]. intros ns N4 N5 N6 N7. rewrite D3; [auto|]. intros Hi. apply in_map_iff in Hi. destruct Hi as (a & <- & Ha). destruct (M a Ha) as [X|[X|[X|X]]]; [apply N4|apply N5|apply N6|apply N7]; exact X.
Qed.
Lemma latest_app : forall l1 l2 ns k, latest (l1 ++ l2) ns k = match latest l2 ns k with Some v => Some v | None => latest l1 ns k end.
Proof. induction l1 as [|a l1 IH]; intros l2 ns k; cbn [app latest]; [destruct (latest l2 ns k); reflexivity|]. rewrite IH. destruct (latest l2 ns k); reflexivity. Qed.
Lemma latest_ns : forall l ns k, (forall a, In a l -> fst (fst a) <> ns) -> latest l ns k = None.
Proof. induction l as [|a l IH]; intros ns k H; [reflexivity|]. cbn [latest]. rewrite IH by (intros; apply H; now right). assert (E: geqb ns (fst (fst a)) = false) by (apply geqb_neq; intros E; apply (H a (or_introl eq_refl)); now symmetry). now rewrite E. Qed.
Lemma latest_addr_other : forall ns a ns' k, geqb k (lit "address") = false -> geqb k (lit "port") = false -> latest (addr_asgs ns a) ns' k = None.
Proof.
  intros ns a ns' k H1 H2. unfold addr_asgs, port_asg. destruct (split_host_port a) as [[ip port]|]; [|reflexivity]. destruct (atoi port) as [n [|]]; cbn [latest fst snd]; rewrite ?H1, ?H2, ?andb_false_r; reflexivity.
Qed.
Lemma latest_address : forall ns a ip port, split_host_port a = Some (ip, port) -> latest (addr_asgs ns a) ns (lit "address") = Some (VStr ip).
Proof.
  intros ns a ip port H. unfold addr_asgs, port_asg. rewrite H. destruct (atoi port) as [n [|]]; cbn [latest fst snd]; rewrite geqb_refl; reflexivity.
Qed.
Lemma latest_port : forall ns a ip port n, split_host_port a = Some (ip, port) -> atoi port = (n, false) -> latest (addr_asgs ns a) ns (lit "port") = Some (VPrim (PInt n)).
Proof. intros ns a ip port n H Hn. unfold addr_asgs, port_asg. rewrite H, Hn. cbn [latest fst snd]. rewrite geqb_refl. reflexivity. Qed.
Lemma latest_addr_ns : forall ns a ns' k, name ns -> ns <> ns' -> latest (addr_asgs ns a) ns' k = None.
Proof. intros ns a ns' k Hn H. apply latest_ns. intros x Hx. destruct (addr_good ns a Hn) as [_ N]. rewrite (N x Hx). exact H. Qed.
Lemma conn_latest_info : forall o c k, geqb k (lit "address") = false -> geqb k (lit "port") = false -> latest (conn_asgs o c) (conn_ns o) k = latest (map (fun kv => (conn_ns o, fst kv, snd kv)) (conn_info c)) (conn_ns o) k.
Proof. intros o c k H1 H2. unfold conn_asgs. rewrite !latest_app, !latest_addr_other by assumption. reflexivity. Qed.
Lemma conn_latest_remote : forall o c k v, latest (addr_asgs (remote_ns o) (k_remote c)) (remote_ns o) k = Some v -> latest (conn_asgs o c) (remote_ns o) k = Some v.
Proof.
  intros o c k v H. unfold conn_asgs. rewrite !latest_app. rewrite (latest_addr_ns (lit "destination")); [|nm|destruct o; discriminate]. destruct o.
  - change (remote_ns true) with (lit "upstream") in *. rewrite H. reflexivity.
  - rewrite (latest_addr_ns (lit "upstream")); [|nm|discriminate]. rewrite H. reflexivity.
Qed.
Lemma conn_latest_local : forall o c k v, latest (addr_asgs (lit "destination") (k_local c)) (lit "destination") k = Some v -> latest (conn_asgs o c) (lit "destination") k = Some v.
Proof. intros o c k v H. unfold conn_asgs. rewrite !latest_app, H. reflexivity. Qed.
(* the attributes of the certificates, addresses and handshake as they are; an inbound connection is "connection" and its peer "source", an
   outbound one "upstream" *)
Theorem C80_connection : forall pi c s, connection_groups s ->
  let s' := set_connection c s in let cn := conn_ns (s_outbound s) in
  reads pi s' [cn; lit "mtls"] [ascii_of_nat (match k_peer c with Some _ => 1 | None => 0 end)] /\
  (forall p, k_peer c = Some p ->
     reads pi s' [cn; lit "subject_peer_certificate"] (c_subject p) /\ reads pi s' [cn; lit "dns_san_peer_certificate"] (first (c_dns p)) /\
     reads pi s' [cn; lit "uri_san_peer_certificate"] (first (c_uris p)) /\ reads pi s' [cn; lit "sha256_peer_certificate_digest"] (c_digest p)) /\
  (forall p, k_cert c = Some p ->
     reads pi s' [cn; lit "subject_local_certificate"] (c_subject p) /\ reads pi s' [cn; lit "dns_san_local_certificate"] (first (c_dns p)) /\
     reads pi s' [cn; lit "uri_san_local_certificate"] (first (c_uris p))) /\
  (forall sn v proto, k_tls c = Some (sn, v, proto) ->
     reads pi s' [cn; lit "requested_server_name"] sn /\ reads pi s' [cn; lit "negotiated_protocol"] proto /\
     (* the version never arrives *) reads pi s' [cn; lit "tls_version"] []) /\
  (forall ip port, split_host_port (k_remote c) = Some (ip, port) ->
     reads pi s' [remote_ns (s_outbound s); lit "address"] ip /\ (forall n, atoi port = (n, false) -> reads pi s' [remote_ns (s_outbound s); lit "port"] (le64 n))) /\
  (forall ip port, split_host_port (k_local c) = Some (ip, port) ->
     reads pi s' [lit "destination"; lit "address"] ip /\ (forall n, atoi port = (n, false) -> reads pi s' [lit "destination"; lit "port"] (le64 n))).
Proof.
  intros pi c s Hg s' cn. destruct (set_connection_view c s Hg) as (V & _). fold s' in V. clearbody s'. subst cn.
  assert (T: forall ns k x, name ns -> name k -> latest (conn_asgs (s_outbound s) c) ns k = Some (VStr x) -> reads pi s' [ns; k] x) by (intros ns k x H1 H2 H3; apply (reads_view pi s' ns k (VStr x)); [exact H1|exact H2|]; now rewrite V, H3).
  assert (N: forall ns k n, name ns -> name k -> latest (conn_asgs (s_outbound s) c) ns k = Some (VPrim (PInt n)) -> reads pi s' [ns; k] (le64 n)) by (intros ns k n H1 H2 H3; apply (reads_view pi s' ns k (VPrim (PInt n))); [exact H1|exact H2|]; now rewrite V, H3).
  assert (CN := conn_name (s_outbound s)). assert (RN := remote_name (s_outbound s)).
  split; [|split; [|split; [|split; [|split]]]].
  - eapply eq_ind; [apply (reads_view pi s' _ _ (VPrim (PBool (match k_peer c with Some _ => true | None => false end)))); [exact CN|nm|]|destruct (k_peer c); reflexivity]. rewrite V. clear V T N. rewrite conn_latest_info by reflexivity. unfold conn_info.
    destruct (s_outbound s), (k_peer c), (k_cert c), (k_tls c) as [[[? ?] ?]|]; vm_compute; reflexivity.
  - intros p Hp. repeat split; (apply T; [exact CN|nm|]); clear V T N; rewrite conn_latest_info by reflexivity; unfold conn_info; rewrite Hp; destruct (s_outbound s), (k_cert c), (k_tls c) as [[[? ?] ?]|]; vm_compute; reflexivity.
  - intros p Hp. repeat split; (apply T; [exact CN|nm|]); clear V T N; rewrite conn_latest_info by reflexivity; unfold conn_info; rewrite Hp; destruct (s_outbound s), (k_peer c), (k_tls c) as [[[? ?] ?]|]; vm_compute; reflexivity.
  - intros sn v proto Hp. split; [|split]; [apply T; [exact CN|nm|]|apply T; [exact CN|nm|]|apply (reads_view pi s' _ _ (VScalar v)); [exact CN|nm|rewrite V]]; clear V T N; rewrite conn_latest_info by reflexivity; unfold conn_info; rewrite Hp; destruct (s_outbound s), (k_peer c), (k_cert c); vm_compute; reflexivity.
  - intros ip port Hp. split; [apply T; [exact RN|nm|]; apply conn_latest_remote; now apply (latest_address _ _ ip port)|intros n Hn; apply N; [exact RN|nm|]; apply conn_latest_remote; now apply (latest_port _ _ ip port)].
  - intros ip port Hp. split; [apply T; [nm|nm|]; apply conn_latest_local; now apply (latest_address _ _ ip port)|intros n Hn; apply N; [nm|nm|]; apply conn_latest_local; now apply (latest_port _ _ ip port)].
Qed.
Print Assumptions C80_connection.
