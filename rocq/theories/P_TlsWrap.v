(* C75: a wrapped TLS configuration presents the certificate the original would have presented, and records it *)
From Coq Require Import List String Bool Ascii Arith.
From Verif Require Import M_GoStr L_GoStr M_TlsWrap.
Import ListNotations.
Open Scope list_scope.

(* a certificate the caller can have put in a configuration: at least one block *)
Definition nonempty (c : tcert) : Prop := tc_chain c <> [].
(* the handshake went on with this outcome and recorded this block *)
Definition outcome (a : answer) : option got := match a with APanic => None | AGot g _ => Some g end.

(* ---- the wrapper changes nothing ---- *)
(* the wrapped configuration seen as a plain configuration: what crypto/tls does with it is what [server_handshake] says *)
Theorem C75_wrapped_is_native : forall f h parses old, is_server f = true -> outcome (server_handshake parses false old f h) = Some (native_server (wrap f) h).
Proof.
  intros f h parses old S. unfold server_handshake, native_server, wrap. rewrite S. cbn [f_get f_certs orb].
  destruct (wrapped_get f h) as [e|[c|]]; reflexivity.
Qed.
Print Assumptions C75_wrapped_is_native.
Theorem C75_wrapped_client_is_native : forall f h parses old, is_client f = true -> outcome (client_handshake parses false old f h) = Some (native_client (wrap f) h).
Proof.
  intros f h parses old S. unfold client_handshake, native_client, wrap. rewrite S. cbn [f_getc]. destruct (wrapped_getc f h) as [e|[c|]]; reflexivity.
Qed.
Print Assumptions C75_wrapped_client_is_native.

(* server, static certificates: same certificate exactly when one was selected by name or by support, or there is only one *)
Theorem C75_server_static : forall f h, f_get f = None -> f_certs f <> [] -> Forall nonempty (f_certs f) ->
  (native_server (wrap f) h = native_server f h <-> List.length (f_certs f) = 1 \/ by_name f h <> None \/ exists c, In c (f_certs f) /\ h_supports h c = true).
Proof.
  intros f h G N F. unfold native_server, wrap, is_server. rewrite G. destruct (f_certs f) as [|c r] eqn:C; [ congruence |]. cbn [f_get f_certs orb negb andb].
  unfold wrapped_get. rewrite G, C. unfold native_rest. rewrite C. destruct r as [|d r]; [ split; [ intros _; left; reflexivity | reflexivity ] |].
  destruct (by_name f h) as [x|] eqn:B; [ split; [ intros _; right; left; discriminate | reflexivity ] |].
  unfold supported. rewrite C. destruct (find (h_supports h) (c :: d :: r)) as [x|] eqn:E.
  - apply find_some in E. destruct E as [I P]. split; [ intros _; right; right; exists x; split; assumption | reflexivity ].
  - split; [| intros [L|[Q|(x & I & P)]]; [ discriminate | congruence | rewrite (find_none _ _ E _ I) in P; discriminate ] ].
    intros Q. exfalso. injection Q as Q. inversion F as [|? ? Hc _]. apply Hc. rewrite <- Q. reflexivity.
Qed.
Print Assumptions C75_server_static.
(* server with a GetCertificate callback, as every mesh listener has: same outcome when there are no static certificates *)
Theorem C75_server_callback : forall f h g, f_get f = Some g -> f_certs f = [] -> native_server (wrap f) h = native_server f h.
Proof.
  intros f h g G C. unfold native_server, wrap, is_server. rewrite G, C. cbn [f_get f_certs orb]. unfold wrapped_get, native_rest. rewrite G, C. cbn [f_certs].
  destruct (g h) as [e|[c|]]; reflexivity.
Qed.
Print Assumptions C75_server_callback.
(* both: the callback is asked for every client, and its (nil, nil) is final *)
Theorem C75_server_both : forall f h g, f_get f = Some g -> f_certs f <> [] ->
  native_server (wrap f) h = match g h with GCert None => GErr "tls: no certificates configured" | x => x end /\
  (h_name h <> [] -> g h <> GCert None -> native_server (wrap f) h = native_server f h) /\
  (h_name h = [] -> native_server f h = native_server (mkcfg (f_certs f) (f_names f) None (f_getc f) (f_tickets f)) h).
Proof.
  intros f h g G C. unfold native_server, wrap, is_server. rewrite G. destruct (f_certs f) as [|c r] eqn:E; [ congruence |]. cbn [f_get f_certs orb negb andb].
  unfold wrapped_get. rewrite G. split; [ destruct (g h) as [e|[d|]]; reflexivity |]. split.
  - intros N Q. destruct (h_name h) as [|x y]; [ congruence |]. cbn [negb]. destruct (g h) as [e|[d|]]; [ reflexivity | reflexivity | congruence ].
  - intros ->. cbn [negb]. unfold native_rest, by_name, supported. cbn [f_certs f_names]. rewrite E. reflexivity.
Qed.
Print Assumptions C75_server_both.
(* client: same unless a callback and an acceptable static certificate are both given *)
Theorem C75_client_same : forall f h, f_getc f = None \/ (forall c, In c (f_certs f) -> h_supports h c = false) -> native_client (wrap f) h = native_client f h.
Proof.
  intros f h H. unfold native_client at 1. unfold wrap. cbn [f_getc]. unfold native_client, wrapped_getc, supported. destruct (is_client f) eqn:C.
  - destruct (f_getc f) as [g|] eqn:G.
    + destruct H as [H|H]; [ discriminate |].
      destruct (find (h_supports h) (f_certs f)) as [x|] eqn:E; [ apply find_some in E; destruct E as [I P]; rewrite (H _ I) in P; discriminate |].
      destruct (g h) as [e|c]; reflexivity.
    + reflexivity.
  - unfold is_client in C. apply orb_false_iff in C. destruct C as [C D]. destruct (f_getc f) as [g|]; [ discriminate |]. cbn [f_certs]. unfold supported. cbn [f_certs].
    destruct (f_certs f); [| discriminate ]. destruct (is_server f || false)%bool; reflexivity.
Qed.
Print Assumptions C75_client_same.
Theorem C75_client_override : forall f h g c, f_getc f = Some g -> supported f h = Some c -> native_client (wrap f) h = match g h with GErr e => GErr e | GCert _ => GCert (Some c) end.
Proof.
  intros f h g c G S. unfold native_client, wrap. cbn [f_getc]. unfold is_client, wrapped_getc. rewrite G, orb_true_r, S. destruct (g h); reflexivity.
Qed.
Print Assumptions C75_client_override.
(* wrapping twice changes nothing more *)
Theorem C75_idempotent : forall f h, native_server (wrap (wrap f)) h = native_server (wrap f) h /\ native_client (wrap (wrap f)) h = native_client (wrap f) h.
Proof.
  intros f h. split.
  - destruct (f_get (wrap f)) as [g|] eqn:G.
    + apply (C75_server_callback _ _ _ G). unfold wrap in *. cbn [f_get f_certs] in *. destruct (is_server f) eqn:S; [ reflexivity |]. unfold is_server in S. rewrite G in S. rewrite orb_true_r in S. discriminate.
    + unfold wrap in G |- *. cbn [f_get f_certs] in *. destruct (is_server f) eqn:S; [ discriminate |]. unfold is_server in S. apply orb_false_iff in S. destruct S as [A B].
      destruct (f_certs f) as [|x l] eqn:C; [| discriminate ].
      unfold native_server. cbn. rewrite G. destruct (is_client f); cbn; rewrite ?G; destruct (f_getc f); reflexivity.
  - apply C75_client_same. right. unfold wrap. cbn [f_certs]. intros c I. destruct (is_server f || is_client f)%bool eqn:S; [ destruct I |].
    apply orb_false_iff in S. destruct S as [S _]. unfold is_server in S. destruct (f_certs f) as [|x l]; [ destruct I | discriminate ].
Qed.
Print Assumptions C75_idempotent.

(* ---- recording ---- *)
(* when the handshake goes on with a certificate and a connection state is reachable, the recorded local certificate is the
   first block of the certificate presented, if it parses *)
Theorem C75_records_presented : forall parses old f h c l, is_server f = true -> server_handshake parses true old f h = AGot (GCert (Some c)) l ->
  exists b r, tc_chain c = b :: r /\ (parses b = true -> l = Some b) /\ (parses b = false -> l = old).
Proof.
  intros parses old f h c l S H. unfold server_handshake in H. rewrite S in H. unfold record_cert in H.
  destruct (wrapped_get f h) as [e|[d|]]; [ discriminate | | discriminate ].
  unfold set_local in H. destruct (tc_chain d) as [|b r] eqn:E; [ discriminate |]. injection H as <- <-. exists b, r. split; [ exact E |]. destruct (parses b); split; intros; congruence.
Qed.
Print Assumptions C75_records_presented.
Theorem C75_client_records_presented : forall parses old f h c l, is_client f = true -> client_handshake parses true old f h = AGot (GCert (Some c)) l ->
  exists b r, tc_chain c = b :: r /\ (parses b = true -> l = Some b) /\ (parses b = false -> l = old).
Proof.
  intros parses old f h c l S H. unfold client_handshake in H. rewrite S in H. unfold record_cert in H.
  destruct (wrapped_getc f h) as [e|[d|]]; [ discriminate | | discriminate ].
  unfold set_local in H. destruct (tc_chain d) as [|b r] eqn:E; [ discriminate |]. injection H as <- <-. exists b, r. split; [ exact E |]. destruct (parses b); split; intros; congruence.
Qed.
Print Assumptions C75_client_records_presented.
(* recording does not change which certificate is presented, unless it panics *)
Theorem C75_recording_transparent : forall parses old f h, server_handshake parses true old f h <> APanic -> outcome (server_handshake parses true old f h) = outcome (server_handshake parses false old f h).
Proof.
  intros parses old f h N. unfold server_handshake in *. destruct (is_server f); [| reflexivity ]. unfold record_cert in *. destruct (wrapped_get f h) as [e|[c|]]; try reflexivity.
  unfold set_local in *. destruct (tc_chain c); [ congruence | reflexivity ].
Qed.
Print Assumptions C75_recording_transparent.

(* ---- no handshake panics, exactly when ---- *)
Theorem C75_server_panics_iff : forall parses old f h, f_get f = None -> f_certs f <> [] -> Forall nonempty (f_certs f) -> (forall m k c, f_names f = Some m -> name_get m k = Some c -> nonempty c) ->
  (server_handshake parses true old f h = APanic <-> List.length (f_certs f) <> 1 /\ by_name f h = None /\ forall c, In c (f_certs f) -> h_supports h c = false).
Proof.
  intros parses old f h G N F NM. unfold server_handshake, is_server, record_cert, wrapped_get. rewrite G.
  destruct (f_certs f) as [|c r] eqn:C; [ congruence |]. cbn [orb].
  assert (K: forall d, nonempty d -> match (match set_local parses old d with RPanic => APanic | RKept l => AGot (GCert (Some d)) l end) with APanic => APanic | AGot g l => AGot (match g with GCert None => GErr "tls: no certificates configured" | g => g end) l end <> APanic).
  { intros d D. unfold set_local. unfold nonempty in D. destruct (tc_chain d); [ congruence | discriminate ]. }
  destruct r as [|d r]. { split; [ intros Q; exfalso; inversion F; subst; eapply K; eauto | intros [L _]; exfalso; apply L; reflexivity ]. }
  destruct (by_name f h) as [x|] eqn:B.
  { split; [| intros (_ & Q & _); discriminate ]. intros Q. exfalso. eapply K; [| exact Q ]. unfold by_name in B. destruct (f_names f) as [m|] eqn:M; [| discriminate ].
    destruct (name_get m (map lower_ascii (h_name h))) as [y|] eqn:Y; [ injection B as <-; eapply NM; eauto |].
    destruct (map lower_ascii (h_name h)) as [|a l]; [ discriminate |]. eapply NM; [ reflexivity | exact B ]. }
  unfold supported. rewrite C. destruct (find (h_supports h) (c :: d :: r)) as [x|] eqn:E.
  - apply find_some in E. destruct E as [I P]. split; [ intros Q; exfalso; eapply K; [| exact Q ]; eapply Forall_forall; eauto | intros (_ & _ & Q); rewrite (Q _ I) in P; discriminate ].
  - split; [| reflexivity ]. intros _. split; [ discriminate |]. split; [ reflexivity |]. intros x I. exact (find_none _ _ E _ I).
Qed.
Print Assumptions C75_server_panics_iff.
Theorem C75_client_panics_iff : forall parses old f h, f_getc f = None -> f_certs f <> [] -> Forall nonempty (f_certs f) ->
  (client_handshake parses true old f h = APanic <-> forall c, In c (f_certs f) -> h_supports h c = false).
Proof.
  intros parses old f h G N F. unfold client_handshake, is_client, record_cert, wrapped_getc, supported. rewrite G. destruct (f_certs f) as [|c r] eqn:C; [ congruence |]. cbn [orb].
  destruct (find (h_supports h) (c :: r)) as [x|] eqn:E.
  - apply find_some in E. destruct E as [I P]. rewrite Forall_forall in F. specialize (F _ I). unfold set_local. unfold nonempty in F. destruct (tc_chain x); [ congruence |].
    split; [ discriminate | intros Q; rewrite (Q _ I) in P; discriminate ].
  - split; [| reflexivity ]. intros _ x I. exact (find_none _ _ E _ I).
Qed.
Print Assumptions C75_client_panics_iff.
(* a dialer always puts a connection state in the handshake's context (dialer.go:144-152), so a server that asks for a
   client certificate the client's one certificate does not satisfy crashes the client, where crypto/tls would go on
   without a certificate *)
Theorem C75_client_crash_refuted : exists parses f h, List.length (f_certs f) = 1 /\ Forall nonempty (f_certs f) /\ native_client f h = GCert (Some zero_cert) /\ client_handshake parses true None f h = APanic.
Proof.
  exists (fun _ => true), (mkcfg [mktc [1]] None None None true), (mkh [] (fun _ => false)). repeat split.
  constructor; [ discriminate | constructor ].
Qed.
Print Assumptions C75_client_crash_refuted.
Theorem C75_server_crash_refuted : exists parses f h c, native_server f h = GCert (Some c) /\ nonempty c /\ Forall nonempty (f_certs f) /\ server_handshake parses true None f h = APanic.
Proof.
  exists (fun _ => true), (mkcfg [mktc [1]; mktc [2]] None None None true), (mkh (lit "a.b") (fun _ => false)), (mktc [1]). repeat split; try discriminate.
  repeat constructor; discriminate.
Qed.
Print Assumptions C75_server_crash_refuted.
Theorem C75_override_refuted : exists f h c d, native_client f h = GCert (Some c) /\ native_client (wrap f) h = GCert (Some d) /\ c <> d.
Proof. exists (mkcfg [mktc [1]] None None (Some (fun _ => GCert (Some (mktc [2])))) true), (mkh [] (fun _ => true)), (mktc [2]), (mktc [1]). repeat split. discriminate. Qed.
Print Assumptions C75_override_refuted.
(* the wildcard entry of a name replaces its first label *)
Theorem C75_wildcard : forall a b, ~ In "."%char a -> wildcard (a ++ "."%char :: b) = "*"%char :: "."%char :: b.
Proof.
  intros a b N. unfold wildcard. rewrite gsplit_app by exact N. destruct (gsplit "."%char b) as [|x xs] eqn:E.
  - exfalso. pose proof (gjoin_split "."%char b). rewrite E in H. destruct b; cbn in E; [ discriminate |]. cbn in H. discriminate.
  - change (lit "*") with ["*"%char]. change (gjoin "." (["*"%char] :: x :: xs)) with (["*"%char] ++ "."%char :: gjoin "." (x :: xs)). rewrite <- E, gjoin_split. reflexivity.
Qed.
Print Assumptions C75_wildcard.
Example wildcard_ex : wildcard (lit "api.example.org") = lit "*.example.org". Proof. reflexivity. Qed.
Example static_case : exists f h, f_get f = None /\ f_certs f <> [] /\ Forall nonempty (f_certs f) /\ List.length (f_certs f) = 2 /\ by_name f h = Some (mktc [3]).
Proof.
  exists (mkcfg [mktc [1]; mktc [2]] (Some [(lit "*.b.c", mktc [3])]) None None true), (mkh (lit "A.b.C") (fun _ => false)).
  split; [ reflexivity |]. split; [ discriminate |]. split; [ repeat constructor; discriminate |]. split; reflexivity.
Qed.
(* A wrapped configuration that can answer as a server issues no session tickets; without certificates and callbacks the
   configuration is left as it is. *)
Theorem C75_no_tickets : forall f, (f_certs f <> [] \/ (exists g, f_get f = Some g) -> f_tickets (wrap f) = false) /\
  (f_certs f = [] -> f_get f = None -> f_tickets (wrap f) = f_tickets f /\ (f_getc f = None -> wrap f = f)).
Proof.
  intros f. unfold wrap. split.
  - intros H. assert (E: is_server f = true) by (unfold is_server; destruct H as [H|[g ->]]; [destruct (f_certs f); [congruence|reflexivity]|apply orb_true_r]). cbn [f_tickets]. now rewrite E.
  - intros H1 H2. unfold is_server, is_client. rewrite H1, H2. cbn. split; [reflexivity|]. intros H3. rewrite H3. destruct f. cbn in *. now subst.
Qed.
Print Assumptions C75_no_tickets.
