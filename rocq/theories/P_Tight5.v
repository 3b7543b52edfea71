(* C78, tightened: constants and defaults named in the statement. *)
From Coq Require Import String List Ascii Bool Arith ZArith Lia.
From Verif Require Import M_GoStr M_GoMap M_Identity M_Regex M_Integration.
Import ListNotations.
Open Scope list_scope.

(* a certificate is requested for the configured lifetime, or for a day if there is none *)
Theorem C78_secret_ttl : forall e, (i_ttl e = 0%Z -> secret_ttl e = 86400%Z) /\ (i_ttl e <> 0%Z -> secret_ttl e = i_ttl e).
Proof. intros e. unfold secret_ttl. destruct (Z.eqb_spec (i_ttl e) 0); split; intros; try reflexivity; contradiction. Qed.
Print Assumptions C78_secret_ttl.

(* one call of the discovery client after another: the first creates it, later ones change nothing *)
Theorem C78_discovery_kept : forall f, h_client f = true \/ h_ca f <> None ->
  exists g, discovery f = Ret g /\ h_client g = true /\ (h_client f = true -> g = f) /\ discovery g = Ret g /\
    h_conf g = h_conf f /\ h_env g = h_env f /\ h_ca g = h_ca f /\ h_node g = h_node f /\ h_job g = h_job f.
Proof.
  intros f H. unfold discovery. destruct (h_client f) eqn:E.
  - exists f. rewrite E. intuition.
  - destruct (h_ca f) as [c|] eqn:Ec; [|destruct H; congruence]. exists (with_client f). cbn. rewrite Ec. intuition congruence.
Qed.
Print Assumptions C78_discovery_kept.
(* every product keeps the client it used *)
Theorem C78_products_keep_client : forall w f,
  (forall x r h, http_transport w (Full f) x = Ret (r, h) -> exists g, h = Full g /\ h_client g = true /\ h_conf g = h_conf f /\ h_ca g = h_ca f) /\
  (forall x r h, serve_http w (Full f) x = Ret (r, h) -> exists g, h = Full g /\ h_client g = true /\ h_conf g = h_conf f /\ h_ca g = h_ca f) /\
  (forall x r h, tcp_listener w (Full f) x = Ret (r, h) -> exists g, h = Full g /\ h_client g = true /\ h_conf g = h_conf f /\ h_ca g = h_ca f) /\
  (forall x r h, tcp_dialer w (Full f) x = Ret (r, h) -> exists g, h = Full g /\ h_client g = true /\ h_conf g = h_conf f /\ h_ca g = h_ca f) /\
  (forall r h, grpc_options w (Full f) = Ret (r, h) -> exists g, h = Full g /\ h_client g = true /\ h_conf g = h_conf f /\ h_ca g = h_ca f).
Proof.
  intros w f. unfold http_transport, serve_http, tcp_listener, tcp_dialer, grpc_options, discovery.
  repeat split; intros *; repeat match goal with |- context [if ?b then _ else _] => destruct b eqn:? | |- context [match h_ca ?b with _ => _ end] => destruct (h_ca b) eqn:? end;
    intros H; try discriminate H; injection H as <- <-; eexists; (split; [reflexivity|]); cbn; repeat split; congruence.
Qed.
Print Assumptions C78_products_keep_client.

(* what is stored in the path label is safe in a URL and in a label value *)
Definition url_char (a : ascii) : Prop :=
  let n := nat_of_ascii a in (65 <= n <= 90) \/ (97 <= n <= 122) \/ (48 <= n <= 57) \/ n = 45 \/ n = 95.
Theorem C78_path_label_safe : forall p a, In a (b64 p) -> url_char a.
Proof.
  intros p. unfold b64. generalize (flat_map byte_bits p). intros l.
  assert (C: forall a b c d e f, url_char (b64_char a b c d e f)).
  { intros [|] [|] [|] [|] [|] [|]; unfold url_char; vm_compute; lia. }
  assert (G: forall n l, List.length l <= n -> forall a, In a (b64_bits l) -> url_char a).
  { induction n as [|n IH]; intros [|a [|b [|c [|d [|e [|f r]]]]]] L x; cbn [b64_bits In]; cbn in L; try lia; try tauto.
    - intros [<-|[]]. apply C.
    - intros [<-|[]]. apply C.
    - intros [<-|H]; [apply C|]. apply (IH r); [lia|exact H]. }
  apply (G _ l (Nat.le_refl _)).
Qed.
Print Assumptions C78_path_label_safe.
(* the values of RFC 4648, section 5 *)
Theorem C78_path_label_values : forall a b c d e f,
  let v := 32 * bit a + 16 * bit b + 8 * bit c + 4 * bit d + 2 * bit e + bit f in
  nat_of_ascii (b64_char a b c d e f) = if v <? 26 then 65 + v else if v <? 52 then 97 + (v - 26) else if v <? 62 then 48 + (v - 52) else if v =? 62 then 45 else 95.
Proof. intros [|] [|] [|] [|] [|] [|]; vm_compute; reflexivity. Qed.
Print Assumptions C78_path_label_values.

(* the filters a program gets when it asks for none *)
Theorem C78_default_filters : forall c,
  map (fun f => (f_name f, f_root f, f_file f)) (server_filters c) = [("istio-metadata-exchange", "", "metadata-exchange-filter.wasm"); ("istio-stats-inbound", "stats_inbound", "stats-filter.wasm")]%string /\
  map (fun f => (f_name f, f_root f, f_file f)) (client_filters c) = [("istio-metadata-exchange", "", "metadata-exchange-filter.wasm"); ("istio-stats-outbound", "stats_outbound", "stats-filter.wasm")]%string /\
  map (fun f => (f_name f, f_root f, f_file f)) (tcp_server_filters c) = [("tcp-metadata-exchange", "tcp-metadata-exchange", "tcp-metadata-exchange-filter.wasm"); ("istio-stats-inbound", "stats_inbound", "stats-filter.wasm")]%string /\
  map (fun f => (f_name f, f_root f, f_file f)) (tcp_client_filters c) = [("tcp-metadata-exchange", "tcp-metadata-exchange", "tcp-metadata-exchange-filter.wasm"); ("istio-stats-outbound", "stats_outbound", "stats-filter.wasm")]%string /\
  (forall f, In f (server_filters c ++ client_filters c ++ tcp_server_filters c ++ tcp_client_filters c) -> f_runtime f = c_runtime c).
Proof. intros c. repeat split. cbn. intros f H. repeat destruct H as [<-|H]; try reflexivity; contradiction. Qed.
Print Assumptions C78_default_filters.

Example C78_tight_case : secret_ttl (mkie true (mkenv [] [] [] [] [] [] [] []) [] [] [] [] [] [] 3600 [] [] [] [] [] []) = 3600%Z /\ b64 (lit "/stats/prometheus") = lit "L3N0YXRzL3Byb21ldGhldXM".
Proof. vm_compute. auto. Qed.
