(* C64, C66, C70: statements added after mutation testing *)
From Coq Require Import String List ZArith NArith Bool Arith Lia.
From Verif Require Import M_GoMap M_AdsRoute M_AdsLb M_AdsProps.
Import ListNotations.
Open Scope string_scope.

(* C64: what a lookup does to the statistics does not depend on which clusters the cache has: a selection counts even if
   the selected cluster turns out to be unknown. *)
Theorem C64_counts_unknown : forall lib A resolved all known known' port st,
  snd (tcp_target lib A resolved all known port st) = snd (tcp_target lib A resolved all known' port st).
Proof.
  intros. unfold tcp_target. destruct resolved as [ips|e]; [|reflexivity]. destruct (tcp_listener lib all ips port) as [l|e]; [|reflexivity].
  destruct (chains_name A (tl_chains l) "" st) as [n st']. destruct (String.eqb n ""); [reflexivity|]. destruct (known n), (known' n); reflexivity.
Qed.
Print Assumptions C64_counts_unknown.

(* C66: the client properties, from the sockets that match: TLS and the server name are those of the first one, permissive
   mode needs both a TLS and a plaintext socket among them. *)
Theorem C66_properties : forall c tsm p, client_props c tsm = Ret (Some p) ->
  exists l, matching_sockets c (match tsm with TsmObject ep => ep | _ => [] end) = Ret l /\
    (cp_tls p = true <-> exists s r, l = s :: r /\ ts_name s = "envoy.transport_sockets.tls") /\
    (cp_permissive p = true <-> (exists s, In s l /\ ts_name s = "envoy.transport_sockets.tls") /\ (exists s, In s l /\ ts_name s = "envoy.transport_sockets.raw_buffer")) /\
    (forall n, cp_server p = n <-> (exists s r u, l = s :: r /\ ts_name s = "envoy.transport_sockets.tls" /\ ts_ctx s = Some u /\ n = uc_sni u) \/
                  (n = "" /\ ~ exists s r u, l = s :: r /\ ts_name s = "envoy.transport_sockets.tls" /\ ts_ctx s = Some u)) /\
    (forall v, cp_verifier p = Some v <-> exists s r u, l = s :: r /\ ts_ctx s = Some u /\ uc_valid u = Some v).
Proof.
  intros c tsm p H. unfold client_props in H. set (ep := match tsm with TsmObject ep => ep | _ => [] end) in *.
  assert (H': match matching_sockets c ep with Crash => Crash | Ret l => Ret (Some (mkcp (uses_tls l) (is_permissive l) (server_name l) (match l with s :: _ => match ts_ctx s with Some u => uc_valid u | None => None end | [] => None end))) end = Ret (Some p)).
  { destruct tsm; [exact H|exact H|discriminate H]. }
  clear H. destruct (matching_sockets c ep) as [l|] eqn:EM; [|discriminate H']. injection H' as <-. exists l. split; [exact EM|]. cbn [cp_tls cp_permissive cp_server cp_verifier].
  split; [|split; [|split]].
  - destruct l as [|s r]; cbn [uses_tls]; [split; [discriminate|intros (s & r & E & _); discriminate E]|]. unfold is_tls. rewrite String.eqb_eq. split; [intros E; exists s, r; now split|intros (s' & r' & E & E2); now injection E as <- <-].
  - unfold is_permissive. rewrite andb_true_iff, !existsb_exists. unfold is_tls, is_raw. split; intros [(s & I & E) (s' & I' & E')]; apply String.eqb_eq in E; apply String.eqb_eq in E'; split; [exists s|exists s'|exists s|exists s']; split; assumption.
  - intros n. destruct l as [|s r]; cbn [server_name]. { split; [intros <-; right; split; [reflexivity|intros (s & r & u & E & _); discriminate E]|intros [(s & r & u & E & _)|[-> _]]; [discriminate E|reflexivity]]. }
    unfold is_tls. destruct (String.eqb_spec (ts_name s) tls_name) as [E|E].
    + destruct (ts_ctx s) as [u|] eqn:Eu.
      * split; [intros <-; left; exists s, r, u; repeat split; assumption|]. intros [(s' & r' & u' & X & _ & X2 & ->)|[_ N]]; [injection X as <- <-; rewrite Eu in X2; now injection X2 as ->|exfalso; apply N; exists s, r, u; repeat split; assumption].
      * split; [intros <-; right; split; [reflexivity|]; intros (s' & r' & u' & X & _ & X2); injection X as <- <-; congruence|]. intros [(s' & r' & u' & X & _ & X2 & ->)|[-> _]]; [injection X as <- <-; congruence|reflexivity].
    + split; [intros <-; right; split; [reflexivity|]; intros (s' & r' & u' & X & X1 & X2); injection X as <- <-; now apply E|]. intros [(s' & r' & u' & X & X1 & X2 & ->)|[-> _]]; [injection X as <- <-; now elim E|reflexivity].
  - intros v. destruct l as [|s r]; [split; [discriminate|intros (s & r & u & E & _); discriminate E]|]. destruct (ts_ctx s) as [u|] eqn:Eu.
    + split; [intros E; exists s, r, u; repeat split; assumption|intros (s' & r' & u' & X & X2 & X3); injection X as <- <-; rewrite Eu in X2; now injection X2 as ->].
    + split; [discriminate|intros (s' & r' & u' & X & X2 & X3); injection X as <- <-; congruence].
Qed.
Print Assumptions C66_properties.
Example C66_properties_case : exists c tsm p, client_props c tsm = Ret (Some p) /\ cp_tls p = true /\ cp_permissive p = true /\ cp_server p = "sni".
Proof.
  exists (mktc [mktm [] (Some (mkts "envoy.transport_sockets.tls" (Some (mkuctx "sni" None))))] (Some (mkts "envoy.transport_sockets.raw_buffer" None))), TsmAbsent.
  eexists. split; [vm_compute; reflexivity|]. repeat split.
Qed.

(* ---- C70 ---- *)
From Verif Require Import M_KBase L_KBase S_KBase M_PiiFilter S_PiiFilter L_PiiFilter P_PiiFilter.
Open Scope Z_scope.

(* A new connection on a reused context starts as a new context does: nothing held, no failure, no size, nothing in flight. *)
Theorem C70_new_connection : forall c, on_new_connection c =
  mkctx (c_dir c) (mksbuf [] []) (mksbuf [] []) (mkhst false 0) (mkhst false 0) [] 0 (c_cap c).
Proof. intros [? ? ? ? ? ? ? ?]. reflexivity. Qed.
Print Assumptions C70_new_connection.

(* A failure forgets every request in flight ... *)
Lemma fail_side_queue : forall s c, kind_of (c_dir c) s <> None -> c_q (fail_side s c) = [] /\ c_r (fail_side s c) = 0%nat.
Proof. intros s c H. unfold fail_side. destruct (kind_of (c_dir c) s) as [[]|]; [split; reflexivity|split; reflexivity|contradiction]. Qed.
Definition off (c : ctx) : bool := h_failed (c_req c) || h_failed (c_resp c).
Lemma enqueue_same : forall e x c c', enqueue e x c = Some c' -> c_dir c' = c_dir c /\ off c' = off c.
Proof. intros e x c c' H. unfold enqueue in H. destruct (c_cap c <=? length (c_q c))%nat; [destruct (c_cap c / 2 <=? c_r c)%nat; [destruct (S (length (skipn (c_r c) (c_q c))) <=? c_cap c)%nat|]|]; try discriminate H; injection H as <-; split; reflexivity. Qed.
Lemma next_same : forall c x c', next_request c = Some (x, c') -> c_dir c' = c_dir c /\ off c' = off c.
Proof. intros c x c' H. unfold next_request in H. destruct (nth_error (c_q c) (c_r c)); [|discriminate H]. destruct (length (c_q c) <=? S (c_r c))%nat; injection H as _ <-; split; reflexivity. Qed.
Lemma handle_same : forall e s m c, match handle e s m c with HOk _ c' | HErr c' => c_dir c' = c_dir c /\ off c' = off c | HPanic => True end.
Proof.
  intros e s m c. unfold handle. destruct (kind_of (c_dir c) s) as [[]|]; [| |split; reflexivity].
  - unfold handle_request. destruct (length m <? 4)%nat; [exact I|]. destruct (e_parse e (skipn 4 m)) as [|r|r new]; [split; reflexivity| |]; destruct (enqueue e r c) as [c'|] eqn:E; try exact I; [exact (enqueue_same _ _ _ _ E)|]. destruct new; exact (enqueue_same _ _ _ _ E).
  - unfold handle_response. destruct (c_q c) as [|q0 q1]; [split; reflexivity|]. destruct (next_request c) as [[x c']|] eqn:E; [|exact I]. destruct (length m <? 4)%nat; [exact I|]. destruct (e_resp e (skipn 4 m) x); exact (next_same _ _ _ E).
Qed.
Lemma off_set_buf : forall s b c, off (set_buf s b c) = off c.
Proof. intros [] b c; reflexivity. Qed.
Lemma off_reset : forall s c, off c = false -> off (reset_side s c) = false.
Proof. intros s c H. unfold reset_side. destruct (kind_of (c_dir c) s) as [[]|]; [| |exact H]; unfold off in *; apply orb_false_iff in H; destruct H as [H1 H2]; cbn; rewrite ?H1, ?H2; reflexivity. Qed.
Lemma loop_fail : forall e s data fuel c a h c', kind_of (c_dir c) s <> None -> off c = false -> loop e s data fuel c = ORet a h c' -> off c' = true -> c_q c' = [] /\ c_r c' = 0%nat.
Proof.
  intros e s data. induction fuel as [|f IH]; intros c a h c' K O H F; [discriminate H|]. cbn [loop] in H.
  assert (Done: forall b0, off (reset_side s (set_buf s b0 c)) = true -> False). { intros b0 X. rewrite off_reset in X; [discriminate X|now rewrite off_set_buf]. }
  destruct (b_inc (buf s c)) as [|b0 bs]; [injection H as _ _ <-; now elim (Done _ F)|]. set (inc := b0 :: bs) in *.
  destruct (message_size inc) as [n|]; [|injection H as _ _ <-; now apply fail_side_queue].
  destruct (Z.of_nat (length inc) <? complete_size n); [injection H as _ _ <-; now elim (Done _ F)|].
  destruct (complete_size n <? 0); [discriminate H|].
  match type of H with context [handle e s ?m ?c0] => pose proof (handle_same e s m c0) as P; destruct (handle e s m c0) as [o c2|c2|] end; [| |discriminate H].
  - destruct P as [P1 P2]. rewrite dir_set in P1. rewrite off_set_buf in P2. apply IH in H; [exact H|rewrite dir_set, P1; exact K|now rewrite off_set_buf, P2|exact F].
  - destruct P as [P1 P2]. rewrite dir_set in P1. injection H as _ _ <-. apply fail_side_queue. rewrite P1. exact K.
Qed.
Theorem C70_failure_forgets_requests : forall e s data eos c a h c',
  h_failed (c_req c) = false -> h_failed (c_resp c) = false -> on_data e s data eos c = ORet a h c' ->
  h_failed (c_req c') = true \/ h_failed (c_resp c') = true -> c_q c' = [] /\ c_r c' = 0%nat.
Proof.
  intros e s data eos c a h c' F1 F2 H F. assert (O: off c = false) by (unfold off; now rewrite F1, F2). assert (O': off c' = true) by (unfold off; destruct F as [-> | ->]; [reflexivity|apply orb_true_r]). clear F.
  unfold on_data in H. destruct (kind_of (c_dir c) s) as [k|] eqn:K; [|injection H as _ _ <-; congruence].
  rewrite F1, F2 in H. cbn [orb] in H.
  assert (R: forall c0, off c0 = false -> off (reset_side s (reset_buffers s c0)) = false) by (intros c0 X; apply off_reset; unfold reset_buffers; now rewrite off_set_buf).
  destruct (eos && (length data + length (b_inc (buf s c)) =? 0)%nat); [injection H as _ _ <-; rewrite R in O' by exact O; discriminate O'|].
  destruct (available s k data c) as [ready c1] eqn:A.
  assert (S1: off c1 = false /\ c_dir c1 = c_dir c).
  { unfold available in A. destruct (h_size (hnd k c) =? 0); [|injection A as _ <-; now split]. destruct (length (b_inc (buf s c) ++ data) <? 4)%nat; injection A as _ <-; [now split|]. unfold off in *. destruct k; split; try reflexivity; exact O. }
  destruct S1 as [S1 S2]. destruct ready; cbn [negb] in H.
  - apply loop_fail in H; [exact H|rewrite dir_set, S2, K; discriminate|now rewrite off_set_buf|exact O'].
  - destruct (eos && (length data =? 0)%nat); injection H as _ _ <-; [rewrite R in O' by exact S1; discriminate O'|congruence].
Qed.
Print Assumptions C70_failure_forgets_requests.
Example C70_failure_case : exists c', on_data toy Down (frame [9]) false (w_ctx (arrive toy Down (frame [1; 7]) false (connection Inbound))) = ORet Continue [] c' /\ h_failed (c_req c') = true.
Proof. eexists. split; [vm_compute; reflexivity|reflexivity]. Qed.
(* ... so that, once a close has switched the filter on again, the answer to a request that was passed on is swallowed. *)
Theorem C70_answer_lost_after_failure_refuted : exists e, growing e /\ e_parse e [1; 7] = PSame (mkref 7 0 0) /\ e_resp e [7] (mkref 7 0 0) = true /\
  let w1 := arrive e Down (frame [1; 7]) false (connection Inbound) in
  let w2 := arrive e Down (frame [9]) false w1 in
  let w3 := set_ctx (on_close Down (w_ctx w2)) w2 in
  hout Down w1 = frame [1; 7] /\ hout Up (arrive e Up (frame [7]) false w1) = frame [7] /\
  hout Up (arrive e Up (frame [7]) false w2) = frame [7] /\ hout Up (arrive e Up (frame [7]) false w3) = [].
Proof. exists toy. split; [exact toy_grow|]. repeat split. Qed.
Print Assumptions C70_answer_lost_after_failure_refuted.
