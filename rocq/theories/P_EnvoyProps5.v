(* C80, continued: an outbound request and its response. *)
From Coq Require Import String List Ascii Bool Arith NArith ZArith Lia.
From Verif Require Import M_GoStr L_GoStr M_Dotn P_Dotn M_WasmMap P_WasmMap M_EnvoyProps P_EnvoyProps P_EnvoyProps2 P_EnvoyProps3.
Import ListNotations.
Open Scope list_scope.
Opaque dotn_set.

(* When the response of an outbound request arrives, filters still read the request and now the connection it went over, as "upstream"; an
   inbound stream, and an outbound one whose response has no connection state, stay as they are. *)
Theorem C80_outbound_connection : forall pi xf now q p c d parent, p_conn p = Some c ->
  let s1 := snd (before_request pi xf now q (new_stream true d parent)) in let s' := before_response p s1 in
  reads pi s' (at_ "request" "path") (q_uri q) /\ reads pi s' (at_ "request" "host") (q_host q) /\ reads pi s' (at_ "request" "method") (q_method q) /\ reads pi s' (at_ "request" "time") (le64 now) /\
  reads pi s' (at_ "upstream" "mtls") [ascii_of_nat (match k_peer c with Some _ => 1 | None => 0 end)] /\
  (forall x, k_peer c = Some x -> reads pi s' (at_ "upstream" "uri_san_peer_certificate") (first (c_uris x))) /\
  (forall ip port, split_host_port (k_remote c) = Some (ip, port) -> reads pi s' (at_ "upstream" "address") ip) /\
  (forall ip port, split_host_port (k_local c) = Some (ip, port) -> reads pi s' (at_ "destination" "address") ip).
Proof.
  intros pi xf now q p c d parent Hc s1 s'. set (s0 := new_stream true d parent) in *. destruct (C80_new_stream pi true d parent) as (_ & G1 & G5 & _). fold s0 in G1, G5.
  assert (H1: s1 = set_request q now s0) by (unfold s1; rewrite C80_outbound by reflexivity; reflexivity). clearbody s1.
  assert (CG: connection_groups s1) by (rewrite H1; apply groups_after_request; assumption).
  assert (Ho: s_outbound s1 = true) by (rewrite H1; reflexivity).
  assert (Hs: s' = set_connection c s1) by (unfold s', before_response; rewrite Ho, Hc; reflexivity). clearbody s'.
  destruct (set_connection_view c s1 CG) as (V & O & D). rewrite <- Hs in V, O, D.
  pose proof (C80_request pi q now s0 G5) as R. cbv zeta in R. rewrite <- H1 in R.
  pose proof (C80_connection pi c s1 CG) as K. cbv zeta in K. rewrite <- Hs in K. rewrite Ho in K, D.
  assert (F2: forall k x, name (lit k) -> reads pi s1 [lit "request"; lit k] x -> reads pi s' [lit "request"; lit k] x).
  { intros k x Hk Hx. unfold reads in *. rewrite (get_same_ns pi s1 s' (lit "request") [lit k]); [exact Hx|nm|intros n [<-|[]]; exact Hk| |apply D; discriminate].
    rewrite Hs; unfold set_connection, set_port; repeat match goal with |- context [split_host_port ?a] => destruct (split_host_port a) as [[? ?]|] | |- context [atoi ?p] => destruct (atoi p) as [? [|]] end; reflexivity. }
  destruct R as (R1 & _ & _ & R2 & _ & R3 & _ & R4 & _). destruct K as (K1 & K2 & _ & _ & K3 & K4).
  do 4 (split; [apply F2; [nm|assumption]|]). split; [exact K1|]. split; [intros x Hp; apply (K2 x Hp)|]. split; intros ip port H; [apply (K3 ip port H)|apply (K4 ip port H)].
Qed.
Print Assumptions C80_outbound_connection.
Theorem C80_no_response_connection : forall p s, s_outbound s = false \/ p_conn p = None -> before_response p s = s.
Proof. intros p s [H|H]; unfold before_response; rewrite H; [reflexivity|]. now destruct (s_outbound s). Qed.
Print Assumptions C80_no_response_connection.
