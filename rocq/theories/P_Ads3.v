(* C24 for routes: closing the gap of C24_request_iff_changed. *)
From Coq Require Import List String Bool.
From Verif Require Import M_GoMap L_GoMap M_Ads S_Ads L_Ads L_AdsClient P_Ads.
Import ListNotations.
Theorem C24_route_request_iff_changed : forall g es resp c' r reqs, on_parent LDS resp -> let c := run g new_client es in
  receive g c resp = Some (c', r :: reqs) ->
  (reqs = [] <-> forall n, references_route c' n <-> In n (c_sub (c RDS))) /\ (reqs <> [] -> exists r', reqs = [r']).
Proof.
  intros g es resp c' r reqs Hf c H. apply receive_inv in H. destruct H as (t0 & c1 & e' & c2 & r' & rs' & Ht & Hh & Ha & Hu & Heq). injection Heq as <- <-.
  rewrite Hf, url_rtype in Ht. injection Ht as <-. assert (Hnd: nd_inv c) by apply run_nd.
  assert (Hl: list_listeners c' = list_listeners c2). { unfold list_listeners, get_resources. now rewrite (updated_other _ _ _ _ _ LDS Hu) by discriminate. }
  assert (Hnd': nd (c_res (c' LDS))). { rewrite (updated_other _ _ _ _ _ LDS Hu) by discriminate. destruct (answered_view _ _ _ _ _ _ LDS Ha) as [_ ->]. eapply handle_any; [exact Hh|rewrite Hf; apply url_rtype|apply Hnd]. }
  assert (He: c_sub (c2 RDS) = c_sub (c RDS)). { destruct (answered_view _ _ _ _ _ _ RDS Ha) as [-> _]. rewrite (handle_other _ _ _ _ LDS RDS Hh); [reflexivity|rewrite Hf; apply url_rtype|discriminate]. }
  assert (Hr: forall n, references_route c' n <-> In n (route_references (list_listeners c2))) by (intros n; rewrite <- Hl; symmetry; now apply route_refs).
  cbn [on_updated] in Hu. unfold on_listeners_updated, route_references in *. apply resub_spec in Hu. destruct Hu as (_ & _ & _ & _ & _ & _ & H1 & _ & _ & H2). split; [|assumption].
  rewrite H1. split; intros Hx n; specialize (Hx n); rewrite ?He, ?Hr in *; assumption.
Qed.
Print Assumptions C24_route_request_iff_changed.
