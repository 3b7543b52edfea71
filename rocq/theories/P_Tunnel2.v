(* C35, C37, C61: what happens on refusals *)
From Coq Require Import List String Bool ZArith Arith Lia.
From Verif Require Import M_Tunnel P_Tunnel.
Import ListNotations.
Open Scope nat_scope.
Open Scope list_scope.

Definition finished (s : csrv) : nat := List.length (filter (fun j => match j with CEnd => true | _ => false end) (c_jobs s)).
Lemma fin_cset : forall l j x y, nth_error l j = Some x -> x <> CEnd -> y = CEnd ->
  List.length (filter (fun j => match j with CEnd => true | _ => false end) (cset l j y)) = S (List.length (filter (fun j => match j with CEnd => true | _ => false end) l)).
Proof.
  induction l as [|a l IH]; intros [|j] x y E N ->; cbn in E; try discriminate.
  - injection E as ->. cbn. destruct x; [ reflexivity | reflexivity | congruence ].
  - cbn. destruct a; cbn; rewrite (IH j x CEnd E N eq_refl); reflexivity.
Qed.
Lemma fin_cset_no : forall l j x y, nth_error l j = Some x -> x <> CEnd -> y <> CEnd ->
  List.length (filter (fun j => match j with CEnd => true | _ => false end) (cset l j y)) = List.length (filter (fun j => match j with CEnd => true | _ => false end) l).
Proof.
  induction l as [|a l IH]; intros [|j] x y E N M; cbn in E; try discriminate.
  - injection E as ->. cbn. destruct x; [| | congruence ]; (destruct y; [ reflexivity | reflexivity | congruence ]).
  - cbn. destruct a; cbn; rewrite (IH j x y E N M); reflexivity.
Qed.
Definition accounted (s : csrv) : Prop := List.length (c_all s) <= finished s /\ (c_closed s = false -> finished s = List.length (c_all s)).
Lemma accounted_step : forall s s', cstep s s' -> accounted s -> accounted s'.
Proof.
  intros s s' H [A B]. unfold accounted, finished in *. destruct H; cbn [c_jobs c_all c_closed].
  - rewrite filter_app, app_length. cbn. rewrite Nat.add_0_r. split; assumption.
  - erewrite fin_cset_no; [ split; eassumption | eassumption | discriminate | discriminate ].
  - erewrite fin_cset; [| eassumption | discriminate | reflexivity ]. split; [ lia | discriminate ].
  - erewrite fin_cset; [| eassumption | discriminate | reflexivity ]. cbn [List.length]. split; [ lia |]. intros C. rewrite (B C). reflexivity.
Qed.
(* every control-stream request that was answered without establishing a control stream closed the session *)
Theorem C35_refusal_closes_session : forall a s, csteps (new_csrv a) s -> finished s <> List.length (c_all s) -> c_closed s = true.
Proof.
  intros a s H N. assert (accounted s) as [_ B].
  { assert (forall x y, csteps x y -> accounted x -> accounted y) as G by (intros x y S; induction S; eauto using accounted_step).
    apply (G _ _ H). split; [ apply Nat.le_refl | reflexivity ]. }
  destruct (c_closed s); [ reflexivity |]. exfalso. apply N, B. reflexivity.
Qed.
Print Assumptions C35_refusal_closes_session.
Example refused_case : exists s, csteps (new_csrv (Some (fun t => (false, true)))) s /\ finished s <> List.length (c_all s).
Proof.
  eexists. split.
  - cone. apply (C_msg _ 0 "t"%string). cbv; cone. eapply (C_decide _ 0); reflexivity. cbv; cone. eapply (C_refuse _ 0); reflexivity. apply CS_nil.
  - cbv. discriminate.
Qed.

(* the answer the client decodes names an error exactly if the stream id was not waiting *)
Theorem C37_open_answer : forall known, (known = true <-> rs_msg (over_wire (server_open_tcp known)) = ""%string) /\ (known = true <-> rs_type (over_wire (server_open_tcp known)) = ""%string) /\
  (known = false -> client_control (over_wire (server_open_tcp known)) <> None).
Proof. intros [|]; cbn; repeat split; try discriminate; try reflexivity; intros H; try discriminate H. Qed.
Print Assumptions C37_open_answer.

(* a listener the client no longer knows is left alone: nothing is offered to it and no port response changes it *)
Theorem C61_forgotten_listener : forall p n, mp_known p = false -> mport_request p = Done false /\ mport_response n p = Done p.
Proof. intros p n K. unfold mport_request, mport_response. rewrite K. split; reflexivity. Qed.
Print Assumptions C61_forgotten_listener.
(* a known, open listener is offered each requested connection *)
Theorem C61_known_listener : forall p, mp_known p = true -> mport_request p = (if mp_chclosed p then Panic else Done true).
Proof. intros p K. unfold mport_request. rewrite K. reflexivity. Qed.
Print Assumptions C61_known_listener.
