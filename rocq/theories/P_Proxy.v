(* C81: the bidirectional proxy. *)
From Coq Require Import List Bool Arith Lia.
From Verif Require Import M_Proxy.
Import ListNotations.

(* --- specification --- *)
(* what the peer of s sent, and what the proxy gave it, are [arrived] and [sent]; the events of the proxy itself *)
Definition by_proxy (s : side) (ev : event) : Prop := match ev with Read t _ _ | Write t _ | Close t => t = s | _ => False end.
Definition in_flight (p : pc) : list byte := match p with Writing b _ => b | _ => [] end.
Definition prefix (a b : list byte) : Prop := exists r, b = a ++ r.
Inductive steps (size : nat) : state -> list event -> state -> Prop :=
| TNil : forall st, steps size st [] st
| TStep : forall st ev st1 es st2, step size st ev st1 -> steps size st1 es st2 -> steps size st (ev :: es) st2.

Lemma upd_eq : forall A (f : side -> A) s x, upd f s x s = x. Proof. intros. unfold upd. destruct (side_dec s s); congruence. Qed.
Lemma upd_neq : forall A (f : side -> A) s t x, t <> s -> upd f s x t = f t. Proof. intros. unfold upd. destruct (side_dec t s); congruence. Qed.
Lemma other_neq : forall s, other s <> s. Proof. intros []; discriminate. Qed.
Lemma neq_other : forall s, s <> other s. Proof. intros []; discriminate. Qed.
Lemma other_other : forall s, other (other s) = s. Proof. intros []; reflexivity. Qed.
Lemma side_cases : forall s t, t = s \/ t = other s. Proof. intros [] []; auto. Qed.
#[local] Hint Resolve other_neq neq_other : core.

(* the goroutine with source s *)
Definition dirI (st : state) (s : side) : Prop :=
  let c := conn_of st s in let d := conn_of st (other s) in
  (if write_failed st s then prefix (sent d) (arrived c) /\ (pc_of st s = Closing \/ pc_of st s = Done)
   else arrived c = sent d ++ in_flight (pc_of st s) ++ unread c) /\
  close_writes d + closes d = (match pc_of st s with Done => 1 | _ => 0 end) /\
  (half d = true -> closes d = 0) /\ (half d = false -> close_writes d = 0) /\
  (pc_of st s <> Reading -> pc_of st s <> Crashed -> write_failed st s = false -> (forall b, pc_of st s <> Writing b None) ->
     closes c <> 0 \/ (exists e, ended c = Some e /\ (e = Eof -> unread c = []))) /\
  (forall b e, pc_of st s = Writing b e -> b <> []).
Definition inv (hl hr : bool) (size : nat) (st : state) : Prop :=
  (half (conn_of st L) = hl /\ half (conn_of st R) = hr) /\ (size = 0 <-> exists s, pc_of st s = Crashed) /\ (size = 0 -> forall s, pc_of st s = Crashed /\ sent (conn_of st s) = []) /\ forall s, dirI st s.
Lemma inv_start : forall size hl hr, inv hl hr size (start size hl hr).
Proof.
  intros size hl hr. split; [split; reflexivity|]. split; [|split].
  - cbn. destruct size; cbn; split; intros H; try reflexivity; try discriminate; [exists L; reflexivity|]. destruct H as [s H]. discriminate.
  - intros ->. intros []; split; reflexivity.
  - intros s. unfold dirI. cbn [start write_failed]. destruct s; cbn; destruct (size =? 0); cbn; repeat split; intros; try congruence; discriminate.
Qed.
Lemma firstn_nil_zero : forall A n (l : list A), n <= length l -> firstn n l = [] -> n = 0.
Proof. intros A [|n] l H E; [reflexivity|]. destruct l; [cbn in H; lia|discriminate]. Qed.
(* a direction is not touched by what changes only other things *)
Lemma dir_same : forall st st' s, arrived (conn_of st' s) = arrived (conn_of st s) -> unread (conn_of st' s) = unread (conn_of st s) -> ended (conn_of st' s) = ended (conn_of st s) ->
  (closes (conn_of st s) <> 0 -> closes (conn_of st' s) <> 0) ->
  sent (conn_of st' (other s)) = sent (conn_of st (other s)) -> close_writes (conn_of st' (other s)) = close_writes (conn_of st (other s)) -> closes (conn_of st' (other s)) = closes (conn_of st (other s)) ->
  half (conn_of st' (other s)) = half (conn_of st (other s)) -> pc_of st' s = pc_of st s -> write_failed st' s = write_failed st s -> dirI st s -> dirI st' s.
Proof.
  intros st st' s E1 E2 E3 E4 E5 E6 E7 E8 E9 E10 (D1 & D2 & D3 & D4 & D5 & D6). unfold dirI. rewrite E1, E2, E3, E5, E6, E7, E8, E9, E10. split; [exact D1|]. split; [exact D2|]. split; [exact D3|]. split; [exact D4|]. split; [|exact D6].
  intros A B C D. destruct (D5 A B C D) as [H|H]; [left; auto|right; exact H].
Qed.
Ltac flat := cbn [set_conn set_pc fail_write conn_of pc_of write_failed unread ended arrived sent half close_writes closes take_in put_out].
Lemma inv_step : forall size hl hr st ev st', inv hl hr size st -> step size st ev st' -> inv hl hr size st'.
Proof.
  intros size hl hr st ev st' (H1 & H2 & H3 & H4) Hs. assert (K: forall s, half (conn_of st' s) = half (conn_of st s)).
  { intros t. destruct Hs; flat; try (destruct (Nat.eqb_spec n (length b)); flat).
    1-2: (destruct (side_cases s t) as [->| ->]; rewrite ?upd_eq, ?upd_neq by auto; reflexivity).
    1: (destruct (side_cases s t) as [->| ->]; rewrite ?upd_eq, ?upd_neq by auto; reflexivity).
    1-2: (destruct (side_cases (other s) t) as [->| ->]; rewrite ?upd_eq, ?upd_neq by auto; reflexivity).
    unfold close_conn. destruct (side_cases (other s) t) as [->| ->]; rewrite ?upd_eq, ?upd_neq by auto; [|reflexivity]. destruct (half (conn_of st (other s))) eqn:E; cbn; congruence. }
  split; [destruct H1 as [A B]; split; [rewrite K; exact A|rewrite K; exact B]|].
  assert (C: forall s, pc_of st' s = Crashed <-> pc_of st s = Crashed).
  { intros t. destruct Hs; flat; try reflexivity; try (destruct (Nat.eqb_spec n (length b)); flat); (destruct (side_dec t s) as [->|Hne]; [rewrite upd_eq|rewrite upd_neq by exact Hne; reflexivity]).
    - destruct (firstn n (unread (conn_of st s))); split; intros; congruence.
    - destruct e; split; intros; congruence.
    - split; intros; congruence.
    - split; intros; congruence. }
  split; [rewrite H2; split; intros [s Hc]; exists s; apply C; exact Hc|]. split.
  { intros Hz t. destruct (H3 Hz t) as [P1 P2]. split; [apply C; exact P1|]. destruct Hs; flat; try (destruct (side_cases s t) as [->| ->]; rewrite ?upd_eq, ?upd_neq by auto; exact P2).
    - exfalso. destruct (H3 Hz s) as [Q _]. congruence.
    - exfalso. destruct (H3 Hz s) as [Q _]. congruence. }
  intros t. pose proof (H4 t) as D. destruct Hs as [s b He Hb|s e He|s n e Hp Hr|s n b e Hp Hn Hw|s Hp].
  - (* Arrive *) destruct (side_dec t s) as [->|Hne].
    + destruct D as (D1 & D2 & D3 & D4 & D5 & D6). unfold dirI. flat. rewrite upd_eq, upd_neq by auto. flat. split; [|split; [exact D2|split; [exact D3|split; [exact D4|split; [|exact D6]]]]].
      * destruct (write_failed st s); [destruct D1 as [[r Hr] Hq]; split; [exists (r ++ b); rewrite Hr; now rewrite app_assoc|exact Hq]|]. rewrite D1. now rewrite <- !app_assoc.
      * intros A B C' E. destruct (D5 A B C' E) as [X|(e & X & _)]; [now left|congruence].
    + assert (t = other s) as -> by (destruct (side_cases s t); congruence). apply (dir_same st); flat; rewrite ?other_other, ?upd_eq, ?upd_neq by auto; flat; auto.
  - (* End *) destruct (side_dec t s) as [->|Hne].
    + destruct D as (D1 & D2 & D3 & D4 & D5 & D6). unfold dirI. flat. rewrite upd_eq, upd_neq by auto. flat. split; [exact D1|]. split; [exact D2|]. split; [exact D3|]. split; [exact D4|]. split; [|exact D6].
      intros A B C' E. destruct (D5 A B C' E) as [X|(e' & X & _)]; [now left|congruence].
    + assert (t = other s) as -> by (destruct (side_cases s t); congruence). apply (dir_same st); flat; rewrite ?other_other, ?upd_eq, ?upd_neq by auto; flat; auto.
  - (* Read *) destruct (side_dec t s) as [->|Hne].
    + destruct D as (D1 & D2 & D3 & D4 & D5 & D6). unfold dirI. flat. rewrite !upd_eq, !upd_neq by auto. flat. rewrite Hp in D1, D2. destruct Hr as (R1 & R2 & R3 & R4 & R5).
      assert (Hf: write_failed st s = false) by (destruct (write_failed st s); [destruct D1 as [_ [X|X]]; discriminate|reflexivity]). rewrite Hf in *. cbn [in_flight app] in D1.
      assert (S: firstn n (unread (conn_of st s)) ++ skipn n (unread (conn_of st s)) = unread (conn_of st s)) by apply firstn_skipn.
      set (p := match firstn n (unread (conn_of st s)) with [] => Closing | b => Writing b e end).
      assert (Hfl: in_flight p = firstn n (unread (conn_of st s))) by (unfold p; destruct (firstn n (unread (conn_of st s))); reflexivity).
      split; [rewrite Hfl, S; exact D1|]. split; [rewrite D2; unfold p; destruct (firstn n (unread (conn_of st s))); reflexivity|]. split; [exact D3|]. split; [exact D4|]. split.
      * intros _ _ _ Hw. assert (He: e <> None).
        { unfold p in Hw. destruct (firstn n (unread (conn_of st s))) as [|x l] eqn:Ef; [apply R3; now apply firstn_nil_zero in Ef|]. intros ->. exact (Hw _ eq_refl). }
        destruct (read_closed (conn_of st s)) eqn:Ec; [left; unfold read_closed, closed in Ec; destruct (closes (conn_of st s)); [discriminate|discriminate]|]. right. specialize (R5 eq_refl). destruct e as [x|]; [|congruence]. destruct R5 as [R5 R6]. exists x. split; [exact R5|]. intros ->. rewrite (R6 eq_refl). apply skipn_all.
      * unfold p. intros b' e' X. destruct (firstn n (unread (conn_of st s))); congruence.
    + assert (t = other s) as -> by (destruct (side_cases s t); congruence). apply (dir_same st); flat; rewrite ?other_other, ?upd_eq, ?upd_neq by auto; flat; auto.
  - (* Write *) destruct (side_dec t s) as [->|Hne].
    + destruct D as (D1 & D2 & D3 & D4 & D5 & D6). rewrite Hp in D1, D2.
      assert (Hf: write_failed st s = false) by (destruct (write_failed st s); [destruct D1 as [_ [X|X]]; discriminate|reflexivity]). rewrite Hf in D1. cbn [in_flight] in D1.
      unfold dirI. cbn zeta. destruct (Nat.eqb_spec n (length b)) as [Eq|Nq]; flat; rewrite ?upd_eq, ?upd_neq by auto; flat.
      * rewrite Hf. subst n. rewrite firstn_all. split; [rewrite D1; destruct e; cbn [in_flight app]; now rewrite <- app_assoc|]. split; [rewrite D2; destruct e; reflexivity|]. split; [exact D3|]. split; [exact D4|]. split; [|destruct e; discriminate].
        intros A B _ _. destruct e as [e|]; [|congruence]. apply (D5); rewrite ?Hp; try discriminate; auto. 
      * split; [split; [|now left]|]. { exists (skipn n b ++ unread (conn_of st s)). rewrite D1. rewrite <- (firstn_skipn n b) at 1. now rewrite <- !app_assoc. }
        split; [exact D2|]. split; [exact D3|]. split; [exact D4|]. split; [discriminate|discriminate].
    + assert (t = other s) as -> by (destruct (side_cases s t); congruence). destruct (Nat.eqb_spec n (length b)); (apply (dir_same st); flat; rewrite ?other_other, ?upd_eq, ?upd_neq by auto; flat; auto).
  - (* Close *) destruct (side_dec t s) as [->|Hne].
    + destruct D as (D1 & D2 & D3 & D4 & D5 & D6). rewrite Hp in *. unfold dirI. flat. rewrite !upd_eq, !upd_neq by auto.
      assert (A: sent (close_conn (conn_of st (other s))) = sent (conn_of st (other s))) by (unfold close_conn; destruct (half (conn_of st (other s))); reflexivity). rewrite A. cbn [in_flight] in *.
      split; [destruct (write_failed st s); [destruct D1 as [X _]; auto|exact D1]|]. split; [|split; [|split; [|split; [|discriminate]]]].
      * unfold close_conn. destruct (half (conn_of st (other s))); cbn; lia.
      * unfold close_conn. destruct (half (conn_of st (other s))) eqn:E; cbn; intros; try congruence; auto.
      * unfold close_conn. destruct (half (conn_of st (other s))) eqn:E; cbn; intros; try congruence; auto.
      * intros _ _ B _. apply D5; auto; discriminate.
    + assert (t = other s) as -> by (destruct (side_cases s t); congruence).
      assert (A: closes (conn_of st (other s)) <> 0 -> closes (close_conn (conn_of st (other s))) <> 0) by (unfold close_conn; destruct (half (conn_of st (other s))); cbn; auto).
      apply (dir_same st); flat; rewrite ?other_other, ?upd_eq, ?upd_neq by auto; flat; auto; unfold close_conn; destruct (half (conn_of st (other s))); reflexivity.
Qed.
Lemma inv_run : forall size hl hr es st, run size hl hr es st -> inv hl hr size st.
Proof. intros size hl hr es st H. induction H; [apply inv_start|eapply inv_step; eassumption]. Qed.

(* A peer gets exactly what the other peer sent, in order: always the bytes up to some point, and at the end all of them, if no write failed, the
   stream ended regularly, and the connection it came from was not closed (it has CloseWrite or the other direction still runs). *)
Theorem C81_in_order : forall size hl hr es st s, run size hl hr es st -> prefix (sent (conn_of st (other s))) (arrived (conn_of st s)).
Proof.
  intros size hl hr es st s H. destruct (inv_run _ _ _ _ _ H) as (_ & _ & _ & D). destruct (D s) as (D1 & _). destruct (write_failed st s); [apply D1|]. eexists. exact D1.
Qed.
Print Assumptions C81_in_order.
Theorem C81_complete : forall size hl hr es st s, run size hl hr es st -> pc_of st s = Done -> write_failed st s = false -> ended (conn_of st s) = Some Eof ->
  half (conn_of st s) = true \/ pc_of st (other s) <> Done -> sent (conn_of st (other s)) = arrived (conn_of st s).
Proof.
  intros size hl hr es st s H Hd Hw He Hc. destruct (inv_run _ _ _ _ _ H) as (_ & _ & _ & D). destruct (D s) as (D1 & _ & _ & _ & D5 & _). destruct (D (other s)) as (_ & E2 & E3 & _ & _). rewrite other_other in *. rewrite Hw, Hd in *.
  assert (Z: closes (conn_of st s) = 0). { destruct Hc as [Hc|Hc]; [auto|]. destruct (pc_of st (other s)); try lia. congruence. }
  destruct D5 as [X|(e & X & Y)]; try discriminate; auto; [lia|]. rewrite He in X. injection X as <-. rewrite (Y eq_refl) in D1. cbn in D1. rewrite app_nil_r in D1. auto.
Qed.
Print Assumptions C81_complete.

(* Each connection is closed exactly once, by the goroutine that writes to it and when that is finished: its write side if it has CloseWrite, as
   a whole otherwise.  After that nothing is written to it. *)
Theorem C81_closed_once : forall size hl hr es st s, run size hl hr es st -> let c := conn_of st (other s) in
  close_writes c + closes c = (match pc_of st s with Done => 1 | _ => 0 end) /\ (half c = true -> closes c = 0) /\ (half c = false -> close_writes c = 0).
Proof. intros size hl hr es st s H c. destruct (inv_run _ _ _ _ _ H) as (_ & _ & _ & D). destruct (D s) as (_ & D2 & D3 & D4 & _). auto. Qed.
Print Assumptions C81_closed_once.
Lemma done_stays : forall size st ev st' s, step size st ev st' -> pc_of st s = Done -> pc_of st' s = Done /\ ~ by_proxy s ev.
Proof.
  intros size st ev st' s Hs Hd. destruct Hs as [t b He Hb|t e He|t n e Hp Hr|t n b e Hp Hn Hw|t Hp]; cbn [by_proxy]; flat; try (split; [exact Hd|auto]);
    (assert (t <> s) by (intros ->; congruence); split; [|congruence]); try (destruct (Nat.eqb_spec n (length b)); flat); rewrite ?upd_neq by auto; exact Hd.
Qed.
Lemma done_steps : forall size st es st' s, steps size st es st' -> pc_of st s = Done -> pc_of st' s = Done /\ forall ev, In ev es -> ~ by_proxy s ev.
Proof.
  intros size st es st' s H. induction H as [st|st ev st1 es st2 Hs _ IH]; intros Hd; [split; [exact Hd|intros ev []]|]. destruct (done_stays _ _ _ _ _ Hs Hd) as [A B]. destruct (IH A) as [C D]. split; [exact C|]. intros ev' [<-|Hi]; auto.
Qed.
Theorem C81_nothing_after_close : forall size st s st1 es st2, step size st (Close s) st1 -> steps size st1 es st2 -> forall ev, In ev es -> ~ by_proxy s ev.
Proof.
  intros size st s st1 es st2 H H2. assert (Hd: pc_of st1 s = Done) by (inversion H; subst; flat; now rewrite upd_eq). now destruct (done_steps _ _ _ _ _ H2 Hd).
Qed.
Print Assumptions C81_nothing_after_close.

(* One direction does not wait for the other: what has arrived can be read and what was read can be written in full, whatever the other
   direction does or did, as long as the connection has CloseWrite. *)
Theorem C81_independent : forall size hl hr es st s, run size hl hr es st -> 0 < size -> half (conn_of st s) = true ->
  (pc_of st s = Reading -> unread (conn_of st s) <> [] \/ ended (conn_of st s) <> None -> exists n e st', step size st (Read s n e) st') /\
  (forall b e, pc_of st s = Writing b e -> exists st', step size st (Write s (length b)) st' /\ sent (conn_of st' (other s)) = sent (conn_of st (other s)) ++ b) /\
  (pc_of st s = Closing -> exists st', step size st (Close s) st').
Proof.
  intros size hl hr es st s H Hz Hh. destruct (inv_run _ _ _ _ _ H) as (_ & _ & _ & D). destruct (D (other s)) as (_ & _ & E3 & _). destruct (D s) as (_ & D2 & _ & _). rewrite other_other in E3. specialize (E3 Hh). split; [|split].
  - intros Hp Hu. destruct (unread (conn_of st s)) as [|x u] eqn:Eu.
    + destruct Hu as [Hu|Hu]; [congruence|]. destruct (ended (conn_of st s)) as [e|] eqn:Ee; [|congruence]. exists 0, (Some e). eexists. constructor; [exact Hp|]. unfold read_ok. rewrite Eu. split; [lia|]. split; [cbn; lia|]. split; [discriminate|]. split; [intros Hc; unfold read_closed, closed in Hc; rewrite E3 in Hc; discriminate|]. intros _. split; [exact Ee|reflexivity].
    + exists 1, None. eexists. constructor; [exact Hp|]. unfold read_ok. rewrite Eu. split; [lia|]. split; [cbn; lia|]. split; [discriminate|]. split; [intros Hc; unfold read_closed, closed in Hc; rewrite E3 in Hc; discriminate|auto].
  - intros b e Hp. rewrite Hp in D2. eexists. split; [apply (SWrite size st s (length b) b e Hp); [lia|]|].
    + intros Hc. unfold write_closed, closed in Hc. assert (A: closes (conn_of st (other s)) = 0 /\ close_writes (conn_of st (other s)) = 0) by lia. destruct A as [A B]. rewrite A, B in Hc. discriminate.
    + cbv zeta. rewrite Nat.eqb_refl, firstn_all. flat. now rewrite upd_eq.
  - intros Hp. eexists. now constructor.
Qed.
Print Assumptions C81_independent.

(* Start returns once both peers have ended: no schedule goes on forever, and none stops earlier. *)
Definition work (st : state) (s : side) : nat :=
  match pc_of st s with Reading => 2 * length (unread (conn_of st s)) + 4 | Writing _ _ => 2 * length (unread (conn_of st s)) + 5 | Closing => 1 | _ => 0 end.
Definition all_ended (st : state) : Prop := forall s, ended (conn_of st s) <> None.
Lemma work_step : forall size st ev st', (forall s b e, pc_of st s = Writing b e -> b <> []) -> step size st ev st' -> all_ended st -> all_ended st' /\ work st' L + work st' R < work st L + work st R.
Proof.
  intros size st ev st' HW Hs HA. assert (HS: forall f : state -> side -> nat, forall x, f x L + f x R = f x L + f x R) by reflexivity.
  assert (Go: forall s, all_ended st' -> work st' s < work st s -> work st' (other s) <= work st (other s) -> all_ended st' /\ work st' L + work st' R < work st L + work st R).
  { intros [] HA' A B; (split; [exact HA'|]); cbn [other] in B; lia. }
  destruct Hs as [s b He Hb|s e He|s n e Hp Hr|s n b e Hp Hn Hw|s Hp]; [destruct (HA s He)|destruct (HA s He)| | |]; apply (Go s).
  - intros t. flat. destruct (side_cases s t) as [->| ->]; rewrite ?upd_eq, ?upd_neq by auto; flat; apply HA.
  - unfold work. flat. rewrite !upd_eq, Hp. flat. destruct Hr as (_ & R2 & _). destruct (firstn n (unread (conn_of st s))) as [|x l] eqn:Ef; [lia|]. rewrite skipn_length.
    assert (0 < n) by (destruct n; [discriminate|lia]). lia.
  - unfold work. flat. rewrite ?upd_eq, ?upd_neq by auto. lia.
  - intros t. cbv zeta. destruct (n =? length b); flat; destruct (side_cases (other s) t) as [->| ->]; rewrite ?upd_eq, ?upd_neq by auto; flat; apply HA.
  - unfold work. cbv zeta. destruct (n =? length b); flat; rewrite ?upd_eq, ?upd_neq by auto; rewrite Hp; [destruct e; lia|lia].
  - unfold work. cbv zeta. destruct (n =? length b); flat; rewrite ?upd_eq, ?upd_neq by auto; flat; lia.
  - intros t. flat. destruct (side_cases (other s) t) as [->| ->]; rewrite ?upd_eq, ?upd_neq by auto; [|apply HA]. unfold close_conn. destruct (half (conn_of st (other s))); apply HA.
  - unfold work. flat. rewrite !upd_eq, Hp. lia.
  - unfold work. flat. rewrite ?upd_eq, ?upd_neq by auto. unfold close_conn. destruct (half (conn_of st (other s))); flat; lia.
Qed.
Lemma inv_writing : forall hl hr size st, inv hl hr size st -> forall s b e, pc_of st s = Writing b e -> b <> [].
Proof. intros hl hr size st (_ & _ & _ & D) s. apply (D s). Qed.
Lemma ended_step : forall hl hr size st, inv hl hr size st -> 0 < size -> all_ended st -> (forall ev st', ~ step size st ev st') -> returned st.
Proof.
  intros hl hr size st HI Hz HA Hn. pose proof HI as (_ & Hc & _ & D). assert (P: forall s, pc_of st s = Done).
  { intros s. destruct (pc_of st s) as [|b e| | |] eqn:Ep; [| | |reflexivity|].
    - exfalso. destruct (ended (conn_of st s)) as [e|] eqn:Ee; [|exact (HA s Ee)]. destruct (read_closed (conn_of st s)) eqn:Ec.
      + eapply (Hn (Read s 0 (Some Broken))). constructor; [exact Ep|]. unfold read_ok. split; [lia|]. split; [lia|]. split; [discriminate|]. split; [auto|congruence].
      + destruct (unread (conn_of st s)) as [|x u] eqn:Eu.
        * eapply (Hn (Read s 0 (Some e))). constructor; [exact Ep|]. unfold read_ok. rewrite Eu. split; [lia|]. split; [cbn; lia|]. split; [discriminate|]. split; [congruence|]. intros _. auto.
        * eapply (Hn (Read s 1 None)). constructor; [exact Ep|]. unfold read_ok. rewrite Eu. split; [lia|]. split; [cbn; lia|]. split; [discriminate|]. split; [congruence|auto].
    - exfalso. eapply (Hn (Write s 0)). apply (SWrite size st s 0 b e Ep); [lia|auto].
    - exfalso. eapply (Hn (Close s)). now constructor.
    - exfalso. assert (size = 0) by (apply Hc; now exists s). lia. }
  split; apply P.
Qed.
Theorem C81_returns : forall size hl hr es st, run size hl hr es st -> 0 < size -> all_ended st ->
  forall es2 st2, steps size st es2 st2 -> length es2 <= 2 * (length (unread (conn_of st L)) + length (unread (conn_of st R))) + 10 /\ ((forall ev st3, ~ step size st2 ev st3) -> returned st2).
Proof.
  intros size hl hr es st H Hz HA es2 st2 H2. pose proof (inv_run _ _ _ _ _ H) as HI.
  assert (G: length es2 + work st2 L + work st2 R <= work st L + work st R /\ inv hl hr size st2 /\ all_ended st2).
  { clear H. induction H2 as [st|st ev st1 es2 st2 Hs _ IH]; [cbn; auto|]. destruct (work_step _ _ _ _ (inv_writing _ _ _ _ HI) Hs HA) as [HA' HW]. destruct IH as (I1 & I2 & I3); [exact HA'|eapply inv_step; eassumption|]. cbn [length]. split; [lia|auto]. }
  destruct G as (G1 & G2 & G3). split; [|apply (ended_step hl hr); assumption].
  assert (B: forall s, work st s <= 2 * length (unread (conn_of st s)) + 5) by (intros s; unfold work; destruct (pc_of st s); lia). pose proof (B L). pose proof (B R). lia.
Qed.
Print Assumptions C81_returns.
(* Before that it does not, unless a write failed or a connection without CloseWrite was closed under the reader. *)
Theorem C81_returns_only : forall size hl hr es st s, run size hl hr es st -> returned st -> ended (conn_of st s) <> None \/ write_failed st s = true \/ half (conn_of st s) = false.
Proof.
  intros size hl hr es st s H [HL HR]. destruct (inv_run _ _ _ _ _ H) as (_ & _ & _ & D). assert (Hd: pc_of st s = Done) by (destruct s; assumption). destruct (D s) as (_ & _ & _ & _ & D5 & _). destruct (D (other s)) as (_ & _ & E3 & _). rewrite other_other in E3. rewrite Hd in D5.
  destruct (write_failed st s); [auto|]. destruct (half (conn_of st s)); [|auto]. left. destruct D5 as [X|(e & X & _)]; [discriminate|discriminate|reflexivity|discriminate|destruct (X (E3 eq_refl))|congruence].
Qed.
Print Assumptions C81_returns_only.

(* Defect: connections with CloseWrite are never closed, not even when Start has returned. *)
Theorem C81_never_closed_refuted : forall size es st, run size true true es st -> closes (conn_of st L) = 0 /\ closes (conn_of st R) = 0.
Proof.
  intros size es st H. destruct (inv_run _ _ _ _ _ H) as ([A B] & _ & _ & D). destruct (D L) as (_ & _ & D3 & _). destruct (D R) as (_ & _ & E3 & _). cbn [other] in *. auto.
Qed.
Print Assumptions C81_never_closed_refuted.
(* Defect: a buffer of size 0 crashes the process at once. *)
Theorem C81_buffer_refuted : forall hl hr es st, run 0 hl hr es st -> pc_of st L = Crashed /\ pc_of st R = Crashed /\ sent (conn_of st L) = [] /\ sent (conn_of st R) = [].
Proof. intros hl hr es st H. destruct (inv_run _ _ _ _ _ H) as (_ & _ & C & _). destruct (C eq_refl L), (C eq_refl R). auto. Qed.
Print Assumptions C81_buffer_refuted.

Lemma run_steps : forall size hl hr es st es2 st2, run size hl hr es st -> steps size st es2 st2 -> run size hl hr (es ++ es2) st2.
Proof.
  intros size hl hr es st es2 st2 H H2. revert es H. induction H2 as [st|st ev st1 es2 st2 Hs _ IH]; intros es H; [now rewrite app_nil_r|]. replace (es ++ ev :: es2) with ((es ++ [ev]) ++ es2) by (rewrite <- app_assoc; reflexivity). apply IH. econstructor; eassumption.
Qed.
Lemma unread_kept : forall size st ev st' s, step size st ev st' -> ~ (exists n e, ev = Read s n e) -> prefix (unread (conn_of st s)) (unread (conn_of st' s)).
Proof.
  intros size st ev st' s Hs Hn. assert (Z: forall x, prefix x x) by (intros x; exists []; now rewrite app_nil_r).
  destruct Hs as [t b He Hb|t e He|t n e Hp Hr|t n b e Hp Hq Hw|t Hp]; flat.
  - destruct (side_dec s t) as [->|Hne]; [rewrite upd_eq; exists b; reflexivity|rewrite upd_neq by exact Hne; apply Z].
  - destruct (side_dec s t) as [->|Hne]; [rewrite upd_eq; apply Z|rewrite upd_neq by exact Hne; apply Z].
  - destruct (side_dec s t) as [->|Hne]; [destruct Hn; eauto|rewrite upd_neq by exact Hne; apply Z].
  - cbv zeta. destruct (n =? length b); flat; (destruct (side_dec s (other t)) as [->|Hne]; [rewrite upd_eq; apply Z|rewrite upd_neq by exact Hne; apply Z]).
  - unfold close_conn. destruct (side_dec s (other t)) as [->|Hne]; [rewrite upd_eq; destruct (half (conn_of st (other t))); apply Z|rewrite upd_neq by exact Hne; apply Z].
Qed.
Lemma ended_kept : forall size st ev st' s, step size st ev st' -> ended (conn_of st s) = None -> (forall e, ev <> End s e) -> ended (conn_of st' s) = None.
Proof.
  intros size st ev st' s Hs He Hn. destruct Hs as [t b Ht Hb|t e Ht|t n e Hp Hr|t n b e Hp Hq Hw|t Hp]; flat.
  - destruct (side_dec s t) as [->|Hne]; [rewrite upd_eq; reflexivity|rewrite upd_neq by exact Hne; exact He].
  - destruct (side_dec s t) as [->|Hne]; [destruct (Hn e eq_refl)|rewrite upd_neq by exact Hne; exact He].
  - destruct (side_dec s t) as [->|Hne]; [rewrite upd_eq; exact He|rewrite upd_neq by exact Hne; exact He].
  - cbv zeta. destruct (n =? length b); flat; (destruct (side_dec s (other t)) as [->|Hne]; [rewrite upd_eq; exact He|rewrite upd_neq by exact Hne; exact He]).
  - unfold close_conn. destruct (side_dec s (other t)) as [->|Hne]; [rewrite upd_eq; destruct (half (conn_of st (other t))); exact He|rewrite upd_neq by exact Hne; exact He].
Qed.
(* Defect: when a peer can no longer be written to, the other one is not told: its connection is neither read nor closed until the first one ends its
   own stream (or cannot be answered either). *)
Theorem C81_not_told_refuted : forall size hl hr es st s, run size hl hr es st -> write_failed st s = true -> pc_of st s = Done -> half (conn_of st (other s)) = true -> ended (conn_of st (other s)) = None ->
  forall es2 st2, steps size st es2 st2 -> (forall e, ~ In (End (other s) e) es2) -> write_failed st2 (other s) = false ->
  closes (conn_of st2 s) = 0 /\ close_writes (conn_of st2 s) = 0 /\ prefix (unread (conn_of st s)) (unread (conn_of st2 s)).
Proof.
  intros size hl hr es st s H Hw Hd Hh He es2 st2 H2 Hn Hf. pose proof (run_steps _ _ _ _ _ _ _ H H2) as Hr.
  assert (G: ended (conn_of st2 (other s)) = None /\ half (conn_of st2 (other s)) = true /\ prefix (unread (conn_of st s)) (unread (conn_of st2 s))).
  { destruct (inv_run _ _ _ _ _ Hr) as ([A1 A2] & _). destruct (inv_run _ _ _ _ _ H) as ([B1 B2] & _). assert (Hh2: half (conn_of st2 (other s)) = true) by (destruct s; cbn [other] in *; congruence).
    clear A1 A2 B1 B2 Hr Hf H Hh Hw. revert Hd He Hn. induction H2 as [st|st ev st1 es2 st2 Hs H2 IH]; intros Hd He Hn; [split; [exact He|]; split; [exact Hh2|]; exists []; now rewrite app_nil_r|].
    destruct (done_stays _ _ _ _ _ Hs Hd) as [Hd1 Hb]. destruct (IH Hh2) as (I1 & I2 & [r I3]); [exact Hd1| |intros e Hi; apply (Hn e); now right|].
    - eapply ended_kept; [exact Hs|exact He|]. intros e ->. apply (Hn e). now left.
    - split; [exact I1|]. split; [exact I2|]. destruct (unread_kept _ _ _ _ s Hs) as [r0 E0]; [intros (n & e & ->); apply Hb; reflexivity|]. exists (r0 ++ r). rewrite I3, E0. now rewrite app_assoc. }
  destruct G as (G1 & G2 & G3). destruct (inv_run _ _ _ _ _ Hr) as (_ & _ & _ & D). destruct (D s) as (_ & _ & D3 & _). destruct (D (other s)) as (_ & E2 & _ & _ & E5 & _). rewrite other_other in *.
  assert (Hp: pc_of st2 (other s) <> Done). { intros Hp. rewrite Hp in E5. destruct E5 as [X|(e & X & _)]; [discriminate|discriminate|exact Hf|discriminate|exact (X (D3 G2))|congruence]. }
  destruct (pc_of st2 (other s)); try (repeat split; [lia|lia|exact G3]). congruence.
Qed.
Print Assumptions C81_not_told_refuted.
(* Defect: without CloseWrite the end of one direction cuts the other: nothing that has not been read by then arrives any more. *)
Theorem C81_cut_refuted : forall size hl hr es st s, run size hl hr es st -> half (conn_of st s) = false -> pc_of st (other s) = Done -> pc_of st s = Reading ->
  forall es2 st2, steps size st es2 st2 -> sent (conn_of st2 (other s)) = sent (conn_of st (other s)).
Proof.
  intros size hl hr es st s H Hh Hd Hp es2 st2 H2. pose proof (inv_run _ _ _ _ _ H) as HI. clear H.
  assert (G: forall st es2 st2, steps size st es2 st2 -> inv hl hr size st -> half (conn_of st s) = false -> pc_of st (other s) = Done -> pc_of st s = Reading \/ pc_of st s = Closing \/ pc_of st s = Done -> sent (conn_of st2 (other s)) = sent (conn_of st (other s))).
  { clear. intros st es2 st2 H2. induction H2 as [st|st ev st1 es2 st2 Hs H2 IH]; intros HI Hh Hd Hp; [reflexivity|].
    pose proof (inv_step _ _ _ _ _ _ HI Hs) as HI1. destruct (done_stays _ _ _ _ _ Hs Hd) as [Hd1 Hb]. pose proof HI as (_ & _ & _ & D). destruct (D (other s)) as (_ & D2 & _ & D4 & _). rewrite other_other in *. rewrite Hd in D2. specialize (D4 Hh).
    assert (Hh1: half (conn_of st1 s) = false) by (destruct HI as ([A1 A2] & _); destruct HI1 as ([B1 B2] & _); destruct s; congruence).
    assert (K: sent (conn_of st1 (other s)) = sent (conn_of st (other s)) /\ (pc_of st1 s = Reading \/ pc_of st1 s = Closing \/ pc_of st1 s = Done)).
    { destruct Hs as [t b Ht Hx|t e Ht|t n e Hq Hr|t n b e Hq Hx Hw|t Hq]; flat; cbn [by_proxy] in Hb.
      - split; [|exact Hp]. destruct (side_dec (other s) t) as [<-|Hne]; [rewrite upd_eq|rewrite upd_neq by exact Hne]; reflexivity.
      - split; [|exact Hp]. destruct (side_dec (other s) t) as [<-|Hne]; [rewrite upd_eq|rewrite upd_neq by exact Hne]; reflexivity.
      - assert (t = s) as -> by (destruct (side_cases s t); congruence). rewrite upd_eq, upd_neq by auto. split; [reflexivity|]. destruct Hr as (_ & _ & _ & R4 & _). destruct R4 as [-> _]; [unfold read_closed, closed; replace (closes (conn_of st s)) with 1 by lia; reflexivity|]. cbn. auto.
      - assert (t = s) as -> by (destruct (side_cases s t); congruence). rewrite Hq in Hp. destruct Hp as [|[|]]; discriminate.
      - assert (t = s) as -> by (destruct (side_cases s t); congruence). rewrite !upd_eq. split; [|auto]. unfold close_conn. destruct (half (conn_of st (other s))); reflexivity. }
    destruct K as [K1 K2]. rewrite <- K1. apply IH; assumption. }
  apply (G st es2); auto.
Qed.
Print Assumptions C81_cut_refuted.

(* --- the hypotheses are met --- *)
Ltac side := unfold read_ok; cbn; first [reflexivity|discriminate|lia|repeat split; intros; first [congruence|lia|reflexivity]].
Ltac go1 := eapply TStep; [first [apply SArrive; side|apply SEnd; side|apply SRead; side|eapply SWrite; [reflexivity|side|side]|apply SClose; side]|]; match goal with |- steps _ ?st _ _ => let st' := eval vm_compute in st in change st with st' end.
(* a request, half-closed by the client, and its answer *)
Definition echo : list event := [Arrive L [1; 2]; End L Eof; Read L 2 (Some Eof); Write L 2; Close L; Arrive R [3]; Read R 1 None; Write R 1; End R Eof; Read R 0 (Some Eof); Close R].
Example C81_echo : exists st, run 8 true true echo st /\ returned st /\ all_ended st /\ sent (conn_of st R) = [1; 2] /\ sent (conn_of st L) = [3] /\ write_failed st L = false.
Proof. eexists. split; [apply (run_steps _ _ _ [] _ _ _ (RNil _ _ _)); unfold echo; do 11 go1; apply TNil|]. cbn. repeat split. intros []; discriminate. Qed.
(* the same, where the server's connection has no CloseWrite *)
Definition lost : list event := [Arrive L [1; 2]; End L Eof; Read L 2 (Some Eof); Write L 2; Close L; Arrive R [3]; End R Eof; Read R 0 (Some Broken); Close R].
Example C81_answer_lost : exists st, run 8 true false lost st /\ returned st /\ arrived (conn_of st R) = [3] /\ sent (conn_of st L) = [] /\ write_failed st R = false /\ ended (conn_of st R) = Some Eof.
Proof. eexists. split; [apply (run_steps _ _ _ [] _ _ _ (RNil _ _ _)); unfold lost; do 9 go1; apply TNil|]. cbn. repeat split. Qed.
(* a failed write *)
Definition stalled : list event := [Arrive L [1; 2]; Read L 2 None; Write L 1; Close L; Arrive L [4]].
Example C81_stalled : exists st, run 8 true true stalled st /\ write_failed st L = true /\ pc_of st L = Done /\ half (conn_of st R) = true /\ ended (conn_of st R) = None /\ unread (conn_of st L) = [4].
Proof. eexists. split; [apply (run_steps _ _ _ [] _ _ _ (RNil _ _ _)); unfold stalled; do 5 go1; apply TNil|]. cbn. repeat split. Qed.
