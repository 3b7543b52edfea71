(* C33 - C37, C61: tunnel server and client. *)
From Coq Require Import String List Bool ZArith Lia.
From Verif Require Import M_GoMap L_GoMap M_Tunnel.
Import ListNotations.
Open Scope Z_scope.

(* ================= C33: port provider ================= *)
(* specification: calls and their results, and the ports owned after a history *)
Inductive pop := OFree | OGet (n : Z) | ORel (n : Z).
Inductive pevent := EFree (r : Z) | EGet (n : Z) (ok : bool) | ERel (n : Z).
Definition own1 (o : list Z) (e : pevent) : list Z :=
  match e with
  | EFree r => if r =? 0 then o else r :: o
  | EGet n true => n :: o
  | EGet _ false => o
  | ERel n => filter (fun x => negb (n =? x)) o
  end.
Definition owned (h : list pevent) : list Z := fold_left own1 h [].
Definition papply (p : prov) (o : pop) : prov * pevent :=
  match o with
  | OFree => let '(r, p') := get_free_port p in (p', EFree r)
  | OGet n => let '(ok, p') := get_port n p in (p', EGet n ok)
  | ORel n => (release_port n p, ERel n)
  end.
Fixpoint prun (p : prov) (ops : list pop) : prov * list pevent :=
  match ops with
  | [] => (p, [])
  | o :: r => let '(p1, e) := papply p o in let '(p2, h) := prun p1 r in (p2, e :: h)
  end.
Lemma taken_in : forall n p, taken n p = true <-> In n (pv_ports p).
Proof. intros n p. unfold taken. rewrite existsb_exists. split; [intros (x & H1 & H2); apply Z.eqb_eq in H2; now subst|]. intros H. exists n. split; [assumption|apply Z.eqb_refl]. Qed.
Lemma taken_false : forall n p, taken n p = false <-> ~ In n (pv_ports p).
Proof. intros n p. rewrite <- taken_in. destruct (taken n p); split; congruence. Qed.
Lemma first_free_some : forall p f i r, first_free p i f = Some r -> i <= r < i + Z.of_nat f /\ taken r p = false /\ (forall x, i <= x < r -> taken x p = true).
Proof.
  intros p f. induction f as [|f IH]; intros i r H; cbn in H; [discriminate|]. destruct (taken i p) eqn:E.
  - destruct (IH _ _ H) as (A & B & C). split; [lia|]. split; [assumption|]. intros x Hx. destruct (Z.eq_dec x i) as [->|Hn]; [assumption|apply C; lia].
  - injection H as <-. split; [lia|]. split; [assumption|]. intros x Hx. lia.
Qed.
Lemma first_free_none : forall p f i, first_free p i f = None -> forall x, i <= x < i + Z.of_nat f -> taken x p = true.
Proof.
  intros p f. induction f as [|f IH]; intros i H x Hx; cbn in H; [lia|]. destruct (taken i p) eqn:E; [|discriminate]. destruct (Z.eq_dec x i) as [->|Hn]; [assumption|apply (IH _ H); lia].
Qed.
Lemma papply_own : forall mn mx o p e p', 0 < mn -> pv_min p = mn -> pv_max p = mx -> NoDup (pv_ports p) -> (forall n, In n (pv_ports p) -> mn <= n <= mx) -> papply p o = (p', e) ->
  pv_min p' = mn /\ pv_max p' = mx /\ pv_ports p' = own1 (pv_ports p) e /\ NoDup (pv_ports p') /\ (forall n, In n (pv_ports p') -> mn <= n <= mx).
Proof.
  intros mn mx o p e p' Hp Hmn Hmx N R H. destruct o as [|n|n]; cbn in H.
  - unfold get_free_port in H. destruct (first_free p (pv_min p) (Z.to_nat (pv_max p - pv_min p))) as [i|] eqn:E.
    + injection H as <- <-. destruct (first_free_some _ _ _ _ E) as (A & B & _). apply taken_false in B. cbn [pv_min pv_max pv_ports]. repeat split; try assumption.
      * unfold own1. destruct (i =? 0) eqn:Q; [apply Z.eqb_eq in Q; lia|reflexivity].
      * now constructor.
      * destruct H as [<-|H]; [lia|apply R in H; lia].
      * destruct H as [<-|H]; [lia|apply R in H; lia].
    + injection H as <- <-. repeat split; try assumption; apply R in H; lia.
  - unfold get_port in H. destruct ((n <? pv_min p) || (pv_max p <? n)) eqn:Q; [injection H as <- <-; repeat split; try assumption; apply R in H; lia|]. apply orb_false_iff in Q. rewrite !Z.ltb_ge in Q. destruct (taken n p) eqn:E; injection H as <- <-.
    + repeat split; try assumption; apply R in H; lia.
    + apply taken_false in E. cbn [pv_min pv_max pv_ports]. repeat split; try assumption; [now constructor| |]; destruct H as [<-|H]; try lia; apply R in H; lia.
  - injection H as <- <-. cbn [release_port pv_min pv_max pv_ports]. repeat split; try assumption; [now apply NoDup_filter| |]; apply filter_In in H; destruct H as [H _]; apply R in H; lia.
Qed.
Lemma prun_own : forall mn mx ops p h p', 0 < mn -> pv_min p = mn -> pv_max p = mx -> NoDup (pv_ports p) -> (forall n, In n (pv_ports p) -> mn <= n <= mx) -> prun p ops = (p', h) ->
  pv_min p' = mn /\ pv_max p' = mx /\ pv_ports p' = fold_left own1 h (pv_ports p) /\ NoDup (pv_ports p') /\ (forall n, In n (pv_ports p') -> mn <= n <= mx).
Proof.
  intros mn mx ops. induction ops as [|o ops IH]; intros p h p' Hp Hmn Hmx N R H; cbn in H; [injection H as <- <-; cbn; auto 6|].
  destruct (papply p o) as [p1 e] eqn:E1. destruct (prun p1 ops) as [p2 h2] eqn:E2. injection H as <- <-. destruct (papply_own _ _ _ _ _ _ Hp Hmn Hmx N R E1) as (A & B & C & D & F). cbn [fold_left]. rewrite <- C. now apply IH.
Qed.
Lemma new_prov_ok : forall mn mx p, new_prov mn mx = Some p -> p = mkprov mn mx [] /\ mn <= mx.
Proof. intros mn mx p H. unfold new_prov in H. destruct (mx <? mn) eqn:E; [discriminate|]. injection H as <-. apply Z.ltb_ge in E. auto. Qed.
(* After any history no port is owned twice and every owned port lies in the range (positive port numbers). *)
Theorem C33_no_double_hand_out : forall mn mx p ops p' h, 0 < mn -> new_prov mn mx = Some p -> prun p ops = (p', h) -> NoDup (owned h) /\ forall n, In n (owned h) -> mn <= n <= mx.
Proof.
  intros mn mx p ops p' h Hp Hn H. destruct (new_prov_ok _ _ _ Hn) as [-> Hle]. destruct (prun_own mn mx ops (mkprov mn mx []) _ _ Hp eq_refl eq_refl (NoDup_nil _) ltac:(cbn; tauto) H) as (_ & _ & E & N & R). cbn in E. unfold owned. rewrite <- E. auto.
Qed.
Print Assumptions C33_no_double_hand_out.
(* GetFreePort returns an unowned port below the upper bound, and fails only if all of those are owned; GetPort succeeds
   exactly for unowned ports in the range; a released port is available at once. *)
Theorem C33_availability : forall mn mx p ops p' h, 0 < mn -> new_prov mn mx = Some p -> prun p ops = (p', h) ->
  (let r := fst (get_free_port p') in (r <> 0 -> mn <= r < mx /\ ~ In r (owned h)) /\ (r = 0 <-> forall n, mn <= n < mx -> In n (owned h))) /\
  (forall n, fst (get_port n p') = true <-> mn <= n <= mx /\ ~ In n (owned h)) /\
  (forall n, mn <= n <= mx -> fst (get_port n (release_port n p')) = true).
Proof.
  intros mn mx p ops p' h Hp Hn H. destruct (new_prov_ok _ _ _ Hn) as [-> Hle]. destruct (prun_own mn mx ops (mkprov mn mx []) _ _ Hp eq_refl eq_refl (NoDup_nil _) ltac:(cbn; tauto) H) as (A & B & E & N & R). cbn in E. fold (owned h) in E. rewrite <- E. split; [|split].
  - unfold get_free_port. rewrite A, B. destruct (first_free p' mn (Z.to_nat (mx - mn))) as [i|] eqn:F; cbn [fst].
    + destruct (first_free_some _ _ _ _ F) as (I1 & I2 & _). apply taken_false in I2. split; [intros _; split; [lia|assumption]|]. split; [lia|]. intros Hall. exfalso. apply I2, Hall. lia.
    + split; [congruence|]. split; [|reflexivity]. intros _ n Hr. apply taken_in. apply (first_free_none _ _ _ F). lia.
  - intros n. unfold get_port. rewrite A, B. destruct ((n <? mn) || (mx <? n)) eqn:Q; cbn [fst].
    + split; [discriminate|]. intros [Hr _]. apply orb_true_iff in Q. rewrite !Z.ltb_lt in Q. lia.
    + apply orb_false_iff in Q. rewrite !Z.ltb_ge in Q. destruct (taken n p') eqn:T; cbn [fst]; [apply taken_in in T|apply taken_false in T]; (split; [try discriminate|]); intuition lia.
  - intros n Hr. unfold get_port. cbn [release_port pv_min pv_max]. rewrite A, B. destruct ((n <? mn) || (mx <? n)) eqn:Q; [apply orb_true_iff in Q; rewrite !Z.ltb_lt in Q; lia|].
    replace (taken n _) with false; [reflexivity|]. symmetry. apply taken_false. cbn [release_port pv_ports]. rewrite filter_In. rewrite Z.eqb_refl. intros [_ Hc]. discriminate.
Qed.
Print Assumptions C33_availability.
(* The upper bound is never handed out by GetFreePort although it is free and belongs to the range. *)
Theorem C33_last_port_refuted : forall n p, 0 < n -> new_prov n n = Some p -> fst (get_free_port p) = 0 /\ fst (get_port n p) = true.
Proof.
  intros n p Hn H. destruct (new_prov_ok _ _ _ H) as [-> _]. unfold get_free_port, get_port. cbn [pv_min pv_max]. rewrite Z.sub_diag. cbn [Z.to_nat first_free fst]. split; [reflexivity|]. rewrite Z.ltb_irrefl. reflexivity.
Qed.
Print Assumptions C33_last_port_refuted.
(* A range starting at 0 loses port 0: GetFreePort reports failure but marks it as taken. *)
Theorem C33_port_zero_refuted : exists p, new_prov 0 10 = Some p /\ fst (get_free_port p) = 0 /\ fst (get_port 0 (snd (get_free_port p))) = false.
Proof. eexists. split; [reflexivity|]. split; reflexivity. Qed.
Print Assumptions C33_port_zero_refuted.
Example C33_ex : exists p h p', new_prov 50000 55000 = Some p /\ prun p [OFree; OGet 50003; OFree; ORel 50000; OFree; OGet 50003] = (p', h) /\
  h = [EFree 50000; EGet 50003 true; EFree 50001; ERel 50000; EFree 50000; EGet 50003 false].
Proof. eexists _, _, _. split; [reflexivity|]. split; [vm_compute; reflexivity|]. reflexivity. Qed.

(* ================= C34: session ports ================= *)
Definition vals (m : gmap Z) : list Z := map snd m.
Lemma in_release_fold : forall (l : gmap Z) p n, In n (pv_ports (fold_left (fun p e => release_port (snd e) p) l p)) <-> In n (pv_ports p) /\ ~ In n (vals l).
Proof.
  induction l as [|[k v] l IH]; intros p n; cbn [fold_left vals map snd]; [cbn; tauto|]. rewrite IH. unfold vals. cbn [release_port pv_ports]. rewrite filter_In, negb_true_iff, Z.eqb_neq. cbn [In]. intuition congruence.
Qed.
Definition names_of (sid : nat) (ops : list sop) : list string := flat_map (fun o => match o with OpReq i n _ _ => if Nat.eqb i sid then [n] else [] | OpClose _ => [] end) ops.
Lemma vals_mdel : forall k (m : gmap Z) v, In v (vals (mdel k m)) -> In v (vals m).
Proof. intros k m v H. unfold vals in *. apply in_map_iff in H. destruct H as (e & He & H). apply filter_In in H. apply in_map_iff. exists e. tauto. Qed.
Lemma vals_mset : forall k x (m : gmap Z) v, In v (vals (mset k x m)) -> v = x \/ In v (vals m).
Proof. intros k x m v [H|H]; [left; now subst|right; eapply vals_mdel; exact H]. Qed.
Lemma mdel_absent : forall k (m : gmap Z), ~ In k (mkeys m) -> mdel k m = m.
Proof.
  intros k m. induction m as [|[a b] m IH]; intros H; [reflexivity|]. unfold mdel. cbn [filter fst]. destruct (String.eqb k a) eqn:E; [apply String.eqb_eq in E; subst; exfalso; apply H; now left|]. cbn [negb]. f_equal. apply IH. intros Hc. apply H. now right.
Qed.
Lemma sset_same : forall f i x, sset f i x i = x.
Proof. intros. unfold sset. now rewrite Nat.eqb_refl. Qed.
Lemma sset_other : forall f i x j, i <> j -> sset f i x j = f j.
Proof. intros f i x j H. unfold sset. apply Nat.eqb_neq in H. now rewrite H. Qed.
(* the two outcomes of requestPort *)
Lemma request_cases : forall sid name req lis s,
  (exists p', fst (request_port sid name req lis s) = mksrv p' (sv_sess s) (sv_got s) /\ snd (request_port sid name req lis s) = None /\ (forall n, n <> 0 -> In n (pv_ports p') <-> In n (pv_ports (sv_prov s)))) \/
  (exists p' n, n <> 0 /\ ~ In n (pv_ports (sv_prov s)) /\ pv_ports p' = n :: pv_ports (sv_prov s) /\
    fst (request_port sid name req lis s) = mksrv p' (sset (sv_sess s) sid (mksess (mset name n (ss_ports (sv_sess s sid))) (ss_open (sv_sess s sid)))) ((sid, n) :: sv_got s)).
Proof.
  intros sid name req lis s. unfold request_port. destruct (0 <? req) eqn:E.
  - apply Z.ltb_lt in E. unfold get_port. destruct ((req <? pv_min (sv_prov s)) || (pv_max (sv_prov s) <? req)); [left; exists (sv_prov s); cbn; tauto|]. destruct (taken req (sv_prov s)) eqn:T; [left; exists (sv_prov s); cbn; tauto|].
    destruct (req =? 0) eqn:Q; [apply Z.eqb_eq in Q; lia|]. right. apply taken_false in T. eexists _, req. split; [lia|]. split; [assumption|]. split; [|reflexivity]. reflexivity.
  - unfold get_free_port. destruct (first_free _ _ _) as [i|] eqn:F; [|left; exists (sv_prov s); cbn; tauto]. destruct (i =? 0) eqn:Q.
    + left. apply Z.eqb_eq in Q. subst i. eexists. split; [reflexivity|]. split; [reflexivity|]. intros n Hn. cbn [pv_ports]. cbn. split; [intros [H|H]; [congruence|assumption]|tauto].
    + right. apply Z.eqb_neq in Q. destruct (first_free_some _ _ _ _ F) as (_ & B & _). apply taken_false in B. eexists _, i. split; [assumption|]. split; [assumption|]. split; [|reflexivity]. reflexivity.
Qed.
(* invariant: a session's listed ports are taken and belong to it alone *)
Definition srv_ok (s : srv) : Prop :=
  (forall i n, In n (vals (ss_ports (sv_sess s i))) -> n <> 0 /\ In n (pv_ports (sv_prov s)) /\ In (i, n) (sv_got s)) /\
  (forall i j n, In n (vals (ss_ports (sv_sess s i))) -> In n (vals (ss_ports (sv_sess s j))) -> i = j).
Lemma srv_ok_new : forall p, srv_ok (new_srv p).
Proof. intros p. split; intros; cbn in *; tauto. Qed.
Lemma srv_ok_step : forall s o, srv_ok s -> srv_ok (sop_apply s o).
Proof.
  intros s [sid name req lis|sid] [K D]; cbn [sop_apply].
  - destruct (request_cases sid name req lis s) as [(p' & -> & _ & Hp)|(p' & n & Hn0 & Hnew & Hp & ->)].
    + split; cbn [sv_sess sv_prov sv_got]; [|exact D]. intros i n Hi. destruct (K i n Hi) as (K1 & K2 & K3). split; [assumption|]. split; [now apply Hp|assumption].
    + assert (V: forall i m, In m (vals (ss_ports (sset (sv_sess s) sid (mksess (mset name n (ss_ports (sv_sess s sid))) (ss_open (sv_sess s sid))) i))) -> (i = sid /\ m = n) \/ In m (vals (ss_ports (sv_sess s i)))).
      { intros i m Hm. destruct (Nat.eq_dec sid i) as [<-|Hne]; [|rewrite sset_other in Hm by assumption; now right]. rewrite sset_same in Hm. cbn [ss_ports] in Hm. apply vals_mset in Hm. destruct Hm; auto. }
      split; cbn [sv_sess sv_prov sv_got].
      * intros i m Hm. destruct (V i m Hm) as [[-> ->]|H0]; [split; [assumption|]; rewrite Hp; split; [now left|now left]|]. destruct (K i m H0) as (K1 & K2 & K3). split; [assumption|]. rewrite Hp. split; now right.
      * intros i j m Hi Hj. destruct (V i m Hi) as [[Ei Em]|H1], (V j m Hj) as [[Ej Em']|H2]; try congruence; [exfalso|exfalso|now apply (D i j m)]; [destruct (K _ _ H2) as (_ & Q & _)|destruct (K _ _ H1) as (_ & Q & _)]; subst; contradiction.
  - unfold close_session. destruct (ss_open (sv_sess s sid)); [|split; assumption]. split; cbn [sv_sess sv_prov sv_got].
    + intros i n Hi. destruct (Nat.eq_dec sid i) as [<-|Hne]; [rewrite sset_same in Hi; destruct Hi|]. rewrite sset_other in Hi by assumption. destruct (K i n Hi) as (K1 & K2 & K3). split; [assumption|]. split; [|assumption]. apply in_release_fold. split; [assumption|]. intros Hc. apply Hne. now apply (D sid i n).
    + intros i j n Hi Hj. destruct (Nat.eq_dec sid i) as [<-|H1]; [rewrite sset_same in Hi; destruct Hi|]. destruct (Nat.eq_dec sid j) as [<-|H2]; [rewrite sset_same in Hj; destruct Hj|]. rewrite sset_other in Hi, Hj by assumption. now apply (D i j n).
Qed.
Definition srun (p : prov) (ops : list sop) : srv := fold_left sop_apply ops (new_srv p).
Lemma srv_ok_run : forall p ops, srv_ok (srun p ops).
Proof. intros p ops. induction ops as [|o ops IH] using rev_ind; [apply srv_ok_new|]. unfold srun. rewrite fold_left_app. apply srv_ok_step, IH. Qed.
Lemma names_app : forall sid a b, names_of sid (a ++ b) = names_of sid a ++ names_of sid b.
Proof. intros. unfold names_of. apply flat_map_app. Qed.
(* With distinct names every port a still open session was given is in its table. *)
Lemma got_listed : forall p ops sid, NoDup (names_of sid ops) -> ss_open (sv_sess (srun p ops) sid) = true ->
  (forall x, In x (mkeys (ss_ports (sv_sess (srun p ops) sid))) -> In x (names_of sid ops)) /\ (forall n, In (sid, n) (sv_got (srun p ops)) -> In n (vals (ss_ports (sv_sess (srun p ops) sid)))).
Proof.
  intros p ops sid. induction ops as [|o ops IH] using rev_ind; intros N O; [split; cbn; tauto|]. rewrite names_app in N. unfold srun in *. rewrite fold_left_app in *. cbn [fold_left] in *. fold (srun p ops) in *. destruct o as [i name req lis|i]; cbn [sop_apply] in *.
  - destruct (request_cases i name req lis (srun p ops)) as [(p' & E & _ & Hp)|(p' & n & Hn0 & Hnew & Hp & E)].
    + rewrite E in O |- *. cbn [sv_sess sv_got] in *. assert (N0: NoDup (names_of sid ops)) by (clear - N; induction (names_of sid ops) as [|x l I]; [constructor|]; inversion N; subst; constructor; [intros Hc; apply H1, in_or_app; now left|now apply I]). destruct (IH N0 O) as [A B]. split; [|assumption]. intros x Hx. rewrite names_app. apply in_or_app. left. now apply A.
    + rewrite E in O |- *. cbn [sv_sess sv_got] in *. destruct (Nat.eq_dec i sid) as [->|Hne].
      * rewrite sset_same in O |- *. cbn [ss_ports ss_open] in *. cbn [names_of flat_map] in N. rewrite Nat.eqb_refl in N. cbn [app] in N. assert (N0: NoDup (names_of sid ops)) by (apply NoDup_remove_1 in N; now rewrite app_nil_r in N). destruct (IH N0 O) as [A B].
        assert (Hf: ~ In name (mkeys (ss_ports (sv_sess (srun p ops) sid)))). { intros Hc. apply A in Hc. apply NoDup_remove_2 in N. rewrite app_nil_r in N. contradiction. }
        unfold mset. rewrite (mdel_absent _ _ Hf). split.
        -- intros x [<-|Hx]; rewrite names_app; apply in_or_app; [right; cbn; rewrite Nat.eqb_refl; now left|left; now apply A].
        -- intros m [Hm|Hm]; [injection Hm as <-; now left|right; now apply B].
      * rewrite sset_other in O |- * by congruence. cbn [names_of flat_map] in N. destruct (Nat.eqb i sid) eqn:Q; [apply Nat.eqb_eq in Q; contradiction|]. cbn [app] in N. rewrite app_nil_r in N. destruct (IH N O) as [A B]. split; [intros x Hx; rewrite names_app; apply in_or_app; left; now apply A|]. intros m [Hm|Hm]; [injection Hm; intros; congruence|now apply B].
  - cbn [names_of flat_map] in N. rewrite app_nil_r in N. unfold close_session in *. destruct (ss_open (sv_sess (srun p ops) i)) eqn:Q.
    + cbn [sv_sess sv_got] in *. destruct (Nat.eq_dec i sid) as [->|Hne]; [rewrite sset_same in O; discriminate|]. rewrite sset_other in O |- * by congruence. destruct (IH N O) as [A B]. split; [intros x Hx; rewrite names_app; apply in_or_app; left; now apply A|exact B].
    + destruct (IH N O) as [A B]. split; [intros x Hx; rewrite names_app; apply in_or_app; left; now apply A|exact B].
Qed.
(* If the operations of the server run one after the other and the session never requests two ports under one name, then
   right after the session is closed every port it was ever given is free, and every port listed for another session is
   still taken. *)
Theorem C34_close_returns_ports : forall p ops sid s', NoDup (names_of sid ops) -> ss_open (sv_sess (srun p ops) sid) = true -> s' = srun p (ops ++ [OpClose sid]) ->
  (forall n, In (sid, n) (sv_got s') -> fst (get_port n (sv_prov s')) = true \/ n < pv_min (sv_prov s') \/ pv_max (sv_prov s') < n) /\
  (forall j n, j <> sid -> In n (vals (ss_ports (sv_sess (srun p ops) j))) -> fst (get_port n (sv_prov s')) = false).
Proof.
  intros p ops sid s' N O ->. destruct (got_listed p ops sid N O) as [_ G]. destruct (srv_ok_run p ops) as [K D]. unfold srun. rewrite fold_left_app. cbn [fold_left sop_apply]. fold (srun p ops). unfold close_session. rewrite O. cbn [sv_got sv_prov]. set (q := fold_left _ _ _).
  split.
  - intros n Hn. specialize (G n Hn). assert (Hf: ~ In n (pv_ports q)) by (unfold q; rewrite in_release_fold; tauto). unfold get_port. destruct ((n <? pv_min q) || (pv_max q <? n)) eqn:Q; [apply orb_true_iff in Q; rewrite !Z.ltb_lt in Q; lia|]. apply taken_false in Hf. rewrite Hf. now left.
  - intros j n Hj Hn. destruct (K j n Hn) as (_ & Ht & _). assert (Hf: In n (pv_ports q)). { unfold q. rewrite in_release_fold. split; [assumption|]. intros Hc. apply Hj. now apply (D j sid n). } unfold get_port. destruct (_ || _); [reflexivity|]. apply taken_in in Hf. now rewrite Hf.
Qed.
Print Assumptions C34_close_returns_ports.
Example C34_ex : let ops := [OpReq 0 "a" 0 true; OpReq 1 "a" 50002 true; OpReq 0 "b" 0 false] in let s := srun (mkprov 50000 55000 []) ops in
  NoDup (names_of 0 ops) /\ ss_open (sv_sess s 0%nat) = true /\ sv_got s = [(0%nat, 50001); (1%nat, 50002); (0%nat, 50000)].
Proof. split; [repeat constructor; cbn; intuition discriminate|]. split; vm_compute; reflexivity. Qed.
(* Two requests under the same name: the first port is never returned. *)
Theorem C34_same_name_refuted : let s := srun (mkprov 50000 55000 []) [OpReq 0 "a" 0 true; OpReq 0 "a" 0 true; OpClose 0] in
  In (0%nat, 50000) (sv_got s) /\ ss_open (sv_sess s 0%nat) = false /\ fst (get_port 50000 (sv_prov s)) = false.
Proof. vm_compute. auto. Qed.
Print Assumptions C34_same_name_refuted.
(* A request that fails because no listener can be created keeps its port until the session closes. *)
Theorem C34_failed_listener_keeps_port : let '(s, r) := request_port 0 "a" 50000 false (new_srv (mkprov 50000 55000 [])) in r = None /\ fst (get_port 50000 (sv_prov s)) = false.
Proof. vm_compute. auto. Qed.
Print Assumptions C34_failed_listener_keeps_port.
Ltac tone := eapply TS_cons; [|].
(* A port request that is being served while the session closes: the port is stored after Close has run and is never
   returned; nothing is in progress any more and Close does nothing on a closed session. *)
Theorem C34_close_race_refuted : exists s, tsteps (new_tsrv (mkprov 50000 55000 [])) s /\ (forall x, In x (t_jobs s) -> x = TEnd) /\ ss_open (t_sess s 0%nat) = false /\ In (0%nat, 50000) (t_own s) /\ fst (get_port 50000 (t_prov s)) = false.
Proof.
  eexists. split; [|split; [|split; [|split]]].
  { tone. apply (T_request _ 0 "a" 50000); [vm_compute; reflexivity|lia]. tone. apply (T_close _ 0). reflexivity. tone. apply (T_closed _ 1 0). reflexivity. tone. apply (T_store _ 0 0 "a" 50000). reflexivity. apply TS_nil. }
  - cbn. intuition congruence.
  - reflexivity.
  - cbn. auto.
  - vm_compute. reflexivity.
Qed.
Print Assumptions C34_close_race_refuted.
(* Two concurrent Close calls of one session release a port twice; a port handed to another session in between is freed and
   handed out again, so two sessions own it. *)
Theorem C33_double_close_two_owners_refuted : exists s, tsteps (new_tsrv (mkprov 5 9 [])) s /\ In (1%nat, 5) (t_own s) /\ In (2%nat, 5) (t_own s).
Proof.
  eexists. split; [|split].
  { cbv; tone. apply (T_request _ 0 "a" 5); [reflexivity|discriminate]. cbv; tone. apply (T_store _ 0 0 "a" 5). reflexivity.
    cbv; tone. apply (T_close _ 0). reflexivity. cbv; tone. apply (T_close _ 0). reflexivity. cbv; tone. eapply (T_visit _ 1 0 "a" [] 5); reflexivity. cbv; tone. eapply (T_visit _ 2 0 "a" [] 5); reflexivity.
    cbv; tone. eapply (T_release _ 1 0 "a" 5). reflexivity. cbv; tone. apply (T_request _ 1 "b" 5); [reflexivity|discriminate]. cbv; tone. eapply (T_release _ 2 0 "a" 5). reflexivity. cbv; tone. apply (T_request _ 2 "c" 5); [reflexivity|discriminate]. apply TS_nil. }
  all: cbn; auto.
Qed.
Print Assumptions C33_double_close_two_owners_refuted.

(* ================= C35: control stream ================= *)
Lemma cset_nth : forall l j y i x, nth_error (cset l j y) i = Some x -> x = y \/ nth_error l i = Some x.
Proof. induction l as [|z l IH]; intros [|j] y [|i] x H; cbn in *; try discriminate; auto; [left; congruence|]. eapply IH; exact H. Qed.
Definition ctrl_ok (P : string -> Prop) (s : csrv) : Prop := (forall st t, In (st, t) (c_all s) -> P t) /\ (forall j st t, nth_error (c_jobs s) j = Some (CDecided st t false) -> P t).
Lemma ctrl_step : forall (P : string -> Prop) a s s', (forall t, auth_error (a t) = false -> P t) -> c_auth s = Some a -> ctrl_ok P s -> cstep s s' -> c_auth s' = Some a /\ ctrl_ok P s'.
Proof.
  intros P a s0 s' HP Ha [A J] Hs. destruct Hs as [s st token|s j st token ex Hj|s j st token Hj|s j st token Hj]; (split; [assumption|]); split; cbn [c_all c_jobs]; try exact A; intros.
  - destruct (Nat.lt_ge_cases j (length (c_jobs s))) as [Hl|Hl]; [rewrite nth_error_app1 in H by assumption; eapply J; exact H|]. rewrite nth_error_app2 in H by assumption. destruct (j - length (c_jobs s))%nat as [|[|d]]; cbn in H; discriminate.
  - apply cset_nth in H. destruct H as [H|H]; [|eapply J; exact H]. rewrite Ha in H. destruct ex; [discriminate|]. injection H as -> -> H. apply HP. congruence.
  - apply cset_nth in H. destruct H as [H|H]; [discriminate|eapply J; exact H].
  - destruct H as [H|H]; [injection H as <- <-; eapply J; exact Hj|eapply A; exact H].
  - apply cset_nth in H. destruct H as [H|H]; [discriminate|eapply J; exact H].
Qed.
Lemma ctrl_reach : forall (P : string -> Prop) a s, (forall t, auth_error (a t) = false -> P t) -> csteps (new_csrv (Some a)) s -> ctrl_ok P s.
Proof.
  intros P a s HP H. assert (G: forall x y, csteps x y -> c_auth x = Some a -> ctrl_ok P x -> ctrl_ok P y).
  { intros x y Hxy. induction Hxy as [x|x y z H1 H2 IH]; intros Ha Hx; [assumption|]. destruct (ctrl_step P a _ _ HP Ha Hx H1) as [Ha' Hy]. now apply IH. }
  apply (G _ _ H eq_refl). split; [intros ? ? []|]. intros [|j] st t Hj; discriminate.
Qed.
(* Whatever streams and messages arrive in whatever order: with an authenticator that returns an error whenever it does not
   accept, control streams are established only for accepted tokens. *)
Theorem C35_authenticated : forall a s st token, (forall t, fst (a t) = false -> snd (a t) = true) -> csteps (new_csrv (Some a)) s -> In (st, token) (c_all s) -> a token = (true, false).
Proof.
  intros a s st token Hrej H Hi. refine (proj1 (ctrl_reach (fun t => a t = (true, false)) a s _ H) st token Hi). intros t Ht. specialize (Hrej t). destruct (a t) as [[|] [|]]; cbn in *; try discriminate; [reflexivity|]. specialize (Hrej eq_refl). discriminate.
Qed.
Print Assumptions C35_authenticated.
(* With the Kubernetes authenticator: only for tokens that a successfully created token review reports as authenticated. *)
Theorem C35_k8s_authenticated : forall (rev : string -> review) s st token, csteps (new_csrv (Some (fun t => k8s_authenticate (rev t)))) s -> In (st, token) (c_all s) ->
  rv_create_err (rev token) = false /\ rv_status_error (rev token) = ""%string /\ rv_authenticated (rev token) = true.
Proof.
  intros rev s st token H Hi. assert (E: k8s_authenticate (rev token) = (true, false)).
  { apply (C35_authenticated (fun t => k8s_authenticate (rev t)) s st token); try assumption. intros t. unfold k8s_authenticate. destruct (rv_create_err (rev t)); [auto|]. destruct (negb _); [auto|]. destruct (negb _); cbn; [auto|discriminate]. }
  unfold k8s_authenticate in E. destruct (rv_create_err (rev token)); [discriminate|]. destruct (String.eqb (rv_status_error (rev token)) "") eqn:Q; cbn [negb] in E; [|discriminate]. destruct (rv_authenticated (rev token)); [|discriminate]. apply String.eqb_eq in Q. auto.
Qed.
Print Assumptions C35_k8s_authenticated.
Ltac cone := eapply CS_cons; [|].
Example C35_ex : exists s, csteps (new_csrv (Some (fun t => k8s_authenticate (mkreview false "" (String.eqb t "good"))))) s /\ c_all s = [(7%nat, "good"%string)] /\ c_closed s = true.
Proof.
  eexists. split; [|split].
  { cone. apply (C_msg _ 7 "good"). cbv; cone. eapply (C_decide _ 0); reflexivity. cbv; cone. eapply (C_establish _ 0); reflexivity. cbv; cone. apply (C_msg _ 8 "bad"). cbv; cone. eapply (C_decide _ 1); reflexivity. cbv; cone. eapply (C_refuse _ 1); reflexivity. apply CS_nil. }
  all: reflexivity.
Qed.
(* An authenticator that says "no" without an error is ignored: the control stream is established. *)
Theorem C35_rejection_without_error_refuted : exists a s, fst (a "t"%string) = false /\ csteps (new_csrv (Some a)) s /\ In (0%nat, "t"%string) (c_all s) /\ c_ctrl s = Some 0%nat.
Proof.
  exists (fun _ => (false, false)). eexists. split; [reflexivity|]. split; [|split].
  { cone. apply (C_msg _ 0 "t"). cbv; cone. eapply (C_decide _ 0); reflexivity. cbv; cone. eapply (C_establish _ 0); reflexivity. apply CS_nil. }
  all: cbn; auto.
Qed.
Print Assumptions C35_rejection_without_error_refuted.
(* Two requests handled at the same time both become control streams. *)
Theorem C35_two_control_streams_refuted : exists s, csteps (new_csrv (Some (fun _ => (true, false)))) s /\ length (c_all s) = 2%nat.
Proof.
  eexists. split.
  { cone. apply (C_msg _ 0 "t"). cbv; cone. apply (C_msg _ 1 "t"). cbv; cone. eapply (C_decide _ 0); reflexivity. cbv; cone. eapply (C_decide _ 1); reflexivity. cbv; cone. eapply (C_establish _ 0); reflexivity. cbv; cone. eapply (C_establish _ 1); reflexivity. apply CS_nil. }
  reflexivity.
Qed.
Print Assumptions C35_two_control_streams_refuted.
(* If requests are handled one at a time (never two between reading and setting the control stream), at most one control
   stream is ever established and it is never replaced. *)
Definition cactive (s : csrv) : nat := length (filter (fun x => match x with CEnd => false | _ => true end) (c_jobs s)).
Inductive cseq : csrv -> csrv -> Prop := CQ_nil : forall s, cseq s s | CQ_cons : forall a b c, cstep a b -> (cactive b <= 1)%nat -> cseq b c -> cseq a c.
Definition single_ok (s : csrv) : Prop := (length (c_all s) <= 1)%nat /\ (c_ctrl s = None <-> c_all s = []) /\
  (forall j st t, nth_error (c_jobs s) j = Some (CDecided st t false) -> c_all s = []) /\ (forall j st t, nth_error (c_jobs s) j = Some (CChecked st t false) -> c_all s = []).
Lemma active_two : forall l i j x y, nth_error l i = Some x -> nth_error l j = Some y -> x <> CEnd -> y <> CEnd -> i <> j -> (2 <= length (filter (fun x => match x with CEnd => false | _ => true end) l))%nat.
Proof.
  assert (one: forall l i x, nth_error l i = Some x -> x <> CEnd -> (1 <= length (filter (fun x => match x with CEnd => false | _ => true end) l))%nat).
  { induction l as [|z l IH]; intros [|i] x H Hx; cbn in H; try discriminate; cbn [filter].
    - injection H as ->. destruct x; [cbn; lia|cbn; lia|congruence].
    - specialize (IH i x H Hx). destruct z; cbn [length]; lia. }
  induction l as [|z l IH]; intros [|i] [|j] x y Hi Hj Hx Hy Hn; cbn in Hi, Hj; try discriminate; [congruence| | |].
  - injection Hi as ->. specialize (one l j y Hj Hy). cbn [filter]. destruct x; [cbn [length]; lia|cbn [length]; lia|congruence].
  - injection Hj as ->. specialize (one l i x Hi Hx). cbn [filter]. destruct y; [cbn [length]; lia|cbn [length]; lia|congruence].
  - specialize (IH i j x y Hi Hj Hx Hy ltac:(congruence)). cbn [filter]. destruct z; cbn [length]; lia.
Qed.
Lemma cset_at : forall l j y i x z, nth_error l j = Some z -> nth_error (cset l j y) i = Some x -> (i = j /\ x = y) \/ (i <> j /\ nth_error l i = Some x).
Proof.
  induction l as [|w l IH]; intros [|j] y [|i] x z H H0; cbn in *; try discriminate.
  - left. split; congruence.
  - right. split; [lia|assumption].
  - right. split; [lia|assumption].
  - destruct (IH j y i x z H H0) as [[-> ->]|[Hn Hq]]; [now left|right; split; [lia|assumption]].
Qed.
Lemma cset_keep : forall l j y z, nth_error l j = Some z -> nth_error (cset l j y) j = Some y.
Proof. induction l as [|w l IH]; intros [|j] y z H; cbn in *; try discriminate; [reflexivity|]. eapply IH; exact H. Qed.
Lemma single_step : forall s s', (cactive s <= 1)%nat -> single_ok s -> cstep s s' -> (cactive s' <= 1)%nat -> single_ok s'.
Proof.
  intros s0 s' Act (L & C & D & K) Hs Act'. destruct Hs as [s st token|s j st token ex Hj|s j st token Hj|s j st token Hj]; unfold single_ok; cbn [c_all c_ctrl c_jobs] in *.
  - split; [assumption|]. split; [assumption|]. split; intros i st' t' H.
    + destruct (Nat.lt_ge_cases i (length (c_jobs s))) as [Hl|Hl]; [rewrite nth_error_app1 in H by assumption; eapply D; exact H|]. rewrite nth_error_app2 in H by assumption. destruct (i - length (c_jobs s))%nat as [|[|d]]; cbn in H; discriminate.
    + destruct (Nat.lt_ge_cases i (length (c_jobs s))) as [Hl|Hl]; [rewrite nth_error_app1 in H by assumption; eapply K; exact H|]. rewrite nth_error_app2 in H by assumption. destruct (i - length (c_jobs s))%nat as [|[|d]]; cbn in H; try discriminate. destruct (c_ctrl s) eqn:E; [discriminate|]. now apply C.
  - split; [assumption|]. split; [assumption|]. split; intros i st' t' H; destruct (cset_at _ _ _ _ _ _ Hj H) as [[-> Hq]|[Hn Hq]].
    + destruct ex; [discriminate|]. eapply K; exact Hj.
    + eapply D; exact Hq.
    + discriminate.
    + eapply K; exact Hq.
  - split; [assumption|]. split; [assumption|]. split; intros i st' t' H; destruct (cset_at _ _ _ _ _ _ Hj H) as [[-> Hq]|[Hn Hq]]; try discriminate; [eapply D; exact Hq|eapply K; exact Hq].
  - pose proof (D _ _ _ Hj) as E. rewrite E. split; [cbn; lia|]. split; [split; discriminate|].
    split; intros i st' t' H; destruct (cset_at _ _ _ _ _ _ Hj H) as [[-> Hq]|[Hn Hq]]; try discriminate;
      exfalso; pose proof (active_two (c_jobs s) i j _ _ Hq Hj ltac:(discriminate) ltac:(discriminate) Hn) as T; unfold cactive in Act; lia.
Qed.
Theorem C35_single : forall a s, cseq (new_csrv a) s -> (length (c_all s) <= 1)%nat /\ forall s', cseq s s' -> (cactive s <= 1)%nat -> c_all s <> [] -> c_all s' = c_all s.
Proof.
  intros a s H.
  assert (G: forall x y, cseq x y -> (cactive x <= 1)%nat -> single_ok x -> single_ok y /\ (cactive y <= 1)%nat). { intros x y Hxy. induction Hxy as [x|x y z H1 H2 H3 IH]; intros Hx Ox; [auto|]. apply IH; [assumption|]. eapply single_step; eassumption. }
  assert (OK: single_ok s /\ (cactive s <= 1)%nat).
  { apply (G _ _ H); [cbn; lia|]. split; [cbn; lia|]. split; [cbn; tauto|]. split; intros [|j] st t Hj; discriminate. }
  split; [apply OK|]. intros s' Hs Ha Hne. destruct OK as [OK _]. destruct (G _ _ Hs Ha OK) as [[L' _] _].
  assert (M: exists x, c_all s' = x ++ c_all s). { clear - Hs. induction Hs as [x|x y z H1 H2 H3 IH]; [now exists []|]. destruct IH as [w Hw]. destruct H1; cbn [c_all] in Hw; eauto. exists (w ++ [(st, token)]). now rewrite <- app_assoc. }
  destruct M as [x Hx]. rewrite Hx in L' |- *. rewrite app_length in L'. destruct x as [|e x]; [reflexivity|]. destruct (c_all s) as [|e' l]; [congruence|]. cbn in L'. lia.
Qed.
Print Assumptions C35_single.
