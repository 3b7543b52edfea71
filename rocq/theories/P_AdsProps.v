(* C64 TCP destinations, C65 inbound listener properties, C66 transport sockets. *)
From Coq Require Import List String Bool Ascii Permutation NArith PeanoNat Lia.
From Verif Require Import M_GoMap L_GoMap M_AdsRoute S_AdsRoute P_AdsRoute M_AdsLb P_AdsLb P_AdsLbF3 M_AdsProps S_AdsProps.
Import ListNotations.
Open Scope string_scope.

(* ---- C64 ---- *)
Lemma tcp_spec : forall l, tl_outbound l && is_tcp l = true <-> tcp_outbound l.
Proof.
  intros l. unfold tcp_outbound, is_tcp. rewrite andb_true_iff, existsb_exists. split; intros [H1 H2]; (split; [exact H1|]).
  - destruct H2 as (ch & Hc & Hf). apply existsb_exists in Hf. destruct Hf as (f & Hi & Hf). exists ch, f. split; [assumption|]. split; [assumption|]. destruct f; discriminate.
  - destruct H2 as (ch & f & Hc & Hi & Hf). exists ch. split; [assumption|]. apply existsb_exists. exists f. split; [assumption|]. destruct f; [reflexivity|reflexivity|congruence].
Qed.
Lemma tl_on_spec : forall lib ip port l, tl_listening_on lib ip port l = true <-> tcp_on lib ip port l.
Proof. intros. unfold tl_listening_on, tcp_on. apply String.eqb_eq. Qed.
Lemma only_one_ext {A} : forall (P Q : A -> Prop) l a, (forall x, In x l -> P x <-> Q x) -> only_one P l a <-> only_one Q l a.
Proof.
  assert (G: forall (P Q : A -> Prop) l a, (forall x, In x l -> P x <-> Q x) -> only_one P l a -> only_one Q l a).
  { intros P Q l a H (l1 & l2 & -> & Ha & H1 & H2). exists l1, l2. split; [reflexivity|]. split; [apply H; [apply in_or_app; right; now left|assumption]|].
    split; intros x Hx Hq; [apply (H1 x Hx)|apply (H2 x Hx)]; apply H; try assumption; apply in_or_app; [now left|right; now right]. }
  intros P Q l a H. split; apply G; [assumption|]. intros x Hx. symmetry. now apply H.
Qed.
(* The listener is chosen iff it is the only candidate. *)
Theorem C64_listener_iff : forall lib all ips port l, tcp_listener lib all ips port = inl l <-> only_one (tcp_candidate lib all ips port) all l.
Proof.
  intros lib all ips port l. unfold tcp_listener; cbv beta zeta.
  set (p1 := fun l0 => tl_outbound l0 && is_tcp l0 && existsb (fun ip => tl_listening_on lib ip port l0) ips).
  set (p2 := fun l0 => tl_outbound l0 && is_tcp l0 && tl_listening_on lib "0.0.0.0" port l0).
  set (P1 := fun l0 => tcp_outbound l0 /\ exists ip, In ip ips /\ tcp_on lib ip port l0).
  set (P2 := fun l0 => tcp_outbound l0 /\ tcp_on lib "0.0.0.0" port l0).
  assert (E1: forall x, p1 x = true <-> P1 x).
  { intros x. unfold p1, P1. rewrite andb_true_iff, tcp_spec, existsb_exists. split; intros [H1 (ip & H2 & H3)]; (split; [assumption|]); exists ip; (split; [assumption|]); now apply tl_on_spec. }
  assert (E2: forall x, p2 x = true <-> P2 x) by (intros x; unfold p2, P2; now rewrite andb_true_iff, tcp_spec, tl_on_spec).
  assert (one: forall (x : list tlistener), (match x with [] => inr NoListener | [l0] => inl l0 | _ => inr ManyListeners end = inl l) <-> x = [l]).
  { intros [|a [|b x]]; split; intros H; try discriminate; congruence. }
  destruct (filter p1 all) as [|a r] eqn:F.
  - rewrite one, (filter_one P2 p2 all l E2). apply only_one_ext. intros x Hx. unfold tcp_candidate, P2.
    assert (H0: forall l', In l' all -> ~ P1 l') by (intros l' Hl HP; apply E1 in HP; rewrite (proj1 (filter_nil _ _) F l' Hl) in HP; discriminate).
    split.
    + intros [H1 H2]. split; [assumption|]. right. split; [|assumption]. intros l' ip Hl Ho Hi Hon. apply (H0 l' Hl). split; eauto.
    + intros [H1 [H2|[_ H2]]]; [exfalso; apply (H0 x Hx); split; assumption|split; assumption].
  - etransitivity; [exact (one (a :: r))|]. rewrite <- F, (filter_one P1 p1 all l E1). apply only_one_ext. intros x Hx. unfold tcp_candidate, P1.
    assert (Ha: In a all /\ P1 a). { assert (Hi: In a (filter p1 all)) by (rewrite F; now left). apply filter_In in Hi. rewrite E1 in Hi. exact Hi. }
    split; [intros [H1 H2]; split; [assumption|now left]|]. intros [H1 [H2|[H2 _]]]; [split; assumption|]. exfalso. destruct Ha as [Ha [Ho (ip & Hi & Hon)]]. eapply H2; eassumption.
Qed.
Print Assumptions C64_listener_iff.

Lemma weight_map_keys : forall ws n, In n (map fst (weight_map ws)) -> In n (map fst ws).
Proof.
  intros ws n. unfold weight_map. rewrite <- fold_left_rev_right. rewrite (in_rev (map fst ws)), <- map_rev. induction (rev ws) as [|[k v] l IH]; cbn; [tauto|].
  intros [H|H]; [now left|]. right. apply IH. now apply mkeys_mdel in H.
Qed.
Lemma chain_name_member : forall A fs cur st n st', chain_name A fs cur st = (n, st') -> n = cur \/ n = "" \/ exists f, In f fs /\ names_cluster f n.
Proof.
  induction fs as [|f fs IH]; intros cur st n st' H; cbn in H; [injection H as <- _; now left|].
  assert (Hrest: forall cur0 st0, chain_name A fs cur0 st0 = (n, st') -> cur0 = cur \/ cur0 = "" -> n = cur \/ n = "" \/ exists f0, In f0 (f :: fs) /\ names_cluster f0 n).
  { intros cur0 st0 H0 Hc. apply IH in H0. destruct H0 as [->|[->|(f0 & Hf & Hn)]]; [tauto|tauto|]. right; right. exists f0. split; [now right|assumption]. }
  destruct f as [c w| |]; [|eapply Hrest; [eassumption|now left]..].
  destruct (String.eqb_spec c "") as [->|Hc].
  - destruct w as [ws|]; [|eapply Hrest; [eassumption|now left]].
    destruct (select_cluster A (weight_map ws) st) as [s st1] eqn:Es. destruct (String.eqb_spec s "") as [->|Hs]; [eapply Hrest; [eassumption|now right]|].
    injection H as <- _. apply C28_cluster_member in Es. destruct Es as [->|Es]; [congruence|]. right; right. exists (NTcp "" (Some ws)). split; [now left|]. split; [assumption|]. right. exists ws. split; [reflexivity|]. now apply weight_map_keys.
  - injection H as <- _. right; right. exists (NTcp c w). split; [now left|]. split; [assumption|]. left. eauto.
Qed.
Lemma chains_name_member : forall A cs cur st n st', chains_name A cs cur st = (n, st') -> n = cur \/ n = "" \/ exists ch f, In ch cs /\ In f ch /\ names_cluster f n.
Proof.
  induction cs as [|c cs IH]; intros cur st n st' H; cbn in H; [injection H as <- _; now left|].
  destruct (chain_name A c cur st) as [m st1] eqn:E. apply IH in H. destruct H as [->|[->|(ch & f & H1 & H2 & H3)]]; [|tauto|right; right; exists ch, f; split; [now right|tauto]].
  apply chain_name_member in E. destruct E as [->|[->|(f & Hf & Hn)]]; [tauto|tauto|]. right; right. exists c, f. split; [now left|tauto].
Qed.
(* Whatever the policy and the arithmetic: a destination is a known cluster named by a TCP proxy of the only candidate listener. *)
Theorem C64_target_sound : forall lib A resolved all known port st n st', tcp_target lib A resolved all known port st = (inl n, st') ->
  known n = true /\ exists ips l ch f, resolved = inl ips /\ only_one (tcp_candidate lib all ips port) all l /\ In ch (tl_chains l) /\ In f ch /\ names_cluster f n.
Proof.
  intros lib A resolved all known port st n st' H. unfold tcp_target in H. destruct resolved as [ips|]; [|discriminate]. destruct (tcp_listener lib all ips port) as [l|] eqn:El; [|discriminate].
  destruct (chains_name A (tl_chains l) "" st) as [m st1] eqn:E. destruct (String.eqb_spec m "") as [->|Hm]; [discriminate|]. destruct (known m) eqn:Ek; [|discriminate]. injection H as <- <-.
  split; [assumption|]. apply chains_name_member in E. destruct E as [E|[E|(ch & f & H)]]; [congruence|congruence|]. exists ips, l, ch, f. split; [reflexivity|]. split; [now apply C64_listener_iff|assumption].
Qed.
Print Assumptions C64_target_sound.

(* no weighted clusters: the filters' own names *)
Fixpoint first_name (fs : list nfilter) : string :=
  match fs with [] => "" | NTcp c _ :: rest => if String.eqb c "" then first_name rest else c | _ :: rest => first_name rest end.
Lemma chain_name_plain : forall A fs cur st, (forall c ws, ~ In (NTcp c (Some ws)) fs) -> chain_name A fs cur st = (if String.eqb (first_name fs) "" then cur else first_name fs, st).
Proof.
  induction fs as [|f fs IH]; intros cur st H; [reflexivity|]. assert (H': forall c ws, ~ In (NTcp c (Some ws)) fs) by (intros c ws Hi; apply (H c ws); now right).
  destruct f as [c w| |]; cbn; [|now apply IH..]. destruct (String.eqb_spec c "") as [->|Hc].
  - destruct w as [ws|]; [exfalso; eapply H; now left|]. now apply IH.
  - apply String.eqb_neq in Hc. now rewrite Hc.
Qed.
Lemma first_name_spec : forall fs n, (forall c ws, ~ In (NTcp c (Some ws)) fs) -> n <> "" -> first_name fs = n <-> exists f, first_with names_one fs f /\ names_cluster f n.
Proof.
  intros fs n H Hn. induction fs as [|f fs IH].
  - cbn. split; [congruence|]. intros (f & (l1 & l2 & E & _) & _). destruct l1; discriminate.
  - assert (H': forall c ws, ~ In (NTcp c (Some ws)) fs) by (intros c ws Hi; apply (H c ws); now right). specialize (IH H').
    assert (Skip: ~ names_one f -> (first_name fs = n <-> exists f0, first_with names_one (f :: fs) f0 /\ names_cluster f0 n)).
    { intros Hf. rewrite IH. split; intros (f0 & (l1 & l2 & E & H1 & H2) & H3).
      - subst fs. exists f0. split; [|assumption]. exists (f :: l1), l2. split; [reflexivity|]. split; [assumption|]. intros x [<-|Hx]; auto.
      - destruct l1 as [|g l1]; cbn in E; injection E as -> ->; [contradiction|]. exists f0. split; [|assumption]. exists l1, l2. split; [reflexivity|]. split; [assumption|]. intros x Hx. apply H2. now right. }
    assert (Hno: names_one f <-> exists c w, f = NTcp c w /\ c <> "").
    { split; [intros (m & Hm & [(w & ->)|(ws & -> & _)])|intros (c & w & -> & Hc)]; [eauto|exfalso; eapply H; now left|]. exists c. split; [assumption|left; eauto]. }
    destruct f as [c w| |]; cbn [first_name]; [|apply Skip; rewrite Hno; intros (c & w & E & _); discriminate..].
    destruct (String.eqb_spec c "") as [->|Hc]; [apply Skip; rewrite Hno; intros (c & w0 & E & Hc); congruence|].
    split.
    + intros <-. exists (NTcp c w). split; [|split; [assumption|left; eauto]]. exists [], fs. split; [reflexivity|]. split; [apply Hno; eauto|intros x []].
    + intros (f0 & (l1 & l2 & E & H1 & H2) & [_ H3]). destruct l1 as [|g l1]; cbn in E; injection E as <- E.
      * destruct H3 as [(w' & E3)|(ws & E3 & _)]; congruence.
      * exfalso. apply (H2 (NTcp c w)); [now left|]. apply Hno. eauto.
Qed.
Lemma first_name_none : forall fs, (forall c ws, ~ In (NTcp c (Some ws)) fs) -> first_name fs = "" <-> ~ chain_names fs.
Proof.
  intros fs H. induction fs as [|f fs IH]; [cbn; split; [intros _ (f & [] & _)|reflexivity]|].
  assert (H': forall c ws, ~ In (NTcp c (Some ws)) fs) by (intros c ws Hi; apply (H c ws); now right). specialize (IH H').
  assert (Hno: names_one f <-> exists c w, f = NTcp c w /\ c <> "").
  { split; [intros (m & Hm & [(w & ->)|(ws & -> & _)])|intros (c & w & -> & Hc)]; [eauto|exfalso; eapply H; now left|]. exists c. split; [assumption|left; eauto]. }
  assert (Skip: ~ names_one f -> (first_name fs = "" <-> ~ chain_names (f :: fs))).
  { intros Hf. rewrite IH. unfold chain_names. split; intros Hx (g & Hg & Hm); apply Hx; [destruct Hg as [<-|Hg]; [contradiction|eauto]|exists g; split; [now right|assumption]]. }
  destruct f as [c w| |]; cbn [first_name]; [|apply Skip; rewrite Hno; intros (c & w & E & _); discriminate..].
  destruct (String.eqb_spec c "") as [->|Hc]; [apply Skip; rewrite Hno; intros (c & w0 & E & Hc); congruence|].
  split; [congruence|]. intros Hx. exfalso. apply Hx. exists (NTcp c w). split; [now left|]. apply Hno. eauto.
Qed.
Lemma chains_name_plain : forall A cs cur st, (forall ch c ws, In ch cs -> ~ In (NTcp c (Some ws)) ch) ->
  chains_name A cs cur st = (fold_left (fun cur ch => if String.eqb (first_name ch) "" then cur else first_name ch) cs cur, st).
Proof.
  induction cs as [|c cs IH]; intros cur st H; [reflexivity|]. cbn. rewrite chain_name_plain by (intros; apply H; now left). apply IH. intros; apply H; now right.
Qed.
Lemma fold_last : forall cs n, (forall ch c ws, In ch cs -> ~ In (NTcp c (Some ws)) ch) -> n <> "" ->
  fold_left (fun cur ch => if String.eqb (first_name ch) "" then cur else first_name ch) cs "" = n <->
  exists ch f, last_with chain_names cs ch /\ first_with names_one ch f /\ names_cluster f n.
Proof.
  intros cs n H Hn. induction cs as [|c cs IH] using rev_ind.
  - cbn. split; [congruence|]. intros (ch & f & (l1 & l2 & E & _) & _). destruct l1; discriminate.
  - rewrite fold_left_app. cbn [fold_left].
    assert (Hc: forall c0 ws, ~ In (NTcp c0 (Some ws)) c) by (intros; apply H; apply in_or_app; right; now left).
    assert (Hcs: forall ch c0 ws, In ch cs -> ~ In (NTcp c0 (Some ws)) ch) by (intros; apply H; apply in_or_app; now left). specialize (IH Hcs).
    destruct (String.eqb_spec (first_name c) "") as [E|E].
    + apply first_name_none in E; [|assumption]. rewrite IH. split; intros (ch & f & (l1 & l2 & El & H1 & H2) & H3); exists ch, f; (split; [|assumption]).
      * subst cs. exists l1, (l2 ++ [c])%list. split; [now rewrite <- app_assoc|]. split; [assumption|]. intros x Hx. apply in_app_or in Hx. destruct Hx as [Hx|[<-|[]]]; auto.
      * destruct l2 as [|y l2 _] using rev_ind; [apply app_inj_tail in El; destruct El as [_ ->]; contradiction|]. rewrite app_comm_cons, app_assoc in El. apply app_inj_tail in El. destruct El as [-> ->]. exists l1, l2. split; [reflexivity|]. split; [assumption|]. intros x Hx. apply H2. apply in_or_app. now left.
    + assert (Hy: chain_names c). { destruct (first_name_spec c (first_name c) Hc E) as [K _]. destruct (K eq_refl) as (f & (l1 & l2 & -> & H1 & _) & _). exists f. split; [apply in_or_app; right; now left|assumption]. }
      rewrite (first_name_spec c n Hc Hn). split.
      * intros (f & H1 & H2). exists c, f. split; [|tauto]. exists cs, []. split; [reflexivity|]. split; [assumption|intros x []].
      * intros (ch & f & (l1 & l2 & El & H1 & H2) & H3). destruct l2 as [|y l2 _] using rev_ind; [apply app_inj_tail in El; destruct El as [_ ->]; eauto|]. rewrite app_comm_cons, app_assoc in El. apply app_inj_tail in El. destruct El as [_ <-]. exfalso. apply (H2 c); [apply in_or_app; right; now left|assumption].
Qed.
(* Without weighted clusters, exactly: the first name of the LAST filter chain that names a cluster; no statistics change. *)
Theorem C64_target_iff : forall lib A resolved all known port st n st', (forall l, In l all -> no_weights l) ->
  tcp_target lib A resolved all known port st = (inl n, st') <->
  st' = st /\ known n = true /\ exists ips l ch f, resolved = inl ips /\ only_one (tcp_candidate lib all ips port) all l /\
    last_with chain_names (tl_chains l) ch /\ first_with names_one ch f /\ names_cluster f n.
Proof.
  intros lib A resolved all known port st n st' Hw. unfold tcp_target. split.
  - intros H. destruct resolved as [ips|]; [|discriminate]. destruct (tcp_listener lib all ips port) as [l|] eqn:El; [|discriminate]. apply C64_listener_iff in El.
    assert (Hl: In l all) by (destruct El as (l1 & l2 & -> & _); apply in_or_app; right; now left).
    rewrite (chains_name_plain A (tl_chains l) "" st (Hw l Hl)) in H. destruct (String.eqb_spec (fold_left (fun cur ch => if String.eqb (first_name ch) "" then cur else first_name ch) (tl_chains l) "") "") as [E|E]; [discriminate|].
    destruct (known _) eqn:Ek in H; [|discriminate]. injection H as H <-. rewrite H in *. split; [reflexivity|]. split; [assumption|].
    apply (fold_last (tl_chains l) n (Hw l Hl) E) in H. destruct H as (ch & f & H). exists ips, l, ch, f. tauto.
  - intros (-> & Hk & ips & l & ch & f & -> & Ho & H1 & H2 & H3). pose proof Ho as Ho'. apply C64_listener_iff in Ho'. rewrite Ho'.
    assert (Hl: In l all) by (destruct Ho as (l1 & l2 & -> & _); apply in_or_app; right; now left).
    assert (Hn: n <> "") by (destruct H3; assumption). rewrite (chains_name_plain A (tl_chains l) "" st (Hw l Hl)).
    assert (Hf: fold_left (fun cur ch => if String.eqb (first_name ch) "" then cur else first_name ch) (tl_chains l) "" = n) by (apply (fold_last (tl_chains l) n (Hw l Hl) Hn); eauto).
    rewrite Hf. apply String.eqb_neq in Hn. now rewrite Hn, Hk.
Qed.
Print Assumptions C64_target_iff.
(* A listener whose only naming filter is a weighted TCP proxy follows the weights: the cluster has had at most its share of the
   connections, and none that is still below its share has a smaller count relative to its weight (binary64 arithmetic). *)
Theorem C64_weighted : forall lib pow ips all known port st l pre post ws,
  only_one (tcp_candidate lib all ips port) all l -> tl_chains l = [(pre ++ NTcp "" (Some ws) :: post)%list] -> (forall f, In f pre -> f = NTcp "" None \/ f = NTcpBad \/ f = NOther) ->
  (0 < cweights (weight_map ws) <= 65536)%N -> (ccounts (weight_map ws) st + 1 < 4294967296)%N -> mget "" (weight_map ws) = None ->
  let n := fst (select_cluster (go_float pow) (weight_map ws) st) in
  fst (tcp_target lib (go_float pow) (inl ips) all known port st) = (if known n then inl n else inr NoCluster) /\
  exists w, In (n, w) (weight_map ws) /\ (0 < w)%N /\ (cweights (weight_map ws) * ccount st n <= w * (ccounts (weight_map ws) st + 1))%N /\
    forall b wb, In (b, wb) (weight_map ws) -> (cweights (weight_map ws) * ccount st b < wb * (ccounts (weight_map ws) st + 1))%N -> (ccount st n * wb <= ccount st b * w)%N.
Proof.
  intros lib pow ips all known port st l pre post ws Ho Hc Hpre Hw Hn He n. destruct (C28_cluster_selected pow (weight_map ws) st Hw Hn) as (w & Hi & Hp & Hb & Hm). fold n in Hi, Hb, Hm. split; [|exists w; repeat split; assumption].
  assert (Hne: n <> ""). { intros E. rewrite E in Hi. apply mget_none in He. apply He. apply in_map_iff. exists ("", w). split; [reflexivity|assumption]. }
  unfold tcp_target. apply C64_listener_iff in Ho. rewrite Ho, Hc. cbn [chains_name].
  assert (E: exists st1, chain_name (go_float pow) (pre ++ NTcp "" (Some ws) :: post) "" st = (n, st1)).
  { clear Hc. induction pre as [|f pre IH]; cbn [app chain_name].
    - cbn. destruct (select_cluster (go_float pow) (weight_map ws) st) as [s st1] eqn:Es. cbn in n. fold n. subst n. apply String.eqb_neq in Hne. rewrite Hne. eauto.
    - assert (IH': exists st1, chain_name (go_float pow) (pre ++ NTcp "" (Some ws) :: post) "" st = (n, st1)) by (apply IH; intros; apply Hpre; now right).
      destruct (Hpre f (or_introl eq_refl)) as [-> | [-> | ->]]; cbn; assumption. }
  destruct E as [st1 ->]. apply String.eqb_neq in Hne. rewrite Hne. destruct (known n); reflexivity.
Qed.
Print Assumptions C64_weighted.
(* Defect: with several chains it is not the first one that decides, although every chain's own search stops at its first hit. *)
Theorem C64_first_chain_refuted : forall lib A known port st ips l c1 c2, c1 <> "" -> c2 <> "" -> known c2 = true -> tl_chains l = [[NTcp c1 None]; [NTcp c2 None]] ->
  only_one (tcp_candidate lib [l] ips port) [l] l -> fst (tcp_target lib A (inl ips) [l] known port st) = inl c2.
Proof.
  intros lib A known port st ips l c1 c2 H1 H2 Hk Hc Ho. unfold tcp_target. apply C64_listener_iff in Ho. rewrite Ho, Hc. cbn. apply String.eqb_neq in H1, H2. rewrite H1. cbn. rewrite H2. cbn. now rewrite H2, Hk.
Qed.
Print Assumptions C64_first_chain_refuted.
(* Defect: a connection to [c2] is counted for a weighted cluster it does not use. *)
Theorem C64_statistics_refuted : forall lib pow known port ips l c2, c2 <> "" -> c2 <> "v1" -> known c2 = true -> tl_chains l = [[NTcp "" (Some [("v1", 1%N)])]; [NTcp c2 None]] ->
  only_one (tcp_candidate lib [l] ips port) [l] l ->
  tcp_target lib (exact pow) (inl ips) [l] known port [("v1", 0%N); (c2, 0%N)] = (inl c2, [("v1", 1%N); (c2, 0%N)]).
Proof.
  intros lib pow known port ips l c2 H2 H1 Hk Hc Ho. unfold tcp_target. apply C64_listener_iff in Ho. rewrite Ho, Hc.
  assert (Es: select_cluster (exact pow) [("v1", 1%N)] [("v1", 0%N); (c2, 0%N)] = ("v1", [("v1", 1%N); (c2, 0%N)])).
  { transitivity ("v1", mset "v1" 1%N [("v1", 0%N); (c2, 0%N)]); [reflexivity|]. apply not_eq_sym, String.eqb_neq in H1. unfold mset. cbn -[String.eqb]. rewrite String.eqb_refl, H1. reflexivity. }
  cbn [chains_name chain_name]. change (weight_map [("v1", 1%N)]) with [("v1", 1%N)]. change (String.eqb "" "") with true. cbn iota. rewrite Es. apply String.eqb_neq in H2. change (String.eqb "v1" "") with false. cbn iota beta. rewrite H2. cbn iota beta. now rewrite H2, Hk.
Qed.
Print Assumptions C64_statistics_refuted.
(* The outcome does not depend on the order in which the cache lists the listeners. *)
Theorem C64_order_independent : forall lib A resolved all all' known port st, Permutation all all' ->
  tcp_target lib A resolved all known port st = tcp_target lib A resolved all' known port st.
Proof.
  intros lib A resolved all all' known port st Hp. unfold tcp_target. destruct resolved as [ips|]; [|reflexivity].
  assert (E: tcp_listener lib all ips port = tcp_listener lib all' ips port).
  { unfold tcp_listener; cbv beta zeta.
    set (p1 := fun l0 => tl_outbound l0 && is_tcp l0 && existsb (fun ip => tl_listening_on lib ip port l0) ips).
    set (p2 := fun l0 => tl_outbound l0 && is_tcp l0 && tl_listening_on lib "0.0.0.0" port l0).
    destruct (perm_shape _ _ (filter_perm p1 _ _ Hp)) as [[-> ->]|[(a & -> & ->)|(a & b & r & a' & b' & r' & -> & ->)]]; [|reflexivity|reflexivity].
    destruct (perm_shape _ _ (filter_perm p2 _ _ Hp)) as [[-> ->]|[(a & -> & ->)|(a & b & r & a' & b' & r' & -> & ->)]]; reflexivity. }
  now rewrite E.
Qed.
Print Assumptions C64_order_independent.
(* a concrete case: two listeners on the port, one chain with a TCP proxy *)
Definition ex_lib : netlib := mknetlib (fun s => if String.eqb s "host" then None else Some s) (fun _ _ => false) (fun s => s).
Definition ex_tl := mktl true "10.0.0.1" 543 [[NOther; NTcp "outbound|5432||db" None]].
Example C64_ex : tcp_target ex_lib (exact (fun x _ => x)) (inl ["10.0.0.1"]) [mktl true "0.0.0.0" 543 [[NTcp "other" None]]; ex_tl; mktl false "10.0.0.1" 543 [[NTcp "inbound" None]]]
  (fun n => String.eqb n "outbound|5432||db") 543 [] = (inl "outbound|5432||db", []).
Proof. reflexivity. Qed.
Example C64_one_ex : only_one (tcp_candidate ex_lib [ex_tl] ["10.0.0.1"] 543) [ex_tl] ex_tl.
Proof. apply C64_listener_iff. reflexivity. Qed.
Example C64_two_chains_ex : only_one (tcp_candidate ex_lib [mktl true "10.0.0.1" 543 [[NTcp "" (Some [("v1", 1%N)])]; [NTcp "v2" None]]] ["10.0.0.1"] 543)
  [mktl true "10.0.0.1" 543 [[NTcp "" (Some [("v1", 1%N)])]; [NTcp "v2" None]]] (mktl true "10.0.0.1" 543 [[NTcp "" (Some [("v1", 1%N)])]; [NTcp "v2" None]]).
Proof. apply C64_listener_iff. reflexivity. Qed.
Example C64_weights_ex : (0 < cweights (weight_map [("v1", 90); ("v2", 10)]%N) < 4294967296)%N /\ (ccounts (weight_map [("v1", 90); ("v2", 10)]%N) [("v1", 3%N)] + 1 < 4294967296)%N /\ mget "" (weight_map [("v1", 90); ("v2", 10)]%N) = None.
Proof. repeat split; vm_compute; reflexivity. Qed.

(* ---- C65 ---- *)
Lemma block_spec : forall n a k, N.shiftr n k = N.shiftr a k <-> in_block n k a.
Proof.
  intros n a k. rewrite !N.shiftr_div_pow2. assert (P: (2 ^ k <> 0)%N) by (apply N.pow_nonzero; discriminate). unfold in_block. split.
  - intros H. exists (n / 2 ^ k)%N. split; [|rewrite H]; (split; [apply N.mul_div_le; assumption|]); rewrite N.add_1_r; apply N.mul_succ_div_gt; assumption.
  - intros (b & [H1 H2] & [H3 H4]).
    assert (n / 2 ^ k = b)%N by (symmetry; apply (N.div_unique n (2 ^ k) b (n - 2 ^ k * b)); lia).
    assert (a / 2 ^ k = b)%N by (symmetry; apply (N.div_unique a (2 ^ k) b (a - 2 ^ k * b)); lia). congruence.
Qed.
Lemma parse_good : forall pa c, parse_cidr pa c = None <-> ~ good_cidr pa c.
Proof.
  intros pa c. unfold parse_cidr, good_cidr. destruct (pa (cd_addr c)) as [[n|n]|].
  - destruct (N.leb_spec (cd_len c) 32) as [H|H]; split; intros K; try discriminate; try reflexivity.
    + exfalso. apply K. left. eauto.
    + intros [(m & E & L)|(m & E & L)]; [lia|discriminate].
  - destruct (N.leb_spec (cd_len c) 128) as [H|H]; split; intros K; try discriminate; try reflexivity.
    + exfalso. apply K. right. eauto.
    + intros [(m & E & L)|(m & E & L)]; [discriminate|lia].
  - split; [|reflexivity]. intros _ [(m & E & L)|(m & E & L)]; discriminate.
Qed.
Lemma contains_spec : forall pa c net ip, cd_addr c <> "" -> parse_cidr pa c = Some net -> net_contains net ip = true <-> covers pa ip c.
Proof.
  intros pa c net ip Hne H. unfold parse_cidr in H. unfold covers. destruct (pa (cd_addr c)) as [[n|n]|] eqn:E; [| |discriminate].
  - destruct (N.leb_spec (cd_len c) 32) as [L|L]; [|discriminate]. injection H as <-. cbn. destruct ip as [[a|a]|]; [rewrite N.eqb_eq, block_spec|..]; split.
    + intros K. split; [assumption|]. left. exists n, a. tauto.
    + intros [_ [(n' & a' & E1 & _ & E2 & K)|(n' & a' & E1 & _)]]; [|discriminate]. congruence.
    + discriminate.
    + intros [_ [(n' & a' & E1 & _ & E2 & K)|(n' & a' & E1 & _)]]; discriminate.
    + discriminate.
    + intros [_ [(n' & a' & E1 & _ & E2 & K)|(n' & a' & E1 & _)]]; discriminate.
  - destruct (N.leb_spec (cd_len c) 128) as [L|L]; [|discriminate]. injection H as <-. cbn. destruct ip as [[a|a]|]; [|rewrite N.eqb_eq, block_spec|]; split.
    + discriminate.
    + intros [_ [(n' & a' & E1 & _ & E2 & K)|(n' & a' & E1 & _ & E2 & K)]]; discriminate.
    + intros K. split; [assumption|]. right. exists n, a. tauto.
    + intros [_ [(n' & a' & E1 & _ & E2 & K)|(n' & a' & E1 & _ & E2 & K)]]; [discriminate|]. congruence.
    + discriminate.
    + intros [_ [(n' & a' & E1 & _ & E2 & K)|(n' & a' & E1 & _ & E2 & K)]]; discriminate.
Qed.
Lemma bad_not_covers : forall pa ip c, ~ good_cidr pa c -> ~ covers pa ip c.
Proof.
  intros pa ip c H [_ [(n & a & E & L & _)|(n & a & E & L & _)]]; apply H; [left|right]; eauto.
Qed.
Lemma match_ranges_spec : forall pa ip rs,
  match match_ranges pa rs ip with
  | None => exists r1 c r2, rs = (r1 ++ c :: r2)%list /\ cd_addr c <> "" /\ ~ good_cidr pa c /\ forall c', In c' r1 -> ~ covers pa ip c'
  | Some b => (b = true <-> exists c, In c rs /\ covers pa ip c) /\ ~ (exists r1 c r2, rs = (r1 ++ c :: r2)%list /\ cd_addr c <> "" /\ ~ good_cidr pa c /\ forall c', In c' r1 -> ~ covers pa ip c')
  end.
Proof.
  intros pa ip rs. induction rs as [|c rs IH]; cbn.
  - split; [split; [discriminate|intros (c & [] & _)]|]. intros (r1 & c & r2 & E & _). destruct r1; discriminate.
  - assert (Skip: ~ covers pa ip c -> (cd_addr c = "" \/ good_cidr pa c) -> match match_ranges pa rs ip with
      | None => exists r1 c0 r2, (c :: rs)%list = (r1 ++ c0 :: r2)%list /\ cd_addr c0 <> "" /\ ~ good_cidr pa c0 /\ forall c', In c' r1 -> ~ covers pa ip c'
      | Some b => (b = true <-> exists c0, In c0 (c :: rs) /\ covers pa ip c0) /\ ~ (exists r1 c0 r2, (c :: rs)%list = (r1 ++ c0 :: r2)%list /\ cd_addr c0 <> "" /\ ~ good_cidr pa c0 /\ forall c', In c' r1 -> ~ covers pa ip c') end).
    { intros Hn Hg. destruct (match_ranges pa rs ip) as [b|].
      - destruct IH as [IH1 IH2]. split.
        + rewrite IH1. split; intros (c0 & Hi & Hc); exists c0; [split; [now right|assumption]|]. destruct Hi as [<-|Hi]; [contradiction|tauto].
        + intros (r1 & c0 & r2 & E & H1 & H2 & H3). destruct r1 as [|x r1]; cbn in E; injection E as -> ->; [tauto|]. apply IH2. exists r1, c0, r2. split; [reflexivity|]. split; [assumption|]. split; [assumption|]. intros c' Hc'. apply H3. now right.
      - destruct IH as (r1 & c0 & r2 & -> & H1 & H2 & H3). exists (c :: r1), c0, r2. split; [reflexivity|]. split; [assumption|]. split; [assumption|]. intros c' [<-|Hc']; auto. }
    destruct (String.eqb_spec (cd_addr c) "") as [Ee|Ee]; [apply Skip; [intros [K _]; contradiction|now left]|].
    destruct (parse_cidr pa c) as [net|] eqn:Ep.
    + assert (Hg: good_cidr pa c).
      { unfold parse_cidr in Ep. unfold good_cidr. destruct (pa (cd_addr c)) as [[n|n]|]; [| |discriminate].
        - destruct (N.leb_spec (cd_len c) 32) as [L|L]; [left; eauto|discriminate].
        - destruct (N.leb_spec (cd_len c) 128) as [L|L]; [right; eauto|discriminate]. }
      destruct (net_contains net ip) eqn:En.
      * pose proof (proj1 (contains_spec pa c net ip Ee Ep) En) as Hc. split; [split; [intros _; exists c; split; [now left|assumption]|reflexivity]|].
        intros (r1 & c0 & r2 & E & H1 & H2 & H3). destruct r1 as [|x r1]; cbn in E; injection E as -> ->; [contradiction|]. apply (H3 x); [now left|assumption].
      * apply Skip; [|now right]. intros K. apply (contains_spec pa c net ip Ee Ep) in K. congruence.
    + exists [], c, rs. split; [reflexivity|]. split; [assumption|]. split; [now apply parse_good|intros c' []].
Qed.
Lemma port_spec : forall fc p, N.eqb p (dst_port fc) = true <-> for_port fc p.
Proof.
  intros fc p. rewrite N.eqb_eq. unfold dst_port, for_port. destruct (fc_port fc) as [q|]; split; intros H.
  - left. congruence.
  - destruct H as [H|[H _]]; [congruence|discriminate].
  - right. auto.
  - destruct H as [H|[_ H]]; [discriminate|assumption].
Qed.
Lemma by_port_spec : forall fcs port fc, In fc (by_port fcs port) <-> port_selects fcs port fc.
Proof.
  intros fcs port fc. unfold by_port, port_selects. destruct (filter (fun fc0 => N.eqb port (dst_port fc0)) fcs) as [|a r] eqn:F.
  - assert (H0: forall fc', In fc' fcs -> ~ for_port fc' port) by (intros fc' Hi Hp; apply port_spec in Hp; rewrite (proj1 (filter_nil _ _) F fc' Hi) in Hp; discriminate).
    rewrite filter_In, port_spec. split; [intros [H1 H2]; split; [assumption|right; tauto]|]. intros [H1 [H2|[_ H2]]]; [exfalso; eapply H0; eassumption|tauto].
  - rewrite <- F, filter_In, port_spec. split; [tauto|]. intros [H1 [H2|[H2 _]]]; [tauto|]. exfalso. assert (Ha: In a (filter (fun fc0 => N.eqb port (dst_port fc0)) fcs)) by (rewrite F; now left). apply filter_In in Ha. rewrite port_spec in Ha. eapply H2; apply Ha.
Qed.
Lemma by_range_spec : forall pa ip fcs,
  match by_range pa ip fcs with
  | None => exists fc, In fc fcs /\ chain_fails pa ip fc
  | Some l => (forall fc, In fc l <-> In fc fcs /\ addr_matches pa ip fc) /\ (forall fc, In fc fcs -> ~ chain_fails pa ip fc)
  end.
Proof.
  intros pa ip fcs. induction fcs as [|fc fcs IH]; cbn [by_range In]; [split; [intros fc; cbn; tauto|intros fc []]|].
  destruct (fc_ranges fc) as [|r rs] eqn:Er.
  - assert (Hn: ~ addr_matches pa ip fc) by (intros (c & Hc & _); rewrite Er in Hc; destruct Hc).
    assert (Hf: ~ chain_fails pa ip fc) by (intros (r1 & c & r2 & E & _); rewrite Er in E; destruct r1; discriminate).
    destruct (by_range pa ip fcs) as [l|].
    + destruct IH as [IH1 IH2]. split; [|intros x [<-|Hx]; auto]. intros x. rewrite IH1. split; [tauto|]. intros [[<-|Hx] Hm]; [contradiction|tauto].
    + destruct IH as (x & Hx & Hf'). exists x. split; [now right|assumption].
  - rewrite <- Er. pose proof (match_ranges_spec pa ip (fc_ranges fc)) as Hm. fold (chain_fails pa ip fc) in Hm. fold (addr_matches pa ip fc) in Hm. destruct (match_ranges pa (fc_ranges fc) ip) as [b|].
    + destruct Hm as [Hm1 Hm2]. destruct (by_range pa ip fcs) as [l|].
      * destruct IH as [IH1 IH2]. split; [|intros x [<-|Hx]; [exact Hm2|auto]]. intros x. destruct b; [cbn|]; rewrite IH1.
        -- split; [intros [<-|Hx]; [split; [now left|now apply Hm1]|tauto]|tauto].
        -- split; [tauto|]. intros [[<-|Hx] Hy]; [|tauto]. apply Hm1 in Hy. discriminate.
      * destruct IH as (x & Hx & Hf). exists x. split; [now right|assumption].
    + exists fc. split; [now left|]. exact Hm.
Qed.
(* A chain is selected iff it is of the port (or of no port, if none is) and covers the address (or has no ranges, if none does); the
   search fails iff a chain of the port has an unusable range that is looked at. *)
Theorem C65_chain_selected_iff : forall pa fcs port ip,
  match find_filter_chain pa fcs port ip with
  | None => exists fc, port_selects fcs port fc /\ chain_fails pa ip fc
  | Some l => (forall fc, In fc l <-> chain_selects pa fcs port ip fc) /\ forall fc, port_selects fcs port fc -> ~ chain_fails pa ip fc
  end.
Proof.
  intros pa fcs port ip. unfold find_filter_chain. pose proof (by_range_spec pa ip (by_port fcs port)) as H. destruct (by_range pa ip (by_port fcs port)) as [[|a l]|].
  - destruct H as [H1 H2]. split; [|intros fc Hp; apply H2; now apply by_port_spec].
    assert (H0: forall fc', port_selects fcs port fc' -> ~ addr_matches pa ip fc') by (intros fc' Hp Hm; apply (H1 fc'); split; [now apply by_port_spec|assumption]).
    intros fc. rewrite filter_In, by_port_spec. unfold chain_selects. split.
    + intros [Hp Hr]. split; [assumption|]. right. split; [assumption|]. destruct (fc_ranges fc); [reflexivity|discriminate].
    + intros [Hp [Hm|[_ Hr]]]; [exfalso; eapply H0; eassumption|]. split; [assumption|]. now rewrite Hr.
  - destruct H as [H1 H2]. split; [|intros fc Hp; apply H2; now apply by_port_spec]. intros fc. rewrite H1, by_port_spec. unfold chain_selects. split; [tauto|].
    intros [Hp [Hm|[Hm _]]]; [tauto|]. exfalso. destruct (proj1 (H1 a) (or_introl eq_refl)) as [Ha Hb]. apply by_port_spec in Ha. eapply Hm; eassumption.
  - destruct H as (fc & Hi & Hf). exists fc. split; [now apply by_port_spec|assumption].
Qed.
Print Assumptions C65_chain_selected_iff.
Lemma listener_chains_spec : forall pa port ip l,
  match listener_chains pa port ip l with
  | None => listener_fails pa port ip l
  | Some fcs => (forall fc, In fc fcs <-> handles pa port ip l fc) /\ ~ listener_fails pa port ip l
  end.
Proof.
  intros pa port ip l. unfold listener_chains. pose proof (C65_chain_selected_iff pa (il_chains l) port ip) as H. destruct (find_filter_chain pa (il_chains l) port ip) as [[|a r]|].
  - destruct H as [H1 H2]. split; [|intros (fc & Hp & Hf); eapply H2; eassumption]. intros fc. unfold handles.
    assert (H0: forall fc', ~ chain_selects pa (il_chains l) port ip fc') by (intros fc' Hc; apply H1 in Hc; destruct Hc).
    destruct (il_default l) as [d|]; cbn; split.
    + intros [<-|[]]. now right.
    + intros [Hc|[_ E]]; [exfalso; eapply H0; eassumption|]. injection E as ->. now left.
    + intros [].
    + intros [Hc|[_ E]]; [exfalso; eapply H0; eassumption|discriminate].
  - destruct H as [H1 H2]. split; [|intros (fc & Hp & Hf); eapply H2; eassumption]. intros fc. rewrite H1. unfold handles. split; [tauto|]. intros [Hc|[Hc _]]; [assumption|]. exfalso. apply (Hc a). apply H1. now left.
  - destruct H as (fc & Hp & Hf). exists fc. tauto.
Qed.
Lemma listener_loop_spec : forall pa port ip ls found lp, listener_loop pa port ip ls found = inl lp <->
  (forall l, In l ls -> ~ listener_fails pa port ip l) /\
  match found with
  | Some lp0 => lp = lp0 /\ forall l, In l ls -> ~ listener_applies pa port ip l
  | None => exists l fcs, only_one (listener_applies pa port ip) ls l /\ listener_chains pa port ip l = Some fcs /\ lp = chain_props fcs
  end.
Proof.
  intros pa port ip ls. induction ls as [|l ls IH]; intros found lp; cbn.
  - destruct found as [lp0|].
    + split; [intros H; injection H as ->|intros (_ & -> & _); reflexivity]. split; [intros l []|]. split; [reflexivity|intros l []].
    + split; [discriminate|]. intros (_ & l & fcs & (l1 & l2 & E & _) & _). destruct l1; discriminate.
  - pose proof (listener_chains_spec pa port ip l) as Hl. destruct (listener_chains pa port ip l) as [[|a r]|] eqn:El.
    + destruct Hl as [Hl Hf]. assert (Hn: ~ listener_applies pa port ip l) by (intros (fc & Hc); apply Hl in Hc; destruct Hc). rewrite IH. split; intros [H1 H2].
      * split; [intros x [<-|Hx]; auto|]. destruct found as [lp0|].
        -- destruct H2 as [-> H2]. split; [reflexivity|]. intros x [<-|Hx]; auto.
        -- destruct H2 as (x & fcs & (l1 & l2 & -> & Ha & Hb & Hc) & H3). exists x, fcs. split; [|assumption]. exists (l :: l1), l2. split; [reflexivity|]. split; [assumption|]. split; [|assumption]. intros y [<-|Hy]; auto.
      * split; [intros x Hx; apply H1; now right|]. destruct found as [lp0|].
        -- destruct H2 as [-> H2]. split; [reflexivity|]. intros x Hx. apply H2. now right.
        -- destruct H2 as (x & fcs & (l1 & l2 & E & Ha & Hb & Hc) & H3). destruct l1 as [|y l1]; cbn in E; injection E as -> ->; [contradiction|]. exists x, fcs. split; [|assumption]. exists l1, l2. split; [reflexivity|]. split; [assumption|]. split; [|assumption]. intros z Hz. apply Hb. now right.
    + destruct Hl as [Hl Hf]. assert (Hy: listener_applies pa port ip l) by (exists a; apply Hl; now left). destruct found as [lp0|].
      * split; [discriminate|]. intros (_ & _ & H). exfalso. apply (H l); [now left|assumption].
      * rewrite IH. split.
        -- intros (H1 & -> & H2). split; [intros x [<-|Hx]; auto|]. exists l, (a :: r). split; [|split; [assumption|reflexivity]]. exists [], ls. split; [reflexivity|]. split; [assumption|]. split; [intros x []|assumption].
        -- intros (H1 & x & fcs & (l1 & l2 & E & Ha & Hb & Hc) & H3 & H4). destruct l1 as [|y l1]; cbn in E; injection E as -> ->; [|exfalso; apply (Hb y); [now left|assumption]].
           split; [intros y Hy'; apply H1; now right|]. split; [congruence|assumption].
    + split; [discriminate|]. intros (H & _). exfalso. apply (H l); [now left|assumption].
Qed.
(* the TLS contexts of the chains, in order: that of a chain for the TLS transport *)
Definition tls_chain (fc : fchain) : Prop := fc_transport fc = "tls".
Definition raw_chain (fc : fchain) : Prop := fc_transport fc = "raw_buffer".
Lemma chain_props_spec : forall fcs, let lp := chain_props fcs in
  (lp_tls lp = true <-> exists fc, In fc fcs /\ tls_chain fc) /\
  (lp_permissive lp = true <-> (exists fc, In fc fcs /\ tls_chain fc) /\ exists fc, In fc fcs /\ raw_chain fc) /\
  (lp_require lp = true <-> exists fc d, last_with (fun fc => tls_chain fc /\ fc_tls fc <> None) fcs fc /\ fc_tls fc = Some d /\ dc_require d = true) /\
  (forall v, lp_verifier lp = Some v <-> exists fc d, last_with (fun fc => tls_chain fc /\ exists d, fc_tls fc = Some d /\ dc_valid d <> None) fcs fc /\ fc_tls fc = Some d /\ dc_valid d = Some v).
Proof.
  intros fcs. cbv zeta. unfold chain_props.
  assert (G: match fold_left fold_chain fcs (mklp false false false None, false) with (lp, raw) =>
    (lp_tls lp = true <-> exists fc, In fc fcs /\ tls_chain fc) /\ (raw = true <-> exists fc, In fc fcs /\ raw_chain fc) /\
    (lp_require lp = true <-> exists fc d, last_with (fun fc => tls_chain fc /\ fc_tls fc <> None) fcs fc /\ fc_tls fc = Some d /\ dc_require d = true) /\
    (forall v, lp_verifier lp = Some v <-> exists fc d, last_with (fun fc => tls_chain fc /\ exists d, fc_tls fc = Some d /\ dc_valid d <> None) fcs fc /\ fc_tls fc = Some d /\ dc_valid d = Some v) end).
  { assert (Lnil: forall (P : fchain -> Prop) a, ~ last_with P [] a) by (intros P a (l1 & l2 & E & _); destruct l1; discriminate).
    assert (Lno: forall (P : fchain -> Prop) l x a, ~ P x -> last_with P (l ++ [x]) a <-> last_with P l a).
    { intros P l x a Hx. split; intros (l1 & l2 & E & H1 & H2).
      - destruct l2 as [|y l2 _] using rev_ind; [apply app_inj_tail in E; destruct E as [_ <-]; contradiction|]. rewrite app_comm_cons, app_assoc in E. apply app_inj_tail in E. destruct E as [-> ->]. exists l1, l2. split; [reflexivity|]. split; [assumption|]. intros z Hz. apply H2. apply in_or_app. now left.
      - subst l. exists l1, (l2 ++ [x])%list. split; [now rewrite <- app_assoc|]. split; [assumption|]. intros z Hz. apply in_app_or in Hz. destruct Hz as [Hz|[<-|[]]]; auto. }
    assert (Lyes: forall (P : fchain -> Prop) l x a, P x -> last_with P (l ++ [x]) a <-> a = x).
    { intros P l x a Hx. split.
      - intros (l1 & l2 & E & H1 & H2). destruct l2 as [|y l2 _] using rev_ind; [apply app_inj_tail in E; destruct E; congruence|]. rewrite app_comm_cons, app_assoc in E. apply app_inj_tail in E. destruct E as [_ <-]. exfalso. apply (H2 x); [apply in_or_app; right; now left|assumption].
      - intros ->. exists l, []. split; [reflexivity|]. split; [assumption|intros z []]. }
    assert (Ein: forall (P : fchain -> Prop) l x, (exists fc, In fc (l ++ [x])%list /\ P fc) <-> (exists fc, In fc l /\ P fc) \/ P x).
    { intros P l x. split; [intros (fc & Hi & Hp); apply in_app_or in Hi; destruct Hi as [Hi|[<-|[]]]; eauto|]. intros [(fc & Hi & Hp)|Hp]; [exists fc|exists x]; (split; [apply in_or_app; cbn; tauto|assumption]). }
    induction fcs as [|fc fcs IH] using rev_ind.
    - cbn. split; [split; [discriminate|intros (fc & [] & _)]|]. split; [split; [discriminate|intros (fc & [] & _)]|]. split.
      + split; [discriminate|]. intros (fc & d & H & _). now apply Lnil in H.
      + intros v. split; [discriminate|]. intros (fc & d & H & _). now apply Lnil in H.
    - rewrite fold_left_app. cbn [fold_left]. destruct (fold_left fold_chain fcs (mklp false false false None, false)) as [lp raw]. destruct IH as (I1 & I2 & I3 & I4).
      unfold fold_chain. destruct (String.eqb_spec (fc_transport fc) "tls") as [Et|Et].
      + assert (Ht: tls_chain fc) by exact Et. assert (Hr: ~ raw_chain fc) by (unfold raw_chain; congruence).
        destruct (fc_tls fc) as [d|] eqn:Ec; cbn [lp_tls lp_require lp_verifier]; rewrite !Ein.
        * split; [tauto|]. split; [tauto|]. split.
          -- split; [intros H; exists fc, d; split; [apply Lyes; [split; [assumption|congruence]|reflexivity]|tauto]|]. intros (x & d' & Hx & Hd & Hq). apply Lyes in Hx; [subst x; congruence|split; [assumption|congruence]].
          -- intros v. destruct (dc_valid d) as [w|] eqn:Ev.
             ++ split; [intros H; exists fc, d; split; [apply Lyes; [split; [assumption|exists d; split; [assumption|congruence]]|reflexivity]|split; congruence]|]. intros (x & d' & Hx & Hd & Hq). apply Lyes in Hx; [subst x; congruence|split; [assumption|exists d; split; [assumption|congruence]]].
             ++ rewrite I4. split; intros (x & d' & Hx & K); exists x, d'; (split; [|assumption]); (apply Lno; [|eassumption]) || (apply Lno in Hx; [assumption|]); intros (_ & d0 & E0 & V0); congruence.
        * split; [tauto|]. split; [tauto|]. split.
          -- rewrite I3. split; intros (x & d' & Hx & K); exists x, d'; (split; [|assumption]); (apply Lno; [|eassumption]) || (apply Lno in Hx; [assumption|]); intros (_ & V0); congruence.
          -- intros v. rewrite I4. split; intros (x & d' & Hx & K); exists x, d'; (split; [|assumption]); (apply Lno; [|eassumption]) || (apply Lno in Hx; [assumption|]); intros (_ & d0 & E0 & V0); congruence.
      + assert (Ht: ~ tls_chain fc) by exact Et.
        assert (J3: lp_require lp = true <-> exists fc0 d, last_with (fun fc => tls_chain fc /\ fc_tls fc <> None) (fcs ++ [fc]) fc0 /\ fc_tls fc0 = Some d /\ dc_require d = true).
        { rewrite I3. split; intros (x & d' & Hx & K); exists x, d'; (split; [|assumption]); (apply Lno; [|eassumption]) || (apply Lno in Hx; [assumption|]); tauto. }
        assert (J4: forall v, lp_verifier lp = Some v <-> exists fc0 d, last_with (fun fc => tls_chain fc /\ exists d, fc_tls fc = Some d /\ dc_valid d <> None) (fcs ++ [fc]) fc0 /\ fc_tls fc0 = Some d /\ dc_valid d = Some v).
        { intros v. rewrite I4. split; intros (x & d' & Hx & K); exists x, d'; (split; [|assumption]); (apply Lno; [|eassumption]) || (apply Lno in Hx; [assumption|]); tauto. }
        destruct (String.eqb_spec (fc_transport fc) "raw_buffer") as [Er|Er]; rewrite !Ein; (split; [tauto|]); (split; [|tauto]).
        * assert (raw_chain fc) by exact Er. tauto.
        * assert (~ raw_chain fc) by exact Er. tauto. }
  destruct (fold_left fold_chain fcs (mklp false false false None, false)) as [lp raw]. destruct G as (G1 & G2 & G3 & G4). cbn [lp_tls lp_permissive lp_require lp_verifier].
  split; [assumption|]. split; [rewrite andb_true_iff, G1, G2; tauto|]. split; assumption.
Qed.
(* Properties are returned iff no inbound listener fails and exactly one applies; they say:
   TLS is accepted iff one of its chains for the connection is for TLS, plaintext too iff one is for raw buffers. *)
Theorem C65_properties : forall pa all host port lp, listener_properties pa all host port = inl lp ->
  (forall l, In l all -> il_inbound l = true -> ~ listener_fails pa port (pa host) l) /\
  exists l, only_one (fun l => il_inbound l = true /\ listener_applies pa port (pa host) l) all l /\
    (lp_tls lp = true <-> exists fc, handles pa port (pa host) l fc /\ tls_chain fc) /\
    (lp_permissive lp = true <-> (exists fc, handles pa port (pa host) l fc /\ tls_chain fc) /\ exists fc, handles pa port (pa host) l fc /\ raw_chain fc) /\
    (lp_require lp = true -> exists fc d, handles pa port (pa host) l fc /\ tls_chain fc /\ fc_tls fc = Some d /\ dc_require d = true) /\
    (forall v, lp_verifier lp = Some v -> exists fc d, handles pa port (pa host) l fc /\ tls_chain fc /\ fc_tls fc = Some d /\ dc_valid d = Some v).
Proof.
  intros pa all host port lp H. unfold listener_properties in H. apply listener_loop_spec in H. destruct H as [H1 (l & fcs & H2 & H3 & ->)].
  split; [intros x Hx Hi; apply H1; apply filter_In; tauto|]. exists l.
  assert (Ho: only_one (fun l0 => il_inbound l0 = true /\ listener_applies pa port (pa host) l0) all l).
  { clear H1 H3. induction all as [|x all IH]; [destruct H2 as (l1 & l2 & E & _); destruct l1; discriminate|]. cbn in H2. destruct (il_inbound x) eqn:Ex.
    - destruct H2 as (l1 & l2 & E & Ha & Hb & Hc). destruct l1 as [|y l1]; cbn in E; injection E as -> E.
      + exists [], all. split; [reflexivity|]. split; [tauto|]. split; [intros y []|]. intros y Hy [Hi Hp]. apply (Hc y); [|assumption]. rewrite <- E. apply filter_In. tauto.
      + destruct IH as (m1 & m2 & -> & Hm & Hm1 & Hm2); [exists l1, l2; split; [assumption|]; split; [assumption|]; split; [intros z Hz; apply Hb; now right|assumption]|].
        exists (y :: m1), m2. split; [reflexivity|]. split; [assumption|]. split; [|assumption]. intros z [<-|Hz]; [|auto]. intros [_ K]. apply (Hb y); [now left|assumption].
    - destruct (IH H2) as (m1 & m2 & -> & Hm & Hm1 & Hm2). exists (x :: m1), m2. split; [reflexivity|]. split; [assumption|]. split; [|assumption]. intros z [<-|Hz]; [|auto]. intros [K _]. congruence. }
  split; [assumption|]. pose proof (listener_chains_spec pa port (pa host) l) as Hl. rewrite H3 in Hl. destruct Hl as [Hl _].
  assert (Ex: forall P : fchain -> Prop, (exists fc, In fc fcs /\ P fc) <-> exists fc, handles pa port (pa host) l fc /\ P fc) by (intros P; split; intros (fc & Hi & Hp); exists fc; (split; [now apply Hl|assumption])).
  destruct (chain_props_spec fcs) as (C1 & C2 & C3 & C4). rewrite <- !Ex. split; [assumption|]. split; [assumption|]. split.
  - intros Hr. apply C3 in Hr. destruct Hr as (fc & d & (l1 & l2 & E & [Ht _] & _) & Hd & Hq). exists fc, d. split; [apply Hl; rewrite E; apply in_or_app; right; now left|tauto].
  - intros v Hv. apply C4 in Hv. destruct Hv as (fc & d & (l1 & l2 & E & [Ht _] & _) & Hd & Hq). exists fc, d. split; [apply Hl; rewrite E; apply in_or_app; right; now left|tauto].
Qed.
Print Assumptions C65_properties.
Lemma only_one_inbound : forall (P : ilistener -> Prop) all l, only_one P (filter il_inbound all) l <-> only_one (fun l => il_inbound l = true /\ P l) all l.
Proof.
  intros P all l. split.
  - intros H. induction all as [|x all IH]; [destruct H as (l1 & l2 & E & _); destruct l1; discriminate|]. cbn in H. destruct (il_inbound x) eqn:Ex.
    + destruct H as (l1 & l2 & E & Ha & Hb & Hc). destruct l1 as [|y l1]; cbn in E; injection E as -> E.
      * exists [], all. split; [reflexivity|]. split; [tauto|]. split; [intros y []|]. intros y Hy [Hi Hp]. apply (Hc y); [|assumption]. rewrite <- E. apply filter_In. tauto.
      * destruct IH as (m1 & m2 & -> & Hm & Hm1 & Hm2); [exists l1, l2; split; [assumption|]; split; [assumption|]; split; [intros z Hz; apply Hb; now right|assumption]|].
        exists (y :: m1), m2. split; [reflexivity|]. split; [assumption|]. split; [|assumption]. intros z [<-|Hz]; [|auto]. intros [_ K]. apply (Hb y); [now left|assumption].
    + destruct (IH H) as (m1 & m2 & -> & Hm & Hm1 & Hm2). exists (x :: m1), m2. split; [reflexivity|]. split; [assumption|]. split; [|assumption]. intros z [<-|Hz]; [|auto]. intros [K _]. congruence.
  - intros (l1 & l2 & -> & [Ha Hp] & H1 & H2). rewrite filter_app. cbn. rewrite Ha. exists (filter il_inbound l1), (filter il_inbound l2). split; [reflexivity|]. split; [assumption|].
    split; intros x Hx Hy; apply filter_In in Hx; [apply (H1 x)|apply (H2 x)]; tauto.
Qed.
(* Properties are found exactly when no inbound listener fails and exactly one applies. *)
Theorem C65_found_iff : forall pa all host port, (exists lp, listener_properties pa all host port = inl lp) <->
  (forall l, In l all -> il_inbound l = true -> ~ listener_fails pa port (pa host) l) /\
  exists l, only_one (fun l => il_inbound l = true /\ listener_applies pa port (pa host) l) all l.
Proof.
  intros pa all host port. split.
  - intros [lp H]. destruct (C65_properties _ _ _ _ _ H) as (H1 & l & H2 & _). eauto.
  - intros [H1 (l & H2)]. apply only_one_inbound in H2. assert (Hl: ~ listener_fails pa port (pa host) l).
    { destruct H2 as (l1 & l2 & E & _). assert (Hi: In l (filter il_inbound all)) by (rewrite E; apply in_or_app; right; now left). apply filter_In in Hi. apply H1; tauto. }
    pose proof (listener_chains_spec pa port (pa host) l) as Hs. destruct (listener_chains pa port (pa host) l) as [fcs|] eqn:E; [|contradiction].
    exists (chain_props fcs). apply listener_loop_spec. split; [intros x Hx; apply filter_In in Hx; apply H1; tauto|]. exists l, fcs. tauto.
Qed.
Print Assumptions C65_found_iff.
Lemma only_one_perm {A} : forall (P : A -> Prop) l l' a, Permutation l l' -> only_one P l a -> only_one P l' a.
Proof.
  intros P l l' a Hp (l1 & l2 & -> & Ha & H1 & H2). assert (Hi: In a l') by (eapply Permutation_in; [eassumption|apply in_or_app; right; now left]). apply in_split in Hi. destruct Hi as (m1 & m2 & ->).
  apply Permutation_app_inv in Hp. exists m1, m2. split; [reflexivity|]. split; [assumption|].
  assert (G: forall x, In x (m1 ++ m2) -> ~ P x) by (intros x Hx; apply (Permutation_in _ (Permutation_sym Hp)) in Hx; apply in_app_or in Hx; destruct Hx; auto).
  split; intros x Hx; apply G; apply in_or_app; tauto.
Qed.
(* The order in which the cache lists the listeners never changes an answer, nor whether there is one. *)
Theorem C65_order_independent : forall pa all all' host port lp, Permutation all all' -> listener_properties pa all host port = inl lp -> listener_properties pa all' host port = inl lp.
Proof.
  intros pa all all' host port lp Hp H. unfold listener_properties in *. apply listener_loop_spec in H. destruct H as [H1 (l & fcs & H2 & H3)]. apply listener_loop_spec.
  assert (Hp': Permutation (filter il_inbound all) (filter il_inbound all')) by now apply filter_perm. split.
  - intros x Hx. apply H1. eapply Permutation_in; [apply Permutation_sym; eassumption|assumption].
  - exists l, fcs. split; [eapply only_one_perm; eassumption|assumption].
Qed.
Print Assumptions C65_order_independent.
(* STRICT mutual TLS is recognised: when every chain for the connection is for TLS and demands a client certificate. *)
Theorem C65_strict : forall pa all host port l, (forall x, In x all -> il_inbound x = true -> ~ listener_fails pa port (pa host) x) ->
  only_one (fun l => il_inbound l = true /\ listener_applies pa port (pa host) l) all l ->
  (forall fc, handles pa port (pa host) l fc -> tls_chain fc /\ exists d, fc_tls fc = Some d /\ dc_require d = true) ->
  exists lp, listener_properties pa all host port = inl lp /\ lp_tls lp = true /\ lp_permissive lp = false /\ lp_require lp = true.
Proof.
  intros pa all host port l Hf Ho Hs. assert (Hx: exists lp, listener_properties pa all host port = inl lp) by (apply C65_found_iff; split; [assumption|eauto]).
  destruct Hx as [lp H]. exists lp. split; [assumption|]. unfold listener_properties in H. apply listener_loop_spec in H. destruct H as [_ (l' & fcs & H2 & H3 & ->)].
  assert (l' = l). { apply only_one_inbound in Ho. assert (S: forall (P : ilistener -> Prop) x a b, only_one P x a -> only_one P x b -> a = b).
    { intros P x a b (a1 & a2 & -> & Ha & A1 & A2) (b1 & b2 & E & Hb & B1 & B2). assert (Hi: In b (a1 ++ a :: a2)%list) by (rewrite E; apply in_or_app; right; now left). apply in_app_or in Hi. destruct Hi as [Hi|[Hi|Hi]]; [exfalso; eapply A1; eassumption|assumption|exfalso; eapply A2; eassumption]. }
    eapply S; eassumption. } subst l'.
  assert (Happ: exists fc, handles pa port (pa host) l fc) by (destruct Ho as (l1 & l2 & _ & [_ Ha] & _); exact Ha).
  pose proof (listener_chains_spec pa port (pa host) l) as Hl. rewrite H3 in Hl. destruct Hl as [Hl _]. destruct Happ as [fc0 H0]. apply Hl in H0.
  assert (Hall: forall fc, In fc fcs -> tls_chain fc /\ exists d, fc_tls fc = Some d /\ dc_require d = true) by (intros fc Hi; apply Hs; now apply Hl).
  destruct (chain_props_spec fcs) as (C1 & C2 & C3 & C4). split; [apply C1; exists fc0; split; [assumption|now apply Hall]|]. split.
  - apply not_true_is_false. intros E. apply C2 in E. destruct E as [_ (fc & Hi & Hr)]. destruct (Hall fc Hi) as [Ht _]. unfold tls_chain, raw_chain in *. congruence.
  - apply C3. destruct fcs as [|x r _] using rev_ind; [destruct H0|]. assert (Hx: In x (r ++ [x])%list) by (apply in_or_app; right; now left). destruct (Hall x Hx) as [Ht (d & Hd & Hq)]. exists x, d. split; [|tauto]. exists r, []. split; [reflexivity|]. split; [split; [assumption|congruence]|intros y []].
Qed.
Print Assumptions C65_strict.
(* Defect: Envoy prefers the longest matching prefix; here a plaintext chain of a wide range makes the listener permissive for addresses
   whose own, narrower, range is for TLS only. *)
Definition ex_pa : addr_parser := fun s => if String.eqb s "10.0.0.0" then Some (V4 167772160) else if String.eqb s "10.1.0.0" then Some (V4 167837696) else if String.eqb s "10.1.2.3" then Some (V4 167838211) else None.
Definition ex_strict : fchain := mkfc None [mkcidr "10.1.0.0" 16] "tls" (Some (mkdctx true (Some 1))).
Definition ex_wide : fchain := mkfc None [mkcidr "10.0.0.0" 8] "raw_buffer" None.
Theorem C65_longest_prefix_refuted :
  covers ex_pa (ex_pa "10.1.2.3") (mkcidr "10.1.0.0" 16) /\ covers ex_pa (ex_pa "10.1.2.3") (mkcidr "10.0.0.0" 8) /\
  listener_properties ex_pa [mkil true [ex_strict; ex_wide] None] "10.1.2.3" 80 = inl (mklp true true true (Some 1)).
Proof.
  assert (H: forall c net, cd_addr c <> "" -> parse_cidr ex_pa c = Some net -> net_contains net (ex_pa "10.1.2.3") = true -> covers ex_pa (ex_pa "10.1.2.3") c) by (intros; eapply contains_spec; eassumption).
  split; [|split]; [eapply H; [discriminate|reflexivity|reflexivity]..|reflexivity].
Qed.
Print Assumptions C65_longest_prefix_refuted.
(* Defect: the last TLS chain alone says whether a client certificate is required, in general: one chain that requires it, listed before
   one that does not, is forgotten. *)
Theorem C65_require_fail_open_refuted : forall pa host port f1 f2 d1 d2, fc_ranges f1 = [] -> fc_ranges f2 = [] -> fc_port f1 = None -> fc_port f2 = None ->
  tls_chain f1 -> tls_chain f2 -> fc_tls f1 = Some d1 -> fc_tls f2 = Some d2 -> dc_require d1 = true -> dc_require d2 = false ->
  exists lp, listener_properties pa [mkil true [f1; f2] None] host port = inl lp /\ lp_tls lp = true /\ lp_require lp = false.
Proof.
  intros pa host port f1 f2 d1 d2 R1 R2 P1 P2 T1 T2 E1 E2 Q1 Q2. unfold listener_properties, listener_loop, listener_chains, find_filter_chain, by_port, dst_port. cbn. unfold dst_port. rewrite P1, P2.
  assert (Hc: exists lp, chain_props [f1; f2] = lp /\ lp_tls lp = true /\ lp_require lp = false).
  { eexists. split; [reflexivity|]. unfold chain_props. cbn. unfold fold_chain. unfold tls_chain in *. rewrite T1, T2. cbn. rewrite E1, E2. cbn. tauto. }
  destruct Hc as (lp & Hc & Ht & Hq). exists lp. rewrite <- Hc. split; [|rewrite Hc; tauto].
  destruct (N.eqb port 0) eqn:Ep; repeat (cbn; rewrite ?R1, ?R2, ?P1, ?P2, ?Ep); reflexivity.
Qed.
Print Assumptions C65_require_fail_open_refuted.
Example C65_fail_open_ex : exists f1 f2 d1 d2, fc_ranges f1 = [] /\ fc_ranges f2 = [] /\ fc_port f1 = None /\ fc_port f2 = None /\
  tls_chain f1 /\ tls_chain f2 /\ fc_tls f1 = Some d1 /\ fc_tls f2 = Some d2 /\ dc_require d1 = true /\ dc_require d2 = false.
Proof. exists (mkfc None [] "tls" (Some (mkdctx true None))), (mkfc None [] "tls" (Some (mkdctx false None))), (mkdctx true None), (mkdctx false None). repeat split. Qed.
Example C65_strict_ex : listener_properties ex_pa [mkil true [ex_strict; mkfc (Some 15006%N) [] "raw_buffer" None] None; mkil false [ex_wide] None] "10.1.2.3" 80 = inl (mklp true false true (Some 1)).
Proof. reflexivity. Qed.
Example C65_default_ex : listener_properties ex_pa [mkil true [mkfc (Some 9090%N) [] "tls" None] (Some (mkfc None [] "raw_buffer" None))] "10.1.2.3" 80 = inl (mklp false false false None).
Proof. reflexivity. Qed.
Example C65_bad_ex : listener_properties ex_pa [mkil true [mkfc None [mkcidr "10.1.0.0" 33] "tls" None] None] "10.1.2.3" 80 = inr LBadCidr.
Proof. reflexivity. Qed.
(* Defect: one unusable range in any inbound listener hides the properties of every other one. *)
Theorem C65_bad_range_refuted : forall pa all host port l, In l all -> il_inbound l = true -> listener_fails pa port (pa host) l -> forall lp, listener_properties pa all host port <> inl lp.
Proof. intros pa all host port l Hi Hb Hf lp H. destruct (C65_properties _ _ _ _ _ H) as [H1 _]. eapply H1; eassumption. Qed.
Print Assumptions C65_bad_range_refuted.

(* ---- C66 ---- *)
Lemma criteria_true : forall ep sm, criteria_ok ep sm = Ret true -> meets ep sm.
Proof.
  induction sm as [|[k v] sm IH]; cbn; intros H k' v' Hi; [destruct Hi|]. destruct (mget k ep) as [[a|]|] eqn:E; try discriminate. destruct v as [b|]; [|discriminate]. destruct (String.eqb_spec a b) as [->|]; [|discriminate].
  destruct Hi as [Hi|Hi]; [injection Hi as <- <-; assumption|now apply IH].
Qed.
(* Every transport socket that is used belongs to the cluster, and the endpoint meets its criteria; the cluster's own socket comes last. *)
Theorem C66_sockets_sound : forall c ep l s, matching_sockets c ep = Ret l -> In s l ->
  tc_socket c = Some s \/ exists m, In m (tc_matches c) /\ tm_socket m = Some s /\ meets ep (tm_match m).
Proof.
  intros c ep l s H Hi. unfold matching_sockets in H. destruct (match_sockets ep (tc_matches c)) as [x|] eqn:E; [|discriminate]. injection H as <-. apply in_app_or in Hi. destruct Hi as [Hi|Hi].
  - right. revert x E Hi. induction (tc_matches c) as [|m ms IH]; cbn [match_sockets]; intros x E Hi; [injection E as <-; destruct Hi|].
    match type of E with context [match ?z with Ret ok => _ | Crash => _ end] => destruct z as [ok|] eqn:Eo end; [|discriminate]. destruct (match_sockets ep ms) as [y|]; [|discriminate]. injection E as <-. apply in_app_or in Hi. destruct Hi as [Hi|Hi].
    + destruct ok; [|destruct Hi]. exists m. split; [now left|]. split; [destruct (tm_socket m); cbn in Hi; [destruct Hi as [->|[]]; reflexivity|destruct Hi]|]. clear IH Hi.
      destruct (tm_match m) as [|e r]; [intros k v []|]. destruct (Nat.eqb (List.length ep) (List.length (e :: r))); [|discriminate]. now apply criteria_true.
    + destruct (IH y eq_refl Hi) as (m' & H1 & H2). exists m'. split; [now right|assumption].
  - left. destruct (tc_socket c); cbn in Hi; [destruct Hi as [->|[]]; reflexivity|destruct Hi].
Qed.
Print Assumptions C66_sockets_sound.
(* The criteria can be compared: none, or as many as the endpoint has fields, under the same names and all strings. *)
Definition comparable (ep : gmap mvalue) (m : list (string * mvalue)) : Prop :=
  m = [] \/ List.length m <> List.length ep /\ ~ meets ep m \/ List.length m = List.length ep /\ forall k v, In (k, v) m -> exists a b, mget k ep = Some (MVStr a) /\ v = MVStr b.
Lemma criteria_strings : forall ep sm, (forall k v, In (k, v) sm -> exists a b, mget k ep = Some (MVStr a) /\ v = MVStr b) -> exists b, criteria_ok ep sm = Ret b /\ (b = true <-> meets ep sm).
Proof.
  induction sm as [|[k v] sm IH]; intros H; cbn; [exists true; split; [reflexivity|]; split; [intros _ k v []|reflexivity]|].
  destruct (H k v (or_introl eq_refl)) as (a & b & E & ->). rewrite E. destruct (String.eqb_spec a b) as [->|Hn].
  - destruct IH as (r & -> & Hr); [intros k' v' Hi; apply H; now right|]. exists r. split; [reflexivity|]. rewrite Hr. split; intros Hm k' v' Hi; [|apply Hm; now right].
    destruct Hi as [Hi|Hi]; [injection Hi as <- <-; assumption|now apply Hm].
  - exists false. split; [reflexivity|]. split; [discriminate|]. intros Hm. specialize (Hm k (MVStr b) (or_introl eq_refl)). congruence.
Qed.
Inductive sublist_of {A} (P : A -> Prop) : list A -> list A -> Prop :=
| so_nil : sublist_of P [] []
| so_keep : forall a l r, P a -> sublist_of P l r -> sublist_of P (a :: l) (a :: r)
| so_drop : forall a l r, ~ P a -> sublist_of P l r -> sublist_of P (a :: l) r.
(* When all criteria can be compared the sockets are exactly those of the matches that the endpoint meets, in the order of the
   configuration, then the cluster's own: the first of them is the one Envoy would use. *)
Theorem C66_sockets_exact : forall c ep, (forall m, In m (tc_matches c) -> comparable ep (tm_match m)) ->
  exists ms, sublist_of (fun m => meets ep (tm_match m)) (tc_matches c) ms /\ matching_sockets c ep = Ret (flat_map (fun m => opt_list (tm_socket m)) ms ++ opt_list (tc_socket c))%list.
Proof.
  intros c ep H. unfold matching_sockets.
  assert (G: exists ms, sublist_of (fun m => meets ep (tm_match m)) (tc_matches c) ms /\ match_sockets ep (tc_matches c) = Ret (flat_map (fun m => opt_list (tm_socket m)) ms)).
  { induction (tc_matches c) as [|m ms IH]; [exists []; split; [constructor|reflexivity]|]. destruct IH as (ms' & Hs & Hm); [intros x Hx; apply H; now right|].
    cbn [match_sockets]. rewrite Hm. destruct (H m (or_introl eq_refl)) as [E|[[El Hn]|[El Hk]]].
    - rewrite E. exists (m :: ms'). split; [constructor; [rewrite E; intros k v []|assumption]|reflexivity].
    - exists ms'. split; [now apply so_drop|]. destruct (tm_match m) as [|e r] eqn:Em; [exfalso; apply Hn; intros k v []|]. destruct (Nat.eqb_spec (List.length ep) (List.length (e :: r))) as [K|K]; [congruence|reflexivity].
    - destruct (criteria_strings ep (tm_match m) Hk) as (b & Eb & Hb). destruct (tm_match m) as [|e r] eqn:Em; [exists (m :: ms'); split; [constructor; [rewrite Em; intros k v []|assumption]|reflexivity]|].
      rewrite El, Nat.eqb_refl, Eb. destruct b.
      + exists (m :: ms'). split; [constructor; [rewrite Em; now apply Hb|assumption]|reflexivity].
      + exists ms'. split; [|reflexivity]. apply so_drop; [|assumption]. rewrite Em. intros K. apply Hb in K. discriminate. }
  destruct G as (ms & H1 & ->). exists ms. split; [assumption|reflexivity].
Qed.
Print Assumptions C66_sockets_exact.
(* What Istio configures: TLS for endpoints labelled tlsMode=istio, plaintext for the others. *)
Definition istio_matches (u : uctx) : list tsmatch := [mktm [("tlsMode", MVStr "istio")] (Some (mkts tls_name (Some u))); mktm [] (Some (mkts raw_name None))].
Theorem C66_istio : forall u,
  client_props (mktc (istio_matches u) None) (TsmObject [("tlsMode", MVStr "istio")]) = Ret (Some (mkcp true true (uc_sni u) (uc_valid u))) /\
  client_props (mktc (istio_matches u) None) TsmAbsent = Ret (Some (mkcp false false "" None)) /\
  forall s, s <> "istio" -> client_props (mktc (istio_matches u) None) (TsmObject [("tlsMode", MVStr s)]) = Ret (Some (mkcp false false "" None)).
Proof.
  intros u. split; [reflexivity|]. split; [reflexivity|]. intros s Hs. apply String.eqb_neq in Hs. unfold client_props, matching_sockets, istio_matches. cbn [tc_matches match_sockets tm_match List.length Nat.eqb criteria_ok mget]. rewrite String.eqb_refl, Hs. reflexivity.
Qed.
Print Assumptions C66_istio.
(* Defect: an endpoint with tlsMode=istio and any other field meets the TLS criteria but is dialled in plaintext. *)
Theorem C66_extra_metadata_refuted : forall u k v, k <> "tlsMode" ->
  meets [("tlsMode", MVStr "istio"); (k, v)] [("tlsMode", MVStr "istio")] /\
  client_props (mktc (istio_matches u) None) (TsmObject [("tlsMode", MVStr "istio"); (k, v)]) = Ret (Some (mkcp false false "" None)).
Proof. intros u k v Hk. split; [|reflexivity]. intros k' v' [E|[]]. injection E as <- <-. reflexivity. Qed.
Print Assumptions C66_extra_metadata_refuted.
(* Defect: as many fields under another name, or a value that is not a string, crash the client. *)
Theorem C66_crash_refuted : forall u k v, (k <> "tlsMode" \/ v = MVOther) -> client_props (mktc (istio_matches u) None) (TsmObject [(k, v)]) = Crash.
Proof.
  intros u k v H. unfold client_props, matching_sockets, istio_matches. cbn [tc_matches match_sockets tm_match List.length Nat.eqb criteria_ok mget]. destruct (String.eqb_spec "tlsMode" k) as [E|E]; [|reflexivity]. destruct H as [H | ->]; [congruence|reflexivity].
Qed.
Print Assumptions C66_crash_refuted.
(* Defect: whether it crashes can depend on the iteration order of a map: the same criteria, listed in another order. *)
Theorem C66_map_order_refuted : forall s b x, Permutation [("a", MVStr "1"); ("b", MVStr "2")] [("b", MVStr "2"); ("a", MVStr "1")] /\ (b <> "1" ->
  matching_sockets (mktc [mktm [("a", MVStr "1"); ("b", MVStr "2")] (Some s)] None) [("a", MVStr b); ("c", x)] = Ret [] /\
  matching_sockets (mktc [mktm [("b", MVStr "2"); ("a", MVStr "1")] (Some s)] None) [("a", MVStr b); ("c", x)] = Crash).
Proof.
  intros s b x. split; [constructor|]. intros Hb. apply String.eqb_neq in Hb. split; [|reflexivity]. unfold matching_sockets. cbn [tc_matches match_sockets tm_match List.length Nat.eqb criteria_ok mget]. rewrite String.eqb_refl, Hb. reflexivity.
Qed.
Print Assumptions C66_map_order_refuted.
(* Defect: metadata that is not an object gives neither properties nor an error. *)
Theorem C66_bad_metadata_refuted : forall c, client_props c TsmOther = Ret None.
Proof. reflexivity. Qed.
Print Assumptions C66_bad_metadata_refuted.
(* Defect: TLS to an endpoint whose context has no validation context: the client panics when it verifies the certificate. *)
Theorem C66_no_validation_refuted : forall u verify, uc_valid u = None -> exists p, client_props (mktc (istio_matches u) None) (TsmObject [("tlsMode", MVStr "istio")]) = Ret (Some p) /\
  cp_tls p = true /\ peer_check (cp_verifier p) verify = Crash.
Proof. intros u verify H. eexists. split; [apply (proj1 (C66_istio u))|]. split; [reflexivity|]. cbn. now rewrite H. Qed.
Print Assumptions C66_no_validation_refuted.
(* With a validation context every certificate is checked against that of the socket that is used. *)
Theorem C66_verifier : forall c tsm p verify, client_props c tsm = Ret (Some p) -> peer_check (cp_verifier p) verify <> Crash ->
  exists s u v, (tc_socket c = Some s \/ exists m, In m (tc_matches c) /\ tm_socket m = Some s /\ meets (match tsm with TsmObject ep => ep | _ => [] end) (tm_match m)) /\
    ts_ctx s = Some u /\ uc_valid u = Some v /\ peer_check (cp_verifier p) verify = Ret (verify v).
Proof.
  intros c tsm p verify H Hc. unfold client_props in H. assert (Hm: exists l, matching_sockets c (match tsm with TsmObject ep => ep | _ => [] end) = Ret l /\ cp_verifier p = match l with s :: _ => match ts_ctx s with Some u => uc_valid u | None => None end | [] => None end).
  { destruct tsm; [| |discriminate]; (destruct (matching_sockets c _) as [l|] eqn:E in H; [|discriminate]); injection H as <-; exists l; (split; [assumption|reflexivity]). }
  destruct Hm as (l & Hl & Hv). destruct l as [|s l]; [rewrite Hv in Hc; now elim Hc|]. destruct (ts_ctx s) as [u|] eqn:Eu; [|rewrite Hv in Hc; now elim Hc]. destruct (uc_valid u) as [v|] eqn:Ev; [|rewrite Hv in Hc; now elim Hc].
  exists s, u, v. split; [eapply C66_sockets_sound; [eassumption|now left]|]. rewrite Hv. auto.
Qed.
Print Assumptions C66_verifier.
Example C66_ex : comparable [("tlsMode", MVStr "istio")] [("tlsMode", MVStr "istio")] /\ comparable [("tlsMode", MVStr "istio")] [] /\ comparable [("tlsMode", MVStr "disabled")] [("tlsMode", MVStr "istio")].
Proof. split; [|split; [now left|]]; right; right; (split; [reflexivity|]); intros k v [E|[]]; injection E as <- <-; do 2 eexists; split; reflexivity. Qed.
