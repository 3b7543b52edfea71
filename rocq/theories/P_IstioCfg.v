(* C88: finding the configuration of the Istio CA client in a cluster. *)
From Coq Require Import String List Ascii Bool Arith Lia Permutation Sorted.
From Verif Require Import M_GoStr M_IstioCfg.
From Verif Require M_EnvoyProps P_EnvoyProps4.
Import ListNotations.
Open Scope list_scope.

Local Arguments istio_ns : simpl never.
Local Arguments rev_label : simpl never.
Local Arguments lit : simpl never.
(* ---- specification ---- *)
(* an object of istio-system that has the labels *)
Definition has_labels {A} (sel : list (gstr * gstr)) (o : object A) : Prop := o_ns o = lit "istio-system" /\ forall k v, In (k, v) sel -> lookup k (o_labels o) = Some v.
Definition first_of {A} (P : A -> Prop) (l : list A) (x : A) : Prop := exists a b, l = a ++ x :: b /\ P x /\ Forall (fun y => ~ P y) a.
Definition none_of {A} (P : A -> Prop) (l : list A) : Prop := Forall (fun y => ~ P y) l.
Definition istiod_labels (rev : gstr) := [(lit "istio", lit "istiod"); (lit "istio.io/rev", rev)].
Definition pilot_labels (rev : gstr) := [(lit "istio", lit "pilot"); (lit "istio.io/rev", rev)].
Definition eastwest_labels (rev : gstr) := [(lit "istio", lit "eastwestgateway"); (lit "istio.io/rev", rev)].
Definition imgw_labels (rev : gstr) := [(lit "app", lit "istio-meshexpansion-gateway"); (lit "istio.io/rev", rev)].
Definition pod_labels (rev : gstr) := [(lit "gateway-type", lit "ingress"); (lit "release", lit "istio-meshgateway"); (lit "istio.io/rev", rev)].
Definition operator_labels (rev : gstr) := [(lit "istio.io/rev", rev); (lit "istio.io/config", lit "true")].
Definition ctl_labels := [(lit "istio.io/config", lit "true")].
(* the first with these labels, or, if there is none, the first with those *)
Definition first_or {A} (p q : A -> Prop) (ok : Prop) (l : list A) (x : A) : Prop := first_of p l x \/ (none_of p l /\ ok /\ first_of q l x).

Definition istiod_spec (K : cluster) (rev : gstr) (s : object svc) : Prop :=
  fails K LIstiod = false /\ first_or (has_labels (istiod_labels rev)) (has_labels (pilot_labels rev)) (fails K LPilot = false) (svcs K) s.
(* the first east-west gateway and the first of its addresses *)
Definition eastwest_spec (K : cluster) (rev : gstr) (ips : list gstr) : Prop :=
  fails K LEastWest = false /\ exists s, first_of (has_labels (eastwest_labels rev)) (svcs K) s /\ service_ips K (o_val s) = Ok ips.
Definition no_eastwest (K : cluster) (rev : gstr) : Prop := fails K LEastWest = false /\ none_of (has_labels (eastwest_labels rev)) (svcs K).
Definition imgw_spec (K : cluster) (rev a : gstr) : Prop :=
  fails K LImgw = false /\ exists g r, first_of (has_labels (imgw_labels rev)) (imgws K) g /\ o_val g = Some (Some a :: r) /\ a <> [].
Definition address_spec (K : cluster) (rev a : gstr) : Prop :=
  a <> [] /\ ((exists r, eastwest_spec K rev (a :: r)) \/ ((no_eastwest K rev \/ exists r, eastwest_spec K rev ([] :: r)) /\ imgw_spec K rev a)).
Definition token_spec (K : cluster) (rev : gstr) (sa : option (gstr * gstr)) (t : gstr) : Prop :=
  match sa with
  | None => fails K LPods = false /\ exists p, first_of (has_labels (pod_labels rev)) (pods K) p /\ pod_token K (o_name p) (lit "istio-system") = Some t
  | Some (n, ns) => sa_token K n ns = Some t
  end.
(* the first config map of the revision that holds configuration, or, if there is none, the first of any revision; no such entry reads as empty *)
Definition root_spec (K : cluster) (rev pem : gstr) : Prop :=
  fails K LRootOperator = false /\
  exists c d, first_or (has_labels (operator_labels rev)) (has_labels ctl_labels) (fails K LRootCtl = false) (cms K) c /\ cm_get K (o_name c) = Some d /\
    (lookup (lit "root-cert.pem") d = Some pem \/ (lookup (lit "root-cert.pem") d = None /\ pem = [])).
Definition mesh_spec (K : cluster) (rev : gstr) (m : mesh) : Prop :=
  fails K LMesh = false /\ exists l1 c l2 d v, cms K = l1 ++ c :: l2 /\ has_labels [(lit "istio.io/rev", rev)] c /\ cm_get K (o_name c) = Some d /\ lookup (lit "mesh") d = Some v /\ parse_mesh K v = Some m /\
    (forall c', In c' l1 -> has_labels [(lit "istio.io/rev", rev)] c' -> exists d', cm_get K (o_name c') = Some d' /\ lookup (lit "mesh") d' = None).

(* ---- lemmas ---- *)
Lemma geqb_iff : forall a b, geqb a b = true <-> a = b.
Proof. intros. unfold geqb. destruct (gstr_eq_dec a b); split; congruence. Qed.
Lemma sel_iff : forall A sel (o : object A), (geqb (o_ns o) istio_ns && selected sel o = true) <-> has_labels sel o.
Proof.
  intros. unfold has_labels, selected. rewrite andb_true_iff, geqb_iff, forallb_forall. fold istio_ns. split; intros [H1 H2]; (split; [exact H1|]).
  - intros k v Hin. apply H2 in Hin. cbn in Hin. destruct (lookup k (o_labels o)); [|discriminate]. apply geqb_iff in Hin. now subst.
  - intros [k v] Hin. apply H2 in Hin. cbn. rewrite Hin. now apply geqb_iff.
Qed.
Definition fil {A} (sel : list (gstr * gstr)) (l : list (object A)) := filter (fun o => geqb (o_ns o) istio_ns && selected sel o) l.
Lemma fil_nil : forall A sel (l : list (object A)), fil sel l = [] <-> none_of (has_labels sel) l.
Proof.
  intros. unfold none_of, fil. split.
  - intro H. apply Forall_forall. intros x Hx Hs. apply sel_iff in Hs. assert (In x []); [|contradiction]. rewrite <- H. apply filter_In. auto.
  - intro H. induction H as [|x l Hx H IH]; [reflexivity|]. cbn. destruct (geqb (o_ns x) istio_ns && selected sel x) eqn:E; [|exact IH]. apply sel_iff in E. contradiction.
Qed.
Lemma fil_cons : forall A sel (l : list (object A)) x, (exists r, fil sel l = x :: r) <-> first_of (has_labels sel) l x.
Proof.
  intros A sel l x. unfold first_of. split.
  - intros [r H]. revert r H. induction l as [|y l IH]; intros r H; [discriminate|]. unfold fil in H. cbn in H. destruct (geqb (o_ns y) istio_ns && selected sel y) eqn:E.
    + inversion H; subst. exists [], l. split; [reflexivity|]. split; [now apply sel_iff|constructor].
    + destruct (IH _ H) as [a [b [E1 [E2 E3]]]]. exists (y :: a), b. subst l. split; [reflexivity|]. split; [exact E2|]. constructor; [|exact E3]. intro C. apply sel_iff in C. congruence.
  - intros [a [b [E1 [E2 E3]]]]. subst l. exists (fil sel b). unfold fil. rewrite filter_app. assert (E : fil sel a = []) by (now apply fil_nil). unfold fil in E. rewrite E. cbn.
    apply sel_iff in E2. now rewrite E2.
Qed.
Lemma list_of_ok : forall A K c (l : list (object A)) sel r, list_of K c l sel = Ok r <-> fails K c = false /\ r = fil sel l.
Proof. intros. unfold list_of, fil. destruct (fails K c); split; [discriminate|intros []; discriminate|intro H; inversion H; auto|intros [_ ->]; reflexivity]. Qed.
Lemma list_of_np : forall A K c (l : list (object A)) sel, list_of K c l sel <> Panic.
Proof. intros. unfold list_of. now destruct (fails K c). Qed.
Lemma bind_ok : forall A B (x : res A) (f : A -> res B) b, bind x f = Ok b <-> exists a, x = Ok a /\ f a = Ok b.
Proof. intros. destruct x; cbn; split; try discriminate; try (intros [a' [H _]]; discriminate); [eauto|intros [a' [H1 H2]]; inversion H1; now subst]. Qed.
Lemma bind_panic : forall A B (x : res A) (f : A -> res B), bind x f = Panic <-> x = Panic \/ exists a, x = Ok a /\ f a = Panic.
Proof.
  intros. destruct x; cbn; split; auto.
  - right. eauto.
  - intros [H|[a' [H1 H2]]]; [discriminate|]. inversion H1; now subst.
  - intro; discriminate.
  - intros [H|[a' [H1 H2]]]; discriminate.
Qed.
Lemma first_of_unique : forall A (P : A -> Prop) l x y, first_of P l x -> first_of P l y -> x = y.
Proof.
  intros A P l x y [a [b [E [Px Fa]]]] [a' [b' [E' [Py Fa']]]]. subst l. revert a' E' Fa'. induction a as [|z a IH]; intros a' E' Fa'.
  - destruct a' as [|z' a']; cbn in E'; inversion E'; subst; [reflexivity|]. inversion Fa'; subst. contradiction.
  - inversion Fa as [|? ? Nz Fz]; subst. destruct a' as [|z' a']; cbn in E'; inversion E'; subst; [contradiction|]. inversion Fa'; subst. eapply IH; eauto.
Qed.

Lemma istiod_iff : forall K rev s, istiod_service K rev = Ok s <-> istiod_spec K rev s.
Proof.
  intros. unfold istiod_service, istiod_spec, first_or. rewrite bind_ok. split.
  - intros [a [Ha H]]. apply list_of_ok in Ha. destruct Ha as [F ->]. split; [exact F|]. apply bind_ok in H. destruct H as [l [Hl H]].
    destruct (fil _ (svcs K)) as [|x r] eqn:E in Hl.
    + apply list_of_ok in Hl. destruct Hl as [F2 ->]. right. split; [now apply fil_nil|]. split; [exact F2|]. apply fil_cons.
      match type of H with (match ?q with _ => _ end) = _ => destruct q eqn:E2; [discriminate|] end. inversion H; subst. exists l. exact E2.
    + inversion Hl; subst. inversion H; subst. left. apply fil_cons. eauto.
  - intros [F [H|[N [F2 H]]]].
    + apply fil_cons in H. destruct H as [r H]. exists (s :: r). split; [apply list_of_ok; auto|reflexivity].
    + exists []. apply fil_nil in N. split; [apply list_of_ok; auto|]. apply fil_cons in H. destruct H as [r H]. cbn [bind]. rewrite bind_ok. exists (s :: r). split; [apply list_of_ok; auto|reflexivity].
Qed.
Lemma eastwest_ok : forall K rev a, eastwest K rev = Ok a <-> exists r, eastwest_spec K rev (a :: r).
Proof.
  intros. unfold eastwest, eastwest_spec. rewrite bind_ok. split.
  - intros [l [Hl H]]. apply list_of_ok in Hl. destruct Hl as [F Hl]. destruct l as [|s r]; [discriminate|]. apply bind_ok in H. destruct H as [ips [E H]]. destruct ips as [|i ips]; [discriminate|].
    inversion H; subst. exists ips. split; [exact F|]. exists s. split; [apply fil_cons; eauto|exact E].
  - intros [r [F [s [H E]]]]. apply fil_cons in H. destruct H as [q H]. exists (s :: q). split; [apply list_of_ok; auto|]. rewrite E. reflexivity.
Qed.
Lemma service_ips_np : forall K s, service_ips K s <> Panic.
Proof.
  intros K s H. unfold service_ips, ips_for_hostname in H. destruct (v_type s), (v_ingress s) as [|[ip host] r]; try discriminate;
    destruct (annotation ip_override s); try discriminate; destruct (annotation host_override s); try discriminate;
    try (destruct (geqb _ _); discriminate); try (destruct (resolve K _); discriminate); destruct ip; try discriminate; destruct host; try discriminate; destruct (resolve K _); discriminate.
Qed.
Lemma service_ips_err : forall K s e, service_ips K s = Err e -> e = EEndpoints.
Proof.
  intros K s e H. unfold service_ips, ips_for_hostname in H. destruct (v_type s), (v_ingress s) as [|[ip host] r]; try congruence;
    destruct (annotation ip_override s); try congruence; destruct (annotation host_override s); try congruence;
    try (destruct (geqb _ _); congruence); try (destruct (resolve K _); congruence); destruct ip; try congruence; destruct host; try congruence; destruct (resolve K _); congruence.
Qed.
Lemma eastwest_none : forall K rev, eastwest K rev = Err ENoEastWest <-> no_eastwest K rev.
Proof.
  intros. unfold eastwest, no_eastwest, list_of. destruct (fails K LEastWest); cbn [bind].
  - split; [discriminate|intros []; discriminate].
  - fold (fil (eastwest_labels rev) (svcs K)). change (filter _ (svcs K)) with (fil (eastwest_labels rev) (svcs K)). rewrite <- fil_nil. destruct (fil (eastwest_labels rev) (svcs K)) as [|s r]; [tauto|]. split; [|intros []; discriminate].
    destruct (service_ips K (o_val s)) as [ips|e|] eqn:E; cbn; [destruct ips; discriminate| |discriminate]. apply service_ips_err in E. subst e. discriminate.
Qed.
Lemma eastwest_panic : forall K rev, eastwest K rev = Panic <-> eastwest_spec K rev [].
Proof.
  intros. unfold eastwest, eastwest_spec. rewrite bind_panic. split.
  - intros [H|[l [Hl H]]]; [now apply list_of_np in H|]. apply list_of_ok in Hl. destruct Hl as [F Hl]. destruct l as [|s r]; [discriminate|]. apply bind_panic in H.
    destruct H as [H|[ips [E H]]]; [now apply service_ips_np in H|]. destruct ips; [|discriminate]. split; [exact F|]. exists s. split; [apply fil_cons; eauto|exact E].
  - intros [F [s [H E]]]. right. apply fil_cons in H. destruct H as [q H]. exists (s :: q). split; [apply list_of_ok; auto|]. rewrite E. reflexivity.
Qed.
Lemma imgw_iff : forall K rev a, imgw_address K rev = Ok a <-> imgw_spec K rev a.
Proof.
  intros. unfold imgw_address, imgw_spec. rewrite bind_ok. split.
  - intros [l [Hl H]]. apply list_of_ok in Hl. destruct Hl as [F Hl]. destruct l as [|g r]; [discriminate|]. split; [exact F|].
    destruct (o_val g) as [[|[[|c x]|] q]|] eqn:E; try discriminate. inversion H; subst. exists g, q. split; [apply fil_cons; eauto|]. split; [exact E|discriminate].
  - intros [F [g [r [H [E N]]]]]. apply fil_cons in H. destruct H as [q H]. exists (g :: q). split; [apply list_of_ok; auto|]. rewrite E. destruct a; [contradiction|reflexivity].
Qed.
Lemma imgw_np : forall K rev, imgw_address K rev <> Panic.
Proof.
  intros K rev H. unfold imgw_address in H. apply bind_panic in H. destruct H as [H|[l [_ H]]]; [now apply list_of_np in H|].
  destruct l as [|g r]; [discriminate|]. destruct (o_val g) as [[|[[|c x]|] q]|]; discriminate.
Qed.
Lemma external_iff : forall K rev a, external K rev = Ok a <-> address_spec K rev a.
Proof.
  intros. unfold external, address_spec. split.
  - destruct (eastwest K rev) as [[|c x]|e|] eqn:E; [| | |discriminate].
    + intro H. apply imgw_iff in H. pose proof H as [_ [g [r [_ [_ N]]]]]. split; [exact N|]. right. split; [|exact H]. right. now apply eastwest_ok.
    + intro H. inversion H; subst. split; [discriminate|]. left. now apply eastwest_ok.
    + destruct e; try discriminate. intro H. apply imgw_iff in H. pose proof H as [_ [g [r [_ [_ N]]]]]. split; [exact N|]. right. split; [|exact H]. left. now apply eastwest_none.
  - intros [N [H|[[H|H] I]]].
    + apply eastwest_ok in H. rewrite H. now destruct a.
    + apply eastwest_none in H. rewrite H. now apply imgw_iff.
    + apply eastwest_ok in H. rewrite H. now apply imgw_iff.
Qed.
Lemma token_iff : forall K rev sa t, token_of K rev sa = Ok t <-> token_spec K rev sa t.
Proof.
  intros K rev [[n ns]|] t; unfold token_of, token_spec.
  - destruct (sa_token K n ns); split; congruence.
  - unfold imgw_pod. rewrite bind_ok. split.
    + intros [p [Hp H]]. apply bind_ok in Hp. destruct Hp as [l [Hl Hp]]. apply list_of_ok in Hl. destruct Hl as [F Hl]. destruct l as [|q r]; [discriminate|]. inversion Hp; subst. split; [exact F|].
      exists p. assert (FO : first_of (has_labels (pod_labels rev)) (pods K) p) by (apply fil_cons; eauto). split; [exact FO|]. destruct FO as [_ [_ [_ [[NS _] _]]]]. rewrite NS in H. destruct (pod_token K _ _); congruence.
    + intros [F [p [H E]]]. exists p. pose proof H as [_ [_ [_ [[NS _] _]]]]. apply fil_cons in H. destruct H as [r H]. split; [|rewrite NS, E; reflexivity]. apply bind_ok. exists (p :: r). split; [apply list_of_ok; auto|reflexivity].
Qed.
Lemma token_np : forall K rev sa, token_of K rev sa <> Panic.
Proof.
  intros K rev [[n ns]|] H; unfold token_of in H; [destruct (sa_token K n ns); discriminate|]. apply bind_panic in H. destruct H as [H|[p [_ H]]].
  - unfold imgw_pod in H. apply bind_panic in H. destruct H as [H|[l [_ H]]]; [now apply list_of_np in H|]. destruct l; discriminate.
  - destruct (pod_token K _ _); discriminate.
Qed.
Lemma root_iff : forall K rev pem, root_pem K rev = Ok pem <-> root_spec K rev pem.
Proof.
  intros. unfold root_pem, root_spec, first_or. rewrite bind_ok. split.
  - intros [a [Ha H]]. apply list_of_ok in Ha. destruct Ha as [F ->]. split; [exact F|]. apply bind_ok in H. destruct H as [l [Hl H]]. destruct l as [|c r]; [discriminate|].
    destruct (cm_get K (o_name c)) as [d|] eqn:G; [|discriminate]. exists c, d. split; [|split; [exact G|]].
    + destruct (fil _ (cms K)) as [|x q] eqn:E in Hl.
      * right. apply list_of_ok in Hl. destruct Hl as [F2 Hl]. split; [now apply fil_nil|]. split; [exact F2|]. apply fil_cons. eauto.
      * inversion Hl; subst. left. apply fil_cons. eauto.
    + fold k_root. destruct (lookup k_root d); inversion H; auto.
  - intros [F [c [d [H [G P]]]]]. assert (V : match lookup k_root d with Some v => v | None => [] end = pem) by (fold k_root in P; destruct P as [P|[P ->]]; rewrite P; reflexivity).
    destruct H as [H|[N [F2 H]]].
    + apply fil_cons in H. destruct H as [r H]. exists (c :: r). split; [apply list_of_ok; auto|]. cbn [bind]. now rewrite G, V.
    + exists []. apply fil_nil in N. split; [apply list_of_ok; auto|]. apply fil_cons in H. destruct H as [r H]. cbn [bind]. rewrite bind_ok. exists (c :: r). split; [apply list_of_ok; auto|]. now rewrite G, V.
Qed.
Lemma root_np : forall K rev, root_pem K rev <> Panic.
Proof.
  intros K rev H. unfold root_pem in H. apply bind_panic in H. destruct H as [H|[a [_ H]]]; [now apply list_of_np in H|]. apply bind_panic in H. destruct H as [H|[l [_ H]]].
  - destruct a; [now apply list_of_np in H|discriminate].
  - destruct l as [|c r]; [discriminate|]. destruct (cm_get K (o_name c)); discriminate.
Qed.
Lemma find_mesh_iff : forall K sel l v, find_mesh K (fil sel l) = Ok v <->
  exists l1 c l2 d, l = l1 ++ c :: l2 /\ has_labels sel c /\ cm_get K (o_name c) = Some d /\ lookup k_mesh d = Some v /\
    (forall c', In c' l1 -> has_labels sel c' -> exists d', cm_get K (o_name c') = Some d' /\ lookup k_mesh d' = None).
Proof.
  intros K sel l v. induction l as [|c l IH].
  - cbn. split; [discriminate|]. intros [[|? ?] [? [? [? [E _]]]]]; discriminate.
  - change (fil sel (c :: l)) with (if geqb (o_ns c) istio_ns && selected sel c then c :: fil sel l else fil sel l).
    destruct (geqb (o_ns c) istio_ns && selected sel c) eqn:S.
    + apply sel_iff in S. cbn [find_mesh]. destruct (cm_get K (o_name c)) as [d|] eqn:G.
      * destruct (lookup k_mesh d) as [w|] eqn:L.
        -- split.
           ++ intro H. inversion H; subst. exists [], c, l, d. split; [reflexivity|]. repeat (split; [assumption|]). intros ? [].
           ++ intros [[|c0 l1] [c1 [l2 [d1 [E [H1 [H2 [H3 H4]]]]]]]]; inversion E; subst; [congruence|]. destruct (H4 c0 (or_introl eq_refl) S) as [d' [A B]]. congruence.
        -- rewrite IH. split.
           ++ intros [l1 [c1 [l2 [d1 [E [H1 [H2 [H3 H4]]]]]]]]. exists (c :: l1), c1, l2, d1. subst l. split; [reflexivity|]. repeat (split; [assumption|]). intros c' [<-|Hin] Hl; [eauto|eauto].
           ++ intros [[|c0 l1] [c1 [l2 [d1 [E [H1 [H2 [H3 H4]]]]]]]]; inversion E; subst; [congruence|]. exists l1, c1, l2, d1. split; [reflexivity|]. repeat (split; [assumption|]). intros; apply H4; [now right|assumption].
      * split; [discriminate|]. intros [[|c0 l1] [c1 [l2 [d1 [E [H1 [H2 [H3 H4]]]]]]]]; inversion E; subst; [congruence|]. destruct (H4 c0 (or_introl eq_refl) S) as [d' [A B]]. congruence.
    + rewrite IH. split.
      * intros [l1 [c1 [l2 [d1 [E [H1 [H2 [H3 H4]]]]]]]]. exists (c :: l1), c1, l2, d1. subst l. split; [reflexivity|]. repeat (split; [assumption|]). intros c' [<-|Hin] Hl; [apply sel_iff in Hl; congruence|eauto].
      * intros [[|c0 l1] [c1 [l2 [d1 [E [H1 [H2 [H3 H4]]]]]]]]; inversion E; subst; [apply sel_iff in H1; congruence|]. exists l1, c1, l2, d1. split; [reflexivity|]. repeat (split; [assumption|]). intros; apply H4; [now right|assumption].
Qed.
Lemma mesh_iff : forall K rev m, mesh_config K rev = Ok m <-> mesh_spec K rev m.
Proof.
  intros. unfold mesh_config, mesh_spec. rewrite bind_ok. split.
  - intros [l [Hl H]]. apply list_of_ok in Hl. destruct Hl as [F Hl]. split; [exact F|]. subst l. assert (B : bind (find_mesh K (fil [(rev_label, rev)] (cms K))) (fun v => match parse_mesh K v with Some m => Ok m | None => Err EParseMesh end) = Ok m).
    { destruct (fil [(rev_label, rev)] (cms K)); [discriminate|exact H]. }
    apply bind_ok in B. destruct B as [v [B P]]. apply find_mesh_iff in B. destruct B as [l1 [c [l2 [d [E [H1 [H2 [H3 H4]]]]]]]]. exists l1, c, l2, d, v. repeat (split; [assumption|]). split; [|exact H4]. destruct (parse_mesh K v); congruence.
  - intros [F [l1 [c [l2 [d [v [E [H1 [H2 [H3 [P H4]]]]]]]]]]]. exists (fil [(rev_label, rev)] (cms K)). split; [apply list_of_ok; auto|].
    assert (B : find_mesh K (fil [(rev_label, rev)] (cms K)) = Ok v) by (apply find_mesh_iff; exists l1, c, l2, d; auto).
    destruct (fil [(rev_label, rev)] (cms K)); [discriminate|]. rewrite B. cbn. now rewrite P.
Qed.
Lemma mesh_np : forall K rev, mesh_config K rev <> Panic.
Proof.
  intros K rev H. unfold mesh_config in H. apply bind_panic in H. destruct H as [H|[l [_ H]]]; [now apply list_of_np in H|]. destruct l as [|c r]; [discriminate|].
  apply bind_panic in H. destruct H as [H|[v [_ H]]]; [|destruct (parse_mesh K v); discriminate].
  remember (c :: r) as l. clear Heql c r. induction l as [|c r IH]; cbn in H; [discriminate|]. destruct (cm_get K (o_name c)) as [d|]; [|discriminate]. destruct (lookup k_mesh d); [discriminate|auto].
Qed.
Lemma istiod_np : forall K rev, istiod_service K rev <> Panic.
Proof.
  intros K rev H. unfold istiod_service in H. apply bind_panic in H. destruct H as [H|[a [_ H]]]; [now apply list_of_np in H|]. apply bind_panic in H. destruct H as [H|[l [_ H]]].
  - destruct a; [now apply list_of_np in H|discriminate].
  - destruct l; discriminate.
Qed.

(* ---- what is found ---- *)
(* a configuration comes back exactly if every part is there, and then it has these parts *)
Theorem C88_config : forall K cid rev sa cfg, get_config K cid rev sa = Ok cfg <->
  exists s a m, istiod_spec K rev s /\ address_spec K rev a /\ token_spec K rev sa (c_token cfg) /\ root_spec K rev (c_pem cfg) /\ mesh_spec K rev m /\
    c_endpoint cfg = a ++ lit ":15012" /\ c_san cfg = o_name s ++ lit ".istio-system.svc" /\ c_cluster cfg = cid /\ c_rev cfg = rev /\ c_mesh cfg = m_id m /\ c_domain cfg = m_domain m.
Proof.
  intros K cid rev sa cfg. unfold get_config. split.
  - intro H. apply bind_ok in H. destruct H as [s [Hs H]]. apply bind_ok in H. destruct H as [a [Ha H]]. apply bind_ok in H. destruct H as [t [Ht H]]. apply bind_ok in H. destruct H as [pem [Hp H]]. apply bind_ok in H. destruct H as [m [Hm H]].
    inversion H; subst; clear H. apply istiod_iff in Hs. exists s, a, m. cbn [c_token c_pem c_endpoint c_san c_cluster c_rev c_mesh c_domain]. split; [exact Hs|]. split; [now apply external_iff|]. split; [now apply token_iff|]. split; [now apply root_iff|]. split; [now apply mesh_iff|].
    split; [reflexivity|]. split; [|auto]. assert (NS : o_ns s = lit "istio-system") by (destruct Hs as [_ [[? [? [_ [[? _] _]]]]|[_ [_ [? [? [_ [[? _] _]]]]]]]]; assumption). rewrite NS. reflexivity.
  - intros [s [a [m [Hs [Ha [Ht [Hp [Hm [E1 [E2 [E3 [E4 [E5 E6]]]]]]]]]]]]].
    assert (NS : o_ns s = lit "istio-system") by (destruct Hs as [_ [[? [? [_ [[? _] _]]]]|[_ [_ [? [? [_ [[? _] _]]]]]]]]; assumption).
    apply istiod_iff in Hs. apply external_iff in Ha. apply token_iff in Ht. apply root_iff in Hp. apply mesh_iff in Hm. rewrite Hs. cbn [bind]. rewrite Ha. cbn [bind]. rewrite Ht. cbn [bind]. rewrite Hp. cbn [bind]. rewrite Hm. cbn [bind].
    rewrite NS. destruct cfg as [e1 e2 e3 e4 e5 e6 e7 e8]. cbn in *. subst. reflexivity.
Qed.
Print Assumptions C88_config.

(* the process panics exactly if the first east-west gateway has no address *)
Theorem C88_panic : forall K cid rev sa, get_config K cid rev sa = Panic <-> (exists s, istiod_spec K rev s) /\ eastwest_spec K rev [].
Proof.
  intros K cid rev sa. unfold get_config. rewrite bind_panic. split.
  - intros [H|[s [Hs H]]]; [now apply istiod_np in H|]. split; [exists s; now apply istiod_iff|]. apply bind_panic in H. destruct H as [H|[a [Ha H]]].
    + apply eastwest_panic. unfold external in H. destruct (eastwest K rev) as [[|c x]|e|]; [now apply imgw_np in H|discriminate| |reflexivity]. destruct e; try discriminate. now apply imgw_np in H.
    + exfalso. apply bind_panic in H. destruct H as [H|[t [Ht H]]]; [now apply token_np in H|]. apply bind_panic in H. destruct H as [H|[pem [Hp H]]]; [now apply root_np in H|].
      apply bind_panic in H. destruct H as [H|[m [Hm H]]]; [now apply mesh_np in H|discriminate].
  - intros [[s Hs] H]. right. exists s. split; [now apply istiod_iff|]. apply eastwest_panic in H. unfold external. rewrite H. reflexivity.
Qed.
Print Assumptions C88_panic.

(* ---- the addresses of a service ---- *)
Theorem C88_ips : forall K s,
  (v_type s = TLoadBalancer -> v_ingress s = [] -> service_ips K s = Err EEndpoints) /\
  ((v_type s = TLoadBalancer -> v_ingress s <> []) ->
    (annotation (lit "service.banzaicloud.io/ip-address-override") s <> [] -> service_ips K s = Ok [annotation (lit "service.banzaicloud.io/ip-address-override") s]) /\
    (annotation (lit "service.banzaicloud.io/ip-address-override") s = [] ->
      (annotation (lit "service.banzaicloud.io/hostname-override") s <> [] -> service_ips K s = ips_for_hostname K (annotation (lit "service.banzaicloud.io/hostname-override") s)) /\
      (annotation (lit "service.banzaicloud.io/hostname-override") s = [] ->
        (v_type s = TClusterIP -> v_cluster_ip s <> lit "None" -> service_ips K s = Ok [v_cluster_ip s]) /\
        (v_type s = TClusterIP -> v_cluster_ip s = lit "None" -> service_ips K s = Ok []) /\
        (v_type s <> TClusterIP -> v_type s <> TLoadBalancer -> service_ips K s = Ok []) /\
        (forall ip host r, v_type s = TLoadBalancer -> v_ingress s = (ip, host) :: r ->
          (ip <> [] -> service_ips K s = Ok [ip]) /\ (ip = [] -> host <> [] -> service_ips K s = ips_for_hostname K host) /\ (ip = [] -> host = [] -> service_ips K s = Ok []))))).
Proof.
  intros K s. unfold service_ips. fold ip_override. fold host_override. split; [intros -> ->; reflexivity|]. intro G.
  assert (X : forall A (x y : A), match v_type s, v_ingress s with TLoadBalancer, [] => x | _, _ => y end = y).
  { intros. destruct (v_type s); try reflexivity. destruct (v_ingress s); [now specialize (G eq_refl)|reflexivity]. }
  rewrite X. clear X. split.
  - intro N. destruct (annotation ip_override s); [congruence|reflexivity].
  - intros ->. split.
    + intro N. destruct (annotation host_override s); [congruence|reflexivity].
    + intros ->. split; [|split; [|split]].
      * intros -> N. destruct (geqb _ _) eqn:E; [apply geqb_iff in E; congruence|reflexivity].
      * intros -> ->. reflexivity.
      * destruct (v_type s); congruence || reflexivity.
      * intros ip host r -> ->. split; [|split].
        -- destruct ip; [congruence|reflexivity].
        -- intros -> N. destruct host; [congruence|reflexivity].
        -- intros -> ->. reflexivity.
Qed.
Print Assumptions C88_ips.

Lemma bytes_lt_trans : forall a b c, bytes_lt a b = true -> bytes_lt b c = true -> bytes_lt a c = true.
Proof.
  induction a as [|x a IH]; intros [|y b] [|z c] H1 H2; cbn [bytes_lt] in *; try discriminate; auto.
  destruct (Nat.ltb_spec x y).
  - destruct (Nat.ltb_spec y z).
    + destruct (Nat.ltb_spec x z); [reflexivity|lia].
    + destruct (Nat.ltb_spec z y); [discriminate|]. destruct (Nat.ltb_spec x z); [reflexivity|lia].
  - destruct (Nat.ltb_spec y x); [discriminate|]. destruct (Nat.ltb_spec y z).
    + destruct (Nat.ltb_spec x z); [reflexivity|lia].
    + destruct (Nat.ltb_spec z y); [discriminate|]. destruct (Nat.ltb_spec x z); [reflexivity|]. destruct (Nat.ltb_spec z x); [lia|]. eauto.
Qed.
Lemma bytes_lt_total : forall a b, bytes_lt a b = false -> bytes_lt b a = false -> a = b.
Proof.
  induction a as [|x a IH]; intros [|y b] H1 H2; cbn [bytes_lt] in *; try discriminate; [reflexivity|].
  destruct (Nat.ltb_spec x y); [discriminate|]. destruct (Nat.ltb_spec y x); [discriminate|]. f_equal; [lia|auto].
Qed.
Lemma bytes_lt_irrefl : forall a, bytes_lt a a = false.
Proof. induction a as [|x a IH]; cbn [bytes_lt]; [reflexivity|]. now rewrite Nat.ltb_irrefl. Qed.
Lemma insert_comm : forall a b l, insert a (insert b l) = insert b (insert a l).
Proof.
  intros a b l. induction l as [|x l IH]; cbn.
  - destruct (bytes_lt b a) eqn:E1, (bytes_lt a b) eqn:E2; try reflexivity.
    + pose proof (bytes_lt_trans _ _ _ E1 E2) as C. rewrite bytes_lt_irrefl in C. discriminate.
    + now rewrite (bytes_lt_total _ _ E1 E2).
  - destruct (bytes_lt x a) eqn:Ea, (bytes_lt x b) eqn:Eb; cbn; rewrite ?Ea, ?Eb.
    + now rewrite IH.
    + assert (Q : bytes_lt b a = true).
      { destruct (bytes_lt b a) eqn:Q; [reflexivity|]. destruct (bytes_lt b x) eqn:R; [rewrite (bytes_lt_trans _ _ _ R Ea) in Q; discriminate|]. rewrite (bytes_lt_total _ _ R Eb) in Q. congruence. }
      now rewrite Q.
    + assert (Q : bytes_lt a b = true).
      { destruct (bytes_lt a b) eqn:Q; [reflexivity|]. destruct (bytes_lt a x) eqn:R; [rewrite (bytes_lt_trans _ _ _ R Eb) in Q; discriminate|]. rewrite (bytes_lt_total _ _ R Ea) in Q. congruence. }
      now rewrite Q.
    + destruct (bytes_lt b a) eqn:E1, (bytes_lt a b) eqn:E2; try reflexivity.
      * pose proof (bytes_lt_trans _ _ _ E1 E2) as C. rewrite bytes_lt_irrefl in C. discriminate.
      * now rewrite (bytes_lt_total _ _ E1 E2).
Qed.
Lemma sort_perm : forall l l', Permutation l l' -> sort l = sort l'.
Proof. intros l l' H. unfold sort. induction H; cbn [fold_right]; [reflexivity|now rewrite IHPermutation|apply insert_comm|congruence]. Qed.
Lemma insert_in : forall a l x, In x (insert a l) <-> x = a \/ In x l.
Proof. intros a l x. induction l as [|y l IH]; cbn; [intuition|]. destruct (bytes_lt y a); cbn; [rewrite IH|]; intuition. Qed.
Lemma sort_in : forall l x, In x (sort l) <-> In x l.
Proof. intros l x. induction l as [|y l IH]; cbn; [tauto|]. rewrite insert_in, IH. intuition. Qed.
(* the addresses of a name do not depend on the order in which they are resolved, and are the texts of the IPv4 ones *)
Theorem C88_order : forall K K' h l l', resolve K h = Some l -> resolve K' h = Some l' -> Permutation l l' -> show4 K = show4 K' -> ips_for_hostname K h = ips_for_hostname K' h.
Proof. intros K K' h l l' H H' P S. unfold ips_for_hostname. rewrite H, H', (sort_perm _ _ P), S. reflexivity. Qed.
(* what an IPv4 address is: four bytes, or such four bytes mapped into sixteen *)
Theorem C88_is_ipv4 : forall a b, to4 a = Some b <-> (length a = 4 /\ b = a) \/ (a = repeat 0 10 ++ [255; 255] ++ b /\ length b = 4).
Proof.
  intros a b. unfold to4. destruct (Nat.eqb (length a) 4) eqn:E4.
  - apply Nat.eqb_eq in E4. split; [intro H; injection H as <-; left; auto|]. intros [[_ ->]|[E H]]; [reflexivity|]. exfalso. rewrite E in E4. rewrite !app_length, repeat_length in E4. cbn in E4. lia.
  - apply Nat.eqb_neq in E4. split.
    + destruct (_ && _ && _ && _)%bool eqn:E; [|discriminate]. intro H; injection H as <-. right.
      apply andb_prop in E as [E E11]. apply andb_prop in E as [E E10]. apply andb_prop in E as [E16 Ez].
      apply Nat.eqb_eq in E16, E10, E11.
      do 16 (destruct a as [|? a]; [discriminate E16|]). destruct a; [|discriminate E16]. cbn in *.
      repeat match goal with H : (_ && _)%bool = true |- _ => apply andb_prop in H as [?H H] end. repeat match goal with H : Nat.eqb _ _ = true |- _ => apply Nat.eqb_eq in H end.
      subst. split; reflexivity.
    + intros [[H _]|[-> H]]; [contradiction|]. rewrite !app_length, repeat_length, H. reflexivity.
Qed.
Print Assumptions C88_is_ipv4.
Theorem C88_ipv4 : forall K h l t, resolve K h = Some l -> exists ips, ips_for_hostname K h = Ok ips /\ (In t ips <-> exists a b, In a l /\ to4 a = Some b /\ t = show4 K b).
Proof.
  intros K h l t H. unfold ips_for_hostname. rewrite H. eexists. split; [reflexivity|]. rewrite in_flat_map. split.
  - intros [a [Ha Hb]]. rewrite sort_in in Ha. destruct (to4 a) as [b|] eqn:E; [|contradiction]. destruct Hb as [<-|[]]. exists a, b. auto.
  - intros [a [b [Ha [Hb ->]]]]. exists a. split; [now apply sort_in|]. rewrite Hb. now left.
Qed.
Print Assumptions C88_order.
Print Assumptions C88_ipv4.

(* an address with a colon in it, an IPv6 one, makes an endpoint that is not host:port *)
Theorem C88_ipv6 : forall K cid rev sa cfg a, get_config K cid rev sa = Ok cfg -> c_endpoint cfg = a ++ lit ":15012" -> In ":"%char a -> ~ In "["%char a ->
  M_EnvoyProps.split_host_port (c_endpoint cfg) = None.
Proof.
  intros K cid rev sa cfg a _ E H N. apply P_EnvoyProps4.C80_no_address. right. destruct (in_split _ _ H) as [p [q ->]]. exists p, q, (lit "15012"). rewrite E. split.
  - rewrite <- app_assoc. reflexivity.
  - intro I. apply in_app_or in I. destruct I as [I|I]; [contradiction|]. repeat (destruct I as [I|I]; [discriminate|]). destruct I.
Qed.
Print Assumptions C88_ipv6.

(* ---- a cluster ---- *)
Definition istiod_svc (ip : gstr) : object svc := mkobj (lit "istiod-cp-v115x") istio_ns (istiod_labels (lit "cp-v115x.istio-system")) (mksvc TClusterIP ip [] []).
Definition the_rev : gstr := lit "cp-v115x.istio-system".
Definition gateway (s : svc) : object svc := mkobj (lit "gw") istio_ns (eastwest_labels the_rev) s.
Definition a_cm (name : string) (labels : list (gstr * gstr)) : object unit := mkobj (lit name) istio_ns labels tt.
Definition a_cluster (gw : svc) (maps : list (object unit)) (data : gstr -> option (list (gstr * gstr))) : cluster :=
  mkcluster [istiod_svc (lit "10.0.0.1"); gateway gw] [mkobj (lit "mexp") istio_ns (pod_labels the_rev) tt] [] maps data (fun _ => false) (fun _ => None) (fun _ => [])
    (fun _ _ => Some (lit "token")) (fun _ _ => None) (fun _ => Some (mkmesh (lit "mesh1") (lit "cluster.local"))).
Definition lb (ip : string) : svc := mksvc TLoadBalancer [] [(lit ip, [])] [].
Definition cm_data (n : gstr) : option (list (gstr * gstr)) :=
  if geqb n (lit "root") then Some [(lit "root-cert.pem", lit "PEM")] else if geqb n (lit "cfg") then Some [(lit "mesh", lit "meshId: mesh1")] else None.
Example C88_inhabited : get_config (a_cluster (lb "1.2.3.4") [a_cm "root" (operator_labels the_rev); a_cm "cfg" [(lit "istio.io/rev", the_rev)]] (fun n => if geqb n (lit "root") then Some [(lit "root-cert.pem", lit "PEM")] else Some [(lit "mesh", lit "m")])) (lit "c1") the_rev None =
  Ok (mkcfg (lit "1.2.3.4:15012") (lit "istiod-cp-v115x.istio-system.svc") (lit "token") (lit "PEM") (lit "c1") the_rev (lit "mesh1") (lit "cluster.local")).
Proof. vm_compute. reflexivity. Qed.
Print Assumptions C88_inhabited.
(* not true: the root certificate is one of the revision that was asked for *)
Theorem C88_root_revision_refuted : exists K cfg c, get_config K [] the_rev None = Ok cfg /\ c_pem cfg = lit "PEM" /\ In c (cms K) /\ lookup (lit "istio.io/rev") (o_labels c) = Some (lit "old") /\
  (exists d, cm_get K (o_name c) = Some d /\ lookup (lit "root-cert.pem") d = Some (lit "PEM")) /\ length (filter (fun c => match cm_get K (o_name c) with Some d => match lookup (lit "root-cert.pem") d with Some _ => true | None => false end | None => false end) (cms K)) = 1.
Proof.
  exists (a_cluster (lb "1.2.3.4") [a_cm "cfg" [(lit "istio.io/rev", the_rev)]; a_cm "root" [(lit "istio.io/config", lit "true"); (lit "istio.io/rev", lit "old")]] cm_data).
  eexists. exists (a_cm "root" [(lit "istio.io/config", lit "true"); (lit "istio.io/rev", lit "old")]). split; [vm_compute; reflexivity|]. split; [reflexivity|]. split; [right; left; reflexivity|]. split; [reflexivity|]. split; [eexists; split; vm_compute; reflexivity|vm_compute; reflexivity].
Qed.
(* nor is it found whenever a config map of the revision has it: only the first one is read, and without the entry the certificate is empty *)
Theorem C88_root_found_refuted : exists K cfg c d, get_config K [] the_rev None = Ok cfg /\ c_pem cfg = [] /\ In c (cms K) /\ has_labels (operator_labels the_rev) c /\ cm_get K (o_name c) = Some d /\ lookup (lit "root-cert.pem") d = Some (lit "PEM").
Proof.
  exists (a_cluster (lb "1.2.3.4") [a_cm "cfg" (operator_labels the_rev); a_cm "root" (operator_labels the_rev)] cm_data). eexists. exists (a_cm "root" (operator_labels the_rev)). eexists.
  split; [vm_compute; reflexivity|]. split; [reflexivity|]. split; [right; left; reflexivity|]. split; [|split; vm_compute; reflexivity].
  split; [reflexivity|]. intros k v [E|[E|[]]]; inversion E; subst; vm_compute; reflexivity.
Qed.
(* nor does it end in an answer or an error: a node port gateway ends the process, and so does one whose name has only IPv6 addresses *)
Theorem C88_no_panic_refuted : get_config (a_cluster (mksvc TNodePort (lit "10.0.0.9") [] []) [] cm_data) [] the_rev None = Panic /\
  exists K a, get_config K [] the_rev None = Panic /\ (forall h, resolve K h = Some [a]) /\ length a = 16.
Proof.
  split; [vm_compute; reflexivity|]. pose (a6 := [32; 1] ++ repeat 0 13 ++ [1]).
  exists (mkcluster [istiod_svc (lit "10.0.0.1"); gateway (mksvc TLoadBalancer [] [([], lit "gw.example")] [])] [] [] [] (fun _ => None) (fun _ => false) (fun _ => Some [a6]) (fun _ => lit "x") (fun _ _ => None) (fun _ _ => None) (fun _ => None)), a6.
  split; [vm_compute; reflexivity|]. split; [reflexivity|reflexivity].
Qed.
(* nor is the endpoint an address: an IPv6 gateway *)
Theorem C88_endpoint_refuted : exists K cfg, get_config K [] the_rev None = Ok cfg /\ M_EnvoyProps.split_host_port (c_endpoint cfg) = None.
Proof.
  exists (a_cluster (lb "2001:db8::1") [a_cm "root" (operator_labels the_rev); a_cm "cfg" [(lit "istio.io/rev", the_rev)]] cm_data). eexists. split; [vm_compute; reflexivity|]. vm_compute. reflexivity.
Qed.
Print Assumptions C88_root_revision_refuted.
Print Assumptions C88_root_found_refuted.
Print Assumptions C88_no_panic_refuted.
Print Assumptions C88_endpoint_refuted.

(* from the files of a pod: both are needed; there is no subject name and no trust domain *)
Theorem C88_local : forall token pem cid ep, snd (from_local token pem cid ep) = true <-> token <> None /\ pem <> None.
Proof. intros [t|] [p|] cid ep; cbn; split; try discriminate; try (intros [A B]; congruence); intros _; split; discriminate. Qed.
Theorem C88_local_value : forall t p cid ep, from_local (Some t) (Some p) cid ep = (mkcfg ep [] t p cid [] [] [], true).
Proof. reflexivity. Qed.
Print Assumptions C88_local.
Print Assumptions C88_local_value.
