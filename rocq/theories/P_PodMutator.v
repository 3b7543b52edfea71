(* C74: Heimdall's pod mutator and the environment the workload reads back *)
From Coq Require Import String List Ascii Bool Arith ZArith Lia Permutation.
From Verif Require Import M_GoStr L_GoStr M_PodMutator.
Import ListNotations.
Open Scope list_scope.
(* ---------- maps ---------- *)
Lemma sget_sset : forall m k v q, sget (sset m k v) q = if geqb k q then Some v else sget m q.
Proof.
  induction m as [|[k' v'] m IH]; intros k v q; cbn; [ reflexivity |].
  destruct (geqb k' k) eqn:E; cbn.
  - apply geqb_eq in E. subst k'. destruct (geqb k q); reflexivity.
  - rewrite IH. destruct (geqb k' q) eqn:Q; [| reflexivity ]. apply geqb_eq in Q. subst k'.
    destruct (geqb k q) eqn:K; [| reflexivity ]. apply geqb_eq in K. subst. rewrite geqb_refl in E. discriminate.
Qed.
Lemma sget_sdel : forall m k q, sget (sdel m k) q = if geqb k q then None else sget m q.
Proof.
  induction m as [|[k' v'] m IH]; intros k q; [ cbn; destruct (geqb k q); reflexivity |]. unfold sdel in *. cbn [filter fst].
  destruct (geqb k' k) eqn:E; cbn [negb sget].
  - rewrite IH. apply geqb_eq in E. subst k'. destruct (geqb k q) eqn:K; reflexivity.
  - rewrite IH. destruct (geqb k' q) eqn:Q; [| reflexivity ]. apply geqb_eq in Q. subst k'. destruct (geqb k q) eqn:K; [| reflexivity ]. apply geqb_eq in K. subst. rewrite geqb_refl in E; discriminate.
Qed.
Lemma set_default_get : forall m k v q, sget (set_default m k v) q = match sget m q with Some x => Some x | None => if geqb k q then Some v else None end.
Proof.
  intros. unfold set_default. destruct (sget m k) eqn:E; [ destruct (sget m q) eqn:Q; [ reflexivity |]; destruct (geqb k q) eqn:K; [ apply geqb_eq in K; congruence | reflexivity ] |].
  rewrite sget_sset. destruct (geqb k q) eqn:K; [ apply geqb_eq in K; subst; rewrite E; reflexivity |]. destruct (sget m q); reflexivity.
Qed.
Definition keys (m : smap) : list gstr := map fst m.
Lemma keys_sset : forall m k v, NoDup (keys m) -> NoDup (keys (sset m k v)) /\ forall q, In q (keys (sset m k v)) <-> q = k \/ In q (keys m).
Proof.
  induction m as [|[k' v'] m IH]; intros k v ND; cbn; [ split; [ repeat constructor; auto | intuition ] |].
  inversion ND; subst. destruct (geqb k' k) eqn:E.
  - apply geqb_eq in E. subst. cbn. split; [ constructor; auto | intuition congruence ].
  - cbn. destruct (IH k v H2) as [A B]. split.
    + constructor; [| exact A ]. intros C. apply B in C. destruct C as [C|C]; [ subst; rewrite geqb_refl in E; discriminate | contradiction ].
    + intros q. specialize (B q). tauto.
Qed.
Lemma set_default_nodup : forall m k v, NoDup (keys m) -> NoDup (keys (set_default m k v)).
Proof. intros. unfold set_default. destruct (sget m k); [ assumption | apply keys_sset; assumption ]. Qed.
Lemma sdel_nodup : forall m k, NoDup (keys m) -> NoDup (keys (sdel m k)).
Proof.
  induction m as [|[k' v'] m IH]; intros k ND; cbn; [ constructor |]. inversion ND; subst. destruct (geqb k' k); cbn; [ apply (IH k H2) |]. constructor; [| apply (IH k H2) ].
  intros C. apply H1. unfold keys, sdel in C. apply in_map_iff in C. destruct C as (x & <- & X). apply filter_In in X. apply in_map. tauto.
Qed.
Lemma sget_in : forall m k v, NoDup (keys m) -> (sget m k = Some v <-> In (k, v) m).
Proof.
  induction m as [|[k' v'] m IH]; intros k v ND; cbn; [ split; [ discriminate | tauto ] |]. inversion ND; subst. destruct (geqb k' k) eqn:E.
  - apply geqb_eq in E. subst. split; [ intros Q; injection Q as <-; auto |]. intros [Q|Q]; [ congruence |]. exfalso. apply H1. apply in_map_iff. exists (k, v); auto.
  - rewrite IH by assumption. split; [ auto | intros [Q|Q]; [ injection Q as -> ->; rewrite geqb_refl in E; discriminate | exact Q ] ].
Qed.
Lemma sget_ext : forall m m', NoDup (keys m) -> NoDup (keys m') -> Permutation m m' -> forall k, sget m k = sget m' k.
Proof.
  intros m m' A B P k. destruct (sget m k) as [v|] eqn:E.
  - symmetry. apply sget_in; [ exact B |]. eapply Permutation_in; [ exact P |]. apply sget_in; assumption.
  - destruct (sget m' k) as [v|] eqn:E'; [| reflexivity ]. exfalso. apply sget_in in E'; [| exact B ]. apply (Permutation_in _ (Permutation_sym P)) in E'. apply sget_in in E'; [| exact A ]. congruence.
Qed.
(* ---------- who owns the pod ---------- *)
Definition controlled (p : pod) (r : oref) : Prop := p_gen p <> [] /\ exists a b, p_owners p = a ++ r :: b /\ o_ctrl r = true /\ forall x, In x a -> o_ctrl x = false.
Lemma find_ctrl : forall l a r b, l = a ++ r :: b -> o_ctrl r = true -> (forall x, In x a -> o_ctrl x = false) -> find o_ctrl l = Some r.
Proof. intros l a. revert l. induction a; intros l r b -> H A; cbn; [ rewrite H; reflexivity |]. rewrite (A a (or_introl eq_refl)). eapply IHa; eauto. intros; apply A; right; auto. Qed.
Ltac gen_case H := let N := fresh "N" in destruct H as (N & ?a & ?b & ?E & ?C & ?A); unfold deploy_meta; destruct (p_gen _) eqn:?G; [ congruence |]; erewrite find_ctrl by eassumption.
(* pods of a Deployment: the ReplicaSet's name is "<deployment>-<hash>" *)
Theorem C74_owner_deployment : forall p r d hash, controlled p r -> o_kind r = lit "ReplicaSet" -> sget (p_labels p) (lit "pod-template-hash") = Some hash -> hash <> [] -> d <> [] ->
  o_name r = d ++ lit "-" ++ hash -> deploy_meta p = ((d, o_api r, lit "Deployment"), p_labels p).
Proof.
  intros p r d hash H K L NE ND N. gen_case H. rewrite K. unfold sidx. rewrite L.
  assert (geqb hash [] = false) as -> by (apply geqb_neq; exact NE).
  assert (ghas_suffix (o_name r) hash = true) as -> by (apply ghas_suffix_spec; exists (d ++ lit "-"); rewrite N, app_assoc; reflexivity).
  change (geqb (lit "ReplicaSet") (lit "ReplicaSet")) with true. cbn [andb negb].
  assert (trim_suffix (o_name r) (dash :: hash) = d) as ->.
  { unfold trim_suffix. assert (ghas_suffix (o_name r) (dash :: hash) = true) as -> by (apply ghas_suffix_spec; exists d; rewrite N; reflexivity).
    rewrite N. rewrite app_length. change (length (lit "-" ++ hash)) with (length (dash :: hash)). replace (length d + length (dash :: hash) - length (dash :: hash)) with (length d + 0) by lia.
    rewrite firstn_app_2. cbn. apply app_nil_r. }
  destruct d; [ congruence | reflexivity ].
Qed.
(* pods of a CronJob: the Job's name is "<cronjob>-<8 to 10 digits>" *)
Lemma span_app : forall d t, (forall c, In c d -> is_digit c = true) -> (match t with [] => True | c :: _ => is_digit c = false end) -> span_digits (d ++ t) = (d, t).
Proof. induction d as [|c d IH]; cbn; intros t H T; [ destruct t as [|c t]; [ reflexivity | cbn; rewrite T; reflexivity ] |]. rewrite (H c (or_introl eq_refl)). rewrite IH; auto. Qed.
Theorem C74_owner_cronjob : forall p r n ts, controlled p r -> o_kind r = lit "Job" -> o_name r = n ++ lit "-" ++ ts -> n <> [] -> 8 <= length ts <= 10 -> (forall c, In c ts -> is_digit c = true) ->
  deploy_meta p = ((n, lit "batch/v1beta1", lit "CronJob"), p_labels p).
Proof.
  intros p r n ts H K N NE [L1 L2] D. gen_case H. rewrite K.
  change (geqb (lit "Job") (lit "ReplicaSet")) with false. change (geqb (lit "Job") (lit "ReplicationController")) with false. change (geqb (lit "Job") (lit "Job")) with true. cbn [andb].
  assert (cron_name (o_name r) = Some n) as ->.
  { unfold cron_name. rewrite N. rewrite !rev_app_distr. change (rev (lit "-")) with [dash]. rewrite <- app_assoc. rewrite span_app; [| intros c0 Hc; apply D, in_rev; exact Hc | reflexivity ].
    cbn [app]. destruct (rev n) as [|x xs] eqn:R; [ exfalso; apply NE; rewrite <- (rev_involutive n), R; reflexivity |].
    rewrite rev_length. apply Nat.leb_le in L1. apply Nat.leb_le in L2. rewrite L1, L2. change (Ascii.eqb dash dash) with true. cbn [andb tl].
    rewrite <- R, rev_involutive. reflexivity. }
  destruct n; [ congruence | reflexivity ].
Qed.
(* other controllers are reported as they are, and a pod without a controller as itself *)
Theorem C74_owner_other : forall p r, controlled p r -> ~ In (o_kind r) [lit "ReplicaSet"; lit "ReplicationController"; lit "Job"] -> o_name r <> [] ->
  deploy_meta p = ((o_name r, o_api r, o_kind r), p_labels p).
Proof.
  intros p r H K NE. gen_case H.
  assert (geqb (o_kind r) (lit "ReplicaSet") = false) as -> by (apply geqb_neq; intros Q; apply K; rewrite Q; left; reflexivity).
  assert (geqb (o_kind r) (lit "ReplicationController") = false) as -> by (apply geqb_neq; intros Q; apply K; rewrite Q; right; left; reflexivity).
  assert (geqb (o_kind r) (lit "Job") = false) as -> by (apply geqb_neq; intros Q; apply K; rewrite Q; right; right; left; reflexivity).
  cbn [andb]. destruct (o_name r); [ congruence | reflexivity ].
Qed.
Theorem C74_owner_none : forall p, (p_gen p = [] \/ forall r, In r (p_owners p) -> o_ctrl r = false) -> deploy_meta p = ((p_name p, lit "v1", lit "Pod"), p_labels p).
Proof.
  intros p H. unfold deploy_meta. destruct (p_gen p) eqn:G; [ destruct (p_name p) eqn:E; rewrite ?E; reflexivity |]. destruct H as [H|H]; [ discriminate |].
  destruct (find o_ctrl (p_owners p)) as [r|] eqn:F; [ apply find_some in F; destruct F as [F1 F2]; rewrite (H r F1) in F2; discriminate |]. destruct (p_name p) eqn:E; rewrite ?E; reflexivity.
Qed.
(* the lookup never touches any label but "deploymentconfig" *)
Lemma meta_labels : forall p, snd (deploy_meta p) = p_labels p \/ snd (deploy_meta p) = sdel (p_labels p) (lit "deploymentconfig").
Proof.
  intros p. unfold deploy_meta. destruct (p_gen p); [ left; reflexivity |]. destruct (find o_ctrl (p_owners p)) as [r|]; [| left; reflexivity ].
  destruct (_ && _ && _); [ left; reflexivity |]. destruct (_ && _); [ right; reflexivity |]. destruct (geqb (o_kind r) (lit "Job")); [| left; reflexivity ]. destruct (cron_name (o_name r)); left; reflexivity.
Qed.
(* ---------- what the mutation leaves alone and what it adds ---------- *)
Definition rev_key := lit "istio.io/rev".
Definition net_key := lit "topology.istio.io/network".
Lemma Forall2_map_r : forall {A B} (R : A -> B -> Prop) (g : A -> B) l, (forall x, R x (g x)) -> Forall2 R l (map g l).
Proof. induction l; cbn; intros; constructor; auto. Qed.
(* Handle, step by step *)
Definition prepared (req_ns : gstr) (p0 : pod) : pod := mkpod (p_name p0) (p_gen p0) (match p_ns p0 with [] => req_ns | n => n end) (p_owners p0) (p_labels p0) (p_annot p0) (p_conts p0) (p_vols p0).
Lemma mutate_unfold : forall f order rn cm p q, mutate f order rn cm p = Some q -> exists c, cm = Some c /\ q = set_mounts (set_volumes c (set_envs f order (set_labels f (set_annotations (prepared rn p))))).
Proof. intros f order rn cm p q H. unfold mutate in H. destruct cm as [c|]; [| discriminate ]. injection H as <-. exists c; split; reflexivity. Qed.
Theorem C74_total : forall f order rn cm p, mutate f order rn cm p = None <-> cm = None.
Proof. intros. unfold mutate. destruct cm; split; intros; congruence. Qed.
(* identity of the pod, number, order and names of the containers; everything the user asked for comes first, unchanged *)
Theorem C74_user_parts_kept : forall f order rn cm p q, mutate f order rn cm p = Some q ->
  p_name q = p_name p /\ p_gen q = p_gen p /\ p_owners q = p_owners p /\ (p_ns p <> [] -> p_ns q = p_ns p) /\ (p_ns p = [] -> p_ns q = rn) /\
  (exists c, cm = Some c /\ p_vols q = p_vols p ++ [(lit "istio-token", SaToken (lit "istio-ca") 43200%Z (lit "istio-token")); (lit "istiod-ca-cert", ConfigMapVol c)]) /\
  exists env, map n_name (p_conts q) = map n_name (p_conts p) /\
   Forall2 (fun c d => n_env d = n_env c ++ env /\ n_ports d = n_ports c ++ [(lit "http-envoy-prom", 16090%Z)] /\
     n_mounts d = n_mounts c ++ [(lit "istiod-ca-cert", lit "/var/run/secrets/istio"); (lit "istio-token", lit "/var/run/secrets/tokens")]) (p_conts p) (p_conts q).
Proof.
  intros f order rn cm p q H. destruct (mutate_unfold _ _ _ _ _ _ H) as (c & -> & ->). clear H.
  unfold set_mounts, set_volumes, set_envs. set (pl := set_labels f (set_annotations (prepared rn p))).
  assert (p_name pl = p_name p /\ p_gen pl = p_gen p /\ p_owners pl = p_owners p /\ p_ns pl = p_ns (prepared rn p) /\ p_vols pl = p_vols p /\ p_conts pl = p_conts p) as (A1 & A2 & A3 & A4 & A5 & A6).
  { unfold pl, set_labels. destruct (deploy_meta (set_annotations (prepared rn p))) as [[[nm ap] kd] lb]. cbn. repeat split. }
  destruct (deploy_meta pl) as [[[nm ap] kd] lb]. cbn [p_name p_gen p_owners p_ns p_vols p_conts]. rewrite A1, A2, A3, A4, A5, A6.
  split; [ reflexivity |]. split; [ reflexivity |]. split; [ reflexivity |].
  split; [ cbn; destruct (p_ns p); congruence |]. split; [ intros Q; cbn; rewrite Q; reflexivity |]. split; [ exists c; split; reflexivity |].
  eexists. split; [ rewrite !map_map; reflexivity |]. rewrite map_map. apply Forall2_map_r. intros x. cbn [n_env n_ports n_mounts]. auto.
Qed.
(* the labels: those the workload had stay (but for the two Heimdall owns, and "deploymentconfig"), the canonical ones are
   filled in only where missing *)
Lemma final_labels : forall f order rn cm p q, mutate f order rn cm p = Some q ->
  exists l1, p_labels (set_labels f (set_annotations (prepared rn p))) = l1 /\ (p_labels q = l1 \/ p_labels q = sdel l1 (lit "deploymentconfig")).
Proof.
  intros f order rn cm p q H. destruct (mutate_unfold _ _ _ _ _ _ H) as (c & -> & ->). eexists; split; [ reflexivity |].
  unfold set_mounts, set_volumes, set_envs. cbn [p_labels]. set (pl := set_labels f (set_annotations (prepared rn p))).
  pose proof (meta_labels pl) as M. destruct (deploy_meta pl) as [[[nm ap] kd] lb]. cbn in *. exact M.
Qed.
Ltac nk := rewrite ?sget_sset, ?set_default_get, ?sget_sdel.
Lemma neqb : forall a b, a <> b -> geqb a b = false.
Proof. intros. apply geqb_neq. assumption. Qed.
Definition tls_key := lit "security.istio.io/tlsMode".
Definition name_key := lit "service.istio.io/canonical-name".
Definition revision_key := lit "service.istio.io/canonical-revision".
Definition dc_key := lit "deploymentconfig".
Lemma set_labels_get : forall f p k, sget (p_labels (set_labels f p)) k =
  let '((nm, _, _), lb) := deploy_meta p in
  if geqb net_key k then Some (f_net f) else if geqb rev_key k then Some (f_rev f) else
  match sget lb k with Some v => Some v | None =>
    if geqb tls_key k then Some (lit "istio") else
    if geqb name_key k then Some (first_value [sidx lb (lit "app.kubernetes.io/name"); sidx lb (lit "app"); nm]) else
    if geqb revision_key k then Some (first_value [sidx lb (lit "app.kubernetes.io/version"); sidx lb (lit "version"); lit "latest"]) else None end.
Proof.
  intros f p k. unfold set_labels. destruct (deploy_meta p) as [[[nm ap] kd] lb]. cbn [p_labels with_labels].
  rewrite !sget_sset. fold net_key rev_key. destruct (geqb net_key k); [ reflexivity |]. destruct (geqb rev_key k); [ reflexivity |].
  rewrite !set_default_get. fold tls_key name_key revision_key.
  assert (forall q, q <> tls_key -> sidx (set_default lb tls_key (lit "istio")) q = sidx lb q) as S1.
  { intros q Hq. unfold sidx. rewrite set_default_get. destruct (sget lb q); [ reflexivity |]. rewrite neqb by congruence. reflexivity. }
  assert (forall v q, q <> tls_key -> q <> name_key -> sidx (set_default (set_default lb tls_key (lit "istio")) name_key v) q = sidx lb q) as S2.
  { intros v q Hq Hq2. unfold sidx. rewrite !set_default_get. destruct (sget lb q); [ reflexivity |]. rewrite neqb by congruence. rewrite neqb by congruence. reflexivity. }
  rewrite !S1 by discriminate. rewrite !S2 by discriminate.
  destruct (sget lb k); [ reflexivity |]. destruct (geqb tls_key k); [ reflexivity |]. destruct (geqb name_key k); reflexivity.
Qed.
Theorem C74_labels_kept : forall f order rn cm p q k v, mutate f order rn cm p = Some q -> sget (p_labels p) k = Some v ->
  k <> rev_key -> k <> net_key -> k <> dc_key -> sget (p_labels q) k = Some v.
Proof.
  intros f order rn cm p q k v H L N1 N2 N3. destruct (final_labels _ _ _ _ _ _ H) as (l1 & E & F).
  assert (sget l1 k = Some v) as G.
  { subst l1. rewrite set_labels_get. pose proof (meta_labels (set_annotations (prepared rn p))) as M.
    destruct (deploy_meta (set_annotations (prepared rn p))) as [[[nm ap] kd] lb]. cbn [snd] in M.
    rewrite (neqb net_key k) by congruence. rewrite (neqb rev_key k) by congruence.
    assert (sget lb k = Some v) as ->; [| reflexivity ]. change (p_labels (set_annotations (prepared rn p))) with (p_labels p) in M.
    destruct M as [->| ->]; [ exact L | rewrite sget_sdel, neqb by (unfold dc_key in N3; congruence); exact L ]. }
  destruct F as [->| ->]; [ exact G |]. rewrite sget_sdel, neqb by (unfold dc_key in N3; congruence). exact G.
Qed.
(* the four labels the mesh needs are always there afterwards *)
Theorem C74_labels_set : forall f order rn cm p q, mutate f order rn cm p = Some q ->
  sget (p_labels q) rev_key = Some (f_rev f) /\ sget (p_labels q) net_key = Some (f_net f) /\
  (sget (p_labels p) tls_key = None -> sget (p_labels q) tls_key = Some (lit "istio")) /\
  (sget (p_labels p) revision_key = None -> sget (p_labels q) revision_key =
     Some (first_value [sidx (p_labels p) (lit "app.kubernetes.io/version"); sidx (p_labels p) (lit "version"); lit "latest"])) /\
  (sget (p_labels p) name_key = None -> sget (p_labels q) name_key =
     Some (first_value [sidx (p_labels p) (lit "app.kubernetes.io/name"); sidx (p_labels p) (lit "app"); fst (fst (fst (deploy_meta (prepared rn p))))])).
Proof.
  intros f order rn cm p q H. destruct (final_labels _ _ _ _ _ _ H) as (l1 & E & F).
  assert (forall k, k <> dc_key -> sget (p_labels q) k = sget l1 k) as Q.
  { intros k N. destruct F as [->| ->]; [ reflexivity |]. rewrite sget_sdel, neqb by (unfold dc_key in N; congruence). reflexivity. }
  rewrite !Q by discriminate. subst l1. rewrite !set_labels_get.
  assert (deploy_meta (set_annotations (prepared rn p)) = deploy_meta (prepared rn p)) as -> by reflexivity.
  pose proof (meta_labels (prepared rn p)) as M.
  destruct (deploy_meta (prepared rn p)) as [[[nm ap] kd] lb]. cbn [snd fst] in *. change (p_labels (prepared rn p)) with (p_labels p) in M.
  assert (forall k, k <> dc_key -> sget lb k = sget (p_labels p) k) as S.
  { intros k N. destruct M as [->| ->]; [ reflexivity |]. rewrite sget_sdel, neqb by (unfold dc_key in N; congruence). reflexivity. }
  unfold sidx. rewrite !S by discriminate.
  split; [ reflexivity |]. split; [ reflexivity |]. split; [ intros ->; reflexivity |]. split; [ intros ->; reflexivity | intros ->; reflexivity ].
Qed.
Lemma labels_nodup : forall f order rn cm p q, mutate f order rn cm p = Some q -> NoDup (keys (p_labels p)) -> NoDup (keys (p_labels q)).
Proof.
  intros f order rn cm p q H ND. destruct (final_labels _ _ _ _ _ _ H) as (l1 & E & F).
  assert (NoDup (keys l1)). { subst l1. unfold set_labels. pose proof (meta_labels (set_annotations (prepared rn p))) as M. destruct (deploy_meta (set_annotations (prepared rn p))) as [[[nm ap] kd] lb].
    cbn [snd] in M. change (p_labels (set_annotations (prepared rn p))) with (p_labels p) in M. cbn [p_labels with_labels].
    apply keys_sset, keys_sset, set_default_nodup, set_default_nodup, set_default_nodup. destruct M as [->| ->]; [ exact ND | apply sdel_nodup; exact ND ]. }
  destruct F as [->| ->]; [ assumption | apply sdel_nodup; assumption ].
Qed.
Theorem C74_annotations : forall f order rn cm p q k, mutate f order rn cm p = Some q ->
  sget (p_annot q) k = if geqb (lit "prometheus.io/scrape") k then Some (lit "true") else if geqb (lit "prometheus.io/port") k then Some (lit "16090") else
    if geqb (lit "prometheus.io/path") k then Some (lit "/stats/prometheus") else if geqb (lit "sidecar.istio.io/inject") k then Some (lit "false") else sget (p_annot p) k.
Proof.
  intros f order rn cm p q k H. destruct (mutate_unfold _ _ _ _ _ _ H) as (c & -> & ->).
  unfold set_mounts, set_volumes, set_envs, set_labels. cbn [p_annot].
  destruct (deploy_meta (set_annotations (prepared rn p))) as [[[nm ap] kd] lb]. destruct (deploy_meta _) as [[[nm' ap'] kd'] lb']. cbn [p_annot with_labels set_annotations prepared]. rewrite !sget_sset. reflexivity.
Qed.
(* ---------- what the workload reads back ---------- *)
Lemma env_get_app : forall a b k, env_get (a ++ b) k = match env_get b k with Some v => Some v | None => env_get a k end.
Proof. induction a as [|[k' v'] a IH]; intros b k; cbn; [ destruct (env_get b k); reflexivity |]. rewrite IH. destruct (env_get b k); reflexivity. Qed.
(* the text of a variable; downward-API fields are filled in by Kubernetes *)
Definition value_of (field : gstr -> gstr) (v : evalue) : gstr := match v with Lit s => s | Field f => field f end.
Definition proc_env (field : gstr -> gstr) (c : container) (k : gstr) : option gstr := option_map (value_of field) (env_get (n_env c) k).
Definition trimmed (s : gstr) : Prop := forall c, In c s -> is_space c = false.
Lemma trim_left_id : forall s, trimmed s -> trim_left s = s.
Proof. destruct s as [|c s]; cbn; intros H; [ reflexivity |]. rewrite (H c (or_introl eq_refl)). reflexivity. Qed.
Lemma trim_id : forall s, trimmed s -> trim_space s = s.
Proof. intros s H. unfold trim_space. rewrite (trim_left_id s H). rewrite trim_left_id; [ apply rev_involutive |]. intros c I. apply H, in_rev. exact I. Qed.
(* label keys and values Kubernetes admits: no comma, no colon, no white space *)
Definition clean (s : gstr) : Prop := ~ In comma s /\ ~ In colonc s /\ trimmed s.
Lemma parse_pairs_spec : forall l, (forall e, In e l -> clean (fst e) /\ clean (snd e)) -> NoDup (keys l) ->
  exists m, parse_pairs (map (fun e => fst e ++ colonc :: snd e) l) = Some m /\ forall k, sget m k = sget l k.
Proof.
  induction l as [|[k v] l IH]; intros C ND; cbn [map]; [ exists []; split; reflexivity |].
  inversion ND; subst. destruct IH as (m & P & G); [ intros; apply C; right; auto | assumption |].
  destruct (C (k, v) (or_introl eq_refl)) as [(K1 & K2 & K3) (V1 & V2 & V3)]. cbn [fst snd] in *.
  exists (sset m k v). split.
  - cbn [parse_pairs]. rewrite P. unfold gsplitn. change (2 - 1) with 1. rewrite gsplitc_app by exact K2. cbn [gsplit_cuts]. rewrite !trim_id by assumption. reflexivity.
  - intros q. rewrite sget_sset. cbn. rewrite G. reflexivity.
Qed.
Lemma parse_map_spec : forall l, l <> [] -> (forall e, In e l -> clean (fst e) /\ clean (snd e)) -> NoDup (keys l) ->
  exists m, parse_map (gjoin comma (map (fun e => fst e ++ colonc :: snd e) l)) = Some m /\ forall k, sget m k = sget l k.
Proof.
  intros l NE C ND. unfold parse_map. rewrite gsplit_join; [| destruct l; [ congruence | discriminate ] |].
  - rewrite <- map_rev. destruct (parse_pairs_spec (rev l)) as (m & P & G).
    + intros e I. apply C, in_rev. exact I.
    + unfold keys. rewrite map_rev. apply NoDup_rev. exact ND.
    + exists m. split; [ exact P |]. intros k. rewrite G. apply sget_ext.
      * unfold keys. rewrite map_rev. apply NoDup_rev. exact ND.
      * exact ND.
      * apply Permutation_sym, Permutation_rev.
  - intros x I. apply in_map_iff in I. destruct I as ([k v] & <- & I). destruct (C _ I) as [(K1 & _) (V1 & _)]. cbn in *.
    intros Q. apply in_app_or in Q. destruct Q as [Q|[Q|Q]]; [ contradiction | discriminate | contradiction ].
Qed.
Lemma parse_slice_spec : forall l, l <> [] -> (forall x, In x l -> ~ In comma x /\ trimmed x) -> parse_slice (gjoin comma l) = l.
Proof.
  intros l NE C. unfold parse_slice. rewrite gsplit_join; [| exact NE | intros x I; apply C; exact I ].
  induction l as [|a l IH]; [ congruence |]. cbn. rewrite trim_id by (apply C; left; reflexivity). destruct l as [|b l]; [ reflexivity |].
  f_equal. apply IH; [ discriminate | intros; apply C; right; auto ].
Qed.
Lemma sget_nonempty : forall (m : smap) k v, sget m k = Some v -> m <> [].
Proof. intros m k v H ->. discriminate. Qed.
Lemma nonempty_case : forall {A} (v : gstr) (d : A) (F : gstr -> A), v <> [] -> match v with [] => d | a :: l => F (a :: l) end = F v.
Proof. intros. destruct v; [ congruence | reflexivity ]. Qed.
(* the environment every container of a mutated pod reads: the labels the pod ends up with, in whatever order Go visited
   them, its containers, search domains, owner and mesh settings *)
Theorem C74_environment_read_back : forall f order rn cm p q c field pbool pdur,
  (forall m, Permutation (order m) m) -> NoDup (keys (p_labels p)) ->
  mutate f order rn cm p = Some q -> In c (p_conts q) -> pbool (lit "true") = Some true ->
  (forall k v, sget (p_labels q) k = Some v -> clean k /\ clean v) ->
  (forall n, In n (map n_name (p_conts p)) -> ~ In comma n /\ trimmed n /\ n <> []) -> ~ In comma (p_ns q) -> trimmed (p_ns q) ->
  (forall k v, In (k, v) (n_env c) -> k = lit "NASP_SECRET_TTL" \/ k = lit "NASP_PLATFORM_METADATA" \/ k = lit "NASP_ADDITIONAL_METADATA" \/ k = lit "NASP_TRUST_DOMAIN" -> False) ->
  exists e, read_env (proc_env field c) pbool pdur = Some e /\
    i_enabled e = true /\ i_type e = lit "sidecar" /\ i_pod e = field (lit "metadata.name") /\ i_ns e = field (lit "metadata.namespace") /\
    i_sa e = field (lit "spec.serviceAccountName") /\ (forall k, sget (i_labels e) k = sget (p_labels q) k) /\
    i_conts e = map n_name (p_conts p) /\ i_search e = [p_ns q ++ lit ".svc.cluster.local"; lit "svc.cluster.local"] /\
    i_net e = f_net f /\ i_cluster e = f_cluster f /\ i_mesh e = f_mesh f /\ i_ca e = f_ca f /\ i_version e = f_version f /\ i_rev e = f_rev f /\ i_dns e = lit "cluster.local" /\
    exists api kind, i_owner e = lit "kubernetes://apis/" ++ api ++ lit "/namespaces/" ++ p_ns q ++ lit "/" ++ lower kind ++ lit "s/" ++ i_workload e.
Proof.
  intros f order rn cm p q c field pbool pdur ORD ND M IC PB CL CN NS1 NS2 UE.
  assert (NDq : NoDup (keys (p_labels q))) by (eapply labels_nodup; eauto).
  pose proof (C74_labels_set _ _ _ _ _ _ M) as (LR & _).
  assert (exists api kind wl env0 names, n_env c = env0 ++ nasp_env f (owner_string api (p_ns q) kind wl) wl (p_ns q) names (order (p_labels q)) /\ names = map n_name (p_conts p)) as (api & kind & wl & env0 & names & EN & NM).
  { destruct (mutate_unfold _ _ _ _ _ _ M) as (cc & -> & ->). unfold set_mounts, set_volumes, set_envs in IC |- *.
    set (pl := set_labels f (set_annotations (prepared rn p))) in *.
    assert (p_conts pl = p_conts p) as A6. { unfold pl, set_labels. destruct (deploy_meta (set_annotations (prepared rn p))) as [[[? ?] ?] ?]. reflexivity. }
    destruct (deploy_meta pl) as [[[nm ap] kd] lb]. cbn [p_conts p_ns p_labels] in *. rewrite A6 in IC. rewrite map_map in IC. apply in_map_iff in IC. destruct IC as (c0 & <- & IC). cbn [n_env].
    exists ap, kd, nm, (n_env c0), (map n_name (p_conts p)). split; [ | reflexivity ]. rewrite ?A6. reflexivity. }
  assert (forall k v, env_get (nasp_env f (owner_string api (p_ns q) kind wl) wl (p_ns q) names (order (p_labels q))) k = Some v -> proc_env field c k = Some (value_of field v)) as GE.
  { intros k v H. unfold proc_env. rewrite EN, env_get_app, H. reflexivity. }
  assert (forall k, (k = lit "NASP_SECRET_TTL" \/ k = lit "NASP_PLATFORM_METADATA" \/ k = lit "NASP_ADDITIONAL_METADATA" \/ k = lit "NASP_TRUST_DOMAIN") -> proc_env field c k = None) as GN.
  { intros k Hk. unfold proc_env. assert (env_get (n_env c) k = None) as ->; [| reflexivity ].
    clear -UE Hk. induction (n_env c) as [|[k' v'] l IH]; [ reflexivity |]. cbn. rewrite IH by (intros; eapply UE; [ right; eassumption | assumption ]).
    destruct (geqb k' k) eqn:Q; [| reflexivity ]. apply geqb_eq in Q. subst. exfalso. eapply UE; [ left; reflexivity | exact Hk ]. }
  assert (order (p_labels q) <> []) as ONE. { intros Q. pose proof (ORD (p_labels q)) as P. rewrite Q in P. apply Permutation_nil in P. rewrite P in LR. discriminate. }
  assert (NDo : NoDup (keys (order (p_labels q)))). { unfold keys. eapply Permutation_NoDup; [ apply Permutation_map, Permutation_sym, ORD | exact NDq ]. }
  destruct (parse_map_spec (order (p_labels q))) as (lm & PM & LG); [ exact ONE | | exact NDo |].
  { intros [k v] I. apply CL. apply sget_in; [ exact NDq |]. eapply Permutation_in; [ apply ORD | exact I ]. }
  assert (gjoin comma (map (fun e => fst e ++ colonc :: snd e) (order (p_labels q))) <> []) as JNE.
  { destruct (order (p_labels q)) as [|[k v] r]; [ congruence |]. cbn. destruct r; cbn; destruct k; discriminate. }
  assert (names <> []) as NNE. { subst names. intros Q. pose proof (C74_user_parts_kept _ _ _ _ _ _ M) as (_ & _ & _ & _ & _ & _ & env & Hn & _). rewrite Q in Hn. destruct (p_conts q); [ destruct IC | discriminate ]. }
  assert (parse_slice (gjoin comma names) = names) as PS by (apply parse_slice_spec; [ exact NNE | intros x I; subst names; destruct (CN x I) as (A & B & _); auto ]).
  assert (gjoin comma names <> []) as JN2. { subst names. destruct (map n_name (p_conts p)) as [|x r] eqn:Q; [ congruence |]. destruct (CN x (or_introl eq_refl)) as (_ & _ & X). destruct x; [ congruence |]. destruct r; discriminate. }
  assert (parse_slice (p_ns q ++ lit ".svc.cluster.local,svc.cluster.local") = [p_ns q ++ lit ".svc.cluster.local"; lit "svc.cluster.local"]) as PD.
  { change (p_ns q ++ lit ".svc.cluster.local,svc.cluster.local") with (p_ns q ++ lit ".svc.cluster.local" ++ comma :: lit "svc.cluster.local"). rewrite app_assoc.
    change ((p_ns q ++ lit ".svc.cluster.local") ++ comma :: lit "svc.cluster.local") with (gjoin comma [p_ns q ++ lit ".svc.cluster.local"; lit "svc.cluster.local"]).
    apply parse_slice_spec; [ discriminate |]. intros x [<-|[<-|[]]]; split.
    - intros Q. apply in_app_or in Q. destruct Q as [Q|Q]; [ contradiction | cbn in Q; intuition discriminate ].
    - intros ch Q. apply in_app_or in Q. destruct Q as [Q|Q]; [ apply NS2; exact Q | cbn in Q; intuition (subst; reflexivity) ].
    - cbn; intuition discriminate.
    - intros ch Q; cbn in Q; intuition (subst; reflexivity). }
  unfold read_env.
  repeat match goal with |- context [proc_env field c (lit "NASP_" ++ lit ?x)] =>
    first [ rewrite (GN (lit "NASP_" ++ lit x)) by (cbn; tauto) | erewrite (GE (lit "NASP_" ++ lit x)) by (unfold nasp_env; cbn [env_get]; reflexivity) ] end.
  cbn [value_of].
  rewrite (nonempty_case (lit "true")) by discriminate. rewrite PB.
  rewrite (nonempty_case _ _ parse_map JNE), PM.
  rewrite (nonempty_case _ _ parse_slice JN2), PS.
  rewrite (nonempty_case (p_ns q ++ lit ".svc.cluster.local,svc.cluster.local") [] parse_slice) by (destruct (p_ns q); discriminate). rewrite PD.
  eexists. split; [ reflexivity |]. cbn [i_enabled i_type i_pod i_ns i_sa i_labels i_conts i_search i_net i_cluster i_mesh i_ca i_version i_rev i_dns i_owner i_workload].
  repeat (split; [ try reflexivity |]); try (intros k; rewrite LG; apply sget_ext; auto); try exact NM.
  exists api, kind. reflexivity.
Qed.
(* a variable of the same name the user set does not win: the user's variables have no influence on the injected ones, and
   all containers agree *)
Definition injected : list gstr := [lit "NASP_ENABLED"; lit "NASP_TYPE"; lit "NASP_POD_NAME"; lit "NASP_POD_NAMESPACE"; lit "NASP_POD_OWNER"; lit "NASP_POD_SERVICE_ACCOUNT";
  lit "NASP_WORKLOAD_NAME"; lit "NASP_APP_CONTAINERS"; lit "NASP_INSTANCE_IP"; lit "NASP_LABELS"; lit "NASP_NETWORK"; lit "NASP_SEARCH_DOMAINS"; lit "NASP_CLUSTER_ID"; lit "NASP_DNS_DOMAIN";
  lit "NASP_MESH_ID"; lit "NASP_ISTIO_CA_ADDR"; lit "NASP_ISTIO_VERSION"; lit "NASP_ISTIO_REVISION"].
Definition with_user_env (p : pod) (g : container -> list (gstr * evalue)) : pod :=
  mkpod (p_name p) (p_gen p) (p_ns p) (p_owners p) (p_labels p) (p_annot p) (map (fun c => mkcont (n_name c) (g c) (n_ports c) (n_mounts c)) (p_conts p)) (p_vols p).
Theorem C74_injected_env_wins : forall f order rn cm p g q q' c c' k, mutate f order rn cm p = Some q -> mutate f order rn cm (with_user_env p g) = Some q' ->
  In c (p_conts q) -> In c' (p_conts q') -> In k injected -> env_get (n_env c) k <> None /\ env_get (n_env c') k = env_get (n_env c) k.
Proof.
  assert (forall f order rn cm p q c, mutate f order rn cm p = Some q -> In c (p_conts q) -> exists env0, n_env c = env0 ++
     (let p1 := set_labels f (set_annotations (prepared rn p)) in let '((name, api, kind), lb) := deploy_meta p1 in nasp_env f (owner_string api (p_ns p1) kind name) name (p_ns p1) (map n_name (p_conts p1)) (order lb))) as H.
  { intros f order rn cm p q c M IC. destruct (mutate_unfold _ _ _ _ _ _ M) as (cc & -> & ->). unfold set_mounts, set_volumes, set_envs in IC.
    cbv zeta. set (pl := set_labels f (set_annotations (prepared rn p))) in *. destruct (deploy_meta pl) as [[[nm ap] kd] lb]. cbn [p_conts p_ns p_labels] in IC. rewrite map_map in IC.
    apply in_map_iff in IC. destruct IC as (c0 & <- & IC). cbn [n_env]. exists (n_env c0). reflexivity. }
  intros f order rn cm p g q q' c c' k M M' IC IC' K.
  destruct (H _ _ _ _ _ _ _ M IC) as (e0 & E). destruct (H _ _ _ _ _ _ _ M' IC') as (e0' & E'). rewrite E, E'. cbv zeta.
  set (p1 := set_labels f (set_annotations (prepared rn p))). set (p1' := set_labels f (set_annotations (prepared rn (with_user_env p g)))).
  assert (p_name p1' = p_name p1 /\ p_gen p1' = p_gen p1 /\ p_ns p1' = p_ns p1 /\ p_owners p1' = p_owners p1 /\ p_labels p1' = p_labels p1 /\ map n_name (p_conts p1') = map n_name (p_conts p1)) as (A1 & A2 & A3 & A4 & A5 & A6).
  { unfold p1, p1', set_labels. change (deploy_meta (set_annotations (prepared rn (with_user_env p g)))) with (deploy_meta (set_annotations (prepared rn p))).
    destruct (deploy_meta (set_annotations (prepared rn p))) as [[[? ?] ?] ?]. cbn [p_name p_gen p_ns p_owners p_labels p_conts with_labels set_annotations prepared with_user_env]. rewrite map_map. repeat split. }
  assert (deploy_meta p1' = deploy_meta p1) as -> by (unfold deploy_meta; rewrite A1, A2, A4, A5; reflexivity).
  rewrite A3, A6. destruct (deploy_meta p1) as [[[nm ap] kd] lb]. set (ne := nasp_env _ _ _ _ _ _).
  assert (exists v, env_get ne k = Some v) as (v & V).
  { subst ne. unfold nasp_env. unfold injected in K. cbn [In] in K. repeat (destruct K as [<-|K]; [ eexists; cbn [env_get]; reflexivity |]). destruct K. }
  rewrite !env_get_app, V. split; [ discriminate | reflexivity ].
Qed.
(* ---------- Override ---------- *)
(* after Override the environment is the other one, except for the three fields it forgets *)
Theorem C74_override : forall e o, override e o = mkienv (i_enabled e) (i_type o) (i_pod o) (i_ns o) (i_owner o) (i_sa o) (i_workload o) (i_conts o) (i_ips o)
    (i_labels o) (i_platform o) (i_net o) (i_search o) (i_ttl e) (i_additional o) (i_cluster o) (i_dns o) (i_trust e) (i_mesh o) (i_ca o) (i_version o) (i_rev o)
  /\ (override e o = o <-> i_enabled e = i_enabled o /\ i_ttl e = i_ttl o /\ i_trust e = i_trust o) /\ override (override e o) o = override e o.
Proof.
  intros e o. split; [ reflexivity |]. split; [| reflexivity ]. unfold override. split.
  - intros H. rewrite <- H. cbn. auto.
  - intros (A & B & C). rewrite A, B, C. destruct o; reflexivity.
Qed.
(* ---------- where the English claim is false ---------- *)
(* the trust domain Heimdall sends is dropped *)
Theorem C74_override_trust_domain_refuted : forall e o, i_trust (override e o) = i_trust e.
Proof. reflexivity. Qed.
(* mutating a pod twice (webhook reinvocation) duplicates ports, mounts and volumes, which Kubernetes refuses *)
Theorem C74_not_idempotent_refuted : forall f order rn cm p q q2 c, mutate f order rn cm p = Some q -> mutate f order rn cm q = Some q2 -> In c (p_conts q2) ->
  ~ NoDup (n_ports c) /\ ~ NoDup (n_mounts c) /\ ~ NoDup (p_vols q2).
Proof.
  intros f order rn cm p q q2 c M1 M2 IC.
  destruct (C74_user_parts_kept _ _ _ _ _ _ M1) as (_ & _ & _ & _ & _ & (c1 & X1 & V1) & env1 & _ & F1).
  destruct (C74_user_parts_kept _ _ _ _ _ _ M2) as (_ & _ & _ & _ & _ & (c2 & X2 & V2) & env2 & _ & F2).
  assert (forall (R : container -> container -> Prop) l l' y, Forall2 R l l' -> In y l' -> exists x, In x l /\ R x y) as FI.
  { intros R l l' y F. induction F; intros I; [ destruct I |]. destruct I as [<-|I]; [ exists x; split; [ left |]; auto |]. destruct (IHF I) as (z & A & B). exists z; split; [ right |]; auto. }
  assert (forall (A : Type) (a b : list A) x, ~ NoDup ((a ++ x :: b) ++ x :: nil)) as D.
  { intros A a b x ND. rewrite <- app_assoc in ND. apply NoDup_remove_2 in ND. apply ND. apply in_or_app. right. apply in_or_app. right. left; reflexivity. }
  destruct (FI _ _ _ _ F2 IC) as (d & Id & _ & P2 & Mo2). destruct (FI _ _ _ _ F1 Id) as (b & Ib & _ & P1 & Mo1).
  split; [| split ].
  - rewrite P2, P1. apply (D _ (n_ports b) []).
  - rewrite Mo2, Mo1. intros ND. change ([(lit "istiod-ca-cert", lit "/var/run/secrets/istio"); (lit "istio-token", lit "/var/run/secrets/tokens")]) with ([(lit "istiod-ca-cert", lit "/var/run/secrets/istio")] ++ [(lit "istio-token", lit "/var/run/secrets/tokens")]) in ND at 2.
    rewrite app_assoc in ND. apply NoDup_remove_1 in ND. rewrite app_nil_r in ND. revert ND. apply (D _ (n_mounts b)).
  - rewrite V2, V1. assert (c2 = c1) as -> by congruence. intros ND.
    change [(lit "istio-token", SaToken (lit "istio-ca") 43200%Z (lit "istio-token")); (lit "istiod-ca-cert", ConfigMapVol c1)] with ([(lit "istio-token", SaToken (lit "istio-ca") 43200%Z (lit "istio-token"))] ++ [(lit "istiod-ca-cert", ConfigMapVol c1)]) in ND at 2.
    rewrite app_assoc in ND. apply NoDup_remove_1 in ND. rewrite app_nil_r in ND. revert ND. apply (D _ (p_vols p)).
Qed.
(* an OpenShift DeploymentConfig: looking up the owner for the labels deletes the pod's own "deploymentconfig" label, and
   the second lookup, for the environment, then reports the replication controller *)
Theorem C74_deploymentconfig_refuted : forall f order rn c p r dc q, controlled p r -> o_kind r = lit "ReplicationController" -> sget (p_labels p) dc_key = Some dc -> dc <> [] ->
  mutate f order rn (Some c) p = Some q ->
  fst (deploy_meta p) = (dc, o_api r, lit "DeploymentConfig") /\ sget (p_labels q) dc_key = None /\
  (o_name r <> [] -> forall d, In d (p_conts q) -> env_get (n_env d) (lit "NASP_WORKLOAD_NAME") = Some (Lit (o_name r))).
Proof.
  intros f order rn c p r dc q H K L NE M.
  assert (forall p', p_gen p' = p_gen p -> p_owners p' = p_owners p -> p_labels p' = p_labels p -> deploy_meta p' = ((dc, o_api r, lit "DeploymentConfig"), sdel (p_labels p) dc_key)) as DM.
  { intros p' G O LB. destruct H as (N & a & b & E & C & A). unfold deploy_meta. rewrite G, O, LB. destruct (p_gen p); [ congruence |]. erewrite find_ctrl by eassumption. rewrite K.
    change (geqb (lit "ReplicationController") (lit "ReplicaSet")) with false. change (geqb (lit "ReplicationController") (lit "ReplicationController")) with true. cbn [andb].
    unfold sidx at 1. fold dc_key. rewrite L. rewrite neqb by exact NE. cbn [negb andb]. unfold sidx. rewrite L. destruct dc; [ congruence | reflexivity ]. }
  split; [ rewrite DM by reflexivity; reflexivity |].
  pose proof (mutate_unfold _ _ _ _ _ _ M) as (cc & _ & EQ).
  set (pl := set_labels f (set_annotations (prepared rn p))) in *.
  assert (sget (p_labels pl) dc_key = None) as LN.
  { unfold pl. rewrite set_labels_get. rewrite (DM (set_annotations (prepared rn p))) by reflexivity.
    change (geqb net_key dc_key) with false. change (geqb rev_key dc_key) with false. cbv iota. rewrite sget_sdel, geqb_refl. reflexivity. }
  assert (p_gen pl = p_gen p /\ p_owners pl = p_owners p) as [G2 O2].
  { unfold pl, set_labels. destruct (deploy_meta (set_annotations (prepared rn p))) as [[[? ?] ?] ?]. split; reflexivity. }
  assert (o_name r <> [] -> deploy_meta pl = ((o_name r, o_api r, o_kind r), p_labels pl)) as DM2.
  { intros NR. destruct H as (N & a & b & E & C & A). unfold deploy_meta. rewrite G2, O2. destruct (p_gen p); [ congruence |]. erewrite find_ctrl by eassumption. rewrite K.
    change (geqb (lit "ReplicationController") (lit "ReplicaSet")) with false. change (geqb (lit "ReplicationController") (lit "ReplicationController")) with true. cbn [andb].
    unfold sidx at 1. fold dc_key. rewrite LN. change (negb (geqb [] [])) with false. change (geqb (lit "ReplicationController") (lit "Job")) with false. cbv iota. destruct (o_name r); [ congruence | reflexivity ]. }
  split.
  - subst q. unfold set_mounts, set_volumes, set_envs. cbn [p_labels]. pose proof (meta_labels pl) as ML. destruct (deploy_meta pl) as [[[nm ap] kd] lb]. cbn [p_labels snd] in *.
    destruct ML as [->| ->]; [ exact LN |]. rewrite sget_sdel. fold dc_key. rewrite geqb_refl. reflexivity.
  - intros NR d Id. subst q. unfold set_mounts, set_volumes, set_envs in Id. rewrite (DM2 NR) in Id. cbn [p_conts] in Id. rewrite map_map in Id. apply in_map_iff in Id. destruct Id as (c0 & <- & _). cbn [n_env].
    rewrite env_get_app. reflexivity.
Qed.
(* a ReplicaSet whose name only ends in the hash is called a Deployment of the ReplicaSet's full name *)
Theorem C74_hash_suffix_refuted : forall p r hash, controlled p r -> o_kind r = lit "ReplicaSet" -> sget (p_labels p) (lit "pod-template-hash") = Some hash -> hash <> [] ->
  ghas_suffix (o_name r) hash = true -> ghas_suffix (o_name r) (dash :: hash) = false -> fst (deploy_meta p) = (o_name r, o_api r, lit "Deployment").
Proof.
  intros p r hash H K L NE S1 S2. gen_case H. rewrite K. unfold sidx. rewrite L. rewrite (neqb hash []) by exact NE. rewrite S1. change (geqb (lit "ReplicaSet") (lit "ReplicaSet")) with true. cbn [andb negb].
  unfold trim_suffix. rewrite S2. destruct (o_name r) eqn:Q; [| reflexivity ]. exfalso. destruct hash as [|h hs]; [ congruence |]. apply ghas_suffix_spec in S1. destruct S1 as [t T]. destruct t; discriminate.
Qed.
(* revision and network labels the user set are overwritten *)
Theorem C74_revision_label_overwritten_refuted : forall f order rn cm p q v, mutate f order rn cm p = Some q -> sget (p_labels p) rev_key = Some v -> v <> f_rev f -> sget (p_labels q) rev_key <> Some v.
Proof. intros f order rn cm p q v M _ N. destruct (C74_labels_set _ _ _ _ _ _ M) as (-> & _). congruence. Qed.
(* ---------- non-vacuity ---------- *)
Definition ex_cfg : config := mkconfig (lit "c1") (lit "mesh1") (lit "1.17") (lit "istiod:15012") (lit "net1") (lit "cp-v117").
Definition ex_pod : pod := mkpod [] (lit "web-5d4f8-") (lit "shop") [mkoref (lit "apps/v1") (lit "ReplicaSet") (lit "web-5d4f8") true]
  [(lit "app", lit "web"); (lit "pod-template-hash", lit "5d4f8")] [] [mkcont (lit "main") [(lit "HOME", Lit (lit "/"))] [] []; mkcont (lit "side") [] [] []] [].
Example C74_ex_controlled : controlled ex_pod (mkoref (lit "apps/v1") (lit "ReplicaSet") (lit "web-5d4f8") true).
Proof. split; [ discriminate |]. exists [], []. repeat split. intros x []. Qed.
Example C74_ex_mutate : match mutate ex_cfg (@rev _) (lit "other") (Some (lit "istio-ca-root-cert")) ex_pod with
  | Some q => match p_conts q with
      | c :: _ => match read_env (proc_env (fun _ => lit "x") c) (fun _ => Some true) (fun _ => None) with
           | Some e => i_owner e = lit "kubernetes://apis/apps/v1/namespaces/shop/deployments/web" /\ i_workload e = lit "web" /\ sget (i_labels e) (lit "service.istio.io/canonical-name") = Some (lit "web") /\
                       i_conts e = [lit "main"; lit "side"] /\ length (i_labels e) = 7
           | None => False end
      | [] => False end
  | None => False end.
Proof. vm_compute. repeat split. Qed.
Example C74_ex_cron : cron_name (lit "backup-27812345") = Some (lit "backup") /\ cron_name (lit "backup-1234567") = None /\ cron_name (lit "-27812345") = None.
Proof. vm_compute. repeat split. Qed.
Print Assumptions C74_owner_deployment.
Print Assumptions C74_owner_cronjob.
Print Assumptions C74_owner_other.
Print Assumptions C74_owner_none.
Print Assumptions C74_total.
Print Assumptions C74_user_parts_kept.
Print Assumptions C74_labels_kept.
Print Assumptions C74_labels_set.
Print Assumptions C74_annotations.
Print Assumptions C74_environment_read_back.
Print Assumptions C74_injected_env_wins.
Print Assumptions C74_override.
Print Assumptions C74_override_trust_domain_refuted.
Print Assumptions C74_not_idempotent_refuted.
Print Assumptions C74_deploymentconfig_refuted.
Print Assumptions C74_hash_suffix_refuted.
Print Assumptions C74_revision_label_overwritten_refuted.
