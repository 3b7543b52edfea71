(* C51, C52, C53, C55, C62: names and identities. *)
From Coq Require Import String List Ascii Bool Arith Lia.
From Verif Require Import M_GoStr L_GoStr M_Identity.
Import ListNotations.
Open Scope list_scope.
(* ================= C51 ================= *)
(* The documented precedence, as a relation: the value of the first key that is present, or the default. *)
Definition by_precedence (labels : lmap) (keys : list gstr) (def v : gstr) : Prop :=
  (exists pre k post, keys = pre ++ k :: post /\ (forall x, In x pre -> labels x = None) /\ labels k = Some v) \/ ((forall x, In x keys -> labels x = None) /\ v = def).
Lemma label_spec : forall labels keys def, by_precedence labels keys def (label_with_default labels keys def).
Proof.
  induction keys as [|k keys IH]; intros def; cbn; [right; split; [intros x []|reflexivity]|]. destruct (labels k) as [v|] eqn:E.
  - left. exists [], k, keys. repeat split; [intros x []|assumption].
  - destruct (IH def) as [(pre & k' & post & -> & Hp & Hk)|(Hn & Hd)].
    + left. exists (k :: pre), k', post. repeat split; [|assumption]. intros x [<-|Hx]; auto.
    + right. split; [|assumption]. intros x [<-|Hx]; auto.
Qed.
Theorem C51_precedence : forall labels workload,
  by_precedence labels [lit "service.istio.io/canonical-name"; lit "app.kubernetes.io/name"; lit "app"] workload (canonical_name labels workload) /\
  by_precedence labels [lit "service.istio.io/canonical-revision"; lit "app.kubernetes.io/version"; lit "version"] (lit "latest") (canonical_revision labels).
Proof. intros labels workload. split; apply label_spec. Qed.
Print Assumptions C51_precedence.
(* The precedence determines the value. *)
Theorem C51_deterministic : forall labels keys def v w, by_precedence labels keys def v -> by_precedence labels keys def w -> v = w.
Proof.
  intros labels keys def v w H1 H2.
  assert (G: forall v, by_precedence labels keys def v -> v = label_with_default labels keys def).
  { clear. induction keys as [|k keys IH]; intros v H; cbn.
    - destruct H as [(pre & k & post & E & _)|(_ & ->)]; [destruct pre; discriminate|reflexivity].
    - destruct H as [(pre & k' & post & E & Hp & Hk)|(Hn & ->)].
      + destruct pre as [|x pre]; cbn in E; injection E as -> ->; [now rewrite Hk|]. rewrite (Hp x) by (now left). apply IH. left. exists pre, k', post. repeat split; [|assumption]. intros y Hy. apply Hp. now right.
      + rewrite (Hn k) by (now left). apply IH. right. split; [intros x Hx; apply Hn; now right|reflexivity]. }
  rewrite (G v H1), (G w H2). reflexivity.
Qed.
Print Assumptions C51_deterministic.
(* Never empty holds if no label is set to the empty string and the workload name is not empty... *)
Theorem C51_nonempty : forall labels workload, (forall k, labels k <> Some []) -> canonical_revision labels <> [] /\ (workload <> [] -> canonical_name labels workload <> []).
Proof.
  intros labels workload H. assert (G: forall keys def, def <> [] -> label_with_default labels keys def <> []). { induction keys as [|k keys IH]; intros def Hd; cbn; [assumption|]. destruct (labels k) as [v|] eqn:E; [intros ->; now apply (H k)|now apply IH]. }
  split; [apply G; discriminate|apply G].
Qed.
Print Assumptions C51_nonempty.
(* ... but a label present with an empty value wins over later labels and over the default. *)
Theorem C51_empty_label_refuted : exists labels, labels (lit "app") = Some (lit "web") /\ canonical_name labels (lit "wl") = [] /\ canonical_revision labels = [].
Proof. exists (fun k => if geqb k (lit "app") then Some (lit "web") else if geqb k (lit "service.istio.io/canonical-name") then Some [] else if geqb k (lit "version") then Some [] else None). repeat split. Qed.
Print Assumptions C51_empty_label_refuted.
Example C51_ex : canonical_name (fun k => if geqb k (lit "app") then Some (lit "web") else None) (lit "wl") = lit "web" /\ canonical_name (fun _ => None) (lit "wl") = lit "wl" /\ canonical_revision (fun _ => None) = lit "latest".
Proof. repeat split. Qed.
(* ================= C52 ================= *)
Definition no_colon (k : okey) : Prop := ~ In colon (k_ns k) /\ ~ In colon (k_name k).
Lemma prefix_join : forall ns name, aud_prefix ++ ns ++ colon :: name = gjoin colon [lit "nasp-heimdall"; lit "workloadgroup"; ns; name].
Proof. intros ns name. unfold aud_prefix. cbn. now rewrite <- ?app_assoc. Qed.
Theorem C52_roundtrip : forall ref, no_colon ref -> aud_parse (aud_generate ref) = ref /\ aud_valid (aud_generate ref) = true.
Proof.
  intros [ns name] (H1 & H2). cbn [k_ns k_name] in *. unfold aud_parse, aud_generate, aud_valid. cbn [k_ns k_name]. split; [|apply ghas_prefix_spec; eauto]. rewrite prefix_join, gsplit_join; [reflexivity|discriminate|].
  intros x [<-|[<-|[<-|[<-|[]]]]]; try assumption; intros C; cbn in C; repeat (destruct C as [C|C]; [discriminate|]); exact C.
Qed.
Print Assumptions C52_roundtrip.
Theorem C52_injective : forall a b, no_colon a -> no_colon b -> aud_generate a = aud_generate b -> a = b.
Proof. intros a b Ha Hb H. rewrite <- (proj1 (C52_roundtrip a Ha)), <- (proj1 (C52_roundtrip b Hb)). now rewrite H. Qed.
Print Assumptions C52_injective.
(* an audience with the prefix that parses to something is the generated audience of what it parses to *)
Lemma parse_valid : forall a, aud_valid a = true -> aud_parse a <> okey0 -> aud_generate (aud_parse a) = a.
Proof.
  intros a Hv Hp. apply ghas_prefix_spec in Hv. destruct Hv as (t & ->). unfold aud_parse in *. assert (E: gsplit colon (aud_prefix ++ t) = lit "nasp-heimdall" :: lit "workloadgroup" :: gsplit colon t).
  { change (aud_prefix ++ t) with (lit "nasp-heimdall" ++ colon :: (lit "workloadgroup" ++ colon :: t)). rewrite gsplit_app, gsplit_app; [reflexivity| |]; intros C; cbn in C; repeat (destruct C as [C|C]; [discriminate|]); exact C. }
  rewrite E in *. pose proof (gjoin_split colon t) as J. destruct (gsplit colon t) as [|x [|y [|z r]]]; try congruence. unfold aud_generate. cbn [k_ns k_name]. cbn [gjoin] in J. now rewrite J.
Qed.
(* A user with a workload group is only returned if the Kubernetes API accepted the token for exactly the audience of that
   workload group. Everything that AuthenticateToken returns was accepted by the API for some audience. *)
Theorem C52_authenticated_for_group : forall review claims token u aud, authenticate review claims token = Some (u, aud) ->
  review token aud = Some (u_name u) /\ (u_wg u <> okey0 -> aud = aud_generate (u_wg u) /\ exists auds, claims token = Some auds /\ In aud auds).
Proof.
  intros review claims token u aud H. unfold authenticate in H. destruct (claims token) as [auds|] eqn:Ec; [|discriminate]. destruct (review token (first_valid auds)) as [name|] eqn:Er; [|discriminate].
  assert (G: aud = first_valid auds /\ u_name u = name /\ u_wg u = aud_parse (first_valid auds)).
  { destruct (ghas_prefix name (lit "system:serviceaccount:")); [destruct (gsplit colon name) as [|x1 [|x2 [|x3 [|x4 [|]]]]]; try discriminate|]; injection H as <- <-; repeat split. }
  destruct G as (-> & <- & Ew). split; [exact Er|]. intros Hn. rewrite Ew in *. unfold first_valid in *. destruct (find aud_valid auds) as [a|] eqn:Ef; [|exfalso; apply Hn; reflexivity]. apply find_some in Ef. destruct Ef as (Hin & Hv). split; [symmetry; now apply parse_valid|]. eauto.
Qed.
Print Assumptions C52_authenticated_for_group.
(* The service account reference, when there is one, is the one in the authenticated user name. *)
Theorem C52_service_account : forall review claims token u aud, authenticate review claims token = Some (u, aud) -> u_sa u <> okey0 -> u_name u = lit "system:serviceaccount:" ++ k_ns (u_sa u) ++ colon :: k_name (u_sa u).
Proof.
  intros review claims token u aud H Hn. unfold authenticate in H. destruct (claims token) as [auds|] eqn:Ec; [|discriminate]. destruct (review token (first_valid auds)) as [name|] eqn:Er; [|discriminate].
  destruct (ghas_prefix name (lit "system:serviceaccount:")) eqn:Ep; [|injection H as <- <-; exfalso; now apply Hn].
  apply ghas_prefix_spec in Ep. destruct Ep as (t & ->). assert (E: gsplit colon (lit "system:serviceaccount:" ++ t) = lit "system" :: lit "serviceaccount" :: gsplit colon t).
  { change (lit "system:serviceaccount:" ++ t) with (lit "system" ++ colon :: (lit "serviceaccount" ++ colon :: t)). rewrite gsplit_app, gsplit_app; [reflexivity| |]; intros C; cbn in C; repeat (destruct C as [C|C]; [discriminate|]); exact C. }
  rewrite E in H. pose proof (gjoin_split colon t) as J. destruct (gsplit colon t) as [|x [|y [|z r]]]; try discriminate. injection H as <- <-. cbn [u_name u_sa k_ns k_name]. cbn [gjoin] in J. now rewrite J.
Qed.
Print Assumptions C52_service_account.
Example C52_ex : aud_generate (mkkey (lit "ns1") (lit "reviews")) = lit "nasp-heimdall:workloadgroup:ns1:reviews" /\
  authenticate (fun _ a => if geqb a (lit "nasp-heimdall:workloadgroup:ns1:reviews") then Some (lit "system:serviceaccount:ns1:sa1") else None) (fun _ => Some [lit "other"; lit "nasp-heimdall:workloadgroup:ns1:reviews"]) (lit "tok")
  = Some (mkuser (lit "system:serviceaccount:ns1:sa1") (mkkey (lit "ns1") (lit "sa1")) (mkkey (lit "ns1") (lit "reviews")), lit "nasp-heimdall:workloadgroup:ns1:reviews").
Proof. split; reflexivity. Qed.
(* A token without a NASP audience is reviewed for the empty audience and, if that is accepted, authenticates without a group. *)
Theorem C52_no_audience_refuted : forall review claims token auds name, claims token = Some auds -> (forall a, In a auds -> aud_valid a = false) -> review token [] = Some name -> ghas_prefix name (lit "system:serviceaccount:") = false ->
  authenticate review claims token = Some (mkuser name okey0 okey0, []).
Proof.
  intros review claims token auds name Hc Ha Hr Hp. unfold authenticate. rewrite Hc. assert (E: first_valid auds = []) by (unfold first_valid; destruct (find aud_valid auds) as [a|] eqn:Ef; [apply find_some in Ef; destruct Ef as (Hi & Hv); rewrite (Ha a Hi) in Hv; discriminate|reflexivity]). rewrite E, Hr, Hp. reflexivity.
Qed.
Print Assumptions C52_no_audience_refuted.
(* ================= C53 ================= *)
(* The service round-trips exactly when its name has no dot; the namespace may have any. *)
Theorem C53_roundtrip : forall s, pcs_parse (pcs_string s) = Some s <-> ~ In dot (k_name s).
Proof.
  intros [ns name]. unfold pcs_parse, pcs_string, gsplitn. cbn [k_ns k_name Nat.sub]. split.
  - intros H C. destruct (in_split _ _ C) as (l1 & l2 & E). assert (X: exists a b, name = a ++ dot :: b /\ ~ In dot a).
    { clear - C. induction name as [|c name IH]; [destruct C|]. destruct (Ascii.eqb_spec c dot) as [->|Hn]; [exists [], name; split; [reflexivity|intros []]|]. destruct C as [C|C]; [congruence|]. destruct (IH C) as (a & b & -> & Ha). exists (c :: a), b. split; [reflexivity|]. intros [D|D]; [congruence|contradiction]. }
    destruct X as (a & b & -> & Ha). rewrite <- app_assoc in H. cbn [app] in H. rewrite gsplitc_app in H by assumption. cbn [gsplit_cuts] in H. assert (L: length a = length (a ++ dot :: b)) by congruence. rewrite app_length in L. cbn [length] in L. lia.
  - intros H. rewrite gsplitc_app by assumption. reflexivity.
Qed.
Print Assumptions C53_roundtrip.
(* Parsing what was printed never panics, and different services with dot-free names print differently. *)
Theorem C53_parse_total : forall s, pcs_parse (pcs_string s) <> None.
Proof.
  intros [ns name]. unfold pcs_parse, pcs_string, gsplitn. cbn [k_ns k_name Nat.sub]. assert (X: exists a b, name ++ dot :: ns = a ++ dot :: b /\ ~ In dot a). { induction name as [|c name IH]; [exists [], ns; split; [reflexivity|intros []]|]. destruct (Ascii.eqb_spec c dot) as [->|Hn]; [exists [], (name ++ dot :: ns); split; [reflexivity|intros []]|]. destruct IH as (a & b & E & Ha). exists (c :: a), b. split; [cbn; now rewrite E|]. intros [D|D]; [congruence|contradiction]. }
  destruct X as (a & b & -> & Ha). rewrite gsplitc_app by assumption. discriminate.
Qed.
Print Assumptions C53_parse_total.
Theorem C53_injective : forall s t, ~ In dot (k_name s) -> ~ In dot (k_name t) -> pcs_string s = pcs_string t -> s = t.
Proof. intros s t Hs Ht H. apply C53_roundtrip in Hs, Ht. congruence. Qed.
Print Assumptions C53_injective.
Example C53_ex : pcs_parse (lit "web.team.a") = Some (mkkey (lit "team.a") (lit "web")).
Proof. reflexivity. Qed.
(* Any string without a dot makes the parser panic. *)
Theorem C53_parse_panics_refuted : forall str, ~ In dot str -> pcs_parse str = None.
Proof. intros str H. unfold pcs_parse, gsplitn. cbn [Nat.sub]. rewrite gsplitc_nosep by assumption. reflexivity. Qed.
Print Assumptions C53_parse_panics_refuted.
(* ================= C55 ================= *)
Definition first_ip (e : env) : gstr := match e_ips e with ip :: _ => ip | [] => [] end.
Definition clean_env (e : env) : Prop := ~ In tilde (e_type e) /\ ~ In tilde (first_ip e) /\ ~ In tilde (e_pod e) /\ ~ In tilde (e_ns e) /\ ~ In tilde (e_dns e).
Lemma dns_clean : forall e, ~ In tilde (e_dns e) -> ~ In tilde (dns_domain e).
Proof. intros e H. unfold dns_domain. destruct (e_dns e) as [|c r] eqn:E; [|rewrite <- E in *; assumption]. intros C; cbn in C; repeat (destruct C as [C|C]; [discriminate|]); exact C. Qed.
Lemma not_in_app : forall (a : ascii) l m, ~ In a l -> ~ In a m -> ~ In a (l ++ m).
Proof. intros a l m Hl Hm C. apply in_app_iff in C. tauto. Qed.
Lemma parts_clean : forall e, clean_env e -> forall x, In x [e_type e; first_ip e; e_pod e ++ dot :: e_ns e; dns_service_domain e] -> ~ In tilde x.
Proof.
  intros e (C1 & C2 & C3 & C4 & C5) x [<-|[<-|[<-|[<-|[]]]]]; try assumption.
  - apply not_in_app; [assumption|]. intros [C|C]; [discriminate|contradiction].
  - unfold dns_service_domain. apply not_in_app; [assumption|]. apply not_in_app; [|now apply dns_clean]. intros C; cbn in C; repeat (destruct C as [C|C]; [discriminate|]); exact C.
Qed.
Lemma last_dot_inj : forall p n q m, ~ In dot n -> ~ In dot m -> p ++ dot :: n = q ++ dot :: m -> p = q /\ n = m.
Proof.
  intros p n q m Hn Hm H. apply (f_equal (@rev ascii)) in H. rewrite !rev_app_distr in H. cbn [rev] in H. rewrite <- !app_assoc in H. cbn [app] in H. apply app_sep_inj in H; [|now rewrite <- in_rev|now rewrite <- in_rev]. destruct H as (A & B). split; [|apply (f_equal (@rev ascii)) in A; now rewrite !rev_involutive in A]. apply (f_equal (@rev ascii)) in B. now rewrite !rev_involutive in B.
Qed.
(* Environments with the same node id agree on type, IP, pod, namespace and domain, if namespaces have no dot (as Kubernetes
   guarantees) and no part has a '~'. *)
Theorem C55_node_id_injective : forall e f, clean_env e -> clean_env f -> ~ In dot (e_ns e) -> ~ In dot (e_ns f) -> node_id e = node_id f ->
  e_type e = e_type f /\ first_ip e = first_ip f /\ e_pod e = e_pod f /\ e_ns e = e_ns f /\ dns_domain e = dns_domain f.
Proof.
  intros e f He Hf De Df H. unfold node_id in H. fold (first_ip e) in H. fold (first_ip f) in H. apply gjoin_inj in H; [|discriminate|discriminate|now apply parts_clean|now apply parts_clean]. injection H as H1 H2 H3 H4. apply last_dot_inj in H3; [|assumption|assumption]. destruct H3 as (Hp & Hn). unfold dns_service_domain in H4. rewrite Hn in H4. apply app_inv_head in H4. apply app_inv_head in H4. auto.
Qed.
Print Assumptions C55_node_id_injective.
(* The node id has exactly the documented parts. *)
Theorem C55_node_id_parts : forall e, clean_env e -> gsplit tilde (node_id e) = [e_type e; first_ip e; e_pod e ++ dot :: e_ns e; e_ns e ++ lit ".svc." ++ dns_domain e].
Proof. intros e He. unfold node_id. fold (first_ip e). rewrite gsplit_join; [reflexivity|discriminate|now apply parts_clean]. Qed.
Print Assumptions C55_node_id_parts.
Example C55_ex : node_id (mkenv (lit "sidecar") (lit "web-0") (lit "shop") (lit "sa") (lit "web") [lit "10.0.0.1"] [] []) = lit "sidecar~10.0.0.1~web-0.shop~shop.svc.cluster.local".
Proof. reflexivity. Qed.
(* With dots in namespaces two different workloads can have the same node id. *)
Theorem C55_dotted_namespace_refuted : exists e f, clean_env e /\ clean_env f /\ e_ns e <> e_ns f /\ e_pod e <> e_pod f /\ node_id e = node_id f.
Proof.
  exists (mkenv (lit "sidecar") (lit "p.a.svc") (lit "a") [] [] [] (lit "a.svc.x") []), (mkenv (lit "sidecar") (lit "p") (lit "a.svc.a") [] [] [] (lit "x") []).
  assert (N: forall s, existsb (Ascii.eqb tilde) (lit s) = false -> ~ In tilde (lit s)). { intros s H C. assert (T: existsb (Ascii.eqb tilde) (lit s) = true) by (apply existsb_exists; exists tilde; split; [assumption|apply Ascii.eqb_refl]). congruence. }
  split; [split; [apply N; reflexivity|split; [intros []|split; [apply N; reflexivity|split; apply N; reflexivity]]]|]. split; [split; [apply N; reflexivity|split; [intros []|split; [apply N; reflexivity|split; apply N; reflexivity]]]|].
  split; [discriminate|]. split; [discriminate|reflexivity].
Qed.
Print Assumptions C55_dotted_namespace_refuted.
(* ================= C62 ================= *)
Definition slash : ascii := "/"%char.
Definition noslash_env (e : env) : Prop := ~ In slash (e_dns e) /\ ~ In slash (e_ns e).
Lemma dns_noslash : forall e, ~ In slash (e_dns e) -> ~ In slash (dns_domain e).
Proof. intros e H. unfold dns_domain. destruct (e_dns e) as [|c r] eqn:E; [|rewrite <- E in *; assumption]. intros C; cbn in C; repeat (destruct C as [C|C]; [discriminate|]); exact C. Qed.
(* The SPIFFE id, which is also the key of the certificate cache, identifies domain, namespace and service account. *)
Theorem C62_spiffe_injective : forall e f, noslash_env e -> noslash_env f -> spiffe_id e = spiffe_id f -> dns_domain e = dns_domain f /\ e_ns e = e_ns f /\ e_sa e = e_sa f.
Proof.
  intros e f (E1 & E2) (F1 & F2) H. unfold spiffe_id in H. apply app_inv_head in H.
  change (lit "/ns/") with (slash :: lit "ns/") in H. apply app_sep_inj in H; [|now apply dns_noslash|now apply dns_noslash]. destruct H as (Hd & H). split; [exact Hd|]. change (lit "ns/" ++ e_ns e ++ lit "/sa/" ++ e_sa e) with (lit "ns/" ++ (e_ns e ++ lit "/sa/" ++ e_sa e)) in H. apply app_inv_head in H.
  change (lit "/sa/") with (slash :: lit "sa/") in H. apply app_sep_inj in H; [|assumption|assumption]. destruct H as (Hn & H). split; [exact Hn|]. now apply app_inv_head in H.
Qed.
Print Assumptions C62_spiffe_injective.
(* The cluster name identifies workload and namespace (namespaces without dots). *)
Theorem C62_cluster_name_injective : forall e f, ~ In dot (e_ns e) -> ~ In dot (e_ns f) -> cluster_name e = cluster_name f -> e_workload e = e_workload f /\ e_ns e = e_ns f.
Proof. intros e f He Hf H. unfold cluster_name in H. now apply last_dot_inj in H. Qed.
Print Assumptions C62_cluster_name_injective.
(* The configured trust domain never appears in it: the DNS domain is used instead, so in a mesh whose trust domain differs
   the requested identity is not in the trust domain. *)
Theorem C62_trust_domain_ignored_refuted : forall e t, spiffe_id (mkenv (e_type e) (e_pod e) (e_ns e) (e_sa e) (e_workload e) (e_ips e) (e_dns e) t) = spiffe_id e.
Proof. reflexivity. Qed.
Print Assumptions C62_trust_domain_ignored_refuted.
Example C62_ex : spiffe_id (mkenv [] [] (lit "shop") (lit "web") [] [] [] (lit "td.example")) = lit "spiffe://cluster.local/ns/shop/sa/web".
Proof. reflexivity. Qed.
(* ---------- added after seeded-bug tests ---------- *)
(* Exactly what the strings are, with the default DNS domain when none is set. *)
Theorem C55_format : forall e, node_id e = e_type e ++ lit "~" ++ first_ip e ++ lit "~" ++ e_pod e ++ lit "." ++ e_ns e ++ lit "~" ++ e_ns e ++ lit ".svc." ++ (if list_eq_dec ascii_dec (e_dns e) [] then lit "cluster.local" else e_dns e).
Proof.
  intros e. unfold node_id, dns_service_domain, dns_domain, first_ip. cbn [gjoin lit list_ascii_of_string app].
  repeat (rewrite <- app_assoc; cbn [app]). destruct (e_dns e) as [|a d]; reflexivity.
Qed.
Print Assumptions C55_format.
Theorem C62_format : forall e, spiffe_id e = lit "spiffe://" ++ (if list_eq_dec ascii_dec (e_dns e) [] then lit "cluster.local" else e_dns e) ++ lit "/ns/" ++ e_ns e ++ lit "/sa/" ++ e_sa e /\ cluster_name e = e_workload e ++ lit "." ++ e_ns e.
Proof. intros e. unfold spiffe_id, cluster_name, dns_domain. split; [|reflexivity]. destruct (e_dns e) as [|a d]; reflexivity. Qed.
Print Assumptions C62_format.
