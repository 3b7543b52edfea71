(* C21, C22, C24, C26: the requests of the ADS client, readiness, derived names and route matching, stated exactly *)
From Coq Require Import List String Ascii Bool.
From Verif Require Import M_GoMap L_GoMap M_Ads M_AdsRoute.
Import ListNotations.
Open Scope string_scope.
Open Scope list_scope.
(* every new stream starts with one request each for clusters, listeners and the name table, for everything; with the
   state-of-the-world protocol they carry the version and nonce last acknowledged *)
Theorem C24_connect_requests : forall g c, snd (connect g c) =
  map (fun t => if g_incremental g then ReqDelta (type_url t) (if g_delta_wild g then ["*"] else []) [] "" None
                else ReqSotW (type_url t) (c_ver (c t)) (if g_sotw_wild g then ["*"] else []) (c_nonce (c t)) None) [CDS; LDS; NDS].
Proof.
  intros g c. unfold connect, delta_subscription_request, sotw_subscription_request, wild. cbn [snd map].
  change (String.eqb "*" "*") with true. destruct (g_incremental g); [ reflexivity |]. reflexivity.
Qed.
Print Assumptions C24_connect_requests.
(* the client reports itself initialised exactly when every resource type the server provides has been received *)
Theorem C21_initialized_iff : forall g c, is_initialized g c = true <-> forall t, g_provided g t = true -> c_init (c t) = true.
Proof.
  intros g c. unfold is_initialized. rewrite forallb_forall. split.
  - intros H t P. specialize (H t). rewrite P in H. cbn [negb orb] in H. apply H. destruct t; cbn; tauto.
  - intros H t _. destruct (g_provided g t) eqn:P; [| reflexivity ]. cbn. apply H; exact P.
Qed.
Print Assumptions C21_initialized_iff.
Example C21_initialized_ex : is_initialized (mkconfig false true true (fun _ => false)) new_client = true /\ is_initialized (mkconfig false true true (fun t => rtype_eqb t NDS)) new_client = false.
Proof. split; reflexivity. Qed.
(* the route configuration of a listener: the RDS name of the first HTTP connection manager that has one, over all
   filter chains in order *)
Lemma filters_route_app : forall a b, filters_route (a ++ b) = match filters_route a with Some r => Some r | None => filters_route b end.
Proof. induction a as [|[[r|]| |n] a IH]; intros b; cbn; auto. Qed.
Lemma chains_concat : forall cs, chains_route cs = filters_route (List.concat cs).
Proof. induction cs as [|f cs IH]; cbn; [ reflexivity |]. rewrite filters_route_app. destruct (filters_route f); auto. Qed.
Lemma filters_none : forall fs, (forall r, ~ In (FHcm (Some r)) fs) -> filters_route fs = None.
Proof.
  induction fs as [|[[r|]| |n] fs IH]; intros H; cbn; [ reflexivity | exfalso; apply (H r); left; reflexivity | | |]; apply IH; intros r' I; apply (H r'); right; exact I.
Qed.
Theorem C24_route_name_exact : forall l,
  (forall pre r post, List.concat (l_chains l) = pre ++ FHcm (Some r) :: post -> (forall q, ~ In (FHcm (Some q)) pre) -> route_config_name l = r) /\
  ((forall r, ~ In (FHcm (Some r)) (List.concat (l_chains l))) -> route_config_name l = "").
Proof.
  intros l. unfold route_config_name. rewrite chains_concat. split.
  - intros pre r post E H. rewrite E, filters_route_app, filters_none by exact H. reflexivity.
  - intros H. rewrite filters_none by exact H. reflexivity.
Qed.
Print Assumptions C24_route_name_exact.
Example C24_route_name_ex : route_config_name (mklistener "l" true "0.0.0.0" 80 [[FOther "x"; FHcm None]; [FHcm (Some "80"); FHcm (Some "81")]]) = "80".
Proof. reflexivity. Qed.
(* a change of the referenced names sends one request, which names the new set and, in the incremental protocol, gives up
   exactly the names no longer referenced *)
Theorem C24_resubscribe_request : forall g c t names, names <> get_subscribed_names (c t) -> names <> ["*"] ->
  exists unsub, (forall x, In x unsub <-> In x (get_subscribed_names (c t)) /\ ~ In x names) /\
    snd (resubscribe g c t names) = [if g_incremental g then ReqDelta (type_url t) names unsub "" None
                                     else ReqSotW (type_url t) (c_ver (c t)) names (c_nonce (c t)) None] /\
    (g_incremental g = false -> forall n m, In n unsub -> NoDup (map fst (c_res (c t))) -> get_resource n (fst (resubscribe g c t names) t) <> Some m).
Proof.
  intros g c t names NE NS.
  assert (slice_equal names (get_subscribed_names (c t)) = false) as SE.
  { destruct (slice_equal names (get_subscribed_names (c t))) eqn:E; [| reflexivity ]. exfalso. apply NE. clear NE NS.
    revert E. generalize (get_subscribed_names (c t)). induction names as [|x names IH]; intros [|y l] E; cbn in E; try discriminate; [ reflexivity |].
    apply andb_true_iff in E. destruct E as [E1 E2]. apply String.eqb_eq in E1. subst. f_equal. apply IH. exact E2. }
  assert (forall b, wild b names = names) as WI. { intros b. unfold wild. destruct names as [|n [|]]; try reflexivity. destruct (String.eqb n "*") eqn:Q; [| reflexivity ]. apply String.eqb_eq in Q. subst. congruence. }
  assert (rtype_eqb t t = true) as TT by (destruct t; reflexivity).
  exists (subtract (get_subscribed_names (c t)) names). split; [| split ].
  - intros x. unfold subtract. rewrite filter_In, negb_true_iff, mem_false. tauto.
  - unfold resubscribe. rewrite SE. cbn [snd]. unfold delta_subscription_request, sotw_subscription_request. rewrite !WI. f_equal. destruct (g_incremental g); [ reflexivity |].
    unfold upd. rewrite TT. unfold subscribe, set_sub. destruct names; destruct (subtract _ _); try reflexivity; unfold upd; rewrite ?TT; reflexivity.
  - intros GI n m I ND. unfold resubscribe. rewrite SE. cbn [fst]. rewrite GI. unfold upd at 1. rewrite TT.
    assert (forall s, get_resource n (subscribe names s) = get_resource n s) as GS by (intros s; unfold subscribe, set_sub, get_resource; destruct names; reflexivity). rewrite GS.
    destruct (subtract (get_subscribed_names (c t)) names) as [|u us] eqn:U; [ destruct I |]. unfold upd. rewrite TT.
    unfold get_resource, remove_resources, set_res. cbn [c_res].
    assert (forall us (mm : gmap message), In n us -> mget n (fold_left (fun m0 n0 => mdel n0 m0) us mm) = None) as FD.
    { assert (forall us (mm : gmap message), mget n mm = None -> mget n (fold_left (fun m0 n0 => mdel n0 m0) us mm) = None) as F0.
      { intros us0; induction us0 as [|a us0 IH]; intros mm H; cbn; [ exact H |]. apply IH. rewrite mget_mdel. destruct (String.eqb _ _); [ reflexivity | exact H ]. }
      intros us0; induction us0 as [|a us0 IH]; intros mm H; [ destruct H |]. cbn. destruct H as [->|H]; [| apply IH; exact H ]. apply F0. rewrite mget_mdel, String.eqb_refl. reflexivity. }
    rewrite FD by exact I. discriminate.
Qed.
Print Assumptions C24_resubscribe_request.
Example C24_resubscribe_ex : snd (resubscribe (mkconfig true true true (fun _ => true)) (fun _ => mkcache ["a"; "b"] "" "" [] true) EDS ["b"; "c"]) =
  [ReqDelta (type_url EDS) ["b"; "c"] ["a"] "" None].
Proof. reflexivity. Qed.
(* ---------- route matching ---------- *)
Lemma has_prefix_spec : forall p s, has_prefix p s = true <-> exists t, s = (p ++ t)%string.
Proof.
  induction p as [|a p IH]; intros s; cbn; [ split; [ exists s; reflexivity | reflexivity ] |]. destruct s as [|b s]; [ split; [ discriminate | intros (t & E); discriminate ] |].
  rewrite andb_true_iff, IH. split.
  - intros (A & t & ->). apply Ascii.eqb_eq in A. subst. exists t. reflexivity.
  - intros (t & E). injection E as -> ->. split; [ apply Ascii.eqb_refl | exists t; reflexivity ].
Qed.
(* a prefix route matches the paths that start with the prefix, an exact route the path itself, letter case ignored exactly
   when the route says so; a regular expression decides only when neither is given *)
Theorem C26_route_match_exact : forall lib path r,
  let same a b := if match rt_case r with Some false => true | _ => false end then to_lower lib a = to_lower lib b else a = b in
  (rt_prefix r <> "" -> (matches_path lib path r = true <-> exists t, (if match rt_case r with Some false => true | _ => false end then to_lower lib path else path)
      = ((if match rt_case r with Some false => true | _ => false end then to_lower lib (rt_prefix r) else rt_prefix r) ++ t)%string)) /\
  (rt_prefix r = "" -> rt_path r <> "" -> (matches_path lib path r = true <-> same path (rt_path r))) /\
  (rt_prefix r = "" -> rt_path r = "" -> matches_path lib path r = match rt_regex r with Some e => regex_match lib e path | None => false end).
Proof.
  intros lib path r same. unfold matches_path.
  assert (match rt_case r with Some sensitive => negb sensitive | None => false end = match rt_case r with Some false => true | _ => false end) as -> by (destruct (rt_case r) as [[|]|]; reflexivity).
  split; [| split ].
  - intros P. apply String.eqb_neq in P. rewrite P. cbn [negb orb]. cbv zeta. rewrite has_prefix_spec. destruct (match rt_case r with Some false => true | _ => false end); reflexivity.
  - intros -> P. apply String.eqb_neq in P. rewrite P. cbn [negb orb]. change (String.eqb "" "") with true. cbn [negb orb]. cbv zeta. subst same. cbv beta. destruct (match rt_case r with Some false => true | _ => false end); rewrite String.eqb_eq; reflexivity.
  - intros -> ->. reflexivity.
Qed.
Print Assumptions C26_route_match_exact.
