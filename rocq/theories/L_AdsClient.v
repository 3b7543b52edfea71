From Coq Require Import List String Bool Lia.
From Verif Require Import M_GoMap L_GoMap M_Ads S_Ads L_Ads.
Import ListNotations.
Open Scope string_scope.

Lemma rtype_eqb_eq : forall a b, rtype_eqb a b = true <-> a = b.
Proof. intros [] []; cbn; intuition congruence. Qed.
Lemma rtype_eq_dec : forall a b : rtype, a = b \/ a <> b.
Proof. intros [] []; (now left) || (right; discriminate). Qed.
Lemma upd_same : forall c t f, upd c t f t = f (c t).
Proof. intros c [] f; reflexivity. Qed.
Lemma upd_other : forall c t f t', t' <> t -> upd c t f t' = c t'.
Proof. intros c [] f [] H; try reflexivity; congruence. Qed.
Lemma url_rtype : forall t, rtype_of_url (type_url t) = Some t.
Proof. intros []; reflexivity. Qed.
Lemma rtype_url : forall u t, rtype_of_url u = Some t -> u = type_url t.
Proof.
  unfold rtype_of_url. intros u t.
  repeat match goal with |- (if ?b then _ else _) = _ -> _ => let F := fresh "F" in destruct b eqn:F; [intros H; injection H as <-; apply String.eqb_eq in F; exact F|clear F] end. discriminate.
Qed.

(* --- one received response --- *)
Lemma receive_inv : forall g c resp c3 reqs, receive g c resp = Some (c3, reqs) ->
  exists t c1 e c2 r rs, rtype_of_url (url_of resp) = Some t /\ handle_response c resp = (c1, e) /\
    match e with Some e => (c1, nack g c1 resp e) | None => ack g c1 resp end = (c2, r) /\
    on_updated g t c2 = (c3, rs) /\ reqs = r :: rs.
Proof.
  intros g c resp c3 reqs H. unfold receive in H. destruct (rtype_of_url (url_of resp)) as [t|]; [|discriminate].
  destruct (handle_response c resp) as [c1 e]. destruct (match e with Some e0 => (c1, nack g c1 resp e0) | None => ack g c1 resp end) as [c2 r] eqn:E2.
  destruct (on_updated g t c2) as [c4 rs] eqn:E3. injection H as <- <-. exists t, c1, e, c2, r, rs. auto.
Qed.
Lemma ack_err : forall g c resp c' r, ack g c resp = (c', r) -> req_error r = None.
Proof. intros g c [url v nn rs va|url nn rs rem va] c' r H; cbn in H; injection H as _ <-; reflexivity. Qed.
Lemma nack_err : forall g c resp e, req_error (nack g c resp e) = Some e.
Proof. intros g c [url v nn rs va|url nn rs rem va] e; reflexivity. Qed.
Lemma ack_view : forall g c resp c' r t, ack g c resp = (c', r) -> c_sub (c' t) = c_sub (c t) /\ c_res (c' t) = c_res (c t).
Proof.
  intros g c [url v nn rs va|url nn rs rem va] c' r t H; cbn [ack] in H; injection H as <- <-; [|tauto].
  destruct (rtype_of_url url) as [t0|]; [|tauto]. unfold upd. destruct (rtype_eqb t0 t); cbn; tauto.
Qed.
Lemma answered_view : forall g c1 resp (e : option gerr) c2 r t, match e with Some e => (c1, nack g c1 resp e) | None => ack g c1 resp end = (c2, r) ->
  c_sub (c2 t) = c_sub (c1 t) /\ c_res (c2 t) = c_res (c1 t).
Proof. intros g c1 resp [e|] c2 r t H; [injection H as <- <-; tauto|]. eapply ack_view; exact H. Qed.
Lemma answered_error : forall g c1 resp (e : option gerr) c2 r, match e with Some e => (c1, nack g c1 resp e) | None => ack g c1 resp end = (c2, r) ->
  req_error r = e.
Proof. intros g c1 resp [e|] c2 r H; [injection H as <- <-; apply nack_err|]. eapply ack_err; exact H. Qed.

(* --- handling: frame, nothing but the addressed type changes --- *)
Lemma handle_other : forall c resp c1 e t t', handle_response c resp = (c1, e) -> rtype_of_url (url_of resp) = Some t -> t' <> t -> c1 t' = c t'.
Proof.
  intros c [url v nn rs [|]|url nn rs rem [|]] c1 e t t' H Ht Hn; cbn [url_of handle_response] in *; try (injection H as <- _; reflexivity);
    unfold handle_sotw, handle_delta in H; rewrite Ht in H;
    match type of H with (let (s, e) := ?X in _) = _ => destruct X end; injection H as <- _; now rewrite upd_other.
Qed.
Definition brought (resp : response) (n : string) (m : message) : Prop :=
  match resp with
  | RespSotW url _ _ rs _ => exists t, rtype_of_url url = Some t /\ carries t rs n m
  | RespDelta url _ rs _ _ => exists t, rtype_of_url url = Some t /\ offers t rs n m
  end.
Lemma handle_any : forall c resp c1 e t, handle_response c resp = (c1, e) -> rtype_of_url (url_of resp) = Some t ->
  c_sub (c1 t) = c_sub (c t) /\ (forall n m, get_resource n (c1 t) = Some m -> get_resource n (c t) = Some m \/ (subscribed (c t) n /\ brought resp n m))
  /\ (nd (c_res (c t)) -> nd (c_res (c1 t))) /\ c_ver (c1 t) = c_ver (c t) /\ c_nonce (c1 t) = c_nonce (c t).
Proof.
  intros c [url v nn rs [|]|url nn rs rem [|]] c1 e t H Ht; cbn [url_of handle_response] in *; try (injection H as <- _; tauto).
  - unfold handle_sotw in H. rewrite Ht in H.
    assert (Hv: forall replace, c_ver (fst (set_resources t rs replace (c t))) = c_ver (c t) /\ c_nonce (fst (set_resources t rs replace (c t))) = c_nonce (c t)).
    { intros rp. unfold set_resources. destruct rs; [tauto|]. cbv zeta. destruct (set_loop _ _ _ _ _) as [? [?|?]]; tauto. }
    assert (Hvi: c_ver (fst (set_istio_resources rs (c t))) = c_ver (c t) /\ c_nonce (fst (set_istio_resources rs (c t))) = c_nonce (c t)).
    { unfold set_istio_resources. destruct rs; [tauto|]. cbv zeta. destruct (set_istio_loop _ _ _ _) as [? [?|?]]; tauto. }
    assert (Hcase: exists s' , match t with CDS | LDS => set_resources t rs true (c t) | EDS | RDS => set_resources t rs false (c t) | NDS => set_istio_resources rs (c t) end = (s', e) /\ c1 = upd c t (fun _ => s')).
    { match type of H with (let (s, e) := ?X in _) = _ => destruct X as [s' e'] end. injection H as <- <-. eauto. }
    destruct Hcase as (s' & Hs & ->). rewrite upd_same. clear H.
    assert (Hgo: c_sub s' = c_sub (c t) /\ (forall n m, get_resource n s' = Some m -> get_resource n (c t) = Some m \/ (subscribed (c t) n /\ carries t rs n m)) /\ (nd (c_res (c t)) -> nd (c_res s'))).
    { destruct t; try (eapply set_any in Hs; [exact Hs|discriminate]). eapply set_istio_any; exact Hs. }
    destruct Hgo as (G1 & G2 & G3). split; [assumption|]. split; [intros n m Hm; destruct (G2 n m Hm) as [?|[? ?]]; [now left|right; split; [assumption|exists t; auto]]|]. split; [assumption|].
    assert (Ht' := Hv true). assert (Hf' := Hv false). clear Hv. destruct t; cbv iota in Hs; rewrite ?Hs in Ht'; rewrite ?Hs in Hf'; rewrite ?Hs in Hvi; cbn [fst] in *; tauto.
  - unfold handle_delta in H. rewrite Ht in H.
    assert (Hv: c_ver (fst (add_resources t rs (c t))) = c_ver (c t) /\ c_nonce (fst (add_resources t rs (c t))) = c_nonce (c t)).
    { unfold add_resources. destruct rs; [tauto|]. destruct (add_loop _ _ _ _); tauto. }
    destruct (rtype_eq_dec t NDS) as [->|Hn].
    + destruct (add_istio_resources rs (remove_all_resources (c NDS))) as [s' e'] eqn:Hs. injection H as <- <-. rewrite upd_same.
      assert (Hvi: c_ver s' = c_ver (c NDS) /\ c_nonce s' = c_nonce (c NDS)).
      { revert Hs. unfold add_istio_resources. destruct rs; [intros E; injection E as <- <-; tauto|]. destruct (add_istio_loop _ _ _); intros E; injection E as <- <-; tauto. }
      eapply add_istio_any in Hs. destruct Hs as (G1 & G2 & G3). split; [assumption|]. split; [|split; [|assumption]].
      * intros n m Hm. destruct (G2 n m Hm) as [Hx|[Hx Hy]]; [discriminate|]. right. split; [exact Hx|]. exists NDS; auto.
      * intros _. apply G3. constructor.
    + assert (Hcase: exists s' e1, add_resources t rs (c t) = (s', e1) /\ c1 = upd c t (fun _ => match e1 with None => remove_resources rem s' | Some _ => s' end)).
      { destruct t; try congruence; cbv iota beta zeta in H; destruct (add_resources _ rs _) as [s' [e1|]] eqn:Ea; cbn in H; injection H as <- <-; repeat eexists. }
      destruct Hcase as (s' & e1 & Hs & ->). rewrite upd_same. rewrite Hs in Hv. cbn in Hv. eapply add_any in Hs; [|assumption]. destruct Hs as (G1 & G2 & G3).
      assert (G2': forall n m, get_resource n s' = Some m -> get_resource n (c t) = Some m \/ (subscribed (c t) n /\ brought (RespDelta url nn rs rem true) n m)).
      { intros n m Hm. destruct (G2 n m Hm) as [?|[? ?]]; [now left|right; split; [assumption|exists t; auto]]. }
      destruct e1; [tauto|]. cbn [remove_resources c_sub set_res c_ver c_nonce]. split; [assumption|]. split; [|split; [|assumption]].
      * intros n m Hm. apply G2'. unfold get_resource in *. cbn in Hm. rewrite mget_dels in Hm. now destruct (mem n rem).
      * intros Hd. cbn. apply nodup_dels. exact (G3 Hd).
Qed.

(* --- dependent subscriptions --- *)
Lemma slice_equal_eq : forall a b, slice_equal a b = true <-> a = b.
Proof.
  induction a as [|x a IH]; intros [|y b]; cbn; try (split; congruence). rewrite andb_true_iff, IH, String.eqb_eq. split; [intros [-> ->]; reflexivity|intros E; now injection E].
Qed.
Lemma subscribe_get : forall names s, c_res (subscribe names s) = c_res s /\ c_ver (subscribe names s) = c_ver s /\ c_nonce (subscribe names s) = c_nonce s.
Proof. intros [|x l] s; cbn; tauto. Qed.
Lemma in_subtract : forall x a b, In x (subtract a b) <-> In x a /\ ~ In x b.
Proof. intros. unfold subtract. rewrite filter_In, negb_true_iff, mem_false. tauto. Qed.
Lemma get_names : forall s x, In x (get_subscribed_names s) <-> In x (c_sub s).
Proof. intros. unfold get_subscribed_names. now rewrite in_sort, in_set_of. Qed.
Lemma resub_spec : forall g c t names0 c' rs, resubscribe g c t (references names0) = (c', rs) ->
  let names := references names0 in
  (forall t', t' <> t -> c' t' = c t') /\ c_ver (c' t) = c_ver (c t) /\ c_nonce (c' t) = c_nonce (c t) /\ (nd (c_res (c t)) -> nd (c_res (c' t))) /\
  (names = [] -> c_sub (c' t) = c_sub (c t)) /\ (names <> [] -> forall x, In x (c_sub (c' t)) <-> In x names) /\
  (rs = [] <-> (forall x, In x names <-> In x (c_sub (c t)))) /\ (rs = [] -> c' = c) /\
  (forall n, get_resource n (c' t) = if negb (g_incremental g) && (mem n (c_sub (c t)) && negb (mem n names)) then None else get_resource n (c t)) /\
  (rs <> [] -> exists r, rs = [r]).
Proof.
  intros g c t names0 c' rs H names. unfold resubscribe in H. fold names in H.
  assert (Heq: slice_equal names (get_subscribed_names (c t)) = true <-> (forall x, In x names <-> In x (c_sub (c t)))).
  { rewrite slice_equal_eq. unfold names, references, get_subscribed_names. rewrite sorted_sets_eq by apply nodup_set_of. split; intros Hx x; specialize (Hx x).
    - rewrite in_sort. rewrite Hx. apply in_set_of.
    - rewrite in_sort in Hx. rewrite Hx. symmetry. apply in_set_of. }
  destruct (slice_equal names (get_subscribed_names (c t))) eqn:E.
  - injection H as <- <-. assert (Hx := proj1 Heq eq_refl). repeat (split; [tauto||reflexivity|]). split; [intros _ x; symmetry; apply Hx|]. split; [tauto|]. split; [tauto|]. split; [|congruence].
    intros n. destruct (g_incremental g); [reflexivity|]. destruct (mem n (c_sub (c t))) eqn:Em; [|reflexivity]. apply mem_in in Em. apply Hx in Em. apply mem_in in Em. rewrite Em. reflexivity.
  - cbv zeta in H. injection H as <- <-. set (unsub := subtract (get_subscribed_names (c t)) names) in *.
    set (c1 := match unsub with [] => c | _ :: _ => if g_incremental g then c else upd c t (remove_resources unsub) end).
    assert (Hc1: (forall t', t' <> t -> c1 t' = c t') /\ c_sub (c1 t) = c_sub (c t) /\ c_ver (c1 t) = c_ver (c t) /\ c_nonce (c1 t) = c_nonce (c t) /\ (nd (c_res (c t)) -> nd (c_res (c1 t))) /\
      forall n, get_resource n (c1 t) = if negb (g_incremental g) && (mem n (c_sub (c t)) && negb (mem n names)) then None else get_resource n (c t)).
    { assert (Hm: forall n, mem n unsub = mem n (c_sub (c t)) && negb (mem n names)).
      { intros n. apply eq_true_iff_eq. rewrite andb_true_iff, negb_true_iff, !mem_in, mem_false. unfold unsub. now rewrite in_subtract, get_names. }
      assert (Hg: forall n, get_resource n (remove_resources unsub (c t)) = if mem n unsub then None else get_resource n (c t)) by (intros n; apply mget_dels).
      unfold c1. destruct unsub as [|u us] eqn:Eu.
      - repeat (split; [tauto|]). intros n. rewrite <- Hm. cbn. now rewrite andb_false_r.
      - destruct (g_incremental g); [repeat (split; [tauto|]); reflexivity|]. split; [intros; now apply upd_other|]. rewrite upd_same. cbn [remove_resources set_res c_sub c_ver c_nonce].
        repeat (split; [reflexivity|]). split; [intros; cbn [c_res]; apply nodup_dels; assumption|]. intros n. rewrite Hg, Hm. reflexivity. }
    destruct Hc1 as (A1 & A2 & A3 & A4 & A5 & A6). rewrite upd_same. destruct (subscribe_get names (c1 t)) as (S1 & S2 & S3).
    split; [intros t' Ht; rewrite upd_other by assumption; auto|]. split; [congruence|]. split; [congruence|]. split; [now rewrite S1|]. split; [intros ->; exact A2|]. split.
    { intros Hn x. unfold subscribe. destruct names eqn:En; [congruence|]. cbn [set_sub c_sub]. apply in_set_of. }
    split; [split; [discriminate|intros Hx; apply Heq in Hx; discriminate]|]. split; [discriminate|]. split; [|intros _; eexists; reflexivity].
    intros n. unfold get_resource in *. rewrite S1. apply A6.
Qed.
Lemma in_references : forall n l, In n (references l) <-> In n l /\ n <> "".
Proof. intros. unfold references. rewrite in_sort, in_set_of, filter_In, negb_true_iff, String.eqb_neq. tauto. Qed.
Lemma in_resources : forall (s : cache) k m, nd (c_res s) -> In (k, m) (c_res s) <-> get_resource k s = Some m.
Proof. intros. split; [now apply in_mget|apply mget_in]. Qed.
Lemma endpoint_refs : forall c n, nd (c_res (c CDS)) -> In n (cla_references (list_clusters c)) <-> references_endpoints c n.
Proof.
  intros c n Hd. unfold cla_references, references_endpoints, list_clusters, get_resources. rewrite in_references, in_map_iff. split.
  - intros [(cl & Hr & Hi) Hn]. split; [assumption|]. apply in_flat_map in Hi. destruct Hi as ([k m] & Hi & Hj). cbn in Hj. destruct m; try (now destruct Hj). destruct Hj as [->|[]].
    exists k, cl. split; [now apply in_mget|]. unfold cla_reference in Hr. destruct (cl_is_eds cl); [|congruence]. split; [reflexivity|]. now rewrite <- Hr.
  - intros [Hn (k & cl & Hk & He & ->)]. split; [|assumption]. exists cl. split; [unfold cla_reference; now rewrite He|]. apply in_flat_map. exists (k, MCluster cl). split; [now apply mget_in|now left].
Qed.
Lemma route_refs : forall c n, nd (c_res (c LDS)) -> In n (route_references (list_listeners c)) <-> references_route c n.
Proof.
  intros c n Hd. unfold route_references, references_route, list_listeners, get_resources. rewrite in_references, in_map_iff. split.
  - intros [(l & Hr & Hi) Hn]. split; [assumption|]. apply in_flat_map in Hi. destruct Hi as ([k m] & Hi & Hj). cbn in Hj. destruct m; try (now destruct Hj). destruct Hj as [->|[]].
    exists k, l. split; [now apply in_mget|]. unfold route_config_name in Hr. destruct (chains_route (l_chains l)); congruence.
  - intros [Hn (k & l & Hk & He)]. split; [|assumption]. exists l. split; [unfold route_config_name; now rewrite He|]. apply in_flat_map. exists (k, MListener l). split; [now apply mget_in|now left].
Qed.

(* --- invariants of histories --- *)
Definition nd_inv (c : client) := forall t, nd (c_res (c t)).
Definition wild_inv (c : client) := forall t, t = CDS \/ t = LDS \/ t = NDS -> In "*" (c_sub (c t)).
Definition dep (t : rtype) : option rtype := match t with CDS => Some EDS | LDS => Some RDS | _ => None end.
Lemma updated_spec : forall g t c c' rs, on_updated g t c = (c', rs) ->
  match dep t with
  | Some d => exists names0, resubscribe g c d (references names0) = (c', rs)
  | None => c' = c /\ rs = []
  end.
Proof. intros g t c c' rs H. destruct t; cbn in *; try (injection H as <- <-; tauto); unfold on_clusters_updated, on_listeners_updated in H; eexists; exact H. Qed.
Lemma updated_other : forall g t c c' rs t', on_updated g t c = (c', rs) -> dep t <> Some t' -> c' t' = c t'.
Proof.
  intros g t c c' rs t' H Hd. apply updated_spec in H. destruct (dep t) as [d|]; [|now destruct H as [-> _]]. destruct H as (n0 & H). apply resub_spec in H. destruct H as [H _]. apply H. congruence.
Qed.
Lemma updated_nd : forall g t c c' rs, on_updated g t c = (c', rs) -> nd_inv c -> nd_inv c'.
Proof.
  intros g t c c' rs H Hn t'. assert (Hs := updated_spec _ _ _ _ _ H). destruct (dep t) as [d|] eqn:Ed; [|destruct Hs as [-> _]; apply Hn].
  destruct Hs as (n0 & Hs). apply resub_spec in Hs. destruct Hs as (H1 & _ & _ & H4 & _). destruct (rtype_eq_dec t' d) as [->|Hne]; [apply H4, Hn|]. rewrite H1 by assumption. apply Hn.
Qed.
Lemma step_nd : forall g c e, nd_inv c -> nd_inv (fst (step g c e)).
Proof.
  intros g c [|resp] Hn; cbn [step].
  - cbn. intros t. specialize (Hn t). destruct t; cbn; assumption.
  - destruct (receive g c resp) as [[c3 reqs]|] eqn:E; [|exact Hn]. cbn. apply receive_inv in E. destruct E as (t & c1 & e & c2 & r & rs & Ht & Hh & Ha & Hu & ->).
    eapply updated_nd; [exact Hu|]. intros t'. destruct (answered_view _ _ _ _ _ _ t' Ha) as [_ ->]. destruct (rtype_eq_dec t' t) as [->|Hne].
    + eapply handle_any; [exact Hh|exact Ht|apply Hn].
    + rewrite (handle_other _ _ _ _ _ _ Hh Ht Hne). apply Hn.
Qed.
Lemma run_app : forall g c es1 es2, run g c (es1 ++ es2) = run g (run g c es1) es2.
Proof. intros g c es1. revert c. induction es1 as [|e es1 IH]; intros; cbn; [reflexivity|apply IH]. Qed.
Lemma run_inv : forall (P : client -> Prop) g, (forall c e, P c -> P (fst (step g c e))) -> forall es c, P c -> P (run g c es).
Proof. intros P g Hs. induction es as [|e es IH]; cbn; intros c H; [assumption|]. apply IH. auto. Qed.
Lemma run_nd : forall g es, nd_inv (run g new_client es).
Proof. intros. apply (run_inv nd_inv g (step_nd g)). intros t. constructor. Qed.
Lemma connect_wild : forall g c, wild_inv (fst (connect g c)).
Proof. intros g c t [->|[->| ->]]; cbn; now left. Qed.
Lemma step_wild : forall g c e, wild_inv c -> wild_inv (fst (step g c e)).
Proof.
  intros g c [|resp] Hn; cbn [step]; [apply connect_wild|].
  destruct (receive g c resp) as [[c3 reqs]|] eqn:E; [|exact Hn]. cbn. apply receive_inv in E. destruct E as (t & c1 & e & c2 & r & rs & Ht & Hh & Ha & Hu & ->).
  intros t' Hw. rewrite (updated_other _ _ _ _ _ t' Hu).
  2: { destruct t; cbn; try discriminate; destruct Hw as [->|[->| ->]]; discriminate. }
  destruct (answered_view _ _ _ _ _ _ t' Ha) as [-> _]. destruct (rtype_eq_dec t' t) as [->|Hne].
  - destruct (handle_any _ _ _ _ _ Hh Ht) as (-> & _). now apply Hn.
  - rewrite (handle_other _ _ _ _ _ _ Hh Ht Hne). now apply Hn.
Qed.
Lemma run_wild : forall g es, wild_inv (run g new_client (EConnect :: es)).
Proof. intros. cbn [run]. apply (run_inv wild_inv g (step_wild g)). apply connect_wild. Qed.

(* versions *)
Lemma step_ver : forall g c e t, c_ver (fst (step g c e) t) = last_acked t (c_ver (c t)) [(e, snd (step g c e))].
Proof.
  intros g c [|resp] t; cbn [step].
  - cbn. destruct t; reflexivity.
  - destruct (receive g c resp) as [[c3 reqs]|] eqn:E.
    2: { cbn. destruct resp; reflexivity. }
    cbn [fst snd]. apply receive_inv in E. destruct E as (t0 & c1 & e & c2 & r & rs & Ht & Hh & Ha & Hu & ->).
    assert (H3: c_ver (c3 t) = c_ver (c2 t)).
    { assert (Hs := updated_spec _ _ _ _ _ Hu). destruct (dep t0) as [d|] eqn:Ed; [|destruct Hs as [-> _]; reflexivity]. destruct Hs as (n0 & Hs). apply resub_spec in Hs. destruct Hs as (X1 & X2 & _).
      destruct (rtype_eq_dec t d) as [->|Hne]; [assumption|]. now rewrite X1. }
    assert (H1: c_ver (c1 t) = c_ver (c t)).
    { destruct (rtype_eq_dec t t0) as [->|Hne]; [now destruct (handle_any _ _ _ _ _ Hh Ht) as (_ & _ & _ & -> & _)|]. now rewrite (handle_other _ _ _ _ _ _ Hh Ht Hne). }
    assert (Her := answered_error _ _ _ _ _ _ Ha). rewrite H3. destruct resp as [url v nn rsrc va|url nn rsrc rem va]; cbn [last_acked url_of] in *.
    + apply rtype_url in Ht. subst url. destruct (rtype_eq_dec t t0) as [->|Hne].
      * rewrite String.eqb_refl, Her. destruct e as [e|]; [injection Ha as <- <-; exact H1|]. cbn [ack] in Ha. rewrite url_rtype in Ha. injection Ha as <- <-. now rewrite upd_same.
      * assert (Hb: String.eqb (type_url t0) (type_url t) = false). { apply String.eqb_neq. intros Hc. apply Hne. assert (X := f_equal rtype_of_url Hc). rewrite !url_rtype in X. congruence. }
        rewrite Hb. destruct e as [e|]; [injection Ha as <- <-; exact H1|]. cbn [ack] in Ha. rewrite url_rtype in Ha. injection Ha as <- <-. now rewrite upd_other.
    + destruct e as [e|]; injection Ha as <- <-; exact H1.
Qed.
Lemma last_acked_app : forall t tr1 tr2 a, last_acked t a (tr1 ++ tr2) = last_acked t (last_acked t a tr1) tr2.
Proof.
  induction tr1 as [|[e reqs] tr1 IH]; intros tr2 a; [reflexivity|]. cbn [app last_acked]. destruct e as [|[url v nn rsrc va|]]; auto. destruct reqs; auto. destruct (String.eqb url (type_url t)); auto.
Qed.
Lemma run_ver : forall g es c t, c_ver (run g c es t) = last_acked t (c_ver (c t)) (trace g c es).
Proof.
  induction es as [|e es IH]; intros c t; cbn [run trace]; [reflexivity|]. rewrite IH, step_ver. change ((e, snd (step g c e)) :: trace g (fst (step g c e)) es) with ([(e, snd (step g c e))] ++ trace g (fst (step g c e)) es)%list.
  now rewrite last_acked_app.
Qed.
