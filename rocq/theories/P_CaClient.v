(* C89: the client of Istio's certificate service. *)
From Coq Require Import String List Ascii Bool Arith ZArith Lia.
From Verif Require Import M_GoStr M_CaClient.
Import ListNotations.
Open Scope list_scope.

Definition usable (L : lib) (t : tls) : Prop := exists c k, t_cert t = Some c /\ t_key t = Some k /\ pair_ok L c k = true.
Definition dated (L : lib) (t : tls) (now : Z) : Prop := exists c e, t_cert t = Some c /\ expiry L c = Some e /\ (now <= e)%Z.
Lemma key_ok_usable : forall L t c, t_cert t = Some c -> (key_ok L c (t_key t) = true <-> usable L t).
Proof.
  intros L t c H. unfold key_ok, usable. split.
  - destruct (t_key t) as [k|] eqn:E; [|discriminate]. intro K. exists c, k. auto.
  - intros [c' [k [H1 [H2 H3]]]]. rewrite H2. congruence.
Qed.
Lemma geqb_nil : forall s, geqb s [] = true <-> s = [].
Proof. intros. unfold geqb. destruct (gstr_eq_dec s []); split; congruence. Qed.

(* a handshake shows the certificate exactly if it can be parsed, is not past its end and fits the key; if it cannot be used the token has to do; one in date that
   does not fit is an error *)
Theorem C89_handshake : forall L t now,
  (dated L t now -> usable L t -> exists c k, t_cert t = Some c /\ t_key t = Some k /\ handshake L t now = (SCert c k, true)) /\
  (dated L t now -> ~ usable L t -> handshake L t now = (SError, false)) /\
  (~ dated L t now -> handshake L t now = (SToken, false)).
Proof.
  intros L t now. split; [|split].
  - intros [c [e [Hc [He Hn]]]] U. pose proof (proj2 (key_ok_usable L t c Hc) U) as K. unfold handshake. rewrite Hc, He, K. destruct (Z.ltb_spec e now); [lia|].
    unfold key_ok in K. destruct (t_key t) as [k|]; [|discriminate]. exists c, k. auto.
  - intros [c [e [Hc [He Hn]]]] U. unfold handshake. rewrite Hc, He. destruct (Z.ltb_spec e now); [lia|].
    destruct (key_ok L c (t_key t)) eqn:K; [|reflexivity]. apply key_ok_usable in K; [contradiction|exact Hc].
  - intro D. unfold handshake. destruct (t_cert t) as [c|] eqn:Hc; [|reflexivity]. destruct (expiry L c) as [e|] eqn:He; [|reflexivity].
    destruct (Z.ltb_spec e now); [reflexivity|]. exfalso. apply D. exists c, e. auto.
Qed.
Print Assumptions C89_handshake.

(* the name that the server's certificate has to have *)
Theorem C89_server_name : forall o, (p_san o <> [] -> server_name o = p_san o) /\
  (p_san o = [] -> gcontains (p_endpoint o) (lit "localhost") = true -> server_name o = lit "istiod.istio-system.svc") /\
  (p_san o = [] -> gcontains (p_endpoint o) (lit "localhost") = false -> server_name o = []).
Proof. intro o. unfold server_name. destruct (p_san o); (split; [congruence|]); split; try congruence; intros _ ->; reflexivity. Qed.
Print Assumptions C89_server_name.

(* a client is made exactly if there are root certificates and the dial works; an empty root certificate, as it comes from a config map without one, is not one *)
Theorem C89_new : forall L o d, (exists c, new_client L o d = Some c) <-> d = true /\ forall t, p_tls o = Some t -> match t_root t with Some r => pool_ok L r = true | None => system_pool L = true end.
Proof.
  intros L o d. unfold new_client, build_ok, roots_ok. destruct (p_tls o) as [t|].
  - destruct (t_root t) as [r|] eqn:E.
    + destruct (pool_ok L r) eqn:P, d; cbn; split; try (intros [c H]; discriminate); try (intros [A B]; specialize (B t eq_refl); rewrite E in B; congruence); intros _; try (split; [reflexivity|]; intros t' H; inversion H; subst; rewrite E; exact P); eauto.
    + destruct (system_pool L) eqn:P, d; cbn; split; try (intros [c H]; discriminate); try (intros [A B]; specialize (B t eq_refl); rewrite E in B; congruence); intros _; try (split; [reflexivity|]; intros t' H; inversion H; subst; rewrite E; reflexivity); eauto.
  - destruct d; cbn; split; try (intros [c H]; discriminate); try (intros [A B]; discriminate); intros _; [split; [reflexivity|intros; discriminate]|eauto].
Qed.
Print Assumptions C89_new.

(* a chain is what the service answered, and has two certificates at least *)
Theorem C89_chain : forall L o d a c l c', sign L o d a c = (OChain l, c') -> a = Some l /\ 2 <= length l.
Proof.
  intros L o d a c l c' H. unfold sign in H. destruct (reconnect L o d c) as [[[|]|] c1]; try discriminate. destruct (existsb _ _); [|discriminate]. destruct a as [l0|]; [|discriminate].
  destruct (Nat.leb_spec (length l0) 1); inversion H; subst. split; [reflexivity|lia].
Qed.
Print Assumptions C89_chain.
(* it panics exactly if client certificates are configured without TLS *)
Theorem C89_panic : forall L o d a c, fst (sign L o d a c) = OPanic <-> p_prov o <> [] /\ c_mtls c = false /\ p_tls o = None.
Proof.
  intros L o d a c. unfold sign, reconnect. destruct (geqb (p_prov o) []) eqn:G; cbn [orb].
  - apply geqb_nil in G. split; [|intros [N _]; congruence]. destruct (existsb _ _); [|discriminate]. destruct a as [l|]; [|discriminate]. destruct (Nat.leb _ _); discriminate.
  - assert (N : p_prov o <> []) by (intro E; apply geqb_nil in E; congruence). destruct (c_mtls c) eqn:M.
    + split; [|intros [_ [E _]]; discriminate]. destruct (existsb _ _); [|discriminate]. destruct a as [l|]; [|discriminate]. destruct (Nat.leb _ _); discriminate.
    + destruct (p_tls o) as [t|] eqn:T; [|cbn; tauto]. split; [|intros [_ [_ E]]; discriminate].
      destruct (t_cert t) as [ce|]; [destruct (key_ok L ce (t_key t)); [destruct (existsb _ (c_open c)) eqn:X; [destruct (build_ok L o d)|]|]|]; try discriminate;
        match goal with |- context [existsb ?f ?g] => destruct (existsb f g) end; try discriminate; (destruct a as [l|]; [|discriminate]); destruct (Nat.leb _ _); discriminate.
Qed.
Print Assumptions C89_panic.

(* ---- the connection over the life of a client ---- *)
Definition inv (c : cl) : Prop := c_conn c < c_made c /\ (c_open c = [c_conn c] \/ c_open c = []).
Lemma sign_state : forall L o d a c, snd (sign L o d a c) = snd (reconnect L o d c).
Proof. intros. unfold sign. destruct (reconnect L o d c) as [[[|]|] c1]; try reflexivity. destruct (existsb _ _); [|reflexivity]. destruct a as [l|]; [|reflexivity]. now destruct (Nat.leb _ _). Qed.
Lemma rem1 : forall n, remove Nat.eq_dec n [n] = [].
Proof. intro. cbn. destruct (Nat.eq_dec n n); [reflexivity|congruence]. Qed.
Lemma ex1 : forall n, existsb (Nat.eqb n) [n] = true.
Proof. intro. cbn. now rewrite Nat.eqb_refl. Qed.
Lemma reconnect_cases : forall L o d c, inv c ->
  (snd (reconnect L o d c) = c /\ ((p_prov o = [] \/ c_mtls c = true \/ p_tls o = None \/ c_open c = [] \/ exists t, p_tls o = Some t /\ ~ usable L t))) \/
  (p_prov o <> [] /\ c_mtls c = false /\ c_open c = [c_conn c] /\ (exists t, p_tls o = Some t /\ usable L t) /\
    ((build_ok L o d = true /\ reconnect L o d c = (Some true, mkcl (c_made c) [c_made c] (S (c_made c)) false)) \/
     (build_ok L o d = false /\ reconnect L o d c = (Some false, mkcl (c_conn c) [] (c_made c) false)))).
Proof.
  intros L o d c [B O]. unfold reconnect. destruct (geqb (p_prov o) []) eqn:G; cbn [orb].
  - apply geqb_nil in G. left. split; [reflexivity|]. now left.
  - assert (N : p_prov o <> []) by (intro E; apply geqb_nil in E; congruence). destruct (c_mtls c) eqn:M; [left; split; [reflexivity|]; right; now left|].
    destruct (p_tls o) as [t|]; [|left; split; [reflexivity|]; right; right; now left].
    assert (NU : (t_cert t = None \/ exists ce, t_cert t = Some ce /\ key_ok L ce (t_key t) = false) -> ~ usable L t).
    { intros [E|[ce [E K]]] U; [destruct U as [x [y [E2 _]]]; congruence|]. apply (key_ok_usable L t ce E) in U. congruence. }
    destruct (t_cert t) as [ce|] eqn:C; [|left; split; [reflexivity|]; right; right; right; right; exists t; auto].
    destruct (key_ok L ce (t_key t)) eqn:K; [|left; split; [reflexivity|]; right; right; right; right; exists t; split; [reflexivity|]; apply NU; right; exists ce; auto].
    apply (key_ok_usable L t ce C) in K. destruct O as [O|O]; rewrite O.
    + rewrite ex1, rem1. right. split; [exact N|]. split; [reflexivity|]. split; [reflexivity|]. split; [exists t; auto|]. destruct (build_ok L o d); [left|right]; auto.
    + cbn [existsb]. left. split; [reflexivity|]. right. right. right. now left.
Qed.
Lemma step_inv : forall L o c e, inv c -> inv (snd (step L o c e)).
Proof.
  intros L o c [now|d a] I; cbn [step].
  - cbn [snd]. destruct (p_tls o) as [t|]; [|exact I]. destruct (_ && _); [|exact I]. exact I.
  - rewrite sign_state. destruct (reconnect_cases L o d c I) as [[E _]|[_ [_ [_ [_ [[_ E]|[_ E]]]]]]]; rewrite E; cbn; [exact I| |].
    + split; cbn; [lia|now left].
    + destruct I as [B _]. split; cbn; [exact B|now right].
Qed.
Lemma run_inv : forall L o es c, inv c -> inv (run L o c es).
Proof. intros L o es. induction es as [|e es IH]; intros c I; cbn; [exact I|]. apply IH. now apply step_inv. Qed.
Lemma new_inv : forall L o d c, new_client L o d = Some c -> inv c /\ c = mkcl 0 [0] 1 false.
Proof. intros L o d c H. unfold new_client in H. destruct (build_ok L o d); inversion H; subst. split; [|reflexivity]. split; cbn; [lia|now left]. Qed.
(* a client never has more than its one connection open *)
Theorem C89_one_connection : forall L o d c es, new_client L o d = Some c -> let c' := run L o c es in c_open c' = [c_conn c'] \/ c_open c' = [].
Proof. intros L o d c es H c'. apply new_inv in H. destruct H as [H _]. exact (proj2 (run_inv L o es c H)). Qed.
Print Assumptions C89_one_connection.
(* without a certificate directory (as in this library), without TLS or with a certificate that does not fit its key: never another one than the first *)
Theorem C89_never_reconnects : forall L o d c es, new_client L o d = Some c -> p_prov o = [] \/ p_tls o = None \/ (exists t, p_tls o = Some t /\ ~ usable L t) ->
  let c' := run L o c es in c_open c' = [0] /\ c_made c' = 1.
Proof.
  intros L o d c es H Q. apply new_inv in H. destruct H as [_ ->].
  assert (G : forall m, let c' := run L o (mkcl 0 [0] 1 m) es in c_open c' = [0] /\ c_made c' = 1); [|apply G].
  induction es as [|e es IH]; intro m; [cbn; auto|]. cbn [run].
  assert (E : exists m', snd (step L o (mkcl 0 [0] 1 m) e) = mkcl 0 [0] 1 m').
  { destruct e as [now|dd a]; cbn [step snd].
    - destruct (p_tls o) as [t|]; [|eauto]. destruct (_ && _); cbn; eauto.
    - rewrite sign_state. assert (I : inv (mkcl 0 [0] 1 m)) by (split; cbn; [lia|now left]). destruct (reconnect_cases L o dd _ I) as [[E _]|[N [_ [_ [[t [T U]] _]]]]]; [rewrite E; eauto|].
      exfalso. destruct Q as [Q|[Q|[t' [Q1 Q2]]]]; [contradiction|congruence|]. rewrite T in Q1. inversion Q1; subst. contradiction. }
  destruct E as [m' E]. rewrite E. apply IH.
Qed.
Print Assumptions C89_never_reconnects.
(* once mutual TLS has been used, that stays, and so does the connection *)
Theorem C89_mtls_stays : forall L o es c, c_mtls c = true -> let c' := run L o c es in c_mtls c' = true /\ c_open c' = c_open c /\ c_conn c' = c_conn c /\ c_made c' = c_made c.
Proof.
  intros L o es. induction es as [|e es IH]; intros c M; [cbn; auto|]. cbn [run].
  assert (E : snd (step L o c e) = c).
  { destruct e as [now|d a]; cbn [step snd].
    - destruct (p_tls o) as [t|]; [|reflexivity]. destruct (_ && _); [|reflexivity]. destruct c; cbn in *. now subst.
    - rewrite sign_state. unfold reconnect. rewrite M, orb_true_r. reflexivity. }
  rewrite E. now apply IH.
Qed.
Print Assumptions C89_mtls_stays.
(* and it is set only by a handshake that showed the certificate *)
Theorem C89_mtls_set : forall L o e c, c_mtls c = false -> c_mtls (snd (step L o c e)) = true -> exists now t ce k, e = EHandshake now /\ p_tls o = Some t /\ fst (handshake L t now) = SCert ce k.
Proof.
  intros L o [now|d a] c M H; cbn [step snd] in H.
  - destruct (p_tls o) as [t|]; [|congruence]. destruct (existsb _ _ && snd (handshake L t now)) eqn:E; [|congruence]. apply andb_true_iff in E. destruct E as [_ E].
    unfold handshake in E |- *. destruct (t_cert t) as [ce|] eqn:C; [|discriminate]. destruct (expiry L ce) as [x|] eqn:X; [|discriminate]. destruct (Z.ltb x now) eqn:Z; [discriminate|]. destruct (key_ok L ce (t_key t)) eqn:K; [|discriminate].
    exists now, t, ce, (match t_key t with Some k => k | None => 0 end). split; [reflexivity|]. split; [reflexivity|]. now rewrite C, X, Z, K.
  - rewrite sign_state in H. unfold reconnect in H. rewrite M in H. destruct (geqb (p_prov o) []); cbn [orb] in H; [cbn in H; congruence|].
    destruct (p_tls o) as [t|]; [|cbn in H; congruence]. destruct (t_cert t) as [ce|]; [|cbn in H; congruence]. destruct (key_ok L ce (t_key t)); [|cbn in H; congruence]. destruct (existsb _ _); [|cbn in H; congruence].
    destruct (build_ok L o d); cbn in H; congruence.
Qed.
Print Assumptions C89_mtls_set.
(* with a certificate to be used, every call before that makes a new connection and ends the old one *)
Theorem C89_reconnects : forall L o d a c t, inv c -> c_open c = [c_conn c] -> p_prov o <> [] -> p_tls o = Some t -> usable L t -> c_mtls c = false -> build_ok L o d = true ->
  snd (sign L o d a c) = mkcl (c_made c) [c_made c] (S (c_made c)) false /\ (forall l, a = Some l -> 2 <= length l -> fst (sign L o d a c) = OChain l).
Proof.
  intros L o d a c t I O N T U M B. destruct (reconnect_cases L o d c I) as [[_ [E|[E|[E|[E|[t' [E1 E2]]]]]]]|[_ [_ [_ [_ [[_ E]|[E _]]]]]]]; try congruence.
  - split; [rewrite sign_state, E; reflexivity|]. intros l -> Hl. unfold sign. rewrite E. cbn [c_conn c_open]. rewrite ex1. destruct (Nat.leb_spec (length l) 1); [lia|reflexivity].
Qed.
Print Assumptions C89_reconnects.
(* not true: a call works once the service can be reached again.  A rebuild that fails leaves the closed connection, and after that nothing is ever signed *)
Theorem C89_closed_for_good : forall L o es c, inv c -> c_open c = [] -> c_open (run L o c es) = [] /\ forall d a l, fst (sign L o d a (run L o c es)) <> OChain l.
Proof.
  intros L o es c I O. assert (R : c_open (run L o c es) = []).
  { revert c I O. induction es as [|e es IH]; intros c I O; [exact O|]. cbn [run]. apply IH; [now apply step_inv|]. destruct e as [now|d a]; cbn [step snd].
    - destruct (p_tls o) as [t|]; [|exact O]. rewrite O. cbn. exact O.
    - rewrite sign_state. destruct (reconnect_cases L o d c I) as [[E _]|[_ [_ [E _]]]]; [now rewrite E|congruence]. }
  split; [exact R|]. intros d a l H. pose proof (run_inv L o es c I) as I'. unfold sign in H.
  assert (S : snd (reconnect L o d (run L o c es)) = run L o c es) by (destruct (reconnect_cases L o d _ I') as [[E _]|[_ [_ [E _]]]]; [exact E|congruence]).
  destruct (reconnect L o d (run L o c es)) as [[[|]|] c1]; try discriminate. cbn in S. subst c1. rewrite R in H. cbn in H. discriminate.
Qed.
Definition demo_lib : lib := mklib (fun _ => Some 100%Z) (fun _ _ => true) (fun _ => true) true.
Definition demo_opts : opts := mkopts (lit "istiod:15012") [] (lit "/etc/certs") (Some (mktls (Some 1) (Some 2) (Some 3))).
Theorem C89_recovers_refuted : exists c es, new_client demo_lib demo_opts true = Some c /\ es = [ESign false None] /\ forall d a l, fst (sign demo_lib demo_opts d a (run demo_lib demo_opts c es)) <> OChain l.
Proof.
  eexists. eexists. split; [reflexivity|]. split; [reflexivity|]. apply (C89_closed_for_good demo_lib demo_opts []); [|reflexivity]. split; cbn; [lia|now right].
Qed.
Print Assumptions C89_closed_for_good.
Print Assumptions C89_recovers_refuted.

(* ---- GetCertificate ---- *)
(* the client shows no certificate: the token is the credential *)
Theorem C89_token_only : forall L ep san root now, match p_tls (ca_opts ep san root) with Some t => handshake L t now = (SToken, false) | None => False end.
Proof. reflexivity. Qed.
(* a certificate in its time is answered from the cache; otherwise one comes back exactly if there are roots, the dial works, the chain has two and fits the key; it is cached then *)
Theorem C89_get : forall L ep san root q s,
  let o := ca_opts ep san root in let '(ok, s') := get_certificate L o q s in
  (forall e, k_cached s = Some e -> (q_now q < e)%Z -> ok = true /\ s' = s) /\
  ((forall e, k_cached s = Some e -> (e <= q_now q)%Z) ->
     (roots_ok L root && q_dial q = false -> ok = false /\ s' = s) /\
     (roots_ok L root && q_dial q = true -> k_open s' = S (k_open s) /\
        (forall l e, q_answer q = Some l -> 2 <= length l -> q_pair q = Some e -> ok = true /\ k_cached s' = Some e) /\
        (ok = true -> exists l e, q_answer q = Some l /\ 2 <= length l /\ q_pair q = Some e /\ k_cached s' = Some e) /\
        (ok = false -> k_cached s' = k_cached s))).
Proof.
  intros L ep san root q s. cbv zeta. unfold get_certificate, new_client, build_ok. cbn [ca_opts p_tls t_root].
  destruct (match k_cached s with Some e => (q_now q <? e)%Z | None => false end) eqn:C.
  - destruct (k_cached s) as [e|] eqn:K; [|discriminate]. apply Z.ltb_lt in C. split; [intros; auto|]. intro H. specialize (H e eq_refl). lia.
  - assert (NC : forall e, k_cached s = Some e -> (q_now q < e)%Z -> False) by (intros e E H; rewrite E in C; apply Z.ltb_ge in C; lia).
    destruct (roots_ok L root && q_dial q) eqn:B.
    + unfold sign, reconnect. cbn [ca_opts p_prov geqb orb c_conn c_open existsb Nat.eqb]. change (geqb [] []) with true. cbn [orb c_conn c_open existsb Nat.eqb].
      destruct (q_answer q) as [l|] eqn:A; [destruct (Nat.leb_spec (length l) 1) as [W|W]; [|destruct (q_pair q) as [e|] eqn:P]|];
        (split; [intros e0 H1 H2; exfalso; eapply NC; eauto|]); intros _; (split; [discriminate|]); intros _; cbn [k_open k_cached c_open length]; (split; [lia|]).
      * split; [intros l0 e0 H1 H2; inversion H1; subst; lia|]. split; [discriminate|reflexivity].
      * split; [intros l0 e0 H1 H2 H3; inversion H1; inversion H3; subst; auto|]. split; [intros _; exists l, e; repeat split; auto; lia|discriminate].
      * split; [intros l0 e0 H1 H2 H3; discriminate|]. split; [discriminate|reflexivity].
      * split; [intros l0 e0 H1; discriminate|]. split; [discriminate|reflexivity].
    + split; [intros e0 H1 H2; exfalso; eapply NC; eauto|]. intros _. split; [auto|discriminate].
Qed.
Print Assumptions C89_get.
(* not true: connections are closed.  None ever is, and each request that reaches the service leaves one, whatever comes of it *)
Theorem C89_never_closed : forall L ep san root qs s, k_open s <= k_open (run_ca L (ca_opts ep san root) s qs).
Proof.
  intros L ep san root qs. induction qs as [|q qs IH]; intro s; [cbn; lia|]. cbn [run_ca]. etransitivity; [|apply IH].
  destruct (get_certificate L (ca_opts ep san root) q s) as [ok s'] eqn:E. cbn [snd].
  unfold get_certificate in E. destruct (match k_cached s with Some e => _ | None => _ end); [inversion E; subst; lia|].
  destruct (new_client L (ca_opts ep san root) (q_dial q)) as [c|]; [|inversion E; subst; lia]. destruct (sign _ _ _ _ c) as [r c']. destruct r; cbv zeta in E; [destruct (q_pair q)| | |]; apply (f_equal snd) in E; cbn in E; subst s'; cbn; lia.
Qed.
Theorem C89_closed_refuted : forall L ep san root n, roots_ok L root = true -> exists qs, length qs = n /\ k_open (run_ca L (ca_opts ep san root) (mkca None 0) qs) = n.
Proof.
  intros L ep san root n R. exists (repeat (mkreq 0 true None None) n). split; [apply repeat_length|].
  assert (G : forall m, k_open (run_ca L (ca_opts ep san root) (mkca None m) (repeat (mkreq 0 true None None) n)) = m + n); [|apply (G 0)].
  induction n as [|n IH]; intro m; [cbn; lia|]. cbn [repeat run_ca].
  assert (E : snd (get_certificate L (ca_opts ep san root) (mkreq 0 true None None) (mkca None m)) = mkca None (m + 1)).
  { unfold get_certificate, new_client, build_ok. cbn [k_cached ca_opts p_tls t_root q_dial]. rewrite R. reflexivity. }
  rewrite E, IH. lia.
Qed.
Print Assumptions C89_never_closed.
Print Assumptions C89_closed_refuted.

(* not vacuous *)
Example C89_inhabited :
  handshake demo_lib (mktls None (Some 2) (Some 3)) 50 = (SCert 3 2, true) /\ handshake demo_lib (mktls None (Some 2) (Some 3)) 101 = (SToken, false) /\
  (exists c, new_client demo_lib demo_opts true = Some c /\ run demo_lib demo_opts c [ESign true None; EHandshake 50; ESign true None] = mkcl 1 [1] 2 true) /\
  get_certificate demo_lib (ca_opts (lit "x:15012") [] None) (mkreq 5 true (Some [lit "a"; lit "b"]) (Some 9%Z)) (mkca None 0) = (true, mkca (Some 9%Z) 1).
Proof. split; [reflexivity|]. split; [reflexivity|]. split; [eexists; split; reflexivity|reflexivity]. Qed.
Print Assumptions C89_inhabited.
