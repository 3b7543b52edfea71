(* C72: the access token of a WorkloadGroup *)
From Coq Require Import String List Ascii Bool ZArith Lia.
From Verif Require Import M_GoStr L_GoStr M_Identity P_Identity M_WgToken.
Import ListNotations.
Open Scope list_scope.
Lemma keqb_spec : forall a b, keqb a b = true <-> a = b.
Proof. intros [a1 a2] [b1 b2]. unfold keqb; cbn. rewrite andb_true_iff, !geqb_eq. split; [ intros [-> ->]; reflexivity | intros E; inversion E; auto ]. Qed.
Lemma key_dec : forall a b : okey, {a = b} + {a <> b}.
Proof. intros [a1 a2] [b1 b2]. destruct (gstr_eq_dec a1 b1), (gstr_eq_dec a2 b2); subst; [ left; reflexivity | right; congruence | right; congruence | right; congruence ]. Defined.
Lemma sput_same : forall st k v, sput st k v k = v.
Proof. intros. unfold sput. destruct (keqb k k) eqn:E; [ reflexivity |]. pose proof (proj2 (keqb_spec k k) eq_refl). congruence. Qed.
Lemma sput_other : forall st k v x, x <> k -> sput st k v x = st x.
Proof. intros. unfold sput. destruct (keqb x k) eqn:E; [ apply keqb_spec in E; congruence | reflexivity ]. Qed.
(* ---------- names ---------- *)
(* the Secret is "<group>-nasp-token" in the group's namespace; different groups have different Secrets *)
Theorem C72_secret_name : forall k, k_ns (secret_key k) = k_ns k /\ k_name (secret_key k) = k_name k ++ lit "-nasp-token".
Proof. intros; split; reflexivity. Qed.
Theorem C72_secret_injective : forall a b, secret_key a = secret_key b -> a = b.
Proof. intros [a1 a2] [b1 b2] E. unfold secret_key in E. cbn in E. injection E as E1 E2. apply app_inv_tail in E2. subst; reflexivity. Qed.
(* ---------- one reconciliation ---------- *)
Ltac open_rec := unfold reconcile, create_token, delete_token.
(* no other Secret is ever created, changed or deleted *)
Theorem C72_others_untouched : forall parse pdur x wgs k st sk, sk <> secret_key k -> fst (reconcile parse pdur x wgs k st) sk = st sk.
Proof.
  intros until sk; intros N. open_rec.
  destruct (x_wg_err x); [ reflexivity |]. destruct (wgs k) as [w|]; [| reflexivity ].
  destruct (has_nasp w).
  - destruct (x_get_err x); [ reflexivity |].
    destruct (s_token _) as [t|].
    + destruct (parse t) as [[e|]|]; try reflexivity.
      destruct (e <? x_now x + margin)%Z; [ destruct (new_token pdur x k w) |]; try reflexivity;
        destruct (x_write_err x); try reflexivity; cbn [fst]; apply sput_other; exact N.
    + destruct (new_token pdur x k w); [| reflexivity ]. destruct (x_write_err x); [ reflexivity |]. cbn [fst]; apply sput_other; exact N.
  - destruct (x_write_err x); [ reflexivity |]. cbn [fst]; apply sput_other; exact N.
Qed.
(* a reconciliation that does not succeed changes nothing *)
Theorem C72_failure_changes_nothing : forall parse pdur x wgs k st st' o, reconcile parse pdur x wgs k st = (st', o) -> o = Failed \/ o = Panicked -> st' = st.
Proof.
  intros until o. open_rec. intros E Ho.
  destruct (x_wg_err x); [ congruence |]. destruct (wgs k) as [w|]; [| congruence ].
  destruct (has_nasp w).
  - destruct (x_get_err x); [ congruence |].
    destruct (s_token _) as [t|].
    + destruct (parse t) as [[e|]|]; try congruence.
      destruct (e <? x_now x + margin)%Z; [ destruct (new_token pdur x k w) |]; try congruence;
        destruct (x_write_err x); try congruence; injection E as <- <-; destruct Ho; discriminate.
    + destruct (new_token pdur x k w); [| congruence ]. destruct (x_write_err x); [ congruence |]. injection E as <- <-; destruct Ho; discriminate.
  - destruct (x_write_err x); [ congruence |]. injection E as <- <-; destruct Ho; discriminate.
Qed.
(* what a successful reconciliation of a labelled group leaves behind: either the token that was there, with at least ten
   minutes to live, or a token just issued for the group's service account, namespace and audience *)
Definition lifetime (pdur : gstr -> option Z) (w : wgroup) (d : Z) : Prop :=
  match w_dur w with Some a => pdur a = Some d | None => pdur (lit "24h") = Some d end.
Theorem C72_success : forall parse pdur x wgs k st st' r w, wgs k = Some w -> w_nasp w = Some (lit "true") ->
  reconcile parse pdur x wgs k st = (st', Requeue r) ->
  exists s t, st' (secret_key k) = Some s /\ s_token s = Some t /\
    ((exists s0 e, st (secret_key k) = Some s0 /\ s_token s0 = Some t /\ parse t = Some (Some e) /\ (x_now x + margin <= e)%Z /\ s = s0)
     \/ (exists d, lifetime pdur w d /\ x_issue x (w_sa w) (k_ns k) (aud_generate k) (Z.quot d 1000000000) = Some t /\
         (forall s0 t0 e, st (secret_key k) = Some s0 -> s_token s0 = Some t0 -> parse t0 = Some (Some e) -> (e < x_now x + margin)%Z))).
Proof.
  intros parse pdur x wgs k st st' r w W L E. unfold reconcile in E. destruct (x_wg_err x); [ discriminate |]. rewrite W in E.
  assert (has_nasp w = true) as HN by (unfold has_nasp; rewrite L; apply geqb_refl). rewrite HN in E.
  unfold create_token in E. destruct (x_get_err x); [ discriminate |].
  set (sec := match st (secret_key k) with Some s => s | None => mksecret (Some k) nasp_type (Some (k_name k)) None end) in *.
  assert (forall t0, s_token sec = Some t0 -> exists s0, st (secret_key k) = Some s0 /\ sec = s0 /\ s_token s0 = Some t0) as HS.
  { intros t0 H. destruct (st (secret_key k)) as [s0|]; subst sec; [ exists s0; auto | discriminate H ]. }
  assert (forall t, new_token pdur x k w = Some t -> exists d, lifetime pdur w d /\ x_issue x (w_sa w) (k_ns k) (aud_generate k) (Z.quot d 1000000000) = Some t) as HI.
  { intros t H. unfold new_token in H. unfold lifetime. destruct (w_dur w) as [a|].
    - destruct (pdur a) as [d|]; [| discriminate ]. exists d; auto.
    - destruct (pdur (lit "24h")) as [d|] eqn:Q; [| discriminate ]. exists d; auto. }
  assert (forall s0, st (secret_key k) = Some s0 -> sec = s0) as HE by (intros s0 H; subst sec; rewrite H; reflexivity).
  clearbody sec.
  destruct (s_token sec) as [t|] eqn:T.
  - destruct (HS t eq_refl) as (s0 & S1 & S2 & S3).
    destruct (parse t) as [[e|]|] eqn:P; try discriminate.
    destruct (e <? x_now x + margin)%Z eqn:C.
    + destruct (new_token pdur x k w) as [t'|] eqn:NT; [| discriminate ]. destruct (x_write_err x); [ discriminate |].
      injection E as <- _. eexists; exists t'. split; [ apply sput_same |]. split; [ reflexivity |]. right.
      destruct (HI t' eq_refl) as (d & D1 & D2). exists d. split; [ exact D1 |]. split; [ exact D2 |].
      intros s1 t1 e1 Q1 Q2 Q3. rewrite S1 in Q1. injection Q1 as <-. rewrite S3 in Q2. injection Q2 as <-. rewrite P in Q3. injection Q3 as <-. apply Z.ltb_lt; exact C.
    + destruct (x_write_err x); [ discriminate |]. injection E as <- _. eexists; exists t. split; [ apply sput_same |]. split; [ reflexivity |]. left.
      exists s0, e. apply Z.ltb_ge in C. repeat split; auto. subst sec. destruct s0; cbn in *. subst; reflexivity.
  - destruct (new_token pdur x k w) as [t'|] eqn:NT; [| discriminate ]. destruct (x_write_err x); [ discriminate |].
    injection E as <- _. eexists; exists t'. split; [ apply sput_same |]. split; [ reflexivity |]. right.
    destruct (HI t' eq_refl) as (d & D1 & D2). exists d. split; [ exact D1 |]. split; [ exact D2 |].
    intros s1 t1 e1 Q1 Q2 Q3. rewrite (HE s1 Q1) in T. congruence.
Qed.
(* the token issued names the group: its audience parses back to the group and to no other *)
Theorem C72_audience_is_group : forall k k', no_colon k -> no_colon k' -> aud_parse (aud_generate k) = k /\ (aud_generate k' = aud_generate k -> k' = k).
Proof. intros. split; [ apply C52_roundtrip; assumption | intros; apply C52_injective; assumption ]. Qed.
(* an issuer that gives every token the lifetime asked for *)
Definition honest (parse : gstr -> option (option Z)) (x : world) : Prop := forall sa ns aud secs t, x_issue x sa ns aud secs = Some t ->
  exists e, parse t = Some (Some e) /\ (x_now x + secs * 1000000000 <= e)%Z.
(* "the group's token is good until u" *)
Definition good_until (parse : gstr -> option (option Z)) (st : secrets) (k : okey) (u : Z) : Prop :=
  exists s t e, st (secret_key k) = Some s /\ s_token s = Some t /\ parse t = Some (Some e) /\ (u <= e)%Z.
Theorem C72_success_lifetime : forall parse pdur x wgs k st st' r w d, wgs k = Some w -> w_nasp w = Some (lit "true") -> lifetime pdur w d -> honest parse x ->
  reconcile parse pdur x wgs k st = (st', Requeue r) -> good_until parse st' k (x_now x + Z.min margin (Z.quot d 1000000000 * 1000000000)).
Proof.
  intros until d; intros W L D H E. destruct (C72_success _ _ _ _ _ _ _ _ _ W L E) as (s & t & S1 & S2 & [(s0 & e & A & B & C & F & G)|(d' & A & B & _)]).
  - exists s, t, e. repeat split; auto. lia.
  - assert (d' = d) as -> by (unfold lifetime in *; destruct (w_dur w); congruence).
    destruct (H _ _ _ _ _ B) as (e & P & Q). exists s, t, e. repeat split; auto. lia.
Qed.
Definition is_ok (o : outcome) : Prop := exists a, o = Requeue a.
(* the token is never expired: if from the last successful reconciliation of the group not more than ten minutes (and not
   more than the token lifetime) have passed, the token is still good, whatever failed in between and whatever other groups
   are reconciled *)
Theorem C72_never_expires : forall parse pdur pre mid x wgs k w d st t,
  wgs k = Some w -> w_nasp w = Some (lit "true") -> lifetime pdur w d -> honest parse x ->
  is_ok (snd (reconcile parse pdur x wgs k (runs parse pdur pre st))) ->
  (forall r1 r2 r, mid = r1 ++ r :: r2 -> r_key r = k ->
     ~ is_ok (snd (reconcile parse pdur (r_world r) (r_wgs r) k (runs parse pdur (pre ++ mkround x wgs k :: r1) st)))) ->
  (t <= x_now x + Z.min margin (Z.quot d 1000000000 * 1000000000))%Z ->
  good_until parse (runs parse pdur (pre ++ mkround x wgs k :: mid) st) k t.
Proof.
  assert (forall parse pdur a b st, runs parse pdur (a ++ b) st = runs parse pdur b (runs parse pdur a st)) as RA.
  { intros parse pdur a; induction a; cbn; intros; [ reflexivity | apply IHa ]. }
  intros parse pdur pre mid x wgs k w d st t W L D H [a OK] MID T.
  rewrite RA. cbn [runs r_world r_wgs r_key].
  assert (good_until parse (fst (reconcile parse pdur x wgs k (runs parse pdur pre st))) k (x_now x + Z.min margin (Z.quot d 1000000000 * 1000000000))) as G.
  { destruct (reconcile parse pdur x wgs k (runs parse pdur pre st)) as [s1 o] eqn:R. cbn [snd fst] in *. subst o. eapply C72_success_lifetime; eauto. }
  assert (forall r1 r2 r, mid = r1 ++ r :: r2 -> r_key r = k ->
     ~ is_ok (snd (reconcile parse pdur (r_world r) (r_wgs r) k (runs parse pdur r1 (fst (reconcile parse pdur x wgs k (runs parse pdur pre st))))))) as MID'.
  { intros r1 r2 r E1 E2. specialize (MID r1 r2 r E1 E2). rewrite RA in MID. exact MID. }
  clear MID OK. revert G MID'. generalize (fst (reconcile parse pdur x wgs k (runs parse pdur pre st))) as s0. clear st pre RA.
  induction mid as [|r mid IH]; intros s0 G MID.
  - destruct G as (s & tt & e & A & B & C & F). exists s, tt, e. repeat split; auto. lia.
  - cbn [runs]. apply IH.
    + destruct G as (s & tt & e & A & B & C & F). exists s, tt, e. repeat split; auto.
      destruct (key_dec (r_key r) k) as [E|N].
      * specialize (MID [] mid r eq_refl E). cbn [runs] in MID. rewrite E.
        destruct (reconcile parse pdur (r_world r) (r_wgs r) k s0) as [s1 o] eqn:R. cbn [fst snd] in *.
        destruct o; [ exfalso; apply MID; eexists; reflexivity | |]; rewrite (C72_failure_changes_nothing _ _ _ _ _ _ _ _ R); auto.
      * rewrite C72_others_untouched; [ exact A |]. intros Q. apply C72_secret_injective in Q. congruence.
    + intros r1 r2 r' E1 E2. specialize (MID (r :: r1) r2 r'). cbn [app] in MID. rewrite E1 in MID. specialize (MID eq_refl E2). exact MID.
Qed.
(* no churn: with at least ten minutes left nothing changes and no token is issued *)
Theorem C72_no_churn : forall parse pdur x wgs k st w s t e, wgs k = Some w -> has_nasp w = true -> x_wg_err x = false -> x_get_err x = false -> x_write_err x = false ->
  st (secret_key k) = Some s -> s_token s = Some t -> parse t = Some (Some e) -> (x_now x + margin <= e)%Z ->
  exists st', reconcile parse pdur x wgs k st = (st', Requeue (5 * 60 * 1000000000)) /\ forall q, st' q = st q.
Proof.
  intros parse pdur x wgs k st w s t e W L E1 E2 E3 S T P C. unfold reconcile. rewrite E1, W, L. unfold create_token. rewrite E2, S, T, P.
  replace (e <? x_now x + margin)%Z with false by (symmetry; apply Z.ltb_ge; lia). rewrite E3.
  eexists; split; [ reflexivity |]. intros q. destruct (keqb q (secret_key k)) eqn:Q.
  - apply keqb_spec in Q. subst q. rewrite sput_same, S. f_equal. destruct s; cbn in *; congruence.
  - apply sput_other. intros ->. pose proof (proj2 (keqb_spec (secret_key k) (secret_key k)) eq_refl). congruence.
Qed.
(* a first reconciliation succeeds and the new Secret is owned by, typed and labelled for the group *)
Theorem C72_first_token : forall parse pdur x wgs k st w d t, wgs k = Some w -> has_nasp w = true -> x_wg_err x = false -> x_get_err x = false -> x_write_err x = false ->
  st (secret_key k) = None -> lifetime pdur w d -> x_issue x (w_sa w) (k_ns k) (aud_generate k) (Z.quot d 1000000000) = Some t ->
  exists st', reconcile parse pdur x wgs k st = (st', Requeue (5 * 60 * 1000000000)) /\
    st' (secret_key k) = Some (mksecret (Some k) (lit "nasp.k8s.cisco.com/access-token") (Some (k_name k)) (Some t)).
Proof.
  intros parse pdur x wgs k st w d t W L E1 E2 E3 S D I. unfold reconcile. rewrite E1, W, L. unfold create_token. rewrite E2, S. cbn [s_token].
  assert (new_token pdur x k w = Some t) as ->. { unfold new_token. unfold lifetime in D. destruct (w_dur w) as [a|]; [ rewrite D | rewrite D ]; exact I. }
  rewrite E3. eexists; split; [ reflexivity |]. apply sput_same.
Qed.
(* a group that loses the label loses its Secret; the update that removes the label is not filtered out *)
Theorem C72_label_removed : forall parse pdur x wgs k st old w, wgs k = Some w -> has_nasp w = false -> has_nasp old = true -> x_wg_err x = false -> x_write_err x = false ->
  triggers (Updated old w) = true /\ exists st', reconcile parse pdur x wgs k st = (st', Requeue (5 * 60 * 1000000000)) /\ st' (secret_key k) = None.
Proof.
  intros parse pdur x wgs k st old w W L O E1 E2. split; [ cbn; rewrite O; reflexivity |]. unfold reconcile. rewrite E1, W, L. unfold delete_token. rewrite E2.
  eexists; split; [ reflexivity |]. apply sput_same.
Qed.
Theorem C72_trigger_exact : forall e, triggers e = true <->
  match e with Created w => w_nasp w = Some (lit "true") | Updated o n => w_nasp o = Some (lit "true") \/ w_nasp n = Some (lit "true") | Deleted w => w_nasp w = Some (lit "true") end.
Proof.
  assert (forall w, has_nasp w = true <-> w_nasp w = Some (lit "true")) as H.
  { intros w. unfold has_nasp. destruct (w_nasp w) as [v|]; [| split; discriminate ]. rewrite geqb_eq. split; [ intros ->; reflexivity | congruence ]. }
  intros [w|o n|w]; cbn; rewrite ?orb_true_iff, ?H; tauto.
Qed.
(* ---------- where the English claim is false ---------- *)
(* a token that does not parse is never replaced: every later reconciliation of the group fails, and the Secret stays *)
Theorem C72_garbage_never_repaired_refuted : forall parse pdur rs k st s t, st (secret_key k) = Some s -> s_token s = Some t -> parse t = None ->
  (forall r w, In r rs -> r_key r = k -> r_wgs r k = Some w -> has_nasp w = true) ->
  runs parse pdur rs st (secret_key k) = Some s /\ (forall x wgs w, wgs k = Some w -> has_nasp w = true -> snd (reconcile parse pdur x wgs k (runs parse pdur rs st)) = Failed).
Proof.
  intros parse pdur rs k st s t S T P ALL.
  assert (forall st x wgs w, st (secret_key k) = Some s -> wgs k = Some w -> has_nasp w = true -> reconcile parse pdur x wgs k st = (st, Failed)) as F.
  { intros st0 x wgs w S0 W L. unfold reconcile. destruct (x_wg_err x); [ reflexivity |]. rewrite W, L. unfold create_token. destruct (x_get_err x); [ reflexivity |]. rewrite S0, T, P. reflexivity. }
  assert (runs parse pdur rs st (secret_key k) = Some s) as R.
  { revert st S. induction rs as [|r rs IH]; intros st S; [ exact S |]. cbn [runs]. apply IH; [ intros; eapply ALL; eauto; right; auto |].
    destruct (key_dec (r_key r) k) as [E|N].
    - rewrite E. destruct (r_wgs r k) as [w|] eqn:W.
      + rewrite (F st (r_world r) (r_wgs r) w S W (ALL r w (or_introl eq_refl) E W)). exact S.
      + unfold reconcile. destruct (x_wg_err (r_world r)); [ exact S |]. rewrite W. exact S.
    - rewrite C72_others_untouched; [ exact S |]. intros Q. apply C72_secret_injective in Q. congruence. }
  split; [ exact R |]. intros. erewrite F; eauto.
Qed.
(* a token without an expiry stops the controller *)
Theorem C72_no_expiry_panics_refuted : forall parse pdur x wgs k st w s t, wgs k = Some w -> has_nasp w = true -> x_wg_err x = false -> x_get_err x = false ->
  st (secret_key k) = Some s -> s_token s = Some t -> parse t = Some None -> snd (reconcile parse pdur x wgs k st) = Panicked.
Proof. intros parse pdur x wgs k st w s t W L E1 E2 S T P. unfold reconcile. rewrite E1, W, L. unfold create_token. rewrite E2, S, T, P. reflexivity. Qed.
(* changing the service account or the lifetime of a group has no effect while the old token has ten minutes left: the
   Secret keeps a token of the old service account *)
Theorem C72_new_service_account_ignored_refuted : forall parse pdur x wgs k st s t e, x_wg_err x = false -> x_get_err x = false -> x_write_err x = false ->
  st (secret_key k) = Some s -> s_token s = Some t -> parse t = Some (Some e) -> (x_now x + margin <= e)%Z ->
  forall sa dur, wgs k = Some (mkwg (Some (lit "true")) dur sa) -> exists st', reconcile parse pdur x wgs k st = (st', Requeue (5 * 60 * 1000000000)) /\ st' (secret_key k) = Some s.
Proof.
  intros until e; intros E1 E2 E3 S T P C sa dur W.
  destruct (C72_no_churn parse pdur x wgs k st _ s t e W eq_refl E1 E2 E3 S T P C) as (st' & R & Q). exists st'. split; [ exact R |]. rewrite Q; exact S.
Qed.
(* with a lifetime of ten minutes, the shortest Kubernetes grants, the token is replaced by every reconciliation, and the
   replacement, an update of an owned Secret, starts the next one *)
Theorem C72_short_lifetime_churns_refuted : forall parse pdur x wgs k st w s t e t' d, wgs k = Some w -> has_nasp w = true -> x_wg_err x = false -> x_get_err x = false -> x_write_err x = false ->
  st (secret_key k) = Some s -> s_token s = Some t -> parse t = Some (Some e) -> lifetime pdur w d ->
  forall issued_at, (issued_at < x_now x)%Z -> (e = issued_at + margin)%Z -> x_issue x (w_sa w) (k_ns k) (aud_generate k) (Z.quot d 1000000000) = Some t' ->
  exists st' s', reconcile parse pdur x wgs k st = (st', Requeue (5 * 60 * 1000000000)) /\ st' (secret_key k) = Some s' /\ s_token s' = Some t'.
Proof.
  intros parse pdur x wgs k st w s t e t' d W L E1 E2 E3 S T P D ia C1 C2 I. unfold reconcile. rewrite E1, W, L. unfold create_token. rewrite E2, S, T, P.
  replace (e <? x_now x + margin)%Z with true by (symmetry; apply Z.ltb_lt; lia).
  assert (new_token pdur x k w = Some t') as ->. { unfold new_token. unfold lifetime in D. destruct (w_dur w) as [a|]; [ rewrite D | rewrite D ]; exact I. }
  rewrite E3. do 2 eexists; split; [ reflexivity |]. split; [ apply sput_same | reflexivity ].
Qed.
(* a Secret of that name that belongs to somebody else, of any type, is given the token, and is deleted when the label is
   removed *)
Theorem C72_foreign_secret_refuted : forall parse pdur x wgs k st w s d t, wgs k = Some w -> x_wg_err x = false -> x_get_err x = false -> x_write_err x = false ->
  st (secret_key k) = Some s -> s_owner s <> Some k -> s_token s = None -> lifetime pdur w d -> x_issue x (w_sa w) (k_ns k) (aud_generate k) (Z.quot d 1000000000) = Some t ->
  (has_nasp w = true -> fst (reconcile parse pdur x wgs k st) (secret_key k) = Some (mksecret (s_owner s) (s_type s) (s_label s) (Some t))) /\
  (has_nasp w = false -> fst (reconcile parse pdur x wgs k st) (secret_key k) = None).
Proof.
  intros parse pdur x wgs k st w s d t W E1 E2 E3 S O T D I. unfold reconcile. rewrite E1, W. split; intros ->.
  - unfold create_token. rewrite E2, S, T.
    assert (new_token pdur x k w = Some t) as ->. { unfold new_token. unfold lifetime in D. destruct (w_dur w) as [a|]; [ rewrite D | rewrite D ]; exact I. }
    rewrite E3. cbn [fst]. apply sput_same.
  - unfold delete_token. rewrite E3. apply sput_same.
Qed.
(* a deleted group is an error, for ever *)
Theorem C72_deleted_group_fails_refuted : forall parse pdur x wgs k st w, wgs k = None -> has_nasp w = true ->
  triggers (Deleted w) = true /\ reconcile parse pdur x wgs k st = (st, Failed).
Proof. intros parse pdur x wgs k st w W H. split; [ exact H |]. unfold reconcile. rewrite W. destruct (x_wg_err x); reflexivity. Qed.
(* ---------- non-vacuity ---------- *)
(* tokens are "<expiry in unary>": a token of n bytes expires n minutes after time 0; "x..." does not parse *)
Definition minute : Z := 60 * 1000000000.
Definition ex_parse (t : gstr) : option (option Z) := match t with [] => None | c :: _ => if Ascii.eqb c "x" then None else Some (Some (Z.of_nat (length t) * minute)%Z) end.
Definition ex_pdur (d : gstr) : option Z := if geqb d (lit "24h") then Some (1440 * minute)%Z else if geqb d (lit "10m") then Some (10 * minute)%Z else None.
Definition ex_world (now : nat) : world := mkworld (Z.of_nat now * minute) false false false (fun _ _ _ secs => Some (repeat "t"%char (now + Z.to_nat (Z.quot secs 60)))).
Definition ex_wg : wgroup := mkwg (Some (lit "true")) (Some (lit "10m")) (lit "bookinfo").
Definition ex_k : okey := mkkey (lit "default") (lit "reviews").
Definition ex_wgs (k : okey) : option wgroup := if keqb k ex_k then Some ex_wg else None.
Definition ex_round (now : nat) : round := mkround (ex_world now) ex_wgs ex_k.
Definition ex_world0 (now : nat) : world := mkworld (Z.of_nat now * minute) false false false (fun _ _ _ secs => if (secs =? 600)%Z then Some (repeat "t"%char (now + 10)) else None).
Example C72_ex_honest : honest ex_parse (ex_world0 5).
Proof.
  intros sa ns aud secs t E. cbn in E. destruct (secs =? 600)%Z eqn:Q; [| discriminate ]. apply Z.eqb_eq in Q. subst secs. injection E as <-.
  eexists; split; [ vm_compute; reflexivity | cbn; lia ].
Qed.
(* created at minute 1, reconciled at minute 6 (replaced: 5 minutes left), with a failed attempt at minute 12 *)
Example C72_ex_run : let st := runs ex_parse ex_pdur [ex_round 1; ex_round 6; mkround (mkworld (12 * minute) false true false (fun _ _ _ _ => None)) ex_wgs ex_k] (fun _ => None) in
  good_until ex_parse st ex_k (16 * minute) /\ st (mkkey (lit "default") (lit "reviews-nasp-token")) <> None /\ st (mkkey (lit "prod") (lit "reviews-nasp-token")) = None.
Proof. split; [ do 3 eexists; split; [ vm_compute; reflexivity | split; [ reflexivity | split; [ vm_compute; reflexivity | vm_compute; discriminate ] ] ] | split; [ vm_compute; discriminate | vm_compute; reflexivity ] ]. Qed.
Example C72_ex_garbage : snd (reconcile ex_parse ex_pdur (ex_world 1) ex_wgs ex_k (sput (fun _ => None) (secret_key ex_k) (Some (mksecret (Some ex_k) nasp_type None (Some (lit "xyz")))))) = Failed.
Proof. vm_compute. reflexivity. Qed.
Print Assumptions C72_secret_name.
Print Assumptions C72_secret_injective.
Print Assumptions C72_others_untouched.
Print Assumptions C72_failure_changes_nothing.
Print Assumptions C72_success.
Print Assumptions C72_audience_is_group.
Print Assumptions C72_success_lifetime.
Print Assumptions C72_never_expires.
Print Assumptions C72_no_churn.
Print Assumptions C72_first_token.
Print Assumptions C72_label_removed.
Print Assumptions C72_trigger_exact.
Print Assumptions C72_garbage_never_repaired_refuted.
Print Assumptions C72_no_expiry_panics_refuted.
Print Assumptions C72_new_service_account_ignored_refuted.
Print Assumptions C72_short_lifetime_churns_refuted.
Print Assumptions C72_foreign_secret_refuted.
Print Assumptions C72_deleted_group_fails_refuted.
