(* C42: certificate verification is a conjunction of the configured checks. *)
From Coq Require Import String List Ascii Bool Arith Lia.
From Verif Require Import M_GoStr L_GoStr M_Matcher P_Matcher M_Verify.
Import ListNotations.
Open Scope list_scope.
Section P.
Variable L : mlib.
Variable X : xlib.
(* ---------- specification ---------- *)
(* contract of x509's Verify: without an error there is a chain, and every chain begins with the verified leaf *)
Definition x509_contract : Prop := forall roots inter t leaf chs, x_verify X roots inter t leaf = Some chs ->
  chs <> [] /\ forall ch, In ch chs -> exists rest, ch = leaf :: rest.
(* the leaf chains up to a trusted root: of the configured pool, or of the system if that is trusted *)
Definition chains_up (cf : vconfig L) (leaf : cert) (inter : list cert) : Prop :=
  (exists pool chs, cf_roots cf = Some pool /\ x_verify X (Some pool) inter (cf_time cf) leaf = Some chs) \/
  (cf_system cf = true /\ exists chs, x_verify X None inter (cf_time cf) leaf = Some chs) \/
  (cf_system cf = false /\ cf_roots cf = None /\ exists chs, x_verify X (Some []) inter (cf_time cf) leaf = Some chs).
Definition hash_ok (cf : vconfig L) (c : cert) : Prop := cf_hash cf = [] \/ In (x_hash X c) (cf_hash cf).
Definition spki_ok (cf : vconfig L) (c : cert) : Prop := cf_spki cf = [] \/ exists h, x_spki X c = Some h /\ In h (cf_spki cf).
(* the certificate has a name of the matcher's type that the matcher accepts *)
Definition names_of (t : santype) (c : cert) : list gstr := match t with SEmail => c_emails c | SDns => c_dns c | SUri => c_uris c | SIp => c_ips c end.
Definition name_accepted (m : sanmatcher L) (c : cert) : Prop := exists v, In v (names_of (sm_type m) c) /\ matcher_match L (sm_matcher m) v = true.
Definition sans_ok (cf : vconfig L) (c : cert) : Prop := cf_sans cf = [] \/ exists m, In m (cf_sans cf) /\ name_accepted m c.
Definition accepted (cf : vconfig L) (raw : list gstr) : Prop := exists chain, verify_certificate L X cf raw = OK chain.
(* a restriction list at least as tight as another: the other one is empty, or this one is non-empty and contained in it *)
Definition tighter {A} (l l' : list A) : Prop := l' = [] \/ (l <> [] /\ incl l l').
(* ---------- proofs ---------- *)
Lemma parse_all_spec : forall raw cs, parse_all X raw = Some cs <-> Forall2 (fun a c => x_parse X a = Some c) raw cs.
Proof.
  induction raw as [|a raw IH]; intros cs; cbn.
  - split; [intros H; injection H as <-; constructor|intros H; inversion H; reflexivity].
  - split.
    + destruct (x_parse X a) as [c|] eqn:E; [|discriminate]. destruct (parse_all X raw) as [cs'|]; [|discriminate]. intros H; injection H as <-. constructor; [assumption|now apply IH].
    + intros H. inversion H as [|? c ? cs' H1 H2]; subst. rewrite H1. apply IH in H2. now rewrite H2.
Qed.
Lemma hash_spec : forall cf c, verify_hash L X cf c = true <-> hash_ok cf c.
Proof.
  intros cf c. unfold verify_hash, hash_ok. destruct (cf_hash cf) as [|h l]; [tauto|]. rewrite existsb_exists. split.
  - intros (x & Hx & E). apply geqb_eq in E. subst. auto.
  - intros [H|H]; [discriminate|]. exists (x_hash X c). split; [assumption|apply geqb_refl].
Qed.
Lemma spki_spec : forall cf c, verify_spki L X cf c = true <-> spki_ok cf c.
Proof.
  intros cf c. unfold verify_spki, spki_ok. destruct (cf_spki cf) as [|h l]; [tauto|]. destruct (x_spki X c) as [k|].
  - rewrite existsb_exists. split.
    + intros (x & Hx & E). apply geqb_eq in E. subst. eauto.
    + intros [H|(k' & H & Hi)]; [discriminate|]. injection H as ->. exists k'. split; [assumption|apply geqb_refl].
  - split; [discriminate|]. intros [H|(k' & H & _)]; discriminate.
Qed.
Lemma sans_spec : forall cf c, verify_sans L cf c = true <-> sans_ok cf c.
Proof.
  intros cf c. unfold verify_sans, sans_ok, name_accepted. destruct (cf_sans cf) as [|m0 l]; [tauto|]. rewrite existsb_exists. split.
  - intros (m & Hm & E). apply existsb_exists in E. destruct E as (v & Hv & E). right. exists m. split; [assumption|]. exists v. split; [destruct (sm_type m); assumption|assumption].
  - intros [H|(m & Hm & v & Hv & E)]; [discriminate|]. exists m. split; [assumption|]. apply existsb_exists. exists v. split; [destruct (sm_type m); assumption|assumption].
Qed.
Lemma chain_spec : forall cf raw leaf inter, x509_contract -> Forall2 (fun a c => x_parse X a = Some c) raw (leaf :: inter) ->
  match verify_chain L X cf raw with
  | OK chs => chains_up cf leaf inter /\ exists rest more, chs = (leaf :: rest) :: more
  | Err => ~ chains_up cf leaf inter
  | Panic => False
  end.
Proof.
  intros cf raw leaf inter Hx Hp. apply parse_all_spec in Hp. unfold verify_chain. rewrite Hp. unfold chains_up.
  assert (G: forall roots chs, x_verify X roots inter (cf_time cf) leaf = Some chs -> exists rest more, chs = (leaf :: rest) :: more).
  { intros roots chs H. destruct (Hx _ _ _ _ _ H) as (H1 & H2). destruct chs as [|ch more]; [contradiction|]. destruct (H2 ch (or_introl eq_refl)) as (rest & ->). eauto. }
  destruct (cf_roots cf) as [pool|] eqn:ER; destruct (cf_system cf) eqn:ES; cbn [negb andb].
  - destruct (x_verify X (Some pool) inter (cf_time cf) leaf) as [chs|] eqn:E1.
    + destruct (G _ _ E1) as (rest & more & ->). split; [left; eauto|eauto].
    + destruct (x_verify X None inter (cf_time cf) leaf) as [chs|] eqn:E2; [split; [right; left; eauto|eauto]|].
      intros [(p & chs & H1 & H2)|[(_ & chs & H)|(H & _)]]; congruence.
  - destruct (x_verify X (Some pool) inter (cf_time cf) leaf) as [chs|] eqn:E1; [split; [left; eauto|eauto]|]. intros [(p & chs & H1 & H2)|[(H & _)|(_ & H & _)]]; congruence.
  - destruct (x_verify X None inter (cf_time cf) leaf) as [chs|] eqn:E2; [split; [right; left; eauto|eauto]|]. intros [(p & chs & H1 & H2)|[(_ & chs & H)|(H & _)]]; congruence.
  - destruct (x_verify X (Some []) inter (cf_time cf) leaf) as [chs|] eqn:E1; [split; [right; right; eauto|eauto]|]. intros [(p & chs & H1 & H2)|[(H & _)|(_ & _ & chs & H)]]; congruence.
Qed.
(* A non-empty chain is accepted iff it parses, chains up to a trusted root, and each non-empty pin or name list is satisfied
   by the leaf; an accepted chain is reported with the leaf first. *)
Theorem C42_accepted_iff : forall cf raw, x509_contract -> raw <> [] ->
  (accepted cf raw <-> exists leaf inter, Forall2 (fun a c => x_parse X a = Some c) raw (leaf :: inter) /\ chains_up cf leaf inter /\ hash_ok cf leaf /\ spki_ok cf leaf /\ sans_ok cf leaf).
Proof.
  intros cf raw Hx Hr. unfold accepted. split.
  - intros (chain & H). unfold verify_certificate in H.
    destruct (parse_all X raw) as [[|leaf inter]|] eqn:Ep.
    + apply parse_all_spec in Ep. inversion Ep; subst. contradiction.
    + apply parse_all_spec in Ep. pose proof (chain_spec cf raw leaf inter Hx Ep) as Hc. destruct (verify_chain L X cf raw) as [chs| |]; try discriminate. destruct Hc as (Hc & rest & more & ->).
      destruct (verify_hash L X cf leaf && verify_spki L X cf leaf && verify_sans L cf leaf) eqn:E; [|discriminate]. apply andb_prop in E. destruct E as (E & E3). apply andb_prop in E. destruct E as (E1 & E2). apply hash_spec in E1. apply spki_spec in E2. apply sans_spec in E3. exists leaf, inter. auto.
    + unfold verify_chain in H. rewrite Ep in H. discriminate.
  - intros (leaf & inter & Hp & Hc & H1 & H2 & H3). pose proof (chain_spec cf raw leaf inter Hx Hp) as G. unfold verify_certificate. destruct (verify_chain L X cf raw) as [chs| |]; [|contradiction|contradiction].
    destruct G as (_ & rest & more & ->). apply hash_spec in H1. apply spki_spec in H2. apply sans_spec in H3. rewrite H1, H2, H3. cbn. eauto.
Qed.
Theorem C42_reported_leaf : forall cf raw chain, x509_contract -> verify_certificate L X cf raw = OK chain -> exists a c rest, hd_error raw = Some a /\ x_parse X a = Some c /\ chain = c :: rest.
Proof.
  intros cf raw chain Hx H. unfold verify_certificate in H. destruct (parse_all X raw) as [[|leaf inter]|] eqn:Ep.
  - unfold verify_chain in H. rewrite Ep in H. discriminate.
  - apply parse_all_spec in Ep. pose proof (chain_spec cf raw leaf inter Hx Ep) as Hc. destruct (verify_chain L X cf raw) as [chs| |]; try discriminate. destruct Hc as (_ & rest & more & ->). destruct (_ && _); [|discriminate]. injection H as <-. inversion Ep; subst. eexists _, _, _. cbn. eauto.
  - unfold verify_chain in H. rewrite Ep in H. discriminate.
Qed.
(* Tightening the restrictions never accepts more. *)
Theorem C42_monotone : forall cf cf' raw, x509_contract -> raw <> [] ->
  cf_roots cf = cf_roots cf' -> cf_system cf = cf_system cf' -> cf_time cf = cf_time cf' ->
  tighter (cf_hash cf) (cf_hash cf') -> tighter (cf_spki cf) (cf_spki cf') -> tighter (cf_sans cf) (cf_sans cf') ->
  accepted cf raw -> accepted cf' raw.
Proof.
  intros cf cf' raw Hx Hr E1 E2 E3 T1 T2 T3 H. apply (C42_accepted_iff _ _ Hx Hr) in H. apply (C42_accepted_iff _ _ Hx Hr). destruct H as (leaf & inter & Hp & Hc & H1 & H2 & H3). exists leaf, inter. split; [assumption|].
  split; [unfold chains_up in *; rewrite <- E1, <- E2, <- E3; assumption|]. unfold hash_ok, spki_ok, sans_ok in *. split; [|split].
  - destruct T1 as [->|(N & I)]; [now left|]. destruct H1; [contradiction|auto].
  - destruct T2 as [->|(N & I)]; [now left|]. destruct H2 as [|(h & A & B)]; [contradiction|eauto].
  - destruct T3 as [->|(N & I)]; [now left|]. destruct H3 as [|(m & A & B)]; [contradiction|eauto].
Qed.
(* An empty chain makes the verifier panic instead of returning an error. *)
Theorem C42_empty_chain_panics_refuted : forall cf, verify_certificate L X cf [] = Panic.
Proof. reflexivity. Qed.
(* without any root (and with the system roots not trusted) nothing is accepted, if x509 trusts nothing under an empty pool *)
Theorem C42_no_roots_rejects : forall cf raw, (forall inter t leaf, x_verify X (Some []) inter t leaf = None) -> x509_contract -> raw <> [] -> cf_system cf = false -> cf_roots cf = None -> ~ accepted cf raw.
Proof.
  intros cf raw Hn Hx Hr E1 E2 H. apply (C42_accepted_iff _ _ Hx Hr) in H. destruct H as (leaf & inter & _ & [(p & chs & H & _)|[(H & _)|(_ & _ & chs & H)]] & _); try congruence.
Qed.
(* The TLS callback accepts what the verifier accepts under the configured roots; the roots of the TLS configuration count
   only if the verifier has none of its own. *)
Theorem C42_peer : forall cf tls raw, verify_peer L X cf tls raw = OK tt <-> accepted (match cf_roots cf with Some _ => cf | None => mkcfg (cf_time cf) tls (cf_system cf) (cf_spki cf) (cf_hash cf) (cf_sans cf) end) raw.
Proof.
  intros cf tls raw. unfold verify_peer, accepted. destruct cf as [t [r|] sy sp ha sa]; cbn [cf_roots cf_time cf_system cf_spki cf_hash cf_sans];
    match goal with |- match ?v with _ => _ end = _ <-> _ => destruct v as [ch| |] end; split; intros H; try discriminate; try (destruct H as (? & ?); discriminate); eauto.
Qed.
(* With the configuration made from a validation context, a peer is accepted iff its chain parses, leads to a root of the
   context's CA data (to a root of the TLS configuration, or nowhere, if the context has none: never to the system's), and
   satisfies the context's own pin lists and the SAN restriction. *)
Theorem C42_context_peer : forall now vc tls raw, x509_contract -> raw <> [] ->
  (verify_peer L X (fst (config_from_context L X now vc)) tls raw = OK tt <->
   exists leaf inter, Forall2 (fun a c => x_parse X a = Some c) raw (leaf :: inter) /\
     (exists chs, x_verify X (Some (match vc_ca vc with Some (b :: d) => x_pem X (b :: d) | _ => match tls with Some r => r | None => [] end end)) inter now leaf = Some chs) /\
     (vc_hash vc = [] \/ In (x_hash X leaf) (vc_hash vc)) /\ (vc_spki vc = [] \/ exists h, x_spki X leaf = Some h /\ In h (vc_spki vc)) /\
     sans_ok (fst (config_from_context L X now vc)) leaf).
Proof.
  intros now vc tls raw Hx Hr. rewrite C42_peer. rewrite C42_accepted_iff by assumption. unfold config_from_context. cbn [fst snd cf_roots cf_time cf_system cf_spki cf_hash cf_sans].
  assert (G: forall (P Q R : cert -> list cert -> Prop), (forall l i, P l i <-> Q l i) -> (exists l i, Forall2 (fun a c => x_parse X a = Some c) raw (l :: i) /\ P l i /\ R l i) <-> (exists l i, Forall2 (fun a c => x_parse X a = Some c) raw (l :: i) /\ Q l i /\ R l i)).
  { intros P Q R H. split; intros (l & i & A & B & C); exists l, i; (split; [assumption|split; [now apply H|assumption]]). }
  assert (U: forall r l i, chains_up (mkcfg now (Some r) false (vc_spki vc) (vc_hash vc) (flat_map (entry_sans L) (vc_typed vc ++ map (fun p => (None, p)) (vc_untyped vc)))) l i <-> exists chs, x_verify X (Some r) i now l = Some chs).
  { intros r l i. unfold chains_up. cbn [cf_roots cf_time cf_system]. split; [intros [(p & chs & E & H)|[(E & _)|(_ & E & _)]]; try discriminate; injection E as <-; eauto|intros (chs & H); left; eauto]. }
  assert (N: forall l i, chains_up (mkcfg now None false (vc_spki vc) (vc_hash vc) (flat_map (entry_sans L) (vc_typed vc ++ map (fun p => (None, p)) (vc_untyped vc)))) l i <-> exists chs, x_verify X (Some []) i now l = Some chs).
  { intros l i. unfold chains_up. cbn [cf_roots cf_time cf_system]. split; [intros [(p & chs & E & H)|[(E & _)|(_ & _ & chs & H)]]; try discriminate; eauto|intros (chs & H); right; right; eauto]. }
  destruct (vc_ca vc) as [[|b d]|]; [destruct tls as [r|]| |destruct tls as [r|]]; apply G; first [apply U|apply N].
Qed.
(* ---------- the configuration made from a validation context ---------- *)
(* the restriction one SAN entry of the context expresses *)
Definition entry_types (t : option (option santype)) : list santype := match t with Some (Some t) => [t] | Some None => [] | None => [SEmail; SDns; SUri; SIp] end.
Definition entry_satisfied (e : option (option santype) * option (xpat * bool)) (c : cert) : Prop :=
  exists m t v, matcher_from_xds L (snd e) = Some m /\ In t (entry_types (fst e)) /\ In v (names_of t c) /\ matcher_match L m v = true.
Definition entry_valid (e : option (option santype) * option (xpat * bool)) : Prop := (exists m, matcher_from_xds L (snd e) = Some m) /\ fst e <> Some None.
Definition context_sans (vc : vctx) : list (option (option santype) * option (xpat * bool)) := vc_typed vc ++ map (fun p => (None, p)) (vc_untyped vc).
Lemma entry_spec : forall e c, (exists m, In m (entry_sans L e) /\ name_accepted m c) <-> entry_satisfied e c.
Proof.
  intros [t p] c. unfold entry_sans, entry_satisfied, name_accepted. cbn [fst snd]. destruct (matcher_from_xds L p) as [m|].
  - destruct t as [[t|]|]; cbn; split.
    + intros (s & [<-|[]] & v & Hv & E). exists m, t, v. auto.
    + intros (m' & t' & v & H & [<-|[]] & Hv & E). injection H as <-. exists (mksan t m). split; [auto|]. exists v. auto.
    + intros (s & [] & _).
    + intros (m' & t' & v & _ & [] & _).
    + intros (s & Hs & v & Hv & E). exists (sm_matcher s), (sm_type s), v. split; [|split; [destruct (sm_type s); auto|auto]]. decompose [or] Hs; subst; cbn; try reflexivity; contradiction.
    + intros (m' & t' & v & H & Ht & Hv & E). injection H as <-. exists (mksan t' m). split; [decompose [or] Ht; subst; auto; contradiction|]. exists v. auto.
  - split; [|intros (m & t' & v & H & _); discriminate]. destruct t as [[t|]|]; cbn; intros (s & [] & _).
Qed.
Lemma flat_spec : forall es c, (exists m, In m (flat_map (entry_sans L) es) /\ name_accepted m c) <-> exists e, In e es /\ entry_satisfied e c.
Proof.
  intros es c. split.
  - intros (m & Hm & Hc). apply in_flat_map in Hm. destruct Hm as (e & He & Hm). exists e. split; [assumption|]. apply entry_spec. eauto.
  - intros (e & He & Hs). apply entry_spec in Hs. destruct Hs as (m & Hm & Hc). exists m. split; [apply in_flat_map; eauto|assumption].
Qed.
(* If every configured SAN entry is valid, a certificate passes the SAN check of the built configuration iff no entry is
   configured or it satisfies one. *)
Theorem C42_context_sans : forall now vc c, (forall e, In e (context_sans vc) -> entry_valid e) ->
  (sans_ok (fst (config_from_context L X now vc)) c <-> context_sans vc = [] \/ exists e, In e (context_sans vc) /\ entry_satisfied e c).
Proof.
  intros now vc c Hv. unfold sans_ok, config_from_context. cbn [fst cf_sans]. fold (context_sans vc). rewrite flat_spec. split.
  - intros [H|H]; [|now right]. left. destruct (context_sans vc) as [|e es]; [reflexivity|]. exfalso. destruct (Hv e (or_introl eq_refl)) as ((m & Hm) & Ht). cbn in H. apply app_eq_nil in H. destruct H as (H & _). unfold entry_sans in H. rewrite Hm in H. destruct (fst e) as [[t|]|]; cbn in H; congruence.
  - intros [->|H]; [now left|now right].
Qed.
(* one valid entry is enough to keep the restriction: the others are then ignored *)
Theorem C42_context_sans_partly_valid : forall now vc c, (exists e, In e (context_sans vc) /\ entry_valid e) ->
  (sans_ok (fst (config_from_context L X now vc)) c <-> exists e, In e (context_sans vc) /\ entry_satisfied e c).
Proof.
  intros now vc c (e0 & H0 & (m0 & Hm) & Ht). unfold sans_ok, config_from_context. cbn [fst cf_sans]. fold (context_sans vc). rewrite flat_spec. split; [|now right].
  intros [H|H]; [|assumption]. exfalso. assert (Hi: exists s, In s (entry_sans L e0)). { unfold entry_sans. rewrite Hm. destruct (fst e0) as [[t|]|]; [eexists; left; reflexivity|congruence|eexists; left; reflexivity]. }
  destruct Hi as (s & Hs). assert (In s (flat_map (entry_sans L) (context_sans vc))) by (apply in_flat_map; eauto). rewrite H in *. contradiction.
Qed.
(* A context whose only SAN entries are invalid gives a configuration without SAN restriction: every name passes. *)
Theorem C42_invalid_san_dropped_refuted : forall now ca spki hash ty c,
  let vc := mkvctx ca spki hash [None] [(ty, None)] in context_sans vc <> [] /\ sans_ok (fst (config_from_context L X now vc)) c.
Proof. intros now ca spki hash ty c. cbn. split; [discriminate|]. left. destruct ty as [[t|]|]; reflexivity. Qed.
(* Converting the same context again and again gives configurations that accept the same chains, although the message grows
   with each conversion. *)
Fixpoint convert_n (n now : nat) (vc : vctx) : vctx := match n with O => vc | S k => convert_n k now (snd (config_from_context L X now vc)) end.
Lemma flat_map_nil : forall {A B} (f : A -> list B) l, flat_map f l = [] <-> forall x, In x l -> f x = [].
Proof.
  induction l as [|a l IH]; cbn; [intuition|]. split.
  - intros H. apply app_eq_nil in H. destruct H as (H1 & H2). intros x [<-|Hx]; [assumption|now apply IH].
  - intros H. rewrite (H a (or_introl eq_refl)). apply IH. intros x Hx. apply H. now right.
Qed.
Theorem C42_reconversion : forall n now vc raw, x509_contract -> raw <> [] ->
  (accepted (fst (config_from_context L X now (convert_n n now vc))) raw <-> accepted (fst (config_from_context L X now vc)) raw).
Proof.
  induction n as [|n IH]; intros now vc raw Hx Hr; [tauto|]. cbn [convert_n]. rewrite IH by assumption. clear IH. rewrite !C42_accepted_iff by assumption. unfold config_from_context. cbn [fst snd].
  unfold chains_up, hash_ok, spki_ok, sans_ok. cbn [cf_roots cf_time cf_system cf_hash cf_spki cf_sans vc_ca vc_spki vc_hash vc_untyped vc_typed].
  assert (E: forall leaf, (flat_map (entry_sans L) ((vc_typed vc ++ map (fun p => (None, p)) (vc_untyped vc)) ++ map (fun p => (None, p)) (vc_untyped vc)) = [] \/ (exists m, In m (flat_map (entry_sans L) ((vc_typed vc ++ map (fun p => (None, p)) (vc_untyped vc)) ++ map (fun p => (None, p)) (vc_untyped vc))) /\ name_accepted m leaf)) <-> (flat_map (entry_sans L) (vc_typed vc ++ map (fun p => (None, p)) (vc_untyped vc)) = [] \/ (exists m, In m (flat_map (entry_sans L) (vc_typed vc ++ map (fun p => (None, p)) (vc_untyped vc))) /\ name_accepted m leaf))).
  { intros leaf. rewrite !flat_spec, !flat_map_nil. split; (intros [H|(e & He & Hs)]; [left|right; exists e; split; [|assumption]]); try (intros x Hx'; apply H); rewrite !in_app_iff in *; tauto. }
  split; intros (leaf & inter & H1 & H2 & H3 & H4 & H5); exists leaf, inter; (split; [assumption|split; [assumption|split; [assumption|split; [assumption|]]]]); now apply E.
Qed.
Theorem C42_message_grows_refuted : forall n now vc, length (vc_typed (convert_n n now vc)) = (length (vc_typed vc) + n * length (vc_untyped vc))%nat.
Proof. induction n as [|n IH]; intros now vc; cbn [convert_n]; [lia|]. rewrite IH. cbn. rewrite app_length, map_length. lia. Qed.
End P.
Print Assumptions C42_accepted_iff.
Print Assumptions C42_reported_leaf.
Print Assumptions C42_monotone.
Print Assumptions C42_peer.
Print Assumptions C42_context_peer.
Print Assumptions C42_empty_chain_panics_refuted.
Print Assumptions C42_no_roots_rejects.
Print Assumptions C42_context_sans.
Print Assumptions C42_context_sans_partly_valid.
Print Assumptions C42_invalid_san_dropped_refuted.
Print Assumptions C42_reconversion.
Print Assumptions C42_message_grows_refuted.
(* a library instance: a certificate is its bytes; its DNS name is its bytes; roots trust every leaf in their list *)
Definition xtoy : xlib := mkxlib (fun b => match b with [] => None | _ => Some (mkcert b [] [] [b] []) end) (fun c => c_raw c) (fun c => Some (c_raw c)) (fun b => [mkcert b [] [] [b] []])
  (fun roots _ _ leaf => match roots with Some l => if existsb (fun r => geqb (c_raw r) (c_raw leaf)) l then Some [[leaf]] else None | None => None end).
Lemma xtoy_ok : x509_contract xtoy.
Proof. intros roots inter t leaf chs H. cbn in H. destruct roots as [l|]; [|discriminate]. destruct (existsb _ l); [|discriminate]. injection H as <-. split; [discriminate|]. intros ch [<-|[]]. now exists []. Qed.
Definition vc_ex (names : list (option (xpat * bool))) : vctx := mkvctx (Some (lit "peer.example")) [] [lit "peer.example"] names [].
Example C42_ex : accepted toylib xtoy (fst (config_from_context toylib xtoy 7 (vc_ex [Some (XSuffix (lit ".example"), false)]))) [lit "peer.example"] /\
  verify_certificate toylib xtoy (fst (config_from_context toylib xtoy 7 (vc_ex [Some (XSuffix (lit ".com"), false)]))) [lit "peer.example"] = Err.
Proof. split; [eexists; reflexivity|reflexivity]. Qed.
(* end to end: an unusable SAN matcher lets a peer in that no configured name matches *)
Theorem C42_fail_open_refuted : accepted toylib xtoy (fst (config_from_context toylib xtoy 7 (vc_ex [Some (XNone, false)]))) [lit "peer.example"].
Proof. eexists. reflexivity. Qed.
Print Assumptions C42_fail_open_refuted.
