(* C93: what the certifier does to a webhook configuration *)
From Coq Require Import String List Ascii Bool Arith Lia.
From Verif Require Import M_GoStr M_Certifier.
Import ListNotations.
Open Scope list_scope.

(* ---- specification ---- *)
(* the same configuration but for failure policies and CA bundles *)
Definition same_hook (a b : webhook) : Prop := w_service a = w_service b /\ w_rest a = w_rest b.
Definition same_config (a b : config) : Prop := c_rest a = c_rest b /\ Forall2 same_hook (c_hooks a) (c_hooks b).
(* every webhook fails closed and trusts this CA *)
Definition certified (ca : nat) (c : config) : Prop := forall w, In w (c_hooks c) -> w_policy w = Some Fail /\ w_ca w = Some ca.
Definition of_service (w : webhook) (name : gstr) : Prop := exists s ns, w_service w = Some (s, ns) /\ name = s ++ lit "." ++ ns ++ lit ".svc".
(* what is asked of the patch library: an empty patch means that the webhooks are as wanted, and what is as wanted needs none *)
Definition sound (differs : option config -> config -> bool) : Prop := forall c d ca, differs (Some c) d = false -> certified ca d -> certified ca c.
Definition exact (differs : option config -> config -> bool) : Prop := forall c, differs (Some c) c = false.
(* the check that an event makes, and whether it is triggered *)
Definition makes (e : ev) (k : check) (triggered : bool) : Prop := (e = First k /\ triggered = true) \/ (e = Tick k /\ triggered = false) \/ (e = Deliver true k /\ triggered = true).
Definition certifier (e : ev) : Prop := match e with First _ | Tick _ | Deliver _ _ | Stop => True | _ => False end.

(* ---- Start ---- *)
Theorem C93_load : forall m v,
  (forall c, load m v = Some (Mutating, c) <-> m = Some c) /\ (forall c, load m v = Some (Validating, c) <-> m = None /\ v = Some c) /\ (load m v = None <-> m = None /\ v = None).
Proof.
  intros m v. destruct m as [a|], v as [b|]; cbn; (split; [intro c; split; intro H; [try congruence|]; try (injection H; intros; subst); try discriminate; reflexivity
    |split; [intro c; split; [intro H; split; congruence|intros [H1 H2]; congruence]|split; [intro H; split; congruence|intros [H1 H2]; congruence]]]).
Qed.
Print Assumptions C93_load.

Theorem C93_names : forall l ns, dns_names l = Some ns <-> Forall2 of_service l ns.
Proof.
  induction l as [|w r IH]; intro ns; cbn.
  - split; intro H; [injection H as <-; constructor|inversion H; reflexivity].
  - split.
    + destruct (w_service w) as [[n k]|] eqn:E; [|discriminate]. destruct (dns_names r) as [x|] eqn:Er; [|discriminate]. intro H; injection H as <-.
      constructor; [exists n, k; split; [exact E|reflexivity]|apply IH; reflexivity].
    + intro H; inversion H as [|? y ? t Hw Ht]; subst. destruct Hw as (s & k & Es & ->). rewrite Es. apply IH in Ht. rewrite Ht. reflexivity.
Qed.
Print Assumptions C93_names.

(* the process panics while it starts: a webhook may have a URL instead of a service *)
Theorem C93_url_webhook_refuted : forall l, dns_names l = None <-> exists w, In w l /\ w_service w = None.
Proof.
  induction l as [|w r IH]; cbn; [split; [discriminate|intros (w & [] & _)]|].
  destruct (w_service w) as [[n k]|] eqn:E.
  - destruct (dns_names r) as [x|] eqn:Er.
    + split; [discriminate|]. intros (w' & [<-|Hi] & Hn); [congruence|]. assert (Some x = None) as F by (apply IH; exists w'; split; assumption). discriminate.
    + split; [|reflexivity]. intros _. destruct (proj1 IH eq_refl) as (w' & Hi & Hn). exists w'. split; [right; exact Hi|exact Hn].
  - split; [|reflexivity]. intros _. exists w. split; [left; reflexivity|exact E].
Qed.
Print Assumptions C93_url_webhook_refuted.

(* ---- lemmas ---- *)
Lemma same_refl c : same_config c c.
Proof. split; [reflexivity|]. induction (c_hooks c); constructor; [split; reflexivity|assumption]. Qed.
Lemma same_with a c ca : same_config a c -> same_config a (with_ca ca c).
Proof. intros [H1 H2]. split; [exact H1|]. cbn. induction H2; cbn; constructor; [destruct H; split; assumption|assumption]. Qed.
Lemma certified_with ca c : certified ca (with_ca ca c).
Proof. intros w Hw. cbn in Hw. apply in_map_iff in Hw as (x & <- & _). split; reflexivity. Qed.
Lemma with_twice ca c : with_ca ca (with_ca ca c) = with_ca ca c.
Proof. unfold with_ca; cbn. rewrite map_map. f_equal. Qed.

Section D.
Variable differs : option config -> config -> bool.
Notation run := (run differs).
Notation step := (step differs).
Notation upd := (update differs).
Notation chk := (run_check differs).

Lemma upd_mem k s : mem (upd k s) = mem s.
Proof. unfold update. destruct (negb _); [reflexivity|]. destruct (negb _); [reflexivity|]. destruct (cluster s); [|reflexivity]. destruct (k_update k); reflexivity. Qed.
Lemma upd_ph k s : ph (upd k s) = ph s.
Proof. unfold update. destruct (negb _); [reflexivity|]. destruct (negb _); [reflexivity|]. destruct (cluster s); [|reflexivity]. destruct (k_update k); reflexivity. Qed.
Lemma chk_mem t k s : mem (chk t k s) = mem s \/ exists ca, k_ca k = Some ca /\ mem (chk t k s) = with_ca ca (mem s).
Proof.
  unfold run_check. destruct (k_ca k) as [ca|].
  - right. exists ca. split; [reflexivity|]. destruct (_ || _); [rewrite upd_mem|]; reflexivity.
  - left. destruct (c_hooks (mem s)); [destruct (_ || _); [apply upd_mem|reflexivity]|reflexivity].
Qed.
Lemma step_mem e s : mem (step e s) = mem s \/ exists k ca, mem (step e s) = with_ca ca (mem s) /\ k_ca k = Some ca.
Proof.
  assert (forall t k x, mem x = mem s -> mem (chk t k x) = mem s \/ exists k' ca, mem (chk t k x) = with_ca ca (mem s) /\ k_ca k' = Some ca) as A.
  { intros t k x Hx. destruct (chk_mem t k x) as [->|(ca & H1 & H2)]; [left; exact Hx|right; exists k, ca; rewrite H2, Hx; split; [reflexivity|exact H1]]. }
  unfold step. destruct (ph s); [| |left; reflexivity]; destruct e; try (left; reflexivity); try (destruct (cluster s); left; reflexivity); try (apply A; reflexivity).
  - destruct (events s); [left; reflexivity|]. destruct got; [|left; reflexivity]. destruct (cluster s) eqn:E; [apply A; reflexivity|left; reflexivity].
  - destruct (events s); [left; reflexivity|]. destruct got; [|left; reflexivity]. destruct (cluster s) eqn:E; left; reflexivity.
Qed.
Lemma run_mem c0 l : forall s, same_config c0 (mem s) -> same_config c0 (mem (run s l)).
Proof.
  induction l as [|e r IH]; intros s H; [exact H|]. cbn. apply IH. destruct (step_mem e s) as [->|(k & ca & -> & _)]; [exact H|apply same_with; exact H].
Qed.

(* ---- what is written ---- *)
Lemma upd_cluster k s : cluster (upd k s) <> cluster s -> k_get k = true /\ k_update k = true /\ differs (cluster s) (mem s) = true /\ cluster s <> None /\ cluster (upd k s) = Some (mem s).
Proof.
  unfold update. destruct (k_get k) eqn:Eg; cbn; [|intro H; contradiction H; reflexivity].
  destruct (differs (cluster s) (mem s)) eqn:Ed; cbn; [|intro H; contradiction H; reflexivity].
  destruct (cluster s) eqn:Ec; [|intro H; contradiction H; congruence].
  destruct (k_update k) eqn:Eu; cbn; [|intro H; contradiction H; congruence].
  intros _. repeat split; congruence.
Qed.
Lemma chk_cluster t k s : cluster (chk t k s) <> cluster s ->
  (k_renewed k || t)%bool = true /\ k_get k = true /\ k_update k = true /\ cluster s <> None /\ cluster (chk t k s) = Some (mem (chk t k s)) /\
  match k_ca k with Some ca => mem (chk t k s) = with_ca ca (mem s) | None => c_hooks (mem s) = [] /\ mem (chk t k s) = mem s end.
Proof.
  unfold run_check. destruct (k_ca k) as [ca|].
  - destruct (_ || _)%bool; [|intro H; contradiction H; reflexivity]. intro H. pose proof (upd_cluster k _ H) as (H1 & H2 & _ & H3 & H4). rewrite upd_mem. repeat split; auto.
  - destruct (c_hooks (mem s)) eqn:Eh; [|intro H; contradiction H; reflexivity].
    destruct (_ || _)%bool; [|intro H; contradiction H; reflexivity]. intro H. pose proof (upd_cluster k _ H) as (H1 & H2 & _ & H3 & H4). rewrite upd_mem. repeat split; auto.
Qed.
(* a write of the certifier: only in a check that renewed the certificate or was triggered, only over an existing configuration, and always the
   configuration that was loaded at the start, with the CA of that check *)
Theorem C93_writes : forall c0 l e c', let s := run (started c0) l in certifier e -> cluster (step e s) = Some c' -> cluster s <> Some c' ->
  exists k t, makes e k t /\ (k_renewed k = true \/ t = true) /\ k_get k = true /\ k_update k = true /\ cluster s <> None /\ same_config c0 c' /\
    (c_hooks c0 <> [] -> exists ca, k_ca k = Some ca /\ certified ca c').
Proof.
  intros c0 l e c' s He Hc Hn.
  assert (same_config c0 (mem s)) as Hs by (apply run_mem; apply same_refl).
  assert (forall t k x, mem x = mem s -> cluster x = cluster s -> cluster (chk t k x) = Some c' ->
    (k_renewed k = true \/ t = true) /\ k_get k = true /\ k_update k = true /\ cluster s <> None /\ same_config c0 c' /\ (c_hooks c0 <> [] -> exists ca, k_ca k = Some ca /\ certified ca c')) as A.
  { intros t k x Hm Hx H. assert (cluster (chk t k x) <> cluster x) as Hd by congruence.
    destruct (chk_cluster t k x Hd) as (H1 & H2 & H3 & H4 & H5 & H6). apply orb_prop in H1.
    assert (c' = mem (chk t k x)) as -> by congruence.
    split; [exact H1|]. split; [exact H2|]. split; [exact H3|]. split; [congruence|].
    destruct (k_ca k) as [ca|].
    - rewrite H6, Hm. split; [apply same_with; exact Hs|]. intros _. exists ca. split; [reflexivity|apply certified_with].
    - destruct H6 as [H6 H7]. rewrite H7, Hm in *. split; [exact Hs|]. intro Hne. contradiction Hne. destruct Hs as [_ F]. rewrite H6 in F. inversion F. reflexivity. }
  unfold M_Certifier.step in Hc. destruct (ph s) eqn:Ep; [| |contradiction].
  - destruct e; try contradiction He; cbn in Hc.
    + pose proof (A true k s eq_refl eq_refl Hc) as H. exists k, true. split; [left; auto|exact H].
    + pose proof (A false k s eq_refl eq_refl Hc) as H. exists k, false. split; [right; left; auto|exact H].
    + destruct (events s); [contradiction|]. destruct got; [|contradiction]. destruct (cluster s) as [cc|] eqn:Ec; [|cbn in Hc; congruence].
      rewrite <- Ec in *. pose proof (A true k (mkst (cluster s) (mem s) n Running) eq_refl eq_refl Hc) as H. exists k, true. split; [right; right; auto|exact H].
    + contradiction.
  - destruct e; try contradiction He; cbn in Hc; try contradiction.
    destruct (events s); [contradiction|]. destruct got; [|contradiction]. destruct (cluster s) as [cc|] eqn:Ec; cbn in Hc; congruence.
Qed.

(* ---- what a check achieves ---- *)
Theorem C93_certified : forall s k t ca c, sound differs -> ph s = Running -> cluster s = Some c -> k_ca k = Some ca -> k_renewed k = true \/ t = true -> k_get k = true -> k_update k = true ->
  exists c', cluster (chk t k s) = Some c' /\ certified ca c' /\ mem (chk t k s) = with_ca ca (mem s) /\ ph (chk t k s) = Running.
Proof.
  intros s k t ca c So Hp Hc Hk Ht Hg Hu. unfold run_check. rewrite Hk. replace (k_renewed k || t)%bool with true by (destruct Ht as [-> | ->]; [reflexivity|symmetry; apply orb_true_r]).
  rewrite upd_mem, upd_ph. cbn [mem ph].
  unfold update. cbn [cluster mem events ph]. rewrite Hg, Hc, Hu. cbn.
  destruct (differs (Some c) (with_ca ca (mem s))) eqn:Ed; cbn.
  - exists (with_ca ca (mem s)). split; [reflexivity|]. split; [apply certified_with|]. split; [reflexivity|exact Hp].
  - exists c. split; [reflexivity|]. split; [apply (So _ _ _ Ed); apply certified_with|]. split; [reflexivity|exact Hp].
Qed.

(* ---- failed updates are not retried: the ticks that follow change nothing until the certificate is renewed or the configuration changes ---- *)
Definition idle_tick (e : ev) : Prop := exists k ca, e = Tick k /\ k_ca k = Some ca /\ k_renewed k = false.
Lemma ticks_idle l : forall s, Forall idle_tick l -> cluster (run s l) = cluster s /\ ph (run s l) = ph s.
Proof.
  induction l as [|e r IH]; intros s H; [split; reflexivity|]. inversion H as [|? ? He Hr]; subst. destruct He as (k & ca & -> & Hk & Hn).
  change (run s (Tick k :: r)) with (run (step (Tick k) s) r). destruct (IH (step (Tick k) s) Hr) as [H1 H2]. rewrite H1, H2. unfold M_Certifier.step. destruct (ph s) eqn:Ep; [|split; [reflexivity|exact Ep]|split; [reflexivity|exact Ep]].
  unfold run_check. rewrite Hk, Hn. cbn. split; [reflexivity|exact Ep].
Qed.
Theorem C93_not_retried_refuted : forall s k ticks, ph s = Running -> (exists ca, k_ca k = Some ca) -> k_get k = false \/ k_update k = false -> Forall idle_tick ticks ->
  cluster (run s (First k :: ticks)) = cluster s.
Proof.
  intros s k l Hp [ca Hk] Hf Hl. change (run s (First k :: l)) with (run (step (First k) s) l). destruct (ticks_idle l (step (First k) s) Hl) as [-> _]. unfold M_Certifier.step. rewrite Hp. unfold run_check. rewrite Hk.
  rewrite orb_true_r. unfold update. cbn [cluster mem events ph]. destruct (k_get k); cbn; [|reflexivity]. destruct Hf as [Hf|Hf]; [discriminate|]. rewrite Hf.
  destruct (differs _ _); cbn; [|reflexivity]. destruct (cluster s); reflexivity.
Qed.

(* ---- a deletion ---- *)
Lemma step_none e s : (forall c, e <> Create c) -> cluster s = None -> cluster (step e s) = None.
Proof.
  intros Hn Hc. assert (forall t k x, cluster x = None -> cluster (chk t k x) = None) as A.
  { intros t k x Hx. destruct (cluster (chk t k x)) eqn:E; [|reflexivity]. assert (cluster (chk t k x) <> cluster x) as Hd by congruence.
    apply chk_cluster in Hd as (_ & _ & _ & H & _). contradiction. }
  unfold M_Certifier.step. destruct (ph s); [| |exact Hc]; destruct e; cbn; try rewrite Hc; cbn; auto; try (exfalso; eapply Hn; reflexivity);
  destruct (events s); auto; destruct got; auto.
Qed.
Theorem C93_deleted : forall l s, Forall (fun e => forall c, e <> Create c) l -> cluster s = None -> cluster (run s l) = None.
Proof. induction l as [|e r IH]; intros s H Hc; [exact Hc|]. inversion H; subst. change (run s (e :: r)) with (run (step e s) r). apply IH; [assumption|]. apply step_none; assumption. Qed.
(* and what is created again is left as it is by every tick that renews nothing *)
Theorem C93_recreated_refuted : forall s c ticks, ph s = Running -> cluster s = None -> Forall idle_tick ticks -> cluster (run s (Create c :: ticks)) = Some c /\ events (step (Create c) s) = events s.
Proof.
  intros s c l Hp Hc Hl. change (run s (Create c :: l)) with (run (step (Create c) s) l). destruct (ticks_idle l (step (Create c) s) Hl) as [-> _]. unfold M_Certifier.step. rewrite Hp, Hc. split; reflexivity.
Qed.

(* ---- others' changes are undone ---- *)
Theorem C93_reverts_refuted : forall c0 c k ca, k_ca k = Some ca -> k_get k = true -> k_update k = true -> differs (Some c) (with_ca ca c0) = true ->
  cluster (run (started c0) [Write c; Deliver true k]) = Some (with_ca ca c0).
Proof.
  intros c0 c k ca Hk Hg Hu Hd. cbn. unfold run_check. rewrite Hk, orb_true_r. unfold update. cbn [cluster mem events ph]. rewrite Hg, Hu, Hd. reflexivity.
Qed.

(* ---- its own updates do not keep it going ---- *)
Theorem C93_quiet : forall l ca s, exact differs -> ph s = Running -> cluster s = Some (mem s) -> mem s = with_ca ca (mem s) ->
  Forall (fun e => exists got k, e = Deliver got k /\ k_ca k = Some ca) l ->
  cluster (run s l) = cluster s /\ events (run s l) = events s - length l.
Proof.
  induction l as [|e r IH]; intros ca s Ex Hp Hc Hm H; [split; [reflexivity|cbn; lia]|]. inversion H as [|? ? He Hr]; subst. destruct He as (got & k & -> & Hk).
  assert (step (Deliver got k) s = mkst (cluster s) (mem s) (events s - 1) Running) as E.
  { destruct s as [cl m n p]. cbn [cluster mem events ph] in *. subst p cl. unfold M_Certifier.step. cbn [ph events cluster mem].
    destruct n as [|n]; [reflexivity|]. cbn [cluster]. destruct got; [|f_equal; lia].
    unfold run_check. rewrite Hk. cbn [mem cluster events ph]. rewrite <- Hm. rewrite orb_true_r. unfold update. cbn [cluster mem events ph]. rewrite Ex. cbn.
    destruct (negb (k_get k)); f_equal; lia. }
  cbn [M_Certifier.run fold_left]. change (fold_left (fun x e => step e x) r (step (Deliver got k) s)) with (run (step (Deliver got k) s) r). rewrite E.
  destruct (IH ca (mkst (cluster s) (mem s) (events s - 1) Running) Ex eq_refl Hc Hm Hr) as [H1 H2]. rewrite H1, H2. cbn. split; [reflexivity|lia].
Qed.

(* ---- when the process dies ---- *)
Lemma chk_ph t k s : ph s = Running -> (ph (chk t k s) = Crashed <-> k_ca k = None /\ c_hooks (mem s) <> []).
Proof.
  intro Hp. unfold run_check. destruct (k_ca k).
  - split; [|intros [H _]; discriminate]. destruct (_ || _)%bool; [rewrite upd_ph|]; cbn; congruence.
  - destruct (c_hooks (mem s)) eqn:E; [split; [|intros [_ H]; contradiction H; reflexivity]; destruct (_ || _)%bool; [rewrite upd_ph|]; congruence|].
    split; [intros _; split; [reflexivity|discriminate]|reflexivity].
Qed.
Theorem C93_crash_iff : forall s e, ph s <> Crashed ->
  (ph (step e s) = Crashed <->
   (ph s = Running /\ exists k t, makes e k t /\ k_ca k = None /\ c_hooks (mem s) <> [] /\ (e = Deliver true k -> events s <> 0 /\ cluster s <> None)) \/
   (ph s = Ended /\ exists k, e = Deliver true k /\ events s <> 0 /\ cluster s <> None)).
Proof.
  intros s e Hn. unfold M_Certifier.step. destruct (ph s) eqn:Ep; [| |contradiction].
  - split.
    + intro H. left. split; [reflexivity|].
      destruct e as [c| |c| |k|k|got k|]; cbn in H; try (destruct (cluster s); cbn in H; congruence); try (cbn in H; congruence).
      * apply chk_ph in H; [|exact Ep]. destruct H as [H1 H2]. exists k, true. split; [left; auto|]. split; [exact H1|]. split; [exact H2|discriminate].
      * apply chk_ph in H; [|exact Ep]. destruct H as [H1 H2]. exists k, false. split; [right; left; auto|]. split; [exact H1|]. split; [exact H2|discriminate].
      * destruct (events s) eqn:Ev; [congruence|]. destruct got; [|cbn in H; congruence]. destruct (cluster s) eqn:Ec; [|cbn in H; congruence].
        apply chk_ph in H; [|reflexivity]. destruct H as [H1 H2]. exists k, true. split; [right; right; auto|]. split; [exact H1|]. split; [exact H2|]. intros _. split; discriminate.
    + intros [(_ & k & t & Hm & Hk & Hh & He)|(H & _)]; [|discriminate].
      destruct Hm as [[-> _]|[[-> _]|[-> _]]].
      * apply chk_ph; auto.
      * apply chk_ph; auto.
      * destruct (He eq_refl) as [H1 H2]. destruct (events s) eqn:Ev; [contradiction|]. destruct (cluster s) eqn:Ec; [|contradiction]. apply chk_ph; auto.
  - split.
    + intro H. right. split; [reflexivity|].
      destruct e as [c| |c| |k|k|got k|]; cbn in H; try (destruct (cluster s); cbn in H; congruence); try congruence.
      destruct (events s) eqn:Ev; [congruence|]. destruct got; [|cbn in H; congruence]. destruct (cluster s) eqn:Ec; [|cbn in H; congruence].
      exists k. split; [reflexivity|]. split; discriminate.
    + intros [(H & _)|(_ & k & -> & H1 & H2)]; [discriminate|]. destruct (events s); [contradiction|]. destruct (cluster s); [reflexivity|contradiction].
Qed.
(* an update of the configuration after the certifier has been told to stop *)
Theorem C93_stop_refuted : forall s c k, ph s = Running -> cluster s <> None -> ph (run s [Stop; Write c; Deliver true k]) = Crashed.
Proof. intros s c k Hp Hc. cbn. unfold M_Certifier.step. rewrite Hp. cbn. destruct (cluster s); [reflexivity|contradiction]. Qed.
End D.
Print Assumptions C93_writes.
Print Assumptions C93_certified.
Print Assumptions C93_not_retried_refuted.
Print Assumptions C93_deleted.
Print Assumptions C93_recreated_refuted.
Print Assumptions C93_reverts_refuted.
Print Assumptions C93_quiet.
Print Assumptions C93_crash_iff.
Print Assumptions C93_stop_refuted.

(* ---- a concrete case ---- *)
Definition hook_eqb (a b : webhook) : bool :=
  match w_policy a, w_policy b with Some Fail, Some Fail => true | Some Ignore, Some Ignore => true | None, None => true | _, _ => false end &&
  match w_ca a, w_ca b with Some x, Some y => x =? y | None, None => true | _, _ => false end && (w_rest a =? w_rest b).
Fixpoint hooks_eqb (l m : list webhook) : bool := match l, m with [], [] => true | a :: x, b :: y => hook_eqb a b && hooks_eqb x y | _, _ => false end.
Definition diff (c : option config) (d : config) : bool := match c with Some c => negb (hooks_eqb (c_hooks c) (c_hooks d)) | None => true end.
Lemma hook_eqb_refl w : hook_eqb w w = true.
Proof. unfold hook_eqb. destruct (w_policy w) as [[]|], (w_ca w); rewrite ?Nat.eqb_refl; reflexivity. Qed.
Lemma hook_eqb_certified a b ca : hook_eqb a b = true -> w_policy b = Some Fail /\ w_ca b = Some ca -> w_policy a = Some Fail /\ w_ca a = Some ca.
Proof.
  unfold hook_eqb. intros H [H1 H2]. rewrite H1, H2 in H. apply andb_prop in H as [H _]. apply andb_prop in H as [Ha Hb].
  destruct (w_policy a) as [[]|]; try discriminate. destruct (w_ca a) as [x|]; [|discriminate]. apply Nat.eqb_eq in Hb as ->. split; reflexivity.
Qed.
Lemma diff_ok : exact diff /\ sound diff.
Proof.
  split.
  - intro c. unfold diff. assert (hooks_eqb (c_hooks c) (c_hooks c) = true) as -> by (induction (c_hooks c) as [|w r IH]; cbn; [reflexivity|rewrite hook_eqb_refl; exact IH]). reflexivity.
  - intros [hc rc] [hd rd] ca H Hd. unfold diff in H. cbn in H. apply negb_false_iff in H. unfold certified in *. cbn in *. clear rc rd.
    revert hd H Hd. induction hc as [|a x IH]; intros [|b y] H Hd w Hw; cbn in *; try contradiction; try discriminate.
    apply andb_prop in H as [H1 H2]. destruct Hw as [<-|Hw]; [eapply hook_eqb_certified; [exact H1|apply Hd; left; reflexivity]|].
    eapply IH; [exact H2| |exact Hw]. intros z Hz. apply Hd. right. exact Hz.
Qed.
Definition c1 : config := mkcf [mkwh (Some (lit "heimdall", lit "nasp")) (Some Ignore) None 1; mkwh (Some (lit "other", lit "nasp")) None None 2] 7.
Definition ok_check (ca : nat) : check := mkck (Some ca) false true true.
Example C93_run :
  dns_names (c_hooks c1) = Some [lit "heimdall.nasp.svc"; lit "other.nasp.svc"] /\
  run diff (started c1) [First (ok_check 5); Deliver true (ok_check 5)] = mkst (Some (with_ca 5 c1)) (with_ca 5 c1) 0 Running /\
  cluster (run diff (started c1) [First (mkck (Some 5) true true false); Tick (ok_check 5); Tick (ok_check 5)]) = Some c1 /\
  cluster (run diff (started c1) [First (ok_check 5); Write (mkcf (tl (c_hooks c1)) 9); Deliver true (ok_check 5)]) = Some (with_ca 5 c1).
Proof. repeat split; vm_compute; reflexivity. Qed.
Print Assumptions C93_run.
