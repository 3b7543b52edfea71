(* C71: the Endpoints objects that Bifrost keeps. *)
From Coq Require Import List String Ascii Bool ZArith Permutation Lia.
From Verif Require Import M_Endpoints.
Import ListNotations.
Open Scope string_scope.

(* ---- specification ---- *)
(* a subset serves every combination of its addresses and ports *)
Definition served (s : subset) (ip n : string) (port : Z) : Prop := In ip (ss_addrs s) /\ In (n, port) (ss_ports s).
(* a service port leads to an exposed port: by name or by number *)
Definition leads (atoi : string -> Z) (sp : svcport) (p : pc) : Prop := match sp_target sp with inl n => n = pc_target p \/ pc_name p = "" | inr s => s = pc_name p \/ atoi s = pc_target p end.
(* the endpoint port of an exposed port has the name of the first service port that leads to it *)
Definition named (atoi : string -> Z) (sps : list svcport) (p : pc) (n : string) : Prop :=
  (pc_name p = "http-metrics" /\ n = "http-metrics") \/
  (pc_name p <> "http-metrics" /\ exists pre sp post, sps = (pre ++ sp :: post)%list /\ leads atoi sp p /\ (forall x, In x pre -> ~ leads atoi x p) /\ n = sp_name sp).
(* the ports that the config maps list for service k under session sid, with the address of the config map's pod *)
Definition listed (cms : list cmap) (k : okey) (sid : string) : list pc :=
  flat_map (fun c => flat_map (fun s => if String.eqb (fst s) sid then
      map (fun p => mkpc (pc_name p) true (cm_ip c) (pc_port p) (pc_target p) (pc_svc p)) (filter (fun p => keqb (pc_svc p) k && pc_ok p) (snd s)) else [])
    (match cm_sessions c with Some ss => ss | None => [] end)) cms.
(* a name space has no dot *)
Fixpoint dotless (s : string) : bool := match s with EmptyString => true | String c r => negb (Ascii.eqb c ".") && dotless r end.

(* ---- lemmas ---- *)
Lemma keqb_eq : forall a b, keqb a b = true <-> a = b.
Proof. intros [a b] [c d]. unfold keqb. cbn. rewrite andb_true_iff, !String.eqb_eq. split; [intros [-> ->]; reflexivity|injection 1; auto]. Qed.
Lemma keqb_refl : forall a, keqb a a = true.
Proof. intros a. now apply keqb_eq. Qed.
Lemma keqb_sym : forall a b, keqb a b = keqb b a.
Proof. intros a b. apply eq_true_iff_eq. rewrite !keqb_eq. split; auto. Qed.
Lemma leads_spec : forall atoi sp p, String.eqb (str_val (sp_target sp)) (pc_name p) || Z.eqb (int_value atoi (sp_target sp)) (pc_target p) = true <-> leads atoi sp p.
Proof.
  intros atoi [n [z|s]] p; unfold leads; cbn [sp_target str_val int_value]; rewrite orb_true_iff, String.eqb_eq, Z.eqb_eq; [|reflexivity]. split; intros [H|H]; auto.
Qed.
Lemma find_first {X} : forall (f : X -> bool) l x, find f l = Some x <-> exists pre post, l = (pre ++ x :: post)%list /\ f x = true /\ forall y, In y pre -> f y = false.
Proof.
  intros f. induction l as [|y l IH]; intros x; cbn.
  - split; [discriminate|]. intros ([|? ?] & post & E & _); discriminate.
  - destruct (f y) eqn:Ey.
    + split.
      * injection 1 as <-. exists [], l. split; [reflexivity|]. split; [assumption|]. intros ? [].
      * intros (pre & post & E & Fx & Hp). destruct pre as [|z pre]; cbn in E; injection E as -> E'; [reflexivity|]. rewrite Hp in Ey by now left. discriminate.
    + rewrite IH. split.
      * intros (pre & post & -> & Fx & Hp). exists (y :: pre), post. split; [reflexivity|]. split; [assumption|]. intros z [<-|Hz]; auto.
      * intros (pre & post & E & Fx & Hp). destruct pre as [|z pre]; cbn in E; injection E as -> E'; [congruence|]. exists pre, post. split; [assumption|]. split; [assumption|]. intros w Hw. apply Hp. now right.
Qed.
Lemma svc_port_spec : forall atoi sps p n, svc_port atoi sps p = Some n <-> named atoi sps p n.
Proof.
  intros atoi sps p n. unfold svc_port, named. destruct (String.eqb_spec (pc_name p) "http-metrics") as [E|E].
  - rewrite E. split; [injection 1 as <-; left; auto|]. intros [[_ ->]|[K _]]; [reflexivity|contradiction].
  - split.
    + intros H. right. split; [assumption|]. destruct (find _ sps) as [sp|] eqn:F; [|discriminate]. injection H as <-. apply find_first in F. destruct F as (pre & post & El & Fx & Hp). exists pre, sp, post. split; [assumption|]. split; [now apply leads_spec|]. split; [|reflexivity]. intros x Hx K. apply leads_spec in K. rewrite Hp in K by assumption. discriminate.
    + intros [[K _]|(_ & pre & sp & post & El & L & Hp & ->)]; [contradiction|]. assert (F: find (fun sp => String.eqb (str_val (sp_target sp)) (pc_name p) || Z.eqb (int_value atoi (sp_target sp)) (pc_target p)) sps = Some sp).
      { apply find_first. exists pre, post. split; [assumption|]. split; [now apply leads_spec|]. intros y Hy. apply not_true_is_false. intros K. apply leads_spec in K. now apply (Hp y). } rewrite F. reflexivity.
Qed.
Lemma existsb_str : forall a l, existsb (String.eqb a) l = true <-> In a l.
Proof. intros. rewrite existsb_exists. split; [intros (x & Hx & E); apply String.eqb_eq in E; now subst|intros H; exists a; split; [assumption|apply String.eqb_refl]]. Qed.
Lemma subset_fold : forall atoi sps ports s0,
  (forall a, In a (ss_addrs (fold_left (add_port atoi sps) ports s0)) <-> In a (ss_addrs s0) \/ exists p n, In p ports /\ pc_ok p = true /\ named atoi sps p n /\ pc_ip p = a) /\
  (forall n z, In (n, z) (ss_ports (fold_left (add_port atoi sps) ports s0)) <-> In (n, z) (ss_ports s0) \/ exists p, In p ports /\ pc_ok p = true /\ named atoi sps p n /\ pc_port p = z).
Proof.
  intros atoi sps. induction ports as [|p ports IH]; intros s0; cbn [fold_left].
  - split; intros; (split; [now left|intros [K|K]; [assumption|]]); [destruct K as (? & ? & [] & _)|destruct K as (? & [] & _)].
  - destruct (IH (add_port atoi sps s0 p)) as [I1 I2].
    assert (Ea: add_port atoi sps s0 p = match svc_port atoi sps p with None => s0 | Some n => if pc_ok p then mkss (if existsb (String.eqb (pc_ip p)) (ss_addrs s0) then ss_addrs s0 else (ss_addrs s0 ++ [pc_ip p])%list) (ss_ports s0 ++ [(n, pc_port p)])%list else s0 end) by reflexivity. rewrite Ea in I1, I2 |- *. clear Ea.
    destruct (svc_port atoi sps p) as [m|] eqn:Em; [apply svc_port_spec in Em; destruct (pc_ok p) eqn:Eo|].
    + cbn [ss_addrs ss_ports] in I1, I2. split.
      * intros a. rewrite I1. assert (G: In a (if existsb (String.eqb (pc_ip p)) (ss_addrs s0) then ss_addrs s0 else ss_addrs s0 ++ [pc_ip p]) <-> In a (ss_addrs s0) \/ pc_ip p = a).
        { destruct (existsb (String.eqb (pc_ip p)) (ss_addrs s0)) eqn:Ex; [apply existsb_str in Ex; split; [now left|intros [K|<-]; assumption]|]. rewrite in_app_iff. cbn. tauto. }
        rewrite G. split.
        -- intros [[K|K]|(q & n & Q1 & Q2)]; [now left|right; exists p, m; split; [now left|auto]|right; exists q, n; split; [now right|assumption]].
        -- intros [K|(q & n & [<-|Q1] & Q2 & Q3 & Q4)]; [left; now left|left; now right|right; exists q, n; auto].
      * intros n z. rewrite I2, in_app_iff. split.
        -- intros [[K|[K|[]]]|(q & Q1 & Q2)]; [now left|injection K as <- <-; right; exists p; split; [now left|auto]|right; exists q; split; [now right|assumption]].
        -- intros [K|(q & [<-|Q1] & Q2 & Q3 & Q4)]; [left; now left| |right; exists q; auto]. left. right. left. f_equal; [|assumption]. apply svc_port_spec in Em, Q3. congruence.
    + split; [intros a; rewrite I1|intros n z; rewrite I2].
      * split; [intros [K|(q & n & Q1 & Q2)]; [now left|right; exists q, n; split; [now right|assumption]]|]. intros [K|(q & n & [<-|Q1] & Q2 & Q3)]; [now left|congruence|right; exists q, n; auto].
      * split; [intros [K|(q & Q1 & Q2)]; [now left|right; exists q; split; [now right|assumption]]|]. intros [K|(q & [<-|Q1] & Q2 & Q3)]; [now left|congruence|right; exists q; auto].
    + split; [intros a; rewrite I1|intros n z; rewrite I2].
      * split; [intros [K|(q & n & Q1 & Q2)]; [now left|right; exists q, n; split; [now right|assumption]]|]. intros [K|(q & n & [<-|Q1] & Q2 & Q3 & Q4)]; [now left|apply svc_port_spec in Q3; congruence|right; exists q, n; auto].
      * split; [intros [K|(q & Q1 & Q2)]; [now left|right; exists q; split; [now right|assumption]]|]. intros [K|(q & [<-|Q1] & Q2 & Q3 & Q4)]; [now left|apply svc_port_spec in Q3; congruence|right; exists q; auto].
Qed.
(* Every exposed port that a service port leads to is served, on its address. *)
Theorem C71_subset_complete : forall atoi ports sps p n, In p ports -> pc_ok p = true -> named atoi sps p n -> served (get_subset atoi ports sps) (pc_ip p) n (pc_port p).
Proof.
  intros atoi ports sps p n Hp Ho Hn. destruct (subset_fold atoi sps ports (mkss [] [])) as [A B]. split; [apply A|apply B]; right; [exists p, n|exists p]; auto.
Qed.
Print Assumptions C71_subset_complete.
(* Nothing else is, as long as the ports of the session have one address. *)
Theorem C71_subset_exact : forall atoi ports sps ip n z, (forall p q, In p ports -> In q ports -> pc_ok p = true -> pc_ok q = true -> pc_ip p = pc_ip q) ->
  (served (get_subset atoi ports sps) ip n z <-> exists p, In p ports /\ pc_ok p = true /\ named atoi sps p n /\ pc_port p = z /\ pc_ip p = ip).
Proof.
  intros atoi ports sps ip n z H. destruct (subset_fold atoi sps ports (mkss [] [])) as [A B]. unfold served, get_subset. rewrite A, B. cbn. split.
  - intros [[[]|(p & m & P1 & P2 & P3 & P4)] [[]|(q & Q1 & Q2 & Q3 & Q4)]]. exists q. repeat split; try assumption. rewrite <- P4. now apply H.
  - intros (p & P1 & P2 & P3 & P4 & P5). split; right; [exists p, n|exists p]; auto.
Qed.
Print Assumptions C71_subset_exact.

(* ---- collect ---- *)
Fixpoint lses (sid : string) (b : byses) : list pc := match b with [] => [] | (s, q) :: r => if String.eqb s sid then q else lses sid r end.
Fixpoint lsvc (k : okey) (m : bysvc) : byses := match m with [] => [] | (k', q) :: r => if keqb k' k then q else lsvc k r end.
Lemma lses_add : forall sid ps b t, lses t (ses_add sid ps b) = (lses t b ++ (if String.eqb sid t then ps else []))%list.
Proof.
  intros sid ps. induction b as [|[s q] b IH]; intros t; cbn [ses_add lses].
  - destruct (String.eqb sid t); reflexivity.
  - destruct (String.eqb_spec s sid) as [->|Hn]; cbn [lses].
    + destruct (String.eqb sid t); [reflexivity|now rewrite app_nil_r].
    + destruct (String.eqb_spec s t) as [->|]; [|apply IH]. destruct (String.eqb_spec sid t); [congruence|now rewrite app_nil_r].
Qed.
Lemma lsvc_add : forall k sid ps m t, lsvc t (svc_add k sid ps m) = if keqb k t then ses_add sid ps (lsvc t m) else lsvc t m.
Proof.
  intros k sid ps. induction m as [|[k' q] m IH]; intros t; cbn [svc_add lsvc].
  - destruct (keqb k t); reflexivity.
  - destruct (keqb k' k) eqn:E; cbn [lsvc].
    + apply keqb_eq in E. subst k'. destruct (keqb k t); reflexivity.
    + destruct (keqb k' t) eqn:E2; [|apply IH]. apply keqb_eq in E2. subst t. rewrite keqb_sym, E. reflexivity.
Qed.
Lemma ses_keys : forall sid ps b t, In t (map fst (ses_add sid ps b)) <-> t = sid \/ In t (map fst b).
Proof. intros sid ps. induction b as [|[s q] b IH]; intros t; cbn; [intuition|]. destruct (String.eqb_spec s sid) as [->|]; cbn; [intuition|]. rewrite IH. intuition. Qed.
Lemma svc_keys : forall k sid ps m t, In t (map fst (svc_add k sid ps m)) <-> t = k \/ In t (map fst m).
Proof. intros k sid ps. induction m as [|[s q] b IH]; intros t; cbn; [intuition|]. destruct (keqb s k) eqn:E; cbn; [apply keqb_eq in E; subst; intuition|]. rewrite IH. intuition. Qed.
Lemma ses_nodup : forall sid ps b, NoDup (map fst b) -> NoDup (map fst (ses_add sid ps b)).
Proof.
  intros sid ps. induction b as [|[s q] b IH]; intros H; cbn; [constructor; [intros []|constructor]|]. cbn in H. apply NoDup_cons_iff in H. destruct H as [H1 H2]. destruct (String.eqb_spec s sid) as [->|Hn]; cbn; constructor; auto. rewrite ses_keys. intros [K|K]; [congruence|contradiction].
Qed.
Definition mwf (m : bysvc) : Prop := NoDup (map fst m) /\ forall k b, In (k, b) m -> NoDup (map fst b).
Lemma mwf_add : forall k sid ps m, mwf m -> mwf (svc_add k sid ps m).
Proof.
  intros k sid ps. induction m as [|[s q] m IH]; intros [H1 H2]; cbn.
  - split; [constructor; [intros []|constructor]|]. intros k' b [E|[]]. injection E as <- <-. constructor; [intros []|constructor].
  - cbn in H1. apply NoDup_cons_iff in H1. destruct H1 as [H1 H3]. destruct (keqb s k) eqn:E.
    + split; [cbn; constructor; assumption|]. intros k' b [K|K]; [injection K as <- <-; apply ses_nodup; apply (H2 s); now left|apply (H2 k'); now right].
    + destruct (IH (conj H3 (fun k' b K => H2 k' b (or_intror K)))) as [I1 I2]. split.
      * cbn. constructor; [|assumption]. rewrite svc_keys. intros [K|K]; [subst; rewrite keqb_refl in E; discriminate|contradiction].
      * intros k' b [K|K]; [injection K as <- <-; apply (H2 s); now left|now apply (I2 k')].
Qed.
Lemma lsvc_in : forall k b m, NoDup (map fst m) -> In (k, b) m -> lsvc k m = b.
Proof.
  intros k b. induction m as [|[s q] m IH]; intros H Hin; [destruct Hin|]; destruct Hin as [E|E]; cbn in *; apply NoDup_cons_iff in H; destruct H as [H1 H2].
  - injection E as -> ->. now rewrite keqb_refl.
  - destruct (keqb s k) eqn:K; [|now apply IH]. apply keqb_eq in K. subst. exfalso. apply H1. change k with (fst (k, b)). now apply in_map.
Qed.
Lemma lses_in : forall k b (m : byses), NoDup (map fst m) -> In (k, b) m -> lses k m = b.
Proof.
  intros k b. induction m as [|[s q] m IH]; intros H Hin; [destruct Hin|]; destruct Hin as [E|E]; cbn in *; apply NoDup_cons_iff in H; destruct H as [H1 H2].
  - injection E as -> ->. now rewrite String.eqb_refl.
  - destruct (String.eqb_spec s k) as [->|K]; [|now apply IH]. exfalso. apply H1. change k with (fst (k, b)). now apply in_map.
Qed.
Lemma lses_found : forall sid b, lses sid b <> [] -> In (sid, lses sid b) b.
Proof. intros sid. induction b as [|[s q] b IH]; cbn; [congruence|]. destruct (String.eqb_spec s sid) as [->|]; [now left|]. intros H. right. auto. Qed.
Lemma lsvc_found : forall k m, lsvc k m <> [] -> In (k, lsvc k m) m.
Proof. intros k. induction m as [|[s q] b IH]; cbn; [congruence|]. destruct (keqb s k) eqn:E; [apply keqb_eq in E; subst; now left|]. intros H. right. auto. Qed.
Definition relocate (ip : string) (p : pc) : pc := mkpc (pc_name p) true ip (pc_port p) (pc_target p) (pc_svc p).
Definition real (k : okey) : Prop := fst k <> "" /\ snd k <> "".
Lemma real_dec : forall k, String.eqb (fst k) "" || String.eqb (snd k) "" = false <-> real k.
Proof. intros k. unfold real. rewrite orb_false_iff, !String.eqb_neq. reflexivity. Qed.
Lemma add_pcs : forall ip sid ps m k t, real k -> lses t (lsvc k (fold_left (add_pc ip sid) ps m)) = (lses t (lsvc k m) ++ (if String.eqb sid t then map (relocate ip) (filter (fun p => keqb (pc_svc p) k && pc_ok p) ps) else []))%list.
Proof.
  intros ip sid. induction ps as [|p ps IH]; intros m k t Hk; cbn [fold_left filter map]; [destruct (String.eqb sid t); now rewrite app_nil_r|].
  rewrite IH by assumption. unfold add_pc at 1. destruct (String.eqb (fst (pc_svc p)) "" || String.eqb (snd (pc_svc p)) "") eqn:Er.
  - assert (K: keqb (pc_svc p) k = false) by (apply not_true_is_false; intros K; apply keqb_eq in K; rewrite K in Er; apply real_dec in Hk; congruence). rewrite K. reflexivity.
  - rewrite lsvc_add. destruct (keqb (pc_svc p) k) eqn:K; cbn [andb]; [|reflexivity]. rewrite lses_add, <- app_assoc. f_equal. destruct (String.eqb sid t); [|reflexivity]. destruct (pc_ok p); reflexivity.
Qed.
Lemma mwf_pcs : forall ip sid ps m, mwf m -> mwf (fold_left (add_pc ip sid) ps m).
Proof. intros ip sid. induction ps as [|p ps IH]; intros m H; cbn; [assumption|]. apply IH. unfold add_pc. destruct (_ || _); [assumption|now apply mwf_add]. Qed.
Lemma real_pcs : forall ip sid ps m, (forall k, In k (map fst m) -> real k) -> forall k, In k (map fst (fold_left (add_pc ip sid) ps m)) -> real k.
Proof.
  intros ip sid. induction ps as [|p ps IH]; intros m H k; cbn; [apply H|]. apply IH. intros t. unfold add_pc. destruct (_ || _) eqn:E; [apply H|]. rewrite svc_keys. intros [->|K]; [now apply real_dec|now apply H].
Qed.
Definition add_sessions (ip : string) (ss : list (string * list pc)) (m : bysvc) : bysvc := fold_left (fun m s => fold_left (add_pc ip (fst s)) (snd s) m) ss m.
Lemma add_sessions_spec : forall ip ss m k t, real k -> lses t (lsvc k (add_sessions ip ss m)) = (lses t (lsvc k m) ++ flat_map (fun s => if String.eqb (fst s) t then map (relocate ip) (filter (fun p => keqb (pc_svc p) k && pc_ok p) (snd s)) else []) ss)%list.
Proof.
  intros ip. unfold add_sessions. induction ss as [|s ss IH]; intros m k t Hk; cbn [fold_left flat_map]; [now rewrite app_nil_r|]. rewrite IH, add_pcs by assumption. now rewrite <- app_assoc.
Qed.
Lemma mwf_sessions : forall ip ss m, mwf m -> mwf (add_sessions ip ss m).
Proof. intros ip. unfold add_sessions. induction ss as [|s ss IH]; intros m H; cbn; [assumption|]. apply IH. now apply mwf_pcs. Qed.
Lemma real_sessions : forall ip ss m, (forall k, In k (map fst m) -> real k) -> forall k, In k (map fst (add_sessions ip ss m)) -> real k.
Proof. intros ip. unfold add_sessions. induction ss as [|s ss IH]; intros m H k; cbn; [apply H|]. apply IH. now apply real_pcs. Qed.
Lemma collect_spec : forall cms m m', collect cms m = Some m' -> mwf m -> (forall k, In k (map fst m) -> real k) -> mwf m' /\ (forall k, In k (map fst m') -> real k) /\ (forall k sid, real k -> lses sid (lsvc k m') = (lses sid (lsvc k m) ++ listed cms k sid)%list).
Proof.
  induction cms as [|c cms IH]; intros m m' H W R; cbn [collect listed flat_map] in *.
  - injection H as <-. split; [assumption|]. split; [assumption|]. intros. now rewrite app_nil_r.
  - destruct (cm_sessions c) as [ss|] eqn:Es; [|discriminate]. fold (add_sessions (cm_ip c) ss m) in H. destruct (IH _ _ H (mwf_sessions _ _ _ W) (real_sessions _ _ _ R)) as (I1 & I2 & I3). split; [assumption|]. split; [assumption|]. intros k sid Hk. rewrite I3, add_sessions_spec by assumption. rewrite <- app_assoc. reflexivity.
Qed.
(* What is collected: exactly the listed ports, by service and session, each service and session once. *)
Theorem C71_collect : forall cms m, collect cms [] = Some m -> NoDup (map fst m) /\
  (forall k b sid ps, In (k, b) m -> In (sid, ps) b -> ps = listed cms k sid) /\
  (forall k sid, fst k <> "" -> snd k <> "" -> listed cms k sid <> [] -> exists b, In (k, b) m /\ In (sid, listed cms k sid) b).
Proof.
  intros cms m H. destruct (collect_spec cms [] m H) as ((N1 & N2) & R & E); [split; [constructor|intros k b []]|intros k []|]. cbn [lsvc lses app] in E. split; [assumption|]. split.
  - intros k b sid ps Hk Hs. rewrite <- E by (apply R; change k with (fst (k, b)); now apply in_map). rewrite (lsvc_in _ _ _ N1 Hk). symmetry. apply lses_in; [now apply (N2 k)|assumption].
  - intros k sid K1 K2 Hl. rewrite <- E in Hl |- * by now split. exists (lsvc k m). split; [apply lsvc_found; intros K; rewrite K in Hl; now apply Hl|now apply lses_found].
Qed.
Print Assumptions C71_collect.

(* ---- reconcile ---- *)
Lemma put_in : forall k ss l e, NoDup (map ep_key l) -> In e (put_ep k ss l) <-> e = mkep k true ss \/ (In e l /\ ep_key e <> k).
Proof.
  intros k ss. induction l as [|x l IH]; intros e H; cbn; [intuition|]. cbn in H. apply NoDup_cons_iff in H. destruct H as [H1 H2]. destruct (keqb (ep_key x) k) eqn:E.
  - apply keqb_eq in E. cbn. split; [intros [<-|K]; [now left|right; split; [now right|]]|].
    + intros K'. apply H1. rewrite E, <- K'. now apply in_map.
    + intros [->|[[->|K] K']]; [now left|congruence|now right].
  - cbn. rewrite IH by assumption. assert (ep_key x <> k) by (intros K; rewrite K, keqb_refl in E; discriminate). split; [intros [<-|[->|[K K']]]; auto|]. intros [->|[[->|K] K']]; auto.
Qed.
Lemma put_nodup : forall k ss l, NoDup (map ep_key l) -> NoDup (map ep_key (put_ep k ss l)).
Proof.
  intros k ss. induction l as [|x l IH]; intros H; cbn; [constructor; [intros []|constructor]|]. cbn in H. apply NoDup_cons_iff in H. destruct H as [H1 H2]. destruct (keqb (ep_key x) k) eqn:E; cbn.
  - apply keqb_eq in E. subst k. now constructor.
  - constructor; [|auto]. intros K. apply in_map_iff in K. destruct K as (y & Hy & Hi). apply put_in in Hi; [|assumption]. destruct Hi as [->|[Hi _]]; [cbn in Hy; rewrite Hy, keqb_refl in E; discriminate|]. apply H1. rewrite <- Hy. now apply in_map.
Qed.
(* the object that is wanted for a service of the list, if the API lets us see the service and write the object *)
Definition made (atoi : string -> Z) (A : api) (svcs : list (okey * list svcport)) (m : bysvc) (e : epobj) : Prop := exists k b sp, In (k, b) m /\ api_get A k = true /\ get_service k svcs = Some sp /\ api_put A k = true /\
  e = mkep k true (map (fun x => get_subset atoi (snd x) sp) b).
Lemma fold_services : forall atoi A svcs m eps man err eps' man' err', NoDup (map fst m) -> NoDup (map ep_key eps) -> fold_left (one_service atoi A svcs) m (eps, man, err) = (eps', man', err') ->
  (forall e, In e eps' <-> made atoi A svcs m e \/ (In e eps /\ forall x, made atoi A svcs m x -> ep_key x <> ep_key e)) /\
  (forall i, In i man' <-> In i man \/ exists e, made atoi A svcs m e /\ ep_id (ep_key e) = i) /\
  (err' = true <-> err = true \/ exists k b sp, In (k, b) m /\ api_get A k = true /\ get_service k svcs = Some sp /\ api_put A k = false).
Proof.
  intros atoi A svcs. induction m as [|[k b] m IH]; intros eps man err eps' man' err' N1 N2 H; cbn [fold_left] in H.
  - injection H as <- <- <-. split; [|split].
    + intros e. split; [intros K; right; split; [assumption|]; intros x (k & b & sp & [] & _)|intros [(k & b & sp & [] & _)|[K _]]; assumption].
    + intros i. split; [now left|intros [K|(e & (k & b & sp & [] & _) & _)]; assumption].
    + split; [now left|intros [K|(k & b & sp & [] & _)]; assumption].
  - cbn in N1. apply NoDup_cons_iff in N1. destruct N1 as [N1 N3]. unfold one_service in H at 2. cbn [fst snd] in H.
    set (g := if api_get A k then get_service k svcs else None) in H. assert (Hg: forall sp, g = Some sp <-> api_get A k = true /\ get_service k svcs = Some sp) by (intros sp; unfold g; destruct (api_get A k); [tauto|split; [discriminate|intros [K _]; discriminate]]). clearbody g.
    assert (Hhead: forall x, (exists sp, g = Some sp /\ api_put A k = true /\ x = mkep k true (map (fun y => get_subset atoi (snd y) sp) b)) \/ made atoi A svcs m x <-> made atoi A svcs ((k, b) :: m) x).
    { intros x. split.
      - intros [(sp & G & P & ->)|(k' & b' & sp & I & R)]; [apply Hg in G; exists k, b, sp; split; [now left|tauto]|exists k', b', sp; split; [now right|assumption]].
      - intros (k' & b' & sp & [E|I] & R1 & R2 & R3 & R4); [injection E as <- <-; left; exists sp; split; [now apply Hg|auto]|right; exists k', b', sp; auto]. }
    assert (Hother: forall x, made atoi A svcs m x -> ep_key x <> k). { intros x (k' & b' & sp & I & _ & _ & _ & ->) E. cbn in E. subst k'. apply N1. change k with (fst (k, b')). now apply in_map. }
    destruct g as [sp|] eqn:Eg; [destruct (api_put A k) eqn:Ep|].
    + destruct (IH _ _ _ _ _ _ N3 (put_nodup _ _ _ N2) H) as (I1 & I2 & I3). split; [|split].
      * intros e. rewrite I1, put_in by assumption. rewrite <- Hhead. split.
        -- intros [K|[[->|[K1 K2]] K3]]; [left; now right|left; left; exists sp; auto|]. right. split; [assumption|]. intros x Hx. apply Hhead in Hx. destruct Hx as [(sp' & _ & _ & ->)|Hx]; [cbn; congruence|now apply K3].
        -- intros [[(sp' & G & _ & ->)|K]|[K1 K2]]; [injection G as <-; right; split; [now left|intros x Hx; now apply Hother]|now left|]. right. split; [right; split; [assumption|]|intros x Hx; apply K2; apply Hhead; now right].
           intros E. apply (K2 (mkep k true (map (fun y => get_subset atoi (snd y) sp) b))); [apply Hhead; left; exists sp; auto|now cbn].
      * intros i. rewrite I2. cbn. split.
        -- intros [[<-|K]|(e & M & E)]; [right; exists (mkep k true (map (fun y => get_subset atoi (snd y) sp) b)); split; [apply Hhead; left; exists sp; auto|reflexivity]|now left|right; exists e; split; [apply Hhead; now right|assumption]].
        -- intros [K|(e & M & E)]; [left; now right|]. apply Hhead in M. destruct M as [(sp' & _ & _ & ->)|M]; [left; left; exact E|right; exists e; auto].
      * rewrite I3. split; (intros [K|(k' & b' & sp' & J & R)]; [now left|right]); [exists k', b', sp'; split; [now right|assumption]|]. destruct J as [E|J]; [injection E as <- <-; destruct R as (_ & _ & R); congruence|]. exists k', b', sp'. auto.
    + destruct (IH _ _ _ _ _ _ N3 N2 H) as (I1 & I2 & I3). 
      assert (Hsame: forall x, made atoi A svcs m x <-> made atoi A svcs ((k, b) :: m) x) by (intros x; rewrite <- Hhead; split; [now right|intros [(sp' & _ & K & _)|K]; [congruence|assumption]]).
      split; [|split].
      * intros e. rewrite I1, Hsame. split; (intros [K|[K1 K2]]; [now left|right; split; [assumption|]; intros x Hx; apply K2; now apply Hsame]).
      * intros i. rewrite I2. split; (intros [K|(e & M & E)]; [now left|right; exists e; split; [now apply Hsame|assumption]]).
      * apply Hg in Eg || pose proof (proj1 (Hg sp) eq_refl) as Eg'. rewrite I3. split; [intros _; right; exists k, b, sp; split; [now left|]; pose proof (proj1 (Hg sp) eq_refl); tauto|now left].
    + destruct (IH _ _ _ _ _ _ N3 N2 H) as (I1 & I2 & I3).
      assert (Hsame: forall x, made atoi A svcs m x <-> made atoi A svcs ((k, b) :: m) x) by (intros x; rewrite <- Hhead; split; [now right|intros [(sp' & K & _)|K]; [discriminate|assumption]]).
      split; [|split].
      * intros e. rewrite I1, Hsame. split; (intros [K|[K1 K2]]; [now left|right; split; [assumption|]; intros x Hx; apply K2; now apply Hsame]).
      * intros i. rewrite I2. split; (intros [K|(e & M & E)]; [now left|right; exists e; split; [now apply Hsame|assumption]]).
      * rewrite I3. split; (intros [K|(k' & b' & sp' & J & R)]; [now left|right]); [exists k', b', sp'; split; [now right|assumption]|]. destruct J as [E|J]; [injection E as <- <-; destruct R as (R1 & R2 & _); pose proof (proj2 (Hg sp') (conj R1 R2)); discriminate|]. exists k', b', sp'. auto.
Qed.
Lemma ep_id_inj : forall a b, dotless (fst a) = true -> dotless (fst b) = true -> ep_id a = ep_id b -> a = b.
Proof.
  intros [a n] [b m]. unfold ep_id. cbn. revert b. induction a as [|c a IH]; intros [|d b] H1 H2 E; cbn in *.
  - now injection E as <-.
  - injection E as <- E. rewrite Ascii.eqb_refl in H2. discriminate.
  - injection E as -> E. rewrite Ascii.eqb_refl in H1. discriminate.
  - injection E as <- E. apply andb_true_iff in H1, H2. specialize (IH b (proj2 H1) (proj2 H2) E). congruence.
Qed.
(* The effect of one reconciliation, whichever API calls fail: the objects are those written for the services that could be read and
   written, and of the others the unmanaged ones and those that could not be deleted. *)
Theorem C71_reconcile_exact : forall atoi A cms c m c' err, NoDup (map ep_key (cl_eps c)) -> (forall e, In e (cl_eps c) -> dotless (fst (ep_key e)) = true) -> (forall k b, In (k, b) m -> dotless (fst k) = true) ->
  collect cms [] = Some m -> reconcile atoi A cms c = Some (c', err) ->
  cl_services c' = cl_services c /\
  (forall e, In e (cl_eps c') <-> made atoi A (cl_services c) m e \/ (In e (cl_eps c) /\ (forall x, made atoi A (cl_services c) m x -> ep_key x <> ep_key e) /\ (ep_managed e = false \/ api_del A (ep_key e) = false))) /\
  (err = true <-> exists k b sp, In (k, b) m /\ api_get A k = true /\ get_service k (cl_services c) = Some sp /\ api_put A k = false).
Proof.
  intros atoi A cms c m c' err Hn Hd Hm Hc Hr. unfold reconcile in Hr. rewrite Hc in Hr. destruct (fold_left (one_service atoi A (cl_services c)) m (cl_eps c, [], false)) as [[eps man] er] eqn:Ef. injection Hr as <- <-. destruct (C71_collect cms m Hc) as (N & _ & _).
  destruct (fold_services _ _ _ _ _ _ _ _ _ _ N Hn Ef) as (I1 & I2 & I3). cbn [cl_services cl_eps]. split; [reflexivity|]. split.
  - intros e. rewrite filter_In, I1, !orb_true_iff, !negb_true_iff, existsb_str, I2. split.
    + intros [[M|[K1 K2]] [[K|[[]|(x & M' & E)]]|K]]; try (left; exact M); right; (split; [assumption|]); (split; [assumption|]); [now left| |now right].
      exfalso. apply (K2 x M'). apply ep_id_inj; [destruct M' as (k & b & sp & J & _ & _ & _ & ->); cbn; eapply Hm; exact J|now apply Hd|assumption].
    + intros [M|(K1 & K2 & K3)]; [split; [now left|left; right; right; exists e; auto]|]. split; [right; auto|]. destruct K3 as [K3|K3]; [left; now left|now right].
  - rewrite I3. split; [intros [K|K]; [discriminate|assumption]|now right].
Qed.
Print Assumptions C71_reconcile_exact.
(* Without API failures and with one address per session: a managed object serves exactly the ports that the config maps list for its
   service and a port of the service leads to. *)
Theorem C71_endpoints : forall atoi A cms c m c' err e, NoDup (map ep_key (cl_eps c)) -> (forall e, In e (cl_eps c) -> dotless (fst (ep_key e)) = true) -> (forall k b, In (k, b) m -> dotless (fst k) = true) ->
  collect cms [] = Some m -> reconcile atoi A cms c = Some (c', err) -> (forall k, api_get A k = true /\ api_put A k = true /\ api_del A k = true) ->
  (forall k sid p q, In p (listed cms k sid) -> In q (listed cms k sid) -> pc_ip p = pc_ip q) ->
  In e (cl_eps c') -> ep_managed e = true ->
  exists sp, get_service (ep_key e) (cl_services c) = Some sp /\ forall ip n z, (exists s, In s (ep_subsets e) /\ served s ip n z) <-> exists sid p, In p (listed cms (ep_key e) sid) /\ named atoi sp p n /\ pc_port p = z /\ pc_ip p = ip.
Proof.
  intros atoi A cms c m c' err e Hn Hd Hm Hc Hr HA Hip He Hman. destruct (C71_reconcile_exact atoi A cms c m c' err Hn Hd Hm Hc Hr) as (_ & I & _). apply I in He. destruct He as [(k & b & sp & Hk & _ & Hs & _ & ->)|(_ & _ & [K|K])]; [|congruence|destruct (HA (ep_key e)) as (_ & _ & K'); congruence].
  cbn [ep_key ep_subsets]. exists sp. split; [assumption|]. destruct (collect_spec cms [] m Hc) as ((N1 & N2) & R & E); [split; [constructor|intros ? ? []]|intros ? []|]. cbn [lsvc lses app] in E. destruct (C71_collect cms m Hc) as (_ & C2 & C3).
  assert (Hr': real k) by (apply R; change k with (fst (k, b)); now apply in_map).
  assert (Hok: forall sid p, In p (listed cms k sid) -> pc_ok p = true). { intros sid p Hp. unfold listed in Hp. apply in_flat_map in Hp. destruct Hp as (x & _ & Hp). apply in_flat_map in Hp. destruct Hp as (s & _ & Hp). destruct (String.eqb (fst s) sid); [|destruct Hp]. apply in_map_iff in Hp. destruct Hp as (q & <- & _). reflexivity. }
  intros ip n z. split.
  - intros (s & Hs' & Hv). apply in_map_iff in Hs'. destruct Hs' as ([sid ps] & <- & Hb). cbn [snd] in Hv. assert (ps = listed cms k sid) by (eapply C2; eassumption). subst ps. apply C71_subset_exact in Hv; [|intros p q P Q _ _; eapply Hip; eassumption]. destruct Hv as (p & P1 & P2 & P3 & P4 & P5). exists sid, p. auto.
  - intros (sid & p & P1 & P2 & P3 & P4). destruct (C3 k sid (proj1 Hr') (proj2 Hr')) as (b' & B1 & B2); [intros K; rewrite K in P1; destruct P1|]. assert (b' = b) by (rewrite <- (lsvc_in _ _ _ N1 B1); now apply lsvc_in). subst b'.
    exists (get_subset atoi (listed cms k sid) sp). split; [apply in_map_iff; exists (sid, listed cms k sid); auto|]. rewrite <- P3, <- P4. apply C71_subset_complete; eauto.
Qed.
Print Assumptions C71_endpoints.

(* ---- defects ---- *)
(* Defect: when a service cannot be read for a moment, or its Endpoints cannot be written, the Endpoints that are there are deleted. *)
Theorem C71_api_error_deletes_refuted : forall atoi A cms c m c' err k b e, NoDup (map ep_key (cl_eps c)) -> (forall e, In e (cl_eps c) -> dotless (fst (ep_key e)) = true) -> (forall k b, In (k, b) m -> dotless (fst k) = true) ->
  collect cms [] = Some m -> reconcile atoi A cms c = Some (c', err) -> In (k, b) m -> In e (cl_eps c) -> ep_key e = k -> ep_managed e = true -> (api_get A k = false \/ api_put A k = false) -> api_del A k = true ->
  forall x, In x (cl_eps c') -> ep_key x <> k.
Proof.
  intros atoi A cms c m c' err k b e Hn Hd Hm Hc Hr Hk He Ek Em HA Hdel x Hx E. destruct (C71_reconcile_exact atoi A cms c m c' err Hn Hd Hm Hc Hr) as (_ & I & _). apply I in Hx. destruct Hx as [(k' & b' & sp & _ & G & _ & P & ->)|(K1 & _ & K)].
  - cbn in E. subst k'. destruct HA; congruence.
  - assert (x = e). { clear - Hn He K1 E Ek. induction (cl_eps c) as [|y l IH]; [destruct He|]. cbn in Hn. apply NoDup_cons_iff in Hn. destruct Hn as [N1 N2]. destruct He as [->|He], K1 as [->|K1]; try reflexivity; try (exfalso; apply N1; (rewrite Ek, <- E || rewrite E, <- Ek); now apply in_map). auto. }
    subst x. rewrite E in K. destruct K; congruence.
Qed.
Print Assumptions C71_api_error_deletes_refuted.
(* Defect: sessions of the same name on two pods are mixed: ports of one are offered on the address of the other. *)
Theorem C71_mixed_sessions_refuted : forall atoi ip1 ip2 z1 z2 n1 n2 k sp, ip1 <> ip2 -> fst k <> "" -> snd k <> "" ->
  let p1 := mkpc n1 true "" z1 0 k in let p2 := mkpc n2 true "" z2 0 k in
  let cms := [mkcm ip1 (Some [("s", [p1])]); mkcm ip2 (Some [("s", [p2])])] in
  forall m1 m2, named atoi sp p1 m1 -> named atoi sp p2 m2 -> exists ps, collect cms [] = Some [(k, [("s", ps)])] /\ served (get_subset atoi ps sp) ip1 m2 z2.
Proof.
  intros atoi ip1 ip2 z1 z2 n1 n2 k sp Hi K1 K2 p1 p2 cms m1 m2 M1 M2. exists [relocate ip1 p1; relocate ip2 p2]. apply String.eqb_neq in K1, K2. split.
  - unfold cms, p1, p2. cbn. unfold add_pc at 2. cbn. rewrite K1, K2. cbn. unfold add_pc. cbn. rewrite K1, K2. cbn. rewrite keqb_refl. reflexivity.
  - destruct (subset_fold atoi sp [relocate ip1 p1; relocate ip2 p2] (mkss [] [])) as [A B]. split; [apply A; right; exists (relocate ip1 p1), m1; split; [now left|]; split; [reflexivity|]; split; [exact M1|reflexivity]|apply B; right; exists (relocate ip2 p2); split; [right; now left|]; split; [reflexivity|]; split; [exact M2|reflexivity]].
Qed.
Print Assumptions C71_mixed_sessions_refuted.
(* Defect: of two service ports that lead to the same exposed port only the first has endpoints. *)
Theorem C71_second_service_port_refuted : forall atoi ports sp1 sp2 t ip z, sp_target sp1 = inl t -> sp_target sp2 = inl t -> sp_name sp1 <> sp_name sp2 -> sp_name sp2 <> "http-metrics" ->
  ~ served (get_subset atoi ports [sp1; sp2]) ip (sp_name sp2) z.
Proof.
  intros atoi ports sp1 sp2 t ip z T1 T2 Hn Hm [_ H]. destruct (subset_fold atoi [sp1; sp2] ports (mkss [] [])) as [_ B]. apply B in H. destruct H as [[]|(p & _ & _ & N & _)]. destruct N as [[_ N]|(_ & pre & sp & post & E & L & Hp & N)]; [congruence|].
  destruct pre as [|x [|y pre]]; cbn in E.
  - injection E as <- _. congruence.
  - injection E as <- <- _. apply (Hp sp1); [now left|]. unfold leads in *. now rewrite T1, T2 in *.
  - destruct pre; discriminate.
Qed.
Print Assumptions C71_second_service_port_refuted.
(* Defect: an exposed port without a name is taken for the target of the first service port that has a number, whatever the number. *)
Theorem C71_unnamed_port_refuted : forall atoi sp sps t z ip k, sp_target sp = inl t -> exists p, pc_name p = "" /\ pc_target p <> t /\ pc_svc p = k /\ served (get_subset atoi [p] (sp :: sps)) ip (sp_name sp) z.
Proof.
  intros atoi sp sps t z ip k T. exists (mkpc "" true ip z (t + 1) k). cbn [pc_name pc_target pc_svc]. split; [reflexivity|]. split; [lia|]. split; [reflexivity|]. apply (C71_subset_complete atoi _ _ (mkpc "" true ip z (t + 1) k)); [now left|reflexivity|]. right. split; [discriminate|]. exists [], sp, sps. split; [reflexivity|]. split; [|split; [intros ? []|reflexivity]]. unfold leads. rewrite T. now right.
Qed.
Print Assumptions C71_unnamed_port_refuted.
(* Defect: the written object depends on the iteration order of a map, so a reconciliation without any change may write another object
   (and the watch on Endpoints then starts the next one). *)
Theorem C71_order_refuted : exists atoi A ss ss' c c1 c2, Permutation ss ss' /\ reconcile atoi A [mkcm "10.0.0.1" (Some ss)] c = Some (c1, false) /\
  reconcile atoi A [mkcm "10.0.0.1" (Some ss')] c1 = Some (c2, false) /\ c1 <> c2.
Proof.
  exists (fun _ => 0%Z), (mkapi (fun _ => true) (fun _ => true) (fun _ => true)), [("a", [mkpc "http" true "" 5001 8080 ("ns", "web")]); ("b", [mkpc "http" true "" 5002 8080 ("ns", "web")])], [("b", [mkpc "http" true "" 5002 8080 ("ns", "web")]); ("a", [mkpc "http" true "" 5001 8080 ("ns", "web")])], (mkcl [(("ns", "web"), [mksp "http" (inl 8080%Z)])] []). do 2 eexists. split; [apply perm_swap|]. split; [reflexivity|]. split; [reflexivity|]. discriminate.
Qed.
Print Assumptions C71_order_refuted.
(* the hypotheses of C71_endpoints are met *)
Example C71_ex : exists c' m e, collect [mkcm "10.0.0.1" (Some [("a", [mkpc "http" true "" 5001 8080 ("ns", "web")]); ("b", [mkpc "http" true "" 5002 8080 ("ns", "web")])])] [] = Some m /\
  reconcile (fun _ => 0%Z) (mkapi (fun _ => true) (fun _ => true) (fun _ => true)) [mkcm "10.0.0.1" (Some [("a", [mkpc "http" true "" 5001 8080 ("ns", "web")]); ("b", [mkpc "http" true "" 5002 8080 ("ns", "web")])])]
    (mkcl [(("ns", "web"), [mksp "web" (inl 8080%Z)])] [mkep ("ns", "old") true []; mkep ("ns", "mine") false []]) = Some (c', false) /\ In e (cl_eps c') /\ ep_managed e = true /\ List.length (cl_eps c') = 2 /\ ep_subsets e = [mkss ["10.0.0.1"] [("web", 5001%Z)]; mkss ["10.0.0.1"] [("web", 5002%Z)]].
Proof. do 2 eexists. exists (mkep ("ns", "web") true [mkss ["10.0.0.1"] [("web", 5001%Z)]; mkss ["10.0.0.1"] [("web", 5002%Z)]]). split; [reflexivity|]. split; [reflexivity|]. split; [cbn; auto|]. split; [reflexivity|]. split; reflexivity. Qed.
