(* C98: instances that push their metrics to one Pushgateway. *)
From Coq Require Import Ascii String List Bool Arith ZArith Lia.
From Verif Require Import M_GoStr L_GoStr M_Integration M_Pusher.
Import ListNotations.
Open Scope nat_scope.
(* ---- specification: what a history does to the group of one instance ---- *)
Lemma keqb_refl : forall k, keqb k k = true.
Proof. intros [j [u|]]; unfold keqb; cbn; now rewrite ?geqb_refl. Qed.
Lemma keqb_eq : forall a b, keqb a b = true <-> a = b.
Proof.
  intros [j u] [j' u']. split; [|intros E; rewrite E; apply keqb_refl]. unfold keqb. cbn [fst snd]. intros H. apply andb_prop in H. destruct H as [H1 H2]. apply geqb_eq in H1. subst j'.
  destruct u as [x|], u' as [y|]; try discriminate H2; [|reflexivity]. apply geqb_eq in H2. now subst.
Qed.
Local Arguments keqb : simpl never.
Lemma set_group_get : forall f k x q, set_group f k x q = if keqb q k then x else f q.
Proof. reflexivity. Qed.
Lemma upd_same : forall X (f : nat -> X) i x, upd f i x i = x.
Proof. intros. unfold upd. now rewrite Nat.eqb_refl. Qed.
Lemma upd_other : forall X (f : nat -> X) i j x, j <> i -> upd f i x j = f j.
Proof. intros X f i j x H. unfold upd. destruct (Nat.eqb_spec j i); [contradiction|reflexivity]. Qed.
Lemma drop_in : forall X (l : list X) j x, In x (drop j l) -> In x l.
Proof. induction l as [|y l IH]; intros [|j] x H; cbn in *; auto. destruct H as [H|H]; eauto. Qed.
Lemma run_snoc : forall keys h e s, run keys s (h ++ [e]) = step keys (run keys s h) e.
Proof. intros. unfold run. now rewrite fold_left_app. Qed.
Lemma run_app : forall keys h g s, run keys s (h ++ g) = run keys (run keys s h) g.
Proof. intros. unfold run. apply fold_left_app. Qed.
(* no other instance has the key of instance i *)
Definition own_key (keys : nat -> key) (i : nat) : Prop := forall j, keys j = keys i -> j = i.
(* the pushes of instance i that the history began, oldest first: the ticks that found it selecting with a live context *)
Fixpoint pushes (keys : nat -> key) (i : nat) (s : st) (h : list event) : list Z :=
  match h with
  | [] => []
  | e :: r => (match e with Tick j v => if Nat.eqb j i && (match pcs s i with Selecting => negb (cancelled s i) | _ => false end) then [v] else [] | _ => [] end) ++ pushes keys i (step keys s e) r
  end.
Lemma pushes_snoc : forall keys i h e s, pushes keys i s (h ++ [e]) = pushes keys i s h ++ match e with Tick j v => if Nat.eqb j i && (match pcs (run keys s h) i with Selecting => negb (cancelled (run keys s h) i) | _ => false end) then [v] else [] | _ => [] end.
Proof. intros keys i h e. induction h as [|x h IH]; intros s; cbn [app pushes run fold_left]; [now rewrite app_nil_r|]. rewrite IH, <- app_assoc. reflexivity. Qed.
Record inv (keys : nat -> key) (i : nat) (h : list event) (s : st) : Prop := {
  i_owner : forall j v, groups s (keys i) = Some (j, v) -> j = i /\ In v (pushes keys i start h);
  i_fly : forall v, In (i, v) (flying s) -> In v (pushes keys i start h) }.
Lemma inv_run : forall keys i h, own_key keys i -> inv keys i h (run keys start h).
Proof.
  intros keys i h Hk. induction h as [|e h IH] using rev_ind; [constructor; cbn; [discriminate|contradiction]|]. rewrite run_snoc. set (s := run keys start h) in *.
  assert (Ex: pushes keys i start (h ++ [e]) = pushes keys i start h ++ match e with Tick j v => if Nat.eqb j i && (match pcs s i with Selecting => negb (cancelled s i) | _ => false end) then [v] else [] | _ => [] end) by apply pushes_snoc.
  destruct IH as [Io If]. assert (Stay: inv keys i (h ++ [e]) s).
  { constructor; rewrite Ex; [intros j v H; destruct (Io j v H); split; [assumption|apply in_or_app; now left]|intros v H; apply in_or_app; left; now apply If]. }
  destruct Stay as [So Sf]. destruct e as [j v|j|j|j|j|j ok|j]; cbn [step]; try (now constructor).
  - destruct (pcs s j) eqn:E; try (now constructor). destruct (cancelled s j) eqn:Ec; try (now constructor). constructor; cbn [groups flying]; [exact So|]. intros w Hw. apply in_app_or in Hw. destruct Hw as [Hw|[Hw|[]]]; [now apply Sf|]. injection Hw as -> ->.
    rewrite Ex, Nat.eqb_refl, E, Ec. apply in_or_app. right. now left.
  - destruct (nth_error (flying s) j) as [[o v]|] eqn:E; try (now constructor). constructor; cbn [groups flying]; [|intros w Hw; apply Sf; eapply drop_in, Hw]. intros p w H. rewrite set_group_get in H.
    destruct (keqb (keys i) (keys o)) eqn:Ek; [|now apply So]. injection H as <- <-. apply keqb_eq in Ek. symmetry in Ek. apply Hk in Ek. subst o. split; [reflexivity|]. apply Sf. eapply nth_error_In, E.
  - constructor; cbn [groups flying]; [exact So|intros w Hw; apply Sf; eapply drop_in, Hw].
  - destruct (pcs s j); try (now constructor). destruct (_ || _); now constructor.
  - destruct (pcs s j); try (now constructor). destruct (cancelled s j); try (now constructor). constructor; cbn [groups flying]; [|exact Sf]. intros p w H. destruct ok; [|now apply So]. rewrite set_group_get in H. destruct (keqb (keys i) (keys j)); [discriminate|now apply So].
Qed.
(* The group of an instance whose key no other instance has holds nothing but metrics that it pushed itself. *)
Theorem C98_own_metrics : forall keys i h j v, own_key keys i -> groups (run keys start h) (keys i) = Some (j, v) -> j = i /\ In v (pushes keys i start h).
Proof. intros keys i h j v Hk H. exact (i_owner _ _ _ _ (inv_run keys i h Hk) j v H). Qed.
Print Assumptions C98_own_metrics.
(* What the others do leaves the group of such an instance alone. *)
Definition acts (i : nat) (s : st) (e : event) : Prop :=
  match e with Tick j _ | Answer j | Cancel j | Delete j _ | Exit j => j = i | Arrives k | Lost k => exists v, nth_error (flying s) k = Some (i, v) end.
Theorem C98_isolated : forall keys i s e, own_key keys i -> ~ acts i s e -> groups (step keys s e) (keys i) = groups s (keys i).
Proof.
  intros keys i s e Hk Hn. destruct e as [j v|j|j|j|j|j ok|j]; cbn [step acts] in *; try reflexivity.
  - destruct (pcs s j); try reflexivity. now destruct (cancelled s j).
  - destruct (nth_error (flying s) j) as [[o v]|] eqn:E; [|reflexivity]. cbn [groups]. rewrite set_group_get. destruct (keqb (keys i) (keys o)) eqn:Ek; [|reflexivity]. apply keqb_eq in Ek. symmetry in Ek. apply Hk in Ek. subst o. destruct Hn. eauto.
  - destruct (pcs s j); try reflexivity. now destruct (_ || _).
  - destruct (pcs s j); try reflexivity. destruct (cancelled s j); [|reflexivity]. cbn [groups]. destruct ok; [|reflexivity]. rewrite set_group_get. destruct (keqb (keys i) (keys j)) eqn:Ek; [|reflexivity]. apply keqb_eq in Ek. symmetry in Ek. apply Hk in Ek. contradiction.
Qed.
Print Assumptions C98_isolated.
(* A push that arrives is there at once, in place of everything the group had. *)
Theorem C98_replaces : forall keys s j i v, nth_error (flying s) j = Some (i, v) -> groups (step keys s (Arrives j)) (keys i) = Some (i, v).
Proof. intros keys s j i v H. cbn [step]. rewrite H. cbn [groups]. rewrite set_group_get. now rewrite keqb_refl. Qed.
Print Assumptions C98_replaces.
(* After its context is done an instance begins no push; once it has returned or ended, it begins none and deletes nothing. *)
Lemma stays_cancelled : forall keys h s i, cancelled s i = true -> cancelled (run keys s h) i = true.
Proof.
  intros keys h. induction h as [|e h IH]; intros s i H; [exact H|]. change (run keys s (e :: h)) with (run keys (step keys s e) h). apply IH.
  destruct e as [j v|j|j|j|j|j ok|j]; cbn [step]; auto.
  - destruct (pcs s j); auto. destruct (cancelled s j); auto.
  - destruct (nth_error (flying s) j) as [[o v]|]; auto.
  - destruct (pcs s j); auto. destruct (_ || _); auto.
  - cbn [cancelled]. unfold upd. now destruct (Nat.eqb i j).
  - destruct (pcs s j); auto. destruct (cancelled s j); auto.
Qed.
Theorem C98_no_push_after : forall keys h s i, cancelled s i = true -> pushes keys i s h = [].
Proof.
  intros keys h. induction h as [|e h IH]; intros s i H; [reflexivity|]. cbn [pushes]. rewrite IH; [|exact (stays_cancelled keys [e] s i H)]. rewrite app_nil_r. destruct e; try reflexivity. rewrite H. destruct (pcs s i); cbn; now rewrite andb_false_r.
Qed.
Print Assumptions C98_no_push_after.
Lemma no_flight : forall keys h s i, cancelled s i = true -> (forall v, ~ In (i, v) (flying s)) -> forall v, ~ In (i, v) (flying (run keys s h)).
Proof.
  intros keys h. induction h as [|e h IH]; intros s i Hc Hf; [exact Hf|]. change (run keys s (e :: h)) with (run keys (step keys s e) h). apply IH; [exact (stays_cancelled keys [e] s i Hc)|]. intros v.
  destruct e as [j w|j|j|j|j|j ok|j]; cbn [step]; auto.
  - destruct (pcs s j); auto. destruct (cancelled s j) eqn:E; auto. cbn [flying]. intros H. apply in_app_or in H. destruct H as [H|[H|[]]]; [exact (Hf v H)|]. injection H as -> ->. congruence.
  - destruct (nth_error (flying s) j) as [[o w]|]; auto. cbn [flying]. intros H. exact (Hf v (drop_in _ _ _ _ H)).
  - cbn [flying]. intros H. exact (Hf v (drop_in _ _ _ _ H)).
  - destruct (pcs s j); auto. destruct (_ || _); auto.
  - destruct (pcs s j); auto. destruct (cancelled s j); auto.
Qed.
(* An instance with a key of its own whose deletion succeeds, with none of its requests on the way, leaves nothing behind, for ever. *)
Theorem C98_deleted : forall keys i h g, own_key keys i -> let s := run keys start h in pcs s i = Selecting -> cancelled s i = true -> (forall v, ~ In (i, v) (flying s)) ->
  groups (run keys s (Delete i true :: g)) (keys i) = None.
Proof.
  intros keys i h g Hk s Hp Hc Hf. change (run keys s (Delete i true :: g)) with (run keys (step keys s (Delete i true)) g). cbn [step]. rewrite Hp, Hc. set (t := mkst _ _ _ _).
  assert (Ht: groups t (keys i) = None) by (subst t; cbn [groups]; rewrite set_group_get; now rewrite keqb_refl).
  assert (Hct: cancelled t i = true) by exact Hc. assert (Hpt: pcs t i = Returned \/ pcs t i = Ended) by (left; subst t; cbn [pcs]; apply upd_same). assert (Hft: forall v, ~ In (i, v) (flying t)) by exact Hf.
  clearbody t. clear - Hk Ht Hct Hpt Hft. revert t Ht Hct Hpt Hft. induction g as [|e g IH]; intros t Ht Hct Hpt Hft; [exact Ht|]. change (run keys t (e :: g)) with (run keys (step keys t e) g). apply IH.
  - destruct e as [j v|j|j|j|j|j ok|j]; cbn [step]; auto.
    + destruct (pcs t j); auto. now destruct (cancelled t j).
    + destruct (nth_error (flying t) j) as [[o v]|] eqn:E; auto. cbn [groups]. rewrite set_group_get. destruct (keqb (keys i) (keys o)) eqn:Ek; auto. apply keqb_eq in Ek. symmetry in Ek. apply Hk in Ek. subst o. destruct (Hft v). eapply nth_error_In, E.
    + destruct (pcs t j); auto. now destruct (_ || _).
    + destruct (pcs t j); auto. destruct (cancelled t j); auto. cbn [groups]. destruct ok; auto. rewrite set_group_get. now destruct (keqb (keys i) (keys j)).
  - exact (stays_cancelled keys [e] t i Hct).
  - destruct e as [j v|j|j|j|j|j ok|j]; cbn [step]; auto.
    + destruct (Nat.eq_dec i j) as [<-|Hn]; [let E := fresh in destruct Hpt as [E|E]; rewrite E; auto|]. destruct (pcs t j); auto. destruct (cancelled t j); auto. cbn [pcs]. now rewrite upd_other.
    + destruct (nth_error (flying t) j) as [[o v]|]; auto.
    + destruct (Nat.eq_dec i j) as [<-|Hn]; [let E := fresh in destruct Hpt as [E|E]; rewrite E; auto|]. destruct (pcs t j); auto. destruct (_ || _); auto. cbn [pcs]. now rewrite upd_other.
    + destruct (Nat.eq_dec i j) as [<-|Hn]; [let E := fresh in destruct Hpt as [E|E]; rewrite E; auto|]. destruct (pcs t j); auto. destruct (cancelled t j); auto. cbn [pcs]. now rewrite upd_other.
    + destruct (Nat.eq_dec i j) as [<-|Hn]; cbn [pcs]; [right; apply upd_same|now rewrite upd_other].
  - exact (no_flight keys [e] t i Hct Hft).
Qed.
Print Assumptions C98_deleted.
(* That none of its requests is on the way is so if its context was done while it was selecting with none on the way. *)
Theorem C98_calm_stop : forall keys i s h, cancelled s i = true -> (forall v, ~ In (i, v) (flying s)) -> forall v, ~ In (i, v) (flying (run keys s h)).
Proof. intros. now apply no_flight. Qed.
Print Assumptions C98_calm_stop.
(* Refuted: metrics of an instance that is gone are gone.  (1) A push on the way when the context is done arrives after the deletion. *)
Theorem C98_late_push_refuted : forall keys v, let s := run keys start [Tick 0 v; Cancel 0; Answer 0; Delete 0 true; Arrives 0] in
  groups s (keys 0) = Some (0, v) /\ pcs s 0 = Returned.
Proof.
  intros. subst s. unfold run. cbn. unfold set_group, upd. cbn.
 rewrite ?keqb_refl. auto. Qed.
Print Assumptions C98_late_push_refuted.
(* (2) The deletion fails: it is not tried again.  (3) The process ends before it: nothing waits for the goroutine. *)
Theorem C98_gone_refuted : forall keys i h g e, own_key keys i -> e = Delete i false \/ e = Exit i -> let s := run keys start h in pcs s i = Selecting -> cancelled s i = true -> (forall v, ~ In (i, v) (flying s)) ->
  groups (run keys s (e :: g)) (keys i) = groups s (keys i).
Proof.
  intros keys i h g e Hk He s Hp Hc Hf. change (run keys s (e :: g)) with (run keys (step keys s e) g).
  assert (T: let t := step keys s e in groups t (keys i) = groups s (keys i) /\ cancelled t i = true /\ (pcs t i = Returned \/ pcs t i = Ended) /\ forall v, ~ In (i, v) (flying t)).
  { destruct He as [-> | ->]; cbn [step]; rewrite ?Hp, ?Hc; cbn [groups cancelled pcs flying]; rewrite upd_same; auto. }
  cbv zeta in T. destruct T as (<- & Hct & Hpt & Hft). generalize dependent (step keys s e). clear - Hk. intros t Hct Hpt Hft.
  revert t Hct Hpt Hft. induction g as [|e g IH]; intros t Hct Hpt Hft; [reflexivity|]. change (run keys t (e :: g)) with (run keys (step keys t e) g).
  assert (G: groups (step keys t e) (keys i) = groups t (keys i)).
  { destruct e as [j v|j|j|j|j|j ok|j]; cbn [step]; auto.
    - destruct (pcs t j); auto. now destruct (cancelled t j).
    - destruct (nth_error (flying t) j) as [[o v]|] eqn:E; auto. cbn [groups]. rewrite set_group_get. destruct (keqb (keys i) (keys o)) eqn:Ek; auto. apply keqb_eq in Ek. symmetry in Ek. apply Hk in Ek. subst o. destruct (Hft v). eapply nth_error_In, E.
    - destruct (pcs t j); auto. now destruct (_ || _).
    - destruct (Nat.eq_dec i j) as [<-|Hn]; [let E := fresh in destruct Hpt as [E|E]; rewrite E; auto|]. destruct (pcs t j); auto. destruct (cancelled t j); auto. cbn [groups]. destruct ok; auto. rewrite set_group_get. destruct (keqb (keys i) (keys j)) eqn:Ek; auto. apply keqb_eq in Ek. symmetry in Ek. apply Hk in Ek. congruence. }
  rewrite <- G. apply IH.
  - exact (stays_cancelled keys [e] t i Hct).
  - destruct e as [j v|j|j|j|j|j ok|j]; cbn [step]; auto.
    + destruct (Nat.eq_dec i j) as [<-|Hn]; [let E := fresh in destruct Hpt as [E|E]; rewrite E; auto|]. destruct (pcs t j); auto. destruct (cancelled t j); auto. cbn [pcs]. now rewrite upd_other.
    + destruct (nth_error (flying t) j) as [[o v]|]; auto.
    + destruct (Nat.eq_dec i j) as [<-|Hn]; [let E := fresh in destruct Hpt as [E|E]; rewrite E; auto|]. destruct (pcs t j); auto. destruct (_ || _); auto. cbn [pcs]. now rewrite upd_other.
    + destruct (Nat.eq_dec i j) as [<-|Hn]; [let E := fresh in destruct Hpt as [E|E]; rewrite E; auto|]. destruct (pcs t j); auto. destruct (cancelled t j); auto. cbn [pcs]. now rewrite upd_other.
    + destruct (Nat.eq_dec i j) as [<-|Hn]; cbn [pcs]; [right; apply upd_same|now rewrite upd_other].
  - exact (no_flight keys [e] t i Hct Hft).
Qed.
Print Assumptions C98_gone_refuted.
Example C98_gone_refuted_ex : let keys := fun i => key_of (lit "node") true (repeat "x"%char i) in let s := run keys start [Tick 0 7; Arrives 0; Answer 0; Cancel 0; Delete 0 false; Exit 0] in groups s (keys 0) = Some (0, 7%Z).
Proof. vm_compute. reflexivity. Qed.
(* Refuted: the metrics of a running instance stay: another one with the same key replaces them, and deletes them when it stops. *)
Theorem C98_shared_key_refuted : forall keys v w, keys 1 = keys 0 -> let s := run keys start [Tick 0 v; Arrives 0; Answer 0; Tick 1 w; Arrives 0; Answer 1] in
  groups s (keys 0) = Some (1, w) /\ groups (run keys s [Cancel 1; Delete 1 true]) (keys 0) = None /\ pcs (run keys s [Cancel 1; Delete 1 true]) 0 = Selecting.
Proof.
  intros keys v w E s. subst s. unfold run. cbn. unfold set_group, upd. cbn. rewrite E.
 rewrite ?keqb_refl. auto. Qed.
Print Assumptions C98_shared_key_refuted.
(* Keys differ if the instance label is used and the identifiers differ; without it, they are equal exactly for equal job names, *)
(* as of two instances with the same node identifier. *)
Theorem C98_keys : forall n n' u u' x y, (u <> u' -> key_of n true u <> key_of n' true u') /\ (key_of n false x = key_of n' false y <-> job_name n = job_name n') /\ key_of n true u <> key_of n' false u'.
Proof.
  intros. unfold key_of. split; [|split].
  - intros H E. injection E as _ E. contradiction.
  - split; [intros E; now injection E|now intros ->].
  - intros E. discriminate.
Qed.
Print Assumptions C98_keys.
Theorem C98_same_node_refuted : forall n u u', key_of n false u = key_of n false u'.
Proof. reflexivity. Qed.
Print Assumptions C98_same_node_refuted.
(* A negative interval panics; 0 stands for 5 seconds. *)
Theorem C98_interval : forall d, ticker_starts d = true <-> (0 <= d)%Z.
Proof. intros d. unfold ticker_starts, with_default. destruct (Z.eqb_spec d 0) as [->|H]; [split; [lia|reflexivity]|]. rewrite Z.ltb_lt. lia. Qed.
Print Assumptions C98_interval.
Example C98_deleted_ex : let keys := fun i => key_of (lit "node") true (repeat "x"%char i) in let s := run keys start [Tick 0 7; Tick 1 8; Arrives 0; Answer 0; Arrives 0; Cancel 0] in
  pcs s 0 = Selecting /\ cancelled s 0 = true /\ flying s = [] /\ groups s (keys 0) = Some (0, 7%Z) /\ groups (run keys s [Delete 0 true; Tick 1 9; Arrives 0]) (keys 1) = Some (1, 8%Z).
Proof. vm_compute. auto. Qed.
Example C98_own_key_ex : let keys := fun i => key_of (lit "node") true (repeat "x"%char i) in own_key keys 0.
Proof. intros keys j H. unfold keys, key_of in H. injection H as H. destruct j; [reflexivity|discriminate]. Qed.
