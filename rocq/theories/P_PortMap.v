(* C101: proofs about M_PortMap.v *)
From Coq Require Import List String Bool Arith Lia.
From Verif Require Import M_GoStr M_Identity M_Run M_PortMap.
Import ListNotations.
Open Scope list_scope.

Lemma run_cons s e h : run s (e :: h) = run (step s e) h. Proof. reflexivity. Qed.
Lemma run_snoc s e h : run s (h ++ [e]) = step (run s h) e. Proof. unfold run. rewrite fold_left_app. reflexivity. Qed.
Lemma upd_same {X} (f : nat -> X) i x : upd f i x i = x. Proof. unfold upd. rewrite Nat.eqb_refl. reflexivity. Qed.
Lemma upd_other {X} (f : nat -> X) i j x : j <> i -> upd f i x j = f j. Proof. unfold upd. intro N. destruct (Nat.eqb_spec j i); congruence. Qed.

(* when no reconciliation is due the config map shows the ports map *)
Theorem C101_config_map : forall h, due (run start h) = false -> forall p, cm (run start h) p = table (run start h) p.
Proof.
  intros h. assert (X : forall h s, (due s = false -> forall p, cm s p = table s p) -> due (run s h) = false -> forall p, cm (run s h) p = table (run s h) p).
  { clear. induction h as [|e h IH]; intros s A; [exact A|]. rewrite run_cons. apply IH.
    destruct e as [p o|p|p| | |ok]; cbn; try (destruct (live s p)); try exact A; try (destruct (opens s) as [|[q o] r]); try (destruct (releases s)); cbn; try exact A; try discriminate.
    all: try (destruct (due s) eqn:D, ok; cbn; auto; intro K; congruence). }
  apply X. reflexivity.
Qed.
Print Assumptions C101_config_map.
(* every entry is that of a client which exposed the port *)
Theorem C101_genuine : forall h p c, table (run start h) p = Some c \/ cm (run start h) p = Some c -> exists o, In (Open p o) h /\ c = conf_of p o.
Proof.
  assert (X : forall h, (forall p o, In (p, o) (opens (run start h)) -> In (Open p o) h) /\
    (forall p c, table (run start h) p = Some c \/ cm (run start h) p = Some c -> exists o, In (Open p o) h /\ c = conf_of p o)).
  { induction h as [|e h IH] using rev_ind; [cbn; split; [tauto|intros p c [K|K]; discriminate]|]. rewrite run_snoc. destruct IH as [I1 I2].
    assert (W : forall x, In x h -> In x (h ++ [e])) by (intros; apply in_or_app; auto).
    assert (J1 : forall p o, In (p, o) (opens (run start h)) -> In (Open p o) (h ++ [e])) by auto.
    assert (J2 : forall p c, table (run start h) p = Some c \/ cm (run start h) p = Some c -> exists o, In (Open p o) (h ++ [e]) /\ c = conf_of p o)
      by (intros p c K; destruct (I2 p c K) as (o & O & C); exists o; auto).
    remember (run start h) as s. destruct e as [p o|p|p| | |ok]; cbn.
    - destruct (live s p); [auto|]. cbn. split; [|exact J2]. intros q o' K. apply in_app_or in K. destruct K as [K|[K|[]]]; [auto|]. injection K as <- <-. apply in_or_app. right. left. reflexivity.
    - destruct (live s p); cbn; auto.
    - cbn. auto.
    - destruct (opens s) as [|[q o] r] eqn:Q; cbn; [rewrite Q; auto|]. split; [intros; apply J1; right; auto|]. intros p c [K|K]; [|apply J2; auto].
      unfold upd in K. destruct (Nat.eqb_spec p q) as [->|N]; [|apply J2; auto]. injection K as <-. exists o. split; [apply J1; left; reflexivity|reflexivity].
    - destruct (releases s) as [|q r] eqn:Q; cbn; [auto|]. split; [exact J1|]. intros p c [K|K]; [|apply J2; auto].
      unfold upd in K. destruct (Nat.eqb_spec p q) as [->|N]; [discriminate|apply J2; auto].
    - destruct (due s && ok); cbn; [|auto]. split; [exact J1|]. intros p c K. apply J2. destruct K; auto. }
  intros h. apply X.
Qed.
Print Assumptions C101_genuine.
(* the entry of a client: its name, address, ports and session, the service from its metadata, the namespace from its user *)
Theorem C101_entry : forall p o, let c := conf_of p o in
  (pc_name c, pc_address c, pc_port c, pc_target c, pc_session c) = (o_name o, o_address o, p, o_target o, o_session o) /\
  pc_svc_name c = (match o_meta o (lit "client.bifrost.k8s.cisco.com/service-name") with Some v => v | None => [] end) /\
  pc_svc_ns c = (match o_user o (lit "namespace") with Some v => v | None => [] end).
Proof. intros. repeat split. Qed.
Print Assumptions C101_entry.

(* nothing about port p waits to be handled *)
Definition settled (p : nat) (s : st) : Prop := (forall o, ~ In (p, o) (opens s)) /\ ~ In p (releases s).
(* a history in which each event about p is handled before the next is published, and the listener of p does not break *)
Fixpoint calm (p : nat) (s : st) (h : list event) : Prop :=
  match h with
  | [] => True
  | e :: r => match e with Open q _ | Close q => q = p -> settled p s | Broken q => q <> p | _ => True end /\ calm p (step s e) r
  end.
(* at most one event about p waits; the table shows p as it was before it *)
Definition good (p : nat) (s : st) : Prop :=
  (settled p s /\ table s p = option_map (conf_of p) (live s p)) \/
  (exists a b o, opens s = a ++ (p, o) :: b /\ (forall x, ~ In (p, x) (a ++ b)) /\ ~ In p (releases s) /\ live s p = Some o) \/
  (exists a b, releases s = a ++ p :: b /\ ~ In p (a ++ b) /\ (forall o, ~ In (p, o) (opens s)) /\ live s p = None).
Lemma good_step p s e : good p s -> match e with Open q _ | Close q => q = p -> settled p s | Broken q => q <> p | _ => True end -> good p (step s e).
Proof.
  intros G C. destruct e as [q o|q|q| | |ok]; cbn.
  - destruct (live s q) eqn:L; [exact G|]. destruct (Nat.eq_dec q p) as [->|N].
    + destruct (C eq_refl) as [C1 C2]. right. left. exists (opens s), [], o. cbn. rewrite app_nil_r, upd_same. auto.
    + destruct G as [[[G1 G2] G3]|[(a & b & o' & G1 & G2 & G3 & G4)|(a & b & G1 & G2 & G3 & G4)]].
      * left. unfold settled. cbn. rewrite upd_other by auto. split; [split; [|exact G2]|exact G3]. intros x K. apply in_app_or in K. destruct K as [K|[K|[]]]; [exact (G1 x K)|congruence].
      * right. left. exists a, (b ++ [(q, o)]), o'. cbn. rewrite upd_other by auto. split; [rewrite G1, <- app_assoc; reflexivity|]. split; [|auto].
        intros x K. rewrite app_assoc in K. apply in_app_or in K. destruct K as [K|[K|[]]]; [exact (G2 x K)|congruence].
      * right. right. exists a, b. cbn. rewrite upd_other by auto. split; [exact G1|]. split; [exact G2|]. split; [|exact G4].
        intros x K. apply in_app_or in K. destruct K as [K|[K|[]]]; [exact (G3 x K)|congruence].
  - destruct (live s q) eqn:L; [|exact G]. destruct (Nat.eq_dec q p) as [->|N].
    + destruct (C eq_refl) as [C1 C2]. right. right. exists (releases s), []. cbn. rewrite app_nil_r, upd_same. auto.
    + destruct G as [[[G1 G2] G3]|[(a & b & o' & G1 & G2 & G3 & G4)|(a & b & G1 & G2 & G3 & G4)]].
      * left. unfold settled. cbn. rewrite upd_other by auto. split; [split; [exact G1|]|exact G3]. intros K. apply in_app_or in K. destruct K as [K|[K|[]]]; [exact (G2 K)|congruence].
      * right. left. exists a, b, o'. cbn. rewrite upd_other by auto. split; [exact G1|]. split; [exact G2|]. split; [|exact G4].
        intros K. apply in_app_or in K. destruct K as [K|[K|[]]]; [exact (G3 K)|congruence].
      * right. right. exists a, (b ++ [q]). cbn. rewrite upd_other by auto. split; [rewrite G1, <- app_assoc; reflexivity|]. split; [|auto].
        intros K. rewrite app_assoc in K. apply in_app_or in K. destruct K as [K|[K|[]]]; [exact (G2 K)|congruence].
  - unfold good, settled in *. cbn. rewrite upd_other by auto. exact G.
  - destruct (opens s) as [|[q o] r] eqn:Q; [exact G|]. unfold good, settled in *. cbn. rewrite Q in G. destruct (Nat.eq_dec q p) as [->|N].
    + rewrite upd_same. destruct G as [[[G1 G2] G3]|[(a & b & o' & G1 & G2 & G3 & G4)|(a & b & G1 & G2 & G3 & G4)]].
      * exfalso. apply (G1 o). left. reflexivity.
      * left. destruct a as [|x a]; cbn in G1; inversion G1; subst; [|exfalso; apply (G2 o); left; reflexivity]. cbn in G2. rewrite G4. auto.
      * exfalso. apply (G3 o). left. reflexivity.
    + rewrite upd_other by auto. destruct G as [[[G1 G2] G3]|[(a & b & o' & G1 & G2 & G3 & G4)|(a & b & G1 & G2 & G3 & G4)]].
      * left. split; [split; [intros x K; apply (G1 x); right; exact K|exact G2]|exact G3].
      * right. left. destruct a as [|x a]; cbn in G1; injection G1 as G1 G5; [congruence|]. exists a, b, o'. split; [exact G5|]. split; [intros y K; apply (G2 y); right; exact K|auto].
      * right. right. exists a, b. split; [exact G1|]. split; [exact G2|]. split; [intros x K; apply (G3 x); right; exact K|exact G4].
  - destruct (releases s) as [|q r] eqn:Q; [exact G|]. unfold good, settled in *. cbn. rewrite Q in G. destruct (Nat.eq_dec q p) as [->|N].
    + rewrite upd_same. destruct G as [[[G1 G2] G3]|[(a & b & o' & G1 & G2 & G3 & G4)|(a & b & G1 & G2 & G3 & G4)]].
      * exfalso. apply G2. left. reflexivity.
      * exfalso. apply G3. left. reflexivity.
      * left. destruct a as [|x a]; cbn in G1; inversion G1; subst; [|exfalso; apply G2; left; reflexivity]. cbn in G2. rewrite G4. auto.
    + rewrite upd_other by auto. destruct G as [[[G1 G2] G3]|[(a & b & o' & G1 & G2 & G3 & G4)|(a & b & G1 & G2 & G3 & G4)]].
      * left. split; [split; [exact G1|intro K; apply G2; right; exact K]|exact G3].
      * right. left. exists a, b, o'. split; [exact G1|]. split; [exact G2|]. split; [intro K; apply G3; right; exact K|exact G4].
      * right. right. destruct a as [|x a]; cbn in G1; injection G1 as G1 G5; [congruence|]. exists a, b. split; [exact G5|]. split; [intro K; apply G2; right; exact K|auto].
  - destruct (due s && ok); exact G.
Qed.
Lemma good_run p h : forall s, good p s -> calm p s h -> good p (run s h).
Proof. induction h as [|e h IH]; intros s G C; [exact G|]. destruct C as [C1 C2]. rewrite run_cons. apply IH; [apply good_step; assumption|exact C2]. Qed.
(* a port about whose changes the bus is never behind by two: once all is handled, the ports map shows the port exactly as it is, and
   with no reconciliation due so does the config map *)
Theorem C101_published : forall p h, calm p start h -> settled p (run start h) -> table (run start h) p = option_map (conf_of p) (live (run start h) p) /\
  (due (run start h) = false -> cm (run start h) p = option_map (conf_of p) (live (run start h) p)).
Proof.
  intros p h C S. assert (G : good p (run start h)) by (apply good_run; [left; split; [split; [intros o []|intros []]|reflexivity]|exact C]).
  assert (T : table (run start h) p = option_map (conf_of p) (live (run start h) p)).
  { destruct G as [[_ G]|[(a & b & o & G & _)|(a & b & G & _)]]; [exact G| |]; exfalso; destruct S as [S1 S2].
    - apply (S1 o). rewrite G. apply in_or_app. right. left. reflexivity.
    - apply S2. rewrite G. apply in_or_app. right. left. reflexivity. }
  split; [exact T|]. intro D. rewrite C101_config_map by exact D. exact T.
Qed.
Print Assumptions C101_published.
Ltac stp := rewrite run_cons; cbn [step live opens releases table cm due andb app]; rewrite ?upd_same; cbn [step live opens releases table cm due andb app].
Definition some_port (id : gstr) : opened := mko [] [] 80 (fun _ => None) (fun _ => None) id.
Theorem C101_published_ex : forall a b, let h := [Open 1 (some_port a); Open 2 (some_port b); HandleOpen; Close 1; HandleRelease; HandleOpen; Reconcile false; Reconcile true] in
  calm 1 start h /\ calm 2 start h /\ settled 1 (run start h) /\ settled 2 (run start h) /\ cm (run start h) 1 = None /\ cm (run start h) 2 = Some (conf_of 2 (some_port b)).
Proof.
  intros a b h. unfold h, settled. cbn. repeat split; intros; try congruence; try tauto; unfold settled; cbn; try (split; intros; try tauto); try (intros [K|[]]; congruence).
Qed.
Print Assumptions C101_published_ex.

(* a port that is released before its opening is handled: when all is handled, its entry is there, and stays until the port is used again *)
Theorem C101_stale_refuted : forall p o, let s := run start [Open p o; Close p; HandleRelease; HandleOpen; Reconcile true] in
  settled p s /\ due s = false /\ live s p = None /\ cm s p = Some (conf_of p o).
Proof.
  intros p o s. assert (E : s = run start _) by reflexivity. revert E. unfold start. repeat stp. cbn [run fold_left]. intros ->.
  unfold settled. cbn [live opens releases table cm due]. rewrite ?upd_same. cbn [In]. auto 10.
Qed.
Print Assumptions C101_stale_refuted.
Theorem C101_stale_refuted_stays : forall h s p c, settled p s -> live s p = None -> table s p = Some c -> (forall o, ~ In (Open p o) h) -> table (run s h) p = Some c.
Proof.
  induction h as [|e h IH]; intros s p c [S1 S2] L T N; [exact T|]. rewrite run_cons.
  assert (N' : forall o, ~ In (Open p o) h) by (intros o K; apply (N o); right; exact K).
  destruct e as [q o|q|q| | |ok]; cbn [step].
  - assert (Q : q <> p) by (intros ->; apply (N o); left; reflexivity). destruct (live s q); apply IH; auto; try (split; auto; fail); cbn; rewrite ?upd_other by auto; auto.
    split; [|exact S2]. intros x K. apply in_app_or in K. destruct K as [K|[K|[]]]; [exact (S1 x K)|congruence].
  - destruct (live s q) eqn:Lq; apply IH; auto; try (split; auto; fail); cbn; assert (Q : q <> p) by congruence; rewrite ?upd_other by auto; auto.
    split; [exact S1|]. intros K. apply in_app_or in K. destruct K as [K|[K|[]]]; [exact (S2 K)|congruence].
  - apply IH; auto; [split; auto|]. cbn. unfold upd. destruct (Nat.eqb p q); auto.
  - destruct (opens s) as [|[q o] r] eqn:Q; apply IH; auto; try (split; rewrite ?Q; auto; fail).
    + split; [|exact S2]. intros x K. apply (S1 x). right. exact K.
    + cbn. rewrite upd_other; [exact T|]. intros <-. apply (S1 o). left. reflexivity.
  - destruct (releases s) as [|q r] eqn:Q; apply IH; auto; try (split; rewrite ?Q; auto; fail).
    + split; [exact S1|]. intro K. apply S2. right. exact K.
    + cbn. rewrite upd_other; [exact T|]. intros <-. apply S2. left. reflexivity.
  - destruct (due s && ok); apply IH; auto; split; auto.
Qed.
Print Assumptions C101_stale_refuted_stays.
(* a port that changes hands: the late release of the first takes away the entry of the second, who listens *)
Theorem C101_missing_refuted : forall p o o', let s := run start [Open p o; HandleOpen; Close p; Open p o'; HandleOpen; HandleRelease; Reconcile true] in
  settled p s /\ due s = false /\ live s p = Some o' /\ cm s p = None.
Proof.
  intros p o o' s. assert (E : s = run start _) by reflexivity. revert E. unfold start. repeat stp. cbn [run fold_left]. intros ->.
  unfold settled. cbn [live opens releases table cm due]. rewrite ?upd_same. cbn [In]. auto 10.
Qed.
Print Assumptions C101_missing_refuted.
(* a listener that breaks releases nothing *)
Theorem C101_broken_refuted : forall p o, let s := run start [Open p o; HandleOpen; Broken p; Reconcile true] in settled p s /\ live s p = None /\ cm s p = Some (conf_of p o).
Proof.
  intros p o s. assert (E : s = run start _) by reflexivity. revert E. unfold start. repeat stp. cbn [run fold_left]. intros ->.
  unfold settled. cbn [live opens releases table cm due]. rewrite ?upd_same. cbn [In]. auto 10.
Qed.
Print Assumptions C101_broken_refuted.
