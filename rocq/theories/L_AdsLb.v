(* Lemmas for C28: the weighted round robin balancer over exact rationals. *)
From Coq Require Import List String Bool NArith ZArith QArith Qround Qfield Lqa Lia.
From Verif Require Import M_GoMap L_GoMap M_AdsLb.
Import ListNotations.
Close Scope Q_scope.
Open Scope string_scope.

Definition qcount (st : estats) (a : string) : Q := Q_of (rr_count st a).
(* an endpoint still below its share: count < load * total *)
Definition below (loads : gmap Q) (st : estats) (total : N) (a : string) (l : Q) : Prop :=
  mget a loads = Some l /\ (qcount st a < l * Q_of total)%Q.
Definition relq (st : estats) (total : N) (a : string) (l : Q) : Q := (qcount st a / (l * Q_of total))%Q.

Lemma Q_of_nonneg : forall n, (0 <= Q_of n)%Q.
Proof. intros n. unfold Q_of. change 0%Q with (inject_Z 0). rewrite <- Zle_Qle. lia. Qed.
Lemma Q_of_lt : forall n m, (n < m)%N <-> (Q_of n < Q_of m)%Q.
Proof. intros n m. unfold Q_of. rewrite <- Zlt_Qlt. lia. Qed.
Lemma Q_of_plus : forall n m, (Q_of (n + m) == Q_of n + Q_of m)%Q.
Proof. intros. unfold Q_of. rewrite N2Z.inj_add, inject_Z_plus. reflexivity. Qed.
Lemma fmax_ge1 : forall pow, (1 <= fmax (exact pow))%Q.
Proof. intros. apply Qle_bool_iff. vm_compute. reflexivity. Qed.
Lemma Qltb_true : forall x y, negb (Qle_bool y x) = true <-> (x < y)%Q.
Proof. intros x y. rewrite negb_true_iff. split; intros H; [apply Qnot_le_lt; intros L; apply Qle_bool_iff in L; congruence|]. destruct (Qle_bool y x) eqn:E; [apply Qle_bool_iff in E; exfalso; now apply (Qlt_not_le _ _ H)|reflexivity]. Qed.
Lemma Qltb_false : forall x y, negb (Qle_bool y x) = false <-> (y <= x)%Q.
Proof. intros x y. rewrite negb_false_iff. apply Qle_bool_iff. Qed.
Lemma Qleb_false : forall x y, Qle_bool x y = false <-> (y < x)%Q.
Proof. intros x y. rewrite <- (negb_true_iff (Qle_bool x y)). apply Qltb_true. Qed.

Definition wbetter (ra la rb lb : Q) : Prop := (ra < rb \/ ra == rb /\ lb <= la)%Q.
Definition sbetter (ra la rb lb : Q) : Prop := (ra < rb \/ ra == rb /\ lb < la)%Q.
(* the endpoint chosen from [es]: first among those with the least relative load and, of these, the largest load *)
Definition chosen (loads : gmap Q) (st : estats) (total : N) (es : list string) (a : string) (l : Q) : Prop :=
  exists es1 es2, es = (es1 ++ a :: es2)%list /\ below loads st total a l /\
    (forall b lb, In b es1 -> below loads st total b lb -> sbetter (relq st total a l) l (relq st total b lb) lb) /\
    (forall b lb, In b es2 -> below loads st total b lb -> wbetter (relq st total a l) l (relq st total b lb) lb).

Lemma below_rel : forall loads st total a l, below loads st total a l -> (0 <= relq st total a l < 1)%Q.
Proof.
  intros loads st total a l [_ H]. unfold relq. assert (H0: (0 <= qcount st a)%Q) by apply Q_of_nonneg.
  assert (Hp: (0 < l * Q_of total)%Q) by (eapply Qle_lt_trans; eassumption). split.
  - apply Qle_shift_div_l; [assumption|]. lra.
  - apply Qlt_shift_div_r; [assumption|]. lra.
Qed.
Section WRR.
Variable pow : Q -> Q -> Q.
Notation E := (exact pow).

Lemma wrr_fold : forall loads st total es,
  match fold_left (wrr_visit E loads st total) es (fmax E, None) with
  | (m, Some (a, l)) => (m == relq st total a l)%Q /\ chosen loads st total es a l
  | (m, None) => m = fmax E /\ forall b l, In b es -> ~ below loads st total b l
  end.
Proof.
  intros loads st total es. induction es as [|b es IH] using rev_ind; [split; [reflexivity|intros ? ? []]|].
  rewrite fold_left_app. cbn [fold_left]. destruct (fold_left (wrr_visit E loads st total) es (fmax E, None)) as [m sel]. unfold wrr_visit.
  change (F (exact pow)) with Q in *. destruct (mget b loads) as [lb|] eqn:Eb.
  2: { destruct sel as [[a l]|].
       - destruct IH as [Hm (es1 & es2 & -> & Hb & H1 & H2)]. split; [assumption|]. exists es1, (es2 ++ [b])%list. rewrite <- app_assoc. repeat split; try apply Hb; try assumption.
         intros c lc Hc Hbc. apply in_app_or in Hc. destruct Hc as [Hc|[<-|[]]]; [now apply H2|]. destruct Hbc. congruence.
       - destruct IH as [Hm H]. split; [assumption|]. intros c l Hc Hbc. apply in_app_or in Hc. destruct Hc as [Hc|[<-|[]]]; [now apply (H c l)|]. destruct Hbc. congruence. }
  cbv zeta. cbn [fleb fltb feqb fmul fdiv f_of exact]. change (Q_of (rr_count st b)) with (qcount st b). change (Q_of total) with (Q_of total).
  destruct (Qle_bool (lb * Q_of total) (qcount st b)) eqn:Ele.
  { apply Qle_bool_iff in Ele. assert (Hnb: forall l, ~ below loads st total b l) by (intros l [Hg Hl]; rewrite Eb in Hg; injection Hg as <-; lra).
    destruct sel as [[a l]|].
       - destruct IH as [Hm (es1 & es2 & -> & Hb & H1 & H2)]. split; [assumption|]. exists es1, (es2 ++ [b])%list. rewrite <- app_assoc. repeat split; try apply Hb; try assumption.
         intros c lc Hc Hbc. apply in_app_or in Hc. destruct Hc as [Hc|[<-|[]]]; [now apply H2|]. exfalso. eapply Hnb, Hbc.
       - destruct IH as [Hm H]. split; [assumption|]. intros c l Hc Hbc. apply in_app_or in Hc. destruct Hc as [Hc|[<-|[]]]; [now apply (H c l)|]. eapply Hnb, Hbc. }
  apply Qleb_false in Ele. assert (Hbb: below loads st total b lb) by (split; assumption). pose proof (below_rel _ _ _ _ _ Hbb) as Hrb. fold (relq st total b lb).
  assert (Hunique: forall l, below loads st total b l -> l = lb) by (intros l [Hg _]; congruence).
  pose proof (fmax_ge1 pow) as Hmax.
  destruct sel as [[a l]|].
  - destruct IH as [Hm (es1 & es2 & -> & Hb & H1 & H2)]. assert (Hr: (relq st total b lb < m \/ m == relq st total b lb /\ l < lb)%Q \/ wbetter (relq st total a l) l (relq st total b lb) lb).
    { unfold wbetter. destruct (Q_dec m (relq st total b lb)) as [[H|H]|H]; [right; lra|left; lra|]. destruct (Q_dec l lb) as [[H'|H']|H']; lra. }
    destruct (negb (Qle_bool m (relq st total b lb))) eqn:Elt.
    + apply Qltb_true in Elt. split; [reflexivity|]. exists (es1 ++ a :: es2)%list, []. repeat split; try apply Hbb.
      * intros c lc Hc Hbc. apply in_app_or in Hc. left. destruct Hc as [Hc|[<-|Hc]]; [destruct (H1 c lc Hc Hbc); lra| |destruct (H2 c lc Hc Hbc); lra].
        destruct Hb as [Hg _], Hbc as [Hg' _]. rewrite Hg in Hg'. injection Hg' as <-. lra.
      * intros c lc [].
    + apply Qltb_false in Elt. destruct (Qeq_bool m (relq st total b lb)) eqn:Eeq.
      * apply Qeq_bool_iff in Eeq. destruct (negb (Qle_bool lb l)) eqn:Ell.
        -- apply Qltb_true in Ell. split; [assumption|]. exists (es1 ++ a :: es2)%list, []. repeat split; try apply Hbb.
           ++ intros c lc Hc Hbc. apply in_app_or in Hc. unfold sbetter. destruct Hc as [Hc|[<-|Hc]]; [destruct (H1 c lc Hc Hbc); lra| |destruct (H2 c lc Hc Hbc); lra].
              destruct Hb as [Hg _], Hbc as [Hg' _]. rewrite Hg in Hg'. injection Hg' as <-. lra.
           ++ intros c lc [].
        -- apply Qltb_false in Ell. split; [assumption|]. exists es1, (es2 ++ [b])%list. rewrite <- app_assoc. repeat split; try apply Hb; try assumption.
           intros c lc Hc Hbc. apply in_app_or in Hc. destruct Hc as [Hc|[<-|[]]]; [now apply H2|]. rewrite (Hunique _ Hbc). unfold wbetter. lra.
      * assert (~ (m == relq st total b lb)%Q) by (intros H; apply Qeq_bool_iff in H; congruence).
        split; [assumption|]. exists es1, (es2 ++ [b])%list. rewrite <- app_assoc. repeat split; try apply Hb; try assumption.
        intros c lc Hc Hbc. apply in_app_or in Hc. destruct Hc as [Hc|[<-|[]]]; [now apply H2|]. rewrite (Hunique _ Hbc). unfold wbetter. left. apply Qle_lteq in Elt. destruct Elt; [lra|contradiction].
  - destruct IH as [-> H]. destruct (negb (Qle_bool (fmax E) (relq st total b lb))) eqn:Elt; [|apply Qltb_false in Elt; exfalso; apply (Qlt_irrefl 1); eapply Qle_lt_trans; [exact Hmax|]; eapply Qle_lt_trans; [exact Elt|apply Hrb]].
    split; [reflexivity|]. exists es, []. repeat split; try apply Hbb; [|intros ? ? []]. intros c lc Hc Hbc. exfalso. now apply (H c lc).
Qed.

(* the total computed by the balancer *)
Definition sum_counts (st : estats) (ks : list string) : N := fold_right (fun a n => (rr_count st a + n)%N) 0%N ks.
Lemma wrr_total_spec : forall loads st, wrr_total E loads st = u32 (sum_counts st (map fst loads) + 1).
Proof.
  intros loads st. unfold wrr_total. assert (G: forall (l : gmap Q) n, u32 (fold_left (fun n e => u32 (n + rr_count st (fst e))) l n) = u32 (n + sum_counts st (map fst l))).
  { induction l as [|e l IH]; intros n; [cbn; now rewrite N.add_0_r|]. cbn [fold_left]. rewrite IH. unfold u32, sum_counts. cbn [map fold_right]. rewrite N.add_mod_idemp_l by discriminate. f_equal. lia. }
  unfold u32 at 1. rewrite <- N.add_mod_idemp_l by discriminate. change (fold_left _ loads 0%N) with (fold_left (fun n e => u32 (n + rr_count st (fst e))) loads 0%N).
  fold (u32 (fold_left (fun n e => u32 (n + rr_count st (fst e))) loads 0%N)). rewrite G. unfold u32. rewrite N.add_mod_idemp_l by discriminate. reflexivity.
Qed.
Lemma wrr_next_some : forall es loads st a st', wrr_next E es loads st = (Some a, st') ->
  st' = inc_rr st a /\ exists l, chosen loads st (wrr_total E loads st) es a l.
Proof.
  intros es loads st a st' H. unfold wrr_next in H. pose proof (wrr_fold loads st (wrr_total E loads st) es) as Hf.
  destruct (fold_left _ es (fmax E, None)) as [m [[b l]|]]; cbn in H; [|discriminate]. injection H as <- <-. split; [reflexivity|]. exists l. apply Hf.
Qed.
Lemma wrr_next_none : forall es loads st st', wrr_next E es loads st = (None, st') ->
  forall b l, In b es -> ~ below loads st (wrr_total E loads st) b l.
Proof.
  intros es loads st st' H. unfold wrr_next in H. pose proof (wrr_fold loads st (wrr_total E loads st) es) as Hf.
  destruct (fold_left _ es (fmax E, None)) as [m [[b l]|]]; cbn in H; [discriminate|]. apply Hf.
Qed.
End WRR.
