(* The weighted round robin loop in binary64, in terms of real values. *)
From Coq Require Import String List Bool NArith ZArith Reals Lra Lia SpecFloat.
From Flocq Require Import Core.
From Verif Require Import M_GoMap L_GoMap M_AdsLb L_Float L_Float2.
Import ListNotations.
Open Scope R_scope.

Lemma ltb_R : forall x y a b, isf x a -> isf y b -> SFltb x y = true <-> a < b.
Proof. intros. rewrite (ltb_isf _ _ _ _ H H0). destruct (Rlt_bool_spec a b); split; intros; try reflexivity; try discriminate; lra. Qed.
Lemma eqb_R : forall x y a b, isf x a -> isf y b -> SFeqb x y = true <-> a = b.
Proof. intros. rewrite (eqb_isf _ _ _ _ H H0). destruct (Req_bool_spec a b); split; intros; try reflexivity; try discriminate; lra. Qed.

Section Fold.
Variable pow : f64 -> f64 -> f64.
Variables (ws : gmap N) (loads : gmap f64) (st : estats) (T : N).
Hypothesis Hloads : forall a, mget a loads = match mget a ws with Some p => Some (share p 100) | None => None end.
Hypothesis Hws : forall a p, mget a ws = Some p -> (p <= 65536)%N /\ (rr_count st a < 4294967296)%N.
Hypothesis HT : (0 < T < 4294967296)%N.
(* an endpoint of the loop that is not skipped, its relative load r and its load s *)
Definition vis (a : string) (p : N) (r s : R) : Prop :=
  mget a ws = Some p /\ skipped p 100 T (rr_count st a) = false /\ isf (rel p 100 T (rr_count st a)) r /\ isf (share p 100) s.
Lemma vis_fun : forall a p r s p' r' s', vis a p r s -> vis a p' r' s' -> p = p' /\ r = r' /\ s = s'.
Proof. intros a p r s p' r' s' (A & _ & B & C) (A' & _ & B' & C'). rewrite A in A'. injection A' as <-. split; [reflexivity|]. split; eapply isf_unique; eassumption. Qed.
Definition picked (es : list string) (a : string) (l : f64) (p : N) (r s : R) : Prop :=
  exists es1 es2, es = (es1 ++ a :: es2)%list /\ vis a p r s /\ l = share p 100 /\
    (forall b pb rb sb, In b es1 -> vis b pb rb sb -> r < rb \/ r = rb /\ sb < s) /\
    (forall b pb rb sb, In b es2 -> vis b pb rb sb -> r < rb \/ r = rb /\ sb <= s).
Lemma fold_spec : forall es,
  match fold_left (wrr_visit (go_float pow) loads st T) es (fmax (go_float pow), None) with
  | (m, Some (a, l)) => exists p r s, isf m r /\ picked es a l p r s
  | (m, None) => m = fmax (go_float pow) /\ forall b p, In b es -> mget b ws = Some p -> skipped p 100 T (rr_count st b) = true
  end.
Proof.
  intros es. induction es as [|b es IH] using rev_ind; [split; [reflexivity|intros ? ? []]|].
  rewrite fold_left_app. cbn [fold_left]. destruct (fold_left (wrr_visit (go_float pow) loads st T) es (fmax (go_float pow), None)) as [m sel].
  assert (Hold: forall a l p r s, picked es a l p r s -> (forall pb rb sb, vis b pb rb sb -> r < rb \/ r = rb /\ sb <= s) -> picked (es ++ [b]) a l p r s).
  { intros a l p r s (es1 & es2 & -> & Ha & Hl & H1 & H2) Hb. exists es1, (es2 ++ [b])%list. rewrite <- app_assoc. split; [reflexivity|]. split; [exact Ha|]. split; [exact Hl|]. split; [exact H1|].
    intros c pc rc sc Hc Hv. apply in_app_or in Hc. destruct Hc as [Hc|[<-|[]]]; [now apply (H2 c pc)|now apply (Hb pc)]. }
  assert (Hskip: (forall p, mget b ws = Some p -> skipped p 100 T (rr_count st b) = true) ->
    match sel with Some (a, l) => exists p r s, isf m r /\ picked (es ++ [b]) a l p r s | None => m = fmax (go_float pow) /\ forall b' p, In b' (es ++ [b]) -> mget b' ws = Some p -> skipped p 100 T (rr_count st b') = true end).
  { intros Hs. destruct sel as [[a l]|].
    - destruct IH as (p & r & s & Hm & Hp). exists p, r, s. split; [exact Hm|]. apply Hold; [exact Hp|]. intros pb rb sb (V1 & V2 & _). rewrite (Hs pb V1) in V2. discriminate.
    - destruct IH as [Hm H]. split; [exact Hm|]. intros c pc Hc Hg. apply in_app_or in Hc. destruct Hc as [Hc|[<-|[]]]; [now apply H|now apply Hs]. }
  unfold wrr_visit. change (F (go_float pow)) with f64. rewrite Hloads. destruct (mget b ws) as [pb|] eqn:Eb; [|destruct sel as [[a l]|]; apply Hskip; intros; congruence].
  cbn [fleb fltb feqb fmul fdiv f_of go_float]. cbv zeta. fold (fl (rr_count st b)). fold (fl T). fold (maxsel pb 100 T). fold (skipped pb 100 T (rr_count st b)). fold (rel pb 100 T (rr_count st b)).
  destruct (skipped pb 100 T (rr_count st b)) eqn:Es.
  { destruct sel as [[a l]|]; apply Hskip; intros p Hp; injection Hp as <-; exact Es. }
  destruct (Hws b pb Eb) as [B1 B2]. destruct (rel_isf pb 100 T (rr_count st b) B1 ltac:(lia) HT B2 Es) as (M & rb & _ & _ & Hrb & _ & _). destruct (share_isf pb 100 B1 ltac:(lia)) as (sb & Hsb & _).
  assert (Vb: vis b pb rb sb) by (repeat split; assumption).
  destruct sel as [[a l]|].
  - destruct IH as (p & r & s & Hm & Hp). assert (Hp0 := Hp). destruct Hp0 as (es1 & es2 & He & Ha & Hl & H1 & H2).
    assert (Hsw: r > rb \/ r = rb /\ s < sb -> forall es', es' = es -> forall c pc rc sc, In c es' -> vis c pc rc sc -> rb < rc \/ rb = rc /\ sc < sb).
    { intros Hb es' -> c pc rc sc Hc Hv. rewrite He in Hc. apply in_app_or in Hc. destruct Hc as [Hc|[<-|Hc]].
      - specialize (H1 c pc rc sc Hc Hv). lra.
      - destruct (vis_fun _ _ _ _ _ _ _ Ha Hv) as (_ & <- & <-). lra.
      - specialize (H2 c pc rc sc Hc Hv). lra. }
    destruct (SFltb (rel pb 100 T (rr_count st b)) m) eqn:Elt.
    + apply (ltb_R _ _ _ _ Hrb Hm) in Elt. exists pb, rb, sb. split; [exact Hrb|]. exists es, []. split; [reflexivity|]. split; [exact Vb|]. split; [reflexivity|]. split; [|intros ? ? ? ? []]. apply Hsw; [now left|reflexivity].
    + assert (Elt': ~ rb < r) by (rewrite <- (ltb_R _ _ _ _ Hrb Hm); congruence).
      destruct (SFeqb m (rel pb 100 T (rr_count st b))) eqn:Eeq.
      * apply (eqb_R _ _ _ _ Hm Hrb) in Eeq. rewrite Hl. destruct (SFltb (share p 100) (share pb 100)) eqn:El.
        -- apply (ltb_R _ _ _ _ (proj2 (proj2 (proj2 Ha))) Hsb) in El. exists pb, rb, sb. split; [rewrite <- Eeq; exact Hm|]. exists es, []. split; [reflexivity|]. split; [exact Vb|]. split; [reflexivity|]. split; [|intros ? ? ? ? []]. apply Hsw; [right; now split|reflexivity].
        -- assert (El': ~ s < sb) by (rewrite <- (ltb_R _ _ _ _ (proj2 (proj2 (proj2 Ha))) Hsb); congruence).
           exists p, r, s. split; [exact Hm|]. apply Hold; [rewrite <- Hl; exact Hp|]. intros pb' rb' sb' Hv. destruct (vis_fun _ _ _ _ _ _ _ Vb Hv) as (_ & <- & <-). lra.
      * assert (Eeq': r <> rb) by (intros Hx; apply (eqb_R _ _ _ _ Hm Hrb) in Hx; congruence).
        exists p, r, s. split; [exact Hm|]. apply Hold; [exact Hp|]. intros pb' rb' sb' Hv. destruct (vis_fun _ _ _ _ _ _ _ Vb Hv) as (_ & <- & <-). lra.
  - destruct IH as [-> H]. cbn [fmax go_float]. rewrite (rel_lt_max pb 100 T (rr_count st b) B1 ltac:(lia) HT B2 Es).
    exists pb, rb, sb. split; [exact Hrb|]. exists es, []. split; [reflexivity|]. split; [exact Vb|]. split; [reflexivity|]. split; [|intros ? ? ? ? []].
    intros c pc rc sc Hc (V1 & V2 & _). rewrite (H c pc Hc V1) in V2. discriminate.
Qed.
(* the pick, in integers *)
Lemma pick_spec : forall es,
  match snd (fold_left (wrr_visit (go_float pow) loads st T) es (fmax (go_float pow), None)) with
  | Some (a, _) => exists p es1 es2, es = (es1 ++ a :: es2)%list /\ mget a ws = Some p /\ (0 < p)%N /\ (100 * rr_count st a <= p * T)%N /\
      (forall b pb, In b es -> mget b ws = Some pb -> (100 * rr_count st b < pb * T)%N -> (rr_count st a * pb <= rr_count st b * p)%N) /\
      (forall b, In b es1 -> mget b ws = Some p -> (100 * rr_count st b < p * T)%N -> (rr_count st a < rr_count st b)%N)
  | None => forall b pb, In b es -> mget b ws = Some pb -> (pb * T <= 100 * rr_count st b)%N
  end.
Proof.
  intros es. pose proof (fold_spec es) as H. destruct (fold_left (wrr_visit (go_float pow) loads st T) es (fmax (go_float pow), None)) as [m [[a l]|]]; cbn [snd].
  - destruct H as (p & r & s & _ & es1 & es2 & He & (V1 & V2 & V3 & V4) & _ & H1 & H2). destruct (Hws a p V1) as [A1 A2].
    assert (Hvis: forall b pb, mget b ws = Some pb -> (100 * rr_count st b < pb * T)%N -> exists rb sb, vis b pb rb sb).
    { intros b pb Hb Hlt. destruct (Hws b pb Hb) as [B1 B2]. pose proof (below_not_skipped pb 100 T (rr_count st b) B1 ltac:(lia) HT B2 Hlt) as Es.
      destruct (rel_isf pb 100 T (rr_count st b) B1 ltac:(lia) HT B2 Es) as (M & rb & _ & _ & Hrb & _ & _). destruct (share_isf pb 100 B1 ltac:(lia)) as (sb & Hsb & _). exists rb, sb. repeat split; assumption. }
    assert (Hle: forall b pb rb sb, vis b pb rb sb -> r <= rb -> (rr_count st a * pb <= rr_count st b * p)%N).
    { intros b pb rb sb (W1 & W2 & W3 & W4) Hr. destruct (Hws b pb W1) as [B1 B2]. eapply (rel_le p 100 T (rr_count st a) pb (rr_count st b)); try assumption; try lia.
      destruct (SFltb _ _) eqn:E; [|reflexivity]. apply (ltb_R _ _ _ _ W3 V3) in E. lra. }
    exists p, es1, es2. split; [exact He|]. split; [exact V1|]. destruct (not_skipped_le p 100 T (rr_count st a) A1 ltac:(lia) HT A2 V2) as [N1 N2]. split; [exact N2|]. split; [exact N1|]. split.
    + intros b pb Hb Hg Hlt. destruct (Hvis b pb Hg Hlt) as (rb & sb & Hv). apply (Hle b pb rb sb Hv). rewrite He in Hb. apply in_app_or in Hb. destruct Hb as [Hb|[<-|Hb]].
      * specialize (H1 b pb rb sb Hb Hv). lra.
      * destruct Hv as (X1 & _ & X3 & _). assert (pb = p) by congruence. subst pb. right. eapply isf_unique; eassumption.
      * specialize (H2 b pb rb sb Hb Hv). lra.
    + intros b Hb Hg Hlt. destruct (Hvis b p Hg Hlt) as (rb & sb & Hv). assert (Hcmp := H1 b p rb sb Hb Hv).
      assert (rr_count st a * p <= rr_count st b * p)%N by (apply (Hle b p rb sb Hv); lra).
      assert (rr_count st a <= rr_count st b)%N by nia. destruct (N.eq_dec (rr_count st a) (rr_count st b)) as [E|E]; [exfalso|lia].
      destruct Hv as (_ & _ & X3 & X4). rewrite <- E in X3. pose proof (isf_unique _ _ _ X3 V3). pose proof (isf_unique _ _ _ X4 V4). lra.
  - destruct H as [_ H]. intros b pb Hb Hg. apply N.nlt_ge. intros Hlt. destruct (Hws b pb Hg) as [B1 B2].
    pose proof (below_not_skipped pb 100 T (rr_count st b) B1 ltac:(lia) HT B2 Hlt) as E. rewrite (H b pb Hb Hg) in E. discriminate.
Qed.
End Fold.
