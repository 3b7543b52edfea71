From Coq Require Import String List Ascii Bool Arith Lia.
From Verif Require Import M_GoStr.
Import ListNotations.
Open Scope list_scope.
Lemma geqb_eq : forall a b, geqb a b = true <-> a = b.
Proof. intros a b. unfold geqb. destruct (gstr_eq_dec a b); split; congruence. Qed.
Lemma geqb_refl : forall a, geqb a a = true.
Proof. intros. now apply geqb_eq. Qed.
Lemma geqb_neq : forall a b, geqb a b = false <-> a <> b.
Proof. intros a b. unfold geqb. destruct (gstr_eq_dec a b); split; congruence. Qed.
Lemma ghas_prefix_spec : forall p s, ghas_prefix s p = true <-> exists t, s = p ++ t.
Proof.
  induction p as [|a p IH]; intros s; cbn.
  - destruct s; cbn; split; eauto.
  - destruct s as [|b s]; [split; [discriminate|intros (t & H); discriminate]|]. cbn. rewrite andb_true_iff, IH, Ascii.eqb_eq. split.
    + intros (-> & t & ->). now exists t.
    + intros (t & H). injection H as -> ->. eauto.
Qed.
Lemma ghas_suffix_spec : forall p s, ghas_suffix s p = true <-> exists t, s = t ++ p.
Proof.
  intros p s. unfold ghas_suffix. rewrite ghas_prefix_spec. split; intros (t & H).
  - exists (rev t). rewrite <- (rev_involutive s), H, rev_app_distr, rev_involutive. reflexivity.
  - exists (rev t). rewrite H, rev_app_distr. reflexivity.
Qed.
Lemma gcontains_spec : forall s p, gcontains s p = true <-> exists a b, s = a ++ p ++ b.
Proof.
  induction s as [|c s IH]; intros p; cbn [gcontains]; rewrite orb_true_iff, ghas_prefix_spec.
  - split; [intros [(t & H)|H]; [exists [], t; exact H|discriminate]|]. intros (a & b & H). left. destruct a; [|discriminate]. now exists b.
  - rewrite IH. split.
    + intros [(t & H)|(a & b & ->)]; [exists [], t; exact H|now exists (c :: a), b].
    + intros ([|x a] & b & H); [left; now exists b|right]. injection H as -> ->. eauto.
Qed.
Lemma gsplit_nonnil : forall sep s, gsplit sep s <> [].
Proof. induction s as [|c s IH]; cbn; [discriminate|]. destruct (Ascii.eqb c sep); [discriminate|]. destruct (gsplit sep s); discriminate. Qed.
Lemma gsplit_nosep : forall sep s, ~ In sep s -> gsplit sep s = [s].
Proof.
  induction s as [|c s IH]; intros H; [reflexivity|]. cbn. destruct (Ascii.eqb_spec c sep) as [->|]; [exfalso; apply H; now left|]. rewrite IH; [reflexivity|]. intros Hc. apply H. now right.
Qed.
Lemma gsplit_app : forall sep x r, ~ In sep x -> gsplit sep (x ++ sep :: r) = x :: gsplit sep r.
Proof.
  induction x as [|c x IH]; intros r H; cbn.
  - now rewrite Ascii.eqb_refl.
  - destruct (Ascii.eqb_spec c sep) as [->|]; [exfalso; apply H; now left|]. rewrite IH; [reflexivity|]. intros Hc. apply H. now right.
Qed.
Lemma gsplit_join : forall sep ps, ps <> [] -> (forall x, In x ps -> ~ In sep x) -> gsplit sep (gjoin sep ps) = ps.
Proof.
  induction ps as [|x ps IH]; intros Hn H; [contradiction|]. destruct ps as [|y ps].
  - cbn. apply gsplit_nosep. apply H. now left.
  - change (gjoin sep (x :: y :: ps)) with (x ++ sep :: gjoin sep (y :: ps)). rewrite gsplit_app by (apply H; now left). f_equal. apply IH; [discriminate|]. intros z Hz. apply H. now right.
Qed.
Lemma gjoin_cons : forall sep x xs, xs <> [] -> gjoin sep (x :: xs) = x ++ sep :: gjoin sep xs.
Proof. intros sep x [|y ys] H; [contradiction|reflexivity]. Qed.
Lemma gjoin_split : forall sep s, gjoin sep (gsplit sep s) = s.
Proof.
  induction s as [|c s IH]; [reflexivity|]. cbn [gsplit]. pose proof (gsplit_nonnil sep s) as Hn. destruct (Ascii.eqb_spec c sep) as [->|].
  - rewrite gjoin_cons by assumption. rewrite IH. reflexivity.
  - destruct (gsplit sep s) as [|x xs]; [contradiction|]. destruct xs as [|y ys]; cbn in *; congruence.
Qed.
Lemma gsplit_in : forall sep s x, In x (gsplit sep s) -> ~ In sep x.
Proof.
  induction s as [|c s IH]; intros x H; cbn in H.
  - destruct H as [<-|[]]. auto.
  - destruct (Ascii.eqb_spec c sep) as [->|Hn].
    + destruct H as [<-|H]; [auto|]. now apply IH.
    + destruct (gsplit sep s) as [|y ys] eqn:E; cbn in H; destruct H as [<-|H].
      * intros [Hc|[]]; congruence.
      * destruct H.
      * intros [Hc|Hc]; [congruence|]. eapply IH; [now left|exact Hc].
      * apply IH. now right.
Qed.
Lemma gsplitc_app : forall sep k x r, ~ In sep x -> gsplit_cuts sep (S k) (x ++ sep :: r) = x :: gsplit_cuts sep k r.
Proof.
  induction x as [|c x IH]; intros r H; cbn.
  - now rewrite Ascii.eqb_refl.
  - destruct (Ascii.eqb_spec c sep) as [->|]; [exfalso; apply H; now left|]. cbn in IH. rewrite IH; [reflexivity|]. intros Hc. apply H. now right.
Qed.
Lemma gsplitc_nosep : forall sep k s, ~ In sep s -> gsplit_cuts sep k s = [s].
Proof.
  intros sep [|k] s H; [reflexivity|]. induction s as [|c s IH]; [reflexivity|]. cbn. destruct (Ascii.eqb_spec c sep) as [->|]; [exfalso; apply H; now left|]. cbn in IH. rewrite IH; [reflexivity|]. intros Hc. apply H. now right.
Qed.
(* the pieces of SplitN joined again give the string *)
Lemma gjoin_splitc : forall sep k s, gjoin sep (gsplit_cuts sep k s) = s /\ gsplit_cuts sep k s <> [].
Proof.
  induction k as [|k IHk]; intros s; [split; [reflexivity|discriminate]|]. induction s as [|c s IH]; [split; [reflexivity|discriminate]|].
  cbn [gsplit_cuts] in *. destruct IH as (I1 & I2). destruct (Ascii.eqb_spec c sep) as [->|].
  - destruct (IHk s) as (J1 & J2). split; [|discriminate]. rewrite gjoin_cons by assumption. rewrite J1. reflexivity.
  - match goal with |- context [match ?g s with _ => _ end] => destruct (g s) as [|x xs] end; [contradiction|]. split; [|discriminate]. destruct xs as [|y ys]; cbn in *; congruence.
Qed.
Lemma app_sep_inj : forall (sep : ascii) a b c d, ~ In sep a -> ~ In sep c -> a ++ sep :: b = c ++ sep :: d -> a = c /\ b = d.
Proof.
  induction a as [|x a IH]; intros b [|y c] d H1 H2 H; cbn in H.
  - injection H as ->. auto.
  - injection H as <- _. exfalso. apply H2. now left.
  - injection H as -> _. exfalso. apply H1. now left.
  - injection H as <- H. destruct (IH b c d) as (-> & ->); [intros Hc; apply H1; now right|intros Hc; apply H2; now right|exact H|]. auto.
Qed.
Lemma gjoin_inj : forall sep ps qs, ps <> [] -> qs <> [] -> (forall x, In x ps -> ~ In sep x) -> (forall x, In x qs -> ~ In sep x) -> gjoin sep ps = gjoin sep qs -> ps = qs.
Proof. intros sep ps qs H1 H2 H3 H4 H. rewrite <- (gsplit_join sep ps), <- (gsplit_join sep qs), H; auto. Qed.
