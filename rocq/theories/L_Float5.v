(* binary64: the share of one of n equal endpoints. *)
From Coq Require Import ZArith NArith Reals Lra Lia SpecFloat.
From Flocq Require Import Core.
From Verif Require Import M_AdsLb L_Float L_Float2 L_Float4.
Open Scope R_scope.
Lemma small32 : forall r, 0 <= r <= 18446744073709551616 -> small r.
Proof. exact huge. Qed.
Lemma rnd_rn : forall n, (n < 4294967296)%N -> rnd (rn n) = rn n.
Proof. intros. unfold rn. apply rnd_Z. lia. Qed.
Lemma rnd_one : rnd 1 = 1.
Proof. apply (rnd_Z 1). lia. Qed.
Lemma rn_ub32 : forall n, (n < 4294967296)%N -> 0 <= rn n <= 18446744073709551616.
Proof. intros n H. split; [apply rn_nonneg|]. eapply Rle_trans; [apply (rn_ub n 4294967296); lia|]. cbn. lra. Qed.
Lemma div_self : forall n, (0 < n < 4294967296)%N -> SFdiv 53 1024 (fl n) (fl n) = fl 1.
Proof.
  intros n H. pose proof (rn1 n ltac:(lia)). apply (isf_inj _ _ 1); [|exact (isf_fl 1 ltac:(lia))|lra].
  replace 1 with (rnd (rn n / rn n)) by (replace (rn n / rn n) with 1 by (field; lra); exact rnd_one). apply isf_div; [apply isf_fl; lia|apply isf_fl; lia|lra|]. replace (rn n / rn n) with 1 by (field; lra). apply huge. lra.
Qed.
Lemma mul_one : forall x r, isf x r -> 0 < r <= 18446744073709551616 -> rnd r = r -> SFmul 53 1024 x (fl 1) = x.
Proof.
  intros x r H B R. apply (isf_inj _ _ r); [|exact H|lra]. replace r with (rnd (r * rn 1)) by (change (rn 1) with 1; rewrite Rmult_1_r; exact R). apply isf_mul; [exact H|apply isf_fl; lia|]. change (rn 1) with 1. rewrite Rmult_1_r. apply huge. lra.
Qed.
Lemma fl_mul_one : forall n, (0 < n < 4294967296)%N -> SFmul 53 1024 (fl n) (fl 1) = fl n.
Proof. intros n H. apply (mul_one _ (rn n)); [apply isf_fl; lia| |apply rnd_rn; lia]. pose proof (rn_ub32 n ltac:(lia)). pose proof (rn1 n ltac:(lia)). lra. Qed.
Lemma add_fl : forall n m, (0 < n + m < 4294967296)%N -> SFadd 53 1024 (fl n) (fl m) = fl (n + m).
Proof.
  intros n m H. pose proof (rn1 (n + m) ltac:(lia)). apply (isf_inj _ _ (rn (n + m))); [|apply isf_fl; lia|lra].
  rewrite <- (rnd_rn (n + m)) by lia. rewrite rn_plus. apply isf_add; [apply isf_fl; lia|apply isf_fl; lia|]. rewrite <- rn_plus. apply huge. apply rn_ub32. lia.
Qed.
(* the share of one of n equal endpoints *)
Lemma share_equal : forall n w, (0 < n)%N -> (0 < w)%N -> (n * w < 4294967296)%N -> SFdiv 53 1024 (fl w) (fl (n * w)) = SFdiv 53 1024 (fl 1) (fl n) /\ exists r, isf (SFdiv 53 1024 (fl 1) (fl n)) r /\ (1 - u) * (1 / rn n) <= r <= (1 + u) * (1 / rn n) /\ rnd r = r.
Proof.
  intros n w Hn Hw H. assert (n < 4294967296)%N by nia. assert (w < 4294967296)%N by nia. pose proof (rn1 n ltac:(lia)) as N1. pose proof (rn1 w ltac:(lia)) as W1. pose proof (rn_ub32 n ltac:(lia)) as N2.
  assert (E: rn w / rn (n * w) = 1 / rn n) by (rewrite rn_mult; field; lra).
  assert (Blo: / 18446744073709551616 <= 1 / rn n). { unfold Rdiv. rewrite Rmult_1_l. apply Rinv_le; lra. }
  assert (Bhi: 1 / rn n <= 1). { unfold Rdiv. rewrite Rmult_1_l. rewrite <- Rinv_1. apply Rinv_le; lra. }
  assert (I2: isf (SFdiv 53 1024 (fl 1) (fl n)) (rnd (1 / rn n))). { apply (isf_div _ _ (rn 1) (rn n)); [apply isf_fl; lia|apply isf_fl; lia|lra|]. change (rn 1) with 1. apply huge. lra. }
  pose proof (rnd_bounds (1 / rn n) (tiny _ Blo)) as R. pose proof ub as U. split.
  - apply (isf_inj _ _ (rnd (1 / rn n))); [|exact I2|]. 
    + rewrite <- E. apply isf_div; [apply isf_fl; lia|apply isf_fl; lia| |]. { rewrite rn_mult. nra. } rewrite E. apply huge. lra.
    + assert (0 < (1 - u) * (1 / rn n)) by (apply Rmult_lt_0_compat; lra). lra.
  - exists (rnd (1 / rn n)). split; [exact I2|]. split; [exact R|apply rnd_idem].
Qed.
Lemma big_n : forall n, (200 < n < 4294967296)%N -> f64_round Z.odd (SFmul 53 1024 (SFdiv 53 1024 (fl 1) (fl n)) (fl 100)) = fl 0.
Proof.
  intros n H. destruct (share_equal n 1 ltac:(lia) ltac:(lia) ltac:(lia)) as [_ (r & Hr & R & _)]. pose proof ub as U.
  assert (Hn: 201 <= rn n) by (change 201 with (rn 201); apply rn_le; lia). pose proof (rn_ub32 n ltac:(lia)) as N2.
  assert (Bhi: 1 / rn n <= / 201). { unfold Rdiv. rewrite Rmult_1_l. apply Rinv_le; lra. }
  assert (Blo: / 18446744073709551616 <= 1 / rn n). { unfold Rdiv. rewrite Rmult_1_l. apply Rinv_le; lra. }
  assert (Brl: / 36893488147419103232 <= r) by nra. assert (Brh: r <= (1 + / 1000000) * / 201) by nra.
  assert (Bm: / 18446744073709551616 <= r * 100) by lra.
  change (fl 0) with (S754_zero false). eapply (round_small _ _ (rnd (r * 100))).
  - apply isf_mul; [exact Hr|exact (isf_fl 100 ltac:(lia))|]. apply huge. lra.
  - pose proof (rnd_bounds (r * 100) (tiny _ Bm)). split; [|nra]. assert (0 < (1 - u) * (r * 100)) by (apply Rmult_lt_0_compat; lra). lra.
Qed.
Lemma over_min : forall o, (100 <= o <= 65536)%N -> exists r, isf (SFdiv 53 1024 (fl o) (fl 100)) r /\ 1 <= r <= 18446744073709551616 /\ rnd r = r.
Proof.
  intros o H. assert (1 <= rn o / rn 100 <= 65536).
  { assert (100 <= rn o) by (change 100 with (rn 100); apply rn_le; lia). assert (rn o <= 65536) by (change 65536 with (rn 65536); apply rn_le; lia). change (rn 100) with 100. lra. }
  exists (rnd (rn o / rn 100)). split; [|split; [split|apply rnd_idem]].
  - apply isf_div; [apply isf_fl; lia|apply isf_fl; lia|change (rn 100) with 100; lra|]. apply huge. lra.
  - rewrite <- rnd_one. apply rnd_mono. lra.
  - eapply Rle_trans; [apply rnd_mono; apply (proj2 H0)|]. change 65536 with (IZR 65536). rewrite rnd_Z by lia. lra.
Qed.
Lemma pos_bound : forall r, 1 <= r <= 18446744073709551616 -> 0 < r <= 18446744073709551616.
Proof. intros. lra. Qed.
Lemma min_one : forall x r, isf x r -> 1 <= r -> (if SFltb (fl 1) x then fl 1 else x) = fl 1.
Proof.
  intros x r H B. rewrite (ltb_isf _ _ _ _ (isf_fl 1 ltac:(lia)) H). change (rn 1) with 1. destruct (Rlt_bool_spec 1 r) as [|L]; [reflexivity|].
  apply (isf_inj _ _ 1); [replace 1 with r by lra; exact H|exact (isf_fl 1 ltac:(lia))|lra].
Qed.
Lemma share_pos : forall n r, (0 < n)%N -> (n < 4294967296)%N -> (1 - u) * (1 / rn n) <= r <= (1 + u) * (1 / rn n) -> 0 < r <= 18446744073709551616.
Proof.
  intros n r H H' [R1 R2]. pose proof ub as U. pose proof (rn1 n ltac:(lia)) as N1. assert (P: 0 < 1 / rn n) by (apply Rdiv_lt_0_compat; lra).
  assert (Bhi: 1 / rn n <= 1). { unfold Rdiv. rewrite Rmult_1_l. rewrite <- Rinv_1. apply Rinv_le; lra. } split; [|nra]. assert (0 < (1 - u) * (1 / rn n)) by (apply Rmult_lt_0_compat; lra). lra.
Qed.
