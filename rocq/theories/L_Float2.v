(* Shares p/q of a total T, counted in binary64 exactly as the weighted round robin and the weighted cluster selection do,
   compared with the same quantities in integers. *)
From Coq Require Import ZArith NArith Reals Lra Lia Bool SpecFloat Psatz.
From Flocq Require Import Core.
From Verif Require Import L_Float M_AdsLb.
Open Scope R_scope.

Definition fl (n : N) : f64 := f64_of_Z (Z.of_N n).
Definition rn (n : N) : R := IZR (Z.of_N n).
Lemma rn_nonneg : forall n, 0 <= rn n.
Proof. intros. unfold rn. apply IZR_le. lia. Qed.
Lemma rn_le : forall n m, (n <= m)%N -> rn n <= rn m.
Proof. intros. unfold rn. apply IZR_le. lia. Qed.
Lemma rn_mult : forall n m, rn (n * m) = rn n * rn m.
Proof. intros. unfold rn. rewrite N2Z.inj_mul, mult_IZR. reflexivity. Qed.
Lemma rn_plus : forall n m, rn (n + m) = rn n + rn m.
Proof. intros. unfold rn. rewrite N2Z.inj_add, plus_IZR. reflexivity. Qed.
Lemma isf_fl : forall n, (n < 4294967296)%N -> isf (fl n) (rn n).
Proof. intros n H. apply isf_Z. lia. Qed.
Lemma rn_ub : forall n k, (n <= k)%N -> rn n <= IZR (Z.of_N k).
Proof. intros. unfold rn. apply IZR_le. lia. Qed.
Lemma tiny : forall x, / 18446744073709551616 <= x -> / IZR (2 ^ 1000) <= x.
Proof. intros x H. eapply Rle_trans; [|exact H]. apply Rinv_le; [apply IZR_lt; reflexivity|]. apply IZR_le. change 18446744073709551616%Z with (2 ^ 64)%Z. apply Z.pow_le_mono_r; lia. Qed.
Lemma huge : forall x, 0 <= x <= 18446744073709551616 -> small x.
Proof. intros x [H H']. apply small_le. split; [exact H|]. eapply Rle_trans; [exact H'|]. apply IZR_le. change 18446744073709551616%Z with (2 ^ 64)%Z. apply Z.pow_le_mono_r; lia. Qed.
Lemma rn1 : forall n, n <> 0%N -> 1 <= rn n.
Proof. intros. unfold rn. apply IZR_le. lia. Qed.
(* rounding of zero or of a value in the normal range *)
Lemma rnd_ok : forall x, x = 0 \/ / 18446744073709551616 <= x -> (1 - u) * x <= rnd x <= (1 + u) * x.
Proof. intros x [-> | H]; [rewrite rnd_0; lra|]. apply rnd_bounds, tiny, H. Qed.
Lemma u_num : u = / 9007199254740992.
Proof. exact u_val. Qed.
Lemma ub : 0 < u < / 1000000.
Proof. rewrite u_num. lra. Qed.

Definition share (p q : N) : f64 := SFdiv 53 1024 (fl p) (fl q).
Definition maxsel (p q T : N) : f64 := SFmul 53 1024 (share p q) (fl T).
Definition skipped (p q T c : N) : bool := SFleb (maxsel p q T) (fl c).
Definition rel (p q T c : N) : f64 := SFdiv 53 1024 (fl c) (maxsel p q T).

Lemma quot_bounds : forall p q, (p <= 65536)%N -> (0 < q <= 65536)%N -> rn p / rn q = 0 \/ / 65536 <= rn p / rn q <= 65536.
Proof.
  intros p q Hp Hq. destruct (N.eq_dec p 0) as [E|E]; [left; rewrite E; unfold Rdiv, rn; cbn; ring|right].
  assert (H1: 1 <= rn p) by now apply rn1. assert (H2: 1 <= rn q) by (apply rn1; lia). pose proof (rn_ub p 65536 Hp) as H3. pose proof (rn_ub q 65536 ltac:(lia)) as H4. cbn in H3, H4. split.
  - apply Rmult_le_reg_r with (rn q); [lra|]. unfold Rdiv. rewrite Rmult_assoc, Rinv_l by lra. lra.
  - apply Rmult_le_reg_r with (rn q); [lra|]. unfold Rdiv. rewrite Rmult_assoc, Rinv_l by lra. nra.
Qed.
Lemma share_isf : forall p q, (p <= 65536)%N -> (0 < q <= 65536)%N ->
  exists l, isf (share p q) l /\ (1 - u) * (rn p / rn q) <= l <= (1 + u) * (rn p / rn q).
Proof.
  intros p q Hp Hq. pose proof (quot_bounds p q Hp Hq) as B. exists (rnd (rn p / rn q)). split.
  - apply isf_div; [apply isf_fl; lia|apply isf_fl; lia| |].
    + pose proof (rn1 q ltac:(lia)). lra.
    + apply huge. destruct B as [-> | B]; lra.
  - apply rnd_ok. destruct B as [-> | B]; [now left|right; lra].
Qed.
Lemma maxsel_isf : forall p q T, (p <= 65536)%N -> (0 < q <= 65536)%N -> (0 < T < 4294967296)%N ->
  exists M, isf (maxsel p q T) M /\ (1 - u) * ((1 - u) * (rn p / rn q * rn T)) <= M <= (1 + u) * ((1 + u) * (rn p / rn q * rn T)).
Proof.
  intros p q T Hp Hq HT. destruct (share_isf p q Hp Hq) as (l & Hl & L1 & L2). pose proof (quot_bounds p q Hp Hq) as B.
  assert (T1: 1 <= rn T) by (apply rn1; lia). pose proof (rn_ub T 4294967296 ltac:(lia)) as T2. cbn in T2. pose proof ub as U.
  assert (Bl: l * rn T = 0 \/ / 18446744073709551616 <= l * rn T <= 18446744073709551616).
  { destruct B as [B|B]; [left; rewrite B in *; replace l with 0 by lra; ring|right]. assert (/ 131072 <= l <= 131072) by nra. nra. }
  exists (rnd (l * rn T)). split; [apply isf_mul; [exact Hl|apply isf_fl; lia|]|].
  - apply huge. destruct Bl as [-> | Bl]; lra.
  - assert (Bo: l * rn T = 0 \/ / 18446744073709551616 <= l * rn T) by (destruct Bl as [-> | Bl]; [now left|right; lra]).
    destruct (rnd_ok _ Bo) as [R1 R2].
    assert (V1: (1 - u) * (rn p / rn q) * rn T <= l * rn T) by (apply Rmult_le_compat_r; lra).
    assert (V2: l * rn T <= (1 + u) * (rn p / rn q) * rn T) by (apply Rmult_le_compat_r; lra).
    split.
    + eapply Rle_trans; [|exact R1]. apply Rmult_le_compat_l; lra.
    + eapply Rle_trans; [exact R2|]. apply Rmult_le_compat_l; lra.
Qed.
(* below the exact share: not skipped *)
Lemma below_not_skipped : forall p q T c, (p <= 65536)%N -> (0 < q <= 65536)%N -> (0 < T < 4294967296)%N -> (c < 4294967296)%N ->
  (q * c < p * T)%N -> skipped p q T c = false.
Proof.
  intros p q T c Hp Hq HT Hc H. destruct (maxsel_isf p q T Hp Hq HT) as (M & HM & M1 & _). unfold skipped. rewrite (leb_isf _ _ _ _ HM (isf_fl c Hc)).
  apply Rle_bool_false. eapply Rlt_le_trans; [|exact M1].
  assert (Q1: 1 <= rn q) by (apply rn1; lia). assert (HH: rn q * rn c + 1 <= rn p * rn T). { rewrite <- !rn_mult. change 1 with (rn 1). rewrite <- rn_plus. apply rn_le. lia. }
  assert (HB: rn q * rn c <= 281474976710656). { rewrite <- rn_mult. change 281474976710656 with (rn 281474976710656). apply rn_le. nia. }
  replace (rn p / rn q * rn T) with (rn p * rn T / rn q) by (field; lra).
  apply Rmult_lt_reg_r with (rn q); [lra|]. replace ((1 - u) * ((1 - u) * (rn p * rn T / rn q)) * rn q) with ((1 - u) * (1 - u) * (rn p * rn T)) by (field; lra).
  assert (X: (1 - 2 * u) * (rn q * rn c + 1) <= (1 - u) * (1 - u) * (rn p * rn T)).
  { pose proof ub. pose proof (Rmult_le_pos _ _ (rn_nonneg q) (rn_nonneg c)). apply Rmult_le_compat; nra. }
  eapply Rlt_le_trans; [|exact X]. pose proof ub as U. rewrite (Rmult_comm (rn c)). rewrite u_num. lra.
Qed.
Lemma not_skipped_le : forall p q T c, (p <= 65536)%N -> (0 < q <= 65536)%N -> (0 < T < 4294967296)%N -> (c < 4294967296)%N ->
  skipped p q T c = false -> (q * c <= p * T)%N /\ (0 < p)%N.
Proof.
  intros p q T c Hp Hq HT Hc H. destruct (maxsel_isf p q T Hp Hq HT) as (M & HM & _ & M2). unfold skipped in H. rewrite (leb_isf _ _ _ _ HM (isf_fl c Hc)) in H.
  destruct (Rle_bool_spec M (rn c)) as [|L]; [discriminate|]. pose proof (rn_nonneg c) as C0.
  assert (Q1: 1 <= rn q) by (apply rn1; lia). pose proof ub as U.
  assert (P0: (0 < p)%N). { destruct (N.eq_dec p 0) as [E|E]; [|lia]. exfalso. rewrite E in M2. unfold Rdiv in M2. change (rn 0) with 0 in M2. rewrite !Rmult_0_l, !Rmult_0_r in M2. lra. }
  split; [|exact P0]. replace (rn p / rn q * rn T) with (rn p * rn T / rn q) in M2 by (field; lra).
  assert (X: rn q * rn c < (1 + u) * (1 + u) * (rn p * rn T)).
  { apply Rmult_lt_reg_r with (/ rn q); [apply Rinv_0_lt_compat; lra|]. replace (rn q * rn c * / rn q) with (rn c) by (field; lra). eapply Rlt_le_trans; [exact L|]. eapply Rle_trans; [exact M2|]. right. field. lra. }
  apply N.nlt_ge. intros Hn. assert (HH: rn p * rn T + 1 <= rn q * rn c). { rewrite <- !rn_mult. change 1 with (rn 1). rewrite <- rn_plus. apply rn_le. lia. }
  assert (HB: rn p * rn T <= 281474976710656). { rewrite <- rn_mult. change 281474976710656 with (rn 281474976710656). apply rn_le. nia. }
  pose proof (Rmult_le_pos _ _ (rn_nonneg p) (rn_nonneg T)) as PT. assert ((1 + u) * (1 + u) <= 1 + 3 * u) by nra.
  assert (Y: (1 + u) * (1 + u) * (rn p * rn T) <= (1 + 3 * u) * (rn p * rn T)) by (apply Rmult_le_compat_r; lra). assert (Y2 := Rlt_le_trans _ _ _ X Y). rewrite u_num in Y2. lra.
Qed.
Lemma rel_isf : forall p q T c, (p <= 65536)%N -> (0 < q <= 65536)%N -> (0 < T < 4294967296)%N -> (c < 4294967296)%N -> skipped p q T c = false ->
  exists M r, isf (maxsel p q T) M /\ 0 < M /\ isf (rel p q T c) r /\ (1 - u) * (rn c / M) <= r <= (1 + u) * (rn c / M) /\ 0 <= r <= 2.
Proof.
  intros p q T c Hp Hq HT Hc H. destruct (maxsel_isf p q T Hp Hq HT) as (M & HM & _ & M2). unfold skipped in H. rewrite (leb_isf _ _ _ _ HM (isf_fl c Hc)) in H.
  destruct (Rle_bool_spec M (rn c)) as [|L]; [discriminate|]. pose proof (rn_nonneg c) as C0. pose proof ub as U.
  assert (MB: M <= 18446744073709551616).
  { eapply Rle_trans; [exact M2|]. pose proof (quot_bounds p q Hp Hq) as B. pose proof (rn_nonneg T) as T1. pose proof (rn_ub T 4294967296 ltac:(lia)) as T2. cbn in T2.
    assert (0 <= rn p / rn q * rn T <= 65536 * 4294967296) by (destruct B as [-> | B]; [lra|nra]). nra. }
  assert (Bq: rn c / M = 0 \/ / 18446744073709551616 <= rn c / M <= 1).
  { destruct (N.eq_dec c 0) as [E|E]; [left; rewrite E; change (rn 0) with 0; unfold Rdiv; ring|right]. pose proof (rn1 c E). split; (apply Rmult_le_reg_r with M; [lra|]); unfold Rdiv; rewrite Rmult_assoc, Rinv_l by lra; lra. }
  assert (Bo: rn c / M = 0 \/ / 18446744073709551616 <= rn c / M) by (destruct Bq as [-> | Bq]; [now left|right; lra]).
  exists M, (rnd (rn c / M)). destruct (rnd_ok _ Bo) as [R1 R2]. repeat split; try assumption; try lra.
  - apply isf_div; [apply isf_fl; lia|exact HM|lra|]. apply huge. destruct Bq as [-> | Bq]; lra.
  - eapply Rle_trans; [|exact R1]. destruct Bq as [-> | Bq]; [lra|]. apply Rmult_le_pos; lra.
  - eapply Rle_trans; [exact R2|]. destruct Bq as [-> | Bq]; nra.
Qed.
(* the binary64 comparison of relative loads agrees with the comparison of the fractions *)
Lemma rel_le : forall p q T c p' c', (p <= 65536)%N -> (p' <= 65536)%N -> (0 < q <= 65536)%N -> (0 < T < 4294967296)%N -> (c < 4294967296)%N -> (c' < 4294967296)%N ->
  skipped p q T c = false -> skipped p' q T c' = false -> SFltb (rel p' q T c') (rel p q T c) = false -> (c * p' <= c' * p)%N.
Proof.
  intros p q T c p' c' Hp Hp' Hq HT Hc Hc' S1 S2 H.
  destruct (rel_isf p q T c Hp Hq HT Hc S1) as (M & r & HM & MP & Hr & [R1 R2] & _). destruct (rel_isf p' q T c' Hp' Hq HT Hc' S2) as (M' & r' & HM' & MP' & Hr' & [R1' R2'] & _).
  rewrite (ltb_isf _ _ _ _ Hr' Hr) in H. destruct (Rlt_bool_spec r' r) as [|L]; [discriminate|].
  destruct (maxsel_isf p q T Hp Hq HT) as (M0 & HM0 & _ & MB). rewrite (isf_unique _ _ _ HM0 HM) in MB. clear M0 HM0.
  destruct (maxsel_isf p' q T Hp' Hq HT) as (M0 & HM0 & MA & _). rewrite (isf_unique _ _ _ HM0 HM') in MA. clear M0 HM0.
  assert (Q1: 1 <= rn q) by (apply rn1; lia). assert (T1: 1 <= rn T) by (apply rn1; lia). pose proof ub as U. pose proof (rn_nonneg c) as C0. pose proof (rn_nonneg c') as C0'.
  assert (K: 0 < rn T / rn q) by (apply Rdiv_lt_0_compat; lra).
  replace (rn p / rn q * rn T) with (rn p * (rn T / rn q)) in MB by (field; lra). replace (rn p' / rn q * rn T) with (rn p' * (rn T / rn q)) in MA by (field; lra).
  set (k := rn T / rn q) in *.
  assert (X: (1 - u) * (rn c * M') <= (1 + u) * (rn c' * M)).
  { assert (X0: (1 - u) * (rn c / M) <= (1 + u) * (rn c' / M')) by lra. apply Rmult_le_compat_r with (r := M * M') in X0; [|nra].
    replace ((1 - u) * (rn c / M) * (M * M')) with ((1 - u) * (rn c * M')) in X0 by (field; lra). replace ((1 + u) * (rn c' / M') * (M * M')) with ((1 + u) * (rn c' * M)) in X0 by (field; lra). exact X0. }
  assert (Y1: rn c * ((1 - u) * ((1 - u) * (rn p' * k))) <= rn c * M') by (apply Rmult_le_compat_l; lra).
  assert (Y2: rn c' * M <= rn c' * ((1 + u) * ((1 + u) * (rn p * k)))) by (apply Rmult_le_compat_l; lra).
  assert (Z0: (1 - u) * (rn c * ((1 - u) * ((1 - u) * (rn p' * k)))) <= (1 + u) * (rn c' * ((1 + u) * ((1 + u) * (rn p * k))))).
  { eapply Rle_trans; [apply Rmult_le_compat_l; [lra|exact Y1]|]. eapply Rle_trans; [exact X|]. apply Rmult_le_compat_l; [lra|exact Y2]. }
  assert (Z1: (1 - u) * (1 - u) * (1 - u) * (rn c * rn p') <= (1 + u) * (1 + u) * (1 + u) * (rn c' * rn p)).
  { apply Rmult_le_reg_r with k; [exact K|]. lra. }
  apply N.nlt_ge. intros Hn. assert (HH: rn c' * rn p + 1 <= rn c * rn p'). { rewrite <- !rn_mult. change 1 with (rn 1). rewrite <- rn_plus. apply rn_le. lia. }
  assert (HB: rn c' * rn p <= 281474976710656). { rewrite <- rn_mult. change 281474976710656 with (rn 281474976710656). apply rn_le. nia. }
  pose proof (Rmult_le_pos _ _ C0' (rn_nonneg p)) as PT.
  assert (A1: (1 + u) * (1 + u) * (1 + u) <= 1 + 4 * u) by nra. assert (A2: 1 - 3 * u <= (1 - u) * (1 - u) * (1 - u)) by nra.
  assert (B1: (1 + u) * (1 + u) * (1 + u) * (rn c' * rn p) <= (1 + 4 * u) * (rn c' * rn p)) by (apply Rmult_le_compat_r; lra).
  assert (B2: (1 - 3 * u) * (rn c' * rn p + 1) <= (1 - u) * (1 - u) * (1 - u) * (rn c * rn p')) by (apply Rmult_le_compat; lra).
  rewrite u_num in *. lra.
Qed.
Lemma rel_lt_max : forall p q T c, (p <= 65536)%N -> (0 < q <= 65536)%N -> (0 < T < 4294967296)%N -> (c < 4294967296)%N -> skipped p q T c = false ->
  SFltb (rel p q T c) (S754_finite false 9007199254740991 971) = true.
Proof.
  intros p q T c Hp Hq HT Hc H. destruct (rel_isf p q T c Hp Hq HT Hc H) as (M & r & _ & _ & Hr & _ & R).
  assert (Hm: isf (S754_finite false 9007199254740991 971) (F2R (Float radix2 9007199254740991 971))).
  { exists (@B.B754_finite 53 1024 false 9007199254740991 971 eq_refl). repeat split. }
  rewrite (ltb_isf _ _ _ _ Hr Hm). apply Rlt_bool_true. unfold F2R. cbn [Fnum Fexp]. assert (1 <= bpow radix2 971) by (apply (bpow_le radix2 0 971); lia). nra.
Qed.
