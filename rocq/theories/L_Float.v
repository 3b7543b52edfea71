(* IEEE-754 binary64 operations of Coq's SpecFloat, as real numbers with rounding (through Flocq). *)
From Coq Require Import ZArith Reals Lra Lia Bool SpecFloat.
From Flocq Require Import Core.
From Flocq Require Import Relative.
From Flocq Require BinarySingleNaN.
Module B := Flocq.IEEE754.BinarySingleNaN.
Open Scope R_scope.

#[export] Instance Hprec : Prec_gt_0 53. Proof. reflexivity. Qed.
#[export] Instance Hmax : B.Prec_lt_emax 53 1024. Proof. reflexivity. Qed.
Notation bf := (B.binary_float 53 1024).
Definition rnd (x : R) : R := round radix2 (FLT_exp (-1074) 53) ZnearestE x.
(* x is a finite number with real value r *)
Definition isf (x : spec_float) (r : R) : Prop := exists b : bf, B.B2SF b = x /\ B.is_finite b = true /\ B.B2R b = r.

Lemma round_aux_eq : forall s m e l, SpecFloat.binary_round_aux 53 1024 s m e l = B.binary_round_aux 53 1024 B.mode_NE s m e l.
Proof.
  intros s m e l. unfold SpecFloat.binary_round_aux, B.binary_round_aux. destruct (shr_fexp 53 1024 m e l) as [mrs' e']. cbn [fst snd].
  replace (round_nearest_even (shr_m mrs') (loc_of_shr_record mrs')) with (B.choice_mode B.mode_NE s (shr_m mrs') (loc_of_shr_record mrs')); [reflexivity|].
  destruct (loc_of_shr_record mrs') as [|[]]; try reflexivity. cbn. unfold Round.cond_incr. destruct (Z.even (shr_m mrs')); reflexivity.
Qed.
Lemma mul_eq : forall x y : bf, SFmul 53 1024 (B.B2SF x) (B.B2SF y) = B.B2SF (B.Bmult B.mode_NE x y).
Proof. intros [sx|sx| |sx mx ex Hx] [sy|sy| |sy my ey Hy]; try reflexivity. cbn [B.B2SF B.Bmult SFmul]. rewrite B.B2SF_SF2B. apply round_aux_eq. Qed.
Lemma div_eq : forall x y : bf, SFdiv 53 1024 (B.B2SF x) (B.B2SF y) = B.B2SF (B.Bdiv B.mode_NE x y).
Proof. intros [sx|sx| |sx mx ex Hx] [sy|sy| |sy my ey Hy]; try reflexivity. cbn [B.B2SF B.Bdiv SFdiv]. rewrite B.B2SF_SF2B. destruct (SFdiv_core_binary 53 1024 (Z.pos mx) ex (Z.pos my) ey) as [[mz ez] lz]. apply round_aux_eq. Qed.
Lemma norm_eq : forall m e z, SpecFloat.binary_normalize 53 1024 m e z = B.B2SF (B.binary_normalize 53 1024 Hprec Hmax B.mode_NE m e z).
Proof.
  intros [|p|p] e z; [reflexivity| |]; cbn [SpecFloat.binary_normalize B.binary_normalize]; rewrite B.B2SF_SF2B; unfold SpecFloat.binary_round, B.binary_round, B.shl_align_fexp;
  match goal with |- context [shl_align ?a ?b ?c] => destruct (shl_align a b c) as [mz ez] end; apply round_aux_eq.
Qed.
Lemma rnd_eq : forall x, round radix2 (SpecFloat.fexp 53 1024) (B.round_mode B.mode_NE) x = rnd x.
Proof. reflexivity. Qed.
Lemma big : bpow radix2 1024 = IZR (2 ^ 1024).
Proof. reflexivity. Qed.
Definition small (x : R) : Prop := Rabs (rnd x) < bpow radix2 1024.
Lemma isf_mul : forall x y a b, isf x a -> isf y b -> small (a * b) -> isf (SFmul 53 1024 x y) (rnd (a * b)).
Proof.
  intros x y a b (p & <- & Fp & <-) (q & <- & Fq & <-) H. rewrite mul_eq. pose proof (B.Bmult_correct _ _ Hprec Hmax B.mode_NE p q) as C.
  rewrite rnd_eq in C. rewrite Rlt_bool_true in C by exact H. destruct C as (C1 & C2 & _). exists (B.Bmult B.mode_NE p q). split; [reflexivity|]. split; [rewrite C2, Fp, Fq; reflexivity|exact C1].
Qed.
Lemma isf_div : forall x y a b, isf x a -> isf y b -> b <> 0 -> small (a / b) -> isf (SFdiv 53 1024 x y) (rnd (a / b)).
Proof.
  intros x y a b (p & <- & Fp & <-) (q & <- & Fq & <-) N H. rewrite div_eq. pose proof (B.Bdiv_correct _ _ Hprec Hmax B.mode_NE p q N) as C.
  rewrite rnd_eq in C. rewrite Rlt_bool_true in C by exact H. destruct C as (C1 & C2 & _). exists (B.Bdiv B.mode_NE p q). split; [reflexivity|]. split; [rewrite C2; exact Fp|exact C1].
Qed.
Lemma rnd_mono : forall x y, x <= y -> rnd x <= rnd y.
Proof. intros. apply round_le; [apply FLT_exp_valid; reflexivity|apply valid_rnd_N|assumption]. Qed.
Lemma rnd_0 : rnd 0 = 0.
Proof. apply round_0. apply valid_rnd_N. Qed.
Lemma rnd_Z : forall z, (Z.abs z <= 2 ^ 53)%Z -> rnd (IZR z) = IZR z.
Proof.
  intros z H. apply round_generic; [apply valid_rnd_N|].
  destruct (Z.eq_dec (Z.abs z) (2 ^ 53)) as [E|N].
  - replace (IZR z) with (F2R (Float radix2 (z / 2 ^ 53) 53)).
    + apply generic_format_F2R. intros _. cbn [Fnum Fexp]. unfold cexp, FLT_exp. assert (z = 2 ^ 53 \/ z = - 2 ^ 53)%Z as [-> | ->] by lia.
      * change (2 ^ 53 / 2 ^ 53)%Z with 1%Z. unfold F2R. cbn [Fnum Fexp]. rewrite Rmult_1_l. rewrite mag_bpow. lia.
      * change (- 2 ^ 53 / 2 ^ 53)%Z with (-1)%Z. unfold F2R. cbn [Fnum Fexp]. replace (IZR (-1) * bpow radix2 53) with (- bpow radix2 53) by ring. rewrite mag_opp, mag_bpow. lia.
    + unfold F2R. cbn [Fnum Fexp]. change (bpow radix2 53) with (IZR (2 ^ 53)). rewrite <- mult_IZR. f_equal. assert (z = 2 ^ 53 \/ z = - 2 ^ 53)%Z as [-> | ->] by lia; reflexivity.
  - apply generic_format_FLT. exists (Float radix2 z 0); [unfold F2R; cbn; ring|cbn [Fnum]; change (radix2 : Z) with 2%Z; lia|cbn; lia].
Qed.
Lemma isf_Z : forall z, (Z.abs z <= 2 ^ 53)%Z -> isf (SpecFloat.binary_normalize 53 1024 z 0 false) (IZR z).
Proof.
  intros z H. rewrite norm_eq. pose proof (B.binary_normalize_correct _ _ Hprec Hmax B.mode_NE z 0 false) as C. cbv zeta in C.
  change (round radix2 (FLT_exp (3 - 1024 - 53) 53) (B.round_mode B.mode_NE)) with rnd in C.
  replace (F2R (Float radix2 z 0)) with (IZR z) in C by (unfold F2R; cbn; ring). rewrite rnd_Z in C by exact H. rewrite Rlt_bool_true in C.
  - destruct C as (C1 & C2 & _). eexists. split; [reflexivity|]. split; assumption.
  - rewrite <- abs_IZR. rewrite big. apply IZR_lt. assert (2 ^ 53 < 2 ^ 1024)%Z by (apply Z.pow_lt_mono_r; lia). lia.
Qed.
Lemma isf_unique : forall x a b, isf x a -> isf x b -> a = b.
Proof. intros x a b (p & E & _ & <-) (q & F & _ & <-). f_equal. apply B.B2SF_inj. congruence. Qed.
Lemma ltb_isf : forall x y a b, isf x a -> isf y b -> SFltb x y = Rlt_bool a b.
Proof. intros x y a b (p & <- & Fp & <-) (q & <- & Fq & <-). exact (B.Bltb_correct _ _ p q Fp Fq). Qed.
Lemma leb_isf : forall x y a b, isf x a -> isf y b -> SFleb x y = Rle_bool a b.
Proof. intros x y a b (p & <- & Fp & <-) (q & <- & Fq & <-). exact (B.Bleb_correct _ _ p q Fp Fq). Qed.
Lemma eqb_isf : forall x y a b, isf x a -> isf y b -> SFeqb x y = Req_bool a b.
Proof. intros x y a b (p & <- & Fp & <-) (q & <- & Fq & <-). exact (B.Beqb_correct _ _ p q Fp Fq). Qed.

(* relative error *)
Definition u : R := / IZR (2 ^ 53).
Lemma rnd_err : forall x, / IZR (2 ^ 1000) <= Rabs x -> Rabs (rnd x - x) <= u * Rabs x.
Proof.
  intros x H. unfold rnd. pose proof (relative_error_N_FLT radix2 (-1074) 53 ltac:(lia) (fun x => negb (Z.even x)) x) as R.
  replace (/ 2 * bpow radix2 (- (53) + 1)) with u in R.
  - apply R. eapply Rle_trans; [|exact H]. change (-1074 + 53 - 1)%Z with (-(1022))%Z. rewrite bpow_opp. apply Rinv_le; [apply IZR_lt; reflexivity|]. change (bpow radix2 1022) with (IZR (2 ^ 1022)). apply IZR_le. apply Z.pow_le_mono_r; lia.
  - change (- (53) + 1)%Z with (-(52))%Z. rewrite bpow_opp. change (bpow radix2 52) with (IZR (2 ^ 52)). unfold u. rewrite <- Rinv_mult, <- mult_IZR. reflexivity.
Qed.
Lemma u_pos : 0 < u.
Proof. unfold u. apply Rinv_0_lt_compat. apply IZR_lt. reflexivity. Qed.
Lemma u_val : u = / 9007199254740992.
Proof. reflexivity. Qed.
Lemma rnd_bounds : forall x, / IZR (2 ^ 1000) <= x -> (1 - u) * x <= rnd x <= (1 + u) * x.
Proof.
  intros x H. assert (P: 0 < x) by (eapply Rlt_le_trans; [|exact H]; apply Rinv_0_lt_compat, IZR_lt; reflexivity).
  pose proof (rnd_err x) as E. rewrite Rabs_right in E by lra. specialize (E H). apply Rabs_le_inv in E. lra.
Qed.
Lemma small_le : forall x, 0 <= x <= IZR (2 ^ 900) -> small x.
Proof.
  intros x [H0 H]. unfold small. assert (R0: 0 <= rnd x) by (rewrite <- rnd_0; now apply rnd_mono). rewrite Rabs_right by lra.
  apply Rle_lt_trans with (rnd (IZR (2 ^ 900))); [now apply rnd_mono|].
  replace (rnd (IZR (2 ^ 900))) with (bpow radix2 900); [apply bpow_lt; lia|]. symmetry. change (IZR (2 ^ 900)) with (bpow radix2 900). apply round_generic; [apply valid_rnd_N|]. apply generic_format_bpow. unfold FLT_exp. lia.
Qed.
