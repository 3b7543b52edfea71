(* More on binary64: addition, equality of representations, rounding to an integer below one half. *)
From Coq Require Import ZArith NArith Reals Lra Lia Bool SpecFloat.
From Flocq Require Import Core.
From Verif Require Import M_AdsLb L_Float L_Float2.
Open Scope R_scope.
Lemma add_eq : forall x y : bf, SFadd 53 1024 (B.B2SF x) (B.B2SF y) = B.B2SF (B.Bplus B.mode_NE x y).
Proof.
  intros [sx|sx| |sx mx ex Hx] [sy|sy| |sy my ey Hy]; try reflexivity; try (destruct sx, sy; reflexivity).
  cbn [B.B2SF B.Bplus SFadd]. rewrite <- norm_eq. reflexivity.
Qed.
Lemma isf_add : forall x y a b, isf x a -> isf y b -> small (a + b) -> isf (SFadd 53 1024 x y) (rnd (a + b)).
Proof.
  intros x y a b (p & <- & Fp & <-) (q & <- & Fq & <-) H. rewrite add_eq. pose proof (B.Bplus_correct _ _ Hprec Hmax B.mode_NE p q Fp Fq) as C.
  rewrite rnd_eq in C. rewrite Rlt_bool_true in C by exact H. destruct C as (C1 & C2 & _). exists (B.Bplus B.mode_NE p q). split; [reflexivity|]. split; [exact C2|exact C1].
Qed.
Lemma isf_inj : forall x y a, isf x a -> isf y a -> a <> 0 -> x = y.
Proof.
  intros x y a (p & <- & Fp & Ep) (q & <- & Fq & Eq) N. f_equal. apply B.B2R_inj; [| |congruence].
  - destruct p; try discriminate; [cbn in Ep; lra|reflexivity].
  - destruct q; try discriminate; [cbn in Eq; lra|reflexivity].
Qed.
Lemma rnd_idem : forall x, rnd (rnd x) = rnd x.
Proof. intros. apply round_generic; [apply valid_rnd_N|]. apply generic_format_round; [apply FLT_exp_valid; reflexivity|apply valid_rnd_N]. Qed.
Lemma round_small : forall tie x r, isf x r -> 0 < r < / 2 -> f64_round tie x = S754_zero false.
Proof.
  intros tie x r (b & <- & Fb & <-) [H0 H1]. destruct b as [s|s| |s m e Hb]; try discriminate; [cbn in H0; lra|]. cbn [B.B2SF f64_round B.B2R] in *.
  assert (s = false). { destruct s; [|reflexivity]. exfalso. unfold F2R in H0. cbn [Fnum Fexp cond_Zopp] in H0. pose proof (bpow_gt_0 radix2 e). assert (IZR (- Z.pos m) <= -1) by (apply IZR_le; lia). nra. } subst s.
  unfold F2R in *. cbn [Fnum Fexp cond_Zopp] in *.
  assert (He: (e < 0)%Z). { apply Z.nle_gt. intros He. assert (1 <= bpow radix2 e) by (apply (bpow_le radix2 0 e He)). assert (1 <= IZR (Z.pos m)) by (apply IZR_le; lia). nra. }
  assert (Hlt: (2 * Z.pos m < 2 ^ (- e))%Z).
  { apply lt_IZR. rewrite mult_IZR. apply Rmult_lt_reg_r with (bpow radix2 e); [apply bpow_gt_0|]. replace (IZR (2 ^ (- e))) with (bpow radix2 (- e)) by (rewrite <- IZR_Zpower by lia; reflexivity). rewrite <- bpow_plus. replace (- e + e)%Z with 0%Z by lia. change (bpow radix2 0) with 1. lra. }
  replace (0 <=? e)%Z with false by (symmetry; apply Z.leb_gt; lia). cbv zeta. rewrite Z.div_small, Z.mod_small by lia.
  replace (2 ^ (- e) <? 2 * Z.pos m)%Z with false by (symmetry; apply Z.ltb_ge; lia). replace (2 * Z.pos m =? 2 ^ (- e))%Z with false by (symmetry; apply Z.eqb_neq; lia). reflexivity.
Qed.
