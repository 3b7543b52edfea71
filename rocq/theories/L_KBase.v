(* Lemmas about M_KBase *)
From Coq Require Import List ZArith Bool Lia ZifyBool ZifyNat.
From Verif Require Import M_KBase.
Import ListNotations.
Open Scope Z_scope.
Ltac Zify.zify_post_hook ::= Z.div_mod_to_equations.

Ltac destr_if :=
  match goal with
  | |- context [if ?c then _ else _] => destruct c eqn:?
  | H : context [if ?c then _ else _] |- _ => destruct c eqn:?
  end.

(* ---------- readers ---------- *)
Lemma firstn_app_exact {A} (l s : list A) : firstn (length l) (l ++ s) = l.
Proof. rewrite firstn_app, Nat.sub_diag, firstn_all; cbn; now rewrite app_nil_r. Qed.
Lemma skipn_app_exact {A} (l s : list A) : skipn (length l) (l ++ s) = s.
Proof. rewrite skipn_app, Nat.sub_diag, skipn_all; reflexivity. Qed.

Lemma rd_bytes_app l s : l ++ s <> [] -> rd_bytes (length l) (l ++ s) = ROk l s.
Proof.
  intros H. unfold rd_bytes. destruct (l ++ s) eqn:E; [congruence|].
  rewrite <- E, firstn_app_exact, skipn_app_exact. reflexivity.
Qed.

Lemma rd_exact_app n l s : length l = n -> l <> [] -> rd_exact n (l ++ s) = ROk l s.
Proof.
  intros <- Hl. unfold rd_exact. rewrite rd_bytes_app.
  - cbn. now rewrite Nat.eqb_refl.
  - destruct l; cbn; congruence.
Qed.

Lemma rd_exact_inv n s l r : rd_exact n s = ROk l r -> s = l ++ r /\ length l = n.
Proof.
  unfold rd_exact, rd_bytes, rbind. destruct s; [discriminate|].
  destr_if; [|discriminate]. intros [= <- <-]. split.
  - now rewrite firstn_skipn.
  - now apply Nat.eqb_eq.
Qed.

Lemma rd_exact_short n s : (length s < n)%nat -> exists e, rd_exact n s = RErr e.
Proof.
  intros H. unfold rd_exact, rd_bytes, rbind. destruct s as [|b s]; [now eexists|].
  rewrite firstn_all2 by lia. destruct (Nat.eqb_spec (length (b :: s)) n); [lia|]. now eexists.
Qed.

(* ---------- big endian ---------- *)
Lemma be_enc_length n v : length (be_enc n v) = n.
Proof. revert v; induction n; intros; cbn; [easy|]. rewrite app_length, IHn; cbn; lia. Qed.

Lemma be_enc_ok n v : bytes_ok (be_enc n v).
Proof.
  revert v; induction n; intros; cbn; [constructor|]. apply Forall_app; split; [apply IHn|].
  constructor; [|constructor]. unfold byte_ok. lia.
Qed.

Lemma be_dec_acc_app acc l b : be_dec_acc acc (l ++ [b]) = be_dec_acc acc l * 256 + b.
Proof. revert acc; induction l; intros; cbn; [easy|apply IHl]. Qed.

Lemma be_dec_acc_lin acc l : be_dec_acc acc l = acc * 256 ^ Z.of_nat (length l) + be_dec_acc 0 l.
Proof.
  induction l as [|b l IH] using rev_ind; [cbn; lia|].
  rewrite !be_dec_acc_app, IH, app_length. cbn [length].
  replace (Z.of_nat (length l + 1)) with (Z.of_nat (length l) + 1) by lia.
  rewrite Z.pow_add_r by lia. change (256 ^ 1) with 256. lia.
Qed.

Lemma pow256_S n : 256 ^ Z.of_nat (S n) = 256 * 256 ^ Z.of_nat n.
Proof. rewrite Nat2Z.inj_succ, Z.pow_succ_r by lia. reflexivity. Qed.

Lemma be_dec_enc n v : 0 <= v < 256 ^ Z.of_nat n -> be_dec (be_enc n v) = v.
Proof.
  unfold be_dec. revert v; induction n as [|n IH]; intros v Hv.
  - cbn in *. lia.
  - rewrite pow256_S in Hv. cbn [be_enc]. rewrite be_dec_acc_app, IH.
    + lia.
    + split; [lia|]. apply Z.div_lt_upper_bound; lia.
Qed.

Lemma be_dec_bound l : bytes_ok l -> 0 <= be_dec l < 256 ^ Z.of_nat (length l).
Proof.
  unfold be_dec. induction l as [|b l IH] using rev_ind; intros H; [cbn; lia|].
  apply Forall_app in H as [H1 H2]. inversion H2 as [|? ? Hb _]; subst. unfold byte_ok in Hb.
  specialize (IH H1). rewrite be_dec_acc_app, app_length. cbn [length].
  replace (Z.of_nat (length l + 1)) with (Z.of_nat (length l) + 1) by lia.
  rewrite Z.pow_add_r by lia. change (256 ^ 1) with 256. lia.
Qed.

Lemma be_enc_dec l : bytes_ok l -> be_enc (length l) (be_dec l) = l.
Proof.
  unfold be_dec. induction l as [|b l IH] using rev_ind; intros H; [easy|].
  apply Forall_app in H as [H1 H2]. inversion H2 as [|? ? Hb _]; subst. unfold byte_ok in Hb.
  rewrite app_length; cbn [length]. replace (length l + 1)%nat with (S (length l)) by lia.
  cbn [be_enc]. rewrite be_dec_acc_app.
  replace ((be_dec_acc 0 l * 256 + b) / 256) with (be_dec_acc 0 l) by lia.
  rewrite IH by assumption. f_equal. f_equal. lia.
Qed.

(* ---------- signed / unsigned ---------- *)
Lemma pow2_split w : 0 < w -> 2 ^ w = 2 * 2 ^ (w - 1).
Proof. intros. replace w with (Z.succ (w - 1)) at 1 by lia. rewrite Z.pow_succ_r by lia. reflexivity. Qed.

Lemma to_signed_unsigned w v : 0 < w -> int_range w v -> to_signed w (to_unsigned w v) = v.
Proof.
  unfold int_range, to_signed, to_unsigned. intros Hw Hv.
  pose proof (pow2_split w Hw) as Hp.
  assert (0 < 2 ^ (w - 1)) by (apply Z.pow_pos_nonneg; lia).
  set (m := 2 ^ w) in *. set (h := 2 ^ (w - 1)) in *.
  rewrite Z.mod_mod by lia.
  destruct (Z_lt_ge_dec v 0).
  - replace (v mod m) with (v + m); [destr_if; lia|].
    apply Z.mod_unique with (q := -1); lia.
  - rewrite Z.mod_small by lia. destr_if; lia.
Qed.

Lemma to_signed_range w v : 0 < w -> int_range w (to_signed w v).
Proof.
  intros Hw. unfold to_signed, int_range. pose proof (pow2_split w Hw) as Hp.
  assert (0 < 2 ^ (w - 1)) by (apply Z.pow_pos_nonneg; lia).
  pose proof (Z.mod_pos_bound v (2 ^ w) ltac:(lia)).
  cbv zeta. destr_if; lia.
Qed.

Lemma to_signed_id w v : 0 < w -> int_range w v -> to_signed w v = v.
Proof.
  intros Hw Hv. rewrite <- (to_signed_unsigned w v Hw Hv) at 2.
  unfold to_signed, to_unsigned. rewrite Z.mod_mod; [reflexivity|].
  assert (0 < 2 ^ w) by (apply Z.pow_pos_nonneg; lia). lia.
Qed.

Lemma to_unsigned_range w v : 0 <= w -> uint_range w (to_unsigned w v).
Proof. intros. unfold uint_range, to_unsigned. apply Z.mod_pos_bound. apply Z.pow_pos_nonneg; lia. Qed.

Lemma to_unsigned_signed w v : 0 < w -> uint_range w v -> to_unsigned w (to_signed w v) = v.
Proof.
  unfold uint_range, to_signed, to_unsigned. intros Hw Hv.
  pose proof (pow2_split w Hw). rewrite (Z.mod_small v) by lia.
  destr_if; [apply Z.mod_small; lia|].
  symmetry; apply Z.mod_unique with (q := -1); lia.
Qed.

Lemma pow_8n n : 2 ^ (8 * Z.of_nat n) = 256 ^ Z.of_nat n.
Proof. rewrite Z.pow_mul_r by lia. reflexivity. Qed.

Lemma wr_int_length n v : length (wr_int n v) = n.
Proof. apply be_enc_length. Qed.

Lemma rd_int_wr n v s : (0 < n)%nat -> int_range (8 * Z.of_nat n) v ->
  rd_int n (wr_int n v ++ s) = ROk v s.
Proof.
  intros Hn Hv. unfold rd_int. rewrite rd_exact_app.
  - unfold rbind, wr_int. rewrite be_dec_enc.
    + rewrite to_signed_unsigned by (assumption || lia). reflexivity.
    + rewrite <- pow_8n. apply to_unsigned_range. lia.
  - apply wr_int_length.
  - intros E. apply (f_equal (@length Z)) in E. rewrite wr_int_length in E. cbn in E. lia.
Qed.

Lemma rd_uint_wr n v s : (0 < n)%nat -> uint_range (8 * Z.of_nat n) v ->
  rd_uint n (wr_uint n v ++ s) = ROk v s.
Proof.
  intros Hn Hv. unfold rd_uint. unfold uint_range in Hv. rewrite pow_8n in Hv. rewrite rd_exact_app.
  - unfold rbind, wr_uint. rewrite be_dec_enc by assumption. reflexivity.
  - apply be_enc_length.
  - intros E. apply (f_equal (@length Z)) in E. unfold wr_uint in E.
    rewrite be_enc_length in E. cbn in E. lia.
Qed.

Lemma rd_bool_wr b s : rd_bool (wr_bool b ++ s) = ROk b s.
Proof. destruct b; reflexivity. Qed.

Lemma rd_uuid_wr u s : length u = 16%nat -> bytes_ok u -> rd_uuid (wr_uuid u ++ s) = ROk u s.
Proof.
  intros Hl Hu. unfold wr_uuid, rd_uuid.
  assert (length (firstn 8 u) = 8%nat) as H1 by (rewrite firstn_length; lia).
  assert (length (skipn 8 u) = 8%nat) as H2 by (rewrite skipn_length; lia).
  rewrite <- (firstn_skipn 8 u) in Hu |- *. apply Forall_app in Hu as [Hu1 Hu2].
  rewrite <- app_assoc. unfold rd_int at 1. rewrite rd_exact_app by (assumption || destruct (firstn 8 u); easy).
  cbn [rbind]. unfold rd_int at 1. rewrite rd_exact_app by (assumption || destruct (skipn 8 u); easy).
  cbn [rbind]. pose proof (be_dec_bound _ Hu1) as B1. pose proof (be_dec_bound _ Hu2) as B2.
  rewrite H1, <- pow_8n in B1. rewrite H2, <- pow_8n in B2.
  change (8 * Z.of_nat 8) with 64 in *.
  rewrite !to_unsigned_signed by (assumption || lia).
  pose proof (be_enc_dec _ Hu1) as E1. pose proof (be_enc_dec _ Hu2) as E2.
  rewrite H1 in E1. rewrite H2 in E2. rewrite E1, E2. reflexivity.
Qed.

(* ---------- varint ---------- *)
Lemma put_uvarint_nonempty f v : (0 < f)%nat -> put_uvarint f v <> [].
Proof. destruct f; [lia|]. cbn. destr_if; discriminate. Qed.

Lemma put_uvarint_ok f v : 0 <= v -> bytes_ok (put_uvarint f v).
Proof.
  revert v; induction f; intros v Hv; cbn; [constructor|].
  destr_if; constructor; try constructor; unfold byte_ok; try lia. apply IHf. lia.
Qed.

Lemma rd_put_go f i x v s :
  Z.of_nat f + i = 10 -> 0 <= i -> 0 <= v < 2 ^ (64 - 7 * i) -> (0 < f)%nat ->
  rd_uvarint_go f i x (put_uvarint f v ++ s) = ROk (x + v * 2 ^ (7 * i)) s.
Proof.
  revert i x v; induction f as [|f IH]; intros i x v Hf Hi Hv Hpos; [lia|].
  cbn [put_uvarint]. destruct (v <? 128) eqn:E.
  - cbn [app rd_uvarint_go]. rewrite E.
    destruct (i =? 9) eqn:E9; cbn [andb]; [|reflexivity].
    assert (i = 9) by lia; subst i. change (2 ^ (64 - 7 * 9)) with 2 in Hv.
    destruct (1 <? v) eqn:E1; [lia|reflexivity].
  - cbn [app rd_uvarint_go].
    destruct (v mod 128 + 128 <? 128) eqn:E2; [lia|].
    assert (i <> 9). { intros ->. change (2 ^ (64 - 7 * 9)) with 2 in Hv. lia. }
    assert (2 ^ (64 - 7 * i) = 128 * 2 ^ (64 - 7 * (i + 1))) as Hp.
    { replace (64 - 7 * i) with (7 + (64 - 7 * (i + 1))) by lia.
      rewrite Z.pow_add_r by lia. reflexivity. }
    rewrite IH; [| lia | lia | split; [lia|apply Z.div_lt_upper_bound; lia] | lia].
    f_equal. replace (7 * (i + 1)) with (7 + 7 * i) by lia. rewrite Z.pow_add_r by lia.
    change (2 ^ 7) with 128. replace ((v mod 128 + 128) mod 128) with (v mod 128) by lia.
    rewrite (Z.div_mod v 128) at 3 by lia. ring.
Qed.

Lemma rd_uvarint_put v s : 0 <= v < 2 ^ 64 -> rd_uvarint (put_uvarint 10 v ++ s) = ROk v s.
Proof.
  intros H. unfold rd_uvarint. rewrite rd_put_go; [|reflexivity|lia|exact H|lia].
  f_equal. change (2 ^ (7 * 0)) with 1. lia.
Qed.

Lemma zz_enc_spec x : int_range 64 x -> zz_enc x = if x <? 0 then - 2 * x - 1 else 2 * x.
Proof.
  unfold int_range, zz_enc, to_unsigned. change (2 ^ (64 - 1)) with 9223372036854775808.
  change (2 ^ 64) with 18446744073709551616. intros. destruct (x <? 0) eqn:E; lia.
Qed.

Lemma zz_enc_range x w : 0 < w <= 64 -> int_range w x -> 0 <= zz_enc x < 2 ^ w.
Proof.
  intros Hw Hx. pose proof (pow2_split w ltac:(lia)).
  rewrite zz_enc_spec.
  - unfold int_range in Hx. destr_if; lia.
  - unfold int_range in *. assert (2 ^ (w - 1) <= 2 ^ (64 - 1)) by (apply Z.pow_le_mono_r; lia). lia.
Qed.

Lemma zz_dec_enc x : int_range 64 x -> zz_dec (zz_enc x) = x.
Proof.
  intros Hx. rewrite zz_enc_spec by assumption. unfold zz_dec. destruct (x <? 0) eqn:E.
  - replace (Z.odd (-2 * x - 1)) with true; [lia|].
    replace (-2 * x - 1) with (1 + 2 * (- x - 1)) by lia. now rewrite Z.odd_add_mul_2.
  - replace (Z.odd (2 * x)) with false; [lia|]. now rewrite Z.odd_mul.
Qed.

Lemma zz_dec_range w u : 0 < w -> 0 <= u < 2 ^ w -> int_range w (zz_dec u).
Proof.
  intros Hw Hu. unfold int_range, zz_dec. pose proof (pow2_split w Hw). cbv zeta.
  destr_if; lia.
Qed.

Lemma lxor_sign w v : 0 < w -> int_range w v ->
  to_unsigned w (Z.lxor (to_signed w (2 * v)) (v / 2 ^ (w - 1))) = if v <? 0 then - 2 * v - 1 else 2 * v.
Proof.
  intros Hw Hv. unfold int_range in Hv. pose proof (pow2_split w Hw) as Hp.
  assert (0 < 2 ^ (w - 1)) by (apply Z.pow_pos_nonneg; lia).
  assert (to_unsigned w (to_signed w (2 * v)) = (2 * v) mod 2 ^ w) as Hts.
  { unfold to_signed, to_unsigned. cbv zeta. pose proof (Z.mod_pos_bound (2*v) (2^w) ltac:(lia)).
    destr_if; [apply Z.mod_small; lia|]. symmetry. apply Z.mod_unique with (q := -1); lia. }
  destruct (v <? 0) eqn:E.
  - replace (v / 2 ^ (w - 1)) with (-1); [|apply Z.div_unique with (r := v + 2 ^ (w-1)); lia].
    rewrite Z.lxor_m1_r. unfold Z.lnot.
    assert (to_signed w (2 * v) = 2 * v \/ to_signed w (2 * v) = 2 * v + 2 ^ w) as [-> | ->].
    { unfold to_signed. cbv zeta.
      assert ((2 * v) mod 2 ^ w = 2 * v + 2 ^ w) as ->
        by (symmetry; apply Z.mod_unique with (q := -1); lia).
      destr_if; lia. }
    + unfold to_unsigned. rewrite Z.mod_small; lia.
    + unfold to_unsigned. symmetry. apply Z.mod_unique with (q := -1); lia.
  - rewrite Z.div_small by lia. rewrite Z.lxor_0_r, Hts. apply Z.mod_small. lia.
Qed.

Lemma int32_size_zz v : int_range 32 v -> int32_size v = uint32_size (zz_enc v).
Proof.
  intros Hv. unfold int32_size. change (v / 2 ^ 31) with (v / 2 ^ (32 - 1)). rewrite (lxor_sign 32 v) by (lia || assumption).
  rewrite zz_enc_spec; [reflexivity|].
  unfold int_range in *. change (2 ^ (32 - 1)) with 2147483648 in Hv.
  change (2 ^ (64 - 1)) with 9223372036854775808. lia.
Qed.

Lemma int64_size_zz v : int_range 64 v -> int64_size v = uint64_size (zz_enc v).
Proof.
  intros Hv. unfold int64_size. change (v / 2 ^ 63) with (v / 2 ^ (64 - 1)). rewrite (lxor_sign 64 v) by (lia || assumption).
  now rewrite zz_enc_spec.
Qed.

(* number of bytes of an uvarint, by explicit thresholds *)
Lemma put_len_step f v : 0 <= v -> length (put_uvarint (S f) v) =
  if v <? 128 then 1%nat else S (length (put_uvarint f (v / 128))).
Proof. intros. cbn [put_uvarint]. destr_if; reflexivity. Qed.

Lemma put_uvarint_len f n v : (n < f)%nat -> (n = 0%nat /\ 0 <= v < 128 \/ 128 ^ Z.of_nat n <= v < 128 ^ (Z.of_nat n + 1)) ->
  length (put_uvarint f v) = S n.
Proof.
  revert f v; induction n as [|n IH]; intros f v Hf Hv; destruct f as [|f]; try lia.
  - cbn [put_uvarint]. change (128 ^ (Z.of_nat 0 + 1)) with 128 in Hv. change (128 ^ Z.of_nat 0) with 1 in Hv.
    destr_if; [reflexivity|lia].
  - destruct Hv as [Hv|Hv]; [lia|].
    assert (128 ^ Z.of_nat (S n) = 128 * 128 ^ Z.of_nat n) as E1
      by (rewrite Nat2Z.inj_succ, Z.pow_succ_r by lia; reflexivity).
    assert (128 ^ (Z.of_nat (S n) + 1) = 128 * 128 ^ (Z.of_nat n + 1)) as E2
      by (rewrite Nat2Z.inj_succ, <- Z.pow_succ_r by lia; f_equal; lia).
    assert (0 < 128 ^ Z.of_nat n) by (apply Z.pow_pos_nonneg; lia).
    cbn [put_uvarint]. destr_if; [lia|]. cbn [length]. f_equal. apply IH; [lia|]. right.
    rewrite E1, E2 in Hv. split; [apply Z.div_le_lower_bound; lia|apply Z.div_lt_upper_bound; lia].
Qed.

Ltac put_len n := rewrite (put_uvarint_len 10 n);
  [ reflexivity | lia
  | first [ left; split; [reflexivity | lia] | right; cbv -[Z.le Z.lt]; lia ] ].

Lemma uint32_size_len v : 0 <= v < 2 ^ 32 ->
  Z.of_nat (length (put_uvarint 10 v)) = uint32_size v.
Proof.
  change (2 ^ 32) with 4294967296. intros Hv. unfold uint32_size.
  change (2 ^ 7) with 128. change (2 ^ 14) with 16384. change (2 ^ 21) with 2097152.
  change (2 ^ 28) with 268435456.
  destruct (v <? 128) eqn:E1; [put_len 0%nat|].
  destruct (v <? 16384) eqn:E2; [put_len 1%nat|].
  destruct (v <? 2097152) eqn:E3; [put_len 2%nat|].
  destruct (v <? 268435456) eqn:E4; [put_len 3%nat|].
  put_len 4%nat.
Qed.

Definition in_gap (v : Z) : bool := (2 ^ 49 <=? v) && (v <? 2 ^ 56).

Lemma uint64_size_len v : 0 <= v < 2 ^ 64 ->
  uint64_size v = Z.of_nat (length (put_uvarint 10 v)) + if in_gap v then 1 else 0.
Proof.
  change (2 ^ 64) with 18446744073709551616. intros Hv. unfold uint64_size, in_gap.
  change (2 ^ 7) with 128. change (2 ^ 14) with 16384. change (2 ^ 21) with 2097152.
  change (2 ^ 28) with 268435456. change (2 ^ 35) with 34359738368.
  change (2 ^ 42) with 4398046511104. change (2 ^ 49) with 562949953421312.
  change (2 ^ 56) with 72057594037927936. change (2 ^ 63) with 9223372036854775808.
  destruct (562949953421312 <=? v) eqn:G1, (v <? 72057594037927936) eqn:G2; cbn [andb]; try lia.
  - destruct (v <? 128) eqn:?; [lia|]. destruct (v <? 16384) eqn:?; [lia|].
    destruct (v <? 2097152) eqn:?; [lia|]. destruct (v <? 268435456) eqn:?; [lia|].
    destruct (v <? 34359738368) eqn:?; [lia|]. destruct (v <? 4398046511104) eqn:?; [lia|].
    destruct (v <? 562949953421312) eqn:?; [lia|].
    put_len 7%nat.
  - destruct (v <? 128) eqn:?; [lia|]. destruct (v <? 16384) eqn:?; [lia|].
    destruct (v <? 2097152) eqn:?; [lia|]. destruct (v <? 268435456) eqn:?; [lia|].
    destruct (v <? 34359738368) eqn:?; [lia|]. destruct (v <? 4398046511104) eqn:?; [lia|].
    destruct (v <? 562949953421312) eqn:?; [lia|].
    destruct (v <? 9223372036854775808) eqn:?; [put_len 8%nat|put_len 9%nat].
  - destruct (v <? 128) eqn:E1; [put_len 0%nat|].
    destruct (v <? 16384) eqn:E2; [put_len 1%nat|].
    destruct (v <? 2097152) eqn:E3; [put_len 2%nat|].
    destruct (v <? 268435456) eqn:E4; [put_len 3%nat|].
    destruct (v <? 34359738368) eqn:E5; [put_len 4%nat|].
    destruct (v <? 4398046511104) eqn:E6; [put_len 5%nat|].
    destruct (v <? 562949953421312) eqn:E7; [put_len 6%nat|lia].
Qed.
