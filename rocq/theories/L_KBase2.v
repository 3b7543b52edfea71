(* More lemmas about M_KBase: characterisation of the varint reader, byte order, locality *)
From Coq Require Import List ZArith Bool Lia ZifyBool ZifyNat.
From Verif Require Import M_KBase S_KBase L_KBase.
Import ListNotations.
Open Scope Z_scope.
Ltac Zify.zify_post_hook ::= Z.div_mod_to_equations.

Lemma leb_bound l : bytes_ok l -> 0 <= leb_value l < 128 ^ Z.of_nat (length l).
Proof.
  induction 1 as [|b l Hb Hl IH]; [cbn; lia|].
  cbn [leb_value length]. rewrite Nat2Z.inj_succ, Z.pow_succ_r by lia.
  unfold byte_ok in Hb. pose proof (Z.mod_pos_bound b 128 ltac:(lia)).
  set (p := 128 ^ Z.of_nat (length l)) in *. set (v := leb_value l) in *. set (m := b mod 128) in *. lia.
Qed.

Lemma pow7 i : 0 <= i -> 2 ^ (7 * i) = 128 ^ i.
Proof. intros. rewrite Z.pow_mul_r by lia. reflexivity. Qed.

Lemma rd_go_char f i x s v r : bytes_ok s -> Z.of_nat f + i = 10 -> 0 <= i ->
  rd_uvarint_go f i x s = ROk v r <->
  exists e, s = e ++ r /\ leb_terminated e /\ (length e <= f)%nat /\
            v = x + leb_value e * 2 ^ (7 * i) /\ leb_value e * 2 ^ (7 * i) < 2 ^ 64.
Proof.
  revert i x s; induction f as [|f IH]; intros i x s Hs Hf Hi.
  { cbn [rd_uvarint_go]. split; [discriminate|]. intros (e & -> & (p & b & -> & _) & Hlen & _).
    rewrite app_length in Hlen. cbn in Hlen. lia. }
  cbn [rd_uvarint_go]. destruct s as [|b s'].
  { split; [discriminate|]. intros (e & He & (p & b & -> & _) & _).
    destruct p; discriminate. }
  inversion Hs as [|? ? Hb Hs']; subst. unfold byte_ok in Hb.
  assert (0 < 2 ^ (7 * i)) as Hpos by (apply Z.pow_pos_nonneg; lia).
  assert (2 ^ (7 * i) <= 2 ^ 63) as Hle by (apply Z.pow_le_mono_r; lia).
  destruct (b <? 128) eqn:Eb.
  - assert (forall e, b :: s' = e ++ r -> leb_terminated e -> e = [b]) as Huniq.
    { intros e He (p & b' & -> & Hp & Hb'). destruct p as [|c p]; cbn in He.
      - injection He as <- _. reflexivity.
      - injection He as <- _. inversion Hp; subst. lia. }
    assert (leb_value [b] = b) as Hval by (cbn; lia).
    destruct ((i =? 9) && (1 <? b)) eqn:E9.
    + split; [discriminate|]. intros (e & He & Ht & _ & _ & Hlt).
      rewrite (Huniq e He Ht) in Hlt. rewrite Hval in Hlt.
      assert (i = 9) by lia; subst i. change (2 ^ (7 * 9)) with (2 ^ 63) in Hlt.
      change (2 ^ 63) with 9223372036854775808 in Hlt. change (2^64) with 18446744073709551616 in Hlt. lia.
    + split.
      * intros [= <- <-]. exists [b]. rewrite Hval. repeat split; try (cbn; lia).
        { exists [], b. repeat split; [constructor|lia]. }
        { destruct (Z.eq_dec i 9) as [->|Hn9].
          - change (2 ^ (7 * 9)) with 9223372036854775808. change (2^64) with 18446744073709551616. lia.
          - assert (2 ^ (7 * i) <= 2 ^ 56) by (apply Z.pow_le_mono_r; lia).
            change (2 ^ 56) with 72057594037927936 in *. change (2^64) with 18446744073709551616.
            set (P := 2 ^ (7 * i)) in *. assert (b * P <= 127 * P) by (apply Z.mul_le_mono_nonneg_r; lia). lia. }
      * intros (e & He & Ht & _ & -> & _). assert (e = [b]) by (apply Huniq; assumption). subst e. rewrite Hval.
        cbn in He. injection He as ->. reflexivity.
  - rewrite IH by (assumption || lia).
    assert (2 ^ (7 * (i + 1)) = 128 * 2 ^ (7 * i)) as Hp.
    { replace (7 * (i + 1)) with (7 + 7 * i) by lia. rewrite Z.pow_add_r by lia. reflexivity. }
    rewrite Hp. set (P := 2 ^ (7 * i)) in *.
    split.
    + intros (e & -> & (p & b' & -> & Hpre & Hb') & Hlen & -> & Hlt).
      exists (b :: p ++ [b']). repeat split.
      * exists (b :: p), b'. repeat split; [constructor; [lia|assumption]|assumption].
      * cbn [length]. lia.
      * cbn [leb_value]. ring.
      * cbn [leb_value].
        assert (0 <= leb_value (p ++ [b'])) by (apply leb_bound; apply Forall_app in Hs'; apply Hs').
        set (w := leb_value (p ++ [b'])) in *.
        assert (i <= 8).
        { rewrite app_length in Hlen. cbn in Hlen. lia. }
        (* the low bits cannot carry into 2^64 *)
        assert (w * 128 <= 2 ^ (64 - 7 * i) - 128) as Hw.
        { assert (2 ^ (64 - 7 * i) = 128 * 2 ^ (64 - 7 * i - 7)) as E.
          { replace (64 - 7 * i) with (7 + (64 - 7 * i - 7)) at 1 by lia.
            rewrite Z.pow_add_r by lia. reflexivity. }
          assert (w < 2 ^ (64 - 7 * i - 7)); [|lia].
          apply Z.mul_lt_mono_pos_r with (p := 128 * P); [lia|].
          replace (2 ^ (64 - 7 * i - 7) * (128 * P)) with (2 ^ 64); [lia|].
          unfold P. replace (2 ^ (64 - 7 * i - 7) * (128 * 2 ^ (7 * i))) with (2 ^ (64 - 7 * i) * 2 ^ (7 * i)) by (rewrite E; ring).
          rewrite <- Z.pow_add_r by lia. f_equal. lia. }
        assert (2 ^ 64 = 2 ^ (64 - 7 * i) * P) as E64.
        { unfold P. rewrite <- Z.pow_add_r by lia. f_equal. lia. }
        rewrite E64. apply Z.mul_lt_mono_pos_r; [lia|].
        pose proof (Z.mod_pos_bound b 128 ltac:(lia)). lia.
    + intros (e & He & (p & b' & -> & Hpre & Hb') & Hlen & -> & Hlt).
      destruct p as [|c p].
      { cbn in He. injection He as <- <-. lia. }
      cbn in He. injection He as <- ->. cbn [length app] in Hlen.
      exists (p ++ [b']). repeat split.
      * exists p, b'. inversion Hpre; subst. repeat split; assumption.
      * lia.
      * cbn [leb_value app]. ring.
      * cbn [leb_value app] in Hlt.
        pose proof (Z.mod_pos_bound b 128 ltac:(lia)). set (w := leb_value (p ++ [b'])) in *.
        set (m := b mod 128) in *.
        assert (0 <= m * P) by (apply Z.mul_nonneg_nonneg; lia). lia.
Qed.

Lemma rd_uvarint_char s v r : bytes_ok s ->
  rd_uvarint s = ROk v r <->
  exists e, s = e ++ r /\ leb_terminated e /\ (length e <= 10)%nat /\ v = leb_value e /\ v < 2 ^ 64.
Proof.
  intros Hs. unfold rd_uvarint. rewrite rd_go_char by (assumption || lia).
  change (2 ^ (7 * 0)) with 1.
  split; intros (e & H1 & H2 & H3 & H4 & H5); exists e; repeat split; try assumption; lia.
Qed.

Lemma rd_go_nopanic f i x s : rd_uvarint_go f i x s <> RPanic.
Proof.
  revert i x s; induction f; intros i x s; cbn [rd_uvarint_go]; [discriminate|].
  destruct s; [discriminate|]. destr_if; [destr_if; discriminate|apply IHf].
Qed.

Lemma rd_uvarint32_char s v r : bytes_ok s ->
  rd_uvarint32 s = ROk v r <->
  exists e, s = e ++ r /\ leb_terminated e /\ (length e <= 10)%nat /\ v = leb_value e /\ v < 2 ^ 32.
Proof.
  intros Hs. unfold rd_uvarint32.
  destruct (rd_uvarint s) as [u r'|e|] eqn:E; cbn [rbind].
  - assert (H := E). rewrite rd_uvarint_char in H by assumption.
    destruct H as (e & -> & Ht & Hl & -> & Hb).
    destruct (2 ^ 32 <=? leb_value e) eqn:E32.
    + split; [discriminate|]. intros (e' & He & Ht' & Hl' & -> & Hb').
      assert (rd_uvarint (e ++ r') = ROk (leb_value e') r) as E'.
      { apply rd_uvarint_char; [assumption|]. exists e'. repeat split; try assumption.
        change (2^32) with 4294967296 in Hb'. change (2^64) with 18446744073709551616. lia. }
      rewrite E in E'. injection E' as E1 E2. lia.
    + split.
      * intros [= <- <-]. exists e. repeat split; try assumption. lia.
      * intros (e' & He & Ht' & Hl' & -> & Hb').
        assert (rd_uvarint (e ++ r') = ROk (leb_value e') r) as E'.
        { apply rd_uvarint_char; [assumption|]. exists e'. repeat split; try assumption.
          change (2^32) with 4294967296 in Hb'. change (2^64) with 18446744073709551616. lia. }
        rewrite E in E'. injection E' as -> ->. reflexivity.
  - split; [discriminate|]. intros (e' & He & Ht' & Hl' & -> & Hb').
    assert (rd_uvarint s = ROk (leb_value e') r) as E'.
    { apply rd_uvarint_char; [assumption|]. exists e'. repeat split; try assumption.
      change (2^32) with 4294967296 in Hb'. change (2^64) with 18446744073709551616. lia. }
    congruence.
  - now apply rd_go_nopanic in E.
Qed.

Lemma zz_dec_spec u v : 0 <= u -> zz_dec u = v <-> u = zigzag v.
Proof.
  intros Hu. unfold zz_dec, zigzag. pose proof (Zmod_odd u) as Ho. cbv zeta.
  destruct (Z.odd u), (v <? 0) eqn:E; lia.
Qed.

Lemma leb_nonneg e : bytes_ok e -> 0 <= leb_value e.
Proof. intros H. apply leb_bound in H. lia. Qed.

Lemma rd_varint32_char s v r : bytes_ok s ->
  rd_varint32 s = ROk v r <->
  exists e, s = e ++ r /\ leb_terminated e /\ (length e <= 10)%nat /\
            zigzag v = leb_value e /\ int_range 32 v.
Proof.
  intros Hs. unfold rd_varint32.
  assert (forall u, 0 <= u < 2 ^ 32 -> to_signed 32 (zz_dec u) = zz_dec u /\ int_range 32 (zz_dec u)) as Hz.
  { intros u Hu. assert (int_range 32 (zz_dec u)) by (apply zz_dec_range; lia).
    split; [apply to_signed_id; [lia|assumption]|assumption]. }
  destruct (rd_uvarint32 s) as [u r'|e|] eqn:E; cbn [rbind].
  - assert (H := E). rewrite rd_uvarint32_char in H by assumption.
    destruct H as (e & -> & Ht & Hl & -> & Hb).
    assert (0 <= leb_value e) as H0 by (apply leb_nonneg; apply Forall_app in Hs; apply Hs).
    destruct (Hz _ (conj H0 Hb)) as [Hz1 Hz2]. rewrite Hz1.
    split.
    + intros [= <- <-]. exists e. repeat split; try assumption; try apply Hz2.
      symmetry. now apply zz_dec_spec.
    + intros (e' & He & Ht' & Hl' & Hv & Hr).
      assert (rd_uvarint32 (e ++ r') = ROk (leb_value e') r) as E'.
      { apply rd_uvarint32_char; [assumption|]. exists e'. repeat split; try assumption.
        rewrite <- Hv. unfold zigzag, int_range in *. change (2 ^ (32-1)) with 2147483648 in Hr.
        change (2^32) with 4294967296. destr_if; lia. }
      rewrite E in E'. injection E' as E1 ->. f_equal. apply zz_dec_spec; [assumption|]. congruence.
  - split; [discriminate|]. intros (e' & He & Ht' & Hl' & Hv & Hr).
    assert (rd_uvarint32 s = ROk (leb_value e') r) as E'.
    { apply rd_uvarint32_char; [assumption|]. exists e'. repeat split; try assumption.
      rewrite <- Hv. unfold zigzag, int_range in *. change (2 ^ (32-1)) with 2147483648 in Hr.
      change (2^32) with 4294967296. destr_if; lia. }
    congruence.
  - unfold rd_uvarint32 in E. destruct (rd_uvarint s) eqn:E2; cbn [rbind] in E.
    + destr_if; discriminate.
    + discriminate.
    + now apply rd_go_nopanic in E2.
Qed.

Lemma rd_varint64_char s v r : bytes_ok s ->
  rd_varint64 s = ROk v r <->
  exists e, s = e ++ r /\ leb_terminated e /\ (length e <= 10)%nat /\
            zigzag v = leb_value e /\ int_range 64 v.
Proof.
  intros Hs. unfold rd_varint64.
  destruct (rd_uvarint s) as [u r'|e|] eqn:E; cbn [rbind].
  - assert (H := E). rewrite rd_uvarint_char in H by assumption.
    destruct H as (e & -> & Ht & Hl & -> & Hb).
    assert (0 <= leb_value e) as H0 by (apply leb_nonneg; apply Forall_app in Hs; apply Hs).
    assert (int_range 64 (zz_dec (leb_value e))) as Hr by (apply zz_dec_range; lia).
    split.
    + intros [= <- <-]. exists e. repeat split; try assumption; try apply Hr.
      symmetry. now apply zz_dec_spec.
    + intros (e' & He & Ht' & Hl' & Hv & Hr').
      assert (rd_uvarint (e ++ r') = ROk (leb_value e') r) as E'.
      { apply rd_uvarint_char; [assumption|]. exists e'. repeat split; try assumption.
        rewrite <- Hv. unfold zigzag, int_range in *. change (2 ^ (64-1)) with 9223372036854775808 in Hr'.
        change (2^64) with 18446744073709551616. destr_if; lia. }
      rewrite E in E'. injection E' as E1 ->. f_equal. apply zz_dec_spec; [assumption|]. congruence.
  - split; [discriminate|]. intros (e' & He & Ht' & Hl' & Hv & Hr').
    assert (rd_uvarint s = ROk (leb_value e') r) as E'.
    { apply rd_uvarint_char; [assumption|]. exists e'. repeat split; try assumption.
      rewrite <- Hv. unfold zigzag, int_range in *. change (2 ^ (64-1)) with 9223372036854775808 in Hr'.
      change (2^64) with 18446744073709551616. destr_if; lia. }
    congruence.
  - now apply rd_go_nopanic in E.
Qed.

Lemma uint32_size_le5 v : uint32_size v <= 5.
Proof. unfold uint32_size. repeat destr_if; lia. Qed.

Lemma wr_uvarint32_some v : wr_uvarint32 v = Some (put_uvarint 10 v).
Proof. unfold wr_uvarint32. pose proof (uint32_size_le5 v). destr_if; [lia|reflexivity]. Qed.
Lemma wr_varint32_some v : wr_varint32 v = Some (put_uvarint 10 (zz_enc v)).
Proof. unfold wr_varint32, int32_size. match goal with |- context [uint32_size ?x] => pose proof (uint32_size_le5 x) end. destr_if; [lia|reflexivity]. Qed.

Lemma rt_uvarint32 v s : uint_range 32 v ->
  exists l, wr_uvarint32 v = Some l /\ rd_uvarint32 (l ++ s) = ROk v s.
Proof.
  unfold uint_range. intros Hv. exists (put_uvarint 10 v). split; [apply wr_uvarint32_some|].
  unfold rd_uvarint32. rewrite rd_uvarint_put.
  - cbn [rbind]. destruct (2 ^ 32 <=? v) eqn:E; [lia|reflexivity].
  - change (2^32) with 4294967296 in Hv. change (2^64) with 18446744073709551616. lia.
Qed.
Lemma rt_varint32 v s : int_range 32 v ->
  exists l, wr_varint32 v = Some l /\ rd_varint32 (l ++ s) = ROk v s.
Proof.
  intros Hv. exists (put_uvarint 10 (zz_enc v)). split; [apply wr_varint32_some|].
  assert (0 <= zz_enc v < 2 ^ 32) as Hz by (apply zz_enc_range; [lia|assumption]).
  assert (int_range 64 v) as Hv64.
  { unfold int_range in *. change (2 ^ (32 - 1)) with 2147483648 in Hv. change (2 ^ (64-1)) with 9223372036854775808. lia. }
  unfold rd_varint32, rd_uvarint32. rewrite rd_uvarint_put.
  - cbn [rbind]. destruct (2 ^ 32 <=? zz_enc v) eqn:E; [lia|]. cbn [rbind].
    rewrite zz_dec_enc by assumption. rewrite to_signed_id; [reflexivity|lia|assumption].
  - change (2^32) with 4294967296 in Hz. change (2^64) with 18446744073709551616. lia.
Qed.
Lemma rt_varint64 v s : int_range 64 v ->
  exists l, wr_varint64 v = Some l /\ rd_varint64 (l ++ s) = ROk v s.
Proof.
  intros Hv. exists (put_uvarint 10 (zz_enc v)). split; [reflexivity|].
  unfold rd_varint64. rewrite rd_uvarint_put.
  - cbn [rbind]. now rewrite zz_dec_enc.
  - apply zz_enc_range; [lia|assumption].
Qed.

Lemma size_uvarint32 v l : uint_range 32 v -> wr_uvarint32 v = Some l ->
  Z.of_nat (length l) = uint32_size v.
Proof. intros Hv. rewrite wr_uvarint32_some. intros [= <-]. now apply uint32_size_len. Qed.
Lemma size_varint32 v l : int_range 32 v -> wr_varint32 v = Some l ->
  Z.of_nat (length l) = int32_size v.
Proof.
  intros Hv. rewrite wr_varint32_some. intros [= <-]. rewrite int32_size_zz by assumption.
  apply uint32_size_len. apply zz_enc_range; [lia|assumption].
Qed.
(* the exact discrepancy of Int64Size *)
Lemma size_varint64 v l : int_range 64 v -> wr_varint64 v = Some l ->
  int64_size v = Z.of_nat (length l) + (if (2 ^ 49 <=? zigzag v) && (zigzag v <? 2 ^ 56) then 1 else 0).
Proof.
  intros Hv [= <-]. rewrite int64_size_zz by assumption.
  rewrite uint64_size_len by (apply zz_enc_range; [lia|assumption]).
  unfold in_gap. rewrite zz_enc_spec by assumption. reflexivity.
Qed.

(* ---------- byte order ---------- *)
Lemma be_enc_nth n v i : (i < n)%nat -> nth i (be_enc n v) 0 = (v / 256 ^ Z.of_nat (n - 1 - i)) mod 256.
Proof.
  revert v; induction n as [|n IH]; intros v Hi; [lia|].
  cbn [be_enc]. destruct (Nat.eq_dec i n) as [->|Hne].
  - rewrite app_nth2; rewrite be_enc_length; [|lia]. rewrite Nat.sub_diag. cbn [nth].
    replace (S n - 1 - n)%nat with 0%nat by lia. change (256 ^ Z.of_nat 0) with 1. now rewrite Z.div_1_r.
  - rewrite app_nth1 by (rewrite be_enc_length; lia). rewrite IH by lia.
    rewrite Z.div_div by (try lia; apply Z.pow_pos_nonneg; lia).
    f_equal. f_equal. rewrite <- pow256_S. f_equal. lia.
Qed.

Lemma mod_pow_div_mod v n k : (k < n)%nat ->
  ((v mod 256 ^ Z.of_nat n) / 256 ^ Z.of_nat k) mod 256 = (v / 256 ^ Z.of_nat k) mod 256.
Proof.
  intros Hk.
  assert (256 ^ Z.of_nat n = 256 ^ Z.of_nat k * (256 * 256 ^ Z.of_nat (n - k - 1))) as E.
  { rewrite <- pow256_S, <- Z.pow_add_r by lia. f_equal. lia. }
  assert (0 < 256 ^ Z.of_nat k) by (apply Z.pow_pos_nonneg; lia).
  assert (0 < 256 ^ Z.of_nat (n - k - 1)) by (apply Z.pow_pos_nonneg; lia).
  rewrite E, Z.rem_mul_r by lia.
  rewrite (Z.mul_comm (256 ^ Z.of_nat k)), Z.div_add by lia.
  rewrite (Z.div_small (v mod _)) by (apply Z.mod_pos_bound; lia). rewrite Z.add_0_l.
  rewrite Z.rem_mul_r by lia. rewrite Z.mul_comm, Z.mod_add by lia. rewrite Z.mod_mod by lia. reflexivity.
Qed.

Lemma wr_int_be n v : big_endian n v (wr_int n v).
Proof.
  split; [apply wr_int_length|]. intros i Hi. unfold wr_int. rewrite be_enc_nth by assumption.
  unfold to_unsigned. rewrite pow_8n. apply mod_pow_div_mod. lia.
Qed.
Lemma wr_uint_be n v : big_endian n v (wr_uint n v).
Proof. split; [apply be_enc_length|]. intros i Hi. apply be_enc_nth. assumption. Qed.

Lemma rd_int_short n s : (length s < n)%nat -> exists e, rd_int n s = RErr e.
Proof. intros H. unfold rd_int. destruct (rd_exact_short n s H) as [e ->]. now exists e. Qed.
Lemma rd_uint_short n s : (length s < n)%nat -> exists e, rd_uint n s = RErr e.
Proof. intros H. unfold rd_uint. destruct (rd_exact_short n s H) as [e ->]. now exists e. Qed.
Lemma rd_bool_short s : (length s < 1)%nat -> exists e, rd_bool s = RErr e.
Proof. destruct s; cbn; [now eexists|lia]. Qed.
Lemma rd_uuid_short s : (length s < 16)%nat -> exists e, rd_uuid s = RErr e.
Proof.
  intros H. unfold rd_uuid. destruct (Nat.lt_ge_cases (length s) 8) as [H8|H8].
  - destruct (rd_int_short 8 s H8) as [e ->]. now exists e.
  - unfold rd_int at 1. rewrite <- (firstn_skipn 8 s).
    assert (length (firstn 8 s) = 8%nat) as H1 by (rewrite firstn_length; lia).
    rewrite rd_exact_app; [|assumption|destruct (firstn 8 s); discriminate].
    cbn [rbind]. destruct (rd_int_short 8 (skipn 8 s)) as [e ->]; [rewrite skipn_length; lia|]. now exists e.
Qed.

Lemma rd_exact_total n s : (0 < n <= length s)%nat -> exists l r, s = l ++ r /\ rd_exact n s = ROk l r.
Proof.
  intros H. exists (firstn n s), (skipn n s). split; [now rewrite firstn_skipn|].
  rewrite <- (firstn_skipn n s) at 1. apply rd_exact_app.
  - rewrite firstn_length. lia.
  - intros E. apply (f_equal (@length Z)) in E. rewrite firstn_length in E. cbn in E. lia.
Qed.
