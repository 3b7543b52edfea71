(* Property theorems C01-C04: primitive wire types *)
From Coq Require Import List ZArith Bool Lia ZifyBool ZifyNat.
From Verif Require Import M_KBase S_KBase L_KBase L_KBase2.
Import ListNotations.
Open Scope Z_scope.

(* C01: a written varint reads back as the same value and the reader stops right behind it *)
Theorem C01_uvarint32_round_trip : forall v s, uint_range 32 v ->
  exists l, wr_uvarint32 v = Some l /\ rd_uvarint32 (l ++ s) = ROk v s.
Proof. exact rt_uvarint32. Qed.
Print Assumptions C01_uvarint32_round_trip.
Theorem C01_varint32_round_trip : forall v s, int_range 32 v ->
  exists l, wr_varint32 v = Some l /\ rd_varint32 (l ++ s) = ROk v s.
Proof. exact rt_varint32. Qed.
Print Assumptions C01_varint32_round_trip.
Theorem C01_varint64_round_trip : forall v s, int_range 64 v ->
  exists l, wr_varint64 v = Some l /\ rd_varint64 (l ++ s) = ROk v s.
Proof. exact rt_varint64. Qed.
Print Assumptions C01_varint64_round_trip.
Example C01_ex : int_range 32 (-2147483648) /\ wr_varint32 (-2147483648) = Some [255;255;255;255;15]
  /\ rd_varint32 ([255;255;255;255;15] ++ [7]) = ROk (-2147483648) [7].
Proof. repeat split; vm_compute; congruence. Qed.

(* C02: the size functions; true for 32 bits *)
Theorem C02_uint32_size_exact : forall v l, uint_range 32 v -> wr_uvarint32 v = Some l ->
  Z.of_nat (length l) = uint32_size v.
Proof. exact size_uvarint32. Qed.
Print Assumptions C02_uint32_size_exact.
Theorem C02_int32_size_exact : forall v l, int_range 32 v -> wr_varint32 v = Some l ->
  Z.of_nat (length l) = int32_size v.
Proof. exact size_varint32. Qed.
Print Assumptions C02_int32_size_exact.
(* for 64 bits the size is exactly one too large precisely for zigzag values in [2^49, 2^56) *)
Theorem C02_int64_size_discrepancy : forall v l, int_range 64 v -> wr_varint64 v = Some l ->
  int64_size v = Z.of_nat (length l)
    + (if (2 ^ 49 <=? zigzag v) && (zigzag v <? 2 ^ 56) then 1 else 0).
Proof. exact size_varint64. Qed.
Print Assumptions C02_int64_size_discrepancy.
(* hence the full claim is false for 64-bit values: 2^48 is written in 8 bytes, reported as 9 *)
Theorem C02_int64_size_refuted : exists v l, int_range 64 v /\ wr_varint64 v = Some l /\
  int64_size v <> Z.of_nat (length l).
Proof.
  exists (2 ^ 48), (put_uvarint 10 (zz_enc (2 ^ 48))). repeat split; vm_compute; congruence.
Qed.
Print Assumptions C02_int64_size_refuted.
Example C02_ex : int64_size (2 ^ 48) = 9 /\ wr_varint64 (2 ^ 48) = Some [128;128;128;128;128;128;128;1].
Proof. split; vm_compute; reflexivity. Qed.

(* C03: exact characterisation of what the readers accept.  In particular the result depends only on
   the consumed bytes e, 1 <= length e <= 10, the value is in range, everything else is an error
   (never a panic). *)
Theorem C03_uvarint32_reader : forall s v r, bytes_ok s ->
  (rd_uvarint32 s = ROk v r <->
   exists e, s = e ++ r /\ leb_terminated e /\ (length e <= 10)%nat /\ v = leb_value e /\ v < 2 ^ 32).
Proof. exact rd_uvarint32_char. Qed.
Print Assumptions C03_uvarint32_reader.
Theorem C03_varint32_reader : forall s v r, bytes_ok s ->
  (rd_varint32 s = ROk v r <->
   exists e, s = e ++ r /\ leb_terminated e /\ (length e <= 10)%nat /\
             zigzag v = leb_value e /\ int_range 32 v).
Proof. exact rd_varint32_char. Qed.
Print Assumptions C03_varint32_reader.
Theorem C03_varint64_reader : forall s v r, bytes_ok s ->
  (rd_varint64 s = ROk v r <->
   exists e, s = e ++ r /\ leb_terminated e /\ (length e <= 10)%nat /\
             zigzag v = leb_value e /\ int_range 64 v).
Proof. exact rd_varint64_char. Qed.
Print Assumptions C03_varint64_reader.
Lemma rd_varint_no_panic s : rd_uvarint32 s <> RPanic /\ rd_varint32 s <> RPanic /\ rd_varint64 s <> RPanic.
Proof.
  unfold rd_varint32, rd_varint64, rd_uvarint32.
  pose proof (rd_go_nopanic 10 0 0 s) as H. fold (rd_uvarint s) in H.
  destruct (rd_uvarint s) as [v r| |]; cbn [rbind]; [destruct (2 ^ 32 <=? v)| |]; cbn [rbind];
    repeat split; congruence.
Qed.
Theorem C03_no_panic : forall s,
  rd_uvarint32 s <> RPanic /\ rd_varint32 s <> RPanic /\ rd_varint64 s <> RPanic.
Proof. exact rd_varint_no_panic. Qed.
Print Assumptions C03_no_panic.
Example C03_ex : bytes_ok [172; 2; 9] /\ rd_uvarint32 [172; 2; 9] = ROk 300 [9]
  /\ rd_uvarint32 [128;128;128;128;16] = RErr false /\ rd_varint64 [128] = RErr false.
Proof. split; [unfold bytes_ok, byte_ok; repeat (constructor; [lia|]); constructor|]. repeat split; vm_compute; reflexivity. Qed.

(* C04: fixed width *)
Theorem C04_int_round_trip : forall n v s, (0 < n)%nat -> int_range (8 * Z.of_nat n) v ->
  big_endian n v (wr_int n v) /\ rd_int n (wr_int n v ++ s) = ROk v s.
Proof. intros n v s Hn Hv. split; [apply wr_int_be|exact (rd_int_wr n v s Hn Hv)]. Qed.
Print Assumptions C04_int_round_trip.
(* uint16, and float64 as its 64-bit pattern *)
Theorem C04_uint_round_trip : forall n v s, (0 < n)%nat -> uint_range (8 * Z.of_nat n) v ->
  big_endian n v (wr_uint n v) /\ rd_uint n (wr_uint n v ++ s) = ROk v s.
Proof. intros n v s Hn Hv. split; [apply wr_uint_be|exact (rd_uint_wr n v s Hn Hv)]. Qed.
Print Assumptions C04_uint_round_trip.
Theorem C04_bool_round_trip : forall b s,
  length (wr_bool b) = 1%nat /\ rd_bool (wr_bool b ++ s) = ROk b s.
Proof. intros b s. split; [now destruct b|exact (rd_bool_wr b s)]. Qed.
Print Assumptions C04_bool_round_trip.
Theorem C04_uuid_round_trip : forall u s, length u = 16%nat -> bytes_ok u ->
  length (wr_uuid u) = 16%nat /\ rd_uuid (wr_uuid u ++ s) = ROk u s.
Proof. intros u s Hl Hu. split; [exact Hl|exact (rd_uuid_wr u s Hl Hu)]. Qed.
Print Assumptions C04_uuid_round_trip.
Theorem C04_short_input_is_error : forall n s, (length s < n)%nat ->
  (exists e, rd_int n s = RErr e) /\ (exists e, rd_uint n s = RErr e).
Proof. intros n s H. split; [exact (rd_int_short n s H)|exact (rd_uint_short n s H)]. Qed.
Print Assumptions C04_short_input_is_error.
Theorem C04_short_bool_uuid_is_error : forall s,
  ((length s < 1)%nat -> exists e, rd_bool s = RErr e) /\
  ((length s < 16)%nat -> exists e, rd_uuid s = RErr e).
Proof. intros s. split; [exact (rd_bool_short s)|exact (rd_uuid_short s)]. Qed.
Print Assumptions C04_short_bool_uuid_is_error.
Example C04_ex : int_range (8 * 4) (-2) /\ wr_int 4 (-2) = [255;255;255;254]
  /\ rd_int 4 [255;255;255;254;1] = ROk (-2) [1] /\ rd_int 4 [1;2;3] = RErr false.
Proof. repeat split; vm_compute; congruence. Qed.
