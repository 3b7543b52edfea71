(* Specification: which records and batches are admissible, and the wire positions of a batch *)
From Coq Require Import List ZArith Bool.
From Verif Require Import M_KBase S_KBase M_KFields M_KRecords.
Import ListNotations.
Open Scope Z_scope.

(* byte strings, keys and headers below 2 GB; every number in the range of its Go type *)
Definition nb_ok (o : option (list Z)) : Prop := match o with Some l => zlen l < 2147483648 | None => True end.
Definition hdr_ok (h : hdr) : Prop := zlen (h_key h) < 2147483648 /\ nb_ok (h_val h).
Definition rec_ok (r : record) : Prop :=
  int_range 8 (r_attr r) /\ int_range 64 (r_ts r) /\ int_range 32 (r_off r) /\ nb_ok (r_key r) /\ nb_ok (r_val r) /\
  (exists hs, r_hdrs r = Some hs /\ zlen hs < 2147483648 /\ Forall hdr_ok hs) /\ record_length r < 2147483648.
(* gap of Int64Size (C02) *)
Definition ts_gap (r : record) : Z := if (2 ^ 49 <=? zigzag (r_ts r)) && (zigzag (r_ts r) <? 2 ^ 56) then 1 else 0.
(* a batch the codec can carry: fields in the range of their types, at most one record in a control batch *)
Definition batch_ok (b : batch) : Prop :=
  int_range 64 (b_base b) /\ int_range 32 (b_epoch b) /\ b_magic b = 2 /\ int_range 16 (b_attrs b) /\
  int_range 32 (b_lod b) /\ int_range 64 (b_bts b) /\ int_range 64 (b_mts b) /\
  int_range 64 (b_pid b) /\ int_range 16 (b_pep b) /\ int_range 32 (b_seq b) /\ zlen (b_recs b) < 2147483648 /\
  (is_control (b_attrs b) = true -> zlen (b_recs b) <= 1) /\ Forall rec_ok (b_recs b).
Definition nb_bytes (o : option (list Z)) : Prop := match o with Some l => bytes_ok l | None => True end.
Definition hdr_bytes (h : hdr) : Prop := bytes_ok (h_key h) /\ nb_bytes (h_val h).
Definition rec_bytes (r : record) : Prop := nb_bytes (r_key r) /\ nb_bytes (r_val r) /\ Forall hdr_bytes (hdr_list r).

(* a compression library that decodes what it encoded and reads exactly its input *)
Definition lossless (cz : codec) (t : Z) : Prop := forall x y, cz_enc cz t x = Some y -> cz_dec cz t y = Some (x, []).
(* The wire positions of a batch (Kafka message format v2): bytes 8..11 the length of everything after
   them, bytes 17..20 the CRC of everything after them; the written batch is returned with both. *)
Definition batch_wire (l : list Z) : Prop :=
  be_dec (firstn 4 (skipn 8 l)) = Z.of_nat (length (skipn 12 l)) /\ nth 16 l 0 = 2 /\
  be_dec (firstn 4 (skipn 17 l)) = crc32c (skipn 21 l).
(* a decoded batch: everything but the two derived fields is what was encoded *)
Definition same_batch (b b' : batch) : Prop :=
  b_base b' = b_base b /\ b_epoch b' = b_epoch b /\ b_magic b' = b_magic b /\ b_attrs b' = b_attrs b /\
  b_lod b' = b_lod b /\ b_bts b' = b_bts b /\ b_mts b' = b_mts b /\ b_pid b' = b_pid b /\ b_pep b' = b_pep b /\
  b_seq b' = b_seq b /\ b_recs b' = b_recs b.
