(* Property theorems C15-C18, C58, C59: records, batches, the records field *)
From Coq Require Import List ZArith Bool Lia ZifyBool ZifyNat.
From Verif Require Import M_KBase S_KBase L_KBase L_KBase2 M_KFields S_KFields L_KFields L_KLoc M_KRecords S_KRecords L_KRecords L_KBatch.
Import ListNotations.
Open Scope Z_scope.

Definition no_codec := mkcodec (fun _ _ => None) (fun _ _ => None).
Definition rec_ex := mkrec 0 5 (-3) (Some [107]) None (Some [mkhdr [97] (Some [1;2]); mkhdr [] None]).
Lemma rec_ex_ok : rec_ok rec_ex.
Proof.
  repeat split; try (unfold int_range; cbn; lia); try exact I. exists [mkhdr [97] (Some [1;2]); mkhdr [] None]. split; [reflexivity|]. split; [reflexivity|].
  repeat constructor.
Qed.

(* ---- C15 ---- *)
Theorem C15_record_round_trip : forall r l rest, rec_ok r -> wr_record r = Some l ->
  rd_record (l ++ rest) = ROk r rest.
Proof. exact rt_record. Qed.
Print Assumptions C15_record_round_trip.
Theorem C15_record_encodable : forall r, rec_ok r -> exists l, wr_record r = Some l.
Proof. exact wr_record_total. Qed.
Print Assumptions C15_record_encodable.
(* the varint at the start of the encoding is the number of bytes that follow it *)
Theorem C15_length_prefix : forall r l, rec_ok r -> wr_record r = Some l ->
  ~ (2 ^ 49 <= zigzag (r_ts r) < 2 ^ 56) ->
  exists body, rd_varint32 l = ROk (Z.of_nat (length body)) body /\ exists pre, l = pre ++ body.
Proof.
  intros r l Hok E Hg. destruct (rec_len_ok _ Hok) as [_ Hr]. destruct (wr_record_split r l Hok E) as (pre & body & -> & Hp & Hb).
  exists body. split; [|eauto]. rewrite (rt_varint32' _ pre body Hr Hp). f_equal. unfold ts_gap in Hb.
  destruct ((2 ^ 49 <=? zigzag (r_ts r)) && (zigzag (r_ts r) <? 2 ^ 56)) eqn:X; [lia|]. unfold zlen in Hb. lia.
Qed.
Print Assumptions C15_length_prefix.
(* missing: timestamp deltas whose zigzag form lies in [2^49, 2^56).  There the claim is false: the prefix
   is one too large, because Int64Size is (C02) *)
Theorem C15_length_prefix_refuted : exists r l n body, rec_ok r /\ wr_record r = Some l /\
  rd_varint32 l = ROk n body /\ n = Z.of_nat (length body) + 1.
Proof.
  exists (mkrec 0 (2 ^ 49) 0 None None (Some [])). do 3 eexists. split; [|split; [reflexivity|split; reflexivity]].
  repeat split; try (unfold int_range; cbn; lia); try exact I. exists []. repeat constructor.
Qed.
Print Assumptions C15_length_prefix_refuted.
(* ... and a record of another Kafka implementation, whose prefix is right, is rejected *)
Theorem C15_foreign_record_refuted : exists body ts, length body = 15%nat /\ 2 ^ 49 <= zigzag ts < 2 ^ 56 /\
  rd_varint32 ([2 * 15] ++ body) = ROk (Z.of_nat (length body)) body /\
  rd_varint64 (skipn 1 body) = ROk ts (skipn 9 body) /\
  rd_record ([2 * 15] ++ body) = RErr false.
Proof.
  exists ([0] ++ [128;128;128;128;128;128;128;1] ++ [0] ++ [2;65] ++ [2;66] ++ [0]), (2 ^ 48). repeat split; try reflexivity; cbn; lia.
Qed.
Print Assumptions C15_foreign_record_refuted.
Example C15_ex : rec_ok rec_ex /\ wr_record rec_ex = Some [28;0;10;5;2;107;1;4;2;97;4;1;2;0;1] /\
  ~ (2 ^ 49 <= zigzag (r_ts rec_ex) < 2 ^ 56).
Proof. split; [exact rec_ex_ok|]. split; [reflexivity|]. cbn. lia. Qed.

(* ---- C16 ---- *)
Theorem C16_batch_round_trip : forall cz b l rest, batch_ok b -> compression (b_attrs b) = 0 -> Forall rec_bytes (b_recs b) ->
  wr_batch cz b = Some l -> Z.of_nat (length l) < 2 ^ 31 ->
  exists b', rd_batch cz (l ++ rest) = ROk b' rest /\ same_batch b b' /\
    b_len b' = Z.of_nat (length (skipn 12 l)) /\ b_crc b' = crc32c (skipn 21 l).
Proof.
  intros cz b l rest Hok Hc Hb E Hlen. destruct (wr_batch_inv cz b l Hok E) as (recs & Er & _ & El). pose proof (batch_len cz b l recs Hok E Er) as Hl.
  pose proof Er as Er'. rewrite (plain_recs cz b Hc) in Er'. exists (batch_norm b recs). split; [|split; [apply norm_same|]].
  - apply rt_batch; auto; [eapply items_bytes; [exact record_wbytes|exact Hb|exact Er']|change (2 ^ 31) with 2147483648 in Hlen; unfold zlen in *; lia|now apply plain_rd].
  - subst l. split.
    + cbn [b_len batch_norm]. match goal with |- context [skipn 12 (?a ++ ?b ++ ?c)] => replace (skipn 12 (a ++ b ++ c)) with c
        by (rewrite (app_assoc a); symmetry; apply skipn_at; rewrite !app_length, !wr_int_length; reflexivity) end.
      match goal with |- _ = Z.of_nat (length ?x) => change (Z.of_nat (length x)) with (zlen x) end. rewrite !zlen_app, !wr_int_zlen, tail_len. lia.
    + cbn [b_crc batch_norm]. match goal with |- context [skipn 21 (?a ++ ?b ++ ?c ++ ?d ++ ?e ++ ?f)] =>
      replace (skipn 21 (a ++ b ++ c ++ d ++ e ++ f)) with f
        by (rewrite (app_assoc d), (app_assoc c), (app_assoc b), (app_assoc a); symmetry; apply skipn_at; rewrite !app_length, !wr_int_length; reflexivity) end.
      reflexivity.
Qed.
Print Assumptions C16_batch_round_trip.
(* length and CRC fields of the written bytes *)
Theorem C16_batch_wire_fields : forall cz b l, batch_ok b -> compression (b_attrs b) = 0 -> Forall rec_bytes (b_recs b) ->
  wr_batch cz b = Some l -> batch_wire l.
Proof.
  intros cz b l Hok Hc Hb. apply wire_ok; [exact Hok|]. intros recs Er. rewrite (plain_recs cz b Hc) in Er.
  eapply items_bytes; [exact record_wbytes|exact Hb|exact Er].
Qed.
Print Assumptions C16_batch_wire_fields.
(* the reported size is the written size, up to the discrepancy of C02 *)
Theorem C16_batch_size : forall cz b l, batch_ok b -> compression (b_attrs b) = 0 -> wr_batch cz b = Some l ->
  (forall r, In r (b_recs b) -> ~ (2 ^ 49 <= zigzag (r_ts r) < 2 ^ 56)) -> sz_batch b = Z.of_nat (length l).
Proof.
  intros cz b l Hok Hc E Hg. change (Z.of_nat (length l)) with (zlen l). rewrite (batch_size cz b l Hok Hc E).
  assert (zsum (map ts_gap (b_recs b)) = 0) as ->; [|lia]. clear - Hg. induction (b_recs b) as [|r rs IH]; [reflexivity|].
  rewrite map_cons, zsum_cons, IH by (intros x Hx; apply Hg; now right). specialize (Hg r (or_introl eq_refl)). unfold ts_gap.
  destruct ((2 ^ 49 <=? zigzag (r_ts r)) && (zigzag (r_ts r) <? 2 ^ 56)) eqn:X; lia.
Qed.
Print Assumptions C16_batch_size.
(* no batch built through the API alone can be written: the magic byte has no setter and starts as 0 *)
Theorem C16_api_batch_refuted : forall cz b, b_magic b = 0 -> wr_batch cz b = None.
Proof. intros cz b H. unfold wr_batch. now rewrite H. Qed.
Print Assumptions C16_api_batch_refuted.
Definition batch_ex := mkbatch 7 0 (-1) 2 0 0 0 100 200 (-1) (-1) (-1) [rec_ex].
Example C16_ex : batch_ok batch_ex /\ compression (b_attrs batch_ex) = 0 /\ Forall rec_bytes (b_recs batch_ex) /\
  exists l, wr_batch no_codec batch_ex = Some l /\ length l = 76%nat.
Proof.
  split; [|split; [reflexivity|split; [|eexists; split; vm_compute; reflexivity]]].
  - repeat split; try (unfold int_range; cbn; lia). constructor; [exact rec_ex_ok|constructor].
  - repeat constructor; cbn; lia.
Qed.

(* ---- C17 ---- *)
(* canonical content: the field consumes its bytes and returns its batches *)
Theorem C17_records_field : forall cz c ver d l rest, supported c ver = true ->
  Forall (fun b => batch_ok b /\ compression (b_attrs b) = 0 /\ Forall rec_bytes (b_recs b)) (bs_items d) ->
  (bs_nil d = true -> bs_items d = []) ->
  wr_records cz c ver d = Some l -> Z.of_nat (length l) < 2 ^ 31 ->
  exists d', rd_records cz c ver (mkbatches false []) (l ++ rest) = ROk d' rest /\ bs_nil d' = bs_nil d /\
    Forall2 same_batch (bs_items d) (bs_items d').
Proof.
  intros cz c ver d l rest Hs Hf Hnil E Hlen. change (2 ^ 31) with 2147483648 in Hlen.
  assert (forall e, bs_nil d = false -> wr_batches cz (bs_items d) = Some e -> zlen e < 2147483648) as Hbig.
  { intros e Hn Ee. unfold wr_records in E. rewrite Hs in E. cbn [negb] in E. rewrite Hn, Ee in E. cbn [obind] in E. cbv zeta in E.
    destruct (if flexible c ver then zlen e + 1 >? max_u32 else zlen e >? max_i32); [discriminate|]. apply obind_some in E as (h & _ & E). apply some_inj in E. subst l.
    rewrite app_length in Hlen. unfold zlen. lia. }
  assert (Forall batch_full (bs_items d)) as Hfull.
  { destruct (bs_nil d) eqn:En; [rewrite (Hnil eq_refl); constructor|].
    unfold wr_records in E. rewrite Hs in E. cbn [negb] in E. rewrite En in E. apply obind_some in E as (e & Ee & _).
    specialize (Hbig e eq_refl Ee). clear - Hf Ee Hbig. revert e Ee Hbig. unfold wr_batches. induction Hf as [|b bs (Hok & Hc & Hb) Hf IH]; intros e E Hl; [constructor|].
    rewrite wr_items_cons in E. apply obind_some in E as (x & Ex & E). apply obind_some in E as (y & Ey & E). apply some_inj in E. subst e. rewrite zlen_app in Hl.
    pose proof (zlen_nonneg x). pose proof (zlen_nonneg y). constructor; [|eapply IH; [exact Ey|lia]].
    split; [exact Hok|]. split; [exact Hc|]. split; [exact Hb|]. intros recs Er. rewrite <- (plain_recs cz b Hc) in Er. pose proof (batch_len cz b x recs Hok Ex Er). lia. }
  exists (mkbatches (bs_nil d) (map batch_canon (bs_items d))). split; [|split; [reflexivity|]].
  - apply rt_records; auto.
  - cbn [bs_items]. clear. induction (bs_items d) as [|b bs IH]; constructor; [|exact IH]. unfold batch_canon. destruct (wr_items wr_record (b_recs b)); [apply norm_same|repeat split].
Qed.
Print Assumptions C17_records_field.
(* the full claim is false: a declared area that ends in a partial batch of fewer than 17 bytes (which
   brokers send) is left in the input, so the next field starts at the wrong byte *)
Theorem C17_partial_batch_refuted : forall cz, exists c ver area next, supported c ver = true /\
  Z.of_nat (length area) = 5 /\
  rd_records cz c ver (mkbatches false []) ([0;0;0;5] ++ area ++ next) = ROk (mkbatches false []) (area ++ next) /\
  next = [42] /\ rd_int 1 (area ++ next) = ROk 0 ([0;0;0;0;42]) .
Proof. intros cz. exists (mkctx 0 32767 32767 32767 0 32767 (-1) (-1) None false), 3, [0;0;0;0;0], [42]. repeat split. Qed.
Print Assumptions C17_partial_batch_refuted.
Example C17_ex : exists l, wr_records no_codec (mkctx 0 32767 32767 32767 0 32767 (-1) (-1) None false) 3 (mkbatches false [batch_ex; batch_ex]) = Some l /\ length l = 156%nat.
Proof. eexists. split; vm_compute; reflexivity. Qed.

(* ---- C18 ---- *)
(* a record cut anywhere is an error, or (wrongly) accepted as an all-zero record with nothing left *)
Theorem C18_truncated_record : forall r p q, rec_ok r -> wr_record r = Some (p ++ q) -> q <> [] ->
  (exists e, rd_record p = RErr e) \/ rd_record p = ROk zero_rec [].
Proof. exact record_prefix. Qed.
Print Assumptions C18_truncated_record.
Theorem C18_truncated_header : forall h p q, hdr_ok h -> wr_hdr h = Some (p ++ q) -> q <> [] ->
  (exists e, rd_hdr p = RErr e) \/ rd_hdr p = ROk zero_hdr [].
Proof. intros h p q H1 H2 H3. destruct (hdr_prefix h p q H1 H2 H3) as [H|[H _]]; auto. Qed.
Print Assumptions C18_truncated_header.
Theorem C18_truncated_record_refuted : exists r p q, rec_ok r /\ wr_record r = Some (p ++ q) /\ q <> [] /\
  rd_record p = ROk zero_rec [] /\ zero_rec <> r.
Proof.
  exists (mkrec 0 0 0 (Some [65;66;67]) None (Some [])), [18;0;0;0;6;65], [66;67;1;0].
  repeat split; try reflexivity; try discriminate; try (unfold int_range; cbn; lia). exists []. repeat constructor.
Qed.
Print Assumptions C18_truncated_record_refuted.
Example C18_ex : rec_ok rec_ex /\ wr_record rec_ex = Some ([28;0;10] ++ [5;2;107;1;4;2;97;4;1;2;0;1]) /\ rd_record [28;0;10] = RErr true.
Proof. split; [exact rec_ex_ok|]. split; reflexivity. Qed.

(* ---- C58 decoding untrusted bytes never panics: false for records ---- *)
Theorem C58_record_panic_refuted : exists s, bytes_ok s /\ rd_record s = RPanic.
Proof. exists [0;0;0;0;1;1;1]. split; [repeat constructor; cbn; lia|reflexivity]. Qed.
Print Assumptions C58_record_panic_refuted.
Theorem C58_batch_panic_refuted : forall cz, exists s, bytes_ok s /\ length s = 61%nat /\ rd_batch cz s = RPanic.
Proof.
  intros cz. exists (repeat 0 8 ++ [0;0;0;49] ++ repeat 0 4 ++ [2] ++ repeat 0 40 ++ [255;255;255;255]).
  split; [|split; reflexivity]. repeat constructor; cbn; lia.
Qed.
Print Assumptions C58_batch_panic_refuted.

(* ---- C59 compressed batches ---- *)
(* gzip and snappy: round trip, for every library that decodes what it encodes *)
Theorem C59_compressed_batch : forall cz b l rest, batch_ok b ->
  compression (b_attrs b) = 1 \/ compression (b_attrs b) = 2 -> lossless cz (compression (b_attrs b)) ->
  (forall x y, cz_enc cz (compression (b_attrs b)) x = Some y -> bytes_ok y) -> b_recs b <> [] ->
  wr_batch cz b = Some l -> Z.of_nat (length l) < 2 ^ 31 ->
  exists b', rd_batch cz (l ++ rest) = ROk b' rest /\ same_batch b b' /\ batch_wire l.
Proof.
  intros cz b l rest Hok Ht Hl Hby Hne E Hlen. destruct (wr_batch_inv cz b l Hok E) as (recs & Er & _ & El).
  pose proof (batch_len cz b l recs Hok E Er) as Hll.
  assert (forall recs, wr_batch_records cz b = Some recs -> bytes_ok recs) as Hb.
  { intros rs Ers. unfold wr_batch_records in Ers. destruct (b_recs b) as [|r0 rs0] eqn:Eb; [congruence|]. cbv zeta in Ers.
    destruct (compression (b_attrs b) =? 0) eqn:X; [lia|]. destruct (compression (b_attrs b) <=? 4) eqn:Y; [|lia].
    apply obind_some in Ers as (x & _ & Ex). eapply Hby, Ex. }
  exists (batch_norm b recs). split; [|split; [apply norm_same|eapply wire_ok; eauto]].
  apply rt_batch; auto; [change (2 ^ 31) with 2147483648 in Hlen; unfold zlen in *; lia|now apply compressed_rd].
Qed.
Print Assumptions C59_compressed_batch.
(* missing: lz4 and zstd.  Whatever the input and the library, no lz4 or zstd batch with records decodes *)
Theorem C59_lz4_zstd_refuted : forall cz w b r, rd_batch cz w = ROk b r ->
  compression (b_attrs b) = 3 \/ compression (b_attrs b) = 4 -> b_recs b = [].
Proof. exact rd_batch_lz4_zstd. Qed.
Print Assumptions C59_lz4_zstd_refuted.
Example C59_ex : let cz := mkcodec (fun _ x => Some (90 :: x)) (fun _ y => match y with 90 :: x => Some (x, []) | _ => None end) in
  let b := mkbatch 7 0 (-1) 2 0 1 0 100 200 (-1) (-1) (-1) [rec_ex] in
  batch_ok b /\ compression (b_attrs b) = 1 /\ lossless cz 1 /\ exists l, wr_batch cz b = Some l /\ length l = 77%nat.
Proof.
  cbv zeta. split; [|split; [reflexivity|split; [|eexists; split; vm_compute; reflexivity]]].
  - repeat split; try (unfold int_range; cbn; lia). constructor; [exact rec_ex_ok|constructor].
  - intros x y [= <-]. reflexivity.
Qed.
