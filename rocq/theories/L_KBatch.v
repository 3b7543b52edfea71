(* Lemmas about record batches and the records field *)
From Coq Require Import List ZArith Bool Lia ZifyBool ZifyNat.
From Verif Require Import M_KBase S_KBase L_KBase L_KBase2 M_KFields S_KFields L_KFields L_KLoc M_KRecords S_KRecords L_KIo L_KRecords.
Import ListNotations.
Open Scope Z_scope.
Arguments put_uvarint : simpl never.
Arguments wr_int : simpl never.
Arguments rd_int : simpl never.
Arguments be_enc : simpl never.
Arguments Z.pow : simpl never.
Arguments crc32c : simpl never.


(* the fields derived when writing *)
Definition batch_tail (b : batch) (recs : list Z) : list Z :=
  wr_int 2 (b_attrs b) ++ wr_int 4 (b_lod b) ++ wr_int 8 (b_bts b) ++ wr_int 8 (b_mts b)
  ++ wr_int 8 (b_pid b) ++ wr_int 2 (b_pep b) ++ wr_int 4 (b_seq b) ++ wr_int 4 (zlen (b_recs b)) ++ recs.
Definition batch_norm (b : batch) (recs : list Z) : batch :=
  mkbatch (b_base b) (49 + zlen recs) (b_epoch b) (b_magic b) (crc32c (batch_tail b recs)) (b_attrs b) (b_lod b) (b_bts b)
    (b_mts b) (b_pid b) (b_pep b) (b_seq b) (b_recs b).

(* ---- crc is a 32-bit value ---- *)
Lemma u32_bits x : uint_range 32 x <-> 0 <= x /\ forall i, 32 <= i -> Z.testbit x i = false.
Proof.
  unfold uint_range. split.
  - intros H. split; [lia|]. intros i Hi. destruct (Z.eq_dec x 0) as [->|]; [apply Z.bits_0|].
    apply Z.bits_above_log2; [lia|]. assert (Z.log2 x < 32) by (apply Z.log2_lt_pow2; lia). lia.
  - intros [H0 H]. split; [exact H0|]. destruct (Z_lt_ge_dec x (2 ^ 32)) as [|G]; [assumption|exfalso].
    assert (0 < x) by lia. assert (32 <= Z.log2 x) as Hl by (apply Z.log2_le_pow2; lia).
    pose proof (Z.bit_log2 x H1) as Hb. rewrite (H _ Hl) in Hb. discriminate.
Qed.
Lemma u32_lxor x y : uint_range 32 x -> uint_range 32 y -> uint_range 32 (Z.lxor x y).
Proof.
  intros Hx Hy. apply u32_bits in Hx as [Hx Bx], Hy as [Hy By]. apply u32_bits. split; [apply Z.lxor_nonneg; tauto|].
  intros i Hi. rewrite Z.lxor_spec, Bx, By by lia. reflexivity.
Qed.
Lemma crc_bits_range n : forall c, uint_range 32 c -> uint_range 32 (crc_bits n c).
Proof.
  induction n as [|n IH]; intros c Hc; cbn [crc_bits]; [exact Hc|]. apply IH.
  assert (uint_range 32 (Z.div2 c)) as Hd.
  { unfold uint_range in *. rewrite Z.div2_div. pose proof (Z.div_pos c 2). assert (c / 2 <= c) by (apply Z.div_le_upper_bound; lia). lia. }
  destruct (Z.odd c); [|exact Hd]. apply u32_lxor; [exact Hd|]. unfold uint_range. lia.
Qed.
Lemma crc_range l : bytes_ok l -> uint_range 32 (crc32c l).
Proof.
  intros Hl. unfold crc32c. apply u32_lxor; [|unfold uint_range; lia].
  assert (forall c, uint_range 32 c -> uint_range 32 (fold_left (fun c b => crc_bits 8 (Z.lxor c b)) l c)) as H.
  { induction Hl as [|b l Hb Hl IH]; intros c Hc; [exact Hc|]. cbn [fold_left]. apply IH. apply crc_bits_range, u32_lxor; [exact Hc|].
    unfold uint_range, byte_ok in *. lia. }
  apply H. unfold uint_range. lia.
Qed.

(* ---- all bytes written are bytes ---- *)
Lemma bytes_app a b : bytes_ok a -> bytes_ok b -> bytes_ok (a ++ b).
Proof. intros. apply Forall_app. auto. Qed.
Lemma zz_enc_nonneg v : 0 <= zz_enc v.
Proof. unfold zz_enc. pose proof (Z.mod_pos_bound (2 * to_unsigned 64 v) (2 ^ 64)). destr_if; lia. Qed.
Lemma varint32_bytes v l : wr_varint32 v = Some l -> bytes_ok l.
Proof. rewrite wr_varint32_some. intros E. apply some_inj in E. subst. apply put_uvarint_ok, zz_enc_nonneg. Qed.
Lemma varint64_bytes v l : wr_varint64 v = Some l -> bytes_ok l.
Proof. unfold wr_varint64. intros E. apply some_inj in E. subst. apply put_uvarint_ok, zz_enc_nonneg. Qed.
Lemma nbytes_bytes o l : nb_bytes o -> wr_nbytes o = Some l -> bytes_ok l.
Proof.
  intros Ho E. destruct o as [b|]; cbn [wr_nbytes] in E; [|eapply varint32_bytes; eassumption].
  apply obind_some in E as (h & Eh & E). apply some_inj in E. subst. apply bytes_app; [eapply varint32_bytes; eassumption|exact Ho].
Qed.
Lemma items_bytes {A} (wr : A -> option (list Z)) (P : A -> Prop) : (forall a l, P a -> wr a = Some l -> bytes_ok l) ->
  forall xs l, Forall P xs -> wr_items wr xs = Some l -> bytes_ok l.
Proof.
  intros H. induction xs as [|x xs IH]; intros l HP E; cbn [wr_items] in E.
  - apply some_inj in E. subst. constructor.
  - apply obind_some in E as (a & Ea & E). apply obind_some in E as (b & Eb & E). apply some_inj in E. subst. inversion HP; subst.
    apply bytes_app; eauto.
Qed.
Lemma hdr_wbytes h l : hdr_bytes h -> wr_hdr h = Some l -> bytes_ok l.
Proof.
  intros [Hk Hv] E. apply wr_hdr_inv in E as (a & b & Ea & Eb & ->). repeat apply bytes_app; [eapply varint32_bytes; eassumption|exact Hk|].
  eapply nbytes_bytes; eassumption.
Qed.
Lemma record_wbytes r l : rec_bytes r -> wr_record r = Some l -> bytes_ok l.
Proof.
  intros (Hk & Hv & Hh) E. apply wr_record_inv in E as (a & b & c & d & e & f & g & hs & Ea & Eb & Ec & Ed & Ee & Eh & Ef & Eg & ->).
  unfold hdr_list in Hh. rewrite Eh in Hh.
  repeat apply bytes_app; try (eapply varint32_bytes; eassumption); try (eapply varint64_bytes; eassumption);
    try (eapply nbytes_bytes; [|eassumption]; assumption).
  - rewrite <- wr_int1. apply be_enc_ok.
  - eapply items_bytes; [exact hdr_wbytes|exact Hh|exact Eg].
Qed.
Lemma tail_bytes b recs : bytes_ok recs -> bytes_ok (batch_tail b recs).
Proof. intros H. unfold batch_tail. repeat (apply bytes_app; [apply be_enc_ok|]). exact H. Qed.

(* ---- batches ---- *)
Lemma wr_batch_inv cz b l : batch_ok b -> wr_batch cz b = Some l -> exists recs,
  wr_batch_records cz b = Some recs /\ 49 + zlen recs <= 4294967295 /\
  l = wr_int 8 (b_base b) ++ wr_int 4 (49 + zlen recs) ++ wr_int 4 (b_epoch b) ++ wr_int 1 (b_magic b)
      ++ wr_int 4 (crc32c (batch_tail b recs)) ++ batch_tail b recs.
Proof.
  intros Hok E. unfold wr_batch in E.
  destruct (negb (b_magic b =? 2)) eqn:Em; [discriminate|]. apply obind_some in E as (recs & Er & E). exists recs.
  split; [exact Er|]. cbv zeta in E. destruct (49 + zlen recs >? max_u32) eqn:Eg; [discriminate|]. unfold max_u32 in Eg.
  apply some_inj in E. split; [lia|]. symmetry. exact E.
Qed.
Lemma plain_recs cz b : compression (b_attrs b) = 0 -> wr_batch_records cz b = wr_items wr_record (b_recs b).
Proof.
  intros Hc. unfold wr_batch_records. destruct (b_recs b) eqn:Eb; [reflexivity|]. cbv zeta. rewrite Hc, Z.eqb_refl. reflexivity.
Qed.
Lemma tail_len b recs : zlen (batch_tail b recs) = 40 + zlen recs.
Proof. unfold batch_tail. rewrite !zlen_app. unfold zlen at 1 2 3 4 5 6 7 8. rewrite !wr_int_length. lia. Qed.
Lemma wr_int_zlen n v : zlen (wr_int n v) = Z.of_nat n.
Proof. unfold zlen. now rewrite wr_int_length. Qed.
Lemma batch_len cz b l recs : batch_ok b -> wr_batch cz b = Some l -> wr_batch_records cz b = Some recs -> zlen l = 61 + zlen recs.
Proof.
  intros Hok E Er. apply (wr_batch_inv cz b l Hok) in E as (recs' & E' & _ & ->). assert (recs' = recs) as -> by congruence.
  rewrite !zlen_app, !wr_int_zlen, tail_len. lia.
Qed.
Lemma nth_error_app_at {A} (p : list A) x r : nth_error (p ++ x :: r) (length p) = Some x.
Proof. rewrite nth_error_app2 by lia. now rewrite Nat.sub_diag. Qed.
Lemma rt_batch cz b l recs rest : batch_ok b -> bytes_ok recs -> wr_batch cz b = Some l ->
  wr_batch_records cz b = Some recs -> 49 + zlen recs < 2147483648 ->
  rd_batch_records cz (b_attrs b) (length (b_recs b)) recs = ROk (b_recs b) [] ->
  rd_batch cz (l ++ rest) = ROk (batch_norm b recs) rest.
Proof.
  intros Hok Hbr E Er Hlen Hrd. destruct (wr_batch_inv cz b l Hok E) as (recs' & E' & _ & ->). assert (recs' = recs) as -> by congruence. clear E'.
  destruct Hok as (Hb & He & Hm & Ha & Hl & Ht & Hmt & Hp & Hpe & Hs & Hn & Hct & Hrs).
  pose proof (zlen_nonneg recs). pose proof (zlen_nonneg (b_recs b)).
  unfold rd_batch.
  match goal with |- context [nth_error ?w 16] => assert (nth_error w 16 = Some 2) as -> end.
  { rewrite <- !app_assoc. rewrite wr_int1, Hm. change (to_unsigned 8 2) with 2.
    match goal with |- nth_error (?a ++ ?b ++ ?c ++ [2] ++ ?d) 16 = _ => replace (a ++ b ++ c ++ [2] ++ d) with ((a ++ b ++ c) ++ 2 :: d) by (rewrite <- !app_assoc; reflexivity);
      replace 16%nat with (length (a ++ b ++ c)) by (rewrite !app_length, !wr_int_length; reflexivity) end.
    apply nth_error_app_at. }
  rewrite <- !app_assoc. rewrite (rd_int_wr 8) by (assumption || lia). cbn [rbind].
  rewrite (rd_int_wr 4) by (try lia; apply int_range32; lia). cbn [rbind].
  match goal with |- context [zlen ?x <? _] => assert (zlen x = 49 + zlen recs + zlen rest) as Hx by (rewrite !zlen_app, !wr_int_zlen, tail_len; lia);
     assert (x = (wr_int 4 (b_epoch b) ++ wr_int 1 (b_magic b) ++ wr_int 4 (crc32c (batch_tail b recs)) ++ batch_tail b recs) ++ rest) as Hx2 by (rewrite <- !app_assoc; reflexivity) end.
  pose proof (zlen_nonneg rest). rewrite Hx. destruct (49 + zlen recs + zlen rest <? 49 + zlen recs) eqn:X; [lia|]. clear X.
  rewrite Hx2. clear Hx Hx2. cbv zeta.
  match goal with |- context [firstn ?n (?x ++ rest)] => replace n with (length x) by
    (pose proof (tail_len b recs) as Ht'; unfold zlen in Ht'; rewrite !app_length, !wr_int_length; unfold zlen; lia) end.
  rewrite firstn_app_exact, skipn_app_exact.
  rewrite (rd_int_wr 4) by (assumption || lia). cbn [rbind].
  rewrite (rd_int_wr 1) by (try lia; rewrite Hm; unfold int_range; cbn; lia). cbn [rbind].
  assert (rd_int 4 (wr_int 4 (crc32c (batch_tail b recs)) ++ batch_tail b recs) = ROk (to_signed 32 (crc32c (batch_tail b recs))) (batch_tail b recs)) as ->.
  { assert (wr_int 4 (crc32c (batch_tail b recs)) = wr_int 4 (to_signed 32 (crc32c (batch_tail b recs)))) as ->.
    { unfold wr_int. f_equal. change (8 * Z.of_nat 4) with 32. pose proof (crc_range _ (tail_bytes b recs Hbr)) as Hcr.
      rewrite to_unsigned_signed by (assumption || lia). unfold to_unsigned. symmetry. rewrite Z.mod_small by exact Hcr. reflexivity. }
    apply rd_int_wr; [lia|]. apply (to_signed_range 32). lia. }
  cbn [rbind]. unfold batch_tail at 1.
  rewrite (rd_int_wr 2) by (assumption || lia). cbn [rbind]. rewrite (rd_int_wr 4) by (assumption || lia). cbn [rbind].
  rewrite (rd_int_wr 8) by (assumption || lia). cbn [rbind]. rewrite (rd_int_wr 8) by (assumption || lia). cbn [rbind].
  rewrite (rd_int_wr 8) by (assumption || lia). cbn [rbind]. rewrite (rd_int_wr 2) by (assumption || lia). cbn [rbind].
  rewrite (rd_int_wr 4) by (assumption || lia). cbn [rbind].
  rewrite (rd_int_wr 4) by (try lia; apply int_range32; lia). cbn [rbind].
  destruct (zlen (b_recs b) <? 0) eqn:X; [lia|]. clear X.
  replace (Z.to_nat (zlen (b_recs b))) with (length (b_recs b)) by (unfold zlen; lia). rewrite Hrd. cbn [rbind].
  destruct (is_control (b_attrs b) && (1 <? zlen (b_recs b))) eqn:Ectl.
  { apply andb_prop in Ectl as [E1 E2]. specialize (Hct E1). lia. }
  cbn [app]. unfold batch_norm. rewrite to_unsigned_signed; [reflexivity|lia|]. apply crc_range, tail_bytes, Hbr.
Qed.
Lemma zsum_cons x l : zsum (x :: l) = x + zsum l. Proof. reflexivity. Qed.
Lemma zsum_minus {A} (f g : A -> Z) l : zsum (map (fun x => f x - g x) l) = zsum (map f l) - zsum (map g l).
Proof. induction l as [|x l IH]; [reflexivity|]. rewrite !map_cons, !zsum_cons, IH. lia. Qed.
Lemma recs_size rs recs : Forall rec_ok rs -> wr_items wr_record rs = Some recs ->
  zlen recs = zsum (map sz_record rs) - zsum (map ts_gap rs).
Proof. intros Hf E. rewrite <- zsum_minus. exact (items_sum wr_record (fun r => sz_record r - ts_gap r) rec_ok record_size rs recs Hf E). Qed.
Lemma plain_rd cz b recs : batch_ok b -> compression (b_attrs b) = 0 -> wr_items wr_record (b_recs b) = Some recs ->
  rd_batch_records cz (b_attrs b) (length (b_recs b)) recs = ROk (b_recs b) [].
Proof.
  intros Hok Hc Er. unfold rd_batch_records. cbv zeta. rewrite Hc, Z.eqb_refl. rewrite <- (app_nil_r recs).
  rewrite (rt_items wr_record rd_record (fun r => r) rec_ok) with (xs := b_recs b) (l := recs);
    [now rewrite map_id|intros r Hr lr rr; now apply rt_record|apply Hok|assumption].
Qed.
Lemma compressed_rd cz b recs : batch_ok b -> compression (b_attrs b) = 1 \/ compression (b_attrs b) = 2 -> b_recs b <> [] ->
  lossless cz (compression (b_attrs b)) -> wr_batch_records cz b = Some recs ->
  rd_batch_records cz (b_attrs b) (length (b_recs b)) recs = ROk (b_recs b) [].
Proof.
  intros Hok Ht Hne Hl Er. unfold wr_batch_records in Er. destruct (b_recs b) as [|r0 rs] eqn:Eb; [congruence|]. rewrite <- Eb in *. cbv zeta in Er.
  unfold rd_batch_records. cbv zeta. set (t := compression (b_attrs b)) in *.
  destruct (t =? 0) eqn:X; [lia|]. destruct (t <=? 4) eqn:Y; [|lia]. apply obind_some in Er as (x & Ex & Ey).
  destruct ((t =? 1) || (t =? 2)) eqn:Z; [|lia]. rewrite (Hl x recs Ey). rewrite <- (app_nil_r x).
  rewrite (rt_items wr_record rd_record (fun r => r) rec_ok) with (xs := b_recs b) (l := x);
    [now rewrite map_id|intros r Hr lr rr; now apply rt_record|apply Hok|assumption].
Qed.
Lemma batch_size cz b l : batch_ok b -> compression (b_attrs b) = 0 -> wr_batch cz b = Some l -> zlen l = sz_batch b - zsum (map ts_gap (b_recs b)).
Proof.
  intros Hok Hc E. destruct (wr_batch_inv cz b l Hok E) as (recs & Er & _). rewrite (batch_len cz b l recs Hok E Er).
  assert (Forall rec_ok (b_recs b)) as Hf by apply Hok. rewrite (plain_recs cz b Hc) in Er. rewrite (recs_size _ _ Hf Er). unfold sz_batch. lia.
Qed.

(* ---- sequences of batches ---- *)
Definition batch_canon (b : batch) : batch :=
  match wr_items wr_record (b_recs b) with Some recs => batch_norm b recs | None => b end.
(* admissible for the records field: additionally the encoding is below 2 GB *)
Definition batch_full (b : batch) : Prop :=
  batch_ok b /\ compression (b_attrs b) = 0 /\ Forall rec_bytes (b_recs b) /\ (forall recs, wr_items wr_record (b_recs b) = Some recs -> 49 + zlen recs < 2147483648).
Lemma rt_batch' cz b l rest : batch_full b -> wr_batch cz b = Some l -> rd_batch cz (l ++ rest) = ROk (batch_canon b) rest.
Proof.
  intros (Hok & Hc & Hb & Hl) E. destruct (wr_batch_inv cz b l Hok E) as (recs & Er & _). unfold batch_canon.
  pose proof Er as Er'. rewrite (plain_recs cz b Hc) in Er'. rewrite Er'.
  apply rt_batch; auto; [eapply items_bytes; [exact record_wbytes|exact Hb|exact Er']|now apply plain_rd].
Qed.
Lemma next_size_ok cz b l rest : batch_full b -> wr_batch cz b = Some l -> next_batch_size (l ++ rest) = Some (zlen l).
Proof.
  intros (Hok & Hc & Hb & Hl) E. destruct (wr_batch_inv cz b l Hok E) as (recs & Er & _ & El).
  pose proof Er as Er'. rewrite (plain_recs cz b Hc) in Er'. specialize (Hl _ Er').
  pose proof (batch_len cz b l recs Hok E Er) as Hlen. pose proof (zlen_nonneg recs). pose proof (zlen_nonneg rest).
  unfold next_batch_size. rewrite zlen_app, Hlen. destruct (61 + zlen recs + zlen rest <? 12) eqn:X; [lia|]. clear X. cbv zeta.
  destruct (61 + zlen recs + zlen rest <? 17) eqn:X; [lia|]. clear X.
  assert (to_signed 8 (nth 16 (l ++ rest) 0) = 2) as ->.
  { assert (nth_error (l ++ rest) 16 = Some 2) as Hn.
    { subst l. destruct Hok as (_ & _ & Hm & _). rewrite <- !app_assoc. rewrite wr_int1, Hm. change (to_unsigned 8 2) with 2.
      match goal with |- nth_error (?a ++ ?b ++ ?c ++ [2] ++ ?d) 16 = _ => replace (a ++ b ++ c ++ [2] ++ d) with ((a ++ b ++ c) ++ 2 :: d) by (rewrite <- !app_assoc; reflexivity);
        replace 16%nat with (length (a ++ b ++ c)) by (rewrite !app_length, !wr_int_length; reflexivity) end.
      apply nth_error_app_at. }
    apply nth_error_nth with (d := 0) in Hn. rewrite Hn. reflexivity. }
  cbn [Z.ltb orb Z.compare]. change ((2 <? 0) || (2 <? 2)) with false. cbn [orb].
  assert (firstn 4 (skipn 8 (l ++ rest)) = wr_int 4 (49 + zlen recs)) as ->.
  { subst l. rewrite <- !app_assoc. replace 8%nat with (length (wr_int 8 (b_base b))) at 1 by apply wr_int_length.
    rewrite skipn_app_exact. replace 4%nat with (length (wr_int 4 (49 + zlen recs))) at 1 by apply wr_int_length.
    apply firstn_app_exact. }
  assert (int_range 32 (49 + zlen recs)) as Hr by (apply int_range32; lia).
  pose proof (rd_int_wr 4 (49 + zlen recs) []) as Hrd. specialize (Hrd ltac:(lia) Hr). unfold rd_int in Hrd.
  assert (to_signed 32 (be_dec (wr_int 4 (49 + zlen recs))) = 49 + zlen recs) as ->; [|rewrite Z.ltb_irrefl; f_equal; lia].
  unfold wr_int. change (8 * Z.of_nat 4) with 32. rewrite be_dec_enc.
  - apply to_signed_unsigned; [lia|exact Hr].
  - exact (to_unsigned_range 32 (49 + zlen recs) ltac:(lia)).
Qed.
Lemma wr_items_cons {A} (wr : A -> option (list Z)) x xs : wr_items wr (x :: xs) = obind (wr x) (fun a => obind (wr_items wr xs) (fun b => Some (a ++ b))).
Proof. reflexivity. Qed.
Lemma rt_batches_loop cz bs : forall l f, Forall batch_full bs -> wr_batches cz bs = Some l -> (length bs < f)%nat ->
  rd_batches_loop cz f l = ROk (map batch_canon bs) [].
Proof.
  induction bs as [|b bs IH]; intros l f Hf E Hfuel.
  - unfold wr_batches in E. cbn [wr_items] in E. apply some_inj in E. subst. destruct f; [lia|]. reflexivity.
  - unfold wr_batches in E. rewrite wr_items_cons in E. apply obind_some in E as (a & Ea & E). apply obind_some in E as (c & Ec & E). apply some_inj in E. subst.
    inversion Hf as [|? ? Hb Hbs]; subst. destruct f; [cbn in Hfuel; lia|]. cbn [length] in Hfuel.
    cbn [rd_batches_loop]. rewrite (next_size_ok cz b a c Hb Ea).
    destruct Hb as (Hok & Hrest). destruct (wr_batch_inv cz b a Hok Ea) as (recs & Er & _).
    pose proof (batch_len cz b a recs Hok Ea Er) as Hlen. pose proof (zlen_nonneg recs). pose proof (zlen_nonneg c).
    rewrite zlen_app. destruct ((zlen a =? 0) || (zlen a + zlen c <? zlen a)) eqn:X; [lia|].
    replace (Z.to_nat (zlen a)) with (length a) by (unfold zlen; lia).
    rewrite firstn_app_exact, skipn_app_exact. rewrite <- (app_nil_r a). rewrite (rt_batch' cz b a []) by (split; assumption) || assumption.
    cbn [rbind app]. rewrite (IH c f Hbs Ec) by lia. reflexivity.
Qed.
Lemma batches_len_fuel cz bs : forall l, Forall batch_full bs -> wr_batches cz bs = Some l -> (length bs <= length l)%nat.
Proof.
  induction bs as [|b bs IH]; intros l Hf E; [cbn; lia|].
  unfold wr_batches in E. rewrite wr_items_cons in E. apply obind_some in E as (a & Ea & E). apply obind_some in E as (c & Ec & E). apply some_inj in E. subst.
  inversion Hf as [|? ? Hb Hbs]; subst. destruct Hb as (Hok & _). destruct (wr_batch_inv cz b a Hok Ea) as (recs & Er & _).
  pose proof (batch_len cz b a recs Hok Ea Er) as Hlen. pose proof (zlen_nonneg recs). unfold zlen in *.
  rewrite app_length. cbn [length]. specialize (IH c Hbs Ec). lia.
Qed.
Lemma rt_batches cz bs l : Forall batch_full bs -> wr_batches cz bs = Some l -> rd_batches cz l = ROk (map batch_canon bs) [].
Proof. intros Hf E. unfold rd_batches. apply rt_batches_loop; auto. pose proof (batches_len_fuel cz bs l Hf E). lia. Qed.

(* ---- the records field ---- *)
Lemma rt_records cz c ver d l rest prev : supported c ver = true -> Forall batch_full (bs_items d) ->
  wr_records cz c ver d = Some l -> (bs_nil d = true -> bs_items d = []) -> bs_items prev = [] ->
  (bs_nil d = false -> forall e, wr_batches cz (bs_items d) = Some e -> zlen e < 2147483648) ->
  rd_records cz c ver prev (l ++ rest) = ROk (mkbatches (bs_nil d) (map batch_canon (bs_items d))) rest.
Proof.
  intros Hs Hf E Hnil Hprev Hbig. unfold wr_records in E. unfold rd_records. rewrite Hs in *. cbn [negb] in *.
  destruct (bs_nil d) eqn:En.
  - rewrite (Hnil eq_refl). destruct (nullable c ver) eqn:Enl; [|discriminate].
    rewrite (rt_len (flexible c ver) 4 (-1) l rest) by (try lia; try assumption; apply len32_ok; lia). reflexivity.
  - apply obind_some in E as (e & Ee & E). cbv zeta in E. specialize (Hbig eq_refl e Ee).
    destruct (if flexible c ver then zlen e + 1 >? max_u32 else zlen e >? max_i32) eqn:Eg; [discriminate|].
    apply obind_some in E as (h & Eh & E). apply some_inj in E. subst l. pose proof (zlen_nonneg e). pose proof (zlen_nonneg rest).
    rewrite <- app_assoc, (rt_len (flexible c ver) 4 (zlen e) h) by (try lia; try assumption; apply len32_ok; lia). cbn [rbind].
    destruct (zlen e <? 0) eqn:X; [lia|]. clear X. destruct (zlen e =? 0) eqn:X.
    + rewrite Hprev. assert (bs_items d = []) as ->.
      { destruct (bs_items d) as [|b bs] eqn:Eb; [reflexivity|]. pose proof (batches_len_fuel cz _ e Hf Ee). cbn in H1. unfold zlen in X. lia. }
      rewrite (zlen_nil e) by lia. reflexivity.
    + rewrite zlen_app. destruct (zlen e + zlen rest <? zlen e) eqn:Y; [lia|].
      replace (Z.to_nat (zlen e)) with (length e) by (unfold zlen; lia). rewrite firstn_app_exact, skipn_app_exact.
      rewrite (rt_batches cz _ e Hf Ee). reflexivity.
Qed.
Lemma batches_size cz bs l : Forall (fun b => batch_ok b /\ compression (b_attrs b) = 0) bs -> wr_batches cz bs = Some l ->
  zlen l = sz_batches bs - zsum (map (fun b => zsum (map ts_gap (b_recs b))) bs).
Proof.
  intros Hf E. unfold sz_batches. rewrite <- zsum_minus.
  refine (items_sum (wr_batch cz) (fun b => sz_batch b - zsum (map ts_gap (b_recs b))) _ _ bs l Hf E).
  intros b x [H1 H2]. now apply batch_size.
Qed.
(* positions on the wire *)
Lemma skipn_at {A} (a b : list A) n : length a = n -> skipn n (a ++ b) = b.
Proof. intros <-. apply skipn_app_exact. Qed.
Lemma firstn_at {A} (a b : list A) n : length a = n -> firstn n (a ++ b) = a.
Proof. intros <-. apply firstn_app_exact. Qed.
Lemma be_dec_wr4 v : uint_range 32 v -> be_dec (wr_int 4 v) = v.
Proof.
  intros H. unfold wr_int. change (8 * Z.of_nat 4) with 32. assert (to_unsigned 32 v = v) as -> by (apply tu32; exact H).
  apply be_dec_enc. change (256 ^ Z.of_nat 4) with (2 ^ 32). exact H.
Qed.
Lemma wire_ok cz b l : batch_ok b -> (forall recs, wr_batch_records cz b = Some recs -> bytes_ok recs) ->
  wr_batch cz b = Some l -> batch_wire l.
Proof.
  intros Hok Hby E. destruct (wr_batch_inv cz b l Hok E) as (recs & Er & Hle & ->). specialize (Hby _ Er). pose proof (zlen_nonneg recs).
  unfold batch_wire. split; [|split].
  - rewrite (skipn_at _ _ 8 (wr_int_length 8 _)), (firstn_at _ _ 4 (wr_int_length 4 _)).
    rewrite be_dec_wr4 by (unfold uint_range; change (2 ^ 32) with 4294967296; lia).
    rewrite app_assoc. rewrite skipn_at by (rewrite app_length, !wr_int_length; reflexivity).
    match goal with |- _ = Z.of_nat (length ?x) => change (Z.of_nat (length x)) with (zlen x) end.
    rewrite !zlen_app, !wr_int_zlen, tail_len. lia.
  - destruct Hok as (_ & _ & Hm & _). rewrite wr_int1, Hm. change (to_unsigned 8 2) with 2.
    match goal with |- nth 16 (?a ++ ?b ++ ?c ++ [2] ++ ?d) 0 = _ => replace (a ++ b ++ c ++ [2] ++ d) with ((a ++ b ++ c) ++ 2 :: d) by (rewrite <- !app_assoc; reflexivity);
      replace 16%nat with (length (a ++ b ++ c)) by (rewrite !app_length, !wr_int_length; reflexivity) end.
    rewrite app_nth2, Nat.sub_diag by lia. reflexivity.
  - match goal with |- context [skipn 17 (?a ++ ?b ++ ?c ++ ?d ++ ?e ++ ?f)] =>
      replace (skipn 17 (a ++ b ++ c ++ d ++ e ++ f)) with (e ++ f)
        by (rewrite (app_assoc c), (app_assoc b), (app_assoc a); symmetry; apply skipn_at; rewrite !app_length, !wr_int_length; reflexivity);
      replace (skipn 21 (a ++ b ++ c ++ d ++ e ++ f)) with f
        by (rewrite (app_assoc d), (app_assoc c), (app_assoc b), (app_assoc a); symmetry; apply skipn_at; rewrite !app_length, !wr_int_length; reflexivity) end.
    rewrite (firstn_at _ _ 4 (wr_int_length 4 _)). apply be_dec_wr4. apply crc_range, tail_bytes, Hby.
Qed.
Lemma norm_same b recs : same_batch b (batch_norm b recs).
Proof. repeat split. Qed.
(* a lz4 or zstd batch with records is never decoded *)
Lemma lz4_zstd_unreadable cz attrs n w : compression attrs = 3 \/ compression attrs = 4 -> (0 < n)%nat ->
  rd_batch_records cz attrs n w = RErr false.
Proof.
  intros Ht Hn. unfold rd_batch_records. cbv zeta. destruct Ht as [-> | ->]; cbn [Z.eqb orb Pos.eqb].
  - change (3 <=? 4) with true. cbv iota. destruct (cz_dec cz 3 w) as [[x y]|]; [|reflexivity]. destruct n; [lia|reflexivity].
  - change (4 <=? 4) with true. cbv iota. destruct (cz_dec cz 4 w) as [[x y]|]; [|reflexivity]. destruct n; [lia|reflexivity].
Qed.

(* ---- fuel of rd_batches ---- *)
Definition shr {A} (k : nat) (rd : list Z -> rres A) : Prop := forall s a r, rd s = ROk a r -> (length r + k <= length s)%nat.
Lemma shr_loc {A} (rd : list Z -> rres A) : loc rd -> shr 0 rd.
Proof. intros L s a r E. destruct (L s a r E) as (u & -> & _). rewrite app_length. lia. Qed.
Lemma shr_bind {A B} k m (rd : list Z -> rres A) (f : A -> list Z -> rres B) : shr k rd -> (forall a, shr m (f a)) -> shr (k + m) (fun s => rbind (rd s) f).
Proof. intros H1 H2 s b r E. apply rbind_ok in E as (a & s' & Ea & Eb). apply H1 in Ea. apply H2 in Eb. lia. Qed.
Lemma shr_ret {A} (a : A) : shr 0 (fun s => ROk a s). Proof. intros s b r [= <- <-]. lia. Qed.
Lemma shr_err {A} k e : shr k (fun s => @RErr A e). Proof. intros s b r. discriminate. Qed.
Lemma shr_panic {A} k : shr k (fun s => @RPanic A). Proof. intros s b r. discriminate. Qed.
Lemma shr_weak {A} k (rd : list Z -> rres A) : shr k rd -> shr 0 rd.
Proof. intros H s a r E. apply H in E. lia. Qed.
Lemma shr_items {A} n (rd : list Z -> rres A) : shr 0 rd -> shr 0 (rd_items rd n).
Proof.
  intros H. induction n as [|n IH]; intros s a r E; cbn [rd_items] in E; [injection E as <- <-; lia|].
  apply rbind_ok in E as (x & s' & Ex & E). apply rbind_ok in E as (y & s'' & Ey & E). injection E as <- <-. apply H in Ex. apply IH in Ey. lia.
Qed.
Lemma shr_int n : (0 < n)%nat -> shr n (rd_int n).
Proof.
  intros Hn s a r E. unfold rd_int in E. apply rbind_ok in E as (x & s' & Ex & E). injection E as <- <-. apply rd_exact_inv in Ex as [-> Hl].
  rewrite app_length. lia.
Qed.
Lemma shr_part n : shr 0 (rd_part n).
Proof.
  intros s a r E. unfold rd_part in E. apply rbind_ok in E as (x & s' & Ex & E). injection E as <- <-. unfold rd_bytes in Ex. destruct s; [discriminate|].
  injection Ex as <- <-. rewrite skipn_length. lia.
Qed.
Lemma shr_nbytes : shr 0 rd_nbytes.
Proof.
  apply (shr_bind 0 0 rd_varint32); [apply shr_loc, loc_varint32|]. intros n s a r. destruct (n <? 0); [intros [= <- <-]; lia|].
  destruct (n =? 0); [intros [= <- <-]; lia|]. intros E. apply rbind_ok in E as (x & s' & Ex & E). injection E as <- <-. apply shr_part in Ex. lia.
Qed.
Lemma shr_hdr : shr 0 rd_hdr.
Proof.
  apply (shr_bind 0 0 rd_varint32); [apply shr_loc, loc_varint32|]. intros n.
  apply (shr_bind 0 0 (fun s => if n >? 0 then rd_part (Z.to_nat n) s else ROk (Some []) s)).
  { destruct (n >? 0); [apply shr_part|apply shr_ret]. }
  intros [k|]; [|apply shr_ret]. apply (shr_bind 0 0 rd_nbytes); [apply shr_nbytes|]. intros [v|]; apply shr_ret.
Qed.
Lemma shr_record : shr 0 rd_record.
Proof.
  apply (shr_bind 0 0 rd_varint32); [apply shr_loc, loc_varint32|]. intros n.
  apply (shr_bind 0 0 (rd_int 1)); [apply (shr_weak 1), shr_int; lia|]. intros at_.
  apply (shr_bind 0 0 rd_varint64); [apply shr_loc, loc_varint64|]. intros ts.
  apply (shr_bind 0 0 rd_varint32); [apply shr_loc, loc_varint32|]. intros off.
  apply (shr_bind 0 0 rd_nbytes); [apply shr_nbytes|]. intros [k|]; [|apply shr_ret].
  apply (shr_bind 0 0 rd_nbytes); [apply shr_nbytes|]. intros [v|]; [|apply shr_ret].
  apply (shr_bind 0 0 rd_varint32); [apply shr_loc, loc_varint32|]. intros nh s a r. destruct (nh <? 0); [discriminate|].
  apply (shr_bind 0 0 (rd_items rd_hdr (Z.to_nat nh))); [apply shr_items, shr_hdr|]. intros hs s' a' r'. cbv zeta. destr_if; [intros [= <- <-]; lia|discriminate].
Qed.
(* a decoder never leaves more than it was given *)
Definition cz_shrinks (cz : codec) : Prop := forall t w x y, cz_dec cz t w = Some (x, y) -> (length y <= length w)%nat.
Lemma shr_batch_records cz attrs n : cz_shrinks cz -> shr 0 (rd_batch_records cz attrs n).
Proof.
  intros Hcz s a r. unfold rd_batch_records. cbv zeta. destr_if; [apply shr_items, shr_record|]. destr_if.
  - destruct (cz_dec cz (compression attrs) s) as [[x y]|] eqn:E; [|discriminate]. destruct (rd_items rd_record n x); try discriminate.
    intros [= <- <-]. apply Hcz in E. lia.
  - destr_if; [|discriminate]. destruct (cz_dec cz (compression attrs) s) as [[x y]|] eqn:E; [|discriminate]. destruct n; [|discriminate].
    intros [= <- <-]. apply Hcz in E. lia.
Qed.
Lemma shr_batch cz : cz_shrinks cz -> shr 61 (rd_batch cz).
Proof.
  intros Hcz w b r E. unfold rd_batch in E. destruct (nth_error w 16) as [[|p|p]|]; try discriminate.
  destruct p as [p|[p|p|]|]; try discriminate.
  apply rbind_ok in E as (base & s1 & E1 & E). apply rbind_ok in E as (blen & s2 & E2 & E).
  apply shr_int in E1; [|lia]. apply shr_int in E2; [|lia]. destruct (zlen s2 <? blen) eqn:Eb; [discriminate|]. cbv zeta in E.
  match type of E with match ?m with _ => _ end = _ => destruct m as [b' lft| |] eqn:Em; try discriminate end. injection E as <- <-.
  assert (length lft + 49 <= length (firstn (Z.to_nat blen) s2))%nat as Hl.
  { revert Em. generalize (firstn (Z.to_nat blen) s2). intros inner.
    do 11 (let v := fresh "v" in let s := fresh "s" in let E' := fresh "F" in intros E'; apply rbind_ok in E' as (v & s & ? & E'); revert E').
    intros F. match type of F with (if ?c then _ else _) = _ => destruct c end; [discriminate|]. apply rbind_ok in F as (rs & s' & Hrs & F).
    apply shr_batch_records in Hrs; [|exact Hcz]. revert F. destr_if; [discriminate|]. intros [= <- <-].
    repeat match goal with H : rd_int ?n ?a = ROk _ _ |- _ => apply shr_int in H; [|lia] end. lia. }
  rewrite app_length, skipn_length. rewrite firstn_length in Hl. lia.
Qed.
(* more fuel never changes the result *)
Lemma rd_batches_fuel cz : cz_shrinks cz -> forall f s g, (length s < f)%nat -> (length s < g)%nat ->
  rd_batches_loop cz f s = rd_batches_loop cz g s.
Proof.
  intros Hcz. induction f as [|f IH]; intros s g Hf Hg; [lia|]. destruct g as [|g]; [lia|]. cbn [rd_batches_loop].
  destruct (next_batch_size s) as [size|]; [|reflexivity]. destr_if; [reflexivity|].
  destruct (rd_batch cz (firstn (Z.to_nat size) s)) as [b lft| |] eqn:E; try reflexivity. cbn [rbind].
  apply shr_batch in E; [|exact Hcz]. rewrite firstn_length in E.
  rewrite (IH _ g); [reflexivity| |]; rewrite app_length, skipn_length; lia.
Qed.
Lemma rd_batch_lz4_zstd cz w b r : rd_batch cz w = ROk b r -> compression (b_attrs b) = 3 \/ compression (b_attrs b) = 4 -> b_recs b = [].
Proof.
  intros E Ht. unfold rd_batch in E. destruct (nth_error w 16) as [[|p|p]|]; try discriminate.
  destruct p as [p|[p|p|]|]; try discriminate.
  apply rbind_ok in E as (base & s1 & E1 & E). apply rbind_ok in E as (blen & s2 & E2 & E).
  destruct (zlen s2 <? blen) eqn:Eb; [discriminate|]. cbv zeta in E.
  match type of E with match ?m with _ => _ end = _ => destruct m as [b' lft| |] eqn:Em; try discriminate end. injection E as <- <-.
  revert Em.
  do 11 (let v := fresh "v" in let s := fresh "s" in let E' := fresh "F" in intros E'; apply rbind_ok in E' as (v & s & ? & E'); revert E').
  intros F. match type of F with (if ?c then _ else _) = _ => destruct c end; [discriminate|]. apply rbind_ok in F as (rs & s' & Hrs & F).
  revert F. destr_if; [discriminate|]. intros [= <- <-]. cbn [b_attrs b_recs] in *.
  match type of Hrs with rd_batch_records _ _ ?n _ = _ => destruct n eqn:En end.
  - unfold rd_batch_records in Hrs. cbv zeta in Hrs. destruct Ht as [Ht|Ht]; rewrite Ht in Hrs; cbn [Z.eqb orb Pos.eqb Z.leb Z.compare Pos.compare Pos.compare_cont] in Hrs.
    + destruct (cz_dec cz 3 _) as [[x y]|]; [|discriminate]. now injection Hrs.
    + destruct (cz_dec cz 4 _) as [[x y]|]; [|discriminate]. now injection Hrs.
  - rewrite lz4_zstd_unreadable in Hrs; [discriminate|exact Ht|lia].
Qed.
