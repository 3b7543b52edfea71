(* Further theorems for C04, C05 and C16: the boolean reader, Seek and Slice of the slice writer, the attribute bits and the checksum of
   a record batch, each against a definition of its own. *)
From Coq Require Import List ZArith Lia Bool.
From Verif Require Import M_KBase M_KIo M_KRecords.
Import ListNotations.
Open Scope Z_scope.

(* ---- C04 ---- *)
(* A byte is read as false iff it is zero, and exactly it is consumed. *)
Theorem C04_bool_reader : forall b r v r', rd_bool (b :: r) = ROk v r' <-> (v = true <-> b <> 0) /\ r' = r.
Proof.
  intros b r v r'. unfold rd_bool, rd_exact, rbind. cbn. destruct (Z.eqb_spec b 0) as [->|H]; cbn; split.
  - intros E. injection E as <- <-. split; [split; [discriminate|congruence]|reflexivity].
  - intros [H ->]. destruct v; [exfalso; now apply (proj1 H)|reflexivity].
  - intros E. injection E as <- <-. split; [split; [intros _; assumption|reflexivity]|reflexivity].
  - intros [K ->]. destruct v; [reflexivity|]. exfalso. assert (false = true) by now apply K. discriminate.
Qed.
Print Assumptions C04_bool_reader.

(* ---- C05 ---- *)
(* Seek sets the write position (and nothing else) to any place within the capacity, from the start or from the current position. *)
Theorem C05_seek : forall w off whence t, (whence = 0 /\ t = off) \/ (whence = 1 /\ t = Z.of_nat (sw_len w) + off) ->
  (0 <= t <= Z.of_nat (sw_cap w) -> exists w', sw_seek w off whence = (w', WOk t) /\ sw_mem w' = sw_mem w /\ Z.of_nat (sw_len w') = t) /\
  (~ 0 <= t <= Z.of_nat (sw_cap w) -> sw_seek w off whence = (w, WErr)).
Proof.
  intros w off whence t H. unfold sw_seek. assert (G: forall o, o = t -> (0 <= t <= Z.of_nat (sw_cap w) -> exists w', (if (o <? 0) || (Z.of_nat (sw_cap w) <? o) then (w, WErr) else ({| sw_mem := sw_mem w; sw_len := Z.to_nat o |}, WOk o)) = (w', WOk t) /\ sw_mem w' = sw_mem w /\ Z.of_nat (sw_len w') = t) /\
    (~ 0 <= t <= Z.of_nat (sw_cap w) -> (if (o <? 0) || (Z.of_nat (sw_cap w) <? o) then (w, WErr) else ({| sw_mem := sw_mem w; sw_len := Z.to_nat o |}, WOk o)) = (w, WErr))).
  { intros o ->. destruct (Z.ltb_spec t 0); [|destruct (Z.ltb_spec (Z.of_nat (sw_cap w)) t)]; cbn; (split; intros K; [|try reflexivity; exfalso; lia]); try (exfalso; lia). eexists. split; [reflexivity|]. cbn. split; [reflexivity|lia]. }
  destruct H as [[-> ->]|[-> ->]]; cbn [Z.eqb]; apply G; lia.
Qed.
Print Assumptions C05_seek.
Theorem C05_seek_other_whence : forall w off whence, whence <> 0 -> whence <> 1 -> sw_seek w off whence = (w, WErr).
Proof. intros w off whence H0 H1. unfold sw_seek. apply Z.eqb_neq in H0, H1. now rewrite H0, H1. Qed.
Print Assumptions C05_seek_other_whence.
(* Slice gives the bytes of any range within the capacity, also beyond what has been written. *)
Theorem C05_slice : forall w lo hi, 0 <= lo <= hi -> hi <= Z.of_nat (sw_cap w) -> exists l, sw_slice w lo hi = Some (Some l) /\
  (sw_cap w = List.length (sw_mem w) -> Z.of_nat (List.length l) = hi - lo) /\ forall i, 0 <= i < hi - lo -> nth (Z.to_nat i) l 0 = nth (Z.to_nat (lo + i)) (sw_mem w) 0.
Proof.
  intros w lo hi Hl Hh. unfold sw_slice. destruct (Z.ltb_spec lo 0); [lia|]. destruct (Z.ltb_spec (Z.of_nat (sw_cap w)) hi); [lia|]. destruct (Z.ltb_spec hi lo); [lia|]. eexists. split; [reflexivity|]. split.
  - intros E. rewrite firstn_length, skipn_length. lia.
  - intros i Hi. assert (G: forall (a b : nat) (l : list Z), (a < b)%nat -> nth a (firstn b l) 0 = nth a l 0). { clear. induction a as [|a IH]; intros [|b] [|x l] H; cbn; try lia; try reflexivity. apply IH. lia. }
    assert (S: forall (a b : nat) (l : list Z), nth a (skipn b l) 0 = nth (b + a) l 0). { clear. intros a b. induction b as [|b IH]; intros l; [reflexivity|]. destruct l as [|x l]; [cbn; destruct a; reflexivity|]. cbn. apply IH. }
    rewrite G by lia. rewrite S. f_equal. lia.
Qed.
Print Assumptions C05_slice.
Theorem C05_slice_out_of_range : forall w lo hi, lo < 0 \/ Z.of_nat (sw_cap w) < hi -> sw_slice w lo hi = Some None.
Proof. intros w lo hi H. unfold sw_slice. destruct (Z.ltb_spec lo 0); [reflexivity|]. destruct (Z.ltb_spec (Z.of_nat (sw_cap w)) hi); [reflexivity|lia]. Qed.
Print Assumptions C05_slice_out_of_range.

(* ---- C16: attributes ---- *)
(* Kafka: bits 0-2 are the compression codec, bit 5 marks a control batch. *)
Theorem C16_attribute_bits : forall attrs, compression attrs = attrs mod 8 /\ is_control attrs = Z.testbit attrs 5.
Proof.
  intros attrs. split.
  - unfold compression. change 7 with (Z.ones 3). rewrite Z.land_ones by lia. reflexivity.
  - unfold is_control. change 32 with (2 ^ 5). destruct (Z.testbit attrs 5) eqn:E.
    + apply negb_true_iff. apply Z.eqb_neq. intros K. assert (B: Z.testbit (Z.land attrs (2 ^ 5)) 5 = false) by (rewrite K; apply Z.bits_0). rewrite Z.land_spec, E, Z.pow2_bits_true in B by lia. discriminate.
    + apply negb_false_iff. apply Z.eqb_eq. apply Z.bits_inj'. intros n Hn. rewrite Z.land_spec, Z.bits_0. destruct (Z.eq_dec n 5) as [->|H]; [rewrite E; reflexivity|]. rewrite Z.pow2_bits_false by congruence. apply andb_false_r.
Qed.
Print Assumptions C16_attribute_bits.

(* ---- C16: the checksum is CRC-32C ---- *)
(* polynomials over GF(2) are lists of coefficients, highest degree first *)
Fixpoint xorl (m p : list bool) : list bool := match m, p with b :: m', c :: p' => xorb b c :: xorl m' p' | _, _ => m end.
(* 0x1EDC6F41, the Castagnoli polynomial without its leading x^32 *)
Definition castagnoli : list bool := map (fun i => Z.testbit 0x1EDC6F41 (Z.of_nat (31 - i))) (seq 0 32).
(* n steps of long division by x^32 + castagnoli *)
Fixpoint divide (n : nat) (m : list bool) : list bool := match n with O => m | S k => match m with [] => [] | b :: r => divide k (if b then xorl r castagnoli else r) end end.
(* the bits of a message, each byte from its lowest bit *)
Definition byte_bits (b : Z) : list bool := map (fun i => Z.testbit b (Z.of_nat i)) (seq 0 8).
Definition ones : list bool := repeat true 32.
(* CRC-32C: divide message times x^32, its first 32 coefficients inverted; the remainder is inverted *)
Definition crc_poly (l : list Z) : list bool := map negb (divide (8 * List.length l) (xorl (flat_map byte_bits l ++ repeat false 32) ones)).

Definition bits32 (c : Z) : list bool := map (fun i => Z.testbit c (Z.of_nat i)) (seq 0 32).
Lemma xorl_len : forall m p, List.length (xorl m p) = List.length m.
Proof. induction m as [|b m IH]; intros [|c p]; cbn; auto. Qed.
Lemma xorl_xorl : forall m a b, List.length a = List.length b -> xorl (xorl m a) b = xorl m (xorl a b).
Proof. induction m as [|x m IH]; intros [|y a] [|z b] H; cbn in *; try reflexivity; try discriminate. rewrite xorb_assoc. f_equal. apply IH. congruence. Qed.
Lemma xorl_pad : forall m a k, xorl m (a ++ repeat false k) = xorl m a.
Proof.
  induction m as [|x m IH]; intros [|y a] k; cbn; try reflexivity; [|now rewrite IH]. destruct k as [|k]; cbn; [reflexivity|]. rewrite xorb_false_r. f_equal. specialize (IH [] k). cbn in IH. rewrite IH. now destruct m.
Qed.
Lemma divide_add : forall a b m, (a <= List.length m)%nat -> divide (a + b) m = divide b (divide a m).
Proof. induction a as [|a IH]; intros b m H; [reflexivity|]. destruct m as [|x m]; cbn in *; [lia|]. apply IH. destruct x; [rewrite xorl_len|]; lia. Qed.
(* one step of the register *)
Definition rstep (c : list bool) : list bool := match c with [] => [] | b :: r => if b then xorl (r ++ [false]) castagnoli else r ++ [false] end.
Lemma rstep_len : forall c, List.length (rstep c) = List.length c.
Proof. intros [|[|] c]; cbn; rewrite ?xorl_len, ?app_length; cbn; lia. Qed.
Lemma iter_r {X} : forall (f : X -> X) k x, Nat.iter k f (f x) = Nat.iter (S k) f x.
Proof. intros f. induction k as [|k IH]; intros x; [reflexivity|]. change (f (Nat.iter k f (f x)) = f (Nat.iter (S k) f x)). now rewrite IH. Qed.
Lemma divide_zero : forall k c rest, List.length c = 32%nat -> (32 <= List.length rest)%nat -> divide k (xorl (repeat false k ++ rest) c) = xorl rest (Nat.iter k rstep c).
Proof.
  induction k as [|k IH]; intros c rest Hc Hr; [reflexivity|]. destruct c as [|b c]; [discriminate|]. cbn [repeat app xorl divide]. rewrite xorb_false_l.
  assert (E: (if b then xorl (xorl (repeat false k ++ rest) c) castagnoli else xorl (repeat false k ++ rest) c) = xorl (repeat false k ++ rest) (rstep (b :: c))).
  { cbn [rstep]. assert (P: xorl (repeat false k ++ rest) c = xorl (repeat false k ++ rest) (c ++ [false])) by (symmetry; apply (xorl_pad _ c 1)). destruct b; rewrite P; [|reflexivity]. rewrite xorl_xorl; [reflexivity|]. rewrite app_length. replace (List.length castagnoli) with 32%nat by reflexivity. cbn in *. lia. }
  rewrite E, IH by (rewrite ?rstep_len; assumption). f_equal. apply iter_r.
Qed.
Lemma xorl_shift : forall a rest c, (List.length a <= List.length c)%nat -> xorl (a ++ rest) c = xorl (repeat false (List.length a) ++ rest) (xorl c a).
Proof.
  induction a as [|x a IH]; intros rest c H; cbn.
  - now destruct c.
  - destruct c as [|y c]; cbn in *; [lia|]. rewrite (xorb_comm x y). destruct (xorb y x); cbn; f_equal; apply IH; lia.
Qed.
(* the register as a number *)
Definition small (c : Z) : Prop := 0 <= c < 2 ^ 32.
Lemma small_bits : forall c, 0 <= c -> (forall i, 32 <= i -> Z.testbit c i = false) -> small c.
Proof.
  intros c H0 H. split; [assumption|]. destruct (Z.eq_dec c 0) as [->|Hn]; [lia|]. apply Z.log2_lt_pow2; [lia|]. destruct (Z.lt_ge_cases (Z.log2 c) 32) as [L|L]; [assumption|]. specialize (H _ L). rewrite Z.bit_log2 in H by lia. discriminate.
Qed.
Lemma bits_small : forall c i, small c -> 32 <= i -> Z.testbit c i = false.
Proof.
  intros c i [H0 H1] Hi. destruct (Z.eq_dec c 0) as [->|Hn]; [apply Z.bits_0|]. apply Z.bits_above_log2; [assumption|]. apply Z.log2_lt_pow2 in H1; lia.
Qed.
Lemma small_lxor : forall a b, small a -> small b -> small (Z.lxor a b).
Proof. intros a b Ha Hb. apply small_bits; [apply Z.lxor_nonneg; split; intros _; [apply Hb|apply Ha]|]. intros i Hi. rewrite Z.lxor_spec, !bits_small by assumption. reflexivity. Qed.
Lemma small_div2 : forall a, small a -> small (Z.div2 a).
Proof. intros a Ha. apply small_bits; [apply Z.div2_nonneg; apply Ha|]. intros i Hi. rewrite Z.div2_spec, Z.shiftr_spec by lia. apply bits_small; [assumption|lia]. Qed.
Lemma xorl_map : forall (f g : nat -> bool) n s, xorl (map f (seq s n)) (map g (seq s n)) = map (fun i => xorb (f i) (g i)) (seq s n).
Proof. intros f g. induction n as [|n IH]; intros s; cbn; [reflexivity|]. now rewrite IH. Qed.
Lemma bits_lxor : forall a b, bits32 (Z.lxor a b) = xorl (bits32 a) (bits32 b).
Proof. intros a b. unfold bits32. rewrite xorl_map. apply map_ext. intros i. apply Z.lxor_spec. Qed.
Lemma bits_div2 : forall c, small c -> bits32 (Z.div2 c) = (tl (bits32 c) ++ [false])%list.
Proof.
  intros c Hc. unfold bits32. assert (E: forall i, Z.testbit (Z.div2 c) (Z.of_nat i) = Z.testbit c (Z.of_nat (S i))) by (intros i; rewrite Z.div2_spec, Z.shiftr_spec by lia; f_equal; lia).
  rewrite (map_ext _ _ E). replace (map (fun i => Z.testbit c (Z.of_nat (S i))) (seq 0 32)) with (map (fun i => Z.testbit c (Z.of_nat i)) (seq 1 32)) by (rewrite <- seq_shift, map_map; reflexivity).
  change (seq 1 32) with (seq 1 31 ++ [32%nat])%list. rewrite map_app. change (map (fun i => Z.testbit c (Z.of_nat i)) [32%nat]) with [Z.testbit c 32]. rewrite (bits_small c 32) by (assumption || lia). reflexivity.
Qed.
Lemma poly_bits : bits32 0x82F63B78 = castagnoli.
Proof. vm_compute. reflexivity. Qed.
Lemma bit_step : forall c, small c -> small (if Z.odd c then Z.lxor (Z.div2 c) 0x82F63B78 else Z.div2 c) /\ bits32 (if Z.odd c then Z.lxor (Z.div2 c) 0x82F63B78 else Z.div2 c) = rstep (bits32 c).
Proof.
  intros c Hc. assert (Hp: small 0x82F63B78) by (unfold small; lia). assert (Hh: bits32 c = Z.odd c :: tl (bits32 c)) by (unfold bits32; cbn [seq map]; now rewrite Z.bit0_odd). rewrite Hh. cbn [rstep tl]. rewrite <- (bits_div2 c Hc).
  destruct (Z.odd c); [|split; [now apply small_div2|reflexivity]]. split; [apply small_lxor; [now apply small_div2|assumption]|]. rewrite bits_lxor, poly_bits. reflexivity.
Qed.
Lemma bits_steps : forall n c, small c -> small (crc_bits n c) /\ bits32 (crc_bits n c) = Nat.iter n rstep (bits32 c).
Proof.
  induction n as [|n IH]; intros c Hc; [split; [assumption|reflexivity]|]. cbn [crc_bits]. destruct (bit_step c Hc) as [S1 E1]. destruct (IH _ S1) as [S2 E2]. split; [assumption|]. rewrite E2, E1. apply iter_r.
Qed.
Definition is_byte (b : Z) : Prop := 0 <= b < 256.
Lemma byte_small : forall b, is_byte b -> small b.
Proof. intros b [H0 H1]. unfold small. lia. Qed.
Lemma byte_high : forall b i, is_byte b -> 8 <= i -> Z.testbit b i = false.
Proof. intros b i [H0 H1] Hi. destruct (Z.eq_dec b 0) as [->|Hn]; [apply Z.bits_0|]. apply Z.bits_above_log2; [assumption|]. assert (Z.log2 b < 8) by (apply Z.log2_lt_pow2; lia). lia. Qed.
Lemma byte_bits32 : forall b, is_byte b -> bits32 b = (byte_bits b ++ repeat false 24)%list.
Proof.
  intros b Hb. unfold bits32, byte_bits. change (seq 0 32) with (seq 0 8 ++ seq 8 24)%list. rewrite map_app. f_equal. change (repeat false 24) with (map (fun _ : nat => false) (seq 8 24)). apply map_ext_in. intros i Hi. apply in_seq in Hi. apply byte_high; [assumption|lia].
Qed.
Lemma byte_step : forall b c rest, is_byte b -> small c -> (32 <= List.length rest)%nat -> small (crc_bits 8 (Z.lxor c b)) /\ divide 8 (xorl (byte_bits b ++ rest) (bits32 c)) = xorl rest (bits32 (crc_bits 8 (Z.lxor c b))).
Proof.
  intros b c rest Hb Hc Hr. assert (Hx: small (Z.lxor c b)) by (apply small_lxor; [assumption|now apply byte_small]). destruct (bits_steps 8 _ Hx) as [S E]. split; [assumption|]. rewrite E, bits_lxor, (byte_bits32 b Hb), xorl_pad.
  rewrite xorl_shift by (unfold byte_bits, bits32; rewrite !map_length, !seq_length; lia). replace (List.length (byte_bits b)) with 8%nat by (unfold byte_bits; now rewrite map_length, seq_length). apply divide_zero; [|assumption]. rewrite xorl_len. unfold bits32. now rewrite map_length, seq_length.
Qed.
Lemma message_steps : forall l c, Forall is_byte l -> small c -> small (fold_left (fun c b => crc_bits 8 (Z.lxor c b)) l c) /\
  divide (8 * List.length l) (xorl (flat_map byte_bits l ++ repeat false 32) (bits32 c)) = bits32 (fold_left (fun c b => crc_bits 8 (Z.lxor c b)) l c).
Proof.
  induction l as [|b l IH]; intros c Hl Hc.
  - split; [assumption|]. cbn [flat_map app List.length Nat.mul divide fold_left]. unfold bits32. change (repeat false 32) with (map (fun _ : nat => false) (seq 0 32)). rewrite xorl_map. apply map_ext. intros i. apply xorb_false_l.
  - apply Forall_cons_iff in Hl. destruct Hl as [Hb Hl]. cbn [flat_map fold_left List.length]. rewrite <- app_assoc. assert (Hr: (32 <= List.length (flat_map byte_bits l ++ repeat false 32))%nat) by (rewrite app_length, repeat_length; lia).
    destruct (byte_step b c _ Hb Hc Hr) as [S1 E]. destruct (IH _ Hl S1) as [S2 E2]. split; [assumption|]. replace (8 * S (List.length l))%nat with (8 + 8 * List.length l)%nat by lia. rewrite divide_add; [now rewrite E|]. rewrite xorl_len, app_length. unfold byte_bits at 1. rewrite map_length, seq_length. lia.
Qed.
(* The checksum of a batch is the CRC-32C of its bytes: remainder of a division by the Castagnoli polynomial, lowest bit first. *)
Theorem C16_checksum_is_crc32c : forall l, Forall (fun b => 0 <= b < 256) l -> 0 <= crc32c l < 2 ^ 32 /\ map (fun i => Z.testbit (crc32c l) (Z.of_nat i)) (seq 0 32) = crc_poly l.
Proof.
  intros l Hl. destruct (message_steps l 0xFFFFFFFF Hl) as [S E]; [unfold small; lia|]. unfold crc32c, crc_poly. replace ones with (bits32 0xFFFFFFFF) by (vm_compute; reflexivity). rewrite E. split; [apply small_lxor; [assumption|unfold small; lia]|]. fold (bits32 (Z.lxor (fold_left (fun c b => crc_bits 8 (Z.lxor c b)) l 4294967295) 4294967295)). rewrite bits_lxor. replace (bits32 4294967295) with (map (fun _ : nat => true) (seq 0 32)) by (vm_compute; reflexivity). unfold bits32. rewrite xorl_map, map_map. apply map_ext. intros i. apply xorb_true_r.
Qed.
Print Assumptions C16_checksum_is_crc32c.
(* the check value of CRC-32C *)
Example C16_crc_check : crc32c [49; 50; 51; 52; 53; 54; 55; 56; 57] = 0xE3069283.
Proof. vm_compute. reflexivity. Qed.
