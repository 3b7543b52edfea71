(* Lemmas about records, batches, the records field *)
From Coq Require Import List ZArith Bool Lia ZifyBool ZifyNat.
From Verif Require Import M_KBase S_KBase L_KBase L_KBase2 M_KFields S_KFields L_KFields L_KLoc M_KRecords S_KRecords L_KIo.
Import ListNotations.
Open Scope Z_scope.
Arguments put_uvarint : simpl never.
Arguments wr_int : simpl never.
Arguments rd_int : simpl never.
Arguments be_enc : simpl never.
Arguments Z.pow : simpl never.

Lemma int_range32 v : int_range 32 v <-> -2147483648 <= v < 2147483648.
Proof. unfold int_range. change (2 ^ (32 - 1)) with 2147483648. lia. Qed.
Lemma i32len_ok {A} (l : list A) : zlen l < 2147483648 -> i32len l = zlen l /\ int_range 32 (zlen l).
Proof.
  intros H. pose proof (zlen_nonneg l). assert (int_range 32 (zlen l)) as Hr by (apply int_range32; lia).
  split; [|exact Hr]. unfold i32len. apply to_signed_id; [lia|exact Hr].
Qed.

Lemma rt_varint32' v l s : int_range 32 v -> wr_varint32 v = Some l -> rd_varint32 (l ++ s) = ROk v s.
Proof. intros H E. destruct (rt_varint32 v s H) as (l' & E' & H'). congruence. Qed.
Lemma rt_varint64' v l s : int_range 64 v -> wr_varint64 v = Some l -> rd_varint64 (l ++ s) = ROk v s.
Proof. intros H E. destruct (rt_varint64 v s H) as (l' & E' & H'). congruence. Qed.
Lemma wr_varint32_ok v : exists l, wr_varint32 v = Some l.
Proof. rewrite wr_varint32_some. eauto. Qed.

Lemma rd_part_exact n s : rd_part n s = match rd_exact n s with
  | ROk l r => ROk (Some l) r
  | RErr e => match s with [] => RErr true | _ => ROk None (skipn n s) end
  | RPanic => RPanic end.
Proof.
  unfold rd_part, rd_exact, rd_bytes. destruct s as [|b s]; [reflexivity|]. cbn [rbind].
  destruct (length (firstn n (b :: s)) =? n)%nat; reflexivity.
Qed.
Lemma rd_part_app l s : l <> [] -> rd_part (length l) (l ++ s) = ROk (Some l) s.
Proof. intros H. rewrite rd_part_exact, rd_exact_app by auto. reflexivity. Qed.

Lemma rt_nbytes o l s : nb_ok o -> wr_nbytes o = Some l -> rd_nbytes (l ++ s) = ROk (Some o) s.
Proof.
  intros Ho E. unfold wr_nbytes in E. unfold rd_nbytes. destruct o as [b|].
  - apply obind_some in E as (h & Eh & [= <-]). destruct (i32len_ok b Ho) as [E1 E2]. rewrite E1 in Eh.
    rewrite <- app_assoc, (rt_varint32' _ h _ E2 Eh). cbn [rbind]. pose proof (zlen_nonneg b).
    destruct (zlen b <? 0) eqn:Eb; [lia|]. destruct (zlen b =? 0) eqn:Ez.
    + rewrite (zlen_nil b) by lia. reflexivity.
    + replace (Z.to_nat (zlen b)) with (length b) by (unfold zlen; lia).
      rewrite rd_part_app by (intros ->; discriminate). reflexivity.
  - rewrite (rt_varint32' (-1) l s); [reflexivity|apply int_range32; lia|exact E].
Qed.
Lemma sz_nbytes_ok o l : nb_ok o -> wr_nbytes o = Some l -> zlen l = sz_nbytes o.
Proof.
  intros Ho E. destruct o as [b|]; cbn [wr_nbytes sz_nbytes] in *.
  - apply obind_some in E as (h & Eh & [= <-]). destruct (i32len_ok b Ho) as [E1 E2]. rewrite E1 in *.
    rewrite zlen_app. unfold zlen at 1. rewrite (size_varint32 _ _ E2 Eh). reflexivity.
  - unfold zlen. rewrite (size_varint32 (-1) l); [reflexivity|apply int_range32; lia|exact E].
Qed.
Lemma int32_size_pos v : 1 <= int32_size v.
Proof. unfold int32_size, uint32_size. repeat destr_if; lia. Qed.

(* ---- headers ---- *)
Lemma wr_hdr_inv h l : wr_hdr h = Some l -> exists a b, wr_varint32 (i32len (h_key h)) = Some a /\
  wr_nbytes (h_val h) = Some b /\ l = a ++ h_key h ++ b.
Proof. unfold wr_hdr. intros E. apply obind_some in E as (a & Ea & E). apply obind_some in E as (b & Eb & [= <-]). eauto 6. Qed.
Lemma rt_hdr h l s : hdr_ok h -> wr_hdr h = Some l -> rd_hdr (l ++ s) = ROk h s.
Proof.
  intros [Hk Hv] E. apply wr_hdr_inv in E as (a & b & Ea & Eb & ->). destruct (i32len_ok _ Hk) as [E1 E2].
  rewrite E1 in Ea. unfold rd_hdr. rewrite <- !app_assoc, (rt_varint32' _ a _ E2 Ea). cbn [rbind].
  pose proof (zlen_nonneg (h_key h)).
  assert ((if zlen (h_key h) >? 0 then rd_part (Z.to_nat (zlen (h_key h))) (h_key h ++ b ++ s) else ROk (Some []) (h_key h ++ b ++ s))
    = ROk (Some (h_key h)) (b ++ s)) as ->.
  { destruct (zlen (h_key h) >? 0) eqn:Ez.
    - replace (Z.to_nat (zlen (h_key h))) with (length (h_key h)) by (unfold zlen; lia). apply rd_part_app. intros Hn. rewrite Hn in Ez. discriminate.
    - rewrite (zlen_nil (h_key h)) by lia. reflexivity. }
  cbn [rbind]. rewrite (rt_nbytes _ _ _ Hv Eb). cbn [rbind]. now destruct h.
Qed.
Lemma sz_hdr_ok h l : hdr_ok h -> wr_hdr h = Some l -> zlen l = sz_hdr h.
Proof.
  intros [Hk Hv] E. apply wr_hdr_inv in E as (a & b & Ea & Eb & ->). destruct (i32len_ok _ Hk) as [E1 E2].
  unfold sz_hdr. rewrite !zlen_app, (sz_nbytes_ok _ _ Hv Eb), E1 in *. unfold zlen at 1.
  rewrite (size_varint32 _ _ E2 Ea). lia.
Qed.
Lemma items_sum {A} (wr : A -> option (list Z)) (sz : A -> Z) (P : A -> Prop) :
  (forall a l, P a -> wr a = Some l -> zlen l = sz a) ->
  forall xs l, Forall P xs -> wr_items wr xs = Some l -> zlen l = zsum (map sz xs).
Proof.
  intros H. induction xs as [|x xs IH]; intros l HP E; cbn [wr_items] in E.
  - injection E as <-. reflexivity.
  - apply obind_some in E as (a & Ea & E). apply obind_some in E as (b & Eb & [= <-]). inversion HP; subst.
    rewrite zlen_app. cbn [map zsum fold_right]. fold (zsum (map sz xs)). rewrite (H x a), (IH b) by assumption. reflexivity.
Qed.

(* ---- records ---- *)

Lemma zsum_nonneg l : Forall (fun z => 0 <= z) l -> 0 <= zsum l.
Proof. induction 1; cbn; [lia|]. fold (zsum l). lia. Qed.
Lemma sz_nbytes_pos o : 1 <= sz_nbytes o.
Proof. destruct o as [l|]; cbn [sz_nbytes]; [pose proof (zlen_nonneg l); pose proof (int32_size_pos (i32len l)); lia|apply int32_size_pos]. Qed.
Lemma sz_hdr_pos h : 2 <= sz_hdr h.
Proof. unfold sz_hdr. pose proof (zlen_nonneg (h_key h)). pose proof (int32_size_pos (i32len (h_key h))). pose proof (sz_nbytes_pos (h_val h)). lia. Qed.
Lemma int64_size_pos v : 1 <= int64_size v.
Proof. unfold int64_size, uint64_size. repeat destr_if; lia. Qed.
Lemma record_length_pos r : 0 <= record_length r.
Proof.
  unfold record_length. pose proof (int64_size_pos (r_ts r)). pose proof (int32_size_pos (r_off r)).
  pose proof (sz_nbytes_pos (r_key r)). pose proof (sz_nbytes_pos (r_val r)). pose proof (int32_size_pos (i32len (hdr_list r))).
  assert (0 <= zsum (map sz_hdr (hdr_list r))); [|lia]. apply zsum_nonneg. apply Forall_forall. intros x Hx.
  apply in_map_iff in Hx as (h & <- & _). pose proof (sz_hdr_pos h). lia.
Qed.
Lemma rec_len_ok r : rec_ok r -> to_signed 32 (record_length r) = record_length r /\ int_range 32 (record_length r).
Proof.
  intros (_ & _ & _ & _ & _ & _ & H). pose proof (record_length_pos r).
  assert (int_range 32 (record_length r)) as Hr by (apply int_range32; lia). split; [|exact Hr]. apply to_signed_id; [lia|exact Hr].
Qed.

Lemma wr_record_inv r l : wr_record r = Some l -> exists a b c d e f g hs,
  wr_varint32 (to_signed 32 (record_length r)) = Some a /\ wr_varint64 (r_ts r) = Some b /\ wr_varint32 (r_off r) = Some c /\
  wr_nbytes (r_key r) = Some d /\ wr_nbytes (r_val r) = Some e /\ r_hdrs r = Some hs /\ wr_varint32 (i32len hs) = Some f /\
  wr_items wr_hdr hs = Some g /\ l = a ++ [to_unsigned 8 (r_attr r)] ++ b ++ c ++ d ++ e ++ f ++ g.
Proof.
  unfold wr_record. intros E. apply obind_some in E as (a & Ea & E). apply obind_some in E as (b & Eb & E).
  apply obind_some in E as (c & Ec & E). apply obind_some in E as (d & Ed & E). apply obind_some in E as (e & Ee & E).
  destruct (r_hdrs r) as [hs|]; [|discriminate]. apply obind_some in E as (f & Ef & E). apply obind_some in E as (g & Eg & E).
  apply some_inj in E. subst l. exists a, b, c, d, e, f, g, hs. auto 12.
Qed.
Lemma wr_int1 v : wr_int 1 v = [to_unsigned 8 v].
Proof.
  unfold wr_int. change (8 * Z.of_nat 1) with 8. unfold be_enc.
  rewrite Z.mod_small; [reflexivity|]. apply (to_unsigned_range 8 v). lia.
Qed.
Lemma rd_int1 v s : int_range 8 v -> rd_int 1 ([to_unsigned 8 v] ++ s) = ROk v s.
Proof. intros H. rewrite <- wr_int1. apply rd_int_wr; [lia|exact H]. Qed.

Lemma rt_record r l s : rec_ok r -> wr_record r = Some l -> rd_record (l ++ s) = ROk r s.
Proof.
  intros Hok E. destruct (rec_len_ok _ Hok) as [Hl1 Hl2].
  destruct Hok as (Ha & Ht & Ho & Hk & Hv & (hs & Hhs & Hn & Hf) & Hlen).
  apply wr_record_inv in E as (a & b & c & d & e & f & g & hs' & Ea & Eb & Ec & Ed & Ee & Eh & Ef & Eg & ->).
  assert (hs' = hs) as -> by congruence. rewrite Hl1 in Ea. destruct (i32len_ok hs Hn) as [En1 En2]. rewrite En1 in Ef.
  unfold rd_record. rewrite <- !app_assoc, (rt_varint32' _ a _ Hl2 Ea). cbn [rbind].
  rewrite (rd_int1 _ _ Ha). cbn [rbind]. rewrite (rt_varint64' _ b _ Ht Eb). cbn [rbind].
  rewrite (rt_varint32' _ c _ Ho Ec). cbn [rbind]. rewrite (rt_nbytes _ d _ Hk Ed). cbn [rbind].
  rewrite (rt_nbytes _ e _ Hv Ee). cbn [rbind]. rewrite (rt_varint32' _ f _ En2 Ef). cbn [rbind].
  pose proof (zlen_nonneg hs). destruct (zlen hs <? 0) eqn:En; [lia|].
  replace (Z.to_nat (zlen hs)) with (length hs) by (unfold zlen; lia).
  rewrite (rt_items wr_hdr rd_hdr (fun h => h) hdr_ok) with (xs := hs) (l := g); [|intros h Hh lh rh; now apply rt_hdr|assumption|assumption].
  cbn [rbind]. rewrite map_id.
  replace (mkrec (r_attr r) (r_ts r) (r_off r) (r_key r) (r_val r) (Some hs)) with r by (rewrite <- Hhs; now destruct r).
  now rewrite Z.eqb_refl.
Qed.
Lemma wr_record_split r l : rec_ok r -> wr_record r = Some l -> exists pre body,
  l = pre ++ body /\ wr_varint32 (record_length r) = Some pre /\ zlen body = record_length r - ts_gap r.
Proof.
  intros Hok E. destruct (rec_len_ok _ Hok) as [Hl1 Hl2].
  destruct Hok as (Ha & Ht & Ho & Hk & Hv & (hs & Hhs & Hn & Hf) & Hlen).
  apply wr_record_inv in E as (a & b & c & d & e & f & g & hs' & Ea & Eb & Ec & Ed & Ee & Eh & Ef & Eg & ->).
  assert (hs' = hs) as -> by congruence. exists a. eexists. split; [reflexivity|]. split; [congruence|].
  destruct (i32len_ok hs Hn) as [En1 En2].
  rewrite !zlen_app, (sz_nbytes_ok _ _ Hk Ed), (sz_nbytes_ok _ _ Hv Ee).
  rewrite (items_sum wr_hdr sz_hdr hdr_ok sz_hdr_ok hs g Hf Eg).
  unfold record_length, hdr_list. rewrite Hhs. rewrite (size_varint64 _ b Ht Eb), En1 in *.
  pose proof (size_varint32 _ c Ho Ec) as H1. pose proof (size_varint32 _ f En2 Ef) as H2. fold (zlen c) in H1. fold (zlen f) in H2.
  fold (zlen b). unfold ts_gap. rewrite H1, H2. change (zlen [to_unsigned 8 (r_attr r)]) with 1.
  match goal with |- context [if ?x then 1 else 0] => set (gp := if x then 1 else 0) end. lia.
Qed.
Lemma wr_record_total r : rec_ok r -> exists l, wr_record r = Some l.
Proof.
  intros (Ha & Ht & Ho & Hk & Hv & (hs & Hhs & Hn & Hf) & Hlen). unfold wr_record.
  assert (forall o, exists l, wr_nbytes o = Some l) as Hnb.
  { intros [x|]; cbn [wr_nbytes]; rewrite wr_varint32_some; cbn; eauto. }
  rewrite !wr_varint32_some, Hhs. cbn [obind wr_varint64]. unfold wr_varint64. cbn [obind].
  destruct (Hnb (r_key r)) as [d ->], (Hnb (r_val r)) as [e ->]. cbn [obind]. rewrite wr_varint32_some. cbn [obind].
  assert (exists g, wr_items wr_hdr hs = Some g) as [g ->]; [|cbn; eauto].
  clear Hhs Hn Hf. induction hs as [|h hs IH]; [now exists []|]. destruct IH as [g Hg]. cbn [wr_items]. rewrite Hg. unfold wr_hdr at 1. rewrite wr_varint32_some. cbn [obind].
  destruct (Hnb (h_val h)) as [x ->]. cbn. eauto.
Qed.
Lemma record_size r l : rec_ok r -> wr_record r = Some l -> zlen l = sz_record r - ts_gap r.
Proof.
  intros Hok E. destruct (rec_len_ok _ Hok) as [Hl1 Hl2]. destruct (wr_record_split _ _ Hok E) as (p & b & -> & Hp & Hb).
  rewrite zlen_app, Hb. unfold sz_record. rewrite Hl1. pose proof (size_varint32 _ _ Hl2 Hp) as H. fold (zlen p) in H. lia.
Qed.

(* ---- truncated input (C18) ---- *)
Definition hres_ok (h : hdr) (x : rres hdr) : Prop :=
  (exists e, x = RErr e) \/ (x = ROk zero_hdr [] /\ sz_hdr zero_hdr < sz_hdr h).
Lemma app_split {A} (p q a b : list A) : p ++ q = a ++ b ->
  (exists d, a = p ++ d /\ q = d ++ b /\ d <> []) \/ (exists d, p = a ++ d /\ b = d ++ q).
Proof.
  revert a; induction p as [|x p IH]; intros a E; cbn in E.
  - destruct a as [|y a]; [right; exists []; cbn in *; auto|]. left. exists (y :: a). split; [reflexivity|]. split; [exact E|discriminate].
  - destruct a as [|y a]; cbn in E; [right; exists (x :: p); split; [reflexivity|now rewrite <- E]|].
    injection E as -> E. destruct (IH a E) as [(d & -> & -> & Hd)|(d & -> & ->)]; [left|right]; exists d; auto.
Qed.
Lemma varint32_prefix v p q : int_range 32 v -> wr_varint32 v = Some (p ++ q) -> q <> [] -> exists e, rd_varint32 p = RErr e.
Proof.
  intros Hr E Hq. eapply loc_prefix; [apply loc_varint32|apply np_varint32| |exact Hq].
  rewrite <- (app_nil_r (p ++ q)). eapply rt_varint32'; eassumption.
Qed.
Lemma varint64_prefix v p q : int_range 64 v -> wr_varint64 v = Some (p ++ q) -> q <> [] -> exists e, rd_varint64 p = RErr e.
Proof.
  intros Hr E Hq. eapply loc_prefix; [apply loc_varint64|apply np_varint64| |exact Hq].
  rewrite <- (app_nil_r (p ++ q)). eapply rt_varint64'; eassumption.
Qed.
(* a proper prefix of p of the key/value area: end of input, or the "short" outcome with nothing left *)
Lemma rd_part_prefix p q : q <> [] ->
  rd_part (length (p ++ q)) p = RErr true \/ rd_part (length (p ++ q)) p = ROk None [].
Proof.
  intros Hq. unfold rd_part, rd_bytes. destruct p as [|b p]; [now left|]. right. cbn [rbind].
  assert (length (b :: p) < length ((b :: p) ++ q))%nat as Hlt.
  { rewrite app_length. destruct q; [congruence|cbn; lia]. }
  rewrite firstn_all2, skipn_all2 by lia. destruct (Nat.eqb_spec (length (b :: p)) (length ((b :: p) ++ q))); [lia|reflexivity].
Qed.
Lemma nbytes_prefix o p q : nb_ok o -> wr_nbytes o = Some (p ++ q) -> q <> [] ->
  (exists e, rd_nbytes p = RErr e) \/ (rd_nbytes p = ROk None [] /\ sz_nbytes None < sz_nbytes o).
Proof.
  intros Ho E Hq. unfold rd_nbytes. destruct o as [b|]; cbn [wr_nbytes] in E.
  - apply obind_some in E as (h & Eh & E). apply some_inj in E. destruct (i32len_ok b Ho) as [E1 E2]. rewrite E1 in Eh.
    destruct (app_split p q h b (eq_sym E)) as [(d & -> & -> & Hd)|(d & -> & ->)].
    + left. destruct (varint32_prefix _ _ _ E2 Eh Hd) as [e ->]. cbn. eauto.
    + rewrite (rt_varint32' _ h d E2 Eh). cbn [rbind].
      assert (zlen (d ++ q) > 0) by (rewrite zlen_app; destruct q; [congruence|]; unfold zlen; cbn [length]; lia).
      destruct (zlen (d ++ q) <? 0) eqn:X1; [lia|]. destruct (zlen (d ++ q) =? 0) eqn:X2; [lia|].
      replace (Z.to_nat (zlen (d ++ q))) with (length (d ++ q)) by (unfold zlen; lia).
      destruct (rd_part_prefix d q Hq) as [->| ->]; cbn; [eauto|right]. split; [reflexivity|].
      change (int32_size (-1)) with 1. pose proof (int32_size_pos (i32len (d ++ q))). lia.
  - left. destruct (varint32_prefix (-1) p q) as [e ->]; [apply int_range32; lia|exact E|exact Hq|cbn; eauto].
Qed.
Lemma hdr_prefix h p q : hdr_ok h -> wr_hdr h = Some (p ++ q) -> q <> [] -> hres_ok h (rd_hdr p).
Proof.
  intros [Hk Hv] E Hq. apply wr_hdr_inv in E as (a & b & Ea & Eb & E). destruct (i32len_ok _ Hk) as [E1 E2].
  rewrite E1 in Ea. unfold rd_hdr, hres_ok.
  assert (sz_hdr zero_hdr = 2) as -> by reflexivity.
  assert (zlen (h_key h) > 0 \/ sz_nbytes None < sz_nbytes (h_val h) -> 2 < sz_hdr h) as Hsz.
  { unfold sz_hdr. pose proof (int32_size_pos (i32len (h_key h))). pose proof (sz_nbytes_pos (h_val h)). pose proof (zlen_nonneg (h_key h)).
    change (sz_nbytes None) with 1. lia. }
  destruct (app_split p q a _ E) as [(d & -> & -> & Hd)|(d & -> & E')].
  { destruct (varint32_prefix _ _ _ E2 Ea Hd) as [e ->]. cbn. eauto. }
  rewrite (rt_varint32' _ a d E2 Ea). cbn [rbind]. pose proof (zlen_nonneg (h_key h)).
  destruct (app_split d q _ _ (eq_sym E')) as [(d2 & Hkey & -> & Hd2)|(d2 & -> & ->)].
  - assert (zlen (h_key h) > 0).
    { rewrite Hkey, zlen_app. destruct d2; [congruence|]. pose proof (zlen_nonneg d). unfold zlen at 2. cbn [length]. lia. }
    destruct (zlen (h_key h) >? 0) eqn:X; [|lia].
    replace (Z.to_nat (zlen (h_key h))) with (length (d ++ d2)) by (rewrite <- Hkey; unfold zlen; lia).
    destruct (rd_part_prefix d d2 Hd2) as [->| ->]; cbn; [eauto|right]. split; [reflexivity|]. apply Hsz. lia.
  - assert ((if zlen (h_key h) >? 0 then rd_part (Z.to_nat (zlen (h_key h))) (h_key h ++ d2) else ROk (Some []) (h_key h ++ d2))
      = ROk (Some (h_key h)) d2) as ->.
    { destruct (zlen (h_key h) >? 0) eqn:Ez.
      - replace (Z.to_nat (zlen (h_key h))) with (length (h_key h)) by (unfold zlen; lia). apply rd_part_app. intros Hn. rewrite Hn in Ez. discriminate.
      - rewrite (zlen_nil (h_key h)) by lia. reflexivity. }
    cbn [rbind]. destruct (nbytes_prefix _ _ _ Hv Eb Hq) as [[e ->]|[-> Hlt]]; cbn [rbind]; [eauto|right].
    split; [reflexivity|]. apply Hsz. right. exact Hlt.
Qed.
Lemma wr_hdr_nonempty h l : wr_hdr h = Some l -> l <> [].
Proof.
  intros E. apply wr_hdr_inv in E as (a & b & Ea & Eb & ->). rewrite wr_varint32_some in Ea. apply some_inj in Ea. subst a.
  intros X. apply app_eq_nil in X as [X _]. now apply put_uvarint_nonempty in X; [|lia].
Qed.
Lemma hdrs_prefix hs p q : Forall hdr_ok hs -> wr_items wr_hdr hs = Some (p ++ q) -> q <> [] ->
  (exists e, rd_items rd_hdr (length hs) p = RErr e) \/
  (exists hs', rd_items rd_hdr (length hs) p = ROk hs' [] /\ length hs' = length hs /\
     zsum (map sz_hdr hs') < zsum (map sz_hdr hs)).
Proof.
  revert p; induction hs as [|h hs IH]; intros p Hf E Hq; cbn [wr_items] in E.
  - apply some_inj in E. symmetry in E. apply app_eq_nil in E as [_ E]. contradiction.
  - apply obind_some in E as (a & Ea & E). apply obind_some in E as (b & Eb & E). apply some_inj in E. inversion Hf; subst.
    cbn [length rd_items]. destruct (app_split p q a b (eq_sym E)) as [(d & -> & -> & Hd)|(d & -> & ->)].
    + destruct (hdr_prefix h p d H1 Ea Hd) as [[e ->]|[-> Hlt]]; cbn [rbind]; [eauto|].
      destruct hs as [|h2 hs].
      * right. exists [zero_hdr]. cbn. split; [reflexivity|]. split; [reflexivity|]. cbn in Hlt. lia.
      * left. cbn [length rd_items]. cbn. eauto.
    + rewrite (rt_hdr h a d H1 Ea). cbn [rbind]. destruct (IH d H2 Eb Hq) as [[e ->]|(hs' & -> & Hlen & Hs)]; cbn [rbind]; [eauto|right].
      exists (h :: hs'). split; [reflexivity|]. cbn. fold (zsum (map sz_hdr hs')) (zsum (map sz_hdr hs)). lia.
Qed.
Lemma record_prefix r p q : rec_ok r -> wr_record r = Some (p ++ q) -> q <> [] ->
  (exists e, rd_record p = RErr e) \/ rd_record p = ROk zero_rec [].
Proof.
  intros Hok E Hq. destruct (rec_len_ok _ Hok) as [Hl1 Hl2].
  destruct Hok as (Ha & Ht & Ho & Hk & Hv & (hs & Hhs & Hn & Hf) & Hlen).
  apply wr_record_inv in E as (a & b & c & d & e & f & g & hs' & Ea & Eb & Ec & Ed & Ee & Eh & Ef & Eg & E).
  assert (hs' = hs) as -> by congruence. rewrite Hl1 in Ea. destruct (i32len_ok hs Hn) as [En1 En2]. rewrite En1 in Ef.
  unfold rd_record.
  destruct (app_split _ _ _ _ E) as [(x & -> & _ & Hx)|(x & -> & E1)]; clear E.
  { left. destruct (varint32_prefix _ _ _ Hl2 Ea Hx) as [er ->]. cbn. eauto. }
  rewrite (rt_varint32' _ a _ Hl2 Ea). cbn [rbind].
  destruct (app_split _ _ _ _ (eq_sym E1)) as [(y & E2 & _ & Hy)|(y & -> & E2)]; clear E1.
  { left. destruct x as [|x0 x]; [eexists; reflexivity|]. injection E2 as _ E2. destruct y; [congruence|]. now destruct x. }
  rewrite (rd_int1 _ _ Ha). cbn [rbind].
  destruct (app_split _ _ _ _ (eq_sym E2)) as [(z & -> & _ & Hz)|(z & -> & E3)]; clear E2.
  { left. destruct (varint64_prefix _ _ _ Ht Eb Hz) as [er ->]. cbn. eauto. }
  rewrite (rt_varint64' _ b _ Ht Eb). cbn [rbind].
  destruct (app_split _ _ _ _ (eq_sym E3)) as [(w & -> & _ & Hw)|(w & -> & E4)]; clear E3.
  { left. destruct (varint32_prefix _ _ _ Ho Ec Hw) as [er ->]. cbn. eauto. }
  rewrite (rt_varint32' _ c _ Ho Ec). cbn [rbind].
  destruct (app_split _ _ _ _ (eq_sym E4)) as [(k & -> & _ & Hk')|(k & -> & E5)]; clear E4.
  { destruct (nbytes_prefix _ _ _ Hk Ed Hk') as [[er ->]|[-> _]]; cbn; eauto. }
  rewrite (rt_nbytes _ d _ Hk Ed). cbn [rbind].
  destruct (app_split _ _ _ _ (eq_sym E5)) as [(v & -> & _ & Hv')|(v & -> & E6)]; clear E5.
  { destruct (nbytes_prefix _ _ _ Hv Ee Hv') as [[er ->]|[-> _]]; cbn; eauto. }
  rewrite (rt_nbytes _ e _ Hv Ee). cbn [rbind].
  destruct (app_split _ _ _ _ (eq_sym E6)) as [(t & -> & _ & Ht')|(t & -> & E7)]; clear E6.
  { left. destruct (varint32_prefix _ _ _ En2 Ef Ht') as [er ->]. cbn. eauto. }
  rewrite (rt_varint32' _ f _ En2 Ef). cbn [rbind]. pose proof (zlen_nonneg hs). destruct (zlen hs <? 0) eqn:En; [lia|].
  replace (Z.to_nat (zlen hs)) with (length hs) by (unfold zlen; lia).
  rewrite E7 in Eg. destruct (hdrs_prefix hs t q Hf Eg Hq) as [[er ->]|(hs' & -> & Hl & Hs)]; cbn [rbind]; [eauto|]. left.
  match goal with |- context [if ?b then _ else _] => destruct b eqn:Eq end; [exfalso|eauto].
  unfold record_length, hdr_list in Eq. cbn [r_ts r_off r_key r_val r_hdrs] in Eq. rewrite Hhs in Eq.
  assert (i32len hs' = i32len hs) as X by (unfold i32len, zlen; now rewrite Hl). rewrite X in Eq. lia.
Qed.
