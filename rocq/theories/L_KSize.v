(* Sizes of messages *)
From Coq Require Import List ZArith Bool Lia ZifyBool ZifyNat Sorting.Permutation.
From Verif Require Import M_KBase S_KBase L_KBase L_KBase2 M_KFields S_KFields L_KFields L_KLoc M_KRecords S_KRecords L_KIo L_KRecords L_KBatch M_KSchema S_KSchema L_KSchema.
Import ListNotations.
Open Scope Z_scope.

Definition fits (l : list Z) (n : Z) (exact : Prop) : Prop := zlen l <= n /\ (exact -> zlen l = n).
Lemma fits_eq l (E : Prop) : fits l (zlen l) E. Proof. split; [lia|reflexivity]. Qed.
Lemma items_fit {A} (wr : A -> option (list Z)) (sz : A -> option Z) (Q : A -> Prop) xs n :
  (forall a k, In a xs -> sz a = Some k -> exists l, wr a = Some l /\ fits l k (Q a)) ->
  sz_items sz xs = Some n -> exists l, wr_items wr xs = Some l /\ fits l n (Forall Q xs).
Proof.
  revert n; induction xs as [|x xs IH]; intros n H E.
  - cbn in E. apply some_inj in E. subst. exists []. split; [reflexivity|apply (fits_eq [])].
  - cbn [sz_items] in E. rewrite wr_items_cons. apply obind_some in E as (a & Ea & E). apply obind_some in E as (b & Eb & E). apply some_inj in E. subst n.
    destruct (H x a (or_introl eq_refl) Ea) as (l1 & -> & H1 & H1').
    destruct (IH b (fun y k Hy => H y k (or_intror Hy)) Eb) as (l2 & -> & H2 & H2').
    cbn [obind]. exists (l1 ++ l2). split; [reflexivity|]. split; rewrite zlen_app; [lia|]. intros HF. inversion HF; subst. rewrite H1', H2' by assumption. reflexivity.
Qed.
Lemma arr_fit {A} c ver (wr : A -> option (list Z)) (sz : A -> option Z) (Q : A -> Prop) d n :
  (forall xs a k, d = Some xs -> In a xs -> sz a = Some k -> exists l, wr a = Some l /\ fits l k (Q a)) ->
  sz_arr c ver sz d = Some n -> exists l, wr_arr c ver wr d = Some l /\ fits l n (match d with Some xs => Forall Q xs | None => True end).
Proof.
  intros H. unfold sz_arr, wr_arr. destruct (supported c ver); cbn [negb].
  2:{ intros E. apply some_inj in E. subst. exists []. split; [reflexivity|]. apply (fits_eq []). }
  destruct d as [[|x xs]|].
  - intros E. apply some_inj in E. subst. destruct (wr_len_total (flexible c ver) 4 0) as [h E]. rewrite E. exists h. split; [reflexivity|]. rewrite <- (len_size_any _ _ _ _ E). apply fits_eq.
  - pose proof (fun a k => H (x :: xs) a k eq_refl) as H0. set (ys := x :: xs) in *. clearbody ys.
    destruct (if flexible c ver then _ else _); [discriminate|]. intros E. apply obind_some in E as (m & Hm & E). apply some_inj in E. subst n.
    destruct (items_fit wr sz Q ys m H0 Hm) as (b & -> & Hb & Hb').
    destruct (wr_len_total (flexible c ver) 4 (zlen ys)) as [h E]. rewrite E. cbn [obind].
    eexists; split; [reflexivity|]. split; rewrite zlen_app, (len_size_any _ _ _ _ E); [lia|]. intros HF. rewrite (Hb' HF). reflexivity.
  - destruct (nullable c ver); [|discriminate]. intros E. apply some_inj in E. subst. destruct (wr_len_total (flexible c ver) 4 (-1)) as [h E]. rewrite E.
    exists h. split; [reflexivity|]. rewrite <- (len_size_any _ _ _ _ E). apply fits_eq.
Qed.
Lemma no_gap_zero v : no_gap v -> zsum (map (fun b => zsum (map ts_gap (b_recs b))) (bs_items v)) = 0.
Proof.
  unfold no_gap. intros H. induction (bs_items v) as [|b bs IH]; [reflexivity|]. rewrite map_cons, zsum_cons.
  rewrite IH by (intros b' r Hb Hr; apply (H b' r); [now right|exact Hr]). specialize (fun r => H b r (or_introl eq_refl)).
  assert (zsum (map ts_gap (b_recs b)) = 0) as ->; [|reflexivity].
  induction (b_recs b) as [|r rs IHr]; [reflexivity|]. rewrite map_cons, zsum_cons, IHr by (intros r' Hr'; apply H; now right).
  pose proof (H r (or_introl eq_refl)). unfold ts_gap. destruct ((2 ^ 49 <=? zigzag (r_ts r)) && (zigzag (r_ts r) <? 2 ^ 56)) eqn:X; lia.
Qed.
Lemma recs_total rs : Forall rec_ok rs -> exists l, wr_items wr_record rs = Some l.
Proof. induction 1 as [|r rs Hr _ [l IH]]; [now exists []|]. destruct (wr_record_total r Hr) as [x Hx]. exists (x ++ l). now rewrite wr_items_cons, Hx, IH. Qed.
Lemma wr_batch_total cz b : batch_full b -> exists l, wr_batch cz b = Some l.
Proof.
  intros (Hok & Hc & Hb & Hl). assert (Forall rec_ok (b_recs b)) as Hf by apply Hok. destruct (recs_total _ Hf) as [x Hx]. specialize (Hl x Hx).
  unfold wr_batch. assert (b_magic b = 2) as -> by apply Hok. cbn [negb Z.eqb Pos.eqb]. rewrite (plain_recs cz b Hc), Hx. cbn [obind]. cbv zeta.
  destruct (49 + zlen x >? max_u32) eqn:X; [unfold max_u32 in X; lia|]. eauto.
Qed.
Lemma wr_batches_total cz bs : Forall batch_full bs -> exists l, wr_batches cz bs = Some l.
Proof. unfold wr_batches. induction 1 as [|b bs Hb _ [l IH]]; [now exists []|]. destruct (wr_batch_total cz b Hb) as [x Hx]. exists (x ++ l). now rewrite wr_items_cons, Hx, IH. Qed.
Lemma uint32_size_mono a b : a <= b -> uint32_size a <= uint32_size b.
Proof. intros H. unfold uint32_size. repeat destr_if; lia. Qed.
Lemma records_fit cz c ver v n : okp PRec v -> sz_records c ver v = Some n -> exists l, wr_records cz c ver v = Some l /\ fits l n (no_gap v).
Proof.
  intros Hok. pose proof (recs_full v Hok) as Hfull. destruct Hok as (Hf & Hsz & Hn). change (2 ^ 31) with 2147483648 in Hsz.
  unfold sz_records, wr_records. destruct (supported c ver); cbn [negb].
  2:{ intros E. apply some_inj in E. subst. exists []. split; [reflexivity|]. apply (fits_eq []). }
  destruct (bs_nil v).
  - destruct (nullable c ver); [|discriminate]. intros E. apply some_inj in E. subst. destruct (wr_len_total (flexible c ver) 4 (-1)) as [h E]. rewrite E.
    exists h. split; [reflexivity|]. rewrite <- (len_size_any _ _ _ _ E). apply fits_eq.
  - cbv zeta. destruct (wr_batches_total cz _ Hfull) as [e Ee]. rewrite Ee. cbn [obind].
    assert (Forall (fun b => batch_ok b /\ compression (b_attrs b) = 0) (bs_items v)) as Hf2.
    { eapply Forall_impl; [|exact Hf]. intros b (H1 & H2 & _). auto. }
    pose proof (batches_size cz _ _ Hf2 Ee) as Hs.
    pose proof (zsum_map_nonneg (fun b => zsum (map ts_gap (b_recs b))) (bs_items v)) as Hz.
    specialize (Hz (fun b => zsum_map_nonneg ts_gap (b_recs b) ts_gap_nonneg)). pose proof (zlen_nonneg e).
    intros E. destruct (if flexible c ver then sz_batches (bs_items v) + 1 >? max_u32 else sz_batches (bs_items v) >? max_i32) eqn:Eg; [discriminate|].
    apply some_inj in E. subst n.
    assert ((if flexible c ver then zlen e + 1 >? max_u32 else zlen e >? max_i32) = false) as ->. { destruct (flexible c ver); lia. }
    destruct (wr_len_total (flexible c ver) 4 (zlen e)) as [h E]. rewrite E. cbn [obind]. exists (h ++ e). split; [reflexivity|].
    pose proof (len_size_any _ _ _ _ E) as Hh. split; rewrite zlen_app, Hh.
    + unfold sz_len. destruct (flexible c ver); [|lia].
      rewrite !tu32 by (unfold uint_range, max_u32 in *; change (2 ^ 32) with 4294967296; lia).
      pose proof (uint32_size_mono (zlen e + 1) (sz_batches (bs_items v) + 1)). lia.
    + intros Hg. rewrite (no_gap_zero v Hg) in Hs. replace (sz_batches (bs_items v)) with (zlen e) by lia. reflexivity.
Qed.
Lemma wr_int_zl n v : zlen (wr_int n v) = Z.of_nat n. Proof. unfold zlen. now rewrite wr_int_length. Qed.
Lemma p_fit cz c ver p v n : okp p v -> sz_p c ver p v = Some n -> exists l, wr_p cz c ver p v = Some l /\ fits l n (every_p no_gap p v).
Proof.
  assert (forall A (x : A) (Q : Prop) (w : list Z) k, zlen w = k -> Some (if supported c ver then k else 0) = Some n ->
    exists l, Some (if supported c ver then w else []) = Some l /\ fits l n Q) as H.
  { intros A x Q w k Hw E. apply some_inj in E. subst n. destruct (supported c ver); eexists; (split; [reflexivity|]); [subst k; apply fits_eq|apply (fits_eq [])]. }
  intros Hok E. destruct p; cbn [denp okp sz_p wr_p every_p] in *.
  - eapply H; [exact tt| |exact E]. destruct v; reflexivity.
  - eapply H; [exact tt|apply wr_int_zl|exact E].
  - eapply H; [exact tt| |exact E]. unfold wr_uint, zlen. now rewrite be_enc_length.
  - eapply H; [exact tt| |exact E]. unfold wr_uint, zlen. now rewrite be_enc_length.
  - rewrite str_size in E. destruct (wr_str c ver v) as [l|]; [|discriminate]. cbn in E. apply some_inj in E. subst n. exists l. split; [reflexivity|apply fits_eq].
  - eapply H; [exact tt| |exact E]. unfold wr_uuid, zlen. destruct Hok as [-> _]. reflexivity.
  - destruct (bytes_size_le _ _ _ _ E) as (l & El & <-). exists l. split; [exact El|apply fits_eq].
  - now apply records_fit.
Qed.
Lemma sz_t_prim c ver p : sz_t c ver (TPrim p) = sz_p c ver p. Proof. reflexivity. Qed.
Lemma sz_t_arr c ver p : sz_t c ver (TArr p) = sz_arr c ver (sz_p c ver p). Proof. reflexivity. Qed.
Lemma sz_t_struct c ver s : sz_t c ver (TStruct s) = sz_s ver s. Proof. reflexivity. Qed.
Lemma sz_t_arrs c ver s : sz_t c ver (TArrS s) = sz_arr c ver (sz_s ver s). Proof. reflexivity. Qed.
Lemma sz_items_perm {A} (sz : A -> option Z) l l' : Permutation l l' -> forall k, sz_items sz l = Some k -> sz_items sz l' = Some k.
Proof.
  induction 1 as [|x l l' H IH|x y l|l l' l'' H1 IH1 H2 IH2]; intros k E; cbn [sz_items] in *.
  - exact E.
  - apply obind_some in E as (a & Ea & E). apply obind_some in E as (b & Eb & E). rewrite Ea, (IH _ Eb). exact E.
  - apply obind_some in E as (a & Ea & E). apply obind_some in E as (b & Eb & E). apply obind_some in Eb as (c & Ec & Eb). apply obind_some in Eb as (d & Ed & Eb).
    rewrite Ec, Ea, Ed. cbn [obind]. apply some_inj in E, Eb. subst. f_equal. lia.
  - apply IH2, IH1, E.
Qed.
Lemma sz_items_app {A} (sz : A -> option Z) l l' a b : sz_items sz l = Some a -> sz_items sz l' = Some b -> sz_items sz (l ++ l') = Some (a + b).
Proof.
  revert a; induction l as [|x l IH]; intros a E E'; cbn [sz_items app] in *.
  - apply some_inj in E. subst. exact E'.
  - apply obind_some in E as (u & Eu & E). apply obind_some in E as (w & Ew & E). apply some_inj in E. subst. rewrite Eu, (IH _ Ew E'). cbn [obind]. f_equal. lia.
Qed.
Lemma sz_tag_small t u : sz_tag t = Some u -> zlen (snd t) < 2 ^ 32.
Proof.
  unfold sz_tag. destruct (zlen (snd t) >? max_u32) eqn:X; [discriminate|]. intros _. unfold max_u32 in X. rewrite Z.gtb_ltb in X. apply Z.ltb_ge in X.
  assert (2 ^ 32 = 4294967296) as E by reflexivity. rewrite E. lia.
Qed.
Lemma wr_tags_fit l k : NoDup (map fst l) -> Forall (fun t => uint_range 32 (fst t)) l -> zlen l < 2 ^ 32 -> sz_items sz_tag l = Some k ->
  exists out, wr_tags l = Some out /\ zlen out = uint32_size (zlen l) + k.
Proof.
  intros Hnd Hr Hl E. assert (Forall (fun t => zlen (snd t) < 2 ^ 32) l) as Hv.
  { clear - E. revert k E. induction l as [|t l IH]; intros k E; [constructor|]. cbn [sz_items] in E. apply obind_some in E as (u & Eu & E). apply obind_some in E as (w & Ew & E).
    constructor; [|eapply IH; exact Ew]. apply sz_tag_small in Eu. exact Eu. }
  destruct (proj2 (tags_encodable l)) as [out Eo]; [auto|]. exists out. split; [exact Eo|].
  destruct (wr_tags_inv _ _ Eo) as (_ & _ & h & b & -> & Hh & Hb). rewrite zlen_app. pose proof (zlen_nonneg l).
  assert (uint_range 32 (zlen l)) as Hu by (unfold uint_range; change (2 ^ 32) with 4294967296 in *; lia).
  assert (zlen h = uint32_size (zlen l)) as Eh by (exact (size_uvarint32 _ _ Hu Hh)).
  rewrite Eh. f_equal.
  pose proof (sz_items_perm sz_tag _ _ (tag_sort_perm l) k E) as E'.
  destruct (items_size wr_tag sz_tag (tag_sort l) k) as (b' & Hb' & Hk); [|exact E'|congruence].
  intros t z Ht Ez. rewrite Forall_forall in Hr. rewrite tag_size in Ez by (apply Hr; now apply tag_sort_in).
  destruct (wr_tag t) as [x|]; [|discriminate]. cbn [option_map] in Ez. apply some_inj in Ez. exists x. split; [reflexivity|exact Ez].
Qed.
Lemma nodup_app {A} (l l' : list A) : NoDup l -> NoDup l' -> (forall x, In x l -> In x l' -> False) -> NoDup (l ++ l').
Proof.
  induction 1 as [|x l Hx Hl IH]; intros Hl' H; [exact Hl'|]. cbn [app]. constructor.
  - intros Hin. apply in_app_iff in Hin as [Hin|Hin]; [contradiction|]. apply (H x); [now left|exact Hin].
  - apply IH; [exact Hl'|]. intros y Hy. apply H. now right.
Qed.
Definition gate (reg : bool) (c : ctx) (ver : Z) (t : fty) : bool := match t with TStruct _ => negb reg || supported c ver | _ => true end.
Definition dist_t := every_t (fun u => NoDup (map fst u)) (fun _ => True).
Definition dist_f := every_f (fun u => NoDup (map fst u)) (fun _ => True).
Definition gapl_t := every_t (fun _ => True) no_gap.
Definition gapl_f := every_f (fun _ => True) no_gap.
Lemma sz_schema cz ver :
  (forall t, wf_t ver t = true -> forall reg c v n, ok_t t v -> dist_t t v -> sz_t c ver t v = Some n ->
     exists l, wr_t cz reg c ver t v = Some l /\ fits l n (gate reg c ver t = true /\ tight_t ver t = true /\ gapl_t t v)) /\
  (forall s, wf_s ver s = true -> forall v n, ok_s s v -> distinct_tags s v -> sz_s ver s v = Some n ->
     exists l, wr_s cz ver s v = Some l /\ fits l n (tight_s ver s = true /\ gapless s v)) /\
  (forall fs, wf_f ver fs = true -> forall v, ok_f fs v -> dist_f fs v ->
     (forall n, sz_f ver fs v = Some n -> exists l, wr_f cz ver fs v = Some l /\ fits l n (tight_f ver fs = true /\ gapl_f fs v)) /\
     (forall n, sz_known ver fs v = Some n -> exists ks m, wr_known cz ver fs v = Some ks /\ zlen ks = n_known ver fs v /\ NoDup (map fst ks) /\
        sz_items sz_tag ks = Some m /\ m <= n /\ ((tight_f ver fs = true /\ gapl_f fs v) -> m = n))).
Proof.
  apply schema_ind.
  - intros p Hw reg c v n Hok _ E. rewrite sz_t_prim in E. rewrite wr_t_prim. destruct (p_fit cz c ver p v n Hok E) as (l & El & H1 & H2).
    exists l. split; [exact El|]. split; [exact H1|]. intros (_ & _ & Hg). apply H2, Hg.
  - intros p Hw reg c v n Hok _ E. rewrite sz_t_arr in E. rewrite wr_t_arr.
    destruct (arr_fit c ver (wr_p cz c ver p) (sz_p c ver p) (every_p no_gap p) v n) as (l & El & H1 & H2); [|exact E|].
    + intros xs a k -> Ha Ek. apply p_fit; [|exact Ek]. destruct Hok as [Hok _]. rewrite Forall_forall in Hok. now apply Hok.
    + exists l. split; [exact El|]. split; [exact H1|]. intros (_ & _ & Hg). apply H2, Hg.
  - intros s IH Hw reg c v n Hok Hd E. rewrite sz_t_struct in E. rewrite wr_t_struct. destruct (IH Hw v n Hok Hd E) as (l & El & H1 & H2).
    cbn [gate tight_t]. destruct (reg && negb (supported c ver)) eqn:X.
    + exists []. split; [reflexivity|]. split; [pose proof (zlen_nonneg l); cbn; lia|]. intros (Hg & _). destruct reg, (supported c ver); discriminate.
    + exists l. split; [exact El|]. split; [exact H1|]. intros (_ & Ht & Hg). apply H2. split; assumption.
  - intros s IH Hw reg c v n Hok Hd E. rewrite sz_t_arrs in E. rewrite wr_t_arrs. cbn [tight_t].
    destruct (arr_fit c ver (wr_s cz ver s) (sz_s ver s) (fun x => tight_s ver s = true /\ gapless s x) v n) as (l & El & H1 & H2); [|exact E|].
    + intros xs a k -> Ha Ek. cbn [ok_t wf_t] in *. unfold dist_t in Hd. cbn [every_t] in Hd. destruct Hok as [Hok _]. rewrite Forall_forall in Hok, Hd.
      apply (IH Hw a k); [now apply Hok|now apply Hd|exact Ek].
    + exists l. split; [exact El|]. split; [exact H1|]. intros (_ & Ht & Hg). apply H2. destruct v as [xs|]; [|exact I]. unfold gapl_t in Hg. cbn [every_t] in Hg.
      eapply Forall_impl; [|exact Hg]. intros a Ha. split; assumption.
  - intros flo fhi fs IH Hw v n (Hn & Hok & Hunk) (Hd1 & Hd2) E. cbn [wf_s tight_s] in *. destruct (IH Hw (sv_fld v) Hok Hd2) as [IHr IHk].
    rewrite sz_s_eq in E. rewrite wr_s_eq. rewrite Hn in *. destruct (ign_ok ver fs (sv_fld v)); [|discriminate]. cbn [negb] in *.
    apply obind_some in E as (a & Ea & E). destruct (zlen (sv_unk v) + n_known ver fs (sv_fld v) >? max_u32) eqn:Em; [discriminate|].
    destruct (IHr a Ea) as (la & Ela & Ha & Ha'). rewrite Ela. cbn [obind]. destruct (in_vers flo fhi ver); cbn [negb] in *.
    + apply obind_some in E as (b & Eb & E). apply obind_some in E as (u & Eu & E). apply some_inj in E. subst n.
      destruct (IHk b Eb) as (ks & m & Ek & Hlen & Hnd & Em' & Hm & Hm'). rewrite Ek. cbn [obind].
      pose proof (wr_known_tags _ _ _ _ _ Hw Hok Ek) as Hks. rewrite Forall_forall in Hunk.
      destruct (wr_tags_fit (sv_unk v ++ ks) (u + m)) as (out & Eo & Ho).
      * rewrite map_app. apply nodup_app; [exact Hd1|exact Hnd|]. intros x Hx Hx'. apply in_map_iff in Hx as (t1 & <- & Ht1). apply in_map_iff in Hx' as (t2 & E2 & Ht2).
        destruct (Hunk _ Ht1) as (_ & _ & H1). destruct (Hks _ Ht2) as [H2 _]. rewrite E2 in H2. congruence.
      * apply Forall_forall. intros x Hx. apply in_app_iff in Hx as [Hx|Hx]; [apply Hunk, Hx|apply (Hks x Hx)].
      * rewrite zlen_app, Hlen. unfold max_u32 in Em. change (2 ^ 32) with 4294967296. lia.
      * now apply sz_items_app.
      * rewrite Eo. cbn [obind]. exists (la ++ out). split; [reflexivity|]. rewrite zlen_app, Hlen in Ho. split; rewrite zlen_app, Ho; [lia|].
        intros (Ht & Hg1 & Hg2). rewrite Ha', Hm' by (split; assumption). lia.
    + destruct (zlen (sv_unk v) + n_known ver fs (sv_fld v) >? 0); [discriminate|]. apply some_inj in E. subst n. exists la. split; [reflexivity|]. split; [exact Ha|].
      intros (Ht & Hg1 & Hg2). apply Ha'. split; assumption.
  - intros _ v _ _. split.
    + intros n E. cbn in E. apply some_inj in E. subst. exists []. split; [reflexivity|apply (fits_eq [])].
    + intros n E. cbn in E. apply some_inj in E. subst. exists [], 0. repeat split; try reflexivity; try lia; try constructor.
  - intros c d t IHt fs' IHf Hw v [Hok1 Hok2] [Hd1 Hd2]. cbn [wf_f tight_f] in *. apply andb_true_iff in Hw as [Hw Htag]. apply andb_true_iff in Hw as [Hwt Hwf].
    specialize (IHt Hwt). destruct (IHf Hwf (snd v) Hok2 Hd2) as [IHr IHk]. split.
    + intros n E. rewrite sz_f_cons in E. rewrite wr_f_cons. apply obind_some in E as (a & Ea & E). apply obind_some in E as (b & Eb & E). apply some_inj in E. subst n.
      destruct (IHr b Eb) as (lb & Elb & Hb & Hb').
      assert (exists la, (if regular c ver then wr_t cz true c ver t (fst v) else Some []) = Some la /\
        fits la a ((match t with TStruct _ => negb (regular c ver) || supported c ver | _ => true end) = true /\ tight_t ver t = true /\ gapl_t t (fst v))) as (la & Ela & Ha & Ha').
      { destruct (regular c ver).
        - destruct (IHt true c (fst v) a Hok1 Hd1 Ea) as (la & Ela & Ha & Ha'). exists la. split; [exact Ela|]. split; [exact Ha|]. intros Hx. apply Ha'. exact Hx.
        - apply some_inj in Ea. subst. exists []. split; [reflexivity|apply (fits_eq [])]. }
      rewrite Ela, Elb. cbn [obind]. exists (la ++ lb). split; [reflexivity|]. split; rewrite zlen_app; [lia|].
      intros (Ht & Hg1 & Hg2). apply andb_true_iff in Ht as [Ht Ht3]. apply andb_true_iff in Ht as [Ht1 Ht2].
      rewrite Ha', Hb' by (repeat split; assumption). lia.
    + intros n E. rewrite sz_known_cons in E. rewrite wr_known_cons. cbn [n_known]. apply obind_some in E as (a & Ea & E). apply obind_some in E as (b & Eb & E). apply some_inj in E. subst n.
      destruct (IHk b Eb) as (ks & m & Ek & Hlen & Hnd & Em & Hm & Hm'). rewrite Ek.
      destruct (tag_out ver c d t (fst v)) as [tag|] eqn:Et.
      * destruct (tag_out_tagged _ _ _ _ _ _ Et) as [Ec Etg]. rewrite Ec in Htag.
        apply obind_some in Ea as (k & Esz & Ea). destruct (k >? max_u32) eqn:Ekm; [discriminate|]. apply some_inj in Ea. subst a.
        destruct (IHt false c (fst v) k Hok1 Hd1 Esz) as (l & El & Hl & Hl'). rewrite Esz. cbn [obind]. rewrite El. cbn [obind].
        destruct (zlen l <=? k) eqn:X; [|lia]. cbn [obind app]. exists ((tag, l) :: ks), (uint32_size tag + uint32_size (zlen l) + zlen l + m).
        split; [reflexivity|]. split; [unfold zlen in *; cbn [length]; lia|]. split.
        { cbn [map fst]. constructor; [|exact Hnd]. intros Hin. apply in_map_iff in Hin as (x & Ex & Hx). destruct (wr_known_tags _ _ _ _ _ Hwf Hok2 Ek x Hx) as [Hh _].
          rewrite Ex in Hh. rewrite Hh in Htag. cbn in Htag. rewrite andb_false_r in Htag. discriminate. }
        split. { cbn [sz_items]. unfold sz_tag at 1. cbn [fst snd]. destruct (zlen l >? max_u32) eqn:Y; [lia|]. cbn [obind]. rewrite Em. reflexivity. }
        split; [pose proof (uint32_size_mono (zlen l) k Hl); lia|].
        intros (Ht & Hg1 & Hg2). apply andb_true_iff in Ht as [Ht Ht3]. apply andb_true_iff in Ht as [Ht1 Ht2].
        rewrite Hm' by (split; assumption). rewrite Hl'; [lia|]. split; [unfold gate; now destruct t|split; assumption].
      * apply some_inj in Ea. subst a. cbn [obind app]. exists ks, m. split; [reflexivity|]. split; [lia|]. split; [exact Hnd|]. split; [exact Em|]. split; [lia|].
        intros (Ht & Hg1 & Hg2). apply andb_true_iff in Ht as [Ht Ht3]. rewrite Hm' by (split; assumption). lia.
Qed.
