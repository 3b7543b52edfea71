(* Lemmas about messages *)
From Coq Require Import List ZArith Bool Lia ZifyBool ZifyNat Sorting.Permutation.
From Verif Require Import M_KBase S_KBase L_KBase L_KBase2 M_KFields S_KFields L_KFields L_KLoc M_KRecords S_KRecords L_KIo L_KRecords L_KBatch M_KSchema S_KSchema.
Import ListNotations.
Open Scope Z_scope.
Arguments put_uvarint : simpl never.
Arguments wr_int : simpl never.
Arguments rd_int : simpl never.
Arguments be_enc : simpl never.
Arguments Z.pow : simpl never.
Arguments crc32c : simpl never.

Scheme fty_mut := Induction for fty Sort Prop
  with sch_mut := Induction for sch Sort Prop
  with flds_mut := Induction for flds Sort Prop.
Combined Scheme schema_ind from fty_mut, sch_mut, flds_mut.

(* ---- records values ---- *)
Lemma sz_record_pos r : 0 <= sz_record r.
Proof. unfold sz_record. pose proof (record_length_pos r). pose proof (int32_size_pos (to_signed 32 (record_length r))). lia. Qed.
Lemma zsum_map_nonneg {A} (f : A -> Z) l : (forall a, 0 <= f a) -> 0 <= zsum (map f l).
Proof. intros H. apply zsum_nonneg, Forall_forall. intros x Hx. apply in_map_iff in Hx as (a & <- & _). apply H. Qed.
Lemma ts_gap_nonneg r : 0 <= ts_gap r.
Proof. unfold ts_gap. destr_if; lia. Qed.
Lemma sz_batch_pos b : 0 <= sz_batch b.
Proof. unfold sz_batch. pose proof (zsum_map_nonneg sz_record (b_recs b) sz_record_pos). lia. Qed.
Lemma batch_back_canon b : batch_ok b -> batch_back b = batch_canon b.
Proof.
  intros Hok. unfold batch_back, batch_canon, recs_bytes.
  destruct (wr_items wr_record (b_recs b)) as [x|] eqn:E; [reflexivity|exfalso].
  assert (Forall rec_ok (b_recs b)) as Hf by apply Hok. clear Hok. revert E. induction Hf as [|r rs Hr Hf IH]; [discriminate|].
  rewrite wr_items_cons. destruct (wr_record_total r Hr) as [l ->]. cbn [obind]. destruct (wr_items wr_record rs); [discriminate|]. intros _. now apply IH.
Qed.
Lemma recs_full v : okp PRec v -> Forall batch_full (bs_items v).
Proof.
  intros (Hf & Hs & _). change (2 ^ 31) with 2147483648 in Hs. revert Hs. unfold sz_batches. induction Hf as [|b bs (Hok & Hc & Hb) Hf IH]; intros Hs; [constructor|].
  rewrite map_cons, zsum_cons in Hs. pose proof (sz_batch_pos b). pose proof (zsum_map_nonneg sz_batch bs sz_batch_pos).
  constructor; [|apply IH; lia]. split; [exact Hok|]. split; [exact Hc|]. split; [exact Hb|]. intros recs Er.
  assert (Forall rec_ok (b_recs b)) as Hr by apply Hok. rewrite (recs_size _ _ Hr Er).
  assert (sz_batch b = 61 + zsum (map sz_record (b_recs b))) as Hsb by reflexivity. pose proof (zsum_map_nonneg ts_gap (b_recs b) ts_gap_nonneg). lia.
Qed.
Lemma rt_p cz c ver p prev v l rest : wf_p p = true -> supported c ver = true -> okp p v ->
  (match p return denp p -> Prop with PBytes => fun x => x = None | PRec => fun x => bs_items x = [] | _ => fun _ => True end) prev ->
  wr_p cz c ver p v = Some l -> rd_p cz c ver p prev (l ++ rest) = ROk (back_p p v) rest.
Proof.
  intros Hw Hs Hok Hprev E. destruct p; cbn [denp okp wr_p rd_p back_p] in *; unfold rd_num; rewrite ?Hs in *; try (apply some_inj in E; subst l).
  - apply rd_bool_wr.
  - apply rd_int_wr; [cbn in Hw; destruct n; [discriminate|lia]|exact Hok].
  - apply rd_uint_wr; [lia|exact Hok].
  - apply rd_uint_wr; [lia|exact Hok].
  - now apply rt_str.
  - apply rd_uuid_wr; apply Hok.
  - subst prev. now apply rt_bytes.
  - pose proof (recs_full v Hok) as Hfull. destruct Hok as (Hf & Hsz & Hn).
    rewrite (rt_records cz c ver v l rest prev Hs Hfull E Hn Hprev).
    + f_equal. f_equal. apply map_ext_in. intros b Hb. symmetry. apply batch_back_canon. rewrite Forall_forall in Hf. apply Hf, Hb.
    + intros _ e Ee. assert (Forall (fun b => batch_ok b /\ compression (b_attrs b) = 0) (bs_items v)) as Hf2.
      { eapply Forall_impl; [|exact Hf]. intros b (H1 & H2 & _). auto. }
      rewrite (batches_size cz _ _ Hf2 Ee). change (2 ^ 31) with 2147483648 in Hsz.
      pose proof (zsum_map_nonneg (fun b => zsum (map ts_gap (b_recs b))) (bs_items v)) as Hz.
      specialize (Hz (fun b => zsum_map_nonneg ts_gap (b_recs b) ts_gap_nonneg)). lia.
Qed.
Lemma wr_p_nonempty cz c ver p v l : wf_p p = true -> supported c ver = true -> p <> PRec -> okp p v -> wr_p cz c ver p v = Some l -> l <> [].
Proof.
  intros Hw Hs Hp Hok E Hl. destruct p; cbn [denp okp wr_p] in *; rewrite ?Hs in *; try (apply some_inj in E; subst l); try congruence.
  - destruct v; discriminate.
  - apply (f_equal (@length Z)) in Hl. rewrite wr_int_length in Hl. cbn in Hw. destruct n; discriminate.
  - unfold wr_uint in Hl. apply (f_equal (@length Z)) in Hl. rewrite be_enc_length in Hl. discriminate.
  - unfold wr_uint in Hl. apply (f_equal (@length Z)) in Hl. rewrite be_enc_length in Hl. discriminate.
  - destruct (ns_nil v) eqn:En; unfold wr_str in E; rewrite Hs, En in E; cbn [negb] in E.
    + destruct (nullable c ver); [|discriminate]. eapply wr_len_nonempty in E; [congruence|lia].
    + destr_if; [discriminate|]. apply obind_some in E as (h & Eh & E). apply some_inj in E. subst l. apply app_eq_nil in Hl as [-> _].
      eapply wr_len_nonempty in Eh; [congruence|lia].
  - unfold wr_uuid in Hl. destruct Hok as [H _]. subst. discriminate.
  - destruct v as [x|]; [|unfold wr_bytes in E; rewrite Hs in E; cbn [negb] in E; destruct (nullable c ver); [|discriminate]; eapply wr_len_nonempty in E; [congruence|lia]].
    destruct (wr_bytes_some _ _ _ _ Hs E) as (h & Eh & El & _). rewrite Hl in El. symmetry in El. apply app_eq_nil in El as [-> _]. eapply wr_len_nonempty in Eh; [congruence|lia].
Qed.

(* ---- unfolding equations (the functions are mutual fixpoints under the parameter cz) ---- *)
Section Eqs.
Variable cz : codec.
Lemma rd_t_prim reg c ver p : rd_t cz reg c ver (TPrim p) = rd_p cz c ver p. Proof. reflexivity. Qed.
Lemma rd_t_arr reg c ver p v s : rd_t cz reg c ver (TArr p) v s = rd_arr c ver (rd_p cz c ver p (zero_p p)) s. Proof. reflexivity. Qed.
Lemma rd_t_struct reg c ver s v inp : rd_t cz reg c ver (TStruct s) v inp = if reg && negb (supported c ver) then ROk v inp else rd_s cz ver s inp. Proof. reflexivity. Qed.
Lemma rd_t_arrs reg c ver s v inp : rd_t cz reg c ver (TArrS s) v inp = rd_arr c ver (rd_s cz ver s) inp. Proof. reflexivity. Qed.
Lemma rd_s_eq ver flo fhi fs inp : rd_s cz ver (Sch flo fhi fs) inp =
    rbind (rd_f cz ver fs inp) (fun v r =>
    if negb (in_vers flo fhi ver) then ROk (mksval false v []) r
    else match r with
    | [] => ROk (mksval false v []) []
    | _ => rbind (rd_tags r) (fun raws r' =>
           match rd_known cz ver fs raws v with
           | Some v' => ROk (mksval false v' (filter (fun t => negb (has_tag fs (fst t))) raws)) r'
           | None => RErr false
           end)
    end). Proof. reflexivity. Qed.
Lemma rd_f_nil ver inp : rd_f cz ver FNil inp = ROk tt inp. Proof. reflexivity. Qed.
Lemma rd_f_cons ver c d t fs' inp : rd_f cz ver (FCons c d t fs') inp =
    rbind (if regular c ver then rd_t cz true c ver t (def_t d t) inp else ROk (def_t d t) inp) (fun x r =>
    rbind (rd_f cz ver fs' r) (fun y r' => ROk (x, y) r')). Proof. reflexivity. Qed.
Lemma rd_known_cons ver c d t fs' raws v : rd_known cz ver (FCons c d t fs') raws v =
    obind (match c_tag c with
           | None => Some (fst v)
           | Some tag =>
             fold_left (fun acc raw => obind acc (fun x =>
               if fst raw =? tag then
                 if negb (tagged c ver) then None
                 else match rd_t cz false c ver t x (snd raw) with ROk x' _ => Some x' | _ => None end
               else Some x)) raws (Some (fst v))
           end) (fun x => obind (rd_known cz ver fs' raws (snd v)) (fun y => Some (x, y))). Proof. reflexivity. Qed.
Lemma wr_t_prim reg c ver p : wr_t cz reg c ver (TPrim p) = wr_p cz c ver p. Proof. reflexivity. Qed.
Lemma wr_t_arr reg c ver p : wr_t cz reg c ver (TArr p) = wr_arr c ver (wr_p cz c ver p). Proof. reflexivity. Qed.
Lemma wr_t_struct reg c ver s v : wr_t cz reg c ver (TStruct s) v = if reg && negb (supported c ver) then Some [] else wr_s cz ver s v. Proof. reflexivity. Qed.
Lemma wr_t_arrs reg c ver s : wr_t cz reg c ver (TArrS s) = wr_arr c ver (wr_s cz ver s). Proof. reflexivity. Qed.
Lemma wr_s_eq ver flo fhi fs v : wr_s cz ver (Sch flo fhi fs) v =
    if sv_nil v then Some []
    else if negb (ign_ok ver fs (sv_fld v)) then None
    else obind (wr_f cz ver fs (sv_fld v)) (fun a =>
      if negb (in_vers flo fhi ver) then (if zlen (sv_unk v) + n_known ver fs (sv_fld v) >? 0 then None else Some a)
      else obind (wr_known cz ver fs (sv_fld v)) (fun ks =>
           obind (wr_tags (sv_unk v ++ ks)) (fun b => Some (a ++ b)))). Proof. reflexivity. Qed.
Lemma wr_f_nil ver v : wr_f cz ver FNil v = Some []. Proof. reflexivity. Qed.
Lemma wr_f_cons ver c d t fs' v : wr_f cz ver (FCons c d t fs') v =
    obind (if regular c ver then wr_t cz true c ver t (fst v) else Some []) (fun a =>
    obind (wr_f cz ver fs' (snd v)) (fun b => Some (a ++ b))). Proof. reflexivity. Qed.
Lemma wr_known_nil ver v : wr_known cz ver FNil v = Some []. Proof. reflexivity. Qed.
Lemma wr_known_cons ver c d t fs' v : wr_known cz ver (FCons c d t fs') v =
    obind (match tag_out ver c d t (fst v) with
           | Some tag => obind (sz_t c ver t (fst v)) (fun n =>
                         obind (wr_t cz false c ver t (fst v)) (fun l =>
                         if zlen l <=? n then Some [(tag, l)] else None))
           | None => Some []
           end) (fun a =>
    obind (wr_known cz ver fs' (snd v)) (fun b => Some (a ++ b))). Proof. reflexivity. Qed.
Lemma sz_s_eq ver flo fhi fs v : sz_s ver (Sch flo fhi fs) v =
    if sv_nil v then Some 0
    else if negb (ign_ok ver fs (sv_fld v)) then None
    else obind (sz_f ver fs (sv_fld v)) (fun a =>
      if zlen (sv_unk v) + n_known ver fs (sv_fld v) >? max_u32 then None
      else if negb (in_vers flo fhi ver) then (if zlen (sv_unk v) + n_known ver fs (sv_fld v) >? 0 then None else Some a)
      else obind (sz_known ver fs (sv_fld v)) (fun b =>
           obind (sz_items sz_tag (sv_unk v)) (fun u => Some (a + (uint32_size (zlen (sv_unk v) + n_known ver fs (sv_fld v)) + b + u))))). Proof. reflexivity. Qed.
Lemma sz_f_cons ver c d t fs' v : sz_f ver (FCons c d t fs') v =
    obind (if regular c ver then sz_t c ver t (fst v) else Some 0) (fun a =>
    obind (sz_f ver fs' (snd v)) (fun b => Some (a + b))). Proof. reflexivity. Qed.
Lemma sz_known_cons ver c d t fs' v : sz_known ver (FCons c d t fs') v =
    obind (match tag_out ver c d t (fst v) with
           | Some tag => obind (sz_t c ver t (fst v)) (fun n =>
                         if n >? max_u32 then None else Some (n + uint32_size n + uint32_size tag))
           | None => Some 0
           end) (fun a =>
    obind (sz_known ver fs' (snd v)) (fun b => Some (a + b))). Proof. reflexivity. Qed.
End Eqs.
Arguments wr_t : simpl never. Arguments wr_s : simpl never. Arguments wr_f : simpl never. Arguments wr_known : simpl never.
Arguments rd_t : simpl never. Arguments rd_s : simpl never. Arguments rd_f : simpl never. Arguments rd_known : simpl never.
Arguments sz_t : simpl never. Arguments sz_s : simpl never. Arguments sz_f : simpl never. Arguments sz_known : simpl never.

(* ---- the round trip ---- *)
Fixpoint mid_f (ver : Z) (fs : flds) : den_f fs -> den_f fs :=
  match fs return den_f fs -> den_f fs with
  | FNil => fun v => v
  | FCons c d t fs' => fun v =>
    (if regular c ver && supported c ver then back_t ver t (fst v) else def_t d t, mid_f ver fs' (snd v))
  end.
Lemma n_known_nonneg ver fs v : 0 <= n_known ver fs v.
Proof.
  induction fs as [|c d t fs' IH]; cbn [n_known]; [lia|]. specialize (IH (snd v)).
  destruct (tag_out ver c d t (fst v)); lia.
Qed.
Lemma mid_back ver fs v : n_known ver fs v = 0 -> mid_f ver fs v = back_f ver fs v.
Proof.
  induction fs as [|c d t fs' IH]; cbn [n_known mid_f back_f]; [reflexivity|]. intros H.
  pose proof (n_known_nonneg ver fs' (snd v)). unfold carried. destruct (tag_out ver c d t (fst v)); [lia|].
  rewrite orb_false_r. f_equal. apply IH. lia.
Qed.
Lemma fold_skip {A} (g : A -> rawtag -> option A) tag raws x :
  (forall r, In r raws -> fst r <> tag) ->
  fold_left (fun acc raw => obind acc (fun y => if fst raw =? tag then g y raw else Some y)) raws (Some x) = Some x.
Proof.
  revert x; induction raws as [|r raws IH]; intros x H; cbn [fold_left obind]; [reflexivity|].
  pose proof (H r (or_introl eq_refl)). destruct (fst r =? tag) eqn:E; [lia|]. apply IH. intros r' Hr'. apply H. now right.
Qed.
Lemma fold_one {A} (g : A -> rawtag -> option A) tag raws b x y :
  NoDup (map fst raws) -> In (tag, b) raws -> g x (tag, b) = Some y ->
  fold_left (fun acc raw => obind acc (fun y => if fst raw =? tag then g y raw else Some y)) raws (Some x) = Some y.
Proof.
  revert x; induction raws as [|r raws IH]; intros x Hn Hin Hg; [destruct Hin|]. cbn [fold_left obind]. cbn [map] in Hn. inversion Hn; subst.
  destruct Hin as [->|Hin].
  - cbn [fst]. rewrite Z.eqb_refl, Hg. apply fold_skip. intros r' Hr' E. apply H1. cbn [fst]. rewrite <- E. now apply in_map.
  - assert (fst r <> tag) as Hne. { intros E. apply H1. rewrite E. change tag with (fst (tag, b)). now apply in_map. }
    destruct (fst r =? tag) eqn:E; [lia|]. now apply IH.
Qed.
Lemma tag_out_tagged ver c d t v tag : tag_out ver c d t v = Some tag -> c_tag c = Some tag /\ tagged c ver = true.
Proof. unfold tag_out. destruct (c_tag c); [|discriminate]. destruct (tagged c ver); [|discriminate]. cbn [andb]. destruct (nondef_t d t v); [|discriminate]. intros [= ->]. auto. Qed.
Lemma tagged_not_regular c ver : tagged c ver = true -> regular c ver = false.
Proof. unfold regular. intros ->. now rewrite andb_false_r. Qed.
Lemma wr_tags_nonempty l out : wr_tags l = Some out -> out <> [].
Proof.
  intros E. destruct (wr_tags_inv _ _ E) as (Hlen & _ & h & b & -> & Hh & _). intros H. apply app_eq_nil in H as [-> _].
  pose proof (zlen_nonneg l). destruct (rt_uvarint32 (zlen l) []) as (h' & Eh & Hrd); [split; assumption|].
  rewrite Hh in Eh. injection Eh as <-. discriminate.
Qed.
Lemma wr_s_nonempty cz ver flo fhi fs v l : in_vers flo fhi ver = true -> sv_nil v = false -> wr_s cz ver (Sch flo fhi fs) v = Some l -> l <> [].
Proof.
  intros Hf Hn. rewrite wr_s_eq, Hn, Hf. cbn [negb]. destruct (ign_ok ver fs (sv_fld v)); [|discriminate]. cbn [negb].
  intros E. apply obind_some in E as (a & Ea & E). apply obind_some in E as (ks & Ek & E). apply obind_some in E as (b & Eb & E).
  apply some_inj in E. subst l. intros H. apply app_eq_nil in H as [_ ->]. now apply wr_tags_nonempty in Eb.
Qed.
Lemma wr_arr_nonempty {A} c ver (wr : A -> option (list Z)) v l : supported c ver = true -> wr_arr c ver wr v = Some l -> l <> [].
Proof.
  intros Hs E. unfold wr_arr in E. rewrite Hs in E. cbn [negb] in E. destruct v as [[|x xs]|].
  - eapply wr_len_nonempty; [|exact E]; lia.
  - apply obind_some in E as (h & Eh & E). apply obind_some in E as (b & Eb & E). apply some_inj in E. subst l. intros H.
    apply app_eq_nil in H as [-> _]. eapply wr_len_nonempty in Eh; [congruence|lia].
  - destruct (nullable c ver); [|discriminate]. eapply wr_len_nonempty; [|exact E]; lia.
Qed.
Lemma wr_t_nonempty cz c ver t v l : wf_t ver t = true -> supported c ver = true -> nonempty_t ver t = true -> ok_t t v ->
  wr_t cz false c ver t v = Some l -> l <> [].
Proof.
  intros Hw Hs Hn Hok E. destruct t as [p|p|s|s]; rewrite ?wr_t_prim, ?wr_t_arr, ?wr_t_struct, ?wr_t_arrs in E; cbn [wf_t ok_t andb] in *.
  - eapply wr_p_nonempty; try eassumption. intros ->. discriminate.
  - eapply wr_arr_nonempty; eassumption.
  - destruct s as [flo fhi fs]. cbn [nonempty_t] in Hn. eapply wr_s_nonempty; [exact Hn| |exact E]. cbn [ok_s] in Hok. apply Hok.
  - eapply wr_arr_nonempty; eassumption.
Qed.
Lemma ok_arr_len {A} (P : A -> Prop) (v : option (list A)) c ver : ok_arr P v ->
  forall xs, v = Some xs -> Forall P xs /\ (if flexible c ver then zlen xs + 1 < 2 ^ 32 else zlen xs < 2 ^ 31).
Proof.
  intros H xs ->. destruct H as [H1 H2]. split; [exact H1|]. unfold zlen. change (2 ^ 31) with 2147483648 in *. change (2 ^ 32) with 4294967296.
  destruct (flexible c ver); lia.
Qed.
Lemma wr_known_tags cz ver fs v ks : wf_f ver fs = true -> ok_f fs v -> wr_known cz ver fs v = Some ks ->
  forall x, In x ks -> has_tag fs (fst x) = true /\ uint_range 32 (fst x) /\ snd x <> [].
Proof.
  revert v ks; induction fs as [|c d t fs' IH]; intros v ks Hw Hok E x Hx; rewrite ?wr_known_nil, ?wr_known_cons in E; cbn [wf_f ok_f has_tag] in *.
  - apply some_inj in E. subst. destruct Hx.
  - apply andb_true_iff in Hw as [Hw Htag]. apply andb_true_iff in Hw as [Hwt Hwf].
    apply obind_some in E as (a & Ea & E). apply obind_some in E as (b & Eb & E). apply some_inj in E. subst ks.
    apply in_app_iff in Hx as [Hx|Hx].
    + destruct (tag_out ver c d t (fst v)) as [tag|] eqn:Et; [|apply some_inj in Ea; subst; destruct Hx].
      destruct (tag_out_tagged _ _ _ _ _ _ Et) as [Ec Etg]. rewrite Ec in *. rewrite Etg in Htag. cbn [negb orb] in Htag.
      apply obind_some in Ea as (n & En & Ea). apply obind_some in Ea as (l & El & Ea). destruct (zlen l <=? n); [|discriminate]. apply some_inj in Ea. subst a.
      destruct Hx as [<-|[]]. cbn [fst snd]. rewrite Z.eqb_refl. split; [reflexivity|]. split; [unfold uint_range; lia|].
      apply andb_true_iff in Htag as [_ Htag]. apply andb_true_iff in Htag as [Hsup Hnon].
      eapply wr_t_nonempty; [exact Hwt|exact Hsup|exact Hnon|apply Hok|exact El].
    + destruct Hok as [_ Hok]. destruct (IH _ _ Hwf Hok Eb x Hx) as (H1 & H2 & H3). rewrite H1, orb_true_r. auto.
Qed.

Lemma last_in {A} (l : list A) d : l <> [] -> In (last l d) l.
Proof. induction l as [|x [|y l] IH]; intros H; [congruence|now left|]. right. apply IH. discriminate. Qed.
Lemma ascending_filter p l : ascending l -> ascending (filter p l).
Proof.
  induction l as [|t l IH]; intros H; cbn [filter]; [exact I|]. specialize (IH (ascending_cons _ _ H)). destruct (p t); [|exact IH].
  destruct (filter p l) as [|u r] eqn:E; [exact I|]. split; [|exact IH]. apply (ascending_lt t l u H).
  assert (In u (filter p l)) as Hu by (rewrite E; now left). now apply filter_In in Hu.
Qed.
Lemma nodup_app_l {A} (l l' : list A) : NoDup (l ++ l') -> NoDup l.
Proof. induction l as [|x l IH]; intros H; [constructor|]. cbn in H. inversion H; subst. constructor; [|now apply IH]. intros Hx. apply H2, in_app_iff. now left. Qed.
Lemma rt_schema cz ver :
  (forall t, wf_t ver t = true -> forall reg c d v l rest, supported c ver = true -> ok_t t v ->
     wr_t cz reg c ver t v = Some l -> rd_t cz reg c ver t (def_t d t) (l ++ rest) = ROk (back_t ver t v) rest) /\
  (forall s, wf_s ver s = true -> forall v l rest, ok_s s v -> wr_s cz ver s v = Some l ->
     rd_s cz ver s (l ++ rest) = ROk (back_s ver s v) rest) /\
  (forall fs, wf_f ver fs = true -> forall v, ok_f fs v ->
     (forall l rest, wr_f cz ver fs v = Some l -> rd_f cz ver fs (l ++ rest) = ROk (mid_f ver fs v) rest) /\
     (forall ks raws, wr_known cz ver fs v = Some ks -> NoDup (map fst raws) -> (forall x, In x ks -> In x raws) ->
        (forall x, In x raws -> has_tag fs (fst x) = true -> In x ks) ->
        rd_known cz ver fs raws (mid_f ver fs v) = Some (back_f ver fs v))).
Proof.
  apply schema_ind.
  - (* TPrim *) intros p Hw reg c d v l rest Hs Hok E. rewrite ?wr_t_prim, ?wr_t_arr, ?wr_t_struct, ?wr_t_arrs in E; rewrite ?rd_t_prim, ?rd_t_arr, ?rd_t_struct, ?rd_t_arrs; cbn [back_t def_t ok_t wf_t] in *.
    apply rt_p; try assumption. destruct p; cbn; auto.
  - (* TArr *) intros p Hw reg c d v l rest Hs Hok E. rewrite ?wr_t_prim, ?wr_t_arr, ?wr_t_struct, ?wr_t_arrs in E; rewrite ?rd_t_prim, ?rd_t_arr, ?rd_t_struct, ?rd_t_arrs; cbn [back_t def_t ok_t wf_t] in *.
    apply andb_true_iff in Hw as [Hw Hp].
    apply (rt_arr c ver (wr_p cz c ver p) _ (back_p p) (okp p) v l rest); [|exact Hs|now apply ok_arr_len|exact E].
    intros a Ha l' rest' E'. apply rt_p; try assumption. destruct p; cbn; auto.
  - (* TStruct *) intros s IH Hw reg c d v l rest Hs Hok E. rewrite ?wr_t_prim, ?wr_t_arr, ?wr_t_struct, ?wr_t_arrs in E; rewrite ?rd_t_prim, ?rd_t_arr, ?rd_t_struct, ?rd_t_arrs; cbn [back_t def_t ok_t wf_t] in *.
    rewrite Hs in *. cbn [negb] in *. rewrite andb_false_r in *. now apply IH.
  - (* TArrS *) intros s IH Hw reg c d v l rest Hs Hok E. rewrite ?wr_t_prim, ?wr_t_arr, ?wr_t_struct, ?wr_t_arrs in E; rewrite ?rd_t_prim, ?rd_t_arr, ?rd_t_struct, ?rd_t_arrs; cbn [back_t def_t ok_t wf_t] in *.
    apply (rt_arr c ver (wr_s cz ver s) _ (back_s ver s) (ok_s s) v l rest); [|exact Hs|now apply ok_arr_len|exact E].
    intros a Ha l' rest' E'. now apply IH.
  - (* Sch *) intros flo fhi fs IH Hw v l rest (Hn & Hok & Hunk) E. cbn [wf_s] in Hw. destruct (IH Hw (sv_fld v) Hok) as [IHr IHk].
    rewrite wr_s_eq in E. rewrite rd_s_eq. cbn [back_s]. rewrite Hn in E. destruct (ign_ok ver fs (sv_fld v)); [|discriminate]. cbn [negb] in E.
    apply obind_some in E as (a & Ea & E). destruct (in_vers flo fhi ver); cbn [negb] in *.
    + apply obind_some in E as (ks & Ek & E). apply obind_some in E as (b & Eb & E). apply some_inj in E. subst l.
      rewrite <- app_assoc, (IHr a (b ++ rest) Ea). cbn [rbind].
      pose proof (wr_known_tags _ _ _ _ _ Hw Hok Ek) as Hks. rewrite Forall_forall in Hunk.
      assert (Forall (fun t => uint_range 32 (fst t)) (sv_unk v ++ ks)) as Hall.
      { apply Forall_forall. intros x Hx. apply in_app_iff in Hx as [Hx|Hx]; [apply Hunk, Hx|apply (Hks x Hx)]. }
      assert (forall x, In x (sv_unk v ++ ks) -> snd x <> []) as Hne.
      { intros x Hx. apply in_app_iff in Hx as [Hx|Hx]; [apply Hunk, Hx|apply (Hks x Hx)]. }
      destruct (b ++ rest) as [|z br] eqn:Ebr. { apply app_eq_nil in Ebr as [-> _]. now apply wr_tags_nonempty in Eb. }
      rewrite <- Ebr, (rt_tags (sv_unk v ++ ks) b rest Hall Eb).
      2:{ right. destruct (tag_sort (sv_unk v ++ ks)) as [|y ys] eqn:Es; [cbn; discriminate|].
          apply Hne, tag_sort_in. rewrite Es. apply last_in. discriminate. }
      cbn [rbind]. destruct (wr_tags_inv _ _ Eb) as (_ & Hasc & _).
      rewrite (IHk ks (tag_sort (sv_unk v ++ ks)) Ek).
      * f_equal. f_equal. apply ascending_unique.
        -- apply ascending_filter, Hasc.
        -- apply tag_sort_nodup_asc. pose proof (nodup_of_asc _ Hasc) as Hnd.
           apply (Permutation_NoDup (l:=map fst (tag_sort (sv_unk v ++ ks))) (l':=map fst (sv_unk v ++ ks))) in Hnd.
           ++ rewrite map_app in Hnd. now apply nodup_app_l in Hnd.
           ++ apply Permutation_map, Permutation_sym, tag_sort_perm.
        -- intros x. rewrite filter_In, !tag_sort_in, in_app_iff. split.
           ++ intros [[Hx|Hx] Ht]; [exact Hx|]. destruct (Hks x Hx) as [H1 _]. rewrite H1 in Ht. discriminate.
           ++ intros Hx. split; [now left|]. destruct (Hunk x Hx) as (_ & _ & ->). reflexivity.
      * now apply nodup_of_asc.
      * intros x Hx. apply tag_sort_in, in_app_iff. now right.
      * intros x Hx Ht. apply tag_sort_in, in_app_iff in Hx as [Hx|Hx]; [|exact Hx]. destruct (Hunk x Hx) as (_ & _ & H). congruence.
    + destr_if; [discriminate|]. apply some_inj in E. subst l. rewrite (IHr a rest Ea). cbn [rbind].
      pose proof (n_known_nonneg ver fs (sv_fld v)). pose proof (zlen_nonneg (sv_unk v)).
      rewrite mid_back by lia. assert (sv_unk v = []) as ->. { destruct (sv_unk v); [reflexivity|]. unfold zlen in *. cbn [length] in *. lia. }
      reflexivity.
  - (* FNil *) intros _ v _. split; [intros l rest E; rewrite wr_f_nil in E; apply some_inj in E; subst; destruct v; reflexivity|]. intros ks raws _ _ _ _. reflexivity.
  - (* FCons *) intros c d t IHt fs' IHf Hw v [Hok1 Hok2]. cbn [wf_f] in Hw. apply andb_true_iff in Hw as [Hw Htag]. apply andb_true_iff in Hw as [Hwt Hwf].
    specialize (IHt Hwt). destruct (IHf Hwf (snd v) Hok2) as [IHr IHk]. split.
    + intros l rest E. rewrite wr_f_cons in E. rewrite rd_f_cons. cbn [mid_f] in *. apply obind_some in E as (a & Ea & E). apply obind_some in E as (b & Eb & E). apply some_inj in E. subst l.
      rewrite <- app_assoc. assert ((if regular c ver then rd_t cz true c ver t (def_t d t) (a ++ b ++ rest) else ROk (def_t d t) (a ++ b ++ rest))
        = ROk (if regular c ver && supported c ver then back_t ver t (fst v) else def_t d t) (b ++ rest)) as ->.
      { destruct (regular c ver); cbn [andb]; [|apply some_inj in Ea; now subst].
        destruct (supported c ver) eqn:Es; [now apply IHt|].
        clear -Ea Es. assert (a = []) as ->.
        { destruct t as [p|p|s|s]; rewrite ?wr_t_prim, ?wr_t_arr, ?wr_t_struct, ?wr_t_arrs, ?Es in Ea; cbn in Ea; try (unfold wr_arr in Ea; rewrite Es in Ea; cbn in Ea; congruence); [|congruence].
          destruct p; cbn [wr_p] in Ea; unfold wr_str, wr_bytes, wr_records in Ea; rewrite ?Es in Ea; cbn [negb] in Ea; congruence. }
        cbn [app]. destruct t as [p|p|s|s]; rewrite ?rd_t_prim, ?rd_t_arr, ?rd_t_struct, ?rd_t_arrs; cbn [def_t]; unfold rd_arr; rewrite ?Es; cbn [negb andb]; try reflexivity.
        destruct p; cbn [rd_p]; unfold rd_num, rd_str, rd_bytesf, rd_records; rewrite ?Es; cbn [negb]; reflexivity. }
      cbn [rbind]. rewrite (IHr b rest Eb). reflexivity.
    + intros ks raws E Hnd Hin Hback. rewrite wr_known_cons in E. rewrite rd_known_cons. cbn [mid_f back_f has_tag fst snd] in *.
      apply obind_some in E as (a & Ea & E). apply obind_some in E as (b & Eb & E). apply some_inj in E. subst ks.
      pose proof (wr_known_tags _ _ _ _ _ Hwf Hok2 Eb) as Hb. unfold carried.
      assert (IHk' : rd_known cz ver fs' raws (mid_f ver fs' (snd v)) = Some (back_f ver fs' (snd v))).
      { apply (IHk b raws Eb Hnd); [intros x Hx; apply Hin, in_app_iff; now right|].
        intros x Hx Ht. assert (In x (a ++ b)) as Hx'. { apply Hback; [exact Hx|]. rewrite Ht. apply orb_true_r. }
        apply in_app_iff in Hx' as [Hx'|Hx']; [|exact Hx']. exfalso.
        destruct (tag_out ver c d t (fst v)) as [tag|] eqn:Et; [|apply some_inj in Ea; subst; destruct Hx'].
        destruct (tag_out_tagged _ _ _ _ _ _ Et) as [Ec _]. rewrite Ec in Htag.
        apply obind_some in Ea as (n & En & Ea). apply obind_some in Ea as (l & El & Ea). destruct (zlen l <=? n); [|discriminate]. apply some_inj in Ea. subst a.
        destruct Hx' as [<-|[]]. cbn [fst] in Ht. rewrite Ht in Htag. cbn in Htag. rewrite andb_false_r in Htag. discriminate. }
      rewrite IHk'. destruct (c_tag c) as [tag|] eqn:Ec.
      2:{ unfold tag_out. rewrite Ec. rewrite orb_false_r. reflexivity. }
      assert (has_tag fs' tag = false) as Hnt. { destruct (has_tag fs' tag); [cbn in Htag; rewrite andb_false_r in Htag; discriminate|reflexivity]. }
      destruct (tag_out ver c d t (fst v)) as [tag'|] eqn:Et.
      * destruct (tag_out_tagged _ _ _ _ _ _ Et) as [Ec' Etg]. rewrite Ec in Ec'. injection Ec' as <-.
        rewrite Etg in Htag. cbn [negb orb] in Htag.
        apply obind_some in Ea as (n & En & Ea). apply obind_some in Ea as (l & El & Ea). destruct (zlen l <=? n); [|discriminate]. apply some_inj in Ea. subst a.
        rewrite (tagged_not_regular _ _ Etg). cbn [andb orb].
        match goal with |- obind ?m _ = _ => assert (m = Some (back_t ver t (fst v))) as -> end; [|reflexivity].
        apply (fold_one (fun x raw => if negb (tagged c ver) then None else match rd_t cz false c ver t x (snd raw) with ROk x' _ => Some x' | _ => None end)
                   tag raws l (def_t d t) (back_t ver t (fst v))).
        -- exact Hnd.
        -- apply Hin, in_app_iff. left. now left.
        -- rewrite Etg. cbn [negb snd]. rewrite <- (app_nil_r l), (IHt false c d (fst v) l []); [reflexivity| |exact Hok1|exact El];
           apply andb_true_iff in Htag as [_ Htag]; now apply andb_true_iff in Htag as [Hsup Hnon].
      * rewrite orb_false_r. apply some_inj in Ea. subst a. cbn [app] in *.
        match goal with |- obind ?m _ = _ => assert (m = Some (if regular c ver && supported c ver then back_t ver t (fst v) else def_t d t)) as -> end; [|reflexivity].
        apply (fold_skip (fun x raw => if negb (tagged c ver) then None else match rd_t cz false c ver t x (snd raw) with ROk x' _ => Some x' | _ => None end)).
        intros r Hr Er. assert (In r b) as Hrb. { apply Hback; [exact Hr|]. rewrite Er, Z.eqb_refl. reflexivity. }
           destruct (Hb r Hrb) as [H _]. rewrite Er in H. congruence.
Qed.
