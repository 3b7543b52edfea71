(* Locality and absence of panics of message decoding *)
From Coq Require Import List ZArith Bool Lia ZifyBool ZifyNat.
From Verif Require Import M_KBase S_KBase L_KBase L_KBase2 M_KFields S_KFields L_KFields L_KLoc M_KRecords S_KRecords L_KIo L_KRecords L_KBatch M_KSchema S_KSchema L_KSchema.
Import ListNotations.
Open Scope Z_scope.

Lemma loc_num {A} c ver (prev : A) rd : loc rd -> loc (rd_num c ver prev rd).
Proof. intros H. unfold rd_num. apply loc_if; [exact H|apply loc_ret]. Qed.
Lemma np_num {A} c ver (prev : A) rd : nopanic rd -> nopanic (rd_num c ver prev rd).
Proof. intros H. unfold rd_num. apply np_if; [exact H|apply np_ret]. Qed.
Lemma loc_p cz c ver p prev : p <> PRec -> loc (rd_p cz c ver p prev).
Proof.
  intros H. destruct p; cbn [rd_p].
  - apply loc_num, loc_bool. - apply loc_num, loc_int. - apply loc_num, loc_uint. - apply loc_num, loc_uint.
  - apply loc_str. - apply loc_num, loc_uuid. - apply loc_bytesf. - congruence.
Qed.
Lemma np_p cz c ver p prev : p <> PRec -> nopanic (rd_p cz c ver p prev).
Proof.
  intros H. destruct p; cbn [rd_p].
  - apply np_num, np_bool. - apply np_num, np_int. - apply np_num, np_uint. - apply np_num, np_uint.
  - apply np_str. - apply np_num, np_uuid. - apply np_bytesf. - congruence.
Qed.
Lemma norec_p p : norec_t (TPrim p) = true -> p <> PRec. Proof. intros H ->. discriminate. Qed.
Lemma norec_a p : norec_t (TArr p) = true -> p <> PRec. Proof. intros H ->. discriminate. Qed.

Lemma wloc_struct {A B} (m : list Z -> rres A) (fin : A -> B) (k : A -> list rawtag -> option B) :
  wloc m ->
  wloc (fun s => rbind (m s) (fun v r => match r with
    | [] => ROk (fin v) []
    | _ => rbind (rd_tags r) (fun raws r' => match k v raws with Some v' => ROk v' r' | None => RErr false end)
    end)).
Proof.
  intros Hm s b r E. apply rbind_ok in E as (v & r1 & E1 & E2). destruct r1 as [|z r1].
  - injection E2 as <- <-. exists s. split; [now rewrite app_nil_r|]. intros H. congruence.
  - apply rbind_ok in E2 as (raws & r2 & E2 & E3). destruct (k v raws) as [v'|] eqn:Ek; [|discriminate]. injection E3 as -> ->.
    destruct (Hm _ _ _ E1) as (u1 & -> & H1). destruct (wloc_tags _ _ _ E2) as (u2 & Eu2 & H2).
    exists (u1 ++ u2). split; [rewrite <- app_assoc, <- Eu2; reflexivity|]. intros Hr r' Hr'. rewrite <- app_assoc.
    rewrite H1; [|discriminate|destruct u2; [exact Hr'|discriminate]]. cbn [rbind].
    destruct (u2 ++ r') as [|z' w] eqn:Ew; [apply app_eq_nil in Ew as [_ Ew]; congruence|]. rewrite <- Ew, H2 by assumption. cbn [rbind]. now rewrite Ek.
Qed.
Lemma wloc_schema cz ver :
  (forall t, norec_t t = true -> forall reg c prev, wloc (rd_t cz reg c ver t prev)) /\
  (forall s, norec_s s = true -> wloc (rd_s cz ver s)) /\
  (forall fs, norec_f fs = true -> wloc (rd_f cz ver fs)).
Proof.
  apply schema_ind.
  - intros p H reg c prev. rewrite rd_t_prim. apply loc_wloc, loc_p, norec_p, H.
  - intros p H reg c prev. eapply wloc_ext; [intros s; symmetry; apply rd_t_arr|]. apply loc_wloc, loc_arr, loc_p, norec_a, H.
  - intros s IH H reg c prev. eapply wloc_ext; [intros x; symmetry; apply rd_t_struct|]. apply wloc_if; [apply wloc_ret|now apply IH].
  - intros s IH H reg c prev. eapply wloc_ext; [intros x; symmetry; apply rd_t_arrs|]. apply wloc_arr. now apply IH.
  - intros flo fhi fs IH H. specialize (IH H). eapply wloc_ext; [intros x; symmetry; apply rd_s_eq|].
    destruct (in_vers flo fhi ver); cbn [negb].
    + eapply wloc_ext; [|apply (wloc_struct (rd_f cz ver fs) (fun v => mksval false v []) (fun v raws =>
        match rd_known cz ver fs raws v with Some v' => Some (mksval false v' (filter (fun t => negb (has_tag fs (fst t))) raws)) | None => None end) IH)].
      intros s. cbv beta. destruct (rd_f cz ver fs s) as [v r| |]; try reflexivity. cbn [rbind]. destruct r as [|z r]; [reflexivity|].
      destruct (rd_tags (z :: r)) as [raws r'| |]; try reflexivity. cbn [rbind]. destruct (rd_known cz ver fs raws v); reflexivity.
    + apply wloc_bind; [exact IH|]. intros a. apply wloc_ret.
  - intros _. apply wloc_ret.
  - intros c d t IHt fs' IHf H. cbn [norec_f] in H. apply andb_true_iff in H as [H1 H2]. eapply wloc_ext; [intros x; symmetry; apply rd_f_cons|].
    apply wloc_bind. { apply wloc_if; [now apply IHt|apply wloc_ret]. }
    intros x. apply wloc_bind; [now apply IHf|]. intros y. apply wloc_ret.
Qed.
Lemma np_ext {A} (f g : list Z -> rres A) : (forall s, f s = g s) -> nopanic f -> nopanic g.
Proof. intros H N s. rewrite <- H. apply N. Qed.
Lemma np_schema cz ver :
  (forall t, norec_t t = true -> forall reg c prev, nopanic (rd_t cz reg c ver t prev)) /\
  (forall s, norec_s s = true -> nopanic (rd_s cz ver s)) /\
  (forall fs, norec_f fs = true -> nopanic (rd_f cz ver fs)).
Proof.
  apply schema_ind.
  - intros p H reg c prev. rewrite rd_t_prim. apply np_p, norec_p, H.
  - intros p H reg c prev. eapply np_ext; [intros s; symmetry; apply rd_t_arr|]. apply np_arr, np_p, norec_a, H.
  - intros s IH H reg c prev. eapply np_ext; [intros x; symmetry; apply rd_t_struct|]. apply np_if; [apply np_ret|now apply IH].
  - intros s IH H reg c prev. eapply np_ext; [intros x; symmetry; apply rd_t_arrs|]. apply np_arr. now apply IH.
  - intros flo fhi fs IH H. specialize (IH H). eapply np_ext; [intros x; symmetry; apply rd_s_eq|].
    apply np_bind; [exact IH|]. intros v. apply np_if; [apply np_ret|]. intros s. destruct s as [|z s]; [discriminate|].
    revert s. intros s. generalize (z :: s). clear z s. apply np_bind; [apply np_tags|]. intros raws s. destruct (rd_known cz ver fs raws v); discriminate.
  - intros _. apply np_ret.
  - intros c d t IHt fs' IHf H. cbn [norec_f] in H. apply andb_true_iff in H as [H1 H2]. eapply np_ext; [intros x; symmetry; apply rd_f_cons|].
    apply np_bind. { apply np_if; [now apply IHt|apply np_ret]. }
    intros x. apply np_bind; [now apply IHf|]. intros y. apply np_ret.
Qed.

(* ---- appended bytes, messages with records included ---- *)
Definition ast {A} (rd : list Z -> rres A) : Prop := forall s a r, rd s = ROk a r ->
  (length r <= length s)%nat /\ (r <> [] -> forall q, rd (s ++ q) = ROk a (r ++ q)).
Lemma ast_wloc {A} (rd : list Z -> rres A) : wloc rd -> ast rd.
Proof.
  intros H s a r E. destruct (H s a r E) as (u & -> & Hu). split; [rewrite app_length; lia|]. intros Hr q. rewrite <- app_assoc. apply Hu; [exact Hr|].
  intros E'. apply app_eq_nil in E' as [-> _]. congruence.
Qed.
Lemma ast_bind {A B} (m : list Z -> rres A) (f : A -> list Z -> rres B) : ast m -> (forall a, ast (f a)) -> ast (fun s => rbind (m s) f).
Proof.
  intros Hm Hf s b r E. apply rbind_ok in E as (a & r1 & E1 & E2). destruct (Hm _ _ _ E1) as [L1 H1]. destruct (Hf a _ _ _ E2) as [L2 H2].
  split; [lia|]. intros Hr q. assert (r1 <> []) as Hr1. { intros ->. destruct r; [congruence|cbn in L2; lia]. }
  rewrite (H1 Hr1). cbn [rbind]. now apply H2.
Qed.
Lemma ast_ext {A} (f g : list Z -> rres A) : (forall s, f s = g s) -> ast f -> ast g.
Proof. intros H N s a r E. rewrite <- H in E. destruct (N s a r E) as [L M]. split; [exact L|]. intros Hr q. rewrite <- H. now apply M. Qed.
Lemma ast_ret {A} (a : A) : ast (fun s => ROk a s). Proof. apply ast_wloc, wloc_ret. Qed.
Lemma ast_err {A} e : ast (fun s => @RErr A e). Proof. intros s a r. discriminate. Qed.
Lemma ast_if {A} (b : bool) (f g : list Z -> rres A) : ast f -> ast g -> ast (fun s => if b then f s else g s).
Proof. destruct b; auto. Qed.
Lemma ast_items {A} (rd : list Z -> rres A) n : ast rd -> ast (rd_items rd n).
Proof. intros H. induction n as [|n IH]; cbn [rd_items]; [apply ast_ret|]. apply ast_bind; [exact H|]. intros a. apply ast_bind; [exact IH|]. intros l. apply ast_ret. Qed.
Lemma ast_len flex n : ast (rd_len flex n). Proof. apply ast_wloc, loc_wloc, loc_len. Qed.
Lemma ast_arr {A} c ver (rd : list Z -> rres A) : ast rd -> ast (rd_arr c ver rd).
Proof.
  intros H. unfold rd_arr. apply ast_if; [apply ast_ret|]. apply ast_bind; [apply ast_len|]. intros len. apply ast_if; [apply ast_if; [apply ast_ret|apply ast_err]|].
  apply ast_bind; [now apply ast_items|]. intros l. apply ast_ret.
Qed.
Lemma shr_batches_loop cz : cz_shrinks cz -> forall f, shr 0 (rd_batches_loop cz f).
Proof.
  intros Hcz. induction f as [|f IH]; intros s a r E; cbn [rd_batches_loop] in E; [injection E as <- <-; lia|].
  destruct (next_batch_size s) as [size|]; [|discriminate]. destruct ((size =? 0) || (zlen s <? size)).
  - injection E as <- <-. destruct (zlen s <? size); cbn [length]; lia.
  - apply rbind_ok in E as (b & lft & Eb & E). apply rbind_ok in E as (bs & r' & Er & E). injection E as <- <-.
    apply shr_batch in Eb; [|exact Hcz]. apply IH in Er. rewrite firstn_length in Eb. rewrite app_length, skipn_length in Er. lia.
Qed.
Lemma ast_records cz c ver prev : cz_shrinks cz -> ast (rd_records cz c ver prev).
Proof.
  intros Hcz. unfold rd_records. apply ast_if; [apply ast_ret|]. apply ast_bind; [apply ast_len|]. intros len.
  apply ast_if; [apply ast_if; [apply ast_ret|apply ast_err]|]. apply ast_if; [apply ast_ret|].
  intros s a r E. destruct (zlen s <? len) eqn:El; [discriminate|].
  destruct (rd_batches cz (firstn (Z.to_nat len) s)) as [bs lft| |] eqn:Eb; try discriminate. injection E as <- <-. split.
  - unfold rd_batches in Eb. apply shr_batches_loop in Eb; [|exact Hcz]. rewrite firstn_length in Eb. rewrite app_length, skipn_length. lia.
  - intros _ q. rewrite zlen_app. pose proof (zlen_nonneg q). destruct (zlen s + zlen q <? len) eqn:E'; [lia|].
    rewrite firstn_app, skipn_app. replace (Z.to_nat len - length s)%nat with 0%nat by (unfold zlen in *; lia). cbn [firstn skipn]. rewrite app_nil_r, Eb.
    now rewrite app_assoc.
Qed.
Lemma ast_p cz c ver p prev : cz_shrinks cz -> ast (rd_p cz c ver p prev).
Proof. intros Hcz. destruct p; try (apply ast_wloc, loc_wloc, loc_p; discriminate). now apply ast_records. Qed.
Lemma ast_schema cz ver : cz_shrinks cz ->
  (forall t reg c prev, ast (rd_t cz reg c ver t prev)) /\
  (forall s, ast (rd_s cz ver s)) /\
  (forall fs, ast (rd_f cz ver fs)).
Proof.
  intros Hcz. apply schema_ind.
  - intros p reg c prev. rewrite rd_t_prim. now apply ast_p.
  - intros p reg c prev. eapply ast_ext; [intros s; symmetry; apply rd_t_arr|]. now apply ast_arr, ast_p.
  - intros s IH reg c prev. eapply ast_ext; [intros x; symmetry; apply rd_t_struct|]. apply ast_if; [apply ast_ret|exact IH].
  - intros s IH reg c prev. eapply ast_ext; [intros x; symmetry; apply rd_t_arrs|]. now apply ast_arr.
  - intros flo fhi fs IH. eapply ast_ext; [intros x; symmetry; apply rd_s_eq|]. destruct (in_vers flo fhi ver); cbn [negb].
    + intros s b r E. apply rbind_ok in E as (v & r1 & E1 & E2). destruct (IH _ _ _ E1) as [L1 H1]. destruct r1 as [|z r1].
      * injection E2 as <- <-. split; [cbn; lia|]. congruence.
      * apply rbind_ok in E2 as (raws & r2 & E2 & E3). destruct (rd_known cz ver fs raws v) as [v'|] eqn:Ek; [|discriminate]. injection E3 as <- <-.
        destruct (ast_wloc _ wloc_tags _ _ _ E2) as [L2 H2]. split; [lia|]. intros Hr q. rewrite (H1 ltac:(discriminate) q). cbn [rbind app].
        change (z :: r1 ++ q) with ((z :: r1) ++ q). rewrite (H2 Hr q). cbn [rbind]. now rewrite Ek.
    + apply ast_bind; [exact IH|]. intros a. apply ast_ret.
  - apply ast_ret.
  - intros c d t IHt fs' IHf. eapply ast_ext; [intros x; symmetry; apply rd_f_cons|].
    apply ast_bind. { apply ast_if; [apply IHt|apply ast_ret]. }
    intros x. apply ast_bind; [apply IHf|]. intros y. apply ast_ret.
Qed.
