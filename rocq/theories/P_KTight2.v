(* C13, C15, C17: decoding to the end of the input with records, exact length prefix, leftover of a records area *)
From Coq Require Import List ZArith Bool Lia ZifyBool ZifyNat.
From Verif Require Import M_KBase S_KBase L_KBase L_KBase2 M_KFields S_KFields L_KFields L_KLoc M_KRecords S_KRecords L_KIo L_KRecords L_KBatch M_KSchema S_KSchema L_KSchema L_KSchLoc L_KDone M_KSchemas P_KPrim P_KRecords.
Import ListNotations.
Open Scope Z_scope.

(* a decode that ends with the input gives the same value when [k] zero bytes and then anything follows *)
Definition eoi (fx : Prop) {A} (rd : list Z -> rres A) : Prop := ast rd /\ forall s a, rd s = ROk a [] ->
  exists k, (k <> 0%nat -> fx) /\ forall r', rd (s ++ repeat 0 k ++ r') = ROk a r'.
Lemma cloc_eoi fx {A} (rd : list Z -> rres A) : ast rd -> cloc fx rd -> eoi fx rd.
Proof.
  intros S L. split; [exact S|]. intros s a E. destruct (L _ _ _ E) as (u & k & Hu & Hk & H). exists k. rewrite app_nil_r in Hu. subst u. split; [intros X; now apply Hk|].
  intros r'. apply H. reflexivity.
Qed.
Lemma eoi_ext fx {A} (f g : list Z -> rres A) : (forall s, f s = g s) -> eoi fx f -> eoi fx g.
Proof.
  intros H [S L]. split; [eapply ast_ext; eauto|]. intros s a E. rewrite <- H in E. destruct (L _ _ E) as (k & Hk & Hr). exists k. split; [exact Hk|]. intros r'. rewrite <- H. apply Hr.
Qed.
Lemma eoi_ret fx {A} (a : A) : eoi fx (fun s => ROk a s). Proof. apply cloc_eoi; [apply ast_ret|apply cloc_ret]. Qed.
Lemma eoi_err fx {A} e : eoi fx (fun s => @RErr A e). Proof. split; [apply ast_err|]. intros s a. discriminate. Qed.
Lemma eoi_if fx {A} (b : bool) (f g : list Z -> rres A) : eoi fx f -> eoi fx g -> eoi fx (fun s => if b then f s else g s).
Proof. destruct b; auto. Qed.
Lemma eoi_weak (P Q : Prop) {A} (rd : list Z -> rres A) : (P -> Q) -> eoi P rd -> eoi Q rd.
Proof. intros H [S L]. split; [exact S|]. intros s a E. destruct (L s a E) as (k & Hk & Hr). exists k. auto. Qed.
Lemma eoi_bind (fx : Prop) {A B} (m : list Z -> rres A) (f : A -> list Z -> rres B) : eoi fx m -> (forall a, eoi fx (f a)) -> eoi fx (fun s => rbind (m s) f).
Proof.
  intros [Sm Lm] Hf. split; [apply ast_bind; [exact Sm|intros a; apply Hf]|]. intros s b E. apply rbind_ok in E as (a & r1 & E1 & E2).
  destruct (Hf a) as [Sf Lf]. destruct (Lf _ _ E2) as (k2 & K2 & H2). destruct r1 as [|z r1].
  - destruct (Lm _ _ E1) as (k1 & K1 & H1). exists (k1 + k2)%nat. split; [destruct (Nat.eq_dec k1 0); [intros X; apply K2; lia|auto]|].
    intros r'. rewrite repeat_app, <- app_assoc, H1. cbn [rbind]. apply (H2 r').
  - exists k2. split; [exact K2|]. intros r'. destruct (Sm _ _ _ E1) as [_ S1]. rewrite S1 by discriminate. cbn [rbind]. apply H2.
Qed.
Lemma eoi_items fx {A} (rd : list Z -> rres A) n : eoi fx rd -> eoi fx (rd_items rd n).
Proof. intros H. induction n; cbn [rd_items]; [apply eoi_ret|]. apply eoi_bind; [exact H|]. intros a. apply eoi_bind; [exact IHn|]. intros l. apply eoi_ret. Qed.
Lemma eoi_loc fx {A} (rd : list Z -> rres A) : loc rd -> eoi fx rd.
Proof. intros H. apply cloc_eoi; [apply ast_wloc, loc_wloc, H|apply loc_cloc, H]. Qed.
Lemma eoi_arr fx {A} c ver (rd : list Z -> rres A) : eoi fx rd -> eoi fx (rd_arr c ver rd).
Proof.
  intros H. unfold rd_arr. apply eoi_if; [apply eoi_ret|]. apply eoi_bind; [apply eoi_loc, loc_len|]. intros len.
  apply eoi_if; [apply eoi_if; [apply eoi_ret|apply eoi_err]|]. apply eoi_bind; [now apply eoi_items|]. intros l. apply eoi_ret.
Qed.
Lemma eoi_records fx cz c ver prev : cz_shrinks cz -> eoi fx (rd_records cz c ver prev).
Proof.
  intros Hcz. unfold rd_records. apply eoi_if; [apply eoi_ret|]. apply eoi_bind; [apply eoi_loc, loc_len|]. intros len.
  apply eoi_if; [apply eoi_if; [apply eoi_ret|apply eoi_err]|]. apply eoi_if; [apply eoi_ret|]. split.
  - intros s a r E. destruct (zlen s <? len) eqn:El; [discriminate|].
    destruct (rd_batches cz (firstn (Z.to_nat len) s)) as [bs lft| |] eqn:Eb; try discriminate. injection E as <- <-. split.
    + unfold rd_batches in Eb. apply shr_batches_loop in Eb; [|exact Hcz]. rewrite firstn_length in Eb. rewrite app_length, skipn_length. lia.
    + intros _ q. rewrite zlen_app. pose proof (zlen_nonneg q). destruct (zlen s + zlen q <? len) eqn:E'; [lia|].
      rewrite firstn_app, skipn_app. replace (Z.to_nat len - length s)%nat with 0%nat by (unfold zlen in *; lia). cbn [firstn skipn]. rewrite app_nil_r, Eb.
      now rewrite app_assoc.
  - intros s a E. exists 0%nat. split; [congruence|]. intros q. cbn [repeat app]. destruct (zlen s <? len) eqn:El; [discriminate|].
    destruct (rd_batches cz (firstn (Z.to_nat len) s)) as [bs lft| |] eqn:Eb; try discriminate. injection E as <- E. apply app_eq_nil in E as [-> E].
    rewrite zlen_app. pose proof (zlen_nonneg q). destruct (zlen s + zlen q <? len) eqn:E'; [lia|].
    rewrite firstn_app, skipn_app. replace (Z.to_nat len - length s)%nat with 0%nat by (unfold zlen in *; lia). cbn [firstn skipn]. rewrite app_nil_r, Eb, E. reflexivity.
Qed.
Lemma eoi_p fx cz c ver p prev : cz_shrinks cz -> eoi fx (rd_p cz c ver p prev).
Proof. intros Hcz. destruct p; try (apply eoi_loc, loc_p; discriminate). now apply eoi_records. Qed.
Lemma eoi_schema cz ver : cz_shrinks cz ->
  (forall t reg c prev, eoi (flex_t ver t = true) (rd_t cz reg c ver t prev)) /\
  (forall s, eoi (flex_s ver s = true) (rd_s cz ver s)) /\
  (forall fs, eoi (flex_f ver fs = true) (rd_f cz ver fs)).
Proof.
  intros Hcz. apply schema_ind.
  - intros p reg c prev. rewrite rd_t_prim. now apply eoi_p.
  - intros p reg c prev. eapply eoi_ext; [intros s; symmetry; apply rd_t_arr|]. now apply eoi_arr, eoi_p.
  - intros s IH reg c prev. eapply eoi_ext; [intros x; symmetry; apply rd_t_struct|]. apply eoi_if; [apply eoi_ret|exact IH].
  - intros s IH reg c prev. eapply eoi_ext; [intros x; symmetry; apply rd_t_arrs|]. now apply eoi_arr.
  - intros flo fhi fs IH. split; [apply (proj1 (proj2 (ast_schema cz ver Hcz)))|]. intros s a E. rewrite rd_s_eq in E. cbn [flex_s].
    destruct (in_vers flo fhi ver) eqn:Ev; cbn [negb orb] in *.
    + apply rbind_ok in E as (v & r1 & E1 & E2). destruct IH as [S1 L1]. destruct r1 as [|z r1].
      * injection E2 as <-. destruct (L1 _ _ E1) as (k1 & K1 & H1). exists (k1 + 1)%nat. split; [auto|]. intros r'. rewrite rd_s_eq, Ev. cbn [negb].
        rewrite repeat_app. cbn [repeat]. rewrite <- (app_assoc (repeat 0 k1) [0] r'). rewrite H1. cbn [rbind app].
        change (rd_tags (0 :: r')) with (ROk (@nil rawtag) r'). cbn [rbind]. rewrite rd_known_none. reflexivity.
      * apply rbind_ok in E2 as (raws & r2 & E2 & E3). destruct (rd_known cz ver fs raws v) as [v'|] eqn:Ek; [|discriminate]. injection E3 as <- ->.
        destruct (loc_tags_ne (z :: r1) _ _ ltac:(discriminate) E2) as (u2 & N2 & Eu2 & H2). rewrite app_nil_r in Eu2. subst u2.
        exists 0%nat. split; [congruence|]. intros r'. cbn [repeat app]. rewrite rd_s_eq, Ev. cbn [negb]. destruct (S1 _ _ _ E1) as [_ S2]. rewrite S2 by discriminate. cbn [rbind app].
        change (z :: r1 ++ r') with ((z :: r1) ++ r'). rewrite H2 by reflexivity. cbn [rbind]. now rewrite Ek.
    + eapply eoi_bind in IH as [_ L]; [|intros x; apply (eoi_ret _ (mksval false x []))]. destruct (L s a E) as (k & K & H). exists k. split; [exact K|]. intros r'. rewrite rd_s_eq, Ev. cbn [negb]. apply H.
  - apply eoi_ret.
  - intros c d t IHt fs' IHf. eapply eoi_ext; [intros x; symmetry; apply rd_f_cons|]. cbn [flex_f].
    apply eoi_bind. { apply eoi_if; [|apply eoi_ret]. eapply eoi_weak; [|apply IHt]. intros ->. reflexivity. }
    intros x. apply eoi_bind; [|intros y; apply eoi_ret]. eapply eoi_weak; [|apply IHf]. intros ->. apply orb_true_r.
Qed.
(* every message, records included: a decode that used up the input is not changed by what follows, once the tagged
   sections missing at the end of a flexible message are completed with their zero bytes *)
Theorem C13_end_of_input : forall cz s ver inp v, cz_shrinks cz -> rd_s cz ver s inp = ROk v [] ->
  exists k, (k <> 0%nat -> flex_s ver s = true) /\ forall rest, rd_s cz ver s (inp ++ repeat 0 k ++ rest) = ROk v rest.
Proof. intros cz s ver inp v Hc E. exact (proj2 (proj1 (proj2 (eoi_schema cz ver Hc)) s) inp v E). Qed.
Print Assumptions C13_end_of_input.

(* the length prefix of an encoded record, exactly *)
Theorem C15_length_prefix_exact : forall r l, rec_ok r -> wr_record r = Some l ->
  exists pre body, l = pre ++ body /\ rd_varint32 l = ROk (Z.of_nat (length body) + (if (2 ^ 49 <=? zigzag (r_ts r)) && (zigzag (r_ts r) <? 2 ^ 56) then 1 else 0)) body.
Proof.
  intros r l Hok E. destruct (rec_len_ok _ Hok) as [_ Hr]. destruct (wr_record_split r l Hok E) as (pre & body & -> & Hp & Hb).
  exists pre, body. split; [reflexivity|]. rewrite (rt_varint32' _ pre body Hr Hp). f_equal. unfold ts_gap in Hb. unfold zlen in Hb. lia.
Qed.
Print Assumptions C15_length_prefix_exact.

(* ---- the records area ---- *)
Lemma loop_leftover cz : cz_shrinks cz -> forall f s bs r, (length s < f)%nat -> rd_batches_loop cz f s = ROk bs r -> r = [] \/ next_batch_size r = Some 0.
Proof.
  intros Hcz. induction f as [|f IH]; intros s bs r Hf E; [lia|]. cbn [rd_batches_loop] in E.
  destruct (next_batch_size s) as [size|] eqn:En; [|discriminate]. destruct ((size =? 0) || (zlen s <? size)) eqn:Eo.
  - injection E as <- <-. destruct (zlen s <? size); [left; reflexivity|]. right. rewrite orb_false_r in Eo. apply Z.eqb_eq in Eo. subst. exact En.
  - apply rbind_ok in E as (b & lft & Eb & E). apply rbind_ok in E as (bs' & r' & Er & E). injection E as <- <-.
    apply shr_batch in Eb; [|exact Hcz]. rewrite firstn_length in Eb. eapply IH; [|exact Er]. rewrite app_length, skipn_length. lia.
Qed.
(* for every content of the declared area: a successful read leaves of it nothing, or fewer than 17 bytes, or bytes that
   start with a batch header whose length field is -12; everything after the area is left as it was *)
Theorem C17_leftover : forall cz c ver prev s d rest len r, cz_shrinks cz -> supported c ver = true -> rd_len (flexible c ver) 4 s = ROk len r -> 0 < len ->
  rd_records cz c ver prev s = ROk d rest -> exists lft, rest = lft ++ skipn (Z.to_nat len) r /\ len <= zlen r /\ zlen lft <= len /\
    (lft = [] \/ zlen lft < 17 \/ to_signed 32 (be_dec (firstn 4 (skipn 8 lft))) = -12).
Proof.
  intros cz c ver prev s d rest len r Hcz Hs El Hl E. unfold rd_records in E. rewrite Hs, El in E. cbn [negb rbind] in E.
  destruct (len <? 0) eqn:E0; [lia|]. destruct (len =? 0) eqn:E1; [lia|]. destruct (zlen r <? len) eqn:E2; [discriminate|].
  destruct (rd_batches cz (firstn (Z.to_nat len) r)) as [bs lft| |] eqn:Eb; try discriminate. injection E as <- <-.
  exists lft. split; [reflexivity|]. split; [lia|]. unfold rd_batches in Eb. pose proof Eb as Eb2. apply shr_batches_loop in Eb2; [|exact Hcz]. rewrite firstn_length in Eb2.
  split; [unfold zlen; lia|]. apply loop_leftover in Eb; [|exact Hcz|lia]. destruct Eb as [->|Eb]; [left; reflexivity|]. right.
  unfold next_batch_size in Eb. destruct (zlen lft <? 12) eqn:L12; [left; lia|]. destruct (zlen lft <? 17) eqn:L17; [left; lia|]. right.
  destruct ((to_signed 8 (nth 16 lft 0) <? 0) || (2 <? to_signed 8 (nth 16 lft 0))); [discriminate|]. cbv zeta in Eb. revert Eb. generalize (to_signed 32 (be_dec (firstn 4 (skipn 8 lft)))). intros z [= Eb]. lia.
Qed.
Print Assumptions C17_leftover.
Example leftover_case : exists c ver s d rest len r, supported c ver = true /\ rd_len (flexible c ver) 4 s = ROk len r /\ 0 < len /\ rd_records no_codec c ver (mkbatches false []) s = ROk d rest /\ rest = [1;2;3;9].
Proof. exists (mkctx 0 32767 32767 32767 0 32767 (-1) (-1) None false), 3, [0;0;0;3;1;2;3;9]. do 4 eexists. repeat split. Qed.
