(* Decoding and what follows: the exact form of locality, covering inputs that end before the (optional)
   tagged section *)
From Coq Require Import List ZArith Bool Lia ZifyBool ZifyNat.
From Verif Require Import M_KBase S_KBase L_KBase L_KBase2 M_KFields S_KFields L_KFields L_KLoc M_KRecords S_KRecords L_KIo L_KRecords L_KBatch M_KSchema S_KSchema L_KSchema L_KSchLoc.
Import ListNotations.
Open Scope Z_scope.

Definition cloc (fx : Prop) {A} (rd : list Z -> rres A) : Prop := forall s a r, rd s = ROk a r ->
  exists u k, s = u ++ r /\ (k <> 0%nat -> r = [] /\ fx) /\
    forall r', (r' = [] -> r = []) -> rd (u ++ repeat 0 k ++ r') = ROk a r'.
Lemma loc_cloc fx {A} (rd : list Z -> rres A) : loc rd -> cloc fx rd.
Proof. intros H s a r E. destruct (H s a r E) as (u & -> & Hu). exists u, 0%nat. split; [reflexivity|]. split; [congruence|]. exact Hu. Qed.
Lemma cloc_ext fx {A} (f g : list Z -> rres A) : (forall s, f s = g s) -> cloc fx f -> cloc fx g.
Proof.
  intros H L s a r E. rewrite <- H in E. destruct (L _ _ _ E) as (u & k & Hu & Hk & Hr). exists u, k. split; [exact Hu|]. split; [exact Hk|].
  intros r' Hr'. rewrite <- H. now apply Hr.
Qed.
Lemma cloc_ret fx {A} (a : A) : cloc fx (fun s => ROk a s). Proof. apply loc_cloc, loc_ret. Qed.
Lemma cloc_if fx {A} (b : bool) (f g : list Z -> rres A) : cloc fx f -> cloc fx g -> cloc fx (fun s => if b then f s else g s).
Proof. destruct b; auto. Qed.
Lemma cloc_bind (fx : Prop) {A B} (m : list Z -> rres A) (f : A -> list Z -> rres B) :
  cloc fx m -> (forall a, cloc fx (f a)) -> cloc fx (fun s => rbind (m s) f).
Proof.
  intros Hm Hf s b r E. apply rbind_ok in E as (a & r1 & E1 & E2).
  destruct (Hm _ _ _ E1) as (u1 & k1 & -> & K1 & H1). destruct (Hf a _ _ _ E2) as (u2 & k2 & -> & K2 & H2).
  exists (u1 ++ u2), (k1 + k2)%nat. split; [now rewrite app_assoc|]. split.
  - intros Hk. destruct (Nat.eq_dec k2 0) as [->|X]; [|now apply K2]. destruct K1 as [E Hfx]; [lia|]. apply app_eq_nil in E as [_ ->]. auto.
  - intros r' Hr'. destruct (Nat.eq_dec k1 0) as [->|X].
    + cbn [plus]. rewrite <- app_assoc. specialize (H1 (u2 ++ repeat 0 k2 ++ r')). cbn [repeat app] in H1. rewrite H1.
      * cbn [rbind]. now apply H2.
      * intros Y. apply app_eq_nil in Y as [-> Y]. apply app_eq_nil in Y as [_ ->]. now rewrite Hr'.
    + destruct (K1 X) as [Y _]. apply app_eq_nil in Y as [-> ->]. rewrite app_nil_r, repeat_app, <- app_assoc. rewrite H1; [|reflexivity].
      cbn [rbind]. apply (H2 r' Hr').
Qed.
Lemma cloc_items fx {A} (rd : list Z -> rres A) n : cloc fx rd -> cloc fx (rd_items rd n).
Proof.
  intros H. induction n; cbn [rd_items]; [apply cloc_ret|]. apply cloc_bind; [exact H|]. intros a.
  apply cloc_bind; [exact IHn|]. intros l. apply cloc_ret.
Qed.
Lemma cloc_arr fx {A} c ver (rd : list Z -> rres A) : cloc fx rd -> cloc fx (rd_arr c ver rd).
Proof.
  intros H. unfold rd_arr. apply cloc_if; [apply cloc_ret|]. apply cloc_bind; [apply loc_cloc, loc_len|]. intros len.
  apply cloc_if; [apply cloc_if; [apply cloc_ret|apply loc_cloc, loc_err]|].
  apply cloc_bind; [now apply cloc_items|]. intros l. apply cloc_ret.
Qed.
Lemma rd_known_none cz ver fs v : rd_known cz ver fs [] v = Some v.
Proof.
  induction fs as [|c d t fs' IH]; [reflexivity|]. rewrite rd_known_cons. destruct v as [x y]. cbn [fst snd fold_left].
  destruct (c_tag c); cbn [obind]; rewrite IH; reflexivity.
Qed.
(* tagged sections of a non-empty input *)
Lemma loc_tags_ne s a r : s <> [] -> rd_tags s = ROk a r -> exists u, u <> [] /\ s = u ++ r /\ forall r', (r' = [] -> r = []) -> rd_tags (u ++ r') = ROk a r'.
Proof.
  intros Hs E. unfold rd_tags in E. destruct (rd_uvarint32 s) as [n s'|e|] eqn:Eu; try discriminate.
  - destruct (loc_uvarint32 _ _ _ Eu) as (u & -> & H). destruct (loc_items rd_tag (Z.to_nat n) loc_tag _ _ _ E) as (v & -> & H2).
    exists (u ++ v). split; [|split; [now rewrite app_assoc|]].
    + intros X. apply app_eq_nil in X as [-> ->]. cbn [app] in *. specialize (H []). clear - Eu. destruct (loc_uvarint32 _ _ _ Eu) as (u & E & _).
      assert (length u = 0)%nat by (apply (f_equal (@length Z)) in E; rewrite app_length in E; lia). destruct u; [|discriminate].
      unfold rd_uvarint32 in Eu. assert (forall f i x s n q, rd_uvarint_go f i x s = ROk n q -> (length q < length s)%nat) as G.
      { clear. induction f; intros i x s n q; cbn [rd_uvarint_go]; [discriminate|]. destruct s as [|b s]; [discriminate|].
        destruct (b <? 128); [destruct ((i =? 9) && (1 <? b)); [discriminate|]; intros [= _ <-]; cbn; lia|]. intros E. apply IHf in E. cbn. lia. }
      apply rbind_ok in Eu as (w & q & Eu & Er). apply G in Eu. destruct (2 ^ 32 <=? w); [discriminate|]. injection Er as -> ->. lia.
    + intros r' Hr'. unfold rd_tags. rewrite <- app_assoc, H; [now apply H2|]. intros X. apply app_eq_nil in X as [-> X]. now rewrite Hr'.
  - destruct e; [|discriminate]. apply uvarint_eof in Eu as ->. congruence.
Qed.
Lemma cloc_struct (fx : Prop) {A B} (m : list Z -> rres A) (fin : A -> B) (k : A -> list rawtag -> option B) : fx ->
  cloc fx m -> (forall v, k v [] = Some (fin v)) ->
  cloc fx (fun s => rbind (m s) (fun v r => match r with
    | [] => ROk (fin v) []
    | _ => rbind (rd_tags r) (fun raws r' => match k v raws with Some v' => ROk v' r' | None => RErr false end)
    end)).
Proof.
  intros Hfx Hm Hk s b r E. apply rbind_ok in E as (v & r1 & E1 & E2). destruct r1 as [|z r1].
  - injection E2 as <- <-. destruct (Hm _ _ _ E1) as (u1 & k1 & -> & K1 & H1). exists u1, (k1 + 1)%nat. split; [reflexivity|]. split; [auto|].
    intros r' _. rewrite repeat_app. cbn [repeat]. rewrite <- (app_assoc (repeat 0 k1) [0] r'). rewrite H1 by reflexivity. cbn [rbind app].
    change (rd_tags (0 :: r')) with (ROk (@nil rawtag) r'). cbn [rbind]. rewrite Hk. reflexivity.
  - apply rbind_ok in E2 as (raws & r2 & E2 & E3). destruct (k v raws) as [v'|] eqn:Ek; [|discriminate]. injection E3 as -> ->.
    destruct (Hm _ _ _ E1) as (u1 & k1 & -> & K1 & H1). destruct (loc_tags_ne (z :: r1) _ _ ltac:(discriminate) E2) as (u2 & N2 & Eu2 & H2).
    destruct (Nat.eq_dec k1 0) as [->|X]; [|destruct (K1 X); discriminate]. cbn [repeat app] in H1.
    exists (u1 ++ u2), 0%nat. split; [rewrite <- app_assoc, <- Eu2; reflexivity|]. split; [congruence|]. intros r' Hr'. rewrite <- app_assoc. cbn [repeat app].
    rewrite H1; [|intros X; apply app_eq_nil in X as [X _]; congruence]. cbn [rbind].
    destruct (u2 ++ r') as [|z' w] eqn:Ew; [apply app_eq_nil in Ew as [Ew _]; congruence|]. rewrite <- Ew, H2 by assumption. cbn [rbind]. now rewrite Ek.
Qed.

Lemma cloc_weak (P Q : Prop) {A} (rd : list Z -> rres A) : (P -> Q) -> cloc P rd -> cloc Q rd.
Proof. intros H L s a r E. destruct (L s a r E) as (u & k & Hu & Hk & Hr). exists u, k. split; [exact Hu|]. split; [|exact Hr]. intros X. destruct (Hk X). auto. Qed.
Lemma cloc_schema cz ver :
  (forall t, norec_t t = true -> forall reg c prev, cloc (flex_t ver t = true) (rd_t cz reg c ver t prev)) /\
  (forall s, norec_s s = true -> cloc (flex_s ver s = true) (rd_s cz ver s)) /\
  (forall fs, norec_f fs = true -> cloc (flex_f ver fs = true) (rd_f cz ver fs)).
Proof.
  apply schema_ind.
  - intros p H reg c prev. rewrite rd_t_prim. apply loc_cloc, loc_p, norec_p, H.
  - intros p H reg c prev. eapply cloc_ext; [intros s; symmetry; apply rd_t_arr|]. apply loc_cloc, loc_arr, loc_p, norec_a, H.
  - intros s IH H reg c prev. eapply cloc_ext; [intros x; symmetry; apply rd_t_struct|]. apply cloc_if; [apply cloc_ret|now apply IH].
  - intros s IH H reg c prev. eapply cloc_ext; [intros x; symmetry; apply rd_t_arrs|]. apply cloc_arr. now apply IH.
  - intros flo fhi fs IH H. specialize (IH H). eapply cloc_ext; [intros x; symmetry; apply rd_s_eq|]. cbn [flex_s].
    destruct (in_vers flo fhi ver) eqn:Ev; cbn [negb orb].
    + eapply cloc_ext; [|apply (cloc_struct (true = true) (rd_f cz ver fs) (fun v => mksval false v []) (fun v raws =>
        match rd_known cz ver fs raws v with Some v' => Some (mksval false v' (filter (fun t => negb (has_tag fs (fst t))) raws)) | None => None end) eq_refl)].
      * intros s. cbv beta. destruct (rd_f cz ver fs s) as [v r| |]; try reflexivity. cbn [rbind]. destruct r as [|z r]; [reflexivity|].
        destruct (rd_tags (z :: r)) as [raws r'| |]; try reflexivity. cbn [rbind]. destruct (rd_known cz ver fs raws v); reflexivity.
      * eapply cloc_weak; [|exact IH]. reflexivity.
      * intros v. rewrite rd_known_none. reflexivity.
    + apply cloc_bind; [exact IH|]. intros a. apply cloc_ret.
  - intros _. apply cloc_ret.
  - intros c d t IHt fs' IHf H. cbn [norec_f] in H. apply andb_true_iff in H as [H1 H2]. eapply cloc_ext; [intros x; symmetry; apply rd_f_cons|]. cbn [flex_f].
    apply cloc_bind. { apply cloc_if; [|apply cloc_ret]. eapply cloc_weak; [|apply IHt, H1]. intros ->. reflexivity. }
    intros x. apply cloc_bind; [|intros y; apply cloc_ret]. eapply cloc_weak; [|apply IHf, H2]. intros ->. apply orb_true_r.
Qed.
