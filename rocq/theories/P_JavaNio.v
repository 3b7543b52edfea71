(* C84: the Java bindings. *)
From Coq Require Import List Bool Arith NArith Lia.
From Verif Require Import M_JavaNio.
Import ListNotations.

(* ---- keys ---- *)
(* operation and id of a key come back; the ids are the 32-bit numbers *)
Theorem C84_key : forall op id, (op < 256)%N -> (id < 2 ^ 32)%N -> operation (new_key op id) = op /\ key_id (new_key op id) = id.
Proof.
  intros op id Ho Hi. unfold operation, key_id, new_key.
  assert (E1: N.land op 255 = op). { change 255%N with (N.ones 8). rewrite N.land_ones. apply N.mod_small. exact Ho. }
  assert (E2: N.shiftr id 32 = 0%N). { rewrite N.shiftr_div_pow2. apply N.div_small. exact Hi. }
  rewrite E1. split.
  - rewrite N.shiftr_lor, E2, N.lor_0_r, N.shiftr_shiftl_r by lia. rewrite N.sub_diag, N.shiftr_0_r. exact E1.
  - apply N.bits_inj. intros b. rewrite N.land_spec, N.lor_spec. destruct (N.ltb_spec b 32) as [Hb|Hb].
    + rewrite N.shiftl_spec_low by exact Hb. rewrite N.ones_spec_low by exact Hb. rewrite andb_true_r. reflexivity.
    + rewrite N.ones_spec_high by exact Hb. rewrite andb_false_r. symmetry. destruct (N.eq_dec id 0) as [->|Hz]; [apply N.bits_0|]. apply N.bits_above_log2. apply N.log2_lt_pow2; [lia|]. eapply N.lt_le_trans; [exact Hi|]. apply N.pow_le_mono_r; lia.
Qed.
Print Assumptions C84_key.
Definition wakes (k : N) : bool := N.eqb (operation k) OP_WAKEUP.
Definition for_id (i : N) (k : N) : bool := negb (wakes k) && N.eqb (key_id k) i.
Lemma id_lor : forall a b, key_id (N.lor a b) = N.lor (key_id a) (key_id b).
Proof. intros. unfold key_id. apply N.land_lor_distr_l. Qed.
Lemma merge_fst : forall k sel, (In (key_id k) (map fst sel) -> map fst (merge k sel) = map fst sel) /\ (~ In (key_id k) (map fst sel) -> merge k sel = sel ++ [(key_id k, k)]).
Proof.
  intros k sel. induction sel as [|[i v] r [IH1 IH2]]; [cbn; split; [tauto|reflexivity]|]. cbn [merge map fst In app]. destruct (N.eqb_spec i (key_id k)) as [E|E]; split.
  - reflexivity.
  - intros N. elim N. now left.
  - intros [H|H]; [congruence|]. cbn [map fst]. now rewrite IH1.
  - intros N. rewrite IH2 by tauto. reflexivity.
Qed.
Lemma merge_in : forall k sel i v, NoDup (map fst sel) -> (In (i, v) (merge k sel) <-> (i <> key_id k /\ In (i, v) sel) \/ (i = key_id k /\ ((exists v0, In (i, v0) sel /\ v = N.lor v0 k) \/ (~ In i (map fst sel) /\ v = k)))).
Proof.
  intros k sel i v. induction sel as [|[j w] r IH]; intros Hn; cbn [merge map fst In].
  - split; [intros [E|[]]; injection E as <- <-; right; split; [reflexivity|right; auto]|]. intros [[_ []]|[-> [(v0 & [] & _)|[_ ->]]]]. now left.
  - cbn [map fst] in Hn. inversion Hn as [|? ? Hj Hr]; subst. specialize (IH Hr). destruct (N.eqb_spec j (key_id k)) as [E|E]; cbn [In].
    + subst j. split.
      * intros [X|X]; [injection X as <- <-; right; split; [reflexivity|left; exists w; auto]|]. left. split; [|now right]. intros ->. apply Hj. apply in_map_iff. now exists (key_id k, v).
      * intros [[H1 [X|X]]|[-> [(v0 & [X|X] & ->)|[H1 _]]]]; [congruence|auto|left; congruence|elim Hj; apply in_map_iff; now exists (key_id k, v0)|elim H1; now left].
    + rewrite IH. split.
      * intros [X|[[H1 H2]|[-> [(v0 & H1 & ->)|[H1 ->]]]]]; [injection X as <- <-; auto|auto|right; split; [reflexivity|left; exists v0; auto]|right; split; [reflexivity|right; split; [|reflexivity]; intros [H|H]; tauto]].
      * intros [[H1 [X|X]]|[-> [(v0 & [X|X] & ->)|[H1 ->]]]]; [left; congruence|auto|congruence|right; right; split; [reflexivity|left; exists v0; auto]|right; right; split; [reflexivity|right; split; [|reflexivity]; intros H; apply H1; now right]].
Qed.
Lemma collected : forall q, let sel := fold_left (fun sel k => if N.eqb (operation k) OP_WAKEUP then sel else merge k sel) q [] in
  NoDup (map fst sel) /\ (forall i v, In (i, v) sel -> key_id v = i /\ (forall b, N.testbit v b = existsb (fun k => for_id i k && N.testbit k b) q)) /\ (forall i, In i (map fst sel) <-> exists k, In k q /\ for_id i k = true).
Proof.
  intros q. cbv zeta. induction q as [|k q IH] using rev_ind.
  - cbn. split; [constructor|]. split; [intros i v []|]. intros i. split; [tauto|intros (k & [] & _)].
  - rewrite fold_left_app. cbn [fold_left]. set (sel := fold_left (fun sel k => if N.eqb (operation k) OP_WAKEUP then sel else merge k sel) q []) in *. destruct IH as (I1 & I2 & I3).
    fold (wakes k). destruct (wakes k) eqn:Ew.
    + split; [exact I1|]. split.
      * intros i v Hi. destruct (I2 i v Hi) as [J1 J2]. split; [exact J1|]. intros b. rewrite existsb_app. cbn [existsb]. unfold for_id at 2. rewrite Ew. cbn. now rewrite orb_false_r.
      * intros i. rewrite I3. split; intros (k' & H1 & H2); exists k'; [split; [apply in_or_app; now left|exact H2]|]. apply in_app_or in H1. destruct H1 as [H1|[<-|[]]]; [auto|]. unfold for_id in H2. rewrite Ew in H2. discriminate.
    + assert (Fk: for_id (key_id k) k = true) by (unfold for_id; rewrite Ew, N.eqb_refl; reflexivity).
      assert (Fn: forall i, i <> key_id k -> for_id i k = false) by (intros i Hi; unfold for_id; destruct (N.eqb_spec (key_id k) i); [congruence|apply andb_false_r]).
      split; [|split].
      * destruct (merge_fst k sel) as [M1 M2]. destruct (in_dec N.eq_dec (key_id k) (map fst sel)) as [Y|Nn]; [rewrite M1 by exact Y; exact I1|]. rewrite M2 by exact Nn. rewrite map_app. cbn. apply (NoDup_Add (a := key_id k) (l := map fst sel)); [|split; [exact I1|exact Nn]]. pose proof (Add_app (key_id k) (map fst sel) []) as A. now rewrite app_nil_r in A.
      * intros i v Hi. apply merge_in in Hi; [|exact I1]. destruct Hi as [[H1 H2]|[-> [(v0 & H2 & ->)|[H1 ->]]]].
        -- destruct (I2 i v H2) as [J1 J2]. split; [exact J1|]. intros b. rewrite existsb_app. cbn [existsb]. rewrite (Fn i H1). cbn. rewrite orb_false_r. apply J2.
        -- destruct (I2 _ _ H2) as [J1 J2]. split; [rewrite id_lor, J1; apply N.lor_diag|]. intros b. rewrite N.lor_spec, existsb_app, <- J2. cbn [existsb]. rewrite Fk. cbn. now rewrite orb_false_r.
        -- split; [reflexivity|]. intros b. rewrite existsb_app. cbn [existsb]. rewrite Fk. cbn. rewrite orb_false_r.
           assert (Z: existsb (fun k0 => for_id (key_id k) k0 && N.testbit k0 b) q = false). { destruct (existsb _ q) eqn:X; [|reflexivity]. apply existsb_exists in X. destruct X as (k' & X1 & X2). apply andb_true_iff in X2. destruct X2 as [X2 _]. elim H1. apply I3. eauto. }
           now rewrite Z.
      * intros i. split.
        -- intros Hi. apply in_map_iff in Hi. destruct Hi as ([i' v] & <- & Hi). cbn [fst]. apply merge_in in Hi; [|exact I1]. destruct Hi as [[H1 H2]|[-> _]].
           ++ assert (H3: In i' (map fst sel)) by (apply in_map_iff; now exists (i', v)). apply I3 in H3. destruct H3 as (k' & X1 & X2). exists k'. split; [apply in_or_app; now left|exact X2].
           ++ exists k. split; [apply in_or_app; right; now left|exact Fk].
        -- intros (k' & H1 & H2). apply in_app_or in H1. destruct H1 as [H1|[<-|[]]].
           ++ assert (H3: In i (map fst sel)) by (apply I3; eauto). destruct (merge_fst k sel) as [M1 M2]. destruct (in_dec N.eq_dec (key_id k) (map fst sel)) as [Y|Nn]; [rewrite M1 by exact Y; exact H3|]. rewrite M2 by exact Nn. rewrite map_app. apply in_or_app. now left.
           ++ unfold for_id in H2. apply andb_true_iff in H2. destruct H2 as [_ H2]. apply N.eqb_eq in H2. subst i. destruct (merge_fst k sel) as [M1 M2]. destruct (in_dec N.eq_dec (key_id k) (map fst sel)) as [Y|Nn]; [rewrite M1 by exact Y; exact Y|]. rewrite M2 by exact Nn. rewrite map_app. apply in_or_app. right. now left.
Qed.
(* what is in the queue is reported: one key for each id, with all its operations, wake-ups left out *)
Theorem C84_collect : forall q, NoDup (map key_id (collect q)) /\
  (forall k, In k (collect q) -> forall b, N.testbit k b = existsb (fun k' => negb (wakes k') && N.eqb (key_id k') (key_id k) && N.testbit k' b) q) /\
  (forall i, (exists k, In k (collect q) /\ key_id k = i) <-> exists k, In k q /\ wakes k = false /\ key_id k = i).
Proof.
  intros q. destruct (collected q) as (C1 & C2 & C3). unfold collect. set (sel := fold_left _ q []) in *. clearbody sel.
  assert (E: map key_id (map snd sel) = map fst sel). { rewrite map_map. apply map_ext_in. intros [i v] Hi. cbn. apply (C2 i v Hi). }
  split; [rewrite E; exact C1|]. split.
  - intros k Hk b. apply in_map_iff in Hk. destruct Hk as ([i v] & <- & Hi). cbn [snd]. destruct (C2 i v Hi) as [J1 J2]. rewrite J2, J1. reflexivity.
  - intros i. split.
    + intros (k & Hk & <-). assert (H: In (key_id k) (map fst sel)) by (rewrite <- E; apply in_map, Hk). apply C3 in H. destruct H as (k' & H1 & H2). unfold for_id in H2. apply andb_true_iff in H2. destruct H2 as [H2 H3]. apply N.eqb_eq in H3. exists k'. repeat split; auto. now apply negb_true_iff in H2.
    + intros (k & H1 & H2 & H3). assert (H: In i (map fst sel)) by (apply C3; exists k; split; [exact H1|]; unfold for_id; rewrite H2, H3, N.eqb_refl; reflexivity). rewrite <- E in H. apply in_map_iff in H. destruct H as (v & Hv & Hi). eauto.
Qed.
Print Assumptions C84_collect.
Definition ready (l : list (N * bool)) : list N := map fst (filter (fun c => snd c) l).
Opaque CAP.
Lemma fill_room : forall op cs q, length q + length (ready cs) <= CAP -> fill op cs q = q ++ map (new_key op) (ready cs).
Proof.
  intros op cs. induction cs as [|[i r] cs IH]; intros q H; [cbn; now rewrite app_nil_r|]. unfold fill, ready in *. cbn [fold_left filter snd fst] in *. destruct r; [|apply IH; exact H].
  cbn [map length fst] in *. unfold offer at 2. destruct (Nat.ltb_spec (length q) CAP); [|lia]. rewrite IH by (rewrite app_length; cbn; lia). cbn. now rewrite <- app_assoc.
Qed.
(* nothing that is ready is left out while the queue has room for it, and nothing else is reported than what was queued or is ready *)
Theorem C84_select : forall z rs ws late q, length q + length (ready rs) + length (ready ws) <= CAP -> (q <> [] \/ ready rs <> [] \/ ready ws <> []) ->
  select z rs ws late q = (Some (collect (q ++ map (new_key OP_READ) (ready rs) ++ map (new_key OP_WRITE) (ready ws))), []).
Proof.
  intros z rs ws late q H1 H2. unfold select. rewrite (fill_room OP_READ) by lia. rewrite (fill_room OP_WRITE) by (rewrite app_length, map_length; lia). rewrite <- app_assoc.
  destruct (q ++ map (new_key OP_READ) (ready rs) ++ map (new_key OP_WRITE) (ready ws)) eqn:E; [|reflexivity]. apply app_eq_nil in E. destruct E as [E1 E2]. apply app_eq_nil in E2. destruct E2 as [E2 E3]. apply map_eq_nil in E2, E3. tauto.
Qed.
Print Assumptions C84_select.
Theorem C84_ready_reported : forall z rs ws late q i, length q + length (ready rs) + length (ready ws) <= CAP -> (i < 2 ^ 32)%N -> In (i, true) rs ->
  exists ks k, select z rs ws late q = (Some ks, []) /\ In k ks /\ key_id k = i /\ N.testbit k 32 = true.
Proof.
  intros z rs ws late q i H Hi Hr. assert (Hin: In i (ready rs)) by (unfold ready; apply in_map_iff; exists (i, true); split; [reflexivity|apply filter_In; auto]).
  rewrite C84_select by (auto; right; left; intros E; rewrite E in Hin; destruct Hin).
  set (Q := q ++ map (new_key OP_READ) (ready rs) ++ map (new_key OP_WRITE) (ready ws)). destruct (C84_collect Q) as (_ & C2 & C3).
  destruct (C84_key OP_READ i) as [K1 K2]; [reflexivity|exact Hi|].
  assert (HQ: In (new_key OP_READ i) Q) by (unfold Q; apply in_or_app; right; apply in_or_app; left; apply in_map, Hin).
  assert (HW: wakes (new_key OP_READ i) = false) by (unfold wakes; rewrite K1; reflexivity).
  destruct (proj2 (C3 i)) as (k & Hk & Ek); [exists (new_key OP_READ i); auto|].
  exists (collect Q), k. repeat split; auto. rewrite (C2 k Hk). apply existsb_exists. exists (new_key OP_READ i). split; [exact HQ|]. rewrite HW, K2, Ek, N.eqb_refl. cbn [negb andb].
  unfold new_key. rewrite N.lor_spec. apply orb_true_iff. left. rewrite N.shiftl_spec_high by lia. reflexivity.
Qed.
Print Assumptions C84_ready_reported.
(* the queue has 64 places: with more keys ready than that, one that comes late in the order of the map is never reported *)
Lemma fill_full : forall op cs q, CAP <= length q -> fill op cs q = q.
Proof. intros op cs. induction cs as [|[i []] cs IH]; intros q H; [reflexivity| |apply IH, H]. unfold fill in *. cbn [fold_left snd fst]. unfold offer at 2. destruct (Nat.ltb_spec (length q) CAP); [lia|]. apply IH, H. Qed.
Theorem C84_starved_refuted : forall z front back ws late i, length (ready front) = CAP -> (forall j, In j (ready front) -> (j < 2 ^ 32)%N /\ j <> i) ->
  exists ks, select z (front ++ (i, true) :: back) ws late [] = (Some ks, []) /\ forall k, In k ks -> key_id k <> i.
Proof.
  intros z front back ws late i HL HJ.
  assert (E: fill OP_WRITE ws (fill OP_READ (front ++ (i, true) :: back) []) = map (new_key OP_READ) (ready front)).
  { unfold fill at 2. rewrite fold_left_app. fold (fill OP_READ front []). rewrite (fill_room OP_READ front []) by (rewrite HL; apply Nat.le_refl). change ([] ++ map (new_key OP_READ) (ready front)) with (map (new_key OP_READ) (ready front)). set (Q := map (new_key OP_READ) (ready front)). assert (LQ: length Q = CAP) by (unfold Q; now rewrite map_length).
    fold (fill OP_READ ((i, true) :: back) Q). rewrite (fill_full OP_READ ((i, true) :: back) Q) by lia. apply fill_full. lia. }
  unfold select. rewrite E. exists (collect (map (new_key OP_READ) (ready front))). split.
  - destruct (map (new_key OP_READ) (ready front)) eqn:X; [|reflexivity]. apply (f_equal (@length N)) in X. rewrite map_length, HL in X. discriminate X.
  - intros k Hk Ek. destruct (C84_collect (map (new_key OP_READ) (ready front))) as (_ & _ & C3). destruct (proj1 (C3 i)) as (k' & H1 & _ & H3); [eauto|]. apply in_map_iff in H1. destruct H1 as (j & <- & Hj). destruct (HJ j Hj) as [J1 J2]. destruct (C84_key OP_READ j) as [_ K]; [reflexivity|exact J1|]. congruence.
Qed.
Print Assumptions C84_starved_refuted.
(* a wake-up ends a Select with no key; without one, and nothing ready, it ends with the timeout *)
Theorem C84_wakeup : forall z late, select z [] [] late [new_key OP_WAKEUP 0] = (Some [], []) /\ select true [] [] late [] = (None, []) /\ select z [] [] [] [] = (None, []) /\
  (forall k r, select false [] [] (k :: r) [] = (Some (collect (k :: r)), [])).
Proof. intros [] late; repeat split; reflexivity. Qed.
Print Assumptions C84_wakeup.
Example C84_select_example : select true [(7, true); (8, false); (9, true)]%N [(7, true)]%N [] [new_key OP_ACCEPT 3; new_key OP_WAKEUP 0] = (Some [new_key OP_ACCEPT 3; new_key 5 7; new_key OP_READ 9]%N, []).
Proof. reflexivity. Qed.
