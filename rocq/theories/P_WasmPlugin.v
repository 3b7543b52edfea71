(* C46, C48, C49, C50: WASM plugin instances, plugin manager, VM reference counts, filter chains. *)
From Coq Require Import List Arith ZArith Bool Lia.
From Verif Require Import M_WasmPlugin.
Import ListNotations.
Open Scope list_scope.
Lemma u32_eq : forall a b, u32 a = u32 b <-> exists k, (a = b + k * 2 ^ 32)%Z.
Proof.
  intros a b. unfold u32. split.
  - intros H. exists (a / 2 ^ 32 - b / 2 ^ 32)%Z. pose proof (Z.div_mod a (2 ^ 32) ltac:(lia)). pose proof (Z.div_mod b (2 ^ 32) ltac:(lia)). lia.
  - intros (k & ->). now rewrite Z.mod_add by lia.
Qed.
Lemma u32_u32 : forall a b, u32 (u32 a + b) = u32 (a + b).
Proof. intros. unfold u32. rewrite Zplus_mod_idemp_l. reflexivity. Qed.
Lemma u32_small : forall a, (0 <= a < 2 ^ 32)%Z -> u32 a = a.
Proof. intros. unfold u32. now apply Z.mod_small. Qed.
(* ================= C46 ================= *)
Definition is_get (g : gres) : bool := match g with GInst _ => true | _ => false end.
Definition is_rel (o : pop) : bool := match o with PRelease _ => true | _ => false end.
Definition handed_out (gs : list gres) : Z := Z.of_nat (length (List.filter is_get gs)).
Definition released (ops : list pop) : Z := Z.of_nat (length (List.filter is_rel ops)).
Lemma tries_count : forall alive k p g p', get_tries alive p k = (g, p') -> p_bcount p' = (if is_get g then u32 (p_bcount p + 1) else p_bcount p) /\ p_inst p' = p_inst p /\ p_count p' = p_count p.
Proof.
  induction k as [|k IH]; intros p g p' H; cbn [get_tries] in H; [injection H as <- <-; auto|]. destruct (nth _ (p_inst p) None) as [i|]; [|injection H as <- <-; cbn; auto].
  destruct (alive i); [injection H as <- <-; cbn; auto|]. apply IH in H. exact H.
Qed.
(* The borrowed count is always the number of hand-outs minus the number of releases, modulo 2^32 (it is a uint32). *)
Theorem C46_borrowed_count : forall alive ops p gs p', prun alive ops p = (gs, p') -> u32 (p_bcount p') = u32 (p_bcount p + handed_out gs - released ops)%Z.
Proof.
  induction ops as [|[|i] ops IH]; intros p gs p' H; cbn [prun] in H.
  - injection H as <- <-. unfold handed_out, released. cbn. f_equal. lia.
  - destruct (get_instance alive p) as [g p1] eqn:E. destruct (prun alive ops p1) as [gs2 p2] eqn:E2. injection H as <- <-. apply IH in E2. rewrite E2. apply tries_count in E. destruct E as (E & _). rewrite E. unfold handed_out, released. cbn [List.filter is_rel].
    destruct (is_get g); [|reflexivity]. cbn [length]. unfold Z.sub. rewrite <- Z.add_assoc, u32_u32. f_equal. lia.
  - apply IH in H. rewrite H. cbn [p_bcount release_instance]. unfold released. cbn [List.filter is_rel length]. unfold Z.sub. rewrite <- Z.add_assoc, u32_u32. f_equal. lia.
Qed.
Print Assumptions C46_borrowed_count.
Lemma u32_range : forall z, (0 <= u32 z < 2 ^ 32)%Z.
Proof. intros. unfold u32. apply Z.mod_pos_bound. lia. Qed.
Lemma prun_range : forall alive ops p gs p', prun alive ops p = (gs, p') -> (0 <= p_bcount p < 2 ^ 32)%Z -> (0 <= p_bcount p' < 2 ^ 32)%Z.
Proof.
  induction ops as [|[|i] ops IH]; intros p gs p' H Hr; cbn [prun] in H.
  - injection H as <- <-. assumption.
  - destruct (get_instance alive p) as [g p1] eqn:E. destruct (prun alive ops p1) as [gs2 p2] eqn:E2. injection H as <- <-. apply IH in E2; [assumption|]. apply tries_count in E. destruct E as (E & _). rewrite E. destruct (is_get g); [apply u32_range|assumption].
  - apply IH in H; [assumption|]. cbn [p_bcount release_instance]. apply u32_range.
Qed.
(* From a plugin with nothing borrowed, with at least as many hand-outs as releases and fewer than 2^32 of them, the count
   is the exact number. *)
Theorem C46_borrowed_count_exact : forall alive ops p gs p', p_bcount p = 0%Z -> prun alive ops p = (gs, p') -> (released ops <= handed_out gs < 2 ^ 32)%Z -> p_bcount p' = (handed_out gs - released ops)%Z.
Proof.
  intros alive ops p gs p' H0 H Hr. assert (R: (0 <= p_bcount p' < 2 ^ 32)%Z) by (eapply prun_range; [exact H|rewrite H0; lia]). apply C46_borrowed_count in H. rewrite H0 in H. rewrite (u32_small _ R) in H. rewrite H, u32_small; unfold released in *; lia.
Qed.
Print Assumptions C46_borrowed_count_exact.
(* Without releases in between, and as long as every instance can be acquired, hand-outs go round robin: the j-th hand-out is
   instance (index + j) modulo the number of instances. *)
Theorem C46_round_robin : forall n p gs p' insts, p_inst p = map Some insts -> insts <> [] -> (0 <= p_index p)%Z -> (p_index p + Z.of_nat n <= 2 ^ 32)%Z ->
  prun (fun _ => true) (repeat PGet n) p = (gs, p') ->
  forall j, (j < n)%nat -> nth_error gs j = option_map GInst (nth_error insts (Z.to_nat ((p_index p + Z.of_nat j) mod Z.of_nat (length insts)))).
Proof.
  induction n as [|n IH]; intros p gs p' insts Hi Hn H0 Hm H j Hj; [lia|]. cbn [repeat prun] in H. destruct (get_instance (fun _ => true) p) as [g p1] eqn:E. destruct (prun (fun _ => true) (repeat PGet n) p1) as [gs2 p2] eqn:E2. injection H as <- <-.
  assert (L: (0 < length insts)%nat) by (destruct insts; [contradiction|cbn; lia]). unfold get_instance in E. rewrite Hi, map_length in E. destruct (length insts) as [|k] eqn:El; [lia|]. cbn [get_tries] in E. rewrite Hi in E. rewrite map_length, El in E.
  set (idx := Z.to_nat (p_index p mod Z.of_nat (S k))) in *. assert (Hidx: (idx < length insts)%nat). { unfold idx. rewrite El. pose proof (Z.mod_pos_bound (p_index p) (Z.of_nat (S k)) ltac:(lia)). lia. }
  destruct (nth_error insts idx) as [i|] eqn:Ei; [|apply nth_error_None in Ei; lia]. assert (Ein: nth idx (map Some insts) None = Some i). { apply nth_error_nth. rewrite nth_error_map, Ei. reflexivity. } rewrite Ein in E. injection E as <- <-.
  destruct j as [|j].
  - cbn [nth_error]. rewrite Z.add_0_r. fold idx. now rewrite Ei.
  - cbn [nth_error]. pose (q := mkpl (p_inst p) (p_cap p) (u32 (p_index p + 1)) (p_count p) (u32 (p_bcount p + 1)) (upd (p_borrowed p) i (Some (u32 (match p_borrowed p i with Some b => b | None => 0 end + 1))))).
    destruct n as [|n]; [lia|]. assert (Eu: u32 (p_index p + 1) = (p_index p + 1)%Z) by (apply u32_small; lia).
    rewrite (IH q gs2 p2 insts); [cbn [p_index q]; rewrite Eu, El; do 4 f_equal; lia|exact Hi|assumption|cbn [p_index q]; lia|cbn [p_index q]; lia| |lia]. unfold q. rewrite <- Hi in E2. exact E2.
Qed.
Print Assumptions C46_round_robin.
(* EnsureInstances(d), when every creation works, leaves exactly d instances; the count is the number of instances. *)
Definition good (p : plugin) : Prop := p_count p = Z.of_nat (length (p_inst p)) /\ (length (p_inst p) <= p_cap p)%nat /\ (Z.of_nat (length (p_inst p)) < 2 ^ 32)%Z /\ forall x, In x (p_inst p) -> x <> None.
Theorem C46_ensure : forall d news p, good p -> (Z.of_nat d < 2 ^ 32)%Z -> length news = (d - length (p_inst p))%nat -> exists p', ensure d news p = Some p' /\ good p' /\ length (p_inst p') = d.
Proof.
  intros d news p (G1 & G2 & G3 & G4) Hd Hl. unfold ensure. rewrite G1, Nat2Z.id. destruct (Nat.eqb_spec (length (p_inst p)) d) as [E|E].
  { exists p. split; [reflexivity|]. split; [|assumption]. split; [assumption|]. split; [assumption|]. split; assumption. }
  unfold ensure_locked. destruct (Nat.ltb_spec d (length (p_inst p))) as [Hs|Hs].
  - destruct (Nat.ltb_spec (p_cap p) d); [lia|]. eexists. split; [reflexivity|]. unfold good. cbn [p_inst p_cap p_count]. replace (d - length (p_inst p))%nat with 0%nat by lia. cbn [repeat]. rewrite app_nil_r, firstn_length, Nat.min_l by lia.
    split; [|reflexivity]. split; [reflexivity|]. split; [lia|]. split; [lia|]. intros x Hx. apply G4. rewrite <- (firstn_skipn d (p_inst p)). apply in_app_iff. now left.
  - eexists. split; [reflexivity|]. unfold good. cbn [p_inst p_cap p_count]. rewrite app_length, map_length, Hl. split; [|lia]. split; [rewrite G1; rewrite u32_small; lia|]. split; [lia|]. split; [lia|].
    intros x Hx. apply in_app_iff in Hx. destruct Hx as [Hx|Hx]; [now apply G4|]. apply in_map_iff in Hx. destruct Hx as (y & <- & _). discriminate.
Qed.
Print Assumptions C46_ensure.
(* A plugin added with a positive instance count has an instance to hand out (if they can be created and acquired). *)
Theorem C46_add_positive : forall n cpus create, (0 < n)%nat -> (Z.of_nat n < 2 ^ 32)%Z -> length (create n) = n -> exists p i p', add_plugin n cpus create = Some p /\ length (p_inst p) = n /\ get_instance (fun _ => true) p = (GInst i, p').
Proof.
  intros n cpus create Hn Hd Hl. assert (G: good new_plugin) by (split; [reflexivity|split; [cbn; lia|split; [reflexivity|intros x []]]]).
  destruct (C46_ensure n (create n) new_plugin G Hd ltac:(cbn; lia)) as (p & E & (G1 & G2 & G3 & G4) & Hlen). unfold add_plugin. rewrite E. enough (X: exists i p', get_instance (fun _ => true) p = (GInst i, p')) by (destruct X as (i & p' & X); exists p, i, p'; repeat split; assumption). unfold get_instance. rewrite Hlen. destruct n as [|k]; [lia|]. cbn [get_tries].
  set (idx := Z.to_nat (p_index p mod Z.of_nat (length (p_inst p)))). assert (Hidx: (idx < length (p_inst p))%nat). { unfold idx. pose proof (Z.mod_pos_bound (p_index p) (Z.of_nat (length (p_inst p))) ltac:(lia)). lia. }
  pose proof (nth_In (p_inst p) None Hidx) as Hin. apply G4 in Hin. destruct (nth idx (p_inst p) None) as [i|]; [|congruence]. eexists i, _. reflexivity.
Qed.
Print Assumptions C46_add_positive.
Example C46_ex : exists p gs p', add_plugin 3 8 (fun n => seq 10 n) = Some p /\ prun (fun _ => true) [PGet; PGet; PGet; PGet; PRelease 10] p = (gs, p') /\ gs = [GInst 10; GInst 11; GInst 12; GInst 10] /\ p_bcount p' = 3%Z.
Proof.
  set (p := match add_plugin 3 8 (fun n => seq 10 n) with Some p => p | None => new_plugin end). set (r := prun (fun _ => true) [PGet; PGet; PGet; PGet; PRelease 10] p).
  exists p, (fst r), (snd r). split; [vm_compute; reflexivity|]. split; [exact (surjective_pairing r)|]. split; vm_compute; reflexivity.
Qed.
(* With the default settings (instance count 0) Add creates no instance at all, whatever the number of CPUs, and no
   hand-out ever works. *)
Theorem C46_default_no_instance_refuted : forall cpus create alive, exists p, add_plugin 0 cpus create = Some p /\ p_inst p = [] /\ fst (get_instance alive p) = GFail.
Proof. intros cpus create alive. exists new_plugin. split; [reflexivity|]. split; reflexivity. Qed.
Print Assumptions C46_default_no_instance_refuted.
(* A release moves the index back, so the next hand-out can be an instance that is in use while another is free. *)
Theorem C46_release_breaks_round_robin_refuted : exists p gs p', add_plugin 3 8 (fun n => seq 0 n) = Some p /\ prun (fun _ => true) [PGet; PGet; PRelease 0; PGet] p = (gs, p') /\ gs = [GInst 0; GInst 1; GInst 1] /\ p_borrowed p' 0 = Some 0%Z /\ p_borrowed p' 1 = Some 2%Z /\ p_borrowed p' 2 = None.
Proof.
  set (p := match add_plugin 3 8 (fun n => seq 0 n) with Some p => p | None => new_plugin end). set (r := prun (fun _ => true) [PGet; PGet; PRelease 0; PGet] p).
  exists p, (fst r), (snd r). split; [vm_compute; reflexivity|]. split; [exact (surjective_pairing r)|]. split; [vm_compute; reflexivity|]. split; [vm_compute; reflexivity|]. split; vm_compute; reflexivity.
Qed.
Print Assumptions C46_release_breaks_round_robin_refuted.
(* Releasing an instance that is not borrowed wraps the borrowed count. *)
Theorem C46_spurious_release_refuted : p_bcount (release_instance 0 new_plugin) = (2 ^ 32 - 1)%Z.
Proof. reflexivity. Qed.
Print Assumptions C46_spurious_release_refuted.
(* Two concurrent EnsureInstances(2) read the count before either takes the lock: four instances. *)
Theorem C46_concurrent_grow_refuted : exists p1 p2, ensure_locked 0 2 [0; 1] new_plugin = Some p1 /\ ensure_locked 0 2 [2; 3] p1 = Some p2 /\ length (p_inst p2) = 4%nat.
Proof. eexists _, _. split; [reflexivity|]. split; reflexivity. Qed.
Print Assumptions C46_concurrent_grow_refuted.
(* EnsureInstances(2) that has read the count 4 before a concurrent EnsureInstances(0) makes nil slots, and a hand-out then
   panics. *)
Theorem C46_concurrent_shrink_panic_refuted : exists p4 p0 p2, ensure 4 [0; 1; 2; 3] new_plugin = Some p4 /\ ensure_locked 4 0 [] p4 = Some p0 /\ ensure_locked 4 2 [] p0 = Some p2 /\ fst (get_instance (fun _ => true) p2) = GPanic.
Proof. eexists _, _, _. split; [vm_compute; reflexivity|]. split; [vm_compute; reflexivity|]. split; [vm_compute; reflexivity|]. vm_compute; reflexivity. Qed.
Print Assumptions C46_concurrent_shrink_panic_refuted.

(* ================= C48 ================= *)
(* operations of the manager other than Delete *)
Inductive benign : list instr -> Prop := BGet : benign op_get | BAdd : benign op_add | BGoc : forall h, benign (op_get_or_create h).
Fixpoint wf (held : bool) (p : list instr) : bool :=
  match p with [] => negb held | ILock :: r => negb held && wf true r | IUnlock :: r => held && wf false r | IWork :: r => wf held r end.
Lemma benign_wf : forall p, benign p -> wf false p = true.
Proof. intros p H. destruct H as [| |[|]]; reflexivity. Qed.
Definition lock_inv (s : lstate) : Prop := (forall i p, nth_error (l_prog s) i = Some p -> wf (match l_holder s with Some h => (h =? i)%nat | None => false end) p = true) /\ (forall h, l_holder s = Some h -> (h < length (l_prog s))%nat).
Lemma lset_nth : forall l i p j, (i < length l)%nat -> nth_error (lset l i p) j = if (j =? i)%nat then Some p else nth_error l j.
Proof. induction l as [|x l IH]; intros [|i] p [|j] H; cbn in *; try lia; auto. apply IH. lia. Qed.
Lemma lset_len : forall l i p, length (lset l i p) = length l.
Proof. induction l as [|x l IH]; intros [|i] p; cbn; auto. Qed.
Lemma lock_inv_step : forall a b, lstep a b -> lock_inv a -> lock_inv b.
Proof.
  intros a b Hs (I1 & I2). destruct Hs as [ps i r Hi|h ps i r Hi|h ps i r Hi]; cbn [l_prog l_holder] in *; assert (Hl: (i < length ps)%nat) by (apply nth_error_Some; congruence); pose proof (I1 _ _ Hi) as W; cbn in W; split; cbn [l_prog l_holder]; rewrite ?lset_len.
  - intros j p Hj. rewrite lset_nth in Hj by assumption. rewrite (Nat.eqb_sym i j). destruct (Nat.eqb_spec j i) as [->|Hn]; [injection Hj as <-; assumption|]. exact (I1 _ _ Hj).
  - intros h Hh. injection Hh as <-. assumption.
  - intros j p Hj. rewrite lset_nth in Hj by assumption. destruct h as [h|]; [|discriminate]. apply andb_prop in W. destruct W as (W1 & W2). apply Nat.eqb_eq in W1. subst h. destruct (Nat.eqb_spec j i) as [->|Hn]; [injection Hj as <-; assumption|]. specialize (I1 _ _ Hj). cbn in I1. rewrite (proj2 (Nat.eqb_neq i j)) in I1 by congruence. exact I1.
  - discriminate.
  - intros j p Hj. rewrite lset_nth in Hj by assumption. destruct (Nat.eqb_spec j i) as [->|Hn]; [injection Hj as <-; assumption|]. exact (I1 _ _ Hj).
  - exact I2.
Qed.
Lemma lock_inv_steps : forall a b, lsteps a b -> lock_inv a -> lock_inv b.
Proof. induction 1 as [|a b c H1 H2 IH]; [auto|]. intros H. apply IH. eapply lock_inv_step; eassumption. Qed.
Definition finished (s : lstate) : Prop := forall p, In p (l_prog s) -> p = [].
Definition work_left (s : lstate) : nat := length (concat (l_prog s)).
Lemma lset_work : forall l i x r, nth_error l i = Some (x :: r) -> S (length (concat (lset l i r))) = length (concat l).
Proof. induction l as [|y l IH]; intros [|i] x r H; cbn in *; try discriminate; [injection H as ->; cbn; rewrite !app_length; lia|]. rewrite !app_length. rewrite <- (IH i x r H). lia. Qed.
(* Any number of concurrent Get, GetOrCreate and Add calls: every step brings them closer to the end, and as long as one has
   not returned there is a next step. So all of them return, under every schedule. *)
Theorem C48_others_terminate : forall ps s, Forall benign ps -> lsteps (mkls None ps) s ->
  (forall s', lstep s s' -> (work_left s' < work_left s)%nat) /\ (finished s \/ exists s', lstep s s').
Proof.
  intros ps s Hb H. assert (I: lock_inv s). { eapply lock_inv_steps; [exact H|]. split; cbn; [|discriminate]. intros i p Hi. apply benign_wf. rewrite Forall_forall in Hb. apply Hb. eapply nth_error_In; exact Hi. }
  split.
  - intros s' Hs. unfold work_left. destruct Hs as [ps0 i r Hi|h ps0 i r Hi|h ps0 i r Hi]; cbn [l_prog]; rewrite <- (lset_work _ _ _ _ Hi); lia.
  - destruct I as (I1 & I2). destruct s as [[h|] qs]; cbn [l_prog l_holder] in *.
    + right. specialize (I2 h eq_refl). apply nth_error_Some in I2. destruct (nth_error qs h) as [p|] eqn:E; [|congruence]. specialize (I1 _ _ E). rewrite Nat.eqb_refl in I1. destruct p as [|[| |] p]; cbn in I1; try discriminate; eexists; [eapply LS_unlock; exact E|eapply LS_work; exact E].
    + clear I2. destruct (forallb (fun p => match p with [] => true | _ => false end) qs) eqn:Ef.
      * left. intros p Hp. rewrite forallb_forall in Ef. specialize (Ef p Hp). destruct p; [reflexivity|discriminate].
      * right. assert (X: exists p, In p qs /\ p <> []). { clear - Ef. induction qs as [|q qs IH]; [discriminate|]. destruct q as [|x q]; [cbn in Ef; destruct (IH Ef) as (p & Hp & Hn); exists p; split; [now right|assumption]|]. exists (x :: q). split; [now left|discriminate]. }
        destruct X as (p & Hp & Hn). apply In_nth_error in Hp. destruct Hp as (i & Hi). specialize (I1 _ _ Hi). destruct p as [|[| |] p]; cbn in I1; try discriminate; [congruence| |]; eexists; [eapply LS_lock; exact Hi|eapply LS_work; exact Hi].
Qed.
Print Assumptions C48_others_terminate.
Example C48_ex : exists s, lsteps (mkls None [op_get; op_get_or_create false]) s /\ finished s.
Proof.
  eexists. split.
  - eapply L_cons; [apply (LS_lock _ 1); reflexivity|]. eapply L_cons; [apply (LS_work _ _ 1); reflexivity|]. eapply L_cons; [apply (LS_unlock _ _ 1); reflexivity|]. eapply L_cons; [apply (LS_lock _ 0); reflexivity|]. eapply L_cons; [apply (LS_work _ _ 0); reflexivity|]. eapply L_cons; [apply (LS_unlock _ _ 0); reflexivity|].
    eapply L_cons; [apply (LS_lock _ 1); reflexivity|]. eapply L_cons; [apply (LS_work _ _ 1); reflexivity|]. eapply L_cons; [apply (LS_unlock _ _ 1); reflexivity|]. apply L_nil.
  - intros p [<-|[<-|[]]]; reflexivity.
Qed.
(* Delete never returns: once it has the lock it waits for it forever, and so does every other operation. *)
Lemma stuck_step : forall a b t r, lstep a b -> lock_inv (mkls (l_holder a) (lset (l_prog a) t (IUnlock :: []))) \/ True -> l_holder a = Some t -> nth_error (l_prog a) t = Some (ILock :: r) ->
  (forall i p, i <> t -> nth_error (l_prog a) i = Some p -> wf false p = true \/ exists d, p = op_delete d) -> l_holder b = Some t /\ nth_error (l_prog b) t = Some (ILock :: r) /\ (forall i p, i <> t -> nth_error (l_prog b) i = Some p -> wf false p = true \/ exists d, p = op_delete d).
Proof.
  intros a b t r Hs _ Hh Ht Ho. destruct Hs as [ps i q Hi|h ps i q Hi|h ps i q Hi]; cbn [l_holder l_prog] in *; [discriminate| |]; (assert (Hl: (i < length ps)%nat) by (apply nth_error_Some; congruence)); (assert (Hn: i <> t) by (intros ->; rewrite Ht in Hi; discriminate)).
  - exfalso. destruct (Ho i _ Hn Hi) as [W|(d & W)]; [cbn in W; discriminate|discriminate].
  - split; [assumption|]. split; [rewrite lset_nth by assumption; rewrite (proj2 (Nat.eqb_neq t i)) by congruence; assumption|]. intros j p Hj Hp. rewrite lset_nth in Hp by assumption. destruct (Nat.eqb_spec j i) as [->|]; [|now apply (Ho j)]. injection Hp as <-. destruct (Ho i _ Hn Hi) as [W|(d & W)]; [left; exact W|discriminate].
Qed.
Theorem C48_delete_deadlocks_refuted : forall ps t d s s', (forall i p, nth_error ps i = Some p -> benign p \/ exists d, p = op_delete d) -> nth_error ps t = Some (op_delete d) ->
  lstep (mkls None ps) s -> nth_error (l_prog s) t <> Some (op_delete d) -> lsteps s s' -> l_holder s' = Some t /\ exists r, nth_error (l_prog s') t = Some (ILock :: r) /\ r <> [].
Proof.
  intros ps t d s s' Hb Ht H0 Hch Hs.
  inversion H0 as [ps0 i r Hi E1 E2|h ps0 i r Hi E1 E2|h ps0 i r Hi E1 E2]; subst; cbn [l_prog] in *; (assert (Hl: (i < length ps)%nat) by (apply nth_error_Some; congruence)); rewrite lset_nth in Hch by assumption; destruct (Nat.eqb_spec t i) as [->|Hn]; try congruence; rewrite Ht in Hi; try discriminate.
  injection Hi as <-.
  assert (G: forall a b, lsteps a b -> l_holder a = Some i -> forall r, nth_error (l_prog a) i = Some (ILock :: r) -> (forall j p, j <> i -> nth_error (l_prog a) j = Some p -> wf false p = true \/ exists d, p = op_delete d) -> l_holder b = Some i /\ nth_error (l_prog b) i = Some (ILock :: r)).
  { clear. induction 1 as [a|a b c Hs H IH]; intros Hh r Hr Ho; [auto|]. destruct (stuck_step _ _ _ _ Hs (or_intror I) Hh Hr Ho) as (A & B & C). eapply IH; eassumption. }
  destruct (G _ _ Hs eq_refl ((IWork :: IUnlock :: (if d then [IWork; IUnlock] else [IUnlock])))) as (A & B).
  - cbn [l_prog]. rewrite lset_nth by assumption. rewrite Nat.eqb_refl. reflexivity.
  - intros j p Hj Hp. cbn [l_prog] in Hp. rewrite lset_nth in Hp by assumption. rewrite (proj2 (Nat.eqb_neq j i)) in Hp by assumption. destruct (Hb j p Hp) as [B|B]; [left; now apply benign_wf|right; exact B].
  - split; [exact A|]. eexists. split; [exact B|discriminate].
Qed.
Print Assumptions C48_delete_deadlocks_refuted.
Example C48_delete_ex : exists s, lstep (mkls None [op_delete true; op_get]) s /\ nth_error (l_prog s) 0 <> Some (op_delete true) /\ ~ exists s', lstep s s'.
Proof.
  eexists. split; [apply (LS_lock _ 0); reflexivity|]. split; [discriminate|]. intros (s' & H). inversion H as [ps i r Hi E1 E2|h ps i r Hi E1 E2|h ps i r Hi E1 E2]; destruct i as [|[|[|i]]]; cbn in Hi; discriminate.
Qed.


(* ================= C49 ================= *)
Definition vrun (ops : list vop) : vm := fold_left vapply ops new_vm.
(* who holds the VM after a history of acquires and releases: a user whose last operation was an acquire *)
Definition holds (u : nat) (ops : list vop) : bool :=
  fold_left (fun h o => match o with VAcquire x => if (u =? x)%nat then true else h | VRelease x => if (u =? x)%nat then false else h | VClose => h end) ops false.
Definition no_close (ops : list vop) : Prop := ~ In VClose ops.
Lemma mem_in : forall u l, mem u l = true <-> In u l.
Proof. intros u l. unfold mem. rewrite existsb_exists. split; [intros (x & Hx & E); apply Nat.eqb_eq in E; now subst|intros H; exists u; split; [assumption|apply Nat.eqb_refl]]. Qed.
Lemma remove_nodup : forall u l, NoDup l -> NoDup (remove Nat.eq_dec u l) /\ (In u l -> S (length (remove Nat.eq_dec u l)) = length l).
Proof.
  induction l as [|x l IH]; intros H; cbn; [split; [constructor|intros []]|]. inversion H as [|? ? Hx Hl]; subst. destruct (IH Hl) as (I1 & I2). destruct (Nat.eq_dec u x) as [->|Hn].
  - split; [assumption|]. intros _. now rewrite notin_remove by assumption.
  - split; [constructor; [|assumption]; intros C; apply in_remove in C; tauto|]. intros [C|C]; [congruence|]. cbn. now rewrite I2.
Qed.
Definition vm_good (v : vm) : Prop := NoDup (v_users v) /\ v_ref v = u32 (Z.of_nat (length (v_users v))).
Lemma u32_sub : forall a, u32 (u32 a - 1) = u32 (a - 1).
Proof. intros a. unfold Z.sub. apply u32_u32. Qed.
Lemma close_good : forall l v, v_users v = l -> vm_good v -> forall w, fold_left (fun v u => mkvm (remove Nat.eq_dec u (v_users v)) (u32 (v_ref v - 1)) true) l v = w -> vm_good w /\ v_users w = [] /\ (v_closing v = true -> v_closing w = true).
Proof.
  induction l as [|u l IH]; intros v Hl (G1 & G2) w Hw; cbn in Hw; [subst w; repeat split; auto|]. rewrite Hl in *. inversion G1 as [|? ? Hu Hn]; subst. cbn [remove] in *. destruct (Nat.eq_dec u u) as [_|]; [|congruence]. rewrite notin_remove in * by assumption.
  destruct (IH (mkvm l (u32 (v_ref v - 1)) true)) with (w := fold_left (fun v u => mkvm (remove Nat.eq_dec u (v_users v)) (u32 (v_ref v - 1)) true) l (mkvm l (u32 (v_ref v - 1)) true)) as (A & B & C); [reflexivity| |reflexivity|].
  { split; [assumption|]. cbn [v_ref v_users]. rewrite G2, u32_sub. f_equal. cbn [length]. lia. }
  split; [exact A|]. split; [exact B|]. intros _. apply C. reflexivity.
Qed.
Lemma vapply_good : forall o v, vm_good v -> vm_good (vapply v o).
Proof.
  intros [u|u|] v G; cbn [vapply].
  - unfold vm_acquire. destruct (v_closing v); [assumption|]. destruct (mem u (v_users v)) eqn:E; [assumption|]. destruct G as (G1 & G2). split; cbn [v_users v_ref].
    + constructor; [|assumption]. intros C. apply mem_in in C. congruence.
    + rewrite G2, u32_u32. f_equal. cbn [length]. lia.
  - unfold vm_release. destruct (v_closing v); [assumption|]. destruct (mem u (v_users v)) eqn:E; [|assumption]. apply mem_in in E. destruct G as (G1 & G2). destruct (remove_nodup u _ G1) as (R1 & R2). split; cbn [v_users v_ref]; [assumption|]. rewrite G2, u32_sub. f_equal. rewrite <- (R2 E). lia.
  - unfold vm_close. destruct (close_good (v_users v) (mkvm (v_users v) (v_ref v) true) eq_refl G _ eq_refl) as (A & _). exact A.
Qed.
Lemma vrun_good : forall ops v, vm_good v -> vm_good (fold_left vapply ops v).
Proof. induction ops as [|o ops IH]; intros v G; cbn; [assumption|]. apply IH. now apply vapply_good. Qed.
(* In every history the reference count is the number of different users (of which there are fewer than 2^32). *)
Theorem C49_refcount : forall ops, NoDup (v_users (vrun ops)) /\ ((Z.of_nat (length (v_users (vrun ops))) < 2 ^ 32)%Z -> v_ref (vrun ops) = Z.of_nat (length (v_users (vrun ops)))).
Proof. intros ops. destruct (vrun_good ops new_vm) as (A & B); [split; [constructor|reflexivity]|]. split; [exact A|]. intros H. unfold vrun. rewrite B. apply u32_small. unfold vrun in H. lia. Qed.
Print Assumptions C49_refcount.
Lemma users_step : forall v o u h, v_closing v = false -> o <> VClose -> (In u (v_users v) <-> h = true) ->
  v_closing (vapply v o) = false /\ (In u (v_users (vapply v o)) <-> (match o with VAcquire x => if (u =? x)%nat then true else h | VRelease x => if (u =? x)%nat then false else h | VClose => h end) = true).
Proof.
  intros v [x|x|] u h Hc Hn H; [| |congruence]; cbn [vapply].
  - unfold vm_acquire. rewrite Hc. destruct (mem x (v_users v)) eqn:E.
    + split; [assumption|]. apply mem_in in E. destruct (Nat.eqb_spec u x) as [->|]; [tauto|assumption].
    + split; [reflexivity|]. cbn [v_users In]. destruct (Nat.eqb_spec u x) as [->|Hx]; [tauto|]. rewrite <- H. split; [intros [C|C]; [congruence|assumption]|auto].
  - unfold vm_release. rewrite Hc. destruct (mem x (v_users v)) eqn:E.
    + split; [reflexivity|]. cbn [v_users]. destruct (Nat.eqb_spec u x) as [->|Hx]; [split; [intros C; now apply remove_In in C|discriminate]|]. rewrite <- H. split; [intros C; now apply in_remove in C|]. intros C. now apply in_in_remove.
    + split; [assumption|]. destruct (Nat.eqb_spec u x) as [->|Hx]; [|assumption]. split; [intros C; apply mem_in in C; congruence|discriminate].
Qed.
(* As long as the VM is not closed, its users are exactly those whose last operation was an acquire; so acquiring twice
   counts once, and the count drops to zero exactly when every user that acquired has released. *)
Theorem C49_users : forall ops u, no_close ops -> (In u (v_users (vrun ops)) <-> holds u ops = true).
Proof.
  intros ops u Hc. unfold vrun, holds. assert (G: forall ops v h, no_close ops -> v_closing v = false -> (In u (v_users v) <-> h = true) -> (In u (v_users (fold_left vapply ops v)) <-> fold_left (fun h o => match o with VAcquire x => if (u =? x)%nat then true else h | VRelease x => if (u =? x)%nat then false else h | VClose => h end) ops h = true)).
  { clear. induction ops as [|o ops IH]; intros v h Hc Hv H; cbn [fold_left]; [assumption|]. destruct (users_step v o u h Hv) as (A & B); [intros ->; apply Hc; now left|assumption|]. apply IH; [intros C; apply Hc; now right|assumption|assumption]. }
  apply G; [assumption|reflexivity|]. split; [intros []|discriminate].
Qed.
Print Assumptions C49_users.
Theorem C49_acquire_twice : forall ops u, no_close ops -> v_ref (vrun (ops ++ [VAcquire u; VAcquire u])) = v_ref (vrun (ops ++ [VAcquire u])).
Proof.
  intros ops u Hc. unfold vrun. rewrite !fold_left_app. cbn [fold_left vapply]. f_equal. set (v := fold_left vapply ops new_vm). unfold vm_acquire at 1. destruct (v_closing (vm_acquire u v)) eqn:E; [reflexivity|]. assert (M: v_closing v = false) by (unfold vm_acquire in E; destruct (v_closing v) eqn:Ev; [congruence|reflexivity]).
  unfold vm_acquire. rewrite M. destruct (mem u (v_users v)) eqn:Em; [now rewrite Em|]. cbn [v_users mem existsb]. now rewrite Nat.eqb_refl.
Qed.
Print Assumptions C49_acquire_twice.
Theorem C49_last_release : forall ops u, no_close ops -> (forall x, holds x ops = true <-> x = u) -> v_ref (vrun ops) = 1%Z /\ v_ref (vrun (ops ++ [VRelease u])) = 0%Z /\ v_users (vrun (ops ++ [VRelease u])) = [].
Proof.
  intros ops u Hc Hu. assert (E: v_users (vrun ops) = [u]).
  { destruct (C49_refcount ops) as (ND & _). assert (F: forall x, In x (v_users (vrun ops)) <-> x = u) by (intros x; rewrite C49_users by assumption; apply Hu). destruct (v_users (vrun ops)) as [|a [|b l]]; [exfalso; apply (proj2 (F u) eq_refl)| |].
    - f_equal. apply F. now left.
    - exfalso. assert (a = u) by (apply F; now left). assert (b = u) by (apply F; right; now left). subst. inversion ND as [|? ? X _]; subst. apply X. now left. }
  destruct (C49_refcount ops) as (_ & R). rewrite E in R. specialize (R ltac:(cbn; lia)). split; [exact R|].
  assert (E2: v_users (vrun (ops ++ [VRelease u])) = []).
  { destruct (v_users (vrun (ops ++ [VRelease u]))) as [|y l] eqn:Ey; [reflexivity|exfalso]. assert (Hy: In y (v_users (vrun (ops ++ [VRelease u])))) by (rewrite Ey; now left). apply C49_users in Hy; [|intros C; apply in_app_iff in C; destruct C as [C|[C|[]]]; [now apply Hc|discriminate]].
    unfold holds in Hy. rewrite fold_left_app in Hy. cbn in Hy. destruct (Nat.eqb_spec y u) as [->|Hn]; [discriminate|]. apply Hn, Hu. exact Hy. }
  split; [|exact E2]. destruct (C49_refcount (ops ++ [VRelease u])) as (_ & R2). rewrite E2 in R2. apply R2. reflexivity.
Qed.
Print Assumptions C49_last_release.
Theorem C49_close : forall ops, v_users (vrun (ops ++ [VClose])) = [] /\ v_ref (vrun (ops ++ [VClose])) = 0%Z.
Proof.
  intros ops. unfold vrun. rewrite fold_left_app. cbn [fold_left vapply]. set (v := fold_left vapply ops new_vm). assert (G: vm_good v) by (apply vrun_good; split; [constructor|reflexivity]).
  destruct (close_good (v_users v) (mkvm (v_users v) (v_ref v) true) eq_refl G _ eq_refl) as ((A1 & A2) & B & _). unfold vm_close. split; [exact B|]. rewrite A2, B. reflexivity.
Qed.
Print Assumptions C49_close.
Example C49_ex : vrun [VAcquire 1; VAcquire 2; VAcquire 1; VRelease 3] = mkvm [2; 1]%nat 2 false /\ vrun [VAcquire 1; VAcquire 1; VRelease 1] = mkvm [] 0 false.
Proof. split; reflexivity. Qed.
(* But nothing ever releases a VM: once it has been created, the store keeps it for good, whatever its count. *)
Lemma vput_get : forall s k v j, vget j (vput k v s) = if (j =? k)%nat then Some v else vget j s.
Proof. induction s as [|(k', w) s IH]; intros k v j; cbn; [reflexivity|]. destruct (Nat.eqb_spec k k') as [->|Hk]; cbn; [destruct (Nat.eqb_spec j k'); reflexivity|]. rewrite IH. destruct (Nat.eqb_spec j k') as [->|]; [|reflexivity]. destruct (Nat.eqb_spec k' k); [congruence|reflexivity]. Qed.
Theorem C49_vm_never_dropped_refuted : forall ops1 ops2 k, vget k (fold_left sapply (ops1 ++ SGetOrCreate k :: ops2) []) <> None.
Proof.
  intros ops1 ops2 k. rewrite fold_left_app. cbn [fold_left]. generalize (fold_left sapply ops1 []). intros s. assert (H: vget k (sapply s (SGetOrCreate k)) <> None). { cbn [sapply]. unfold get_or_create. destruct (vget k s) eqn:E; [congruence|]. rewrite vput_get, Nat.eqb_refl. discriminate. }
  generalize dependent (sapply s (SGetOrCreate k)). clear. induction ops2 as [|o ops IH]; intros s H; cbn [fold_left]; [assumption|]. apply IH. destruct o as [j|j o]; cbn [sapply].
  - unfold get_or_create. destruct (vget j s) eqn:E; [assumption|]. rewrite vput_get. destruct (k =? j)%nat; [discriminate|assumption].
  - destruct (vget j s) eqn:E; [|assumption]. rewrite vput_get. destruct (k =? j)%nat; [discriminate|assumption].
Qed.
Print Assumptions C49_vm_never_dropped_refuted.
(* A failed Add leaves its user behind: the count stays up although nobody uses the VM. *)
Theorem C49_failed_add_leaks_refuted : forall u v, v_closing v = false -> snd (add_to_vm u true v) = false /\ In u (v_users (fst (add_to_vm u true v))).
Proof. intros u v Hc. split; [reflexivity|]. cbn. unfold vm_acquire. rewrite Hc. destruct (mem u (v_users v)) eqn:E; [now apply mem_in|now left]. Qed.
Print Assumptions C49_failed_add_leaks_refuted.

(* ================= C50 ================= *)
Definition answer (fs : list filter) (n : Z) (eos : bool) (i : nat) : option action := option_map (fun f => snd f n eos) (nth_error fs i).
(* The filters called are the first k of the chain, in order; all but the last of them answered Continue. k is the length of
   the chain, or the k-th is the first that did not answer Continue. The result says which case it was. *)
Theorem C50_data_order : forall fs n eos l res, handle_data fs n eos = (l, res) ->
  exists k, l = map fst (firstn k fs) /\ (k <= length fs)%nat /\
   match res with
   | Some true => k = length fs /\ forall i, (i < k)%nat -> answer fs n eos i = Some AContinue
   | Some false => (0 < k)%nat /\ (forall i, (S i < k)%nat -> answer fs n eos i = Some AContinue) /\ answer fs n eos (k - 1) = Some APause
   | None => (0 < k)%nat /\ (forall i, (S i < k)%nat -> answer fs n eos i = Some AContinue) /\ answer fs n eos (k - 1) = Some AError
   end.
Proof.
  induction fs as [|(i, f) fs IH]; intros n eos l res H; cbn in H.
  - injection H as <- <-. exists 0%nat. repeat split; auto. intros i Hi. lia.
  - destruct (f n eos) eqn:Ef.
    + destruct (handle_data fs n eos) as [l' r'] eqn:E. injection H as <- <-. destruct (IH _ _ _ _ E) as (k & -> & Hk & Hr). exists (S k). split; [reflexivity|]. split; [cbn; lia|]. destruct r' as [[|]|].
      * destruct Hr as (-> & Hr). split; [reflexivity|]. intros [|j] Hj; [unfold answer; cbn; now rewrite Ef|]. apply Hr. lia.
      * destruct Hr as (H0 & Hr & Hp). split; [lia|]. split; [|destruct k as [|k]; [lia|]; replace (S (S k) - 1)%nat with (S (S k - 1)) by lia; exact Hp]. intros [|j] Hj; [unfold answer; cbn; now rewrite Ef|]. apply Hr. lia.
      * destruct Hr as (H0 & Hr & Hp). split; [lia|]. split; [|destruct k as [|k]; [lia|]; replace (S (S k) - 1)%nat with (S (S k - 1)) by lia; exact Hp]. intros [|j] Hj; [unfold answer; cbn; now rewrite Ef|]. apply Hr. lia.
    + injection H as <- <-. exists 1%nat. split; [reflexivity|]. split; [cbn; lia|]. split; [lia|]. split; [intros j Hj; lia|]. unfold answer. cbn. now rewrite Ef.
    + injection H as <- <-. exists 1%nat. split; [reflexivity|]. split; [cbn; lia|]. split; [lia|]. split; [intros j Hj; lia|]. unfold answer. cbn. now rewrite Ef.
Qed.
Print Assumptions C50_data_order.
(* No filter behind the first one that does not continue sees the data. *)
Theorem C50_later_not_called : forall pre i f post n eos l res, handle_data (pre ++ (i, f) :: post) n eos = (l, res) -> f n eos <> AContinue -> (length l <= S (length pre))%nat /\ res <> Some true.
Proof.
  induction pre as [|(j, g) pre IH]; intros i f post n eos l res H Hf; cbn in H.
  - destruct (f n eos); [congruence| |]; injection H as <- <-; split; cbn; (lia || discriminate).
  - destruct (g n eos).
    + destruct (handle_data (pre ++ (i, f) :: post) n eos) as [l' r'] eqn:E. injection H as <- <-. destruct (IH _ _ _ _ _ _ _ E Hf) as (A & B). split; [cbn; lia|assumption].
    + injection H as <- <-. split; [cbn; lia|discriminate].
    + injection H as <- <-. split; [cbn; lia|discriminate].
Qed.
Print Assumptions C50_later_not_called.
(* When no filter fails, the body the next hop gets is the original body, chunk boundaries aside (filters can rewrite it
   through the host interface, which is not in this model). *)
Theorem C50_body_complete : forall fs ok chunks, (forall k i, In i fs -> ok k i = true) -> http_body fs ok 0 chunks [] = (concat chunks, true).
Proof.
  intros fs ok chunks H. assert (B: forall k, body_filters fs (ok k) = true). { intros k. assert (G: forall l, (forall i, In i l -> ok k i = true) -> body_filters l (ok k) = true) by (induction l as [|x l IH]; intros Hl; cbn; [reflexivity|]; rewrite (Hl x) by (now left); apply IH; intros i Hi; apply Hl; now right). apply G. intros i Hi. now apply H. }
  assert (G: forall c k b, http_body fs ok k c b = (b ++ concat c, true)) by (induction c as [|x c IH]; intros k b; cbn; [now rewrite app_nil_r|rewrite B, IH; now rewrite app_assoc]). apply G.
Qed.
Print Assumptions C50_body_complete.
(* A stream that was created and closed, with every context stopping cleanly, gives back every instance it borrowed. *)
Theorem C50_stream_balanced : forall rs b n stops, new_stream rs = (b, Some n) -> length stops = n -> (forall s, In s stops -> s = true) -> b = n /\ n = length rs /\ close_stream stops = b.
Proof.
  intros rs b n stops H Hl Hs. assert (A: b = n /\ n = length rs).
  { clear Hl Hs. revert b n H. induction rs as [|r rs IH]; intros b n H; cbn in H; [injection H as <- <-; auto|]. destruct r; try discriminate. destruct (new_stream rs) as [b' [k|]] eqn:E; [|discriminate]. injection H as <- <-. destruct (IH _ _ eq_refl) as (-> & ->). auto. }
  destruct A as (-> & ->). split; [reflexivity|]. split; [reflexivity|]. rewrite <- Hl. clear - Hs. induction stops as [|s stops IH]; [reflexivity|]. cbn. rewrite (Hs s) by (now left). now rewrite IH by (intros x Hx; apply Hs; now right).
Qed.
Print Assumptions C50_stream_balanced.
Example C50_ex : handle_data [(7, fun _ _ => AContinue); (8, fun n _ => if (n <? 3)%Z then APause else AContinue); (9, fun _ _ => AContinue)]%nat 2 false = ([7; 8]%nat, Some false) /\ new_stream [COk; COk] = (2, Some 2)%nat /\ close_stream [true; true] = 2%nat.
Proof. repeat split. Qed.
(* On errors contexts do leak: if the creation of a later context fails, every instance borrowed so far stays borrowed, and no
   stream is returned that could be closed. *)
Theorem C50_new_stream_error_leaks_refuted : forall rs b, new_stream rs = (b, None) -> exists pre x post, rs = pre ++ x :: post /\ x <> COk /\ (length pre <= b)%nat.
Proof.
  induction rs as [|r rs IH]; intros b H; cbn in H; [discriminate|]. destruct r.
  - exists [], CNoInstance, rs. repeat split; [discriminate|cbn; lia].
  - exists [], CCreateFails, rs. repeat split; [discriminate|cbn; lia].
  - destruct (new_stream rs) as [b' [k|]] eqn:E; [discriminate|]. injection H as <-. destruct (IH _ eq_refl) as (pre & x & post & -> & Hx & Hl). exists (COk :: pre), x, post. repeat split; [assumption|cbn; lia].
Qed.
Print Assumptions C50_new_stream_error_leaks_refuted.
Example C50_leak_ex : new_stream [COk; COk; CCreateFails] = (3, None)%nat.
Proof. reflexivity. Qed.
(* A context that fails to stop keeps every later context of the stream from being closed. *)
Theorem C50_close_stops_early_refuted : forall pre post, (forall s, In s pre -> s = true) -> close_stream (pre ++ false :: post) = S (length pre).
Proof. induction pre as [|s pre IH]; intros post H; cbn; [reflexivity|]. rewrite (H s) by (now left). now rewrite IH by (intros x Hx; apply H; now right). Qed.
Print Assumptions C50_close_stops_early_refuted.
(* ================= C46, C49, C50: added after seeded-bug tests ================= *)
Definition insts_ok (p : plugin) : Prop := (forall x, In x (p_inst p) -> x <> None) /\ (0 <= p_index p)%Z /\ (p_index p + Z.of_nat (length (p_inst p)) <= 2 ^ 32)%Z.
Lemma mod_hit : forall n idx k, (0 < n)%nat -> (k < n)%nat -> (0 <= idx)%Z -> exists j, (j < n)%nat /\ Z.to_nat ((idx + Z.of_nat j) mod Z.of_nat n) = k.
Proof.
  intros n idx k Hn Hk Hi. exists (Z.to_nat ((Z.of_nat k - idx) mod Z.of_nat n)). pose proof (Z.mod_pos_bound (Z.of_nat k - idx) (Z.of_nat n) ltac:(lia)) as B. split; [lia|].
  rewrite Z2Nat.id by lia. rewrite Z.add_mod_idemp_r by lia. replace (idx + (Z.of_nat k - idx))%Z with (Z.of_nat k) by lia. rewrite Z.mod_small by lia. apply Nat2Z.id.
Qed.
Lemma tries_spec : forall alive k p g p', get_tries alive p k = (g, p') -> (forall x, In x (p_inst p) -> x <> None) -> (0 <= p_index p)%Z -> (p_index p + Z.of_nat k <= 2 ^ 32)%Z -> (0 < length (p_inst p))%nat ->
  match g with
  | GInst i => exists j, (j < k)%nat /\ nth_error (p_inst p) (Z.to_nat ((p_index p + Z.of_nat j) mod Z.of_nat (length (p_inst p)))) = Some (Some i) /\ alive i = true /\
      forall j', (j' < j)%nat -> exists i', nth_error (p_inst p) (Z.to_nat ((p_index p + Z.of_nat j') mod Z.of_nat (length (p_inst p)))) = Some (Some i') /\ alive i' = false
  | GFail => forall j', (j' < k)%nat -> exists i', nth_error (p_inst p) (Z.to_nat ((p_index p + Z.of_nat j') mod Z.of_nat (length (p_inst p)))) = Some (Some i') /\ alive i' = false
  | GPanic => False
  end.
Proof.
  induction k as [|k IH]; intros p g p' H Hn H0 Hm Hl; cbn [get_tries] in H; [injection H as <- <-; intros j' Hj; lia|].
  set (idx := Z.to_nat (p_index p mod Z.of_nat (length (p_inst p)))) in *. assert (Hidx: (idx < length (p_inst p))%nat). { unfold idx. pose proof (Z.mod_pos_bound (p_index p) (Z.of_nat (length (p_inst p))) ltac:(lia)). lia. }
  assert (En: exists i, nth_error (p_inst p) idx = Some (Some i) /\ nth idx (p_inst p) None = Some i). { destruct (nth_error (p_inst p) idx) as [[i|]|] eqn:E; [exists i; split; [reflexivity|now apply nth_error_nth]|exfalso; apply (Hn None); [eapply nth_error_In; exact E|reflexivity]|apply nth_error_None in E; lia]. }
  destruct En as (i & En & Eq). rewrite Eq in H. destruct (alive i) eqn:Ea.
  - injection H as <- <-. exists 0%nat. split; [lia|]. rewrite Z.add_0_r. split; [exact En|]. split; [exact Ea|]. intros j' Hj; lia.
  - destruct k as [|k].
    + cbn [get_tries] in H. injection H as <- <-. intros j' Hj. assert (j' = 0%nat) by lia. subst j'. exists i. rewrite Z.add_0_r. auto.
    + assert (Eu: u32 (p_index p + 1) = (p_index p + 1)%Z) by (apply u32_small; lia). apply IH in H; cbn [p_inst p_index] in *; [|assumption|rewrite Eu; lia|rewrite Eu; lia|assumption]. rewrite Eu in H.
      destruct g as [i2| |]; [|intros [|j'] Hj; [exists i; rewrite Z.add_0_r; auto|]|exact H].
      * destruct H as (j & Hj & Hj1 & Hj2 & Hj3). exists (S j). split; [lia|]. split; [rewrite <- Hj1; do 3 f_equal; lia|]. split; [exact Hj2|]. intros [|j'] Hj'; [exists i; rewrite Z.add_0_r; auto|]. destruct (Hj3 j' ltac:(lia)) as (i' & Hi' & Ha'). exists i'. split; [|exact Ha']. rewrite <- Hi'. do 3 f_equal. lia.
      * destruct (H j' ltac:(lia)) as (i' & Hi' & Ha'). exists i'. split; [|exact Ha']. rewrite <- Hi'. do 3 f_equal. lia.
Qed.
(* A hand-out succeeds exactly if some instance can be acquired; what it returns is an instance of the plugin that can be. *)
Theorem C46_finds_alive : forall alive p g p', insts_ok p -> get_instance alive p = (g, p') ->
  match g with
  | GInst i => In (Some i) (p_inst p) /\ alive i = true
  | GFail => forall i, In (Some i) (p_inst p) -> alive i = false
  | GPanic => False
  end.
Proof.
  intros alive p g p' (Hn & H0 & Hm) H. unfold get_instance in H. destruct (p_inst p) as [|x l] eqn:El; [cbn [length get_tries] in H; injection H as <- <-; intros i []|].
  assert (L: length (p_inst p) = length (x :: l)) by now rewrite El. apply tries_spec in H; [|rewrite El; assumption|assumption|assumption|rewrite L; cbn; lia]. rewrite El in H. destruct g as [i| |]; [| |exact H].
  - destruct H as (j & _ & Hj & Ha & _). split; [eapply nth_error_In; exact Hj|exact Ha].
  - intros i Hi. apply In_nth_error in Hi. destruct Hi as (k & Hk). assert (Hkl: (k < length (x :: l))%nat) by (apply nth_error_Some; congruence).
    destruct (mod_hit (length (x :: l)) (p_index p) k ltac:(cbn; lia) Hkl H0) as (j & Hj & Ej). destruct (H j Hj) as (i' & Hi' & Ha'). rewrite Ej in Hi'. congruence.
Qed.
Print Assumptions C46_finds_alive.
Example C46_finds_alive_ex : let p := mkpl [Some 4; Some 5; Some 6] 3 7 3 0 (fun _ => None) in insts_ok p /\ fst (get_instance (fun i => (i =? 4)%nat) p) = GInst 4 /\ fst (get_instance (fun i => (i =? 9)%nat) p) = GFail.
Proof. split; [|split; vm_compute; reflexivity]. split; [|cbn; lia]. cbn. intros x [<-|[<-|[<-|[]]]]; discriminate. Qed.
(* per instance: hand-outs of i and releases of i *)
Definition handed_i (i : nat) (gs : list gres) : Z := Z.of_nat (length (List.filter (fun g => match g with GInst x => (x =? i)%nat | _ => false end) gs)).
Definition released_i (i : nat) (ops : list pop) : Z := Z.of_nat (length (List.filter (fun o => match o with PRelease x => (x =? i)%nat | _ => false end) ops)).
Lemma tries_borrowed : forall alive k p g p' i, get_tries alive p k = (g, p') -> p_borrowed p' i = if (match g with GInst x => (x =? i)%nat | _ => false end) then Some (u32 (match p_borrowed p i with Some b => b | None => 0 end + 1)) else p_borrowed p i.
Proof.
  induction k as [|k IH]; intros p g p' i H; cbn [get_tries] in H; [injection H as <- <-; reflexivity|]. destruct (nth _ (p_inst p) None) as [x|]; [|injection H as <- <-; reflexivity].
  destruct (alive x); [|exact (IH _ _ _ i H)]. injection H as <- <-. cbn [p_borrowed]. unfold upd. rewrite (Nat.eqb_sym i x). destruct (Nat.eqb_spec x i) as [->|]; reflexivity.
Qed.
Lemma borrowed_run : forall alive i ops p gs p', prun alive ops p = (gs, p') ->
  (forall pre post, ops = pre ++ post -> (released_i i pre <= match p_borrowed p i with Some b => b | None => 0 end + handed_i i (fst (prun alive pre p)))%Z) ->
  (match p_borrowed p i with Some b => b | None => 0 end + handed_i i gs < 2 ^ 32)%Z -> (0 <= match p_borrowed p i with Some b => b | None => 0 end)%Z ->
  match p_borrowed p' i with Some b => b | None => 0%Z end = (match p_borrowed p i with Some b => b | None => 0 end + handed_i i gs - released_i i ops)%Z.
Proof.
  intros alive i. induction ops as [|[|x] ops IH]; intros p gs p' H Hb Hm H0; cbn [prun] in H.
  - injection H as <- <-. unfold handed_i, released_i. cbn. lia.
  - destruct (get_instance alive p) as [g p1] eqn:E. destruct (prun alive ops p1) as [gs2 p2] eqn:E2. injection H as <- <-. pose proof (tries_borrowed _ _ _ _ _ i E) as B.
    set (v := match p_borrowed p i with Some b => b | None => 0%Z end) in *.
    assert (V: match p_borrowed p1 i with Some b => b | None => 0%Z end = (v + (if match g with GInst x => (x =? i)%nat | _ => false end then 1 else 0))%Z).
    { rewrite B. destruct (match g with GInst x => (x =? i)%nat | _ => false end) eqn:Eg; [|fold v; lia]. apply u32_small. unfold handed_i in Hm. cbn [List.filter] in Hm. rewrite Eg in Hm. cbn [length] in Hm. lia. }
    assert (Hh: handed_i i (g :: gs2) = ((if match g with GInst x => (x =? i)%nat | _ => false end then 1 else 0) + handed_i i gs2)%Z) by (unfold handed_i; cbn [List.filter]; destruct (match g with GInst x => (x =? i)%nat | _ => false end); cbn [length]; lia).
    rewrite (IH p1 gs2 p2 E2); rewrite V.
    + rewrite Hh. unfold released_i. cbn [List.filter]. lia.
    + intros pre post ->. specialize (Hb (PGet :: pre) post eq_refl). cbn [prun] in Hb. rewrite E in Hb. destruct (prun alive pre p1) as [gs3 p3]. cbn [fst] in *. unfold released_i in *. cbn [List.filter] in Hb. unfold handed_i in *. cbn [List.filter] in Hb. destruct (match g with GInst x => (x =? i)%nat | _ => false end); cbn [length] in Hb; lia.
    + lia.
    + destruct (match g with GInst x => (x =? i)%nat | _ => false end); lia.
  - set (v := match p_borrowed p i with Some b => b | None => 0%Z end) in *. destruct (Nat.eqb_spec x i) as [->|Hx].
    + assert (Hv: (1 <= v)%Z). { specialize (Hb [PRelease i] ops eq_refl). unfold released_i, handed_i in Hb. cbn in Hb. rewrite Nat.eqb_refl in Hb. cbn in Hb. lia. }
      assert (V: match p_borrowed (release_instance i p) i with Some b => b | None => 0%Z end = (v - 1)%Z).
      { cbn [release_instance p_borrowed]. unfold v in *. destruct (p_borrowed p i) as [b|] eqn:Eb; [|lia]. unfold upd. rewrite Nat.eqb_refl. apply u32_small. unfold handed_i in Hm. lia. }
      rewrite (IH _ _ _ H); rewrite V; [unfold released_i; cbn [List.filter]; rewrite Nat.eqb_refl; cbn [length]; lia| |lia|lia].
      intros pre post ->. specialize (Hb (PRelease i :: pre) post eq_refl). cbn [prun] in Hb. unfold released_i in *. cbn [List.filter] in Hb. rewrite Nat.eqb_refl in Hb. cbn [length] in Hb. lia.
    + assert (V: p_borrowed (release_instance x p) i = p_borrowed p i). { cbn [release_instance p_borrowed]. destruct (p_borrowed p x) as [b|] eqn:Eb; [|reflexivity]. unfold upd. destruct (Nat.eqb_spec i x) as [->|]; [congruence|reflexivity]. }
      apply Nat.eqb_neq in Hx. rewrite (IH _ _ _ H); rewrite V; fold v; [unfold released_i; cbn [List.filter]; rewrite Hx; lia| |assumption|assumption].
      intros pre post ->. specialize (Hb (PRelease x :: pre) post eq_refl). cbn [prun] in Hb. unfold released_i in *. cbn [List.filter] in Hb. rewrite Hx in Hb. fold v. lia.
Qed.
(* The count kept per instance is exact: hand-outs of that instance minus its releases, for every history in which it is never
   released more often than handed out. *)
Theorem C46_borrowed_per_instance : forall alive i ops p gs p', prun alive ops p = (gs, p') -> p_borrowed p i = None ->
  (forall pre post, ops = pre ++ post -> (released_i i pre <= handed_i i (fst (prun alive pre p)))%Z) -> (handed_i i gs < 2 ^ 32)%Z ->
  match p_borrowed p' i with Some b => b | None => 0%Z end = (handed_i i gs - released_i i ops)%Z.
Proof. intros alive i ops p gs p' H Hn Hb Hm. pose proof (borrowed_run alive i ops p gs p' H) as X. rewrite Hn in X. rewrite X; [lia| |lia|lia]. intros pre post E. specialize (Hb pre post E). lia. Qed.
Print Assumptions C46_borrowed_per_instance.
Example C46_borrowed_ex : let p := mkpl [Some 4; Some 5] 2 0 2 0 (fun _ => None) in let r := prun (fun _ => true) [PGet; PGet; PGet; PRelease 4] p in
  p_borrowed (snd r) 4 = Some 1%Z /\ handed_i 4 (fst r) = 2%Z /\ p_borrowed (snd r) 5 = Some 1%Z.
Proof. split; [|split]; vm_compute; reflexivity. Qed.

(* The store: what a key holds is the VM made by the first GetOrCreate of the key, with every later operation on it applied;
   a later GetOrCreate and operations on other keys change nothing. *)
Definition on_key (k : nat) (o : sop) : list vop := match o with SOn j o => if (j =? k)%nat then [o] else [] | _ => [] end.
Fixpoint since_creation (k : nat) (ops : list sop) : option (list vop) :=
  match ops with [] => None | SGetOrCreate j :: r => if (j =? k)%nat then Some (flat_map (on_key k) r) else since_creation k r | _ :: r => since_creation k r end.
Theorem C49_store : forall ops k, vget k (fold_left sapply ops []) = option_map vrun (since_creation k ops).
Proof.
  intros ops k.
  assert (G1: forall ops s v, vget k s = Some v -> vget k (fold_left sapply ops s) = Some (fold_left vapply (flat_map (on_key k) ops) v)).
  { clear. induction ops as [|o ops IH]; intros s v H; cbn [fold_left flat_map]; [assumption|]. rewrite fold_left_app. apply IH. destruct o as [j|j o]; cbn [sapply on_key fold_left].
    - unfold get_or_create. destruct (vget j s) eqn:E; [assumption|]. rewrite vput_get. destruct (Nat.eqb_spec k j) as [->|]; [congruence|assumption].
    - destruct (vget j s) eqn:E.
      + rewrite vput_get, (Nat.eqb_sym k j). destruct (Nat.eqb_spec j k) as [->|]; [cbn; congruence|assumption].
      + destruct (Nat.eqb_spec j k) as [->|]; [congruence|assumption]. }
  assert (G2: forall ops s, vget k s = None -> vget k (fold_left sapply ops s) = option_map vrun (since_creation k ops)).
  { clear ops. induction ops as [|o ops' IH]; intros s H; cbn [fold_left since_creation]; [exact H|]. destruct o as [j|j o]; cbn [sapply].
    - destruct (Nat.eqb_spec j k) as [->|Hj].
      + cbn [option_map]. unfold vrun. apply G1. unfold get_or_create. rewrite H, vput_get, Nat.eqb_refl. reflexivity.
      + apply IH. unfold get_or_create. destruct (vget j s); [assumption|]. rewrite vput_get. destruct (Nat.eqb_spec k j); [congruence|assumption].
    - apply IH. destruct (vget j s) eqn:E; [|assumption]. rewrite vput_get. destruct (Nat.eqb_spec k j) as [->|]; [congruence|assumption]. }
  apply G2. reflexivity.
Qed.
Print Assumptions C49_store.
Example C49_store_ex : since_creation 1 [SGetOrCreate 1; SOn 1 (VAcquire 7); SGetOrCreate 1; SOn 2 (VAcquire 8); SOn 1 (VAcquire 9)] = Some [VAcquire 7; VAcquire 9].
Proof. reflexivity. Qed.

Definition accepted (fs : list nat) (ok : nat -> nat -> bool) (k : nat) : Prop := forall i, In i fs -> ok k i = true.
(* The body loop in full: it stops at the first chunk that some filter rejects, having taken that chunk, and otherwise takes
   all. *)
Theorem C50_body : forall fs ok chunks b r, http_body fs ok 0 chunks [] = (b, r) -> exists n, b = concat (firstn n chunks) /\ (n <= length chunks)%nat /\
  if r then n = length chunks /\ forall k, (k < n)%nat -> accepted fs ok k
  else exists m, n = S m /\ (forall k, (k < m)%nat -> accepted fs ok k) /\ exists i, In i fs /\ ok m i = false.
Proof.
  intros fs ok chunks b r H.
  assert (B: forall f : nat -> bool, if body_filters fs f then forall i, In i fs -> f i = true else exists i, In i fs /\ f i = false).
  { intros f. clear. induction fs as [|x l IH]; cbn; [intros i []|]. destruct (f x) eqn:E; cbn [andb]; [|exists x; auto]. destruct (body_filters l f); [intros i [<-|Hi]; [assumption|now apply IH]|destruct IH as (i & Hi & Hf); exists i; auto]. }
  assert (G: forall c k b0 b r, http_body fs ok k c b0 = (b, r) -> exists n, b = b0 ++ concat (firstn n c) /\ (n <= length c)%nat /\ if r then n = length c /\ forall j, (j < n)%nat -> accepted fs ok (k + j) else exists m, n = S m /\ (forall j, (j < m)%nat -> accepted fs ok (k + j)) /\ exists i, In i fs /\ ok (k + m)%nat i = false).
  { clear - B. induction c as [|x c IH]; intros k b0 b r H; cbn [http_body] in H.
    - injection H as <- <-. exists 0%nat. cbn. rewrite app_nil_r. split; [reflexivity|]. split; [lia|]. split; [reflexivity|]. intros j Hj; lia.
    - specialize (B (ok k)). destruct (body_filters fs (ok k)).
      + apply IH in H. destruct H as (n & -> & Hn & H). exists (S n). cbn [firstn concat length]. rewrite app_assoc. split; [reflexivity|]. split; [lia|]. destruct r.
        * destruct H as (-> & H). split; [reflexivity|]. intros [|j] Hj; [rewrite Nat.add_0_r; exact B|]. replace (k + S j)%nat with (S k + j)%nat by lia. apply H. lia.
        * destruct H as (m & -> & H & i & Hi & Ho). exists (S m). split; [reflexivity|]. split; [|exists i; split; [assumption|replace (k + S m)%nat with (S k + m)%nat by lia; assumption]]. intros [|j] Hj; [rewrite Nat.add_0_r; exact B|]. replace (k + S j)%nat with (S k + j)%nat by lia. apply H. lia.
      + injection H as <- <-. exists 1%nat. cbn. rewrite app_nil_r. split; [reflexivity|]. split; [lia|]. exists 0%nat. split; [reflexivity|]. split; [intros j Hj; lia|]. rewrite Nat.add_0_r. exact B. }
  apply G in H. exact H.
Qed.
Print Assumptions C50_body.
Example C50_body_ex : http_body [0; 1]%nat (fun k i => negb ((k =? 1) && (i =? 1))%nat) 0 [[1]; [2]; [3]]%Z [] = ([1; 2]%Z, false).
Proof. reflexivity. Qed.
(* Exactly what a failing NewStream keeps borrowed: one instance per context made before, and the one whose context could not be
   created. *)
Theorem C50_leak_exact : forall rs b, new_stream rs = (b, None) <-> exists pre x post, rs = pre ++ x :: post /\ (forall y, In y pre -> y = COk) /\ (x = CNoInstance /\ b = length pre \/ x = CCreateFails /\ b = S (length pre)).
Proof.
  induction rs as [|r rs IH]; intros b.
  - cbn. split; [discriminate|]. intros (pre & x & post & E & _). destruct pre; discriminate.
  - destruct r; cbn [new_stream].
    + split.
      * intros H. injection H as <-. exists [], CNoInstance, rs. split; [reflexivity|]. split; [intros y []|]. left. auto.
      * intros (pre & x & post & E & Hp & H). destruct pre as [|y pre]; [cbn in E; injection E as <- <-; destruct H as [(_ & ->)|(C & _)]; [reflexivity|discriminate]|]. cbn in E. injection E as <- _. specialize (Hp CNoInstance (or_introl eq_refl)). discriminate.
    + split.
      * intros H. injection H as <-. exists [], CCreateFails, rs. split; [reflexivity|]. split; [intros y []|]. right. auto.
      * intros (pre & x & post & E & Hp & H). destruct pre as [|y pre]; [cbn in E; injection E as <- <-; destruct H as [(C & _)|(_ & ->)]; [discriminate|reflexivity]|]. cbn in E. injection E as <- _. specialize (Hp CCreateFails (or_introl eq_refl)). discriminate.
    + destruct (new_stream rs) as [b' [k|]] eqn:E.
      * split; [discriminate|]. intros (pre & x & post & Er & Hp & H). destruct pre as [|y pre]; [cbn in Er; injection Er as <- <-; destruct H as [(C & _)|(C & _)]; discriminate|]. cbn in Er. injection Er as _ ->. exfalso. assert (X: (b', Some k) = (pred b, @None nat)); [|discriminate]. apply IH.
           exists pre, x, post. split; [reflexivity|]. split; [intros z Hz; apply Hp; now right|]. cbn in H. destruct H as [(? & ->)|(? & ->)]; [left|right]; auto.
      * split.
        -- intros H. injection H as <-. destruct (proj1 (IH b') eq_refl) as (pre & x & post & -> & Hp & H). exists (COk :: pre), x, post. split; [reflexivity|]. split; [intros y [<-|Hy]; [reflexivity|now apply Hp]|]. cbn. destruct H as [(? & ->)|(? & ->)]; [left|right]; auto.
        -- intros (pre & x & post & Er & Hp & H). destruct pre as [|y pre]; [cbn in Er; injection Er as <- <-; destruct H as [(C & _)|(C & _)]; discriminate|]. cbn in Er. injection Er as _ ->. f_equal. enough (X: (b', @None nat) = (pred b, None)) by (injection X as ->; cbn in H; destruct H as [(? & ->)|(? & ->)]; reflexivity). apply IH.
           exists pre, x, post. split; [reflexivity|]. split; [intros z Hz; apply Hp; now right|]. cbn in H. destruct H as [(? & ->)|(? & ->)]; [left|right]; auto.
Qed.
Print Assumptions C50_leak_exact.
