(* C87: the Python bindings. *)
From Coq Require Import List Bool Arith ZArith Lia Permutation.
From Verif Require Import M_PyBind.
Import ListNotations.

Lemma upd_spec : forall A (l : list A) i f j, nth_error (upd l i f) j = match nth_error l j with Some x => Some (if Nat.eqb j i then f x else x) | None => None end.
Proof.
  intros A l i f j. unfold upd. rewrite nth_error_map.
  assert (G : forall k, nth_error (combine (seq k (length l)) l) j = match nth_error l j with Some x => Some (k + j, x) | None => None end).
  { revert j. induction l as [|a l IH]; intros [|j] k; cbn; try reflexivity.
    - now rewrite Nat.add_0_r.
    - rewrite IH. destruct (nth_error l j); [|reflexivity]. do 2 f_equal. lia. }
  rewrite G. destruct (nth_error l j); reflexivity.
Qed.
Lemma upd_length : forall A (l : list A) i f, length (upd l i f) = length l.
Proof. intros. unfold upd. rewrite map_length, combine_length, seq_length. lia. Qed.

(* ---- the history of calls made one after the other: the handles given out and not yet closed, and the state ---- *)
Fixpoint drop1 (h : nat) (l : list nat) : list nat := match l with [] => [] | x :: r => if Nat.eqb x h then r else x :: drop1 h r end.
Inductive hist : list nat -> st -> Prop :=
| HInit : hist [] init
| HNew : forall hs s made id h s', hist hs s -> new_transport made id s = (Some h, s') -> hist (h :: hs) s'
| HFail : forall hs s made id s', hist hs s -> new_transport made id s = (None, s') -> hist hs s'
| HClose : forall hs s h, hist hs s -> In h hs -> hist (drop1 h hs) (close_transport h s).
Definition count (h : nat) (l : list nat) : nat := count_occ Nat.eq_dec l h.

Lemma lookup_remove_eq : forall id p, lookup id (remove id p) = None.
Proof.
  intros. unfold lookup, remove. induction p as [|[k v] p IH]; cbn; [reflexivity|].
  destruct (Nat.eqb k id) eqn:E; cbn; [exact IH|]. rewrite E. exact IH.
Qed.
Lemma lookup_remove_ne : forall id id' p, id' <> id -> lookup id' (remove id p) = lookup id' p.
Proof.
  intros id id' p H. unfold lookup, remove. induction p as [|[k v] p IH]; cbn; [reflexivity|].
  destruct (Nat.eqb k id) eqn:E; cbn.
  - apply Nat.eqb_eq in E. subst k. destruct (Nat.eqb id id') eqn:E2; [apply Nat.eqb_eq in E2; congruence|exact IH].
  - destruct (Nat.eqb k id'); [reflexivity|exact IH].
Qed.
Lemma lookup_set : forall id t id' p, lookup id' (set id t p) = if Nat.eqb id' id then Some t else lookup id' p.
Proof.
  intros. unfold set. unfold lookup at 1. cbn. rewrite Nat.eqb_sym. destruct (Nat.eqb id' id) eqn:E; [reflexivity|].
  apply Nat.eqb_neq in E. fold (lookup id' (remove id p)). now apply lookup_remove_ne.
Qed.
Lemma count_drop1 : forall h l h', In h l -> count h' (drop1 h l) = if Nat.eqb h' h then count h' l - 1 else count h' l.
Proof.
  unfold count. induction l as [|x l IH]; intros h' [].
  - subst x. cbn. rewrite Nat.eqb_refl. destruct (Nat.eq_dec h h'); destruct (Nat.eqb h' h) eqn:E; try lia;
      try (apply Nat.eqb_neq in E; congruence); try (apply Nat.eqb_eq in E; congruence).
  - cbn. destruct (Nat.eqb x h) eqn:E.
    + apply Nat.eqb_eq in E. subst x. destruct (Nat.eq_dec h h'); destruct (Nat.eqb h' h) eqn:E; try lia;
        try (apply Nat.eqb_neq in E; congruence); try (apply Nat.eqb_eq in E; congruence).
    + cbn. rewrite IH by assumption. destruct (Nat.eq_dec x h'); destruct (Nat.eqb h' h) eqn:E2; try lia.
      apply Nat.eqb_eq in E2. apply Nat.eqb_neq in E. congruence.
Qed.

Definition inv (hs : list nat) (s : st) : Prop :=
  (forall id, match lookup id (s_pool s) with
              | Some t => t < length (s_trs s) /\ 0 < count id hs /\ ref_of (s_trs s) t = count id hs
              | None => count id hs = 0 end) /\
  (forall id id' t, lookup id (s_pool s) = Some t -> lookup id' (s_pool s) = Some t -> id = id').

Lemma ref_of_incr : forall l t t', ref_of (incr l t) t' = if Nat.eqb t' t && Nat.ltb t' (length l) then S (ref_of l t') else ref_of l t'.
Proof.
  intros. unfold ref_of, incr. rewrite upd_spec. destruct (nth_error l t') eqn:E.
  - assert (t' < length l) by (apply nth_error_Some; congruence). apply Nat.ltb_lt in H. rewrite H, andb_true_r. now destruct (Nat.eqb t' t).
  - apply nth_error_None in E. assert (Nat.ltb t' (length l) = false) by (apply Nat.ltb_ge; lia). now rewrite H, andb_false_r.
Qed.
Lemma ref_of_dec : forall l t t', t' < length l ->
  ref_of (upd l t (fun x => mktr (dec (t_ref x)) (t_stopped x))) t' = if Nat.eqb t' t then dec (ref_of l t') else ref_of l t'.
Proof.
  intros. unfold ref_of. rewrite upd_spec. destruct (nth_error l t') eqn:E; [now destruct (Nat.eqb t' t)|]. apply nth_error_None in E. lia.
Qed.
Lemma ref_of_stop : forall l t t', ref_of (stop l t) t' = ref_of l t'.
Proof. intros. unfold ref_of, stop. rewrite upd_spec. destruct (nth_error l t'); [|reflexivity]. now destruct (Nat.eqb t' t). Qed.
Lemma close_eq : forall h s t, lookup h (s_pool s) = Some t -> t < length (s_trs s) ->
  let l := upd (s_trs s) t (fun x => mktr (dec (t_ref x)) (t_stopped x)) in
  close_transport h s = if Nat.eqb (dec (ref_of (s_trs s) t)) 0 then mkst (stop l t) (remove h (s_pool s)) else mkst l (s_pool s).
Proof.
  intros h s t E Hl l. unfold close_transport, get_and_delete. rewrite E. fold l.
  assert (R : ref_of l t = dec (ref_of (s_trs s) t)) by (unfold l; rewrite ref_of_dec, Nat.eqb_refl; auto).
  cbn [s_trs s_pool]. rewrite R. now destruct (Nat.eqb (dec (ref_of (s_trs s) t)) 0).
Qed.

Lemma hist_inv : forall hs s, hist hs s -> inv hs s.
Proof.
  intros hs s H. induction H as [|hs s made id h s' H [I1 I2] E|hs s made id s' H I E|hs s h H [I1 I2] Hin].
  - split; cbn; [reflexivity|discriminate].
  - unfold new_transport in E. destruct (lookup id (s_pool s)) as [t|] eqn:L.
    + inversion E; subst h s'; clear E. pose proof (I1 id) as J. rewrite L in J. destruct J as [J1 [J2 J3]]. split; cbn [s_pool s_trs].
      * intro id'. pose proof (I1 id') as K. destruct (lookup id' (s_pool s)) as [t'|] eqn:L'.
        -- destruct K as [K1 [K2 K3]]. split; [unfold incr; now rewrite upd_length|]. unfold count in *. cbn. rewrite ref_of_incr.
           destruct (Nat.eq_dec id id').
           ++ subst id'. assert (t' = t) by congruence. subst t'. apply Nat.ltb_lt in K1. rewrite Nat.eqb_refl, K1. cbn. lia.
           ++ assert (t' <> t) by (intro; subst t'; apply n; eapply I2; eauto). apply Nat.eqb_neq in H0. rewrite H0. cbn. lia.
        -- unfold count in *. cbn. destruct (Nat.eq_dec id id'); [congruence|exact K].
      * exact I2.
    + destruct made; [|discriminate]. inversion E; subst h s'; clear E. pose proof (I1 id) as J. rewrite L in J. split; cbn [s_pool s_trs].
      * intro id'. rewrite lookup_set. destruct (Nat.eqb id' id) eqn:E.
        -- apply Nat.eqb_eq in E. subst id'. rewrite app_length. cbn. split; [lia|]. unfold count in *. cbn. destruct (Nat.eq_dec id id); [|congruence].
           split; [lia|]. unfold ref_of. rewrite nth_error_app2, Nat.sub_diag by lia. cbn. lia.
        -- apply Nat.eqb_neq in E. pose proof (I1 id') as K. unfold count in *. cbn. destruct (Nat.eq_dec id id'); [congruence|].
           destruct (lookup id' (s_pool s)) as [t'|]; [|exact K]. destruct K as [K1 [K2 K3]]. rewrite app_length. split; [lia|]. split; [exact K2|].
           unfold ref_of in *. now rewrite nth_error_app1.
      * intros a b t Ha Hb. rewrite lookup_set in Ha, Hb. destruct (Nat.eqb a id) eqn:Ea; destruct (Nat.eqb b id) eqn:Eb.
        -- apply Nat.eqb_eq in Ea, Eb. congruence.
        -- inversion Ha; subst t. pose proof (I1 b) as K. rewrite Hb in K. lia.
        -- inversion Hb; subst t. pose proof (I1 a) as K. rewrite Ha in K. lia.
        -- eapply I2; eauto.
  - unfold new_transport in E. destruct (lookup id (s_pool s)); [discriminate|]. destruct made; [discriminate|]. inversion E; subst s'. exact I.
  - pose proof (I1 h) as J. assert (C : 0 < count h hs) by (unfold count; now apply count_occ_In).
    destruct (lookup h (s_pool s)) as [t|] eqn:L; [|lia]. destruct J as [J1 [J2 J3]]. rewrite (close_eq _ _ t L J1). rewrite J3.
    destruct (count h hs) as [|c] eqn:Ec; [lia|]. cbn [dec]. destruct (Nat.eqb c 0) eqn:E0.
    + apply Nat.eqb_eq in E0. subst c. split; cbn [s_pool s_trs].
      * intro id. rewrite count_drop1 by assumption. destruct (Nat.eqb id h) eqn:E.
        -- apply Nat.eqb_eq in E. subst id. rewrite lookup_remove_eq. lia.
        -- apply Nat.eqb_neq in E. rewrite lookup_remove_ne by assumption. pose proof (I1 id) as K. destruct (lookup id (s_pool s)) as [t'|] eqn:L'; [|exact K].
           destruct K as [K1 [K2 K3]]. split; [unfold stop; now rewrite !upd_length|]. split; [exact K2|]. rewrite ref_of_stop, ref_of_dec by assumption.
           destruct (Nat.eqb t' t) eqn:Et; [|exact K3]. apply Nat.eqb_eq in Et. subst t'. exfalso. apply E. eapply I2; eauto.
      * intros a b u Ha Hb. destruct (Nat.eq_dec a h); [subst; now rewrite lookup_remove_eq in Ha|]. destruct (Nat.eq_dec b h); [subst; now rewrite lookup_remove_eq in Hb|].
        rewrite lookup_remove_ne in Ha, Hb by assumption. eapply I2; eauto.
    + apply Nat.eqb_neq in E0. split; cbn [s_pool s_trs]; [|exact I2].
      intro id. rewrite count_drop1 by assumption. pose proof (I1 id) as K. destruct (lookup id (s_pool s)) as [t'|] eqn:L'.
      * destruct K as [K1 [K2 K3]]. split; [now rewrite upd_length|]. rewrite ref_of_dec by assumption. destruct (Nat.eqb id h) eqn:E.
        -- apply Nat.eqb_eq in E. subst id. assert (t' = t) by congruence. subst t'. rewrite Nat.eqb_refl, J3. cbn [dec]. lia.
        -- apply Nat.eqb_neq in E. destruct (Nat.eqb t' t) eqn:Et; [|lia]. apply Nat.eqb_eq in Et. subst t'. exfalso. apply E. eapply I2; eauto.
      * destruct (Nat.eqb id h) eqn:E; [|exact K]. apply Nat.eqb_eq in E. subst id. congruence.
Qed.

(* a transport is in the pool exactly as long as handles of its id are open, it counts them, and different ids have different transports *)
Theorem C87_counts_handles : forall hs s, hist hs s ->
  (forall id, In id hs <-> exists t, served_by id s = Some t) /\
  (forall id t, served_by id s = Some t -> ref_of (s_trs s) t = count id hs) /\
  (forall id id' t, served_by id s = Some t -> served_by id' s = Some t -> id = id').
Proof.
  intros hs s H. apply hist_inv in H. destruct H as [I1 I2]. unfold served_by. split; [|split].
  - intro id. pose proof (I1 id) as K. rewrite (count_occ_In Nat.eq_dec). unfold count in K. destruct (lookup id (s_pool s)) as [t|].
    + split; [eauto|intros _; lia].
    + split; [lia|intros [t Ht]; discriminate].
  - intros id t E. pose proof (I1 id) as K. rewrite E in K. tauto.
  - exact I2.
Qed.
Print Assumptions C87_counts_handles.

(* a second handle of the same id: the same transport, whatever was asked for; a failed call changes nothing *)
Theorem C87_shared : forall made id s t, served_by id s = Some t ->
  exists s', new_transport made id s = (Some id, s') /\ served_by id s' = Some t /\ length (s_trs s') = length (s_trs s).
Proof. intros. unfold new_transport, served_by in *. rewrite H. eexists. split; [reflexivity|]. split; [exact H|]. cbn. unfold incr. apply upd_length. Qed.
Theorem C87_failed : forall made id s s', new_transport made id s = (None, s') -> s' = s /\ served_by id s = None /\ made = false.
Proof. intros made id s s' H. unfold new_transport, served_by in *. destruct (lookup id (s_pool s)); [discriminate|]. destruct made; [discriminate|]. inversion H. auto. Qed.
(* the last Close of an id removes its transport and makes room for a new one *)
Theorem C87_last_close : forall hs s h, hist hs s -> count h hs = 1 -> served_by h (close_transport h s) = None.
Proof.
  intros hs s h H C. assert (Hin : In h hs) by (apply (count_occ_In Nat.eq_dec); unfold count in C; lia).
  pose proof (HClose _ _ _ H Hin) as H'. apply hist_inv in H'. destruct H' as [I _]. pose proof (I h) as K. rewrite count_drop1, Nat.eqb_refl, C in K by assumption.
  unfold served_by. destruct (lookup h _); [lia|reflexivity].
Qed.
(* a Close changes no other id *)
Theorem C87_close_other : forall hs s h id, hist hs s -> id <> h -> served_by id (close_transport h s) = served_by id s.
Proof.
  intros hs s h id H N. unfold close_transport, get_and_delete, served_by. destruct (lookup h (s_pool s)) as [t|]; [|reflexivity].
  cbn [s_trs s_pool]. destruct (Nat.eqb (ref_of _ t) 0); cbn; [now apply lookup_remove_ne|reflexivity].
Qed.
Print Assumptions C87_shared.
Print Assumptions C87_failed.
Print Assumptions C87_last_close.
Print Assumptions C87_close_other.

(* every transport handed out runs under a context that is cancelled already *)
Theorem C87_context_cancelled : forall hs s t x, hist hs s -> nth_error (s_trs s) t = Some x -> t_stopped x = true.
Proof.
  intros hs s t x H. revert t x. induction H as [|hs s made id h s' H I E|hs s made id s' H I E|hs s h H I Hin]; intros t x Hx.
  - destruct t; discriminate.
  - unfold new_transport in E. destruct (lookup id (s_pool s)) as [u|].
    + inversion E; subst; clear E. cbn in Hx. unfold incr in Hx. rewrite upd_spec in Hx. destruct (nth_error (s_trs s) t) eqn:Et; [|discriminate].
      apply I in Et. inversion Hx. now destruct (Nat.eqb t u).
    + destruct made; [|discriminate]. inversion E; subst; clear E. cbn in Hx. destruct (Nat.lt_ge_cases t (length (s_trs s))).
      * rewrite nth_error_app1 in Hx by assumption. eauto.
      * rewrite nth_error_app2 in Hx by assumption. destruct (t - length (s_trs s)) as [|k]; cbn in Hx; [now inversion Hx|destruct k; discriminate].
  - unfold new_transport in E. destruct (lookup id (s_pool s)); [discriminate|]. destruct made; [discriminate|]. inversion E; subst. eauto.
  - revert Hx. unfold close_transport, get_and_delete. destruct (lookup h (s_pool s)) as [u|]; [|apply I].
    cbn [s_trs s_pool]. destruct (Nat.eqb (ref_of _ u) 0); cbn [s_trs].
    + unfold stop. rewrite !upd_spec. destruct (nth_error (s_trs s) t) eqn:Et; [|discriminate]. apply I in Et. intro Hx. inversion Hx. now destruct (Nat.eqb t u).
    + rewrite upd_spec. destruct (nth_error (s_trs s) t) eqn:Et; [|discriminate]. apply I in Et. intro Hx. inversion Hx. now destruct (Nat.eqb t u).
Qed.
Print Assumptions C87_context_cancelled.

(* not true: an address and a token have a transport of their own.  Only their concatenation counts, whatever the hash *)
Theorem C87_id_concat : forall hash url token url' token', url ++ token = url' ++ token' -> transport_id hash url token = transport_id hash url' token'.
Proof. intros. unfold transport_id. now rewrite H. Qed.
Theorem C87_other_pair_refuted : exists url token url' token', url <> url' /\ token <> token' /\ forall hash, exists s t,
  let id := transport_id hash url token in let id' := transport_id hash url' token' in
  hist [id; id'] s /\ served_by id s = Some t /\ served_by id' s = Some t.
Proof.
  exists [1; 2], [3], [1], [2; 3]. split; [discriminate|]. split; [discriminate|]. intro hash.
  unfold transport_id. cbn [app]. generalize (hash [1; 2; 3]). intro i.
  exists (mkst [mktr 2 true] [(i, 0)]), 0. cbn. assert (R : hist [i] (mkst [mktr 1 true] [(i, 0)])).
  { eapply HNew with (made := true) (id := i); [apply HInit|]. reflexivity. }
  split; [|unfold served_by, lookup; cbn; now rewrite Nat.eqb_refl].
  eapply HNew with (made := true) (id := i); [exact R|]. unfold new_transport, lookup. cbn. rewrite Nat.eqb_refl. reflexivity.
Qed.
Print Assumptions C87_id_concat.
Print Assumptions C87_other_pair_refuted.

(* ---- calls at the same time ---- *)
(* not true: a handle is served until it is closed.  Two first calls at the same time make two transports, and closing one of the handles ends both *)
Theorem C87_concurrent_first_refuted : exists s, creach [7; 7] s /\ nth_error (c_pcs s) 1 = Some (PNew 7) /\ served_by 7 (c_st s) = None.
Proof.
  pose proof (CInit [7; 7]) as R. cbn in R.
  match type of R with creach _ ?s => pose proof (CNext _ _ _ R (CMissing s 0 7 eq_refl eq_refl)) as R1 end. cbn in R1.
  match type of R1 with creach _ ?s => pose proof (CNext _ _ _ R1 (CMissing s 1 7 eq_refl eq_refl)) as R2 end. cbn in R2.
  match type of R2 with creach _ ?s => pose proof (CNext _ _ _ R2 (CMake s 0 7 eq_refl)) as R3 end. cbn in R3.
  match type of R3 with creach _ ?s => pose proof (CNext _ _ _ R3 (CMake s 1 7 eq_refl)) as R4 end. cbn in R4.
  match type of R4 with creach _ ?s => pose proof (CNext _ _ _ R4 (CSet s 0 7 0 eq_refl)) as R5 end. cbn in R5.
  match type of R5 with creach _ ?s => pose proof (CNext _ _ _ R5 (CSet s 1 7 1 eq_refl)) as R6 end. cbn in R6.
  match type of R6 with creach _ ?s => pose proof (CNext _ _ _ R6 (CClose s 0 7 1 _ eq_refl eq_refl)) as R7 end.
  eexists. split; [exact R7|]. split; reflexivity.
Qed.
(* nor when a call finds the transport whose last handle is being closed *)
Theorem C87_concurrent_last_refuted : exists s, creach [7; 7] s /\ nth_error (c_pcs s) 1 = Some (PNew 7) /\ served_by 7 (c_st s) = None /\ nth_error (c_pcs s) 0 <> Some (PNew 7).
Proof.
  pose proof (CInit [7; 7]) as R. cbn in R.
  match type of R with creach _ ?s => pose proof (CNext _ _ _ R (CMissing s 0 7 eq_refl eq_refl)) as R1 end. cbn in R1.
  match type of R1 with creach _ ?s => pose proof (CNext _ _ _ R1 (CMake s 0 7 eq_refl)) as R2 end. cbn in R2.
  match type of R2 with creach _ ?s => pose proof (CNext _ _ _ R2 (CSet s 0 7 0 eq_refl)) as R3 end. cbn in R3.
  match type of R3 with creach _ ?s => pose proof (CNext _ _ _ R3 (CFound s 1 7 0 eq_refl eq_refl)) as R4 end. cbn in R4.
  match type of R4 with creach _ ?s => pose proof (CNext _ _ _ R4 (CClose s 0 7 0 _ eq_refl eq_refl)) as R5 end. cbn in R5.
  match type of R5 with creach _ ?s => pose proof (CNext _ _ _ R5 (CIncr s 1 7 0 eq_refl)) as R6 end.
  eexists. split; [exact R6|]. split; [reflexivity|]. split; [reflexivity|discriminate].
Qed.
Print Assumptions C87_concurrent_first_refuted.
Print Assumptions C87_concurrent_last_refuted.

(* ---- what the caller reads ---- *)
Lemma c_string_id : forall l, ~ In 0 l -> c_string l = l.
Proof. induction l as [|[|b] l IH]; cbn; intro H; [reflexivity|tauto|]. f_equal. apply IH. tauto. Qed.
Lemma c_string_prefix : forall l, exists r, l = c_string l ++ r /\ (r = [] \/ exists q, r = 0 :: q).
Proof. induction l as [|[|b] l [r [E D]]]; cbn; [exists []; auto|exists (0 :: l); eauto|]. exists r. split; [now f_equal|exact D]. Qed.
Lemma c_string_no0 : forall l, ~ In 0 (c_string l).
Proof. induction l as [|[|b] l IH]; cbn; [tauto|tauto|]. intros [H|H]; [discriminate|tauto]. Qed.
(* the answer arrives unchanged exactly if no byte of it is zero and every header has one value, or several joined by commas otherwise *)
Theorem C87_delivered : forall r, ~ In 0 (version r) -> ~ In 0 (body r) ->
  (forall h, In h (headers r) -> ~ In 0 (fst h) /\ exists v, snd h = [v] /\ ~ In 0 v) -> delivered r = r.
Proof.
  intros [st v hs b] Hv Hb Hh. cbn in *. unfold delivered. cbn. rewrite (c_string_id v), (c_string_id b) by assumption. f_equal.
  clear - Hh. induction hs as [|[k vs] hs IH]; [reflexivity|]. cbn. rewrite IH by (intros; apply Hh; now right).
  destruct (Hh (k, vs) (or_introl eq_refl)) as [H1 [x [H2 H3]]]. cbn in *. subst vs. cbn. now rewrite (c_string_id k), (c_string_id x).
Qed.
Theorem C87_body_cut : forall r, exists rest, body r = body (delivered r) ++ rest /\ ~ In 0 (body (delivered r)) /\ (rest = [] \/ exists q, rest = 0 :: q).
Proof. intro r. destruct (c_string_prefix (body r)) as [q [E D]]. exists q. cbn. split; [exact E|]. split; [apply c_string_no0|exact D]. Qed.
Theorem C87_body_whole : forall r, body (delivered r) = body r <-> ~ In 0 (body r).
Proof. intro r. cbn. split; [intro H; rewrite <- H; apply c_string_no0|apply c_string_id]. Qed.
Theorem C87_status_kept : forall r, status (delivered r) = status r /\ length (headers (delivered r)) = length (headers r).
Proof. intro r. cbn. now rewrite map_length. Qed.
Theorem C87_body_refuted : exists r, body (delivered r) <> body r /\ status r = 200.
Proof. exists (mkresp 200 [72] [] [80; 75; 0; 3; 4]). now split. Qed.
Theorem C87_headers_refuted : exists r, (forall h, In h (headers r) -> ~ In 0 (fst h) /\ Forall (fun v => ~ In 0 v) (snd h)) /\ headers (delivered r) <> headers r.
Proof.
  exists (mkresp 200 [] [([83], [[97]; [98]])] []). split; [|discriminate]. cbn. intros h [<-|[]]. cbn. split; [intros [?|[]]; discriminate|].
  repeat constructor; cbn; intros [?|[]]; discriminate.
Qed.
Print Assumptions C87_delivered.
Print Assumptions C87_body_cut.
Print Assumptions C87_body_whole.
Print Assumptions C87_status_kept.
Print Assumptions C87_body_refuted.
Print Assumptions C87_headers_refuted.

(* ---- memory: answers and errors, given out and freed in any order ---- *)
Inductive obj := OResp (n : nat) (r : cresp) | OErr (e : nat * nat).
Inductive mhist (base : mem) : list obj -> mem -> Prop :=
| MInit : mhist base [] base
| MResp : forall os m n r m', mhist base os m -> alloc_response n m = (r, m') -> mhist base (OResp n r :: os) m'
| MErr : forall os m e m', mhist base os m -> alloc_error m = (e, m') -> mhist base (OErr e :: os) m'
| MFreeResp : forall a n r b m, mhist base (a ++ OResp n r :: b) m -> mhist base (a ++ b) (free_response r m)
| MFreeErr : forall a e b m, mhist base (a ++ OErr e :: b) m -> mhist base (a ++ b) (free_error e m).
Definition good_mem (m : mem) : Prop := NoDup (live m) /\ (forall a, In a (live m) -> a < next m).

Definition cell_blocks (cs : list (nat * nat)) : list nat := flat_map (fun c => [fst c; snd c]) cs.
Definition blocks (o : obj) : list nat :=
  match o with
  | OResp _ r => r_self r :: r_body r :: (match h_items (r_headers r) with Some a => [a] | None => [] end) ++ cell_blocks (h_cells (r_headers r)) ++ [r_version r]
  | OErr e => [fst e; snd e]
  end.
Definition wfo (o : obj) : Prop := match o with OResp _ r => h_items (r_headers r) = None -> h_cells (r_headers r) = [] | OErr _ => True end.

Lemma free_perm : forall a m L, Permutation (live m) (a :: L) -> NoDup (live m) ->
  Permutation (live (free a m)) L /\ double_free (free a m) = double_free m /\ next (free a m) = next m.
Proof.
  intros a m L P N. unfold free.
  assert (Hin : In a (live m)) by (eapply Permutation_in; [apply Permutation_sym; exact P|now left]).
  assert (X : existsb (Nat.eqb a) (live m) = true) by (apply existsb_exists; exists a; split; [exact Hin|apply Nat.eqb_refl]).
  rewrite X. cbn. split; [|now split]. destruct (in_split _ _ Hin) as [l1 [l2 E]]. rewrite E in *.
  assert (NI : ~ In a (l1 ++ l2)) by (now apply NoDup_remove_2).
  assert (RR : List.remove Nat.eq_dec a (l1 ++ a :: l2) = l1 ++ l2).
  { rewrite remove_app. cbn. destruct (Nat.eq_dec a a); [|congruence]. rewrite !notin_remove; [reflexivity| |]; intro; apply NI; apply in_or_app; auto. }
  rewrite RR. eapply Permutation_cons_inv with (a := a). eapply perm_trans; [apply Permutation_middle|exact P].
Qed.
Lemma nodup_perm_tail : forall (a : nat) l L, Permutation l (a :: L) -> NoDup l -> NoDup L.
Proof. intros. eapply Permutation_NoDup in H0; [|exact H]. now inversion H0. Qed.
Lemma free_cells_perm : forall cs m L, Permutation (live m) (cell_blocks cs ++ L) -> NoDup (live m) ->
  let m' := fold_left (fun m c => free (snd c) (free (fst c) m)) cs m in
  Permutation (live m') L /\ double_free m' = double_free m /\ next m' = next m.
Proof.
  induction cs as [|[a b] cs IH]; intros m L P N; [cbn; auto|]. cbn in P. cbn [fold_left fst snd].
  destruct (free_perm a m _ P N) as [P1 [D1 X1]]. assert (N1 : NoDup (live (free a m))) by (eapply Permutation_NoDup; [apply Permutation_sym; exact P1|eapply nodup_perm_tail; eauto]).
  destruct (free_perm b _ _ P1 N1) as [P2 [D2 X2]]. assert (N2 : NoDup (live (free b (free a m)))) by (eapply Permutation_NoDup; [apply Permutation_sym; exact P2|eapply nodup_perm_tail; eauto]).
  destruct (IH _ L P2 N2) as [P3 [D3 X3]]. cbv zeta. split; [exact P3|]. split; congruence.
Qed.
Lemma malloc_good : forall m a m', good_mem m -> malloc m = (a, m') -> good_mem m' /\ live m' = a :: live m /\ double_free m' = double_free m.
Proof.
  intros m a m' [N B] E. unfold malloc in E. inversion E; subst; clear E. cbn. split; [|auto]. split; cbn.
  - constructor; [intro H; apply B in H; lia|exact N].
  - intros x [<-|H]; [lia|]. apply B in H. lia.
Qed.
Lemma alloc_cells_good : forall n m cs m', good_mem m -> alloc_cells n m = (cs, m') ->
  good_mem m' /\ Permutation (live m') (cell_blocks cs ++ live m) /\ double_free m' = double_free m /\ length cs = n.
Proof.
  induction n as [|n IH]; intros m cs m' G E; cbn [alloc_cells] in E.
  - inversion E; subst. cbn. auto.
  - destruct (malloc m) as [a m1] eqn:E1. destruct (malloc m1) as [b m2] eqn:E2. destruct (alloc_cells n m2) as [r m3] eqn:E3. inversion E; subst; clear E.
    destruct (malloc_good _ _ _ G E1) as [G1 [L1 D1]]. destruct (malloc_good _ _ _ G1 E2) as [G2 [L2 D2]]. destruct (IH _ _ _ G2 E3) as [G3 [P3 [D3 N3]]].
    split; [exact G3|]. split; [|split; [congruence|cbn; now rewrite N3]]. cbn. eapply perm_trans; [exact P3|]. rewrite L2, L1.
    eapply perm_trans; [apply Permutation_app_comm|]. cbn. eapply perm_trans; [apply perm_swap|]. do 2 constructor. apply Permutation_app_comm.
Qed.
Lemma alloc_response_good : forall n m r m', good_mem m -> alloc_response n m = (r, m') ->
  good_mem m' /\ Permutation (live m') (blocks (OResp n r) ++ live m) /\ double_free m' = double_free m /\ wfo (OResp n r) /\ length (h_cells (r_headers r)) = n.
Proof.
  intros n m r m' G E. unfold alloc_response in E.
  destruct (if Nat.eqb n 0 then (None, m) else let '(a, m'0) := malloc m in (Some a, m'0)) as [items m0] eqn:E0.
  destruct (alloc_cells n m0) as [cs m1] eqn:E1. destruct (malloc m1) as [v m2] eqn:E2. destruct (malloc m2) as [b m3] eqn:E3. destruct (malloc m3) as [p m4] eqn:E4.
  inversion E; subst; clear E.
  assert (K : good_mem m0 /\ Permutation (live m0) (match items with Some a => [a] | None => [] end ++ live m) /\ double_free m0 = double_free m /\ (items = None -> n = 0)).
  { destruct (Nat.eqb n 0) eqn:En.
    - inversion E0; subst. apply Nat.eqb_eq in En. cbn. auto.
    - destruct (malloc m) as [a mm] eqn:Em. inversion E0; subst. destruct (malloc_good _ _ _ G Em) as [G1 [L1 D1]]. cbn. rewrite L1. split; [exact G1|]. split; [constructor; reflexivity|]. split; [exact D1|discriminate]. }
  destruct K as [G0 [P0 [D0 I0]]]. destruct (alloc_cells_good _ _ _ _ G0 E1) as [G1 [P1 [D1 N1]]].
  destruct (malloc_good _ _ _ G1 E2) as [G2 [L2 D2]]. destruct (malloc_good _ _ _ G2 E3) as [G3 [L3 D3]]. destruct (malloc_good _ _ _ G3 E4) as [G4 [L4 D4]].
  split; [exact G4|]. split; [|split; [congruence|split; [|exact N1]]].
  - cbn. rewrite L4, L3, L2. do 2 constructor. rewrite <- app_assoc. rewrite <- app_assoc. eapply perm_trans; [|apply Permutation_app_comm]. rewrite <- app_assoc. cbn.
    eapply perm_trans; [constructor; exact P1|]. eapply perm_trans; [apply Permutation_middle|]. apply Permutation_app_head. constructor.
    eapply perm_trans; [exact P0|]. apply Permutation_app_comm.
  - cbn. intro Hn. apply I0 in Hn. subst n. destruct cs; [reflexivity|discriminate].
Qed.
Lemma free_response_perm : forall n r m L, wfo (OResp n r) -> Permutation (live m) (blocks (OResp n r) ++ L) -> NoDup (live m) ->
  Permutation (live (free_response r m)) L /\ double_free (free_response r m) = double_free m /\ next (free_response r m) = next m.
Proof.
  intros n r m L W P N. unfold free_response.
  assert (PV : Permutation (live m) (r_version r :: r_self r :: r_body r :: (match h_items (r_headers r) with Some a => [a] | None => [] end) ++ cell_blocks (h_cells (r_headers r)) ++ L)).
  { eapply perm_trans; [exact P|]. cbn. rewrite <- !app_assoc. cbn. apply Permutation_sym.
    eapply perm_trans; [apply perm_swap|]. constructor. eapply perm_trans; [apply perm_swap|]. constructor.
    rewrite app_assoc. rewrite (app_assoc _ (cell_blocks _) (r_version r :: L)). apply Permutation_middle. }
  destruct (free_perm _ _ _ PV N) as [P1 [D1 X1]]. set (m1 := free (r_version r) m) in *.
  assert (N1 : NoDup (live m1)) by (eapply Permutation_NoDup; [apply Permutation_sym; exact P1|eapply nodup_perm_tail; eauto]).
  assert (H2 : Permutation (live (free_headers (r_headers r) m1)) (r_body r :: r_self r :: L) /\ double_free (free_headers (r_headers r) m1) = double_free m1 /\ next (free_headers (r_headers r) m1) = next m1).
  { unfold free_headers. destruct (h_items (r_headers r)) as [a|] eqn:Ei.
    - assert (Q : Permutation (live m1) (cell_blocks (h_cells (r_headers r)) ++ a :: r_body r :: r_self r :: L)).
      { eapply perm_trans; [exact P1|]. apply Permutation_sym. eapply perm_trans; [apply Permutation_sym, Permutation_middle|]. cbn.
        eapply perm_trans; [constructor; apply Permutation_sym, Permutation_middle|]. eapply perm_trans; [constructor; constructor; apply Permutation_sym, Permutation_middle|].
        eapply perm_trans; [constructor; apply perm_swap|]. eapply perm_trans; [apply perm_swap|]. constructor. apply perm_swap. }
      destruct (free_cells_perm _ _ _ Q N1) as [P2 [D2 X2]]. cbv zeta in *.
      set (m2 := fold_left _ _ m1) in *. assert (N2 : NoDup (live m2)).
      { eapply Permutation_NoDup; [apply Permutation_sym; exact P2|]. eapply Permutation_NoDup in N1; [|exact Q]. clear - N1. induction (cell_blocks (h_cells (r_headers r))); [exact N1|]. inversion N1; auto. }
      destruct (free_perm a m2 _ P2 N2) as [P3 [D3 X3]]. split; [exact P3|]. split; congruence.
    - cbn in W. rewrite (W Ei) in P1. cbn in P1. split; [|auto]. eapply perm_trans; [exact P1|]. apply perm_swap. }
  destruct H2 as [P2 [D2 X2]]. set (m2 := free_headers (r_headers r) m1) in *.
  assert (N2 : NoDup (live m2)).
  { eapply Permutation_NoDup; [apply Permutation_sym; exact P2|]. eapply Permutation_NoDup in N1; [|exact P1]. clear - N1.
    inversion N1 as [|x l A B]; subst. inversion B as [|x' l' A' B']; subst.
    constructor; [intros [E|E]; [subst; apply A; now left|apply A'; apply in_or_app; right; apply in_or_app; now right]|].
    constructor; [intro E; apply A; right; apply in_or_app; right; apply in_or_app; now right|].
    clear - B'. induction (match h_items (r_headers r) with Some a => [a] | None => [] end ++ cell_blocks (h_cells (r_headers r))) eqn:E.
    - apply app_eq_nil in E. destruct E as [E1 E2]. rewrite E1, E2 in B'. exact B'.
    - rewrite app_assoc in B'. rewrite E in B'. clear - B'. revert B'. generalize (a :: l). intro q. induction q; intro H; [exact H|]. inversion H; auto. }
  destruct (free_perm _ _ _ P2 N2) as [P3 [D3 X3]].
  assert (N3 : NoDup (live (free (r_body r) m2))) by (eapply Permutation_NoDup; [apply Permutation_sym; exact P3|eapply nodup_perm_tail; eauto]).
  destruct (free_perm _ _ _ P3 N3) as [P4 [D4 X4]]. split; [exact P4|]. split; congruence.
Qed.

Lemma mhist_inv : forall base os m, good_mem base -> mhist base os m ->
  good_mem m /\ Permutation (live m) (flat_map blocks os ++ live base) /\ double_free m = double_free base /\ Forall wfo os.
Proof.
  intros base os m G H. induction H as [|os m n r m' H IH E|os m e m' H IH E|a n r b m H IH|a e b m H IH].
  - cbn. auto.
  - destruct IH as [G1 [P1 [D1 W1]]]. destruct (alloc_response_good _ _ _ _ G1 E) as [G2 [P2 [D2 [W2 _]]]]. split; [exact G2|]. split; [|split; [congruence|constructor; assumption]].
    cbn [flat_map]. rewrite <- app_assoc. eapply perm_trans; [exact P2|]. apply Permutation_app_head. exact P1.
  - destruct IH as [G1 [P1 [D1 W1]]]. unfold alloc_error in E. destruct (malloc m) as [x m1] eqn:E1. destruct (malloc m1) as [p m2] eqn:E2. inversion E; subst; clear E.
    destruct (malloc_good _ _ _ G1 E1) as [G2 [L2 D2]]. destruct (malloc_good _ _ _ G2 E2) as [G3 [L3 D3]]. split; [exact G3|]. split; [|split; [congruence|constructor; [exact I|assumption]]].
    cbn. rewrite L3, L2. do 2 constructor. exact P1.
  - destruct IH as [G1 [P1 [D1 W1]]]. apply Forall_app in W1. destruct W1 as [Wa Wb]. inversion Wb as [|o l Wr Wb']; subst.
    assert (Q : Permutation (live m) (blocks (OResp n r) ++ flat_map blocks (a ++ b) ++ live base)).
    { eapply perm_trans; [exact P1|]. rewrite !flat_map_app. cbn [flat_map]. rewrite !app_assoc. apply Permutation_app_tail. apply Permutation_app_tail. apply Permutation_app_comm. }
    destruct G1 as [N1 B1]. destruct (free_response_perm _ _ _ _ Wr Q N1) as [P2 [D2 X2]]. split; [split|].
    + eapply Permutation_NoDup; [apply Permutation_sym; exact P2|]. eapply Permutation_NoDup in N1; [|exact Q]. revert N1. generalize (blocks (OResp n r)). intro q. induction q; intro K; [exact K|]. inversion K; auto.
    + intros x Hx. rewrite X2. apply B1. eapply Permutation_in; [apply Permutation_sym; exact Q|]. apply in_or_app. right. eapply Permutation_in; [exact P2|exact Hx].
    + split; [exact P2|]. split; [congruence|]. now apply Forall_app.
  - destruct IH as [G1 [P1 [D1 W1]]]. apply Forall_app in W1. destruct W1 as [Wa Wb]. inversion Wb as [|o l Wr Wb']; subst.
    assert (Q : Permutation (live m) (snd e :: fst e :: flat_map blocks (a ++ b) ++ live base)).
    { eapply perm_trans; [exact P1|]. rewrite !flat_map_app. cbn [flat_map blocks]. eapply perm_trans; [|apply perm_swap]. rewrite <- !app_assoc. cbn.
      eapply perm_trans; [apply Permutation_sym, Permutation_middle|]. constructor. apply Permutation_sym, Permutation_middle. }
    destruct G1 as [N1 B1]. unfold free_error. destruct (free_perm _ _ _ Q N1) as [P2 [D2 X2]].
    assert (N2 : NoDup (live (free (snd e) m))) by (eapply Permutation_NoDup; [apply Permutation_sym; exact P2|eapply nodup_perm_tail; eauto]).
    destruct (free_perm _ _ _ P2 N2) as [P3 [D3 X3]]. split; [split|].
    + eapply Permutation_NoDup; [apply Permutation_sym; exact P3|eapply nodup_perm_tail; eauto].
    + intros x Hx. rewrite X3, X2. apply B1. eapply Permutation_in; [apply Permutation_sym; exact Q|]. right. right. eapply Permutation_in; [exact P3|exact Hx].
    + split; [exact P3|]. split; [congruence|]. now apply Forall_app.
Qed.
(* no block is freed twice, whatever is given out and freed in whatever order, and when everything given out is freed nothing is left *)
Theorem C87_no_double_free : forall base os m, good_mem base -> mhist base os m -> double_free m = double_free base.
Proof. intros base os m G H. now apply mhist_inv in H. Qed.
Theorem C87_no_leak : forall base m, good_mem base -> mhist base [] m -> Permutation (live m) (live base).
Proof. intros base m G H. apply mhist_inv in H; [|exact G]. tauto. Qed.
(* an answer of n headers is 3 blocks, and 2 n + 1 more if it has headers; an error is 2 *)
Theorem C87_blocks : forall n m r m', good_mem m -> alloc_response n m = (r, m') ->
  length (live m') = length (live m) + 3 + (if Nat.eqb n 0 then 0 else 2 * n + 1).
Proof.
  intros n m r m' G E. pose proof (alloc_response_good _ _ _ _ G E) as [_ [P [_ [W N]]]]. apply Permutation_length in P. rewrite P, app_length.
  assert (C : length (cell_blocks (h_cells (r_headers r))) = 2 * n).
  { rewrite <- N. clear. unfold cell_blocks. induction (h_cells (r_headers r)); cbn in *; lia. }
  cbn. rewrite !app_length, C. cbn. destruct (Nat.eqb n 0) eqn:En.
  - apply Nat.eqb_eq in En. clear N W C. subst n. unfold alloc_response, malloc in E. cbn in E. inversion E; subst. cbn. lia.
  - destruct (h_items (r_headers r)) eqn:Ei; cbn; [lia|]. cbn in W. rewrite (W Ei) in N. apply Nat.eqb_neq in En. cbn in N. congruence.
Qed.
Print Assumptions C87_no_double_free.
Print Assumptions C87_no_leak.
Print Assumptions C87_blocks.

(* not vacuous *)
Example C87_inhabited :
  (exists s, hist [9; 7; 9] s /\ served_by 9 s = Some 0 /\ served_by 7 s = Some 1 /\ ref_of (s_trs s) 0 = 2) /\
  (exists s, hist [7] s /\ served_by 9 s = None) /\
  (exists os m, mhist (mkmem [] 0 false) os m /\ length os = 2 /\ length (live m) = 10) /\
  (exists m, mhist (mkmem [] 0 false) [] m /\ live m = [] /\ next m = 5 /\ double_free m = false).
Proof.
  assert (H1 : hist [9] (mkst [mktr 1 true] [(9, 0)])) by (eapply (HNew _ _ true 9); [apply HInit|reflexivity]).
  assert (H2 : hist [7; 9] (mkst [mktr 1 true; mktr 1 true] [(7, 1); (9, 0)])) by (eapply (HNew _ _ true 7); [exact H1|reflexivity]).
  assert (H3 : hist [9; 7; 9] (mkst [mktr 2 true; mktr 1 true] [(7, 1); (9, 0)])) by (eapply (HNew _ _ true 9); [exact H2|reflexivity]).
  split; [|split; [|split]].
  - eexists. split; [exact H3|]. repeat split.
  - pose proof (HClose _ _ 9 H2 (or_intror (or_introl eq_refl))) as H. eexists. split; [exact H|reflexivity].
  - pose proof (MInit (mkmem [] 0 false)) as M. destruct (alloc_error (mkmem [] 0 false)) as [e m1] eqn:E1. pose proof (MErr _ _ _ _ _ M E1) as M1.
    vm_compute in E1. injection E1 as <- <-. match type of M1 with mhist _ _ ?m => destruct (alloc_response 2 m) as [r m2] eqn:E2 end. pose proof (MResp _ _ _ 2 _ _ M1 E2) as M2.
    vm_compute in E2. injection E2 as <- <-. do 2 eexists. split; [exact M2|]. split; reflexivity.
  - pose proof (MInit (mkmem [] 0 false)) as M. destruct (alloc_error (mkmem [] 0 false)) as [e m1] eqn:E1. pose proof (MErr _ _ _ _ _ M E1) as M1.
    vm_compute in E1. injection E1 as <- <-. match type of M1 with mhist _ _ ?m => destruct (alloc_response 0 m) as [r m2] eqn:E2 end. pose proof (MResp _ _ _ 0 _ _ M1 E2) as M2.
    vm_compute in E2. injection E2 as <- <-.
    pose proof (MFreeErr _ [OResp 0 _] _ [] _ M2) as M3. vm_compute in M3. pose proof (MFreeResp _ [] _ _ [] _ M3) as M4. vm_compute in M4. eexists. split; [exact M4|]. split; [reflexivity|]. split; reflexivity.
Qed.
Print Assumptions C87_inhabited.
