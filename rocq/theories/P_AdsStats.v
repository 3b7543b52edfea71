(* C29: active request accounting. *)
From Coq Require Import List String Bool NArith ZArith Lia Permutation.
From Verif Require Import M_GoMap L_GoMap M_AdsLb.
Import ListNotations.
Open Scope string_scope.

(* specification: connections opened to an address, and connections to it that were closed at least once; a
   connection is identified by its close wrapper *)
Definition opens (a : string) (es : list tev) : nat :=
  List.length (filter (fun e => match e with TDialed b => String.eqb a b | _ => false end) es).
Definition wrappers (a : string) (es : list tev) : list nat :=
  flat_map (fun e => match e with TClosed w b => if String.eqb a b then [w] else [] | _ => [] end) es.
Definition closes (a : string) (es : list tev) : nat := List.length (nodup Nat.eq_dec (wrappers a es)).
(* the endpoint stays known: no endpoint update in the history lacks it *)
Definition stays_known (a : string) (es : list tev) : Prop := forall addrs, In (TEndpoints addrs) es -> In a addrs.
(* every connection has its own wrapper (so a wrapper closes connections to one address only) *)
Definition own_wrappers (es : list tev) : Prop := forall w a b, In (TClosed w a) es -> In (TClosed w b) es -> a = b.
(* each wrapper closes one connection: no more wrappers than opened connections *)
Definition known (t : tracker) (a : string) : Prop := mget a (tr_stats t) = Some (mkstats (rr_count (tr_stats t) a) 0).

Lemma mget_filter {V} : forall (p : string -> bool) (m : gmap V) k, mget k (filter (fun e => p (fst e)) m) = if p k then mget k m else None.
Proof.
  intros p m k. induction m as [|[k' v] m IH]; cbn; [now destruct (p k)|]. destruct (p k') eqn:E; cbn; destruct (String.eqb k k') eqn:Ek.
  - apply String.eqb_eq in Ek. subst. now rewrite E.
  - exact IH.
  - apply String.eqb_eq in Ek. subst. rewrite IH, E. reflexivity.
  - exact IH.
Qed.
Lemma mget_updated : forall addrs s a, mget a (endpoints_updated addrs s) =
  if mem a addrs then Some (match mget a s with Some x => x | None => mkstats 0 0 end) else None.
Proof.
  intros addrs s a. unfold endpoints_updated. rewrite (mget_filter (fun k => mem k addrs)). destruct (mem a addrs) eqn:Em; [|reflexivity].
  revert s. assert (G: forall l s, mget a (fold_left (fun s0 a0 => match mget a0 s0 with Some _ => s0 | None => mset a0 (mkstats 0 0) s0 end) l s) =
    match mget a s with Some x => Some x | None => if mem a l then Some (mkstats 0 0) else None end).
  { induction l as [|b l IH]; intros s; cbn [fold_left]; [now destruct (mget a s)|]. rewrite IH. cbn. destruct (mget b s) as [y|] eqn:Eb.
    - destruct (mget a s) eqn:Ea; [reflexivity|]. destruct (String.eqb a b) eqn:E; [apply String.eqb_eq in E; congruence|]. reflexivity.
    - rewrite mget_mset. destruct (String.eqb a b) eqn:E; [apply String.eqb_eq in E; subst; now rewrite Eb|]. reflexivity. }
  intros s. rewrite G, Em. now destruct (mget a s).
Qed.
Lemma mget_entry : forall s a f b, mget b (on_entry s a f) = if String.eqb b a then option_map f (mget b s) else mget b s.
Proof.
  intros s a f b. unfold on_entry. destruct (mget a s) as [x|] eqn:E; [rewrite mget_mset|]; destruct (String.eqb b a) eqn:Eb; try reflexivity; apply String.eqb_eq in Eb; subst; rewrite E; reflexivity.
Qed.
Lemma closes_snoc : forall a es e, closes a (es ++ [e]) =
  match e with
  | TClosed w b => if String.eqb a b then if in_dec Nat.eq_dec w (wrappers a es) then closes a es else S (closes a es) else closes a es
  | _ => closes a es
  end.
Proof.
  intros a es e. unfold closes. assert (Hw: wrappers a (es ++ [e]) = (wrappers a es ++ wrappers a [e])%list) by (unfold wrappers; apply flat_map_app).
  rewrite Hw. destruct e as [b|w b|addrs]; cbn; try (now rewrite app_nil_r). destruct (String.eqb a b); cbn; [|now rewrite app_nil_r].
  destruct (in_dec Nat.eq_dec w (wrappers a es)) as [Hi|Hi].
  - apply Permutation_length. apply NoDup_Permutation; try apply NoDup_nodup. intros x. rewrite !nodup_In, in_app_iff. split; [intros [?|[<-|[]]]; assumption|now left].
  - apply (Permutation_length (l' := w :: nodup Nat.eq_dec (wrappers a es))). apply NoDup_Permutation; [apply NoDup_nodup| |].
    + constructor; [now rewrite nodup_In|apply NoDup_nodup].
    + intros x. cbn. rewrite !nodup_In, in_app_iff. cbn. tauto.
Qed.
Lemma opens_snoc : forall a es e, opens a (es ++ [e]) = match e with TDialed b => if String.eqb a b then S (opens a es) else opens a es | _ => opens a es end.
Proof.
  intros a es e. unfold opens. rewrite filter_app, app_length. destruct e as [b|w b|addrs]; cbn; try lia. destruct (String.eqb a b); cbn; lia.
Qed.
Lemma in_wrappers : forall a es w, In w (wrappers a es) <-> In (TClosed w a) es.
Proof.
  intros a es w. unfold wrappers. rewrite in_flat_map. split.
  - intros (e & Hi & Hw). destruct e as [b|w' b|addrs]; try (now destruct Hw). destruct (String.eqb a b) eqn:E; [|now destruct Hw]. apply String.eqb_eq in E. destruct Hw as [->|[]]. now subst.
  - intros H. exists (TClosed w a). split; [assumption|]. rewrite String.eqb_refl. now left.
Qed.
Definition wrap32 : Z := 4294967296.
Lemma u32_Z : forall n, Z.of_N (u32 n) = (Z.of_N n mod wrap32)%Z.
Proof. intros. unfold u32, wrap32. now rewrite N2Z.inj_mod. Qed.
(* While the endpoint stays known: its active request count is, as a 32 bit counter, the number of opened minus the
   number of closed connections, however often and in whatever order they are closed. *)
Lemma balance_inv : forall a t0 es, known t0 a -> tr_fired t0 = [] -> stays_known a es -> own_wrappers es ->
  (exists x, mget a (tr_stats (trun t0 es)) = Some x /\ Z.of_N (st_active x) = ((Z.of_nat (opens a es) - Z.of_nat (closes a es)) mod wrap32)%Z) /\
  (forall w, In w (tr_fired (trun t0 es)) <-> exists b, In (TClosed w b) es).
Proof.
  intros a t0 es Hk Hf. induction es as [|e es IH] using rev_ind; intros Hs Ho.
  - split; [|cbn; rewrite Hf; intros w; split; [intros []|intros (b & [])]]. eexists. split; [exact Hk|]. reflexivity.
  - destruct IH as [(x & Hx & Hv) Hw].
    { intros addrs Hi. apply Hs. apply in_or_app. now left. }
    { intros w b b' H1 H2. eapply Ho; apply in_or_app; left; eassumption. }
    unfold trun in *. rewrite fold_left_app. cbn [fold_left]. set (t := fold_left tstep es t0) in *. rewrite opens_snoc, closes_snoc.
    assert (Hin: forall w b, In (TClosed w b) (es ++ [e]) <-> In (TClosed w b) es \/ e = TClosed w b) by (intros; rewrite in_app_iff; cbn; intuition congruence).
    destruct e as [b|w b|addrs]; cbn [tstep].
    + split; [|intros w'; cbn; rewrite Hw; split; intros [b' H]; exists b'; [apply Hin; now left|]; apply Hin in H; destruct H as [H|H]; [assumption|discriminate]].
      cbn [tr_stats]. unfold inc_active. rewrite mget_entry. destruct (String.eqb a b) eqn:E; [|eauto]. rewrite Hx. cbn [option_map]. eexists. split; [reflexivity|]. cbn [st_active]. rewrite u32_Z, N2Z.inj_add, Hv. cbn [Z.of_N].
      rewrite Nat2Z.inj_succ. rewrite Z.add_mod_idemp_l by discriminate. f_equal. lia.
    + destruct (existsb (Nat.eqb w) (tr_fired t)) eqn:Ef.
      * assert (Hwi: In w (tr_fired t)). { apply existsb_exists in Ef. destruct Ef as (w' & Hi & E). apply Nat.eqb_eq in E. now subst. }
        apply Hw in Hwi. destruct Hwi as [b' Hb']. assert (b' = b) by (eapply Ho; apply Hin; [left; exact Hb'|now right]). subst b'. split.
        -- exists x. split; [assumption|]. rewrite Hv. f_equal. f_equal. destruct (String.eqb a b) eqn:E; [|reflexivity]. apply String.eqb_eq in E. subst b. destruct (in_dec Nat.eq_dec w (wrappers a es)) as [_|Hn]; [reflexivity|]. exfalso. apply Hn. now apply in_wrappers.
        -- intros w'. rewrite Hw. split; intros [b' H]; [exists b'; apply Hin; now left|]. apply Hin in H. destruct H as [H|H]; [eauto|]. injection H as <- <-. eauto.
      * assert (Hwn: forall b', ~ In (TClosed w b') es). { intros b' Hb'. assert (Hi: In w (tr_fired t)) by (apply Hw; eauto). rewrite (proj2 (existsb_exists _ _)) in Ef; [discriminate|]. exists w. split; [assumption|apply Nat.eqb_refl]. }
        cbn [tr_stats tr_fired]. split.
        -- unfold dec_active. rewrite mget_entry. destruct (String.eqb a b) eqn:E; [|eauto]. apply String.eqb_eq in E. subst b. rewrite Hx. cbn [option_map]. eexists. split; [reflexivity|]. cbn [st_active]. rewrite u32_Z, N2Z.inj_add, Hv.
           destruct (in_dec Nat.eq_dec w (wrappers a es)) as [Hi|_]; [apply in_wrappers in Hi; exfalso; eapply Hwn; exact Hi|]. rewrite Z.add_mod_idemp_l by discriminate. rewrite Nat2Z.inj_succ.
           replace (Z.of_nat (opens a es) - Z.of_nat (closes a es) + Z.of_N 4294967295)%Z with (Z.of_nat (opens a es) - Z.succ (Z.of_nat (closes a es)) + 1 * wrap32)%Z by (unfold wrap32; lia). now rewrite Z_mod_plus_full.
        -- intros w'. cbn. rewrite Hw. split.
           ++ intros [<-|[b' H]]; [exists b|exists b']; apply Hin; auto.
           ++ intros [b' H]. apply Hin in H. destruct H as [H|H]; [right; eauto|]. injection H as <- <-. now left.
    + cbn [tr_stats tr_fired]. split.
      * rewrite mget_updated. rewrite (proj2 (mem_in a addrs)); [|apply Hs; apply in_or_app; right; now left]. rewrite Hx. eauto.
      * intros w'. rewrite Hw. split; intros [b' H]; exists b'; [apply Hin; now left|]. apply Hin in H. destruct H as [H|H]; [assumption|discriminate].
Qed.
Theorem C29_balanced : forall a t0 es, known t0 a -> tr_fired t0 = [] -> stays_known a es -> own_wrappers es ->
  (closes a es <= opens a es)%nat -> (Z.of_nat (opens a es) < 4294967296)%Z ->
  N.to_nat (active_count (tr_stats (trun t0 es)) a) = (opens a es - closes a es)%nat.
Proof.
  intros a t0 es Hk Hf Hs Ho Hle Hlt. destruct (balance_inv a t0 es Hk Hf Hs Ho) as [(x & Hx & Hv) _]. unfold active_count. rewrite Hx.
  apply Nat2Z.inj. rewrite N_nat_Z, Hv, Z.mod_small; unfold wrap32; lia.
Qed.
Print Assumptions C29_balanced.
Theorem C29_all_closed : forall a t0 es, known t0 a -> tr_fired t0 = [] -> stays_known a es -> own_wrappers es ->
  opens a es = closes a es -> active_count (tr_stats (trun t0 es)) a = 0%N.
Proof.
  intros a t0 es Hk Hf Hs Ho He. destruct (balance_inv a t0 es Hk Hf Hs Ho) as [(x & Hx & Hv) _]. unfold active_count. rewrite Hx.
  rewrite He, Z.sub_diag in Hv. cbn in Hv. lia.
Qed.
Print Assumptions C29_all_closed.
Definition ex_t0 := mktracker (endpoints_updated ["a"; "b"] []) [].
Example C29_ex : known ex_t0 "a" /\ let es := [TDialed "a"; TDialed "b"; TDialed "a"; TClosed 1 "a"; TEndpoints ["c"; "a"]; TClosed 1 "a"; TClosed 2 "b"] in
  stays_known "a" es /\ own_wrappers es /\ opens "a" es = 2%nat /\ closes "a" es = 1%nat /\ active_count (tr_stats (trun ex_t0 es)) "a" = 1%N.
Proof.
  split; [reflexivity|]. repeat split.
  - intros addrs H. cbn in H. repeat destruct H as [H|H]; try discriminate; try contradiction. injection H as <-. right. now left.
  - intros w a b H1 H2. cbn in H1, H2. repeat destruct H1 as [H1|H1]; try discriminate; try contradiction; repeat destruct H2 as [H2|H2]; try discriminate; try contradiction; congruence.
Qed.
(* The hypotheses cannot be dropped: the count of an endpoint with no open connection becomes 2^32-1
   when the endpoint disappears and comes back while a connection is open, *)
Theorem C29_endpoint_readded_refuted : exists es, own_wrappers es /\ opens "a" es = closes "a" es /\ active_count (tr_stats (trun ex_t0 es)) "a" = 4294967295%N.
Proof.
  exists [TDialed "a"; TEndpoints ["b"]; TEndpoints ["a"; "b"]; TClosed 1 "a"]. split; [|split; reflexivity].
  intros w a b H1 H2. cbn in H1, H2. repeat destruct H1 as [H1|H1]; try discriminate; try contradiction; repeat destruct H2 as [H2|H2]; try discriminate; try contradiction; congruence.
Qed.
Print Assumptions C29_endpoint_readded_refuted.
(* or when the endpoint becomes known only after the connection was opened; *)
Theorem C29_unknown_when_opened_refuted : exists es, own_wrappers es /\ opens "n" es = closes "n" es /\ active_count (tr_stats (trun ex_t0 es)) "n" = 4294967295%N.
Proof.
  exists [TDialed "n"; TEndpoints ["n"]; TClosed 1 "n"]. split; [|split; reflexivity].
  intros w a b H1 H2. cbn in H1, H2. repeat destruct H1 as [H1|H1]; try discriminate; try contradiction; repeat destruct H2 as [H2|H2]; try discriminate; try contradiction; congruence.
Qed.
Print Assumptions C29_unknown_when_opened_refuted.
(* and the TCP dialer shares one close wrapper among all the connections of a pool (istio/tcp/dialer.go:71-103), so
   that after two connections were opened and both closed one request is still counted as active. *)
Theorem C29_shared_wrapper_refuted : active_count (tr_stats (trun ex_t0 [TDialed "a"; TDialed "a"; TClosed 1 "a"; TClosed 1 "a"])) "a" = 1%N.
Proof. reflexivity. Qed.
Print Assumptions C29_shared_wrapper_refuted.
