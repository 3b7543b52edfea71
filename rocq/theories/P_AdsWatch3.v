(* C27: exactly when the refresher is blocked for good by the watch it notifies *)
From Coq Require Import List Bool Arith Lia.
From Verif Require Import M_AdsWatch P_AdsWatch.
Import ListNotations.

(* the watch is between its receive and get(), cancelling or ended, about to end after its current response, or waits in the
   drain of sendLatest for an element the consumer already took *)
Definition stuck (w : watch) : Prop :=
  match w_phase w with
  | PSelect => False
  | PGot | PCancel | PDone => True
  | PDrain v | PSend v => after_send w v = PCancel
  | PDrainRecv v => after_send w v = PCancel \/ (w_out w = None /\ w_ctx w = false)
  end.
Definition held (s : wstate) (r : list nat) (k : nat) (ks : list nat) : Prop :=
  s_eng s = ERefresh r (k :: ks) /\ s_done s = false /\ exists w, nth_error (s_watches s) k = Some w /\ w_tok w = true /\ stuck w.
Lemma after_send_cases : forall w v, after_send w v = PSelect \/ after_send w v = PCancel.
Proof. intros w v. unfold after_send. destruct (_ && _)%bool; auto. Qed.
Lemma stuck_wstep : forall res w w', wstep false res w w' -> w_tok w = true -> stuck w -> w_tok w' = true /\ stuck w'.
Proof.
  intros res w w' H T S. unfold stuck in *.
  destruct H as [w P T'|w P C|w P F|w v P O|w v x P O|w v x P O|w v P C|w v P O|w v P C|w P F]; rewrite P in S; cbn [with_tok with_phase with_out w_tok w_phase]; try contradiction; try discriminate.
  - split; [assumption | exact S].
  - split; [assumption |]. left. exact S.
  - split; [assumption |]. destruct S as [S|[S _]]; [ exact S | congruence ].
  - split; [assumption |]. destruct S as [S|[_ S]]; [| congruence ]. now rewrite S.
  - split; [assumption |]. now rewrite S.
  - split; [assumption |]. now rewrite S.
Qed.
Lemma held_step : forall s r k ks l s', held s r k ks -> sstep s l s' -> l <> LStop -> l <> LCancelCtx k -> held s' r k ks.
Proof.
  intros s r k ks l s' (He & Hd & w & Hw & Ht & Hp) Hs Hl Hc. destruct Hs; try congruence; unfold held; cbn [s_eng s_done s_watches].
  - eauto 8.
  - split; [assumption|]. split; [assumption|]. destruct (Nat.eq_dec k0 k) as [->|Hn]; [|rewrite wset_other by assumption; eauto].
    rewrite Hw in H. injection H as <-. rewrite He in H0. cbn in H0. erewrite wset_same by eassumption. exists w'. split; [reflexivity|]. eapply stuck_wstep; eassumption.
  - split; [assumption|]. split; [assumption|]. destruct (Nat.eq_dec k0 k) as [->|Hn]; [|rewrite wset_other by assumption; eauto].
    rewrite Hw in H. injection H as <-. erewrite wset_same by eassumption. eexists. split; [reflexivity|]. split; [exact Ht|]. unfold stuck in *. cbn [w_phase w_out w_ctx].
    destruct (w_phase w) as [| |v1|v1|v1| |]; try exact Hp. destruct Hp as [Hp|[Hp Hp']]; [left; exact Hp|right; auto].
  - split; [assumption|]. split; [assumption|]. destruct (Nat.eq_dec k0 k) as [->|Hn]; [congruence|rewrite wset_other by assumption; eauto].
Qed.
Lemma held_forever : forall ls s r k ks s', held s r k ks -> ssteps s ls s' -> ~ In LStop ls -> ~ In (LCancelCtx k) ls -> s_eng s' = ERefresh r (k :: ks).
Proof.
  intros ls s r k ks s' Hb Hs. revert Hb. induction Hs as [s|s l s1 ls s2 H1 H2 IH]; intros Hb Hn Hc; [apply Hb|]. apply IH; [|intros H; apply Hn; now right|intros H; apply Hc; now right].
  eapply held_step; [exact Hb|exact H1| |]; intros ->; [apply Hn|apply Hc]; now left.
Qed.

(* In every reachable state in which the refresher notifies watch k (client not closed), some continuation in which neither
   the client is closed nor the context of watch k ends lets the refresher go on, if and only if the channel of the watch
   has room or the watch is in none of the positions above. *)
Theorem C27_blocked_iff : forall ls s r k ks w, ssteps winit ls s -> s_eng s = ERefresh r (k :: ks) -> s_done s = false -> nth_error (s_watches s) k = Some w ->
  ((exists ls1 s1, ssteps s ls1 s1 /\ ~ In LStop ls1 /\ ~ In (LCancelCtx k) ls1 /\ s_eng s1 <> ERefresh r (k :: ks)) <-> (w_tok w = false \/ ~ stuck w)).
Proof.
  intros ls s r k ks w Hreach He Hd Hw. split.
  - intros (ls1 & s1 & H1 & H2 & H3 & H4). destruct (w_tok w) eqn:Et; [right|now left]. intros Hs. apply H4. eapply held_forever; [|exact H1|exact H2|exact H3]. split; [assumption|]. split; [assumption|]. eauto.
  - assert (Go: forall ls0 s0 w0, ssteps winit ls0 s0 -> s_eng s0 = ERefresh r (k :: ks) -> nth_error (s_watches s0) k = Some w0 -> stays w0 ->
      exists ls1 s1, ssteps s0 ls1 s1 /\ ~ In LStop ls1 /\ ~ In (LCancelCtx k) ls1 /\ s_eng s1 <> ERefresh r (k :: ks)).
    { intros ls0 s0 w0 H0 He0 Hw0 Hst. destruct (C27_watch_unblocks ls0 s0 r k ks w0 H0 He0 Hw0 Hst) as (ls1 & s1 & s2 & A1 & A2 & A3 & A4).
      exists (ls1 ++ [LEngine]), s2. split; [eapply ssteps_app; [exact A1|eapply SS_cons; [exact A3|apply SS_nil]]|]. rewrite Forall_forall in A2.
      split; [|split].
      - intros Hi. apply in_app_or in Hi. destruct Hi as [Hi|[Hi|[]]]; [|discriminate]. apply A2 in Hi. discriminate.
      - intros Hi. apply in_app_or in Hi. destruct Hi as [Hi|[Hi|[]]]; [|discriminate]. apply A2 in Hi. discriminate.
      - rewrite A4. intros E. injection E as E. assert (X: List.length ks = List.length (k :: ks)) by congruence. cbn in X. lia. }
    intros [Ht|Hs].
    + eexists [LEngine], _. split; [eapply SS_cons; [eapply S_notify; eassumption|apply SS_nil]|]. split; [intros [E|[]]; discriminate|]. split; [intros [E|[]]; discriminate|].
      cbn [s_eng]. intros E. injection E as E. assert (X: List.length ks = List.length (k :: ks)) by congruence. cbn in X. lia.
    + unfold stuck in Hs. destruct (w_phase w) as [| |v|v|v| |] eqn:Ep; try tauto.
      * eapply Go; try eassumption. unfold stays. now rewrite Ep.
      * eapply Go; try eassumption. unfold stays. rewrite Ep. destruct (after_send_cases w v); tauto.
      * destruct (after_send_cases w v) as [Ha|Ha]; [|tauto]. destruct (w_out w) as [x|] eqn:Eo.
        -- eapply Go; try eassumption. unfold stays. rewrite Ep. split; [assumption|congruence].
        -- destruct (w_ctx w) eqn:Ec; [|tauto]. set (s0 := mkws (s_truth s) (s_results s) (wset (s_watches s) k (with_phase w (after_send w v))) (s_eng s) (s_done s)).
           assert (S0: sstep s (LWatch k) s0) by (eapply S_watch; [exact Hw|now apply W_drain_ctx]).
           destruct (Go (ls ++ [LWatch k]) s0 (with_phase w (after_send w v))) as (ls1 & s1 & A1 & A2 & A3 & A4).
           { eapply ssteps_app; [exact Hreach|eapply SS_cons; [exact S0|apply SS_nil]]. } { exact He. } { eapply wset_same; exact Hw. } { unfold stays. cbn. now rewrite Ha. }
           exists (LWatch k :: ls1), s1. split; [eapply SS_cons; [exact S0|exact A1]|]. split; [intros [E|E]; [discriminate|tauto]|]. split; [intros [E|E]; [discriminate|tauto]|exact A4].
      * eapply Go; try eassumption. unfold stays. rewrite Ep. destruct (after_send_cases w v); tauto.
Qed.
Print Assumptions C27_blocked_iff.
Example C27_blocked_iff_ex : stuck (mkwatch 0 false true true PGot false None None) /\ ~ stuck (mkwatch 0 false true true (PSend (ok 1)) false None None) /\ stuck (mkwatch 0 true true true (PSend (ok 1)) false None None).
Proof. split; [exact I|]. split; [unfold stuck; cbn; discriminate|reflexivity]. Qed.
