(* C44: the filtered TCP stream preserves the byte stream. *)
From Coq Require Import List Arith ZArith Bool Lia.
From Verif Require Import M_WasmTcp.
Import ListNotations.
Open Scope list_scope.
Open Scope nat_scope.
(* ---------- specification ---------- *)
Definition received (net : list (bytes * nerr)) : bytes := concat (map fst net).
Definition delivered (r : list (bytes * rerr)) : bytes := concat (map fst r).
(* a failing network read carries no data *)
Definition clean_fail (net : list (bytes * nerr)) : Prop := forall d, In (d, NFail) net -> d = [].
Definition prefix_of (a b : bytes) : Prop := exists t, b = a ++ t.
(* ---------- lemmas ---------- *)
Lemma clean_tl : forall x net, clean_fail (x :: net) -> clean_fail net.
Proof. intros x net H d Hd. apply H. now right. Qed.
Lemma loop_conserves : forall net filt buf o buf' w, clean_fail net -> read_loop net filt buf = (o, buf', w) ->
  exists used, net = used ++ fst w /\ buf' = buf ++ received used.
Proof.
  induction net as [|[d e] net IH]; intros filt buf o buf' w Hc H; cbn [read_loop] in H.
  - injection H as <- <- <-. exists []. cbn. rewrite app_nil_r. auto.
  - assert (G: forall o0 b0 w0, (o0, b0, w0) = (o, buf', w) -> b0 = buf ++ d -> fst w0 = net -> exists used, (d, e) :: net = used ++ fst w /\ buf' = buf ++ received used).
    { intros o0 b0 w0 E E1 E2. injection E as <- <- <-. exists [(d, e)]. rewrite E2. cbn. rewrite app_nil_r. auto. }
    assert (R: forall filt' buf1, buf1 = buf ++ d -> read_loop net filt' buf1 = (o, buf', w) -> exists used, (d, e) :: net = used ++ fst w /\ buf' = buf ++ received used).
    { intros filt' buf1 -> HR. apply IH in HR; [|eapply clean_tl; exact Hc]. destruct HR as (u & E1 & E2). exists ((d, e) :: u). split; [cbn; now rewrite <- E1|]. rewrite E2. unfold received. cbn. now rewrite app_assoc. }
    destruct e.
    + destruct filt as [|[| |] filt']; try (eapply G; [exact H|reflexivity|reflexivity]). eapply R; [reflexivity|exact H].
    + destruct filt as [|[| |] filt']; try (eapply G; [exact H|reflexivity|reflexivity]).
    + assert (d = []) as -> by (apply Hc; now left). eapply G; [exact H|now rewrite app_nil_r|reflexivity].
Qed.
Definition out_data (o : rout) : bytes := match o with RRet d _ => d | RBlocked => [] end.
(* bytes held by the connection after the ones handed out; a blocked call has already taken the cached bytes *)
Lemma read1_conserves : forall s w len o s' w', clean_fail (fst w) -> r_closed s = false -> read1 s w len = (o, s', w') ->
  r_closed s' = false /\ exists used, fst w = used ++ fst w' /\ (o <> RBlocked -> out_data o ++ r_cache s' ++ r_buf s' = r_cache s ++ r_buf s ++ received used).
Proof.
  intros s w len o s' w' Hc Hcl H. unfold read1 in H. rewrite Hcl in H. destruct (Nat.eqb_spec (length (firstn len (r_cache s))) len) as [E|E].
  - injection H as <- <- <-. split; [reflexivity|]. exists []. split; [reflexivity|]. intros _. cbn [out_data r_cache r_buf]. rewrite !app_nil_r, !app_assoc, firstn_skipn. reflexivity.
  - destruct (read_loop (fst w) (snd w) (r_buf s)) as [[lo buf] w1] eqn:EL. destruct (loop_conserves _ _ _ _ _ _ Hc EL) as (used & E1 & E2).
    assert (Hs: skipn len (r_cache s) = [] /\ firstn len (r_cache s) = r_cache s). { rewrite firstn_length in E. split; [apply skipn_all2; lia|apply firstn_all2; lia]. } destruct Hs as (Hs1 & Hs2). rewrite Hs1, Hs2 in H.
    destruct lo; injection H as <- <- <-; (split; [reflexivity|]); exists used; (split; [assumption|]); intros Hb; cbn [out_data r_cache r_buf app].
    + rewrite app_nil_r, <- app_assoc, firstn_skipn, E2. reflexivity.
    + rewrite E2. reflexivity.
    + congruence.
Qed.
Lemma clean_app : forall a b, clean_fail (a ++ b) -> clean_fail b.
Proof. intros a b H d Hd. apply H. apply in_app_iff. now right. Qed.
Lemma received_app : forall a b, received (a ++ b) = received a ++ received b.
Proof. intros. unfold received. now rewrite map_app, concat_app. Qed.
Lemma read_conserves : forall s w len o s' w', clean_fail (fst w) -> r_closed s = false -> read s w len = (o, s', w') ->
  r_closed s' = false /\ exists used, fst w = used ++ fst w' /\ (o <> RBlocked -> out_data o ++ r_cache s' ++ r_buf s' = r_cache s ++ r_buf s ++ received used).
Proof.
  intros s w len o s' w' Hc Hcl H. unfold read in H. destruct (read1 s w len) as [[o1 s1] w1] eqn:E1. destruct (read1_conserves _ _ _ _ _ _ Hc Hcl E1) as (C1 & u1 & U1 & R1).
  assert (G: (o1, s1, w1) = (o, s', w') -> r_closed s' = false /\ exists used, fst w = used ++ fst w' /\ (o <> RBlocked -> out_data o ++ r_cache s' ++ r_buf s' = r_cache s ++ r_buf s ++ received used)).
  { intros E. injection E as <- <- <-. eauto. }
  destruct o1 as [d e|]; [|now apply G]. destruct d as [|z d]; [|now apply G]. destruct e; try (now apply G).
  assert (Hc1: clean_fail (fst w1)) by (rewrite U1 in Hc; eapply clean_app; exact Hc). destruct (read1_conserves _ _ _ _ _ _ Hc1 C1 H) as (C2 & u2 & U2 & R2). split; [assumption|].
  exists (u1 ++ u2). split; [rewrite U1, U2, app_assoc; reflexivity|]. intros Hb. rewrite (R2 Hb). specialize (R1 ltac:(discriminate)). cbn [out_data app] in R1. rewrite received_app, !app_assoc. f_equal. rewrite <- app_assoc. exact R1.
Qed.
Lemma reads_conserve : forall lens s w r s' w', clean_fail (fst w) -> r_closed s = false -> reads s w lens = (r, s', w') ->
  exists used, fst w = used ++ fst w' /\ exists held, r_cache s ++ r_buf s ++ received used = delivered r ++ held /\ (length r = length lens -> held = r_cache s' ++ r_buf s').
Proof.
  induction lens as [|l lens IH]; intros s w r s' w' Hc Hcl H; cbn [reads] in H.
  - injection H as <- <- <-. exists []. split; [reflexivity|]. exists (r_cache s ++ r_buf s). cbn. rewrite app_nil_r. auto.
  - destruct (read s w l) as [[o s1] w1] eqn:E1. destruct (read_conserves _ _ _ _ _ _ Hc Hcl E1) as (C1 & u1 & U1 & R1). destruct o as [d e|].
    + destruct (reads s1 w1 lens) as [[r2 s2] w2] eqn:E2. injection H as <- <- <-. assert (Hc1: clean_fail (fst w1)) by (rewrite U1 in Hc; eapply clean_app; exact Hc).
      destruct (IH _ _ _ _ _ Hc1 C1 E2) as (u2 & U2 & held & R2 & R3). exists (u1 ++ u2). split; [rewrite U1, U2, app_assoc; reflexivity|]. exists held. specialize (R1 ltac:(discriminate)). cbn [out_data] in R1. split.
      * rewrite received_app. rewrite !app_assoc. rewrite <- (app_assoc (r_cache s)), <- R1. unfold delivered. cbn [map concat]. fold (delivered r2). rewrite <- !app_assoc. f_equal. rewrite <- R2. reflexivity.
      * cbn [length]. intros Hl. apply R3. lia.
    + injection H as <- <- <-. exists u1. split; [assumption|]. exists (r_cache s ++ r_buf s ++ received u1). split; [reflexivity|]. discriminate.
Qed.
(* Whatever the chunking of the network, the buffer sizes of the reader and the pause/continue/error schedule of the filters,
   the bytes the application has read are a prefix of the bytes received, in order. *)
Theorem C44_read_prefix : forall lens net filt r s' w', clean_fail net -> reads new_r (net, filt) lens = (r, s', w') -> prefix_of (delivered r) (received net).
Proof.
  intros lens net filt r s' w' Hc H. destruct (reads_conserve lens new_r (net, filt) r s' w' Hc eq_refl H) as (used & U & held & R & _). cbn [fst] in U. exists (held ++ received (fst w')). rewrite U, received_app, app_assoc. f_equal. exact R.
Qed.
Print Assumptions C44_read_prefix.
(* Nothing is lost: a Read with a non-empty buffer that returns no bytes and EOF means that every byte taken from the
   network so far has been delivered. *)
Lemma read1_eof_empty : forall s w len s' w', r_closed s = false -> 0 < len -> read1 s w len = (RRet [] EEof, s', w') -> r_cache s' = [] /\ r_buf s' = [].
Proof.
  intros s w len s' w' Hcl Hl H. unfold read1 in H. rewrite Hcl in H. destruct (Nat.eqb_spec (length (firstn len (r_cache s))) len) as [E|E]; [congruence|].
  destruct (read_loop (fst w) (snd w) (r_buf s)) as [[lo buf] w1] eqn:EL. assert (Hs: skipn len (r_cache s) = [] /\ firstn len (r_cache s) = r_cache s). { rewrite firstn_length in E. split; [apply skipn_all2; lia|apply firstn_all2; lia]. } destruct Hs as (Hs1 & Hs2). rewrite Hs1, Hs2 in H.
  destruct lo as [e|e|].
  - injection H as H H0 Hs3 _. rewrite <- Hs3. clear Hs3. cbn [r_cache r_buf app]. split; [|reflexivity]. apply app_eq_nil in H. destruct H as (H1 & H2). rewrite H1 in *. cbn [length] in *. rewrite Nat.sub_0_r in *. destruct len; [lia|]. destruct buf; [reflexivity|discriminate].
  - injection H as H H0 H1 _. subst e. exfalso. clear - EL. revert EL. generalize (fst w) (snd w) (r_buf s). intros net. induction net as [|[d e] net IH]; intros filt b EL; cbn in EL; [congruence|]. destruct e; [| |congruence]; destruct filt as [|[| |] filt]; try congruence.
  - discriminate.
Qed.
Theorem C44_eof_then_all_delivered : forall lens len net filt r s1 w1 s2 w2, clean_fail net -> reads new_r (net, filt) lens = (r, s1, w1) -> length r = length lens -> 0 < len -> read s1 w1 len = (RRet [] EEof, s2, w2) ->
  exists used, net = used ++ fst w2 /\ delivered r = received used.
Proof.
  intros lens len net filt r s1 w1 s2 w2 Hc H Hl Hlen HR. destruct (reads_conserve lens new_r (net, filt) r s1 w1 Hc eq_refl H) as (used & U & held & R & Hh). specialize (Hh Hl). cbn [fst] in U.
  assert (Hcl1: r_closed s1 = false). { clear - H. assert (G: forall lens s w, r_closed s = false -> forall r s' w', reads s w lens = (r, s', w') -> r_closed s' = false).
    { assert (G1: forall s w l o s' w', r_closed s = false -> read1 s w l = (o, s', w') -> r_closed s' = false). { intros s w l o s' w' Hcl HH. unfold read1 in HH. rewrite Hcl in HH. destruct (_ =? _); [injection HH as <- <- <-; reflexivity|]. destruct (read_loop _ _ _) as [[[] ?] ?]; injection HH as <- <- <-; reflexivity. }
      assert (G2: forall s w l o s' w', r_closed s = false -> read s w l = (o, s', w') -> r_closed s' = false). { intros s w l o s' w' Hcl HH. unfold read in HH. destruct (read1 s w l) as [[o1 s0] w0] eqn:E. pose proof (G1 _ _ _ _ _ _ Hcl E) as C0. destruct o1 as [[|z d] []|]; try (injection HH as <- <- <-; exact C0). eapply G1; eassumption. }
      induction lens0 as [|l lens0 IH]; intros s w Hcl r0 s' w' HH; cbn in HH; [injection HH as <- <- <-; assumption|]. destruct (read s w l) as [[o s0] w0] eqn:E. pose proof (G2 _ _ _ _ _ _ Hcl E) as C0. destruct o; [|injection HH as <- <- <-; exact C0]. destruct (reads s0 w0 lens0) as [[a b] c] eqn:E2. injection HH as <- <- <-. eapply IH; eassumption. }
    eapply G; [|exact H]. reflexivity. }
  assert (Hc1: clean_fail (fst w1)) by (rewrite U in Hc; eapply clean_app; exact Hc).
  destruct (read_conserves _ _ _ _ _ _ Hc1 Hcl1 HR) as (C2 & u2 & U2 & R2). specialize (R2 ltac:(discriminate)). cbn [out_data app] in R2.
  assert (E: r_cache s2 = [] /\ r_buf s2 = []). { unfold read in HR. destruct (read1 s1 w1 len) as [[o1 s0] w0] eqn:E1. assert (C0: r_closed s0 = false) by (apply (read1_conserves _ _ _ _ _ _ Hc1 Hcl1 E1)). destruct o1 as [[|z d] []|]; try discriminate; try (injection HR as H2 H3; subst; eapply (read1_eof_empty s1 w1 len); eassumption). eapply (read1_eof_empty s0 w0 len); eassumption. }
  destruct E as (E1 & E2). rewrite E1, E2 in R2. cbn in R2. symmetry in R2. rewrite app_assoc in R2. apply app_eq_nil in R2. destruct R2 as (R3 & R4). exists (used ++ u2). split; [now rewrite U, U2, app_assoc|]. rewrite received_app, R4, app_nil_r. rewrite Hh, R3, app_nil_r in R. exact (eq_sym R).
Qed.
Print Assumptions C44_eof_then_all_delivered.
(* Data that the filters have not let pass is not released: during a Read in which no filter call says continue and the
   network does not report EOF, the released bytes (handed out or cached) are only those that were already cached. *)
Lemma loop_paused : forall net filt buf o buf' w, (forall f, In f filt -> f <> FDone) -> (forall d, ~ In (d, NEof) net) -> read_loop net filt buf = (o, buf', w) -> forall e, o <> LDone e.
Proof.
  induction net as [|[d e] net IH]; intros filt buf o buf' w Hf Hn H; cbn [read_loop] in H; [injection H as <- _ _; discriminate|].
  assert (Hn': forall d0, ~ In (d0, NEof) net) by (intros d0 Hi; apply (Hn d0); now right).
  destruct e; [| |injection H as <- _ _; discriminate].
  - destruct filt as [|[| |] filt]; try (injection H as <- _ _; discriminate). { exfalso. apply (Hf FDone); [now left|reflexivity]. } eapply IH; [|exact Hn'|exact H]. intros f Hi. apply Hf. now right.
  - exfalso. apply (Hn d). now left.
Qed.
Theorem C44_paused_not_released : forall s net filt len o s' w', r_closed s = false -> (forall f, In f filt -> f <> FDone) -> (forall d, ~ In (d, NEof) net) ->
  read1 s (net, filt) len = (o, s', w') -> o <> RBlocked -> out_data o ++ r_cache s' = r_cache s.
Proof.
  intros s net filt len o s' w' Hcl Hf Hn H Hb. unfold read1 in H. rewrite Hcl in H. destruct (Nat.eqb_spec (length (firstn len (r_cache s))) len) as [E|E].
  - injection H as <- <- <-. cbn. apply firstn_skipn.
  - cbn [fst snd] in H. destruct (read_loop net filt (r_buf s)) as [[lo buf] w1] eqn:EL. pose proof (loop_paused _ _ _ _ _ _ Hf Hn EL) as Hd. destruct lo as [e|e|]; [now destruct (Hd e)| |].
    + injection H as <- <- <-. cbn. apply firstn_skipn.
    + injection H as <- <- <-. congruence.
Qed.
Print Assumptions C44_paused_not_released.
Example C44_read_ex : reads new_r ([([1; 2; 3]%Z, NNil); ([4]%Z, NNil); ([5; 6]%Z, NNil); ([], NEof)], [FPause; FDone; FDone; FDone]) [3; 2; 4; 4] =
  ([([1; 2; 3]%Z, ENil); ([4; 5]%Z, ENil); ([6]%Z, EEof)], mkr [] [] false, ([], [])).
Proof. reflexivity. Qed.
Example C44_paused_ex : exists s' w', read1 (mkr [9]%Z [] false) ([([1]%Z, NNil); ([2]%Z, NFail)], [FPause]) 4 = (RRet [9]%Z EFail, s', w') /\ r_buf s' = [1]%Z.
Proof. eexists _, _. split; reflexivity. Qed.
(* EOF is reported together with part of the data although more is buffered: an application that stops at EOF loses it. *)
Theorem C44_eof_with_data_left_refuted : exists net filt d s' w', read new_r (net, filt) 2 = (RRet d EEof, s', w') /\ delivered [(d, EEof)] <> received net /\ r_cache s' <> [].
Proof. exists [([1; 2; 3]%Z, NEof)], [FDone]. eexists _, _, _. split; [reflexivity|]. split; discriminate. Qed.
Print Assumptions C44_eof_with_data_left_refuted.
(* At EOF data is released although the filters paused it. *)
Theorem C44_eof_overrides_pause_refuted : exists s' w', read new_r ([([1]%Z, NNil); ([2]%Z, NEof)], [FPause; FPause]) 4 = (RRet [1; 2]%Z EEof, s', w').
Proof. eexists _, _. reflexivity. Qed.
Print Assumptions C44_eof_overrides_pause_refuted.
(* Data returned by the network together with an error is lost although reading can go on. *)
Theorem C44_data_with_error_lost_refuted : exists net filt r s' w', reads new_r (net, filt) [4; 4] = (r, s', w') /\ received net = [1; 2]%Z /\ delivered r = [2]%Z.
Proof. exists [([1]%Z, NFail); ([2]%Z, NNil)], [FDone]. eexists _, _, _. split; [reflexivity|]. split; reflexivity. Qed.
Print Assumptions C44_data_with_error_lost_refuted.

(* ================= writing ================= *)
Definition written (ops : list (bytes * fdec)) : bytes := concat (map fst ops).
Lemma wsize_pos : 0 < wsize.
Proof. unfold wsize. lia. Qed.
Lemma flush_ok : forall fuel buf, length buf < fuel -> flush fuel buf [] = (true, [], buf, []).
Proof.
  pose proof wsize_pos as W. induction fuel as [|f IH]; intros buf H; [lia|]. cbn [flush]. destruct buf as [|z buf]; [destruct wsize; reflexivity|].
  destruct (firstn wsize (z :: buf)) as [|a data] eqn:E; [destruct wsize; [lia|discriminate]|]. cbn [tl]. rewrite IH by (rewrite skipn_length; cbn [length] in *; lia). rewrite <- E, firstn_skipn. reflexivity.
Qed.
Lemma writes_conserve : forall ops s, w_closed s = false -> forall os s' ws', writes s ops [] = (os, s', ws') -> ws' = [] /\ w_closed s' = false /\ w_sent s' ++ w_buf s' = w_sent s ++ w_buf s ++ written ops /\ prefix_of (w_sent s) (w_sent s').
Proof.
  induction ops as [|[b f] ops IH]; intros s Hcl os s' ws' H; cbn [writes] in H.
  - injection H as <- <- <-. cbn. rewrite app_nil_r. split; [reflexivity|]. split; [assumption|]. split; [reflexivity|]. exists []. now rewrite app_nil_r.
  - destruct (write s b f []) as [[o s1] ws1] eqn:E. destruct (writes s1 ops ws1) as [[os2 s2] ws2] eqn:E2. injection H as <- <- <-.
    assert (G: ws1 = [] /\ w_closed s1 = false /\ w_sent s1 ++ w_buf s1 = w_sent s ++ w_buf s ++ b /\ prefix_of (w_sent s) (w_sent s1)).
    { unfold write in E. rewrite Hcl in E. destruct f.
      - rewrite flush_ok in E by lia. injection E as <- <- <-. cbn [w_sent w_buf w_closed]. rewrite app_nil_r. split; [reflexivity|]. split; [reflexivity|]. split; [reflexivity|]. eexists. reflexivity.
      - injection E as <- <- <-. cbn [w_sent w_buf w_closed]. split; [reflexivity|]. split; [reflexivity|]. split; [reflexivity|]. exists []. now rewrite app_nil_r.
      - injection E as <- <- <-. cbn [w_sent w_buf w_closed]. split; [reflexivity|]. split; [reflexivity|]. split; [reflexivity|]. exists []. now rewrite app_nil_r. }
    destruct G as (-> & C1 & G1 & G2). destruct (IH _ C1 _ _ _ E2) as (-> & C2 & I1 & I2). split; [reflexivity|]. split; [assumption|]. split.
    + rewrite I1. unfold written. cbn [map concat fst]. fold (written ops). rewrite !app_assoc. f_equal. rewrite <- !app_assoc. rewrite app_assoc in *. exact G1.
    + destruct G2 as (t1 & T1), I2 as (t2 & T2). exists (t1 ++ t2). now rewrite T2, T1, app_assoc.
Qed.
(* As long as the network accepts the data, what the peer gets is a prefix of what was written, in order, for every
   pause/continue/error schedule of the filters. *)
Theorem C44_write_prefix : forall ops os s' ws', writes new_w ops [] = (os, s', ws') -> prefix_of (w_sent s') (written ops).
Proof. intros ops os s' ws' H. destruct (writes_conserve ops new_w eq_refl _ _ _ H) as (_ & _ & E & _). exists (w_buf s'). cbn in E. now rewrite <- E. Qed.
Print Assumptions C44_write_prefix.
(* After a write that the filters let pass, everything written so far has gone to the peer. *)
Theorem C44_write_flushes : forall ops b os s' ws', writes new_w (ops ++ [(b, FDone)]) [] = (os, s', ws') -> w_sent s' = written (ops ++ [(b, FDone)]).
Proof.
  intros ops b os s' ws' H. destruct (writes_conserve _ new_w eq_refl _ _ _ H) as (_ & _ & E & _). cbn in E. rewrite <- E. assert (W: w_buf s' = []); [|rewrite W, app_nil_r; reflexivity].
  clear E. assert (C: w_closed new_w = false) by reflexivity. revert H C. generalize new_w. revert os. induction ops as [|[b0 f0] ops IH]; intros os s H C; cbn [app writes] in H.
  - destruct (write s b FDone []) as [[o s1] ws1] eqn:E. injection H as <- <- <-. unfold write in E. rewrite C, flush_ok in E by lia. injection E as <- <- <-. reflexivity.
  - destruct (write s b0 f0 []) as [[o s1] ws1] eqn:E. destruct (writes s1 (ops ++ [(b, FDone)]) ws1) as [[os2 s2] ws2] eqn:E2. injection H as <- <- <-.
    assert (ws1 = [] /\ w_closed s1 = false) as (-> & C1). { unfold write in E. rewrite C in E. destruct f0; [rewrite flush_ok in E by lia| |]; injection E as <- <- <-; auto. } eapply IH; eassumption.
Qed.
Print Assumptions C44_write_flushes.
(* Nothing goes out in a write the filters do not let pass. *)
Theorem C44_write_paused : forall s b ws f, f <> FDone -> w_sent (snd (fst (write s b f ws))) = w_sent s.
Proof. intros s b ws f Hf. unfold write. destruct (w_closed s); [reflexivity|]. destruct f; [congruence|reflexivity|reflexivity]. Qed.
Print Assumptions C44_write_paused.
Lemma flush_all : forall fuel buf ws rest sent ws', length buf < fuel -> flush fuel buf ws = (true, rest, sent, ws') -> rest = [] /\ sent = buf.
Proof.
  pose proof wsize_pos as W. induction fuel as [|f IH]; intros buf ws rest sent ws' H E; [lia|]. cbn [flush] in E. destruct buf as [|z buf]; [destruct wsize; [lia|]; cbn in E; injection E as <- <- <-; auto|].
  destruct (firstn wsize (z :: buf)) as [|a data] eqn:Ed; [destruct wsize; [lia|discriminate]|].
  assert (G: forall r s w, flush f (skipn wsize (z :: buf)) (tl ws) = (true, r, s, w) -> r = [] /\ s = skipn wsize (z :: buf)) by (intros r s w; apply IH; rewrite skipn_length; cbn [length] in *; lia).
  destruct ws as [|[|k] ws0]; cbn [tl] in *; try discriminate;
    match type of E with context [flush f ?a ?b] => destruct (flush f a b) as [[[ok r] s] w] eqn:Ef end; injection E as -> <- <- <-; destruct (G _ _ _ eq_refl) as (-> & ->); (split; [reflexivity|]); rewrite <- (firstn_skipn wsize (z :: buf)) at 2; rewrite Ed; reflexivity.
Qed.
(* A Write that reports success reports the full length, and if the filters let the data pass then all of it, and all
   that was held back before it, has gone to the peer: a failing network write is always reported. *)
Theorem C44_write_success : forall s b f ws n s' ws', write s b f ws = (WRet n ENil, s', ws') ->
  n = length b /\ (f = FDone -> w_sent s' = w_sent s ++ w_buf s ++ b /\ w_buf s' = []) /\ (f = FPause -> w_sent s' = w_sent s /\ w_buf s' = w_buf s ++ b).
Proof.
  intros s b f ws n s' ws' H. unfold write in H. destruct (w_closed s); [discriminate|]. destruct f.
  - destruct (flush (S (length (w_buf s ++ b))) (w_buf s ++ b) ws) as [[[ok rest] sent] w2] eqn:E. destruct ok; [|discriminate]. injection H as <- <- <-. apply flush_all in E; [|lia]. destruct E as (-> & ->). split; [reflexivity|]. split; [auto|discriminate].
  - injection H as <- <- <-. split; [reflexivity|]. split; [discriminate|auto].
  - discriminate.
Qed.
Print Assumptions C44_write_success.
(* A network failure, a filter error and a write after Close are reported as such. *)
Theorem C44_write_errors : forall s b ws, (w_closed s = true -> forall f, write s b f ws = (WRet 0 EEof, s, ws)) /\
  (w_closed s = false -> (forall k ws', ws = WFail k :: ws' -> w_buf s ++ b <> [] -> exists s' w', write s b FDone ws = (WRet 0 EFail, s', w')) /\ exists n s' w', write s b FErr ws = (WRet n EFilter, s', w')).
Proof.
  intros s b ws. split; [intros H f; unfold write; now rewrite H|]. intros H. unfold write. rewrite H. split; [|eauto]. intros k ws' -> Hn. pose proof wsize_pos as W.
  destruct (w_buf s ++ b) as [|z buf]; [contradiction|]. cbn [flush]. destruct (firstn wsize (z :: buf)) eqn:E; [destruct wsize; [lia|discriminate]|]. eauto.
Qed.
Print Assumptions C44_write_errors.
Example C44_write_ex : exists os s', writes new_w [([1; 2]%Z, FPause); ([3]%Z, FDone); ([4]%Z, FPause)] [] = (os, s', []) /\ w_sent s' = [1; 2; 3]%Z /\ w_buf s' = [4]%Z.
Proof. eexists _, _. split; [reflexivity|]. split; reflexivity. Qed.
(* After a failed network write the lost piece leaves a hole: later writes are sent behind it. *)
Theorem C44_write_error_hole_refuted : exists os s' ws', writes new_w [([1]%Z, FDone); ([2]%Z, FDone)] [WFail 0] = (os, s', ws') /\ w_sent s' = [2]%Z.
Proof. eexists _, _, _. split; reflexivity. Qed.
Print Assumptions C44_write_error_hole_refuted.
(* Data whose Write has succeeded but that the filters still hold back is dropped by Close. *)
Theorem C44_close_drops_paused_refuted : exists s', writes new_w [([1]%Z, FPause)] [] = ([WRet 1 ENil], s', []) /\ w_sent (close_w s') = [] /\ forall ops ws os s2 ws2, writes (close_w s') ops ws = (os, s2, ws2) -> w_sent s2 = [].
Proof.
  eexists. split; [reflexivity|]. split; [reflexivity|]. cbn. intros ops. assert (G: forall ops s, w_closed s = true -> w_sent s = [] -> forall ws os s2 ws2, writes s ops ws = (os, s2, ws2) -> w_sent s2 = []).
  { clear. induction ops as [|[b f] ops IH]; intros s C S ws os s2 ws2 H; cbn in H; [injection H as <- <- <-; assumption|]. unfold write in H. rewrite C in H. destruct (writes s ops ws) as [[a x] y] eqn:E. injection H as <- <- <-. eapply IH; eassumption. }
  intros. eapply G; [| |eassumption]; reflexivity.
Qed.
Print Assumptions C44_close_drops_paused_refuted.
