(* C84, continued: connections, listener and dialer of the Java bindings. *)
From Coq Require Import List Bool Arith NArith Lia.
From Verif Require Import M_JavaNio.
Import ListNotations.
Opaque CAP.

Record inv (s : cst) : Prop :=
  { i_read : got s ++ buf s ++ net s = peer_sent s;
    i_cap : length (chan s) <= CAP;
    i_term : term s = true -> eof s = true }.
Lemma inv_run : forall es s, run es s -> inv s.
Proof.
  intros es s R. induction R as [|es s e s' R IH Hs]; [constructor; cbn; [reflexivity|lia|discriminate]|]. destruct IH as [I1 I2 I3].
  inversion Hs; subst; constructor; cbn [upd_rd upd_wr got buf net peer_sent chan term eof]; auto.
  - rewrite <- I1, <- !app_assoc. reflexivity.
  - rewrite <- I1. rewrite <- app_assoc, firstn_skipn. reflexivity.
  - rewrite <- I1, <- !app_assoc. f_equal. rewrite app_assoc, firstn_skipn. reflexivity.
  - intros E. rewrite (I3 E) in H. discriminate.
  - rewrite app_length. cbn. lia.
  - intros E. rewrite (I3 E) in *. discriminate.
  - intros E. rewrite (I3 E) in *. discriminate.
  - match goal with H : chan s = _ |- _ => rewrite H in I2; cbn in I2 end. lia.
  - cbn. lia.
  - intros E. rewrite E. auto.
Qed.
(* what the application has read is what the peer sent, in order, from its beginning; what came is there, read or in the buffer *)
Theorem C84_reads : forall es s, run es s -> got s ++ buf s ++ net s = peer_sent s.
Proof. intros es s R. exact (i_read _ (inv_run _ _ R)). Qed.
Print Assumptions C84_reads.
Theorem C84_read_result : forall s s' m r, step s (AsyncRead m r) s' -> (r = None <-> eof s = true) /\ (forall b, r = Some b -> b = firstn m (buf s) /\ got s' = got s ++ b /\ buf s = b ++ buf s').
Proof.
  intros s s' m r H. inversion H; subst.
  - split; [split; auto|]. intros b E. discriminate.
  - split; [split; [discriminate|congruence]|]. intros b E. injection E as <-. cbn. repeat split. symmetry. apply firstn_skipn.
Qed.
Print Assumptions C84_read_result.
Inductive later (s : cst) : cst -> Prop := LRefl : later s s | LStep : forall e s1 s2, later s s1 -> step s1 e s2 -> later s s2.
(* after the end nothing is read any more, although the buffer is not empty: what the peer sent last is lost *)
Theorem C84_eof_final : forall s s', later s s' -> eof s = true -> got s' = got s /\ eof s' = true.
Proof.
  intros s s' H E. induction H as [|e s1 s2 H IH Hs]; [auto|]. destruct IH as [I1 I2]. inversion Hs; subst; cbn; auto; try (split; [exact I1|congruence]); try congruence.
  split; [exact I1|]. rewrite I2. destruct (term s1), e0; reflexivity.
Qed.
Print Assumptions C84_eof_final.
Theorem C84_eof_loss_refuted : exists es s, run es s /\ peer_sent s = [1; 2] /\ net s = [] /\ buf s = [1; 2] /\ got s = [] /\ eof s = true.
Proof.
  pose proof RunNil as R0.
  pose proof (RunStep _ _ _ _ R0 (SStartRead new_conn eq_refl)) as R1. vm_compute in R1.
  match type of R1 with run _ ?s => pose proof (RunStep _ _ _ _ R1 (SPeerSend s [1; 2] eq_refl)) as R2 end. vm_compute in R2.
  match type of R2 with run _ ?s => pose proof (RunStep _ _ _ _ R2 (SPeerEnd s)) as R3 end. vm_compute in R3.
  match type of R3 with run _ ?s => pose proof (RunStep _ _ _ _ R3 (SRRead s 2 eq_refl eq_refl ltac:(lia) ltac:(lia) ltac:(cbn; lia))) as R4 end. vm_compute in R4.
  match type of R4 with run _ ?s => pose proof (RunStep _ _ _ _ R4 (SRStop s eq_refl (or_intror eq_refl))) as R5 end. vm_compute in R5.
  eexists _, _. split; [exact R5|]. repeat split; reflexivity.
Qed.
Print Assumptions C84_eof_loss_refuted.
(* and the application is not told of the end: nothing is readable when the buffer is empty *)
Theorem C84_end_silent_refuted : forall s s', later s s' -> peer_end s = true -> net s = [] -> buf s = [] -> readable s' = false.
Proof.
  intros s s' H E1 E2 E3. assert (P: peer_end s' = true /\ net s' = [] /\ buf s' = []).
  { induction H as [|e s1 s2 H IH Hs]; [auto|]. destruct IH as (P1 & P2 & P3). inversion Hs; subst; cbn; auto; try congruence.
    - rewrite P2 in *. cbn in *. lia.
    - rewrite P3. now rewrite skipn_nil. }
  unfold readable. destruct P as (_ & _ & ->). reflexivity.
Qed.
Print Assumptions C84_end_silent_refuted.

(* ---- writing ---- *)
Definition starts (es : list ev) : nat := length (filter (fun e => match e with StartWrite => true | _ => false end) es).
Definition clean (e : ev) : bool := match e with WFail (S _) false => false | _ => true end.
Lemma starts_app : forall es e, starts (es ++ [e]) = starts es + (match e with StartWrite => 1 | _ => 0 end).
Proof. intros. unfold starts. rewrite filter_app, app_length. cbn. destruct e; reflexivity. Qed.
(* while the writer is started once and no failing write has written something, the connection gets what AsyncWrite accepted, in order, from its beginning, and
   when the writer is idle and the channel empty, all of it *)
Theorem C84_writes : forall es s, run es s -> starts es <= 1 -> forallb clean es = true ->
  (exists rest, acc s = out s ++ rest) /\ (wr s = WIdle -> acc s = out s ++ concat (chan s)).
Proof.
  intros es s R H1 H2.
  assert (P: match wr s with WIdle => acc s = out s ++ concat (chan s) | WHave b => acc s = out s ++ b ++ concat (chan s) | WDone => (exists rest, acc s = out s ++ rest) /\ (starts es = 0 -> out s = [] /\ acc s = concat (chan s)) end).
  { induction R as [|es s e s' R IH Hs]; [cbn; split; [exists []; reflexivity|auto]|]. rewrite starts_app in H1. rewrite forallb_app in H2. apply andb_true_iff in H2. destruct H2 as [H2 H3]. cbn in H3. rewrite andb_true_r in H3. specialize (IH ltac:(lia) H2). rewrite starts_app.
    inversion Hs; subst; cbn [upd_rd upd_wr wr acc out chan]; cbn [clean] in *; rewrite ?Nat.add_0_r in *; try exact IH.
    - match goal with H : wr s = WDone |- _ => rewrite H in IH end. destruct IH as [_ IH]. destruct (IH ltac:(lia)) as [-> ->]. reflexivity.
    - rewrite concat_app. cbn [concat]. rewrite app_nil_r. destruct (wr s); [rewrite IH, <- app_assoc; reflexivity|rewrite IH, <- !app_assoc; reflexivity|].
      destruct IH as [[rest IH] J]. split; [exists (rest ++ b); rewrite IH, app_assoc; reflexivity|]. intros E. destruct (J E) as [-> ->]. auto.
    - match goal with H : wr s = _, H' : chan s = _ |- _ => rewrite H, H' in IH end. cbn in IH. exact IH.
    - match goal with H : wr s = WIdle, H' : chan s = _ |- _ => rewrite H, H' in IH end. cbn in IH. rewrite app_nil_r in IH. split; [exists []; now rewrite app_nil_r|]. intros E. exfalso. clear -R E H. 
      assert (Z: wr s = WDone); [|congruence]. clear H. induction R as [|es s e s' R IH Hs]; [reflexivity|]. rewrite starts_app in E. specialize (IH ltac:(lia)). inversion Hs; subst; cbn in *; auto; try congruence; lia.
    - match goal with H : wr s = WHave _ |- _ => rewrite H in IH end. destruct (Nat.eqb_spec n (length b)) as [->|Hne].
      + rewrite firstn_all. rewrite <- app_assoc. exact IH.
      + rewrite <- app_assoc, (app_assoc (firstn n b)), firstn_skipn. exact IH.
    - match goal with H : wr s = WHave _ |- _ => rewrite H in IH end. destruct (term s || e0) eqn:Et.
      + split; [exists (skipn n b ++ concat (chan s)); rewrite <- app_assoc, (app_assoc (firstn n b)), firstn_skipn; exact IH|]. intros E. exfalso. clear -R E H.
        assert (Z: wr s = WDone); [|congruence]. clear H. induction R as [|es s e s' R IH Hs]; [reflexivity|]. rewrite starts_app in E. specialize (IH ltac:(lia)). inversion Hs; subst; cbn in *; auto; try congruence; lia.
      + apply orb_false_iff in Et. destruct Et as [_ ->]. destruct n; [|discriminate]. cbn [firstn]. rewrite app_nil_r. exact IH. }
  split.
  - destruct (wr s); [eauto|eauto|tauto].
  - intros E. now rewrite E in P.
Qed.
Print Assumptions C84_writes.
(* AsyncWrite takes everything or nothing, at most 64 pieces at a time, and nothing once the end was seen *)
Theorem C84_accepts : forall es s, run es s -> length (chan s) <= CAP /\ (forall b s', ap s = AChecked b -> eof s = false -> step s (Push true) s' -> acc s' = acc s ++ b /\ chan s' = chan s ++ [b]) /\
  (forall ok s', eof s = true -> step s (Push ok) s' -> acc s' = acc s).
Proof.
  intros es s R. split; [exact (i_cap _ (inv_run _ _ R))|]. split.
  - intros b s' Hb He Hs. inversion Hs; subst. cbn. assert (b0 = b) by congruence. subst. auto.
  - intros ok s' He Hs. inversion Hs; subst; try congruence. reflexivity.
Qed.
Print Assumptions C84_accepts.
(* Close throws away what was accepted and not yet written *)
Theorem C84_close_final : forall s s', later s s' -> term s = true -> out s' = out s /\ term s' = true.
Proof.
  intros s s' H E. induction H as [|e s1 s2 H IH Hs]; [auto|]. destruct IH as [I1 I2]. inversion Hs; subst; cbn; auto; try congruence.
  match goal with X : term s1 = true -> n = 0 |- _ => rewrite (X I2) end. cbn. rewrite app_nil_r. auto.
Qed.
Print Assumptions C84_close_final.
Theorem C84_close_loss_refuted : exists es s, run es s /\ acc s = [1; 2] /\ out s = [] /\ term s = true.
Proof.
  pose proof RunNil as R0.
  pose proof (RunStep _ _ _ _ R0 (SStartWrite new_conn eq_refl)) as R1. vm_compute in R1.
  match type of R1 with run _ ?s => pose proof (RunStep _ _ _ _ R1 (SCheck s [1; 2] eq_refl eq_refl)) as R2 end. vm_compute in R2.
  match type of R2 with run _ ?s => pose proof (RunStep _ _ _ _ R2 (SPush s [1; 2] eq_refl eq_refl ltac:(apply Nat.ltb_lt; reflexivity))) as R3 end. vm_compute in R3.
  match type of R3 with run _ ?s => pose proof (RunStep _ _ _ _ R3 (SClose s)) as R4 end. vm_compute in R4.
  eexists _, _. split; [exact R4|]. repeat split; reflexivity.
Qed.
Print Assumptions C84_close_loss_refuted.
(* a write that fails in the middle, with another error than io.EOF, is begun again: bytes arrive twice *)
Theorem C84_twice_refuted : exists es s, run es s /\ starts es = 1 /\ acc s = [1; 2] /\ out s = [1; 1; 2].
Proof.
  pose proof RunNil as R0.
  pose proof (RunStep _ _ _ _ R0 (SStartWrite new_conn eq_refl)) as R1. vm_compute in R1.
  match type of R1 with run _ ?s => pose proof (RunStep _ _ _ _ R1 (SCheck s [1; 2] eq_refl eq_refl)) as R2 end. vm_compute in R2.
  match type of R2 with run _ ?s => pose proof (RunStep _ _ _ _ R2 (SPush s [1; 2] eq_refl eq_refl ltac:(apply Nat.ltb_lt; reflexivity))) as R3 end. vm_compute in R3.
  match type of R3 with run _ ?s => pose proof (RunStep _ _ _ _ R3 (SWTake s [1; 2] [] eq_refl eq_refl)) as R4 end. vm_compute in R4.
  match type of R4 with run _ ?s => pose proof (RunStep _ _ _ _ R4 (SWFail s 1 [1; 2] false eq_refl ltac:(cbn; lia) ltac:(discriminate))) as R5 end. vm_compute in R5.
  match type of R5 with run _ ?s => pose proof (RunStep _ _ _ _ R5 (SWWrite s 2 [1; 2] eq_refl eq_refl ltac:(cbn; lia))) as R6 end. vm_compute in R6.
  eexists _, _. split; [exact R6|]. repeat split; reflexivity.
Qed.
Print Assumptions C84_twice_refuted.
(* when the peer is gone and the application does not close, the writer tries again for ever: the state stays the same *)
Theorem C84_spin_refuted : exists es s, run es s /\ peer_end s = true /\ wr s = WHave [1] /\ term s = false /\ step s (WFail 0 false) s.
Proof.
  pose proof RunNil as R0.
  pose proof (RunStep _ _ _ _ R0 (SStartWrite new_conn eq_refl)) as R1. vm_compute in R1.
  match type of R1 with run _ ?s => pose proof (RunStep _ _ _ _ R1 (SCheck s [1] eq_refl eq_refl)) as R2 end. vm_compute in R2.
  match type of R2 with run _ ?s => pose proof (RunStep _ _ _ _ R2 (SPush s [1] eq_refl eq_refl ltac:(apply Nat.ltb_lt; reflexivity))) as R3 end. vm_compute in R3.
  match type of R3 with run _ ?s => pose proof (RunStep _ _ _ _ R3 (SWTake s [1] [] eq_refl eq_refl)) as R4 end. vm_compute in R4.
  match type of R4 with run _ ?s => pose proof (RunStep _ _ _ _ R4 (SPeerEnd s)) as R5 end. vm_compute in R5.
  match type of R5 with run ?es ?s => exists es, s; split; [exact R5|]; repeat split; exact (SWFail s 0 [1] false eq_refl (Nat.le_0_l _) (fun _ => eq_refl)) end.
Qed.
Print Assumptions C84_spin_refuted.
(* AsyncWrite does not panic when nothing happens between its check and its send ... *)
Fixpoint serial (es : list ev) : Prop := match es with [] => True | Check _ :: r => (match r with [] => True | Push _ :: _ => True | _ => False end) /\ serial r | _ :: r => serial r end.
Lemma serial_app : forall a b, serial (a ++ b) -> serial a /\ serial b.
Proof.
  induction a as [|e a IH]; intros b H; [split; [exact I|exact H]|]. destruct e; cbn [app serial] in *; try (apply IH; exact H).
  destruct H as [H1 H2]. destruct (IH b H2) as [J1 J2]. split; [|exact J2]. split; [|exact J1]. destruct a as [|e a]; [exact I|exact H1].
Qed.
Lemma serial_last : forall es b e, serial (es ++ [Check b; e]) -> exists ok, e = Push ok.
Proof. intros es b e H. apply serial_app in H. destruct H as [_ H]. cbn in H. destruct H as [H _]. destruct e; try contradiction. eauto. Qed.
Theorem C84_no_panic : forall es s, run es s -> serial es -> crashed s = false.
Proof.
  intros es s R S. assert (P: crashed s = false /\ (forall b, ap s = AChecked b -> eof s = false /\ exists es', es = es' ++ [Check b])); [|exact (proj1 P)].
  induction R as [|es s e s' R IH Hs]; [cbn; split; [reflexivity|discriminate]|]. destruct (serial_app _ _ S) as [S1 _]. destruct (IH S1) as [I1 I2]. clear IH.
  assert (K: forall b, ap s = AChecked b -> exists ok, e = Push ok). { intros b E. destruct (I2 b E) as [_ [es' ->]]. rewrite <- app_assoc in S. exact (serial_last _ _ _ S). }
  inversion Hs; subst; cbn; (split; [try exact I1|]); try (intros b0 E; destruct (K b0 E) as [ok Eo]; discriminate); try discriminate.
  - intros b0 E. injection E as <-. split; [assumption|]. eauto.
  - match goal with H : ap s = AChecked _ |- _ => destruct (I2 _ H) as [X _] end. congruence.
Qed.
Print Assumptions C84_no_panic.
(* ... but it does when the end comes in between *)
Theorem C84_panic_refuted : exists es s, run es s /\ crashed s = true.
Proof.
  pose proof RunNil as R0.
  match type of R0 with run _ ?s => pose proof (RunStep _ _ _ _ R0 (SCheck s [1] eq_refl eq_refl)) as R1 end. vm_compute in R1.
  match type of R1 with run _ ?s => pose proof (RunStep _ _ _ _ R1 (SClose s)) as R2 end. vm_compute in R2.
  match type of R2 with run _ ?s => pose proof (RunStep _ _ _ _ R2 (SPushPanic s [1] eq_refl eq_refl)) as R3 end. vm_compute in R3.
  eexists _, _. split; [exact R3|reflexivity].
Qed.
Print Assumptions C84_panic_refuted.
(* a whole exchange *)
Example C84_example : exists es s, run es s /\ starts es = 1 /\ forallb clean es = true /\ serial es /\ got s = [5; 6] /\ acc s = [1; 2] /\ out s = [1; 2] /\ wr s = WIdle.
Proof.
  pose proof RunNil as R0.
  pose proof (RunStep _ _ _ _ R0 (SStartWrite new_conn eq_refl)) as R1. vm_compute in R1.
  match type of R1 with run _ ?s => pose proof (RunStep _ _ _ _ R1 (SCheck s [1; 2] eq_refl eq_refl)) as R2 end. vm_compute in R2.
  match type of R2 with run _ ?s => pose proof (RunStep _ _ _ _ R2 (SPush s [1; 2] eq_refl eq_refl ltac:(apply Nat.ltb_lt; reflexivity))) as R3 end. vm_compute in R3.
  match type of R3 with run _ ?s => pose proof (RunStep _ _ _ _ R3 (SWTake s [1; 2] [] eq_refl eq_refl)) as R4 end. vm_compute in R4.
  match type of R4 with run _ ?s => pose proof (RunStep _ _ _ _ R4 (SWWrite s 2 [1; 2] eq_refl eq_refl ltac:(cbn; lia))) as R5 end. vm_compute in R5.
  match type of R5 with run _ ?s => pose proof (RunStep _ _ _ _ R5 (SStartRead s eq_refl)) as R6 end. vm_compute in R6.
  match type of R6 with run _ ?s => pose proof (RunStep _ _ _ _ R6 (SPeerSend s [5; 6] eq_refl)) as R7 end. vm_compute in R7.
  match type of R7 with run _ ?s => pose proof (RunStep _ _ _ _ R7 (SRRead s 2 eq_refl eq_refl ltac:(lia) ltac:(lia) ltac:(cbn; lia))) as R8 end. vm_compute in R8.
  match type of R8 with run _ ?s => pose proof (RunStep _ _ _ _ R8 (SAsyncRead s 7 eq_refl)) as R9 end. vm_compute in R9.
  eexists _, _. split; [exact R9|]. repeat split; reflexivity.
Qed.

(* ---- listener ---- *)
Definition pushing (p : lpc) : list nat := match p with LPush c => [c] | _ => [] end.
(* connections are handed over in the order they came, each once; and one that waits in the channel has an event for it *)
Theorem C84_accept : forall s, lreach s -> l_taken s ++ l_chan s ++ pushing (l_pc s) = l_accepted s /\ length (l_chan s) <= 1 /\ (l_chan s <> [] -> l_pc s = LEvent \/ 0 < l_queued s \/ 0 < l_owed s).
Proof.
  intros s R. induction R as [|s s' R IH Hs]; [cbn; split; [reflexivity|split; [lia|congruence]]|]. destruct IH as (I1 & I2 & I3).
  inversion Hs as [c E|c E Ec|E|E|E]; subst; cbn [l_taken l_chan l_pc l_accepted l_queued l_owed pushing].
  - rewrite E in I1, I3. cbn in I1. rewrite app_nil_r in I1. split; [rewrite app_assoc, I1; reflexivity|]. split; [exact I2|]. intros H. destruct (I3 H) as [X|X]; [discriminate|auto].
  - rewrite E, Ec in I1. cbn in I1. split; [exact I1|]. split; [cbn; lia|auto].
  - rewrite E in I1. cbn in I1. split; [exact I1|]. split; [exact I2|]. intros _. right. left. lia.
  - split; [exact I1|]. split; [exact I2|]. intros _. right. right. lia.
  - split; [rewrite <- app_assoc; exact I1|]. split; [cbn; lia|]. congruence.
Qed.
Print Assumptions C84_accept.
Example C84_accept_example : exists s, lreach s /\ l_taken s = [4] /\ l_chan s = [5] /\ l_queued s = 1.
Proof.
  pose proof LInit as R0.
  match type of R0 with lreach ?s => pose proof (LNext _ _ R0 (LSAccept s 4 eq_refl)) as R1 end. vm_compute in R1.
  match type of R1 with lreach ?s => pose proof (LNext _ _ R1 (LSPush s 4 eq_refl eq_refl)) as R2 end. vm_compute in R2.
  match type of R2 with lreach ?s => pose proof (LNext _ _ R2 (LSEvent s eq_refl)) as R3 end. vm_compute in R3.
  match type of R3 with lreach ?s => pose proof (LNext _ _ R3 (LSReport s ltac:(cbn; lia))) as R4 end. vm_compute in R4.
  match type of R4 with lreach ?s => pose proof (LNext _ _ R4 (LSTake s ltac:(cbn; lia))) as R5 end. vm_compute in R5.
  match type of R5 with lreach ?s => pose proof (LNext _ _ R5 (LSAccept s 5 eq_refl)) as R6 end. vm_compute in R6.
  match type of R6 with lreach ?s => pose proof (LNext _ _ R6 (LSPush s 5 eq_refl eq_refl)) as R7 end. vm_compute in R7.
  match type of R7 with lreach ?s => pose proof (LNext _ _ R7 (LSEvent s eq_refl)) as R8 end. vm_compute in R8.
  eexists. split; [exact R8|]. repeat split; reflexivity.
Qed.

(* ---- dialer ---- *)
(* a dialer with one dial at a time hands over its connection; with two, whoever asks first gets the one that was made first *)
Theorem C84_dial : forall c, async_dial (dial_done c []) = (Some c, []) /\ async_dial [] = (None, []).
Proof. intros c. split; reflexivity. Qed.
Print Assumptions C84_dial.
Theorem C84_dial_refuted : forall first second, first <> second -> fst (async_dial (dial_done second (dial_done first []))) = Some first.
Proof. intros first second _. reflexivity. Qed.
Print Assumptions C84_dial_refuted.
(* the checks the selector makes are true to the calls: readable means that a read with room returns something, writable that a write is taken *)
Theorem C84_checks : forall s, eof s = false ->
  (readable s = true <-> forall m r s', 0 < m -> step s (AsyncRead m r) s' -> exists x b, r = Some (x :: b)) /\
  (forall b, ap s = AChecked b -> (writable s = true <-> exists s', step s (Push true) s') /\ (writable s = false <-> exists s', step s (Push false) s')).
Proof.
  intros s He. split; [split|].
  - intros H m r s' Hm Hs. inversion Hs; subst; [congruence|]. unfold readable in H. destruct (buf s) as [|x b]; [discriminate|]. destruct m; [lia|]. cbn. eauto.
  - intros H. specialize (H 1 _ _ (Nat.lt_0_succ 0) (SAsyncRead s 1 He)). destruct H as (x & b & E). unfold readable. destruct (buf s); [discriminate|reflexivity].
  - intros b Hb. unfold writable. split; split; intros H.
    + apply Nat.ltb_lt in H. eexists. exact (SPush s b Hb He H).
    + destruct H as [s' H]. inversion H; subst. now apply Nat.ltb_lt.
    + apply Nat.ltb_ge in H. eexists. exact (SPushFull s b Hb He H).
    + destruct H as [s' H]. inversion H; subst; [now apply Nat.ltb_ge|congruence].
Qed.
Print Assumptions C84_checks.
