(* C27: when a watch ends, and what a finished refresh has stored *)
From Coq Require Import List Bool Arith Lia.
From Verif Require Import M_AdsWatch P_AdsWatch.
Import ListNotations.

(* a watch that ended has a reason: its context ended, or it is a one-shot watch whose latest response carries no error *)
Definition reason (w : watch) : Prop := w_ctx w = true \/ (w_once w = true /\ exists v, latest w = Some v /\ r_err v = false).
Definition ended_ok (w : watch) : Prop := (w_phase w = PCancel \/ w_phase w = PDone) -> reason w.
Lemma reason_step_w : forall free res w w', wstep free res w w' -> ended_ok w -> ended_ok w'.
Proof.
  intros free res w w' H K.
  destruct H as [w P T|w P C|w P F|w v P O|w v x P O|w v x P O|w v P C|w v P O|w v P C|w P F]; unfold ended_ok, reason, latest, with_tok, with_phase, with_out, after_send; cbn [w_phase w_ctx w_once w_out w_got]; intros E.
  - destruct E; discriminate.
  - left. exact C.
  - destruct (res (w_input w)); destruct E; discriminate.
  - destruct E; discriminate.
  - destruct E; discriminate.
  - destruct E; discriminate.
  - left; exact C.
  - right. destruct (w_once w); cbn [andb] in E; [| destruct E; discriminate ]. split; [ reflexivity |]. exists v. split; [ reflexivity |]. destruct (r_err v); [ cbn in E; destruct E; discriminate | reflexivity ].
  - left; exact C.
  - apply K. left. exact P.
Qed.
Lemma ended_set : forall s k w w' , nth_error (s_watches s) k = Some w -> (forall j x, nth_error (s_watches s) j = Some x -> ended_ok x) -> ended_ok w' ->
  forall j x, nth_error (wset (s_watches s) k w') j = Some x -> ended_ok x.
Proof. intros s k w w' H A B j x E. destruct (nth_wset _ _ _ _ _ _ H E) as [[_ ->]|[_ E']]; [ exact B | exact (A _ _ E') ]. Qed.
Lemma ended_step : forall s l s', sstep s l s' -> (forall j x, nth_error (s_watches s) j = Some x -> ended_ok x) -> forall j x, nth_error (s_watches s') j = Some x -> ended_ok x.
Proof.
  intros s l s' H A. destruct H; cbn [s_watches]; try exact A.
  - intros j x E. destruct (lt_dec j (length (s_watches s))) as [L|L].
    + rewrite nth_error_app1 in E by exact L. exact (A _ _ E).
    + rewrite nth_error_app2 in E by lia. destruct (j - length (s_watches s)) as [|[|]]; cbn in E; try discriminate. injection E as <-. intros [P|P]; discriminate P.
  - eapply ended_set; eauto. intros P. destruct (A _ _ H0 P) as [C|C]; [ left; exact C | right; exact C ].
  - eapply ended_set; eauto. eapply reason_step_w; eauto.
  - eapply ended_set; eauto. intros P. destruct (A _ _ H P) as [C|(O & v' & L & R)]; [ left; exact C |]. right. split; [ exact O |]. exists v'. split; [| exact R ].
    unfold latest in L |- *. rewrite H0 in L. cbn. exact L.
  - eapply ended_set; eauto. intros P. left. reflexivity.
Qed.
Theorem C27_watch_ends_with_reason : forall ls s k w, ssteps winit ls s -> nth_error (s_watches s) k = Some w -> w_phase w = PCancel \/ w_phase w = PDone -> reason w.
Proof.
  assert (forall ls a s, ssteps a ls s -> (forall j x, nth_error (s_watches a) j = Some x -> ended_ok x) -> forall j x, nth_error (s_watches s) j = Some x -> ended_ok x) as G.
  { intros ls a s H. induction H as [|a l b ls c S _ IH]; intros A; [ exact A |]. apply IH. eapply ended_step; eauto. }
  intros ls s k w H N P. refine (G ls winit s H _ k w N P). intros j x E. destruct j; discriminate E.
Qed.
Print Assumptions C27_watch_ends_with_reason.

(* a refresh that runs to its end stores the current response of every input it visits, whatever the watches and their
   consumers do meanwhile, as long as the resources do not change under it and the client is not stopped *)
Definition visited (s : wstate) (rest done : list nat) : Prop := exists ks, s_eng s = ERefresh rest ks /\ forall i, In i done -> s_results s i = s_truth s i.
Inductive refreshing : wstate -> wstate -> Prop :=
| R_here : forall s, refreshing s s
| R_more : forall s l s1 s2, sstep s l s1 -> l <> LUpdate -> s_eng s1 <> EIdle -> refreshing s1 s2 -> refreshing s s2.
Lemma refreshing_visits : forall s s', refreshing s s' -> forall rest done, visited s rest done ->
  exists rest' done', visited s' rest' done' /\ forall i, In i (done ++ rest) <-> In i (done' ++ rest').
Proof.
  intros s s' H. induction H as [|s l s1 s2 S NU NI _ IH]; intros rest done (ks & E & D); [ exists rest, done; split; [ exists ks; split; assumption | tauto ] |].
  destruct S; cbn [s_eng s_truth s_results s_watches] in *; try congruence.
  - (* same *) rewrite H in E. injection E as <- <-. destruct (IH r (i :: done)) as (r' & d' & V & M).
    + exists []. split; [ reflexivity |]. cbn. intros j [<-|J]; [ symmetry; exact H0 | exact (D _ J) ].
    + exists r', d'. split; [ exact V |]. intros j. rewrite <- M. cbn. rewrite !in_app_iff. cbn. tauto.
  - (* changed *) rewrite H in E. injection E as <- <-. destruct (IH r (i :: done)) as (r' & d' & V & M).
    + exists (observers i 0 (s_watches s)). split; [ reflexivity |]. cbn. intros j J. unfold setr. destruct (Nat.eqb j i) eqn:Q; [ apply Nat.eqb_eq in Q; subst; congruence |].
      destruct J as [<-|J]; [ rewrite Nat.eqb_refl in Q; discriminate | exact (D _ J) ].
    + exists r', d'. split; [ exact V |]. intros j. rewrite <- M. cbn. rewrite !in_app_iff. cbn. tauto.
  - (* notify *) rewrite H in E. injection E as <- <-. apply (IH r done). exists ks0. split; [ reflexivity | exact D ].
  - apply (IH rest done). exists ks. split; [ exact E | exact D ].
  - apply (IH rest done). exists ks. split; [ exact E | exact D ].
  - apply (IH rest done). exists ks. split; [ exact E | exact D ].
  - apply (IH rest done). exists ks. split; [ exact E | exact D ].
Qed.
Theorem C27_refresh_stores_current : forall s s1 s', sstep s LEngine s1 -> s_eng s = EIdle -> refreshing s1 s' -> s_eng s' = ERefresh [] [] ->
  forall w, In w (s_watches s) -> s_results s' (w_input w) = s_truth s' (w_input w).
Proof.
  intros s s1 s' S I R F w W. inversion S; subst; try congruence.
  destruct (refreshing_visits _ _ R inputs []) as (r' & d' & (ks & E & D) & M); [ exists []; split; [ reflexivity | intros i [] ] |].
  rewrite F in E. injection E as <- <-. apply D. specialize (M (w_input w)). rewrite app_nil_r in M. apply M. cbn. apply H0. exists w. split; [ exact W | reflexivity ].
Qed.
Print Assumptions C27_refresh_stores_current.
(* the stored response of a visited input is what [get] hands to the watch: the hypotheses are met by a run with one watch *)
Example refresh_case : exists s s1 s' w, sstep s LEngine s1 /\ s_eng s = EIdle /\ refreshing s1 s' /\ s_eng s' = ERefresh [] [] /\ In w (s_watches s) /\ s_results s (w_input w) <> s_truth s (w_input w).
Proof.
  set (w := mkwatch 0 false true false PSelect false None None).
  exists (mkws (T1 2) (T1 1) [w] EIdle false), (mkws (T1 2) (T1 1) [w] (ERefresh [0] []) false), (mkws (T1 2) (setr (T1 1) 0 (Some (ok 2))) [with_tok w true PSelect] (ERefresh [] []) false), w.
  split; [ apply S_refresh; [ reflexivity | | repeat constructor; intros [] ] |].
  { intros i. cbn. split; [ intros [<-|[]]; exists w; split; [ left; reflexivity | reflexivity ] | intros (x & [<-|[]] & <-); left; reflexivity ]. }
  split; [ reflexivity |]. split.
  - eapply R_more; [ eapply (S_changed _ 0 [] (ok 2)); [ reflexivity | reflexivity | discriminate ] | discriminate | discriminate |].
    eapply R_more; [ eapply (S_notify _ [] 0 [] w); reflexivity | discriminate | discriminate |]. apply R_here.
  - split; [ reflexivity |]. split; [ left; reflexivity | discriminate ].
Qed.
