(* The weighted cluster selection loop in binary64. *)
From Coq Require Import String List Bool NArith ZArith Reals Lra Lia SpecFloat.
From Flocq Require Import Core.
From Verif Require Import M_GoMap L_GoMap M_AdsLb L_Float L_Float2 L_Float3.
Import ListNotations.
Open Scope R_scope.
Section Fold.
Variable pow : f64 -> f64 -> f64.
Variables (W T : N) (st : gmap N).
Hypothesis HW : (0 < W <= 65536)%N.
Hypothesis HT : (0 < T < 4294967296)%N.
Definition cnt (name : string) : N := match mget name st with Some c => c | None => 0%N end.
Definition okw (e : string * N) : Prop := (snd e <= 65536)%N /\ (cnt (fst e) < 4294967296)%N.
Definition openw (e : string * N) (r : R) : Prop := skipped (snd e) W T (cnt (fst e)) = false /\ isf (rel (snd e) W T (cnt (fst e))) r.
Lemma sel_fold : forall ws, Forall okw ws ->
  match fold_left (sel_visit (go_float pow) W T st) ws (fmax (go_float pow), (""%string, 0%N)) with
  | (m, e) => (m = fmax (go_float pow) /\ forall b, In b ws -> skipped (snd b) W T (cnt (fst b)) = true) \/
      (In e ws /\ exists r, isf m r /\ openw e r /\ forall b rb, In b ws -> openw b rb -> r <= rb)
  end.
Proof.
  intros ws. induction ws as [|[n w] ws IH] using rev_ind; intros Hok; [left; split; [reflexivity|intros b []]|].
  rewrite Forall_app in Hok. destruct Hok as [Hok Hn]. inversion Hn as [|x xs [B1 B2] _]. subst x xs. cbn [fst snd] in B1, B2. specialize (IH Hok). clear Hok Hn.
  rewrite fold_left_app. cbn [fold_left]. destruct (fold_left (sel_visit (go_float pow) W T st) ws (fmax (go_float pow), (""%string, 0%N))) as [m [s sw]].
  assert (Hskip: skipped w W T (cnt n) = true -> (m = fmax (go_float pow) /\ forall b, In b (ws ++ [(n, w)]) -> skipped (snd b) W T (cnt (fst b)) = true) \/ (In (s, sw) (ws ++ [(n, w)]) /\ exists r, isf m r /\ openw (s, sw) r /\ forall b rb, In b (ws ++ [(n, w)]) -> openw b rb -> r <= rb)).
  { intros Hs. destruct IH as [[Hm H]|[Hi (r & Hm & Ho & H)]].
    - left. split; [exact Hm|]. intros b Hb. apply in_app_or in Hb. destruct Hb as [Hb|[<-|[]]]; [now apply H|exact Hs].
    - right. split; [apply in_or_app; now left|]. exists r. split; [exact Hm|]. split; [exact Ho|]. intros b rb Hb Hob. apply in_app_or in Hb. destruct Hb as [Hb|[<-|[]]]; [now apply (H b)|]. destruct Hob as [Hx _]. cbn [fst snd] in Hx. congruence. }
  unfold sel_visit. cbv zeta. cbn [fleb fltb feqb fmul fdiv f_of go_float]. change (match mget n st with Some c => c | None => 0%N end) with (cnt n).
  fold (fl (cnt n)). fold (fl T). fold (fl w). fold (fl W). fold (share w W). fold (maxsel w W T). fold (skipped w W T (cnt n)). fold (rel w W T (cnt n)).
  destruct (skipped w W T (cnt n)) eqn:Es; [now apply Hskip|].
  destruct (rel_isf w W T (cnt n) B1 HW HT B2 Es) as (M & rb & _ & _ & Hrb & _ & _).
  assert (Ob: openw (n, w) rb) by (split; assumption). assert (Hin: In (n, w) (ws ++ [(n, w)])) by (apply in_or_app; right; now left).
  assert (Hnew: forall m', isf m' rb -> (forall b rc, In b ws -> openw b rc -> rb <= rc) -> In (n, w) (ws ++ [(n, w)]) /\ exists r, isf m' r /\ openw (n, w) r /\ forall b rc, In b (ws ++ [(n, w)]) -> openw b rc -> r <= rc).
  { intros m' Hm' Hl. split; [exact Hin|]. exists rb. split; [exact Hm'|]. split; [exact Ob|]. intros b rc Hb Hob. apply in_app_or in Hb. destruct Hb as [Hb|[<-|[]]]; [now apply (Hl b)|]. right. eapply isf_unique; [apply (proj2 Ob)|apply (proj2 Hob)]. }
  destruct IH as [[-> H]|[Hi (r & Hm & Ho & H)]].
  - cbn [fmax go_float]. rewrite (rel_lt_max w W T (cnt n) B1 HW HT B2 Es). right. apply Hnew; [exact Hrb|]. intros b rc Hb [Hx _]. rewrite (H b Hb) in Hx. discriminate.
  - assert (Hkeep: r <= rb -> In (s, sw) (ws ++ [(n, w)]) /\ exists r, isf m r /\ openw (s, sw) r /\ forall b rc, In b (ws ++ [(n, w)]) -> openw b rc -> r <= rc).
    { intros Hle. split; [apply in_or_app; now left|]. exists r. split; [exact Hm|]. split; [exact Ho|]. intros b rc Hb Hob. apply in_app_or in Hb. destruct Hb as [Hb|[<-|[]]]; [now apply (H b)|]. rewrite <- (isf_unique _ _ _ (proj2 Ob) (proj2 Hob)). exact Hle. }
    destruct (SFltb (rel w W T (cnt n)) m) eqn:Elt.
    + right. apply (ltb_R _ _ _ _ Hrb Hm) in Elt. apply Hnew; [exact Hrb|]. intros b rc Hb Hob. specialize (H b rc Hb Hob). lra.
    + assert (Elt': ~ rb < r) by (rewrite <- (ltb_R _ _ _ _ Hrb Hm); congruence).
      destruct (SFeqb m (rel w W T (cnt n))) eqn:Eeq; [|right; apply Hkeep; lra]. apply (eqb_R _ _ _ _ Hm Hrb) in Eeq.
      destruct (N.ltb sw w || N.eqb w sw && String.eqb s "")%bool; [|right; apply Hkeep; lra].
      right. apply Hnew; [rewrite <- Eeq; exact Hm|]. intros b rc Hb Hob. specialize (H b rc Hb Hob). lra.
Qed.
Lemma sel_spec : forall ws, Forall okw ws -> (exists e, In e ws /\ (W * cnt (fst e) < snd e * T)%N) ->
  let e := snd (fold_left (sel_visit (go_float pow) W T st) ws (fmax (go_float pow), (""%string, 0%N))) in
  In e ws /\ (0 < snd e)%N /\ (W * cnt (fst e) <= snd e * T)%N /\ forall b, In b ws -> (W * cnt (fst b) < snd b * T)%N -> (cnt (fst e) * snd b <= cnt (fst b) * snd e)%N.
Proof.
  intros ws Hok (e0 & Hi0 & H0). pose proof (sel_fold ws Hok) as G. destruct (fold_left (sel_visit (go_float pow) W T st) ws (fmax (go_float pow), (""%string, 0%N))) as [m e]. cbn [snd]. rewrite Forall_forall in Hok. destruct G as [[_ H]|[Hi (r & _ & Ho & H)]].
  - exfalso. destruct (Hok e0 Hi0) as [B1 B2]. specialize (H e0 Hi0). rewrite (below_not_skipped _ W T _ B1 HW HT B2 H0) in H. discriminate.
  - destruct (Hok e Hi) as [A1 A2]. destruct Ho as [Os Or]. destruct (not_skipped_le _ W T _ A1 HW HT A2 Os) as [N1 N2]. split; [exact Hi|]. split; [exact N2|]. split; [exact N1|].
    intros b Hb Hlt. destruct (Hok b Hb) as [B1 B2]. pose proof (below_not_skipped _ W T _ B1 HW HT B2 Hlt) as Es. destruct (rel_isf _ W T _ B1 HW HT B2 Es) as (M & rb & _ & _ & Hrb & _ & _).
    specialize (H b rb Hb (conj Es Hrb)). apply (rel_le (snd e) W T (cnt (fst e)) (snd b) (cnt (fst b))); try assumption. destruct (SFltb _ _) eqn:E; [|reflexivity]. apply (ltb_R _ _ _ _ Hrb Or) in E. lra.
Qed.
End Fold.
