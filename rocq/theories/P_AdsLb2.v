(* C28: least request: which endpoints are sampled, and when the weighted variant is used instead *)
From Coq Require Import List String Bool NArith ZArith QArith Lia Permutation.
From Verif Require Import M_GoMap L_GoMap M_AdsLb L_AdsLb P_AdsLb.
Import ListNotations.
Close Scope Q_scope.
Open Scope nat_scope.
Open Scope string_scope.
Open Scope list_scope.
Lemma lswap_len : forall l i j, List.length (lswap l i j) = List.length l.
Proof. intros. apply Permutation_length, lswap_perm. Qed.
Lemma lswap_at : forall l i j a, i < List.length l -> j < List.length l -> nth_error l i = Some a -> nth_error (lswap l i j) j = Some a.
Proof.
  intros l i j a Hi Hj H. unfold lswap. rewrite H. destruct (nth_error l j) as [b|] eqn:E; [| apply nth_error_None in E; lia ].
  rewrite lupd_nth, Nat.eqb_refl. rewrite lupd_nth. destruct (Nat.eqb i j); rewrite E; reflexivity.
Qed.
Lemma lswap_other : forall l i j k, k <> i -> k <> j -> nth_error (lswap l i j) k = nth_error l k.
Proof.
  intros l i j k A B. unfold lswap. destruct (nth_error l i); [| reflexivity ]. destruct (nth_error l j); [| reflexivity ].
  rewrite lupd_nth. replace (Nat.eqb j k) with false by (symmetry; apply Nat.eqb_neq; lia). rewrite lupd_nth. replace (Nat.eqb i k) with false by (symmetry; apply Nat.eqb_neq; lia). reflexivity.
Qed.
Lemma nth_error_skipn : forall A n (l : list A) k, nth_error (skipn n l) k = nth_error l (n + k).
Proof. intros A. induction n as [|n IH]; intros [|x l] k; cbn; try reflexivity; [ destruct k; reflexivity | apply IH ]. Qed.
(* the entries already drawn are not moved again *)
Lemma pick_keeps : forall draw n l i k, i + n <= List.length l -> List.length l - i <= k -> forall l', p2c_pick draw l i n = Some l' -> nth_error l' k = nth_error l k.
Proof.
  intros draw n. induction n as [|n IH]; intros l i k H K l' E; [ cbn in E; injection E as <-; reflexivity |].
  cbn [p2c_pick] in E. destruct (List.length l - i) as [|m] eqn:M; [ lia |]. rewrite <- M in E, K.
  pose proof (Nat.mod_upper_bound (draw i) (List.length l - i) ltac:(lia)) as B.
  rewrite (fun a b => IH _ (S i) k a b l' E); [| rewrite lswap_len; lia | rewrite lswap_len; lia ].
  apply lswap_other; lia.
Qed.
(* the i-th draw is sampled: for every step of the sampling the endpoint drawn at that step is among the candidates. Stated
   for the first draw, which is taken from the sorted list: the chosen endpoint has at most as many active requests *)
Lemma pick_first : forall draw n l l', 1 <= n <= List.length l -> p2c_pick draw l 0 n = Some l' ->
  nth_error l' (List.length l - 1) = nth_error l (Nat.modulo (draw 0) (List.length l)).
Proof.
  intros draw n l l' H E. destruct n as [|n]; [ lia |]. cbn [p2c_pick] in E. destruct (List.length l - 0) as [|m] eqn:M; [ lia |]. rewrite <- M in E. rewrite Nat.sub_0_r in E.
  pose proof (Nat.mod_upper_bound (draw 0) (List.length l) ltac:(lia)) as B.
  destruct (nth_error l (draw 0 mod List.length l)) as [a|] eqn:A; [| apply nth_error_None in A; lia ].
  rewrite (fun a b => pick_keeps draw n _ 1 (List.length l - 1) a b l' E); [| rewrite lswap_len; lia | rewrite lswap_len; lia ].
  apply lswap_at; try lia. exact A.
Qed.
Theorem C28_least_request_first_draw : forall draw choice es st, 2 <= List.length es -> 1 <= choice <= List.length es ->
  exists a b, p2c_next draw choice es st = Picked (Some a) /\ nth_error (sort_addrs es) (Nat.modulo (draw 0) (List.length es)) = Some b /\ (active_count st a <= active_count st b)%N /\
    (choice = 1 -> a = b).
Proof.
  intros draw choice es st L C. destruct es as [|x [|y es]]; [ cbn in L; lia | cbn in L; lia |]. unfold p2c_next. set (l := x :: y :: es) in *.
  assert (Hl: List.length (sort_addrs l) = List.length l) by apply Permutation_length, sort_addrs_perm.
  destruct (p2c_pick_spec draw choice (sort_addrs l) 0) as (l' & E & P); [ lia |]. rewrite E.
  pose proof (Permutation_length P) as PL.
  pose proof (pick_first draw choice (sort_addrs l) l' ltac:(lia) E) as F.
  pose proof (Nat.mod_upper_bound (draw 0) (List.length l) ltac:(lia)) as B.
  rewrite Hl in F. destruct (nth_error (sort_addrs l) (draw 0 mod List.length l)) as [b|] eqn:NB; [| apply nth_error_None in NB; lia ].
  pose proof (p2c_best_spec st (skipn (List.length l' - choice) l')) as Hb.
  assert (In b (skipn (List.length l' - choice) l')) as IB.
  { assert (nth_error (skipn (List.length l' - choice) l') (choice - 1) = Some b) as Q; [| apply nth_error_In in Q; exact Q ].
    rewrite <- F. rewrite nth_error_skipn. f_equal. lia. }
  destruct (p2c_best st (skipn (List.length l' - choice) l')) as [a|]; [| rewrite Hb in IB; destruct IB ].
  exists a, b. split; [ reflexivity |]. split; [ reflexivity |]. destruct Hb as [Ha Hm]. split; [ apply Hm; exact IB |]. intros ->.
  assert (List.length (skipn (List.length l' - 1) l') = 1) as L1 by (rewrite skipn_length; lia). destruct (skipn (List.length l' - 1) l') as [|z [|]]; cbn in L1; try lia. destruct IB as [->|[]]. destruct Ha as [->|[]]. reflexivity.
Qed.
Print Assumptions C28_least_request_first_draw.
(* every endpoint can be chosen *)
Theorem C28_least_request_every_endpoint : forall es st a, 2 <= List.length es -> In a es -> exists draw, p2c_next draw 1 es st = Picked (Some a).
Proof.
  intros es st a L I. assert (In a (sort_addrs es)) as I' by (eapply Permutation_in; [ apply Permutation_sym, sort_addrs_perm | exact I ]).
  destruct (In_nth_error _ _ I') as (k & K). assert (k < List.length es) as KL. { assert (k < List.length (sort_addrs es)) by (apply nth_error_Some; congruence). rewrite (Permutation_length (sort_addrs_perm es)) in H. exact H. }
  exists (fun _ => k). destruct (C28_least_request_first_draw (fun _ => k) 1 es st L ltac:(lia)) as (x & b & E & N & _ & Q). rewrite E. rewrite (Q eq_refl) in *. rewrite Nat.mod_small in N by exact KL. congruence.
Qed.
Print Assumptions C28_least_request_every_endpoint.
(* least request compares plain request counts exactly when, within each priority, all localities have the same weight and
   the same number of endpoints, and the endpoints of a locality the same weight *)
Lemma in_ninsert : forall x y l, In x (ninsert y l) <-> x = y \/ In x l.
Proof.
  intros x y l. induction l as [|z l IH]; cbn; [ intuition congruence |]. destruct (N.eqb y z) eqn:E; [ apply N.eqb_eq in E; subst; cbn; intuition congruence |].
  destruct (N.ltb y z); cbn; [ intuition congruence |]. rewrite IH. intuition congruence.
Qed.
Lemma in_priorities : forall ls p, In p (priorities ls) <-> exists l, In l ls /\ lo_prio l = p.
Proof.
  intros ls p. unfold priorities. induction ls as [|l ls IH]; cbn; [ split; [ tauto | intros (? & [] & _) ] |]. rewrite in_ninsert, IH. split.
  - intros [->|(m & A & B)]; [ exists l; auto | exists m; auto ].
  - intros (m & [<-|A] & B); [ left; auto | right; exists m; auto ].
Qed.
Lemma all_eq_spec : forall {X} (f : X -> N) l, all_eq (map f l) = true <-> forall a b, In a l -> In b l -> f a = f b.
Proof.
  intros X f [|x l]; cbn; [ split; [ tauto | reflexivity ] |]. rewrite forallb_forall. split.
  - intros H a b A B. assert (forall c, In c (x :: l) -> f c = f x) as Q. { intros c [<-|C]; [ reflexivity |]. symmetry. apply N.eqb_eq, H, in_map, C. } rewrite (Q a A), (Q b B). reflexivity.
  - intros H y Y. apply in_map_iff in Y. destruct Y as (c & <- & C). apply N.eqb_eq. apply H; auto.
Qed.
Theorem C28_plain_least_request_iff : forall ls, 2 <= List.length ls -> (weights_equal ls = true <->
  forall l m, In l ls -> In m ls -> lo_prio l = lo_prio m ->
    weight_of (lo_weight l) = weight_of (lo_weight m) /\ List.length (lo_eps l) = List.length (lo_eps m) /\
    forall e f, In e (lo_eps l) -> In f (lo_eps l) -> weight_of (e_weight e) = weight_of (e_weight f)).
Proof.
  intros ls L. destruct ls as [|l0 [|l1 ls]]; [ cbn in L; lia | cbn in L; lia |]. unfold weights_equal. set (ll := l0 :: l1 :: ls) in *. rewrite forallb_forall. split.
  - intros H l m Il Im P. specialize (H (lo_prio l)). rewrite !andb_true_iff in H. destruct H as [[A B] C]; [ apply in_priorities; exists l; auto |].
    pose proof (proj1 (all_eq_spec _ _) A) as A1. pose proof (proj1 (all_eq_spec _ _) B) as B1. rewrite forallb_forall in C.
    assert (forall x, In x ll -> lo_prio x = lo_prio l -> In x (filter (fun l2 => N.eqb (lo_prio l2) (lo_prio l)) ll)) as FI by (intros x X Y; apply filter_In; split; [ exact X | apply N.eqb_eq; exact Y ]).
    split; [ apply A1; apply FI; auto |]. split; [ apply Nat2N.inj; apply B1; apply FI; auto |].
    intros e f Ie If. pose proof (proj1 (all_eq_spec _ _) (C l (FI l Il eq_refl))) as C1. apply C1; assumption.
  - intros H p Ip. rewrite !andb_true_iff. split; [ split |].
    + apply all_eq_spec. intros a b Ia Ib. apply filter_In in Ia. apply filter_In in Ib. destruct Ia as [Ia Pa], Ib as [Ib Pb]. apply N.eqb_eq in Pa. apply N.eqb_eq in Pb. apply H; auto; congruence.
    + apply all_eq_spec. intros a b Ia Ib. apply filter_In in Ia. apply filter_In in Ib. destruct Ia as [Ia Pa], Ib as [Ib Pb]. apply N.eqb_eq in Pa. apply N.eqb_eq in Pb. f_equal. apply H; auto; congruence.
    + rewrite forallb_forall. intros a Ia. apply filter_In in Ia. destruct Ia as [Ia _]. apply all_eq_spec. intros e f Ie If. apply (H a a Ia Ia eq_refl); assumption.
Qed.
Print Assumptions C28_plain_least_request_iff.
