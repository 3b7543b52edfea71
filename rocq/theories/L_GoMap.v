(* Lemmas on Go maps, string sets and sorting. *)
From Coq Require Import List String Bool Ascii Sorted Lia PeanoNat NArith.
From Verif Require Import M_GoMap.
Import ListNotations.

Section Map.
Context {V : Type}.
Implicit Types (m : gmap V) (k : string).

Lemma mget_mdel : forall k k' m, mget k (mdel k' m) = if String.eqb k k' then None else mget k m.
Proof.
  intros k k' m. unfold mdel. induction m as [|[a v] r IH]; cbn; [now destruct (String.eqb k k')|].
  destruct (String.eqb k' a) eqn:E; cbn.
  - rewrite IH. apply String.eqb_eq in E. subst a. destruct (String.eqb k k') eqn:E'; [reflexivity|]. reflexivity.
  - rewrite IH. destruct (String.eqb k k') eqn:E'; destruct (String.eqb k a) eqn:E2; try reflexivity.
    apply String.eqb_eq in E'. apply String.eqb_eq in E2. subst. rewrite String.eqb_refl in E. discriminate.
Qed.
Lemma mget_mset : forall k k' v m, mget k (mset k' v m) = if String.eqb k k' then Some v else mget k m.
Proof. intros. unfold mset. cbn [mget]. destruct (String.eqb k k') eqn:E; [reflexivity|]. rewrite mget_mdel, E. reflexivity. Qed.
Lemma mget_in : forall k v m, mget k m = Some v -> In (k, v) m.
Proof.
  induction m as [|[a w] r IH]; cbn; [discriminate|]. destruct (String.eqb k a) eqn:E; intros H.
  - injection H as ->. apply String.eqb_eq in E. subst. now left.
  - right. auto.
Qed.
Lemma mget_none : forall k m, mget k m = None <-> ~ In k (mkeys m).
Proof.
  unfold mkeys. induction m as [|[a w] r IH]; cbn; [tauto|]. destruct (String.eqb k a) eqn:E.
  - apply String.eqb_eq in E. subst. split; [discriminate|tauto].
  - apply String.eqb_neq in E. rewrite IH. intuition congruence.
Qed.
Lemma in_mget : forall k v m, NoDup (mkeys m) -> In (k, v) m -> mget k m = Some v.
Proof.
  unfold mkeys. induction m as [|[a w] r IH]; cbn; [tauto|]. intros Hn H. inversion Hn; subst. destruct H as [H|H].
  - injection H as -> ->. now rewrite String.eqb_refl.
  - destruct (String.eqb k a) eqn:E; [|auto]. apply String.eqb_eq in E. subst. exfalso. apply H2. now apply (in_map fst) in H.
Qed.
Lemma mkeys_mdel : forall k m x, In x (mkeys (mdel k m)) <-> In x (mkeys m) /\ x <> k.
Proof.
  unfold mkeys, mdel. induction m as [|[a w] r IH]; cbn; [tauto|]. intros x. destruct (String.eqb k a) eqn:E; cbn.
  - apply String.eqb_eq in E. subst. rewrite IH. intuition congruence.
  - apply String.eqb_neq in E. rewrite IH. intuition congruence.
Qed.
Lemma nodup_mdel : forall k m, NoDup (mkeys m) -> NoDup (mkeys (mdel k m)).
Proof.
  induction m as [|[a w] r IH]; cbn; intros H; [constructor|]. inversion H; subst. destruct (String.eqb k a); cbn; [auto|].
  constructor; [|auto]. intros Hc. apply (mkeys_mdel k r a) in Hc. tauto.
Qed.
Lemma nodup_mset : forall k v m, NoDup (mkeys m) -> NoDup (mkeys (mset k v m)).
Proof. intros. unfold mset, mkeys. cbn [map fst]. constructor; [|now apply nodup_mdel]. intros Hc. apply mkeys_mdel in Hc. tauto. Qed.
Lemma mget_mmerge : forall k add m, NoDup (mkeys add) -> mget k (mmerge add m) = match mget k add with Some v => Some v | None => mget k m end.
Proof.
  induction add as [|[a w] r IH]; cbn; intros m Hn; [reflexivity|]. inversion Hn; subst. unfold mmerge in *. cbn [fold_left fst snd].
  rewrite IH by assumption. rewrite mget_mset. destruct (String.eqb k a) eqn:E; [|reflexivity].
  apply String.eqb_eq in E. subst. destruct (mget a r) eqn:E2; [|reflexivity]. apply mget_in in E2. exfalso. apply H1. now apply (in_map fst) in E2.
Qed.
Lemma nodup_mmerge : forall add m, NoDup (mkeys m) -> NoDup (mkeys (mmerge add m)).
Proof. induction add as [|[a w] r IH]; cbn; intros m H; [assumption|]. apply IH. now apply nodup_mset. Qed.
Lemma mget_dels : forall k names m, mget k (fold_left (fun m n => mdel n m) names m) = if mem k names then None else mget k m.
Proof.
  induction names as [|n r IH]; cbn; intros m; [reflexivity|]. rewrite IH, mget_mdel. destruct (String.eqb k n) eqn:E; cbn; [now destruct (mem k r)|reflexivity].
Qed.
Lemma nodup_dels : forall names m, NoDup (mkeys m) -> NoDup (mkeys (fold_left (fun m n => mdel n m) names m)).
Proof. induction names as [|n r IH]; cbn; intros m H; [assumption|]. apply IH. now apply nodup_mdel. Qed.
End Map.

Lemma mem_in : forall x l, mem x l = true <-> In x l.
Proof.
  unfold mem. intros. rewrite existsb_exists. split.
  - intros (y & H & E). apply String.eqb_eq in E. now subst.
  - intros H. exists x. split; [assumption|apply String.eqb_refl].
Qed.
Lemma mem_false : forall x l, mem x l = false <-> ~ In x l.
Proof. intros. rewrite <- mem_in. destruct (mem x l); intuition congruence. Qed.

Lemma in_set_of : forall x l, In x (set_of l) <-> In x l.
Proof.
  induction l as [|y r IH]; cbn; [tauto|]. destruct (mem y r) eqn:E; cbn; rewrite IH; [|tauto].
  apply mem_in in E. split; [tauto|]. intros [<-|H]; assumption.
Qed.
Lemma nodup_set_of : forall l, NoDup (set_of l).
Proof.
  induction l as [|y r IH]; cbn; [constructor|]. destruct (mem y r) eqn:E; [assumption|]. constructor; [|assumption].
  rewrite in_set_of. now apply mem_false.
Qed.
Lemma in_sinsert : forall x y l, In x (sinsert y l) <-> x = y \/ In x l.
Proof. induction l as [|z r IH]; cbn; [intuition congruence|]. destruct (String.leb y z); cbn; rewrite ?IH; intuition congruence. Qed.
Lemma in_sort : forall x l, In x (sort_strings l) <-> In x l.
Proof. induction l as [|y r IH]; cbn; [tauto|]. rewrite in_sinsert, IH. intuition congruence. Qed.
Lemma nodup_sinsert : forall y l, ~ In y l -> NoDup l -> NoDup (sinsert y l).
Proof.
  induction l as [|z r IH]; cbn; intros H Hn; [repeat constructor; tauto|]. destruct (String.leb y z); [now constructor|].
  inversion Hn; subst. constructor; [rewrite in_sinsert; intuition congruence|]. apply IH; [tauto|assumption].
Qed.
Lemma nodup_sort : forall l, NoDup l -> NoDup (sort_strings l).
Proof. induction l as [|y r IH]; cbn; intros H; [constructor|]. inversion H; subst. apply nodup_sinsert; [now rewrite in_sort|auto]. Qed.

(* the order *)
Lemma acmp_refl : forall a, Ascii.compare a a = Eq.
Proof. intros. unfold Ascii.compare. apply N.compare_refl. Qed.
Lemma acmp_eq : forall a b, Ascii.compare a b = Eq -> a = b.
Proof. exact Ascii.compare_eq_iff. Qed.
Lemma acmp_lt_trans : forall a b c, Ascii.compare a b = Lt -> Ascii.compare b c = Lt -> Ascii.compare a c = Lt.
Proof. unfold Ascii.compare. intros a b c. rewrite !N.compare_lt_iff. lia. Qed.
Lemma scmp_refl : forall s, String.compare s s = Eq.
Proof. induction s; cbn; [reflexivity|]. now rewrite acmp_refl. Qed.
Lemma scmp_lt_trans : forall a b c, String.compare a b = Lt -> String.compare b c = Lt -> String.compare a c = Lt.
Proof.
  induction a as [|x a IH]; intros [|y b] [|z c]; cbn; try congruence.
  destruct (Ascii.compare x y) eqn:E1; try discriminate; destruct (Ascii.compare y z) eqn:E2; try discriminate; intros H1 H2.
  - apply acmp_eq in E1. subst y. rewrite E2. eauto.
  - apply acmp_eq in E1. subst y. now rewrite E2.
  - apply acmp_eq in E2. subst z. now rewrite E1.
  - now rewrite (acmp_lt_trans _ _ _ E1 E2).
Qed.
Definition slt (a b : string) := String.compare a b = Lt.
Lemma leb_lt : forall a b, a <> b -> String.leb a b = true -> slt a b.
Proof. unfold String.leb, slt. intros a b Hn. destruct (String.compare a b) eqn:E; try discriminate; [|reflexivity]. intros _. exfalso. apply Hn. now apply String.compare_eq_iff. Qed.
Lemma leb_gt : forall a b, String.leb a b = false -> slt b a.
Proof. unfold String.leb, slt. intros a b. rewrite (String.compare_antisym b a). destruct (String.compare a b); cbn; congruence. Qed.
Lemma ssorted_sinsert : forall y l, ~ In y l -> StronglySorted slt l -> StronglySorted slt (sinsert y l).
Proof.
  induction l as [|z r IH]; cbn; intros Hy Hs; [repeat constructor|]. inversion Hs; subst. destruct (String.leb y z) eqn:E.
  - constructor; [assumption|]. assert (slt y z) by (apply leb_lt; [intuition congruence|assumption]). constructor; [assumption|].
    eapply Forall_impl; [|exact H2]. intros a Ha. unfold slt in *. eapply scmp_lt_trans; eassumption.
  - constructor; [apply IH; tauto|]. rewrite Forall_forall in *. intros a Ha. apply in_sinsert in Ha. destruct Ha as [->|Ha]; [now apply leb_gt|auto].
Qed.
Lemma ssorted_sort : forall l, NoDup l -> StronglySorted slt (sort_strings l).
Proof. induction l as [|y r IH]; cbn; intros H; [constructor|]. inversion H; subst. apply ssorted_sinsert; [now rewrite in_sort|auto]. Qed.
Lemma slt_irrefl : forall a, ~ slt a a.
Proof. unfold slt. intros a. now rewrite scmp_refl. Qed.
Lemma ssorted_ext : forall a b, StronglySorted slt a -> StronglySorted slt b -> (forall x, In x a <-> In x b) -> a = b.
Proof.
  induction a as [|x a IH]; intros [|y b] Ha Hb H.
  - reflexivity.
  - exfalso. apply (H y). now left.
  - exfalso. apply (H x). now left.
  - inversion Ha; inversion Hb; subst. rewrite Forall_forall in *.
    assert (x = y).
    { destruct (proj1 (H x) (or_introl eq_refl)) as [->|Hx]; [reflexivity|]. destruct (proj2 (H y) (or_introl eq_refl)) as [->|Hy]; [reflexivity|].
      exfalso. apply (slt_irrefl x). eapply scmp_lt_trans; [apply H3, Hy|apply H7, Hx]. }
    subst y. f_equal. apply IH; try assumption. intros z. split; intros Hz.
    + destruct (proj1 (H z) (or_intror Hz)) as [<-|]; [|assumption]. exfalso. apply (slt_irrefl x), H3, Hz.
    + destruct (proj2 (H z) (or_intror Hz)) as [<-|]; [|assumption]. exfalso. apply (slt_irrefl x), H7, Hz.
Qed.
Lemma sorted_sets_eq : forall a b, NoDup a -> NoDup b -> sort_strings a = sort_strings b <-> (forall x, In x a <-> In x b).
Proof.
  intros a b Ha Hb. split.
  - intros E x. rewrite <- (in_sort x a), <- (in_sort x b), E. tauto.
  - intros H. apply ssorted_ext; try (now apply ssorted_sort). intros x. now rewrite !in_sort.
Qed.
