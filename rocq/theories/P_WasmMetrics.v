(* C47: the metrics WASM plugins define and update. *)
From Coq Require Import List Arith ZArith Bool Lia.
From Verif Require Import M_WasmMetrics.
Import ListNotations.
Open Scope list_scope.
(* Reading a history: the owner of an id is the name and label set of the first definition that returned it; total is what
   was successfully added through ids owned by a name and label set. *)
Fixpoint owner (tr : list mev) (id : Z) : option (nat * labels) :=
  match tr with [] => None | EDefine _ n l i :: r => if (i =? id)%Z then Some (n, l) else owner r id | _ :: r => owner r id end.
Definition pair_eq_dec : forall a b : nat * labels, {a = b} + {a <> b}.
Proof. repeat decide equality. Defined.
Definition added (full : list mev) (n : nat) (l : labels) (e : mev) : Z :=
  match e with EAdd id v MOk => match owner full id with Some p => if pair_eq_dec p (n, l) then v else 0%Z | None => 0%Z end | _ => 0%Z end.
Definition total (tr : list mev) (n : nat) (l : labels) : Z := fold_right Z.add 0%Z (map (added tr n l) tr).
Definition is_define (o : mop) : bool := match o with ODefine _ _ _ => true | _ => false end.
Definition defines (ops : list mop) : Z := Z.of_nat (length (List.filter is_define ops)).
(* ---------- invariant ---------- *)
Record inv (tr : list mev) (h : handler) : Prop := mkinv {
  i_lat : (0 <= h_latest h)%Z;
  i_id : forall id m, h_byid h id = Some m -> m_id m = id /\ (0 < id <= h_latest h)%Z /\ vc_name (m_vec m) = m_name m /\ owner tr id = Some (m_name m, m_labels m);
  i_name : forall n m, h_byname h n = Some m -> m_name m = n /\ h_byid h (m_id m) = Some m;
  i_own : forall id p, (0 < id)%Z -> owner tr id = Some p -> (id <= h_latest h)%Z;
  i_def : forall ty n l id, In (EDefine ty n l id) tr -> (0 < id)%Z -> owner tr id = Some (n, l);
  i_add : forall id v, In (EAdd id v MOk) tr -> (0 < id)%Z /\ owner tr id <> None;
  i_val : forall n l, h_vals h n l = total tr n l }.
Lemma owner_app : forall tr tr' id, owner (tr ++ tr') id = match owner tr id with Some p => Some p | None => owner tr' id end.
Proof. induction tr as [|[ty n l i|id v r|id] tr IH]; intros tr' j; cbn; auto. destruct (i =? j)%Z; auto. Qed.
Lemma total_app : forall tr e n l, (forall id v, In (EAdd id v MOk) tr -> owner tr id <> None) -> total (tr ++ [e]) n l = (total tr n l + added (tr ++ [e]) n l e)%Z.
Proof.
  intros tr e n l H. unfold total. rewrite map_app, fold_right_app. cbn [map fold_right]. rewrite Z.add_0_r.
  assert (M: map (added (tr ++ [e]) n l) tr = map (added tr n l) tr). { apply map_ext_in. intros x Hx. destruct x as [|id v [| |]|]; try reflexivity. cbn [added]. rewrite owner_app. pose proof (H id v Hx). destruct (owner tr id); [reflexivity|congruence]. }
  rewrite M. generalize (map (added tr n l) tr). intros zs. induction zs as [|z zs IH]; cbn; lia.
Qed.
Lemma inv_new : forall taken, inv [] (new_handler taken).
Proof. intros taken. split; cbn; try discriminate; try lia; try contradiction; reflexivity. Qed.
Lemma i32_small : forall z, (- 2 ^ 31 <= z < 2 ^ 31)%Z -> i32 z = z.
Proof. intros z H. unfold i32. rewrite Z.mod_small by lia. lia. Qed.
(* events that change neither ids nor values *)
Lemma inv_silent : forall tr h e, inv tr h -> (forall ty n l id, e = EDefine ty n l id -> (0 < id)%Z -> owner tr id = Some (n, l)) -> (forall id v, e <> EAdd id v MOk) -> inv (tr ++ [e]) h.
Proof.
  intros tr h e I Hd Ha. assert (O: forall id, (0 < id)%Z -> owner (tr ++ [e]) id = owner tr id). { intros id Hid. rewrite owner_app. destruct (owner tr id) eqn:Eo; [reflexivity|]. destruct e as [ty n l i|i v r|i]; try reflexivity. cbn. destruct (Z.eqb_spec i id) as [->|]; [|reflexivity]. specialize (Hd _ _ _ _ eq_refl Hid). congruence. }
  destruct I as [I1 I2 I3 I4 I5 I6 I7]. split; auto.
  - intros id m Hm. destruct (I2 id m Hm) as (A & B & C & D). rewrite O by lia. auto.
  - intros id p Hid Ho. rewrite O in Ho by assumption. eauto.
  - intros ty n l id Hin Hid. rewrite O by assumption. apply in_app_iff in Hin. destruct Hin as [Hin|[Hin|[]]]; eauto.
  - intros id v Hin. apply in_app_iff in Hin. destruct Hin as [Hin|[Hin|[]]]; [|now apply Ha in Hin]. destruct (I6 _ _ Hin) as (A & B). rewrite O by assumption. auto.
  - intros n l. rewrite total_app by (intros id v Hin; now apply (I6 id v)). rewrite I7. assert (Z0: added (tr ++ [e]) n l e = 0%Z) by (destruct e as [|id v [| |]|]; try reflexivity; now destruct (Ha id v)). lia.
Qed.
Lemma inv_add_metric : forall tr h n v l ty id h', inv tr h -> (h_latest h + 1 < 2 ^ 31)%Z -> vc_name v = n -> add_metric n v l h = (id, h') -> inv (tr ++ [EDefine ty n l id]) h' /\ (0 < id)%Z /\ h_latest h' = (h_latest h + 1)%Z.
Proof.
  intros tr h n v l ty id h' [I1 I2 I3 I4 I5 I6 I7] Hl Hv H. unfold add_metric in H. rewrite i32_small in H by lia. injection H as <- <-. set (id := (h_latest h + 1)%Z). assert (Hid: (0 < id)%Z) by (unfold id; lia).
  assert (On: owner tr id = None). { destruct (owner tr id) eqn:E; [|reflexivity]. apply I4 in E; [unfold id in E; lia|assumption]. }
  assert (O: forall i, owner (tr ++ [EDefine ty n l id]) i = if (i =? id)%Z then Some (n, l) else owner tr i). { intros i. rewrite owner_app. cbn. rewrite (Z.eqb_sym id i). destruct (Z.eqb_spec i id) as [->|]; [now rewrite On|]. destruct (owner tr i); reflexivity. }
  split; [|split; [assumption|reflexivity]]. split; cbn [h_latest h_byid h_byname h_vals].
  - unfold id; lia.
  - intros i m. rewrite O. destruct (Z.eqb_spec i id) as [->|Hn]; [intros E; injection E as <-; cbn; repeat split; auto; lia|]. intros E. destruct (I2 i m E) as (A & B & C & D). repeat split; auto; unfold id in *; lia.
  - intros k m. destruct (Nat.eqb_spec k n) as [->|Hn]; [intros E; injection E as <-; cbn; rewrite Z.eqb_refl; auto|]. intros E. destruct (I3 k m E) as (A & B). split; [assumption|]. destruct (Z.eqb_spec (m_id m) id) as [C|]; [|assumption]. exfalso. destruct (I2 _ _ B) as (_ & X & _). unfold id in C. lia.
  - intros i p Hi. rewrite O. destruct (Z.eqb_spec i id) as [->|Hn]; [lia|]. intros E. apply I4 in E; [unfold id; lia|assumption].
  - intros ty' n' l' i Hin Hi. rewrite O. apply in_app_iff in Hin. destruct Hin as [Hin|[Hin|[]]].
    + pose proof (I5 _ _ _ _ Hin Hi) as E. destruct (Z.eqb_spec i id) as [->|]; [congruence|assumption].
    + injection Hin as <- <- <- <-. now rewrite Z.eqb_refl.
  - intros i v0 Hin. apply in_app_iff in Hin. destruct Hin as [Hin|[Hin|[]]]; [|discriminate]. destruct (I6 _ _ Hin) as (A & B). split; [assumption|]. rewrite O. destruct (i =? id)%Z; [discriminate|assumption].
  - intros n' l'. rewrite total_app by (intros i v0 Hin; now apply (I6 i v0)). rewrite I7. cbn. lia.
Qed.
Lemma inv_add : forall valid tr h n v l ty id h', inv tr h -> (h_latest h + 1 < 2 ^ 31)%Z -> vc_name v = n -> add valid n v l h = (id, h') -> inv (tr ++ [EDefine ty n l id]) h' /\ (h_latest h' <= h_latest h + 1)%Z.
Proof.
  intros valid tr h n v l ty id h' I Hl Hv H. unfold add in H. destruct (h_byname h n) as [e|] eqn:En.
  - destruct (i_name _ _ I _ _ En) as (A & B). destruct (i_id _ _ I _ _ B) as (_ & B2 & B3 & B4). destruct (labels_eq_dec (m_labels e) l) as [El|El].
    + injection H as <- <-. split; [|lia]. apply inv_silent; [assumption| |discriminate]. intros ty' n' l' i E Hi. injection E as <- <- <- <-. rewrite B4, A, El. reflexivity.
    + rewrite A in *. destruct (inv_add_metric _ _ _ _ _ ty _ _ I Hl B3 H) as (J & _ & L). split; [assumption|lia].
  - destruct (valid n && _).
    + set (h0 := mkh (h_byid h) (h_byname h) (h_latest h) (n :: h_registry h) (h_vals h)) in *. assert (I0: inv tr h0) by (destruct I; split; assumption). destruct (inv_add_metric _ _ _ _ _ ty _ _ I0 Hl Hv H) as (J & _ & L). split; [assumption|]. rewrite L. cbn. lia.
    + injection H as <- <-. split; [|lia]. apply inv_silent; [assumption| |discriminate]. intros ty' n' l' i E Hi. injection E as <- <- <- <-. lia.
Qed.
Lemma inv_define : forall valid tr h n l ty id h', inv tr h -> (h_latest h + 1 < 2 ^ 31)%Z -> define valid ty n l h = (id, h') -> inv (tr ++ [EDefine ty n l id]) h' /\ (h_latest h' <= h_latest h + 1)%Z.
Proof.
  intros valid tr h n l ty id h' I Hl H. assert (Z0: (id, h') = (0%Z, h) -> inv (tr ++ [EDefine ty n l id]) h' /\ (h_latest h' <= h_latest h + 1)%Z).
  { intros E. injection E as -> ->. split; [|lia]. apply inv_silent; [assumption| |discriminate]. intros ty' n' l' i E Hi. injection E as <- <- <- <-. lia. }
  unfold define in H. destruct ty as [|[[p|p|]|[p|p|]|]|p]; try (apply Z0; congruence); (eapply inv_add; [exact I|exact Hl| |exact H]; reflexivity).
Qed.
Lemma inv_value : forall tr h id v r h', inv tr h -> add_value id v h = (r, h') -> inv (tr ++ [EAdd id v r]) h' /\ h_latest h' = h_latest h.
Proof.
  intros tr h id v r h' I H. unfold add_value in H. assert (S0: r <> MOk -> h' = h -> inv (tr ++ [EAdd id v r]) h' /\ h_latest h' = h_latest h). { intros Hr ->. split; [|reflexivity]. apply inv_silent; [assumption|discriminate|congruence]. }
  destruct (h_byid h id) as [m|] eqn:E; [|injection H as <- <-; apply S0; [discriminate|reflexivity]].
  destruct (i_id _ _ I _ _ E) as (A & B & C & D).
  assert (S1: r = MOk -> h' = bump (vc_name (m_vec m)) (m_labels m) v h -> inv (tr ++ [EAdd id v r]) h' /\ h_latest h' = h_latest h).
  { intros -> ->. split; [|reflexivity]. rewrite C. destruct I as [I1 I2 I3 I4 I5 I6 I7].
    assert (O: forall i, owner (tr ++ [EAdd id v MOk]) i = owner tr i) by (intros i; rewrite owner_app; destruct (owner tr i); reflexivity).
    split; cbn [h_latest h_byid h_byname h_vals bump]; auto.
    - intros i m0 E0. rewrite O. auto.
    - intros i p Hi. rewrite O. eauto.
    - intros ty n l i Hin Hi. rewrite O. apply in_app_iff in Hin. destruct Hin as [Hin|[Hin|[]]]; [eauto|discriminate].
    - intros i v0 Hin. rewrite O. apply in_app_iff in Hin. destruct Hin as [Hin|[Hin|[]]]; [eauto|]. injection Hin as <- <-. split; [lia|congruence].
    - intros n l. rewrite total_app by (intros i v0 Hin; now apply (I6 i v0)). cbn [added]. rewrite O, D, <- I7. destruct (pair_eq_dec (m_name m, m_labels m) (n, l)) as [Ep|Ep].
      + injection Ep as <- <-. rewrite Nat.eqb_refl. destruct (labels_eq_dec (m_labels m) (m_labels m)); [reflexivity|congruence].
      + destruct (Nat.eqb_spec n (m_name m)) as [->|]; [|lia]. destruct (labels_eq_dec l (m_labels m)) as [->|]; [congruence|lia]. }
  destruct (list_eq_dec _ _ _); [|injection H as <- <-; apply S0; [discriminate|reflexivity]]. destruct (vc_kind (m_vec m)); [destruct (v <? 0)%Z| |]; injection H as <- <-; (apply S1; reflexivity) || (apply S0; [discriminate|reflexivity]).
Qed.
Lemma inv_remove : forall tr h id, inv tr h -> inv (tr ++ [ERemove id]) (remove_metric id h) /\ h_latest (remove_metric id h) = h_latest h.
Proof.
  intros tr h id I. assert (J: inv tr (remove_metric id h)). { unfold remove_metric. destruct (h_byid h id) as [m|] eqn:E; [|assumption]. destruct I as [I1 I2 I3 I4 I5 I6 I7]. split; cbn [h_latest h_byid h_byname h_vals]; auto.
    - intros i m0 E0. destruct (Z.eqb_spec i id); [discriminate|]. auto.
    - intros n m0 E0. destruct (Nat.eqb_spec n (m_name m)) as [|Hn]; [discriminate|]. destruct (I3 _ _ E0) as (A & B). split; [assumption|]. destruct (Z.eqb_spec (m_id m0) id) as [Ei|]; [|assumption]. rewrite Ei, E in B. injection B as <-. congruence. }
  split; [apply inv_silent; [assumption|discriminate|discriminate]|]. unfold remove_metric. destruct (h_byid h id); reflexivity.
Qed.
Lemma inv_run : forall valid ops tr h es h', mrun valid ops h = (es, h') -> inv tr h -> (h_latest h + defines ops < 2 ^ 31)%Z -> inv (tr ++ es) h' /\ (h_latest h' <= h_latest h + defines ops)%Z.
Proof.
  induction ops as [|o ops IH]; intros tr h es h' H I Hl; cbn [mrun] in H; [injection H as <- <-; rewrite app_nil_r; unfold defines in *; cbn in *; split; [assumption|lia]|].
  destruct (mstep valid o h) as [e h1] eqn:Es. destruct (mrun valid ops h1) as [es1 h2] eqn:Er. injection H as <- <-.
  assert (St: inv (tr ++ [e]) h1 /\ (h_latest h1 + defines ops <= h_latest h + defines (o :: ops))%Z).
  { unfold defines in *. destruct o as [ty n l|id v|id v|id]; cbn [mstep List.filter is_define] in *.
    - destruct (define valid ty n l h) as [id h0] eqn:E. injection Es as <- <-. cbn [length] in *. destruct (inv_define _ _ _ _ _ _ _ _ I ltac:(lia) E). split; [assumption|lia].
    - destruct (record_metric id v h) as [r h0] eqn:E. injection Es as <- <-. destruct (inv_value _ _ _ _ _ _ I E). split; [assumption|lia].
    - destruct (increment_metric id v h) as [r h0] eqn:E. injection Es as <- <-. destruct (inv_value _ _ _ _ _ _ I E). split; [assumption|lia].
    - injection Es as <- <-. destruct (inv_remove _ _ id I). split; [assumption|lia]. }
  destruct St as (J & L). destruct (IH _ _ _ _ Er J ltac:(lia)) as (K1 & K2). rewrite <- app_assoc in K1. split; [exact K1|lia].
Qed.
(* ---------- theorems ---------- *)
(* Distinct (name, labels) never share an id: two definitions in one history that returned the same (positive) id had the
   same name and labels. *)
Theorem C47_ids_distinct : forall valid taken ops es h ty1 n1 l1 ty2 n2 l2 id, mrun valid ops (new_handler taken) = (es, h) -> (defines ops < 2 ^ 31)%Z ->
  In (EDefine ty1 n1 l1 id) es -> In (EDefine ty2 n2 l2 id) es -> (0 < id)%Z -> n1 = n2 /\ l1 = l2.
Proof.
  intros valid taken ops es h ty1 n1 l1 ty2 n2 l2 id H Hd H1 H2 Hid. destruct (inv_run _ _ _ _ _ _ H (inv_new taken) Hd) as (I & _). cbn [app] in I. pose proof (i_def _ _ I _ _ _ _ H1 Hid). pose proof (i_def _ _ I _ _ _ _ H2 Hid). split; congruence.
Qed.
Print Assumptions C47_ids_distinct.
(* The value exported for a name and label set is the sum of everything successfully added through any of its ids; nothing
   is added to another metric. *)
Theorem C47_value_is_total : forall valid taken ops es h n l, mrun valid ops (new_handler taken) = (es, h) -> (defines ops < 2 ^ 31)%Z -> h_vals h n l = total es n l.
Proof. intros valid taken ops es h n l H Hd. destruct (inv_run _ _ _ _ _ _ H (inv_new taken) Hd) as (I & _). apply (i_val _ _ I). Qed.
Print Assumptions C47_value_is_total.
Definition known (ty : Z) : Prop := (0 <= ty <= 2)%Z.
Lemma define_known : forall valid ty n l h, known ty -> exists k, define valid ty n l h = add valid n (mkvec k n (map fst l)) l h.
Proof. intros valid ty n l h Hk. assert (C: (ty = 0 \/ ty = 1 \/ ty = 2)%Z) by (unfold known in Hk; lia). destruct C as [->|[->| ->]]; cbn; eexists; reflexivity. Qed.
(* operations that do not define the name with other labels, and remove nothing *)
Definition harmless (n : nat) (l : labels) (o : mop) : Prop := match o with ODefine _ n' l' => n' = n -> l' = l | ORemove _ => False | _ => True end.
Lemma byname_kept : forall valid o tr h e h' n l m, mstep valid o h = (e, h') -> inv tr h -> harmless n l o -> h_byname h n = Some m -> m_labels m = l -> h_byname h' n = Some m.
Proof.
  intros valid o tr h e h' n l m Hs I Hh Hn Hl. destruct o as [ty n' l'|id v|id v|id]; cbn [mstep harmless] in *; [| | |contradiction].
  - destruct (define valid ty n' l' h) as [id h0] eqn:E. injection Hs as <- <-. assert (A: forall k id h0, add valid n' (mkvec k n' (map fst l')) l' h = (id, h0) -> h_byname h0 n = Some m).
    { clear E. intros k id0 h1 E. unfold add in E. destruct (h_byname h n') as [e|] eqn:En.
      - destruct (labels_eq_dec (m_labels e) l') as [El|El]; [injection E as <- <-; assumption|]. destruct (i_name _ _ I _ _ En) as (A & _). unfold add_metric in E. injection E as <- <-. cbn [h_byname]. destruct (Nat.eqb_spec n (m_name e)) as [->|]; [|assumption]. exfalso. rewrite A in *. rewrite En in Hn. injection Hn as ->. apply El. rewrite Hl. symmetry. now apply Hh.
      - destruct (valid n' && _); [|injection E as <- <-; assumption]. unfold add_metric in E. injection E as <- <-. cbn [h_byname]. destruct (Nat.eqb_spec n n') as [->|]; [congruence|assumption]. }
    unfold define in E. destruct ty as [|[[p|p|]|[p|p|]|]|p]; try (injection E as <- <-; assumption); eapply A; exact E.
  - unfold record_metric, add_value in Hs. destruct (h_byid h id) as [m0|]; [|injection Hs as <- <-; assumption]. destruct (list_eq_dec _ _ _); [|injection Hs as <- <-; assumption]. destruct (vc_kind (m_vec m0)); [destruct (v <? 0)%Z| |]; injection Hs as <- <-; assumption.
  - unfold increment_metric, add_value in Hs. destruct (h_byid h id) as [m0|]; [|injection Hs as <- <-; assumption]. destruct (list_eq_dec _ _ _); [|injection Hs as <- <-; assumption]. destruct (vc_kind (m_vec m0)); [destruct (v <? 0)%Z| |]; injection Hs as <- <-; assumption.
Qed.
(* Defining a metric again with the same name and labels yields the same id, as long as nothing was removed and the name was
   not defined with other labels in between (in general it does not: C47_redefine_refuted). *)
Theorem C47_same_id : forall valid taken ops0 es0 h0 ty n l id h1 ops es h2 ty', mrun valid ops0 (new_handler taken) = (es0, h0) -> (defines ops0 + defines ops + 1 < 2 ^ 31)%Z -> known ty -> known ty' ->
  define valid ty n l h0 = (id, h1) -> (0 < id)%Z -> Forall (harmless n l) ops -> mrun valid ops h1 = (es, h2) -> fst (define valid ty' n l h2) = id.
Proof.
  intros valid taken ops0 es0 h0 ty n l id h1 ops es h2 ty' H0 Hd Hk Hk' Hdef Hid Hh Hr. destruct (inv_run _ _ _ _ _ _ H0 (inv_new taken) ltac:(unfold defines in *; cbn in *; lia)) as (I & L0). cbn [app] in I.
  assert (L1: (h_latest h0 + 1 < 2 ^ 31)%Z) by (unfold defines in *; cbn in *; lia). destruct (inv_define _ _ _ _ _ _ _ _ I L1 Hdef) as (I1 & L2).
  assert (B: exists m, h_byname h1 n = Some m /\ m_labels m = l /\ m_id m = id).
  { destruct (define_known valid ty n l h0 Hk) as (k & Ek). rewrite Ek in Hdef. unfold add in Hdef. destruct (h_byname h0 n) as [e|] eqn:En.
    - destruct (i_name _ _ I _ _ En) as (A & _). destruct (labels_eq_dec (m_labels e) l) as [El|El]; [injection Hdef as <- <-; exists e; auto|]. unfold add_metric in Hdef. rewrite A in Hdef. injection Hdef as <- <-. eexists. cbn [h_byname]. rewrite Nat.eqb_refl. split; [reflexivity|]. split; reflexivity.
    - destruct (valid n && _); [|injection Hdef as <- <-; lia]. unfold add_metric in Hdef. injection Hdef as <- <-. eexists. cbn [h_byname]. rewrite Nat.eqb_refl. split; [reflexivity|]. split; reflexivity. }
  destruct B as (m & B1 & B2 & B3).
  assert (G: forall ops tr h es h', Forall (harmless n l) ops -> mrun valid ops h = (es, h') -> inv tr h -> (h_latest h + defines ops < 2 ^ 31)%Z -> h_byname h n = Some m -> h_byname h' n = Some m).
  { clear - B2. induction ops as [|o ops IH]; intros tr h es h' Hf Hr I L Hn; cbn [mrun] in Hr; [injection Hr as <- <-; assumption|]. inversion Hf as [|? ? F1 F2]; subst. destruct (mstep valid o h) as [e hh] eqn:Es. destruct (mrun valid ops hh) as [es1 h2] eqn:Er. injection Hr as <- <-.
    assert (R1: mrun valid [o] h = ([e], hh)) by (cbn [mrun]; rewrite Es; reflexivity). assert (Dd: defines (o :: ops) = (defines [o] + defines ops)%Z) by (unfold defines; cbn [List.filter]; destruct (is_define o); cbn [length]; lia). assert (D0: (0 <= defines ops)%Z) by (unfold defines; lia).
    destruct (inv_run _ _ _ _ _ _ R1 I ltac:(lia)) as (J & LL). eapply (IH _ _ _ _ F2 Er J); [lia|]. eapply byname_kept; [exact Es|exact I|exact F1|exact Hn|reflexivity]. }
  pose proof (G _ _ _ _ _ Hh Hr I1 ltac:(unfold defines in *; cbn in *; lia) B1) as B4. destruct (define_known valid ty' n l h2 Hk') as (k & Ek). rewrite Ek. unfold add. rewrite B4. destruct (labels_eq_dec (m_labels m) l); [assumption|contradiction].
Qed.
Print Assumptions C47_same_id.
Definition yes : nat -> bool := fun _ => true.
Example C47_ex : exists es h, mrun yes [ODefine 0 5 [(1, 1)]%nat; OIncrement 1 3; ODefine 1 6 []; ODefine 0 5 [(1, 1)]%nat; OIncrement 1 4; ORecord 2 10] (new_handler []) = (es, h) /\
  es = [EDefine 0 5 [(1, 1)]%nat 1; EAdd 1 3 MOk; EDefine 1 6 [] 2; EDefine 0 5 [(1, 1)]%nat 1; EAdd 1 4 MOk; EAdd 2 10 MOk] /\ h_vals h 5%nat [(1, 1)]%nat = 7%Z /\ h_vals h 6%nat [] = 10%Z.
Proof. eexists _, _. split; [reflexivity|]. repeat split. Qed.
(* Three definitions, the first and the last with the same name and labels: three different ids. *)
Theorem C47_redefine_refuted : exists es h, mrun yes [ODefine 0 5 [(1, 1)]%nat; ODefine 0 5 [(1, 2)]%nat; ODefine 0 5 [(1, 1)]%nat] (new_handler []) = (es, h) /\ es = [EDefine 0 5 [(1, 1)]%nat 1; EDefine 0 5 [(1, 2)]%nat 2; EDefine 0 5 [(1, 1)]%nat 3].
Proof. eexists _, _. split; reflexivity. Qed.
Print Assumptions C47_redefine_refuted.
(* Recording a gauge adds to it instead of setting it: the value read back is the recorded one only if it was zero. *)
Theorem C47_record_gauge_refuted : forall id v h m, h_byid h id = Some m -> vc_kind (m_vec m) = Gauge -> map fst (m_labels m) = vc_labelnames (m_vec m) ->
  let h' := snd (record_metric id v h) in fst (record_metric id v h) = MOk /\ (h_vals h' (vc_name (m_vec m)) (m_labels m) = v <-> h_vals h (vc_name (m_vec m)) (m_labels m) = 0%Z).
Proof.
  intros id v h m E Ek El. unfold record_metric, add_value. rewrite E, Ek. destruct (list_eq_dec _ _ _); [|contradiction]. cbn [fst snd bump h_vals]. rewrite Nat.eqb_refl. destruct (labels_eq_dec _ _); [|contradiction]. split; [reflexivity|]. lia.
Qed.
Print Assumptions C47_record_gauge_refuted.
Example C47_record_gauge_ex : exists h, snd (mrun yes [ODefine 1 6 []; ORecord 1 5; ORecord 1 2] (new_handler [])) = h /\ h_vals h 6%nat [] = 7%Z.
Proof. eexists. split; reflexivity. Qed.
(* A name that was removed can never be defined again: the registry still has it. *)
Theorem C47_remove_then_define_refuted : forall l, exists es h, mrun yes [ODefine 0 5 l; ORemove 1; ODefine 0 5 l] (new_handler []) = (es, h) /\ es = [EDefine 0 5 l 1; ERemove 1; EDefine 0 5 l (-1)].
Proof. intros l. eexists _, _. split; [reflexivity|]. reflexivity. Qed.
Print Assumptions C47_remove_then_define_refuted.
(* Defining a gauge under the name of a counter returns the counter's id, and decrementing it crashes the process; so does any
   update of a metric defined with label names other than the first definition's. *)
Theorem C47_kind_confusion_refuted : exists es h, mrun yes [ODefine 0 5 []; ODefine 1 5 []; OIncrement 1 (-1)] (new_handler []) = (es, h) /\ es = [EDefine 0 5 [] 1; EDefine 1 5 [] 1; EAdd 1 (-1) MPanic].
Proof. eexists _, _. split; reflexivity. Qed.
Print Assumptions C47_kind_confusion_refuted.
Theorem C47_label_names_panic_refuted : exists es h, mrun yes [ODefine 0 5 [(1, 1)]%nat; ODefine 0 5 [(2, 1)]%nat; OIncrement 2 1] (new_handler []) = (es, h) /\ es = [EDefine 0 5 [(1, 1)]%nat 1; EDefine 0 5 [(2, 1)]%nat 2; EAdd 2 1 MPanic].
Proof. eexists _, _. split; reflexivity. Qed.
Print Assumptions C47_label_names_panic_refuted.
(* An unknown metric type is answered with success and id 0, which no update accepts. *)
Theorem C47_unknown_type_refuted : forall valid taken ops es h ty n l, mrun valid ops (new_handler taken) = (es, h) -> (defines ops < 2 ^ 31)%Z -> ~ known ty -> host_define (fst (define valid ty n l h)) = Some 0%Z /\ forall v, fst (increment_metric 0 v h) = MErr.
Proof.
  intros valid taken ops es h ty n l H Hd Hk. destruct (inv_run _ _ _ _ _ _ H (inv_new taken) Hd) as (I & _). split.
  - assert (E: define valid ty n l h = (0%Z, h)) by (unfold define; destruct ty as [|[[p|p|]|[p|p|]|]|p]; try reflexivity; exfalso; apply Hk; unfold known; lia). rewrite E. reflexivity.
  - intros v. unfold increment_metric, add_value. destruct (h_byid h 0) as [m|] eqn:E; [|reflexivity]. apply (i_id _ _ I) in E. lia.
Qed.
Print Assumptions C47_unknown_type_refuted.
(* ---------- added after seeded-bug tests ---------- *)
Lemma owner_in : forall tr id n l, owner tr id = Some (n, l) -> exists ty, In (EDefine ty n l id) tr.
Proof. induction tr as [|[ty n' l' i|i v r|i] tr IH]; intros id n l H; cbn in H; [discriminate| | |]. - destruct (Z.eqb_spec i id) as [->|]; [injection H as -> ->; exists ty; now left|]. destruct (IH _ _ _ H) as (t & Ht). exists t. now right. - destruct (IH _ _ _ H) as (t & Ht). exists t. now right. - destruct (IH _ _ _ H) as (t & Ht). exists t. now right. Qed.
(* A name defined for the first time gets a metric of the requested type: every update works, except that a counter refuses a
   negative one (by crashing). *)
Theorem C47_first_definition : forall valid taken ops es h ty n l id h1 v, mrun valid ops (new_handler taken) = (es, h) -> (defines ops < 2 ^ 31)%Z -> known ty ->
  (forall t k i, ~ In (EDefine t n k i) es) -> define valid ty n l h = (id, h1) -> (0 < id)%Z ->
  fst (increment_metric id v h1) = (if (ty =? 0)%Z && (v <? 0)%Z then MPanic else MOk) /\ fst (record_metric id v h1) = (if (ty =? 0)%Z && (v <? 0)%Z then MPanic else MOk).
Proof.
  intros valid taken ops es h ty n l id h1 v H Hd Hk Hn Hdef Hid. destruct (inv_run _ _ _ _ _ _ H (inv_new taken) Hd) as (I & _). cbn [app] in I.
  assert (B: h_byname h n = None). { destruct (h_byname h n) as [m|] eqn:E; [|reflexivity]. exfalso. destruct (i_name _ _ I _ _ E) as (E1 & E2). destruct (i_id _ _ I _ _ E2) as (_ & _ & _ & O). rewrite E1 in O. apply owner_in in O. destruct O as (t & O). exact (Hn _ _ _ O). }
  assert (A: forall k, add valid n (mkvec k n (map fst l)) l h = (id, h1) -> h_byid h1 id = Some (mkm id n (mkvec k n (map fst l)) l)).
  { intros k E. unfold add in E. rewrite B in E. destruct (valid n && _); [|injection E as <- _; lia]. unfold add_metric in E. injection E as E1 <-. rewrite <- E1. cbn [h_byid]. now rewrite Z.eqb_refl. }
  unfold increment_metric, record_metric, add_value. unfold known in Hk. assert (T: ty = 0%Z \/ ty = 1%Z \/ ty = 2%Z) by lia.
  destruct T as [-> | [-> | ->]]; unfold define in Hdef; apply A in Hdef; rewrite Hdef; cbn [m_labels m_vec vc_labelnames vc_kind]; (destruct (list_eq_dec _ _ _); [|contradiction]); cbn [Z.eqb andb]; destruct (v <? 0)%Z; auto.
Qed.
Print Assumptions C47_first_definition.
(* A name the registry refuses: the definition is reported as failed and nothing changes. *)
Theorem C47_refused : forall valid taken ops es h ty n l, mrun valid ops (new_handler taken) = (es, h) -> (defines ops < 2 ^ 31)%Z -> known ty -> valid n = false ->
  (forall t k i, ~ In (EDefine t n k i) es) -> host_define (fst (define valid ty n l h)) = None /\ snd (define valid ty n l h) = h.
Proof.
  intros valid taken ops es h ty n l H Hd Hk Hv Hn. destruct (inv_run _ _ _ _ _ _ H (inv_new taken) Hd) as (I & _). cbn [app] in I.
  assert (B: h_byname h n = None). { destruct (h_byname h n) as [m|] eqn:E; [|reflexivity]. exfalso. destruct (i_name _ _ I _ _ E) as (E1 & E2). destruct (i_id _ _ I _ _ E2) as (_ & _ & _ & O). rewrite E1 in O. apply owner_in in O. destruct O as (t & O). exact (Hn _ _ _ O). }
  destruct (define_known valid ty n l h Hk) as (k & ->). unfold add. rewrite B, Hv. cbn. auto.
Qed.
Print Assumptions C47_refused.
(* An id that no definition has returned is refused and changes nothing; so is an id after its removal. *)
Theorem C47_unknown_id : forall valid taken ops es h id v, mrun valid ops (new_handler taken) = (es, h) -> (defines ops < 2 ^ 31)%Z -> (forall t n l, ~ In (EDefine t n l id) es) -> increment_metric id v h = (MErr, h) /\ record_metric id v h = (MErr, h).
Proof.
  intros valid taken ops es h id v H Hd Hn. destruct (inv_run _ _ _ _ _ _ H (inv_new taken) Hd) as (I & _). cbn [app] in I.
  assert (B: h_byid h id = None). { destruct (h_byid h id) as [m|] eqn:E; [|reflexivity]. exfalso. destruct (i_id _ _ I _ _ E) as (_ & _ & _ & O). apply owner_in in O. destruct O as (t & O). exact (Hn _ _ _ O). }
  unfold increment_metric, record_metric, add_value. now rewrite B.
Qed.
Print Assumptions C47_unknown_id.
Theorem C47_removed_id : forall id v h, fst (increment_metric id v (remove_metric id h)) = MErr /\ fst (record_metric id v (remove_metric id h)) = MErr.
Proof. intros id v h. unfold increment_metric, record_metric, add_value, remove_metric. destruct (h_byid h id) eqn:E; [cbn [h_byid]; rewrite Z.eqb_refl; auto|now rewrite E]. Qed.
Print Assumptions C47_removed_id.
Example C47_first_definition_ex : fst (mrun yes [ODefine 1 6 []; OIncrement 1 (-4); ODefine 2 7 []; ORecord 2 (-1); OIncrement 9 1; ORemove 1; OIncrement 1 1] (new_handler [])) = [EDefine 1 6 [] 1; EAdd 1 (-4) MOk; EDefine 2 7 [] 2; EAdd 2 (-1) MOk; EAdd 9 1 MErr; ERemove 1; EAdd 1 1 MErr].
Proof. reflexivity. Qed.
