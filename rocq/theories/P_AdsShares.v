(* C96: weighted clusters over time. *)
From Coq Require Import String List Bool Arith NArith Lia Permutation.
From Verif Require Import M_GoMap L_GoMap M_AdsLb P_AdsLb P_AdsLbF3 M_AdsProps M_AdsShares.
Import ListNotations.
Open Scope nat_scope.
Open Scope string_scope.
(* ---- specification ---- *)
(* how many of the choices of route r went to cluster a; how many choices it made *)
Definition to_cluster (r : nat) (a : string) (log : list (nat * string)) : N := N.of_nat (List.length (filter (fun x => Nat.eqb (fst x) r && String.eqb (snd x) a) log)).
Definition chosen (r : nat) (log : list (nat * string)) : N := N.of_nat (List.length (filter (fun x => Nat.eqb (fst x) r) log)).
(* an event that leaves the counters of the clusters of [ws], which only route r uses by weight, alone *)
Definition calm (r : nat) (ws : list (string * N)) (e : event) : Prop :=
  match e with
  | Choose i (Weighted ws') o => Permutation (weight_map ws') o /\ (i = r -> ws' = ws) /\ (i <> r -> forall a, In a (map fst ws) -> ~ In a (map fst ws'))
  | Choose i _ _ => i <> r
  | Count _ => True
  | Routes cfgs => forall cfg vh a, In cfg cfgs -> In vh cfg -> In a (map fst ws) -> ~ In (One a) vh
  | Listeners ls => forall l fc a, In l ls -> In fc l -> In a (map fst ws) -> ~ In (One a) fc
  | Clusters names => forall a, In a (map fst ws) -> In a names
  end.
Definition positive (ws : gmap N) : N := N.of_nat (List.length (filter (fun e => N.ltb 0 (snd e)) ws)).
(* ---- lemmas ---- *)
Definition occ (a : string) (l : list string) : N := N.of_nat (List.length (filter (String.eqb a) l)).
Definition sumk (f : string -> N) (ws : gmap N) : N := fold_right (fun e s => (f (fst e) + s)%N) 0%N ws.
Lemma sumk_ext : forall f g ws, (forall a, In a (mkeys ws) -> f a = g a) -> sumk f ws = sumk g ws.
Proof. induction ws as [|[a w] ws IH]; intros H; [reflexivity|]. unfold sumk in *. cbn [fold_right fst]. rewrite IH, (H a); [reflexivity|now left|intros; apply H; now right]. Qed.
Lemma sumk_perm : forall f a b, Permutation a b -> sumk f a = sumk f b.
Proof. intros f a b H. unfold sumk. induction H; cbn [fold_right]; lia. Qed.
Lemma cweights_perm : forall a b, Permutation a b -> cweights a = cweights b.
Proof. intros a b H. unfold cweights. induction H; cbn [fold_right]; lia. Qed.
Lemma sumk_add : forall f a ws, NoDup (mkeys ws) -> In a (mkeys ws) -> sumk (fun x => f x + if String.eqb x a then 1 else 0)%N ws = (sumk f ws + 1)%N.
Proof.
  intros f a ws. induction ws as [|[b w] ws IH]; intros Hn Hi; [destruct Hi|]. destruct Hi as [Hi|Hi]; cbn in Hn, Hi; inversion Hn as [|? ? Hni Hn']; [subst b|]; subst; unfold sumk in *; cbn [fold_right fst] in *.
  - rewrite String.eqb_refl. assert (E: fold_right (fun e s => ((f (fst e) + (if String.eqb (fst e) a then 1 else 0)) + s)%N) 0%N ws = fold_right (fun e s => (f (fst e) + s)%N) 0%N ws).
    { apply (sumk_ext (fun x => (f x + if String.eqb x a then 1 else 0)%N) f). intros x Hx. destruct (String.eqb_spec x a); [subst; contradiction|lia]. } rewrite E. lia.
  - destruct (String.eqb_spec b a) as [->|]; [contradiction|]. rewrite IH; [lia|assumption|exact Hi].
Qed.
Lemma in_sumk : forall f ws a, In a (mkeys ws) -> (f a <= sumk f ws)%N.
Proof. induction ws as [|[b w] ws IH]; intros a []; unfold sumk in *; cbn [fold_right fst] in *; [subst; lia|]. specialize (IH a H). lia. Qed.
Lemma weight_map_nodup : forall ws, NoDup (mkeys (weight_map ws)).
Proof. intros ws. unfold weight_map. assert (H: NoDup (mkeys (@nil (string * N)))) by constructor. revert H. generalize (@nil (string * N)). induction ws as [|e ws IH]; intros m H; [exact H|]. cbn [fold_left]. apply IH. now apply nodup_mset. Qed.
Lemma weight_map_keys : forall ws a, In a (mkeys (weight_map ws)) -> In a (map fst ws).
Proof.
  intros ws a. unfold weight_map. assert (H: In a (mkeys (fold_left (fun m e => mset (fst e) (snd e) m) ws [])) -> In a (map fst ws) \/ In a (mkeys (@nil (string * N)))); [|intros H0; destruct (H H0) as [H1|[]]; exact H1].
  generalize (@nil (string * N)). induction ws as [|e ws IH]; intros m H; [now right|]. cbn [fold_left] in H. apply IH in H. destruct H as [H|H]; [left; now right|]. unfold mset in H. cbn in H. destruct H as [H|H]; [left; now left|]. apply mkeys_mdel in H. right. tauto.
Qed.
Lemma reset_other : forall n a st, a <> n -> mget a (reset_count n st) = mget a st.
Proof. intros n a st H. unfold reset_count. destruct (mget n st); [|reflexivity]. rewrite mget_mset. destruct (String.eqb_spec a n); [contradiction|reflexivity]. Qed.
Lemma count_other : forall n a st, a <> n -> mget a (count_one n st) = mget a st.
Proof. intros n a st H. unfold count_one. destruct (mget n st); [|reflexivity]. rewrite mget_mset. destruct (String.eqb_spec a n); [contradiction|reflexivity]. Qed.
Lemma fold_keep {X} : forall (f : gmap N -> X -> gmap N) a l s, (forall s x, In x l -> mget a (f s x) = mget a s) -> mget a (fold_left f l s) = mget a s.
Proof. intros f a l. induction l as [|x l IH]; intros s H; [reflexivity|]. cbn [fold_left]. rewrite IH; [apply H; now left|intros; apply H; now right]. Qed.
Lemma routes_other : forall cfgs a st, (forall cfg vh, In cfg cfgs -> In vh cfg -> ~ In (One a) vh) -> mget a (routes_updated cfgs st) = mget a st.
Proof.
  intros cfgs a st H. unfold routes_updated. apply fold_keep. intros s cfg Hc. apply fold_keep. intros s' vh Hv. apply fold_keep. intros s'' t Ht. destruct t as [c| |]; [|reflexivity|reflexivity].
  apply reset_other. intros ->. exact (H cfg vh Hc Hv Ht).
Qed.
Lemma listeners_other : forall ls a st, (forall l fc, In l ls -> In fc l -> ~ In (One a) fc) -> mget a (listeners_updated ls st) = mget a st.
Proof.
  intros ls a st H. unfold listeners_updated. apply fold_keep. intros s cfg Hc. apply fold_keep. intros s' vh Hv. apply fold_keep. intros s'' t Ht. destruct t as [c| |]; [|reflexivity|reflexivity].
  destruct (String.eqb c ""); [reflexivity|]. apply reset_other. intros ->. exact (H cfg vh Hc Hv Ht).
Qed.
Lemma mget_keep : forall names a (m : gmap N), mget a (filter (fun e => mem (fst e) names) m) = if mem a names then mget a m else None.
Proof.
  intros names a m. induction m as [|[b w] m IH]; [now destruct (mem a names)|]. cbn [filter fst]. destruct (mem b names) eqn:E; cbn [mget]; destruct (String.eqb_spec a b) as [->|]; rewrite ?E; auto. rewrite IH. now rewrite E.
Qed.
Lemma mget_new : forall names a (m : gmap N), mget a (fold_left (fun s n => match mget n s with Some _ => s | None => mset n 0%N s end) names m) = match mget a m with Some c => Some c | None => if mem a names then Some 0%N else None end.
Proof.
  induction names as [|n names IH]; intros a m; [cbn; now destruct (mget a m)|]. cbn [fold_left mem existsb]. rewrite IH. fold (mem a names). destruct (mget n m) eqn:E.
  - destruct (mget a m) eqn:Ea; [reflexivity|]. destruct (String.eqb_spec a n) as [->|]; [congruence|reflexivity].
  - rewrite mget_mset. destruct (String.eqb_spec a n) as [->|]; [now rewrite E|reflexivity].
Qed.
(* An update of the clusters keeps the counters of those that stay, starts new ones at zero and forgets the others. *)
Theorem C96_clusters_update : forall names st a, mget a (clusters_updated names st) = if mem a names then match mget a st with Some c => Some c | None => Some 0%N end else None.
Proof. intros. unfold clusters_updated. rewrite mget_keep, mget_new. destruct (mem a names); [|reflexivity]. now destruct (mget a st). Qed.
Print Assumptions C96_clusters_update.
Lemma occ_app : forall a l m, occ a (l ++ m) = (occ a l + occ a m)%N.
Proof. intros. unfold occ. rewrite filter_app, app_length. lia. Qed.
Lemma occ_drop : forall i l n a, nth_error l i = Some n -> occ a l = (occ a (drop_nth i l) + if String.eqb a n then 1 else 0)%N.
Proof.
  induction i as [|i IH]; intros [|x l] n a H; try discriminate; cbn in H; [injection H as ->|]; unfold occ in *; cbn [filter drop_nth].
  - destruct (String.eqb a n); cbn [List.length]; lia.
  - specialize (IH l n a H). destruct (String.eqb a x); cbn [List.length]; lia.
Qed.
Lemma filter_length_le {X} : forall (f : X -> bool) l, List.length (filter f l) <= List.length l.
Proof. intros f l. induction l as [|x l IH]; cbn [filter]; [lia|]. destruct (f x); cbn [List.length]; lia. Qed.
Lemma run_snoc : forall pow h e s, run pow (h ++ [e]) s = (fst (step pow e (fst (run pow h s))), (snd (run pow h s) ++ snd (step pow e (fst (run pow h s))))%list).
Proof. intros. unfold run. rewrite fold_left_app. cbn [fold_left]. now destruct (step pow e _). Qed.
Lemma to_app : forall r a l m, to_cluster r a (l ++ m) = (to_cluster r a l + to_cluster r a m)%N.
Proof. intros. unfold to_cluster. rewrite filter_app, app_length. lia. Qed.
Lemma chosen_app : forall r l m, chosen r (l ++ m) = (chosen r l + chosen r m)%N.
Proof. intros. unfold chosen. rewrite filter_app, app_length. lia. Qed.
Lemma mget_perm : forall (a b : gmap N) k v, Permutation a b -> NoDup (mkeys a) -> In (k, v) b -> mget k a = Some v.
Proof. intros a b k v H Hn Hi. apply in_mget; [exact Hn|]. exact (Permutation_in _ (Permutation_sym H) Hi). Qed.
Section Shares.
Variables (pow : f64 -> f64 -> f64) (r : nat) (ws : list (string * N)).
Let wm := weight_map ws.
Let W := cweights wm.
Let key a := In a (mkeys wm).
Record inv (p : N) (n : nat) (s : shares) (log : list (nat * string)) : Prop := {
  i_total : sumk (fun a => to_cluster r a log) wm = chosen r log;
  i_len : (chosen r log <= N.of_nat n)%N;
  i_pend : forall a, key a -> exists c, mget a (counts s) = Some c /\ (c + occ a (pending s) = to_cluster r a log)%N;
  i_upper : forall a w, mget a wm = Some w -> (W * to_cluster r a log <= w * chosen r log + W * p)%N;
  i_zero : forall a, mget a wm = Some 0%N -> to_cluster r a log = 0%N }.
Lemma shares_inv : forall p h s, (0 < W <= 65536)%N -> ~ In "" (map fst ws) -> pending s = [] -> (forall a, key a -> mget a (counts s) = Some 0%N) -> (N.of_nat (List.length h) < 4294967296)%N ->
  Forall (calm r ws) h -> (forall h1 h2, h = (h1 ++ h2)%list -> N.of_nat (List.length (pending (fst (run pow h1 s)))) <= p)%N ->
  inv p (List.length h) (fst (run pow h s)) (snd (run pow h s)).
Proof.
  intros p h s HW Hemp Hp Hc. induction h as [|e h IH] using rev_ind; intros Hlen Hcalm Hbound.
  - cbn [run fold_left fst snd List.length]. constructor.
    + unfold sumk, to_cluster, chosen. cbn [filter List.length]. clear. induction wm; cbn [fold_right]; [reflexivity|]. cbn in *. lia.
    + unfold chosen. cbn. lia.
    + intros a Ha. exists 0%N. split; [now apply Hc|]. rewrite Hp. reflexivity.
    + intros. unfold to_cluster, chosen. cbn [filter List.length]. lia.
    + reflexivity.
  - rewrite app_length in Hlen. cbn [List.length] in Hlen. apply Forall_app in Hcalm. destruct Hcalm as [Hcalm He]. inversion He as [|? ? He' _]; subst. clear He.
    pose proof (Hbound (h ++ [e])%list [] (eq_sym (app_nil_r _))) as Hlast.
    specialize (IH ltac:(lia) Hcalm (fun h1 h2 E => Hbound h1 (h2 ++ [e])%list (eq_trans (f_equal (fun x => (x ++ [e])%list) E) (eq_sym (app_assoc _ _ _))))).
    rewrite app_length. cbn [List.length]. rewrite run_snoc in *. cbn [fst snd] in *. set (s1 := fst (run pow h s)) in *. set (log := snd (run pow h s)) in *. clearbody s1 log. clear Hbound Hcalm Hp Hc.
    destruct IH as [Itot Ilen Ipend Iup Izero].
    assert (Hnone: forall n, n <> r -> forall x, chosen r (log ++ [(n, x)]) = chosen r log /\ forall a, to_cluster r a (log ++ [(n, x)]) = to_cluster r a log).
    { intros n Hn x. split; [|intros a; rewrite to_app; unfold to_cluster at 2; cbn [filter fst]; destruct (Nat.eqb_spec n r); [contradiction|]; cbn; lia].
      rewrite chosen_app. unfold chosen at 2. cbn [filter fst]. destruct (Nat.eqb_spec n r); [contradiction|]. cbn. lia. }
    destruct e as [i t o|i|cfgs|ls|names]; cbn [step] in *.
    + destruct t as [c|ws'|].
      * cbn [choose calm fst snd counts pending] in *. destruct (Hnone i He' c) as [E1 E2]. constructor; cbn [counts pending].
        -- rewrite E1, <- Itot. apply sumk_ext. intros; apply E2.
        -- rewrite E1. lia.
        -- intros a Ha. rewrite E2, app_nil_r. now apply Ipend.
        -- intros a w Ha. rewrite E1, E2. now apply Iup.
        -- intros a Ha. rewrite E2. now apply Izero.
      * cbn [choose calm fst snd counts pending] in *. destruct He' as (Hperm & Hsame & Hother). set (sel := fst (select_cluster (go_float pow) o (counts s1))) in *.
        destruct (Nat.eq_dec i r) as [->|Hi].
        -- rewrite (Hsame eq_refl) in *. fold wm in Hperm. assert (EW: cweights o = W) by (symmetry; apply cweights_perm, Hperm).
           assert (ES: ccounts o (counts s1) = sumk (ccount (counts s1)) wm) by (symmetry; apply (sumk_perm (ccount (counts s1))), Hperm).
           assert (Hcnt: (sumk (ccount (counts s1)) wm <= chosen r log)%N).
           { rewrite <- Itot. assert (G: forall l, incl l wm -> (sumk (ccount (counts s1)) l <= sumk (fun a => to_cluster r a log) l)%N); [|apply G, incl_refl].
             induction l as [|[a w] l IHl]; intros Hin; [cbn; lia|]. unfold sumk in *. cbn [fold_right fst]. assert (Ka: key a) by (apply in_map_iff; exists (a, w); split; [reflexivity|apply Hin; now left]).
             destruct (Ipend a Ka) as (c & E1 & E2). unfold ccount at 1. rewrite E1. specialize (IHl (fun y Hy => Hin y (or_intror Hy))). lia. }
           pose proof (C28_cluster_selected pow o (counts s1)) as HS. cbv zeta in HS. rewrite EW, ES in HS. fold sel in HS. destruct (HS HW ltac:(lia)) as (w & Hin & Hpos & Hshare & _). clear HS.
           pose proof (mget_perm wm o sel w Hperm (weight_map_nodup ws) Hin) as Hgw. assert (Ksel: key sel) by (apply in_map_iff; exists (sel, w); split; [reflexivity|now apply mget_in]).
           destruct (Ipend sel Ksel) as (c & Ec & Eo). unfold ccount in Hshare at 1. rewrite Ec in Hshare.
           assert (E1: chosen r (log ++ [(r, sel)]) = (chosen r log + 1)%N) by (rewrite chosen_app; unfold chosen at 2; cbn [filter fst]; now rewrite Nat.eqb_refl).
           assert (E2: forall a, to_cluster r a (log ++ [(r, sel)]) = (to_cluster r a log + if String.eqb a sel then 1 else 0)%N).
           { intros a. rewrite to_app. unfold to_cluster at 2. cbn [filter fst snd]. rewrite Nat.eqb_refl, String.eqb_sym. cbn [andb]. now destruct (String.eqb a sel). }
           constructor; cbn [counts pending].
           ++ rewrite E1, <- Itot, <- (sumk_add _ sel wm (weight_map_nodup ws) Ksel). apply sumk_ext. intros; apply E2.
           ++ rewrite E1. lia.
           ++ intros a Ha. destruct (Ipend a Ha) as (ca & Eca & Eoa). exists ca. split; [exact Eca|]. rewrite occ_app, E2. unfold occ at 2. cbn [filter]. destruct (String.eqb a sel); cbn [List.length]; lia.
           ++ intros a wa Ha. rewrite E1, E2. destruct (String.eqb_spec a sel) as [->|Hne]; [|specialize (Iup a wa Ha); nia].
              rewrite Hgw in Ha. injection Ha as <-. assert (Ho: (occ sel (pending s1) + 1 <= p)%N).
              { rewrite app_length in Hlast. cbn [List.length] in Hlast. unfold occ. pose proof (filter_length_le (String.eqb sel) (pending s1)). lia. }
              replace (to_cluster r sel log) with (c + occ sel (pending s1))%N by exact Eo. assert (HX: (w * (sumk (ccount (counts s1)) wm + 1) <= w * (chosen r log + 1))%N) by (apply N.mul_le_mono_l; lia).
              assert (HY: (W * (occ sel (pending s1) + 1) <= W * p)%N) by (apply N.mul_le_mono_l; exact Ho). rewrite !N.mul_add_distr_l in *. lia.
           ++ intros a Ha. rewrite E2. destruct (String.eqb_spec a sel) as [->|Hne]; [rewrite Hgw in Ha; injection Ha as ->; lia|]. rewrite (Izero a Ha). reflexivity.
        -- assert (Hsel: forall a, key a -> a <> sel).
           { intros a Ha ->. apply weight_map_keys in Ha. destruct (C28_cluster_member (go_float pow) o (counts s1) sel (snd (select_cluster (go_float pow) o (counts s1)))) as [E|E]; [apply surjective_pairing| |].
             - rewrite E in Ha. contradiction.
             - apply (Hother Hi sel Ha). apply weight_map_keys. eapply Permutation_in; [|exact E]. apply Permutation_map, Permutation_sym, Hperm. }
           destruct (Hnone i Hi sel) as [E1 E2]. constructor; cbn [counts pending].
           ++ rewrite E1, <- Itot. apply sumk_ext. intros; apply E2.
           ++ rewrite E1. lia.
           ++ intros a Ha. rewrite E2. destruct (Ipend a Ha) as (ca & Eca & Eoa). exists ca. split; [exact Eca|]. rewrite occ_app. unfold occ at 2. cbn [filter]. destruct (String.eqb_spec a sel) as [Hx|]; [destruct (Hsel a Ha Hx)|]. cbn [List.length]. lia.
           ++ intros a w Ha. rewrite E1, E2. now apply Iup.
           ++ intros a Ha. rewrite E2. now apply Izero.
      * cbn [choose calm fst snd counts pending] in *. destruct (Hnone i He' "") as [E1 E2]. constructor; cbn [counts pending].
        -- rewrite E1, <- Itot. apply sumk_ext. intros; apply E2.
        -- rewrite E1. lia.
        -- intros a Ha. rewrite E2, app_nil_r. now apply Ipend.
        -- intros a w Ha. rewrite E1, E2. now apply Iup.
        -- intros a Ha. rewrite E2. now apply Izero.
    + cbn [fst snd] in *. rewrite app_nil_r. constructor; [exact Itot|lia| |exact Iup|exact Izero].
      intros a Ha. destruct (Ipend a Ha) as (c & Ec & Eo). destruct (nth_error (pending s1) i) as [n|] eqn:En; [|exists c; auto]. cbn [counts pending].
      pose proof (occ_drop i (pending s1) n a En) as Hd. destruct (String.eqb_spec a n) as [<-|Hne].
      * exists (c + 1)%N. split; [|lia]. unfold count_one. rewrite Ec, mget_mset, String.eqb_refl. f_equal. unfold u32. apply N.mod_small.
        pose proof (in_sumk (fun a => to_cluster r a log) wm a Ha). cbn in *. lia.
      * exists c. split; [rewrite count_other; assumption|lia].
    + cbn [fst snd] in *. rewrite app_nil_r. constructor; [exact Itot|lia| |exact Iup|exact Izero]. intros a Ha. destruct (Ipend a Ha) as (c & Ec & Eo). exists c. cbn [counts pending]. rewrite routes_other; [auto|]. intros cfg vh H1 H2. apply (He' cfg vh a H1 H2). now apply weight_map_keys.
    + cbn [fst snd] in *. rewrite app_nil_r. constructor; [exact Itot|lia| |exact Iup|exact Izero]. intros a Ha. destruct (Ipend a Ha) as (c & Ec & Eo). exists c. cbn [counts pending]. rewrite listeners_other; [auto|]. intros cfg vh H1 H2. apply (He' cfg vh a H1 H2). now apply weight_map_keys.
    + cbn [fst snd] in *. rewrite app_nil_r. constructor; [exact Itot|lia| |exact Iup|exact Izero]. intros a Ha. destruct (Ipend a Ha) as (c & Ec & Eo). exists c. cbn [counts pending]. rewrite C96_clusters_update, Ec. destruct (mem a names) eqn:E; [auto|]. apply mem_false in E. destruct E. apply He'. now apply weight_map_keys.
Qed.
End Shares.
(* A route with weighted clusters, all known and starting from zero, in any history in which no update names one of them as the
   only cluster of a route or TCP proxy or removes it and no other route selects it by weight: of the choices of the route each
   cluster gets its share w/W up to p choices more (if at most p choices are uncounted at any moment) and the corresponding
   number less, whatever the map order.  A cluster of weight 0 gets none. *)
Theorem C96_shares : forall pow r ws p h s, let wm := weight_map ws in let W := cweights wm in (0 < W <= 65536)%N -> ~ In "" (map fst ws) -> pending s = [] ->
  (forall a, In a (map fst ws) -> mget a (counts s) = Some 0%N) -> (N.of_nat (List.length h) < 4294967296)%N -> Forall (calm r ws) h ->
  (forall h1 h2, h = (h1 ++ h2)%list -> N.of_nat (List.length (pending (fst (run pow h1 s)))) <= p)%N ->
  forall a w, mget a wm = Some w -> let n := chosen r (snd (run pow h s)) in let c := to_cluster r a (snd (run pow h s)) in
  (W * c <= w * n + W * p)%N /\ (w * n + W * p <= W * c + W * p * N.max 1 (positive wm))%N /\ (w = 0%N -> c = 0%N).
Proof.
  intros pow r ws p h s wm W HW Hemp Hp Hc Hlen Hcalm Hb a w Ha n c. destruct (shares_inv pow r ws p h s HW Hemp Hp (fun x Hx => Hc x (weight_map_keys ws x Hx)) Hlen Hcalm Hb) as [Itot _ _ Iup Izero].
  split; [exact (Iup a w Ha)|]. split; [|intros ->; now apply Izero].
  destruct (N.eq_dec w 0) as [->|Hw0]; [nia|].
  set (log := snd (run pow h s)) in *. fold wm in Itot, Iup, Izero. fold W in Iup. fold n in Itot, Iup. clearbody log. clear - Itot Iup Izero Ha Hw0.
  assert (G: forall l, incl l wm -> NoDup (mkeys l) -> (W * sumk (fun x => to_cluster r x log) l <= cweights l * n + W * p * positive l)%N /\ (In (a, w) l -> (W * sumk (fun x => to_cluster r x log) l + w * n + W * p <= W * c + cweights l * n + W * p * positive l)%N)).
  { assert (Hnd: NoDup (mkeys wm)) by apply weight_map_nodup. induction l as [|[b wb] l IH]; intros Hi Hn; [split; [cbn; lia|intros []]|]. destruct (IH (fun y Hy => Hi y (or_intror Hy)) ltac:(now inversion Hn)) as [IH1 IH2]. clear IH.
    assert (Hb: mget b wm = Some wb) by (apply in_mget; [exact Hnd|apply Hi; now left]). pose proof (Iup b wb Hb) as Hub. unfold sumk, cweights, positive in *. cbn [fold_right fst snd filter].
    set (S0 := fold_right (fun e s => (to_cluster r (fst e) log + s)%N) 0%N l) in *. set (W0 := fold_right (fun e s => (snd e + s)%N) 0%N l) in *.
    destruct (N.ltb_spec 0 wb) as [Hpos|Hz]; cbn [List.length].
    - rewrite Nat2N.inj_succ. split; [nia|]. intros [E|Hin]; [injection E as -> ->; subst c; clear IH2; nia|]. specialize (IH2 Hin). nia.
    - assert (wb = 0%N) as -> by lia. rewrite (Izero b Hb). split; [rewrite !N.add_0_l; exact IH1|]. intros [E|Hin]; [injection E as -> ->; congruence|]. rewrite !N.add_0_l. now apply IH2. }
  destruct (G wm (incl_refl _) (weight_map_nodup ws)) as [_ G2]. specialize (G2 (mget_in _ _ _ Ha)). rewrite Itot in G2. fold W in G2. assert (HM: (W * p * positive wm <= W * p * N.max 1 (positive wm))%N) by (apply N.mul_le_mono_l; lia). lia.
Qed.
Print Assumptions C96_shares.
(* ---- what breaks the shares ---- *)
(* requests of one route one after the other, each counted before the next *)
Definition serial (r : nat) (ws : list (string * N)) (orders : list (gmap N)) : list event := flat_map (fun o => [Choose r (Weighted ws) o; Count 0]) orders.
Lemma run_cons : forall pow e h s, run pow (e :: h) s = (fst (run pow h (fst (step pow e s))), (snd (step pow e s) ++ snd (run pow h (fst (step pow e s))))%list).
Proof.
  intros pow e h s. assert (A: forall h acc s, fold_left (fun acc e => let (s', l) := step pow e (fst acc) in (s', (snd acc ++ l)%list)) h (s, acc) = (fst (run pow h s), (acc ++ snd (run pow h s))%list)).
  { clear. induction h as [|x h IH] using rev_ind; intros acc s; [cbn; now rewrite app_nil_r|]. rewrite run_snoc, fold_left_app, IH. cbn [fold_left fst snd]. destruct (step pow x _). cbn [fst snd]. now rewrite app_assoc. }
  unfold run at 1. cbn [fold_left fst snd]. destruct (step pow e s) as [s' l]. cbn [app fst snd]. apply A.
Qed.
Lemma run_app : forall pow h1 h2 s, run pow (h1 ++ h2) s = (fst (run pow h2 (fst (run pow h1 s))), (snd (run pow h1 s) ++ snd (run pow h2 (fst (run pow h1 s))))%list).
Proof. intros pow h1. induction h1 as [|e h1 IH]; intros h2 s; [change (run pow ([] ++ h2) s) with (run pow h2 s); change (run pow [] s) with (s, @nil (nat * string)); cbn [fst snd app]; apply surjective_pairing|]. rewrite <- app_comm_cons, !run_cons, IH. cbn [fst snd]. now rewrite app_assoc. Qed.
Lemma serial_step : forall pow r ws o os st, run pow (serial r ws (o :: os)) (mkshares st []) =
  let sel := fst (select_cluster (go_float pow) o st) in let q := run pow (serial r ws os) (mkshares (count_one sel st) []) in (fst q, (r, sel) :: snd q).
Proof. intros. change (serial r ws (o :: os)) with (Choose r (Weighted ws) o :: Count 0 :: serial r ws os). rewrite !run_cons. cbn [step choose counts pending fst snd app nth_error drop_nth]. reflexivity. Qed.
Lemma catch_up : forall pow r ws a b wa wb orders st j y, a <> b -> (0 < wa)%N -> (0 < wb)%N -> (wa + wb <= 65536)%N ->
  Forall (Permutation [(a, wa); (b, wb)]) orders -> mget a st = Some j -> mget b st = Some y -> (j + y + N.of_nat (List.length orders) < 4294967296)%N ->
  ((j + N.of_nat (List.length orders)) * wb < y * wa + wb)%N ->
  snd (run pow (serial r ws orders) (mkshares st [])) = repeat (r, a) (List.length orders).
Proof.
  intros pow r ws a b wa wb orders. induction orders as [|o os IH]; intros st j y Hab Ha Hb Hs Hp Ej Ey Hlen Hbal; [reflexivity|]. inversion Hp as [|? ? Hp1 Hp2]; subst. cbn [List.length] in *. rewrite Nat2N.inj_succ in *.
  rewrite serial_step. cbv zeta. cbn [snd repeat].
  assert (Hsel: fst (select_cluster (go_float pow) o st) = a).
  { pose proof (C28_cluster_selected pow o st) as H. cbv zeta in H. rewrite <- (cweights_perm _ _ Hp1) in H. assert (EC: ccounts o st = (j + y)%N) by (change (ccounts o st) with (sumk (ccount st) o); rewrite <- (sumk_perm _ _ _ Hp1); unfold sumk, ccount; cbn [fold_right fst]; rewrite Ej, Ey; lia).
    rewrite EC in H. assert (EW: cweights [(a, wa); (b, wb)] = (wa + wb)%N) by (unfold cweights; cbn [fold_right snd]; lia). rewrite EW in H.
    destruct (H ltac:(lia) ltac:(lia)) as (w & Hin & _ & _ & Hmin). assert (Ina: In (a, wa) o) by (eapply Permutation_in; [exact Hp1|now left]).
    specialize (Hmin a wa Ina). apply (Permutation_in _ (Permutation_sym Hp1)) in Hin. destruct Hin as [E|[E|[]]]; [now injection E|]. injection E as E1 E2. rewrite <- E1, <- E2 in Hmin. unfold ccount in Hmin. rewrite Ej, Ey in Hmin. specialize (Hmin ltac:(nia)). nia. }
  rewrite Hsel. f_equal. apply (IH _ (j + 1)%N y Hab Ha Hb Hs Hp2).
  - unfold count_one. rewrite Ej, mget_mset, String.eqb_refl. f_equal. unfold u32. apply N.mod_small. lia.
  - rewrite count_other; [exact Ey|congruence].
  - lia.
  - lia.
Qed.
Lemma reset_mem : forall (f : target -> option string) l a st, mget a (fold_left (fun s t => match f t with Some c => reset_count c s | None => s end) l st) =
  if existsb (fun t => match f t with Some c => String.eqb a c | None => false end) l then match mget a st with Some _ => Some 0%N | None => None end else mget a st.
Proof.
  intros f l a. induction l as [|t l IH]; intros st; [reflexivity|]. cbn [fold_left existsb]. rewrite IH. destruct (f t) as [c|]; [|reflexivity].
  destruct (String.eqb_spec a c) as [->|Hn]; [|now rewrite reset_other]. cbn [orb]. unfold reset_count. destruct (mget c st) eqn:E; rewrite ?mget_mset, ?String.eqb_refl, ?E; now destruct (existsb _ l).
Qed.
Lemma fold_concat {X Y} : forall (f : X -> Y -> X) ls s, fold_left (fun s l => fold_left f l s) ls s = fold_left f (List.concat ls) s.
Proof. intros f ls. induction ls as [|l ls IH]; intros s; [reflexivity|]. cbn [fold_left List.concat]. now rewrite fold_left_app, IH. Qed.
Lemma fold_ext {X Y} : forall (f g : X -> Y -> X) l s, (forall s y, f s y = g s y) -> fold_left f l s = fold_left g l s.
Proof. intros f g l. induction l as [|y l IH]; intros s H; [reflexivity|]. cbn [fold_left]. rewrite H. now apply IH. Qed.
(* An update that names cluster a as the only cluster of some route or TCP proxy sets its counter to zero, and b's not: then all
   the next requests of a route with weighted clusters a and b go to a, until a has caught up with all that b ever got. *)
Definition names_alone (e : event) (a : string) : Prop :=
  match e with
  | Routes cfgs => exists cfg vh, In cfg cfgs /\ In vh cfg /\ In (One a) vh
  | Listeners ls => a <> "" /\ exists l fc, In l ls /\ In fc l /\ In (One a) fc
  | _ => False
  end.
Lemma routes_mem : forall cfgs a st, mget a (routes_updated cfgs st) = if existsb (fun t => match t with One c => String.eqb a c | _ => false end) (List.concat (List.concat cfgs)) then match mget a st with Some _ => Some 0%N | None => None end else mget a st.
Proof.
  intros. unfold routes_updated. rewrite fold_concat, fold_concat. pose proof (reset_mem (fun t => match t with One c => Some c | _ => None end) (List.concat (List.concat cfgs)) a st) as H.
  rewrite (fold_ext _ (fun s t => match match t with One c => Some c | _ => None end with Some c => reset_count c s | None => s end)) by (intros s []; reflexivity). rewrite H.
  replace (existsb (fun t => match match t with One c => Some c | _ => None end with Some c => String.eqb a c | None => false end) (List.concat (List.concat cfgs))) with (existsb (fun t => match t with One c => String.eqb a c | _ => false end) (List.concat (List.concat cfgs))); [reflexivity|].
  generalize (List.concat (List.concat cfgs)). induction l as [|[c| |] l IH]; cbn [existsb]; congruence.
Qed.
Lemma listeners_mem : forall ls a st, mget a (listeners_updated ls st) = if existsb (fun t => match t with One c => if String.eqb c "" then false else String.eqb a c | _ => false end) (List.concat (List.concat ls)) then match mget a st with Some _ => Some 0%N | None => None end else mget a st.
Proof.
  intros. unfold listeners_updated. rewrite fold_concat, fold_concat. pose proof (reset_mem (fun t => match t with One c => if String.eqb c "" then None else Some c | _ => None end) (List.concat (List.concat ls)) a st) as H.
  rewrite (fold_ext _ (fun s t => match match t with One c => if String.eqb c "" then None else Some c | _ => None end with Some c => reset_count c s | None => s end)) by (intros s [c| |]; [now destruct (String.eqb c "")|reflexivity|reflexivity]). rewrite H.
  replace (existsb (fun t => match match t with One c => if String.eqb c "" then None else Some c | _ => None end with Some c => String.eqb a c | None => false end) (List.concat (List.concat ls))) with (existsb (fun t => match t with One c => if String.eqb c "" then false else String.eqb a c | _ => false end) (List.concat (List.concat ls))); [reflexivity|].
  generalize (List.concat (List.concat ls)). induction l as [|[c| |] l IH]; cbn [existsb]; [reflexivity| |congruence|congruence]. destruct (String.eqb c ""); congruence.
Qed.
Lemma alone_exists : forall (cfgs : list (list (list target))) a, (exists cfg vh, In cfg cfgs /\ In vh cfg /\ In (One a) vh) <-> In (One a) (List.concat (List.concat cfgs)).
Proof.
  intros cfgs a. rewrite in_concat. split.
  - intros (cfg & vh & H1 & H2 & H3). exists vh. split; [apply in_concat; exists cfg; auto|exact H3].
  - intros (vh & H1 & H2). apply in_concat in H1. destruct H1 as (cfg & H3 & H4). exists cfg, vh. auto.
Qed.
(* What a configuration update does to a counter: zero if the cluster is somewhere the only one, else unchanged. *)
Theorem C96_update_resets : forall pow e s a c, mget a (counts s) = Some c -> (exists cfgs, e = Routes cfgs) \/ (exists ls, e = Listeners ls) ->
  (names_alone e a -> mget a (counts (fst (step pow e s))) = Some 0%N) /\ (~ names_alone e a -> mget a (counts (fst (step pow e s))) = Some c) /\ snd (step pow e s) = [].
Proof.
  intros pow e s a c Hc [[cfgs ->]|[ls ->]]; cbn [step fst snd counts names_alone]; rewrite ?routes_mem, ?listeners_mem, Hc.
  - rewrite alone_exists. split; [|split; [|reflexivity]]; intros H.
    + replace (existsb _ _) with true; [reflexivity|]. symmetry. apply existsb_exists. exists (One a). split; [exact H|apply String.eqb_refl].
    + destruct (existsb _ _) eqn:E; [|reflexivity]. destruct H. apply existsb_exists in E. destruct E as ([c'| |] & H1 & H2); try discriminate. apply String.eqb_eq in H2. now subst.
  - rewrite alone_exists. split; [|split; [|reflexivity]]; intros H.
    + destruct H as [Hne H]. replace (existsb _ _) with true; [reflexivity|]. symmetry. apply existsb_exists. exists (One a). split; [exact H|]. destruct (String.eqb_spec a ""); [contradiction|apply String.eqb_refl].
    + destruct (existsb _ _) eqn:E; [|reflexivity]. destruct H. apply existsb_exists in E. destruct E as ([c'| |] & H1 & H2); try discriminate. destruct (String.eqb_spec c' ""); [discriminate|]. apply String.eqb_eq in H2. now subst.
Qed.
Print Assumptions C96_update_resets.
Theorem C96_reset_refuted : forall pow r a b wa wb e orders s x y, a <> b -> (0 < wa)%N -> (0 < wb)%N -> (wa + wb <= 65536)%N ->
  pending s = [] -> mget a (counts s) = Some x -> mget b (counts s) = Some y -> names_alone e a -> ~ names_alone e b ->
  Forall (Permutation [(a, wa); (b, wb)]) orders -> let n := N.of_nat (List.length orders) in (y + n < 4294967296)%N -> (n * wb < y * wa + wb)%N ->
  snd (run pow (e :: serial r [(a, wa); (b, wb)] orders) s) = repeat (r, a) (List.length orders).
Proof.
  intros pow r a b wa wb e orders s x y Hab Ha Hb Hs Hp Ea Eb Na Nb Ho n Hn Hbal. rewrite run_cons.
  assert (Hev: (exists cfgs, e = Routes cfgs) \/ (exists ls, e = Listeners ls)) by (destruct e; try contradiction; eauto).
  destruct (C96_update_resets pow e s a x Ea Hev) as (H1 & _ & H3). destruct (C96_update_resets pow e s b y Eb Hev) as (_ & H2 & _). specialize (H1 Na). specialize (H2 Nb).
  assert (Hpend: pending (fst (step pow e s)) = []) by (destruct e; try contradiction; exact Hp). rewrite H3. cbn [app snd].
  destruct (fst (step pow e s)) as [st pd]. cbn [counts pending] in *. subst pd. apply (catch_up pow r _ a b wa wb orders st 0%N y); auto; subst n; lia.
Qed.
Print Assumptions C96_reset_refuted.
Example C96_reset_refuted_ex : forall pow, snd (run pow (serial 1 [("a", 1); ("b", 1)]%N (repeat [("a", 1); ("b", 1)]%N 6) ++ Routes [[[One "a"]]] :: serial 1 [("a", 1); ("b", 1)]%N (repeat [("b", 1); ("a", 1)]%N 3))
  (mkshares [("a", 0%N); ("b", 0%N)] [])) = [(1, "a"); (1, "b"); (1, "a"); (1, "b"); (1, "a"); (1, "b"); (1, "a"); (1, "a"); (1, "a")].
Proof. intros. vm_compute. reflexivity. Qed.
(* Requests of another route that selects one of the clusters by weight count here too. *)
Theorem C96_other_route_refuted : forall pow r r' a b w wa wb orders orders' s y, a <> b -> (0 < w <= 65536)%N -> (0 < wa)%N -> (0 < wb)%N -> (wa + wb <= 65536)%N ->
  pending s = [] -> mget a (counts s) = Some 0%N -> mget b (counts s) = Some 0%N -> orders' = repeat [(b, w)] y ->
  Forall (Permutation [(a, wa); (b, wb)]) orders -> let n := N.of_nat (List.length orders) in (N.of_nat y + n < 4294967296)%N -> (n * wb < N.of_nat y * wa + wb)%N ->
  snd (run pow (serial r' [(b, w)] orders' ++ serial r [(a, wa); (b, wb)] orders) s) = (repeat (r', b) y ++ repeat (r, a) (List.length orders))%list.
Proof.
  intros pow r r' a b w wa wb orders orders' s y Hab Hw Ha Hb Hs Hp Ea Eb -> Ho n Hn Hbal. destruct s as [st pd]. cbn [counts pending] in *. subst pd.
  assert (G: forall k c st, mget a st = Some 0%N -> mget b st = Some c -> (c + N.of_nat k < 4294967296)%N -> exists st', run pow (serial r' [(b, w)] (repeat [(b, w)] k)) (mkshares st []) = (mkshares st' [], repeat (r', b) k) /\ mget a st' = Some 0%N /\ mget b st' = Some (c + N.of_nat k)%N).
  { clear - Hab Hw. induction k as [|k IH]; intros c st Ea Eb Hlen; [exists st; rewrite N.add_0_r; auto|]. rewrite Nat2N.inj_succ in Hlen. cbn [repeat]. rewrite serial_step. cbv zeta.
    assert (Hsel: fst (select_cluster (go_float pow) [(b, w)] st) = b).
    { pose proof (C28_cluster_selected pow [(b, w)] st) as H. cbv zeta in H. unfold cweights, ccounts, ccount in H. cbn [fold_right fst snd] in H. rewrite Eb in H. destruct (H ltac:(lia) ltac:(lia)) as (w' & [E|[]] & _). now injection E. }
    rewrite Hsel. destruct (IH (c + 1)%N (count_one b st)) as (st' & E1 & E2 & E3).
    - rewrite count_other; assumption.
    - unfold count_one. rewrite Eb, mget_mset, String.eqb_refl. f_equal. unfold u32. apply N.mod_small. lia.
    - lia.
    - exists st'. rewrite E1. cbn [fst snd]. rewrite E3. split; [reflexivity|]. split; [exact E2|f_equal; lia]. }
  destruct (G y 0%N st Ea Eb ltac:(lia)) as (st' & E1 & E2 & E3). rewrite run_app, E1. cbn [fst snd]. f_equal. apply (catch_up pow r _ a b wa wb orders st' 0%N (N.of_nat y)); auto; subst n; lia.
Qed.
Print Assumptions C96_other_route_refuted.
Example C96_other_route_refuted_ex : forall pow, snd (run pow (serial 2 [("b", 1)]%N (repeat [("b", 1)]%N 3) ++ serial 1 [("a", 1); ("b", 1)]%N (repeat [("b", 1); ("a", 1)]%N 3)) (mkshares [("a", 0%N); ("b", 0%N)] []))
  = [(2, "b"); (2, "b"); (2, "b"); (1, "a"); (1, "a"); (1, "a")].
Proof. intros. vm_compute. reflexivity. Qed.
(* Any number of requests that choose before one of them is counted go to the same cluster (in one order of the map). *)
Theorem C96_concurrent_refuted : forall pow r ws o k s, snd (run pow (repeat (Choose r (Weighted ws) o) k) s) = repeat (r, fst (select_cluster (go_float pow) o (counts s))) k.
Proof.
  intros pow r ws o k. induction k as [|k IH]; intros s; [reflexivity|]. cbn [repeat]. rewrite run_cons. cbn [step choose fst snd]. cbn [snd app]. rewrite IH. reflexivity.
Qed.
Print Assumptions C96_concurrent_refuted.
Example C96_concurrent_refuted_ex : forall pow, snd (run pow (repeat (Choose 1 (Weighted [("a", 1); ("b", 1)]%N) [("a", 1); ("b", 1)]%N) 4) (mkshares [("a", 0%N); ("b", 0%N)] [])) = [(1, "a"); (1, "a"); (1, "a"); (1, "a")].
Proof. intros. vm_compute. reflexivity. Qed.
(* One cluster of positive weight that is not known (the request then fails) takes all requests: those that go to known clusters
   are no more than the known clusters that had none before, whatever the weights. *)
Definition fresh_known (ws st : gmap N) : nat := List.length (filter (fun e => match mget (fst e) st with Some c => N.eqb c 0 | None => false end) ws).
Definition known_choices (st : gmap N) (log : list (nat * string)) : nat := List.length (filter (fun x => match mget (snd x) st with Some _ => true | None => false end) log).
Theorem C96_unknown_refuted : forall pow r ws orders s u w, let wm := weight_map ws in (cweights wm <= 65536)%N -> Forall (Permutation wm) orders -> pending s = [] ->
  mget u wm = Some w -> (0 < w)%N -> mget u (counts s) = None -> (ccounts wm (counts s) + N.of_nat (List.length wm) + 1 < 4294967296)%N ->
  known_choices (counts s) (snd (run pow (serial r ws orders) s)) <= fresh_known wm (counts s).
Proof.
  intros pow r ws orders s u w wm HW Ho Hp Hu Hw Hun Hlen. destruct s as [st pd]. cbn [counts pending] in *. subst pd.
  assert (Hz: (N.of_nat (fresh_known wm st) <= N.of_nat (List.length wm))%N) by (pose proof (filter_length_le (fun e => match mget (fst e) st with Some c => N.eqb c 0 | None => false end) wm); unfold fresh_known; lia).
  assert (Hinv: (ccounts wm st + N.of_nat (fresh_known wm st) + 1 < 4294967296)%N) by lia. clear Hz Hlen.
  assert (Hnd: NoDup (mkeys wm)) by apply weight_map_nodup.
  revert st Hun Hinv. induction Ho as [|o os Hperm Ho IH]; intros st Hun Hinv; [unfold known_choices; cbn; lia|]. rewrite serial_step. cbv zeta. cbn [snd].
  set (sel := fst (select_cluster (go_float pow) o st)).
  assert (EW: cweights o = cweights wm) by (symmetry; now apply cweights_perm). assert (ES: ccounts o st = ccounts wm st) by (symmetry; apply (sumk_perm (ccount st)), Hperm).
  assert (Wpos: (0 < cweights wm)%N). { apply mget_in in Hu. clear - Hu Hw. induction wm as [|e l IH]; [destruct Hu|]. unfold cweights in *. cbn [fold_right]. destruct Hu as [->|Hu]; [cbn [snd]; lia|specialize (IH Hu); lia]. }
  pose proof (C28_cluster_selected pow o st) as HS. cbv zeta in HS. rewrite EW, ES in HS. fold sel in HS. destruct (HS ltac:(lia) ltac:(lia)) as (ws' & Hin & Hws & _ & Hmin). clear HS.
  assert (Hino: In (u, w) o) by (eapply Permutation_in; [exact Hperm|now apply mget_in]). specialize (Hmin u w Hino). unfold ccount in Hmin at 1 3. rewrite Hun in Hmin. specialize (Hmin ltac:(lia)).
  assert (Hcs: ccount st sel = 0%N) by (destruct (ccount st sel); [reflexivity|exfalso; nia]). pose proof (mget_perm wm o sel ws' Hperm Hnd Hin) as Hgs.
  unfold ccount in Hcs. unfold known_choices. cbn [filter snd]. destruct (mget sel st) as [c|] eqn:Es.
  - subst c. assert (Ec: count_one sel st = mset sel 1%N st) by (unfold count_one; now rewrite Es). rewrite Ec. cbn [List.length].
    assert (Hne: u <> sel) by congruence.
    assert (Ek: forall log, filter (fun x : nat * string => match mget (snd x) (mset sel 1%N st) with Some _ => true | None => false end) log = filter (fun x => match mget (snd x) st with Some _ => true | None => false end) log).
    { intros log. apply filter_ext. intros [i x]. cbn [snd]. rewrite mget_mset. destruct (String.eqb_spec x sel) as [->|]; [now rewrite Es|reflexivity]. }
    assert (Ef: S (fresh_known wm (mset sel 1%N st)) = fresh_known wm st).
    { assert (Ik: In sel (mkeys wm)) by (apply in_map_iff; exists (sel, ws'); split; [reflexivity|now apply mget_in]). clear - Hnd Ik Es. unfold fresh_known. induction wm as [|[b wb] l IHl]; [destruct Ik|]. cbn in Hnd. inversion Hnd as [|? ? Hni Hnd']; subst. cbn [filter fst]. rewrite mget_mset. destruct (String.eqb_spec b sel) as [->|Hb].
      - rewrite Es. cbn [N.eqb List.length]. f_equal. f_equal. apply filter_ext_in. intros [x wx] Hx. cbn [fst]. rewrite mget_mset. destruct (String.eqb_spec x sel) as [->|]; [|reflexivity]. destruct Hni. apply in_map_iff. exists (sel, wx). auto.
      - assert (Ik': In sel (mkeys l)) by (destruct Ik as [E|Ik']; [cbn in E; congruence|exact Ik']). specialize (IHl Hnd' Ik'). destruct (match mget b st with Some c => N.eqb c 0 | None => false end); cbn [List.length]; lia. }
    assert (Esum: ccounts wm (mset sel 1%N st) = (ccounts wm st + 1)%N).
    { assert (Ik: In sel (mkeys wm)) by (apply in_map_iff; exists (sel, ws'); split; [reflexivity|now apply mget_in]). change (ccounts wm (mset sel 1%N st)) with (sumk (ccount (mset sel 1%N st)) wm). change (ccounts wm st) with (sumk (ccount st) wm). rewrite <- (sumk_add _ sel wm Hnd Ik). apply sumk_ext. intros a _. unfold ccount. rewrite mget_mset. destruct (String.eqb_spec a sel) as [->|]; [now rewrite Es|lia]. }
    specialize (IH (mset sel 1%N st)). rewrite mget_mset in IH. destruct (String.eqb_spec u sel) as [|_]; [contradiction|]. specialize (IH Hun ltac:(lia)). unfold known_choices in IH. rewrite Ek in IH. lia.
  - assert (Ec: count_one sel st = st) by (unfold count_one; now rewrite Es). rewrite Ec. apply (IH st Hun Hinv).
Qed.
Print Assumptions C96_unknown_refuted.
Example C96_unknown_refuted_ex : forall pow, snd (run pow (serial 1 [("a", 90); ("gone", 1)]%N (repeat [("gone", 1); ("a", 90)]%N 4)) (mkshares [("a", 0%N)] [])) = [(1, "a"); (1, "gone"); (1, "gone"); (1, "gone")]
  /\ fresh_known (weight_map [("a", 90); ("gone", 1)]%N) [("a", 0%N)] = 1.
Proof. intros. split; vm_compute; reflexivity. Qed.
(* Of several entries with one name only the last one counts (their weights are not added). *)
Theorem C96_last_entry_refuted : forall ws1 a w ws2, ~ In a (map fst ws2) -> mget a (weight_map (ws1 ++ (a, w) :: ws2)) = Some w.
Proof.
  intros ws1 a w ws2 H. unfold weight_map. rewrite fold_left_app. cbn [fold_left fst snd]. generalize (fold_left (fun m e => mset (fst e) (snd e) m) ws1 []). intros m.
  rewrite (fold_keep (fun m e => mset (fst e) (snd e) m) a ws2); [now rewrite mget_mset, String.eqb_refl|]. intros s [b wb] Hin. cbn [fst snd]. rewrite mget_mset. destruct (String.eqb_spec a b) as [->|]; [|reflexivity]. destruct H. apply in_map_iff. exists (b, wb). auto.
Qed.
Print Assumptions C96_last_entry_refuted.
Example C96_last_entry_refuted_ex : mget "a" (weight_map [("a", 9); ("b", 1); ("a", 1)]%N) = Some 1%N.
Proof. reflexivity. Qed.
(* C96_shares is not vacuous: two routes, a configuration update, and two choices at a time. *)
Example C96_shares_ex : forall pow, let ws := [("a", 3); ("b", 1)]%N in let o := [("b", 1); ("a", 3)]%N in
  let h := [Choose 1 (Weighted ws) o; Choose 1 (Weighted ws) o; Count 0; Count 0; Routes [[[One "c"; Weighted ws]]]; Choose 2 (Weighted [("d", 1%N)]) [("d", 1%N)]; Choose 1 (Weighted ws) o; Count 1; Clusters ["a"; "b"; "c"]; Count 0; Choose 1 (Weighted ws) o; Count 0] in
  let s := mkshares [("a", 0%N); ("b", 0%N); ("c", 0%N); ("d", 0%N)] [] in
  Forall (calm 1 ws) h /\ snd (run pow h s) = [(1, "a"); (1, "a"); (2, "d"); (1, "b"); (1, "a")] /\ cweights (weight_map ws) = 4%N /\ ~ In "" (map fst ws).
Proof.
  intros. split; [|split; [vm_compute; reflexivity|split; [reflexivity|cbn; intuition discriminate]]]. subst h.
  assert (H1: calm 1 ws (Choose 1 (Weighted ws) o)) by (split; [apply Permutation_refl|split; [reflexivity|congruence]]).
  assert (H2: calm 1 ws (Choose 2 (Weighted [("d", 1%N)]) [("d", 1%N)])) by (split; [apply Permutation_refl|split; [discriminate|intros _ a Ha Hb; cbn in Ha, Hb; intuition (subst; discriminate)]]).
  assert (H3: calm 1 ws (Routes [[[One "c"; Weighted ws]]])) by (intros cfg vh a [<-|[]] [<-|[]] Ha Hin; cbn in Ha, Hin; destruct Hin as [E|[E|[]]]; [injection E as <-; intuition discriminate|discriminate]).
  assert (H4: calm 1 ws (Clusters ["a"; "b"; "c"])) by (intros a Ha; cbn in *; tauto).
  repeat (apply Forall_cons; [first [exact H1|exact H2|exact H3|exact H4|exact I]|]). apply Forall_nil.
Qed.
