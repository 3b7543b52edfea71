(* C28: weighted cluster selection in IEEE-754 binary64. *)
From Coq Require Import String List Bool NArith ZArith QArith Lia SpecFloat.
From Verif Require Import M_GoMap L_GoMap M_AdsLb P_AdsLb.
From Verif Require L_Float6.
Import ListNotations.
Close Scope Q_scope.
Open Scope nat_scope.
Open Scope string_scope.
(* Weights of positive sum W up to 65536, T connections including this one, no counter overflow: a cluster of positive
   weight is selected which has had at most its share w/W of them, and no cluster still below its share has a smaller
   count relative to its weight. *)
Theorem C28_cluster_selected : forall pow ws st, let W := cweights ws in let T := (ccounts ws st + 1)%N in (0 < W <= 65536)%N -> (T < 4294967296)%N ->
  exists w, In (fst (select_cluster (go_float pow) ws st), w) ws /\ (0 < w)%N /\ (W * ccount st (fst (select_cluster (go_float pow) ws st)) <= w * T)%N /\
    forall b wb, In (b, wb) ws -> (W * ccount st b < wb * T)%N -> (ccount st (fst (select_cluster (go_float pow) ws st)) * wb <= ccount st b * w)%N.
Proof.
  intros pow ws st W T HW HT. assert (Hne: ws <> []) by (intros ->; subst W; cbn in HW; lia). unfold select_cluster.
  replace (match ws with [] => _ | _ => _ end) with (let sel := fst (snd (fold_left (sel_visit (go_float pow) (fold_left (fun n e => u32 (n + snd e)) ws 0%N) (u32 (fold_left (fun n e => u32 (n + match mget (fst e) st with Some c => c | None => 0 end)) ws 0 + 1)%N) st) ws (fmax (go_float pow), ("", 0%N)))) in (sel, match mget sel st with Some c => mset sel (u32 (c + 1)) st | None => st end)) by (destruct ws; [congruence|reflexivity]). cbv zeta. cbn [fst].
  assert (HW0: fold_left (fun n e => u32 (n + snd e)) ws 0%N = W). { rewrite (u32_idem_fold snd). fold (cweights ws). unfold u32. rewrite N.mod_small; [reflexivity|subst W; lia]. }
  assert (HT0: u32 (fold_left (fun n e => u32 (n + match mget (fst e) st with Some c => c | None => 0 end)) ws 0 + 1)%N = T).
  { pose proof (u32_idem_fold (fun e : string * N => ccount st (fst e)) ws) as Hcc. unfold ccount at 1 in Hcc. rewrite Hcc. fold (ccounts ws st). unfold u32. rewrite N.add_mod_idemp_l by discriminate. now rewrite N.mod_small. }
  rewrite HW0, HT0. clear HW0 HT0.
  assert (Hw1: forall ls e, In e ls -> (snd e <= cweights ls)%N) by (clear; induction ls as [|x ls IH]; intros e []; unfold cweights in *; cbn [fold_right]; [subst; lia|specialize (IH e H); lia]).
  assert (Hc1: forall ls e, In e ls -> (ccount st (fst e) <= ccounts ls st)%N) by (clear; induction ls as [|x ls IH]; intros e []; unfold ccounts in *; cbn [fold_right]; [subst; lia|specialize (IH e H); lia]).
  assert (Hok: Forall (L_Float6.okw st) ws). { apply Forall_forall. intros e He. specialize (Hw1 ws e He). specialize (Hc1 ws e He). split; [subst W; lia|]. change (L_Float6.cnt st (fst e)) with (ccount st (fst e)). subst T. lia. }
  assert (Hex: exists e, In e ws /\ (W * L_Float6.cnt st (fst e) < snd e * T)%N).
  { assert (D: (exists e, In e ws /\ (W * ccount st (fst e) < snd e * T)%N) \/ forall e, In e ws -> (snd e * T <= W * ccount st (fst e))%N).
    { clearbody W T. clear. induction ws as [|x ws IH]; [right; intros e []|]. destruct IH as [(e & H1 & H2)|H]; [left; exists e; split; [now right|exact H2]|]. destruct (N.le_gt_cases (snd x * T) (W * ccount st (fst x))) as [Hx|Hx]; [right; intros e [<-|He]; [exact Hx|now apply H]|left; exists x; split; [now left|exact Hx]]. }
    destruct D as [D|D]; [exact D|exfalso]. assert (B: forall ls, incl ls ws -> (cweights ls * T <= W * ccounts ls st)%N). { clear - D. induction ls as [|x ls IH]; intros Hi; [cbn; lia|]. unfold cweights, ccounts in *. cbn [fold_right]. specialize (IH (fun y Hy => Hi y (or_intror Hy))). specialize (D x (Hi x (or_introl eq_refl))). lia. }
    specialize (B ws (incl_refl _)). fold W in B. subst T. nia. }
  destruct (L_Float6.sel_spec pow W T st HW ltac:(subst T; lia) ws Hok Hex) as (H1 & H2 & H3 & H4). cbv zeta in *.
  destruct (snd (fold_left (sel_visit (go_float pow) W T st) ws (fmax (go_float pow), ("", 0%N)))) as [s w]. cbn [fst snd] in *. exists w. split; [exact H1|]. split; [exact H2|]. split; [exact H3|]. intros b wb Hb Hlt. exact (H4 (b, wb) Hb Hlt).
Qed.
Print Assumptions C28_cluster_selected.
Example C28_cluster_selected_ex : forall pow, cweights [("a", 3); ("b", 1); ("z", 0)]%N = 4%N /\ ccounts [("a", 3); ("b", 1); ("z", 0)]%N [("a", 2); ("b", 1); ("z", 0)]%N = 3%N /\
  select_cluster (go_float pow) [("a", 3); ("b", 1); ("z", 0)]%N [("a", 2); ("b", 1); ("z", 0)]%N = ("a", [("a", 3); ("b", 1); ("z", 0)]%N).
Proof. intros. vm_compute. auto. Qed.
