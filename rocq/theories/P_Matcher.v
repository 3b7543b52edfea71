(* C41: string matchers decide their relation. *)
From Coq Require Import String List Ascii Bool Arith Lia.
From Verif Require Import M_GoStr L_GoStr M_Matcher.
Import ListNotations.
Open Scope list_scope.
(* ---------- specification ---------- *)
(* two bytes equal up to ASCII letter case *)
Definition ci_eq (a b : ascii) : Prop :=
  a = b \/ (65 <= nat_of_ascii a <= 90 /\ nat_of_ascii b = nat_of_ascii a + 32)%nat \/ (65 <= nat_of_ascii b <= 90 /\ nat_of_ascii a = nat_of_ascii b + 32)%nat.
Definition same_text (ic : bool) (a b : gstr) : Prop := if ic then Forall2 ci_eq a b else a = b.
Definition ascii_text (s : gstr) : Prop := Forall (fun c => nat_of_ascii c < 128)%nat s.
Inductive relation := RExact | RPrefix | RSuffix | RContains.
Definition rel_name (r : relation) : gstr := match r with RExact => lit "EXACT" | RPrefix => lit "PREFIX" | RSuffix => lit "SUFFIX" | RContains => lit "CONTAINS" end.
(* input s stands in relation r to the configured value v *)
Definition in_relation (ic : bool) (r : relation) (v s : gstr) : Prop :=
  match r with
  | RExact => same_text ic v s
  | RPrefix => exists p t, s = p ++ t /\ same_text ic v p
  | RSuffix => exists t p, s = t ++ p /\ same_text ic v p
  | RContains => exists a p b, s = a ++ p ++ b /\ same_text ic v p
  end.
(* a regular expression library finds the leftmost-longest match of the language Lg r w i j (r matches w from i to j) *)
Definition leftmost_longest (L : mlib) (Lg : re L -> gstr -> nat -> nat -> Prop) : Prop :=
  forall r w, match re_find L r w with
  | Some (i, j) => Lg r w i j /\ (i <= j <= length w)%nat /\ (forall i' j', Lg r w i' j' -> (i <= i')%nat /\ (i' = i -> (j' <= j)%nat))
  | None => forall i j, ~ Lg r w i j
  end.
(* ---------- lemmas ---------- *)
Lemma nat_ascii_inj : forall a b, nat_of_ascii a = nat_of_ascii b -> a = b.
Proof. intros a b H. rewrite <- (ascii_nat_embedding a), <- (ascii_nat_embedding b), H. reflexivity. Qed.
Lemma lower_val : forall a, nat_of_ascii (lower_ascii a) = if is_upper a then (nat_of_ascii a + 32)%nat else nat_of_ascii a.
Proof.
  intros a. unfold lower_ascii. destruct (is_upper a) eqn:E; [|reflexivity]. apply nat_ascii_embedding. unfold is_upper in E. apply andb_prop in E. destruct E as (E1 & E2). apply Nat.leb_le in E1, E2. lia.
Qed.
Lemma lower_ci : forall a b, lower_ascii a = lower_ascii b <-> ci_eq a b.
Proof.
  intros a b. split.
  - intros H. pose proof (f_equal nat_of_ascii H) as E. rewrite !lower_val in E. unfold ci_eq. unfold is_upper in E.
    destruct (Nat.leb_spec 65 (nat_of_ascii a)), (Nat.leb_spec (nat_of_ascii a) 90), (Nat.leb_spec 65 (nat_of_ascii b)), (Nat.leb_spec (nat_of_ascii b) 90); cbn [andb] in E; try (left; apply nat_ascii_inj; lia); try (right; lia); left; apply nat_ascii_inj; lia.
  - intros H. apply nat_ascii_inj. rewrite !lower_val. unfold is_upper. destruct H as [->|H]; [reflexivity|].
    destruct (Nat.leb_spec 65 (nat_of_ascii a)), (Nat.leb_spec (nat_of_ascii a) 90), (Nat.leb_spec 65 (nat_of_ascii b)), (Nat.leb_spec (nat_of_ascii b) 90); cbn [andb]; lia.
Qed.
Lemma map_lower : forall a b, map lower_ascii a = map lower_ascii b <-> Forall2 ci_eq a b.
Proof.
  induction a as [|x a IH]; intros [|y b]; cbn; split; intros H; try discriminate; try inversion H; subst; auto.
  - constructor; [now apply lower_ci|now apply IH].
  - f_equal; [now apply lower_ci|now apply IH].
Qed.
Lemma map_app_split : forall (f : ascii -> ascii) s x y, map f s = x ++ y -> exists p t, s = p ++ t /\ map f p = x /\ map f t = y.
Proof. intros f s x y H. apply map_eq_app in H. destruct H as (p & t & H1 & H2 & H3). eauto. Qed.
Lemma ascii_lower : forall u s, ascii_text s -> gto_lower u s = map lower_ascii s.
Proof.
  intros u s H. unfold gto_lower. assert (E: forallb is_ascii s = true). { apply forallb_forall. intros c Hc. unfold is_ascii. apply Nat.ltb_lt. unfold ascii_text in H. rewrite Forall_forall in H. auto. } now rewrite E.
Qed.
Section P.
Variable L : mlib.
Lemma fold_same : forall ic a b, (ic = true -> ascii_text a /\ ascii_text b) -> fold_case L ic a = fold_case L ic b <-> same_text ic a b.
Proof.
  intros [|] a b H; cbn; [|tauto]. destruct (H eq_refl) as (Ha & Hb). rewrite !ascii_lower by assumption. apply map_lower.
Qed.
Lemma fold_split : forall ic s x y, (ic = true -> ascii_text s) -> fold_case L ic s = x ++ y -> exists p t, s = p ++ t /\ fold_case L ic p = x /\ fold_case L ic t = y.
Proof.
  intros [|] s x y H E; cbn in *.
  - specialize (H eq_refl). rewrite ascii_lower in E by assumption. destruct (map_app_split _ _ _ _ E) as (p & t & -> & <- & <-). apply Forall_app in H. destruct H. exists p, t. rewrite !ascii_lower by assumption. auto.
  - eauto.
Qed.
Lemma fold_app : forall ic p t, (ic = true -> ascii_text (p ++ t)) -> fold_case L ic (p ++ t) = fold_case L ic p ++ fold_case L ic t.
Proof.
  intros [|] p t H; cbn; [|reflexivity]. specialize (H eq_refl). pose proof (proj1 (Forall_app _ _ _) H) as (Hp & Ht). rewrite !ascii_lower by assumption. apply map_app.
Qed.
Ltac asc := intros; match goal with H : ?x = true -> _, E : ?x = true |- _ => specialize (H E) end; unfold ascii_text in *; rewrite ?Forall_app in *; tauto.
(* A matcher created for one of the four relations accepts exactly the strings in that relation to the configured value. *)
Theorem C41_match_iff_relation : forall r v ic m s, new_matcher L (rel_name r) v ic = Some m -> (ic = true -> ascii_text v /\ ascii_text s) ->
  (matcher_match L m s = true <-> in_relation ic r v s).
Proof.
  intros r v ic m s Hm Ha. assert (Hv: ic = true -> ascii_text v) by (intros; now apply Ha). assert (Hs: ic = true -> ascii_text s) by (intros; now apply Ha).
  unfold new_matcher, set_matcher in Hm. destruct r; cbn in Hm; injection Hm as <-; unfold matcher_match; cbn [mt_kind mt_ignore in_relation].
  - rewrite geqb_eq. rewrite <- fold_same by assumption. split; congruence.
  - rewrite ghas_prefix_spec. split.
    + intros (t & H). destruct (fold_split _ _ _ _ Hs H) as (p & t' & -> & H1 & H2). exists p, t'. split; [reflexivity|]. apply fold_same; [|now symmetry]. asc.
    + intros (p & t & -> & H). exists (fold_case L ic t). rewrite fold_app by assumption. f_equal. symmetry. apply fold_same; [|assumption]. asc.
  - rewrite ghas_suffix_spec. split.
    + intros (t & H). destruct (fold_split _ _ _ _ Hs H) as (t' & p & -> & H1 & H2). exists t', p. split; [reflexivity|]. apply fold_same; [|now symmetry]. asc.
    + intros (t & p & -> & H). exists (fold_case L ic t). rewrite fold_app by assumption. f_equal. symmetry. apply fold_same; [|assumption]. asc.
  - rewrite gcontains_spec. split.
    + intros (a & b & H). destruct (fold_split _ _ _ _ Hs H) as (a' & q & -> & H1 & H2). apply fold_split in H2; [|asc]. destruct H2 as (p & b' & -> & H2 & H3). exists a', p, b'. split; [reflexivity|]. apply fold_same; [|now symmetry]. asc.
    + intros (a & p & b & -> & H). exists (fold_case L ic a), (fold_case L ic b). rewrite !fold_app; [|asc|asc]. f_equal. f_equal. symmetry. apply fold_same; [|assumption]. asc.
Qed.
(* creation always succeeds for these relations *)
Theorem C41_new_total : forall r v ic, exists m, new_matcher L (rel_name r) v ic = Some m.
Proof. intros [] v ic; eexists; reflexivity. Qed.
(* the XDS constructor builds the same matchers *)
Theorem C41_xds_same : forall v ic, matcher_from_xds L (Some (XExact v, ic)) = new_matcher L (rel_name RExact) v ic /\ matcher_from_xds L (Some (XPrefix v, ic)) = new_matcher L (rel_name RPrefix) v ic /\
  matcher_from_xds L (Some (XSuffix v, ic)) = new_matcher L (rel_name RSuffix) v ic /\ matcher_from_xds L (Some (XContains v, ic)) = new_matcher L (rel_name RContains) v ic.
Proof. auto. Qed.
(* A regular expression matcher accepts a string iff the expression matches the whole of it. *)
Theorem C41_regex_whole : forall Lg v m s r, leftmost_longest L Lg -> new_matcher L (lit "REGEX") v false = Some m -> re_compile L v = Some r -> (matcher_match L m s = true <-> Lg r s 0%nat (length s)).
Proof.
  intros Lg v m s r Hl Hm Hr. unfold new_matcher, set_matcher in Hm. cbn in Hm. unfold fold_case in Hm. rewrite Hr in Hm. injection Hm as <-. unfold matcher_match. cbn [mt_kind mt_ignore fold_case]. unfold fold_case. unfold re_find_string.
  specialize (Hl r s). destruct (re_find L r s) as [[i j]|] eqn:E.
  - destruct Hl as (H1 & H2 & H3). destruct (Nat.eqb_spec (length s) 0) as [H0|H0].
    + split; [|reflexivity]. intros _. replace i with 0%nat in H1 by lia. replace j with (length s) in H1 by lia. exact H1.
    + rewrite Nat.eqb_eq, firstn_length, skipn_length. split.
      * intros H. assert (i = 0%nat) by lia. assert (j = length s) by lia. subst. exact H1.
      * intros H. destruct (H3 _ _ H) as (A & B). assert (i = 0%nat) by lia. subst i. specialize (B eq_refl). lia.
  - split; [|intros H; now apply Hl in H]. destruct (Nat.eqb_spec (length s) 0) as [H0|H0]; [discriminate|]. intros H. apply Nat.eqb_eq in H. cbn [length] in H. lia.
Qed.
(* parsing "TYPE:flag:value" gives the matcher of that type, flag and value (the value may contain colons) *)
Theorem C41_parse : forall ty flag v, ~ In ":"%char ty -> ~ In ":"%char flag ->
  matcher_from_string L (ty ++ ":"%char :: flag ++ ":"%char :: v) = new_matcher L ty v (negb (geqb flag []) && negb (geqb flag (lit "0"))).
Proof.
  intros ty flag v H1 H2. unfold matcher_from_string, gsplitn. change (3 - 1)%nat with 2%nat. rewrite gsplitc_app by assumption. rewrite gsplitc_app by assumption. reflexivity.
Qed.
(* The printed form of a matcher does not parse: it has no flag field. *)
Theorem C41_string_roundtrip_refuted : forall r v m, new_matcher L (rel_name r) v false = Some m -> ~ In ":"%char v -> matcher_from_string L (matcher_string L m) = None.
Proof.
  intros r v m Hm Hv. unfold new_matcher, set_matcher in Hm. destruct r; cbn in Hm; injection Hm as <-; unfold matcher_string; cbn [mt_kind]; unfold matcher_from_string, gsplitn; change (3 - 1)%nat with 2%nat;
  rewrite gsplitc_app by (cbn; intuition discriminate); unfold fold_case; rewrite gsplitc_nosep by assumption; reflexivity.
Qed.
End P.
Print Assumptions C41_match_iff_relation.
Print Assumptions C41_new_total.
Print Assumptions C41_xds_same.
Print Assumptions C41_regex_whole.
Print Assumptions C41_parse.
Print Assumptions C41_string_roundtrip_refuted.
(* a small regular expression library: literals, \d and \D for one digit / non digit *)
Inductive tre := TLit (v : gstr) | TDig | TNon.
Definition is_digit (a : ascii) : bool := ((48 <=? nat_of_ascii a) && (nat_of_ascii a <=? 57))%nat.
Definition tcompile (v : gstr) : option tre := Some (if geqb v (lit "\d") then TDig else if geqb v (lit "\D") then TNon else TLit v).
Definition tmatch_at (r : tre) (w : gstr) : option nat :=
  match r, w with
  | TLit v, _ => if ghas_prefix w v then Some (length v) else None
  | TDig, c :: _ => if is_digit c then Some 1%nat else None
  | TNon, c :: _ => if is_digit c then None else Some 1%nat
  | _, [] => None
  end.
Fixpoint tfind (r : tre) (k : nat) (w : gstr) : option (nat * nat) :=
  match tmatch_at r w with Some n => Some (k, k + n)%nat | None => match w with [] => None | _ :: w' => tfind r (S k) w' end end.
Definition toylib : mlib := mkmlib tre tcompile (fun r => match r with TLit v => v | TDig => lit "\d" | TNon => lit "\D" end) (fun r w => tfind r 0 w) (fun v s => geqb v s) (fun s => s).
Definition tlang (r : tre) (w : gstr) (i j : nat) : Prop := (i <= length w)%nat /\ exists n, tmatch_at r (skipn i w) = Some n /\ j = (i + n)%nat.
Lemma tmatch_len : forall r w n, tmatch_at r w = Some n -> (n <= length w)%nat.
Proof.
  intros [v| |] w n; cbn.
  - destruct (ghas_prefix w v) eqn:E; [|discriminate]. intros H; injection H as <-. apply ghas_prefix_spec in E. destruct E as (t & ->). rewrite app_length. lia.
  - destruct w as [|c w]; [discriminate|]. destruct (is_digit c); intros H; inversion H. cbn. lia.
  - destruct w as [|c w]; [discriminate|]. destruct (is_digit c); intros H; inversion H. cbn. lia.
Qed.
Lemma toylib_ok : leftmost_longest toylib tlang.
Proof.
  intros r w. cbn [re_find toylib].
  assert (G: forall w k, match tfind r k w with Some (i, j) => (k <= i)%nat /\ (exists n, tmatch_at r (skipn (i - k) w) = Some n /\ j = (i + n)%nat) /\ (i <= j <= k + length w)%nat /\ forall i', (i' < i - k)%nat -> tmatch_at r (skipn i' w) = None | None => forall i', (i' <= length w)%nat -> tmatch_at r (skipn i' w) = None end).
  { clear w. induction w as [|c w IH]; intros k; cbn [tfind].
    - destruct (tmatch_at r []) as [n|] eqn:E; [|intros [|i'] H; cbn in *; [assumption|lia]]. pose proof (tmatch_len _ _ _ E). rewrite Nat.sub_diag. cbn in *. repeat split; try lia; eauto; try (intros; lia).
    - destruct (tmatch_at r (c :: w)) as [n|] eqn:E.
      + pose proof (tmatch_len _ _ _ E). rewrite Nat.sub_diag. cbn [skipn]. cbn in H. repeat split; cbn; try lia; eauto; try (intros; lia).
      + specialize (IH (S k)). destruct (tfind r (S k) w) as [[i j]|].
        * destruct IH as (H1 & (n & H2 & ->) & H3 & H4). split; [lia|]. split; [exists n; split; [|reflexivity]; replace (i - k)%nat with (S (i - S k)) by lia; exact H2|]. split; [cbn; lia|]. intros [|i'] Hi; [exact E|]. apply H4. lia.
        * intros [|i'] Hi; [exact E|]. apply IH. cbn in Hi. lia. }
  specialize (G w 0%nat). destruct (tfind r 0 w) as [[i j]|].
  - destruct G as (_ & (n & H2 & ->) & H3 & H4). rewrite Nat.sub_0_r in *. split; [split; [lia|eauto]|]. split; [lia|]. intros i' j' (Hi & n' & H5 & ->).
    assert (i <= i')%nat. { destruct (Nat.le_gt_cases i i'); [assumption|]. rewrite H4 in H5 by assumption. discriminate. } split; [assumption|]. intros ->. assert (n' = n) by congruence. lia.
  - intros i j (Hi & n & H & _). rewrite G in H by assumption. discriminate.
Qed.
Example C41_regex_whole_ex : exists m, new_matcher toylib (lit "REGEX") (lit "\D") false = Some m /\ leftmost_longest toylib tlang /\ matcher_match toylib m (lit "x") = true /\ matcher_match toylib m (lit "xy") = false.
Proof. eexists. split; [reflexivity|]. split; [apply toylib_ok|]. split; reflexivity. Qed.
Example C41_ex : exists m, new_matcher toylib (rel_name RPrefix) (lit "/Api") true = Some m /\ matcher_match toylib m (lit "/aPI/v1") = true /\ matcher_match toylib m (lit "/ap") = false /\ in_relation true RPrefix (lit "/Api") (lit "/aPI/v1").
Proof.
  eexists. split; [reflexivity|]. split; [reflexivity|]. split; [reflexivity|]. exists (lit "/aPI"), (lit "/v1"). split; [reflexivity|]. repeat (apply Forall2_cons; [unfold ci_eq; first [left; reflexivity|right; cbn; lia]|]). apply Forall2_nil.
Qed.
Example C41_parse_ex : exists m, matcher_from_string toylib (lit "SUFFIX:1:x:Y") = Some m /\ matcher_match toylib m (lit "AX:y") = true.
Proof. eexists. split; reflexivity. Qed.
(* With ignore-case the code lower-cases the pattern, which turns \D into \d: a digit then matches and a letter does not. *)
Theorem C41_regex_ignore_case_refuted : exists m0 m1, new_matcher toylib (lit "REGEX") (lit "\D") false = Some m0 /\ new_matcher toylib (lit "REGEX") (lit "\D") true = Some m1 /\
  matcher_match toylib m0 (lit "x") = true /\ matcher_match toylib m1 (lit "x") = false /\ matcher_match toylib m0 (lit "7") = false /\ matcher_match toylib m1 (lit "7") = true.
Proof. eexists _, _. repeat split; reflexivity. Qed.
Print Assumptions C41_regex_ignore_case_refuted.
