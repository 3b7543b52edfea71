(* C76: PII detection. *)
From Coq Require Import String List Ascii Bool Arith Lia Permutation Sorted.
From Verif Require Import M_GoStr M_Regex S_Regex L_Regex M_Pii.
Import ListNotations.
Open Scope list_scope.
Notation star := "*"%char.
Notation eqc := "="%char.

(* ---- occurrences ---- *)
Lemma skipn_add : forall (b a : nat) (l : gstr), skipn a (skipn b l) = skipn (b + a) l.
Proof. induction b as [|b IH]; intros a l; [reflexivity|]. destruct l; [now destruct a|]. apply IH. Qed.
Lemma at_split : forall r s i j, matches_at r s i j <-> exists w u v, s = w ++ u ++ v /\ i = length w /\ j = length w + length u /\ matches r (rev w) u v.
Proof.
  intros r s i j. split.
  - intros [[H1 H2] M]. exists (firstn i s), (firstn (j - i) (skipn i s)), (skipn j s). repeat split; auto.
    + rewrite <- (firstn_skipn i s) at 1. f_equal. rewrite <- (firstn_skipn (j - i) (skipn i s)) at 1. f_equal. rewrite skipn_add. f_equal. lia.
    + rewrite firstn_length. lia.
    + rewrite !firstn_length, skipn_length. lia.
  - intros (w & u & v & -> & -> & -> & M). split; [rewrite !app_length; lia|].
    rewrite firstn_app, firstn_all, Nat.sub_diag, firstn_O, app_nil_r. rewrite skipn_app, skipn_all, Nat.sub_diag, skipn_O. cbn [app].
    replace (length w + length u - length w) with (length u) by lia. rewrite firstn_app, firstn_all, Nat.sub_diag, firstn_O, app_nil_r.
    replace (skipn (length w + length u) (w ++ u ++ v)) with v; [exact M|]. rewrite app_assoc, skipn_app, app_length.
    replace (length w + length u - (length w + length u)) with 0 by lia. rewrite skipn_all2 by (rewrite app_length; lia). reflexivity.
Qed.
Definition nonempty (r : rx) : bool := needs (fun _ => true) r.
Lemma nonempty_lt : forall r s i j, nonempty r = true -> matches_at r s i j -> i < j.
Proof.
  intros r s i j N M. apply at_split in M. destruct M as (w & u & v & -> & -> & -> & M). destruct (needs_sound _ _ _ _ _ N M) as (a & Ha & _).
  destruct u; [contradiction|]. cbn. lia.
Qed.
Lemma rall_spec : forall r, nonempty r = true -> forall fuel post pre, length post < fuel ->
  (forall i j, In (i, j) (rall fuel r pre post) -> length pre <= i < j /\ matches_at r (rev pre ++ post) i j)
  /\ StronglySorted (fun a b => snd a <= fst b) (rall fuel r pre post)
  /\ (forall i j, length pre <= i -> matches_at r (rev pre ++ post) i j -> exists a b, In (a, b) (rall fuel r pre post) /\ a < j /\ i < b).
Proof.
  intros r N. induction fuel as [|f IH]; intros post pre Hl; [lia|]. cbn [rall]. destruct (rfind r pre post) as [m|] eqn:E.
  - apply rfind_some in E. destruct E as (w & u & v & c & -> & -> & M & L). cbn [mt_pre mt_to mt_post].
    assert (Hu : 0 < length u). { destruct (needs_sound _ _ _ _ _ N M) as (a & Ha & _). destruct u; [contradiction|cbn; lia]. }
    destruct (IH v (rev u ++ rev w ++ pre)) as (I1 & I2 & I3); [rewrite !app_length in Hl; lia|].
    assert (Es : rev (rev u ++ rev w ++ pre) ++ v = rev pre ++ w ++ u ++ v) by (rewrite !rev_app_distr, !rev_involutive, <- !app_assoc; reflexivity).
    rewrite Es in I1, I3. assert (Lw : length (rev w ++ pre) = length pre + length w) by (rewrite app_length, rev_length; lia).
    assert (Lu : length (rev u ++ rev w ++ pre) = length pre + length w + length u) by (rewrite app_length, rev_length, Lw; lia).
    rewrite Lw, Lu. split; [|split].
    + intros i j [X|X].
      * inversion X; subst. split; [lia|]. apply at_split. exists (rev pre ++ w), u, v. rewrite rev_app_distr, rev_involutive, app_length, rev_length, <- app_assoc. auto.
      * apply I1 in X. rewrite Lu in X. destruct X as [X1 X2]. split; [lia|exact X2].
    + constructor; [exact I2|]. apply Forall_forall. intros [i j] X. apply I1 in X. rewrite Lu in X. cbn. lia.
    + intros i j Hi Mi. destruct (Nat.lt_ge_cases i (length pre + length w)) as [C|C].
      * exfalso. apply at_split in Mi. destruct Mi as (w' & u' & v' & Es' & -> & -> & Mi).
        (* w' = rev pre ++ w'' *)
        assert (X : exists w'', w' = rev pre ++ w''). { exists (skipn (length pre) w'). rewrite <- (firstn_skipn (length pre) w') at 1. f_equal.
          apply (f_equal (firstn (length pre))) in Es'. rewrite firstn_app, firstn_all2 in Es' by (rewrite rev_length; lia).
          rewrite rev_length, Nat.sub_diag, firstn_O, app_nil_r in Es'. rewrite firstn_app in Es'. replace (length pre - length w') with 0 in Es' by lia.
          rewrite firstn_O, app_nil_r in Es'. now symmetry. }
        destruct X as [w'' ->]. rewrite <- app_assoc in Es'. apply app_inv_head in Es'. rewrite app_length, rev_length in C.
        eapply (L w'' u' v'); [exact Es'|lia|]. now rewrite rev_app_distr, rev_involutive in Mi.
      * destruct (Nat.lt_ge_cases i (length pre + length w + length u)) as [D|D].
        -- exists (length pre + length w), (length pre + length w + length u). split; [now left|]. apply (nonempty_lt r) in Mi; [lia|exact N].
        -- destruct (I3 i j) as (a & b & Ha & Hb); [rewrite Lu; lia|exact Mi|]. exists a, b. split; [now right|exact Hb].
  - split; [intros i j []|]. split; [constructor|]. intros i j Hi Mi. exfalso. apply at_split in Mi. destruct Mi as (w' & u' & v' & Es' & -> & -> & Mi).
    assert (X : exists w'', w' = rev pre ++ w''). { exists (skipn (length pre) w'). rewrite <- (firstn_skipn (length pre) w') at 1. f_equal.
      apply (f_equal (firstn (length pre))) in Es'. rewrite firstn_app, firstn_all2 in Es' by (rewrite rev_length; lia).
      rewrite rev_length, Nat.sub_diag, firstn_O, app_nil_r in Es'. rewrite firstn_app in Es'. replace (length pre - length w') with 0 in Es' by lia.
      rewrite firstn_O, app_nil_r in Es'. now symmetry. }
    destruct X as [w'' ->]. rewrite <- app_assoc in Es'. apply app_inv_head in Es'. eapply (rfind_none _ _ _ E w'' u' v'); [exact Es'|].
    now rewrite rev_app_distr, rev_involutive in Mi.
Qed.
Lemma find_all_spec : forall r s, nonempty r = true ->
  (forall i j, In (i, j) (find_all r s) -> i < j /\ matches_at r s i j)
  /\ StronglySorted (fun a b => snd a <= fst b) (find_all r s)
  /\ (forall i j, matches_at r s i j -> exists a b, In (a, b) (find_all r s) /\ a < j /\ i < b).
Proof.
  intros r s N. destruct (rall_spec r N (S (length s)) s []) as (A & B & C); [lia|]. cbn in A, C. split; [|split; [exact B|]].
  - intros i j H. apply A in H. split; [lia|apply H].
  - intros i j. apply C. lia.
Qed.

(* ---- masking ---- *)
(* the byte k of a match i..j is masked: the match has no '=', or there is one before k *)
Definition masks (t : gstr) (i j k : nat) : Prop := i <= k < j /\ (~ In eqc (slice t i j) \/ In eqc (slice t i k)).
Lemma nth_firstn : forall n (l : gstr) k, k < n -> nth_error (firstn n l) k = nth_error l k.
Proof. induction n as [|n IH]; intros l k H; [lia|]. destruct l; [now destruct k|]. destruct k; [reflexivity|]. cbn. apply IH. lia. Qed.
Lemma nth_skipn : forall i (l : gstr) k, nth_error (skipn i l) k = nth_error l (i + k).
Proof. induction i as [|i IH]; intros l k; [reflexivity|]. destruct l; [now destruct k|]. apply IH. Qed.
Lemma nth_slice : forall t i j k, nth_error (slice t i j) k = if k <? j - i then nth_error t (i + k) else None.
Proof.
  intros t i j k. unfold slice. destruct (Nat.ltb_spec k (j - i)).
  - rewrite nth_firstn by assumption. apply nth_skipn.
  - apply nth_error_None. rewrite firstn_length. lia.
Qed.
Lemma in_slice : forall t i j c, In c (slice t i j) <-> exists k, i <= k < j /\ nth_error t k = Some c.
Proof.
  intros t i j c. split.
  - intro H. apply In_nth_error in H. destruct H as [k H]. rewrite nth_slice in H. destruct (Nat.ltb_spec k (j - i)); [|discriminate]. exists (i + k). split; [lia|exact H].
  - intros (k & Hk & E). apply nth_error_In with (k - i). rewrite nth_slice. destruct (Nat.ltb_spec (k - i) (j - i)); [|lia]. now replace (i + (k - i)) with k by lia.
Qed.
Lemma nth_mask : forall t i j k, i <= j <= length t -> nth_error (mask t i j) k = if (i <=? k) && (k <? j) then Some star else nth_error t k.
Proof.
  intros t i j k H. unfold mask. assert (L : length (firstn i t) = i) by (rewrite firstn_length; lia).
  destruct (Nat.leb_spec i k); cbn [andb].
  - rewrite nth_error_app2 by lia. rewrite L. destruct (Nat.ltb_spec k j).
    + rewrite nth_error_app1 by (rewrite repeat_length; lia). apply nth_error_repeat. lia.
    + rewrite nth_error_app2 by (rewrite repeat_length; lia). rewrite repeat_length.
      rewrite <- (firstn_skipn j t) at 2. rewrite nth_error_app2 by (rewrite firstn_length; lia). f_equal. rewrite firstn_length. lia.
  - rewrite nth_error_app1 by lia. rewrite <- (firstn_skipn i t) at 2. now rewrite nth_error_app1 by lia.
Qed.
Lemma mask_length : forall t i j, i <= j <= length t -> length (mask t i j) = length t.
Proof. intros. unfold mask. rewrite !app_length, firstn_length, repeat_length, skipn_length. lia. Qed.
Lemma eq_index_some : forall s p, eq_index s = Some p -> nth_error s p = Some eqc /\ forall q, q < p -> nth_error s q <> Some eqc.
Proof.
  induction s as [|c r IH]; intros p H; cbn in H; [discriminate|]. destruct (Ascii.eqb_spec c eqc).
  - inversion H; subst. split; [reflexivity|lia].
  - destruct (eq_index r) as [n'|]; [|discriminate]. inversion H; subst. destruct (IH _ eq_refl) as [A B]. split; [exact A|]. intros [|q] Hq; cbn; [congruence|apply B; lia].
Qed.
Lemma eq_index_none : forall s, eq_index s = None -> ~ In eqc s.
Proof.
  induction s as [|c r IH]; intros H; cbn in H; [intros []|]. destruct (Ascii.eqb_spec c eqc); [discriminate|]. destruct (eq_index r); [discriminate|]. intros [A|A]; [congruence|now apply IH].
Qed.
Lemma mask_match_spec : forall t i j, i < j <= length t -> length (mask_match t (i, j)) = length t
  /\ forall k, (masks t i j k -> nth_error (mask_match t (i, j)) k = Some star) /\ (~ masks t i j k -> nth_error (mask_match t (i, j)) k = nth_error t k).
Proof.
  intros t i j H. unfold mask_match. destruct (eq_index (slice t i j)) as [p|] eqn:E.
  - apply eq_index_some in E. destruct E as [E1 E2]. rewrite nth_slice in E1. destruct (Nat.ltb_spec p (j - i)); [|discriminate]. split; [apply mask_length; lia|].
    intros k. rewrite nth_mask by lia.
    assert (X : masks t i j k <-> p + i + 1 <= k < j). { unfold masks. split.
      - intros [A [B|B]].
        + exfalso. apply B. apply in_slice. exists (i + p). split; [lia|exact E1].
        + apply in_slice in B. destruct B as (q & Hq & Eq). destruct (Nat.lt_ge_cases q (i + p)) as [C|C]; [|lia]. exfalso.
          apply (E2 (q - i)); [lia|]. rewrite nth_slice. destruct (Nat.ltb_spec (q - i) (j - i)); [|lia]. now replace (i + (q - i)) with q by lia.
      - intros A. split; [lia|]. right. apply in_slice. exists (i + p). split; [lia|exact E1]. }
    rewrite X. destruct (Nat.leb_spec (p + i + 1) k), (Nat.ltb_spec k j); cbn [andb]; split; intro; try reflexivity; try lia.
  - apply eq_index_none in E. split; [apply mask_length; lia|]. intros k. rewrite nth_mask by lia.
    assert (X : masks t i j k <-> i <= k < j) by (unfold masks; tauto). rewrite X.
    destruct (Nat.leb_spec i k), (Nat.ltb_spec k j); cbn [andb]; split; intro; try reflexivity; try lia.
Qed.
(* the matches of one pattern do not disturb each other *)
Lemma slice_agree : forall t t' lo i j, (forall k, lo <= k -> nth_error t' k = nth_error t k) -> lo <= i -> forall c, In c (slice t' i j) <-> In c (slice t i j).
Proof. intros. rewrite !in_slice. split; intros (k & Hk & E); exists k; (split; [exact Hk|]); [rewrite <- H by lia|rewrite H by lia]; exact E. Qed.
Lemma fold_masks : forall t l t' lo, length t' = length t -> (forall k, lo <= k -> nth_error t' k = nth_error t k) ->
  StronglySorted (fun a b => snd a <= fst b) l -> (forall i j, In (i, j) l -> lo <= i /\ i < j <= length t) ->
  length (fold_left mask_match l t') = length t
  /\ forall k, ((exists i j, In (i, j) l /\ masks t i j k) -> nth_error (fold_left mask_match l t') k = Some star)
            /\ ((~ exists i j, In (i, j) l /\ masks t i j k) -> nth_error (fold_left mask_match l t') k = nth_error t' k).
Proof.
  intros t. induction l as [|[i j] l IH]; intros t' lo Hl Ha Hs Hb; cbn [fold_left].
  - split; [exact Hl|]. intros k. split; [intros (i & j & [] & _)|reflexivity].
  - inversion Hs as [|? ? Hs' Hf]; subst. destruct (Hb i j (or_introl eq_refl)) as [B1 B2].
    destruct (mask_match_spec t' i j) as [M1 M2]; [lia|].
    assert (EM : forall k, masks t' i j k <-> masks t i j k). { intros k. unfold masks. rewrite (slice_agree t t' lo i j Ha B1 eqc), (slice_agree t t' lo i k Ha B1 eqc). reflexivity. }
    destruct (IH (mask_match t' (i, j)) j) as [I1 I2].
    + lia.
    + intros k Hk. destruct (M2 k) as [_ M]. rewrite M; [apply Ha; lia|]. rewrite EM. unfold masks. lia.
    + exact Hs'.
    + intros a b Hab. rewrite Forall_forall in Hf. specialize (Hf _ Hab). cbn in Hf. destruct (Hb a b (or_intror Hab)). lia.
    + split; [exact I1|]. intros k. destruct (I2 k) as [J1 J2], (M2 k) as [M3 M4]. rewrite EM in M3, M4. split.
      * intros (a & b & [X|X] & Hm).
        -- inversion X; subst. assert (Dec : (exists a' b', In (a', b') l /\ masks t a' b' k) -> False).
           { intros (a' & b' & Hab & Hm'). rewrite Forall_forall in Hf. specialize (Hf _ Hab). cbn in Hf. unfold masks in *. lia. }
           rewrite J2 by exact Dec. auto.
        -- apply J1. eauto.
      * intros Hn. rewrite J2 by (intros (a & b & X & Y); apply Hn; exists a, b; split; [now right|exact Y]). apply M4. intro Y. apply Hn. exists i, j. split; [now left|exact Y].
Qed.
Lemma at_bounds : forall r s i j, matches_at r s i j -> j <= length s.
Proof. intros r s i j [H _]. lia. Qed.
Lemma detect_fst : forall r t ob, nonempty r = true -> (fst (detect r t ob) = true <-> exists i j, matches_at r t i j).
Proof.
  intros r t ob N. destruct (find_all_spec r t N) as (A & _ & C). unfold detect. destruct (find_all r t) as [|[i j] l] eqn:E; cbn; split; intro H.
  - discriminate.
  - destruct H as (i & j & M). apply C in M. destruct M as (a & b & [] & _).
  - exists i, j. apply A. now left.
  - reflexivity.
Qed.
Lemma detect_none : forall r t ob, fst (detect r t ob) = false -> snd (detect r t ob) = t.
Proof. intros r t ob. unfold detect. destruct (find_all r t); [reflexivity|discriminate]. Qed.
Lemma detect_keep : forall r t, snd (detect r t false) = t.
Proof. intros r t. unfold detect. destruct (find_all r t); reflexivity. Qed.
(* one pattern *)
Lemma detect_spec : forall r t, nonempty r = true -> length (snd (detect r t true)) = length t
  /\ (forall k, nth_error (snd (detect r t true)) k <> nth_error t k -> nth_error (snd (detect r t true)) k = Some star /\ exists i j, matches_at r t i j /\ masks t i j k)
  /\ (forall i j, matches_at r t i j -> exists a b, matches_at r t a b /\ a < j /\ i < b /\ forall k, masks t a b k -> nth_error (snd (detect r t true)) k = Some star)
  /\ (forall k, nth_error t k = Some star -> nth_error (snd (detect r t true)) k = Some star).
Proof.
  intros r t N. destruct (find_all_spec r t N) as (A & B & C).
  assert (D : snd (detect r t true) = fold_left mask_match (find_all r t) t) by (unfold detect; destruct (find_all r t); reflexivity). rewrite D.
  destruct (fold_masks t (find_all r t) t 0) as [L F]; [reflexivity|reflexivity|exact B| |].
  { intros i j H. apply A in H. destruct H as [H1 H2]. apply at_bounds in H2. lia. }
  assert (Dec : forall k, (exists i j, In (i, j) (find_all r t) /\ masks t i j k) \/ ~ exists i j, In (i, j) (find_all r t) /\ masks t i j k).
  { intros k. generalize (find_all r t) as l. induction l as [|[i j] l IH].
    - right. intros (? & ? & [] & _).
    - assert (Dm : masks t i j k \/ ~ masks t i j k). { unfold masks. destruct (in_dec ascii_dec eqc (slice t i j)), (in_dec ascii_dec eqc (slice t i k)), (le_lt_dec i k), (le_lt_dec j k); try tauto; right; lia || tauto. }
      destruct IH as [(a & b & X & Y)|IH]; [left; exists a, b; split; [now right|exact Y]|]. destruct Dm as [Dm|Dm]; [left; exists i, j; split; [now left|exact Dm]|].
      right. intros (a & b & [X|X] & Y); [inversion X; subst; contradiction|]. apply IH. eauto. }
  split; [exact L|]. split; [|split].
  - intros k Hk. destruct (F k) as [F1 F2]. destruct (Dec k) as [X|X]; [|now apply F2 in X].
    split; [now apply F1|]. destruct X as (i & j & X & Y). exists i, j. split; [now apply A|exact Y].
  - intros i j M. destruct (C _ _ M) as (a & b & Hab & O1 & O2). exists a, b. split; [now apply A|]. split; [exact O1|]. split; [exact O2|]. intros k Hk. apply F. eauto.
  - intros k Hk. destruct (F k) as [F1 F2]. destruct (Dec k) as [X|X]; [now apply F1|rewrite F2; assumption].
Qed.

(* ---- all patterns ---- *)
Definition step (ob : bool) (st : bool * gstr) (r : rx) : bool * gstr := let (b, t') := detect r (snd st) ob in (fst st || b, t').
Lemma detect_pii_app : forall l1 l2 t ob b, fold_left (step ob) (l1 ++ l2) (b, t) = fold_left (step ob) l2 (fold_left (step ob) l1 (b, t)).
Proof. intros. now rewrite fold_left_app. Qed.
Lemma fold_true : forall ob l t, fst (fold_left (step ob) l (true, t)) = true.
Proof. intros ob. induction l as [|r l IH]; intros t; [reflexivity|]. cbn [fold_left]. unfold step at 2. cbn [snd fst]. destruct (detect r t ob). apply IH. Qed.
Lemma fold_snd : forall ob l b t, snd (fold_left (step ob) l (b, t)) = snd (fold_left (step ob) l (false, t)).
Proof. intros ob. induction l as [|r l IH]; intros b t; [reflexivity|]. cbn [fold_left]. unfold step at 2 4. cbn [snd fst]. destruct (detect r t ob). rewrite IH. symmetry. apply IH. Qed.
Lemma all_nonempty : forall r, In r patterns -> nonempty r = true.
Proof. assert (H : forallb nonempty patterns = true) by (vm_compute; reflexivity). now apply forallb_forall. Qed.
Lemma fold_fst : forall ob l t, (forall r, In r l -> nonempty r = true) ->
  (fst (fold_left (step ob) l (false, t)) = true <-> exists r i j, In r l /\ matches_at r t i j)
  /\ (fst (fold_left (step ob) l (false, t)) = false -> snd (fold_left (step ob) l (false, t)) = t).
Proof.
  intros ob. induction l as [|r l IH]; intros t N; cbn [fold_left].
  - cbn. split; [split; [discriminate|intros (? & ? & ? & [] & _)]|reflexivity].
  - unfold step at 2 4 6. cbn [snd fst orb]. destruct (detect r t ob) as [b t'] eqn:E.
    pose proof (detect_fst r t ob (N r (or_introl eq_refl))) as D. pose proof (detect_none r t ob) as Dn. rewrite E in D, Dn. cbn in D, Dn. destruct b.
    + rewrite fold_true. split; [|discriminate]. split; [|reflexivity]. intros _. destruct (proj1 D eq_refl) as (i & j & M). exists r, i, j. split; [now left|exact M].
    + rewrite (Dn eq_refl) in *. destruct (IH t) as [I1 I2]; [intros; apply N; now right|]. split; [|exact I2]. rewrite I1. split.
      * intros (r' & i & j & H & M). exists r', i, j. split; [now right|exact M].
      * intros (r' & i & j & [H|H] & M); [|exists r', i, j; auto]. subst. exfalso. assert (false = true) by (apply D; eauto). discriminate.
Qed.
Lemma keeps_stars : forall l t, (forall r, In r l -> nonempty r = true) -> forall k, nth_error t k = Some star -> nth_error (snd (fold_left (step true) l (false, t))) k = Some star.
Proof.
  induction l as [|r l IH]; intros t N k H; [exact H|]. cbn [fold_left]. unfold step at 2. cbn [snd fst]. destruct (detect r t true) as [b t'] eqn:E. rewrite fold_snd.
  apply IH; [intros; apply N; now right|]. pose proof (detect_spec r t (N r (or_introl eq_refl))) as (_ & _ & _ & D). rewrite E in D. now apply D.
Qed.

(* DetectPII says "found" exactly when some pattern matches somewhere in the text it is given, whatever the order in which the map is
   visited and whether or not it obfuscates *)
Theorem C76_detected_iff : forall order text obfuscate, Permutation patterns order ->
  (fst (detect_pii order text obfuscate) = true <-> exists r i j, In r patterns /\ matches_at r text i j).
Proof.
  intros order text ob P. change (detect_pii order text ob) with (fold_left (step ob) order (false, text)).
  rewrite (proj1 (fold_fst ob order text (fun r H => all_nonempty r (Permutation_in r (Permutation_sym P) H)))).
  split; intros (r & i & j & H & M); exists r, i, j; (split; [|exact M]); eapply Permutation_in; try eassumption. now apply Permutation_sym.
Qed.
Print Assumptions C76_detected_iff.
(* without obfuscation, and when nothing is found, the text stays as it is *)
Theorem C76_untouched : forall order text obfuscate, Permutation patterns order ->
  obfuscate = false \/ fst (detect_pii order text obfuscate) = false -> snd (detect_pii order text obfuscate) = text.
Proof.
  intros order text ob P. change (detect_pii order text ob) with (fold_left (step ob) order (false, text)). intros [->|H].
  - clear P. generalize false at 2. induction order as [|r l IH]; intros b; [reflexivity|]. cbn [fold_left]. unfold step at 2. cbn [snd fst].
    destruct (detect r text false) as [b' t'] eqn:E. pose proof (detect_keep r text) as D. rewrite E in D. cbn in D. subst. apply IH.
  - apply (fold_fst ob order text (fun r H => all_nonempty r (Permutation_in r (Permutation_sym P) H))). exact H.
Qed.
Print Assumptions C76_untouched.
(* obfuscation keeps the length; a byte that changes becomes '*' and lies in a match of some pattern, in the text as it was when that
   pattern was visited, after the first '=' of the match if it has one *)
Theorem C76_only_matches_change : forall order text, Permutation patterns order ->
  let out := snd (detect_pii order text true) in
  length out = length text /\
  forall k, nth_error out k <> nth_error text k -> nth_error out k = Some star /\
    exists l1 r l2 i j, order = l1 ++ r :: l2 /\ let t := snd (detect_pii l1 text true) in
      matches_at r t i j /\ i <= k < j /\ (~ In eqc (slice t i j) \/ In eqc (slice t i k)).
Proof.
  intros order text P out. subst out. assert (N : forall r, In r order -> nonempty r = true) by (intros r H; apply all_nonempty; eapply Permutation_in; [apply Permutation_sym; exact P|exact H]).
  clear P. change (detect_pii order text true) with (fold_left (step true) order (false, text)).
  induction order as [|r l IH] using rev_ind.
  - cbn. split; [reflexivity|]. intros k H. congruence.
  - rewrite fold_left_app. cbn [fold_left]. destruct IH as [L IH]; [intros; apply N; apply in_or_app; now left|].
    set (t := snd (fold_left (step true) l (false, text))) in *. unfold step at 1 3 5. fold t.
    destruct (detect r t true) as [b t'] eqn:E. cbn [snd]. destruct (detect_spec r t (N r (in_elt _ _ _))) as (D1 & D2 & _ & D4). rewrite E in D1, D2, D4. cbn in D1, D2, D4.
    split; [lia|]. intros k Hk. destruct (list_eq_dec ascii_dec t' t) as [Et|Et].
    + subst t'. apply IH in Hk. destruct Hk as [Hk (l1 & r' & l2 & i & j & -> & H)]. split; [exact Hk|]. exists l1, r', (l2 ++ [r]), i, j. split; [now rewrite <- app_assoc|exact H].
    + assert (Dec : {nth_error t' k = nth_error t k} + {nth_error t' k <> nth_error t k}) by (repeat decide equality). destruct Dec as [De|De].
      * rewrite De in *. apply IH in Hk. destruct Hk as [Hk (l1 & r' & l2 & i & j & -> & H)]. split; [exact Hk|]. exists l1, r', (l2 ++ [r]), i, j. split; [now rewrite <- app_assoc|exact H].
      * apply D2 in De. destruct De as [De (i & j & M & Mk)]. split; [exact De|]. exists l, r, [], i, j. split; [reflexivity|]. cbn zeta. change (snd (detect_pii l text true)) with t. split; [exact M|exact Mk].
Qed.
Print Assumptions C76_only_matches_change.
(* every match of a pattern, in the text as it is when the pattern is visited, overlaps a match that is masked in the result (wholly, or
   after its first '=').  For the pattern visited first that text is the original one *)
Theorem C76_matches_masked : forall order text l1 r l2 i j, Permutation patterns order -> order = l1 ++ r :: l2 ->
  let t := snd (detect_pii l1 text true) in
  matches_at r t i j ->
  exists a b, matches_at r t a b /\ a < j /\ i < b /\
    forall k, a <= k < b -> ~ In eqc (slice t a b) \/ In eqc (slice t a k) -> nth_error (snd (detect_pii order text true)) k = Some star.
Proof.
  intros order text l1 r l2 i j P -> t M. assert (N : forall r', In r' (l1 ++ r :: l2) -> nonempty r' = true) by (intros r' H; apply all_nonempty; eapply Permutation_in; [apply Permutation_sym; exact P|exact H]).
  destruct (detect_spec r t (N r (in_elt _ _ _))) as (_ & _ & D & _). destruct (D _ _ M) as (a & b & Mab & O1 & O2 & Hm).
  exists a, b. split; [exact Mab|]. split; [exact O1|]. split; [exact O2|]. intros k Hk He.
  change (detect_pii (l1 ++ r :: l2) text true) with (fold_left (step true) (l1 ++ r :: l2) (false, text)). rewrite fold_left_app. cbn [fold_left].
  unfold step at 2. change (snd (fold_left (step true) l1 (false, text))) with t. destruct (detect r t true) as [b' t'] eqn:E. rewrite fold_snd. cbn in Hm.
  apply keeps_stars; [intros; apply N; apply in_or_app; right; now right|]. apply Hm. split; assumption.
Qed.
Print Assumptions C76_matches_masked.
Example C76_masks : snd (detect_pii patterns (lit "AWS_SECRET_ACCESS_KEY=abc, 10.0.0.1, joe@x.com.") true) = lit "AWS_SECRET_ACCESS_KEY=***, ********, *********.".
Proof. vm_compute. reflexivity. Qed.
(* the visiting order (which Go chooses at random) matters: a social security number behind an e-mail address is masked or not *)
Definition leak : gstr := lit "a@b.com123-45-6789".
Theorem C76_order_refuted : exists order, Permutation patterns order /\
  snd (detect_pii patterns leak true) = lit "******************" /\ snd (detect_pii order leak true) = lit "*******123-45-6789" /\
  (* a second call finds it *)
  snd (detect_pii order (snd (detect_pii order leak true)) true) = lit "******************".
Proof.
  exists [ipv4; ipv6; ssn; email; card; phone; aws_id; mac; g_api; g_oauth; gh_token; heroku; stripe; firebase; slack; gh_pat; aws_env; gcp_env; azure_env; db_env].
  split; [|vm_compute; auto]. unfold patterns. do 2 apply perm_skip. apply perm_swap.
Qed.
Print Assumptions C76_order_refuted.
