(* C77: Envoy statistic names. *)
From Coq Require Import String List Ascii Bool Arith Lia.
From Verif Require Import M_GoStr L_GoStr M_Regex S_Regex L_Regex M_StatTags.
Import ListNotations.
Open Scope list_scope.

(* ---- specification ---- *)
(* the labels a filter writes into the name of a metric *)
Definition keys : list gstr := map lit
  ["reporter"; "response_code"; "source_namespace"; "source_workload"; "source_workload_namespace"; "source_principal"; "source_app"; "source_version"; "source_cluster";
   "destination_namespace"; "destination_workload"; "destination_workload_namespace"; "destination_principal"; "destination_app";
   "destination_version"; "destination_service"; "destination_service_name"; "destination_service_namespace"; "destination_port";
   "destination_cluster"; "request_protocol"; "request_operation"; "request_host"; "response_flags"; "grpc_response_status";
   "connection_security_policy"; "source_canonical_service"; "destination_canonical_service"; "source_canonical_revision";
   "destination_canonical_revision"]%string.
(* how it writes one: key=.=value;.; *)
Definition enc (e : gstr * gstr) : gstr := fst e ++ lit "=.=" ++ snd e ++ lit ";.;".
Definition encs (l : list (gstr * gstr)) : gstr := concat (map enc l).
Definition nl : ascii := ascii_of_nat 10.
(* values: no '=', no line break, and the end mark comes after the value only *)
Definition value_ok (v : gstr) : Prop := ~ In "="%char v /\ ~ In nl v /\ forall a b, v ++ lit ";." <> a ++ lit ";.;" ++ b.
Definition label_ok (e : gstr * gstr) : Prop := In (fst e) keys /\ value_ok (snd e) /\ (fst e = lit "response_code" -> snd e <> []).
(* the rest of the name: no '.' and no '=' *)
Definition plain (s : gstr) : Prop := ~ In "."%char s /\ ~ In "="%char s.
(* the name ends like one with a response code class: _rq_1xx *)
Definition ends_class (s : gstr) : Prop := exists w c, digit c = true /\ s = w ++ lit "_rq_" ++ c :: lit "xx".

(* ---- keys ---- *)
Definition disjoint_keys : bool :=
  forallb (fun a => forallb (fun b => geqb a b || negb (ghas_suffix a b)) keys) keys.
Lemma keys_disjoint : forall a b w, In a keys -> In b keys -> a = w ++ b -> a = b.
Proof.
  assert (H : disjoint_keys = true) by (vm_compute; reflexivity). intros a b w Ha Hb E. unfold disjoint_keys in H. rewrite forallb_forall in H. specialize (H _ Ha). rewrite forallb_forall in H. specialize (H _ Hb).
  apply orb_true_iff in H. destruct H as [H|H]; [now apply geqb_eq|]. apply negb_true_iff in H. assert (ghas_suffix a b = true) by (apply ghas_suffix_spec; eauto). congruence.
Qed.
Lemma keys_chars : forall k, In k keys -> ~ In "="%char k /\ ~ In "."%char k /\ ~ In ";"%char k /\ k <> [].
Proof.
  assert (H : forallb (fun k => negb (existsb (fun c => existsb (Ascii.eqb c) (lit "=.;")) k) && negb (geqb k [])) keys = true) by (vm_compute; reflexivity).
  intros k Hk. rewrite forallb_forall in H. specialize (H _ Hk). apply andb_true_iff in H. destruct H as [H1 H2]. apply negb_true_iff in H1, H2. apply geqb_neq in H2.
  assert (X : forall c, In c (lit "=.;") -> ~ In c k). { intros c Hc Hi. assert (existsb (fun c => existsb (Ascii.eqb c) (lit "=.;")) k = true); [|congruence].
    apply existsb_exists. exists c. split; [exact Hi|]. apply existsb_exists. exists c. split; [exact Hc|apply Ascii.eqb_refl]. }
  repeat split; try (apply X; cbn; auto; fail). exact H2.
Qed.
(* splitting at the first '=' *)
Lemma split_at : forall (c : ascii) a b w r, ~ In c a -> a ++ c :: b = w ++ r -> (exists x, a = w ++ x /\ r = x ++ c :: b) \/ (exists w', w = a ++ c :: w' /\ b = w' ++ r).
Proof.
  intros c. induction a as [|y a IH]; intros b [|z w] r Ha H; cbn in H.
  - left. exists []. auto.
  - right. inversion H; subst. exists w. auto.
  - left. exists (y :: a). auto.
  - inversion H; subst. destruct (IH b w r) as [(x & -> & ->)|(w' & -> & ->)]; [intro; apply Ha; now right|assumption| |].
    + left. exists x. auto.
    + right. exists w'. auto.
Qed.
Lemma app_tail : forall (a b c e : gstr), a ++ b = c ++ e -> (exists x, b = x ++ e /\ c = a ++ x) \/ (exists x, e = x ++ b /\ a = c ++ x).
Proof.
  induction a as [|y a IH]; intros b [|z c] e H; cbn in H.
  - left. exists []. auto.
  - left. exists (z :: c). auto.
  - right. exists (y :: a). auto.
  - inversion H; subst. destruct (IH b c e H2) as [(x & -> & ->)|(x & -> & ->)]; [left|right]; exists x; auto.
Qed.
(* every "key=.=" in an encoded name is the start of the label of that key *)
Lemma occurs : forall k name, In k keys -> ~ In "="%char name -> forall R p, ~ In "="%char p -> (forall e, In e R -> label_ok e) ->
  forall w r, p ++ encs R ++ name = w ++ k ++ lit "=.=" ++ r -> exists R1 v R2, R = R1 ++ (k, v) :: R2 /\ w = p ++ encs R1.
Proof.
  intros k name Hk Hn. destruct (keys_chars k Hk) as (K1 & K2 & K3 & K4). induction R as [|[k1 v1] R IH]; intros p Hp Hl w r H.
  - exfalso. cbn in H. assert (X : In "="%char (p ++ name)) by (rewrite H; apply in_or_app; right; apply in_or_app; right; now left). apply in_app_or in X. tauto.
  - destruct (Hl _ (or_introl eq_refl)) as (L1 & (L2 & _) & _). cbn [fst snd] in *. destruct (keys_chars k1 L1) as (J1 & J2 & J3 & J4).
    assert (E : (p ++ k1) ++ "="%char :: "."%char :: "="%char :: (v1 ++ lit ";.;") ++ encs R ++ name = w ++ k ++ lit "=.=" ++ r).
    { rewrite <- H. unfold encs. cbn [map concat]. unfold enc at 2. cbn [fst snd]. rewrite <- !app_assoc. reflexivity. }
    assert (NP : ~ In "="%char (p ++ k1)) by (intro X; apply in_app_or in X; tauto).
    rewrite (app_assoc w) in E. cbn [lit list_ascii_of_string app] in E. apply split_at in E; [|exact NP]. destruct E as [(x & E1 & E2)|(w' & E1 & E2)].
    + destruct x as [|c x]; [|exfalso; cbn in E2; inversion E2; subst; apply NP; rewrite E1; apply in_or_app; right; now left].
      rewrite app_nil_r in E1. destruct (app_tail _ _ _ _ (eq_sym E1)) as [(x & X1 & X2)|(x & X1 & X2)].
      * assert (k = k1) by (apply (keys_disjoint k k1 x); assumption). subst k1. assert (x = []) by (apply (f_equal (@length ascii)) in X1; rewrite app_length in X1; destruct x; [reflexivity|cbn in X1; lia]).
        subst x. rewrite app_nil_r in X2. exists [], v1, R. split; [reflexivity|]. cbn. now rewrite app_nil_r.
      * assert (Ek : k1 = k) by (apply (keys_disjoint k1 k x); assumption). assert (x = []) by (rewrite Ek in X1; apply (f_equal (@length ascii)) in X1; rewrite app_length in X1; destruct x; [reflexivity|cbn in X1; lia]).
        subst x. rewrite app_nil_r in X2. exists [], v1, R. rewrite Ek, X2. split; [reflexivity|]. cbn. now rewrite app_nil_r.
    + (* the first '=' is inside w *)
      assert (W : exists w1, w = (p ++ k1) ++ "="%char :: w1 /\ w' = w1 ++ k).
      { apply eq_sym, split_at in E1; [|exact NP]. destruct E1 as [(x & X1 & X2)|(w1 & X1 & X2)]; [|exists w1; auto]. exfalso. apply K1. rewrite X2. apply in_or_app. right. now left. }
      destruct W as (w1 & W1 & W2). subst w'. clear E1. destruct w1 as [|c1 w1].
      { exfalso. destruct k as [|c k]; [contradiction|]. cbn in E2. inversion E2; subst. apply K2. now left. }
      cbn in E2. inversion E2 as [[X1 X2]]. subst c1. destruct w1 as [|c1 w1].
      { exfalso. destruct k as [|c k]; [contradiction|]. cbn in X2. inversion X2; subst. apply K1. now left. }
      cbn in X2. inversion X2 as [[X3 X4]]. subst c1. clear X2 E2.
      destruct (IH (v1 ++ lit ";.;")) with (w := w1) (r := r) as (R1 & v & R2 & -> & ->).
      * intro X. apply in_app_or in X. cbn in X. destruct X as [X|[X|[X|[X|[]]]]]; try discriminate. contradiction.
      * intros e He. apply Hl. now right.
      * rewrite <- (app_assoc w1) in X4. exact X4.
      * exists ((k1, v1) :: R1), v, R2. split; [reflexivity|]. rewrite W1. unfold encs. cbn [map concat]. unfold enc at 2. cbn [fst snd]. rewrite <- !app_assoc. reflexivity.
Qed.

(* ---- the engine on these expressions ---- *)
Lemma rm_str {X} : forall s pre rest cs (k : gstr -> gstr -> caps -> option X), rm (str s) pre (s ++ rest) cs k = k (rev s ++ pre) rest cs.
Proof. induction s as [|c s IH]; intros; [reflexivity|]. cbn [str rm one app]. rewrite Ascii.eqb_refl. rewrite IH. cbn. now rewrite <- app_assoc. Qed.
Lemma rm_str_fail {X} : forall s pre post cs (k : gstr -> gstr -> caps -> option X), (forall r, post <> s ++ r) -> rm (str s) pre post cs k = None.
Proof.
  intros s pre post cs k H. destruct (rm (str s) pre post cs k) eqn:E; [|reflexivity]. exfalso. apply rm_sound in E. destruct E as (u & v & c & -> & M & _). apply matches_str in M. subst. now apply (H v).
Qed.
(* .*? up to the mark *)
Lemma rm_lazy {X} : forall g v pre rest cs (k : gstr -> gstr -> caps -> option X), (forall c, In c v -> dot c = true) ->
  (forall a b p, v = a ++ b -> b <> [] -> k p (b ++ rest) cs = None) -> (forall x, k (rev v ++ pre) rest cs = Some x -> rm (Star false g) pre (v ++ rest) cs k = Some x \/ exists c, In c v /\ g c = false).
Proof.
  intros g. induction v as [|c v IH]; intros pre rest cs k Hd Hk x Hx.
  - left. cbn in *. destruct rest; cbn; rewrite Hx; reflexivity.
  - cbn [app] in *. assert (K0 : k pre (c :: v ++ rest) cs = None) by (apply (Hk [] (c :: v)); [reflexivity|discriminate]). cbn [rm]. rewrite K0.
    destruct (g c) eqn:Eg; [|right; exists c; split; [now left|exact Eg]]. destruct (IH (c :: pre) rest cs k) with (x := x) as [A|(c' & A & B)].
    + intros; apply Hd; now right.
    + intros a b p Hab Hb. apply (Hk (c :: a)); [now rewrite Hab|exact Hb].
    + cbn in Hx. now rewrite <- app_assoc in Hx.
    + left. exact A.
    + right. exists c'. split; [now right|exact B].
Qed.
Lemma rfind_skip : forall r A pre rest, (forall w a, A = w ++ a -> a <> [] -> rm r (rev w ++ pre) (a ++ rest) [] final = None) -> rfind r pre (A ++ rest) = rfind r (rev A ++ pre) rest.
Proof.
  intros r. induction A as [|c A IH]; intros pre rest H; [reflexivity|]. cbn [app]. rewrite rfind_eq. pose proof (H [] (c :: A) eq_refl) as H0. cbn [rev app] in H0. rewrite H0 by discriminate.
  rewrite IH.
  - cbn. now rewrite <- app_assoc.
  - intros w a E Ha. specialize (H (c :: w) a). cbn in H. rewrite <- app_assoc in H. apply H; [now rewrite E|exact Ha].
Qed.
Lemma rfind_nowhere : forall r s, (forall w u v, s = w ++ u ++ v -> ~ matches r (rev w) u v) -> rfind r [] s = None.
Proof.
  intros r s H. destruct (rfind r [] s) eqn:E; [|reflexivity]. exfalso. apply rfind_some in E. destruct E as (w & u & v & c & Hs & _ & M & _). rewrite app_nil_r in M. eapply H; eassumption.
Qed.
Lemma remove_skip : forall old A rest, (forall w a, A = w ++ a -> a <> [] -> forall r, a ++ rest <> old ++ r) -> remove_first old (A ++ rest) = A ++ remove_first old rest.
Proof.
  intros old. induction A as [|c A IH]; intros rest H; [reflexivity|]. cbn [app remove_first]. destruct (ghas_prefix (c :: A ++ rest) old) eqn:E.
  - exfalso. apply ghas_prefix_spec in E. destruct E as [r E]. apply (H [] (c :: A) eq_refl) with (r := r); [discriminate|exact E].
  - f_equal. apply IH. intros w a Ea Ha. apply (H (c :: w)); [now rewrite Ea|exact Ha].
Qed.
Lemma remove_here : forall old rest, remove_first old (old ++ rest) = rest.
Proof.
  intros old rest. assert (E : ghas_prefix (old ++ rest) old = true) by (apply ghas_prefix_spec; eauto). destruct (old ++ rest) as [|c s] eqn:Es.
  - destruct old; [|discriminate]. cbn in Es. now subst.
  - cbn [remove_first]. rewrite E, <- Es, skipn_app, skipn_all, Nat.sub_diag. reflexivity.
Qed.
Lemma taken_app : forall u pre, taken pre (rev u ++ pre) = u.
Proof. intros. unfold taken. rewrite app_length. replace (length (rev u) + length pre - length pre) with (length (rev u)) by lia. rewrite firstn_app, firstn_all, Nat.sub_diag. cbn. now rewrite app_nil_r, rev_involutive. Qed.

Lemma dot_nl : forall c, c <> nl -> dot c = true.
Proof. intros c H. unfold dot. apply negb_true_iff, Nat.eqb_neq. intro E. apply H. unfold nl. rewrite <- E. now rewrite ascii_nat_embedding. Qed.
Lemma value_mark : forall v a b rest r, value_ok v -> v = a ++ b -> b <> [] -> b ++ lit ";.;" ++ rest <> lit ";.;" ++ r.
Proof.
  intros v a b rest r (_ & _ & H) -> Hb E. destruct b as [|c1 b]; [contradiction|]. cbn in E. inversion E as [[E1 E2]]. subst c1.
  destruct b as [|c2 b].
  - cbn in E2. discriminate.
  - cbn in E2. inversion E2 as [[E3 E4]]. subst c2. destruct b as [|c3 b].
    + apply (H a (lit ".")). rewrite <- app_assoc. reflexivity.
    + cbn in E4. inversion E4; subst. apply (H a (b ++ lit ";.")). rewrite <- !app_assoc. reflexivity.
Qed.
(* a value expression f between the marks: .*? or .+? *)
Definition kvx (k : gstr) (f : rx) : rx := Grp 1 (seqs [str k; t "=.="; Grp 2 f; t ";.;"]).
Definition val_rx (f : rx) (v : gstr) : Prop := f = Star false dot \/ (f = plus false dot /\ v <> []).
Lemma rm_val {X} : forall f v, val_rx f v -> (forall c, In c v -> dot c = true) -> forall pre rest cs (k : gstr -> gstr -> caps -> option X) x,
  (forall a b p, v = a ++ b -> b <> [] -> k p (b ++ rest) cs = None) -> k (rev v ++ pre) rest cs = Some x -> rm f pre (v ++ rest) cs k = Some x.
Proof.
  intros f v [->|[-> Hv]] Hd pre rest cs k x Hk Hx.
  - destruct (rm_lazy dot v pre rest cs k Hd Hk x Hx) as [A|(c & A & B)]; [exact A|]. rewrite Hd in B by exact A. discriminate.
  - destruct v as [|c v]; [contradiction|]. unfold plus. change (rm (Seq (Cls dot) (Star false dot)) pre ((c :: v) ++ rest) cs k) with
      (if dot c then rm (Star false dot) (c :: pre) (v ++ rest) cs k else None). rewrite Hd by now left.
    destruct (rm_lazy dot v (c :: pre) rest cs k) with (x := x) as [A|(c' & A & B)].
    + intros; apply Hd; now right.
    + intros a b p E Hb. apply (Hk (c :: a)); [now rewrite E|exact Hb].
    + cbn in Hx. now rewrite <- app_assoc in Hx.
    + exact A.
    + rewrite Hd in B by now right. discriminate.
Qed.
Lemma rm_kvx : forall k f v pre rest, val_rx f v -> value_ok v ->
  exists p, rm (kvx k f) pre (enc (k, v) ++ rest) [] final = Some (p, rest, [(1, enc (k, v)); (2, v)]).
Proof.
  intros k f v pre rest Hf Hv. exists (rev (enc (k, v)) ++ pre). unfold kvx. cbn [seqs rm]. unfold enc at 1. cbn [fst snd]. rewrite <- !app_assoc. unfold t.
  rewrite (rm_str k), rm_str. apply rm_val.
  - exact Hf.
  - intros c Hc. apply dot_nl. intros ->. apply (proj1 (proj2 Hv)). exact Hc.
  - intros a b p E Hb. apply rm_str_fail. intros r. now apply (value_mark v a b).
  - rewrite rm_str. unfold final. f_equal. f_equal; [f_equal|].
    + unfold enc. cbn [fst snd]. rewrite !rev_app_distr, <- !app_assoc. reflexivity.
    + f_equal; f_equal.
      * replace (rev (lit ";.;") ++ rev v ++ rev (lit "=.=") ++ rev k ++ pre) with (rev (enc (k, v)) ++ pre); [now rewrite taken_app|].
        unfold enc. cbn [fst snd]. rewrite !rev_app_distr, <- !app_assoc. reflexivity.
      * f_equal. now rewrite taken_app.
Qed.
Lemma matches_kvx : forall k f pre u post, matches (kvx k f) pre u post -> exists r, u = k ++ lit "=.=" ++ r.
Proof.
  intros k f pre u post M. unfold kvx in M. inversion M as [| | | | | |? ? ? ? ? M1| | |]; subst. cbn [seqs] in M1. inversion M1 as [| |? ? ? ? ? ? Ma Mb| | | | | | |]; subst. apply matches_str in Ma. subst.
  inversion Mb as [| |? ? ? ? ? ? Mc Md| | | | | | |]; subst. apply matches_str in Mc. subst. eauto.
Qed.

Section Name.
Variables (p name : gstr).
Hypothesis Pp : plain p.
Hypothesis Pn : plain name.
Hypothesis Pc : ~ ends_class (p ++ name).
Definition full (R : list (gstr * gstr)) : gstr := p ++ encs R ++ name.
Definition valid (R : list (gstr * gstr)) : Prop := NoDup (map fst R) /\ forall e, In e R -> label_ok e.
Definition drop (k : gstr) (R : list (gstr * gstr)) : list (gstr * gstr) := filter (fun e => negb (geqb (fst e) k)) R.
Lemma encs_app : forall a b, encs (a ++ b) = encs a ++ encs b.
Proof. intros. unfold encs. now rewrite map_app, concat_app. Qed.
Lemma drop_none : forall k R, ~ In k (map fst R) -> drop k R = R.
Proof.
  intros k. induction R as [|[k' v] R IH]; intros H; [reflexivity|]. cbn. destruct (geqb k' k) eqn:E; cbn.
  - apply geqb_eq in E. subst. exfalso. apply H. now left.
  - f_equal. apply IH. intro. apply H. now right.
Qed.
Lemma drop_mid : forall k v R1 R2, NoDup (map fst (R1 ++ (k, v) :: R2)) -> drop k (R1 ++ (k, v) :: R2) = R1 ++ R2.
Proof.
  intros k v R1 R2 N. rewrite map_app in N. cbn in N. apply NoDup_remove_2 in N. unfold drop. rewrite filter_app. cbn. rewrite geqb_refl. cbn.
  f_equal; apply drop_none; intro; apply N; apply in_or_app; auto.
Qed.
Lemma unique : forall k v v' (R1 R2 R1' R2' : list (gstr * gstr)), NoDup (map fst (R1 ++ (k, v) :: R2)) -> R1 ++ (k, v) :: R2 = R1' ++ (k, v') :: R2' -> R1 = R1'.
Proof.
  intros k v v'. induction R1 as [|[a b] R1 IH]; intros R2 [|[a' b'] R1'] R2' N E; cbn in *; inversion E; subst; auto.
  - exfalso. inversion N; subst. apply H1. rewrite map_app. apply in_or_app. right. now left.
  - exfalso. inversion N; subst. apply H1. rewrite map_app. apply in_or_app. right. now left.
  - f_equal. inversion N; subst. eapply IH; eassumption.
Qed.
(* what the entry of a name should do *)
Definition good (e : gstr * rx) : Prop := forall R vals, valid R ->
  match tag_get R (fst e) with
  | Some v => tag_step (full R, vals) e = (full (drop (fst e) R), vals ++ [(fst e, v)])
  | None => tag_step (full R, vals) e = (full R, vals)
  end.
Lemma get_in : forall R k v, tag_get R k = Some v -> In (k, v) R.
Proof. induction R as [|[k' v'] R IH]; intros k v H; cbn in H; [discriminate|]. destruct (geqb k' k) eqn:E; [apply geqb_eq in E; inversion H; subst; now left|right; now apply IH]. Qed.
Lemma get_none : forall R k, tag_get R k = None <-> ~ In k (map fst R).
Proof.
  induction R as [|[k' v'] R IH]; intros k; cbn; [tauto|]. destruct (geqb k' k) eqn:E.
  - apply geqb_eq in E. subst. split; [discriminate|]. intro H. exfalso. apply H. now left.
  - apply geqb_neq in E. rewrite IH. tauto.
Qed.
Lemma good_never : forall k r, ~ In k keys -> (forall R, valid R -> rfind r [] (full R) = None) -> good (k, r).
Proof.
  intros k r Hk H R vals V. cbn [fst]. destruct (tag_get R k) eqn:E.
  - exfalso. apply Hk. apply get_in in E. apply (proj2 V) in E. apply E.
  - unfold tag_step. cbn [fst snd]. now rewrite H.
Qed.
(* an entry whose expression is the label's, or also something that never matches *)
Lemma good_kv : forall k r f, In k keys -> (forall v, label_ok (k, v) -> val_rx f v) ->
  (forall pre post x, rm (kvx k f) pre post [] final = Some x -> rm r pre post [] final = Some x) ->
  (forall R w u v, valid R -> full R = w ++ u ++ v -> matches r (rev w) u v -> matches (kvx k f) (rev w) u v) -> good (k, r).
Proof.
  intros k r f Hk Hf H1 H2 R vals V. cbn [fst].
  assert (Occ : forall w u v, full R = w ++ u ++ v -> matches r (rev w) u v -> exists R1 v' R2, R = R1 ++ (k, v') :: R2 /\ w = p ++ encs R1).
  { intros w u v E M. apply (H2 R w u v V E) in M. apply matches_kvx in M. destruct M as [r' ->]. unfold full in E. rewrite <- !app_assoc in E.
    eapply (occurs k name Hk (proj2 Pn) R p (proj2 Pp) (proj2 V) w (r' ++ v)). exact E. }
  destruct (tag_get R k) as [v|] eqn:E.
  - apply get_in in E. pose proof (proj2 V _ E) as Lv. apply in_split in E. destruct E as (R1 & R2 & ->).
    assert (Ef : full (R1 ++ (k, v) :: R2) = (p ++ encs R1) ++ enc (k, v) ++ (encs R2 ++ name)).
    { unfold full. rewrite encs_app. unfold encs at 2. cbn [map concat]. rewrite <- !app_assoc. reflexivity. }
    destruct (rm_kvx k f v (rev (p ++ encs R1)) (encs R2 ++ name) (Hf v Lv) (proj1 (proj2 Lv))) as [q Hq]. apply H1 in Hq.
    unfold tag_step. cbn [fst snd]. rewrite Ef. rewrite (rfind_skip r (p ++ encs R1) []).
    + rewrite app_nil_r, rfind_eq, Hq. cbn [mt_caps cap Nat.eqb]. f_equal. rewrite remove_skip.
      * rewrite remove_here. rewrite (drop_mid k v R1 R2 (proj1 V)). unfold full. rewrite encs_app, <- !app_assoc. reflexivity.
      * intros w a Ea Ha r' Er. unfold enc in Er at 2. cbn [fst snd] in Er. rewrite <- !app_assoc in Er.
        destruct (occurs k name Hk (proj2 Pn) (R1 ++ (k, v) :: R2) p (proj2 Pp) (proj2 V) w (v ++ lit ";.;" ++ r')) as (R1' & v' & R2' & ER & Ew).
        -- change (full (R1 ++ (k, v) :: R2) = w ++ k ++ lit "=.=" ++ v ++ lit ";.;" ++ r'). rewrite Ef, Ea, <- app_assoc, Er. reflexivity.
        -- apply unique in ER; [|exact (proj1 V)]. subst R1'. rewrite <- Ew in Ea. rewrite <- (app_nil_r w) in Ea at 1. apply app_inv_head in Ea. now apply Ha.
    + intros w a Ea Ha. destruct (rm r (rev w ++ []) (a ++ enc (k, v) ++ encs R2 ++ name) [] final) eqn:Er; [|reflexivity]. exfalso.
      apply rm_sound in Er. destruct Er as (u' & v'' & c' & Eu & M & _). rewrite app_nil_r in M.
      destruct (Occ w u' v'') as (R1' & v' & R2' & ER & Ew); [rewrite Ef, Ea, <- app_assoc, Eu; reflexivity|exact M|].
      apply unique in ER; [|exact (proj1 V)]. subst R1'. rewrite <- Ew in Ea. rewrite <- (app_nil_r w) in Ea at 1. apply app_inv_head in Ea. now apply Ha.
  - apply get_none in E. unfold tag_step. cbn [fst snd]. rewrite rfind_nowhere; [reflexivity|]. intros w u v Eq M. apply Occ in M; [|exact Eq]. destruct M as (R1 & v' & R2 & -> & _).
    apply E. rewrite map_app. apply in_or_app. right. now left.
Qed.
(* the last label ends with ";": what comes after it and has no ";" is in the name *)
Lemma full_tail : forall R w s, valid R -> full R = w ++ s -> ~ In ";"%char s -> exists x, p ++ name = x ++ s.
Proof.
  intros R w s V E Hs. destruct R as [|e R] using rev_ind; [exists w; exact E|]. clear IHR. unfold full in E. rewrite encs_app in E. unfold encs at 2 in E. cbn [map concat] in E. rewrite app_nil_r in E.
  unfold enc in E. rewrite <- !app_assoc in E. cbn [lit list_ascii_of_string app] in E.
  assert (X : (p ++ encs R ++ fst e ++ lit "=.=" ++ snd e ++ lit ";.") ++ ";"%char :: name = w ++ s). { rewrite <- E. rewrite <- !app_assoc. reflexivity. }
  clear E. destruct (app_tail _ _ _ _ X) as [(x & X1 & X2)|(x & X1 & X2)].
  - destruct x as [|c x]; cbn in X1.
    + exfalso. apply Hs. rewrite <- X1. now left.
    + inversion X1; subst. exists (p ++ x). now rewrite <- app_assoc.
  - exfalso. apply Hs. rewrite X1. apply in_or_app. right. now left.
Qed.
(* the text before the first '.' *)
Lemma full_head : forall R x r, valid R -> full R = x ++ "."%char :: r -> ~ In "."%char x -> In "="%char x.
Proof.
  intros R x r V E Hx. destruct R as [|[k v] R].
  - exfalso. unfold full in E. cbn in E. assert (X : In "."%char (p ++ name)) by (rewrite E; apply in_or_app; right; now left). apply in_app_or in X. destruct Pp, Pn. tauto.
  - destruct (proj2 V _ (or_introl eq_refl)) as (L1 & _). destruct (keys_chars k L1) as (J1 & J2 & _ & _).
    assert (X : (p ++ k ++ ["="%char]) ++ "."%char :: "="%char :: v ++ lit ";.;" ++ encs R ++ name = x ++ "."%char :: r).
    { rewrite <- E. unfold full, encs. cbn [map concat]. unfold enc at 2. cbn [fst snd]. rewrite <- !app_assoc. reflexivity. }
    apply app_sep_inj in X; [|intro Y; rewrite !in_app_iff in Y; cbn in Y; destruct Pp; destruct Y as [Y|[Y|[Y|[]]]]; try tauto; discriminate|exact Hx].
    destruct X as [X _]. rewrite <- X, !in_app_iff. right. right. now left.
Qed.
Lemma never_anchored : forall n r R, ~ In "."%char (lit n) -> ~ In "="%char (lit n) -> valid R -> rfind (Seq Bol (Seq (str (lit n ++ ["."%char])) r)) [] (full R) = None.
Proof.
  intros n r R H1 H2 V. apply rfind_nowhere. intros w u v E M. inversion M as [| |? ? ? ? ? ? Ma Mb| | | | | | |]; subst.
  assert (W : rev w = [] /\ u0 = []) by (inversion Ma; auto). destruct W as [W ->]. apply (f_equal (@rev ascii)) in W. rewrite rev_involutive in W. cbn in W. subst w.
  inversion Mb as [| |? ? ? ? ? ? Mc Md| | | | | | |]; subst. apply matches_str in Mc. subst. cbn [app] in E.
  apply H2. rewrite <- !app_assoc in E. eapply full_head; [exact V|exact E|exact H1].
Qed.
Ltac nochar := let H := fresh in intro H; cbn in H; repeat (destruct H as [H|H]; [discriminate|]); exact H.
Lemma never_class : forall R, valid R -> rfind response_code_class [] (full R) = None.
Proof.
  intros R V. apply rfind_nowhere. intros w u v E M. unfold response_code_class in M. cbn [seqs] in M.
  inversion M as [| |? ? ? ? ? ? Ma Mb| | | | | | |]; subst. apply matches_str in Ma. subst. inversion Mb as [| |? ? ? ? ? ? Mc Md| | | | | | |]; subst.
  inversion Md; subst. rewrite !app_nil_r in E. inversion Mc as [| | | | | |? ? ? ? ? Me| | |]; subst. inversion Me as [| |? ? ? ? ? ? Mf Mg| | | | | | |]; subst. apply matches_str in Mf. subst.
  inversion Mg as [| | | | | |? ? ? ? ? Mh| | |]; subst. inversion Mh as [| |? ? ? ? ? ? Mi Mj| | | | | | |]; subst. apply matches_str in Mj. subst. inversion Mi as [|? c ? ? Hc| | | | | | | |]; subst.
  assert (D : forall x, ~ Ascii.eqb x c = true \/ x = c) by (intros x; destruct (Ascii.eqb_spec x c); auto).
  apply full_tail in E; [|exact V|].
  - destruct E as [x E]. apply Pc. exists x, c. split; [exact Hc|exact E].
  - intro X. cbn in X. repeat (destruct X as [X|X]; [try discriminate|]); [|exact X]. subst c. discriminate.
Qed.
Lemma good_rc : good (lit "response_code", response_code).
Proof.
  apply good_kv with (f := plus false dot).
  - cbn. tauto.
  - intros v (_ & _ & H). right. split; [reflexivity|]. apply H. reflexivity.
  - intros pre post x H. unfold response_code. change (rm (Alt (kvx (lit "response_code") (plus false dot)) (seqs [t "_rq"; Grp 3 (Seq (t "_") (Grp 4 (t ".ddd"))); Eol])) pre post [] final = Some x).
    cbn [rm]. cbn [rm] in H. now rewrite H.
  - intros R w u v V E M. unfold response_code in M. inversion M as [| | |? ? ? ? ? Ma|? ? ? ? ? Ma| | | | |]; subst; [exact Ma|]. exfalso. cbn [seqs] in Ma.
    inversion Ma as [| |? ? ? ? ? ? Mb Mc| | | | | | |]; subst. apply matches_str in Mb. subst. inversion Mc as [| |? ? ? ? ? ? Md Me| | | | | | |]; subst. inversion Me; subst.
    inversion Md as [| | | | | |? ? ? ? ? Mf| | |]; subst. inversion Mf as [| |? ? ? ? ? ? Mg Mh| | | | | | |]; subst. apply matches_str in Mg. inversion Mh as [| | | | | |? ? ? ? ? Mi| | |]; subst. apply matches_str in Mi. subst.
    rewrite !app_nil_r in E. apply full_tail in E; [|exact V|nochar]. destruct E as [x E].
    assert (X : In "."%char (p ++ name)) by (rewrite E; apply in_or_app; right; cbn; tauto). apply in_app_or in X. destruct Pp, Pn. tauto.
Qed.
Lemma good_plain : forall k, In k keys -> k <> lit "response_code" -> good (k, kv k).
Proof.
  intros k Hk Hn. apply good_kv with (f := Star false dot); [exact Hk| | |].
  - intros v _. now left.
  - auto.
  - auto.
Qed.
Lemma in_keys : forall s, existsb (geqb (lit s)) keys = true -> In (lit s) keys.
Proof. intros s H. apply existsb_exists in H. destruct H as (x & H & E). apply geqb_eq in E. now subst. Qed.
Lemma not_in_keys : forall s, existsb (geqb (lit s)) keys = false -> ~ In (lit s) keys.
Proof. intros s H X. assert (existsb (geqb (lit s)) keys = true); [|congruence]. apply existsb_exists. exists (lit s). split; [exact X|apply geqb_refl]. Qed.
Lemma table1_good : Forall good table1.
Proof.
  unfold table1. repeat match goal with |- Forall _ ((_, _) :: _) => apply Forall_cons end.
  - apply good_plain; [apply in_keys; vm_compute; reflexivity|discriminate].
  - apply good_never; [apply not_in_keys; vm_compute; reflexivity|]. intros R V. apply (never_anchored "cluster"); [nochar|nochar|exact V].
  - apply good_never; [apply not_in_keys; vm_compute; reflexivity|]. intros R V. apply (never_anchored "tcp"); [nochar|nochar|exact V].
  - exact good_rc.
  - apply good_never; [apply not_in_keys; vm_compute; reflexivity|]. exact never_class.
  - apply good_never; [apply not_in_keys; vm_compute; reflexivity|]. intros R V. apply (never_anchored "listener"); [nochar|nochar|exact V].
  - apply good_never; [apply not_in_keys; vm_compute; reflexivity|]. intros R V. apply (never_anchored "mongo"); [nochar|nochar|exact V].
  - apply good_never; [apply not_in_keys; vm_compute; reflexivity|]. intros R V. apply (never_anchored "mysql"); [nochar|nochar|exact V].
  - apply good_never; [apply not_in_keys; vm_compute; reflexivity|]. intros R V. apply (never_anchored "postgres"); [nochar|nochar|exact V].
  - apply Forall_forall. intros e He. apply in_map_iff in He. destruct He as (s & <- & Hs). apply good_plain.
    + apply in_keys. revert s Hs. apply forallb_forall. vm_compute. reflexivity.
    + apply geqb_neq. revert s Hs. match goal with |- forall s, In s ?l -> _ => assert (X : forallb (fun s => negb (geqb (lit s) (lit "response_code"))) l = true) by (vm_compute; reflexivity); rewrite forallb_forall in X end.
      intros s Hs. apply X in Hs. now apply negb_true_iff.
Qed.
Lemma get_drop : forall R a b, a <> b -> tag_get (drop a R) b = tag_get R b.
Proof.
  induction R as [|[k v] R IH]; intros a b H; [reflexivity|]. cbn. destruct (geqb k a) eqn:Ea; cbn.
  - apply geqb_eq in Ea. subst. destruct (geqb a b) eqn:E; [apply geqb_eq in E; contradiction|]. now apply IH.
  - destruct (geqb k b); [reflexivity|now apply IH].
Qed.
Lemma valid_drop : forall R k, valid R -> valid (drop k R).
Proof.
  intros R k [N L]. split; [|intros e He; apply L; unfold drop in He; apply filter_In in He; apply He].
  clear L. induction R as [|[a v] R IH]; [constructor|]. inversion N; subst. cbn. destruct (geqb a k); cbn; [now apply IH|]. constructor; [|now apply IH].
  intro X. apply H1. apply in_map_iff in X. destruct X as (e & <- & He). unfold drop in He. apply filter_In in He. apply in_map, He.
Qed.
Definition found (R : list (gstr * gstr)) (T : list (gstr * rx)) : list (gstr * gstr) := flat_map (fun e => match tag_get R (fst e) with Some v => [(fst e, v)] | None => [] end) T.
Definition dropped (R : list (gstr * gstr)) (T : list (gstr * rx)) : list (gstr * gstr) := fold_left (fun R e => drop (fst e) R) T R.
Lemma found_drop : forall T R k, ~ In k (map fst T) -> found (drop k R) T = found R T.
Proof.
  induction T as [|e T IH]; intros R k H; [reflexivity|]. unfold found in *. cbn [flat_map]. rewrite get_drop by (intro; subst; apply H; now left). f_equal. apply IH. intro. apply H. now right.
Qed.
Lemma run_good : forall T R vals, Forall good T -> NoDup (map fst T) -> valid R -> fold_left tag_step T (full R, vals) = (full (dropped R T), vals ++ found R T).
Proof.
  induction T as [|e T IH]; intros R vals F N V; [cbn; now rewrite app_nil_r|]. inversion F; inversion N; subst. cbn [fold_left]. specialize (H1 R vals V). unfold found, dropped. cbn [flat_map fold_left].
  destruct (tag_get R (fst e)) as [v|] eqn:E; rewrite H1.
  - rewrite IH by (auto using valid_drop). unfold dropped. rewrite <- app_assoc. cbn [app]. rewrite found_drop by assumption. reflexivity.
  - apply get_none in E. rewrite IH by auto. rewrite drop_none by exact E. reflexivity.
Qed.
Lemma dropped_spec : forall T R k, In k (map fst (dropped R T)) -> In k (map fst R) /\ ~ In k (map fst T).
Proof.
  induction T as [|e T IH]; intros R k H; [cbn in *; tauto|]. cbn in H. apply IH in H. destruct H as [H1 H2]. apply in_map_iff in H1. destruct H1 as (x & <- & Hx). unfold drop in Hx. apply filter_In in Hx. destruct Hx as [Hx Hg].
  split; [now apply in_map|]. cbn. intros [A|A]; [|contradiction]. rewrite A, geqb_refl in Hg. discriminate.
Qed.
Lemma found_get : forall T R k, NoDup (map fst T) -> In k (map fst T) -> tag_get (found R T) k = tag_get R k.
Proof.
  induction T as [|e T IH]; intros R k N H; [contradiction|]. inversion N; subst. unfold found. cbn [flat_map]. destruct (gstr_eq_dec (fst e) k) as [Ek|Hne].
  - subst k. destruct (tag_get R (fst e)) as [v|] eqn:E.
    + cbn. rewrite geqb_refl. reflexivity.
    + cbn [app]. apply get_none. intro X. apply in_map_iff in X. destruct X as (x & Ex & Hx). apply in_flat_map in Hx. destruct Hx as (e' & He' & Hx).
      destruct (tag_get R (fst e')) as [v'|] eqn:E'; [|contradiction]. destruct Hx as [Hx|[]]. subst x. cbn in Ex. rewrite Ex in E'. congruence.
  - assert (H' : In k (map fst T)) by (destruct H; [contradiction|assumption]). destruct (tag_get R (fst e)); cbn [app]; [cbn [tag_get]; apply geqb_neq in Hne; rewrite Hne|]; now apply IH.
Qed.
Lemma table2_none : forall vals, fold_left tag_step table2 (p ++ name, vals) = (p ++ name, vals).
Proof.
  assert (H : forallb (fun e => needs (Ascii.eqb ".") (snd e)) table2 = true) by (vm_compute; reflexivity). rewrite forallb_forall in H. intros vals.
  induction table2 as [|e T IH]; [reflexivity|]. cbn [fold_left]. unfold tag_step at 2. cbn [fst snd]. rewrite rfind_nowhere; [apply IH; intros; apply H; now right|].
  intros w u v E M. apply (needs_sound (Ascii.eqb ".") (snd e)) in M; [|apply H; now left]. destruct M as (a & Ha & Hd). apply Ascii.eqb_eq in Hd. subst a.
  assert (X : In "."%char (p ++ name)) by (rewrite E; apply in_or_app; right; apply in_or_app; now left). apply in_app_or in X. destruct Pp, Pn. tauto.
Qed.
Lemma names_nodup : NoDup (map fst table1).
Proof.
  assert (H : (fix nd (l : list gstr) : bool := match l with [] => true | x :: r => negb (existsb (geqb x) r) && nd r end) (map fst table1) = true) by (vm_compute; reflexivity).
  revert H. generalize (map fst table1). induction l as [|x l IH]; intro H; [constructor|]. apply andb_true_iff in H. destruct H as [H1 H2]. constructor; [|now apply IH].
  apply negb_true_iff in H1. intro X. assert (existsb (geqb x) l = true); [|congruence]. apply existsb_exists. exists x. split; [exact X|apply geqb_refl].
Qed.
Lemma keys_in_table : forall k, In k keys -> In k (map fst table1).
Proof.
  assert (H : forallb (fun k => existsb (geqb k) (map fst table1)) keys = true) by (vm_compute; reflexivity). rewrite forallb_forall in H. intros k Hk. apply H in Hk. apply existsb_exists in Hk.
  destruct Hk as (x & Hx & E). apply geqb_eq in E. now subst.
Qed.
Lemma roundtrip : forall R, valid R -> fst (parse_stat (full R)) = p ++ name /\ forall k, tag_get (snd (parse_stat (full R))) k = tag_get R k.
Proof.
  intros R V. unfold parse_stat, stat_tags. rewrite fold_left_app, run_good; [|exact table1_good|exact names_nodup|exact V].
  assert (D : dropped R table1 = []). { destruct (dropped R table1) as [|[k v] l] eqn:E; [reflexivity|]. exfalso. destruct (dropped_spec table1 R k) as [D1 D2]; [rewrite E; now left|].
    apply D2, keys_in_table. apply in_map_iff in D1. destruct D1 as (x & <- & Hx). apply (proj2 V _ Hx). }
  rewrite D. unfold full at 1 2. cbn [encs map concat app]. rewrite table2_none. cbn [fst snd app]. split; [reflexivity|]. intros k.
  destruct (in_dec gstr_eq_dec k (map fst table1)) as [H|H]; [apply found_get; [exact names_nodup|exact H]|].
  transitivity (@None gstr).
  - apply get_none. intro X. apply H. apply in_map_iff in X. destruct X as (x & <- & Hx). unfold found in Hx. apply in_flat_map in Hx. destruct Hx as (e & He & Hx). destruct (tag_get R (fst e)); [|contradiction]. destruct Hx as [<-|[]]. cbn [fst]. now apply in_map.
  - symmetry. apply get_none. intro X. apply H, keys_in_table. apply in_map_iff in X. destruct X as (x & <- & Hx). apply (proj2 V _ Hx).
Qed.
End Name.

(* A name with any labels, each key at most once and in any order, gives back exactly these labels and the rest of the name. *)
Theorem C77_round_trip : forall p labels name,
  plain p -> plain name -> ~ ends_class (p ++ name) -> NoDup (map fst labels) -> (forall e, In e labels -> label_ok e) ->
  fst (parse_stat (p ++ encs labels ++ name)) = p ++ name /\
  forall k, tag_get (snd (parse_stat (p ++ encs labels ++ name))) k = tag_get labels k.
Proof. intros p labels name H1 H2 H3 H4 H5. apply (roundtrip p name H1 H2 H3 labels). split; assumption. Qed.
Print Assumptions C77_round_trip.
Lemma plain_dec : forall s, existsb (fun c => existsb (Ascii.eqb c) (lit ".=")) s = false -> plain s.
Proof.
  intros s H. split; intro X; (assert (existsb (fun c => existsb (Ascii.eqb c) (lit ".=")) s = true); [|congruence]); apply existsb_exists; eexists; (split; [exact X|reflexivity]).
Qed.
Example C77_round_trip_ex :
  let l := [(lit "source_workload_namespace", lit "default"); (lit "response_code", lit "200"); (lit "reporter", lit "destination"); (lit "source_workload", lit "a.b;c")] in
  plain (lit "istiocustom_") /\ plain (lit "istio_requests_total") /\ ~ ends_class (lit "istiocustom_istio_requests_total") /\ NoDup (map fst l) /\ (forall e, In e l -> label_ok e)
  /\ fst (parse_stat (lit "istiocustom_" ++ encs l ++ lit "istio_requests_total")) = lit "istiocustom_istio_requests_total".
Proof.
  cbn zeta. split; [apply plain_dec; reflexivity|]. split; [apply plain_dec; reflexivity|]. split; [|split; [|split]].
  - intros (w & c & _ & E). apply (f_equal (@rev ascii)) in E. rewrite rev_app_distr in E. cbn in E. discriminate.
  - repeat constructor; cbn; intuition discriminate.
  - assert (V : forall v, existsb (fun c => existsb (Ascii.eqb c) [nl; "="%char]) v = false -> gcontains (v ++ lit ";.") (lit ";.;") = false -> value_ok v).
    { intros v H1 H2. split; [|split].
      - intro X. assert (existsb (fun c => existsb (Ascii.eqb c) [nl; "="%char]) v = true); [|congruence]. apply existsb_exists. eexists. split; [exact X|reflexivity].
      - intro X. assert (existsb (fun c => existsb (Ascii.eqb c) [nl; "="%char]) v = true); [|congruence]. apply existsb_exists. eexists. split; [exact X|reflexivity].
      - intros a b E. assert (gcontains (v ++ lit ";.") (lit ";.;") = true); [|congruence]. apply gcontains_spec. eauto. }
    intros e H. cbn [In] in H. repeat (destruct H as [<-|H]; [split; [cbn [fst]; apply in_keys; vm_compute; reflexivity|split; [cbn [snd]; apply V; vm_compute; reflexivity|cbn; intros; discriminate]]|]). contradiction.
  - vm_compute. reflexivity.
Qed.
(* Without the conditions the result is not what was written:
   a value can bring its own labels, and the first label of a name wins *)
Theorem C77_injection_refuted : exists labels, NoDup (map fst labels) /\ (forall e, In e labels -> In (fst e) keys) /\
  tag_get labels (lit "source_principal") = Some (lit "trusted") /\
  tag_get (snd (parse_stat (encs labels ++ lit "_requests"))) (lit "source_principal") = Some (lit "forged").
Proof.
  exists [(lit "request_operation", lit "x;.;source_principal=.=forged"); (lit "source_principal", lit "trusted")].
  split; [repeat constructor; cbn; intuition discriminate|]. split; [|split; vm_compute; reflexivity].
  intros e [<-|[<-|[]]]; apply in_keys; vm_compute; reflexivity.
Qed.
Print Assumptions C77_injection_refuted.
(* an empty response code swallows the next label *)
Theorem C77_empty_code_refuted :
  let labels := [(lit "response_code", []); (lit "source_app", lit "x")] in
  tag_get (snd (parse_stat (encs labels ++ lit "n"))) (lit "response_code") = Some (lit ";.;source_app=.=x") /\
  tag_get (snd (parse_stat (encs labels ++ lit "n"))) (lit "source_app") = None.
Proof. cbn zeta. split; vm_compute; reflexivity. Qed.
Print Assumptions C77_empty_code_refuted.
(* a line break in a value: the label is not found *)
Theorem C77_newline_refuted : tag_get (snd (parse_stat (enc (lit "source_app", ["a"%char; nl; "b"%char]) ++ lit "n"))) (lit "source_app") = None.
Proof. vm_compute. reflexivity. Qed.
Print Assumptions C77_newline_refuted.
(* Envoy's own names: a response code at the end of the name is never found (the expression asks for ".ddd"); a response code class is
   cut out at its first occurrence, not where it was found; the prefix of a MongoDB name is not the value of its label *)
Theorem C77_envoy_names_refuted :
  parse_stat (lit "upstream_rq_200") = (lit "upstream_rq_200", []) /\
  parse_stat (lit "a_2xx_rq_2xx") = (lit "a_rq_2xx", [(lit "response_code_class", lit "2xx")]) /\
  parse_stat (lit "mongo.db.cmd.x") = (lit "mongo..cmd.x", [(lit "mongo_prefix", lit "cmd")]).
Proof. vm_compute. auto. Qed.
Print Assumptions C77_envoy_names_refuted.
