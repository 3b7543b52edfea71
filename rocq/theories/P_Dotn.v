(* C43: dotted attribute map. *)
From Coq Require Import String List Ascii Bool Arith ZArith Lia.
From Verif Require Import M_GoStr L_GoStr M_Dotn.
Import ListNotations.
Open Scope list_scope.
(* ---------- specification ---------- *)
(* an ordinary key: no backslash and no NUL byte, so that its path is its dot-separated pieces *)
Definition plain_key (k : gstr) : Prop := ~ In BSL k /\ ~ In NUL k.
Definition path (k : gstr) : list gstr := gsplit DOT k.
Definition is_prefix (p q : list gstr) : Prop := exists r, q = p ++ r.
(* what is found by walking the nested maps along a path *)
Fixpoint walk (m : store) (p : list gstr) : option dval :=
  match p with
  | [] => None
  | [k] => dget m k
  | k :: r => match dget m k with Some (VStore m') | Some (VMap m') => walk m' r | _ => None end
  end.
(* no proper prefix of the path holds something that is not a nested map *)
Definition open_path (m : store) (p : list gstr) : Prop :=
  forall q v, is_prefix q p -> q <> p -> walk m q = Some v -> (exists m', v = VStore m' \/ v = VMap m').
(* ---------- lemmas ---------- *)
Lemma dget_put_same : forall {A} (m : list (gstr * A)) k v, dget (dput m k v) k = Some v.
Proof. induction m as [|[k' w] m IH]; intros k v; cbn; [now rewrite geqb_refl|]. destruct (geqb k k') eqn:E; cbn; rewrite E; auto. Qed.
Lemma dget_put_other : forall {A} (m : list (gstr * A)) k k' v, k' <> k -> dget (dput m k v) k' = dget m k'.
Proof.
  induction m as [|[x w] m IH]; intros k k' v H; cbn; [apply geqb_neq in H; now rewrite H|]. destruct (geqb k x) eqn:E; cbn.
  - apply geqb_eq in E. subst x. apply geqb_neq in H. now rewrite H.
  - destruct (geqb k' x); [reflexivity|]. now apply IH.
Qed.
Lemma unescape_plain : forall k, ~ In BSL k -> unescape k = k.
Proof.
  induction k as [|a k IH]; intros H; [reflexivity|]. cbn [unescape]. destruct k as [|b k]; [reflexivity|]. destruct (Ascii.eqb_spec a BSL) as [->|]; [exfalso; apply H; now left|]. cbn [andb]. rewrite IH; [reflexivity|]. intros Hc. apply H. now right.
Qed.
Lemma restore_plain : forall p, ~ In NUL p -> restore p = p.
Proof. induction p as [|c p IH]; intros H; [reflexivity|]. cbn. destruct (Ascii.eqb_spec c NUL) as [->|]; [exfalso; apply H; now left|]. f_equal. apply IH. intros Hc. apply H. now right. Qed.
Lemma gsplit_sub : forall sep s x c, In x (gsplit sep s) -> In c x -> In c s.
Proof.
  induction s as [|a s IH]; intros x c H Hc; cbn in H; [destruct H as [<-|[]]; contradiction|]. destruct (Ascii.eqb a sep).
  - destruct H as [<-|H]; [contradiction|]. right. eauto.
  - pose proof (gsplit_nonnil sep s) as N. destruct (gsplit sep s) as [|y ys]; [contradiction|]. destruct H as [<-|H].
    + destruct Hc as [->|Hc]; [now left|]. right. eapply IH; [now left|exact Hc].
    + right. apply (IH x); [right; exact H|exact Hc].
Qed.
Lemma path_plain : forall k x, plain_key k -> In x (path k) -> restore x = x.
Proof. intros k x (_ & H) Hx. apply restore_plain. intros Hc. apply H. eapply gsplit_sub; eassumption. Qed.
Definition plain_path (p : list gstr) : Prop := forall x, In x p -> restore x = x.
(* the three setters as one update at the end of a path *)
Fixpoint at_path (m : store) (p : list gstr) (f : option dval -> option dval) : store :=
  match p with
  | [] => m
  | k :: rest =>
      match rest with
      | [] => match f (dget m k) with Some v => dput m k v | None => m end
      | _ => match dget m k with
             | None => dput m k (VStore (at_path [] rest f))
             | Some (VStore m') => dput m k (VStore (at_path m' rest f))
             | Some (VMap m') => dput m k (VMap (at_path m' rest f))
             | Some _ => at_path m rest f
             end
      end
  end.
Definition put_slice (l : list dval) (o : option dval) : option dval := match o with None => Some (VArr l) | Some (VArr l0) => Some (VArr (l0 ++ l)) | Some _ => None end.
Lemma set_scalar_at : forall p m v, plain_path p -> set_scalar m p v = at_path m p (fun _ => Some v).
Proof.
  induction p as [|k p IH]; intros m v H; [reflexivity|]. cbn [set_scalar at_path]. rewrite (H k (or_introl eq_refl)). destruct p as [|k2 p]; [reflexivity|].
  assert (Hp: plain_path (k2 :: p)) by (intros x Hx; apply H; now right). destruct (dget m k) as [[]|]; rewrite ?IH by assumption; reflexivity.
Qed.
Lemma set_slice_at : forall p m l, plain_path p -> set_slice m p l = at_path m p (put_slice l).
Proof.
  induction p as [|k p IH]; intros m v H; [reflexivity|]. cbn [set_slice at_path]. rewrite (H k (or_introl eq_refl)). destruct p as [|k2 p]; [destruct (dget m k) as [[]|]; reflexivity|].
  assert (Hp: plain_path (k2 :: p)) by (intros x Hx; apply H; now right). destruct (dget m k) as [[]|]; rewrite ?IH by assumption; reflexivity.
Qed.
Lemma ensure_at : forall p m, plain_path p -> ensure m p = at_path m p (fun o => match o with None => Some (VStore []) | Some _ => None end).
Proof.
  induction p as [|k p IH]; intros m H; [reflexivity|]. cbn [ensure at_path]. rewrite (H k (or_introl eq_refl)). destruct p as [|k2 p]; [destruct (dget m k) as [[]|]; reflexivity|].
  assert (Hp: plain_path (k2 :: p)) by (intros x Hx; apply H; now right). destruct (dget m k) as [[]|]; rewrite ?IH by assumption; reflexivity.
Qed.
Lemma walk_cons : forall m k r, r <> [] -> walk m (k :: r) = match dget m k with Some (VStore m') | Some (VMap m') => walk m' r | _ => None end.
Proof. intros m k [|k2 r] H; [contradiction|reflexivity]. Qed.
Lemma at_cons : forall m k r f, r <> [] -> at_path m (k :: r) f = match dget m k with None => dput m k (VStore (at_path [] r f)) | Some (VStore m') => dput m k (VStore (at_path m' r f)) | Some (VMap m') => dput m k (VMap (at_path m' r f)) | Some _ => at_path m r f end.
Proof. intros m k [|k2 r] f H; [contradiction|reflexivity]. Qed.
Lemma open_cons : forall m k r, r <> [] -> open_path m (k :: r) -> dget m k = None \/ exists m', (dget m k = Some (VStore m') \/ dget m k = Some (VMap m')) /\ open_path m' r.
Proof.
  intros m k r Hr H. destruct (dget m k) as [v|] eqn:E; [right|now left].
  assert (N: [k] <> k :: r) by (intros Hc; injection Hc as Hc; congruence).
  destruct (H [k] v) as (m' & Hm); [now exists r|assumption|assumption|]. exists m'. split; [destruct Hm; subst; auto|].
  intros q w (r' & ->) Hne Hw. apply (H (k :: q) w); [exists r'; reflexivity|congruence|]. destruct q as [|k2 q]; [discriminate|]. rewrite walk_cons by discriminate. rewrite E. destruct Hm; subst; assumption.
Qed.
Lemma open_nil : forall p, open_path [] p.
Proof. intros p q v _ _ H. destruct q as [|k [|k2 q]]; discriminate. Qed.
(* the value at the end of the path *)
Lemma walk_at : forall p m f, p <> [] -> open_path m p -> walk (at_path m p f) p = match f (walk m p) with Some v => Some v | None => walk m p end.
Proof.
  induction p as [|k p IH]; intros m f Hn Ho; [contradiction|]. destruct p as [|k2 p].
  - cbn. destruct (f (dget m k)); [apply dget_put_same|reflexivity].
  - rewrite at_cons, !walk_cons by discriminate. destruct (open_cons m k (k2 :: p) ltac:(discriminate) Ho) as [E|(m' & [E|E] & Hm)]; rewrite E, dget_put_same; rewrite IH; try discriminate; try assumption; try reflexivity; [|apply open_nil].
    assert (W: walk [] (k2 :: p) = None) by (destruct p; reflexivity). now rewrite W.
Qed.
Section G.
Variable parse_int8 : gstr -> option Z.
Notation gl := (get_loop parse_int8).
Lemma gl_empty : forall q, gl (VStore []) q = GNone.
Proof. intros [|a q]; reflexivity. Qed.
Lemma gl_ext : forall ps qs v, map restore ps = map restore qs -> gl v ps = gl v qs.
Proof.
  induction ps as [|p ps IH]; intros [|q qs] v H; try discriminate; [reflexivity|]. cbn [map] in H. injection H as H1 H2. cbn [get_loop]. rewrite H1.
  assert (F: forall w, match ps with [] => GSome w | _ => gl w ps end = match qs with [] => GSome w | _ => gl w qs end) by (intros w; destruct ps, qs; try discriminate; [reflexivity|now apply IH]).
  destruct v; try reflexivity.
  - destruct (dget m (restore q)); [apply F|reflexivity].
  - destruct (dget m (restore q)); [apply F|reflexivity].
  - destruct (dget m (restore q)); [apply F|reflexivity].
  - destruct (parse_int8 (restore q)) as [ip|]; [|now apply IH]. destruct (Z.of_nat (length l) <? ip + 1)%Z; [now apply IH|]. destruct (ip <? 0)%Z; [reflexivity|]. destruct (nth_error l (Z.to_nat ip)); [apply F|reflexivity].
Qed.
Lemma gl_found_walk : forall p m v, plain_path p -> walk m p = Some v -> gl (VStore m) p = GSome v /\ gl (VMap m) p = GSome v.
Proof.
  induction p as [|k p IH]; intros m v Hp H; [discriminate|]. cbn [get_loop]. rewrite (Hp k (or_introl eq_refl)). destruct p as [|k2 p].
  - cbn in H. rewrite H. auto.
  - rewrite walk_cons in H by discriminate. assert (Hp2: plain_path (k2 :: p)) by (intros x Hx; apply Hp; now right).
    destruct (dget m k) as [[m'|m'| | | | |]|]; try discriminate; destruct (IH m' v Hp2 H); auto.
Qed.
(* frame: a path that is neither a prefix nor an extension *)
Lemma gl_at_frame : forall p m f q, plain_path p -> plain_path q -> open_path m p -> ~ is_prefix p q -> ~ is_prefix q p -> gl (VStore (at_path m p f)) q = gl (VStore m) q /\ gl (VMap (at_path m p f)) q = gl (VMap m) q.
Proof.
  induction p as [|k p IH]; intros m f q Hpp Hpq Ho N1 N2; [exfalso; apply N1; now exists q|]. destruct q as [|k' q]; [exfalso; apply N2; now exists (k :: p)|].
  assert (R: restore k' = k') by (apply Hpq; now left). cbn [get_loop]. rewrite R. destruct (gstr_eq_dec k' k) as [->|Hne].
  - assert (P0: p <> []) by (intros ->; apply N1; now exists q). assert (Q0: q <> []) by (intros ->; apply N2; now exists p).
    assert (M1: ~ is_prefix p q) by (intros (r & ->); apply N1; exists r; reflexivity). assert (M2: ~ is_prefix q p) by (intros (r & ->); apply N2; exists r; reflexivity).
    assert (Hpp2: plain_path p) by (intros x Hx; apply Hpp; now right). assert (Hpq2: plain_path q) by (intros x Hx; apply Hpq; now right).
    rewrite at_cons by assumption. destruct q as [|q0 q]; [contradiction|].
    destruct (open_cons m k p P0 Ho) as [E|(m' & [E|E] & Hm)]; rewrite E, dget_put_same.
    + destruct (IH [] f (q0 :: q) Hpp2 Hpq2 (open_nil p) M1 M2) as (I1 & _). rewrite I1. now rewrite gl_empty.
    + destruct (IH m' f (q0 :: q) Hpp2 Hpq2 Hm M1 M2) as (I1 & I2). rewrite I1. auto.
    + destruct (IH m' f (q0 :: q) Hpp2 Hpq2 Hm M1 M2) as (I1 & I2). rewrite I2. auto.
  - assert (E: dget (at_path m (k :: p) f) k' = dget m k').
    { destruct p as [|k2 p]; [cbn; destruct (f (dget m k)); [now apply dget_put_other|reflexivity]|]. rewrite at_cons by discriminate.
      destruct (open_cons m k (k2 :: p) ltac:(discriminate) Ho) as [E|(m' & [E|E] & _)]; rewrite E; now apply dget_put_other. }
    rewrite E. auto.
Qed.
Lemma plain_path_key : forall k, plain_key k -> plain_path (path k).
Proof. intros k H x Hx. eapply path_plain; eassumption. Qed.
Lemma dotn_get_plain : forall m k, plain_key k -> dotn_get parse_int8 m k = gl (VStore m) (path k).
Proof. intros m k (H & _). unfold dotn_get. now rewrite unescape_plain. Qed.
(* a value that is not a map or slice *)
Definition scalar (v : dval) : Prop := (exists z, v = VScalar z) \/ (exists s, v = VStr s) \/ (exists m, v = VStrMap m) \/ exists p, v = VPrim p.
Lemma set_any_scalar : forall m p v, scalar v -> set_any m p v = set_scalar m p v.
Proof. intros m p v [(z & ->)|[(s & ->)|[(x & ->)|(q & ->)]]]; reflexivity. Qed.
(* Setting a scalar at a path (no prefix of which holds a non-map) and getting that path returns it. *)
Theorem C43_get_set : forall m k v, plain_key k -> scalar v -> open_path m (path k) -> dotn_get parse_int8 (dotn_set m k v) k = GSome v.
Proof.
  intros m k v Hk Hv Ho. rewrite dotn_get_plain by assumption. unfold dotn_set. rewrite set_any_scalar by assumption. fold (path k). rewrite set_scalar_at by (now apply plain_path_key).
  apply gl_found_walk; [now apply plain_path_key|]. rewrite walk_at; [reflexivity|apply gsplit_nonnil|assumption].
Qed.
(* A slice set at a path that holds nothing is what is got there; one set where a slice is extends it. *)
Theorem C43_get_set_slice : forall m k l, plain_key k -> open_path m (path k) ->
  (walk m (path k) = None -> dotn_get parse_int8 (dotn_set m k (VArr l)) k = GSome (VArr l)) /\
  (forall l0, walk m (path k) = Some (VArr l0) -> dotn_get parse_int8 (dotn_set m k (VArr l)) k = GSome (VArr (l0 ++ l))).
Proof.
  intros m k l Hk Ho. rewrite dotn_get_plain by assumption. unfold dotn_set. cbn [set_any]. fold (path k). rewrite set_slice_at by (now apply plain_path_key).
  split; [intros Hw|intros l0 Hw]; apply gl_found_walk; try (now apply plain_path_key); (rewrite walk_at; [rewrite Hw; reflexivity|apply gsplit_nonnil|assumption]).
Qed.
(* Setting a scalar or a slice leaves every path that is neither a prefix nor an extension as it was. *)
Theorem C43_frame : forall m k v k', plain_key k -> plain_key k' -> scalar v \/ (exists l, v = VArr l) -> open_path m (path k) ->
  ~ is_prefix (path k) (path k') -> ~ is_prefix (path k') (path k) -> dotn_get parse_int8 (dotn_set m k v) k' = dotn_get parse_int8 m k'.
Proof.
  intros m k v k' Hk Hk' Hv Ho N1 N2. rewrite !dotn_get_plain by assumption. unfold dotn_set. fold (path k). pose proof (plain_path_key _ Hk) as P1. pose proof (plain_path_key _ Hk') as P2. destruct Hv as [Hv|(l & ->)].
  - rewrite set_any_scalar, set_scalar_at by assumption. now apply gl_at_frame.
  - cbn [set_any]. rewrite set_slice_at by assumption. now apply gl_at_frame.
Qed.
(* ---------- map values ---------- *)
(* setting a map with distinct plain keys and scalar values where nothing is: every entry can be got, and other paths are
   as they were *)
(* a map of scalars with distinct keys, which may contain dots *)
Definition flat_map_value (kvs : list (gstr * dval)) : Prop := NoDup (map fst kvs) /\ forall k v, In (k, v) kvs -> scalar v /\ plain_key k.
(* how a key that contains dots is written in a path for Get *)
Definition esc (k : gstr) : gstr := flat_map (fun c => if Ascii.eqb c DOT then [BSL; DOT] else [c]) k.
Lemma unescape_esc : forall k, ~ In BSL k -> unescape (esc k) = hide k.
Proof.
  induction k as [|c k IH]; intros H; [reflexivity|]. assert (Hk: ~ In BSL k) by (intros C; apply H; now right). specialize (IH Hk). cbn [esc flat_map hide map]. fold (esc k) (hide k). destruct (Ascii.eqb_spec c DOT) as [->|Hc].
  - cbn [app]. change (unescape (BSL :: DOT :: esc k)) with (NUL :: unescape (esc k)). now rewrite IH.
  - cbn [app]. rewrite <- IH. destruct (esc k) as [|b r]; [reflexivity|]. cbn [unescape]. destruct (Ascii.eqb_spec c BSL) as [->|]; [exfalso; apply H; now left|]. reflexivity.
Qed.
Lemma unescape_app : forall key x, ~ In BSL key -> unescape (key ++ DOT :: x) = key ++ DOT :: unescape x.
Proof.
  induction key as [|c key IH]; intros x H.
  - cbn [app]. change (unescape (DOT :: x)) with (match x with b :: r' => DOT :: unescape x | [] => [DOT] end). destruct x; reflexivity.
  - assert (Hk: ~ In BSL key) by (intros C; apply H; now right). specialize (IH x Hk). cbn [app]. rewrite <- IH. destruct (key ++ DOT :: x) as [|b r] eqn:E; [destruct key; discriminate|]. cbn [unescape]. destruct (Ascii.eqb_spec c BSL) as [->|]; [exfalso; apply H; now left|]. reflexivity.
Qed.
Lemma hide_nodot : forall k, ~ In DOT (hide k).
Proof. induction k as [|c k IH]; [auto|]. cbn. destruct (Ascii.eqb_spec c DOT) as [->|Hc]; intros [C|C]; try contradiction; try discriminate; congruence. Qed.
Lemma restore_hide : forall k, ~ In NUL k -> restore (hide k) = k.
Proof.
  induction k as [|c k IH]; intros H; [reflexivity|]. cbn [hide map restore]. fold (hide k) (restore (hide k)). rewrite IH by (intros C; apply H; now right). f_equal.
  destruct (Ascii.eqb_spec c DOT) as [->|]; [reflexivity|]. destruct (Ascii.eqb_spec c NUL) as [->|]; [exfalso; apply H; now left|reflexivity].
Qed.
Lemma set_scalar_ext : forall ps qs m v, map restore ps = map restore qs -> set_scalar m ps v = set_scalar m qs v.
Proof.
  induction ps as [|p ps IH]; intros [|q qs] m v H; try discriminate; [reflexivity|]. cbn [map] in H. injection H as H1 H2. cbn [set_scalar]. rewrite H1. destruct ps as [|p2 ps]; destruct qs as [|q2 qs]; try discriminate; [reflexivity|].
  destruct (dget m (restore q)) as [[]|]; rewrite (IH (q2 :: qs)) by assumption; reflexivity.
Qed.
Definition each_set (p : list gstr) := fix each (kvs : list (gstr * dval)) (m : store) : store := match kvs with [] => m | (k, w) :: r => each r (set_any m (p ++ [hide k]) w) end.
Lemma walk_app : forall p m m' k, p <> [] -> (walk m p = Some (VStore m') \/ walk m p = Some (VMap m')) -> walk m (p ++ [k]) = dget m' k.
Proof.
  induction p as [|a p IH]; intros m m' k Hn H; [contradiction|]. destruct p as [|b p].
  - cbn in *. destruct H as [H|H]; rewrite H; reflexivity.
  - change ((a :: b :: p) ++ [k]) with (a :: (b :: p) ++ [k]). rewrite walk_cons by discriminate. rewrite walk_cons in H by discriminate. destruct (dget m a) as [[x|x| | | | |]|]; try (destruct H; discriminate); (apply IH; [discriminate|assumption]).
Qed.
Lemma open_app : forall p m m' k, open_path m p -> (walk m p = Some (VStore m') \/ walk m p = Some (VMap m')) -> open_path m (p ++ [k]).
Proof.
  intros p m m' k Ho Hw q v (r & E) Hne Hq. destruct (exists_last (l := r)) as (r' & x & ->). { intros ->. apply Hne. rewrite app_nil_r in E. congruence. }
  rewrite app_assoc in E. apply app_inj_tail in E. destruct E as (E & <-). destruct r' as [|y r'].
  - rewrite app_nil_r in E. subst q. exists m'. destruct Hw as [Hw|Hw]; rewrite Hw in Hq; injection Hq as <-; auto.
  - apply (Ho q v); [now exists (y :: r')|rewrite E; intros Hc; apply (f_equal (@length _)) in Hc; rewrite app_length in Hc; cbn in Hc; lia|assumption].
Qed.
(* walking a prefix after an update below it finds a store again *)
Lemma walk_prefix_at : forall p m m' k f, p <> [] -> (walk m p = Some (VStore m') \/ walk m p = Some (VMap m')) -> exists m'', walk (at_path m (p ++ [k]) f) p = Some (VStore m'') \/ walk (at_path m (p ++ [k]) f) p = Some (VMap m'').
Proof.
  induction p as [|a p IH]; intros m m' k f Hn H; [contradiction|]. change ((a :: p) ++ [k]) with (a :: (p ++ [k])). rewrite at_cons by (destruct p; discriminate). destruct p as [|b p].
  - cbn in H. destruct H as [H|H]; rewrite H; cbn [walk]; rewrite dget_put_same; eauto.
  - rewrite walk_cons in H by discriminate. rewrite walk_cons by discriminate. destruct (dget m a) as [[x|x| | | | |]|]; try (destruct H; discriminate); rewrite dget_put_same; (eapply IH; [discriminate|exact H]).
Qed.
Lemma open_self_at : forall p m k f, p <> [] -> open_path m (p ++ [k]) -> open_path (at_path m (p ++ [k]) f) p.
Proof.
  induction p as [|a p IH]; intros m k f Hn Ho; [contradiction|]. intros q v (r & E) Hne Hq. destruct q as [|a' q]; [discriminate|]. injection E as <- E.
  destruct p as [|b p]; [destruct q; [|discriminate]; congruence|]. change ((a :: b :: p) ++ [k]) with (a :: ((b :: p) ++ [k])) in *. rewrite at_cons in Hq by discriminate.
  assert (N: (b :: p) ++ [k] <> []) by discriminate. destruct (open_cons m a _ N Ho) as [E1|(m' & [E1|E1] & Hm)]; rewrite E1 in Hq; (destruct q as [|b' q]; [cbn [walk] in Hq; rewrite dget_put_same in Hq; injection Hq as <-; eauto|]); rewrite walk_cons in Hq by discriminate; rewrite dget_put_same in Hq.
  - eapply (IH [] k f); [discriminate|apply open_nil|exists r; exact E|congruence|exact Hq].
  - eapply (IH m' k f); [discriminate|exact Hm|exists r; exact E|congruence|exact Hq].
  - eapply (IH m' k f); [discriminate|exact Hm|exists r; exact E|congruence|exact Hq].
Qed.
Lemma plain_snoc : forall p k, plain_path p -> plain_key k -> plain_path (p ++ [k]).
Proof. intros p k H (_ & Hk) x Hx. apply in_app_iff in Hx. destruct Hx as [Hx|[<-|[]]]; [auto|now apply restore_plain]. Qed.
Lemma prefix_trans : forall p q r : list gstr, is_prefix p q -> is_prefix q r -> is_prefix p r.
Proof. intros p q r (a & ->) (b & ->). exists (a ++ b). now rewrite app_assoc. Qed.
Lemma prefix_of_snoc : forall p q k, is_prefix q (p ++ [k]) -> is_prefix q p \/ q = p ++ [k].
Proof.
  intros p q k (r & E). destruct r as [|x r] using rev_ind; [rewrite app_nil_r in E; auto|]. rewrite app_assoc in E. apply app_inj_tail in E. destruct E as (-> & _). left. now exists r.
Qed.
Lemma each_spec : forall kvs p m m', p <> [] -> plain_path p -> open_path m p -> (walk m p = Some (VStore m') \/ walk m p = Some (VMap m')) -> flat_map_value kvs ->
  (forall k v, In (k, v) kvs -> gl (VStore (each_set p kvs m)) (p ++ [k]) = GSome v) /\
  (forall q, plain_path q -> ~ is_prefix q p -> (forall k, In k (map fst kvs) -> ~ is_prefix (p ++ [k]) q /\ q <> p ++ [k]) -> gl (VStore (each_set p kvs m)) q = gl (VStore m) q).
Proof.
  induction kvs as [|[k v] kvs IH]; intros p m m' Hn Hp Ho Hw (Hd & Hf); [split; [intros ? ? []|reflexivity]|].
  destruct (Hf k v (or_introl eq_refl)) as (Hs & Hk). cbn [each_set]. rewrite set_any_scalar by assumption. rewrite (set_scalar_ext _ (p ++ [k])) by (rewrite !map_app; cbn [map]; destruct Hk as (_ & Hk); now rewrite restore_hide, restore_plain by assumption). rewrite set_scalar_at by (now apply plain_snoc). fold (each_set p).
  pose proof (open_app _ _ _ k Ho Hw) as Ho'. destruct (walk_prefix_at p m m' k (fun _ => Some v) Hn Hw) as (m2 & Hw2). pose proof (open_self_at p m k (fun _ => Some v) Hn Ho') as Ho2.
  inversion Hd as [|? ? Hd1 Hd2]; subst. destruct (IH p (at_path m (p ++ [k]) (fun _ => Some v)) m2 Hn Hp Ho2 Hw2) as (I1 & I2). { split; [assumption|]. intros; apply Hf; now right. }
  split.
  - intros k' v' [E|Hin]; [injection E as <- <-|now apply I1]. rewrite I2.
    + apply gl_found_walk; [now apply plain_snoc|]. rewrite walk_at; [reflexivity|destruct p; discriminate|assumption].
    + now apply plain_snoc.
    + intros (r & E). apply (f_equal (@length _)) in E. rewrite !app_length in E. cbn in E. lia.
    + intros k2 Hk2. assert (k2 <> k) by (intros ->; contradiction). split; [|intros Hc; apply app_inv_head in Hc; congruence]. intros (r & E). rewrite <- app_assoc in E. apply app_inv_head in E. destruct r; cbn in E; congruence.
  - intros q Hq Hnp Hks. rewrite I2; [|assumption|assumption|intros; apply Hks; now right]. destruct (Hks k (or_introl eq_refl)) as (N1 & N2). apply gl_at_frame; try assumption; [now apply plain_snoc|]. intros Hc. apply prefix_of_snoc in Hc. destruct Hc as [Hc|Hc]; [now apply Hnp|congruence].
Qed.
Theorem C43_get_set_map : forall m key kvs, plain_key key -> open_path m (path key) -> walk m (path key) = None -> flat_map_value kvs ->
  (forall k v, In (k, v) kvs -> dotn_get parse_int8 (dotn_set m key (VMap kvs)) (key ++ DOT :: esc k) = GSome v) /\
  (forall k', plain_key k' -> ~ is_prefix (path key) (path k') -> ~ is_prefix (path k') (path key) -> dotn_get parse_int8 (dotn_set m key (VMap kvs)) k' = dotn_get parse_int8 m k').
Proof.
  intros m key kvs Hk Ho Hw Hf. pose proof (plain_path_key _ Hk) as Hp. pose proof (gsplit_nonnil DOT key) as Hn. fold (path key) in Hn. pose (m1 := ensure m (path key)).
  assert (Em1: m1 = at_path m (path key) (fun o => match o with None => Some (VStore []) | Some _ => None end)) by (unfold m1; now rewrite ensure_at).
  assert (W1: walk m1 (path key) = Some (VStore [])) by (rewrite Em1, walk_at by assumption; now rewrite Hw).
  assert (O1: open_path m1 (path key)).
  { rewrite Em1. clear - Ho Hn. revert m Ho Hn. generalize (path key) as p. intros p m Ho Hn q v (r & E) Hne Hq. subst p. assert (Hr: r <> []) by (intros ->; rewrite app_nil_r in *; contradiction). clear Hne Hn.
    revert m Ho Hq. induction q as [|a q IH]; intros m Ho Hq; [discriminate|]. change ((a :: q) ++ r) with (a :: (q ++ r)) in *. assert (N: q ++ r <> []) by (destruct q; [exact Hr|discriminate]). rewrite at_cons in Hq by assumption.
    destruct (open_cons m a _ N Ho) as [E1|(m' & [E1|E1] & Hm)]; rewrite E1 in Hq; (destruct q as [|b q]; [cbn [walk] in Hq; rewrite dget_put_same in Hq; injection Hq as <-; eauto|]); rewrite walk_cons in Hq by discriminate; rewrite dget_put_same in Hq; eapply IH; eauto using open_nil. }
  assert (E: dotn_set m key (VMap kvs) = each_set (path key) kvs m1) by reflexivity.
  destruct (each_spec kvs (path key) m1 [] Hn Hp O1 (or_introl W1) Hf) as (S1 & S2). rewrite E. split.
  - intros k v Hin. destruct Hf as (_ & Hf). destruct (Hf k v Hin) as (_ & (K1 & K2)). destruct Hk as (B1 & B2). unfold dotn_get. rewrite unescape_app, unescape_esc by assumption.
    assert (Ep: gsplit DOT (key ++ DOT :: hide k) = path key ++ [hide k]). { unfold path. pose proof (hide_nodot k) as K3. clear - K3. induction key as [|c key IH]; cbn [app gsplit]; [rewrite Ascii.eqb_refl, gsplit_nosep by assumption; reflexivity|]. destruct (Ascii.eqb c DOT); [now rewrite IH|]. rewrite IH. pose proof (gsplit_nonnil DOT key). destruct (gsplit DOT key); [contradiction|reflexivity]. }
    rewrite Ep. rewrite (gl_ext _ (path key ++ [k])); [now apply S1|]. rewrite !map_app. cbn [map]. now rewrite restore_hide, restore_plain by assumption.
  - intros k' Hk' N1 N2. rewrite !dotn_get_plain by assumption. pose proof (plain_path_key _ Hk') as Hp'. rewrite S2; try assumption.
    + rewrite Em1. now apply gl_at_frame.
    + intros k Hin. split; [|intros Hc; apply N1; rewrite Hc; now exists [k]]. intros (r & Hc). apply N1. exists ([k] ++ r). now rewrite app_assoc.
Qed.
(* Get of any path of names, with the dots inside names escaped, finds what walking the maps along the names finds. *)
Theorem C43_get_escaped : forall m names v, names <> [] -> (forall x, In x names -> plain_key x) -> walk m names = Some v -> dotn_get parse_int8 m (gjoin DOT (map esc names)) = GSome v.
Proof.
  intros m names v Hn Hp Hw. unfold dotn_get.
  assert (U: forall l, l <> [] -> (forall x, In x l -> plain_key x) -> unescape (gjoin DOT (map esc l)) = gjoin DOT (map hide l)).
  { clear. induction l as [|x l IH]; intros Hn Hp; [contradiction|]. destruct (Hp x (or_introl eq_refl)) as (Hb & _). destruct l as [|y l]; [cbn [map gjoin]; now apply unescape_esc|].
    cbn [map]. rewrite !gjoin_cons by discriminate. change (esc y :: map esc l) with (map esc (y :: l)). change (hide y :: map hide l) with (map hide (y :: l)).
    rewrite gjoin_cons by discriminate. rewrite <- (IH ltac:(discriminate) (fun z Hz => Hp z (or_intror Hz))). generalize (gjoin DOT (map esc (y :: l))). intros t. revert Hb. clear. induction x as [|c x IH]; intros Hb; cbn [esc flat_map hide map app].
    - destruct t; reflexivity.
    - fold (esc x) (hide x). specialize (IH (fun C => Hb (or_intror C))). destruct (Ascii.eqb_spec c DOT) as [->|Hc]; cbn [app].
      + change (unescape (BSL :: DOT :: esc x ++ DOT :: t)) with (NUL :: unescape (esc x ++ DOT :: t)). now rewrite IH.
      + rewrite <- IH. destruct (esc x ++ DOT :: t) as [|b r] eqn:E; [destruct (esc x); discriminate|]. cbn [unescape]. destruct (Ascii.eqb_spec c BSL) as [->|]; [exfalso; apply Hb; now left|]. reflexivity. }
  rewrite U by assumption. rewrite gsplit_join; [|destruct names; [contradiction|discriminate]|intros x Hx; apply in_map_iff in Hx; destruct Hx as (y & <- & _); apply hide_nodot].
  rewrite (gl_ext _ names). - apply gl_found_walk; [|assumption]. intros x Hx. apply restore_plain. now apply Hp.
  - rewrite map_map. apply map_ext_in. intros x Hx. destruct (Hp x Hx) as (_ & Hx2). rewrite restore_hide by assumption. symmetry. now apply restore_plain.
Qed.
End G.
Print Assumptions C43_get_escaped.
Print Assumptions C43_get_set.
Print Assumptions C43_get_set_slice.
Print Assumptions C43_frame.
Print Assumptions C43_get_set_map.
Definition noint (_ : gstr) : option Z := None.
Example C43_ex : let m := dotn_set (dotn_set [] (lit "a.b") (VScalar 1)) (lit "x") (VScalar 5) in
  open_path m (path (lit "a.c")) /\ dotn_get noint (dotn_set m (lit "a.c") (VScalar 2)) (lit "a.c") = GSome (VScalar 2) /\ dotn_get noint (dotn_set m (lit "a.c") (VScalar 2)) (lit "a.b") = GSome (VScalar 1).
Proof.
  cbn zeta. split; [|split; reflexivity]. intros q v (r & E) Hne Hq. change (path (lit "a.c")) with [lit "a"; lit "c"] in *. destruct q as [|x [|y [|z q]]]; cbn in E; try discriminate.
  - injection E as <- E. vm_compute in Hq. injection Hq as <-. eauto.
  - injection E as <- <- E. destruct r; [contradiction|discriminate].
Qed.
Example C43_map_ex : dotn_get noint (dotn_set [] (lit "a.b") (VMap [(lit "k", VScalar 1); (lit "l", VStr (lit "s"))])) (lit "a.b.l") = GSome (VStr (lit "s")).
Proof. reflexivity. Qed.
Example C43_escaped_ex : esc (lit "k.8s") = lit "k\.8s" /\ dotn_get noint (dotn_set [] (lit "a") (VMap [(lit "k.8s", VScalar 1)])) (lit "a.k\.8s") = GSome (VScalar 1).
Proof. split; reflexivity. Qed.
(* Through a prefix that holds a scalar the value is written to the wrong place: "a.b" is not found and "b" appears. *)
Theorem C43_scalar_prefix_refuted : let m := dotn_set [] (lit "a") (VScalar 1) in
  dotn_get noint (dotn_set m (lit "a.b") (VScalar 2)) (lit "a.b") = GNone /\ dotn_get noint m (lit "b") = GNone /\ dotn_get noint (dotn_set m (lit "a.b") (VScalar 2)) (lit "b") = GSome (VScalar 2).
Proof. repeat split. Qed.
Print Assumptions C43_scalar_prefix_refuted.
(* An escaped dot is understood by Get only. *)
Theorem C43_escape_refuted : dotn_get noint (dotn_set [] (lit "a\.b") (VScalar 2)) (lit "a\.b") = GNone.
Proof. reflexivity. Qed.
Print Assumptions C43_escape_refuted.
(* Over a scalar a slice is ignored. *)
Theorem C43_slice_over_scalar_refuted : dotn_get noint (dotn_set (dotn_set [] (lit "a") (VScalar 1)) (lit "a") (VArr [VScalar 2])) (lit "a") = GSome (VScalar 1).
Proof. reflexivity. Qed.
Print Assumptions C43_slice_over_scalar_refuted.
(* A negative index panics, whatever the slice holds. *)
Theorem C43_negative_index_panics_refuted : forall pi l, pi (lit "-1") = Some (-1)%Z -> dotn_get pi (dotn_set [] (lit "a") (VArr l)) (lit "a.-1") = GPanic.
Proof. intros pi l H. change (dotn_get pi (dotn_set [] (lit "a") (VArr l)) (lit "a.-1")) with (match pi (lit "-1") with None => GNone | Some ip => if (Z.of_nat (length l) <? ip + 1)%Z then GNone else if (ip <? 0)%Z then GPanic else match nth_error l (Z.to_nat ip) with Some v => GSome v | None => GPanic end end). rewrite H. change (-1 + 1)%Z with 0%Z. destruct (Z.ltb_spec (Z.of_nat (length l)) 0); [lia|reflexivity]. Qed.
Print Assumptions C43_negative_index_panics_refuted.
