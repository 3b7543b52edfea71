(* C80: attributes for filters and forwarded headers. *)
From Coq Require Import String List Ascii Bool Arith NArith ZArith Lia.
From Verif Require Import M_GoStr L_GoStr M_Dotn P_Dotn M_WasmMap P_WasmMap M_EnvoyProps.
Import ListNotations.
Open Scope list_scope.

(* ---------- specification ---------- *)
(* a part of a path as filters write it: no dot, no backslash, no NUL *)
Definition name (n : gstr) : Prop := n <> [] /\ forall c, In c n -> c <> DOT /\ c <> BSL /\ c <> NUL.
Definition nameb (n : gstr) : bool := match n with [] => false | _ => forallb (fun c => negb (Ascii.eqb c DOT || Ascii.eqb c BSL || Ascii.eqb c NUL)) n end.
(* a filter that asks for the attribute [path] of the stream gets [x] *)
Definition reads (pi : gstr -> option Z) (s : stream) (path : list gstr) (x : gstr) : Prop := get_property pi s (gjoin NUL path) = Found x.
(* the group of attributes [ns] is free or a group, not a value some filter put there *)
Definition group (s : stream) (ns : gstr) : Prop :=
  match dget (s_own s) ns with None | Some (VStore _) | Some (VMap _) => True | Some _ => False end.

(* ---------- lemmas ---------- *)
Lemma nameb_spec : forall n, nameb n = true -> name n.
Proof.
  intros n H. destruct n as [|c n]; [discriminate|]. split; [discriminate|]. unfold nameb in H. rewrite forallb_forall in H. intros x Hx. apply H in Hx. apply negb_true_iff in Hx. rewrite !orb_false_iff in Hx. rewrite !Ascii.eqb_neq in Hx. tauto.
Qed.
Ltac nm := apply nameb_spec; reflexivity.
Lemma name_plain : forall n, name n -> restore n = n.
Proof. intros n [_ H]. apply restore_plain. intros Hc. now apply H in Hc. Qed.
Lemma name_hide : forall n, name n -> hide n = n.
Proof. intros n [_ H]. unfold hide. rewrite <- (map_id n) at 2. apply map_ext_in. intros c Hc. destruct (Ascii.eqb_spec c DOT) as [->|]; [now apply H in Hc|reflexivity]. Qed.
Lemma nul_to_dot_join : forall p, (forall n, In n p -> name n) -> nul_to_dot (gjoin NUL p) = gjoin DOT p.
Proof.
  assert (N: forall n, name n -> nul_to_dot n = n).
  { intros n [_ H]. unfold nul_to_dot. rewrite <- (map_id n) at 2. apply map_ext_in. intros c Hc. destruct (Ascii.eqb_spec c NUL) as [->|]; [now apply H in Hc|reflexivity]. }
  induction p as [|a [|b p] IH]; intros H; [reflexivity|apply N; apply H; now left|].
  rewrite (gjoin_cons NUL a), (gjoin_cons DOT a) by discriminate. unfold nul_to_dot in *. rewrite map_app. cbn [map]. rewrite N by (apply H; now left). rewrite IH by (intros n Hn; apply H; now right). reflexivity.
Qed.
Lemma trim_last : forall s c, c <> DOT -> trim_dots (s ++ [c]) = s ++ [c].
Proof.
  induction s as [|x s IH]; intros c Hc; cbn.
  - destruct (Ascii.eqb_spec c DOT); [contradiction|reflexivity].
  - rewrite IH by assumption. destruct (s ++ [c]) eqn:E; [destruct s; discriminate|reflexivity].
Qed.
Lemma trim_join : forall p, p <> [] -> (forall n, In n p -> name n) -> trim_dots (gjoin DOT p) = gjoin DOT p.
Proof.
  intros p Hp H. destruct (exists_last Hp) as (q & n & ->). assert (Hn: name n) by (apply H; apply in_or_app; right; now left). destruct Hn as [Hn1 Hn2].
  destruct (exists_last Hn1) as (m & c & ->). assert (Hc: c <> DOT) by (apply Hn2; apply in_or_app; right; now left).
  clear - Hc. unfold gstr in *. induction q as [|a q IH]; [apply trim_last; exact Hc|]. cbn [app]. rewrite gjoin_cons by (destruct q; discriminate).
  assert (E: exists z, gjoin DOT (q ++ [m ++ [c]]) = z ++ [c]).
  { clear. induction q as [|b q [z Hz]]; [exists m; reflexivity|]. exists (b ++ DOT :: z). cbn [app]. rewrite gjoin_cons by (destruct q; discriminate). rewrite Hz, <- app_assoc. reflexivity. }
  destruct E as [z ->]. change (DOT :: z ++ [c]) with ((DOT :: z) ++ [c]). rewrite app_assoc. apply trim_last. exact Hc.
Qed.
Lemma join_plain : forall p, (forall n, In n p -> name n) -> plain_key (gjoin DOT p).
Proof.
  assert (A: forall p c, c <> DOT -> (forall n, In n p -> ~ In c n) -> ~ In c (gjoin DOT p)).
  { induction p as [|a [|b p] IH]; intros c Hc H; [intros []|apply H; now left|]. rewrite gjoin_cons by discriminate. intros Hi. apply in_app_or in Hi. destruct Hi as [Hi|[Hi|Hi]].
    - eapply H; [now left|exact Hi].
    - congruence.
    - revert Hi. apply IH; [exact Hc|]. intros n Hn. apply H. now right. }
  intros p H. split; apply A; try discriminate; intros n Hn Hi; destruct (H n Hn) as [_ Hx]; now apply Hx in Hi.
Qed.
Lemma get_property_path : forall pi s p, p <> [] -> (forall n, In n p -> name n) ->
  get_property pi s (gjoin NUL p) = match get_loop pi (VStore (s_own s)) p with GSome v => Found (stringify v) | GPanic => Panics | GNone => match s_parent s (gjoin DOT p) with GSome v => Found (stringify v) | GNone => NotFound | GPanic => Panics end end.
Proof.
  intros pi s p Hp H. unfold get_property, sget. rewrite nul_to_dot_join, trim_join by assumption. rewrite dotn_get_plain by (now apply join_plain). unfold path. rewrite gsplit_join; [|assumption|].
  - destruct (get_loop pi (VStore (s_own s)) p); reflexivity.
  - intros n Hn Hd. destruct (H n Hn) as [_ Hx]. now apply Hx in Hd.
Qed.
(* the two-level view *)
Definition view (m : store) (ns k : gstr) : option dval := match dget m ns with Some (VStore x) | Some (VMap x) => dget x k | _ => None end.
Definition opens (m : store) (ns : gstr) : Prop := match dget m ns with None | Some (VStore _) | Some (VMap _) => True | Some _ => False end.
Lemma reads_view : forall pi s ns k v, name ns -> name k -> view (s_own s) ns k = Some v -> reads pi s [ns; k] (stringify v).
Proof.
  intros pi s ns k v Hn Hk Hv. unfold reads. rewrite get_property_path; [|discriminate|intros n [<-|[<-|[]]]; assumption].
  destruct (gl_found_walk pi [ns; k] (s_own s) v) as [E _]; [intros x [<-|[<-|[]]]; now apply name_plain|exact Hv|]. rewrite E. reflexivity.
Qed.
Lemma sget_view : forall pi s ns k v, name ns -> name k -> view (s_own s) ns k = Some v -> sget pi s (ns ++ DOT :: k) = GSome v.
Proof.
  intros pi s ns k v Hn Hk Hv. change (ns ++ DOT :: k) with (gjoin DOT [ns; k]). assert (H: forall n, In n [ns; k] -> name n) by (intros n [<-|[<-|[]]]; assumption). unfold sget. rewrite dotn_get_plain by (now apply join_plain). unfold path. rewrite gsplit_join; [|discriminate|].
  - destruct (gl_found_walk pi [ns; k] (s_own s) v) as [E _]; [intros x [<-|[<-|[]]]; now apply name_plain|exact Hv|]. rewrite E. reflexivity.
  - intros n Hi Hd. destruct (H n Hi) as [_ Hx]. now apply Hx in Hd.
Qed.
Lemma sget_absent : forall pi s ns k, name ns -> name k -> opens (s_own s) ns -> view (s_own s) ns k = None -> sget pi s (ns ++ DOT :: k) = s_parent s (ns ++ DOT :: k).
Proof.
  intros pi s ns k Hn Hk Ho Hv. change (ns ++ DOT :: k) with (gjoin DOT [ns; k]). assert (H: forall n, In n [ns; k] -> name n) by (intros n [<-|[<-|[]]]; assumption). unfold sget. rewrite dotn_get_plain by (now apply join_plain). unfold path. rewrite gsplit_join; [|discriminate|].
  - cbn [get_loop]. rewrite !name_plain by assumption. unfold view, opens in *. destruct (dget (s_own s) ns) as [[m|m|m|l|z|x|p]|]; cbn [get_loop] in *; try contradiction; rewrite ?name_plain by assumption; rewrite ?Hv; reflexivity.
  - intros n Hi Hd. destruct (H n Hi) as [_ Hx]. now apply Hx in Hd.
Qed.
Lemma set2 : forall m ns k v, name ns -> name k -> scalar v -> opens m ns ->
  (forall ns' k', view (set_scalar m [ns; k] v) ns' k' = if geqb ns' ns && geqb k' k then Some v else view m ns' k') /\
  (forall ns', opens m ns' -> opens (set_scalar m [ns; k] v) ns') /\
  (forall ns', ns' <> ns -> dget (set_scalar m [ns; k] v) ns' = dget m ns').
Proof.
  intros m ns k v Hn Hk Hv Ho. cbn [set_scalar]. rewrite !name_plain by assumption. unfold opens, view in *.
  assert (G: forall C, (C = VStore \/ C = VMap) -> forall x, (dget m ns = None /\ x = [] \/ dget m ns = Some (VStore x) \/ dget m ns = Some (VMap x)) ->
    (forall ns' k', match dget (dput m ns (C (dput x k v))) ns' with Some (VStore y) | Some (VMap y) => dget y k' | _ => None end = if geqb ns' ns && geqb k' k then Some v else match dget m ns' with Some (VStore y) | Some (VMap y) => dget y k' | _ => None end) /\
    (forall ns', match dget m ns' with None | Some (VStore _) | Some (VMap _) => True | Some _ => False end -> match dget (dput m ns (C (dput x k v))) ns' with None | Some (VStore _) | Some (VMap _) => True | Some _ => False end) /\
    (forall ns', ns' <> ns -> dget (dput m ns (C (dput x k v))) ns' = dget m ns')).
  { intros C HC x Hx. split; [|split].
    - intros ns' k'. destruct (geqb ns' ns) eqn:E.
      + apply geqb_eq in E. subst ns'. rewrite dget_put_same. cbn [andb].
        assert (E2: dget (dput x k v) k' = if geqb k' k then Some v else match dget m ns with Some (VStore y) | Some (VMap y) => dget y k' | _ => None end).
        { destruct (geqb k' k) eqn:E3; [apply geqb_eq in E3; subst; apply dget_put_same|]. apply geqb_neq in E3. rewrite dget_put_other by assumption. destruct Hx as [[-> ->]|[->| ->]]; reflexivity. }
        destruct HC as [->| ->]; exact E2.
      + apply geqb_neq in E. rewrite dget_put_other by assumption. reflexivity.
    - intros ns' Hs. destruct (gstr_eq_dec ns' ns) as [->|E]; [rewrite dget_put_same; destruct HC as [->| ->]; exact I|]. now rewrite dget_put_other by assumption.
    - intros ns' E. now rewrite dget_put_other by assumption. }
  destruct (dget m ns) as [[x|x| | | | |]|] eqn:E; try contradiction.
  - apply (G VStore); auto.
  - apply (G VMap); auto.
  - apply (G VStore); auto.
Qed.
(* a list of assignments to attributes *)
Definition asg := (gstr * gstr * dval)%type.
Definition good (a : asg) : Prop := name (fst (fst a)) /\ name (snd (fst a)) /\ scalar (snd a).
Definition do_asg (m : store) (a : asg) : store := set_scalar m [fst (fst a); snd (fst a)] (snd a).
Fixpoint latest (l : list asg) (ns k : gstr) : option dval :=
  match l with [] => None | a :: r => match latest r ns k with Some v => Some v | None => if geqb ns (fst (fst a)) && geqb k (snd (fst a)) then Some (snd a) else None end end.
Lemma do_all : forall l m, Forall good l -> (forall a, In a l -> opens m (fst (fst a))) ->
  (forall ns k, view (fold_left do_asg l m) ns k = match latest l ns k with Some v => Some v | None => view m ns k end) /\
  (forall ns, opens m ns -> opens (fold_left do_asg l m) ns) /\ (forall ns, ~ In ns (map (fun a => fst (fst a)) l) -> dget (fold_left do_asg l m) ns = dget m ns).
Proof.
  induction l as [|[[ns k] v] l IH]; intros m Hg Ho; [cbn; auto|]. inversion Hg as [|? ? [G1 [G2 G3]] G4]; subst. cbn [fst snd] in *.
  destruct (set2 m ns k v G1 G2 G3 (Ho _ (or_introl eq_refl))) as (V & O & D). cbn [fold_left]. change (do_asg m (ns, k, v)) with (set_scalar m [ns; k] v).
  destruct (IH (set_scalar m [ns; k] v) G4) as (V2 & O2 & D2); [intros a Ha; apply O, Ho; now right|]. split; [|split].
  - intros ns' k'. rewrite V2, V. cbn [latest fst snd]. destruct (latest l ns' k'); [reflexivity|]. destruct (geqb ns' ns && geqb k' k); reflexivity.
  - intros ns' H. auto.
  - intros ns' H. cbn [map fst snd In] in H. rewrite D2 by tauto. apply D. intros ->. tauto.
Qed.
(* a map value is a list of assignments *)
Lemma set_map : forall m ns kvs, name ns -> (forall k v, In (k, v) kvs -> name k /\ scalar v) -> opens m ns ->
  exists m0, dotn_set m ns (VMap kvs) = fold_left do_asg (map (fun kv => (ns, fst kv, snd kv)) kvs) m0 /\ (forall a b, view m0 a b = view m a b) /\ (forall a, opens m a -> opens m0 a) /\ opens m0 ns /\ (forall a, a <> ns -> dget m0 a = dget m a).
Proof.
  intros m ns kvs Hn Hk Ho. unfold dotn_set. rewrite gsplit_nosep by (intros Hd; destruct Hn as [_ Hx]; now apply Hx in Hd).
  cbn [set_any]. exists (ensure m [ns]).
  assert (F: forall kvs m, (forall k v, In (k, v) kvs -> name k /\ scalar v) -> (fix each (kvs : list (gstr * dval)) (m : store) : store := match kvs with [] => m | (k, w) :: r => each r (set_any m ([ns] ++ [hide k]) w) end) kvs m = fold_left do_asg (map (fun kv => (ns, fst kv, snd kv)) kvs) m).
  { clear. induction kvs as [|[k v] kvs IH]; intros m H; [reflexivity|]. cbn [map fold_left fst snd]. destruct (H k v (or_introl eq_refl)) as [H1 H2]. rewrite name_hide by assumption. rewrite set_any_scalar by assumption. rewrite IH by (intros; apply H; now right). reflexivity. }
  split; [apply F, Hk|]. cbn [ensure]. rewrite name_plain by assumption. unfold view, opens in *. destruct (dget m ns) as [d|] eqn:E; [rewrite E; auto|]. split; [|split; [|split]].
  - intros a b. destruct (gstr_eq_dec a ns) as [->|Hne]; [rewrite dget_put_same, E; reflexivity|]. now rewrite dget_put_other by assumption.
  - intros a H. destruct (gstr_eq_dec a ns) as [->|Hne]; [rewrite dget_put_same; exact I|]. now rewrite dget_put_other by assumption.
  - rewrite dget_put_same. exact I.
  - intros a Hne. now rewrite dget_put_other by assumption.
Qed.
Lemma sset2 : forall s ns k v, name ns -> name k -> scalar v -> s_own (sset s (ns ++ DOT :: k) v) = do_asg (s_own s) (ns, k, v).
Proof.
  intros s ns k v Hn Hk Hv. unfold sset, with_own, dotn_set. cbn [s_own]. rewrite gsplit_app by (intros Hd; destruct Hn as [_ Hx]; now apply Hx in Hd).
  rewrite gsplit_nosep by (intros Hd; destruct Hk as [_ Hx]; now apply Hx in Hd). now rewrite set_any_scalar by assumption.
Qed.
(* le64 is read back by the little-endian reader *)
Definition read_le (s : gstr) : Z := fold_right (fun c n => (Z.of_N (N_of_ascii c) + 256 * n)%Z) 0%Z s.
Lemma le_digits : forall z n, (0 <= z)%Z -> read_le (map (fun i => ascii_of_N (Z.to_N ((z / 256 ^ Z.of_nat i) mod 256)%Z)) (seq 0 n)) = (z mod 256 ^ Z.of_nat n)%Z.
Proof.
  intros z n Hz. revert z Hz. induction n as [|n IH]; intros z Hz; [cbn; symmetry; apply Z.mod_1_r|].
  cbn [seq map]. unfold read_le in *. cbn [fold_right]. rewrite <- seq_shift, map_map.
  assert (E: map (fun x => ascii_of_N (Z.to_N ((z / 256 ^ Z.of_nat (S x)) mod 256)%Z)) (seq 0 n) = map (fun x => ascii_of_N (Z.to_N (((z / 256) / 256 ^ Z.of_nat x) mod 256)%Z)) (seq 0 n)).
  { apply map_ext. intros i. do 3 f_equal. rewrite Nat2Z.inj_succ, Z.pow_succ_r, Z.div_div by lia. reflexivity. }
  rewrite E, IH by (apply Z.div_pos; lia). rewrite N_ascii_embedding.
  - rewrite Z2N.id by (apply Z.mod_pos_bound; lia). change (256 ^ Z.of_nat 0)%Z with 1%Z. rewrite Z.div_1_r, Nat2Z.inj_succ, Z.pow_succ_r by lia. rewrite Z.rem_mul_r by lia. reflexivity.
  - pose proof (Z.mod_pos_bound (z / 256 ^ Z.of_nat 0) 256 ltac:(lia)). change 256%N with (Z.to_N 256). apply Z2N.inj_lt; lia.
Qed.
Theorem C80_numbers : forall z, length (le64 z) = 8 /\ read_le (le64 z) = (z mod 2 ^ 64)%Z.
Proof.
  intros z. split; [reflexivity|]. pose proof (le_digits (u64 z) 8 ltac:(apply Z.mod_pos_bound; reflexivity)) as H. change (256 ^ Z.of_nat 8)%Z with (2 ^ 64)%Z in H. refine (eq_trans H _). unfold u64. apply Z.mod_mod. discriminate.
Qed.
Print Assumptions C80_numbers.
