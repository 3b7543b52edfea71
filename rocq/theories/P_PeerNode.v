(* C90: the service metadata of Istio streams.  The format of the peer's description is specified below by what is at which position of the buffer
   (a FlatBuffers table), independently of the accessors of the model. *)
From Coq Require Import String List Ascii Bool Arith ZArith Lia.
From Verif Require Import M_GoStr L_GoStr M_PeerNode.
Import ListNotations.
Open Scope list_scope.
Open Scope Z_scope.

(* ---- the specification of a buffer ---- *)
Definition bytes_at (b : gstr) (p : Z) (s : gstr) : Prop := 0 <= p /\ exists pre post, b = pre ++ s ++ post /\ Z.of_nat (length pre) = p.
Definition le_byte (v : Z) (i : Z) : ascii := ascii_of_nat (Z.to_nat (v / 2 ^ (8 * i) mod 256)).
Definition u16_at (b : gstr) (p v : Z) : Prop := 0 <= v < 2 ^ 16 /\ bytes_at b p [le_byte v 0; le_byte v 1].
Definition u32_at (b : gstr) (p v : Z) : Prop := 0 <= v < 2 ^ 32 /\ bytes_at b p [le_byte v 0; le_byte v 1; le_byte v 2; le_byte v 3].
(* a string: its length, then its bytes *)
Definition string_at (b : gstr) (p : Z) (s : gstr) : Prop := u32_at b p (Z.of_nat (length s)) /\ bytes_at b (p + 4) s.
(* the table at t: the signed distance to its vtable vt, which begins with its own size and the size of the table; then, for every field, its place in
   the table, 0 if it is not there *)
Definition field_at (b : gstr) (t i o : Z) : Prop :=
  exists vt size, u32_at b t ((t - vt) mod 2 ^ 32) /\ u16_at b vt size /\ (4 + 2 * i < size /\ u16_at b (vt + 4 + 2 * i) o \/ size <= 4 + 2 * i /\ o = 0).
(* a reference at p to the position q *)
Definition ref_at (b : gstr) (p q : Z) : Prop := u32_at b p (q - p).
Definition string_field (b : gstr) (t i : Z) (s : gstr) : Prop :=
  exists o, field_at b t i o /\ (o = 0 /\ s = [] \/ o <> 0 /\ exists q, ref_at b (t + o) q /\ string_at b q s).
(* KeyVal: key, value *)
Definition key_value_at (b : gstr) (t : Z) (kv : gstr * gstr) : Prop := string_field b t 0 (fst kv) /\ string_field b t 1 (snd kv).
Definition vector_at (b : gstr) (v : Z) (l : list (gstr * gstr)) : Prop :=
  u32_at b v (Z.of_nat (length l)) /\ forall i kv, nth_error l i = Some kv -> exists t, ref_at b (v + 4 + 4 * Z.of_nat i) t /\ key_value_at b t kv.
(* FlatNode: name, namespace, labels, ... *)
Definition describes (b : gstr) (ns : gstr) (labels : list (gstr * gstr)) : Prop :=
  Z.of_nat (length b) < 2 ^ 31 /\
  exists t, ref_at b 0 t /\ string_field b t 1 ns /\
    exists o, field_at b t 2 o /\ (o = 0 /\ labels = [] \/ o <> 0 /\ exists v, ref_at b (t + o) v /\ vector_at b v labels).

(* the value of a label: that of its last occurrence; "" if there is none *)
Inductive label_value (labels : list (gstr * gstr)) (k : gstr) : gstr -> Prop :=
| LV_last l1 v l2 : labels = l1 ++ (k, v) :: l2 -> (forall w, ~ In (k, w) l2) -> label_value labels k v
| LV_none : (forall w, ~ In (k, w) labels) -> label_value labels k [].

(* ---- reading ---- *)
Lemma byte_at_mid pre (c : ascii) post p : p = Z.of_nat (length pre) -> byte_at (pre ++ c :: post) p = Z.of_nat (nat_of_ascii c).
Proof. intro H. unfold byte_at. subst p. rewrite Nat2Z.id, app_nth2, Nat.sub_diag by lia. reflexivity. Qed.
Lemma le_byte_val v i : 0 <= v -> Z.of_nat (nat_of_ascii (le_byte v i)) = v / 2 ^ (8 * i) mod 256.
Proof.
  intro H. unfold le_byte. pose proof (Z.mod_pos_bound (v / 2 ^ (8 * i)) 256 ltac:(lia)) as B. rewrite nat_ascii_embedding by lia. apply Z2Nat.id. lia.
Qed.
Lemma get16_at b p v : u16_at b p v -> get16 b p = Some v.
Proof.
  intros [Hv [Hp [pre [post [E L]]]]]. unfold get16. subst b. rewrite !app_length. cbn [length].
  destruct (p + 2 <=? _) eqn:T; [|apply Z.leb_gt in T; lia]. cbn [app].
  rewrite (byte_at_mid pre _ _ p) by lia.
  replace (pre ++ le_byte v 0 :: le_byte v 1 :: post) with ((pre ++ [le_byte v 0]) ++ le_byte v 1 :: post) by (rewrite <- app_assoc; reflexivity).
  rewrite (byte_at_mid (pre ++ [le_byte v 0]) _ _ (p + 1)) by (rewrite app_length; cbn [length]; lia).
  rewrite !le_byte_val by lia. f_equal.
  change (2 ^ (8 * 0)) with 1. change (2 ^ (8 * 1)) with 256. change (2 ^ 8) with 256. rewrite Z.div_1_r.
  rewrite (Z.mod_small (v / 256) 256) by (split; [apply Z.div_pos; lia|apply Z.div_lt_upper_bound; lia]).
  pose proof (Z.div_mod v 256 ltac:(lia)). lia.
Qed.
Lemma get32_at b p v : u32_at b p v -> get32 b p = Some v.
Proof.
  intros [Hv [Hp [pre [post [E L]]]]]. unfold get32. subst b. rewrite !app_length. cbn [length].
  destruct (p + 4 <=? _) eqn:T; [|apply Z.leb_gt in T; lia]. cbn [app].
  rewrite (byte_at_mid pre _ _ p) by lia.
  set (c0 := le_byte v 0). set (c1 := le_byte v 1). set (c2 := le_byte v 2). set (c3 := le_byte v 3).
  assert (E1 : pre ++ c0 :: c1 :: c2 :: c3 :: post = (pre ++ [c0]) ++ c1 :: c2 :: c3 :: post) by (rewrite <- app_assoc; reflexivity).
  assert (E2 : pre ++ c0 :: c1 :: c2 :: c3 :: post = (pre ++ [c0; c1]) ++ c2 :: c3 :: post) by (rewrite <- app_assoc; reflexivity).
  assert (E3 : pre ++ c0 :: c1 :: c2 :: c3 :: post = (pre ++ [c0; c1; c2]) ++ c3 :: post) by (rewrite <- app_assoc; reflexivity).
  assert (B1 : byte_at (pre ++ c0 :: c1 :: c2 :: c3 :: post) (p + 1) = Z.of_nat (nat_of_ascii c1)) by (rewrite E1; apply byte_at_mid; rewrite app_length; cbn [length]; lia).
  assert (B2 : byte_at (pre ++ c0 :: c1 :: c2 :: c3 :: post) (p + 2) = Z.of_nat (nat_of_ascii c2)) by (rewrite E2; apply byte_at_mid; rewrite app_length; cbn [length]; lia).
  assert (B3 : byte_at (pre ++ c0 :: c1 :: c2 :: c3 :: post) (p + 3) = Z.of_nat (nat_of_ascii c3)) by (rewrite E3; apply byte_at_mid; rewrite app_length; cbn [length]; lia).
  rewrite B1, B2, B3. unfold c0, c1, c2, c3. rewrite !le_byte_val by lia. f_equal.
  change (2 ^ (8 * 0)) with 1. change (2 ^ (8 * 1)) with 256. change (2 ^ (8 * 2)) with 65536. change (2 ^ (8 * 3)) with 16777216.
  change (2 ^ 8) with 256. change (2 ^ 16) with 65536. change (2 ^ 24) with 16777216. change (2 ^ 32) with 4294967296 in Hv. rewrite Z.div_1_r.
  rewrite (Z.mod_small (v / 16777216) 256) by (split; [apply Z.div_pos; lia|apply Z.div_lt_upper_bound; lia]).
  replace 65536 with (256 * 256) at 1 by reflexivity. replace (v / 16777216) with (v / 256 / 256 / 256) by (rewrite !Z.div_div by lia; reflexivity).
  replace (v / 65536) with (v / 256 / 256) by (rewrite Z.div_div by lia; reflexivity).
  pose proof (Z.div_mod v 256 ltac:(lia)). pose proof (Z.div_mod (v / 256) 256 ltac:(lia)). pose proof (Z.div_mod (v / 256 / 256) 256 ltac:(lia)). lia.
Qed.
Lemma at_bound b p s : bytes_at b p s -> 0 <= p /\ p + Z.of_nat (length s) <= Z.of_nat (length b).
Proof. intros [Hp [pre [post [E L]]]]. subst b. rewrite !app_length. lia. Qed.
Lemma u32_bound b p v : u32_at b p v -> 0 <= p /\ p + 4 <= Z.of_nat (length b).
Proof. intros [_ H]. apply at_bound in H. cbn [length] in H. lia. Qed.
Lemma u16_bound b p v : u16_at b p v -> 0 <= p /\ p + 2 <= Z.of_nat (length b).
Proof. intros [_ H]. apply at_bound in H. cbn [length] in H. lia. Qed.
Lemma wrap_id x : 0 <= x < 2 ^ 32 -> wrap x = x.
Proof. intro H. apply Z.mod_small. exact H. Qed.
Lemma wrap_back t vt : 0 <= vt < 2 ^ 31 -> wrap (t - (t - vt) mod 2 ^ 32) = vt.
Proof. intro H. unfold wrap. rewrite Zminus_mod_idemp_r. replace (t - (t - vt)) with vt by lia. apply Z.mod_small. lia. Qed.

Section Reading.
Variable b : gstr.
Variable extra : nat.
Hypothesis HB : Z.of_nat (length b) < 2 ^ 31.

Lemma voffset_at t i o : 0 <= i < 3 -> field_at b t i o -> voffset b t (4 + 2 * i) = Some o /\ 0 <= o < 2 ^ 16.
Proof.
  intros Hi [vt [size [H1 [H2 H3]]]]. unfold voffset. rewrite (get32_at _ _ _ H1). cbn [obind].
  pose proof (u16_bound _ _ _ H2) as B. rewrite wrap_back by lia. rewrite (get16_at _ _ _ H2). cbn [obind].
  destruct H3 as [[L H3]|[L ->]].
  - pose proof (u16_bound _ _ _ H3) as B3. destruct (4 + 2 * i <? size) eqn:T; [|apply Z.ltb_ge in T; lia].
    rewrite wrap_id by lia. replace (vt + (4 + 2 * i)) with (vt + 4 + 2 * i) by lia. split; [apply get16_at; exact H3|apply H3].
  - destruct (4 + 2 * i <? size) eqn:T; [apply Z.ltb_lt in T; lia|]. split; [reflexivity|lia].
Qed.
Lemma byte_vector_at p q s : ref_at b p q -> string_at b q s -> byte_vector b extra p = Some s.
Proof.
  intros R [L S]. unfold byte_vector. pose proof (u32_bound _ _ _ R) as B1. rewrite (get32_at _ _ _ R). cbn [obind].
  pose proof (u32_bound _ _ _ L) as B2. replace (p + (q - p)) with q by lia. rewrite (wrap_id q) by lia. rewrite (get32_at _ _ _ L). cbn [obind].
  pose proof (at_bound _ _ _ S) as B3. rewrite (wrap_id (q + 4)) by lia. rewrite wrap_id by lia.
  unfold slice. rewrite app_length || idtac.
  assert (T : (q + 4 <=? q + 4 + Z.of_nat (length s)) && (q + 4 + Z.of_nat (length s) <=? Z.of_nat (length b + extra)) = true) by (apply andb_true_iff; split; apply Z.leb_le; lia).
  rewrite T. destruct S as [_ [pre [post [E P]]]]. f_equal.
  replace (Z.to_nat (q + 4 + Z.of_nat (length s) - (q + 4))) with (length s) by lia.
  replace (Z.to_nat (q + 4)) with (length pre) by lia.
  rewrite E, <- !app_assoc, skipn_app, skipn_all, Nat.sub_diag. cbn [skipn app]. rewrite firstn_app, Nat.sub_diag, firstn_all. cbn [firstn]. apply app_nil_r.
Qed.
Lemma str_field_at t i s : 0 <= i < 3 -> 0 <= t -> t < 2 ^ 31 -> string_field b t i s -> str_field b extra t (4 + 2 * i) = Some s.
Proof.
  intros Hi Ht0 Ht [o [F H]]. destruct (voffset_at _ _ _ Hi F) as [E Bo]. unfold str_field. rewrite E. cbn [obind].
  destruct H as [[-> ->]|[Hn [q [R S]]]]; [reflexivity|]. destruct (o =? 0) eqn:T; [apply Z.eqb_eq in T; lia|].
  rewrite wrap_id by lia. replace (o + t) with (t + o) by lia. eapply byte_vector_at; eassumption.
Qed.
Lemma ref_bound p q : ref_at b p q -> 0 <= p < 2 ^ 31 /\ p <= q < p + 2 ^ 32.
Proof. intros R. pose proof (u32_bound _ _ _ R). destruct R as [R _]. lia. Qed.
Lemma field_bound t i o : field_at b t i o -> 0 <= t < 2 ^ 31.
Proof. intros [vt [size [H _]]]. pose proof (u32_bound _ _ _ H). lia. Qed.
Lemma label_at t o v l i kv : 0 <= t < 2 ^ 31 -> field_at b t 2 o -> o <> 0 -> ref_at b (t + o) v -> vector_at b v l -> nth_error l i = Some kv ->
  exists q, label b t (Z.of_nat i) = Some (Some q) /\ str_field b extra q 4 = Some (fst kv) /\ str_field b extra q 6 = Some (snd kv).
Proof.
  intros Ht F Ho R [VL VE] N. destruct (voffset_at t 2 o ltac:(lia) F) as [E Bo]. change (4 + 2 * 2) with 8 in E.
  destruct (VE _ _ N) as [q [Rq [K V]]]. exists q.
  pose proof (ref_bound _ _ R) as B1. pose proof (u32_bound _ _ _ VL) as B2. pose proof (ref_bound _ _ Rq) as B3.
  assert (Bq : 0 <= q < 2 ^ 31) by (destruct K as [o' [F' _]]; exact (field_bound _ _ _ F')).
  split; [|split].
  - unfold label. rewrite E. cbn [obind]. destruct (o =? 0) eqn:T; [apply Z.eqb_eq in T; lia|].
    unfold vector. rewrite wrap_id by lia. replace (o + t) with (t + o) by lia. rewrite (get32_at _ _ _ R). cbn [obind].
    replace (t + o + (v - (t + o))) with v by lia. rewrite (wrap_id v) by lia. rewrite (wrap_id (v + 4)) by lia. rewrite (wrap_id (Z.of_nat i * 4)) by lia.
    rewrite wrap_id by lia. replace (v + 4 + Z.of_nat i * 4) with (v + 4 + 4 * Z.of_nat i) by lia. unfold indirect. rewrite (get32_at _ _ _ Rq). cbn [obind].
    replace (v + 4 + 4 * Z.of_nat i + (q - (v + 4 + 4 * Z.of_nat i))) with q by lia. rewrite wrap_id by lia. reflexivity.
  - apply (str_field_at q 0); [lia|lia|lia|exact K].
  - apply (str_field_at q 1); [lia|lia|lia|exact V].
Qed.
Lemma labels_from_at t o v l : 0 <= t < 2 ^ 31 -> field_at b t 2 o -> o <> 0 -> ref_at b (t + o) v -> vector_at b v l ->
  forall l2 l1 m, l = l1 ++ l2 -> labels_from b extra t (length l2) (Z.of_nat (length l1)) m = Some (rev l2 ++ m).
Proof.
  intros Ht F Ho R V. induction l2 as [|kv l2 IH]; intros l1 m E; [reflexivity|].
  assert (N : nth_error l (length l1) = Some kv) by (rewrite E, nth_error_app2, Nat.sub_diag by lia; reflexivity).
  destruct (label_at _ _ _ _ _ _ Ht F Ho R V N) as [q [L [K W]]]. cbn [length labels_from]. rewrite L. cbn [obind]. rewrite K. cbn [obind]. rewrite W. cbn [obind].
  replace (Z.of_nat (length l1) + 1) with (Z.of_nat (length (l1 ++ [kv]))) by (rewrite app_length; cbn [length]; lia).
  rewrite IH by (rewrite E, <- app_assoc; reflexivity). cbn [rev]. rewrite <- app_assoc. destruct kv. reflexivity.
Qed.
End Reading.

Lemma get_label_app k (l m : list (gstr * gstr)) : (forall w, ~ In (k, w) l) -> get_label k (l ++ m) = get_label k m.
Proof.
  intro H. unfold get_label. induction l as [|[x v] l IH]; [reflexivity|]. cbn [app find fst]. destruct (geqb x k) eqn:T.
  - apply geqb_eq in T. subst x. destruct (H v). left. reflexivity.
  - apply IH. intros w I. apply (H w). right. exact I.
Qed.
Lemma get_label_rev l k v : label_value l k v -> get_label k (rev l ++ []) = v.
Proof.
  intro H. destruct H as [l1 v l2 E N|N].
  - subst l. rewrite rev_app_distr. cbn [rev]. rewrite <- !app_assoc. rewrite get_label_app by (intros w I; apply in_rev in I; exact (N w I)).
    unfold get_label. cbn [app find fst]. rewrite geqb_refl. reflexivity.
  - rewrite get_label_app; [reflexivity|]. intros w I. apply in_rev in I. exact (N w I).
Qed.

(* A response to an outbound request whose peer described itself: exactly the two properties of the service are set. *)
Theorem C90_peer : forall b ns labels name extra (p : props),
  describes b ns labels -> label_value labels (lit "service.istio.io/canonical-name") name -> p (lit "upstream_peer") = Some (VStr b) ->
  exists p', after_response true extra p = Some p' /\
    p' (lit "cluster_metadata.filter_metadata.istio.services.0.name") = Some (VStr name) /\
    p' (lit "cluster_metadata.filter_metadata.istio.services.0.host") = Some (VStr (name ++ lit "." ++ ns ++ lit ".svc.cluster.local")) /\
    forall k, k <> lit "cluster_metadata.filter_metadata.istio.services.0.name" -> k <> lit "cluster_metadata.filter_metadata.istio.services.0.host" -> p' k = p k.
Proof.
  intros b ns labels name extra p [HB [t [R [NS [o [F H]]]]]] LV HP. unfold after_response. cbn [negb]. unfold k_peer. rewrite HP.
  pose proof (field_bound b HB _ _ _ F) as Ht.
  assert (E0 : root b = Some t). { unfold root. rewrite (get32_at _ _ _ R). f_equal. lia. }
  rewrite E0. cbn [obind]. destruct (voffset_at b HB t 2 o ltac:(lia) F) as [E Bo]. change (4 + 2 * 2) with 8 in E.
  assert (E1 : exists n, labels_length b t = Some n /\ labels_from b extra t (Z.to_nat n) 0 [] = Some (rev labels ++ [])).
  { unfold labels_length. rewrite E. cbn [obind]. destruct H as [[-> ->]|[Hn [v [Rv V]]]].
    - exists 0. split; reflexivity.
    - destruct (o =? 0) eqn:T; [apply Z.eqb_eq in T; lia|]. exists (Z.of_nat (length labels)). pose proof (ref_bound b HB _ _ Rv) as B1.
      pose proof (u32_bound _ _ _ (proj1 V)) as B2. split.
      + unfold vector_len. rewrite wrap_id by lia. replace (o + t) with (t + o) by lia. rewrite (get32_at _ _ _ Rv). cbn [obind].
        replace (t + o + (v - (t + o))) with v by lia. rewrite wrap_id by lia. apply get32_at. apply V.
      + rewrite Nat2Z.id. apply (labels_from_at b extra HB t o v labels Ht F Hn Rv V labels []). reflexivity. }
  destruct E1 as [n [E1 E2]]. rewrite E1. cbn [obind]. rewrite E2. cbn [obind].
  assert (E3 : namespace b extra t = Some ns) by (apply (str_field_at b extra HB t 1); [lia|lia|lia|exact NS]).
  rewrite E3. cbn [obind]. fold canonical in LV. rewrite (get_label_rev _ _ _ LV).
  eexists. split; [reflexivity|]. unfold set, service_host, service_name.
  split; [reflexivity|]. split; [reflexivity|]. intros k N1 N2.
  destruct (geqb k (lit "cluster_metadata.filter_metadata.istio.services.0.host")) eqn:T1; [apply geqb_eq in T1; contradiction|].
  destruct (geqb k (lit "cluster_metadata.filter_metadata.istio.services.0.name")) eqn:T2; [apply geqb_eq in T2; contradiction|]. reflexivity.
Qed.
Print Assumptions C90_peer.

(* Every list of labels has exactly one value of a label, so C90_peer applies to every description. *)
Theorem C90_label_value : forall labels k, exists v, label_value labels k v /\ forall w, label_value labels k w -> w = v.
Proof.
  intros l k. assert (X : exists v, label_value l k v).
  { induction l as [|[x v] l IH] using rev_ind.
    - exists []. apply LV_none. intros w [].
    - destruct (geqb x k) eqn:T.
      + apply geqb_eq in T. subst x. exists v. apply (LV_last _ _ l v []); [reflexivity|]. intros w [].
      + assert (NE : x <> k) by (intros ->; rewrite geqb_refl in T; discriminate).
        destruct IH as [w IH]. exists w. destruct IH as [l1 w l2 E N|N].
        * apply (LV_last _ _ l1 w (l2 ++ [(x, v)])); [subst l; rewrite <- app_assoc; reflexivity|]. intros u I. apply in_app_or in I. destruct I as [I|[I|[]]]; [exact (N u I)|congruence].
        * apply LV_none. intros u I. apply in_app_or in I. destruct I as [I|[I|[]]]; [exact (N u I)|congruence]. }
  destruct X as [v X]. exists v. split; [exact X|]. intros w W. rewrite <- (get_label_rev _ _ _ X), <- (get_label_rev _ _ _ W). reflexivity.
Qed.
Print Assumptions C90_label_value.

(* Other streams are left as they are: inbound ones, those without a description and those whose description is not a string. *)
Theorem C90_peer_none : forall outbound extra (p : props), outbound = false \/ (forall b, p (lit "upstream_peer") <> Some (VStr b)) -> after_response outbound extra p = Some p.
Proof.
  intros outbound extra p [->|H]; [reflexivity|]. unfold after_response. destruct outbound; [|reflexivity]. cbn [negb]. unfold k_peer.
  destruct (p (lit "upstream_peer")) as [[s|s]|] eqn:E; try reflexivity. destruct (H s). reflexivity.
Qed.
Print Assumptions C90_peer_none.

(* An inbound request: the metadata of the own node. *)
Theorem C90_self : forall (p : props) v,
  p (lit "node.metadata.LABELS.service\.istio\.io/canonical-name") = Some v ->
  let p' := before_request true p in
  p' (lit "cluster_metadata.filter_metadata.istio.services.0.name") =
    (match v with VStr s => Some (VStr s) | VOther _ => p (lit "cluster_metadata.filter_metadata.istio.services.0.name") end) /\
  p' (lit "cluster_metadata.filter_metadata.istio.services.0.host") =
    (match p (lit "node.metadata.NAMESPACE") with
     | Some n => Some (VStr (text_of v ++ lit "." ++ text_of n ++ lit ".svc.cluster.local"))
     | None => p (lit "cluster_metadata.filter_metadata.istio.services.0.host") end) /\
  forall k, k <> lit "cluster_metadata.filter_metadata.istio.services.0.name" -> k <> lit "cluster_metadata.filter_metadata.istio.services.0.host" -> p' k = p k.
Proof.
  intros p v H p'. unfold p', before_request. cbn [negb]. unfold k_label. rewrite H. unfold k_ns.
  assert (NS : (match v with VStr s => set service_name s p | VOther _ => p end) (lit "node.metadata.NAMESPACE") = p (lit "node.metadata.NAMESPACE")) by (destruct v; reflexivity).
  rewrite NS. destruct (p (lit "node.metadata.NAMESPACE")) as [n|] eqn:E; destruct v as [s|s]; unfold set, service_host, service_name, host_of; cbn [text_of];
    (split; [reflexivity|split; [reflexivity|]]); intros k N1 N2;
    try (destruct (geqb k (lit "cluster_metadata.filter_metadata.istio.services.0.host")) eqn:T1; [apply geqb_eq in T1; contradiction|]);
    try (destruct (geqb k (lit "cluster_metadata.filter_metadata.istio.services.0.name")) eqn:T2; [apply geqb_eq in T2; contradiction|]); reflexivity.
Qed.
Print Assumptions C90_self.
Theorem C90_self_none : forall inbound (p : props), inbound = false \/ p (lit "node.metadata.LABELS.service\.istio\.io/canonical-name") = None -> before_request inbound p = p.
Proof. intros inbound p [->|H]; [reflexivity|]. unfold before_request. destruct inbound; [|reflexivity]. cbn [negb]. unfold k_label. rewrite H. reflexivity. Qed.
Print Assumptions C90_self_none.

(* The description comes from the peer, and is not checked.  Every one that is too short for its first offset, the empty one among them, kills the
   goroutine that serves the stream ... *)
Theorem C90_short_panics : forall b extra (p : props), p (lit "upstream_peer") = Some (VStr b) -> (length b < 4)%nat -> after_response true extra p = None.
Proof.
  intros b extra p H L. unfold after_response. cbn [negb]. unfold k_peer. rewrite H. unfold root, get32. destruct (0 + 4 <=? _) eqn:T; [apply Z.leb_le in T; lia|]. reflexivity.
Qed.
Print Assumptions C90_short_panics.
(* ... and so does every one whose first offset points beyond it. *)
Theorem C90_wild_panics : forall b extra t (p : props), p (lit "upstream_peer") = Some (VStr b) -> u32_at b 0 t -> Z.of_nat (length b) < t + 4 -> after_response true extra p = None.
Proof.
  intros b extra t p H R L. unfold after_response. cbn [negb]. unfold k_peer. rewrite H. unfold root. rewrite (get32_at _ _ _ R). cbn [obind].
  unfold labels_length, voffset, get32. destruct (t + 4 <=? _) eqn:T; [apply Z.leb_le in T; lia|]. reflexivity.
Qed.
Print Assumptions C90_wild_panics.
Theorem C90_any_description_refuted : ~ forall b extra (p : props), p (lit "upstream_peer") = Some (VStr b) -> after_response true extra p <> None.
Proof. intro H. apply (H [] 0%nat (fun _ => Some (VStr []))); [reflexivity|]. apply (C90_short_panics []); [reflexivity|cbn; lia]. Qed.
Print Assumptions C90_any_description_refuted.

(* A peer that describes itself without the label gets the host of a service without a name. *)
Theorem C90_unlabelled : forall b ns labels extra (p : props),
  describes b ns labels -> (forall w, ~ In (lit "service.istio.io/canonical-name", w) labels) -> p (lit "upstream_peer") = Some (VStr b) ->
  exists p', after_response true extra p = Some p' /\
    p' (lit "cluster_metadata.filter_metadata.istio.services.0.name") = Some (VStr []) /\
    p' (lit "cluster_metadata.filter_metadata.istio.services.0.host") = Some (VStr (lit "." ++ ns ++ lit ".svc.cluster.local")).
Proof.
  intros b ns labels extra p D N H. destruct (C90_peer b ns labels [] extra p D (LV_none _ _ N) H) as [p' [E [A [B _]]]]. exists p'. split; [exact E|]. split; [exact A|exact B].
Qed.
Print Assumptions C90_unlabelled.

(* ---- a description ---- *)
Definition z4 (n : nat) : gstr := map (fun x => ascii_of_nat x) [n; 0; 0; 0]%nat.
Definition z2 (n : nat) : gstr := map (fun x => ascii_of_nat x) [n; 0]%nat.
Definition sample : gstr :=
  z4 16 ++ z2 10 ++ z2 12 ++ z2 0 ++ z2 4 ++ z2 8 ++ z2 0 ++ z4 12 ++ z4 8 ++ z4 12 ++ z4 2 ++ lit "ns" ++ z2 0 ++ z4 1 ++ z4 12 ++ z2 8 ++ z2 12 ++ z2 4 ++ z2 8 ++ z4 8 ++ z4 8
  ++ z4 40 ++ z4 31 ++ lit "service.istio.io/canonical-name" ++ [ascii_of_nat 0] ++ z4 3 ++ lit "svc".

Lemma bytes_at_dec b (n : nat) s : geqb (firstn (length s) (skipn n b)) s = true -> (n <= length b)%nat -> bytes_at b (Z.of_nat n) s.
Proof.
  intros H L. apply geqb_eq in H. split; [lia|]. exists (firstn n b), (skipn (length s) (skipn n b)). split.
  - rewrite <- H at 1. rewrite firstn_skipn, firstn_skipn. reflexivity.
  - rewrite firstn_length_le by exact L. reflexivity.
Qed.
Ltac bytes n := apply (bytes_at_dec _ n); [vm_compute; reflexivity|vm_compute; lia].
Ltac u32 n := split; [vm_compute; split; congruence|bytes n].
Theorem C90_sample : describes sample (lit "ns") [(lit "service.istio.io/canonical-name", lit "svc")].
Proof.
  split; [vm_compute; reflexivity|]. exists 16. split; [u32 0%nat|]. split.
  - exists 4. split; [exists 4, 10; split; [u32 16%nat|split; [u32 4%nat|left; split; [reflexivity|u32 10%nat]]]|].
    right. split; [discriminate|]. exists 28. split; [u32 20%nat|]. split; [u32 28%nat|bytes 32%nat].
  - exists 8. split; [exists 4, 10; split; [u32 16%nat|split; [u32 4%nat|left; split; [reflexivity|u32 12%nat]]]|].
    right. split; [discriminate|]. exists 36. split; [u32 24%nat|]. split; [u32 36%nat|].
    intros [|[|i]] kv E; try discriminate. injection E as <-. exists 52. split; [u32 40%nat|]. split; cbn [fst snd].
    + exists 4. split; [exists 44, 8; split; [u32 52%nat|split; [u32 44%nat|left; split; [reflexivity|u32 48%nat]]]|].
      right. split; [discriminate|]. exists 64. split; [u32 56%nat|]. split; [u32 64%nat|bytes 68%nat].
    + exists 8. split; [exists 44, 8; split; [u32 52%nat|split; [u32 44%nat|left; split; [reflexivity|u32 50%nat]]]|].
      right. split; [discriminate|]. exists 100. split; [u32 60%nat|]. split; [u32 100%nat|bytes 104%nat].
Qed.
Print Assumptions C90_sample.
Theorem C90_example :
  (exists p', after_response true 0 (fun k => if geqb k (lit "upstream_peer") then Some (VStr sample) else None) = Some p' /\
     p' (lit "cluster_metadata.filter_metadata.istio.services.0.host") = Some (VStr (lit "svc.ns.svc.cluster.local"))) /\
  before_request true (fun k => if geqb k (lit "node.metadata.NAMESPACE") then Some (VStr (lit "default")) else
     if geqb k (lit "node.metadata.LABELS.service\.istio\.io/canonical-name") then Some (VStr (lit "web")) else None)
     (lit "cluster_metadata.filter_metadata.istio.services.0.host") = Some (VStr (lit "web.default.svc.cluster.local")) /\
  after_response true 0 (fun k => if geqb k (lit "upstream_peer") then Some (VStr (z4 200)) else None) = None.
Proof.
  split; [|split; vm_compute; reflexivity]. set (p := fun k => if geqb k (lit "upstream_peer") then Some (VStr sample) else None).
  destruct (C90_peer sample (lit "ns") _ (lit "svc") 0 p C90_sample (LV_last _ _ [] (lit "svc") [] eq_refl (fun w I => I)) eq_refl) as [p' [E [_ [B _]]]].
  exists p'. split; [exact E|]. rewrite B. reflexivity.
Qed.
Print Assumptions C90_example.
