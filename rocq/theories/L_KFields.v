(* Lemmas about the field codecs *)
From Coq Require Import List ZArith Bool Lia ZifyBool ZifyNat.
From Verif Require Import M_KBase S_KBase L_KBase L_KBase2 M_KFields S_KFields.
Import ListNotations.
Open Scope Z_scope.
Arguments put_uvarint : simpl never.
Ltac Zify.zify_post_hook ::= Z.div_mod_to_equations.

Lemma list_eqb_spec a b : list_eqb a b = true <-> a = b.
Proof.
  revert b; induction a as [|x a IH]; intros [|y b]; cbn [list_eqb]; split; try discriminate; try reflexivity.
  - intros H. apply andb_true_iff in H as [H1 H2]. apply IH in H2. subst. f_equal. lia.
  - intros [= -> ->]. rewrite (proj2 (IH b) eq_refl). lia.
Qed.
Lemma list_eqb_false a b : list_eqb a b = false <-> a <> b.
Proof. rewrite <- list_eqb_spec. destruct (list_eqb a b); split; congruence. Qed.

Lemma obind_some {A B} (m : option A) (f : A -> option B) y :
  obind m f = Some y <-> exists x, m = Some x /\ f x = Some y.
Proof. destruct m; cbn; split; [eauto|intros (x & [= ->] & H); exact H|discriminate|intros (x & H & _); discriminate]. Qed.
Lemma rbind_ok {A B} (m : rres A) (f : A -> list Z -> rres B) y r :
  rbind m f = ROk y r <-> exists x r', m = ROk x r' /\ f x r' = ROk y r.
Proof.
  destruct m; cbn; split; try discriminate; try (intros (x & r' & H & _); discriminate); eauto.
  intros (x & r' & [= -> ->] & H). exact H.
Qed.

Lemma some_inj {A} (a b : A) : Some a = Some b -> a = b.
Proof. congruence. Qed.
Lemma zlen_nonneg {A} (l : list A) : 0 <= zlen l.
Proof. unfold zlen. lia. Qed.
Lemma zlen_app {A} (a b : list A) : zlen (a ++ b) = zlen a + zlen b.
Proof. unfold zlen. rewrite app_length. lia. Qed.
Lemma zlen_nil {A} (l : list A) : zlen l = 0 -> l = [].
Proof. unfold zlen. destruct l; cbn; [reflexivity|lia]. Qed.

(* --- varint encodings, layout and length --- *)
Lemma put_leb v : 0 <= v < 2 ^ 64 -> leb_terminated (put_uvarint 10 v) /\ leb_value (put_uvarint 10 v) = v.
Proof.
  intros H. pose proof (rd_uvarint_put v [] H) as E. rewrite app_nil_r in E.
  apply rd_uvarint_char in E; [|apply put_uvarint_ok; lia].
  destruct E as (e & E1 & E2 & _ & E3 & _). rewrite app_nil_r in E1. now subst e.
Qed.

Definition len_ok (flex : bool) (n : nat) (len : Z) : Prop :=
  -1 <= len /\ (if flex then len + 1 < 2 ^ 32 else int_range (8 * Z.of_nat n) len).

Lemma tu32 x : 0 <= x < 2 ^ 32 -> to_unsigned 32 x = x.
Proof. intros H. unfold to_unsigned. now apply Z.mod_small. Qed.

Lemma wr_len_total flex n len : exists h, wr_len flex n len = Some h.
Proof. unfold wr_len. destruct flex; [rewrite wr_uvarint32_some|]; eauto. Qed.
Lemma rt_len flex n len h s : (0 < n)%nat -> len_ok flex n len -> wr_len flex n len = Some h ->
  rd_len flex n (h ++ s) = ROk len s.
Proof.
  intros Hn [H1 H2] E. unfold wr_len, rd_len in *. destruct flex.
  - rewrite tu32 in E by lia. destruct (rt_uvarint32 (len + 1) s) as (l & El & Hl); [unfold uint_range; lia|].
    rewrite E in El. injection El as <-. rewrite Hl. cbn. f_equal. lia.
  - injection E as <-. now apply rd_int_wr.
Qed.
Lemma len_layout flex n len h : len_ok flex n len -> wr_len flex n len = Some h -> len_prefix flex n len h.
Proof.
  intros [H1 H2] E. unfold wr_len, len_prefix in *. destruct flex.
  - rewrite tu32, wr_uvarint32_some in E by lia. injection E as <-. apply put_leb.
    change (2 ^ 64) with 18446744073709551616. change (2 ^ 32) with 4294967296 in H2. lia.
  - injection E as <-. apply wr_int_be.
Qed.
Lemma len_size flex n len h : len_ok flex n len -> wr_len flex n len = Some h -> zlen h = sz_len flex n len.
Proof.
  intros [H1 H2] E. unfold wr_len, sz_len, zlen in *. destruct flex.
  - rewrite tu32 in * by lia. apply size_uvarint32; [unfold uint_range; lia|exact E].
  - injection E as <-. now rewrite wr_int_length.
Qed.
(* the size formula holds whatever the length (the prefix is computed modulo 2^32 on both sides) *)
Lemma len_size_any flex n len h : wr_len flex n len = Some h -> zlen h = sz_len flex n len.
Proof.
  intros E. unfold wr_len, sz_len, zlen in *. destruct flex.
  - apply size_uvarint32; [apply to_unsigned_range; lia|exact E].
  - injection E as <-. now rewrite wr_int_length.
Qed.
Lemma wr_len_ok flex n len h : wr_len flex n len = Some h -> bytes_ok h.
Proof.
  unfold wr_len. destruct flex; [rewrite wr_uvarint32_some|]; intros E; apply some_inj in E; subst h.
  - apply put_uvarint_ok. apply to_unsigned_range. lia.
  - apply be_enc_ok.
Qed.
Lemma wr_len_nonempty flex n len h : (0 < n)%nat -> wr_len flex n len = Some h -> h <> [].
Proof.
  intros Hn E ->. apply len_size_any in E. unfold sz_len, zlen in E. cbn [length] in E.
  destruct flex; [|lia]. unfold uint32_size in E. repeat destr_if; lia.
Qed.

Lemma rd_exact_bytes n s l r : rd_exact n s = ROk l r -> s = l ++ r /\ length l = n.
Proof. apply rd_exact_inv. Qed.

(* ---------------- strings ---------------- *)
(* the values the API can build (string.go:49-61, 67-70): null, or a text other than "null" *)
Definition str_ok (d : nstr) : Prop :=
  bytes_ok (ns_val d) /\ if ns_nil d then ns_val d = [] else ns_val d <> null_text.
Lemma set_value_ok x : bytes_ok x -> str_ok (set_value x).
Proof.
  intros H. unfold set_value, str_ok. destruct (list_eqb x null_text) eqn:E; cbn; split; try assumption;
  try constructor. now apply list_eqb_false.
Qed.

Lemma wr_str_nonnil c ver d l : supported c ver = true -> ns_nil d = false -> wr_str c ver d = Some l ->
  exists h, wr_len (flexible c ver) 2 (zlen (ns_val d)) = Some h /\ l = h ++ ns_val d /\ zlen (ns_val d) <= 32767.
Proof.
  intros Hs Hn. unfold wr_str. rewrite Hs, Hn. cbn [negb].
  destruct (zlen (ns_val d) >? 32767) eqn:E; [discriminate|].
  rewrite obind_some. intros (h & Hh & [= <-]). exists h. split; [assumption|]. split; [reflexivity|lia].
Qed.
Lemma str_len_ok flex len : -1 <= len <= 32767 -> len_ok flex 2 len.
Proof. intros H. split; [lia|]. destruct flex; unfold int_range; cbn; lia. Qed.

Lemma rt_str c ver d l rest prev : supported c ver = true -> str_ok d -> wr_str c ver d = Some l ->
  rd_str c ver prev (l ++ rest) = ROk d rest.
Proof.
  intros Hs [Hb Hd] E. unfold rd_str. rewrite Hs. cbn [negb].
  destruct (ns_nil d) eqn:En.
  - unfold wr_str in E. rewrite Hs, En in E. cbn [negb] in E.
    destruct (nullable c ver) eqn:Enul; [|discriminate].
    rewrite (rt_len _ 2 (-1) l rest) by (try lia; try assumption; apply str_len_ok; lia).
    cbn [rbind]. unfold rd_str_value. rewrite Enul. cbn.
    destruct d as [b v]; cbn in *; subst; reflexivity.
  - destruct (wr_str_nonnil _ _ _ _ Hs En E) as (h & Hh & -> & Hl).
    pose proof (zlen_nonneg (ns_val d)).
    rewrite <- app_assoc, (rt_len _ 2 (zlen (ns_val d)) h) by (try lia; try assumption; apply str_len_ok; lia).
    cbn [rbind]. unfold rd_str_value.
    destruct (zlen (ns_val d) <? 0) eqn:E1; [lia|]. destruct (zlen (ns_val d) >? 32767) eqn:E2; [lia|].
    destruct (zlen (ns_val d) =? 0) eqn:E3.
    + assert (ns_val d = []) as Hv by (apply zlen_nil; lia). destruct d as [b v]; cbn in *; subst. reflexivity.
    + rewrite rd_exact_app; [|unfold zlen; lia|intros Hv; rewrite Hv in E3; discriminate].
      cbn [rbind]. apply list_eqb_false in Hd. rewrite Hd. destruct d as [b v]; cbn in *; subst. reflexivity.
Qed.

Lemma str_encodable c ver d : supported c ver = true ->
  (exists l, wr_str c ver d = Some l) <->
  (if ns_nil d then nullable c ver = true else Z.of_nat (length (ns_val d)) <= 32767).
Proof.
  intros Hs. unfold wr_str. rewrite Hs. cbn [negb]. destruct (ns_nil d).
  - destruct (nullable c ver).
    + destruct (wr_len_total (flexible c ver) 2 (-1)) as [h ->]. split; eauto.
    + split; [intros (? & [=])|discriminate].
  - fold (zlen (ns_val d)). destruct (zlen (ns_val d) >? 32767) eqn:E.
    + split; [intros (? & [=])|lia].
    + destruct (wr_len_total (flexible c ver) 2 (zlen (ns_val d))) as [h ->]. cbn. split; [lia|eauto].
Qed.

Definition str_opt (d : nstr) : option (list Z) := if ns_nil d then None else Some (ns_val d).
Lemma str_layout c ver d l : supported c ver = true -> wr_str c ver d = Some l ->
  blob_layout (flexible c ver) 2 (str_opt d) l.
Proof.
  intros Hs E. unfold blob_layout, str_opt. destruct (ns_nil d) eqn:En.
  - unfold wr_str in E. rewrite Hs, En in E. cbn [negb] in E. destruct (nullable c ver); [|discriminate].
    apply len_layout; [apply str_len_ok; lia|exact E].
  - destruct (wr_str_nonnil _ _ _ _ Hs En E) as (h & Hh & -> & Hl). exists h. split; [reflexivity|].
    apply len_layout; [|exact Hh]. apply str_len_ok. pose proof (zlen_nonneg (ns_val d)). fold (zlen (ns_val d)). lia.
Qed.

Lemma uint32_size_0 : uint32_size 0 = 1. Proof. reflexivity. Qed.
Lemma str_size c ver d : sz_str c ver d = option_map zlen (wr_str c ver d).
Proof.
  unfold sz_str, wr_str. destruct (supported c ver); cbn [negb]; [|reflexivity].
  destruct (ns_nil d).
  - destruct (nullable c ver); [|reflexivity]. unfold wr_len. destruct (flexible c ver); reflexivity.
  - destruct (zlen (ns_val d) >? 32767); [reflexivity|].
    destruct (wr_len_total (flexible c ver) 2 (zlen (ns_val d))) as [h E]. rewrite E. cbn.
    rewrite zlen_app, (len_size_any _ _ _ _ E). f_equal. lia.
Qed.

(* what a successful read of a string can return *)
Lemma rd_str_sound c ver prev s d r : supported c ver = true -> rd_str c ver prev s = ROk d r ->
  Z.of_nat (length (ns_val d)) <= 32767 /\
  (nullable c ver = false -> ns_nil d = true -> ns_val d = null_text) /\
  exists u, s = u ++ r.
Proof.
  intros Hs. unfold rd_str. rewrite Hs. cbn [negb]. rewrite rbind_ok. intros (len & r' & Hlen & H).
  assert (exists u, s = u ++ r') as [u Hu].
  { unfold rd_len in Hlen. destruct (flexible c ver).
    - rewrite rbind_ok in Hlen. destruct Hlen as (x & r2 & Hx & [= _ <-]). unfold rd_uvarint32 in Hx.
      rewrite rbind_ok in Hx. destruct Hx as (y & r3 & Hy & H2). destr_if; [discriminate|]. injection H2 as _ <-.
      revert Hy. unfold rd_uvarint. generalize 0 at 1 as i. generalize 0 as acc. generalize 10%nat as f.
      clear. intros f; revert s; induction f as [|f IH]; intros s acc i; cbn [rd_uvarint_go]; [discriminate|].
      destruct s as [|b s]; [discriminate|]. destr_if.
      + destr_if; [discriminate|]. intros [= _ <-]. now exists [b].
      + intros H. apply IH in H as [u ->]. now exists (b :: u).
    - unfold rd_int in Hlen. rewrite rbind_ok in Hlen. destruct Hlen as (x & r2 & Hx & [= _ <-]).
      apply rd_exact_inv in Hx as [-> _]. eauto. }
  unfold rd_str_value in H. destr_if; [destruct (nullable c ver) eqn:En; [|discriminate]|].
  { injection H as <- <-. cbn. split; [lia|]. split; [discriminate|eauto]. }
  destr_if; [discriminate|]. destr_if.
  { injection H as <- <-. cbn. split; [lia|]. split; [intros _ [=]|eauto]. }
  rewrite rbind_ok in H. destruct H as (x & r2 & Hx & [= <- <-]). apply rd_exact_inv in Hx as [-> Hx].
  cbn. split; [lia|]. split; [intros _ Ht; now apply list_eqb_spec|]. exists (u ++ x). now rewrite Hu, app_assoc.
Qed.

(* ---------------- bytes ---------------- *)
Lemma len32_ok flex len : -1 <= len <= 2147483647 -> len_ok flex 4 len.
Proof. intros H. split; [lia|]. destruct flex; unfold int_range; cbn; lia. Qed.

Lemma wr_bytes_some c ver x l : supported c ver = true -> wr_bytes c ver (Some x) = Some l ->
  exists h, wr_len (flexible c ver) 4 (zlen x) = Some h /\ l = h ++ x /\ zlen x <= 2147483647.
Proof.
  intros Hs. unfold wr_bytes. rewrite Hs. cbn [negb]. destruct x as [|a x].
  - intros E. exists l. rewrite app_nil_r. cbn. auto using Z.leb_le with zarith.
  - set (y := a :: x). destruct (zlen y >? max_i32) eqn:E; [discriminate|]. rewrite obind_some.
    intros (h & Hh & [= <-]). exists h. unfold max_i32 in E. split; [exact Hh|]. split; [reflexivity|lia].
Qed.
Lemma rt_bytes c ver d l rest : supported c ver = true -> wr_bytes c ver d = Some l ->
  rd_bytesf c ver None (l ++ rest) = ROk d rest.
Proof.
  intros Hs E. unfold rd_bytesf. rewrite Hs. cbn [negb]. destruct d as [x|].
  - destruct (wr_bytes_some _ _ _ _ Hs E) as (h & Hh & -> & Hl). pose proof (zlen_nonneg x).
    rewrite <- app_assoc, (rt_len _ 4 (zlen x) h) by (try lia; try assumption; apply len32_ok; lia).
    cbn [rbind]. unfold rd_bytes_value, max_i32.
    destruct (zlen x <? 0) eqn:E1; [lia|]. destruct (zlen x >? 2147483647) eqn:E2; [lia|].
    destruct (zlen x =? 0) eqn:E3.
    + assert (x = []) as -> by (apply zlen_nil; lia). reflexivity.
    + rewrite rd_exact_app; [reflexivity|unfold zlen; lia|intros Hv; rewrite Hv in E3; discriminate].
  - unfold wr_bytes in E. rewrite Hs in E. cbn [negb] in E.
    destruct (nullable c ver) eqn:En; [|discriminate].
    rewrite (rt_len _ 4 (-1) l) by (try lia; try assumption; apply len32_ok; lia).
    cbn [rbind]. unfold rd_bytes_value. now rewrite En.
Qed.
Lemma bytes_layout c ver d l : supported c ver = true -> wr_bytes c ver d = Some l ->
  blob_layout (flexible c ver) 4 d l.
Proof.
  intros Hs E. destruct d as [x|]; cbn [blob_layout].
  - destruct (wr_bytes_some _ _ _ _ Hs E) as (h & Hh & -> & Hl). exists h. split; [reflexivity|].
    apply len_layout; [|exact Hh]. apply len32_ok. pose proof (zlen_nonneg x). fold (zlen x). lia.
  - unfold wr_bytes in E. rewrite Hs in E. cbn [negb] in E. destruct (nullable c ver); [|discriminate].
    apply len_layout; [apply len32_ok; lia|exact E].
Qed.
Lemma bytes_encodable c ver d : supported c ver = true ->
  (exists l, wr_bytes c ver d = Some l) <->
  match d with None => nullable c ver = true | Some x => Z.of_nat (length x) <= 2147483647 end.
Proof.
  intros Hs. destruct d as [x|].
  - split.
    + intros (l & E). destruct (wr_bytes_some _ _ _ _ Hs E) as (h & _ & _ & H). exact H.
    + intros H. unfold wr_bytes. rewrite Hs. cbn [negb].
      destruct x as [|a x]; [apply wr_len_total|]. fold (zlen (a :: x)) in H.
      destruct (zlen (a :: x) >? max_i32) eqn:E; [unfold max_i32 in E; lia|].
      destruct (wr_len_total (flexible c ver) 4 (zlen (a :: x))) as [h ->]. cbn. eauto.
  - unfold wr_bytes. rewrite Hs. cbn [negb]. destruct (nullable c ver).
    + split; [reflexivity|intros _; apply wr_len_total].
    + split; [intros (? & [=])|discriminate].
Qed.
Lemma bytes_size_le c ver d n : sz_bytes c ver d = Some n ->
  exists l, wr_bytes c ver d = Some l /\ zlen l = n.
Proof.
  unfold sz_bytes, wr_bytes. destruct (supported c ver); cbn [negb]; [|intros [= <-]; eauto].
  destruct d as [[|a x]|].
  - intros [= <-]. destruct (wr_len_total (flexible c ver) 4 0) as [h E]. rewrite E. eauto using len_size_any.
  - set (y := a :: x). clearbody y. clear a x. unfold max_i32.
    destruct (wr_len_total (flexible c ver) 4 (zlen y)) as [h E]. rewrite E. pose proof (len_size_any _ _ _ _ E) as Hh.
    destruct (flexible c ver); destr_if; try discriminate; intros Hn; apply some_inj in Hn; subst n.
    + destruct (zlen y >? 2147483647) eqn:E2; [lia|]. cbn [obind]. eexists; split; [reflexivity|]. rewrite zlen_app, Hh. lia.
    + cbn [obind]. eexists; split; [reflexivity|]. rewrite zlen_app. cbn [sz_len] in Hh. lia.
  - destruct (nullable c ver); [|discriminate]. intros [= <-].
    destruct (wr_len_total (flexible c ver) 4 (-1)) as [h E]. rewrite E. eauto using len_size_any.
Qed.

(* ---------------- arrays ---------------- *)
Lemma rt_items {A} (wr : A -> option (list Z)) (rd : list Z -> rres A) (nrm : A -> A) (P : A -> Prop) :
  (forall a, P a -> forall l rest, wr a = Some l -> rd (l ++ rest) = ROk (nrm a) rest) ->
  forall xs l rest, Forall P xs -> wr_items wr xs = Some l ->
  rd_items rd (length xs) (l ++ rest) = ROk (map nrm xs) rest.
Proof.
  intros H. induction xs as [|x xs IH]; intros l rest HP E; cbn [wr_items rd_items length map] in *.
  - injection E as <-. reflexivity.
  - apply obind_some in E as (a & Ea & E). apply obind_some in E as (b & Eb & [= <-]).
    inversion HP; subst. rewrite <- app_assoc, (H x) by assumption. cbn [rbind].
    rewrite IH by assumption. reflexivity.
Qed.
Lemma rt_arr {A} c ver (wr : A -> option (list Z)) (rd : list Z -> rres A) (nrm : A -> A) (P : A -> Prop)
  (d : option (list A)) l rest :
  (forall a, P a -> forall l rest, wr a = Some l -> rd (l ++ rest) = ROk (nrm a) rest) ->
  supported c ver = true ->
  (forall xs, d = Some xs -> Forall P xs /\ (if flexible c ver then zlen xs + 1 < 2 ^ 32 else zlen xs < 2 ^ 31)) ->
  wr_arr c ver wr d = Some l ->
  rd_arr c ver rd (l ++ rest) = ROk (option_map (map nrm) d) rest.
Proof.
  intros H Hs Hd E. unfold rd_arr. unfold wr_arr in E. rewrite Hs in *. cbn [negb] in *.
  destruct d as [[|x xs]|].
  - rewrite (rt_len _ 4 0 l) by (try lia; try assumption; apply len32_ok; lia). reflexivity.
  - destruct (Hd (x :: xs) eq_refl) as [HP Hlen]. set (ys := x :: xs) in *. clearbody ys. clear x xs.
    apply obind_some in E as (h & Eh & E). apply obind_some in E as (b & Eb & [= <-]).
    pose proof (zlen_nonneg ys).
    rewrite <- app_assoc, (rt_len _ 4 (zlen ys) h).
    + cbn [rbind]. destruct (zlen ys <? 0) eqn:E1; [lia|].
      replace (Z.to_nat (zlen ys)) with (length ys) by (unfold zlen; lia).
      now rewrite (rt_items wr rd nrm P H) by assumption.
    + lia.
    + split; [lia|]. destruct (flexible c ver); [lia|]. unfold int_range.
      change (2 ^ (8 * Z.of_nat 4 - 1)) with 2147483648. change (2 ^ 31) with 2147483648 in Hlen. lia.
    + exact Eh.
  - destruct (nullable c ver) eqn:En; [|discriminate].
    rewrite (rt_len _ 4 (-1) l) by (try lia; try assumption; apply len32_ok; lia). reflexivity.
Qed.
Lemma items_layout {A} (wr : A -> option (list Z)) xs l : wr_items wr xs = Some l ->
  exists encs, l = concat encs /\ Forall2 (fun a e => wr a = Some e) xs encs.
Proof.
  revert l; induction xs as [|x xs IH]; intros l E; cbn [wr_items] in E.
  - injection E as <-. exists []. split; [reflexivity|constructor].
  - apply obind_some in E as (a & Ea & E). apply obind_some in E as (b & Eb & [= <-]).
    destruct (IH b Eb) as (encs & -> & H). exists (a :: encs). split; [reflexivity|now constructor].
Qed.
Lemma arr_layout {A} c ver (wr : A -> option (list Z)) (d : option (list A)) l :
  supported c ver = true ->
  (forall xs, d = Some xs -> if flexible c ver then zlen xs + 1 < 2 ^ 32 else zlen xs < 2 ^ 31) ->
  wr_arr c ver wr d = Some l ->
  array_layout (fun a e => wr a = Some e) (flexible c ver) d l.
Proof.
  intros Hs Hd E. unfold wr_arr in E. rewrite Hs in E. cbn [negb] in E.
  destruct d as [[|x xs]|]; cbn [array_layout].
  - exists l, []. rewrite app_nil_r. split; [reflexivity|]. split; [|constructor].
    apply len_layout; [apply len32_ok; cbn; lia|exact E].
  - pose proof (Hd _ eq_refl) as Hlen. set (ys := x :: xs) in *. clearbody ys. clear x xs.
    apply obind_some in E as (h & Eh & E). apply obind_some in E as (b & Eb & [= <-]).
    destruct (items_layout _ _ _ Eb) as (encs & -> & H). exists h, encs. split; [reflexivity|]. split; [|exact H].
    apply len_layout; [|exact Eh]. pose proof (zlen_nonneg ys). fold (zlen ys). split; [lia|].
    destruct (flexible c ver); [lia|]. unfold int_range.
    change (2 ^ (8 * Z.of_nat 4 - 1)) with 2147483648. change (2 ^ 31) with 2147483648 in Hlen. lia.
  - destruct (nullable c ver); [|discriminate]. apply len_layout; [apply len32_ok; lia|exact E].
Qed.

(* size of items: a pointwise relation between sizes and encodings lifts *)
Lemma items_size {A} (wr : A -> option (list Z)) (sz : A -> option Z) xs n :
  (forall a k, In a xs -> sz a = Some k -> exists l, wr a = Some l /\ zlen l = k) ->
  sz_items sz xs = Some n -> exists l, wr_items wr xs = Some l /\ zlen l = n.
Proof.
  revert n; induction xs as [|x xs IH]; intros n H E; cbn [sz_items wr_items] in *.
  - injection E as <-. exists []. split; reflexivity.
  - apply obind_some in E as (a & Ea & E). apply obind_some in E as (b & Eb & [= <-]).
    destruct (H x a (or_introl eq_refl) Ea) as (l1 & -> & H1).
    destruct (IH b (fun y k Hy => H y k (or_intror Hy)) Eb) as (l2 & -> & H2).
    cbn. exists (l1 ++ l2). split; [reflexivity|]. rewrite zlen_app. lia.
Qed.
Lemma arr_size {A} c ver (wr : A -> option (list Z)) (sz : A -> option Z) d n :
  (forall xs a k, d = Some xs -> In a xs -> sz a = Some k -> exists l, wr a = Some l /\ zlen l = k) ->
  sz_arr c ver sz d = Some n -> exists l, wr_arr c ver wr d = Some l /\ zlen l = n.
Proof.
  intros H. unfold sz_arr, wr_arr. destruct (supported c ver); cbn [negb]; [|intros [= <-]; eauto].
  destruct d as [[|x xs]|].
  - intros [= <-]. destruct (wr_len_total (flexible c ver) 4 0) as [h E]. rewrite E. eauto using len_size_any.
  - pose proof (fun a k => H (x :: xs) a k eq_refl) as H0. set (ys := x :: xs) in *.
    clearbody ys. destruct (if flexible c ver then _ else _); [discriminate|].
    rewrite obind_some. intros (m & Hm & [= <-]).
    destruct (items_size wr sz ys m H0 Hm) as (b & -> & Hb).
    destruct (wr_len_total (flexible c ver) 4 (zlen ys)) as [h E]. rewrite E. cbn.
    eexists; split; [reflexivity|]. rewrite zlen_app, (len_size_any _ _ _ _ E). lia.
  - destruct (nullable c ver); [|discriminate]. intros [= <-].
    destruct (wr_len_total (flexible c ver) 4 (-1)) as [h E]. rewrite E. eauto using len_size_any.
Qed.

(* ---------------- tagged fields ---------------- *)
Definition tag_ok (t : rawtag) : Prop := uint_range 32 (fst t) /\ zlen (snd t) < 2 ^ 32.

Lemma tag_insert_in t l x : In x (tag_insert t l) <-> x = t \/ In x l.
Proof.
  induction l as [|u l IH]; cbn [tag_insert]; [cbn; intuition congruence|].
  destr_if; cbn [In]; [intuition congruence|]. rewrite IH. intuition congruence.
Qed.
Lemma tag_sort_in l x : In x (tag_sort l) <-> In x l.
Proof. induction l as [|t l IH]; cbn [tag_sort]; [tauto|]. rewrite tag_insert_in, IH. cbn. intuition congruence. Qed.
Lemma tag_insert_len t l : length (tag_insert t l) = S (length l).
Proof. induction l as [|u l IH]; cbn [tag_insert]; [reflexivity|]. destr_if; cbn; [reflexivity|]. now rewrite IH. Qed.
Lemma tag_sort_len l : length (tag_sort l) = length l.
Proof. induction l as [|t l IH]; cbn [tag_sort]; [reflexivity|]. rewrite tag_insert_len. cbn. now rewrite IH. Qed.

Fixpoint sorted_le (l : list rawtag) : Prop :=
  match l with
  | t :: ((u :: _) as r) => fst t <= fst u /\ sorted_le r
  | _ => True
  end.
Lemma tag_insert_sorted t l : sorted_le l -> sorted_le (tag_insert t l).
Proof.
  induction l as [|u l IH]; intros H; cbn [tag_insert]; [exact I|].
  destr_if.
  - split; [lia|exact H].
  - assert (sorted_le l) as Hl by (destruct l; [exact I|apply H]). specialize (IH Hl).
    destruct l as [|w l]; cbn [tag_insert] in *.
    + split; [lia|exact I].
    + destruct H as [H1 H2]. destr_if; (split; [lia|exact IH]).
Qed.
Lemma tag_sort_sorted l : sorted_le (tag_sort l).
Proof. induction l; cbn [tag_sort]; [exact I|]. now apply tag_insert_sorted. Qed.
Lemma sorted_ascending l : sorted_le l -> dup_neighbour l = false -> ascending l.
Proof.
  induction l as [|t [|u l] IH]; intros H1 H2; try exact I.
  cbn [dup_neighbour] in H2. apply orb_false_iff in H2 as [H2 H3]. destruct H1 as [H0 H1].
  split; [lia|]. now apply IH.
Qed.
Lemma ascending_sorted l : ascending l -> sorted_le l /\ dup_neighbour l = false.
Proof.
  induction l as [|t [|u l] IH]; intros H; [split; [exact I|reflexivity]..|].
  destruct H as [H0 H1]. destruct (IH H1) as [H2 H3]. split; [split; [lia|exact H2]|].
  cbn [dup_neighbour] in *. rewrite H3. lia.
Qed.
Lemma ascending_cons t l : ascending (t :: l) -> ascending l.
Proof. destruct l; [intros _; exact I|intros [_ H]; exact H]. Qed.
Lemma ascending_lt t l x : ascending (t :: l) -> In x l -> fst t < fst x.
Proof.
  revert t; induction l as [|u l IH]; intros t H Hx; [destruct Hx|]; destruct H as [H0 H1], Hx as [Hx|Hx].
  - subst. exact H0.
  - specialize (IH u H1 Hx). lia.
Qed.
Lemma tag_insert_head t l : (forall x, In x l -> fst t < fst x) -> tag_insert t l = t :: l.
Proof. destruct l as [|u l]; intros H; [reflexivity|]. cbn. specialize (H u (or_introl eq_refl)). destruct (fst t <? fst u) eqn:E; [reflexivity|lia]. Qed.
Lemma tag_sort_id l : ascending l -> tag_sort l = l.
Proof.
  induction l as [|t l IH]; intros H; [reflexivity|]. cbn [tag_sort]. rewrite IH by eauto using ascending_cons.
  apply tag_insert_head. intros x Hx. eapply ascending_lt; eauto.
Qed.
Lemma ascending_unique l l' : ascending l -> ascending l' -> (forall x, In x l <-> In x l') -> l = l'.
Proof.
  revert l'; induction l as [|t l IH]; intros l' H H' Hi.
  - destruct l' as [|u l']; [reflexivity|]. destruct (proj2 (Hi u) (or_introl eq_refl)).
  - destruct l' as [|u l']; [destruct (proj1 (Hi t) (or_introl eq_refl))|].
    assert (t = u) as <-.
    { destruct (proj1 (Hi t) (or_introl eq_refl)) as [E|Hin]; [now subst|].
      destruct (proj2 (Hi u) (or_introl eq_refl)) as [E|Hin']; [now subst|].
      pose proof (ascending_lt _ _ _ H Hin'). pose proof (ascending_lt _ _ _ H' Hin). lia. }
    f_equal. apply IH; eauto using ascending_cons. intros x. split; intros Hx.
    + destruct (proj1 (Hi x) (or_intror Hx)) as [<-|]; [|assumption].
      pose proof (ascending_lt _ _ _ H Hx). lia.
    + destruct (proj2 (Hi x) (or_intror Hx)) as [<-|]; [|assumption].
      pose proof (ascending_lt _ _ _ H' Hx). lia.
Qed.

Lemma wr_tag_inv t l : uint_range 32 (fst t) -> wr_tag t = Some l -> tag_ok t /\ exists a b,
  wr_uvarint32 (fst t) = Some a /\ wr_uvarint32 (zlen (snd t)) = Some b /\ l = a ++ b ++ snd t.
Proof.
  intros Hr E. unfold wr_tag, max_u32 in E. apply obind_some in E as (a & Ea & E). destr_if; [discriminate|].
  apply obind_some in E as (b & Eb & [= <-]). split; [split; [assumption|]|eauto].
  change (2 ^ 32) with 4294967296. lia.
Qed.
Lemma rt_tag t l rest : uint_range 32 (fst t) -> wr_tag t = Some l -> (snd t <> [] \/ rest <> []) ->
  rd_tag (l ++ rest) = ROk t rest.
Proof.
  intros Hr E Hne. destruct (wr_tag_inv t l Hr E) as ([_ Hv] & a & b & Ea & Eb & ->).
  unfold rd_tag. rewrite <- !app_assoc.
  destruct (rt_uvarint32 (fst t) (b ++ snd t ++ rest) Hr) as (a' & Ea' & Ha). rewrite Ea in Ea'. injection Ea' as <-.
  rewrite Ha. cbn [rbind].
  destruct (rt_uvarint32 (zlen (snd t)) (snd t ++ rest)) as (b' & Eb' & Hb).
  { unfold uint_range. pose proof (zlen_nonneg (snd t)). lia. }
  rewrite Eb in Eb'. injection Eb' as <-. rewrite Hb. cbn [rbind].
  replace (Z.to_nat (zlen (snd t))) with (length (snd t)) by (unfold zlen; lia).
  unfold rd_exact. rewrite rd_bytes_app; [|destruct (snd t), rest; destruct Hne; try congruence; discriminate].
  cbn [rbind]. rewrite Nat.eqb_refl. now destruct t.
Qed.
Lemma wr_tag_nonempty t l : wr_tag t = Some l -> l <> [].
Proof.
  unfold wr_tag. rewrite wr_uvarint32_some. cbn. destr_if; [discriminate|]. rewrite wr_uvarint32_some. cbn.
  intros [= <-] E. apply app_eq_nil in E as [E _]. now apply put_uvarint_nonempty in E; [|lia].
Qed.
Lemma wr_items_nonempty {A} (wr : A -> option (list Z)) x xs l : (forall a e, wr a = Some e -> e <> []) ->
  wr_items wr (x :: xs) = Some l -> l <> [].
Proof.
  intros H E. cbn [wr_items] in E. apply obind_some in E as (a & Ea & E). apply obind_some in E as (b & _ & [= <-]).
  intros Hn. apply app_eq_nil in Hn as [-> _]. now apply (H x []).
Qed.
Lemma rt_tag_items xs l rest : Forall (fun t => uint_range 32 (fst t)) xs ->
  wr_items wr_tag xs = Some l -> (rest <> [] \/ snd (last xs (0, [0])) <> []) ->
  rd_items rd_tag (length xs) (l ++ rest) = ROk xs rest.
Proof.
  revert l; induction xs as [|t xs IH]; intros l HP E Hne; cbn [wr_items rd_items length] in *.
  - injection E as <-. reflexivity.
  - apply obind_some in E as (a & Ea & E). apply obind_some in E as (b & Eb & [= <-]). inversion HP; subst.
    rewrite <- app_assoc, (rt_tag t); [|assumption|assumption|].
    + cbn [rbind]. rewrite IH; [reflexivity|assumption|assumption|]. destruct xs; [right; cbn; discriminate|exact Hne].
    + destruct xs as [|u xs].
      * destruct Hne as [Hne|Hne]; [right|left; exact Hne]. cbn in Eb. injection Eb as <-. exact Hne.
      * right. apply wr_items_nonempty in Eb; [|apply wr_tag_nonempty]. destruct b; [congruence|discriminate].
Qed.

Lemma wr_tags_inv l out : wr_tags l = Some out ->
  zlen l < 2 ^ 32 /\ ascending (tag_sort l) /\ exists h b, out = h ++ b /\ wr_uvarint32 (zlen l) = Some h
  /\ wr_items wr_tag (tag_sort l) = Some b.
Proof.
  unfold wr_tags, max_u32. destr_if; [discriminate|]. rewrite obind_some. intros (h & Hh & E).
  destruct (dup_neighbour (tag_sort l)) eqn:Ed; [discriminate|].
  apply obind_some in E as (b & Eb & [= <-]). split; [change (2 ^ 32) with 4294967296; lia|].
  split; [apply sorted_ascending; [apply tag_sort_sorted|assumption]|]. eauto 8.
Qed.
Lemma rt_tags l out rest : Forall (fun t => uint_range 32 (fst t)) l -> wr_tags l = Some out ->
  (rest <> [] \/ snd (last (tag_sort l) (0, [0])) <> []) ->
  rd_tags (out ++ rest) = ROk (tag_sort l) rest.
Proof.
  intros HP E Hne. destruct (wr_tags_inv _ _ E) as (Hlen & Hasc & h & b & -> & Hh & Hb).
  unfold rd_tags. rewrite <- app_assoc. pose proof (zlen_nonneg l).
  destruct (rt_uvarint32 (zlen l) (b ++ rest)) as (h' & Eh & Hrd); [split; [exact H|exact Hlen]|].
  rewrite Hh in Eh. injection Eh as <-. rewrite Hrd.
  replace (Z.to_nat (zlen l)) with (length (tag_sort l)) by (rewrite tag_sort_len; unfold zlen; lia).
  apply rt_tag_items; try assumption.
  apply Forall_forall. intros x Hx. rewrite Forall_forall in HP. apply HP. now apply tag_sort_in.
Qed.
Lemma tags_layout_ok l out : Forall (fun t => uint_range 32 (fst t)) l -> wr_tags l = Some out ->
  exists s, ascending s /\ (forall x, In x s <-> In x l) /\ length s = length l /\ tags_layout s out.
Proof.
  intros HP E. destruct (wr_tags_inv _ _ E) as (Hlen & Hasc & h & b & -> & Hh & Hb).
  exists (tag_sort l). split; [assumption|]. split; [apply tag_sort_in|]. split; [apply tag_sort_len|].
  destruct (items_layout _ _ _ Hb) as (encs & -> & HF). exists h, encs. split; [reflexivity|].
  rewrite wr_uvarint32_some in Hh. injection Hh as <-. pose proof (zlen_nonneg l).
  rewrite tag_sort_len. fold (zlen l).
  destruct (put_leb (zlen l)) as [H1 H2].
  { change (2 ^ 64) with 18446744073709551616. change (2 ^ 32) with 4294967296 in Hlen. lia. }
  split; [exact H1|]. split; [exact H2|].
  assert (Forall (fun t => uint_range 32 (fst t)) (tag_sort l)) as HP'.
  { apply Forall_forall. intros x Hx. rewrite Forall_forall in HP. apply HP. now apply tag_sort_in. }
  clear - HF HP'. induction HF as [|t e ts es Ht _ IH]; [constructor|]. inversion HP'; subst.
  constructor; [|now apply IH]. destruct (wr_tag_inv _ _ H1 Ht) as ([_ Hv] & x & y & Ex & Ey & ->).
  rewrite wr_uvarint32_some in Ex, Ey. injection Ex as <-. injection Ey as <-.
  assert (forall z, 0 <= z < 2 ^ 32 -> 0 <= z < 2 ^ 64).
  { intros z. change (2 ^ 64) with 18446744073709551616. change (2 ^ 32) with 4294967296. lia. }
  destruct (put_leb (fst t)) as [G1 G2]; [apply H; exact H1|].
  destruct (put_leb (zlen (snd t))) as [G3 G4]; [apply H; pose proof (zlen_nonneg (snd t)); lia|].
  exists (put_uvarint 10 (fst t)), (put_uvarint 10 (zlen (snd t))). auto 6.
Qed.
Lemma tag_sort_nodup_asc l : NoDup (map fst l) -> ascending (tag_sort l).
Proof.
  intros H. apply sorted_ascending; [apply tag_sort_sorted|].
  assert (NoDup (map fst (tag_sort l))) as H'.
  { clear - H. induction l as [|t l IH]; [constructor|]. cbn [tag_sort]. inversion H; subst. specialize (IH H3).
    assert (~ In (fst t) (map fst (tag_sort l))) as Hn.
    { intros Hin. apply H2. apply in_map_iff in Hin as (x & Ex & Hx). apply in_map_iff. exists x. split; [assumption|]. now apply tag_sort_in. }
    clear - IH Hn. induction (tag_sort l) as [|u r IHr]; cbn [tag_insert map]; [repeat constructor; exact Hn|].
    destr_if; [cbn; constructor; [exact Hn|exact IH]|]. cbn [map] in *. inversion IH; subst.
    constructor; [|apply IHr; [assumption|intros Hx; apply Hn; now right]].
    intros Hin. apply in_map_iff in Hin as (x & Ex & Hx). apply tag_insert_in in Hx as [->|Hx].
    - apply Hn. left. congruence.
    - apply H1. apply in_map_iff. eauto. }
  clear - H'. induction (tag_sort l) as [|t [|u r] IH]; [reflexivity..|]. cbn [dup_neighbour map] in *.
  inversion H'; subst. rewrite (IH H2). destruct (fst t =? fst u) eqn:E; [|reflexivity].
  exfalso. apply H1. left. lia.
Qed.
Lemma nodup_of_asc s : ascending s -> NoDup (map fst s).
Proof.
  induction s as [|t s IH]; intros H; cbn; constructor; [|eauto using ascending_cons].
  intros Hin. apply in_map_iff in Hin as (x & Ex & Hx). pose proof (ascending_lt _ _ _ H Hx). lia.
Qed.
From Coq Require Import Sorting.Permutation.
Lemma tag_insert_perm t l : Permutation (t :: l) (tag_insert t l).
Proof.
  induction l as [|u l IH]; cbn [tag_insert]; [reflexivity|]. destr_if; [reflexivity|].
  rewrite perm_swap. now constructor.
Qed.
Lemma tag_sort_perm l : Permutation l (tag_sort l).
Proof. induction l; cbn [tag_sort]; [constructor|]. rewrite <- tag_insert_perm. now constructor. Qed.
Lemma tags_encodable l : (exists out, wr_tags l = Some out) <->
  NoDup (map fst l) /\ zlen l < 2 ^ 32 /\ Forall (fun t => zlen (snd t) < 2 ^ 32) l.
Proof.
  split.
  - intros (out & E). destruct (wr_tags_inv _ _ E) as (Hlen & Hasc & h & b & -> & Hh & Hb).
    split.
    { eapply Permutation_NoDup; [apply Permutation_sym, Permutation_map, tag_sort_perm|now apply nodup_of_asc]. }
    split; [assumption|]. apply Forall_forall. intros x Hx. apply tag_sort_in in Hx.
    clear - Hb Hx. revert b Hb Hx. induction (tag_sort l) as [|t s IH]; intros b Hb []; cbn [wr_items] in Hb;
    apply obind_some in Hb as (a & Ha & Hb); apply obind_some in Hb as (b' & Hb' & _); [|eauto].
    subst. unfold wr_tag, max_u32 in Ha. rewrite wr_uvarint32_some in Ha. cbn [obind] in Ha.
    destruct (zlen (snd x) >? 4294967295) eqn:E; [discriminate|]. change (2 ^ 32) with 4294967296. lia.
  - intros (Hn & Hlen & HF). unfold wr_tags, max_u32. change (2 ^ 32) with 4294967296 in *.
    destruct (zlen l >? 4294967295) eqn:E; [lia|]. rewrite wr_uvarint32_some. cbn [obind].
    destruct (ascending_sorted _ (tag_sort_nodup_asc _ Hn)) as [_ ->].
    assert (exists b, wr_items wr_tag (tag_sort l) = Some b) as [b Hb].
    { assert (Forall (fun t => zlen (snd t) < 4294967296) (tag_sort l)) as HF'.
      { apply Forall_forall. intros x Hx. rewrite Forall_forall in HF. apply HF. now apply tag_sort_in. }
      induction HF' as [|t s Ht _ IH]; [now exists []|]. destruct IH as [b Hb]. cbn [wr_items].
      unfold wr_tag at 1, max_u32. rewrite wr_uvarint32_some. cbn [obind].
      destruct (zlen (snd t) >? 4294967295) eqn:E'; [lia|]. rewrite wr_uvarint32_some. cbn [obind]. rewrite Hb. cbn. eauto. }
    rewrite Hb. cbn. eauto.
Qed.
Lemma tag_size t : uint_range 32 (fst t) -> sz_tag t = option_map zlen (wr_tag t).
Proof.
  intros Hr. unfold sz_tag, wr_tag, max_u32. rewrite wr_uvarint32_some. cbn [obind].
  destruct (zlen (snd t) >? 4294967295) eqn:E; [reflexivity|]. rewrite wr_uvarint32_some. cbn.
  rewrite !zlen_app. f_equal. unfold zlen at 3 4.
  rewrite (size_uvarint32 (fst t) _ Hr) by apply wr_uvarint32_some.
  rewrite (size_uvarint32 (zlen (snd t))); [lia| |apply wr_uvarint32_some].
  unfold uint_range. pose proof (zlen_nonneg (snd t)). change (2 ^ 32) with 4294967296. lia.
Qed.
