(* Locality of readers: a successful read depends only on the bytes it consumed *)
From Coq Require Import List ZArith Bool Lia ZifyBool ZifyNat.
From Verif Require Import M_KBase L_KBase L_KBase2 M_KFields L_KFields.
Import ListNotations.
Open Scope Z_scope.

(* [loc]: the result is determined by the consumed prefix u; the rest may be replaced by anything
   (by the empty list only if it was empty) *)
Definition loc {A} (rd : list Z -> rres A) : Prop := forall s a r, rd s = ROk a r ->
  exists u, s = u ++ r /\ forall r', (r' = [] -> r = []) -> rd (u ++ r') = ROk a r'.
(* [wloc]: the same where something follows *)
Definition wloc {A} (rd : list Z -> rres A) : Prop := forall s a r, rd s = ROk a r ->
  exists u, s = u ++ r /\ (r <> [] -> forall r', r' <> [] -> rd (u ++ r') = ROk a r').
Definition nopanic {A} (rd : list Z -> rres A) : Prop := forall s, rd s <> RPanic.

Lemma loc_wloc {A} (rd : list Z -> rres A) : loc rd -> wloc rd.
Proof. intros H s a r E. destruct (H s a r E) as (u & -> & Hu). exists u. split; [reflexivity|]. intros _ r' Hr'. apply Hu. congruence. Qed.

Lemma loc_ext {A} (f g : list Z -> rres A) : (forall s, f s = g s) -> loc f -> loc g.
Proof.
  intros H L s a r E. rewrite <- H in E. destruct (L _ _ _ E) as (u & Hu & Hr). exists u. split; [exact Hu|].
  intros r' Hr'. rewrite <- H. now apply Hr.
Qed.
Lemma wloc_ext {A} (f g : list Z -> rres A) : (forall s, f s = g s) -> wloc f -> wloc g.
Proof.
  intros H L s a r E. rewrite <- H in E. destruct (L _ _ _ E) as (u & Hu & Hr). exists u. split; [exact Hu|].
  intros Hn r' Hr'. rewrite <- H. now apply Hr.
Qed.
Lemma loc_ret {A} (a : A) : loc (fun s => ROk a s).
Proof. intros s b r [= <- <-]. exists []. split; [reflexivity|]. reflexivity. Qed.
Lemma wloc_ret {A} (a : A) : wloc (fun s => ROk a s).
Proof. apply loc_wloc, loc_ret. Qed.
Lemma loc_err {A} e : loc (fun s => RErr (A:=A) e).
Proof. intros s b r [=]. Qed.
Lemma loc_panic {A} : loc (fun s => RPanic (A:=A)).
Proof. intros s b r [=]. Qed.
Lemma loc_if {A} (b : bool) (f g : list Z -> rres A) : loc f -> loc g -> loc (fun s => if b then f s else g s).
Proof. destruct b; auto. Qed.
Lemma wloc_if {A} (b : bool) (f g : list Z -> rres A) : wloc f -> wloc g -> wloc (fun s => if b then f s else g s).
Proof. destruct b; auto. Qed.

Lemma loc_bind {A B} (m : list Z -> rres A) (f : A -> list Z -> rres B) :
  loc m -> (forall a, loc (f a)) -> loc (fun s => rbind (m s) f).
Proof.
  intros Hm Hf s b r E. apply rbind_ok in E as (a & r1 & E1 & E2).
  destruct (Hm _ _ _ E1) as (u1 & -> & H1). destruct (Hf a _ _ _ E2) as (u2 & -> & H2).
  exists (u1 ++ u2). split; [now rewrite app_assoc|]. intros r' Hr'. rewrite <- app_assoc, H1.
  - cbn. now apply H2.
  - intros E. apply app_eq_nil in E as [-> ->]. now rewrite Hr'.
Qed.
Lemma wloc_bind {A B} (m : list Z -> rres A) (f : A -> list Z -> rres B) :
  wloc m -> (forall a, wloc (f a)) -> wloc (fun s => rbind (m s) f).
Proof.
  intros Hm Hf s b r E. apply rbind_ok in E as (a & r1 & E1 & E2).
  destruct (Hm _ _ _ E1) as (u1 & -> & H1). destruct (Hf a _ _ _ E2) as (u2 & -> & H2).
  exists (u1 ++ u2). split; [now rewrite app_assoc|]. intros Hr r' Hr'. rewrite <- app_assoc, H1.
  - cbn. now apply H2.
  - destruct u2; [exact Hr|discriminate].
  - destruct u2; [exact Hr'|discriminate].
Qed.
Lemma np_bind {A B} (m : list Z -> rres A) (f : A -> list Z -> rres B) :
  nopanic m -> (forall a, nopanic (f a)) -> nopanic (fun s => rbind (m s) f).
Proof. intros Hm Hf s. specialize (Hm s). destruct (m s); cbn; [apply Hf|discriminate|congruence]. Qed.
Lemma np_ret {A} (a : A) : nopanic (fun s => ROk a s). Proof. intros s. discriminate. Qed.
Lemma np_err {A} e : nopanic (fun s => RErr (A:=A) e). Proof. intros s. discriminate. Qed.
Lemma np_if {A} (b : bool) (f g : list Z -> rres A) : nopanic f -> nopanic g -> nopanic (fun s => if b then f s else g s).
Proof. destruct b; auto. Qed.

Lemma loc_exact n : loc (rd_exact n).
Proof.
  intros s l r E. pose proof (rd_exact_inv _ _ _ _ E) as [-> Hl]. exists l. split; [reflexivity|].
  intros r' Hr'. destruct l as [|b l].
  - cbn in Hl. subst n. unfold rd_exact, rd_bytes in *. cbn in *. destruct r; [discriminate|].
    destruct r'; [now specialize (Hr' eq_refl)|reflexivity].
  - apply rd_exact_app; [exact Hl|discriminate].
Qed.
Lemma np_exact n : nopanic (rd_exact n).
Proof. intros s. unfold rd_exact, rd_bytes. destruct s; cbn; [discriminate|]. destr_if; discriminate. Qed.

Lemma loc_int n : loc (rd_int n).
Proof. apply loc_bind; [apply loc_exact|]. intros a. apply loc_ret. Qed.
Lemma np_int n : nopanic (rd_int n).
Proof. apply np_bind; [apply np_exact|]. intros a. apply np_ret. Qed.
Lemma loc_uint n : loc (rd_uint n).
Proof. apply loc_bind; [apply loc_exact|]. intros a. apply loc_ret. Qed.
Lemma np_uint n : nopanic (rd_uint n).
Proof. apply np_bind; [apply np_exact|]. intros a. apply np_ret. Qed.
Lemma loc_bool : loc rd_bool.
Proof. apply loc_bind; [apply loc_exact|]. intros [|a l]; [apply loc_err|apply loc_ret]. Qed.
Lemma np_bool : nopanic rd_bool.
Proof. apply np_bind; [apply np_exact|]. intros [|a l]; [apply np_err|apply np_ret]. Qed.
Lemma loc_uuid : loc rd_uuid.
Proof. apply loc_bind; [apply loc_int|]. intros a. apply loc_bind; [apply loc_int|]. intros b. apply loc_ret. Qed.
Lemma np_uuid : nopanic rd_uuid.
Proof. apply np_bind; [apply np_int|]. intros a. apply np_bind; [apply np_int|]. intros b. apply np_ret. Qed.

Lemma loc_uvarint_go f : forall i x, loc (rd_uvarint_go f i x).
Proof.
  induction f as [|f IH]; intros i x s a r E; cbn [rd_uvarint_go] in E; [discriminate|].
  destruct s as [|b s]; [discriminate|]. destruct (b <? 128) eqn:Eb.
  - destruct ((i =? 9) && (1 <? b)) eqn:E9; [discriminate|]. injection E as <- <-. exists [b]. split; [reflexivity|].
    intros r' _. cbn [app rd_uvarint_go]. now rewrite Eb, E9.
  - destruct (IH _ _ _ _ _ E) as (u & -> & H). exists (b :: u). split; [reflexivity|].
    intros r' Hr'. cbn [app rd_uvarint_go]. rewrite Eb. now apply H.
Qed.
Lemma loc_uvarint32 : loc rd_uvarint32.
Proof. apply loc_bind; [apply loc_uvarint_go|]. intros a. apply (loc_if _ (fun _ => RErr false)); [apply loc_err|apply loc_ret]. Qed.
Lemma np_uvarint32 : nopanic rd_uvarint32.
Proof.
  apply np_bind; [intros s; apply rd_go_nopanic|]. intros a.
  apply (np_if _ (fun _ => RErr false)); [apply np_err|apply np_ret].
Qed.
Lemma loc_varint32 : loc rd_varint32.
Proof. apply loc_bind; [apply loc_uvarint32|]. intros a. apply loc_ret. Qed.
Lemma np_varint32 : nopanic rd_varint32.
Proof. apply np_bind; [apply np_uvarint32|]. intros a. apply np_ret. Qed.
Lemma loc_varint64 : loc rd_varint64.
Proof. apply loc_bind; [apply loc_uvarint_go|]. intros a. apply loc_ret. Qed.
Lemma np_varint64 : nopanic rd_varint64.
Proof. apply np_bind; [intros s; apply rd_go_nopanic|]. intros a. apply np_ret. Qed.
Lemma loc_len flex n : loc (rd_len flex n).
Proof.
  destruct flex; [|apply loc_int]. apply (loc_bind rd_uvarint32 (fun u r => ROk (u - 1) r)); [apply loc_uvarint32|].
  intros a. apply loc_ret.
Qed.
Lemma np_len flex n : nopanic (rd_len flex n).
Proof.
  destruct flex; [|apply np_int]. apply (np_bind rd_uvarint32 (fun u r => ROk (u - 1) r)); [apply np_uvarint32|].
  intros a. apply np_ret.
Qed.

Lemma loc_str c ver prev : loc (rd_str c ver prev).
Proof.
  unfold rd_str. apply loc_if; [apply loc_ret|]. apply loc_bind; [apply loc_len|]. intros len. unfold rd_str_value.
  apply loc_if; [apply loc_if; [apply loc_ret|apply loc_err]|].
  apply (loc_if _ (fun _ => RErr false)); [apply loc_err|]. apply loc_if; [apply loc_ret|].
  apply loc_bind; [apply loc_exact|]. intros l. apply loc_ret.
Qed.
Lemma np_str c ver prev : nopanic (rd_str c ver prev).
Proof.
  unfold rd_str. apply np_if; [apply np_ret|]. apply np_bind; [apply np_len|]. intros len. unfold rd_str_value.
  apply np_if; [apply np_if; [apply np_ret|apply np_err]|].
  apply (np_if _ (fun _ => RErr false)); [apply np_err|]. apply np_if; [apply np_ret|].
  apply np_bind; [apply np_exact|]. intros l. apply np_ret.
Qed.
Lemma loc_bytesf c ver prev : loc (rd_bytesf c ver prev).
Proof.
  unfold rd_bytesf. apply loc_if; [apply loc_ret|]. apply loc_bind; [apply loc_len|]. intros len. unfold rd_bytes_value.
  apply loc_if; [apply loc_if; [apply loc_ret|apply loc_err]|].
  apply (loc_if _ (fun _ => RErr false)); [apply loc_err|]. apply loc_if; [apply loc_ret|].
  apply loc_bind; [apply loc_exact|]. intros l. apply loc_ret.
Qed.
Lemma np_bytesf c ver prev : nopanic (rd_bytesf c ver prev).
Proof.
  unfold rd_bytesf. apply np_if; [apply np_ret|]. apply np_bind; [apply np_len|]. intros len. unfold rd_bytes_value.
  apply np_if; [apply np_if; [apply np_ret|apply np_err]|].
  apply (np_if _ (fun _ => RErr false)); [apply np_err|]. apply np_if; [apply np_ret|].
  apply np_bind; [apply np_exact|]. intros l. apply np_ret.
Qed.
Lemma loc_items {A} (rd : list Z -> rres A) n : loc rd -> loc (rd_items rd n).
Proof.
  intros H. induction n; cbn [rd_items]; [apply loc_ret|]. apply loc_bind; [exact H|]. intros a.
  apply loc_bind; [exact IHn|]. intros l. apply loc_ret.
Qed.
Lemma wloc_items {A} (rd : list Z -> rres A) n : wloc rd -> wloc (rd_items rd n).
Proof.
  intros H. induction n; cbn [rd_items]; [apply wloc_ret|]. apply wloc_bind; [exact H|]. intros a.
  apply wloc_bind; [exact IHn|]. intros l. apply wloc_ret.
Qed.
Lemma np_items {A} (rd : list Z -> rres A) n : nopanic rd -> nopanic (rd_items rd n).
Proof.
  intros H. induction n; cbn [rd_items]; [apply np_ret|]. apply np_bind; [exact H|]. intros a.
  apply np_bind; [exact IHn|]. intros l. apply np_ret.
Qed.
Lemma loc_arr {A} c ver (rd : list Z -> rres A) : loc rd -> loc (rd_arr c ver rd).
Proof.
  intros H. unfold rd_arr. apply loc_if; [apply loc_ret|]. apply loc_bind; [apply loc_len|]. intros len.
  apply loc_if; [apply loc_if; [apply loc_ret|apply loc_err]|]. apply loc_bind; [now apply loc_items|]. intros l. apply loc_ret.
Qed.
Lemma wloc_arr {A} c ver (rd : list Z -> rres A) : wloc rd -> wloc (rd_arr c ver rd).
Proof.
  intros H. unfold rd_arr. apply wloc_if; [apply wloc_ret|]. apply wloc_bind; [apply loc_wloc, loc_len|]. intros len.
  apply wloc_if; [apply wloc_if; [apply wloc_ret|apply loc_wloc, loc_err]|].
  apply wloc_bind; [now apply wloc_items|]. intros l. apply wloc_ret.
Qed.
Lemma np_arr {A} c ver (rd : list Z -> rres A) : nopanic rd -> nopanic (rd_arr c ver rd).
Proof.
  intros H. unfold rd_arr. apply np_if; [apply np_ret|]. apply np_bind; [apply np_len|]. intros len.
  apply np_if; [apply np_if; [apply np_ret|apply np_err]|]. apply np_bind; [now apply np_items|]. intros l. apply np_ret.
Qed.
Lemma loc_tag : loc rd_tag.
Proof.
  unfold rd_tag. apply loc_bind; [apply loc_uvarint32|]. intros t. apply loc_bind; [apply loc_uvarint32|]. intros n.
  apply loc_bind; [apply loc_exact|]. intros v. apply loc_ret.
Qed.
Lemma np_tag : nopanic rd_tag.
Proof.
  unfold rd_tag. apply np_bind; [apply np_uvarint32|]. intros t. apply np_bind; [apply np_uvarint32|]. intros n.
  apply np_bind; [apply np_exact|]. intros v. apply np_ret.
Qed.
(* reading from a non-empty input never fails with "end of input at the first byte" *)
Lemma uvarint_eof s : rd_uvarint32 s = RErr true -> s = [].
Proof.
  intros H. destruct s as [|b s]; [reflexivity|]. exfalso. unfold rd_uvarint32 in H.
  assert (forall f i x s, 0 < i -> rd_uvarint_go f i x s <> RErr true) as G.
  { clear. induction f; intros i x s Hi; cbn [rd_uvarint_go]; [discriminate|]. destruct s; [destruct (i =? 0) eqn:E; [lia|discriminate]|].
    destr_if; [destr_if; discriminate|]. apply IHf. lia. }
  assert (rd_uvarint (b :: s) <> RErr true) as G2.
  { unfold rd_uvarint. generalize 9%nat as f. intros f. change 10%nat with (S 9).
    cbn [rd_uvarint_go]. destr_if; [destr_if; discriminate|]. apply G. lia. }
  destruct (rd_uvarint (b :: s)) as [v r|e|]; cbn [rbind] in H; try discriminate.
  - destr_if; discriminate.
  - injection H as ->. congruence.
Qed.
Lemma wloc_tags : wloc rd_tags.
Proof.
  intros s a r E. unfold rd_tags in E. destruct (rd_uvarint32 s) as [n s'|e|] eqn:Eu; try discriminate.
  - destruct (loc_uvarint32 _ _ _ Eu) as (u & -> & H). destruct (loc_items rd_tag (Z.to_nat n) loc_tag _ _ _ E) as (v & -> & H2).
    exists (u ++ v). split; [now rewrite app_assoc|]. intros Hr r' Hr'. unfold rd_tags. rewrite <- app_assoc, H.
    + apply H2. congruence.
    + destruct v; cbn; congruence.
  - destruct e; [|discriminate]. injection E as <- <-. apply uvarint_eof in Eu as ->. exists []. split; [reflexivity|]. congruence.
Qed.
Lemma np_tags : nopanic rd_tags.
Proof.
  intros s. unfold rd_tags. pose proof (np_uvarint32 s). destruct (rd_uvarint32 s) as [n s'|[]|]; try congruence; try discriminate.
  apply np_items, np_tag.
Qed.

(* a proper prefix of an input that is consumed entirely is an error *)
Lemma loc_prefix {A} (rd : list Z -> rres A) p q a : loc rd -> nopanic rd -> rd (p ++ q) = ROk a [] -> q <> [] ->
  exists e, rd p = RErr e.
Proof.
  intros L N E Hq. destruct (rd p) as [b r|e|] eqn:Ep; [|eauto|destruct (N _ Ep)]. exfalso.
  destruct (L _ _ _ Ep) as (u & -> & H). rewrite <- app_assoc, H in E.
  - injection E as _ E. apply app_eq_nil in E as [_ E]. contradiction.
  - intros E'. apply app_eq_nil in E' as [-> _]. reflexivity.
Qed.
