(* C82: the TLS state of a connection. *)
From Coq Require Import List Bool Arith Lia.
From Verif Require Import M_ConnState.
Import ListNotations.

(* ================= part 1: which state ================= *)
(* --- specification --- *)
Definition has_state (l : layer) : Prop := l_state l <> None.
Definition no_state (l : layer) : Prop := l_state l = None.
Definition no_tls (l : layer) : Prop := l_tls l = None.
(* the innermost TLS connection of a chain *)
Definition innermost_tls (c : list layer) : option nat := tls_of (rev c).

Lemma tls_of_app : forall a b, tls_of (a ++ b) = match tls_of a with Some t => Some t | None => tls_of b end.
Proof. induction a as [|x a IH]; intros b; [reflexivity|]. cbn. destruct (l_tls x); [reflexivity|apply IH]. Qed.
Lemma walk_found : forall chain s tls, walk chain (Some s) tls = (Some s, match tls_of chain with Some t => Some t | None => tls end).
Proof. induction chain as [|l c IH]; intros s tls; [reflexivity|]. cbn. destruct (l_tls l) as [t|]; [reflexivity|]. apply IH. Qed.
Lemma walk_skip : forall a b tls, Forall no_state a -> walk (a ++ b) None tls = walk b None (match innermost_tls a with Some t => Some t | None => tls end).
Proof.
  induction a as [|l a IH]; intros b tls H; [reflexivity|]. pose proof (Forall_inv H) as H1. pose proof (Forall_inv_tail H) as H2. unfold no_state in H1. cbn [app walk]. rewrite H1.
  assert (E: innermost_tls (l :: a) = match innermost_tls a with Some t => Some t | None => l_tls l end). { unfold innermost_tls. cbn [rev]. rewrite tls_of_app. cbn [tls_of]. destruct (tls_of (rev a)); [reflexivity|]. now destruct (l_tls l). }
  rewrite E. destruct (l_tls l) as [t|]; rewrite IH by exact H2; destruct (innermost_tls a); reflexivity.
Qed.
(* The state is that of the outermost connection that has one, and no other. *)
Theorem C82_outermost_state : forall a l b s, Forall no_state a -> l_state l = Some s -> exists t, state_of (a ++ l :: b) = Some (s, t).
Proof.
  intros a l b s Ha Hl. unfold state_of. rewrite walk_skip by exact Ha. cbn [walk]. rewrite Hl. rewrite walk_found. destruct (l_tls l); eexists; reflexivity.
Qed.
Print Assumptions C82_outermost_state.
Theorem C82_no_state : forall c, state_of c = None <-> Forall no_state c.
Proof.
  intros c. split.
  - intros H. induction c as [|l c IH] using rev_ind; [constructor|].
    assert (D: Forall no_state c \/ exists a x b s, c = a ++ x :: b /\ Forall no_state a /\ l_state x = Some s).
    { clear. induction c as [|x c IH]; [left; constructor|]. destruct (l_state x) as [s|] eqn:E; [right; exists [], x, c, s; repeat split; [constructor|exact E]|]. destruct IH as [IH|(a & y & b & s & -> & Ha & Hs)]; [left; now constructor|]. right. exists (x :: a), y, b, s. repeat split; [now constructor|exact Hs]. }
    destruct D as [D|(a & x & b & s & -> & Ha & Hs)].
    + apply Forall_app. split; [exact D|]. constructor; [|constructor]. unfold no_state. destruct (l_state l) as [s|] eqn:E; [|reflexivity]. destruct (C82_outermost_state c l [] s D E) as [t Ht]. congruence.
    + exfalso. rewrite <- app_assoc in H. destruct (C82_outermost_state a x (b ++ [l]) s Ha Hs) as [t Ht]. cbn in H. congruence.
  - intros H. unfold state_of. rewrite <- (app_nil_r c). rewrite walk_skip by exact H. reflexivity.
Qed.
Print Assumptions C82_no_state.
(* Its TLS part comes from the first TLS connection below it, if there is one; otherwise from the nearest one at it or above. *)
Theorem C82_which_tls : forall a l b s, Forall no_state a -> l_state l = Some s ->
  state_of (a ++ l :: b) = Some (s, match tls_of b with Some t => Some t | None => match l_tls l with Some t => Some t | None => innermost_tls a end end).
Proof.
  intros a l b s Ha Hl. unfold state_of. rewrite walk_skip by exact Ha. cbn [walk]. rewrite Hl, walk_found. destruct (l_tls l); destruct (tls_of b); destruct (innermost_tls a); reflexivity.
Qed.
Print Assumptions C82_which_tls.
(* The usual cases: one TLS connection, over or under the state. *)
Theorem C82_one_tls : forall a l b s t, Forall no_state a -> l_state l = Some s -> (forall x, In x (a ++ l :: b) -> l_tls x = None \/ l_tls x = Some t) -> (exists x, In x (a ++ l :: b) /\ l_tls x = Some t) ->
  state_of (a ++ l :: b) = Some (s, Some t).
Proof.
  intros a l b s t Ha Hl Hall (x & Hx & Ht). rewrite (C82_which_tls a l b s Ha Hl). f_equal. f_equal.
  assert (K: forall c, (forall y, In y c -> l_tls y = None \/ l_tls y = Some t) -> tls_of c = None /\ Forall no_tls c \/ tls_of c = Some t).
  { induction c as [|y c IH]; intros Hc; [left; split; [reflexivity|constructor]|]. cbn. destruct (Hc y (or_introl eq_refl)) as [E|E]; rewrite E; [|now right]. destruct IH as [[I1 I2]|I]; [intros z Hz; apply Hc; now right|left; split; [exact I1|now constructor]|now right]. }
  destruct (K b) as [[K1 K2]|K1]; [intros y Hy; apply Hall; apply in_or_app; right; now right| |now rewrite K1]. rewrite K1.
  destruct (Hall l) as [E|E]; [apply in_or_app; right; now left| |]; rewrite E; [|reflexivity]. unfold innermost_tls.
  destruct (K (rev a)) as [[K3 K4]|K3]; [intros y Hy; apply in_rev in Hy; apply Hall; apply in_or_app; now left| |exact K3].
  exfalso. apply in_app_or in Hx. rewrite Forall_forall in K2, K4. unfold no_tls in *. destruct Hx as [Hx|[<-|Hx]]; [|congruence|specialize (K2 x Hx); congruence]. specialize (K4 x (proj1 (in_rev a x) Hx)). congruence.
Qed.
Print Assumptions C82_one_tls.
(* Defect: with TLS in TLS (a connection through an encrypted tunnel) the peer's certificate is that of the tunnel, not of the session. *)
Theorem C82_inner_tls_refuted : forall session tunnel s, session <> tunnel ->
  let chain := [mkl (Some session) None; mkl None (Some s); mkl (Some tunnel) None; mkl None None] in tls_of chain = Some session /\ state_of chain = Some (s, Some tunnel).
Proof. intros session tunnel s _ chain. split; reflexivity. Qed.
Print Assumptions C82_inner_tls_refuted.
(* Wrapping gives a state, keeps one that is there, and changes no TLS. *)
Theorem C82_wrap : forall new c, (exists s t, state_of (wrap new c) = Some (s, t)) /\ wrap new (wrap new c) = wrap new c /\ tls_of (wrap new c) = tls_of c /\
  (forall l r s, c = l :: r -> l_state l = Some s -> wrap new c = c) /\ (forall l r, c = l :: r -> l_state l = None -> exists t, state_of (wrap new c) = Some (new, t)).
Proof.
  intros new c. split; [|split; [|split; [|split]]].
  - destruct c as [|l r]; cbn [wrap]; [do 2 eexists; reflexivity|]. destruct (l_state l) as [s|] eqn:E.
    + destruct (C82_outermost_state [] l r s ltac:(constructor) E) as [t Ht]. exists s, t. exact Ht.
    + destruct (C82_outermost_state [] (mkl None (Some new)) (l :: r) new ltac:(constructor) eq_refl) as [t Ht]. exists new, t. exact Ht.
  - destruct c as [|l r]; cbn [wrap]; [reflexivity|]. destruct (l_state l) eqn:E; cbn [wrap]; [now rewrite E|reflexivity].
  - destruct c as [|l r]; cbn [wrap]; [reflexivity|]. destruct (l_state l) eqn:E; reflexivity.
  - intros l r s -> E. cbn. now rewrite E.
  - intros l r -> E. cbn [wrap]. rewrite E. destruct (C82_outermost_state [] (mkl None (Some new)) (l :: r) new ltac:(constructor) eq_refl) as [t Ht]. exists t. exact Ht.
Qed.
Print Assumptions C82_wrap.

(* ================= part 2: the handshake and the readers ================= *)
Lemma existsb_mid : forall A (f : A -> bool) l x r, existsb f (l ++ x :: r) = f x || existsb f (l ++ r).
Proof. intros A f l x r. rewrite !existsb_app. cbn. destruct (existsb f l), (f x); reflexivity. Qed.
Definition w_writes (w : wpc) : bool := match w with W4 _ _ => true | _ => false end.
Definition is_early (w : wpc) : bool := match w with W0 => false | W1 b | W5 b => b | W2 b _ | W3 b _ | W4 b _ => b end.
Definition o_late (o : opc) : bool := match o with O1 b | O2 b | O3 b _ => b | O0 => false end.
Definition o_fresh (final : nat) (o : opc) : bool := match o with O3 true v => v =? final | _ => true end.
Definition w_value (final : nat) (w : wpc) : bool := match w with W2 false v | W3 false v | W4 false v => v =? final | _ => true end.
Definition before_spawn (h : hpc) : bool := match h with K0 | K1 | K2 | K3 | K4 | K5 => true | _ => false end.
Definition in_handshake (h : hpc) : bool := match h with K0 | K10 => false | _ => true end.
Definition a_m2 (a : apc) : bool := match a with ANone | A4 => false | _ => true end.

Record inv (final : nat) (s : sys) : Prop :=
  { j_spawn : before_spawn (sh s) = true -> sa s = ANone;
    j_res : result s = match sh s with K10 => final | _ => 0 end;
    j_a1 : sa s = A1 -> existsb w_hs (sw s) = false /\ sh s = K10;
    j_hs : existsb w_hs (sw s) = true -> in_handshake (sh s) = false;
    j_m2 : existsb o_m2 (so s) = true -> sh s <> K4 /\ a_m2 (sa s) = false;
    j_w4 : existsb w_writes (sw s) = true -> existsb o_reads (so s) = false /\ sh s <> K3 /\ sh s <> K4;
    j_h8 : sh s = K8 -> existsb o_reads (so s) = false /\ existsb w_mux (sw s) = false;
    j_h7 : sh s = K7 -> existsb w_mux (sw s) = false;
    j_late : existsb o_late (so s) = true -> sa s <> ANone;
    j_val : existsb is_early (sw s) = false ->
       (forall v, sa s = A2 v -> v = final) /\ (sa s = A3 \/ sa s = A4 -> recorded s = final) /\ (recorded s = 0 \/ recorded s = final) /\ forallb (w_value final) (sw s) = true /\
       (sh s <> K10 -> recorded s = 0) /\ (before_spawn (sh s) = false -> sa s <> ANone) /\ forallb (o_fresh final) (so s) = true;
    j_late_w : sh s <> K10 -> forallb (fun w => match w with W0 => true | _ => is_early w end) (sw s) = true;
    j_a2 : (exists v, sa s = A2 v) \/ sa s = A3 \/ sa s = A4 -> sh s = K10 }.
Lemma existsb_repeat : forall A (f : A -> bool) x n, f x = false -> existsb f (repeat x n) = false.
Proof. intros A f x n H. induction n as [|n IH]; [reflexivity|]. cbn. now rewrite H, IH. Qed.
Lemma forallb_repeat : forall A (f : A -> bool) x n, f x = true -> forallb f (repeat x n) = true.
Proof. intros A f x n H. induction n as [|n IH]; [reflexivity|]. cbn. now rewrite H, IH. Qed.
Lemma inv_init : forall final n m, inv final (init n m).
Proof.
  intros final n m. constructor; cbn [init sh sa so sw result recorded]; rewrite ?existsb_repeat by reflexivity; rewrite ?forallb_repeat by reflexivity; try discriminate; try reflexivity.
  - intros _. repeat split; try discriminate; auto. intros [X|X]; discriminate.
  - intros [[v X]|[X|X]]; discriminate.
Qed.
Lemma forallb_mid : forall A (f : A -> bool) l x r, forallb f (l ++ x :: r) = f x && forallb f (l ++ r).
Proof. intros A f l x r. rewrite !forallb_app. cbn. destruct (forallb f l), (f x); reflexivity. Qed.
Ltac un := unfold hs_taken, m2_taken, readers, writer in *; cbn [set_h set_a set_o set_w record sh sa so sw result recorded] in *.
Ltac orb_all := repeat match goal with H : _ || _ = false |- _ => apply orb_false_iff in H; destruct H end.
Ltac bools := repeat match goal with |- context [existsb ?f ?l] => let b := fresh "b" in set (b := existsb f l) in *; clearbody b | H : context [existsb ?f ?l] |- _ => let b := fresh "b" in set (b := existsb f l) in *; clearbody b end;
  repeat match goal with |- context [forallb ?f ?l] => let b := fresh "b" in set (b := forallb f l) in *; clearbody b | H : context [forallb ?f ?l] |- _ => let b := fresh "b" in set (b := forallb f l) in *; clearbody b end.
Ltac fin := try discriminate; try reflexivity; try tauto; try (intuition (try congruence; try discriminate)).
Lemma existsb_impl : forall A (f g : A -> bool) l, (forall x, f x = true -> g x = true) -> existsb g l = false -> existsb f l = false.
Proof. intros A f g l H. induction l as [|x l IH]; [reflexivity|]. cbn. intros E. apply orb_false_iff in E. destruct E as [E1 E2]. rewrite (IH E2), orb_false_r. destruct (f x) eqn:Ef; [|reflexivity]. rewrite (H x Ef) in E1. discriminate. Qed.
Lemma inv_step : forall final s s', inv final s -> step final s s' -> inv final s'.
Proof.
  intros final s s' I Hs. destruct I as [J1 J2 J3 J4 J5 J6 J7 J8 J9 J10 J11 J12]. destruct s as [h a os ws rs rc].
  assert (WM: existsb w_mux ws = false -> existsb w_writes ws = false) by (apply existsb_impl; intros []; cbn; congruence).
  destruct Hs as [s' Hh|s' Ha|l r o o' El Ho|l r w w' v El Hw].
  - cbn [sh] in Hh. inversion Hh; clear Hh; un; orb_all; subst; cbn [before_spawn in_handshake] in *; try match goal with |- context [rc =? 0] => destruct (Nat.eqb_spec rc 0) end; constructor; un; cbn [before_spawn in_handshake]; intros; bools.
    all: try solve [fin].
    all: try match goal with H : (exists v, _) \/ _ |- _ => destruct H as [[? ?]|[?|?]] end.
    all: try solve [fin].
  - cbn [sa] in Ha. un.
    assert (Eh: h = K10). { inversion Ha; un; orb_all; subst; [destruct h; cbn in *; try discriminate; try reflexivity; specialize (J1 eq_refl); discriminate|apply J3; reflexivity|apply J12; left; eexists; reflexivity|apply J12; auto]. }
    subst h. inversion Ha; clear Ha; un; orb_all; subst; cbn [before_spawn in_handshake] in *; constructor; un; cbn [before_spawn in_handshake]; intros; bools.
    all: try solve [fin].
    all: destruct J10 as (V1 & V2 & V3 & V4 & V5 & V6 & V7); [assumption|]; pose proof (V1 v eq_refl); subst v; repeat split; auto; try discriminate; intros; congruence.
  - un. subst os. rewrite ?existsb_mid, ?forallb_mid in *.
    inversion Ho; clear Ho; un; orb_all; subst; constructor; un; intros; rewrite ?existsb_mid, ?forallb_mid in *; cbn [o_reads o_m2 o_late o_fresh orb andb] in *; bools.
    all: try solve [fin].
    + subst h. discriminate.
    + match goal with X : late _ || _ = true |- _ => unfold late in X; cbn [sa] in X; destruct a; try discriminate; apply J9; exact X end.
    + split; [intros ->; discriminate|]. destruct a; reflexivity || discriminate.
    + destruct J10 as (V1 & V2 & V3 & V4 & V5 & V6 & V7); [assumption|]. repeat split; auto. rewrite V7. destruct b; [|reflexivity]. destruct (J5 eq_refl) as [_ X]. pose proof (J9 eq_refl) as Y. destruct a; try discriminate; [congruence|]. rewrite (V2 (or_intror eq_refl)). now rewrite Nat.eqb_refl.
  - un. subst ws. rewrite ?existsb_mid, ?forallb_mid in *.
    inversion Hw; clear Hw; un; orb_all; subst; constructor; un; intros; rewrite ?existsb_mid, ?forallb_mid in *; cbn [w_hs w_mux w_writes is_early w_value orb andb] in *; bools.
    all: try solve [fin].
    + subst a. discriminate.
    + orb_all. destruct J10 as (V1 & V2 & V3 & V4 & V5 & V6 & V7); [assumption|]. repeat split; auto.
    + unfold h_done. cbn [sh]. rewrite J11 by assumption. destruct h; try reflexivity. congruence.
    + destruct J10 as (V1 & V2 & V3 & V4 & V5 & V6 & V7); [assumption|]. orb_all. match goal with X : b = false |- _ => rewrite X in * end. repeat split; auto. rewrite V4. destruct h; try (specialize (J11 ltac:(discriminate)); discriminate). now rewrite Nat.eqb_refl.
    + subst h. discriminate.
    + subst h. discriminate.
    + split; [assumption|]. split; intros ->; discriminate.
    + destruct J10 as (V1 & V2 & V3 & V4 & V5 & V6 & V7); [assumption|]. orb_all. match goal with X : b = false |- _ => rewrite X in * end. apply andb_true_iff in V4. destruct V4 as [V4 V4']. apply Nat.eqb_eq in V4. subst v. assert (h = K10) by (destruct h; try reflexivity; specialize (J11 ltac:(discriminate)); discriminate). repeat split; auto. intros; congruence.
Qed.


Lemma inv_reach : forall final n m s, reach final n m s -> inv final s.
Proof. intros final n m s R. induction R as [|s s' R IH Hs]; [apply inv_init|exact (inv_step _ _ _ IH Hs)]. Qed.
Lemma ex_in : forall A (f : A -> bool) l, existsb f l = true -> exists l1 x l2, l = l1 ++ x :: l2 /\ f x = true.
Proof. intros A f l H. apply existsb_exists in H. destruct H as (x & Hi & Hx). apply in_split in Hi. destruct Hi as (l1 & l2 & ->). exists l1, x, l2. auto. Qed.
Lemma in_ex : forall A (f : A -> bool) l x, In x l -> f x = true -> existsb f l = true.
Proof. intros A f l x Hi Hx. apply existsb_exists. eauto. Qed.

(* a thread that reads the TLS state reads it while nobody writes it *)
Theorem C82_readers_safe : forall final n m s b, reach final n m s -> In (O2 b) (so s) -> (forall v, sa s <> A2 v) /\ (forall e v, ~ In (W4 e v) (sw s)).
Proof.
  intros final n m s b R Hi. pose proof (inv_reach _ _ _ _ R) as I. split.
  - intros v E. destruct (j_m2 _ _ I) as [_ X]; [exact (in_ex _ _ _ _ Hi eq_refl)|]. rewrite E in X. discriminate.
  - intros e v Hw. destruct (j_w4 _ _ I) as [X _]; [exact (in_ex _ _ _ _ Hw eq_refl)|]. rewrite (in_ex _ o_reads _ _ Hi eq_refl) in X. discriminate.
Qed.
Print Assumptions C82_readers_safe.
(* unless the state of the session was looked up before the handshake was over, who asks for the TLS state after the handshake started gets that of the completed session *)
Theorem C82_final : forall final n m s v, reach final n m s ->
  (forall w, In w (sw s) -> is_early w = false) -> In (O3 true v) (so s) -> v = final.
Proof.
  intros final n m s v R He Hi. pose proof (inv_reach _ _ _ _ R) as I.
  assert (E: existsb is_early (sw s) = false). { destruct (existsb is_early (sw s)) eqn:X; [|reflexivity]. apply existsb_exists in X. destruct X as (w & Hw & Ew). rewrite (He w Hw) in Ew. discriminate. }
  destruct (j_val _ _ I E) as (_ & _ & _ & _ & _ & _ & V). rewrite forallb_forall in V. specialize (V _ Hi). now apply Nat.eqb_eq in V.
Qed.
Print Assumptions C82_final.
(* and nobody ever gets anything but nothing or that state *)
Theorem C82_nothing_else : forall final n m s b v, reach final n m s -> In (O3 b v) (so s) -> v = 0 \/ v = final.
Proof.
  intros final n m s b v R.
  assert (P: (result s = 0 \/ result s = final) /\ (recorded s = 0 \/ recorded s = final) /\ (forall v, sa s = A2 v -> v = 0 \/ v = final)
     /\ Forall (fun w => match w with W2 _ v | W3 _ v | W4 _ v => v = 0 \/ v = final | _ => True end) (sw s) /\ Forall (fun o => match o with O3 _ v => v = 0 \/ v = final | _ => True end) (so s)).
  { clear v. induction R as [|s s' R IH Hs].
    - cbn. repeat split; auto; try discriminate; apply Forall_forall; intros x Hx; apply repeat_spec in Hx; subst; exact I.
    - destruct IH as (P1 & P2 & P3 & P4 & P5). destruct Hs as [s' Hh|s' Ha|l r o o' El Ho|l r w w' v El Hw].
      + inversion Hh; un; repeat split; auto; try discriminate; destruct (recorded s =? 0); cbn; auto.
      + inversion Ha; un; repeat split; auto; try discriminate. intros v E. injection E as <-. exact P1. 
      + un. rewrite El in P5. apply Forall_app in P5. destruct P5 as [Q1 Q2]. repeat split; auto. apply Forall_app. split; [exact Q1|]. inversion Q2; subst. constructor; [|assumption]. inversion Ho; subst; auto.
      + un. rewrite El in P4. apply Forall_app in P4. destruct P4 as [Q1 Q2]. inversion Q2 as [|? ? Q3 Q4]; subst. repeat split; auto.
        * inversion Hw; subst; auto.
        * apply Forall_app. split; [exact Q1|]. constructor; [|assumption]. inversion Hw; subst; auto. }
  intros Hi. destruct P as (_ & _ & _ & _ & P). rewrite Forall_forall in P. exact (P _ Hi).
Qed.
Print Assumptions C82_nothing_else.

(* every run ends *)
Definition h_rank (h : hpc) : nat := match h with K0 => 10 | K1 => 9 | K2 => 8 | K3 => 7 | K4 => 6 | K5 => 5 | K6 => 4 | K7 => 3 | K8 => 2 | K9 => 1 | K10 => 0 end.
Definition a_rank (a : apc) : nat := match a with ANone => 4 | A0 => 4 | A1 => 3 | A2 _ => 2 | A3 => 1 | A4 => 0 end.
Definition o_rank (o : opc) : nat := match o with O0 => 3 | O1 _ => 2 | O2 _ => 1 | O3 _ _ => 0 end.
Definition w_rank (w : wpc) : nat := match w with W0 => 5 | W1 _ => 4 | W2 _ _ => 3 | W3 _ _ => 2 | W4 _ _ => 1 | W5 _ => 0 end.
Definition rank (s : sys) : nat := h_rank (sh s) + a_rank (sa s) + list_sum (map o_rank (so s)) + list_sum (map w_rank (sw s)).
Theorem C82_ends : forall final n m s s', reach final n m s -> step final s s' -> rank s' < rank s.
Proof.
  intros final n m s s' R Hs. pose proof (inv_reach _ _ _ _ R) as I. unfold rank. destruct Hs as [s' Hh|s' Ha|l r o o' El Ho|l r w w' v El Hw].
  - inversion Hh; un; cbn; try lia.
    + destruct (recorded s =? 0); cbn; lia.
    + rewrite (j_spawn _ _ I) by (match goal with X : _ = sh s |- _ => now rewrite <- X end). cbn. lia.
  - inversion Ha; un; cbn; lia.
  - un. rewrite El, !map_app, !list_sum_app. cbn. inversion Ho; subst; cbn; lia.
  - un. rewrite El, !map_app, !list_sum_app. cbn. inversion Hw; subst; cbn; lia.
Qed.
Print Assumptions C82_ends.
(* the only way to get stuck: the goroutine that waits for the handshake holds mux2, a reader waits for it, and the handshake waits for the reader *)
Definition finished (s : sys) : Prop :=
  sh s = K10 /\ (sa s = ANone \/ sa s = A4) /\ (forall o, In o (so s) -> exists b v, o = O3 b v) /\ (forall w, In w (sw s) -> exists b, w = W5 b).
Theorem C82_stuck : forall final n m s, reach final n m s -> ~ finished s -> (forall s', ~ step final s s') ->
  sa s = A0 /\ (sh s = K7 \/ sh s = K6) /\ exists b, In (O1 b) (so s).
Proof.
  intros final n m s R Hf Hn. pose proof (inv_reach _ _ _ _ R) as I.
  assert (W1n: existsb w_hs (sw s) = false). { destruct (existsb w_hs (sw s)) eqn:X; [|reflexivity]. exfalso. apply ex_in in X. destruct X as (l & w & r & E & F). destruct w; try discriminate F. eapply Hn, SW; [exact E|constructor]. }
  assert (O2n: existsb o_m2 (so s) = false). { destruct (existsb o_m2 (so s)) eqn:X; [|reflexivity]. exfalso. apply ex_in in X. destruct X as (l & w & r & E & F). destruct w; try discriminate F. eapply Hn, SO; [exact E|constructor]. }
  assert (W4n: existsb w_writes (sw s) = false). { destruct (existsb w_writes (sw s)) eqn:X; [|reflexivity]. exfalso. apply ex_in in X. destruct X as (l & w & r & E & F). destruct w; try discriminate F. eapply Hn, SW; [exact E|constructor]. }
  assert (An: sa s = ANone \/ sa s = A0 \/ sa s = A4). { destruct (sa s) eqn:E; auto; exfalso; eapply Hn, SA; rewrite E; constructor. }
  assert (Hs0: sh s <> K1 /\ sh s <> K4 /\ sh s <> K8 /\ sh s <> K9). { repeat split; intros E; eapply Hn, SH; rewrite E; constructor. }
  destruct Hs0 as (N1 & N4 & N8 & N9).
  (* a thread that waits for readers: there is one *)
  assert (Rd: forall w, In w (sw s) -> w_mux w = true -> readers s = true). { intros w Hi Hw. destruct (readers s) eqn:X; [reflexivity|]. exfalso. apply in_split in Hi. destruct Hi as (l & r & E). destruct w; try discriminate Hw; eapply Hn, SW; try exact E; constructor; exact X. }
  destruct (existsb o_reads (so s)) eqn:Eo.
  - apply ex_in in Eo. destruct Eo as (l & o & r & E & F). destruct o as [|b|b|b v]; try discriminate F.
    2: { rewrite E, existsb_mid in O2n. discriminate. }
    destruct (m2_taken s) eqn:M2; [|exfalso; eapply Hn, SO; [exact E|constructor; exact M2]].
    unfold m2_taken in M2. rewrite O2n in M2. cbn [orb] in M2. 
    assert (EA: sa s = A0). { destruct (sh s); try congruence; destruct An as [An|[An|An]]; rewrite An in M2; try discriminate; exact An. }
    split; [exact EA|]. split; [|exists b; rewrite E; apply in_or_app; right; left; reflexivity].
    destruct (hs_taken s) eqn:HT; [|exfalso; eapply Hn, SA; rewrite EA; constructor; exact HT].
    pose proof (j_spawn _ _ I) as JS. destruct (sh s) eqn:Eh; try congruence; auto; try (specialize (JS eq_refl); congruence).
    unfold hs_taken in HT. rewrite W1n, Eh, EA in HT. discriminate.
  - exfalso. assert (Hm: sh s = K3 \/ existsb w_mux (sw s) = false). { destruct (existsb w_mux (sw s)) eqn:X; [|auto]. left. apply ex_in in X. destruct X as (l & w & r & E & F). assert (Y: readers s = true) by (apply (Rd w); [rewrite E; apply in_or_app; right; left; reflexivity|exact F]). unfold readers in Y. rewrite Eo in Y. destruct (sh s); cbn in Y; congruence. }
    pose proof (j_spawn _ _ I) as JS.
    assert (M3: sh s = K3 -> m2_taken s = false) by (intros E; unfold m2_taken; rewrite O2n, E, JS by (now rewrite E); reflexivity).
    destruct Hm as [E|Wm]; [eapply Hn, SH; rewrite E; constructor; now apply M3|].
    destruct (sh s) eqn:Eh; try congruence.
    + eapply Hn, SH. rewrite Eh. constructor. unfold hs_taken. now rewrite W1n, Eh, JS.
    + eapply Hn, SH. rewrite Eh. constructor. unfold writer. now rewrite Wm, Eh.
    + eapply Hn, SH. rewrite Eh. constructor. now apply M3.
    + eapply Hn, SH. rewrite Eh. constructor. unfold m2_taken. now rewrite O2n, Eh, JS.
    + eapply Hn, SH. rewrite Eh. constructor. unfold writer. now rewrite Wm, Eh.
    + eapply Hn, SH. rewrite Eh. constructor. unfold readers. now rewrite Eo, Eh.
    + (* the handshake is over *)
      assert (An': sa s = ANone \/ sa s = A4). { destruct An as [A|[A|A]]; auto. exfalso. eapply Hn, SA. rewrite A. constructor. unfold hs_taken. now rewrite W1n, Eh, A. }
      apply Hf. split; [exact Eh|]. split; [exact An'|]. split.
      * intros o Hi. destruct o as [|b|b|b v]; [|exfalso; rewrite (in_ex _ o_reads _ _ Hi eq_refl) in Eo; discriminate|exfalso; rewrite (in_ex _ o_reads _ _ Hi eq_refl) in Eo; discriminate|eauto].
        exfalso. apply in_split in Hi. destruct Hi as (l & r & E). eapply Hn, SO; [exact E|]. constructor. unfold writer. now rewrite Wm, Eh.
      * intros w Hi. destruct w as [|b|b v|b v|b v|b]; [| | | | |eauto]; exfalso.
        -- apply in_split in Hi. destruct Hi as (l & r & E). eapply Hn, SW; [exact E|]. constructor. unfold hs_taken. rewrite W1n, Eh. destruct An' as [X|X]; rewrite X; reflexivity.
        -- rewrite (in_ex _ w_hs _ _ Hi eq_refl) in W1n. discriminate.
        -- apply in_split in Hi. destruct Hi as (l & r & E). eapply Hn, SW; [exact E|]. constructor. unfold writer. now rewrite Wm, Eh.
        -- rewrite (in_ex _ w_mux _ _ Hi eq_refl) in Wm. discriminate.
        -- rewrite (in_ex _ w_mux _ _ Hi eq_refl) in Wm. discriminate.
Qed.
Print Assumptions C82_stuck.

Lemma finished_dec : forall s, finished s \/ ~ finished s.
Proof.
  intros s. unfold finished. destruct (sh s) eqn:E1; try (right; intros (X & _); discriminate).
  assert (D2: (sa s = ANone \/ sa s = A4) \/ ~ (sa s = ANone \/ sa s = A4)) by (destruct (sa s); auto; right; intros [X|X]; discriminate). destruct D2 as [D2|D2]; [|right; intros (_ & X & _); exact (D2 X)].
  destruct (existsb (fun o => match o with O3 _ _ => false | _ => true end) (so s)) eqn:E3.
  { right. intros (_ & _ & X & _). apply existsb_exists in E3. destruct E3 as (o & Hi & Ho). destruct (X o Hi) as (b & v & ->). discriminate. }
  destruct (existsb (fun w => match w with W5 _ => false | _ => true end) (sw s)) eqn:E4.
  { right. intros (_ & _ & _ & X). apply existsb_exists in E4. destruct E4 as (o & Hi & Ho). destruct (X o Hi) as (b & ->). discriminate. }
  left. repeat split; auto.
  - intros o Hi. destruct o as [|b|b|b v]; eauto; rewrite (in_ex _ (fun o => match o with O3 _ _ => false | _ => true end) _ _ Hi eq_refl) in E3; discriminate.
  - intros w Hi. destruct w as [|b|b v|b v|b v|b]; eauto; rewrite (in_ex _ (fun w => match w with W5 _ => false | _ => true end) _ _ Hi eq_refl) in E4; discriminate.
Qed.
(* so while nobody asks for the TLS state during the handshake nothing gets stuck, and once the handshake is over nothing does either *)
Theorem C82_progress : forall final n m s, reach final n m s -> (forall b, In (O1 b) (so s) -> sh s = K10) -> finished s \/ ~ (forall s', ~ step final s s').
Proof.
  intros final n m s R Hc. destruct (finished_dec s) as [Hf|Hf]; [left; exact Hf|]. right. intros Hn.
  destruct (C82_stuck _ _ _ _ R Hf Hn) as (_ & [E|E] & b & Hi); rewrite (Hc b Hi) in E; discriminate.
Qed.
Print Assumptions C82_progress.
Lemma at7 : forall final m, m = 0 -> reach final 1 m (mks K6 A0 [O0] [] 0 0).
Proof.
  intros final m ->. pose proof (RInit final 1 0) as R. cbn [init repeat] in R.
  pose proof (RNext _ _ _ _ _ R (SH final _ _ (HS0 final (mks K0 ANone [O0] [] 0 0) eq_refl))) as R1. cbn in R1.
  pose proof (RNext _ _ _ _ _ R1 (SH final _ _ (HS1 final (mks K1 ANone [O0] [] 0 0)))) as R2. cbn in R2.
  pose proof (RNext _ _ _ _ _ R2 (SH final _ _ (HS2 final (mks K2 ANone [O0] [] 0 0) eq_refl))) as R3. cbn in R3.
  pose proof (RNext _ _ _ _ _ R3 (SH final _ _ (HS3 final (mks K3 ANone [O0] [] 0 0) eq_refl))) as R4. cbn in R4.
  pose proof (RNext _ _ _ _ _ R4 (SH final _ _ (HS4 final (mks K4 ANone [O0] [] 0 0)))) as R5. cbn in R5.
  exact (RNext _ _ _ _ _ R5 (SH final _ _ (HS5 final (mks K5 ANone [O0] [] 0 0) eq_refl))).
Qed.
(* one reader during the handshake is enough: nobody goes on *)
Theorem C82_deadlock_refuted : forall final, exists s, reach final 1 0 s /\ sh s = K7 /\ so s = [O1 true] /\ (forall s', ~ step final s s').
Proof.
  intros final. exists (mks K7 A0 [O1 true] [] 0 0). split; [|split; [reflexivity|split; [reflexivity|]]].
  - pose proof (RNext _ _ _ _ _ (at7 final 0 eq_refl) (SO final (mks K6 A0 [O0] [] 0 0) [] [] O0 (O1 true) eq_refl (OS0 (mks K6 A0 [O0] [] 0 0) eq_refl))) as R. cbn in R.
    exact (RNext _ _ _ _ _ R (SH final _ _ (HS6 final (mks K6 A0 [O1 true] [] 0 0) eq_refl))).
  - intros s' Hs. inversion Hs as [? Hh|? Ha|l r o o' El Ho|l r w w' v El Hw]; subst.
    + cbn [sh] in Hh. inversion Hh; discriminate.
    + cbn [sa] in Ha. inversion Ha; discriminate.
    + cbn [so] in El. destruct l as [|x l]; [|destruct l; discriminate]. injection El as <- <-. inversion Ho; discriminate.
    + cbn [sw] in El. destruct l; discriminate.
Qed.
Print Assumptions C82_deadlock_refuted.
(* a run of one reader of the state and one lookup of the state, and an executable account of it *)
Definition hnext (final : nat) (s : sys) : sys :=
  match sh s with
  | K0 => set_h s K1 | K1 => set_h s K2 | K2 => set_h s K3 | K3 => set_h s K4 | K4 => set_h s (if recorded s =? 0 then K5 else K6)
  | K5 => set_a (set_h s K6) A0 | K6 => set_h s K7 | K7 => set_h s K8 | K8 => set_h s K9 | K9 => mks K10 (sa s) (so s) (sw s) final (recorded s) | K10 => s end.
Definition hcan (s : sys) : bool :=
  match sh s with K0 => negb (hs_taken s) | K2 | K6 => negb (writer s) | K3 | K5 => negb (m2_taken s) | K7 => negb (readers s) | K10 => false | _ => true end.
Lemma hnext_ok : forall final s, hcan s = true -> step final s (hnext final s).
Proof.
  intros final s H. apply SH. unfold hcan in H. unfold hnext. destruct (sh s); try discriminate; constructor; rewrite ?negb_true_iff in H; exact H.
Qed.
Definition anext (s : sys) : sys := match sa s with A0 => set_a s A1 | A1 => set_a s (A2 (result s)) | A2 v => set_a (record s v) A3 | A3 => set_a s A4 | _ => s end.
Definition acan (s : sys) : bool := match sa s with A0 => negb (hs_taken s) | ANone | A4 => false | _ => true end.
Lemma anext_ok : forall final s, acan s = true -> step final s (anext s).
Proof. intros final s H. apply SA. unfold acan in H. unfold anext. destruct (sa s); try discriminate; constructor; rewrite ?negb_true_iff in H; exact H. Qed.
Definition onext (s : sys) : sys := match so s with o :: r => set_o s ((match o with O0 => O1 (late s) | O1 b => O2 b | O2 b => O3 b (recorded s) | x => x end) :: r) | [] => s end.
Definition ocan (s : sys) : bool := match so s with O0 :: _ => negb (writer s) | O1 _ :: _ => negb (m2_taken s) | O2 _ :: _ => true | _ => false end.
Lemma onext_ok : forall final s, ocan s = true -> step final s (onext s).
Proof.
  intros final s H. unfold ocan in H. unfold onext. destruct (so s) as [|o r] eqn:E; [discriminate|]. apply (SO final s [] r o _ E).
  destruct o; try discriminate; constructor; rewrite ?negb_true_iff in H; exact H.
Qed.
Definition wnext (s : sys) : sys :=
  match sw s with
  | w :: r => record (set_w s ((match w with W0 => W1 (negb (h_done s)) | W1 b => W2 b (result s) | W2 b v => W3 b v | W3 b v => W4 b v | W4 b _ => W5 b | x => x end) :: r)) (match w with W4 _ v => v | _ => recorded s end)
  | [] => s end.
Definition wcan (s : sys) : bool := match sw s with W0 :: _ => negb (hs_taken s) | W2 _ _ :: _ => negb (writer s) | W3 _ _ :: _ => negb (readers s) | W1 _ :: _ | W4 _ _ :: _ => true | _ => false end.
Lemma wnext_ok : forall final s, wcan s = true -> step final s (wnext s).
Proof.
  intros final s H. unfold wcan in H. unfold wnext. destruct (sw s) as [|w r] eqn:E; [discriminate|]. apply (SW final s [] r w _ _ E).
  destruct w; try discriminate; constructor; rewrite ?negb_true_iff in H; exact H.
Qed.
Inductive who := TH | TA | TO | TW.
Definition can (t : who) (s : sys) : bool := match t with TH => hcan s | TA => acan s | TO => ocan s | TW => wcan s end.
Definition nxt (final : nat) (t : who) (s : sys) : sys := match t with TH => hnext final s | TA => anext s | TO => onext s | TW => wnext s end.
Fixpoint sched (final : nat) (ts : list who) (s : sys) : option sys := match ts with [] => Some s | t :: r => if can t s then sched final r (nxt final t s) else None end.
Lemma sched_reach : forall final n m ts s s', reach final n m s -> sched final ts s = Some s' -> reach final n m s'.
Proof.
  intros final n m ts. induction ts as [|t ts IH]; intros s s' R E; [injection E as <-; exact R|]. cbn in E. destruct (can t s) eqn:C; [|discriminate].
  apply (IH _ _ (RNext _ _ _ _ _ R (match t as t0 return can t0 s = true -> step final s (nxt final t0 s) with TH => hnext_ok final s | TA => anext_ok final s | TO => onext_ok final s | TW => wnext_ok final s end C)) E).
Qed.
(* a lookup of the state that reads the session before the handshake can put the empty state over the final one: readers get none, for good *)
Theorem C82_stale_refuted : forall final, final <> 0 -> exists s, reach final 1 1 s /\ finished s /\ so s = [O3 true 0] /\ recorded s = 0.
Proof.
  intros final Hf. exists (mks K10 A4 [O3 true 0] [W5 true] final 0). split; [|split; [|split; reflexivity]].
  - refine (sched_reach final 1 1 ([TW; TW] ++ repeat TH 10 ++ repeat TA 4 ++ [TW; TW; TW] ++ [TO; TO; TO]) (init 1 1) _ (RInit _ _ _) _). reflexivity.
  - repeat split; auto; cbn; intros x [<-|[]]; eauto.
Qed.
Print Assumptions C82_stale_refuted.
(* two threads write it at a time *)
Theorem C82_race_refuted : forall final, exists s, reach final 0 1 s /\ sa s = A2 final /\ sw s = [W4 false final].
Proof.
  intros final. exists (mks K10 (A2 final) [] [W4 false final] final 0). split; [|split; reflexivity].
  refine (sched_reach final 0 1 (repeat TH 10 ++ [TW; TW; TA; TA; TW; TW]) (init 0 1) _ (RInit _ _ _) _). reflexivity.
Qed.
Print Assumptions C82_race_refuted.
(* the usual course: reader and lookup after the handshake; both get the final state *)
Example C82_example : exists s, reach 7 2 1 s /\ finished s /\ so s = [O3 true 7; O3 true 7] /\ recorded s = 7.
Proof.
  exists (mks K10 A4 [O3 true 7; O3 true 7] [W5 false] 7 7). split; [|split; [|split; reflexivity]].
  - assert (R1: reach 7 2 1 (mks K10 A4 [O3 true 7; O0] [W5 false] 7 7)) by (refine (sched_reach 7 2 1 (repeat TH 10 ++ repeat TA 4 ++ repeat TW 5 ++ repeat TO 3) (init 2 1) _ (RInit _ _ _) _); reflexivity).
    pose proof (RNext _ _ _ _ _ R1 (SO 7 (mks K10 A4 [O3 true 7; O0] [W5 false] 7 7) [O3 true 7] [] O0 (O1 true) eq_refl (OS0 (mks K10 A4 [O3 true 7; O0] [W5 false] 7 7) eq_refl))) as R2. cbn in R2.
    pose proof (RNext _ _ _ _ _ R2 (SO 7 (mks K10 A4 [O3 true 7; O1 true] [W5 false] 7 7) [O3 true 7] [] (O1 true) (O2 true) eq_refl (OS1 (mks K10 A4 [O3 true 7; O1 true] [W5 false] 7 7) true eq_refl))) as R3. cbn in R3.
    exact (RNext _ _ _ _ _ R3 (SO 7 (mks K10 A4 [O3 true 7; O2 true] [W5 false] 7 7) [O3 true 7] [] (O2 true) (O3 true 7) eq_refl (OS2 (mks K10 A4 [O3 true 7; O2 true] [W5 false] 7 7) true))).
  - repeat split; auto; cbn; intros x Hx; repeat destruct Hx as [<-|Hx]; try destruct Hx; eauto.
Qed.
