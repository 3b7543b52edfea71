(* C69: inbound servers enforce the listener properties that the control plane sends. *)
From Coq Require Import List String Bool Arith Lia ZArith.
From Verif Require Import M_GoMap L_GoMap M_AdsProps M_Dial P_Dial M_Serve M_Net P_Net.
Import ListNotations.
Open Scope nat_scope.
Open Scope string_scope.

(* ---- specification ---- *)
(* the last response, and the last usable one, that arrived for an address *)
Fixpoint last_resp (a : string) (ls : list slabel) : option lresp :=
  match ls with
  | [] => None
  | l :: r => match last_resp a r with Some x => Some x | None => match l with SDeliver b x => if String.eqb b a then Some x else None | _ => None end end
  end.
Fixpoint last_props (a : string) (ls : list slabel) : option lprops :=
  match ls with
  | [] => None
  | l :: r => match last_props a r with Some x => Some x | None => match l with SDeliver b (LRProps p) => if String.eqb b a then Some p else None | _ => None end end
  end.
(* what a listener with properties p must enforce *)
Definition enforces (e : enforced) (p : lprops) : Prop :=
  (lp_tls p = false -> en_mode e = "DISABLED") /\ (lp_tls p = true -> lp_permissive p = true -> en_mode e = "PERMISSIVE") /\
  (lp_tls p = true -> lp_permissive p = false -> en_mode e = "STRICT") /\ en_require e = lp_require p /\ en_verifier e = Some (lp_verifier p).

(* ---- invariant ---- *)
Definition track1 (j : nat) (a : string) (u : option enforced) (l : slabel) : option enforced :=
  match l with
  | SListen k => if Nat.eqb k j then Some initial else u
  | SDeliver b (LRProps p) => if String.eqb b a then match u with Some _ => Some (apply_props p) | None => None end else u
  | _ => u
  end.
Definition track (j : nat) (a : string) (ls : list slabel) : option enforced := fold_left (track1 j a) ls None.
Lemma track_app : forall j a ls l, track j a (ls ++ [l]) = track1 j a (track j a ls) l.
Proof. intros. unfold track. now rewrite fold_left_app. Qed.
Lemma last_resp_app : forall a ls l, last_resp a (ls ++ [l]) = match l with SDeliver b x => if String.eqb b a then Some x else last_resp a ls | _ => last_resp a ls end.
Proof.
  intros a ls l. induction ls as [|y ls IH]; cbn [last_resp app].
  - destruct l; try reflexivity.
  - rewrite IH. destruct l; try reflexivity. destruct (String.eqb a0 a); reflexivity.
Qed.
Record svinv (ls : list slabel) (w : world) : Prop := {
  sv_listen : forall j, In (SListen j) ls -> j < List.length (w_servers w);
  sv_owner : forall a e j, mget a (w_entries w) = Some e -> en_watcher e = Some j -> exists s, nth_error (w_servers w) j = Some s /\ sv_addr s = a /\ sv_watched s = true;
  sv_resp : forall a, reported w a = last_resp a ls;
  sv_track : forall j s, nth_error (w_servers w) j = Some s -> (mget (sv_addr s) (w_entries w) = None \/ exists e, mget (sv_addr s) (w_entries w) = Some e /\ en_watcher e = Some j) ->
    sv_ul s = track j (sv_addr s) ls }.
Lemma track_none : forall j a ls, ~ In (SListen j) ls -> track j a ls = None.
Proof.
  intros j a ls. unfold track. induction ls as [|l ls IH] using rev_ind; intros H; [reflexivity|]. rewrite fold_left_app. cbn [fold_left]. rewrite IH; [|intros K; apply H; apply in_or_app; now left].
  destruct l as [| k | | b [|p] | |]; cbn; try reflexivity; [|now destruct (String.eqb b a)]. destruct (Nat.eqb_spec k j) as [->|]; [|reflexivity]. exfalso. apply H. apply in_or_app. right. now left.
Qed.
Lemma svinv_new : svinv [] new_world.
Proof. split; cbn; try discriminate; [intros j []|reflexivity|intros [|?]; discriminate]. Qed.
Lemma reported_set : forall sv m a e c b, reported (mkw sv (mset a e m) c) b = if String.eqb b a then en_resp e else match mget b m with Some x => en_resp x | None => None end.
Proof. intros. unfold reported. cbn [w_entries]. rewrite mget_mset. destruct (String.eqb b a); reflexivity. Qed.
Lemma svinv_step : forall ls w l w', svinv ls w -> sstep w l w' -> svinv (ls ++ [l]) w'.
Proof.
  intros ls w l w' [V1 V2 V3 V4] Hs.
  destruct Hs as [w a ctx|w j s Hj Hu|w j s e ok Hj Hw He|w j s ok Hj Hw He|w a r e j s He Ho Hj|w ctx|w a e j s He Ho Hj Hc].
  - split; cbn [w_servers w_entries].
    + intros j Hi. rewrite app_length. apply in_app_or in Hi. destruct Hi as [Hi|[Hi|[]]]; [|discriminate]. specialize (V1 j Hi). lia.
    + intros b e j H1 H2. destruct (V2 b e j H1 H2) as (s & A & B). exists s. split; [now apply nth_app_l|assumption].
    + intros b. rewrite last_resp_app. exact (V3 b).
    + intros j s Hj Ho. rewrite track_app. cbn [track1]. destruct (Nat.lt_ge_cases j (List.length (w_servers w))) as [L|L].
      * rewrite nth_error_app1 in Hj by assumption. now apply V4.
      * rewrite nth_error_app2 in Hj by assumption. destruct (j - List.length (w_servers w)) as [|n]; [|destruct n; discriminate]. injection Hj as <-. cbn. symmetry. apply track_none. intros K. specialize (V1 j K). lia.
  - split; cbn [w_servers w_entries upd_server].
    + intros k Hi. rewrite setnth_len. apply in_app_or in Hi. destruct Hi as [Hi|[Hi|[]]]; [now apply V1|]. injection Hi as <-. apply nth_error_Some. congruence.
    + intros b e k H1 H2. destruct (V2 b e k H1 H2) as (x & A & B & C). rewrite setnth_get. destruct (Nat.eqb_spec j k) as [<-|Hn]; [|eauto]. rewrite A. exists (set_ul s initial). rewrite Hj in A. injection A as <-. cbn. auto.
    + intros b. rewrite last_resp_app. exact (V3 b).
    + intros k x Hk Ho. rewrite track_app. cbn [track1]. rewrite setnth_get in Hk. destruct (Nat.eqb_spec j k) as [<-|Hn]; [|now apply V4]. rewrite Hj in Hk. injection Hk as <-. reflexivity.
  - split; cbn [w_servers w_entries upd_server].
    + intros k Hi. rewrite setnth_len. apply in_app_or in Hi. destruct Hi as [Hi|[Hi|[]]]; [now apply V1|discriminate].
    + intros b e' k H1 H2. destruct (V2 b e' k H1 H2) as (x & A & B & C). rewrite setnth_get. destruct (Nat.eqb_spec j k) as [<-|Hn]; [|eauto]. rewrite A. exists (watched s). rewrite Hj in A. injection A as <-. cbn. auto.
    + intros b. rewrite last_resp_app. exact (V3 b).
    + intros k x Hk Ho. rewrite track_app. cbn [track1]. rewrite setnth_get in Hk. destruct (Nat.eqb_spec j k) as [<-|Hn]; [|now apply V4]. rewrite Hj in Hk. injection Hk as <-. cbn in Ho |- *. now apply V4.
  - split; cbn [w_servers w_entries].
    + intros k Hi. rewrite setnth_len. apply in_app_or in Hi. destruct Hi as [Hi|[Hi|[]]]; [now apply V1|discriminate].
    + intros b e' k H1 H2. rewrite mget_mset in H1. destruct (String.eqb_spec b (sv_addr s)) as [->|Hb].
      * injection H1 as <-. cbn in H2. destruct ok; [|discriminate]. injection H2 as <-. exists (watched s). rewrite setnth_get, Nat.eqb_refl, Hj. cbn. auto.
      * destruct (V2 b e' k H1 H2) as (x & A & B & C). rewrite setnth_get. destruct (Nat.eqb_spec j k) as [<-|Hn]; [|eauto]. rewrite Hj in A. injection A as <-. congruence.
    + intros b. rewrite last_resp_app, reported_set. destruct (String.eqb_spec b (sv_addr s)) as [->|Hb]; [|exact (V3 b)]. cbn [en_resp]. rewrite <- V3. unfold reported. now rewrite He.
    + intros k x Hk Ho. rewrite track_app. cbn [track1]. rewrite setnth_get in Hk. destruct (Nat.eqb_spec j k) as [<-|Hn].
      * rewrite Hj in Hk. injection Hk as <-. cbn. apply V4; [assumption|now left].
      * apply V4; [assumption|]. rewrite mget_mset in Ho. destruct (String.eqb_spec (sv_addr x) (sv_addr s)) as [E|E]; [|assumption]. left. now rewrite E.
  - destruct (V2 a e j He Ho) as (s' & A & B & C). rewrite Hj in A. injection A as <-.
    assert (Hall: forall k x, nth_error (match r with LRProps p => setnth (w_servers w) j (callback p s) | LRErr => w_servers w end) k = Some x -> exists y, nth_error (w_servers w) k = Some y /\ sv_addr x = sv_addr y /\ sv_watched x = sv_watched y /\ (k <> j -> x = y) /\ (k = j -> x = match r with LRProps p => callback p s | LRErr => s end)).
    { intros k x Hk. destruct r as [|p]; [exists x; repeat split; intros; try assumption; congruence|]. rewrite setnth_get in Hk. destruct (Nat.eqb_spec j k) as [<-|Hn]; [|exists x; repeat split; try assumption; intros; congruence]. rewrite Hj in Hk. injection Hk as <-. exists s. unfold callback. destruct (sv_ul s); repeat split; try assumption; congruence. }
    assert (Hfwd: forall k y, nth_error (w_servers w) k = Some y -> exists x, nth_error (match r with LRProps p => setnth (w_servers w) j (callback p s) | LRErr => w_servers w end) k = Some x /\ sv_addr x = sv_addr y /\ sv_watched x = sv_watched y).
    { intros k y Hk. destruct r as [|p]; [eauto|]. rewrite setnth_get. destruct (Nat.eqb_spec j k) as [<-|Hn]; [|eauto]. rewrite Hk. exists (callback p s). rewrite Hj in Hk. injection Hk as <-. unfold callback. destruct (sv_ul s); auto. }
    split; cbn [w_servers w_entries].
    + intros k Hi. apply in_app_or in Hi. destruct Hi as [Hi|[Hi|[]]]; [|discriminate]. destruct r; [now apply V1|]. rewrite setnth_len. now apply V1.
    + intros b e' k H1 H2. rewrite mget_mset in H1. destruct (String.eqb_spec b a) as [->|Hb].
      * injection H1 as <-. cbn in H2. injection H2 as <-. destruct (Hfwd _ _ Hj) as (x & X1 & X2 & X3). exists x. repeat split; congruence.
      * destruct (V2 b e' k H1 H2) as (x & A & B' & C'). destruct (Hfwd _ _ A) as (x' & X1 & X2 & X3). exists x'. repeat split; congruence.
    + intros b. rewrite last_resp_app, reported_set. rewrite (String.eqb_sym a b). destruct (String.eqb_spec b a) as [->|Hb]; [reflexivity|exact (V3 b)].
    + intros k x Hk Ho'. rewrite track_app. destruct (Hall k x Hk) as (y & Y1 & Y2 & Y3 & Y4 & Y5). rewrite mget_mset in Ho'. rewrite Y2 in *. cbn [track1].
      destruct (String.eqb_spec (sv_addr y) a) as [E|E].
      * destruct Ho' as [K|(e' & K & K')]; [discriminate|]. injection K as <-. cbn in K'. injection K' as <-. rewrite Hj in Y1. injection Y1 as <-. rewrite (Y5 eq_refl). assert (T: sv_ul s = track j (sv_addr s) ls) by (apply V4; [assumption|right; exists e; split; [congruence|assumption]]).
        destruct r as [|p]; [exact T|]. rewrite E, String.eqb_refl. rewrite E in T. rewrite <- T. unfold callback. destruct (sv_ul s) eqn:Eu; [reflexivity|exact Eu].
      * assert (k <> j) by (intros ->; rewrite Hj in Y1; injection Y1 as <-; congruence). rewrite (Y4 H). destruct r as [|p]; [now apply V4|]. destruct (String.eqb_spec a (sv_addr y)); [congruence|]. now apply V4.
  - split; cbn [w_servers w_entries].
    + intros k Hi. apply in_app_or in Hi. destruct Hi as [Hi|[Hi|[]]]; [now apply V1|discriminate].
    + exact V2.
    + intros b. rewrite last_resp_app. exact (V3 b).
    + intros k x Hk Ho. rewrite track_app. now apply V4.
  - split; cbn [w_servers w_entries].
    + intros k Hi. apply in_app_or in Hi. destruct Hi as [Hi|[Hi|[]]]; [now apply V1|discriminate].
    + intros b e' k H1 H2. rewrite mget_mset in H1. destruct (String.eqb b a); [injection H1 as <-; discriminate|]. exact (V2 b e' k H1 H2).
    + intros b. rewrite last_resp_app, reported_set. destruct (String.eqb_spec b a) as [->|Hb]; [|exact (V3 b)]. cbn [en_resp]. rewrite <- V3. unfold reported. now rewrite He.
    + intros k x Hk Ho'. rewrite track_app. cbn [track1]. apply V4; [assumption|]. rewrite mget_mset in Ho'. destruct (String.eqb (sv_addr x) a); [|assumption]. destruct Ho' as [K|(e' & K & K')]; [discriminate|]. injection K as <-. discriminate.
Qed.
Lemma svinv_steps : forall ls0 w ls w', svinv ls0 w -> ssteps w ls w' -> svinv (ls0 ++ ls) w'.
Proof.
  intros ls0 w ls w' H Hs. revert ls0 H. induction Hs as [w|w l w1 ls w2 Hs Hss IH]; intros ls0 H; [now rewrite app_nil_r|]. replace (ls0 ++ l :: ls)%list with ((ls0 ++ [l]) ++ ls)%list by now rewrite <- app_assoc. apply IH. eapply svinv_step; eassumption.
Qed.
Lemma track_since : forall j a post u, ~ In (SListen j) post -> fold_left (track1 j a) post (Some u) = Some (match last_props a post with Some p => apply_props p | None => u end).
Proof.
  intros j a. induction post as [|l post IH]; intros u H; [reflexivity|]. cbn [fold_left last_props]. assert (Hp: ~ In (SListen j) post) by (intros K; apply H; now right).
  destruct l as [b c|k|k ok|b [|p]|c|b]; cbn [track1]; try (rewrite IH by assumption; now destruct (last_props a post)).
  - destruct (Nat.eqb_spec k j) as [->|]; [exfalso; apply H; now left|]. rewrite IH by assumption. now destruct (last_props a post).
  - destruct (String.eqb b a); rewrite IH by assumption; now destruct (last_props a post).
Qed.
Lemma apply_enforces : forall p, enforces (apply_props p) p.
Proof. intros [t pm r v]. unfold enforces, apply_props. cbn. destruct t, pm; repeat split; intros; try reflexivity; discriminate. Qed.

(* The server whose call started the watch of its address, as long as that watch runs, enforces the last properties received since its
   listener was made; before any, it is permissive without verification.  Partial: the full property is about every server and every
   response; see the refutations. *)
Theorem C69_enforced : forall ls w j s e pre post en, ssteps new_world ls w -> nth_error (w_servers w) j = Some s -> sv_ul s = Some e ->
  mget (sv_addr s) (w_entries w) = Some en -> en_watcher en = Some j -> ls = (pre ++ SListen j :: post)%list -> ~ In (SListen j) post ->
  match last_props (sv_addr s) post with Some p => enforces e p | None => e = initial end.
Proof.
  intros ls w j s e pre post en Hs Hj Hu He Ho -> Hp. pose proof (svinv_steps [] _ _ _ svinv_new Hs) as [_ _ _ V]. cbn [app] in V. specialize (V j s Hj (or_intror (ex_intro _ en (conj He Ho)))). rewrite Hu in V. unfold track in V. rewrite fold_left_app in V. cbn [fold_left track1] in V. rewrite Nat.eqb_refl in V. rewrite track_since in V by assumption. injection V as ->.
  destruct (last_props (sv_addr s) post); [apply apply_enforces|reflexivity].
Qed.
Print Assumptions C69_enforced.
(* ... so under STRICT properties it never takes a plain-text connection. *)
Theorem C69_strict_no_plaintext : forall ls w j s e pre post en p wire, ssteps new_world ls w -> nth_error (w_servers w) j = Some s -> sv_ul s = Some e ->
  mget (sv_addr s) (w_entries w) = Some en -> en_watcher en = Some j -> ls = (pre ++ SListen j :: post)%list -> ~ In (SListen j) post ->
  last_props (sv_addr s) post = Some p -> lp_tls p = true -> lp_permissive p = false -> exists b, unified_accept (en_mode e) wire = ATls b.
Proof.
  intros ls w j s e pre post en p wire Hs Hj Hu He Ho El Hp Hl Ht Hm. pose proof (C69_enforced _ _ _ _ _ _ _ _ Hs Hj Hu He Ho El Hp) as K. rewrite Hl in K. destruct K as (_ & _ & K & _). rewrite (K Ht Hm). eexists. reflexivity.
Qed.
Print Assumptions C69_strict_no_plaintext.
(* GetListenerProperties reports the last response that arrived for the address. *)
Theorem C69_reported : forall ls w a, ssteps new_world ls w -> reported w a = last_resp a ls.
Proof. intros ls w a Hs. pose proof (svinv_steps [] _ _ _ svinv_new Hs) as [_ _ V _]. exact (V a). Qed.
Print Assumptions C69_reported.

(* ---- defects ---- *)
(* a server that is not the one the watch calls keeps the settings it started with, whatever happens later *)
Definition deaf (w : world) (j : nat) : Prop := exists s en, nth_error (w_servers w) j = Some s /\ (sv_ul s = None \/ sv_ul s = Some initial) /\
  mget (sv_addr s) (w_entries w) = Some en /\ en_watcher en <> Some j.
Lemma deaf_step : forall ls w j l w', svinv ls w -> deaf w j -> sstep w l w' -> deaf w' j.
Proof.
  intros ls w j l w' [_ V2 _ _] (s & en & Hj & Hu & He & Hn) Hs.
  destruct Hs as [w a ctx|w k x Hk Hx|w k x e ok Hk Hw Hx|w k x ok Hk Hw Hx|w a r e k x Hx Ho Hk|w ctx|w a e k x Hx Ho Hk Hc]; unfold deaf; cbn [w_servers w_entries upd_server].
  - exists s, en. split; [now apply nth_app_l|auto].
  - rewrite setnth_get. destruct (Nat.eqb_spec k j) as [->|]; [|exists s, en; auto]. rewrite Hj. exists (set_ul x initial), en. rewrite Hj in Hk. injection Hk as <-. cbn. auto.
  - rewrite setnth_get. destruct (Nat.eqb_spec k j) as [->|]; [|exists s, en; auto]. rewrite Hj. exists (watched x), en. rewrite Hj in Hk. injection Hk as <-. cbn. auto.
  - rewrite setnth_get. destruct (Nat.eqb_spec k j) as [->|]; [rewrite Hj in Hk; injection Hk as <-; congruence|]. exists s, en. rewrite mget_mset. destruct (String.eqb_spec (sv_addr s) (sv_addr x)) as [E|E]; [congruence|auto].
  - destruct (V2 a e k Hx Ho) as (y & Y1 & Y2 & _). rewrite Hk in Y1. injection Y1 as <-.
    assert (D: k <> j). { intros ->. rewrite Hj in Hk. injection Hk as <-. subst a. congruence. }
    assert (N: nth_error (match r with LRProps p => setnth (w_servers w) k (callback p x) | LRErr => w_servers w end) j = Some s). { destruct r as [|p]; [assumption|]. rewrite setnth_get. apply Nat.eqb_neq in D. now rewrite D. }
    destruct (String.eqb_spec (sv_addr s) a) as [E|E].
    + exists s, (mken (Some r) (Some k)). split; [assumption|]. split; [assumption|]. split; [rewrite mget_mset, E, String.eqb_refl; reflexivity|cbn; congruence].
    + exists s, en. rewrite mget_mset. destruct (String.eqb_spec (sv_addr s) a); [contradiction|]. auto.
  - exists s, en. auto.
  - destruct (String.eqb_spec (sv_addr s) a) as [E|E].
    + exists s, (mken (en_resp e) None). split; [assumption|]. split; [assumption|]. split; [rewrite mget_mset, E, String.eqb_refl; reflexivity|discriminate].
    + exists s, en. rewrite mget_mset. destruct (String.eqb_spec (sv_addr s) a); [contradiction|]. auto.
Qed.
Lemma deaf_steps : forall ls0 w ls w' j, svinv ls0 w -> deaf w j -> ssteps w ls w' -> deaf w' j.
Proof.
  intros ls0 w ls w' j H D Hs. revert ls0 H D. induction Hs as [w|w l w1 ls w2 Hs Hss IH]; intros ls0 H D; [assumption|]. eapply (IH (ls0 ++ [l])%list); [eapply svinv_step; eassumption|eapply deaf_step; eassumption].
Qed.
(* Defect: the second server on an address never enforces anything: whatever responses arrive later, its listener stays permissive and
   checks no client certificate. *)
Theorem C69_second_server_refuted : forall a c1 c2 ok ls w, ssteps new_world ([SStart a c1; SWatch 0 ok; SStart a c2; SListen 1; SWatch 1 true] ++ ls) w ->
  exists s, nth_error (w_servers w) 1 = Some s /\ sv_addr s = a /\ sv_ul s = Some initial.
Proof.
  intros a c1 c2 ok ls w Hs. 
  assert (G: forall ls1 ls2 w w', ssteps w (ls1 ++ ls2) w' -> exists w1, ssteps w ls1 w1 /\ ssteps w1 ls2 w').
  { clear. induction ls1 as [|l ls1 IH]; intros ls2 w w' H; cbn in H; [exists w; split; [apply SS_nil|assumption]|]. inversion H; subst. destruct (IH _ _ _ H5) as (w2 & A & B). exists w2. split; [eapply SS_cons; eassumption|assumption]. }
  apply G in Hs. destruct Hs as (w1 & H1 & H2). pose proof (svinv_steps [] _ _ _ svinv_new H1) as V. cbn [app] in V.
  assert (E: w1 = mkw [mksv a c1 None true; mksv a c2 (Some initial) true] [(a, mken None (if ok then Some 0 else None))] []).
  { clear - H1. repeat match goal with H : ssteps _ (_ :: _) _ |- _ => inversion H; subst; clear H | H : ssteps _ [] _ |- _ => inversion H; subst; clear H end.
    repeat match goal with H : sstep _ _ _ |- _ => inversion H; subst; clear H; cbn in * end;
    repeat match goal with H : Some _ = Some _ |- _ => injection H as <-; cbn in * end; try discriminate; try (rewrite String.eqb_refl in *; cbn in *); try discriminate; reflexivity. }
  assert (D: deaf w1 1). { subst w1. exists (mksv a c2 (Some initial) true), (mken None (if ok then Some 0 else None)). cbn. rewrite String.eqb_refl. split; [reflexivity|]. split; [now right|]. split; [reflexivity|]. destruct ok; discriminate. }
  assert (U: forall w w' ls, ssteps w ls w' -> (exists s, nth_error (w_servers w) 1 = Some s /\ sv_addr s = a /\ sv_ul s <> None) -> exists s, nth_error (w_servers w') 1 = Some s /\ sv_addr s = a /\ sv_ul s <> None).
  { clear. intros w w' ls H. induction H as [w|w l w1 ls w2 Hs Hss IH]; intros K; [assumption|]. apply IH. destruct K as (s & K1 & K2 & K3). clear IH Hss.
    destruct Hs as [w b ctx|w k x Hk Hx|w k x e ok Hk Hw Hx|w k x ok Hk Hw Hx|w b r e k x Hx Ho Hk|w ctx|w b e k x Hx Ho Hk Hc]; cbn [w_servers upd_server]; eauto.
    - exists s. split; [now apply nth_app_l|auto].
    - rewrite setnth_get. destruct (Nat.eqb_spec k 1) as [->|]; [congruence|eauto].
    - rewrite setnth_get. destruct (Nat.eqb_spec k 1) as [->|]; [|eauto]. rewrite K1. rewrite K1 in Hk. injection Hk as <-. eexists. split; [reflexivity|]. cbn. auto.
    - rewrite setnth_get. destruct (Nat.eqb_spec k 1) as [->|]; [|eauto]. rewrite K1. rewrite K1 in Hk. injection Hk as <-. eexists. split; [reflexivity|]. cbn. auto.
    - destruct r; [eauto|]. rewrite setnth_get. destruct (Nat.eqb_spec k 1) as [->|]; [|eauto]. rewrite K1. rewrite K1 in Hk. injection Hk as <-. eexists. split; [reflexivity|]. unfold callback. destruct (sv_ul s); cbn; split; congruence. }
  destruct (U _ _ _ H2) as (s & K1 & K2 & K3). { subst w1. eexists. split; [reflexivity|]. cbn. split; [reflexivity|discriminate]. }
  pose proof (deaf_steps _ _ _ _ _ V D H2) as (s' & en & S1 & S2 & _). rewrite K1 in S1. injection S1 as <-. exists s. split; [assumption|]. split; [assumption|]. destruct S2; [contradiction|assumption].
Qed.
Print Assumptions C69_second_server_refuted.
(* Defect: a response that arrives before the listener exists is lost; the server stays permissive without verification although
   GetListenerProperties reports the properties. *)
Theorem C69_lost_update_refuted : forall (a : string) (c : nat) p, exists ls w s, ssteps new_world ls w /\ last_resp a ls = Some (LRProps p) /\ reported w a = Some (LRProps p) /\
  nth_error (w_servers w) 0 = Some s /\ sv_addr s = a /\ sv_watched s = true /\ sv_ul s = Some initial.
Proof.
  intros a c p. exists [SStart a c; SWatch 0 true; SDeliver a (LRProps p); SListen 0]. do 2 eexists. split; [|cbn [last_resp]; rewrite String.eqb_refl; split; [reflexivity|]].
  - eapply SS_cons; [apply S_start|]. eapply SS_cons; [eapply S_watch; reflexivity|]. cbn. eapply SS_cons; [eapply S_deliver; [cbn [w_entries]; rewrite mget_mset, String.eqb_refl; reflexivity|reflexivity|reflexivity]|]. cbn. eapply SS_cons; [eapply S_listen; reflexivity|]. cbn. apply SS_nil.
  - unfold reported. cbn [w_entries upd_server]. rewrite mget_mset, String.eqb_refl. repeat split.
Qed.
Print Assumptions C69_lost_update_refuted.
(* Defect: when the first watch of an address fails, or its context ends, no response is ever taken for that address again: what is
   reported never changes, for any later call. *)
Theorem C69_dead_entry_refuted : forall w a e ls w', mget a (w_entries w) = Some e -> en_watcher e = None -> ssteps w ls w' -> reported w' a = en_resp e /\ ~ In a (flat_map (fun l => match l with SDeliver b _ => [b] | _ => [] end) ls).
Proof.
  intros w a e ls w' He Hn Hs. enough (K: mget a (w_entries w') = Some e /\ ~ In a (flat_map (fun l => match l with SDeliver b _ => [b] | _ => [] end) ls)) by (destruct K as [K1 K2]; split; [unfold reported; now rewrite K1|assumption]).
  induction Hs as [w|w l w1 ls w2 Hs Hss IH]; [split; [assumption|intros []]|].
  assert (E: mget a (w_entries w1) = Some e /\ match l with SDeliver b _ => b <> a | _ => True end).
  { clear IH Hss. destruct Hs as [w b ctx|w k x Hk Hx|w k x e' ok Hk Hw Hx|w k x ok Hk Hw Hx|w b r e' k x Hx Ho Hk|w ctx|w b e' k x Hx Ho Hk Hc]; cbn [w_entries upd_server]; try (split; [assumption|exact I]).
    - rewrite mget_mset. destruct (String.eqb_spec a (sv_addr x)) as [->|]; [congruence|auto].
    - assert (b <> a) by (intros ->; congruence). rewrite mget_mset. destruct (String.eqb_spec a b) as [->|]; [contradiction|auto].
    - rewrite mget_mset. destruct (String.eqb_spec a b) as [->|]; [congruence|auto]. }
  destruct E as [E1 E2]. destruct (IH E1) as [K1 K2]. split; [assumption|]. cbn [flat_map]. intros K. apply in_app_or in K. destruct K as [K|K]; [|contradiction]. destruct l; try destruct K; [congruence|destruct H].
Qed.
Print Assumptions C69_dead_entry_refuted.
(* the failed watch, and the ended one, do lead there *)
Theorem C69_dead_entry_reached : forall a c p, (exists w, ssteps new_world [SStart a c; SWatch 0 false] w /\ mget a (w_entries w) = Some (mken None None)) /\
  (exists w, ssteps new_world [SStart a c; SWatch 0 true; SDeliver a (LRProps p); SCancel c; SStop a] w /\ mget a (w_entries w) = Some (mken (Some (LRProps p)) None)).
Proof.
  intros a c p. split; eexists; split.
  - eapply SS_cons; [apply S_start|]. eapply SS_cons; [eapply S_watch; reflexivity|]. apply SS_nil.
  - cbn [w_entries]. now rewrite mget_mset, String.eqb_refl.
  - eapply SS_cons; [apply S_start|]. eapply SS_cons; [eapply S_watch; reflexivity|]. cbn. eapply SS_cons; [eapply S_deliver; [cbn [w_entries]; rewrite mget_mset, String.eqb_refl; reflexivity|reflexivity|reflexivity]|]. cbn. eapply SS_cons; [apply S_cancel|]. cbn. eapply SS_cons; [eapply S_stop; [cbn [w_entries]; rewrite mget_mset, String.eqb_refl; reflexivity|reflexivity|reflexivity|cbn; now rewrite Nat.eqb_refl]|]. apply SS_nil.
  - cbn [w_entries]. now rewrite mget_mset, String.eqb_refl.
Qed.
Print Assumptions C69_dead_entry_reached.
(* Defect: until the first response a server takes plain-text connections (anything but a TLS record header) and checks no client certificate. *)
Theorem C69_open_start_refuted : forall (a : string) (c : nat), exists ls w s e, ssteps new_world ls w /\ nth_error (w_servers w) 0 = Some s /\ sv_addr s = a /\ sv_watched s = true /\ sv_ul s = Some e /\ en_verifier e = None /\ en_require e = false /\
  forall wire, bytes (wire_bytes wire) -> 3 <= List.length (wire_bytes wire) -> ~ tls_record_header (wire_bytes wire) -> exists b, unified_accept (en_mode e) wire = APlain b.
Proof.
  intros a c. exists [SStart a c; SListen 0; SWatch 0 true]. do 3 eexists. split.
  - eapply SS_cons; [apply S_start|]. eapply SS_cons; [eapply S_listen; reflexivity|]. eapply SS_cons; [eapply S_watch; reflexivity|]. apply SS_nil.
  - split; [reflexivity|]. cbn [watched set_ul sv_addr sv_watched sv_ul]. repeat (split; [reflexivity|]). intros wire Hb Hl Hn. destruct (C38_mode_decision "" wire Hb) as (_ & _ & K). destruct (K Hl) as (b & [[T _]|[_ T]]); [contradiction|]. exists b. exact T.
Qed.
Print Assumptions C69_open_start_refuted.
(* the hypotheses of C69_enforced and C69_strict_no_plaintext are met: STRICT properties after an error response *)
Example C69_ex : exists ls w s e pre post en p, ssteps new_world ls w /\ nth_error (w_servers w) 0 = Some s /\ sv_ul s = Some e /\
  mget (sv_addr s) (w_entries w) = Some en /\ en_watcher en = Some 0 /\ ls = (pre ++ SListen 0 :: post)%list /\ ~ In (SListen 0) post /\
  last_props (sv_addr s) post = Some p /\ lp_tls p = true /\ lp_permissive p = false /\ en_mode e = "STRICT".
Proof.
  exists [SStart ":80" 1; SListen 0; SWatch 0 true; SDeliver ":80" LRErr; SDeliver ":80" (LRProps (mklp true false true (Some 4)))]. do 3 eexists. exists [SStart ":80" 1], [SWatch 0 true; SDeliver ":80" LRErr; SDeliver ":80" (LRProps (mklp true false true (Some 4)))]. do 2 eexists. split.
  - eapply SS_cons; [apply S_start|]. eapply SS_cons; [eapply S_listen; reflexivity|]. eapply SS_cons; [eapply S_watch; reflexivity|]. cbn. eapply SS_cons; [eapply S_deliver; reflexivity|]. cbn. eapply SS_cons; [eapply S_deliver; reflexivity|]. cbn. apply SS_nil.
  - cbn. repeat (split; [reflexivity|]). split; [intros [K|[K|[K|[]]]]; discriminate|]. repeat split.
Qed.
