(* C85: the control stream of a tunnel: every message is handled once; a silent peer is closed, a living one is not. *)
From Coq Require Import String List Bool ZArith Lia Permutation Sorted.
From Verif Require Import M_TunnelCtl.
Import ListNotations.
Open Scope Z_scope.

(* ---- messages ---- *)
Definition complete (m : message) : Prop := m_id m <> ""%string /\ m_type m <> ""%string /\ m_data m <> ""%string.
Lemma decode_encode : forall m0 m, complete m -> decode_into m0 (encode m) = m.
Proof.
  intros m0 [i t d] (H1 & H2 & H3). cbn in *. unfold decode_into, encode, field. cbn.
  destruct (String.eqb_spec i ""); [congruence|]. destruct (String.eqb_spec t ""); [congruence|]. destruct (String.eqb_spec d ""); [congruence|]. reflexivity.
Qed.
Lemma handle_complete : forall ms m0 tail, Forall complete ms -> (match tail with Obj _ :: _ => False | _ => True end) ->
  handle m0 (map (fun m => Obj (encode m)) ms ++ tail) = (ms, match tail with Bad e :: _ => Some e | _ => None end).
Proof.
  induction ms as [|m ms IH]; intros m0 tail H Ht; cbn [map app handle].
  - destruct tail as [|[w|e] r]; [reflexivity|contradiction|reflexivity].
  - inversion H; subst. rewrite decode_encode by assumption. rewrite (IH m tail) by assumption. reflexivity.
Qed.
(* messages as they are created (no field is empty) are handed to the handlers as they were sent, each once, until the stream ends or cannot be decoded;
   the end of the stream is no error *)
Theorem C85_messages : forall ms tail, Forall complete ms -> (match tail with Obj _ :: _ => False | _ => True end) ->
  Handle (map (fun m => Obj (encode m)) ms ++ tail) = (ms, match tail with Bad e :: _ => Some e | _ => None end).
Proof. intros ms tail. apply handle_complete. Qed.
Print Assumptions C85_messages.
(* in whatever order the goroutines run, a message is handled once, by the handler of its type, if there is one *)
Theorem C85_handled : forall (H : Type) (r : registry H) ms ran, Permutation ms ran -> NoDup ms ->
  NoDup (map snd (handled r ran)) /\ forall h m, In (h, m) (handled r ran) <-> In m ms /\ handler_of r (m_type m) = Some h.
Proof.
  intros H r ms ran P N. split.
  - assert (N': NoDup ran) by (eapply Permutation_NoDup; eassumption). clear -N'. induction N' as [|m l Hn N IH]; [constructor|]. cbn [handled flat_map]. rewrite map_app. fold (handled r l).
    destruct (handler_of r (m_type m)) as [h|]; [|exact IH]. cbn [map snd app]. constructor; [|exact IH]. intros X. apply Hn. apply in_map_iff in X. destruct X as ([h' m'] & E & X). cbn in E. subst m'.
    unfold handled in X. apply in_flat_map in X. destruct X as (m'' & X1 & X2). destruct (handler_of r (m_type m'')); [|contradiction]. destruct X2 as [X2|[]]. injection X2 as _ <-. exact X1.
  - intros h m. unfold handled. rewrite in_flat_map. split.
    + intros (m' & H1 & H2). destruct (handler_of r (m_type m')) as [h'|] eqn:E; [|contradiction]. destruct H2 as [H2|[]]. injection H2 as <- <-. split; [|exact E]. eapply Permutation_in; [apply Permutation_sym; eassumption|exact H1].
    + intros [H1 H2]. exists m. split; [eapply Permutation_in; eassumption|]. rewrite H2. left. reflexivity.
Qed.
Print Assumptions C85_handled.
(* the handler of a type is the last one that was added for it *)
Theorem C85_registry : forall (H : Type) (r : registry H) t h t', handler_of (add_handler r t h) t' = (if String.eqb t t' then Some h else handler_of r t') /\ handler_of (@nil (string * H)) t' = None.
Proof. intros. split; [|reflexivity]. unfold handler_of, add_handler. cbn [find fst snd]. destruct (String.eqb t t'); reflexivity. Qed.
Print Assumptions C85_registry.
(* but an object without a field gets the field of the message before it *)
Theorem C85_stale_refuted : exists m m', complete m /\ m' <> zero_msg /\ m_data m' = ""%string /\
  exists got, Handle [Obj (encode m); Obj (encode m')] = ([m; got], None) /\ m_data got = m_data m /\ m_type got = m_type m'.
Proof.
  exists (mkmsg "1" "requestPort" "{port 80}"), (mkmsg "2" "pong" ""). repeat split; try discriminate. eexists. repeat split.
Qed.
Print Assumptions C85_stale_refuted.
Example C85_messages_example : complete (create_message "u-1" "ping" "null") /\ complete (create_message "u-2" "requestPort" "{}") /\
  handled (add_handler (add_handler [] "ping" 1%nat) "pong" 2%nat) [create_message "u-1" "ping" "null"; create_message "u-3" "other" "{}"] = [(1%nat, create_message "u-1" "ping" "null")].
Proof. repeat split; discriminate. Qed.

(* ---- keep-alive ---- *)
Definition last_sign (s : kst) : Z := List.last (pongs s) (started s).
Definition active (s : kst) : Prop := timer s <> None \/ running s = true.
Lemma last_snoc : forall (l : list Z) x d, List.last (l ++ [x]) d = x.
Proof. induction l as [|a l IH]; intros x d; [reflexivity|]. cbn [app]. destruct l as [|b l]; [reflexivity|]. exact (IH x d). Qed.
Record kinv (timeout late t0 : Z) (s : kst) : Prop := mkkinv
  { v_started : started s = t0;
    v_last : match last s with None => running s = true /\ now s = t0 /\ waiting s = [] /\ pongs s = [] /\ timer s = None | Some l => l = last_sign s /\ l <= now s end;
    v_open : shut s = false -> active s;
    v_excl : running s = true -> timer s = None;
    v_time : active s -> last s <> None -> exists f, f <= now s /\ f <= last_sign s + timeout /\ now s <= f + PERIOD + late /\ (timer s = None \/ timer s = Some (f + PERIOD)) /\ (running s = true -> f + PERIOD <= now s);
    v_closes : closes s = 0%nat \/ (closes s = 1%nat /\ timer s = None /\ running s = false /\ shut s = true);
    v_wait : waiting s <> [] -> last s <> None;
    v_now : t0 <= now s }.
Lemma kinv_reach : forall timeout late rtt t0 s, 0 < timeout -> 0 <= late -> kreach timeout late rtt t0 s -> kinv timeout late t0 s.
Proof.
  intros timeout late rtt t0 s Ht Hl R. induction R as [|s e s' R IH Hs].
  - constructor; cbn; auto; try congruence; try lia. right. reflexivity.
  - destruct IH as [V1 V2 V3 V4 V5 V6 V7 V8]. inversion Hs as [d Hd Hi|f Hf Hn Hr|Hr|p r Hw Ho|]; subst; clear Hs.
    + destruct Hi as (I1 & I2 & _). constructor; cbn; auto.
      * destruct (last s) as [l|]; [destruct V2; split; [assumption|lia]|]. destruct V2 as (A & B & C). specialize (I2 A). lia.
      * unfold active, last_sign in *. cbn. intros A B. destruct (V5 A B) as (f & F1 & F2 & F3 & F4 & F5). exists f. repeat split; auto; try lia.
        -- destruct F4 as [F4|F4].
           ++ destruct A as [A|A]; [congruence|]. specialize (I2 A). lia.
           ++ rewrite F4 in I1. lia.
        -- intros X. specialize (F5 X). lia.
      * lia.
    + constructor; cbn; auto.
      * destruct (last s); [exact V2|]. destruct V2 as (A & _). congruence.
      * intros. right. reflexivity.
      * unfold active, last_sign in *. cbn. intros _ B. destruct (V5 ltac:(left; congruence) B) as (g & F1 & F2 & F3 & F4 & F5). exists g. repeat split; auto. intros _. destruct F4 as [F4|F4]; [congruence|]. rewrite F4 in Hf. injection Hf as <-. exact Hn.
      * destruct V6 as [V6|(_ & V6 & _)]; [auto|congruence].
    + unfold keepalive. destruct (Z.eqb_spec timeout 0) as [|_]; [lia|].
      set (l := match last s with None => now s | Some l => l end).
      assert (L: l = last_sign s /\ l <= now s). { unfold l. destruct (last s) as [x|]; [exact V2|]. destruct V2 as (_ & B & _ & D & _). unfold last_sign. rewrite D. cbn. lia. }
      destruct (Z.ltb_spec timeout (now s - l)).
      * constructor; cbn; auto; try discriminate.
        -- intros [A|A]; [cbn in A; congruence|discriminate].
        -- destruct V6 as [->|(_ & _ & V6 & _)]; [right; auto|congruence].
      * constructor; cbn; auto; try discriminate.
        -- intros _. left. discriminate.
        -- intros _ _. exists (now s). destruct L as [L1 L2]. unfold last_sign in *. cbn. rewrite <- L1. unfold PERIOD. repeat split; try lia; auto; try discriminate.
        -- destruct V6 as [->|(_ & _ & V6 & _)]; [left; auto|congruence].
    + assert (NL: last s <> None) by (apply V7; rewrite Hw; discriminate). constructor; cbn; auto; try discriminate.
      * unfold last_sign. cbn. rewrite last_snoc. split; [reflexivity|lia].
      * unfold active, last_sign in *. cbn. rewrite last_snoc. intros A _. destruct (V5 A NL) as (f & F1 & F2 & F3 & F4 & F5). exists f. repeat split; auto. destruct (last s) as [l|]; [|congruence]. destruct V2. lia.
    + constructor; cbn; auto; try discriminate.
      * destruct (last s); [exact V2|]. tauto.
      * unfold active, last_sign in *. cbn. intros A B. destruct (V5 ltac:(destruct A as [A|A]; [congruence|auto]) B) as (f & F1 & F2 & F3 & F4 & F5). exists f. repeat split; auto.
      * destruct V6 as [V6|(V6 & _ & A & _)]; [auto|right; auto].
Qed.
(* while the stream is open, and while the keep-alive of a closed stream is still active, not more time than the timeout and one period has passed since the last
   sign of life: a silent peer is closed by then, and then everything stops *)
Theorem C85_silent_closed : forall timeout late rtt t0 s, 0 < timeout -> 0 <= late -> kreach timeout late rtt t0 s ->
  (shut s = false \/ active s) -> now s <= List.last (pongs s) t0 + timeout + PERIOD + late.
Proof.
  intros timeout late rtt t0 s Ht Hl R H. destruct (kinv_reach _ _ _ _ _ Ht Hl R) as [V1 V2 V3 V4 V5 V6 V7 V8].
  assert (A: active s) by (destruct H; auto). unfold last_sign in *. rewrite V1 in *. destruct (last s) as [l|] eqn:El.
  - destruct (V5 A ltac:(discriminate)) as (f & F1 & F2 & F3 & _). lia.
  - destruct V2 as (_ & -> & _ & -> & _). cbn. unfold PERIOD. lia.
Qed.
Print Assumptions C85_silent_closed.
(* it closes the stream at most once *)
Theorem C85_closes_once : forall timeout late rtt t0 s, 0 < timeout -> 0 <= late -> kreach timeout late rtt t0 s -> (closes s <= 1)%nat /\ (closes s = 1%nat -> shut s = true /\ ~ active s).
Proof.
  intros timeout late rtt t0 s Ht Hl R. destruct (kinv_reach _ _ _ _ _ Ht Hl R) as [V1 V2 V3 V4 V5 V6 V7 V8]. destruct V6 as [->|(-> & A & B & C)]; [split; [lia|discriminate]|].
  split; [lia|]. intros _. split; [exact C|]. unfold active. rewrite A, B. intros [X|X]; congruence.
Qed.
Print Assumptions C85_closes_once.

(* a peer that answers every ping within r: as long as the stream is open *)
Record hinv (late r : Z) (s : kst) : Prop := mkhinv
  { h_sorted : StronglySorted Z.le (waiting s);
    h_past : Forall (fun p => p <= now s) (waiting s);
    h_last : match last s with
             | None => running s = true /\ waiting s = []
             | Some l => l <= now s /\ exists f, f <= now s /\ now s <= f + PERIOD + late /\ (timer s = Some (f + PERIOD) \/ (timer s = None /\ running s = true)) /\
                 match waiting s with [] => f <= l | p :: _ => p - PERIOD - late <= l /\ now s <= p + r end
             end }.
Lemma sorted_snoc : forall l x, StronglySorted Z.le l -> Forall (fun p => p <= x) l -> StronglySorted Z.le (l ++ [x]).
Proof.
  induction l as [|a l IH]; intros x H F; cbn; [repeat constructor|]. inversion H; subst. inversion F; subst. constructor; [auto|]. apply Forall_app. split; [assumption|]. repeat constructor. assumption.
Qed.
Lemma hinv_reach : forall timeout late r t0 s, 0 < timeout -> 0 <= late -> 0 <= r -> kreach timeout late (Some r) t0 s -> shut s = false -> hinv late r s.
Proof.
  intros timeout late r t0 s Ht Hl Hr R. induction R as [|s e s' R IH Hs]; intros Ho.
  - constructor; cbn; auto; constructor.
  - inversion Hs as [d Hd Hi|f Hf Hn Hq|Hq|p q Hw Hp|]; subst; clear Hs; cbn in Ho; try discriminate.
    + destruct (IH Ho) as [S1 S2 S3]. destruct Hi as (I1 & I2 & I3). specialize (I3 Ho). constructor; cbn; auto.
      * eapply Forall_impl; [|exact S2]. cbn. lia.
      * destruct (last s) as [l|]; [|exact S3]. destruct S3 as (A & f & F1 & F2 & F3 & F4). split; [lia|]. exists f. repeat split; auto; try lia.
        -- destruct F3 as [F3|[_ F3]]; [rewrite F3 in I1; lia|specialize (I2 F3); lia].
        -- destruct (waiting s) as [|p w]; [exact F4|]. split; [tauto|exact I3].
    + destruct (IH Ho) as [S1 S2 S3]. constructor; cbn; auto. destruct (last s) as [l|]; [|split; [reflexivity|tauto]]. destruct S3 as (A & g & F1 & F2 & F3 & F4). split; [exact A|]. exists g. repeat split; auto.
    + unfold keepalive in *. destruct (Z.eqb_spec timeout 0) as [|_]; [lia|]. set (l := match last s with None => now s | Some l => l end) in *.
      destruct (timeout <? now s - l); [cbn in Ho; discriminate|]. cbn in Ho. rewrite Ho in *. destruct (IH eq_refl) as [S1 S2 S3]. constructor; cbn.
      * now apply sorted_snoc.
      * apply Forall_app. split; [exact S2|]. repeat constructor. lia.
      * unfold l. destruct (last s) as [x|].
        -- destruct S3 as (A & f & F1 & F2 & F3 & F4). split; [exact A|]. exists (now s). unfold PERIOD. repeat split; auto; try lia. destruct (waiting s) as [|p w]; cbn [app]; [unfold PERIOD in *; lia|exact F4].
        -- destruct S3 as [_ S3]. rewrite S3. cbn [app]. split; [lia|]. exists (now s). unfold PERIOD. repeat split; auto; lia.
    + destruct (IH Ho) as [S1 S2 S3]. rewrite Hw in *. constructor; cbn.
      * now inversion S1.
      * now inversion S2.
      * destruct (last s) as [l|]; [|destruct S3; discriminate]. destruct S3 as (A & f & F1 & F2 & F3 & F4). split; [lia|]. exists f. repeat split; auto. destruct q as [|p' q]; [lia|].
        inversion S1 as [|? ? ? S4]; subst. inversion S4; subst. inversion S2 as [|? ? ? S5]; subst. inversion S5; subst. unfold PERIOD. lia.
Qed.
(* a peer that answers in time is not closed by the keep-alive, if the timeout allows for a period, the delay of a timer and the round trip *)
Theorem C85_alive_kept : forall timeout late r t0 s s', 0 <= late -> 0 <= r -> PERIOD + late + r <= timeout ->
  kreach timeout late (Some r) t0 s -> shut s = false -> kstep timeout late (Some r) s Run s' -> shut s' = false.
Proof.
  intros timeout late r t0 s s' Hl Hr Ht R Ho Hs. assert (0 < timeout) by (unfold PERIOD in *; lia). destruct (hinv_reach _ _ _ _ _ H Hl Hr R Ho) as [S1 S2 S3].
  inversion Hs; subst. unfold keepalive. destruct (Z.eqb_spec timeout 0) as [|_]; [lia|]. destruct (last s) as [l|].
  - destruct S3 as (A & f & F1 & F2 & F3 & F4). destruct (Z.ltb_spec timeout (now s - l)); [|exact Ho]. exfalso. destruct (waiting s) as [|p w]; unfold PERIOD in *; lia.
  - destruct (Z.ltb_spec timeout (now s - now s)); [lia|]. exact Ho.
Qed.
Print Assumptions C85_alive_kept.
Theorem C85_alive_kept_run : forall timeout late r t0 s, 0 <= late -> 0 <= r -> PERIOD + late + r <= timeout ->
  kreach timeout late (Some r) t0 s -> shut s = true -> exists s1 s2, kreach timeout late (Some r) t0 s1 /\ shut s1 = false /\ kstep timeout late (Some r) s1 CloseIt s2.
Proof.
  intros timeout late r t0 s Hl Hr Ht R Hsh. induction R as [|s e s' R IH Hs]; [discriminate|]. destruct (shut s) eqn:Eo; [auto|].
  destruct e; try (inversion Hs; subst; cbn in Hsh; congruence).
  - rewrite (C85_alive_kept _ _ _ _ _ _ Hl Hr Ht R Eo Hs) in Hsh. discriminate.
  - exists s, s'. auto.
Qed.
Print Assumptions C85_alive_kept_run.
(* with a timeout shorter than the period, every peer is closed at the second check, however fast it answers *)
Theorem C85_short_refuted : forall timeout late r t0 s, 0 < timeout -> 0 <= late -> 0 <= r -> timeout + r < PERIOD ->
  kreach timeout late (Some r) t0 s -> shut s = false -> now s <= t0 + PERIOD + late.
Proof.
  intros timeout late r t0 s Ht Hl Hr Hs R Ho.
  assert (P: shut s = false -> (waiting s = [] \/ waiting s = [t0]) /\ (last s = None /\ now s = t0 /\ running s = true /\ waiting s = [] \/
             (exists l, last s = Some l /\ l <= t0 + r) /\ (timer s = Some (t0 + PERIOD) \/ (timer s = None /\ running s = true /\ t0 + PERIOD <= now s)) /\ now s <= t0 + PERIOD + late /\ (waiting s <> [] -> now s <= t0 + r))).
  { clear Ho. induction R as [|s e s' R IH Hk]; intros Ho; [cbn; auto 6|].
    inversion Hk as [d Hd Hi|f Hf Hn Hq|Hq|p q Hw Hp|]; subst; clear Hk; cbn in Ho; try discriminate.
    - destruct (IH Ho) as [W C]. destruct Hi as (I1 & I2 & I3). specialize (I3 Ho). cbn. split; [exact W|]. destruct C as [(C1 & C2 & C3 & C4)|(C1 & C2 & C3 & C4)].
      + specialize (I2 C3). lia.
      + right. repeat split; auto.
        * destruct C2 as [C2|(C2 & C5 & C6)]; [auto|]. specialize (I2 C5). lia.
        * destruct C2 as [C2|(C2 & C5 & C6)]; [rewrite C2 in I1; lia|]. specialize (I2 C5). lia.
        * intros N. destruct W as [W|W]; [congruence|]. rewrite W in I3. exact I3.
    - destruct (IH Ho) as [W C]. cbn. split; [exact W|]. destruct C as [(C1 & C2 & C3 & C4)|(C1 & C2 & C3 & C4)]; [congruence|]. right. repeat split; auto. right. repeat split; auto. destruct C2 as [C2|(C2 & _)]; [|congruence]. rewrite C2 in Hf. injection Hf as <-. exact Hn.
    - unfold keepalive in *. destruct (Z.eqb_spec timeout 0) as [|_]; [lia|]. destruct (last s) as [l|] eqn:El.
      + destruct (Z.ltb_spec timeout (now s - l)); [cbn in Ho; discriminate|]. cbn in Ho. rewrite Ho in *. destruct (IH eq_refl) as [W C]. destruct C as [(C1 & _)|(C1 & C2 & C3 & C4)]; [congruence|]. destruct C1 as (x & Ex & C1). injection Ex as <-.
        destruct C2 as [C2|(C2 & C5 & C6)]; [|lia]. exfalso. assert (K := kinv_reach _ _ _ _ _ Ht Hl R). pose proof (v_excl _ _ _ _ K Hq). congruence.
      + destruct (Z.ltb_spec timeout (now s - now s)); [lia|]. cbn in Ho. rewrite Ho in *. destruct (IH eq_refl) as [W C]. destruct C as [(C1 & C2 & C3 & C4)|(C1 & _)]; [|destruct C1 as (x & Ex & _); congruence].
        rewrite C4, C2. cbn. split; [auto|]. right. repeat split; [exists t0; split; [reflexivity|lia]|auto|unfold PERIOD; lia|intros _; lia].
    - destruct (IH Ho) as [W C]. rewrite Hw in *. destruct W as [W|W]; [discriminate|]. injection W as -> ->. cbn. split; [auto|]. destruct C as [(_ & _ & _ & C)|(C1 & C2 & C3 & C4)]; [discriminate|]. right.
      split; [eexists; split; [reflexivity|]; apply C4; discriminate|]. split; [exact C2|]. split; [exact C3|]. congruence. }
  destruct (P Ho) as [_ [(_ & -> & _)|(_ & _ & C & _)]]; [unfold PERIOD; lia|exact C].
Qed.
Print Assumptions C85_short_refuted.
(* 0 switches it off; a negative timeout closes the stream at once *)
Theorem C85_off : forall late rtt t0 s, kreach 0 late rtt t0 s -> closes s = 0%nat /\ waiting s = [] /\ timer s = None.
Proof.
  intros late rtt t0 s R. induction R as [|s e s' R IH Hs]; [cbn; auto|]. destruct IH as (A & B & C). inversion Hs; subst; cbn; auto; congruence.
Qed.
Print Assumptions C85_off.
Theorem C85_negative : forall timeout late rtt t0 s, timeout < 0 -> kstep timeout late rtt (new_stream t0) Run s -> shut s = true /\ waiting s = [].
Proof.
  intros timeout late rtt t0 s H Hs. inversion Hs; subst. unfold keepalive. destruct (Z.eqb_spec timeout 0); [lia|]. cbn. destruct (Z.ltb_spec timeout (t0 - t0)); [auto|lia].
Qed.
Print Assumptions C85_negative.
(* a peer that answers once and then falls silent, with a timeout of 1.5 seconds, is closed at the check after two seconds *)
Example C85_example : exists s, kreach 1500 0 (Some 5000) 0 s /\ pongs s = [200] /\ now s = 2000 /\ shut s = true /\ closes s = 1%nat /\ waiting s = [1000].
Proof.
  pose proof (KInit 1500 0 (Some 5000) 0) as R0.
  match type of R0 with kreach _ _ _ _ ?s => pose proof (KNext _ _ _ _ s Run _ R0 (KRun 1500 0 (Some 5000) s eq_refl)) as R1; vm_compute in R1 end.
  match type of R1 with kreach _ _ _ _ ?s => pose proof (KNext _ _ _ _ s _ _ R1 (KPass 1500 0 (Some 5000) s 200 ltac:(lia) ltac:(unfold in_time; cbn; repeat split; try discriminate; intros; lia))) as R2; vm_compute in R2 end.
  match type of R2 with kreach _ _ _ _ ?s => pose proof (KNext _ _ _ _ s _ _ R2 (KPong 1500 0 (Some 5000) s 0 [] eq_refl eq_refl)) as R3; vm_compute in R3 end.
  match type of R3 with kreach _ _ _ _ ?s => pose proof (KNext _ _ _ _ s _ _ R3 (KPass 1500 0 (Some 5000) s 800 ltac:(lia) ltac:(unfold in_time; cbn; repeat split; try discriminate; intros; lia))) as R4; vm_compute in R4 end.
  match type of R4 with kreach _ _ _ _ ?s => pose proof (KNext _ _ _ _ s _ _ R4 (KFire 1500 0 (Some 5000) s 1000 eq_refl ltac:(cbn; lia) eq_refl)) as R5; vm_compute in R5 end.
  match type of R5 with kreach _ _ _ _ ?s => pose proof (KNext _ _ _ _ s _ _ R5 (KRun 1500 0 (Some 5000) s eq_refl)) as R6; vm_compute in R6 end.
  match type of R6 with kreach _ _ _ _ ?s => pose proof (KNext _ _ _ _ s _ _ R6 (KPass 1500 0 (Some 5000) s 1000 ltac:(lia) ltac:(unfold in_time; cbn; repeat split; try discriminate; intros; lia))) as R7; vm_compute in R7 end.
  match type of R7 with kreach _ _ _ _ ?s => pose proof (KNext _ _ _ _ s _ _ R7 (KFire 1500 0 (Some 5000) s 2000 eq_refl ltac:(cbn; lia) eq_refl)) as R8; vm_compute in R8 end.
  match type of R8 with kreach _ _ _ _ ?s => pose proof (KNext _ _ _ _ s _ _ R8 (KRun 1500 0 (Some 5000) s eq_refl)) as R9; vm_compute in R9 end.
  eexists. split; [exact R9|]. repeat split; reflexivity.
Qed.
(* each check of a living stream sends a ping and arms the next check, one period later; closing stops the checks at once unless one is running *)
Theorem C85_checks : forall timeout late rtt s s', timeout <> 0 -> kstep timeout late rtt s Run s' -> shut s = false ->
  shut s' = true \/ (waiting s' = waiting s ++ [now s] /\ timer s' = Some (now s + 1000)).
Proof.
  intros timeout late rtt s s' Ht Hs Ho. inversion Hs; subst. unfold keepalive. destruct (Z.eqb_spec timeout 0); [congruence|].
  destruct (timeout <? _); [left; reflexivity|right]. cbn. rewrite Ho. split; reflexivity.
Qed.
Print Assumptions C85_checks.
Theorem C85_close_stops : forall timeout late rtt s s', kstep timeout late rtt s CloseIt s' -> shut s' = true /\ (running s = false -> ~ active s').
Proof. intros timeout late rtt s s' Hs. inversion Hs; subst. unfold active. cbn. split; [reflexivity|]. intros E [X|X]; congruence. Qed.
Print Assumptions C85_close_stops.
