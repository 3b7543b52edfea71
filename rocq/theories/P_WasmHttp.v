(* C79: HTTP requests and responses through filters. *)
From Coq Require Import String List Ascii Bool Arith ZArith Lia.
From Verif Require Import M_GoStr M_GoMap L_GoMap M_WasmHttp.
Import ListNotations.
Open Scope list_scope.

(* --- specification: what a history of callbacks says --- *)
Definition is_req (e : entry) : bool := match en_event e with EReqHeaders | EReqBody _ _ => true | _ => false end.
Definition failed (es : list entry) : Prop := exists e, In e es /\ en_verdict e = Fail.
Definition paused (es : list entry) : Prop := exists e, In e es /\ en_event e = EReqHeaders /\ en_verdict e = Pause.
(* the last local response among the host calls: status and body *)
Definition send_of (d : option (Z * gstr)) (c : call) : option (Z * gstr) := match c with CSend st b _ => Some (st, b) | _ => d end.
Definition local_reply (es : list entry) : option (Z * gstr) := fold_left send_of (flat_map en_calls es) None.
(* the body of a request breaks off *)
Fixpoint breaks (l : list rd) : bool := match l with [] => false | RData _ :: r => breaks r | RLast _ :: _ => false | RErr :: _ => true end.
Definition body_breaks (q : req) : Prop := match q_body q with Some b => breaks (script b) = true | None => False end.
(* the callbacks for a body: size of each piece and whether it is the last *)
Fixpoint pieces (l : list rd) : list (nat * bool) :=
  match l with
  | [] => [(0, true)]
  | RData [] :: r => pieces r
  | RData b :: r => (length b, false) :: pieces r
  | RLast b :: _ => [(length b, true)]
  | RErr :: _ => []
  end.

Section P.
Context {X : Type}.
Variable G : guest X.
Notation world := (world X).
Definition nobuf (p : resp) : Prop := forall b, p_body p <> Some (Buf b).
Definition fixed (q q' : req) : Prop := q_ctx q' = q_ctx q /\ q_len q' = q_len q /\ q_method q' = q_method q /\ q_host q' = q_host q.
(* what callbacks can do *)
Definition ext (w : world) (es : list entry) (w' : world) : Prop :=
  w_log w' = w_log w ++ es /\ fixed (w_req w) (w_req w') /\
  (w_resp w = None -> w_resp w' = None) /\
  (forall p, w_resp w = Some p -> exists p', w_resp w' = Some p' /\
     p_status p' = match local_reply es with Some (st, _) => st | None => p_status p end /\
     (nobuf p -> nobuf p' /\ p_body p' = match local_reply es with Some (_, b) => Some (Src [RData b]) | None => p_body p end)).
Lemma send_fold : forall cs d, fold_left send_of cs d = match fold_left send_of cs None with Some x => Some x | None => d end.
Proof.
  induction cs as [|c cs IH]; intros d; cbn [fold_left]; [reflexivity|]. rewrite IH. rewrite (IH (send_of None c)).
  destruct (fold_left send_of cs None); [reflexivity|]. destruct c; reflexivity.
Qed.
Lemma local_app : forall a b, local_reply (a ++ b) = match local_reply b with Some x => Some x | None => local_reply a end.
Proof. intros a b. unfold local_reply. rewrite flat_map_app, fold_left_app. apply send_fold. Qed.
Lemma fixed_refl : forall q, fixed q q. Proof. intros q. repeat split. Qed.
Lemma fixed_trans : forall a b c, fixed a b -> fixed b c -> fixed a c.
Proof. unfold fixed. intros a b c (?&?&?&?) (?&?&?&?). repeat split; congruence. Qed.
Lemma ext_refl : forall w, ext w [] w.
Proof. intros w. split; [symmetry; apply app_nil_r|]. split; [apply fixed_refl|]. split; [auto|]. intros p H. exists p. split; [exact H|]. cbn. auto. Qed.
Lemma ext_trans : forall a es b fs c, ext a es b -> ext b fs c -> ext a (es ++ fs) c.
Proof.
  intros a es b fs c (A1 & A2 & A3 & A4) (B1 & B2 & B3 & B4). split; [rewrite B1, A1; symmetry; apply app_assoc|]. split; [eapply fixed_trans; eassumption|]. split; [auto|].
  intros p Hp. destruct (A4 p Hp) as (p1 & E1 & S1 & N1). destruct (B4 p1 E1) as (p2 & E2 & S2 & N2). exists p2. split; [exact E2|]. rewrite local_app. split.
  - rewrite S2, S1. destruct (local_reply fs) as [[? ?]|]; reflexivity.
  - intros Hn. destruct (N1 Hn) as [N1a N1b]. destruct (N2 N1a) as [N2a N2b]. split; [exact N2a|]. rewrite N2b, N1b. destruct (local_reply fs) as [[? ?]|]; reflexivity.
Qed.
(* the effect of host calls alone *)
Definition eff (w : world) (cs : list call) (w' : world) : Prop :=
  w_log w' = w_log w /\ fixed (w_req w) (w_req w') /\ (w_resp w = None -> w_resp w' = None) /\
  (forall p, w_resp w = Some p -> exists p', w_resp w' = Some p' /\
     p_status p' = match fold_left send_of cs None with Some (st, _) => st | None => p_status p end /\
     (nobuf p -> nobuf p' /\ p_body p' = match fold_left send_of cs None with Some (_, b) => Some (Src [RData b]) | None => p_body p end)).
Lemma eff_one : forall w c, eff w [c] (do_call w c).
Proof.
  intros w c. unfold eff. destruct c as [f|f|b|b|st b hs]; cbn [do_call fold_left send_of].
  - split; [reflexivity|]. split; [repeat split|]. split; [auto|]. intros p Hp. exists p. auto.
  - destruct (w_resp w) as [p|] eqn:E; [|rewrite E; split; [reflexivity|]; split; [apply fixed_refl|]; split; [auto|discriminate]].
    split; [reflexivity|]. split; [apply fixed_refl|]. split; [discriminate|]. intros p' Hp. injection Hp as <-. eexists. split; [reflexivity|]. split; [reflexivity|]. intros Hn. split; [exact Hn|reflexivity].
  - destruct (q_body (w_req w)) as [[l|b0]|]; (split; [reflexivity|]; split; [repeat split|]; split; [auto|]; intros p Hp; exists p; auto).
  - destruct (w_resp w) as [p|] eqn:E; [|rewrite E; split; [reflexivity|]; split; [apply fixed_refl|]; split; [auto|discriminate]].
    destruct (p_body p) as [[l|b0]|] eqn:Eb.
    + rewrite E. split; [reflexivity|]. split; [apply fixed_refl|]. split; [auto|]. intros p' Hp. exists p'. auto.
    + split; [reflexivity|]. split; [apply fixed_refl|]. split; [discriminate|]. intros p' Hp. injection Hp as <-. eexists. split; [reflexivity|]. split; [reflexivity|]. intros Hn. destruct (Hn b0 Eb).
    + rewrite E. split; [reflexivity|]. split; [apply fixed_refl|]. split; [auto|]. intros p' Hp. exists p'. auto.
  - destruct (w_resp w) as [p|] eqn:E; [|rewrite E; split; [reflexivity|]; split; [apply fixed_refl|]; split; [auto|discriminate]].
    split; [reflexivity|]. split; [apply fixed_refl|]. split; [discriminate|]. intros p' Hp. injection Hp as <-. eexists. split; [reflexivity|]. split; [reflexivity|]. intros Hn. split; [intros b' H; discriminate|reflexivity].
Qed.
Lemma eff_cons : forall w c cs w', eff (do_call w c) cs w' -> eff w (c :: cs) w'.
Proof.
  intros w c cs w' (B1 & B2 & B3 & B4). destruct (eff_one w c) as (A1 & A2 & A3 & A4). split; [congruence|]. split; [eapply fixed_trans; eassumption|]. split; [auto|].
  intros p Hp. destruct (A4 p Hp) as (p1 & E1 & S1 & N1). destruct (B4 p1 E1) as (p2 & E2 & S2 & N2). exists p2. split; [exact E2|]. cbn [fold_left] in *. rewrite send_fold. split.
  - rewrite S2, S1. destruct (fold_left send_of cs None) as [[? ?]|]; reflexivity.
  - intros Hn. destruct (N1 Hn) as [N1a N1b]. destruct (N2 N1a) as [N2a N2b]. split; [exact N2a|]. rewrite N2b, N1b. destruct (fold_left send_of cs None) as [[? ?]|]; reflexivity.
Qed.
Lemma eff_all : forall cs w, eff w cs (fold_left do_call cs w).
Proof.
  induction cs as [|c cs IH]; intros w; cbn [fold_left]; [|apply eff_cons, IH].
  split; [reflexivity|]. split; [apply fixed_refl|]. split; [auto|]. intros p Hp. exists p. cbn. auto.
Qed.
Lemma callback_ext : forall f ev w v w', callback G f ev w = (v, w') -> exists cs, ext w [mkent f ev cs v] w'.
Proof.
  intros f ev w v w' H. unfold callback in H. destruct (G f ev w) as [[x cs] v0]. injection H as -> <-. exists cs. destruct (eff_all cs w) as (A1 & A2 & A3 & A4).
  unfold ext. cbn [w_log w_req w_resp]. split; [now rewrite A1|]. split; [exact A2|]. split; [exact A3|]. unfold local_reply. cbn [flat_map en_calls]. rewrite app_nil_r. exact A4.
Qed.
Lemma headers_ext : forall fs w v w', headers_pass G fs w = (v, w') ->
  exists es, ext w es w' /\ Forall (fun e => en_event e = EReqHeaders) es /\
    match v with
    | Continue => map en_filter es = fs /\ Forall (fun e => en_verdict e = Continue) es
    | _ => exists es0 e rest, es = es0 ++ [e] /\ Forall (fun x => en_verdict x = Continue) es0 /\ en_verdict e = v /\ fs = map en_filter es ++ rest
    end.
Proof.
  induction fs as [|f fs IH]; intros w v w' H; cbn [headers_pass] in H.
  - injection H as <- <-. exists []. split; [apply ext_refl|]. split; [constructor|]. split; [reflexivity|constructor].
  - destruct (callback G f EReqHeaders w) as [v1 w1] eqn:E. destruct (callback_ext _ _ _ _ _ E) as [cs Hx]. destruct v1.
    + destruct (IH _ _ _ H) as (es & He & Hf & Hv). exists (mkent f EReqHeaders cs Continue :: es). split; [exact (ext_trans _ _ _ _ _ Hx He)|]. split; [now constructor|].
      destruct v.
      * destruct Hv as [Hm Hc]. split; [cbn; now rewrite Hm|now constructor].
      * destruct Hv as (es0 & e & rest & -> & Hc & Hv & Hr). exists (mkent f EReqHeaders cs Continue :: es0), e, rest. split; [reflexivity|]. split; [now constructor|]. split; [exact Hv|cbn; now rewrite Hr].
      * destruct Hv as (es0 & e & rest & -> & Hc & Hv & Hr). exists (mkent f EReqHeaders cs Continue :: es0), e, rest. split; [reflexivity|]. split; [now constructor|]. split; [exact Hv|cbn; now rewrite Hr].
    + injection H as <- <-. exists [mkent f EReqHeaders cs Pause]. split; [exact Hx|]. split; [now repeat constructor|]. exists [], (mkent f EReqHeaders cs Pause), fs. repeat split; constructor.
    + injection H as <- <-. exists [mkent f EReqHeaders cs Fail]. split; [exact Hx|]. split; [now repeat constructor|]. exists [], (mkent f EReqHeaders cs Fail), fs. repeat split; constructor.
Qed.
Lemma all_ext : forall fs ev w ok w', all_pass G fs ev w = (ok, w') ->
  exists es, ext w es w' /\ Forall (fun e => en_event e = ev) es /\
    (if ok then map en_filter es = fs /\ Forall (fun e => en_verdict e <> Fail) es else failed es).
Proof.
  induction fs as [|f fs IH]; intros ev w ok w' H; cbn [all_pass] in H.
  - injection H as <- <-. exists []. split; [apply ext_refl|]. split; [constructor|]. split; [reflexivity|constructor].
  - destruct (callback G f ev w) as [v1 w1] eqn:E. destruct (callback_ext _ _ _ _ _ E) as [cs Hx].
    assert (Go: v1 <> Fail -> all_pass G fs ev w1 = (ok, w') -> exists es, ext w es w' /\ Forall (fun e => en_event e = ev) es /\
      (if ok then map en_filter es = f :: fs /\ Forall (fun e => en_verdict e <> Fail) es else failed es)).
    { intros Hv H1. destruct (IH _ _ _ _ H1) as (es & He & Hf & Hok). exists (mkent f ev cs v1 :: es). split; [exact (ext_trans _ _ _ _ _ Hx He)|]. split; [now constructor|].
      destruct ok; [destruct Hok as [Hm Hc]; split; [cbn; now rewrite Hm|now constructor]|]. destruct Hok as (e & Hi & Hv'). exists e. split; [now right|exact Hv']. }
    destruct v1; [apply Go; [discriminate|exact H]|apply Go; [discriminate|exact H]|].
    injection H as <- <-. exists [mkent f ev cs Fail]. split; [exact Hx|]. split; [now repeat constructor|]. exists (mkent f ev cs Fail). split; [now left|reflexivity].
Qed.
Definition quiet_add (add : gstr -> world -> world) : Prop := forall b w, ext w [] (add b w).
Lemma add_req_quiet : quiet_add add_req.
Proof.
  intros b w. unfold add_req. destruct (q_body (w_req w)) as [[l|b0]|]; try apply ext_refl.
  split; [symmetry; apply app_nil_r|]. split; [repeat split|]. split; [auto|]. intros p Hp. exists p. cbn. auto.
Qed.
Lemma add_resp_quiet : quiet_add add_resp.
Proof.
  intros b w. unfold add_resp. destruct (w_resp w) as [p|] eqn:E; [|apply ext_refl]. destruct (p_body p) as [[l|b0]|] eqn:Eb; try apply ext_refl.
  split; [symmetry; apply app_nil_r|]. split; [apply fixed_refl|]. split; [rewrite E; discriminate|]. rewrite E. intros p' Hp. injection Hp as <-. eexists. split; [reflexivity|]. split; [reflexivity|].
  intros Hn. destruct (Hn b0 Eb).
Qed.
Definition what (e : entry) : nat * event := (en_filter e, en_event e).
Definition piece_events (fs : list nat) (ev : nat -> bool -> event) (ps : list (nat * bool)) : list (nat * event) :=
  flat_map (fun p => map (fun f => (f, ev (fst p) (snd p))) fs) ps.
Lemma what_map : forall es fs ev, Forall (fun e => en_event e = ev) es -> map en_filter es = fs -> map what es = map (fun f => (f, ev)) fs.
Proof.
  induction es as [|e es IH]; intros fs ev Hf Hm; subst fs; [reflexivity|]. pose proof (Forall_inv Hf) as H1. pose proof (Forall_inv_tail Hf) as H2. cbn beta in H1. cbn [map]. unfold what at 1. rewrite H1. f_equal. apply IH; [exact H2|reflexivity].
Qed.
Lemma body_ext : forall fs add ev l w r w', quiet_add add -> body_loop G fs add ev l w = (r, w') ->
  exists es, ext w es w' /\ Forall (fun e => exists n eos, en_event e = ev n eos) es /\
    match r with
    | BDone => Forall (fun e => en_verdict e <> Fail) es /\ breaks l = false /\ map what es = piece_events fs ev (pieces l)
    | BReadErr => Forall (fun e => en_verdict e <> Fail) es /\ breaks l = true
    | BFail _ => failed es
    end.
Proof.
  intros fs add ev l. induction l as [|c l IH]; intros w r w' Hq H; cbn [body_loop] in H.
  - destruct (all_pass G fs (ev 0 true) (add [] w)) as [ok w1] eqn:E. destruct (all_ext _ _ _ _ _ E) as (es & He & Hf & Hok). injection H as <- <-.
    exists es. split; [exact (ext_trans _ [] _ _ _ (Hq [] w) He)|]. split; [eapply Forall_impl; [|exact Hf]; intros ? Hev; do 2 eexists; exact Hev|]. destruct ok; [|exact Hok].
    destruct Hok as [Hm Hc]. split; [exact Hc|]. split; [reflexivity|]. cbn. rewrite app_nil_r. now apply what_map.
  - destruct c as [b|b|].
    + destruct b as [|a b].
      * destruct (IH _ _ _ Hq H) as (es & He & Hf & Hr). exists es. split; [exact He|]. split; [exact Hf|]. destruct r; exact Hr.
      * destruct (all_pass G fs (ev (length (a :: b)) false) (add (a :: b) w)) as [ok w1] eqn:E. destruct (all_ext _ _ _ _ _ E) as (es & He & Hf & Hok).
        pose proof (ext_trans _ [] _ _ _ (Hq (a :: b) w) He) as He'. destruct ok.
        -- destruct (IH _ _ _ Hq H) as (es2 & He2 & Hf2 & Hr). exists (es ++ es2). split; [exact (ext_trans _ _ _ _ _ He' He2)|]. split; [apply Forall_app; split; [eapply Forall_impl; [|exact Hf]; intros ? Hev; do 2 eexists; exact Hev|exact Hf2]|].
           destruct Hok as [Hm Hc]. destruct r.
           ++ destruct Hr as (R1 & R2 & R3). split; [apply Forall_app; auto|]. split; [exact R2|]. rewrite map_app, R3. cbn [pieces piece_events flat_map fst snd]. f_equal. now apply what_map.
           ++ destruct Hr as (R1 & R2). split; [apply Forall_app; auto|exact R2].
           ++ destruct Hr as (e & Hi & Hv). exists e. split; [apply in_or_app; now right|exact Hv].
        -- injection H as <- <-. exists es. split; [exact He'|]. split; [eapply Forall_impl; [|exact Hf]; intros ? Hev; do 2 eexists; exact Hev|]. exact Hok.
    + destruct (all_pass G fs (ev (length b) true) (add b w)) as [ok w1] eqn:E. destruct (all_ext _ _ _ _ _ E) as (es & He & Hf & Hok). injection H as <- <-.
      exists es. split; [exact (ext_trans _ [] _ _ _ (Hq b w) He)|]. split; [eapply Forall_impl; [|exact Hf]; intros ? Hev; do 2 eexists; exact Hev|]. destruct ok; [|exact Hok].
      destruct Hok as [Hm Hc]. split; [exact Hc|]. split; [reflexivity|]. cbn. rewrite app_nil_r. now apply what_map.
    + injection H as <- <-. exists []. split; [apply ext_refl|]. split; [constructor|]. split; [constructor|reflexivity].
Qed.
(* the body of the request as it came is untouched by the header callbacks *)
Lemma callback_src : forall f ev w v w', callback G f ev w = (v, w') -> (forall b, q_body (w_req w) <> Some (Buf b)) -> q_body (w_req w') = q_body (w_req w).
Proof.
  intros f ev w v w' H Hn. unfold callback in H. destruct (G f ev w) as [[x cs] v0]. injection H as _ <-. cbn [w_req].
  clear x v0. revert w Hn. induction cs as [|c cs IH]; intros w Hn; [reflexivity|]. cbn [fold_left].
  assert (E: q_body (w_req (do_call w c)) = q_body (w_req w)).
  { destruct c as [g|g|b|b|st b hs]; cbn [do_call]; try reflexivity.
    - destruct (w_resp w); reflexivity.
    - destruct (q_body (w_req w)) as [[l|b0]|] eqn:E; try (rewrite E; reflexivity). destruct (Hn b0 eq_refl).
    - destruct (w_resp w) as [p|]; [|reflexivity]. destruct (p_body p) as [[?|?]|]; reflexivity.
    - destruct (w_resp w); reflexivity. }
  rewrite IH; [exact E|]. rewrite E. exact Hn.
Qed.
Lemma headers_src : forall fs w v w', headers_pass G fs w = (v, w') -> (forall b, q_body (w_req w) <> Some (Buf b)) -> q_body (w_req w') = q_body (w_req w).
Proof.
  induction fs as [|f fs IH]; intros w v w' H Hn; cbn [headers_pass] in H; [now injection H as _ <-|].
  destruct (callback G f EReqHeaders w) as [v1 w1] eqn:E. pose proof (callback_src _ _ _ _ _ E Hn) as Es. destruct v1; [|injection H as _ <-; exact Es|injection H as _ <-; exact Es].
  rewrite <- Es. eapply IH; [exact H|]. rewrite Es. exact Hn.
Qed.
Definition fresh (q : req) : Prop := forall b, q_body q <> Some (Buf b).
Lemma request_ext : forall fs w ok w', handle_request G fs w = (ok, w') -> fresh (w_req w) ->
  exists es, ext w es w' /\ Forall (fun e => is_req e = true) es /\
    (ok = true <-> ~ failed es /\ (paused es \/ ~ body_breaks (w_req w))) /\
    (paused es -> ok = true /\ q_body (w_req w') = q_body (w_req w) /\ exists es0 e rest, es = es0 ++ [e] /\ Forall (fun x => en_verdict x = Continue) es0 /\ en_verdict e = Pause /\
       Forall (fun x => en_event x = EReqHeaders) es /\ fs = map en_filter es ++ rest) /\
    (ok = true -> ~ paused es -> map what es = map (fun f => (f, EReqHeaders)) fs ++ match q_body (w_req w) with Some b => piece_events fs EReqBody (pieces (script b)) | None => [] end).
Proof.
  intros fs w ok w' H Hn. unfold handle_request in H. destruct (headers_pass G fs w) as [v w1] eqn:E. destruct (headers_ext _ _ _ _ E) as (es & He & Hf & Hv). pose proof (headers_src _ _ _ _ E Hn) as Es.
  assert (Hreq: Forall (fun e => is_req e = true) es) by (eapply Forall_impl; [|exact Hf]; intros e He'; unfold is_req; now rewrite He').
  destruct v.
  - destruct Hv as [Hm Hc].
    assert (Hnp: ~ paused es). { intros (e & Hi & _ & Hp). rewrite Forall_forall in Hc. apply Hc in Hi. congruence. }
    assert (Hnf: ~ failed es). { intros (e & Hi & Hp). rewrite Forall_forall in Hc. apply Hc in Hi. congruence. }
    pose proof (what_map _ _ _ Hf Hm) as Hw. destruct (q_body (w_req w1)) as [b|] eqn:Eb.
    + set (w0 := with_req w1 (set_qbody (w_req w1) (Some (Buf [])))) in *. destruct (body_loop G fs add_req EReqBody (script b) w0) as [r w2] eqn:El.
      destruct (body_ext _ _ _ _ _ _ _ add_req_quiet El) as (es2 & He2 & Hf2 & Hr).
      assert (He0: ext w1 [] w0). { split; [symmetry; apply app_nil_r|]. split; [repeat split|]. split; [auto|]. intros p Hp. exists p. cbn. auto. }
      pose proof (ext_trans _ _ _ _ _ He (ext_trans _ _ _ _ _ He0 He2)) as HE. cbn [app] in HE.
      assert (Hnp2: ~ paused (es ++ es2)). { intros (e & Hi & Hev & Hp). apply in_app_or in Hi. destruct Hi as [Hi|Hi]; [apply Hnp; exists e; auto|]. rewrite Forall_forall in Hf2. apply Hf2 in Hi. destruct Hi as (n & eos & Hx). congruence. }
      assert (Hnf2: ~ failed es2 -> ~ failed (es ++ es2)). { intros Hx (e & Hi & Hp). apply in_app_or in Hi. destruct Hi as [Hi|Hi]; [apply Hnf; exists e; auto|apply Hx; exists e; auto]. }
      assert (HF: Forall (fun e => en_verdict e <> Fail) es2 -> ~ failed es2). { intros Hx (e & Hi & Hp). rewrite Forall_forall in Hx. now apply Hx in Hi. }
      assert (Hbb: body_breaks (w_req w) <-> breaks (script b) = true). { unfold body_breaks. rewrite <- Es. reflexivity. }
      exists (es ++ es2). split; [destruct r; injection H as _ <-; exact HE|]. split; [apply Forall_app; split; [exact Hreq|]; eapply Forall_impl; [|exact Hf2]; intros e (n & eos & Hx); unfold is_req; now rewrite Hx|].
      split; [|split; [intros Hp; destruct (Hnp2 Hp)|]].
      * destruct r; injection H as <- _.
        -- destruct Hr as (R1 & R2 & _). split; [intros _|reflexivity]. split; [auto|]. right. rewrite Hbb, R2. discriminate.
        -- destruct Hr as (R1 & R2). split; [discriminate|]. intros [_ [Hx|Hx]]; [destruct (Hnp2 Hx)|]. rewrite Hbb in Hx. contradiction.
        -- split; [discriminate|]. intros [Hx _]. destruct Hx. destruct Hr as (e & Hi & Hv). exists e. split; [apply in_or_app; now right|exact Hv].
      * intros Hok _. destruct r; injection H as <- _; try discriminate. destruct Hr as (R1 & R2 & R3). rewrite <- Es. rewrite map_app, Hw, R3. reflexivity.
    + injection H as <- <-. exists es. split; [exact He|]. split; [exact Hreq|]. split; [|split; [intros Hp; destruct (Hnp Hp)|]].
      * split; [intros _|reflexivity]. split; [exact Hnf|]. right. unfold body_breaks. rewrite <- Es. auto.
      * intros _ _. rewrite <- Es. now rewrite app_nil_r.
  - destruct Hv as (es0 & e & rest & -> & Hc & Hv & Hr). injection H as <- <-. exists (es0 ++ [e]). split; [exact He|]. split; [exact Hreq|].
    assert (Hp: paused (es0 ++ [e])). { exists e. split; [apply in_or_app; right; now left|]. split; [|exact Hv]. rewrite Forall_forall in Hf. apply Hf. apply in_or_app; right; now left. }
    split; [|split].
    + split; [intros _|reflexivity]. split; [|left; exact Hp]. intros (x & Hi & Hx). apply in_app_or in Hi. destruct Hi as [Hi|[<-|[]]]; [|congruence]. rewrite Forall_forall in Hc. apply Hc in Hi. congruence.
    + intros _. split; [reflexivity|]. split; [exact Es|]. exists es0, e, rest. auto.
    + intros _ Hx. destruct (Hx Hp).
  - destruct Hv as (es0 & e & rest & -> & Hc & Hv & Hr). injection H as <- <-. exists (es0 ++ [e]). split; [exact He|]. split; [exact Hreq|].
    assert (Hfl: failed (es0 ++ [e])). { exists e. split; [apply in_or_app; right; now left|exact Hv]. }
    assert (Hnp: ~ paused (es0 ++ [e])). { intros (x & Hi & _ & Hx). apply in_app_or in Hi. destruct Hi as [Hi|[<-|[]]]; [|congruence]. rewrite Forall_forall in Hc. apply Hc in Hi. congruence. }
    split; [|split].
    + split; [discriminate|]. intros [Hx _]. destruct (Hx Hfl).
    + intros Hx. destruct (Hnp Hx).
    + discriminate.
Qed.
Lemma response_ext : forall fs w ok o w', handle_response G fs w = (ok, o, w') ->
  exists es1 es2 w1, ext w es1 w1 /\ w_log w' = w_log w ++ es1 ++ es2 /\ fixed (w_req w) (w_req w') /\ Forall (fun e => is_req e = false) (es1 ++ es2) /\
    Forall (fun e => en_event e = ERespHeaders) es1 /\ Forall (fun e => exists n eos, en_event e = ERespBody n eos) es2 /\
    (failed (es1 ++ es2) -> ok = false) /\
    (ok = true -> map what es1 = map (fun f => (f, ERespHeaders)) fs /\
       forall p b, w_resp w1 = Some p -> p_body p = Some b -> breaks (script b) = false /\ map what es2 = piece_events fs ERespBody (pieces (script b))) /\
    (ok = false -> failed (es1 ++ es2) \/ exists p b, w_resp w1 = Some p /\ p_body p = Some b /\ breaks (script b) = true).
Proof.
  intros fs w ok o w' H. unfold handle_response in H. destruct (all_pass G fs ERespHeaders w) as [ok1 w1] eqn:E. destruct (all_ext _ _ _ _ _ E) as (es & He & Hf & Hok).
  assert (Hr1: Forall (fun e => is_req e = false) es) by (eapply Forall_impl; [|exact Hf]; intros e He'; unfold is_req; now rewrite He').
  assert (NF: forall l, Forall (fun e => en_verdict e <> Fail) l -> ~ failed l). { intros l Hl (e & Hi & Hv). rewrite Forall_forall in Hl. now apply Hl in Hi. }
  destruct ok1.
  - destruct Hok as [Hm Hc]. pose proof (what_map _ _ _ Hf Hm) as Hw.
    assert (Base: w_log w1 = w_log w ++ es ++ [] /\ fixed (w_req w) (w_req w1)) by (split; [rewrite app_nil_r; apply He|apply He]).
    destruct (w_resp w1) as [p|] eqn:Ep.
    + destruct (p_body p) as [b|] eqn:Eb.
      * set (w0 := with_resp w1 (set_pbody p (Some (Buf [])))) in *. destruct (body_loop G fs add_resp ERespBody (script b) w0) as [r w2] eqn:El.
        destruct (body_ext _ _ _ _ _ _ _ add_resp_quiet El) as (es2 & He2 & Hf2 & Hr).
        assert (Hl2: w_log w2 = w_log w ++ es ++ es2). { destruct He2 as [Hl _]. rewrite Hl. cbn. destruct He as [Hl1 _]. rewrite Hl1. now rewrite app_assoc. }
        assert (Hq2: fixed (w_req w) (w_req w2)). { eapply fixed_trans; [apply He|]. apply He2. }
        assert (Hr2: Forall (fun e => is_req e = false) es2) by (eapply Forall_impl; [|exact Hf2]; intros e (n & eos & Hx); unfold is_req; now rewrite Hx).
        exists es, es2, w1. destruct r; injection H as <- _ <-; (split; [exact He|]; split; [exact Hl2|]; split; [exact Hq2|]; split; [apply Forall_app; auto|]; split; [exact Hf|]; split; [exact Hf2|]).
        -- destruct Hr as (R1 & R2 & R3). split; [intros Hx; exfalso; apply (NF (es ++ es2)); [apply Forall_app; auto|exact Hx]|]. split; [|discriminate]. intros _. split; [exact Hw|]. intros p' b' E1 E2. rewrite Ep in E1. injection E1 as <-. rewrite Eb in E2. injection E2 as <-. auto.
        -- destruct Hr as (R1 & R2). split; [auto|]. split; [discriminate|]. intros _. right. eauto.
        -- split; [auto|]. split; [discriminate|]. intros _. left. destruct Hr as (e & Hi & Hv). exists e. split; [apply in_or_app; now right|exact Hv].
      * injection H as <- _ <-. exists es, [], w1. split; [exact He|]. split; [apply Base|]. split; [apply Base|]. split; [now rewrite app_nil_r|]. split; [exact Hf|]. split; [constructor|]. split; [intros Hx; rewrite app_nil_r in Hx; destruct (NF _ Hc Hx)|].
        split; [|discriminate]. intros _. split; [exact Hw|]. intros p' b' E1 E2. congruence.
    + injection H as <- _ <-. exists es, [], w1. split; [exact He|]. split; [apply Base|]. split; [apply Base|]. split; [now rewrite app_nil_r|]. split; [exact Hf|]. split; [constructor|]. split; [intros Hx; rewrite app_nil_r in Hx; destruct (NF _ Hc Hx)|].
      split; [|discriminate]. intros _. split; [exact Hw|]. intros p' b' E1 E2. congruence.
  - injection H as <- _ <-. exists es, [], w1. split; [exact He|]. split; [rewrite app_nil_r; apply He|]. split; [apply He|]. split; [now rewrite app_nil_r|]. split; [exact Hf|]. split; [constructor|]. split; [auto|]. split; [discriminate|]. intros _. left. now rewrite app_nil_r.
Qed.
End P.
