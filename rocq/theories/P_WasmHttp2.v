(* C79: HTTP requests and responses through filters: the theorems. *)
From Coq Require Import String List Ascii Bool Arith ZArith Lia.
From Verif Require Import M_GoStr M_GoMap L_GoMap M_WasmHttp P_WasmHttp.
Import ListNotations.
Open Scope list_scope.

(* middlewares that leave log, response and the fixed parts of the request alone, as the Envoy middleware does *)
Definition polite {X} (mw : middleware (X := X)) : Prop := forall ph w,
  w_log (mw ph w) = w_log w /\ w_resp (mw ph w) = w_resp w /\ fixed (w_req w) (w_req (mw ph w)) /\ q_body (w_req (mw ph w)) = q_body (w_req w).
(* middlewares that change nothing but the state of the guests *)
Definition still {X} (mw : middleware (X := X)) : Prop := forall ph w, w_log (mw ph w) = w_log w /\ w_resp (mw ph w) = w_resp w /\ w_req (mw ph w) = w_req w.
(* what an application wrote *)
Fixpoint written (l : list aact) : gstr := match l with [] => [] | AWrite b :: r => b ++ written r | _ :: r => written r end.
Definition last_status (l : list aact) : Z := fold_left (fun d a => match a with AStatus s => s | _ => d end) l 0%Z.
Definition header_after (l : list aact) (h : headers) : headers := fold_left (fun h a => match a with AHeader f => f h | _ => h end) l h.
Definition reply_positive (es : list entry) : Prop := match local_reply es with Some (st, _) => (0 < st)%Z | None => False end.

Lemma filter_all : forall (p : entry -> bool) l, Forall (fun e => p e = true) l -> filter p l = l.
Proof. intros p l H. induction H as [|x l Hx _ IH]; [reflexivity|]. cbn. now rewrite Hx, IH. Qed.
Lemma filter_none : forall (p : entry -> bool) l, Forall (fun e => p e = false) l -> filter p l = [].
Proof. intros p l H. induction H as [|x l Hx _ IH]; [reflexivity|]. cbn. now rewrite Hx. Qed.
Lemma acts_spec : forall l c, fold_left do_act l c = mkcrw (fold_left (fun d a => match a with AStatus s => s | _ => d end) l (c_status c)) (c_body c ++ written l) (header_after l (c_hdr c)).
Proof.
  induction l as [|a l IH]; intros c; cbn [fold_left written]; [destruct c; cbn; now rewrite app_nil_r|]. rewrite IH. destruct a; cbn; try reflexivity. now rewrite <- app_assoc.
Qed.

Section T.
Context {X : Type}.
Variable G : guest X.
Variable mw : middleware (X := X).
Hypothesis P : polite mw.

Definition start (x : X) (q : req) (h0 : headers) : world X := mw BeforeRequest (mkw x (set_qhdr q (hadd method_key (q_method q) (q_hdr q))) (Some (mkresp 0 h0 0 None)) []).
Lemma start_spec : forall x q h0, w_log (start x q h0) = [] /\ w_resp (start x q h0) = Some (mkresp 0 h0 0 None) /\ fixed q (w_req (start x q h0)) /\ q_body (w_req (start x q h0)) = q_body q.
Proof. intros x q h0. destruct (P BeforeRequest (mkw x (set_qhdr q (hadd method_key (q_method q) (q_hdr q))) (Some (mkresp 0 h0 0 None)) [])) as (A & B & C & D). auto. Qed.

(* everything about one request, in one place *)
Lemma serve_cases : forall ap fs x q h0, fresh q -> let r := serve G mw ap fs true true x q h0 in
  exists es1 es2, r_log r = es1 ++ es2 /\ Forall (fun e => is_req e = true) es1 /\ Forall (fun e => is_req e = false) es2 /\
    let okq := ~ failed es1 /\ (paused es1 \/ ~ body_breaks q) in
    (~ okq -> r_calls r = [] /\ es2 = [] /\ exists h, r_sent r = Sent 200 h []) /\
    (okq -> reply_positive es1 -> r_calls r = [] /\ es2 = [] /\ exists h st b, local_reply es1 = Some (st, b) /\ r_sent r = if (st <? 100)%Z || (999 <? st)%Z then Aborted else Sent st h b) /\
    (okq -> ~ reply_positive es1 -> exists q' h, r_calls r = [q'] /\ fixed q q' /\ (paused es1 -> q_body q' = q_body q) /\
       (failed es2 -> exists h', r_sent r = Sent 200 h' []) /\
       (~ failed es2 -> (forall e, In e es2 -> existsb is_send (en_calls e) = false) -> map what es2 = map (fun f => (f, ERespHeaders)) fs ++ piece_events fs ERespBody (pieces [RData (written (ap q' h))]))) /\
    (paused es1 -> okq /\ exists es0 e rest, es1 = es0 ++ [e] /\ Forall (fun y => en_verdict y = Continue) es0 /\ en_verdict e = Pause /\ Forall (fun y => en_event y = EReqHeaders) es1 /\ fs = map en_filter es1 ++ rest) /\
    (okq -> ~ paused es1 -> map what es1 = map (fun f => (f, EReqHeaders)) fs ++ match q_body q with Some b => piece_events fs EReqBody (pieces (script b)) | None => [] end).
Proof.
  intros ap fs x q h0 Hfr r. destruct (start_spec x q h0) as (S1 & S2 & S3 & S4). assert (Hr: r = serve G mw ap fs true true x q h0) by reflexivity. clearbody r. unfold serve in Hr. cbn [negb] in Hr. change (mw BeforeRequest (mkw x (set_qhdr q (hadd method_key (q_method q) (q_hdr q))) (Some (mkresp 0 h0 0 None)) [])) with (start x q h0) in Hr.
  destruct (handle_request G fs (start x q h0)) as [ok w] eqn:E. destruct (request_ext G _ _ _ _ E) as (es1 & (L1 & L2 & L3 & L4) & Hreq & Hok & Hpa & Hor); [intros b; rewrite S4; apply Hfr|].
  rewrite S1 in L1. cbn [app] in L1. rewrite S4 in *. assert (Hbb: body_breaks (w_req (start x q h0)) <-> body_breaks q) by (unfold body_breaks; rewrite S4; reflexivity). rewrite Hbb in Hok.
  destruct (L4 _ S2) as (p & Ep & Est & Hnb). destruct Hnb as [_ Hb]; [intros b; discriminate|]. cbn [p_status p_body] in *.
  assert (Hpq: paused es1 -> (~ failed es1 /\ (paused es1 \/ ~ body_breaks q)) /\ exists es0 e rest, es1 = es0 ++ [e] /\ Forall (fun y => en_verdict y = Continue) es0 /\ en_verdict e = Pause /\ Forall (fun y => en_event y = EReqHeaders) es1 /\ fs = map en_filter es1 ++ rest).
  { intros Hp. destruct (Hpa Hp) as (K1 & _ & K2). split; [apply Hok; exact K1|exact K2]. }
  assert (Hor': ~ failed es1 /\ (paused es1 \/ ~ body_breaks q) -> ~ paused es1 -> map what es1 = map (fun f => (f, EReqHeaders)) fs ++ match q_body q with Some b => piece_events fs EReqBody (pieces (script b)) | None => [] end).
  { intros K1 K2. apply Hor; [apply Hok; exact K1|exact K2]. }
  unfold resp_or in Hr. rewrite Ep in Hr. destruct ok.
  - pose proof (proj1 Hok eq_refl) as Hq. destruct (0 <? p_status p)%Z eqn:Es.
    + exists es1, []. subst r. cbn [r_log r_calls r_sent]. split; [now rewrite app_nil_r|]. split; [exact Hreq|]. split; [constructor|]. apply Z.ltb_lt in Es. unfold reply_positive in *.
      destruct (local_reply es1) as [[st b]|] eqn:El; [|lia]. subst st. split; [intros K; destruct (K Hq)|]. split; [|split; [intros _ K; destruct (K Es)|split; [exact Hpq|exact Hor']]].
      intros _ _. split; [reflexivity|]. split; [reflexivity|]. exists (p_hdr p), (p_status p), b. split; [reflexivity|]. unfold write_response. rewrite Hb. cbn [script bytes_of]. now rewrite app_nil_r.
    + apply Z.ltb_ge in Es. assert (Hnr: ~ reply_positive es1). { unfold reply_positive. destruct (local_reply es1) as [[st b]|]; [lia|tauto]. }
      rewrite acts_spec in Hr. cbn [c_status c_body c_hdr app] in Hr. set (acts := ap (w_req w) (p_hdr p)) in *. cbn zeta in Hr.
      match type of Hr with context [mw AfterRequest ?a] => set (wa := a) in * end. destruct (P AfterRequest wa) as (A1 & A2 & A3 & A4).
      match type of Hr with context [mw BeforeResponse ?a] => set (wb := a) in * end. destruct (P BeforeResponse wb) as (B1 & B2 & B3 & B4).
      assert (Lb: w_log (mw BeforeResponse wb) = es1). { rewrite B1. unfold wb. cbn [with_resp w_log]. rewrite A1. exact L1. }
      destruct (handle_response G fs (mw BeforeResponse wb)) as [[ok2 o] w3] eqn:E3. destruct (response_ext G _ _ _ _ _ E3) as (e1 & e2 & w1 & X1 & X2 & X3 & X4 & X5 & X6 & X7 & X8 & X9).
      rewrite Lb in X2. exists es1, (e1 ++ e2).
      assert (Hlog: r_log r = es1 ++ e1 ++ e2). { subst r. destruct ok2; cbn [r_log]; [|exact X2]. destruct (P AfterResponse w3) as (C1 & _). rewrite C1. exact X2. }
      split; [exact Hlog|]. split; [exact Hreq|]. split; [exact X4|].
      assert (Hcalls: r_calls r = [w_req w]) by (subst r; destruct ok2; reflexivity).
      split; [intros K; destruct (K Hq)|]. split; [intros _ K; destruct (Hnr K)|]. split; [|split; [exact Hpq|exact Hor']].
      intros _ _. exists (w_req w), (p_hdr p). split; [exact Hcalls|]. split; [eapply fixed_trans; eassumption|]. split; [intros Hp; destruct (Hpa Hp) as (_ & K & _); exact K|]. fold acts. split.
      * intros Hf. apply X7 in Hf. subst ok2. subst r. eexists. reflexivity.
      * intros Hnf Hns. destruct X1 as (_ & _ & _ & Y4). unfold wb in B2. cbn [with_resp w_resp] in B2. destruct (Y4 _ B2) as (p' & Ep' & _ & Hp'). destruct Hp' as [_ Hp']; [intros b; discriminate|].
        assert (Hl0: local_reply e1 = None).
        { unfold local_reply. assert (Hc: forall c, In c (flat_map en_calls e1) -> is_send c = false).
          { intros c Hc. apply in_flat_map in Hc. destruct Hc as (e & He & Hc). specialize (Hns e (in_or_app _ _ _ (or_introl He))). destruct (is_send c) eqn:Ec; [|reflexivity]. assert (existsb is_send (en_calls e) = true) by (apply existsb_exists; eauto). congruence. }
          revert Hc. generalize (flat_map en_calls e1). induction l as [|c l IH]; intros Hc; [reflexivity|]. cbn [fold_left]. pose proof (Hc c (or_introl eq_refl)) as Hx. destruct c; try discriminate; apply IH; intros; apply Hc; now right. }
        rewrite Hl0 in Hp'. cbn [p_body] in Hp'. destruct ok2.
        -- destruct (X8 eq_refl) as [Z1 Z2]. destruct (Z2 _ _ Ep' Hp') as [_ Z3]. rewrite map_app, Z1, Z3. reflexivity.
        -- destruct (X9 eq_refl) as [K|(p2 & b2 & K1 & K2 & K3)]; [destruct (Hnf K)|]. rewrite Ep' in K1. injection K1 as <-. rewrite Hp' in K2. injection K2 as <-. discriminate.
  - exists es1, []. subst r. cbn [r_log r_calls r_sent]. split; [now rewrite app_nil_r|]. split; [exact Hreq|]. split; [constructor|].
    assert (Hq: ~ (~ failed es1 /\ (paused es1 \/ ~ body_breaks q))). { intros K. apply Hok in K. discriminate. }
    split; [intros _; split; [reflexivity|]; split; [reflexivity|]; eexists; reflexivity|]. split; [intros K; destruct (Hq K)|]. split; [intros K; destruct (Hq K)|]. split; [exact Hpq|exact Hor'].
Qed.
End T.

Lemma failed_dec : forall es, failed es \/ ~ failed es.
Proof.
  intros es. destruct (existsb (fun e => match en_verdict e with Fail => true | _ => false end) es) eqn:E; [left|right].
  - apply existsb_exists in E. destruct E as (e & Hi & Hv). exists e. split; [exact Hi|]. now destruct (en_verdict e).
  - intros (e & Hi & Hv). apply Bool.not_true_iff_false in E. apply E. apply existsb_exists. exists e. rewrite Hv. auto.
Qed.
Lemma paused_dec : forall es, paused es \/ ~ paused es.
Proof.
  intros es. destruct (existsb (fun e => match en_event e, en_verdict e with EReqHeaders, Pause => true | _, _ => false end) es) eqn:E; [left|right].
  - apply existsb_exists in E. destruct E as (e & Hi & Hv). exists e. split; [exact Hi|]. now destruct (en_event e), (en_verdict e).
  - intros (e & Hi & Hv & Hp). apply Bool.not_true_iff_false in E. apply E. apply existsb_exists. exists e. rewrite Hv, Hp. auto.
Qed.
Lemma goes_dec : forall es q, (~ failed es /\ (paused es \/ ~ body_breaks q)) \/ ~ (~ failed es /\ (paused es \/ ~ body_breaks q)).
Proof.
  intros es q. assert (Db: body_breaks q \/ ~ body_breaks q). { unfold body_breaks. destruct (q_body q) as [b|]; [|tauto]. destruct (breaks (script b)); [left; reflexivity|right; discriminate]. }
  pose proof (failed_dec es). pose proof (paused_dec es). tauto.
Qed.
Lemma reply_dec : forall es, reply_positive es \/ ~ reply_positive es.
Proof. intros es. unfold reply_positive. destruct (local_reply es) as [[st b]|]; [lia|tauto]. Qed.
Lemma failed_app : forall a b, failed (a ++ b) <-> failed a \/ failed b.
Proof. intros a b. unfold failed. split; [intros (e & Hi & Hv); apply in_app_or in Hi; destruct Hi; eauto|]. intros [(e & Hi & Hv)|(e & Hi & Hv)]; exists e; (split; [apply in_or_app; auto|exact Hv]). Qed.
Lemma split_log : forall es1 es2, Forall (fun e => is_req e = true) es1 -> Forall (fun e => is_req e = false) es2 -> filter is_req (es1 ++ es2) = es1.
Proof. intros a b Ha Hb. rewrite filter_app, (filter_all _ _ Ha), (filter_none _ _ Hb). apply app_nil_r. Qed.

(* The application is called at most once, and exactly if the stream could be created, no filter failed on the request, its body could
   be read (or a filter paused before), and no filter answered with a positive status. *)
Theorem C79_called_iff : forall X (G : guest X) mw ap fs stream flush x q h0, polite mw -> fresh q ->
  let r := serve G mw ap fs stream flush x q h0 in let es := filter is_req (r_log r) in
  length (r_calls r) <= 1 /\
  (r_calls r <> [] <-> stream = true /\ flush = true /\ ~ failed es /\ (paused es \/ ~ body_breaks q) /\ ~ reply_positive es).
Proof.
  intros X G mw ap fs stream flush x q h0 HP Hfr r es. destruct stream; [|split; [cbn; lia|split; [intros K; destruct K; reflexivity|intros (K & _); discriminate]]].
  destruct flush; [|split; [cbn; lia|split; [intros K; destruct K; reflexivity|intros (_ & K & _); discriminate]]].
  destruct (serve_cases G mw HP ap fs x q h0 Hfr) as (es1 & es2 & Hl & H1 & H2 & C1 & C2 & C3 & C4 & C5). fold r in Hl, C1, C2, C3. assert (Ee: es = es1) by (unfold es; rewrite Hl; now apply split_log). rewrite Ee. clear es Ee.
  pose proof (goes_dec es1 q) as D. pose proof (reply_dec es1) as R.
  destruct D as [D|D].
  - destruct R as [R|R].
    + destruct (C2 D R) as (K & _). rewrite K. cbn. clear - D R. split; [lia|]. tauto.
    + destruct (C3 D R) as (q' & h & K & _). rewrite K. cbn. clear - D R. split; [lia|]. split; [intros _; tauto|discriminate].
  - destruct (C1 D) as (K & _). rewrite K. cbn. clear - D R. split; [lia|]. tauto.
Qed.
Print Assumptions C79_called_iff.

(* A local answer of a filter reaches the client: the status and body of the last one; no filter sees it as a response. *)
Theorem C79_local_reply : forall X (G : guest X) mw ap fs x q h0 st b, polite mw -> fresh q ->
  let r := serve G mw ap fs true true x q h0 in let es := filter is_req (r_log r) in
  local_reply es = Some (st, b) -> (0 < st)%Z -> ~ failed es -> paused es \/ ~ body_breaks q ->
  r_calls r = [] /\ r_log r = es /\ exists h, r_sent r = if (st <? 100)%Z || (999 <? st)%Z then Aborted else Sent st h b.
Proof.
  intros X G mw ap fs x q h0 st b HP Hfr r es Hl Hst Hnf Hb.
  destruct (serve_cases G mw HP ap fs x q h0 Hfr) as (es1 & es2 & Hlog & H1 & H2 & C1 & C2 & C3 & C4 & C5). fold r in Hlog, C1, C2, C3. assert (Ee: es = es1) by (unfold es; rewrite Hlog; now apply split_log). rewrite Ee in *. clear es Ee.
  destruct (C2 (conj Hnf Hb)) as (K1 & K2 & h & st' & b' & K3 & K4); [unfold reply_positive; now rewrite Hl|]. rewrite Hl in K3. injection K3 as <- <-. split; [exact K1|]. split; [rewrite Hlog, K2; apply app_nil_r|]. exists h. exact K4.
Qed.
Print Assumptions C79_local_reply.

(* When the application is called and no filter fails, pauses or answers itself, every filter is called once per header and once per
   piece of a body, in the configured order, for the request and - in the same order - for the response. *)
Theorem C79_order : forall X (G : guest X) mw ap fs x q h0, polite mw -> fresh q ->
  let r := serve G mw ap fs true true x q h0 in
  ~ failed (r_log r) -> ~ paused (r_log r) -> ~ body_breaks q -> (forall e, In e (r_log r) -> existsb is_send (en_calls e) = false) ->
  exists q' h, r_calls r = [q'] /\
    map what (r_log r) = map (fun f => (f, EReqHeaders)) fs ++ (match q_body q with Some b => piece_events fs EReqBody (pieces (script b)) | None => [] end) ++
                         map (fun f => (f, ERespHeaders)) fs ++ piece_events fs ERespBody (pieces [RData (written (ap q' h))]).
Proof.
  intros X G mw ap fs x q h0 HP Hfr r Hnf Hnp Hnb Hns.
  destruct (serve_cases G mw HP ap fs x q h0 Hfr) as (es1 & es2 & Hlog & H1 & H2 & C1 & C2 & C3 & C4 & C5). fold r in Hlog, C1, C2, C3. rewrite Hlog in *.
  assert (Hq: ~ failed es1 /\ (paused es1 \/ ~ body_breaks q)). { split; [intros K; apply Hnf, failed_app; auto|auto]. }
  assert (Hnp1: ~ paused es1). { intros (e & Hi & K). apply Hnp. exists e. split; [apply in_or_app; auto|exact K]. }
  assert (Hnr: ~ reply_positive es1).
  { unfold reply_positive, local_reply. assert (Hc: forall c, In c (flat_map en_calls es1) -> is_send c = false).
    { intros c Hc. apply in_flat_map in Hc. destruct Hc as (e & He & Hc). specialize (Hns e (in_or_app _ _ _ (or_introl He))). destruct (is_send c) eqn:Ec; [|reflexivity]. assert (existsb is_send (en_calls e) = true) by (apply existsb_exists; eauto). congruence. }
    revert Hc. generalize (flat_map en_calls es1). induction l as [|c l IH]; intros Hc; [tauto|]. cbn [fold_left]. pose proof (Hc c (or_introl eq_refl)) as Hx. destruct c; try discriminate; apply IH; intros; apply Hc; now right. }
  destruct (C3 Hq Hnr) as (q' & h & K1 & _ & _ & _ & K2). exists q', h. split; [exact K1|]. rewrite map_app, (C5 Hq Hnp1), K2; [now rewrite <- app_assoc|intros K; apply Hnf, failed_app; auto|]. intros e He. apply Hns. apply in_or_app. auto.
Qed.
Print Assumptions C79_order.

(* Defect: a failing filter - on the request or on the response - makes the client see 200 with an empty body. *)
Theorem C79_failure_answers_200_refuted : forall X (G : guest X) mw ap fs x q h0, polite mw -> fresh q ->
  let r := serve G mw ap fs true true x q h0 in failed (r_log r) -> exists h, r_sent r = Sent 200 h [].
Proof.
  intros X G mw ap fs x q h0 HP Hfr r Hf.
  destruct (serve_cases G mw HP ap fs x q h0 Hfr) as (es1 & es2 & Hlog & H1 & H2 & C1 & C2 & C3 & C4 & C5). fold r in Hlog, C1, C2, C3. rewrite Hlog in Hf. apply failed_app in Hf.
  destruct Hf as [Hf|Hf].
  - apply C1. intros [K _]. now apply K.
  - assert (Hne: es2 <> []) by (intros ->; destruct Hf as (e & [] & _)).
    destruct (goes_dec es1 q) as [D|D]; [|apply C1; exact D].
    destruct (reply_dec es1) as [R|R]; [destruct (C2 D R) as (_ & K & _); contradiction|]. destruct (C3 D R) as (q' & h & _ & _ & _ & K & _). now apply K.
Qed.
Print Assumptions C79_failure_answers_200_refuted.
Theorem C79_no_stream_answers_200_refuted : forall X (G : guest X) mw ap fs flush x q h0, r_sent (serve G mw ap fs false flush x q h0) = Sent 200 h0 [].
Proof. reflexivity. Qed.
Print Assumptions C79_no_stream_answers_200_refuted.

(* Defect: a pause does not hold the request back.  The filters after the pausing one do not see the request, no filter sees its body,
   and without a local answer the application gets it, with the body as it came. *)
Theorem C79_pause_skips_filters_refuted : forall X (G : guest X) mw ap fs x q h0, polite mw -> fresh q ->
  let r := serve G mw ap fs true true x q h0 in let es := filter is_req (r_log r) in
  paused es ->
  (exists es0 e rest, es = es0 ++ [e] /\ en_verdict e = Pause /\ Forall (fun y => en_verdict y = Continue) es0 /\ Forall (fun y => en_event y = EReqHeaders) es /\ fs = map en_filter es ++ rest) /\
  (~ reply_positive es -> exists q', r_calls r = [q'] /\ q_body q' = q_body q).
Proof.
  intros X G mw ap fs x q h0 HP Hfr r es Hp.
  destruct (serve_cases G mw HP ap fs x q h0 Hfr) as (es1 & es2 & Hlog & H1 & H2 & C1 & C2 & C3 & C4 & C5). fold r in Hlog, C1, C2, C3. assert (Ee: es = es1) by (unfold es; rewrite Hlog; now apply split_log). rewrite Ee in *. clear es Ee.
  destruct (C4 Hp) as (D & es0 & e & rest & A1 & A2 & A3 & A4 & A5). split; [exists es0, e, rest; auto|]. intros R. destruct (C3 D R) as (q' & h & K1 & _ & K2 & _). exists q'. auto.
Qed.
Print Assumptions C79_pause_skips_filters_refuted.
