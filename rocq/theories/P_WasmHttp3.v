(* C79: the outbound transport, and filters that do nothing. *)
From Coq Require Import String List Ascii Bool Arith ZArith Lia.
From Verif Require Import M_GoStr M_GoMap L_GoMap M_WasmHttp P_WasmHttp P_WasmHttp2.
Import ListNotations.
Open Scope list_scope.

(* --- specification --- *)
(* the bytes a body gives before its end *)
Definition content (b : option body) : option gstr := match b with Some b => Some (bytes_of (script b)) | None => None end.
Definition resp_breaks (p : resp) : Prop := match p_body p with Some b => breaks (script b) = true | None => False end.
Definition is_resp_headers (e : entry) : bool := match en_event e with ERespHeaders => true | _ => false end.
(* guests that make no host calls and always continue; they may keep state *)
Definition silent {X} (G : guest X) : Prop := forall f ev w, exists x, G f ev w = (x, [], Continue).

Lemma sends_none : forall es, (forall e, In e es -> existsb is_send (en_calls e) = false) -> local_reply es = None.
Proof.
  intros es H. unfold local_reply. assert (Hc: forall c, In c (flat_map en_calls es) -> is_send c = false).
  { intros c Hc. apply in_flat_map in Hc. destruct Hc as (e & He & Hc). specialize (H e He). destruct (is_send c) eqn:Ec; [|reflexivity]. assert (existsb is_send (en_calls e) = true) by (apply existsb_exists; eauto). congruence. }
  revert Hc. generalize (flat_map en_calls es). induction l as [|c l IH]; intros Hc; [reflexivity|]. cbn [fold_left]. pose proof (Hc c (or_introl eq_refl)) as Hx. destruct c; try discriminate; apply IH; intros; apply Hc; now right.
Qed.

Section T.
Context {X : Type}.
Variable G : guest X.
Variable mw : middleware (X := X).
Hypothesis P : polite mw.
Lemma trans_cases : forall rt fs x q, fresh q -> let r := round_trip G mw rt fs true x q in
  exists es1 e1 e2, t_log r = es1 ++ e1 ++ e2 /\ Forall (fun e => is_req e = true) es1 /\ Forall (fun e => is_req e = false) (e1 ++ e2) /\
  Forall (fun e => en_event e = ERespHeaders) e1 /\ Forall (fun e => exists n eos, en_event e = ERespBody n eos) e2 /\
  (~ (~ failed es1 /\ (paused es1 \/ ~ body_breaks q)) -> t_calls r = [] /\ e1 = [] /\ e2 = [] /\ t_resp r = None) /\
  (~ failed es1 /\ (paused es1 \/ ~ body_breaks q) -> exists q', t_calls r = [q'] /\ q_ctx q' = 0 /\ q_len q' = q_len q /\ q_method q' = q_method q /\ q_host q' = q_host q /\
     (paused es1 -> q_body q' = q_body q) /\
     (rt q' = None -> t_resp r = None) /\
     (forall p, rt q' = Some p -> nobuf p -> (t_resp r <> None <-> ~ failed (e1 ++ e2) /\ (local_reply e1 <> None \/ ~ resp_breaks p)))).
Proof.
  intros rt fs x q Hfr r. assert (Hr: r = round_trip G mw rt fs true x q) by reflexivity. clearbody r. unfold round_trip in Hr. cbn [negb] in Hr. cbn zeta in Hr.
  match type of Hr with context [mw BeforeRequest ?a] => set (w0 := a) in * end. destruct (P BeforeRequest w0) as (A1 & A2 & A3 & A4).
  destruct (handle_request G fs (mw BeforeRequest w0)) as [ok w] eqn:E.
  assert (Hf0: fresh (w_req (mw BeforeRequest w0))). { intros b. rewrite A4. apply Hfr. }
  destruct (request_ext G _ _ _ _ E Hf0) as (es1 & HE & Hreq & Hok & Hpa & Hor).
  assert (Bb: body_breaks (w_req (mw BeforeRequest w0)) <-> body_breaks q). { unfold body_breaks. rewrite A4. reflexivity. }
  destruct HE as (L1 & F1 & N1 & _). rewrite A1 in L1. cbn [w0 w_log app] in L1. destruct ok.
  - pose proof (proj1 Hok eq_refl) as Hq. destruct (P AfterRequest w) as (B1 & B2 & B3 & B4). set (w1 := mw AfterRequest w) in *.
    pose proof (fixed_trans _ _ _ (fixed_trans _ _ _ A3 F1) B3) as (Q1 & Q2 & Q3 & Q4). cbn [w0 w_req q_ctx q_len q_method q_host] in Q1, Q2, Q3, Q4.
    assert (Hpb: paused es1 -> q_body (w_req w1) = q_body q). { intros Hp. destruct (Hpa Hp) as (_ & K & _). rewrite B4, K, A4. reflexivity. }
    destruct (rt (w_req w1)) as [p|] eqn:Ep.
    + match type of Hr with context [mw BeforeResponse ?a] => set (wb := a) in * end. destruct (P BeforeResponse wb) as (C1 & C2 & C3 & C4).
      destruct (handle_response G fs (mw BeforeResponse wb)) as [[ok2 o] w3] eqn:E3. destruct (response_ext G _ _ _ _ _ E3) as (e1 & e2 & w4 & X1 & X2 & X3 & X4 & X5 & X6 & X7 & X8 & X9).
      assert (Lb: w_log (mw BeforeResponse wb) = es1) by (rewrite C1; unfold wb; cbn [with_resp w_log]; now rewrite B1).
      rewrite Lb in X2. exists es1, e1, e2.
      assert (Hlog: t_log r = es1 ++ e1 ++ e2). { subst r. destruct ok2; cbn [t_log]; [|exact X2]. destruct (P AfterResponse w3) as (D1 & _). now rewrite D1. }
      split; [exact Hlog|]. split; [exact Hreq|]. split; [exact X4|]. split; [exact X5|]. split; [exact X6|]. split; [intros K; destruct K; split; [apply Hq|destruct Hq as [_ [K|K]]; [auto|right; intros K2; apply K, Bb, K2]]|]. intros _.
      exists (w_req w1). split; [subst r; destruct ok2; reflexivity|]. split; [exact Q1|]. split; [exact Q2|]. split; [exact Q3|]. split; [exact Q4|]. split; [exact Hpb|]. split; [intros K; congruence|].
      intros p0 Hp0 Hnb. rewrite Ep in Hp0. injection Hp0 as <-. destruct X1 as (_ & _ & _ & Y4). unfold wb in C2. cbn [with_resp w_resp] in C2. destruct (Y4 _ C2) as (p' & Ep' & _ & Hp'). destruct (Hp' Hnb) as [_ Hpb'].
      destruct ok2.
      * assert (Hw3: exists y, w_resp w3 = Some y).
        { unfold handle_response in E3. destruct (all_pass G fs ERespHeaders (mw BeforeResponse wb)) as [k1 v1] eqn:Ea. destruct k1; [|discriminate]. destruct (all_ext G _ _ _ _ _ Ea) as (ea & (_ & _ & _ & Z4) & _). destruct (Z4 _ C2) as (pa & Epa & _). rewrite Epa in E3.
          destruct (p_body pa) as [ba|]; [|injection E3 as _ <-; eauto]. match type of E3 with context [body_loop G fs add_resp ERespBody ?s ?v] => destruct (body_loop G fs add_resp ERespBody s v) as [k2 v2] eqn:El end.
          destruct (body_ext G _ _ _ _ _ _ _ add_resp_quiet El) as (eb & (_ & _ & _ & Z5) & _). cbn [with_resp w_resp] in Z5. destruct (Z5 _ eq_refl) as (pb & Epb & _). destruct k2; try discriminate. injection E3 as _ <-. eauto. }
        destruct Hw3 as (y & Hy). subst r. cbn [t_resp]. destruct (P AfterResponse w3) as (_ & D2 & _). rewrite D2, Hy. split; [intros _|discriminate].
        split; [intros K; apply X7 in K; discriminate|]. destruct (local_reply e1) as [[st b]|] eqn:El; [left; discriminate|]. right. unfold resp_breaks. destruct (p_body p) as [b|]; [|tauto]. destruct (X8 eq_refl) as [_ Z2]. destruct (Z2 _ _ Ep' Hpb') as [Z3 _]. congruence.
      * subst r. cbn [t_resp]. split; [intros K; destruct K; reflexivity|]. intros [K1 K2]. exfalso. destruct (X9 eq_refl) as [K|(p2 & b2 & Z1 & Z2 & Z3)]; [contradiction|]. rewrite Ep' in Z1. injection Z1 as <-. rewrite Hpb' in Z2.
        destruct (local_reply e1) as [[st b]|]; [injection Z2 as <-; discriminate|]. destruct K2 as [K2|K2]; [now apply K2|]. apply K2. unfold resp_breaks. rewrite Z2. exact Z3.
    + exists es1, [], []. subst r. cbn [t_log t_calls t_resp app]. split; [rewrite app_nil_r; now rewrite B1|]. split; [exact Hreq|]. do 3 (split; [constructor|]). split; [intros K; destruct K; split; [apply Hq|destruct Hq as [_ [K|K]]; [auto|right; intros K2; apply K, Bb, K2]]|]. intros _.
      exists (w_req w1). split; [reflexivity|]. split; [exact Q1|]. split; [exact Q2|]. split; [exact Q3|]. split; [exact Q4|]. split; [exact Hpb|]. split; [reflexivity|]. intros p Hp. congruence.
  - exists es1, [], []. subst r. cbn [t_log t_calls t_resp app]. split; [now rewrite app_nil_r|]. split; [exact Hreq|]. do 3 (split; [constructor|]). split; [auto|].
    intros [K1 K2]. exfalso. assert (false = true); [|discriminate]. apply Hok. split; [exact K1|]. destruct K2 as [K2|K2]; [auto|right; intros K3; apply K2, Bb, K3].
Qed.
End T.

(* The request goes out at most once, and exactly if the stream could be created, no filter failed on it and its body could be read (or a
   filter paused before).  A local answer of a filter does not hold it back. *)
Theorem C79_sent_iff : forall X (G : guest X) mw rt fs stream x q, polite mw -> fresh q ->
  let r := round_trip G mw rt fs stream x q in let es := filter is_req (t_log r) in
  length (t_calls r) <= 1 /\ (t_calls r <> [] <-> stream = true /\ ~ failed es /\ (paused es \/ ~ body_breaks q)).
Proof.
  intros X G mw rt fs stream x q HP Hfr r es. destruct stream; [|split; [cbn; lia|split; [intros K; destruct K; reflexivity|intros (K & _); discriminate]]].
  destruct (trans_cases G mw HP rt fs x q Hfr) as (es1 & e1 & e2 & Hl & H1 & H2 & H3 & H4 & C1 & C2). fold r in Hl, C1, C2. assert (Ee: es = es1) by (unfold es; rewrite Hl; now apply split_log). rewrite Ee. clear es Ee.
  pose proof (goes_dec es1 q) as D.
  destruct D as [D|D].
  - destruct (C2 D) as (q' & K & _). rewrite K. cbn. clear - D. split; [lia|]. split; [tauto|discriminate].
  - destruct (C1 D) as (K & _). rewrite K. cbn. clear - D. split; [lia|]. tauto.
Qed.
Print Assumptions C79_sent_iff.

(* The caller gets a response exactly if the inner transport gave one, no filter failed on it, and its body could be read or a filter
   replaced it while it saw the headers. *)
Theorem C79_response_iff : forall X (G : guest X) mw rt fs x q q' p, polite mw -> fresh q ->
  let r := round_trip G mw rt fs true x q in
  t_calls r = [q'] -> rt q' = Some p -> nobuf p ->
  (t_resp r <> None <-> ~ failed (t_log r) /\ (local_reply (filter is_resp_headers (t_log r)) <> None \/ ~ resp_breaks p)).
Proof.
  intros X G mw rt fs x q q' p HP Hfr r Hc Hrt Hnb.
  destruct (trans_cases G mw HP rt fs x q Hfr) as (es1 & e1 & e2 & Hl & H1 & H2 & H3 & H4 & C1 & C2). fold r in Hl, C1, C2.
  assert (D: ~ failed es1 /\ (paused es1 \/ ~ body_breaks q)).
  { destruct (C79_sent_iff X G mw rt fs true x q HP Hfr) as [_ [Hs _]]. fold r in Hs. rewrite Hl in Hs. rewrite split_log in Hs by assumption. apply Hs. rewrite Hc. discriminate. }
  destruct (C2 D) as (q2 & K1 & _ & _ & _ & _ & _ & _ & K2). rewrite Hc in K1. injection K1 as <-. rewrite (K2 p Hrt Hnb), Hl.
  assert (Hf: filter is_resp_headers (es1 ++ e1 ++ e2) = e1).
  { rewrite !filter_app, (filter_all _ e1), (filter_none _ es1), (filter_none _ e2); [apply app_nil_r| | |].
    - eapply Forall_impl; [|exact H4]. intros e (n & eos & He). unfold is_resp_headers. now rewrite He.
    - eapply Forall_impl; [|exact H1]. intros e He. unfold is_req in He. unfold is_resp_headers. destruct (en_event e); try discriminate; reflexivity.
    - eapply Forall_impl; [|exact H3]. intros e He. unfold is_resp_headers. now rewrite He. }
  rewrite Hf. assert (Hx: failed (es1 ++ e1 ++ e2) <-> failed (e1 ++ e2)) by (rewrite failed_app; tauto). tauto.
Qed.
Print Assumptions C79_response_iff.

(* Defect: the context of the caller - cancellation, deadline, values - never reaches the inner transport, and the declared length stays
   what it was, whatever filters do to the body. *)
Theorem C79_context_and_length_refuted : forall X (G : guest X) mw rt fs x q q', polite mw -> fresh q ->
  t_calls (round_trip G mw rt fs true x q) = [q'] -> q_ctx q' = 0 /\ q_len q' = q_len q.
Proof.
  intros X G mw rt fs x q q' HP Hfr Hc.
  destruct (trans_cases G mw HP rt fs x q Hfr) as (es1 & e1 & e2 & Hl & H1 & H2 & H3 & H4 & C1 & C2).
  destruct (C79_sent_iff X G mw rt fs true x q HP Hfr) as [_ [Hs _]]. rewrite Hl in Hs. rewrite split_log in Hs by assumption.
  destruct C2 as (q2 & K1 & K2 & K3 & _); [apply Hs; rewrite Hc; discriminate|]. rewrite Hc in K1. injection K1 as <-. auto.
Qed.
Print Assumptions C79_context_and_length_refuted.

(* Defect: when a filter fails on the headers of a response that has a body, the caller gets an error and nobody closes that body. *)
Theorem C79_left_open_refuted : forall X (G : guest X) mw rt fs x q q' p, polite mw -> fresh q ->
  let r := round_trip G mw rt fs true x q in
  t_calls r = [q'] -> rt q' = Some p -> nobuf p -> p_body p <> None ->
  failed (filter is_resp_headers (t_log r)) -> t_resp r = None /\ t_left r = true.
Proof.
  intros X G mw rt fs x q q' p HP Hfr r Hc Hrt Hnb Hb Hf. split.
  - destruct (C79_response_iff X G mw rt fs x q q' p HP Hfr Hc Hrt Hnb) as [K _]. fold r in K. destruct (t_resp r) eqn:E; [|reflexivity]. destruct K as [K _]; [discriminate|]. destruct K. destruct Hf as (e & Hi & Hv). exists e. split; [|exact Hv]. apply filter_In in Hi. apply Hi.
  - assert (Hr: r = round_trip G mw rt fs true x q) by reflexivity. unfold round_trip in Hr. cbn [negb] in Hr. cbn zeta in Hr. clearbody r.
    match type of Hr with context [mw BeforeRequest ?a] => set (w0 := a) in * end. destruct (HP BeforeRequest w0) as (A1 & A2 & A3 & A4).
    destruct (handle_request G fs (mw BeforeRequest w0)) as [ok w] eqn:E. destruct ok; [|subst r; discriminate].
    assert (Hf0: fresh (w_req (mw BeforeRequest w0))). { intros b. rewrite A4. apply Hfr. }
    destruct (request_ext G _ _ _ _ E Hf0) as (es1 & (L1 & _) & Hreq & _). rewrite A1 in L1. cbn [w0 w_log app] in L1. destruct (HP AfterRequest w) as (B1 & _).
    assert (Hq: q' = w_req (mw AfterRequest w)). { destruct (rt (w_req (mw AfterRequest w))) as [p1|]; [destruct (handle_response G fs _) as [[[] ?] ?]|]; subst r; cbn [t_calls] in Hc; congruence. }
    subst q'. rewrite Hrt in Hr.
    match type of Hr with context [mw BeforeResponse ?a] => set (wb := a) in * end. destruct (HP BeforeResponse wb) as (C1 & C2 & _).
    assert (Lb: w_log (mw BeforeResponse wb) = es1) by (rewrite C1; unfold wb; cbn [with_resp w_log]; now rewrite B1). unfold wb in C2. cbn [with_resp w_resp] in C2.
    destruct (handle_response G fs (mw BeforeResponse wb)) as [[ok2 o] w3] eqn:E3. destruct (response_ext G _ _ _ _ _ E3) as (e1 & e2 & w4 & X1 & X2 & X3 & X4 & X5 & X6 & X7 & X8 & X9). rewrite Lb in X2.
    assert (Hl: t_log r = es1 ++ e1 ++ e2). { subst r. destruct ok2; cbn [t_log]; [|exact X2]. destruct (HP AfterResponse w3) as (D1 & _). now rewrite D1. }
    rewrite Hl in Hf. assert (Hfe: failed e1).
    { destruct Hf as (e & Hi & Hv). exists e. split; [|exact Hv]. apply filter_In in Hi. destruct Hi as [Hi Hh]. apply in_app_or in Hi. destruct Hi as [Hi|Hi].
      - rewrite Forall_forall in Hreq. apply Hreq in Hi. unfold is_req in Hi. unfold is_resp_headers in Hh. destruct (en_event e); discriminate.
      - apply in_app_or in Hi. destruct Hi as [Hi|Hi]; [exact Hi|]. rewrite Forall_forall in X6. apply X6 in Hi. destruct Hi as (n & eos & He). unfold is_resp_headers in Hh. rewrite He in Hh. discriminate. }
    assert (Ho: o = true).
    { unfold handle_response in E3. destruct (all_pass G fs ERespHeaders (mw BeforeResponse wb)) as [k1 v1] eqn:Ea. destruct (all_ext G _ _ _ _ _ Ea) as (ea & (La & _) & Hea & Hk). destruct k1.
      - exfalso. destruct Hk as [_ Hk].
        assert (Hle: exists eb, w_log w3 = w_log v1 ++ eb /\ Forall (fun e => exists n eos, en_event e = ERespBody n eos) eb).
        { destruct (w_resp v1) as [p1|]; [|injection E3 as _ _ <-; exists []; split; [now rewrite app_nil_r|constructor]]. destruct (p_body p1) as [b1|]; [|injection E3 as _ _ <-; exists []; split; [now rewrite app_nil_r|constructor]].
          match type of E3 with context [body_loop G fs add_resp ERespBody ?s ?v] => destruct (body_loop G fs add_resp ERespBody s v) as [k2 v2] eqn:El end.
          destruct (body_ext G _ _ _ _ _ _ _ add_resp_quiet El) as (eb & (Lv & _) & Hev & _). cbn [with_resp w_log] in Lv. exists eb. destruct k2; injection E3 as _ _ <-; auto. }
        destruct Hle as (eb & Hle & Heb). rewrite X2, La, Lb, <- app_assoc in Hle. apply app_inv_head in Hle.
        destruct Hfe as (e & Hi & Hv). assert (Hi2: In e (ea ++ eb)) by (rewrite <- Hle; apply in_or_app; auto). apply in_app_or in Hi2. destruct Hi2 as [Hi2|Hi2].
        + rewrite Forall_forall in Hk. now apply Hk in Hi2.
        + rewrite Forall_forall in Heb, X5. apply Heb in Hi2. apply X5 in Hi. destruct Hi2 as (n & eos & K). congruence.
      - injection E3 as _ <- _. change (w_resp (mw BeforeResponse wb) = Some p) in C2. rewrite C2. destruct (p_body p); [reflexivity|congruence]. }
    subst o. subst r. destruct ok2; [|reflexivity]. reflexivity.
Qed.
Print Assumptions C79_left_open_refuted.

(* --- filters that do nothing --- *)
Section S.
Context {X : Type}.
Variable G : guest X.
Hypothesis S : silent G.
Definition same (w w' : world X) : Prop := w_req w' = w_req w /\ w_resp w' = w_resp w.
Lemma silent_callback : forall f ev w, exists w', callback G f ev w = (Continue, w') /\ same w w'.
Proof. intros f ev w. unfold callback. destruct (S f ev w) as [x ->]. eexists. split; [reflexivity|]. split; reflexivity. Qed.
Lemma silent_headers : forall fs w, exists w', headers_pass G fs w = (Continue, w') /\ same w w'.
Proof.
  induction fs as [|f fs IH]; intros w; cbn [headers_pass]; [exists w; repeat split|]. destruct (silent_callback f EReqHeaders w) as (w1 & -> & A). destruct (IH w1) as (w2 & -> & B). exists w2. split; [reflexivity|]. destruct A, B. split; congruence.
Qed.
Lemma silent_all : forall fs ev w, exists w', all_pass G fs ev w = (true, w') /\ same w w'.
Proof.
  induction fs as [|f fs IH]; intros ev w; cbn [all_pass]; [exists w; repeat split|]. destruct (silent_callback f ev w) as (w1 & -> & A). destruct (IH ev w1) as (w2 & -> & B). exists w2. split; [reflexivity|]. destruct A, B. split; congruence.
Qed.
Lemma silent_req_body : forall fs l w b0, q_body (w_req w) = Some (Buf b0) -> breaks l = false ->
  exists w', body_loop G fs add_req EReqBody l w = (BDone, w') /\ w_req w' = set_qbody (w_req w) (Some (Buf (b0 ++ bytes_of l))) /\ w_resp w' = w_resp w.
Proof.
  intros fs. induction l as [|a l IH]; intros w b0 Hb Hl; cbn [body_loop].
  - unfold add_req. rewrite Hb. match goal with |- context [all_pass G fs ?e ?v] => destruct (silent_all fs e v) as (w1 & -> & A1 & A2) end. exists w1. split; [reflexivity|]. split; [exact A1|exact A2].
  - destruct a as [b|b|]; [|unfold add_req; rewrite Hb|discriminate].
    + destruct b as [|c b]; [apply IH; assumption|]. unfold add_req at 1. rewrite Hb. match goal with |- context [all_pass G fs ?e ?v] => destruct (silent_all fs e v) as (w1 & -> & A1 & A2) end.
      destruct (IH w1 (b0 ++ c :: b)) as (w2 & E2 & B1 & B2); [rewrite A1; reflexivity|exact Hl|]. exists w2. split; [exact E2|]. rewrite B1, B2, A1, A2. cbn [bytes_of]. rewrite <- app_assoc. split; reflexivity.
    + match goal with |- context [all_pass G fs ?e ?v] => destruct (silent_all fs e v) as (w1 & -> & A1 & A2) end. exists w1. split; [reflexivity|]. split; [exact A1|exact A2].
Qed.
Lemma silent_resp_body : forall fs l w p b0, w_resp w = Some p -> p_body p = Some (Buf b0) -> breaks l = false ->
  exists w', body_loop G fs add_resp ERespBody l w = (BDone, w') /\ w_resp w' = Some (set_pbody p (Some (Buf (b0 ++ bytes_of l)))) /\ w_req w' = w_req w.
Proof.
  intros fs. induction l as [|a l IH]; intros w p b0 Hp Hb Hl; cbn [body_loop].
  - unfold add_resp. rewrite Hp, Hb. match goal with |- context [all_pass G fs ?e ?v] => destruct (silent_all fs e v) as (w1 & -> & A1 & A2) end. exists w1. split; [reflexivity|]. split; [exact A2|exact A1].
  - destruct a as [b|b|]; [|unfold add_resp; rewrite Hp, Hb|discriminate].
    + destruct b as [|c b]; [apply IH; assumption|]. unfold add_resp at 1. rewrite Hp, Hb. match goal with |- context [all_pass G fs ?e ?v] => destruct (silent_all fs e v) as (w1 & -> & A1 & A2) end.
      destruct (IH w1 (set_pbody p (Some (Buf (b0 ++ c :: b)))) (b0 ++ c :: b)) as (w2 & E2 & B1 & B2); [rewrite A2; reflexivity|reflexivity|exact Hl|]. exists w2. split; [exact E2|]. rewrite B1, B2, A1. cbn [bytes_of]. rewrite <- app_assoc. split; reflexivity.
    + match goal with |- context [all_pass G fs ?e ?v] => destruct (silent_all fs e v) as (w1 & -> & A1 & A2) end. exists w1. split; [reflexivity|]. split; [exact A2|exact A1].
Qed.
(* the body after it was read through the filters *)
Definition buffered (b : option body) : option body := match content b with Some c => Some (Buf c) | None => None end.
Lemma silent_request : forall fs w, ~ body_breaks (w_req w) -> exists w', handle_request G fs w = (true, w') /\ w_req w' = set_qbody (w_req w) (buffered (q_body (w_req w))) /\ w_resp w' = w_resp w.
Proof.
  intros fs w Hb. unfold handle_request. destruct (silent_headers fs w) as (w1 & -> & A1 & A2). rewrite A1. unfold body_breaks in Hb. destruct (q_body (w_req w)) as [b|] eqn:E.
  - match goal with |- context [body_loop G fs add_req EReqBody ?s ?v] => destruct (silent_req_body fs s v []) as (w2 & -> & B1 & B2) end; [reflexivity|now apply Bool.not_true_iff_false|]. exists w2. split; [reflexivity|]. split; [rewrite B1; reflexivity|rewrite B2; exact A2].
  - exists w1. split; [reflexivity|]. split; [|exact A2]. rewrite A1. destruct (w_req w); cbn in *. now subst.
Qed.
Lemma silent_response : forall fs w p, w_resp w = Some p -> ~ resp_breaks p -> exists o w', handle_response G fs w = (true, o, w') /\ w_resp w' = Some (set_pbody p (buffered (p_body p))) /\ w_req w' = w_req w.
Proof.
  intros fs w p Hp Hb. unfold handle_response. destruct (silent_all fs ERespHeaders w) as (w1 & -> & A1 & A2). rewrite A2, Hp. unfold resp_breaks in Hb. destruct (p_body p) as [b|] eqn:E.
  - match goal with |- context [body_loop G fs add_resp ERespBody ?s ?v] => destruct (silent_resp_body fs s v (set_pbody p (Some (Buf []))) []) as (w2 & -> & B1 & B2) end; [reflexivity|reflexivity|now apply Bool.not_true_iff_false|].
    do 2 eexists. split; [reflexivity|]. split; [rewrite B1; reflexivity|rewrite B2; exact A1].
  - do 2 eexists. split; [reflexivity|]. split; [|exact A1]. rewrite A2, Hp. f_equal. destruct p; cbn in *. now subst.
Qed.
End S.
Lemma content_buffered : forall b, content (buffered b) = content b.
Proof. intros [b|]; [|reflexivity]. unfold buffered, content. cbn. now rewrite app_nil_r. Qed.

(* Filters that do nothing change nothing, except that the application sees a header ":method": it gets the request and its whole body,
   and the client gets what the application wrote. *)
Theorem C79_transparent : forall X (G : guest X) mw ap fs x q h0, still mw -> silent G -> ~ body_breaks q ->
  let r := serve G mw ap fs true true x q h0 in
  exists q', r_calls r = [q'] /\ fixed q q' /\ q_hdr q' = hadd method_key (q_method q) (q_hdr q) /\ content (q_body q') = content (q_body q) /\
    let acts := ap q' h0 in let st := (if (last_status acts =? 0)%Z then 200 else last_status acts)%Z in
    r_sent r = if (st <? 100)%Z || (999 <? st)%Z then Aborted else Sent st (header_after acts h0) (written acts).
Proof.
  intros X G mw ap fs x q h0 HM HS Hb r. assert (Hr: r = serve G mw ap fs true true x q h0) by reflexivity. clearbody r. unfold serve in Hr. cbn [negb] in Hr. cbn zeta in Hr.
  match type of Hr with context [mw BeforeRequest ?a] => set (w0 := a) in * end. destruct (HM BeforeRequest w0) as (_ & A2 & A3).
  destruct (silent_request G HS fs (mw BeforeRequest w0)) as (w1 & E1 & B1 & B2); [rewrite A3; exact Hb|]. rewrite E1 in Hr. rewrite A2 in B2. rewrite A3 in B1. cbn [w0 w_resp w_req] in B1, B2.
  unfold resp_or in Hr. rewrite B2 in Hr. cbn [p_status p_hdr Z.ltb] in Hr. change (0 <? 0)%Z with false in Hr. cbv iota in Hr. set (q' := w_req w1) in *. exists q'.
  rewrite acts_spec in Hr. cbn [c_status c_body c_hdr app] in Hr.
  match type of Hr with context [mw AfterRequest ?a] => set (wa := a) in * end. destruct (HM AfterRequest wa) as (_ & C2 & C3).
  rewrite C2 in Hr. change (w_resp wa) with (Some (mkresp 0 (header_after (ap q' h0) h0) 0 None)) in Hr. cbn [p_hdr] in Hr.
  match type of Hr with context [mw BeforeResponse ?a] => set (wb := a) in * end. destruct (HM BeforeResponse wb) as (_ & D2 & D3).
  destruct (silent_response G HS fs (mw BeforeResponse wb) (mkresp (if (last_status (ap q' h0) =? 0)%Z then 200%Z else last_status (ap q' h0)) (header_after (ap q' h0) h0) (Z.of_nat (length (written (ap q' h0)))) (Some (Src [RData (written (ap q' h0))])))) as (o & w3 & E3 & F1 & F2).
  { rewrite D2. reflexivity. } { unfold resp_breaks. cbn. discriminate. }
  rewrite E3 in Hr. destruct (HM AfterResponse w3) as (_ & G2 & _). rewrite G2, F1 in Hr. subst r. cbn [r_calls r_sent].
  split; [reflexivity|]. split; [rewrite B1; repeat split|]. split; [now rewrite B1|]. split; [rewrite B1; cbn [set_qbody q_body]; apply content_buffered|].
  cbn zeta. unfold write_response. cbn [set_pbody p_status p_hdr p_body buffered content script bytes_of]. now rewrite !app_nil_r.
Qed.
Print Assumptions C79_transparent.

(* Defect: the last status an application sets wins, and headers may change after the status; with net/http the first one wins. *)
Theorem C79_first_status_wins_refuted : forall X (G : guest X) mw fs x q h0 s1 s2 b, still mw -> silent G -> ~ body_breaks q ->
  (100 <= s1 <= 999)%Z -> (100 <= s2 <= 999)%Z ->
  r_sent (serve G mw (fun _ _ => [AStatus s1; AWrite b; AStatus s2]) fs true true x q h0) = Sent s2 h0 b.
Proof.
  intros X G mw fs x q h0 s1 s2 b HM HS Hb H1 H2. destruct (C79_transparent X G mw (fun _ _ => [AStatus s1; AWrite b; AStatus s2]) fs x q h0 HM HS Hb) as (q' & _ & _ & _ & _ & H).
  cbn zeta in H. unfold last_status, header_after in H. cbn [fold_left written] in H. rewrite H. destruct (s2 =? 0)%Z eqn:E; [apply Z.eqb_eq in E; lia|]. destruct (s2 <? 100)%Z eqn:E1; [apply Z.ltb_lt in E1; lia|]. destruct (999 <? s2)%Z eqn:E2; [apply Z.ltb_lt in E2; lia|]. cbn. now rewrite app_nil_r.
Qed.
Print Assumptions C79_first_status_wins_refuted.

(* Outbound, filters that do nothing: the inner transport gets the request with its whole body, and the caller its response with its whole
   body. *)
Theorem C79_transport_transparent : forall X (G : guest X) mw rt fs x q, still mw -> silent G -> ~ body_breaks q ->
  let r := round_trip G mw rt fs true x q in
  exists q', t_calls r = [q'] /\ q_method q' = q_method q /\ q_host q' = q_host q /\ q_len q' = q_len q /\ q_hdr q' = q_hdr q /\ content (q_body q') = content (q_body q) /\
    (rt q' = None -> t_resp r = None) /\
    (forall p, rt q' = Some p -> ~ resp_breaks p -> exists p', t_resp r = Some p' /\ p_status p' = p_status p /\ p_hdr p' = p_hdr p /\ p_len p' = p_len p /\ content (p_body p') = content (p_body p)).
Proof.
  intros X G mw rt fs x q HM HS Hb r. assert (Hr: r = round_trip G mw rt fs true x q) by reflexivity. clearbody r. unfold round_trip in Hr. cbn [negb] in Hr. cbn zeta in Hr.
  match type of Hr with context [mw BeforeRequest ?a] => set (w0 := a) in * end. destruct (HM BeforeRequest w0) as (_ & A2 & A3).
  destruct (silent_request G HS fs (mw BeforeRequest w0)) as (w1 & E1 & B1 & B2); [rewrite A3; exact Hb|]. rewrite E1 in Hr. rewrite A3 in B1. cbn [w0 w_req] in B1.
  destruct (HM AfterRequest w1) as (_ & C2 & C3). rewrite C3 in Hr. exists (w_req w1).
  assert (Hq: q_method (w_req w1) = q_method q /\ q_host (w_req w1) = q_host q /\ q_len (w_req w1) = q_len q /\ q_hdr (w_req w1) = q_hdr q /\ content (q_body (w_req w1)) = content (q_body q)).
  { rewrite B1. repeat (split; [reflexivity|]). cbn [set_qbody q_body]. apply content_buffered. }
  destruct Hq as (Q1 & Q2 & Q3 & Q4 & Q5). destruct (rt (w_req w1)) as [p|] eqn:Ep.
  - assert (Hc: t_calls r = [w_req w1]) by (subst r; destruct (handle_response G fs _) as [[[] ?] ?]; reflexivity).
    repeat (split; [assumption|]). split; [discriminate|]. intros p0 Hp0 Hnb. injection Hp0 as <-.
    match type of Hr with context [mw BeforeResponse ?a] => set (wb := a) in * end. destruct (HM BeforeResponse wb) as (_ & D2 & D3).
    destruct (silent_response G HS fs (mw BeforeResponse wb) p) as (o & w3 & E3 & F1 & F2); [rewrite D2; reflexivity|exact Hnb|]. rewrite E3 in Hr. destruct (HM AfterResponse w3) as (_ & G2 & _). subst r. cbn [t_resp]. rewrite G2, F1.
    eexists. split; [reflexivity|]. repeat (split; [reflexivity|]). cbn [set_pbody p_body]. apply content_buffered.
  - assert (Hc: t_calls r = [w_req w1]) by (subst r; reflexivity). repeat (split; [assumption|]). split; [subst r; reflexivity|discriminate].
Qed.
Print Assumptions C79_transport_transparent.

(* --- the hypotheses are met --- *)
Definition quiet_mw : middleware (X := nat) := fun _ w => w.
Lemma quiet_polite : polite quiet_mw. Proof. intros ph w. repeat split. Qed.
Lemma quiet_still : still quiet_mw. Proof. intros ph w. repeat split. Qed.
(* counts its callbacks and does nothing *)
Definition idle : guest nat := fun _ _ w => (S (w_x w), [], Continue).
Lemma idle_silent : silent idle. Proof. intros f ev w. eexists. reflexivity. Qed.
(* filter 2 answers 403 when it sees request headers, and pauses; filter 3 fails on response headers; filter 4 replaces the body *)
Definition busy : guest nat := fun f ev w =>
  match f, ev with
  | 2, EReqHeaders => (w_x w, [CSend 403 (lit "no") []], Pause)
  | 3, ERespHeaders => (w_x w, [], Fail)
  | 4, EReqBody _ true => (w_x w, [CReqBody (lit "longer body")], Continue)
  | 5, EReqHeaders => (w_x w, [], Pause)
  | _, _ => (w_x w, [], Continue)
  end.
Definition ex_q : req := mkreq (lit "POST") (lit "h") [] 4 (Some (Src [RData (lit "ab"); RLast (lit "cd")])) 7.
Definition ex_app : app := fun q _ => [AHeader (hadd "X" (lit "1")); AWrite (match content (q_body q) with Some b => b | None => [] end); AStatus 201].
Definition ex_rt : req -> option resp := fun q => Some (mkresp 200 [] 2 (Some (Src [RData (lit "ok")]))).
Example ex_fresh : fresh ex_q. Proof. intros b. discriminate. Qed.
Example ex_serve : serve idle quiet_mw ex_app [1; 2] true true 0 ex_q [] =
  mkres [mkreq (lit "POST") (lit "h") [(":method"%string, [lit "POST"])] 4 (Some (Buf (lit "abcd"))) 7] (Sent 201 [("X"%string, [lit "1"])] (lit "abcd"))
    (map (fun fe => mkent (fst fe) (snd fe) [] Continue) [(1, EReqHeaders); (2, EReqHeaders); (1, EReqBody 2 false); (2, EReqBody 2 false); (1, EReqBody 2 true); (2, EReqBody 2 true);
      (1, ERespHeaders); (2, ERespHeaders); (1, ERespBody 4 false); (2, ERespBody 4 false); (1, ERespBody 0 true); (2, ERespBody 0 true)]).
Proof. vm_compute. reflexivity. Qed.
Example ex_reply : let r := serve busy quiet_mw ex_app [1; 2; 6] true true 0 ex_q [] in r_calls r = [] /\ r_sent r = Sent 403 [] (lit "no") /\ length (r_log r) = 2.
Proof. vm_compute. auto. Qed.
Example ex_pause : let r := serve busy quiet_mw ex_app [5; 4] true true 0 ex_q [] in length (r_calls r) = 1 /\ map what (filter is_req (r_log r)) = [(5, EReqHeaders)].
Proof. vm_compute. auto. Qed.
Example ex_fail : let r := serve busy quiet_mw ex_app [3] true true 0 ex_q [] in r_sent r = Sent 200 [("X"%string, [lit "1"])] [].
Proof. vm_compute. reflexivity. Qed.
(* Defect: a filter's longer body goes out with the old declared length. *)
Theorem C79_length_refuted : exists q', t_calls (round_trip busy quiet_mw ex_rt [4] true 0 ex_q) = [q'] /\ q_len q' = 4%Z /\ option_map (@length _) (content (q_body q')) = Some 11.
Proof. eexists. vm_compute. repeat split. Qed.
Print Assumptions C79_length_refuted.
(* Defect: outbound, a filter that answers itself and pauses does not stop the request, and its answer is lost. *)
Theorem C79_outbound_reply_refuted : exists q' p, t_calls (round_trip busy quiet_mw ex_rt [2] true 0 ex_q) = [q'] /\
  t_resp (round_trip busy quiet_mw ex_rt [2] true 0 ex_q) = Some p /\ p_status p = 200%Z /\ content (p_body p) = Some (lit "ok").
Proof. do 2 eexists. vm_compute. repeat split. Qed.
Print Assumptions C79_outbound_reply_refuted.
Example ex_left : let r := round_trip busy quiet_mw ex_rt [3] true 0 ex_q in t_resp r = None /\ t_left r = true /\ failed (filter is_resp_headers (t_log r)).
Proof. vm_compute. repeat split. eexists. split; [left; reflexivity|reflexivity]. Qed.
