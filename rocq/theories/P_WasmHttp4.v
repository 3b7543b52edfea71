(* C79: what filters do to the headers arrives. *)
From Coq Require Import String List Ascii Bool Arith ZArith Lia.
From Verif Require Import M_GoStr M_GoMap L_GoMap M_WasmHttp P_WasmHttp P_WasmHttp2.
Import ListNotations.
Open Scope list_scope.

(* --- specification: the headers after a list of host calls --- *)
Definition req_hdr (h : headers) (c : call) : headers := match c with CReqHdr f => f h | _ => h end.
Definition resp_hdr (h : headers) (c : call) : headers :=
  match c with CRespHdr f => f h | CSend _ _ hs => fold_left (fun h kv => hadd (fst kv) (snd kv) h) hs h | _ => h end.
Definition calls_of (es : list entry) : list call := flat_map en_calls es.

(* adding a header keeps the values that are there, those of other names too *)
Theorem C79_add : forall hs h k, hvals k (fold_left (fun h kv => hadd (fst kv) (snd kv) h) hs h) = hvals k h ++ map snd (filter (fun kv => String.eqb (fst kv) k) hs).
Proof.
  induction hs as [|[k0 v] hs IH]; intros h k; cbn [fold_left filter map]; [now rewrite app_nil_r|]. rewrite IH. cbn [fst snd]. unfold hadd, hvals at 1.
  destruct (String.eqb k0 k) eqn:E.
  - apply String.eqb_eq in E. subst k0. rewrite mget_mset, String.eqb_refl. cbn [map snd]. rewrite <- app_assoc. reflexivity.
  - rewrite mget_mset, String.eqb_sym, E. reflexivity.
Qed.
Print Assumptions C79_add.

Section H.
Context {X : Type}.
Variable G : guest X.
Notation world := (world X).
Definition hx (w w' : world) : Prop := exists es, w_log w' = w_log w ++ es /\
  q_hdr (w_req w') = fold_left req_hdr (calls_of es) (q_hdr (w_req w)) /\
  option_map p_hdr (w_resp w') = option_map (fun p => fold_left resp_hdr (calls_of es) (p_hdr p)) (w_resp w).
Lemma hx_same : forall w w', w_log w' = w_log w -> q_hdr (w_req w') = q_hdr (w_req w) -> option_map p_hdr (w_resp w') = option_map p_hdr (w_resp w) -> hx w w'.
Proof. intros w w' A B C. exists []. split; [now rewrite app_nil_r|]. split; [exact B|]. rewrite C. reflexivity. Qed.
Lemma hx_refl : forall w, hx w w. Proof. intros w. now apply hx_same. Qed.
Lemma hx_trans : forall a b c, hx a b -> hx b c -> hx a c.
Proof.
  intros a b c (e1 & A1 & A2 & A3) (e2 & B1 & B2 & B3). exists (e1 ++ e2). split; [rewrite B1, A1; symmetry; apply app_assoc|]. unfold calls_of. rewrite flat_map_app, !fold_left_app. split; [rewrite B2, A2; reflexivity|].
  rewrite B3. clear - A3. destruct (w_resp a) as [p|], (w_resp b) as [q|]; cbn in *; try discriminate; [|reflexivity]. injection A3 as ->. now rewrite fold_left_app.
Qed.
Lemma calls_hdr : forall cs (w : world), let w' := fold_left do_call cs w in w_log w' = w_log w /\ q_hdr (w_req w') = fold_left req_hdr cs (q_hdr (w_req w)) /\ option_map p_hdr (w_resp w') = option_map (fun p => fold_left resp_hdr cs (p_hdr p)) (w_resp w).
Proof.
  induction cs as [|c cs IH]; intros w; cbn [fold_left]; [cbn; auto|]. destruct (IH (do_call w c)) as (A & B & C). cbv zeta in *.
  assert (K: w_log (do_call w c) = w_log w /\ q_hdr (w_req (do_call w c)) = req_hdr (q_hdr (w_req w)) c /\ option_map p_hdr (w_resp (do_call w c)) = option_map (fun p => resp_hdr (p_hdr p) c) (w_resp w)).
  { destruct c as [f|f|b|b|st b hs]; cbn [do_call req_hdr resp_hdr]; [now destruct (w_resp w) eqn:E; cbn; rewrite ?E| | | |].
    - destruct (w_resp w) eqn:E; cbn; rewrite ?E; auto.
    - destruct (q_body (w_req w)) as [[l|b0]|]; cbn; auto.
    - destruct (w_resp w) as [p|] eqn:E; [|rewrite E; cbn; auto]. destruct (p_body p) as [[l|b0]|]; cbn; rewrite ?E; auto.
    - destruct (w_resp w) eqn:E; cbn; rewrite ?E; auto. }
  destruct K as (K1 & K2 & K3). split; [congruence|]. split; [now rewrite B, K2|]. rewrite C. clear - K3. destruct (w_resp w), (w_resp (do_call w c)); cbn in *; try discriminate; [|reflexivity]. injection K3 as ->. reflexivity.
Qed.
Lemma callback_hx : forall f ev w, hx w (snd (callback G f ev w)).
Proof.
  intros f ev w. unfold callback. destruct (G f ev w) as [[x cs] v]. cbn [snd]. destruct (calls_hdr cs w) as (A & B & C). exists [mkent f ev cs v]. cbn [w_log w_req w_resp]. unfold calls_of. cbn [flat_map en_calls]. rewrite app_nil_r. split; [now rewrite A|]. auto.
Qed.
Lemma headers_hx : forall fs w, hx w (snd (headers_pass G fs w)).
Proof.
  induction fs as [|f fs IH]; intros w; cbn [headers_pass]; [apply hx_refl|]. pose proof (callback_hx f EReqHeaders w) as K. destruct (callback G f EReqHeaders w) as [[] w1]; cbn [snd] in *; try exact K. eapply hx_trans; [exact K|apply IH].
Qed.
Lemma all_hx : forall fs ev w, hx w (snd (all_pass G fs ev w)).
Proof.
  induction fs as [|f fs IH]; intros ev w; cbn [all_pass]; [apply hx_refl|]. pose proof (callback_hx f ev w) as K. destruct (callback G f ev w) as [[] w1]; cbn [snd] in *; try exact K; (eapply hx_trans; [exact K|apply IH]).
Qed.
Lemma add_req_hx : forall b w, hx w (add_req b w).
Proof. intros b w. unfold add_req. destruct (q_body (w_req w)) as [[l|b0]|]; now apply hx_same. Qed.
Lemma add_resp_hx : forall b w, hx w (add_resp b w).
Proof. intros b w. unfold add_resp. destruct (w_resp w) as [p|] eqn:E; [|apply hx_refl]. destruct (p_body p) as [[l|b0]|]; try apply hx_refl. apply hx_same; cbn; rewrite ?E; reflexivity. Qed.
Lemma body_hx : forall fs add ev l w, (forall b w, hx w (add b w)) -> hx w (snd (body_loop G fs add ev l w)).
Proof.
  intros fs add ev l. induction l as [|c l IH]; intros w Ha; cbn [body_loop].
  - pose proof (all_hx fs (ev 0 true) (add [] w)) as K. destruct (all_pass G fs (ev 0 true) (add [] w)) as [ok w1]. cbn [snd] in *. eapply hx_trans; [apply Ha|exact K].
  - destruct c as [b|b|]; [|pose proof (all_hx fs (ev (length b) true) (add b w)) as K; destruct (all_pass G fs (ev (length b) true) (add b w)) as [ok w1]; cbn [snd] in *; eapply hx_trans; [apply Ha|exact K]|apply hx_refl].
    destruct b as [|a b]; [now apply IH|]. pose proof (all_hx fs (ev (length (a :: b)) false) (add (a :: b) w)) as K. destruct (all_pass G fs (ev (length (a :: b)) false) (add (a :: b) w)) as [ok w1]. cbn [snd] in K.
    pose proof (hx_trans _ _ _ (Ha (a :: b) w) K) as K2. destruct ok; [|exact K2]. eapply hx_trans; [exact K2|now apply IH].
Qed.
Lemma request_hx : forall fs w, hx w (snd (handle_request G fs w)).
Proof.
  intros fs w. unfold handle_request. pose proof (headers_hx fs w) as K. destruct (headers_pass G fs w) as [[] w1]; cbn [snd] in *; try exact K. destruct (q_body (w_req w1)) as [b|]; [|exact K].
  set (w0 := with_req w1 (set_qbody (w_req w1) (Some (Buf [])))). pose proof (body_hx fs add_req EReqBody (script b) w0 add_req_hx) as K2. destruct (body_loop G fs add_req EReqBody (script b) w0) as [[] w2]; cbn [snd] in *; (eapply hx_trans; [exact K|]; eapply hx_trans; [|exact K2]; now apply hx_same).
Qed.
Lemma response_hx : forall fs w, hx w (snd (handle_response G fs w)).
Proof.
  intros fs w. unfold handle_response. pose proof (all_hx fs ERespHeaders w) as K. destruct (all_pass G fs ERespHeaders w) as [[] w1]; cbn [snd] in *; try exact K. destruct (w_resp w1) as [p|] eqn:Ep; [|exact K]. destruct (p_body p) as [b|]; [|exact K].
  set (w0 := with_resp w1 (set_pbody p (Some (Buf [])))). pose proof (body_hx fs add_resp ERespBody (script b) w0 add_resp_hx) as K2.
  assert (K1: hx w1 w0) by (apply hx_same; unfold w0; cbn; rewrite ?Ep; reflexivity).
  destruct (body_loop G fs add_resp ERespBody (script b) w0) as [[] w2]; cbn [snd] in *; (eapply hx_trans; [exact K|]; eapply hx_trans; [exact K1|exact K2]).
Qed.
End H.

(* Inbound: the request's headers reach the application with every change that filters made, and nothing else; the client gets the headers of the
   writer with every change filters made on the way in, then those of the application, then those filters made to the response. *)
Theorem C79_headers : forall X (G : guest X) mw ap fs x q h0, still mw -> fresh q ->
  let r := serve G mw ap fs true true x q h0 in
  let ins := calls_of (filter is_req (r_log r)) in let outs := calls_of (filter (fun e => negb (is_req e)) (r_log r)) in
  let h1 := fold_left resp_hdr ins h0 in
  (forall q', In q' (r_calls r) -> q_hdr q' = fold_left req_hdr ins (hadd method_key (q_method q) (q_hdr q)) /\
     forall st h b, r_sent r = Sent st h b -> h = fold_left resp_hdr outs (header_after (ap q' h1) h1)) /\
  (r_calls r = [] -> forall st h b, r_sent r = Sent st h b -> h = h1).
Proof.
  intros X G mw ap fs x q h0 S Hfr r. assert (Hr: r = serve G mw ap fs true true x q h0) by reflexivity. clearbody r. unfold serve in Hr. cbn [negb] in Hr.
  match type of Hr with context [mw BeforeRequest ?a] => destruct (S BeforeRequest a) as (S1 & S2 & S3); set (s := mw BeforeRequest a) in * end. cbn [w_log w_resp w_req] in S1, S2, S3.
  assert (Fs: fresh (w_req s)) by (rewrite S3; exact Hfr).
  pose proof (request_hx G fs s) as K. destruct (handle_request G fs s) as [ok w] eqn:E. destruct (request_ext G _ _ _ _ E Fs) as (es1 & (L1 & _) & Hreq & _). rewrite S1 in L1. cbn [Datatypes.app] in L1.
  cbn [snd] in K. destruct K as (es & K1 & K2 & K3). rewrite S1 in K1. cbn [Datatypes.app] in K1. rewrite K1 in L1. subst es1. rewrite S2 in K3. rewrite S3 in K2. cbn [option_map p_hdr] in K3. cbn [set_qhdr q_hdr] in K2.
  destruct (w_resp w) as [p|] eqn:Ep; [|discriminate]. cbn [option_map] in K3. injection K3 as K3. unfold resp_or in Hr. rewrite Ep in Hr.
  assert (F1: filter is_req es = es) by now apply filter_all.
  assert (F2: filter (fun e => negb (is_req e)) es = []) by (apply filter_none; eapply Forall_impl; [|exact Hreq]; intros e ->; reflexivity).
  destruct ok.
  - destruct (0 <? p_status p)%Z eqn:Es.
    + subst r. cbn [r_log r_calls r_sent]. rewrite K1, F1. split; [intros q' []|]. intros _ st h b Hs. unfold write_response in Hs. destruct ((p_status p <? 100)%Z || (999 <? p_status p)%Z); [discriminate|]. injection Hs as <- <- <-. exact K3.
    + rewrite acts_spec in Hr. cbn [c_status c_body c_hdr Datatypes.app] in Hr. cbn zeta in Hr. set (acts := ap (w_req w) (p_hdr p)) in *.
      match type of Hr with context [mw AfterRequest ?a] => set (wa := a) in * end. destruct (S AfterRequest wa) as (A1 & A2 & A3). change (w_log wa) with (w_log w) in A1. change (w_resp wa) with (Some (set_phdr p (header_after acts (p_hdr p)))) in A2. rewrite A2 in Hr. cbn [p_hdr set_phdr] in Hr.
      match type of Hr with context [mw BeforeResponse ?a] => set (wb := a) in * end. destruct (S BeforeResponse wb) as (B1 & B2 & B3). assert (B1': w_log (mw BeforeResponse wb) = es) by (rewrite B1; unfold wb; cbn [with_resp w_log]; rewrite A1; exact K1). clear B1. rename B1' into B1. unfold wb at 2 in B2. cbn [with_resp w_log w_resp] in B2.
      pose proof (response_hx G fs (mw BeforeResponse wb)) as J. destruct (handle_response G fs (mw BeforeResponse wb)) as [[ok2 o] w3] eqn:E3. destruct (response_ext G _ _ _ _ _ E3) as (e1 & e2 & w1 & _ & X2 & _ & X4 & _).
      cbn [snd] in J. destruct J as (es2 & J1 & _ & J3). rewrite B2 in J3. cbn [option_map p_hdr] in J3. rewrite B1 in J1, X2. rewrite J1 in X2. apply app_inv_head in X2. rewrite <- X2 in X4. clear X2 e1 e2.
      destruct (w_resp w3) as [p3|] eqn:Ep3; [|discriminate]. cbn [option_map] in J3. injection J3 as J3.
      destruct (S AfterResponse w3) as (C1 & C2 & C3).
      assert (Hlog: r_log r = es ++ es2) by (subst r; destruct ok2; cbn [r_log]; [rewrite C1|]; exact J1).
      assert (Hcalls: r_calls r = [w_req w]) by (subst r; destruct ok2; reflexivity).
      assert (Hsent: forall st h b, r_sent r = Sent st h b -> h = p_hdr p3).
      { intros st h b. subst r. destruct ok2; cbn [r_sent]; [rewrite C2, Ep3; unfold write_response; destruct ((p_status p3 <? 100)%Z || (999 <? p_status p3)%Z); [discriminate|]; now intros [= _ <- _]|rewrite ?Ep3; now intros [= _ <- _]]. }
      rewrite Hlog, Hcalls. rewrite !filter_app, F1, F2, (filter_none _ _ X4), app_nil_r. cbn [Datatypes.app].
      assert (F3: filter (fun e => negb (is_req e)) es2 = es2) by (apply filter_all; eapply Forall_impl; [|exact X4]; intros e ->; reflexivity). rewrite F3.
      split; [|discriminate]. intros q' [<-|[]]. split; [exact K2|]. intros st h b Hs. rewrite (Hsent _ _ _ Hs), J3, <- K3. reflexivity.
  - subst r. cbn [r_log r_calls r_sent]. rewrite K1, F1. split; [intros q' []|]. intros _ st h b Hs. injection Hs as _ <- _. exact K3.
Qed.
Print Assumptions C79_headers.

(* Outbound: the same for what the inner transport gets and for the response of the caller. *)
Theorem C79_headers_outbound : forall X (G : guest X) mw rt fs x q, still mw -> fresh q ->
  let r := round_trip G mw rt fs true x q in
  let ins := calls_of (filter is_req (t_log r)) in let outs := calls_of (filter (fun e => negb (is_req e)) (t_log r)) in
  forall q', In q' (t_calls r) -> q_hdr q' = fold_left req_hdr ins (q_hdr q) /\
    forall p, t_resp r = Some p -> exists p0, rt q' = Some p0 /\ p_hdr p = fold_left resp_hdr outs (p_hdr p0).
Proof.
  intros X G mw rt fs x q S Hfr r. assert (Hr: r = round_trip G mw rt fs true x q) by reflexivity. clearbody r. unfold round_trip in Hr. cbn [negb] in Hr.
  match type of Hr with context [mw BeforeRequest ?a] => destruct (S BeforeRequest a) as (S1 & S2 & S3); set (s := mw BeforeRequest a) in * end. cbn [w_log w_resp w_req] in S1, S2, S3.
  assert (Fs: fresh (w_req s)) by (rewrite S3; exact Hfr).
  pose proof (request_hx G fs s) as K. destruct (handle_request G fs s) as [ok w] eqn:E. destruct (request_ext G _ _ _ _ E Fs) as (es1 & (L1 & _) & Hreq & _). rewrite S1 in L1. cbn [Datatypes.app] in L1.
  cbn [snd] in K. destruct K as (es & K1 & K2 & K3). rewrite S1 in K1. cbn [Datatypes.app] in K1. rewrite K1 in L1. subst es1. rewrite S3 in K2. cbn [q_hdr] in K2.
  assert (F1: filter is_req es = es) by now apply filter_all.
  assert (F2: filter (fun e => negb (is_req e)) es = []) by (apply filter_none; eapply Forall_impl; [|exact Hreq]; intros e ->; reflexivity).
  destruct ok; [|subst r; cbn [t_calls]; cbv zeta; intros q' []].
  destruct (S AfterRequest w) as (A1 & A2 & A3). rewrite A3 in Hr. destruct (rt (w_req w)) as [p0|] eqn:Er.
  - match type of Hr with context [mw BeforeResponse ?a] => set (wb := a) in * end. destruct (S BeforeResponse wb) as (B1 & B2 & B3). assert (B1': w_log (mw BeforeResponse wb) = es) by (rewrite B1; unfold wb; cbn [with_resp w_log]; rewrite A1; exact K1). clear B1. rename B1' into B1. unfold wb at 2 in B2. cbn [with_resp w_log w_resp] in B2.
    pose proof (response_hx G fs (mw BeforeResponse wb)) as J. destruct (handle_response G fs (mw BeforeResponse wb)) as [[ok2 o] w3] eqn:E3. destruct (response_ext G _ _ _ _ _ E3) as (e1 & e2 & w1 & _ & X2 & _ & X4 & _).
    cbn [snd] in J. destruct J as (es2 & J1 & _ & J3). rewrite B2 in J3. cbn [option_map p_hdr] in J3. rewrite B1 in J1, X2. rewrite J1 in X2. apply app_inv_head in X2. rewrite <- X2 in X4. clear X2 e1 e2.
    destruct (w_resp w3) as [p3|] eqn:Ep3; [|discriminate]. cbn [option_map] in J3. injection J3 as J3.
    destruct (S AfterResponse w3) as (C1 & C2 & C3).
    assert (Hlog: t_log r = es ++ es2) by (subst r; destruct ok2; cbn [t_log]; [rewrite C1|]; exact J1).
    assert (Hcalls: t_calls r = [w_req w]) by (subst r; destruct ok2; reflexivity).
    assert (Hresp: forall p, t_resp r = Some p -> p = p3).
    { intros p. subst r. destruct ok2; cbn [t_resp]; [rewrite C2, Ep3; now intros [= <-]|discriminate]. }
    rewrite Hlog, Hcalls. rewrite !filter_app, F1, F2, (filter_none _ _ X4), app_nil_r. cbn [Datatypes.app].
    assert (F3: filter (fun e => negb (is_req e)) es2 = es2) by (apply filter_all; eapply Forall_impl; [|exact X4]; intros e ->; reflexivity). rewrite F3.
    cbv zeta; intros q' [<-|[]]. split; [exact K2|]. intros p Hp. rewrite (Hresp _ Hp). exists p0. auto.
  - subst r. cbn [t_calls t_log t_resp]. rewrite A1, K1, F1. cbv zeta; intros q' [<-|[]]. split; [exact K2|]. discriminate.
Qed.
Print Assumptions C79_headers_outbound.

(* --- the hypotheses are met: filter 1 adds a request header and, to the response, another; filter 2 leaves them --- *)
Definition tagger : guest nat := fun f ev w =>
  match f, ev with
  | 1, EReqHeaders => (w_x w, [CReqHdr (hadd "A" (lit "1")); CRespHdr (hadd "B" (lit "2"))], Continue)
  | 1, ERespHeaders => (w_x w, [CRespHdr (hadd "C" (lit "3"))], Continue)
  | _, _ => (w_x w, [], Continue)
  end.
Definition tag_mw : middleware (X := nat) := fun _ w => w.
Definition tag_q : req := mkreq (lit "GET") (lit "h") [] 0 None 7.
Definition tag_app : app := fun _ _ => [AHeader (hadd "X" (lit "1"))].
Example C79_headers_case : still tag_mw /\ fresh tag_q /\
  let r := serve tagger tag_mw tag_app [1; 2] true true 0 tag_q [] in
  map q_hdr (r_calls r) = [[("A"%string, [lit "1"]); (":method"%string, [lit "GET"])]] /\
  r_sent r = Sent 200 [("C"%string, [lit "3"]); ("X"%string, [lit "1"]); ("B"%string, [lit "2"])] [].
Proof. split; [intros ph w; repeat split|]. split; [intros b; discriminate|]. vm_compute. auto. Qed.
