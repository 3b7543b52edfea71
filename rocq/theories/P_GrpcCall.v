(* C83: gRPC calls of a client through the WASM filters. *)
From Coq Require Import String Ascii List Bool ZArith Arith Lia.
From Verif Require Import M_GoMap L_GoMap M_GrpcCall.
Import ListNotations.
Open Scope list_scope.

(* ---- metadata ---- *)
(* names are compared without case; set replaces, add appends, delete removes, and no other name is touched *)
Theorem C83_metadata : forall lower k k' v m,
  (lower k = lower k' -> md_get lower k' (md_set lower k v m) = [v] /\ md_get lower k' (md_append lower k v m) = md_get lower k m ++ [v] /\ md_get lower k' (md_delete lower k m) = []) /\
  (lower k <> lower k' -> md_get lower k' (md_set lower k v m) = md_get lower k' m /\ md_get lower k' (md_append lower k v m) = md_get lower k' m /\ md_get lower k' (md_delete lower k m) = md_get lower k' m).
Proof.
  intros lower k k' v m. unfold md_get at 1 2 4, md_set, md_append, md_delete. split.
  - intros E. rewrite <- E. rewrite !mget_mset, mget_mdel, String.eqb_refl. repeat split; reflexivity.
  - intros E. assert (F: String.eqb (lower k') (lower k) = false) by (apply String.eqb_neq; congruence). unfold md_get. rewrite !mget_mset, mget_mdel, F. repeat split; reflexivity.
Qed.
Print Assumptions C83_metadata.
Lemma mget_join : forall b a k, NoDup (mkeys b) -> mget k (md_join a b) = match mget k b with Some l => Some (match mget k a with Some l0 => l0 | None => [] end ++ l) | None => mget k a end.
Proof.
  induction b as [|[k' l'] b IH]; intros a k Hn; [reflexivity|]. cbn [mkeys map fst] in Hn. inversion Hn as [|? ? Hk Hn']; subst. unfold md_join in *. cbn [fold_left fst snd].
  rewrite IH by exact Hn'. cbn [mget]. rewrite mget_mset. destruct (String.eqb_spec k k') as [->|Hne].
  - destruct (mget k' b) eqn:E; [|reflexivity]. apply mget_in in E. elim Hk. unfold mkeys. apply in_map_iff. now exists (k', l).
  - reflexivity.
Qed.
(* before the filters the metadata is that of the caller and the content type *)
Definition initial (md : metadata) : metadata := md_join [("content-type", ["application/grpc"])]%string md.
Theorem C83_initial : forall md, NoDup (mkeys md) ->
  (forall k, k <> "content-type"%string -> mget k (initial md) = mget k md) /\
  mget "content-type"%string (initial md) = Some ("application/grpc"%string :: match mget "content-type"%string md with Some l => l | None => [] end).
Proof.
  intros md Hn. unfold initial. split.
  - intros k Hk. rewrite mget_join by exact Hn. cbn [mget]. destruct (String.eqb_spec k "content-type") as [E|_]; [congruence|]. destruct (mget k md); reflexivity.
  - rewrite mget_join by exact Hn. cbn [mget]. rewrite String.eqb_refl. destruct (mget "content-type" md); reflexivity.
Qed.
Print Assumptions C83_initial.

(* ---- one call ---- *)
(* what the log says *)
Definition req_hops (l : list act) : list hop := flat_map (fun a => match a with OnRequest _ _ cs _ => flat_map (fun c => match c with CReq h => [h] | _ => [] end) cs | _ => [] end) l.
Definition resp_hops (l : list act) : list hop := flat_map (fun a => match a with OnResponse _ _ cs _ => flat_map (fun c => match c with CResp h => [h] | _ => [] end) cs | _ => [] end) l.
Definition req_filters (l : list act) : list nat := flat_map (fun a => match a with OnRequest f _ _ _ => [f] | _ => [] end) l.
Definition resp_filters (l : list act) : list nat := flat_map (fun a => match a with OnResponse f _ _ _ => [f] | _ => [] end) l.
Definition calls (l : list act) : list (string * metadata) := flat_map (fun a => match a with Invoke s m => [(s, m)] | _ => [] end) l.
Definition req_verdicts (l : list act) : list verdict := flat_map (fun a => match a with OnRequest _ _ _ v => [v] | _ => [] end) l.
Definition resp_verdicts (l : list act) : list verdict := flat_map (fun a => match a with OnResponse _ _ _ v => [v] | _ => [] end) l.
Definition prefix {A} (a b : list A) : Prop := exists c, b = a ++ c.

Section One.
Variable lower : string -> string.
Variable parse : string -> option url.
Context {X : Type}.
Variable G : guest X.
Lemma calls_req : forall cs (w : @world X), w_req (fold_left (do_call lower) cs w) = fold_left (do_hop lower) (flat_map (fun c => match c with CReq h => [h] | _ => [] end) cs) (w_req w).
Proof. induction cs as [|c cs IH]; intros w; [reflexivity|]. cbn [fold_left flat_map]. rewrite IH, fold_left_app. destruct c; reflexivity. Qed.
Lemma calls_resp : forall cs (w : @world X) m, w_resp w = Some m -> w_resp (fold_left (do_call lower) cs w) = Some (fold_left (do_hop lower) (flat_map (fun c => match c with CResp h => [h] | _ => [] end) cs) m).
Proof.
  induction cs as [|c cs IH]; intros w m E; [exact E|]. cbn [fold_left flat_map]. rewrite fold_left_app.
  destruct c; cbn [fold_left app]; apply IH; cbn [do_call w_resp]; rewrite ?E; reflexivity.
Qed.
(* the pass over the request *)
Record req_pass (fs : list nat) (m0 : metadata) (ok : bool) (m : metadata) (l : list act) : Prop :=
  { rp_only : Forall (fun a => match a with OnRequest _ _ _ _ => True | _ => False end) l;
    rp_md : m = fold_left (do_hop lower) (req_hops l) m0;
    rp_fs : prefix (req_filters l) fs;
    rp_ok : ok = true <-> ~ In Fail (req_verdicts l);
    rp_all : (forall v, In v (req_verdicts l) -> v = Continue) -> req_filters l = fs;
    rp_stop : forall a v b, req_verdicts l = a ++ v :: b -> v <> Continue -> b = [] }.
Lemma on_request_ok : forall fs w, let '(ok, w', l) := on_request lower G fs w in req_pass fs (w_req w) ok (w_req w') l.
Proof.
  induction fs as [|f fs IH]; intros w.
  - cbn. constructor; cbn; auto; try (intuition fail). exists []. reflexivity. intros a v b E. destruct a; discriminate.
  - cbn [on_request]. unfold callback. destruct (G f (w_x w) (w_req w) (w_resp w)) as [[x cs] v] eqn:EG. set (w1 := mkw x (w_req (fold_left (do_call lower) cs w)) (w_resp (fold_left (do_call lower) cs w))).
    assert (Em: w_req w1 = fold_left (do_hop lower) (flat_map (fun c => match c with CReq h => [h] | _ => [] end) cs) (w_req w)) by (unfold w1; cbn [w_req]; apply calls_req).
    destruct v.
    + specialize (IH w1). destruct (on_request lower G fs w1) as [[ok w2] l]. destruct IH as [I1 I2 [c I3] I4 I5 I6]. constructor; cbn [req_hops req_filters req_verdicts flat_map app]; fold (req_hops l); fold (req_filters l); fold (req_verdicts l).
      * constructor; [exact I|exact I1].
      * rewrite fold_left_app, <- Em. exact I2.
      * exists c. cbn. now rewrite I3.
      * rewrite I4. cbn [In]. split; [intros H [E|E]; [discriminate|tauto]|tauto].
      * intros H. f_equal. apply I5. intros v Hv. apply H. right. exact Hv.
      * intros a v b E Hv. destruct a as [|y a]; [injection E as <- _; congruence|]. injection E as _ E. exact (I6 a v b E Hv).
    + constructor; cbn [req_hops req_filters req_verdicts flat_map app].
      * repeat constructor.
      * rewrite app_nil_r. exact Em.
      * now exists fs.
      * cbn. split; [intros _ [E|[]]; discriminate|reflexivity].
      * intros H. specialize (H Pause (or_introl eq_refl)). discriminate.
      * intros a v b E Hv. destruct a as [|y a]; [now injection E|]. destruct a; discriminate.
    + constructor; cbn [req_hops req_filters req_verdicts flat_map app].
      * repeat constructor.
      * rewrite app_nil_r. exact Em.
      * now exists fs.
      * cbn. split; [discriminate|intros H; elim H; now left].
      * intros H. specialize (H Fail (or_introl eq_refl)). discriminate.
      * intros a v b E Hv. destruct a as [|y a]; [now injection E|]. destruct a; discriminate.
Qed.
Record resp_pass (fs : list nat) (m0 : metadata) (ok : bool) (m : option metadata) (l : list act) : Prop :=
  { sp_only : Forall (fun a => match a with OnResponse _ _ _ _ => True | _ => False end) l;
    sp_md : m = Some (fold_left (do_hop lower) (resp_hops l) m0);
    sp_fs : prefix (resp_filters l) fs;
    sp_ok : ok = true <-> ~ In Fail (resp_verdicts l);
    sp_all : ok = true -> resp_filters l = fs }.
Lemma on_response_ok : forall fs w m0, w_resp w = Some m0 -> let '(ok, w', l) := on_response lower G fs w in resp_pass fs m0 ok (w_resp w') l.
Proof.
  induction fs as [|f fs IH]; intros w m0 Hm.
  - cbn. constructor; cbn; auto; try (intuition fail). exists []. reflexivity.
  - cbn [on_response]. unfold callback. destruct (G f (w_x w) (w_req w) (w_resp w)) as [[x cs] v] eqn:EG. set (w1 := mkw x (w_req (fold_left (do_call lower) cs w)) (w_resp (fold_left (do_call lower) cs w))).
    assert (Em: w_resp w1 = Some (fold_left (do_hop lower) (flat_map (fun c => match c with CResp h => [h] | _ => [] end) cs) m0)) by (unfold w1; cbn [w_resp]; apply calls_resp, Hm).
    specialize (IH w1 _ Em). destruct (on_response lower G fs w1) as [[ok w2] l]. destruct IH as [I1 I2 [c I3] I4 I5].
    destruct v.
    1,2: constructor; cbn [resp_hops resp_filters resp_verdicts flat_map app]; fold (resp_hops l); fold (resp_filters l); fold (resp_verdicts l);
      [constructor; [exact I|exact I1]|rewrite fold_left_app; exact I2|exists c; cbn; now rewrite I3|rewrite I4; cbn [In]; split; [intros H [E|E]; [discriminate|tauto]|tauto]|intros H; f_equal; now apply I5].
    constructor; cbn [resp_hops resp_filters resp_verdicts flat_map app].
    * repeat constructor.
    * rewrite app_nil_r. exact Em.
    * now exists fs.
    * cbn. split; [discriminate|intros H; elim H; now left].
    * discriminate.
Qed.
(* the course of a call, in a form from which everything below is read off *)
Definition inner (mw : bool) (fs : list nat) (method : string) (md : metadata) (rpc : string -> metadata -> answer) (u : option url) (o : outcome) (l : list act) : Prop :=
  (u = None /\ mw = true /\ o = OPanic /\ l = []) \/
  ((u = Some no_url \/ mw = false) /\ exists l1 ok m, req_pass fs (initial md) ok m l1 /\
    let see := match u with Some u => if mw then [SeeRequest u (initial md)] else [] | None => [] end in
    ((ok = false /\ o = ORefused /\ l = see ++ l1) \/
     (ok = true /\ exists c, rpc method m = Failed c /\ o = ORpc c /\ l = see ++ l1 ++ [Invoke method m]) \/
     (ok = true /\ exists h t l2 ok2 h', rpc method m = Answer h t /\ resp_pass fs h ok2 (Some h') l2 /\
        o = (if ok2 then OOk else ORefused) /\ l = see ++ l1 ++ Invoke method m :: l2 ++ (if ok2 && mw then [SeeResponse 200 0 h' t] else [])))).
Lemma intercept_inner : forall disc stream mw fs x target method md rpc, exists l,
  (stream = true -> inner mw fs method md rpc (wrap_url parse (raw_url target method)) (fst (intercept lower parse G disc stream mw fs x target method md rpc)) l) /\
  (stream = false -> l = [] /\ fst (intercept lower parse G disc stream mw fs x target method md rpc) = ORefused) /\
  snd (intercept lower parse G disc stream mw fs x target method md rpc) =
    (if disc then [Inc target] else []) ++ (if stream then [Open] else []) ++ l ++ (if stream then [Close] else []) ++ (if disc then [Dec target] else []).
Proof.
  intros disc stream mw fs x target method md rpc. unfold intercept. destruct stream.
  2: { exists []. split; [discriminate|]. split; [intros _; split; [reflexivity|]; destruct disc; reflexivity|]. destruct disc; reflexivity. }
  cbn [negb]. match goal with |- context [Open :: snd ?r ++ _] => set (res := r) end.
  exists (snd res). split; [intros _|split; [discriminate|destruct disc; cbn [fst snd app]; rewrite <- ?app_assoc; reflexivity]].
  assert (E: fst (if disc then (fst (fst res, Open :: snd res ++ [Close]), Inc target :: snd (fst res, Open :: snd res ++ [Close]) ++ [Dec target]) else (fst res, Open :: snd res ++ [Close])) = fst res) by (destruct disc; reflexivity). rewrite E. clear E.
  unfold res, inner. fold (initial md).
  assert (U: wrap_url parse (raw_url target method) = None \/ wrap_url parse (raw_url target method) = Some no_url) by (unfold wrap_url; destruct (parse _); auto).
  pose proof (on_request_ok fs (mkw x (initial md) None)) as HR. cbn [w_req] in HR.
  destruct (on_request lower G fs (mkw x (initial md) None)) as [[ok w] l1].
  destruct (wrap_url parse (raw_url target method)) as [u|] eqn:EU; destruct mw.
  2,4: right; split; [auto|]; exists l1, ok, (w_req w); split; [exact HR|]; cbn [app]; destruct ok; [|left; auto]; right;
    destruct (rpc method (w_req w)) as [h t|c]; [|left; split; [reflexivity|]; exists c; auto];
    right; split; [reflexivity|]; pose proof (on_response_ok fs (mkw (w_x w) (w_req w) (Some h)) h eq_refl) as HS;
    destruct (on_response lower G fs (mkw (w_x w) (w_req w) (Some h))) as [[ok2 w2] l2]; pose proof (sp_md _ _ _ _ _ HS) as EM; rewrite EM in *;
    exists h, t, l2, ok2, (fold_left (do_hop lower) (resp_hops l2) h); destruct ok2; cbn [andb]; rewrite ?app_nil_r; auto.
  2: left; auto.
  right. split; [destruct U as [U|U]; [discriminate|auto]|]. exists l1, ok, (w_req w). split; [exact HR|]. destruct ok; [|left; auto]. right.
  destruct (rpc method (w_req w)) as [h t|c]; [|left; split; [reflexivity|]; exists c; auto].
  right. split; [reflexivity|]. pose proof (on_response_ok fs (mkw (w_x w) (w_req w) (Some h)) h eq_refl) as HS.
  destruct (on_response lower G fs (mkw (w_x w) (w_req w) (Some h))) as [[ok2 w2] l2]. pose proof (sp_md _ _ _ _ _ HS) as EM. rewrite EM in *.
  exists h, t, l2, ok2, (fold_left (do_hop lower) (resp_hops l2) h). destruct ok2; cbn [andb]; rewrite ?app_nil_r; auto.
Qed.

Lemma only_req : forall l, Forall (fun a => match a with OnRequest _ _ _ _ => True | _ => False end) l ->
  calls l = [] /\ resp_filters l = [] /\ resp_hops l = [] /\ resp_verdicts l = [] /\ (forall a, In a l -> exists f n cs v, a = OnRequest f n cs v).
Proof.
  induction l as [|a l IH]; intros H; [cbn; intuition|]. inversion H as [|? ? Ha Hl]; subst. destruct (IH Hl) as (E1 & E2 & E3 & E4 & E5). destruct a; try contradiction.
  unfold calls, resp_filters, resp_hops, resp_verdicts in *. cbn [flat_map app]. repeat split; auto. intros a [<-|Hi]; [eauto|exact (E5 a Hi)].
Qed.
Lemma only_resp : forall l, Forall (fun a => match a with OnResponse _ _ _ _ => True | _ => False end) l ->
  calls l = [] /\ req_filters l = [] /\ req_hops l = [] /\ req_verdicts l = [] /\ (forall a, In a l -> exists f n cs v, a = OnResponse f n cs v).
Proof.
  induction l as [|a l IH]; intros H; [cbn; intuition|]. inversion H as [|? ? Ha Hl]; subst. destruct (IH Hl) as (E1 & E2 & E3 & E4 & E5). destruct a; try contradiction.
  unfold calls, req_filters, req_hops, req_verdicts in *. cbn [flat_map app]. repeat split; auto. intros a [<-|Hi]; [eauto|exact (E5 a Hi)].
Qed.
Record summary (disc stream mw : bool) (fs : list nat) (target method : string) (md : metadata) (rpc : string -> metadata -> answer) (o : outcome) (l : list act) : Prop :=
  { su_calls : calls l = [] \/ calls l = [(method, fold_left (do_hop lower) (req_hops l) (initial md))];
    su_called : calls l <> [] <-> stream = true /\ (mw = true -> parse (raw_url target method) <> None) /\ ~ In Fail (req_verdicts l);
    su_req : prefix (req_filters l) fs /\ (forall a v b, req_verdicts l = a ++ v :: b -> v <> Continue -> b = []) /\ (calls l <> [] -> (forall v, In v (req_verdicts l) -> v = Continue) -> req_filters l = fs);
    su_resp : prefix (resp_filters l) fs /\ (o = OOk -> resp_filters l = fs) /\ (forall c, o = ORpc c -> resp_filters l = []);
    su_panic : o = OPanic <-> stream = true /\ mw = true /\ parse (raw_url target method) = None;
    su_rpc : forall c, o = ORpc c <-> exists m, calls l = [(method, m)] /\ rpc method m = Failed c;
    su_ok : o = OOk <-> exists m h t, calls l = [(method, m)] /\ rpc method m = Answer h t /\ ~ In Fail (resp_verdicts l);
    su_see : forall u m, In (SeeRequest u m) l -> u = no_url /\ m = initial md;
    su_seen : forall st g h t, In (SeeResponse st g h t) l -> st = 200%Z /\ g = 0 /\ o = OOk /\ exists m h0, calls l = [(method, m)] /\ rpc method m = Answer h0 t /\ h = fold_left (do_hop lower) (resp_hops l) h0 }.
Ltac parts := unfold calls, resp_filters, resp_hops, resp_verdicts, req_filters, req_hops, req_verdicts in *; rewrite ?flat_map_app in *; cbn [flat_map app] in *; rewrite ?flat_map_app in *; cbn [flat_map app] in *; rewrite ?app_nil_r in *.
Lemma wrap_some : forall r, wrap_url parse r = Some no_url <-> parse r <> None.
Proof. intros r. unfold wrap_url. destruct (parse r); split; congruence. Qed.
Lemma wrap_none : forall r, wrap_url parse r = None <-> parse r = None.
Proof. intros r. unfold wrap_url. destruct (parse r); split; congruence. Qed.
Lemma summary_inner : forall disc mw fs target method md rpc o l, inner mw fs method md rpc (wrap_url parse (raw_url target method)) o l -> summary disc true mw fs target method md rpc o l.
Proof.
  intros disc mw fs target method md rpc o l [(Hu & -> & -> & ->)|(Hu & l1 & ok & m & HR & HC)].
  - apply wrap_none in Hu. constructor; cbn; auto; try (intuition congruence).
    + split; [exists fs; reflexivity|split; [intros a v b E; destruct a; discriminate|congruence]].
    + split; [exists fs; reflexivity|split; congruence].
    + intros c. split; [discriminate|intros (m & E & _); discriminate].
    + split; [discriminate|intros (m & h & t & E & _); discriminate].
  - assert (HP: ~ (mw = true /\ parse (raw_url target method) = None)). { intros [-> E]. apply wrap_none in E. rewrite E in Hu. destruct Hu; discriminate. }
    assert (HP2: mw = true -> parse (raw_url target method) <> None) by tauto.
    set (see := match wrap_url parse (raw_url target method) with Some u => if mw then [SeeRequest u (initial md)] else [] | None => [] end) in HC.
    assert (HS: see = [] \/ see = [SeeRequest no_url (initial md)]). { unfold see. destruct mw; [|destruct (wrap_url _ _); auto]. destruct Hu as [->|]; [auto|discriminate]. }
    clearbody see. cbv zeta in HC. destruct HR as [R1 R2 [c3 R3] R4 R5 R6]. destruct (only_req l1 R1) as (E1 & E2 & E3 & E4 & E5).
    assert (FS: calls see = [] /\ req_filters see = [] /\ req_hops see = [] /\ req_verdicts see = [] /\ resp_filters see = [] /\ resp_hops see = [] /\ resp_verdicts see = []) by (destruct HS as [-> | ->]; repeat split; reflexivity).
    destruct FS as (s1 & s2 & s3 & s4 & s5 & s6 & s7).
    assert (SEE: forall u m', In (SeeRequest u m') see -> u = no_url /\ m' = initial md) by (intros u m'; destruct HS as [-> | ->]; [intros []|intros [E|[]]; injection E as <- <-; auto]).
    assert (SEE2: forall st g h t, ~ In (SeeResponse st g h t) see) by (intros st g h t; destruct HS as [-> | ->]; [intros []|intros [E|[]]; discriminate]).
    destruct HC as [(-> & -> & ->)|[(-> & c & Hf & -> & ->)|(-> & h & t & l2 & ok2 & h' & Ha & HP3 & -> & ->)]].
    + assert (NF: In Fail (req_verdicts l1)). { destruct (in_dec (fun a b : verdict => ltac:(decide equality) : {a = b} + {a <> b}) Fail (req_verdicts l1)) as [Y|N]; [exact Y|]. apply R4 in N. discriminate. }
      constructor; parts; rewrite ?s1, ?s2, ?s3, ?s4, ?s5, ?s6, ?s7, ?E1, ?E2, ?E3, ?E4; cbn [app].
      * auto.
      * split; [congruence|]. intros (_ & _ & N). contradiction.
      * split; [exists c3; exact R3|]. split; [exact R6|congruence].
      * split; [exists fs; reflexivity|split; [discriminate|reflexivity]].
      * split; [discriminate|]. tauto.
      * intros c. split; [discriminate|intros (m' & E & _); discriminate].
      * split; [discriminate|intros (m' & h & t & E & _); discriminate].
      * intros u m' Hi. apply in_app_or in Hi. destruct Hi as [Hi|Hi]; [auto|]. destruct (E5 _ Hi) as (? & ? & ? & ? & E). discriminate.
      * intros st g h t Hi. apply in_app_or in Hi. destruct Hi as [Hi|Hi]; [elim (SEE2 _ _ _ _ Hi)|]. destruct (E5 _ Hi) as (? & ? & ? & ? & E). discriminate.
    + pose proof (proj1 R4 eq_refl) as NF.
      constructor; parts; rewrite ?s1, ?s2, ?s3, ?s4, ?s5, ?s6, ?s7, ?E1, ?E2, ?E3, ?E4; cbn [app]; rewrite ?app_nil_r.
      * right. now rewrite R2.
      * split; [auto|discriminate].
      * split; [exists c3; exact R3|]. split; [exact R6|auto].
      * split; [exists fs; reflexivity|split; [discriminate|reflexivity]].
      * split; [discriminate|]. tauto.
      * intros c'. split; [intros E; injection E as <-; eauto|intros (m' & E & E'); injection E as <-; congruence].
      * split; [discriminate|intros (m' & h & t & E & E' & _); injection E as <-; congruence].
      * intros u m' Hi. apply in_app_or in Hi. destruct Hi as [Hi|Hi]; [auto|]. apply in_app_or in Hi. destruct Hi as [Hi|[Hi|[]]]; [|discriminate]. destruct (E5 _ Hi) as (? & ? & ? & ? & E). discriminate.
      * intros st g h t Hi. apply in_app_or in Hi. destruct Hi as [Hi|Hi]; [elim (SEE2 _ _ _ _ Hi)|]. apply in_app_or in Hi. destruct Hi as [Hi|[Hi|[]]]; [|discriminate]. destruct (E5 _ Hi) as (? & ? & ? & ? & E). discriminate.
    + pose proof (proj1 R4 eq_refl) as NF. destruct HP3 as [P1 P2 [d3 P3] P4 P5]. injection P2 as P2. destruct (only_resp l2 P1) as (F1 & F2 & F3 & F4 & F5).
      set (aft := if ok2 && mw then [SeeResponse 200 0 h' t] else []).
      assert (FA: calls aft = [] /\ req_filters aft = [] /\ req_hops aft = [] /\ req_verdicts aft = [] /\ resp_filters aft = [] /\ resp_hops aft = [] /\ resp_verdicts aft = []) by (unfold aft; destruct (ok2 && mw); repeat split; reflexivity).
      destruct FA as (a1 & a2 & a3 & a4 & a5 & a6 & a7).
      assert (AFT: forall a, In a aft -> ok2 = true /\ a = SeeResponse 200 0 h' t) by (intros a; unfold aft; destruct ok2, mw; cbn [andb]; [intros [<-|[]]; auto|intros []|intros []|intros []]).
      clearbody aft.
      constructor; parts; rewrite ?s1, ?s2, ?s3, ?s4, ?s5, ?s6, ?s7, ?E1, ?E2, ?E3, ?E4, ?F1, ?F2, ?F3, ?F4, ?a1, ?a2, ?a3, ?a4, ?a5, ?a6, ?a7; cbn [app]; rewrite ?app_nil_r.
      * right. now rewrite R2.
      * split; [auto|discriminate].
      * split; [exists c3; exact R3|]. split; [exact R6|auto].
      * split; [exists d3; exact P3|split; [destruct ok2; [auto|discriminate]|intros c E; destruct ok2; discriminate]].
      * split; [destruct ok2; discriminate|]. tauto.
      * intros c'. split; [destruct ok2; discriminate|intros (m' & E & E'); injection E as <-; congruence].
      * split; [intros E; exists m, h, t; repeat split; auto; apply P4; destruct ok2; [reflexivity|discriminate]|intros (m' & h0 & t0 & E & E' & N); apply P4 in N; now rewrite N].
      * intros u m' Hi. apply in_app_or in Hi. destruct Hi as [Hi|Hi]; [auto|]. apply in_app_or in Hi. destruct Hi as [Hi|[Hi|Hi]]; [|discriminate|].
        -- destruct (E5 _ Hi) as (? & ? & ? & ? & E). discriminate.
        -- apply in_app_or in Hi. destruct Hi as [Hi|Hi]; [destruct (F5 _ Hi) as (? & ? & ? & ? & E); discriminate|]. destruct (AFT _ Hi) as [_ E]. discriminate.
      * intros st g h0 t0 Hi. apply in_app_or in Hi. destruct Hi as [Hi|Hi]; [elim (SEE2 _ _ _ _ Hi)|]. apply in_app_or in Hi. destruct Hi as [Hi|[Hi|Hi]]; [|discriminate|].
        -- destruct (E5 _ Hi) as (? & ? & ? & ? & E). discriminate.
        -- apply in_app_or in Hi. destruct Hi as [Hi|Hi]; [destruct (F5 _ Hi) as (? & ? & ? & ? & E); discriminate|]. destruct (AFT _ Hi) as [-> E]. injection E as -> -> -> ->.
           repeat split; auto. exists m, h. repeat split; auto.
Qed.
Lemma summary_ok : forall disc stream mw fs x target method md rpc o l, intercept lower parse G disc stream mw fs x target method md rpc = (o, l) -> summary disc stream mw fs target method md rpc o l.
Proof.
  intros disc stream mw fs x target method md rpc o l H. destruct (intercept_inner disc stream mw fs x target method md rpc) as (l0 & H1 & H2 & H3). rewrite H in *. cbn [fst snd] in *. clear H.
  assert (S0: summary disc stream mw fs target method md rpc o l0).
  { destruct stream; [apply summary_inner, H1; reflexivity|]. destruct (H2 eq_refl) as [-> ->]. constructor; cbn; auto; try (intuition congruence).
    - split; [exists fs; reflexivity|split; [intros a v b E; destruct a; discriminate|congruence]].
    - split; [exists fs; reflexivity|split; congruence].
    - intros c. split; [discriminate|intros (m & E & _); discriminate].
    - split; [discriminate|intros (m & h & t & E & _); discriminate]. }
  clear H1 H2.
  set (A := (if disc then [Inc target] else []) ++ (if stream then [Open] else [])). set (B := (if stream then [Close] else []) ++ (if disc then [Dec target] else [])).
  assert (EL: l = A ++ l0 ++ B) by (rewrite H3; unfold A, B; rewrite <- !app_assoc; reflexivity). clear H3.
  assert (FA: calls A = [] /\ req_filters A = [] /\ req_hops A = [] /\ req_verdicts A = [] /\ resp_filters A = [] /\ resp_hops A = [] /\ resp_verdicts A = []) by (unfold A; destruct disc, stream; repeat split; reflexivity).
  assert (FB: calls B = [] /\ req_filters B = [] /\ req_hops B = [] /\ req_verdicts B = [] /\ resp_filters B = [] /\ resp_hops B = [] /\ resp_verdicts B = []) by (unfold B; destruct disc, stream; repeat split; reflexivity).
  assert (IN: forall a, In a l -> (match a with SeeRequest _ _ | SeeResponse _ _ _ _ => True | _ => False end) -> In a l0).
  { intros a Hi Ha. subst l. apply in_app_or in Hi. destruct Hi as [Hi|Hi]; [|apply in_app_or in Hi; destruct Hi as [Hi|Hi]; [exact Hi|]]; unfold A, B in Hi; destruct disc, stream; cbn in Hi; repeat destruct Hi as [<-|Hi]; try contradiction. }
  clearbody A B.
  assert (IL: calls l = calls l0 /\ req_filters l = req_filters l0 /\ req_hops l = req_hops l0 /\ req_verdicts l = req_verdicts l0 /\ resp_filters l = resp_filters l0 /\ resp_hops l = resp_hops l0 /\ resp_verdicts l = resp_verdicts l0).
  { destruct FA as (a1 & a2 & a3 & a4 & a5 & a6 & a7). destruct FB as (b1 & b2 & b3 & b4 & b5 & b6 & b7). subst l. parts.
    rewrite a1, a2, a3, a4, a5, a6, a7, b1, b2, b3, b4, b5, b6, b7. cbn [app]. rewrite !app_nil_r. repeat split; reflexivity. }
  destruct IL as (i1 & i2 & i3 & i4 & i5 & i6 & i7). destruct S0 as [S1 S2 S3 S4 S5 S6 S7 S8 S9].
  constructor; rewrite ?i1, ?i2, ?i3, ?i4, ?i5, ?i6, ?i7; auto.
Qed.
End One.

(* The call is made at most once, with the metadata of the caller as the filters changed it, in their order; and it is made unless the
   stream cannot be had, a filter fails or the URL cannot be parsed *)
Theorem C83_sent : forall lower parse X (G : guest X) disc stream mw fs x target method md rpc o l, intercept lower parse G disc stream mw fs x target method md rpc = (o, l) ->
  (calls l = [] \/ calls l = [(method, fold_left (do_hop lower) (req_hops l) (initial md))]) /\
  (calls l <> [] <-> stream = true /\ (mw = true -> parse (raw_url target method) <> None) /\ ~ In Fail (req_verdicts l)).
Proof. intros. destruct (summary_ok _ _ _ _ _ _ _ _ _ _ _ _ _ _ H). auto. Qed.
Print Assumptions C83_sent.
(* Filters see the request in their order, each at most once; one that does not continue is the last; and none is left out if all continue.
   A completed call is shown to all of them once, in the same order; a failed one to none. *)
Theorem C83_filters : forall lower parse X (G : guest X) disc stream mw fs x target method md rpc o l, intercept lower parse G disc stream mw fs x target method md rpc = (o, l) ->
  prefix (req_filters l) fs /\ (forall a v b, req_verdicts l = a ++ v :: b -> v <> Continue -> b = []) /\ (calls l <> [] -> (forall v, In v (req_verdicts l) -> v = Continue) -> req_filters l = fs) /\
  prefix (resp_filters l) fs /\ (o = OOk -> resp_filters l = fs) /\ (forall c, o = ORpc c -> resp_filters l = []).
Proof. intros. destruct (summary_ok _ _ _ _ _ _ _ _ _ _ _ _ _ _ H) as [_ _ (A1 & A2 & A3) (B1 & B2 & B3) _ _ _ _ _]. auto 10. Qed.
Print Assumptions C83_filters.
(* What the caller gets: the error of the call as it is; success if and only if the call succeeded and no filter failed on the response *)
Theorem C83_outcome : forall lower parse X (G : guest X) disc stream mw fs x target method md rpc o l, intercept lower parse G disc stream mw fs x target method md rpc = (o, l) ->
  (forall c, o = ORpc c <-> exists m, calls l = [(method, m)] /\ rpc method m = Failed c) /\
  (o = OOk <-> exists m h t, calls l = [(method, m)] /\ rpc method m = Answer h t /\ ~ In Fail (resp_verdicts l)) /\
  (o = OPanic <-> stream = true /\ mw = true /\ parse (raw_url target method) = None).
Proof. intros. destruct (summary_ok _ _ _ _ _ _ _ _ _ _ _ _ _ _ H). auto. Qed.
Print Assumptions C83_outcome.
(* What filters can learn of the response: the status is always that of success, the metadata the server's as the filters changed it *)
Theorem C83_response_seen : forall lower parse X (G : guest X) disc stream mw fs x target method md rpc o l, intercept lower parse G disc stream mw fs x target method md rpc = (o, l) ->
  forall st g h t, In (SeeResponse st g h t) l -> st = 200%Z /\ g = 0 /\ o = OOk /\ exists m h0, calls l = [(method, m)] /\ rpc method m = Answer h0 t /\ h = fold_left (do_hop lower) (resp_hops l) h0.
Proof. intros until l. intros H. destruct (summary_ok _ _ _ _ _ _ _ _ _ _ _ _ _ _ H). auto. Qed.
Print Assumptions C83_response_seen.
(* The URL is refuted: whatever host and method are called, filters see an empty host, path and scheme *)
Theorem C83_url_refuted : forall lower parse X (G : guest X) disc stream mw fs x target method md rpc o l, intercept lower parse G disc stream mw fs x target method md rpc = (o, l) ->
  forall u m, In (SeeRequest u m) l -> u_host u = ""%string /\ u_path u = ""%string /\ u_scheme u = ""%string /\ m = initial md.
Proof. intros until l. intros H u m Hi. destruct (summary_ok _ _ _ _ _ _ _ _ _ _ _ _ _ _ H) as [_ _ _ _ _ _ _ S _]. destruct (S u m Hi) as [-> ->]. auto. Qed.
Print Assumptions C83_url_refuted.
(* and a target that is no part of a URL panics *)
Theorem C83_panic_refuted : forall lower parse X (G : guest X) disc fs x target method md rpc, parse (raw_url target method) = None ->
  fst (intercept lower parse G disc true true fs x target method md rpc) = OPanic.
Proof. intros. destruct (intercept lower parse G disc true true fs x target method md rpc) as [o l] eqn:E. destruct (C83_outcome _ _ _ _ _ _ _ _ _ _ _ _ _ _ _ E) as (_ & _ & P). apply P. auto. Qed.
Print Assumptions C83_panic_refuted.
(* A filter that denies a call, by an answer of its own and a pause, does not stop it: only an error of the filter does *)
Theorem C83_deny_refuted : forall lower parse X disc mw fs (x : X) target method md rpc status, parse (raw_url target method) <> None ->
  let r := intercept lower parse (fun _ x _ _ => (x, [CSend status], Pause)) disc true mw fs x target method md rpc in
  calls (snd r) = [(method, initial md)] /\ fst r = match rpc method (initial md) with Answer _ _ => OOk | Failed c => ORpc c end.
Proof.
  intros lower parse X disc mw fs x target method md rpc status Hp r. destruct r as [o l] eqn:E. unfold r in E. cbn [fst snd].
  assert (Q: forall fs (w : @world X), let '(ok, _, l) := on_request lower (fun _ x _ _ => (x, [CSend status], Pause)) fs w in ok = true).
  { clear. intros [|f fs] w; reflexivity. }
  pose proof (C83_sent _ _ _ _ _ _ _ _ _ _ _ _ _ _ _ E) as [S1 S2]. pose proof (C83_outcome _ _ _ _ _ _ _ _ _ _ _ _ _ _ _ E) as (O1 & O2 & _).
  (* no callback fails and none changes anything *)
  assert (L: Forall (fun a => match a with OnRequest _ _ cs v | OnResponse _ _ cs v => cs = [CSend status] /\ v = Pause | _ => True end) l).
  { assert (P1: forall fs (w : @world X), let '(_, _, l) := on_request lower (fun _ x _ _ => (x, [CSend status], Pause)) fs w in Forall (fun a => match a with OnRequest _ _ cs v | OnResponse _ _ cs v => cs = [CSend status] /\ v = Pause | _ => True end) l).
    { clear. intros [|f fs] w; cbn; repeat constructor. }
    assert (P2: forall fs (w : @world X), let '(_, _, l) := on_response lower (fun _ x _ _ => (x, [CSend status], Pause)) fs w in Forall (fun a => match a with OnRequest _ _ cs v | OnResponse _ _ cs v => cs = [CSend status] /\ v = Pause | _ => True end) l).
    { clear. intros fs. induction fs as [|f fs IH]; intros w; [constructor|]. cbn. match goal with |- context [on_response ?a ?b fs ?c] => specialize (IH c); destruct (on_response a b fs c) as [[? ?] ?] end. constructor; auto. }
    unfold intercept in E. cbn [negb] in E. fold (initial md) in E. specialize (P1 fs (mkw x (initial md) None)). destruct (on_request _ _ fs (mkw x (initial md) None)) as [[ok w] l1].
    assert (K: forall r : outcome * list act, Forall (fun a => match a with OnRequest _ _ cs v | OnResponse _ _ cs v => cs = [CSend status] /\ v = Pause | _ => True end) (snd r) ->
       (if disc then (fst (fst r, Open :: snd r ++ [Close]), Inc target :: snd (fst r, Open :: snd r ++ [Close]) ++ [Dec target]) else (fst r, Open :: snd r ++ [Close])) = (o, l) -> Forall (fun a => match a with OnRequest _ _ cs v | OnResponse _ _ cs v => cs = [CSend status] /\ v = Pause | _ => True end) l).
    { clear. intros r Hr Heq. destruct disc; cbn [fst snd] in Heq; injection Heq as _ <-; repeat first [apply Forall_app; split | constructor]; auto. }
    apply K in E; [exact E|]. clear E K S1 S2 O1 O2 Q.
    destruct (wrap_url parse (raw_url target method)) as [u|], mw, ok; cbn [snd]; try (constructor; fail).
    all: try (destruct (rpc method (w_req w)) as [h t|c]; [specialize (P2 fs (mkw (w_x w) (w_req w) (Some h))); destruct (on_response _ _ fs (mkw (w_x w) (w_req w) (Some h))) as [[[] w2] l2]|]); cbn [snd app]; repeat first [apply Forall_app; split | constructor]; auto. }
  assert (V: ~ In Fail (req_verdicts l) /\ ~ In Fail (resp_verdicts l) /\ req_hops l = []).
  { clear -L. induction l as [|a l IH]; [cbn; auto|]. inversion L as [|? ? Ha Hl]; subst. destruct (IH Hl) as (V1 & V2 & V3). unfold req_verdicts, resp_verdicts, req_hops in *. cbn [flat_map].
    destruct a; cbn [app] in *; auto; destruct Ha as [-> ->]; cbn [flat_map app In]; repeat split; auto; intros [X0|X0]; try discriminate; auto. }
  destruct V as (V1 & V2 & V3). rewrite V3 in S1. cbn [fold_left] in S1.
  assert (C: calls l = [(method, initial md)]). { destruct S1 as [S1|S1]; [|exact S1]. exfalso. apply (proj2 S2); auto. }
  split; [exact C|]. destruct (rpc method (initial md)) as [h t|c] eqn:R; [apply O2; exists (initial md), h, t; auto|apply O1; exists (initial md); auto].
Qed.
Print Assumptions C83_deny_refuted.
(* Counts and streams: on every way out, also by a panic, what was counted is uncounted and what was opened is closed, once, at the end *)
Definition quiet (l : list act) : Prop := forall a, In a l -> match a with Inc _ | Dec _ | Open | Close => False | _ => True end.
Theorem C83_balanced : forall lower parse X (G : guest X) disc stream mw fs x target method md rpc,
  exists l, quiet l /\ snd (intercept lower parse G disc stream mw fs x target method md rpc) =
    (if disc then [Inc target] else []) ++ (if stream then [Open] else []) ++ l ++ (if stream then [Close] else []) ++ (if disc then [Dec target] else []).
Proof.
  intros. destruct (intercept_inner lower parse G disc stream mw fs x target method md rpc) as (l & H1 & H2 & H3). exists l. split; [|exact H3].
  destruct stream; [|destruct (H2 eq_refl) as [-> _]; intros a []]. specialize (H1 eq_refl). destruct H1 as [(_ & _ & _ & ->)|(Hu & l1 & ok & m & HR & HC)]; [intros a []|].
  pose proof (only_req _ (rp_only _ _ _ _ _ _ HR)) as (_ & _ & _ & _ & R). cbv zeta in HC.
  assert (Q1: quiet l1) by (intros a Hi; destruct (R a Hi) as (? & ? & ? & ? & ->); exact I).
  assert (QA: forall a b, quiet a -> quiet b -> quiet (a ++ b)) by (intros a b Ha Hb y Hy; apply in_app_or in Hy; destruct Hy as [Hy|Hy]; [exact (Ha y Hy)|exact (Hb y Hy)]).
  assert (QC: forall a b, (match a with Inc _ | Dec _ | Open | Close => False | _ => True end) -> quiet b -> quiet (a :: b)) by (intros a b Ha Hb y [<-|Hy]; [exact Ha|exact (Hb y Hy)]).
  assert (QN: quiet []) by (intros a []).
  match type of HC with context [?s ++ l1] => assert (QS: quiet s) end. { destruct (wrap_url _ _); [destruct mw|]; solve [exact QN | apply QC; [exact I|exact QN]]. }
  destruct HC as [(_ & _ & ->)|[(_ & c & _ & _ & ->)|(_ & h & t & l2 & ok2 & h' & _ & HP & _ & ->)]].
  - apply QA; assumption.
  - apply QA; [assumption|]. apply QA; [assumption|]. apply QC; [exact I|exact QN].
  - pose proof (only_resp _ (sp_only _ _ _ _ _ _ HP)) as (_ & _ & _ & _ & R2). apply QA; [assumption|]. apply QA; [assumption|]. apply QC; [exact I|]. apply QA.
    + intros a Hi. destruct (R2 a Hi) as (? & ? & ? & ? & ->). exact I.
    + destruct (ok2 && mw); [apply QC; [exact I|exact QN]|exact QN].
Qed.
Print Assumptions C83_balanced.
(* the statuses: success alone is 200, every other code is an error status *)
Theorem C83_status : forall c, (http_status c = 200%Z <-> c = 0) /\ (c <> 0 -> (400 <= http_status c <= 504)%Z).
Proof. intros c. do 17 (destruct c as [|c]; [cbn; split; [split; (congruence || lia)|lia]|]). cbn. split; [split; (congruence || lia)|lia]. Qed.
Print Assumptions C83_status.
(* the address: discovery's if it has one, the caller's if discovery knows nothing; an error if it knows the service and has no endpoint *)
Theorem C83_dial : forall d addr server a s, dial d addr server = Some (a, s) <-> (d = NotFound /\ a = addr /\ s = server) \/ d = Found a s.
Proof. intros [| |a0 s0] addr server a s; cbn; split; try (intros E; injection E as <- <-; auto); try discriminate; intros [(E & E1 & E2)|E]; congruence. Qed.
Print Assumptions C83_dial.

(* ---- several at a time ---- *)
Definition busy (t : string) (c : string * phase) : bool := String.eqb (fst c) t && match snd c with PIdle | PEnd _ => false | _ => true end.
Definition busy_count (t : string) (l : list (string * phase)) : nat := length (filter (busy t) l).
Lemma busy_mid : forall t l c r, busy_count t (l ++ c :: r) = busy_count t (l ++ r) + (if busy t c then 1 else 0).
Proof. intros t l c r. unfold busy_count. rewrite !filter_app, !app_length. cbn [filter]. destruct (busy t c); cbn [length]; lia. Qed.
(* at any time the count of a target is the number of calls to it that are under way *)
Theorem C83_active : forall ts s t, greach ts s -> g_active s t = Z.of_nat (busy_count t (g_calls s)).
Proof.
  intros ts s t R. induction R as [|s s' R IH Hs].
  - cbn [g_active g_calls]. assert (E: busy_count t (map (fun t0 => (t0, PIdle)) ts) = 0). { clear. unfold busy_count. induction ts as [|y ts IH]; [reflexivity|]. cbn [map filter]. unfold busy at 1. cbn [snd]. rewrite andb_false_r. exact IH. } now rewrite E.
  - inversion Hs as [c|l r t' El|l r t' c El Hi|l r t' c El|l r t' p El Hp]; subst; cbn [g_active g_calls]; rewrite ?El in IH; [exact IH| | | |]; rewrite busy_mid in *; unfold busy in *; cbn [fst snd] in *; unfold bump; rewrite ?andb_false_r, ?andb_true_r in *.
    + rewrite (String.eqb_sym t t'). destruct (String.eqb t' t); rewrite ?IH; lia.
    + rewrite IH. reflexivity.
    + rewrite IH. reflexivity.
    + assert (Ep: match p with PIdle | PEnd _ => false | _ => true end = true) by (destruct Hp as [->|[[c ->]|(c & o & ->)]]; reflexivity). rewrite Ep, andb_true_r in IH.
      assert (E0: (String.eqb t' t && match (PEnd match p with PReported c o => Some (c, o) | _ => None end) with PIdle | PEnd _ => false | _ => true end) = false) by apply andb_false_r. cbn in *. rewrite ?E0, ?andb_false_r. rewrite (String.eqb_sym t t'). destruct (String.eqb t' t); rewrite ?IH; lia.
Qed.
Print Assumptions C83_active.
(* with one connection the state a call reports is that of its connection *)
Theorem C83_one_connection : forall ts s t c o k, greach ts s -> (forall c', In c' (g_conns s) -> c' = k) -> In (t, PEnd (Some (c, o))) (g_calls s) -> c = k /\ o = Some k.
Proof.
  intros ts s t c o k R.
  assert (P: (forall c', In c' (g_conns s) -> c' = k) -> (g_conns s <> [] -> g_state s = Some k) /\ Forall (fun x => match snd x with PCalled c => c = k /\ g_conns s <> [] | PReported c o | PEnd (Some (c, o)) => c = k /\ o = Some k | _ => True end) (g_calls s)).
  { clear t c o. induction R as [|s s' R IH Hs].
    - cbn. intros _. split; [congruence|]. apply Forall_forall. intros x Hx. apply in_map_iff in Hx. destruct Hx as (y & <- & _). exact I.
    - inversion Hs as [c|l r t El|l r t c El Hi|l r t c El|l r t p El Hp]; subst; cbn [g_conns g_state g_calls]; intros Hk.
      + rewrite (Hk c (or_introl eq_refl)) in *. split; [reflexivity|]. destruct IH as [_ IH]; [intros c' Hc; apply Hk; right; exact Hc|]. eapply Forall_impl; [|exact IH]. intros [t [| |c0|c0 o0|[[c0 o0]|]]]; cbn; auto. intros [-> _]. split; [reflexivity|discriminate].
      + destruct (IH Hk) as [I1 I2]. split; [exact I1|]. rewrite El in I2. apply Forall_app in I2. destruct I2 as [I2 I3]. apply Forall_app. split; [exact I2|]. inversion I3; subst. constructor; [exact I|assumption].
      + destruct (IH Hk) as [I1 I2]. split; [exact I1|]. rewrite El in I2. apply Forall_app in I2. destruct I2 as [I2 I3]. apply Forall_app. split; [exact I2|]. inversion I3; subst. constructor; [|assumption]. cbn. split; [auto|]. intros E. rewrite E in Hi. destruct Hi.
      + destruct (IH Hk) as [I1 I2]. split; [exact I1|]. rewrite El in I2. apply Forall_app in I2. destruct I2 as [I2 I3]. apply Forall_app. split; [exact I2|]. inversion I3 as [|? ? J1 J3]; subst. cbn in J1. destruct J1 as [J1 J2]. constructor; [|assumption]. cbn. split; auto.
      + destruct (IH Hk) as [I1 I2]. split; [exact I1|]. rewrite El in I2. apply Forall_app in I2. destruct I2 as [I2 I3]. apply Forall_app. split; [exact I2|]. inversion I3 as [|? ? J1 J3]; subst. constructor; [|assumption]. destruct p as [| | |c0 o0|]; cbn in *; auto. }
  intros Hk Hi. destruct (P Hk) as [_ F]. rewrite Forall_forall in F. exact (F _ Hi).
Qed.
Print Assumptions C83_one_connection.
(* with two it can be that of the other: addresses and certificates of a peer the call did not go to *)
Theorem C83_state_refuted : exists s, greach ["a"; "b"]%string s /\ In ("a"%string, PEnd (Some (1, Some 2))) (g_calls s).
Proof.
  pose proof (GInit ["a"; "b"]%string) as R0. cbn [map] in R0.
  match type of R0 with greach _ ?s0 => pose proof (GNext _ _ _ R0 (GDial s0 1)) as R1 end. cbn in R1.
  match type of R1 with greach _ ?s0 => pose proof (GNext _ _ _ R1 (GStart s0 [] [("b", PIdle)]%string "a"%string eq_refl)) as R2 end. cbn [g_active g_state g_conns g_calls app] in R2.
  match type of R2 with greach _ ?s0 => pose proof (GNext _ _ _ R2 (GCall s0 [] [("b", PIdle)]%string "a"%string 1 eq_refl (or_introl eq_refl))) as R3 end. cbn [g_active g_state g_conns g_calls app] in R3.
  match type of R3 with greach _ ?s0 => pose proof (GNext _ _ _ R3 (GDial s0 2)) as R4 end. cbn [g_active g_state g_conns g_calls app] in R4.
  match type of R4 with greach _ ?s0 => pose proof (GNext _ _ _ R4 (GReport s0 [] [("b", PIdle)]%string "a"%string 1 eq_refl)) as R5 end. cbn [g_active g_state g_conns g_calls app] in R5.
  match type of R5 with greach _ ?s0 => pose proof (GNext _ _ _ R5 (GEnd s0 [] [("b", PIdle)]%string "a"%string _ eq_refl (or_intror (or_intror (ex_intro _ 1 (ex_intro _ (Some 2) eq_refl)))))) as R6 end. cbn [g_active g_state g_conns g_calls app] in R6.
  eexists. split; [exact R6|]. left. reflexivity.
Qed.
Print Assumptions C83_state_refuted.
(* a call with two filters, the first of which adds to the metadata *)
Example C83_example :
  let G : guest nat := fun f x m r => (S x, match r with None => [CReq (HAdd "x-id" "1")] | Some _ => [CResp (HDel "s")] end%string, Continue) in
  let id := fun s : string => s in
  exists l, intercept id (fun _ => Some no_url) G true true true [0; 1] 5 "svc:80"%string "/p.S/M"%string [("user", ["u"])]%string (fun _ m => Answer [("s", ["v"])]%string []) = (OOk, l) /\
  calls l = [("/p.S/M", [("x-id", ["1"; "1"]); ("user", ["u"]); ("content-type", ["application/grpc"])])]%string /\ resp_filters l = [0; 1] /\ In (SeeResponse 200 0 [] []) l.
Proof. eexists. split; [vm_compute; reflexivity|]. split; [reflexivity|]. split; [reflexivity|]. cbn. auto 20. Qed.
