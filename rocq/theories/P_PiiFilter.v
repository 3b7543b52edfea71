(* C70: the Kafka PII filter keeps message framing, handles every message and pairs responses with requests *)
From Coq Require Import List ZArith Bool Arith Lia.
From Verif Require Import M_KBase L_KBase S_KBase M_PiiFilter S_PiiFilter L_PiiFilter.
Import ListNotations.
Open Scope Z_scope.

(* Both directions of a connection, cut into chunks and interleaved in any way: what leaves the filter is, on the request
   side, the treated form of exactly the requests that are complete, on the response side exactly the responses that are
   complete -- for all sizes, numbers of messages and numbers of requests in flight.
   Partial: chunks that complete a message and end 1-3 bytes into the next size are excluded (refuted below). *)
Theorem C70_filtered_streams : forall e d reqs resps (treated : list (ref * list Z)) l t1 t2,
  let sq := req_side d in let sp := other sq in
  growing e -> d <> Unspecified -> Forall fits reqs -> Forall fits resps ->
  Forall2 (fun m ro => good_request e m (fst ro) (snd ro)) reqs treated ->
  (forall i m ro, nth_error resps i = Some m -> nth_error treated i = Some ro -> e_resp e m (fst ro) = true) ->
  sent sq l ++ t1 = stream reqs -> sent sp l ++ t2 = stream resps ->
  no_short_tail sq reqs l -> no_short_tail sp resps l -> causal sq reqs resps l ->
  let w := run e l (connection d) in
  w_dead w = false /\
  hout sq w = concat (map snd (firstn (length (completed reqs (length (sent sq l)))) treated)) /\
  hout sp w = stream (completed resps (length (sent sp l))).
Proof.
  intros e d reqs resps treated l t1 t2 sq sp G Hd F1 F2 Hq Hp E1 E2 N1 N2 HC w. destruct (connection_ok e d reqs resps treated l t1 t2 G Hd F1 F2 Hq Hp E1 E2 N1 N2 HC) as [A [_ [I1 [I2 _]]]]. split; [assumption|]. split; [apply I1|apply I2].
Qed.
Print Assumptions C70_filtered_streams.

(* If the filter changes no request it is transparent: delivered bytes and bytes held back are together the bytes received. *)
Theorem C70_transparent : forall e d reqs resps (refs : list ref) l t1 t2,
  let sq := req_side d in let sp := other sq in
  growing e -> d <> Unspecified -> Forall fits reqs -> Forall fits resps ->
  Forall2 (fun m r => e_parse e m = PSame r) reqs refs ->
  (forall i m r, nth_error resps i = Some m -> nth_error refs i = Some r -> e_resp e m r = true) ->
  sent sq l ++ t1 = stream reqs -> sent sp l ++ t2 = stream resps ->
  no_short_tail sq reqs l -> no_short_tail sp resps l -> causal sq reqs resps l ->
  let w := run e l (connection d) in
  forall s, hout s w ++ b_inc (buf s (w_ctx w)) ++ hbuf s w = sent s l /\ b_out (buf s (w_ctx w)) = [].
Proof.
  intros e d reqs resps refs l t1 t2 sq sp G Hd F1 F2 Hq Hp E1 E2 N1 N2 HC w s.
  destruct (connection_ok e d reqs resps (combine refs (map frame reqs)) l t1 t2 G Hd F1 F2) as [A [_ [I1 [I2 _]]]]; try assumption.
  - clear - Hq. induction Hq as [|m r reqs refs H Hq IH]; cbn; constructor; [|assumption]. left. split; [assumption|reflexivity].
  - intros i m ro Hm Hr. destruct ro as [r o]. cbn [fst]. apply (Hp i m r Hm). clear - Hr. revert i reqs Hr. induction refs as [|x refs IH]; intros [|i] [|y reqs] H; cbn in *; try discriminate; [injection H as -> _; reflexivity|]. exact (IH i reqs H).
  - fold sq in I1, I2. fold sp in I2. fold w in I1, I2.
    assert (Hs: s = sq \/ s = sp) by (unfold sp, sq; destruct s, d; auto). destruct Hs as [-> | ->].
    + destruct I1 as [[inc [Hb Hst]] [_ [_ Ho]]]. rewrite Hb, Ho. cbn [b_inc b_out]. split; [|reflexivity]. rewrite Hst at 2. f_equal.
      destruct (completed_prefix reqs (length (sent sq l))) as [r [Er _]]. set (C := completed reqs (length (sent sq l))) in *. clear - Hq Er. pose proof (Forall2_length Hq) as L. unfold stream. f_equal.
      assert (H: forall (C r reqs : list (list Z)) (refs : list ref), reqs = C ++ r -> length reqs = length refs -> map snd (firstn (length C) (combine refs (map frame reqs))) = map frame C).
      { clear. induction C as [|x C IH]; intros r reqs refs -> L; [reflexivity|]. destruct refs as [|y refs]; [discriminate|]. cbn. f_equal. apply (IH r (C ++ r) refs); [reflexivity|]. now injection L. }
      apply (H C r reqs refs Er L).
    + destruct I2 as [[inc [Hb Hst]] [_ [_ Ho]]]. rewrite Hb, Ho. cbn [b_inc b_out]. split; [|reflexivity]. now symmetry.
Qed.
Print Assumptions C70_transparent.

(* The requests in flight are a queue, in whatever order requests and responses are handled: the reference taken for
   a response is always the oldest one not yet taken; enqueueing never fails. *)
Inductive qop := Enq (r : ref) | Take.
Fixpoint exec_q (e : env) (ops : list qop) (c : ctx) : option (list ref * ctx) :=
  match ops with
  | [] => Some ([], c)
  | Enq r :: o => match enqueue e r c with Some c' => exec_q e o c' | None => None end
  | Take :: o => match c_q c with
                 | [] => exec_q e o c
                 | _ => match next_request c with
                        | Some (r, c') => match exec_q e o c' with Some (l, c2) => Some (r :: l, c2) | None => None end
                        | None => None
                        end
                 end
  end.
Fixpoint queue_spec (ops : list qop) (q : list ref) : list ref :=
  match ops with
  | [] => []
  | Enq r :: o => queue_spec o (q ++ [r])
  | Take :: o => match q with [] => queue_spec o [] | x :: q' => x :: queue_spec o q' end
  end.
Theorem C70_in_flight_queue : forall e ops d, growing e -> exists c, exec_q e ops (on_new_connection (new_ctx d)) = Some (queue_spec ops [], c).
Proof.
  intros e ops d G. assert (H: forall ops c, wfq (qof c) -> (length (c_q c) <= c_cap c)%nat -> exists c', exec_q e ops c = Some (queue_spec ops (fifo (qof c)), c')).
  { clear ops d. induction ops as [|o ops IH]; intros c W L; [now exists c|]. destruct o as [r|]; cbn [exec_q queue_spec].
    - destruct (enqueue_ok e r c G W L) as [q [E [Wq [Fq Lq]]]]. rewrite E. destruct (IH (putq q c)) as [c' H]; [now rewrite qof_putq|assumption|]. exists c'. rewrite H, qof_putq, Fq. reflexivity.
    - destruct (fifo (qof c)) as [|x rest] eqn:Ef.
      + assert (Hc: c_q c = []). { unfold fifo in Ef. cbn in Ef. destruct W as [[W|[_ W]] _]; [|exact W]. cbn in W. apply (f_equal (@length _)) in Ef. rewrite skipn_length in Ef. cbn in Ef. lia. }
        rewrite Hc. destruct (IH c W L) as [c' H]. exists c'. rewrite H, Ef. reflexivity.
      + destruct (next_ok c x rest W L Ef) as [Hn [q [E [Wq [Fq Lq]]]]]. destruct (c_q c) as [|y ys] eqn:Eq; [contradiction|]. rewrite E. destruct (IH (putq q c)) as [c' H]; [now rewrite qof_putq|assumption|]. exists c'. rewrite H, qof_putq, Fq. reflexivity. }
  destruct (H ops (on_new_connection (new_ctx d))) as [c Hc]; [unfold wfq; cbn; split; [right; split; reflexivity|lia]|cbn; lia|]. exists c. exact Hc.
Qed.
Print Assumptions C70_in_flight_queue.

(* After a failure of either handler everything passes unchanged, in both directions. *)
Theorem C70_failed_passes_all : forall e s data eos c, h_failed (c_req c) = true \/ h_failed (c_resp c) = true -> on_data e s data eos c = ORet Continue data c.
Proof. intros e s data eos c H. unfold on_data. destruct (kind_of (c_dir c) s); [|reflexivity]. destruct H as [-> | ->]; [reflexivity|]. now rewrite orb_true_r. Qed.
Print Assumptions C70_failed_passes_all.
(* Both sides of an unspecified direction pass unchanged. *)
Theorem C70_unspecified_passes_all : forall e s data eos c, c_dir c = Unspecified -> on_data e s data eos c = ORet Continue data c.
Proof. intros e s data eos c H. unfold on_data. rewrite H. reflexivity. Qed.
Print Assumptions C70_unspecified_passes_all.

(* The excluded chunks: on a connection without held bytes, a chunk with k >= 1 complete messages and 1-3 bytes of the next
   size is passed on as it came -- whatever the filter made of the messages -- and the filter is off from then on. *)
Theorem C70_short_tail_disables : forall e d ms treated tail w,
  growing e -> d <> Unspecified -> w = connection d -> Forall fits ms -> ms <> [] -> (1 <= length tail <= 3)%nat -> (exists m t, fits m /\ tail ++ t = frame m) ->
  Forall2 (fun m ro => good_request e m (fst ro) (snd ro)) ms treated ->
  let s := req_side d in let w' := arrive e s (stream ms ++ tail) false w in
  hout s w' = stream ms ++ tail /\ forall s2 ch eos, hout s2 (arrive e s2 ch eos w') = hout s2 w' ++ hbuf s2 w' ++ ch.
Proof.
  intros e d ms treated tail w G Hd -> F Hms Ht [m [t [Fm Em]]] Hq s w'.
  assert (Hc: completed (ms ++ [m]) (length (stream ms ++ tail)) = ms). { rewrite app_length, completed_skip. cbn [completed]. destruct (Nat.leb_spec (4 + length m) (length tail)); [lia|]. apply app_nil_r. }
  destruct (hfold_req e ms (map fst treated) (map snd treated) (mkq [] 0 100) G) as [q' [Hf _]]; [clear - Hq; induction Hq as [|x [a b] ms tr H Hq IH]; cbn; constructor; assumption|now rewrite !map_length|unfold wfq; cbn; split; [right; split; reflexivity|lia]|cbn; lia|].
  assert (Hs: firstn 4 (stream ms ++ tail) = firstn 4 (frame (hd [] ms) ++ [])). { destruct ms as [|x ms']; [contradiction|]. cbn [hd]. rewrite stream_cons, <- app_assoc, app_nil_r. reflexivity. }
  assert (Fh: fits (hd [] ms)) by (destruct ms as [|x ms']; [contradiction|]; apply Forall_cons_iff in F; apply F).
  assert (Hl: (4 + length (hd [] ms) <= length (stream ms ++ tail))%nat). { destruct ms as [|x ms']; [contradiction|]. cbn [hd]. rewrite stream_cons, !app_length, frame_len. lia. }
  assert (O: exists c', on_data e s (stream ms ++ tail) false (w_ctx (connection d)) = ORet Continue (stream ms ++ tail) c' /\ (h_failed (c_req c') = true)).
  { set (data := stream ms ++ tail) in *. set (c0 := w_ctx (connection d)).
    assert (K: kind_of (c_dir c0) s = Some Req) by (apply (proj1 (kinds d Hd))). unfold on_data. rewrite K. change (h_failed (c_req c0) || h_failed (c_resp c0)) with false. cbn [andb].
    assert (A: available s Req data c0 = (true, set_hnd Req (mkhst false (Z.of_nat (length (hd [] ms)))) c0)).
    { unfold available. change (h_size (hnd Req c0)) with 0. cbn [Z.eqb]. replace (b_inc (buf s c0)) with (@nil Z) by (unfold s; destruct d; reflexivity). cbn [app]. destruct (Nat.ltb_spec (length data) 4); [lia|]. rewrite Hs, (frame_size _ [] Fh), (complete_fits _ Fh). f_equal. apply Z.leb_le. lia. }
    rewrite A. cbn [negb]. set (c1 := set_hnd Req (mkhst false (Z.of_nat (length (hd [] ms)))) c0). replace (buf s c1) with (mksbuf [] []) by (unfold s; destruct d; reflexivity). cbn [b_inc b_out app].
    rewrite (loop_ok e s Req data (ms ++ [m]) (S (S (length data))) data t (set_buf s (mksbuf data []) c1) [] (concat (map snd treated)) q');
      [|apply Forall_app; split; [assumption|constructor; [assumption|constructor]]|rewrite stream_app; unfold data; rewrite <- app_assoc, Em; unfold stream at 3; cbn; now rewrite app_nil_r|lia|rewrite dir_set; exact K|apply buf_set|rewrite qof_set, Hc; exact Hf].
    rewrite Hc. unfold data at 2. rewrite skipn_app_exact. unfold after. destruct (Nat.eqb_spec (length tail) 0); [lia|]. destruct (Nat.leb_spec 4 (length tail)); [lia|]. cbn [orb]. eexists. split; [reflexivity|]. unfold fail_side. rewrite !dir_set, dir_putq, dir_set. change (c_dir c1) with (c_dir c0). rewrite K. unfold s. destruct d; reflexivity. }
  destruct O as [c' [O1 O2]]. unfold w', arrive. change (w_dead (connection d)) with false. replace (hbuf s (connection d)) with (@nil Z) by (unfold s; destruct d; reflexivity). replace (hout s (connection d)) with (@nil Z) by (unfold s; destruct d; reflexivity). cbn [app]. rewrite O1. split; [destruct s; reflexivity|].
  intros s2 ch eos. change (w_dead (set_side s [] (stream ms ++ tail) (set_ctx c' (connection d)))) with (w_dead (set_side s [] (stream ms ++ tail) (set_ctx c' (connection d)))). replace (w_dead (set_side s [] (stream ms ++ tail) (set_ctx c' (connection d)))) with false by (destruct s; reflexivity).
  replace (w_ctx (set_side s [] (stream ms ++ tail) (set_ctx c' (connection d)))) with c' by (destruct s; reflexivity). rewrite C70_failed_passes_all by (left; exact O2). destruct s2; reflexivity.
Qed.
Print Assumptions C70_short_tail_disables.

(* ---- defects ---- *)
(* A toy Kafka: [1; c] is a request with correlation id c, [2; c] one with PII that is redacted to [3; c]; a response
   [c] belongs to the request with that id *)
Definition toy : env :=
  mkenv (fun m => match m with
                  | [1; c] => PSame (mkref c 0 0)
                  | [2; c] => PMod (mkref c 0 0) (Some [3; c])
                  | _ => PErr
                  end)
        (fun m r => match m with [c] => c =? r_corr r | _ => false end)
        (fun n => (2 * n + 1)%nat).
Lemma toy_grow : growing toy.
Proof. intros n. cbn. lia. Qed.

(* A complete request with PII leaves the filter unredacted when its chunk also holds one byte of the next size. *)
Theorem C70_unredacted_refuted : exists e l, growing e /\ e_parse e [2; 7] = PMod (mkref 7 0 0) (Some [3; 7]) /\
  sent Down l = frame [2; 7] ++ [0] /\ hout Down (run e l (connection Inbound)) = frame [2; 7] ++ [0].
Proof. exists toy, [(Down, frame [2; 7] ++ [0])]. split; [exact toy_grow|]. repeat split. Qed.
Print Assumptions C70_unredacted_refuted.
(* Bytes held back from an earlier chunk are lost in that case. *)
Theorem C70_bytes_lost_refuted : exists e l, growing e /\ sent Down l = frame [1; 7] ++ frame [1; 8] ++ [0] /\
  hout Down (run e l (connection Inbound)) = frame [1; 7] ++ [8; 0] /\ hbuf Down (run e l (connection Inbound)) = [].
Proof. exists toy, [(Down, frame [1; 7] ++ [0; 0; 0; 2; 1]); (Down, [8; 0])]. split; [exact toy_grow|]. repeat split. Qed.
Print Assumptions C70_bytes_lost_refuted.
(* A request that does not parse also removes the requests before it in the same chunk from the stream. *)
Theorem C70_error_drops_earlier_refuted : exists e l, growing e /\ sent Down l = frame [1; 7] ++ frame [9] ++ frame [1; 8] /\
  hout Down (run e l (connection Inbound)) = frame [1; 8].
Proof. exists toy, [(Down, frame [1; 7] ++ frame [9] ++ frame [1; 8])]. split; [exact toy_grow|]. repeat split. Qed.
Print Assumptions C70_error_drops_earlier_refuted.
(* Held bytes are dropped when the peer ends its stream. *)
Theorem C70_end_of_stream_drops_refuted : exists e l, growing e /\ sent Down l = frame [1; 7] ++ [0; 0; 0; 2; 1] /\
  let w := arrive e Down [] true (run e l (connection Inbound)) in
  hout Down w = frame [1; 7] /\ b_inc (buf Down (w_ctx w)) = [] /\ hbuf Down w = [].
Proof. exists toy, [(Down, frame [1; 7] ++ [0; 0; 0; 2; 1])]. split; [exact toy_grow|]. repeat split. Qed.
Print Assumptions C70_end_of_stream_drops_refuted.
(* A response that arrives while no request is in flight is swallowed. *)
Theorem C70_response_swallowed_refuted : forall e d m, d <> Unspecified -> fits m ->
  hout (other (req_side d)) (arrive e (other (req_side d)) (frame m) false (connection d)) = [].
Proof.
  intros e d m Hd Fm. set (s := other (req_side d)). destruct (kinds d Hd) as [_ K]. fold s in K.
  pose proof (on_data_ok e s Resp (frame m) [m] [] (w_ctx (connection d)) [] (Forall_cons _ Fm (Forall_nil _)) K) as P.
  assert (Hb: buf s (w_ctx (connection d)) = mksbuf [] []) by (destruct d; reflexivity). specialize (P Hb eq_refl eq_refl). cbn [app] in P. rewrite app_nil_r in P. specialize (P (eq_sym (app_nil_r _)) (or_introl eq_refl)). cbv zeta in P.
  assert (Hc: completed [m] (length (frame m)) = [m]) by (cbn [completed]; rewrite frame_len; destruct (Nat.leb_spec (4 + length m) (4 + length m)); [reflexivity|lia]). rewrite Hc in P.
  assert (Hf: hfold e Resp [m] (qof (w_ctx (connection d))) = Some ([], mkq [] 0 100)) by reflexivity. destruct (P [] (mkq [] 0 100) Hf) as [c' [P1 _]].
  { left. rewrite skipn_length. unfold stream. cbn [map concat]. rewrite app_nil_r. lia. }
  unfold arrive. change (w_dead (connection d)) with false. replace (hbuf s (connection d)) with (@nil Z) by (unfold s; destruct d; reflexivity). cbn [app]. rewrite P1. unfold s. destruct d; reflexivity.
Qed.
Print Assumptions C70_response_swallowed_refuted.
(* A request the broker does not answer (Produce with acks = 0) shifts the pairing: the answer to the next request is
   checked against it, dropped, and the filter is off. *)
Theorem C70_unanswered_request_refuted : exists e l, growing e /\
  sent Down l = frame [1; 7] ++ frame [1; 8] /\ sent Up l = frame [8] /\ e_resp e [8] (mkref 8 0 0) = true /\
  hout Up (run e l (connection Inbound)) = [] /\ h_failed (c_resp (w_ctx (run e l (connection Inbound)))) = true.
Proof. exists toy, [(Down, frame [1; 7] ++ frame [1; 8]); (Up, frame [8])]. split; [exact toy_grow|]. repeat split. Qed.
Print Assumptions C70_unanswered_request_refuted.

(* Any size below 0, or so large that adding 4 overflows, panics on the request side of a new connection. *)
Theorem C70_bad_size_panics_refuted : forall e d data eos, d <> Unspecified -> (4 <= length data)%nat ->
  (let n := to_signed 32 (be_dec (firstn 4 data)) in n < 0 \/ 2 ^ 31 - 4 <= n) ->
  on_data e (req_side d) data eos (w_ctx (connection d)) = OPanic.
Proof.
  intros e d data eos Hd Hl Hn. cbv zeta in Hn. set (s := req_side d). set (c0 := w_ctx (connection d)). assert (K: kind_of (c_dir c0) s = Some Req) by (apply (proj1 (kinds d Hd))).
  unfold on_data. rewrite K. change (h_failed (c_req c0) || h_failed (c_resp c0)) with false. replace (b_inc (buf s c0)) with (@nil Z) by (unfold s; destruct d; reflexivity).
  cbv iota. destruct (Nat.eqb_spec (length data + length (@nil Z)) 0) as [H|_]; [cbn in H; lia|]. rewrite andb_false_r.
  set (n := to_signed 32 (be_dec (firstn 4 data))) in *. pose proof (to_signed_range 32 (be_dec (firstn 4 data)) ltac:(lia)) as Rn. fold n in Rn. unfold int_range in Rn. change (2 ^ (32 - 1)) with (2 ^ 31) in Rn.
  assert (C4: complete_size n < 4).
  { unfold complete_size. destruct Hn as [Hn|Hn]; [rewrite to_signed_id; unfold int_range; lia|]. unfold to_signed. change (2 ^ 32) with 4294967296. change (2 ^ (32 - 1)) with 2147483648. change (2 ^ 31) with 2147483648 in *. rewrite Z.mod_small by lia. destruct (Z.ltb_spec (4 + n) 2147483648); lia. }
  assert (A: available s Req data c0 = (true, set_hnd Req (mkhst false n) c0)).
  { unfold available. change (h_size (hnd Req c0)) with 0. cbn [Z.eqb]. replace (b_inc (buf s c0)) with (@nil Z) by (unfold s; destruct d; reflexivity). cbn [app]. destruct (Nat.ltb_spec (length data) 4); [lia|]. fold n. f_equal. apply Z.leb_le. lia. }
  rewrite A. cbn [negb]. set (c1 := set_hnd Req (mkhst false n) c0). replace (buf s c1) with (mksbuf [] []) by (unfold s; destruct d; reflexivity). cbn [b_inc b_out app]. cbn [loop]. rewrite buf_set. cbn [b_inc b_out]. destruct data as [|b0 data']; [cbn in Hl; lia|]. set (data := b0 :: data') in *.
  unfold message_size. destruct (Nat.ltb_spec (length data) 4); [lia|]. fold n. destruct (Z.ltb_spec (Z.of_nat (length data)) (complete_size n)); [lia|]. destruct (Z.ltb_spec (complete_size n) 0) as [|Hz0]; [reflexivity|].
  unfold handle. rewrite !dir_set. change (c_dir c1) with (c_dir c0). rewrite K. unfold handle_request. rewrite firstn_length. destruct (Nat.ltb_spec (Init.Nat.min (Z.to_nat (complete_size n)) (length data)) 4) as [|Hx]; [reflexivity|]. lia.
Qed.
Print Assumptions C70_bad_size_panics_refuted.

(* A size of -4 on the response side while nothing is in flight: the callback never returns, with any number of steps. *)
Theorem C70_never_returns_refuted : forall e fuel, loop e Up [255; 255; 255; 252] fuel (set_buf Up (mksbuf [255; 255; 255; 252] []) (w_ctx (connection Inbound))) = OHang /\
  on_data e Up [255; 255; 255; 252] false (w_ctx (connection Inbound)) = OHang.
Proof.
  assert (H: forall e fuel h, loop e Up [255; 255; 255; 252] fuel (mkctx Inbound (mksbuf [] []) (mksbuf [255; 255; 255; 252] []) (mkhst false 0) h [] 0 100) = OHang).
  { intros e. induction fuel as [|f IH]; intros h; [reflexivity|]. exact (IH h). }
  intros e fuel. split; [exact (H e fuel (mkhst false 0))|]. exact (H e _ (mkhst false (-4))).
Qed.
Print Assumptions C70_never_returns_refuted.
(* And that is the only way for a callback not to return: running out of steps in the model means that no number is enough. *)
Theorem C70_hang_exact : forall e s data fuel c, (length (b_inc (buf s c)) < fuel)%nat -> loop e s data fuel c = OHang -> forall f', loop e s data f' c = OHang.
Proof.
  intros e s data. induction fuel as [|f IH]; intros c L H f'; [lia|].
  assert (Z: complete_size (match message_size (b_inc (buf s c)) with Some n => n | None => 0 end) = 0 -> (exists o c', handle e s [] (set_buf s (mksbuf (b_inc (buf s c)) (b_out (buf s c))) c) = HOk o c') -> b_inc (buf s c) <> [] -> message_size (b_inc (buf s c)) <> None -> loop e s data f' c = OHang).
  { intros Z0 [o [c' Hh]] Hi Hm. assert (Es: set_buf s (mksbuf (b_inc (buf s c)) (b_out (buf s c))) c = c) by (destruct s, c as [? [] [] ? ? ? ? ?]; reflexivity). rewrite Es in Hh.
    assert (Ho: o = [] /\ c' = c).
    { unfold handle in Hh. destruct (kind_of (c_dir c) s) as [[]|]; [discriminate| |injection Hh as <- <-; split; reflexivity]. unfold handle_response in Hh. destruct (c_q c); [injection Hh as <- <-; split; reflexivity|]. destruct (next_request c) as [[? ?]|]; discriminate. }
    destruct Ho as [-> ->]. clear - Z0 Hh Hi Hm Es. induction f' as [|f' IH']; [reflexivity|]. cbn [loop]. destruct (b_inc (buf s c)) as [|b0 B] eqn:EB; [contradiction|]. set (I := b0 :: B) in *. destruct (message_size I) as [n|]; [|contradiction]. rewrite Z0. destruct (Z.ltb_spec (Z.of_nat (length I)) 0); [lia|]. cbn [Z.ltb Z.compare Z.to_nat firstn skipn]. rewrite Es, Hh, app_nil_r, Es. exact IH'. }
  destruct f' as [|f']; [reflexivity|]. cbn [loop] in H |- *.
  destruct (b_inc (buf s c)) as [|b0 B] eqn:EB; [discriminate|]. set (I := b0 :: B) in *. destruct (message_size I) as [n|] eqn:EM; [|discriminate]. destruct (Z.ltb_spec (Z.of_nat (length I)) (complete_size n)) as [|Hc]; [discriminate|]. destruct (Z.ltb_spec (complete_size n) 0) as [|Hz0]; [discriminate|].
  destruct (handle e s _ _) as [o c'|c'|] eqn:Hh; try discriminate. destruct (Z.eq_dec (complete_size n) 0) as [Z0|NZ].
  - specialize (Z Z0). rewrite Z0 in Hh. cbn [Z.to_nat firstn skipn] in Hh. specialize (Z (ex_intro _ o (ex_intro _ c' Hh)) ltac:(discriminate) ltac:(discriminate)). cbn [loop] in Z. rewrite EB in Z. fold I in Z. rewrite EM in Z. destruct (Z.ltb_spec (Z.of_nat (length I)) (complete_size n)); [lia|]. destruct (Z.ltb_spec (complete_size n) 0); [lia|]. rewrite Z0 in Z |- *. cbn [Z.to_nat firstn skipn] in Z |- *. rewrite Hh in Z. exact Z.
  - apply (IH _); [|exact H]. rewrite buf_set. cbn [b_inc]. rewrite skipn_length. lia.
Qed.
Print Assumptions C70_hang_exact.
(* The request side always returns. *)
Theorem C70_requests_return : forall e s data eos c, kind_of (c_dir c) s = Some Req -> on_data e s data eos c <> OHang.
Proof.
  intros e s data eos c K. assert (L: forall fuel c, kind_of (c_dir c) s = Some Req -> (length (b_inc (buf s c)) < fuel)%nat -> loop e s data fuel c <> OHang).
  { clear c K. induction fuel as [|f IH]; intros c K L H; [lia|]. cbn [loop] in H. destruct (b_inc (buf s c)) as [|b0 B] eqn:EB; [discriminate|]. set (I := b0 :: B) in *. destruct (message_size I) as [n|] eqn:EM; [|discriminate]. destruct (Z.ltb_spec (Z.of_nat (length I)) (complete_size n)) as [|Hc]; [discriminate|]. destruct (Z.ltb_spec (complete_size n) 0) as [|Hz0]; [discriminate|].
    destruct (handle e s _ _) as [o c'|c'|] eqn:Hh; try discriminate. unfold handle in Hh. rewrite dir_set, K in Hh. unfold handle_request in Hh. rewrite firstn_length in Hh. destruct (Nat.ltb_spec (Init.Nat.min (Z.to_nat (complete_size n)) (length I)) 4) as [|H4]; [discriminate|].
    revert H. apply IH; [|rewrite buf_set; cbn [b_inc]; rewrite skipn_length; lia]. rewrite dir_set.
    assert (Ed: forall r d c2, enqueue e r d = Some c2 -> c_dir c2 = c_dir d) by (intros r d c2 E; unfold enqueue in E; destruct (_ <=? _)%nat; [destruct (_ <=? _)%nat; [destruct (_ <=? _)%nat; [|discriminate]|]|]; injection E as <-; reflexivity).
    destruct (e_parse e _) as [|r|r new]; [discriminate| |]; destruct (enqueue e r _) as [c2|] eqn:E2; try discriminate; [|destruct new; [|discriminate]]; injection Hh as _ <-; rewrite (Ed _ _ _ E2), dir_set; exact K. }
  unfold on_data. rewrite K. destruct (_ || _); [discriminate|]. destruct (eos && _); [discriminate|].
  assert (Ea: c_dir (snd (available s Req data c)) = c_dir c) by (unfold available; destruct (_ =? _); [destruct (_ <? _)%nat|]; reflexivity). destruct (available s Req data c) as [ready c1]. cbn [snd] in Ea. destruct ready; cbn [negb]; [|destruct (eos && _); discriminate]. apply L; [rewrite dir_set, Ea; exact K|rewrite buf_set; cbn [b_inc]; lia].
Qed.
Print Assumptions C70_requests_return.

(* ---- the hypotheses of the stream theorems are met ---- *)
Example C70_ex_hyps : let reqs := [[1; 7]; [2; 8]; [1; 9]] in let resps := [[7]; [8]] in
  let treated := [(mkref 7 0 0, frame [1; 7]); (mkref 8 0 0, frame [3; 8]); (mkref 9 0 0, frame [1; 9])] in
  let l := [(Down, [0; 0]); (Down, [0; 2; 1]); (Down, [7] ++ frame [2; 8] ++ [0; 0; 0; 2; 1]); (Up, [0; 0; 0; 1]); (Up, [7]); (Down, [9]); (Up, frame [8])] in
  Forall fits reqs /\ Forall fits resps /\ Forall2 (fun m ro => good_request toy m (fst ro) (snd ro)) reqs treated /\
  (forall i m ro, nth_error resps i = Some m -> nth_error treated i = Some ro -> e_resp toy m (fst ro) = true) /\
  sent Down l = stream reqs /\ sent Up l = stream resps /\
  hout Down (run toy l (connection Inbound)) = frame [1; 7] ++ frame [3; 8] ++ frame [1; 9] /\ hout Up (run toy l (connection Inbound)) = frame [7] ++ frame [8].
Proof.
  cbv zeta. split; [repeat constructor; unfold fits; cbn; lia|]. split; [repeat constructor; unfold fits; cbn; lia|]. split.
  - constructor; [left; split; reflexivity|]. constructor; [right; exists [3; 8]; split; [reflexivity|split; [unfold fits; cbn; lia|reflexivity]]|]. constructor; [left; split; reflexivity|constructor].
  - split; [intros [|[|[|i]]] m ro Hm Hr; cbn in Hm, Hr; try discriminate; injection Hm as <-; injection Hr as <-; reflexivity|]. repeat split.
Qed.
Example C70_ex_chunks : let reqs := [[1; 7]; [2; 8]; [1; 9]] in let resps := [[7]; [8]] in
  let l := [(Down, [0; 0]); (Down, [0; 2; 1]); (Down, [7] ++ frame [2; 8] ++ [0; 0; 0; 2; 1]); (Up, [0; 0; 0; 1]); (Up, [7]); (Down, [9]); (Up, frame [8])] in
  no_short_tail Down reqs l /\ no_short_tail Up resps l /\ causal Down reqs resps l.
Proof.
  cbv zeta. split; [|split].
  - intros l1 ch l2 E. destruct l1 as [|a1 l1]; [injection E as <- <-; cbn; auto|]. injection E as <- E.
    destruct l1 as [|a1 l1]; [injection E as <- <-; cbn; auto|]. injection E as <- E.
    destruct l1 as [|a1 l1]; [injection E as <- <-; cbn; lia|]. injection E as <- E.
    destruct l1 as [|a1 l1]; [discriminate|]. injection E as <- E.
    destruct l1 as [|a1 l1]; [discriminate|]. injection E as <- E.
    destruct l1 as [|a1 l1]; [injection E as <- <-; cbn; lia|]. injection E as <- E.
    destruct l1 as [|a1 l1]; [discriminate|]. injection E as <- E. destruct l1; discriminate.
  - intros l1 ch l2 E. destruct l1 as [|a1 l1]; [discriminate|]. injection E as <- E.
    destruct l1 as [|a1 l1]; [discriminate|]. injection E as <- E.
    destruct l1 as [|a1 l1]; [discriminate|]. injection E as <- E.
    destruct l1 as [|a1 l1]; [injection E as <- <-; cbn; auto|]. injection E as <- E.
    destruct l1 as [|a1 l1]; [injection E as <- <-; cbn; auto|]. injection E as <- E.
    destruct l1 as [|a1 l1]; [discriminate|]. injection E as <- E.
    destruct l1 as [|a1 l1]; [injection E as <- <-; cbn; auto|]. injection E as <- E. destruct l1; discriminate.
  - intros l1 l2 E. do 7 (destruct l1 as [|? l1]; [cbn; lia|injection E as <- E]). destruct l1; [cbn; lia|discriminate].
Qed.
