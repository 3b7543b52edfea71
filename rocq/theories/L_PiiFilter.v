From Coq Require Import List ZArith Bool Arith Lia.
From Verif Require Import M_KBase L_KBase S_KBase M_PiiFilter S_PiiFilter.
Import ListNotations.
Open Scope Z_scope.

(* ---- frames ---- *)
Lemma frame_enc : forall m, frame m = be_enc 4 (Z.of_nat (length m)) ++ m \/ 2 ^ 32 <= Z.of_nat (length m).
Proof.
  intros m. destruct (Z.lt_ge_cases (Z.of_nat (length m)) (2 ^ 32)) as [H|H]; [left|right; assumption].
  unfold frame. cbn [be_enc app]. set (n := Z.of_nat (length m)) in *. rewrite (Z.div_div n 256 256), (Z.div_div n (256 * 256) 256) by lia. change (256 * 256 * 256) with 16777216. change (256 * 256) with 65536.
  rewrite (Z.mod_small (n / 16777216)); [reflexivity|]. split; [apply Z.div_pos; lia|]. apply Z.div_lt_upper_bound; lia.
Qed.
Lemma frame_fits : forall m, fits m -> frame m = be_enc 4 (Z.of_nat (length m)) ++ m.
Proof. intros m H. destruct (frame_enc m) as [E|E]; [assumption|]. unfold fits in H. lia. Qed.
Lemma frame_len : forall m, length (frame m) = (4 + length m)%nat.
Proof. reflexivity. Qed.
Lemma frame_size : forall m t, fits m -> to_signed 32 (be_dec (firstn 4 (frame m ++ t))) = Z.of_nat (length m).
Proof.
  intros m t H. rewrite (frame_fits m H), <- app_assoc. change 4%nat with (length (be_enc 4 (Z.of_nat (length m)))) at 1. rewrite firstn_app_exact. unfold fits in H. rewrite be_dec_enc by (change (256 ^ Z.of_nat 4) with (2 ^ 32); lia). apply to_signed_id; [lia|]. unfold int_range. lia.
Qed.
Lemma complete_fits : forall m, fits m -> complete_size (Z.of_nat (length m)) = Z.of_nat (4 + length m).
Proof. intros m H. unfold complete_size. unfold fits in H. rewrite to_signed_id; [lia|lia|unfold int_range; lia]. Qed.
Lemma stream_cons : forall m ms, stream (m :: ms) = frame m ++ stream ms.
Proof. reflexivity. Qed.
Lemma stream_app : forall a b, stream (a ++ b) = stream a ++ stream b.
Proof. intros a b. unfold stream. now rewrite map_app, concat_app. Qed.

(* ---- completed ---- *)
Lemma completed_prefix : forall ms n, exists r, ms = completed ms n ++ r /\ match r with m :: _ => (leftover ms n < 4 + length m)%nat | [] => True end.
Proof.
  induction ms as [|m ms IH]; intros n; [now exists []|]. cbn [completed]. destruct (Nat.leb_spec (4 + length m) n) as [H|H].
  - destruct (IH (n - (4 + length m))%nat) as [r [E L]]. exists r. split; [cbn [app]; f_equal; exact E|]. destruct r as [|x r]; [trivial|]. unfold leftover in *. cbn [completed]. destruct (Nat.leb_spec (4 + length m) n); [|lia]. rewrite stream_cons, app_length, frame_len. lia.
  - exists (m :: ms). split; [reflexivity|]. unfold leftover. cbn [completed]. destruct (Nat.leb_spec (4 + length m) n); [lia|]. cbn. lia.
Qed.
Lemma completed_len : forall ms n, (length (stream (completed ms n)) <= n)%nat.
Proof.
  induction ms as [|m ms IH]; intros n; [cbn; lia|]. cbn [completed]. destruct (Nat.leb_spec (4 + length m) n) as [H|H]; [|cbn; lia]. rewrite stream_cons, app_length, frame_len. specialize (IH (n - (4 + length m))%nat). lia.
Qed.
(* completing from a boundary *)
Lemma completed_skip : forall a r n, completed (a ++ r) (length (stream a) + n) = a ++ completed r n.
Proof.
  induction a as [|m a IH]; intros r n; [reflexivity|]. cbn [app completed]. rewrite stream_cons, app_length, frame_len. destruct (Nat.leb_spec (4 + length m) (4 + length m + length (stream a) + n)); [|lia]. f_equal. rewrite <- IH. f_equal. lia.
Qed.
Lemma completed_fix : forall ms n r, ms = completed ms n ++ r -> completed ms (n + 0) = completed ms n ++ completed r (leftover ms n).
Proof.
  intros ms n r E. rewrite Nat.add_0_r. rewrite E at 1. unfold leftover. pose proof (completed_len ms n). replace n with (length (stream (completed ms n)) + (n - length (stream (completed ms n))))%nat at 2 by lia. now rewrite completed_skip.
Qed.

(* ---- the queue ---- *)
Record queue := mkq { q_l : list ref; q_r : nat; q_cap : nat }.
Definition qof (c : ctx) : queue := mkq (c_q c) (c_r c) (c_cap c).
Definition putq (q : queue) (c : ctx) : ctx := set_queue (q_l q) (q_r q) (q_cap q) c.
Definition wfq (q : queue) : Prop := (q_r q < length (q_l q) \/ (q_r q = 0 /\ q_l q = []))%nat /\ (2 <= q_cap q)%nat.
Definition fifo (q : queue) : list ref := skipn (q_r q) (q_l q).

Lemma putq_putq : forall a b c, putq a (putq b c) = putq a c.
Proof. reflexivity. Qed.
Lemma putq_qof : forall c, putq (qof c) c = c.
Proof. now intros []. Qed.
Lemma qof_putq : forall q c, qof (putq q c) = q.
Proof. now intros [] c. Qed.

Lemma enqueue_ok : forall e x c, growing e -> wfq (qof c) -> (length (c_q c) <= c_cap c)%nat ->
  exists q, enqueue e x c = Some (putq q c) /\ wfq q /\ fifo q = fifo (qof c) ++ [x] /\ (length (q_l q) <= q_cap q)%nat.
Proof.
  intros e x c G [W W2] L. cbn [qof q_r q_l q_cap] in *. unfold enqueue, fifo. cbn [qof q_r q_l].
  assert (HS: (c_r c <= length (c_q c))%nat) by lia.
  destruct (Nat.leb_spec (c_cap c) (length (c_q c))) as [H|H].
  - destruct (Nat.leb_spec (c_cap c / 2) (c_r c)) as [H1|H1].
    + assert (1 <= c_cap c / 2)%nat by (apply Nat.div_le_lower_bound; lia). rewrite skipn_length. destruct (Nat.leb_spec (S (length (c_q c) - c_r c)) (c_cap c)) as [H2|H2]; [|lia].
      exists (mkq (skipn (c_r c) (c_q c) ++ [x]) 0 (c_cap c)). split; [reflexivity|]. cbn [q_l q_r q_cap]. split; [|split; [reflexivity|]].
      * unfold wfq. cbn [q_l q_r q_cap]. rewrite app_length. cbn. lia.
      * rewrite app_length, skipn_length. cbn. lia.
    + exists (mkq (c_q c ++ [x]) (c_r c) (e_grow e (length (c_q c)))). split; [reflexivity|]. cbn [q_l q_r q_cap]. specialize (G (length (c_q c))). split; [|split].
      * unfold wfq. cbn [q_l q_r q_cap]. rewrite app_length. cbn. split; lia.
      * rewrite skipn_app. replace (c_r c - length (c_q c))%nat with 0%nat by lia. reflexivity.
      * rewrite app_length. cbn. lia.
  - exists (mkq (c_q c ++ [x]) (c_r c) (c_cap c)). split; [reflexivity|]. cbn [q_l q_r q_cap]. split; [|split].
    + unfold wfq. cbn [q_l q_r q_cap]. rewrite app_length. cbn. split; lia.
    + rewrite skipn_app. replace (c_r c - length (c_q c))%nat with 0%nat by lia. reflexivity.
    + rewrite app_length. cbn. lia.
Qed.
Lemma skipn_nth : forall {A} (l : list A) n, match nth_error l n with Some x => skipn n l = x :: skipn (S n) l | None => skipn n l = [] end.
Proof. intros A. induction l as [|a l IH]; intros [|n]; cbn; try reflexivity. exact (IH n). Qed.
Lemma next_ok : forall c x rest, wfq (qof c) -> (length (c_q c) <= c_cap c)%nat -> fifo (qof c) = x :: rest ->
  c_q c <> [] /\ exists q, next_request c = Some (x, putq q c) /\ wfq q /\ fifo q = rest /\ (length (q_l q) <= q_cap q)%nat.
Proof.
  intros c x rest [W W2] L F. unfold fifo in F. cbn [qof q_r q_l q_cap] in *. split; [intros E; rewrite E in F; destruct (c_r c); discriminate|].
  unfold next_request. pose proof (skipn_nth (c_q c) (c_r c)) as N. destruct (nth_error (c_q c) (c_r c)) as [y|] eqn:En; [|rewrite N in F; discriminate]. rewrite F in N. injection N as -> N. change (rest = skipn (S (c_r c)) (c_q c)) in N.
  destruct (Nat.leb_spec (length (c_q c)) (S (c_r c))) as [H|H].
  - exists (mkq [] 0 (c_cap c)). split; [reflexivity|]. unfold wfq, fifo. cbn [q_l q_r q_cap]. split; [split; [right; split; reflexivity|assumption]|]. split; [|cbn; lia]. rewrite N. symmetry. now apply skipn_all2.
  - exists (mkq (c_q c) (S (c_r c)) (c_cap c)). split; [reflexivity|]. unfold wfq, fifo. cbn [q_l q_r q_cap]. split; [split; [left; assumption|assumption]|]. split; [now symmetry|assumption].
Qed.

(* ---- handlers change only the queue ---- *)
Definition hq (e : env) (k : kind) (m : list Z) (q : queue) : option (list Z * queue) :=
  let c := putq q (new_ctx Unspecified) in
  match (match k with Req => handle_request e m c | Resp => handle_response e m c end) with
  | HOk o c' => Some (o, qof c')
  | _ => None
  end.
Lemma enqueue_putq : forall e x c d, qof c = qof d -> match enqueue e x c, enqueue e x d with Some a, Some b => qof a = qof b /\ a = putq (qof a) c | None, None => True | _, _ => False end.
Proof.
  intros e x c d E. unfold qof in E. injection E as E1 E2 E3. unfold enqueue. rewrite E1, E2, E3. destruct (_ <=? _)%nat; [destruct (_ <=? _)%nat; [destruct (_ <=? _)%nat|]|]; try exact I; split; reflexivity.
Qed.
Lemma next_putq : forall c d, qof c = qof d -> match next_request c, next_request d with Some (x, a), Some (y, b) => x = y /\ qof a = qof b /\ a = putq (qof a) c | None, None => True | _, _ => False end.
Proof.
  intros c d E. unfold qof in E. injection E as E1 E2 E3. unfold next_request. rewrite E1, E2. destruct (nth_error _ _); [|exact I]. destruct (_ <=? _)%nat; (split; [reflexivity|]); (split; [unfold qof; cbn; now rewrite ?E1, ?E2, ?E3|reflexivity]).
Qed.
Lemma handle_hq : forall e s k m c o q, kind_of (c_dir c) s = Some k -> hq e k m (qof c) = Some (o, q) -> handle e s m c = HOk o (putq q c).
Proof.
  intros e s k m c o q K H. unfold handle. rewrite K. unfold hq in H. assert (E: qof (putq (qof c) (new_ctx Unspecified)) = qof c) by (destruct c; reflexivity). set (d := putq (qof c) (new_ctx Unspecified)) in *.
  destruct k.
  - unfold handle_request in *. destruct (length m <? 4)%nat; [discriminate|]. destruct (e_parse e (skipn 4 m)) as [|r|r new]; [discriminate| |].
    + pose proof (enqueue_putq e r c d (eq_sym E)) as P. destruct (enqueue e r c) as [a|], (enqueue e r d) as [b|]; try discriminate; try contradiction. injection H as <- <-. destruct P as [P1 P2]. rewrite P2 at 1. now rewrite P1.
    + pose proof (enqueue_putq e r c d (eq_sym E)) as P. destruct (enqueue e r c) as [a|], (enqueue e r d) as [b|]; try discriminate; try contradiction. destruct new as [n|]; [|discriminate]. injection H as <- <-. destruct P as [P1 P2]. rewrite P2 at 1. now rewrite P1.
  - unfold handle_response in *. assert (Eq: c_q c = c_q d) by reflexivity. rewrite Eq. destruct (c_q d) as [|y l] eqn:Q.
    + injection H as <- <-. fold d. rewrite E. now rewrite putq_qof.
    + pose proof (next_putq c d (eq_sym E)) as P. destruct (next_request c) as [[x a]|], (next_request d) as [[y' b]|]; try discriminate; try contradiction. destruct P as [<- [P1 P2]]. destruct (length m <? 4)%nat; [discriminate|]. destruct (e_resp e (skipn 4 m) x); [|discriminate]. injection H as <- <-. rewrite P2 at 1. now rewrite P1.
Qed.
Fixpoint hfold (e : env) (k : kind) (ms : list (list Z)) (q : queue) : option (list Z * queue) :=
  match ms with
  | [] => Some ([], q)
  | m :: r => match hq e k (frame m) q with
              | None => None
              | Some (o, q1) => match hfold e k r q1 with None => None | Some (o2, q2) => Some (o ++ o2, q2) end
              end
  end.

(* ---- contexts ---- *)
Lemma buf_set : forall s b c, buf s (set_buf s b c) = b.
Proof. now intros [] b c. Qed.
Lemma set_set : forall s a b c, set_buf s a (set_buf s b c) = set_buf s a c.
Proof. now intros [] a b c. Qed.
Lemma set_putq : forall s b q c, set_buf s b (putq q c) = putq q (set_buf s b c).
Proof. now intros [] b q c. Qed.
Lemma buf_putq : forall s q c, buf s (putq q c) = buf s c.
Proof. now intros [] q c. Qed.
Lemma qof_set : forall s b c, qof (set_buf s b c) = qof c.
Proof. now intros [] b c. Qed.
Lemma dir_set : forall s b c, c_dir (set_buf s b c) = c_dir c.
Proof. now intros [] b c. Qed.
Lemma dir_putq : forall q c, c_dir (putq q c) = c_dir c.
Proof. reflexivity. Qed.

Definition after (s : side) (data rest out : list Z) (q : queue) (c : ctx) : outcome :=
  if ((length rest =? 0) || (4 <=? length rest))%nat
  then ORet Continue out (reset_side s (set_buf s (mksbuf rest []) (putq q c)))
  else ORet Continue data (fail_side s (set_buf s (mksbuf rest out) (putq q c))).

Lemma split_prefix : forall (B T x y : list Z), B ++ T = x ++ y -> (length x <= length B)%nat -> exists R, B = x ++ R /\ R ++ T = y.
Proof.
  induction B as [|b B IH]; intros T [|a x] y E L; cbn in *; try lia.
  - now exists [].
  - now exists (b :: B).
  - injection E as -> E. destruct (IH T x y E) as [R [-> E2]]; [lia|]. now exists R.
Qed.
Lemma prefix_longer : forall (B T x y : list Z), B ++ T = x ++ y -> (length B < length x)%nat -> exists t, x = B ++ t.
Proof.
  induction B as [|b B IH]; intros T [|a x] y E L; cbn in *; try lia; [now exists (a :: x)|]. injection E as -> E. destruct (IH T x y E) as [t ->]; [lia|]. now exists t.
Qed.

Lemma loop_ok : forall e s k data ms fuel B T c o O q',
  Forall fits ms -> B ++ T = stream ms -> (length B < fuel)%nat -> kind_of (c_dir c) s = Some k ->
  buf s c = mksbuf B o -> hfold e k (completed ms (length B)) (qof c) = Some (O, q') ->
  loop e s data fuel c = after s data (skipn (length (stream (completed ms (length B)))) B) (o ++ O) q' c.
Proof.
  intros e s k data. induction ms as [|m ms IH]; intros fuel B T c o O q' F E L K Hb H.
  - cbn in E. apply app_eq_nil in E. destruct E as [-> ->]. destruct fuel as [|f]; [cbn in L; lia|]. cbn [loop]. rewrite Hb. cbn [b_inc b_out]. cbn in H. injection H as <- <-. unfold after. cbn. now rewrite app_nil_r, putq_qof.
  - destruct fuel as [|f]; [lia|]. cbn [loop]. rewrite Hb. cbn [b_inc b_out]. apply Forall_cons_iff in F. destruct F as [Fm F]. rewrite stream_cons in E. cbn [completed] in *. destruct (Nat.leb_spec (4 + length m) (length B)) as [Hc|Hc].
    + destruct (split_prefix _ _ _ _ E) as [R [-> E2]]; [rewrite frame_len; assumption|]. cbn [hfold] in H. destruct (hq e k (frame m) (qof c)) as [[o1 q1]|] eqn:Hq; [|discriminate].
      assert (Rl: (length (frame m ++ R) - (4 + length m))%nat = length R) by (rewrite app_length, frame_len; lia). rewrite Rl in *.
      destruct (hfold e k (completed ms (length R)) q1) as [[o2 q2]|] eqn:Hf; [|discriminate]. injection H as <- <-.
      remember (frame m ++ R) as B eqn:EB. destruct B as [|b0 B0]; [apply (f_equal (@length Z)) in EB; rewrite app_length, frame_len in EB; cbn in EB; lia|]. rewrite EB in *. clear b0 B0 EB.
      unfold message_size. destruct (Nat.ltb_spec (length (frame m ++ R)) 4) as [H4|H4]; [rewrite app_length, frame_len in H4; lia|]. rewrite (frame_size m R Fm), (complete_fits m Fm).
      destruct (Z.ltb_spec (Z.of_nat (length (frame m ++ R))) (Z.of_nat (4 + length m))) as [H5|H5]; [lia|]. destruct (Z.ltb_spec (Z.of_nat (4 + length m)) 0) as [H6|H6]; [lia|]. rewrite Nat2Z.id. change (4 + length m)%nat with (length (frame m)) at 1 2 3. rewrite firstn_app_exact, skipn_app_exact.
      rewrite (handle_hq e s k (frame m) (set_buf s (mksbuf R o) c) o1 q1) by (rewrite ?dir_set, ?qof_set; assumption).
      rewrite set_putq, set_set.
      rewrite (IH f R T _ (o ++ o1) o2 q2); [|assumption|assumption|rewrite app_length, frame_len in L; lia|rewrite dir_putq, dir_set; assumption|rewrite buf_putq; apply buf_set|rewrite qof_putq; assumption].
      rewrite stream_cons, app_length. rewrite skipn_app. rewrite (skipn_all2 (frame m)) by lia. replace (length (frame m) + length (stream (completed ms (length R))) - length (frame m))%nat with (length (stream (completed ms (length R)))) by lia. cbn [app].
      unfold after. rewrite <- app_assoc, !set_putq, !set_set, putq_putq. reflexivity.
    + cbn [hfold] in H. injection H as <- <-. cbn [stream map concat length]. change (skipn 0 B) with B. rewrite app_nil_r. unfold after. rewrite putq_qof.
      destruct B as [|b0 B0]; [reflexivity|]. set (B := b0 :: B0) in *. unfold message_size. destruct (prefix_longer _ _ _ _ E) as [t Et]; [rewrite frame_len; assumption|].
      destruct (Nat.ltb_spec (length B) 4) as [H4|H4].
      * destruct (Nat.eqb_spec (length B) 0) as [H0|H0]; [discriminate|]. destruct (Nat.leb_spec 4 (length B)) as [H7|H7]; [lia|]. cbn [orb]. f_equal. f_equal. destruct s; destruct c; cbn in *; now rewrite Hb.
      * destruct (Nat.leb_spec 4 (length B)) as [H7|H7]; [|lia]. rewrite orb_true_r.
        assert (Es: firstn 4 B = firstn 4 (frame m ++ [])) by (rewrite app_nil_r, Et, firstn_app; replace (4 - length B)%nat with 0%nat by lia; cbn [firstn]; now rewrite app_nil_r).
        rewrite Es, (frame_size m [] Fm), (complete_fits m Fm). destruct (Z.ltb_spec (Z.of_nat (length B)) (Z.of_nat (4 + length m))) as [H5|H5]; [reflexivity|lia].
Qed.
Definition otherk (k : kind) : kind := match k with Req => Resp | Resp => Req end.

Lemma on_data_ok : forall e s k data ms T c inc,
  Forall fits ms -> kind_of (c_dir c) s = Some k -> buf s c = mksbuf inc [] -> h_failed (c_req c) = false -> h_failed (c_resp c) = false ->
  (inc ++ data) ++ T = stream ms ->
  (h_size (hnd k c) = 0 \/ exists m r, ms = m :: r /\ h_size (hnd k c) = Z.of_nat (length m)) ->
  let X := inc ++ data in let D := completed ms (length X) in let R := skipn (length (stream D)) X in
  match D with
  | [] => exists c', on_data e s data false c = ORet Pause data c' /\ c_dir c' = c_dir c /\ buf s c' = buf s c /\ buf (other s) c' = buf (other s) c /\
      h_failed (hnd k c') = false /\ (h_size (hnd k c') = 0 \/ exists m r, ms = m :: r /\ h_size (hnd k c') = Z.of_nat (length m)) /\ hnd (otherk k) c' = hnd (otherk k) c /\ qof c' = qof c
  | _ => forall O q', hfold e k D (qof c) = Some (O, q') -> (length R = 0 \/ 4 <= length R)%nat ->
      exists c', on_data e s data false c = ORet Continue O c' /\ c_dir c' = c_dir c /\ buf s c' = mksbuf R [] /\ buf (other s) c' = buf (other s) c /\
        h_failed (hnd k c') = false /\ h_size (hnd k c') = 0 /\ hnd (otherk k) c' = hnd (otherk k) c /\ qof c' = q'
  end.
Proof.
  intros e s k data ms T c inc F K Hb F1 F2 E Hs X D R.
  assert (A: exists c1, available s k data c = (negb (match D with [] => true | _ => false end), c1) /\ c_dir c1 = c_dir c /\ buf s c1 = buf s c /\ buf (other s) c1 = buf (other s) c /\
     h_failed (hnd k c1) = false /\ (h_size (hnd k c1) = 0 \/ exists m r, ms = m :: r /\ h_size (hnd k c1) = Z.of_nat (length m)) /\ hnd (otherk k) c1 = hnd (otherk k) c /\ qof c1 = qof c).
  { assert (Hk: h_failed (hnd k c) = false) by (destruct k; assumption). unfold available. rewrite Hb. cbn [b_inc]. fold X.
    assert (Hm: match ms with [] => D = [] /\ X = [] | m :: r => (D = [] /\ (length X < 4 + length m)%nat \/ D <> [] /\ (4 + length m <= length X)%nat) /\ exists t, frame m = firstn (length (frame m)) X ++ t end).
    { destruct ms as [|m r]; [apply app_eq_nil in E; destruct E as [E _]; split; [reflexivity|exact E]|]. rewrite stream_cons in E. fold X in E. split.
      - unfold D. cbn [completed]. destruct (Nat.leb_spec (4 + length m) (length X)); [right; split; [discriminate|assumption]|left; split; [reflexivity|assumption]].
      - destruct (Nat.le_gt_cases (length (frame m)) (length X)) as [H|H].
        + destruct (split_prefix _ _ _ _ E H) as [R' [-> _]]. rewrite firstn_app_exact. exists []. now rewrite app_nil_r.
        + destruct (prefix_longer _ _ _ _ E H) as [t Et]. exists t. rewrite firstn_all2 by lia. exact Et. }
    destruct (Z.eqb_spec (h_size (hnd k c)) 0) as [H0|H0].
    - destruct (Nat.ltb_spec (length X) 4) as [H4|H4].
      + exists c. repeat split; auto. f_equal. destruct D as [|d D'] eqn:ED; [reflexivity|]. destruct ms as [|m r]; [destruct Hm; discriminate|]. destruct Hm as [[[? _]|[_ ?]] _]; [discriminate|lia].
      + destruct ms as [|m r]; [destruct Hm as [_ Hm]; rewrite Hm in H4; cbn in H4; lia|]. destruct Hm as [Hm [t Ht]]. apply Forall_cons_iff in F. destruct F as [Fm F].
        assert (Es: firstn 4 X = firstn 4 (frame m ++ [])).
        { rewrite app_nil_r, Ht, firstn_app, firstn_firstn. rewrite frame_len. replace (Init.Nat.min 4 (4 + length m)) with 4%nat by lia. replace (4 - length (firstn (4 + length m) X))%nat with 0%nat by (rewrite firstn_length; lia). cbn [firstn]. now rewrite app_nil_r. }
        rewrite Es, (frame_size m [] Fm), (complete_fits m Fm). exists (set_hnd k (mkhst (h_failed (hnd k c)) (Z.of_nat (length m))) c). split.
        * f_equal. destruct Hm as [[-> H]|[H1 H]]; [apply Z.leb_gt; lia|]. destruct D; [contradiction|]. apply Z.leb_le. lia.
        * destruct k, s; cbn; repeat split; auto; right; exists m, r; split; reflexivity.
    - destruct Hs as [Hs|[m [r [-> Hs]]]]; [contradiction|]. rewrite Hs. apply Forall_cons_iff in F. destruct F as [Fm F]. rewrite (complete_fits m Fm). destruct Hm as [Hm _]. exists c. split.
      + f_equal. destruct Hm as [[-> H]|[H1 H]]; [apply Z.leb_gt; lia|]. destruct D; [contradiction|]. apply Z.leb_le. lia.
      + repeat split; auto. right. exists m, r. split; [reflexivity|assumption]. }
  destruct A as [c1 [A [A1 [A2 [A3 [A4 [A5 [A6 A7]]]]]]]]. unfold on_data. rewrite K, F1, F2, A. cbn [orb andb].
  destruct D as [|d D'] eqn:ED.
  - cbn [negb]. exists c1. rewrite A2, Hb. repeat split; auto.
  - intros O q' H HR. cbn [negb]. rewrite A2, Hb. cbn [b_inc b_out]. fold X.
    rewrite (loop_ok e s k data ms (S (S (length X))) X T _ [] O q'); [|assumption|assumption|lia|rewrite dir_set, A1; assumption|apply buf_set|rewrite qof_set, A7; fold D; rewrite ED; assumption].
    fold D. rewrite ED. fold R. unfold after. cbn [app]. replace ((length R =? 0) || (4 <=? length R))%nat%bool with true by (symmetry; apply orb_true_iff; destruct HR as [HR|HR]; [left; now apply Nat.eqb_eq|right; now apply Nat.leb_le]).
    eexists. split; [reflexivity|]. rewrite set_putq, set_set. unfold reset_side. rewrite dir_putq, dir_set, A1, K. clear - A1 A2 A3 A4 A6 A7. destruct s, k, q', c1, c; cbn in *; subst; repeat split; reflexivity.
Qed.

(* ---- sent bytes ---- *)
Lemma sent_app : forall s a b, sent s (a ++ b) = sent s a ++ sent s b.
Proof. intros s. induction a as [|[t ch] a IH]; intros b; [reflexivity|]. cbn [app sent]. now rewrite IH, app_assoc. Qed.
Lemma sent_snoc_same : forall s l ch, sent s (l ++ [(s, ch)]) = sent s l ++ ch.
Proof. intros s l ch. rewrite sent_app. destruct s; cbn; now rewrite app_nil_r. Qed.
Lemma sent_snoc_other : forall s l ch, sent (other s) (l ++ [(s, ch)]) = sent (other s) l.
Proof. intros s l ch. rewrite sent_app. destruct s; cbn; now rewrite app_nil_r. Qed.


Lemma hq_req : forall e m r out q, growing e -> good_request e m r out -> wfq q -> (length (q_l q) <= q_cap q)%nat ->
  exists q', hq e Req (frame m) q = Some (out, q') /\ wfq q' /\ (length (q_l q') <= q_cap q')%nat /\ fifo q' = fifo q ++ [r].
Proof.
  intros e m r out q G H W L. unfold hq, handle_request. cbn [frame length app Nat.ltb Nat.leb skipn].
  destruct (enqueue_ok e r (putq q (new_ctx Unspecified)) G) as [q' [E [W' [Fq L']]]]; [now rewrite qof_putq|assumption|]. exists q'.
  destruct H as [[-> ->]|[n [-> [Fn ->]]]]; rewrite E, qof_putq; rewrite qof_putq in Fq; (split; [|split; [assumption|split; assumption]]); [reflexivity|].
  f_equal. f_equal. rewrite (frame_fits n Fn). unfold to_unsigned. rewrite Z.mod_small by (unfold fits in Fn; lia). reflexivity.
Qed.
Lemma hfold_req : forall e ms rs outs q, growing e -> Forall2 (fun m ro => good_request e m (fst ro) (snd ro)) ms (combine rs outs) -> length rs = length outs -> wfq q -> (length (q_l q) <= q_cap q)%nat ->
  exists q', hfold e Req ms q = Some (concat outs, q') /\ wfq q' /\ (length (q_l q') <= q_cap q')%nat /\ fifo q' = fifo q ++ rs.
Proof.
  intros e. induction ms as [|m ms IH]; intros rs outs q G H Hl W L.
  - inversion H as [Hc|]. destruct rs as [|r rs], outs as [|o outs]; try discriminate. exists q. rewrite app_nil_r. repeat split; try assumption; apply W.
  - destruct rs as [|r rs], outs as [|o outs]; try discriminate; [inversion H|]. cbn [combine] in H. inversion H as [|? ? ? ? Hm Hr]; subst. cbn [fst snd] in Hm. destruct (hq_req e m r o q G Hm W L) as [q1 [E1 [W1 [L1 F1]]]]. cbn [hfold]. rewrite E1. cbn in Hl. injection Hl as Hl. destruct (IH rs outs q1 G Hr Hl W1 L1) as [q2 [E2 [W2 [L2 F2]]]]. rewrite E2. exists q2. split; [reflexivity|]. split; [assumption|]. split; [assumption|]. rewrite F2, F1, <- app_assoc. reflexivity.
Qed.
Lemma hfold_resp : forall e ms rs more q, Forall2 (fun m r => e_resp e m r = true) ms rs -> fifo q = rs ++ more -> wfq q -> (length (q_l q) <= q_cap q)%nat ->
  exists q', hfold e Resp ms q = Some (stream ms, q') /\ wfq q' /\ (length (q_l q') <= q_cap q')%nat /\ fifo q' = more.
Proof.
  intros e. induction ms as [|m ms IH]; intros rs more q H Hf W L; inversion H as [|? r ? rs' Hm Hr]; subst; [now exists q|]. cbn [hfold].
  destruct (next_ok (putq q (new_ctx Unspecified)) r (rs' ++ more)) as [Hn [q1 [E1 [W1 [F1 L1]]]]]; [now rewrite qof_putq|assumption|now rewrite qof_putq|].
  assert (Hq: hq e Resp (frame m) q = Some (frame m, q1)).
  { unfold hq, handle_response. destruct (c_q (putq q (new_ctx Unspecified))) as [|y l]; [contradiction|]. rewrite E1. cbn [frame length app Nat.ltb Nat.leb skipn]. rewrite Hm. now rewrite qof_putq. }
  rewrite Hq. destruct (IH rs' more q1 Hr F1 W1 L1) as [q2 [E2 [W2 [L2 F2]]]]. rewrite E2. exists q2. repeat split; try assumption; apply W2.
Qed.

(* ---- one event ---- *)
Definition side_inv (s : side) (k : kind) (ms : list (list Z)) (l : list (side * list Z)) (w : host) (O : list Z) : Prop :=
  (exists inc, buf s (w_ctx w) = mksbuf inc [] /\ sent s l = stream (completed ms (length (sent s l))) ++ inc ++ hbuf s w) /\
  h_failed (hnd k (w_ctx w)) = false /\
  (h_size (hnd k (w_ctx w)) = 0 \/ exists m r, ms = completed ms (length (sent s l)) ++ m :: r /\ h_size (hnd k (w_ctx w)) = Z.of_nat (length m)) /\
  hout s w = O.

Lemma step_side : forall e s k ms l w O ch T r O1 q',
  Forall fits ms -> w_dead w = false -> kind_of (c_dir (w_ctx w)) s = Some k -> side_inv s k ms l w O -> h_failed (hnd (otherk k) (w_ctx w)) = false ->
  sent s (l ++ [(s, ch)]) ++ T = stream ms -> ms = completed ms (length (sent s l)) ++ r ->
  let D := completed r (leftover ms (length (sent s l)) + length ch) in
  completed ms (length (sent s l) + length ch) = completed ms (length (sent s l)) ++ D /\
  (hfold e k D (qof (w_ctx w)) = Some (O1, q') ->
   (let p := length (sent s l) in let p' := (p + length ch)%nat in completed ms p' = completed ms p \/ leftover ms p' = 0%nat \/ (4 <= leftover ms p')%nat) ->
  let w' := arrive e s ch false w in
  w_dead w' = false /\ c_dir (w_ctx w') = c_dir (w_ctx w) /\ side_inv s k ms (l ++ [(s, ch)]) w' (O ++ O1) /\ qof (w_ctx w') = q' /\
  buf (other s) (w_ctx w') = buf (other s) (w_ctx w) /\ hnd (otherk k) (w_ctx w') = hnd (otherk k) (w_ctx w) /\ hbuf (other s) w' = hbuf (other s) w /\ hout (other s) w' = hout (other s) w).
Proof.
  intros e s k ms l w O ch T r O1 q' F Hd K [[inc [Hb Hst]] [Hf [Hs Ho]]] Hf2 E Er D.
  set (p := length (sent s l)) in *. set (C := completed ms p) in *. rewrite sent_snoc_same, Hst, <- !app_assoc in E. rewrite Er, stream_app in E. apply app_inv_head in E.
  assert (Lp: (p = length (stream C) + length (inc ++ hbuf s w))%nat) by (unfold p at 1; rewrite Hst, app_length; reflexivity).
  assert (Lo: leftover ms p = length (inc ++ hbuf s w)) by (unfold leftover; fold C; lia).
  set (X := inc ++ hbuf s w ++ ch). assert (LX: length X = (leftover ms p + length ch)%nat) by (unfold X; rewrite Lo, !app_length; lia).
  assert (EC: completed ms (p + length ch) = C ++ D).
  { rewrite Er at 1. replace (p + length ch)%nat with (length (stream C) + (leftover ms p + length ch))%nat by lia. rewrite completed_skip. reflexivity. }
  split; [exact EC|]. intros Hfold Hend w'.
  assert (Fr: Forall fits r) by (rewrite Er in F; apply Forall_app in F; apply F).
  assert (F12: h_failed (c_req (w_ctx w)) = false /\ h_failed (c_resp (w_ctx w)) = false) by (destruct k; split; assumption).
  assert (Hs': h_size (hnd k (w_ctx w)) = 0 \/ exists m r0, r = m :: r0 /\ h_size (hnd k (w_ctx w)) = Z.of_nat (length m)).
  { destruct Hs as [Hs|[m [r0 [Hm Hs]]]]; [now left|right]. exists m, r0. split; [|assumption]. fold C in Hm. rewrite Er in Hm at 1. now apply app_inv_head in Hm. }
  pose proof (on_data_ok e s k (hbuf s w ++ ch) r T (w_ctx w) inc Fr K Hb (proj1 F12) (proj2 F12)) as P. fold X in P. specialize (P ltac:(unfold X; rewrite <- !app_assoc; exact E) Hs').
  cbv zeta in P. rewrite LX in P. fold D in P. destruct D as [|x D'] eqn:ED.
  - destruct P as [c' [P1 [P2 [P3 [P4 [P5 [P6 [P7 P8]]]]]]]]. cbn in Hfold. injection Hfold as <- <-. unfold w', arrive. rewrite Hd, P1. rewrite !app_nil_r in *.
    assert (W: w_ctx (set_side s (hbuf s w ++ ch) (hout s w) (set_ctx c' w)) = c') by (destruct s; reflexivity).
    repeat split; try (destruct s; cbn; assumption); rewrite ?W; try assumption; try (destruct s; reflexivity).
    + exists inc. split; [now rewrite P3|]. rewrite sent_snoc_same, app_length. fold p. rewrite EC. rewrite Hst at 1. replace (hbuf s (set_side s (hbuf s w ++ ch) (hout s w) (set_ctx c' w))) with (hbuf s w ++ ch) by (destruct s; reflexivity). rewrite <- !app_assoc. reflexivity.
    + destruct P6 as [P6|[m [r0 [P6 P6']]]]; [now left|right]. exists m, r0. split; [|assumption]. rewrite sent_snoc_same, app_length. fold p. rewrite EC. rewrite Er at 1. now rewrite P6.
  - assert (HR: (length (skipn (length (stream (x :: D'))) X) = 0 \/ 4 <= length (skipn (length (stream (x :: D'))) X))%nat).
    { cbv zeta in Hend. assert (LL: leftover ms (p + length ch) = length (skipn (length (stream (x :: D'))) X)) by (unfold leftover; rewrite EC, stream_app, app_length, skipn_length; lia). rewrite LL, EC in Hend. destruct Hend as [Hend|Hend]; [|assumption]. exfalso. apply (f_equal (@length _)) in Hend. fold C in Hend. rewrite app_length in Hend. cbn in Hend. lia. }
    destruct (P O1 q' Hfold HR) as [c' [P1 [P2 [P3 [P4 [P5 [P6 [P7 P8]]]]]]]]. unfold w', arrive. rewrite Hd, P1.
    assert (W: w_ctx (set_side s [] (hout s w ++ O1) (set_ctx c' w)) = c') by (destruct s; reflexivity).
    repeat split; try (destruct s; cbn; assumption); rewrite ?W; try assumption; try (destruct s; cbn in *; now rewrite ?Ho).
    + exists (skipn (length (stream (x :: D'))) X). split; [assumption|]. rewrite sent_snoc_same, app_length. fold p. rewrite EC. replace (hbuf s (set_side s [] (hout s w ++ O1) (set_ctx c' w))) with (@nil Z) by (destruct s; reflexivity). rewrite app_nil_r, stream_app, <- app_assoc.
      assert (EX: X = stream (x :: D') ++ skipn (length (stream (x :: D'))) X).
      { destruct (completed_prefix r (length X)) as [r' [E' _]]. rewrite LX in E'. fold D in E'. rewrite ED in E'. assert (LD: (length (stream (x :: D')) <= length X)%nat) by (rewrite <- ED; unfold D; rewrite LX; apply completed_len). rewrite E', stream_app in E.
        destruct (split_prefix X T (stream (x :: D')) (stream r')) as [R' [EX _]]; [unfold X; rewrite <- !app_assoc; exact E|assumption|]. rewrite EX at 2. rewrite skipn_app_exact. exact EX. }
      rewrite <- EX, Hst. unfold X. rewrite <- !app_assoc. reflexivity.
    + now left.
Qed.

(* ---- a whole connection ---- *)
Lemma skipn_skipn' : forall {A} (x : list A) a n, skipn a (skipn n x) = skipn (n + a) x.
Proof. intros A. induction x as [|y x IH]; intros a [|n]; cbn [Nat.add skipn]; try reflexivity; [now rewrite skipn_nil|apply IH]. Qed.
Lemma Forall2_length : forall {A B} {R : A -> B -> Prop} {l l'}, Forall2 R l l' -> length l = length l'.
Proof. intros A B R l l' H. induction H; cbn; congruence. Qed.
Lemma kinds : forall d, d <> Unspecified -> kind_of d (req_side d) = Some Req /\ kind_of d (other (req_side d)) = Some Resp.
Proof. intros [| |] H; [contradiction|split; reflexivity|split; reflexivity]. Qed.
Lemma completed_mono : forall ms n k, exists D, completed ms (n + k) = completed ms n ++ D.
Proof.
  intros ms n k. destruct (completed_prefix ms n) as [r [Er _]]. pose proof (completed_len ms n). exists (completed r (leftover ms n + k)). rewrite Er at 1. unfold leftover.
  replace (n + k)%nat with (length (stream (completed ms n)) + (n - length (stream (completed ms n)) + k))%nat at 1 by lia. apply completed_skip.
Qed.
Lemma side_inv_other : forall s k ms l w w' O ch, side_inv (other s) (otherk k) ms l w O -> buf (other s) (w_ctx w') = buf (other s) (w_ctx w) -> hnd (otherk k) (w_ctx w') = hnd (otherk k) (w_ctx w) -> hbuf (other s) w' = hbuf (other s) w -> hout (other s) w' = hout (other s) w ->
  side_inv (other s) (otherk k) ms (l ++ [(s, ch)]) w' O.
Proof. intros s k ms l w w' O ch H H1 H2 H3 H4. unfold side_inv in *. now rewrite sent_snoc_other, H1, H2, H3, H4. Qed.
Lemma other_other : forall s, other (other s) = s.
Proof. now intros []. Qed.

Lemma connection_ok : forall e d reqs resps ros l t1 t2,
  let sq := req_side d in let sp := other sq in
  growing e -> d <> Unspecified -> Forall fits reqs -> Forall fits resps ->
  Forall2 (fun m ro => good_request e m (fst ro) (snd ro)) reqs ros ->
  (forall i m ro, nth_error resps i = Some m -> nth_error ros i = Some ro -> e_resp e m (fst ro) = true) ->
  sent sq l ++ t1 = stream reqs -> sent sp l ++ t2 = stream resps ->
  no_short_tail sq reqs l -> no_short_tail sp resps l -> causal sq reqs resps l ->
  let w := run e l (connection d) in
  let nq := length (completed reqs (length (sent sq l))) in
  let np := length (completed resps (length (sent sp l))) in
  w_dead w = false /\ c_dir (w_ctx w) = d /\
  side_inv sq Req reqs l w (concat (map snd (firstn nq ros))) /\ side_inv sp Resp resps l w (stream (completed resps (length (sent sp l)))) /\
  wfq (qof (w_ctx w)) /\ (length (q_l (qof (w_ctx w))) <= q_cap (qof (w_ctx w)))%nat /\ fifo (qof (w_ctx w)) = skipn np (map fst (firstn nq ros)).
Proof.
  intros e d reqs resps ros l. induction l as [|[s ch] l IH] using rev_ind; intros t1 t2 sq sp G Hdir Fq Fp Hq Hp E1 E2 N1 N2 HC w nq np.
  - assert (Z1: completed reqs 0 = []) by (destruct reqs; reflexivity). assert (Z2: completed resps 0 = []) by (destruct resps; reflexivity). unfold w, nq, np. cbn [run fold_left sent length]. rewrite Z1, Z2. cbn [length firstn map concat skipn]. destruct (kinds d Hdir) as [K1 K2].
    repeat split; try reflexivity; unfold sq, sp, side_inv; cbn [sent length]; rewrite ?Z1, ?Z2; try (now left).
    + exists []. destruct d; split; reflexivity.
    + destruct d; reflexivity.
    + exists []. destruct d; split; reflexivity.
    + destruct d; reflexivity.
    + right. split; reflexivity.
    + cbn. lia.
    + cbn. lia.
  - assert (P1: exists t, sent sq l ++ t = stream reqs) by (rewrite sent_app, <- app_assoc in E1; eexists; exact E1).
    assert (P2: exists t, sent sp l ++ t = stream resps) by (rewrite sent_app, <- app_assoc in E2; eexists; exact E2).
    destruct P1 as [t1' P1]. destruct P2 as [t2' P2].
    assert (N1': no_short_tail sq reqs l) by (intros l1 c0 l2 E; apply (N1 l1 c0 (l2 ++ [(s, ch)])); rewrite E, <- app_assoc; reflexivity).
    assert (N2': no_short_tail sp resps l) by (intros l1 c0 l2 E; apply (N2 l1 c0 (l2 ++ [(s, ch)])); rewrite E, <- app_assoc; reflexivity).
    assert (HC': causal sq reqs resps l) by (intros l1 l2 E; apply (HC l1 (l2 ++ [(s, ch)])); rewrite E, <- app_assoc; reflexivity).
    specialize (IH t1' t2' G Hdir Fq Fp Hq Hp P1 P2 N1' N2' HC'). cbv zeta in IH. fold sq in IH. fold sp in IH. set (w0 := run e l (connection d)) in *.
    assert (Ew: w = arrive e s ch false w0) by (unfold w, run; rewrite fold_left_app; reflexivity). destruct IH as [Hd [Hdr [I1 [I2 [W [L Q]]]]]]. destruct (kinds d Hdir) as [K1 K2]. fold sq in K1, K2. fold sp in K2. rewrite <- Hdr in K1, K2.
    assert (Side: s = sq \/ s = sp) by (unfold sp, sq; destruct s, d; auto).
    pose proof (Forall2_length Hq) as Lros.
    destruct Side as [-> | ->].
    + destruct (completed_prefix reqs (length (sent sq l))) as [r [Er _]].
      set (D := completed r (leftover reqs (length (sent sq l)) + length ch)).
      assert (HD: exists ros1 ros2, firstn (length (completed reqs (length (sent sq l))) + length D) ros = firstn (length (completed reqs (length (sent sq l)))) ros ++ ros1 /\ length ros1 = length D /\ skipn (length (completed reqs (length (sent sq l)))) ros = ros1 ++ ros2 /\ Forall2 (fun m ro => good_request e m (fst ro) (snd ro)) D ros1).
      { rewrite Er in Hq. apply Forall2_app_inv_l in Hq. destruct Hq as [a [b [Ha [Hb ->]]]]. destruct (completed_prefix r (leftover reqs (length (sent sq l)) + length ch)) as [r2 [Er2 _]]. fold D in Er2. rewrite Er2 in Hb. apply Forall2_app_inv_l in Hb. destruct Hb as [b1 [b2 [Hb1 [Hb2 ->]]]].
        pose proof (Forall2_length Ha) as La. pose proof (Forall2_length Hb1) as Lb. exists b1, b2. rewrite La, Lb. split; [|split; [reflexivity|split; [now rewrite skipn_app_exact|assumption]]].
        rewrite app_assoc, <- app_length, !firstn_app_exact. now rewrite <- app_assoc, firstn_app_exact. }
      destruct HD as [ros1 [ros2 [HD1 [HD2 [HD3 HD4]]]]].
      destruct (hfold_req e D (map fst ros1) (map snd ros1) (qof (w_ctx w0)) G) as [q' [Hf [Wq [Lq Fi]]]].
      { clear - HD4. induction HD4 as [|x [a b] D ros1 H HD IH]; cbn; constructor; assumption. }
      { now rewrite !map_length. }
      { assumption. }
      { assumption. }
      destruct (step_side e sq Req reqs l w0 _ ch t1 r (concat (map snd ros1)) q' Fq Hd K1 I1) as [EC ST]; [apply I2|assumption|assumption|].
      fold D in EC, ST. specialize (ST Hf (N1 l ch [] eq_refl)). cbv zeta in ST. rewrite <- Ew in ST. destruct ST as [S1 [S2 [S3 [S4 [S5 [S6 [S7 S8]]]]]]].
      assert (Enq: nq = (length (completed reqs (length (sent sq l))) + length D)%nat) by (unfold nq; rewrite sent_snoc_same, app_length, EC, app_length; reflexivity).
      assert (Enp: np = length (completed resps (length (sent sp l)))) by (unfold np; unfold sp; now rewrite sent_snoc_other).
      split; [assumption|]. split; [now rewrite S2|]. split; [rewrite Enq, HD1, map_app, concat_app; exact S3|]. split; [unfold sp; rewrite sent_snoc_other; apply (side_inv_other sq Req resps l w0 w _ ch I2 S5 S6 S7 S8)|]. rewrite S4. split; [assumption|]. split; [assumption|].
      rewrite Fi, Q, Enq, HD1, Enp, map_app, skipn_app. replace (length (completed resps (length (sent sp l))) - length (map fst (firstn (length (completed reqs (length (sent sq l)))) ros)))%nat with 0%nat; [reflexivity|].
      specialize (HC' l [] (eq_sym (app_nil_r l))). fold sp in HC'. rewrite map_length, firstn_length. assert (length (completed reqs (length (sent sq l))) <= length reqs)%nat by (rewrite Er at 2; rewrite app_length; lia). lia.
    + destruct (completed_prefix resps (length (sent sp l))) as [r [Er _]].
      set (D := completed r (leftover resps (length (sent sp l)) + length ch)).
      destruct (step_side e sp Resp resps l w0 _ ch t2 r (stream D) (qof (w_ctx w0)) Fp Hd K2 I2) as [EC _]; [apply I1|assumption|assumption|]. fold D in EC.
      assert (Enp: np = (length (completed resps (length (sent sp l))) + length D)%nat) by (unfold np; rewrite sent_snoc_same, app_length, EC, app_length; reflexivity).
      assert (Enq: nq = length (completed reqs (length (sent sq l)))) by (unfold nq; replace sq with (other sp) by (unfold sp; apply other_other); rewrite sent_snoc_other; reflexivity).
      assert (Hle: (np <= nq)%nat).
      { specialize (HC (l ++ [(sp, ch)]) [] (eq_sym (app_nil_r _))). fold sp in HC. unfold np, nq. exact HC. }
      assert (Lnq: length (firstn nq ros) = nq).
      { rewrite firstn_length, Enq. destruct (completed_prefix reqs (length (sent sq l))) as [r1 [Er1 _]]. assert (length (completed reqs (length (sent sq l))) <= length reqs)%nat by (rewrite Er1 at 2; rewrite app_length; lia). lia. }
      set (n0 := length (completed resps (length (sent sp l)))) in *. rewrite <- Enq in Q.
      assert (HR: exists rs more, skipn n0 (map fst (firstn nq ros)) = rs ++ more /\ length rs = length D /\ more = skipn np (map fst (firstn nq ros))).
      { exists (firstn (length D) (skipn n0 (map fst (firstn nq ros)))), (skipn (length D) (skipn n0 (map fst (firstn nq ros)))). split; [symmetry; apply firstn_skipn|]. split; [rewrite firstn_length, skipn_length, map_length, Lnq; lia|]. rewrite Enp. apply skipn_skipn'. }
      destruct HR as [rs [more [HR1 [HR2 HR3]]]].
      assert (HF: Forall2 (fun m r0 => e_resp e m r0 = true) D rs).
      { assert (HX: forall i m r0, nth_error D i = Some m -> nth_error rs i = Some r0 -> e_resp e m r0 = true).
        { intros i m r0 Hm Hr. assert (Hm': nth_error resps (n0 + i) = Some m).
          { rewrite Er. rewrite nth_error_app2 by (unfold n0; lia). replace (n0 + i - length (completed resps (length (sent sp l))))%nat with i by (unfold n0; lia). destruct (completed_prefix r (leftover resps (length (sent sp l)) + length ch)) as [r2 [Er2 _]]. fold D in Er2. rewrite Er2. rewrite nth_error_app1; [assumption|]. apply nth_error_Some. congruence. }
          assert (Hr': nth_error (map fst (firstn nq ros)) (n0 + i) = Some r0).
          { rewrite <- (firstn_skipn n0 (map fst (firstn nq ros))). assert (Ln: length (firstn n0 (map fst (firstn nq ros))) = n0) by (rewrite firstn_length, map_length, Lnq; lia). rewrite nth_error_app2 by (rewrite Ln; lia). rewrite Ln. replace (n0 + i - n0)%nat with i by lia. rewrite HR1, nth_error_app1; [assumption|]. apply nth_error_Some. congruence. }
          rewrite nth_error_map in Hr'. destruct (nth_error (firstn nq ros) (n0 + i)) as [ro|] eqn:Ero; [|discriminate]. injection Hr' as <-. apply (Hp (n0 + i)%nat m ro Hm'). rewrite <- (firstn_skipn nq ros), nth_error_app1; [assumption|]. apply nth_error_Some. congruence. }
        clear - HX HR2. revert rs HR2 HX. induction D as [|m D IHD]; intros [|r0 rs] HL HX; try discriminate; constructor; [apply (HX 0%nat); reflexivity|]. apply IHD; [now injection HL|]. intros i m' r' H1 H2. apply (HX (S i)); assumption. }
      assert (Fi0: fifo (qof (w_ctx w0)) = rs ++ more) by (rewrite Q; exact HR1).
      destruct (hfold_resp e D rs more (qof (w_ctx w0)) HF Fi0 W L) as [q' [Hf [Wq [Lq Fi]]]].
      destruct (step_side e sp Resp resps l w0 _ ch t2 r (stream D) q' Fp Hd K2 I2) as [_ ST]; [apply I1|assumption|assumption|]. fold D in ST.
      specialize (ST Hf (N2 l ch [] eq_refl)). cbv zeta in ST. rewrite <- Ew in ST. destruct ST as [S1 [S2 [S3 [S4 [S5 [S6 [S7 S8]]]]]]].
      assert (Osq: other sp = sq) by (unfold sp; apply other_other).
      split; [assumption|]. split; [now rewrite S2|]. split.
      * rewrite <- Osq in *. rewrite Enq. apply (side_inv_other sp Resp reqs l w0 w _ ch); [exact I1|assumption..].
      * split; [rewrite sent_snoc_same, app_length, EC, stream_app; rewrite sent_snoc_same, app_length in S3 || idtac; exact S3|]. rewrite S4. split; [assumption|]. split; [assumption|]. rewrite Fi. exact HR3.
Qed.
