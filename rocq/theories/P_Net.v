(* C38 - C40: TLS mode of accepted connections, multi listener, connection state. *)
From Coq Require Import String List Bool ZArith Lia.
From Verif Require Import M_GoMap L_GoMap M_Net.
Import ListNotations.
Open Scope Z_scope.

(* ================= C38 ================= *)
(* specification: a TLS 1.0 - 1.3 handshake record starts with 22, 3, minor in 1..4 *)
Definition tls_record_header (b : list Z) : Prop := exists minor rest, b = 22 :: 3 :: minor :: rest /\ 1 <= minor <= 4.
Definition bytes (b : list Z) : Prop := Forall (fun x => 0 <= x < 256) b.
(* all that the upper layer can still read *)
Definition content (b : breader) : list Z := br_buf b ++ wire_bytes (br_w b).

Lemma wire_read_spec : forall n segs fin, (0 < n)%nat -> match wire_read n segs fin with
  | RData d w' => d <> [] /\ (length d <= n)%nat /\ d ++ wire_bytes w' = concat segs /\ w_fin w' = fin
  | REof => fin = true /\ concat segs = []
  | RBlock => fin = false /\ concat segs = [] end.
Proof.
  intros n segs fin Hn. induction segs as [|s r IH]; cbn [wire_read]; [destruct fin; auto|]. destruct s as [|x s]; [cbn [concat app]; exact IH|].
  split; [destruct n; [lia|discriminate]|]. split; [apply firstn_le_length|]. split; [|reflexivity]. unfold wire_bytes. cbn [w_segs concat].
  transitivity (firstn n (x :: s) ++ skipn n (x :: s) ++ concat r); [f_equal; destruct (skipn n (x :: s)); reflexivity|]. now rewrite app_assoc, firstn_skipn.
Qed.
Lemma bpeek_spec : forall n fuel b, (n <= bufsize)%nat -> (n < fuel + length (br_buf b))%nat -> match bpeek n fuel b with
  | PData b' => content b' = content b /\ (n <= length (br_buf b'))%nat
  | PEof b' => content b' = content b /\ br_buf b' = content b /\ (length (content b) < n)%nat /\ w_fin (br_w b) = true
  | PBlock => (length (content b) < n)%nat /\ w_fin (br_w b) = false end.
Proof.
  intros n fuel. induction fuel as [|f IH]; intros b Hb Hf; cbn [bpeek]; destruct (Nat.leb_spec n (length (br_buf b))) as [Hl|Hl]; try (split; [reflexivity|assumption]); [lia|].
  pose proof (wire_read_spec (bufsize - length (br_buf b)) (w_segs (br_w b)) (w_fin (br_w b)) ltac:(lia)) as H. destruct (wire_read _ _ _) as [d w'| |].
  - destruct H as (H1 & H2 & H3 & H4). assert (Hd: (1 <= length d)%nat) by (destruct d; [congruence|cbn; lia]). specialize (IH (mkbr (br_buf b ++ d) w') Hb). cbn [br_buf br_w] in IH. rewrite app_length in IH. specialize (IH ltac:(lia)).
    assert (E: content (mkbr (br_buf b ++ d) w') = content b). { unfold content. cbn [br_buf br_w]. unfold wire_bytes at 2. rewrite <- H3. now rewrite app_assoc. } rewrite E, H4 in IH. exact IH.
  - destruct H as [H1 H2]. assert (E: content b = br_buf b) by (unfold content, wire_bytes; now rewrite H2, app_nil_r). rewrite E. auto.
  - destruct H as [H1 H2]. assert (E: content b = br_buf b) by (unfold content, wire_bytes; now rewrite H2, app_nil_r). rewrite E. auto.
Qed.
Lemma header_spec : forall b, bytes b -> is_tls_handshake b = true <-> tls_record_header b.
Proof.
  intros b Hb. unfold is_tls_handshake, tls_record_header. destruct b as [|b0 [|b1 [|b2 r]]]; try (split; [discriminate|intros (m & q & E & _); discriminate]).
  inversion Hb as [|? ? H0 Hb1]; subst. inversion Hb1 as [|? ? H1 Hb2]; subst. inversion Hb2 as [|? ? H2 _]; subst. destruct (b0 =? 22) eqn:E; cbn [negb].
  - apply Z.eqb_eq in E. subst. cbn zeta. rewrite !orb_true_iff, !Z.eqb_eq. split.
    + intros H. exists b2, r. assert (b1 = 3) by lia. subst. split; [reflexivity|lia].
    + intros (m & q & Q & Hm). injection Q as -> -> ->. lia.
  - split; [discriminate|]. intros (m & q & Q & _). injection Q as -> _ _ _. discriminate.
Qed.
Lemma tls_firstn : forall b, is_tls_handshake (firstn 3 b) = is_tls_handshake b.
Proof. intros [|a [|b [|c r]]]; reflexivity. Qed.
(* The decision: STRICT (and every unknown mode) always TLS, DISABLED never; PERMISSIVE, once three bytes have arrived, TLS
   iff they are a TLS handshake record header. *)
Theorem C38_mode_decision : forall mode w, bytes (wire_bytes w) ->
  (mode <> "PERMISSIVE" -> mode <> "DISABLED" -> exists b, unified_accept mode w = ATls b)%string /\
  (exists b, unified_accept "DISABLED" w = APlain b) /\
  ((3 <= length (wire_bytes w))%nat -> exists b, (tls_record_header (wire_bytes w) /\ unified_accept "PERMISSIVE" w = ATls b) \/ (~ tls_record_header (wire_bytes w) /\ unified_accept "PERMISSIVE" w = APlain b)).
Proof.
  intros mode w Hb. split; [|split].
  - intros H1 H2. apply String.eqb_neq in H1, H2. unfold unified_accept. rewrite H1, H2. eauto.
  - unfold unified_accept. cbn [String.eqb]. eexists. reflexivity.
  - intros Hl. unfold unified_accept. change (String.eqb "PERMISSIVE" "PERMISSIVE") with true. cbn iota. pose proof (bpeek_spec 3 4 (mkbr [] w) ltac:(unfold bufsize; lia) ltac:(cbn; lia)) as H. destruct (bpeek 3 4 (mkbr [] w)) as [b|b|]; unfold content in H; cbn [br_buf br_w app] in H; try lia.
    destruct H as [H1 H2]. exists b. rewrite tls_firstn. assert (E: is_tls_handshake (br_buf b) = is_tls_handshake (wire_bytes w)). { rewrite <- H1. destruct (br_buf b) as [|x [|y [|z r]]]; cbn in H2; try lia. reflexivity. }
    rewrite E. pose proof (header_spec _ Hb) as HS. destruct (is_tls_handshake (wire_bytes w)); [left|right]; (split; [|reflexivity]); [now apply HS|]. intros Hc. apply HS in Hc. discriminate.
Qed.
Print Assumptions C38_mode_decision.
(* reading from the accepted connection with buffers of the given sizes *)
Fixpoint read_all (sizes : list nat) (b : breader) : list Z * breader :=
  match sizes with
  | [] => ([], b)
  | n :: r => match bread n b with BData d b' => let '(x, b2) := read_all r b' in (d ++ x, b2) | _ => ([], b) end
  end.
Lemma bread_spec : forall n b, (0 < n)%nat -> match bread n b with
  | BData d b' => d <> [] /\ (length d <= n)%nat /\ d ++ content b' = content b /\ w_fin (br_w b') = w_fin (br_w b)
  | BEof => w_fin (br_w b) = true /\ content b = []
  | BBlock => w_fin (br_w b) = false /\ content b = [] end.
Proof.
  intros n b Hn. unfold bread, content. destruct (br_buf b) as [|x buf] eqn:E.
  - cbn [app]. destruct (Nat.leb_spec bufsize n).
    + pose proof (wire_read_spec n (w_segs (br_w b)) (w_fin (br_w b)) Hn) as H0. unfold wire_bytes at 2. destruct (wire_read n _ _) as [d w'| |]; cbn [br_buf br_w app]; unfold wire_bytes; tauto.
    + pose proof (wire_read_spec bufsize (w_segs (br_w b)) (w_fin (br_w b)) ltac:(unfold bufsize; lia)) as H0. unfold wire_bytes at 2. destruct (wire_read bufsize _ _) as [d w'| |]; cbn [br_buf br_w]; unfold wire_bytes in *; try tauto. destruct H0 as (A & B & C & D).
      split; [destruct n; [lia|]; destruct d; [congruence|discriminate]|]. split; [apply firstn_le_length|]. split; [|assumption]. rewrite <- C. rewrite app_assoc, firstn_skipn. reflexivity.
  - split; [destruct n; [lia|discriminate]|]. split; [apply firstn_le_length|]. cbn [br_buf br_w]. split; [|reflexivity]. rewrite app_assoc, firstn_skipn. reflexivity.
Qed.
Lemma read_all_content : forall sizes b x b2, Forall (fun n => (0 < n)%nat) sizes -> read_all sizes b = (x, b2) -> x ++ content b2 = content b.
Proof.
  induction sizes as [|n r IH]; intros b x b2 Hs H; cbn in H; [injection H as <- <-; reflexivity|]. inversion Hs as [|? ? Hn Hr]; subst. pose proof (bread_spec n b Hn) as B. destruct (bread n b) as [d b'| |]; try (injection H as <- <-; reflexivity).
  destruct (read_all r b') as [y b3] eqn:E. injection H as <- <-. destruct B as (_ & _ & B & _). rewrite <- B, <- app_assoc. f_equal. eapply IH; eassumption.
Qed.
(* Peeking loses nothing: in every mode, whatever the sizes of the reads, the bytes the upper layer has read followed by
   those it can still read are the bytes the peer sent; end of file is reported only after all of them. *)
Theorem C38_bytes_preserved : forall mode w b, (unified_accept mode w = APlain b \/ unified_accept mode w = ATls b \/ unified_accept mode w = AClosed b) ->
  content b = wire_bytes w /\
  forall sizes x b2, Forall (fun n => (0 < n)%nat) sizes -> read_all sizes b = (x, b2) ->
    x ++ content b2 = wire_bytes w /\ forall n, (0 < n)%nat -> bread n b2 = BEof -> x = wire_bytes w.
Proof.
  intros mode w b H.
  assert (E: content b = wire_bytes w).
  { unfold unified_accept in H. destruct (String.eqb mode "PERMISSIVE").
    - pose proof (bpeek_spec 3 4 (mkbr [] w) ltac:(unfold bufsize; lia) ltac:(cbn; lia)) as HP. destruct (bpeek 3 4 (mkbr [] w)) as [b'|b'|].
      + destruct HP as [HP _]. destruct (is_tls_handshake _); destruct H as [H|[H|H]]; try discriminate; injection H as <-; exact HP.
      + destruct HP as [HP _]. destruct H as [H|[H|H]]; try discriminate; injection H as <-; exact HP.
      + destruct H as [H|[H|H]]; discriminate.
    - destruct (String.eqb mode "DISABLED"); destruct H as [H|[H|H]]; try discriminate; injection H as <-; reflexivity. }
  split; [assumption|]. intros sizes x b2 Hs Hr. pose proof (read_all_content _ _ _ _ Hs Hr) as C. rewrite E in C. split; [assumption|]. intros n Hn Hq. pose proof (bread_spec n b2 Hn) as B. rewrite Hq in B. destruct B as [_ B]. now rewrite B, app_nil_r in C.
Qed.
Print Assumptions C38_bytes_preserved.
Example C38_ex : exists b, unified_accept "PERMISSIVE" (mkwire [[22]; []; [3; 1; 0; 5]] true) = ATls b /\ read_all [2%nat; 9%nat] b = ([22; 3; 1; 0; 5], mkbr [] (mkwire [] true)).
Proof. eexists. split; reflexivity. Qed.
Example C38_bytes_ex : bytes (wire_bytes (mkwire [[22]; []; [3; 1; 0; 5]] true)).
Proof. repeat constructor; lia. Qed.
(* In permissive mode a peer that sends less than three bytes and half-closes gets a closed connection, and one that waits
   for the server to speak first blocks Accept for everyone. *)
Theorem C38_short_stream_refuted : (forall w, (length (wire_bytes w) < 3)%nat -> w_fin w = true -> exists b, unified_accept "PERMISSIVE" w = AClosed b) /\
  (forall w, (length (wire_bytes w) < 3)%nat -> w_fin w = false -> unified_accept "PERMISSIVE" w = ABlocked).
Proof.
  split; intros w Hl Hf; unfold unified_accept; change (String.eqb "PERMISSIVE" "PERMISSIVE") with true; cbn iota; pose proof (bpeek_spec 3 4 (mkbr [] w) ltac:(unfold bufsize; lia) ltac:(cbn; lia)) as H; unfold content in H; cbn [br_buf br_w app] in H; destruct (bpeek 3 4 (mkbr [] w)) as [b|b|].
  - destruct H as [H1 H2]. exfalso. rewrite <- H1, app_length in Hl. lia.
  - eauto.
  - destruct H. congruence.
  - destruct H as [H1 H2]. exfalso. rewrite <- H1, app_length in Hl. lia.
  - destruct H as (_ & _ & _ & H). congruence.
  - reflexivity.
Qed.
Print Assumptions C38_short_stream_refuted.

(* ================= C39 ================= *)
Definition inhand (c : nat) (x : lsn * mgo * bool) : nat := match x with (_, GSend d, _) => if Nat.eqb c d then 1 else 0 | _ => 0 end%nat.
Definition suml (f : lsn * mgo * bool -> nat) (l : list (lsn * mgo * bool)) : nat := fold_right (fun x n => f x + n)%nat 0%nat l.
Lemma suml_app : forall f a b, suml f (a ++ b) = (suml f a + suml f b)%nat.
Proof. intros f a b. unfold suml. induction a as [|x a IH]; cbn; [reflexivity|]. rewrite IH. lia. Qed.
Lemma suml_set : forall f l j x y, nth_error l j = Some x -> (suml f (lset l j y) + f x = suml f l + f y)%nat.
Proof.
  intros f l. unfold suml. induction l as [|z l IH]; intros [|j] x y H; cbn in H; try discriminate; cbn [lset fold_right].
  - injection H as ->. lia.
  - specialize (IH j x y H). lia.
Qed.
Definition where_is (c : nat) (m : mlis) : nat := (count_occ Nat.eq_dec (m_deliv m) c + count_occ Nat.eq_dec (m_chan m) c + suml (inhand c) (m_info m))%nat.
Lemma remove_inhand : forall c id m, suml (inhand c) (snd (m_remove id m)) = suml (inhand c) (m_info m).
Proof.
  intros c id m. unfold m_remove. destruct (mget id (m_map m)) as [i|]; [|reflexivity]. cbn [snd]. destruct (nth_error (m_info m) i) as [[[l g] b]|] eqn:E; [|reflexivity]. pose proof (suml_set (inhand c) _ _ _ (l, g, true) E) as H. cbn [inhand] in H. lia.
Qed.
Definition one_if (b : bool) : nat := if b then 1%nat else 0%nat.
Lemma where_step : forall c m l m', mstep m l m' -> where_is c m = one_if (Nat.ltb c (m_next m)) -> where_is c m' = one_if (Nat.ltb c (m_next m')).
Proof.
  intros c m0 l m' Hs H. unfold where_is in *.
  destruct Hs; cbn [mupd m_deliv m_chan m_info m_next] in *; try exact H; rewrite ?remove_inhand; try exact H.
  - rewrite suml_app. cbn [suml fold_right inhand]. lia.
  - (* incoming *) pose proof (suml_set (inhand c) _ _ _ (l, GSend (m_next m), false) H1) as Q. cbn [inhand] in Q. rewrite !Nat.add_0_r in Q. unfold one_if in *. destruct (Nat.ltb_spec c (m_next m)), (Nat.ltb_spec c (S (m_next m))), (Nat.eqb_spec c (m_next m)); lia.
  - pose proof (suml_set (inhand c) _ _ _ (l, GStop, true) H1) as Q. cbn [inhand] in Q. lia.
  - (* send *) pose proof (suml_set (inhand c) _ _ _ (l, GAccept, b) H1) as Q. cbn [inhand] in Q. rewrite H3 in H. cbn [count_occ] in *. destruct (Nat.eq_dec c0 c) as [->|Hn]; [rewrite Nat.eqb_refl in Q; lia|]. destruct (Nat.eqb_spec c c0); [congruence|]. lia.
  - rewrite H3 in H. cbn in *. exact H.
  - (* accept *) rewrite H2 in H. cbn [count_occ] in *. destruct (Nat.eq_dec c0 c); lia.
Qed.
Lemma where_reach : forall ls m c, msteps new_mlis ls m -> where_is c m = one_if (Nat.ltb c (m_next m)).
Proof.
  intros ls m c H. assert (G: forall a b ls, msteps a ls b -> where_is c a = one_if (Nat.ltb c (m_next a)) -> where_is c b = one_if (Nat.ltb c (m_next b))) by (intros a b l Hab; induction Hab as [|a l b ls2 c2 H1 H2 IH]; [auto|]; intros Ha; apply IH; eapply where_step; eauto).
  eapply G; [exact H|]. reflexivity.
Qed.
(* In every reachable state each connection accepted from an added listener is at exactly one place: returned once by
   Accept, in the channel, or in the hands of its listener's goroutine. *)
Theorem C39_delivered_once : forall ls m, msteps new_mlis ls m ->
  NoDup (m_deliv m ++ m_chan m) /\ (forall c, In c (m_deliv m) -> (c < m_next m)%nat) /\
  (forall c, (c < m_next m)%nat -> In c (m_deliv m) \/ In c (m_chan m) \/ exists i l b, nth_error (m_info m) i = Some (l, GSend c, b)).
Proof.
  intros ls m H. split; [|split].
  - rewrite (NoDup_count_occ Nat.eq_dec). intros c. rewrite count_occ_app. pose proof (where_reach _ _ c H) as W. unfold where_is, one_if in W. destruct (Nat.ltb c (m_next m)); lia.
  - intros c Hc. pose proof (where_reach _ _ c H) as W. apply (count_occ_In Nat.eq_dec) in Hc. unfold where_is, one_if in W. destruct (Nat.ltb_spec c (m_next m)); lia.
  - intros c Hc. pose proof (where_reach _ _ c H) as W. apply Nat.ltb_lt in Hc. rewrite Hc in W. unfold where_is in W. cbn [one_if] in W.
    destruct (in_dec Nat.eq_dec c (m_deliv m)) as [|N1]; [now left|]. destruct (in_dec Nat.eq_dec c (m_chan m)) as [|N2]; [now right; left|]. right. right. apply (count_occ_not_In Nat.eq_dec) in N1, N2. rewrite N1, N2 in W. cbn in W. clear - W.
    revert W. generalize (m_info m). induction l as [|[[x g] b] l IH]; intros W; [discriminate|]. cbn [suml fold_right inhand] in W. fold (suml (inhand c) l) in W. destruct g as [|d|].
    + destruct (IH W) as (i & x' & b' & Hi). exists (S i), x', b'. exact Hi.
    + destruct (Nat.eqb_spec c d) as [->|Hn]; [exists 0%nat, x, b; reflexivity|]. destruct (IH W) as (i & x' & b' & Hi). exists (S i), x', b'. exact Hi.
    + destruct (IH W) as (i & x' & b' & Hi). exists (S i), x', b'. exact Hi.
Qed.
Print Assumptions C39_delivered_once.
(* Adding a listener whose id is present, or to a closed multi listener, is an error and changes nothing. *)
Theorem C39_duplicate_rejected : forall m l ok m', mstep m (MLAdd l ok) m' -> (m_closed m = true \/ exists i, mget (get_id l) (m_map m) = Some i) -> ok = false /\ m' = m.
Proof. intros m l ok m' Hs Hc. inversion Hs; subst; auto. destruct Hc as [Hc|(i & Hc)]; congruence. Qed.
Print Assumptions C39_duplicate_rejected.
(* Once Close has finished, an Accept call that starts then reports closed, and Close and AddListener report an error;
   this stays so. *)
Theorem C39_closed_for_good : forall m l m', m_closed m = true -> mstep m l m' -> m_closed m' = true /\ (m_wait m' <= m_wait m)%nat /\ (m_wait m = 0%nat -> forall c, l <> MLAccept (Some c)) /\ l <> MLClose true /\ forall x, l <> MLAdd x true.
Proof.
  intros m l m' H Hs. destruct Hs; cbn [mupd m_closed m_wait] in *; try congruence; (split; [assumption || reflexivity|]); (split; [lia|]); (split; [intros; try discriminate; congruence|]); (split; [discriminate|intros; discriminate]).
Qed.
Print Assumptions C39_closed_for_good.
Ltac mone := eapply MS_cons; [|].
Definition lA : lsn := mklsn "127.0.0.1:80" None.
Definition lB : lsn := mklsn "127.0.0.1:81" (Some "b"%string).
Example C39_ex : exists ls m, msteps new_mlis ls m /\ m_deliv m = [0%nat] /\ m_chan m = [1%nat] /\ In (MLAdd lA false) ls.
Proof.
  eexists _, _. split; [|split; [|split]].
  { mone. apply (ML_add _ lA); reflexivity. mone. eapply (ML_store _ 0%nat); reflexivity. cbn. mone. eapply (ML_add_dup _ lA); reflexivity. mone. eapply (ML_incoming _ 0%nat lA); reflexivity. cbn. mone. eapply (ML_send _ 0%nat lA); reflexivity. cbn.
    mone. eapply ML_accept_enter; reflexivity. cbn. mone. eapply ML_accept; reflexivity. cbn. mone. eapply (ML_incoming _ 0%nat lA); reflexivity. cbn. mone. eapply (ML_send _ 0%nat lA); reflexivity. cbn. apply MS_nil. }
  all: cbn; auto 8.
Qed.
(* A listener goroutine that holds a connection while Close runs sends on the closed channel: the process panics. *)
Theorem C39_close_panic_refuted : exists ls m, msteps new_mlis ls m /\ m_panic m = true.
Proof.
  eexists _, _. split.
  { mone. apply (ML_add _ lA); reflexivity. mone. eapply (ML_store _ 0%nat); reflexivity. cbn. mone. eapply (ML_incoming _ 0%nat lA); reflexivity. cbn.
    mone. eapply ML_close; reflexivity. cbn. mone. eapply (ML_close_one _ 1%nat lA); reflexivity. cbn. mone. eapply (ML_close_all _ 1%nat); reflexivity. cbn. mone. eapply (ML_close_chan _ 1%nat); reflexivity. cbn. mone. eapply (ML_send_panic _ 0%nat lA); reflexivity. cbn. apply MS_nil. }
  reflexivity.
Qed.
Print Assumptions C39_close_panic_refuted.
(* Two concurrent Close calls close the channel twice and panic. *)
Theorem C39_double_close_panic_refuted : exists ls m, msteps new_mlis ls m /\ m_panic m = true /\ forall x, ~ In (MLAdd x true) ls.
Proof.
  eexists _, _. split; [|split].
  { mone. eapply ML_close; reflexivity. cbn. mone. eapply ML_close; reflexivity. cbn. mone. eapply (ML_close_all _ 0%nat); reflexivity. cbn. mone. eapply (ML_close_all _ 1%nat); reflexivity. cbn. mone. eapply (ML_close_chan _ 0%nat); reflexivity. cbn. mone. eapply (ML_close_chan _ 1%nat); reflexivity. cbn. apply MS_nil. }
  - reflexivity.
  - intros x. cbn. intuition discriminate.
Qed.
Print Assumptions C39_double_close_panic_refuted.
(* Close does not close a listener that has its own ID: it stays open and registered, and its next connection panics. *)
Theorem C39_custom_id_survives_close_refuted : exists ls m, msteps new_mlis ls m /\ m_closed m = true /\ nth_error (m_info m) 0 = Some (lB, GAccept, false) /\
  exists ls' m', msteps m ls' m' /\ m_panic m' = true.
Proof.
  eexists _, _. split; [|split; [|split]].
  { mone. apply (ML_add _ lB); reflexivity. mone. eapply (ML_store _ 0%nat); reflexivity. cbn. mone. eapply ML_close; reflexivity. cbn. mone. eapply (ML_close_one _ 1%nat lB); reflexivity. cbn. mone. eapply (ML_close_all _ 1%nat); reflexivity. cbn. mone. eapply (ML_close_chan _ 1%nat); reflexivity. cbn. mone. eapply (ML_flag _ 1%nat); reflexivity. cbn. apply MS_nil. }
  - reflexivity.
  - reflexivity.
  - eexists _, _. split; [|]. { mone. eapply (ML_incoming _ 0%nat lB); reflexivity. cbn. mone. eapply (ML_send_panic _ 0%nat lB); reflexivity. cbn. apply MS_nil. } reflexivity.
Qed.
Print Assumptions C39_custom_id_survives_close_refuted.
(* A connection waiting in the channel when Close finishes is never returned by a later Accept. *)
Theorem C39_buffered_connection_lost_refuted : exists ls m, msteps new_mlis ls m /\ m_closed m = true /\ m_wait m = 0%nat /\ m_chan m = [0%nat] /\
  forall ls' m', msteps m ls' m' -> m_chan m' = [0%nat].
Proof.
  eexists _, _. split; [|split; [|split; [|split]]].
  { mone. apply (ML_add _ lA); reflexivity. mone. eapply (ML_store _ 0%nat); reflexivity. cbn. mone. eapply (ML_incoming _ 0%nat lA); reflexivity. cbn. mone. eapply (ML_send _ 0%nat lA); reflexivity. cbn.
    mone. eapply ML_close; reflexivity. cbn. mone. eapply (ML_close_one _ 1%nat lA); reflexivity. cbn. mone. eapply (ML_close_all _ 1%nat); reflexivity. cbn. mone. eapply (ML_close_chan _ 1%nat); reflexivity. cbn. mone. eapply (ML_flag _ 1%nat); reflexivity. cbn. apply MS_nil. }
  1-3: reflexivity.
  intros ls' m' H. match type of H with msteps ?a _ _ => assert (Ha: m_closed a = true /\ m_wait a = 0%nat /\ m_chan a = [0%nat]) by auto end. clear - H Ha. induction H as [m|a l b ls c Hs H IH]; [apply Ha|]. apply IH. destruct Ha as (A & B & C).
  destruct Hs; cbn [mupd m_closed m_wait m_chan] in *; try (auto; fail); try congruence.
Qed.
Print Assumptions C39_buffered_connection_lost_refuted.

(* ================= C40 ================= *)
Definition ttfb (h : list cop) : Z := fold_left ttfb_apply h 0.
Definition op_time (o : cop) : option Z := match o with CRead _ _ t | CWrite _ _ t => Some t | _ => None end.
Lemma ttfb_fixed : forall h t, t <> 0 -> ~ In CReset h -> fold_left ttfb_apply h t = t.
Proof.
  induction h as [|o h IH]; intros t Ht Hr; [reflexivity|]. cbn [fold_left]. assert (E: ttfb_apply t o = t). { destruct o; cbn; unfold set_ttfb; try (apply Z.eqb_neq in Ht; now rewrite Ht). exfalso. apply Hr. now left. }
  rewrite E. apply IH; [assumption|]. intros Hc. apply Hr. now right.
Qed.
(* Until it is reset, the recorded time is that of the first Read or Write that returned, and nothing changes it later. *)
Theorem C40_first_operation : forall pre o post t, (forall x, In x pre -> op_time x = None) -> op_time o = Some t -> t <> 0 -> ~ In CReset post -> ttfb (pre ++ o :: post) = t.
Proof.
  intros pre o post t Hp Ho Ht Hr. unfold ttfb. rewrite fold_left_app. cbn [fold_left].
  assert (E: fold_left ttfb_apply pre 0 = 0). { clear - Hp. induction pre as [|x pre IH]; [reflexivity|]. cbn [fold_left]. assert (Ex: ttfb_apply 0 x = 0) by (specialize (Hp x (or_introl eq_refl)); destruct x; cbn in *; try discriminate; reflexivity). rewrite Ex. apply IH. intros y Hy. apply Hp. now right. }
  rewrite E. assert (Eo: ttfb_apply 0 o = t) by (destruct o; cbn in *; try discriminate; injection Ho as <-; reflexivity). rewrite Eo. now apply ttfb_fixed.
Qed.
Print Assumptions C40_first_operation.
(* After a reset, whatever happened before it, the next Read or Write determines the time again. *)
Theorem C40_reset : forall pre mid o post t, (forall x, In x mid -> op_time x = None) -> op_time o = Some t -> t <> 0 -> ~ In CReset post -> ttfb (pre ++ CReset :: mid ++ o :: post) = t.
Proof.
  intros pre mid o post t Hm Ho Ht Hr. unfold ttfb. rewrite fold_left_app. cbn [fold_left ttfb_apply]. exact (C40_first_operation mid o post t Hm Ho Ht Hr).
Qed.
Print Assumptions C40_reset.
Example C40_ex : ttfb [CToContext; CRead 5 false 17; CRead 9 false 20; CToContext; CWrite 3 false 30] = 17.
Proof. reflexivity. Qed.
(* It is not the time of the first byte: a failed empty read (or any write) sets it. *)
Theorem C40_not_first_byte_refuted : ttfb [CRead 0 true 5; CRead 10 false 9] = 5 /\ ttfb [CWrite 10 false 3; CRead 10 false 9] = 3.
Proof. split; reflexivity. Qed.
Print Assumptions C40_not_first_byte_refuted.
(* One successful Close makes exactly the calls before, close, after, in this order; the connection is never closed if
   BeforeClose fails. *)
Theorem C40_close_order : forall b c a calls, conn_close true b c a = (calls, true) -> calls = [KBefore; KClose; KAfter].
Proof. intros [|] [|] [|] calls H; cbn in H; inversion H; reflexivity. Qed.
Print Assumptions C40_close_order.
Theorem C40_close_errors : forall c a, conn_close true true c a = ([KBefore], false) /\ conn_close true false true a = ([KBefore; KClose], false) /\ conn_close true false false true = ([KBefore; KClose; KAfter], false) /\
  (forall b, conn_close false b c a = ([KClose], negb c)).
Proof. intros [|] [|]; (split; [reflexivity|split; [reflexivity|split; [reflexivity|intros [|]; reflexivity]]]). Qed.
Print Assumptions C40_close_errors.
(* Closing twice runs the wrapper twice. *)
Theorem C40_wrapper_twice_refuted : let '(a, _) := conn_close true false false false in let '(b, _) := conn_close true false false false in count_occ (fun x y : ccall => ltac:(decide equality) : {x = y} + {x <> y}) (a ++ b) KBefore = 2%nat.
Proof. reflexivity. Qed.
Print Assumptions C40_wrapper_twice_refuted.
