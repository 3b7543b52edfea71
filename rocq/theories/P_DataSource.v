(* C97: the sources of plugin code. *)
From Coq Require Import List Arith Bool ZArith Lia.
From Verif Require Import M_DataSource.
Import ListNotations.
Open Scope nat_scope.
(* ---- specification ---- *)
(* a source that fetches: a URL or a file with a name *)
Definition fetches (k : kind) : Prop := k = Url \/ k = File true.
(* what call i gave: nothing yet; or an error, or the content of the slice *)
Inductive given := Nothing | Failed | Gave (content : list Z) | Empty | Panicked.
Definition gives (s : st) (i : nat) : given :=
  match nth_error (calls s) i with
  | Some (Finished Error) => Failed
  | Some (Finished Panic) => Panicked
  | Some (Finished (Ok None)) => Empty
  | Some (Finished (Ok (Some r))) => match nth_error (heap s) r with Some b => Gave b | None => Nothing end
  | _ => Nothing
  end.
(* calls one after the other: errors up to the first complete answer, whose content all calls give from then on *)
Fixpoint expected (known : option (list Z)) (l : list answer) : list given :=
  match l with
  | [] => []
  | a :: r => match known with
              | Some b => Gave b :: expected known r
              | None => match a with Answered _ b true => Gave b :: expected (Some b) r | _ => Failed :: expected None r end
              end
  end.
(* how often the source is opened then *)
Fixpoint opens (l : list answer) : nat :=
  match l with [] => 0 | Answered _ _ true :: _ => 1 | Answered _ _ false :: r => S (opens r) | Refused :: r => opens r end.
Definition is_write (e : event) : bool := match e with Write _ _ _ => true | _ => false end.
(* ---- lemmas ---- *)
Lemma set_same : forall l i p q, nth_error l i = Some q -> nth_error (set_call i p l) i = Some p.
Proof. induction l as [|x l IH]; intros [|i] p q H; try discriminate; [reflexivity|]. cbn in H. unfold set_call. cbn [firstn skipn app nth_error]. exact (IH i p q H). Qed.
Lemma set_other : forall l i j p, i <> j -> nth_error (set_call i p l) j = nth_error l j.
Proof. induction l as [|x l IH]; intros [|i] [|j] p H; try reflexivity; try lia. unfold set_call. cbn [firstn skipn app nth_error]. apply IH. lia. Qed.
Lemma set_in : forall l i p q, In q (set_call i p l) -> q = p \/ In q l.
Proof. induction l as [|x l IH]; intros [|i] p q H; [destruct H|destruct H| |]; unfold set_call in H; cbn [firstn skipn app] in H; destruct H as [H|H]; subst; auto; [right; now right|right; now left|]. destruct (IH i p q H); auto. right; now right. Qed.
Lemma set_len : forall l i p, length (set_call i p l) = length l.
Proof. induction l as [|x l IH]; intros [|i] p; try reflexivity. unfold set_call. cbn [firstn skipn app length]. f_equal. apply IH. Qed.
Lemma put2_len : forall h r i v, length (put2 r i v h) = length h.
Proof. induction h as [|l h IH]; intros [|r] i v; cbn; auto. Qed.
Lemma run_snoc : forall l e s, run s (l ++ [e]) = step (run s l) e.
Proof. intros. unfold run. rewrite fold_left_app. reflexivity. Qed.
Lemma run_app : forall l m s, run s (l ++ m) = run (run s l) m.
Proof. intros. unfold run. apply fold_left_app. Qed.
Lemma step_kind : forall s e, knd (step s e) = knd s.
Proof. intros s [|i a|i|r i v]; cbn [step]; try reflexivity; destruct (nth_error (calls s) i) as [[| | |]|]; try reflexivity. unfold ask. destruct (knd s) as [|[]|] eqn:E, a as [|st b []]; cbn; congruence. Qed.
Lemma run_kind : forall l s, knd (run s l) = knd s.
Proof. induction l as [|e l IH]; intros s; [reflexivity|]. change (run s (e :: l)) with (run (step s e) l). now rewrite IH, step_kind. Qed.
Definition delivered (h : list event) (b : list Z) : Prop := exists i status, In (Ask i (Answered status b true)) h.
Record inv (h : list event) (s : st) : Prop := {
  i_cache : forall r, cache s = Some r -> r < length (heap s);
  i_calls : forall p, In p (calls s) -> match p with Storing r => r < length (heap s) | Returning => cache s <> None | Finished (Ok r) => exists x, r = Some x /\ x < length (heap s) | Finished Panic => False | _ => True end;
  i_heap : existsb is_write h = false -> forall b, In b (heap s) -> delivered h b;
  i_some : heap s <> [] -> exists b, delivered h b;
  i_closed : match knd s with Url => closed s = opened s | _ => closed s = 0 end }.
Lemma inv_run : forall k h, fetches k -> inv h (run (new_source k) h).
Proof.
  intros k h Hk. induction h as [|e h IH] using rev_ind.
  - constructor; cbn; try contradiction; try discriminate; destruct k as [| |]; auto; try contradiction.
  - rewrite run_snoc. assert (Kk: fetches (knd (run (new_source k) h))) by (rewrite run_kind; exact Hk). set (s := run (new_source k) h) in *. clearbody s. clear Hk. destruct IH as [Ic Ip Ih Is Io].
    assert (Dm: forall b, delivered h b -> delivered (h ++ [e]) b) by (intros b (i & st & H); exists i, st; apply in_or_app; now left).
    assert (Wm: existsb is_write (h ++ [e]) = false -> existsb is_write h = false /\ is_write e = false) by (rewrite existsb_app; cbn [existsb]; rewrite orb_false_r; apply orb_false_elim).
    assert (Same: forall P : Prop, P -> P) by auto.
    assert (Keep: forall i p, (match p with Storing r => r < length (heap s) | Returning => cache s <> None | Finished (Ok r) => exists x, r = Some x /\ x < length (heap s) | Finished Panic => False | _ => True end) -> inv (h ++ [e]) (at_call s i p)).
    { intros i p Hp. constructor; cbn [at_call cache heap calls knd opened closed]; auto.
      - intros q Hq. apply set_in in Hq. destruct Hq as [->|Hq]; [exact Hp|now apply Ip].
      - intros W b Hb. apply Dm, Ih; [now apply Wm|exact Hb].
      - intros Hne. destruct (Is Hne) as (b & Hb). eauto. }
    assert (Stay: inv (h ++ [e]) s).
    { constructor; auto; [intros W b Hb; apply Dm, Ih; [now apply Wm|exact Hb]|]. intros Hne. destruct (Is Hne) as (b & Hb). eauto. }
    destruct e as [|i a|i|r i v]; cbn [step].
    + constructor; cbn [cache heap calls knd opened closed]; auto.
      * intros p Hp. apply in_app_or in Hp. destruct Hp as [Hp|[<-|[]]]; [now apply Ip|]. destruct (cache s) as [r|] eqn:E; [|exact I]. exists r. split; [reflexivity|now apply Ic].
      * intros W b Hb. apply Dm, Ih; [now apply Wm|exact Hb].
      * intros Hne. destruct (Is Hne) as (b & Hb). eauto.
    + destruct (nth_error (calls s) i) as [[| | |]|] eqn:E; auto. unfold ask.
      assert (Grow: forall st b c, a = Answered st b true -> (match knd s with Url => c = S (opened s) | _ => c = 0 end) ->
        inv (h ++ [Ask i a]) (mkst (knd s) (heap s ++ [b]) (cache s) (set_call i (Storing (length (heap s))) (calls s)) (S (opened s)) c)).
      { intros st b c -> Hc. constructor; cbn [cache heap calls knd opened closed]; rewrite ?app_length; cbn [length].
        - intros r Hr. specialize (Ic r Hr). lia.
        - intros p Hp. apply set_in in Hp. destruct Hp as [->|Hp]; [lia|]. specialize (Ip p Hp). destruct p as [|r| |[|[r|]|]]; auto; [lia| |destruct Ip as (x & Hx & _); discriminate]. destruct Ip as (x & Hx & Hl). exists x. split; [exact Hx|lia].
        - intros W b' Hb. apply in_app_or in Hb. destruct Hb as [Hb|[<-|[]]]; [apply Dm, Ih; [now apply Wm|exact Hb]|]. exists i, st. apply in_or_app. right. now left.
        - intros _. exists b, i, st. apply in_or_app. right. now left.
        - exact Hc. }
      assert (Err: forall c, (match knd s with Url => c = S (opened s) | _ => c = 0 end) -> inv (h ++ [Ask i a]) (mkst (knd s) (heap s) (cache s) (set_call i (Finished Error) (calls s)) (S (opened s)) c)).
      { intros c Hc. destruct (Keep i (Finished Error) I) as [A B C D F]. constructor; auto. }
      destruct (knd s) as [|[]|] eqn:Ek; [| |destruct Kk; discriminate|destruct Kk; discriminate]; destruct a as [|st b []]; rewrite <- ?Ek in *; try (apply (Keep i (Finished Error) I)).
      * rewrite Ek in *. apply (Grow st b _ eq_refl). now rewrite Io.
      * rewrite Ek in *. apply Err. now rewrite Io.
      * rewrite Ek in *. apply (Grow st b _ eq_refl Io).
      * rewrite Ek in *. apply (Err _ Io).
    + destruct (nth_error (calls s) i) as [[|r| |]|] eqn:E; auto.
      * assert (Hr: r < length (heap s)) by (apply nth_error_In in E; exact (Ip _ E)). constructor; cbn [cache heap calls knd opened closed]; auto.
        -- intros x Hx. injection Hx as <-. exact Hr.
        -- intros p Hp. apply set_in in Hp. destruct Hp as [->|Hp]; [discriminate|]. specialize (Ip p Hp). destruct p as [|x| |[|[x|]|]]; auto. discriminate.
        -- intros W b Hb. apply Dm, Ih; [now apply Wm|exact Hb].
        -- intros Hne. destruct (Is Hne) as (b & Hb). eauto.
      * apply Keep. apply nth_error_In in E. specialize (Ip _ E). cbn in Ip. destruct (cache s) as [r|] eqn:Ec; [|congruence]. exists r. split; [reflexivity|now apply Ic].
    + constructor; cbn [cache heap calls knd opened closed]; rewrite ?put2_len; auto.
      * intros W. apply Wm in W. destruct W as [_ W]. discriminate.
      * intros Hne. assert (heap s <> []) as Hh by (intros E; apply Hne; rewrite E; now destruct r). destruct (Is Hh) as (b & Hb). eauto.
Qed.
(* Whatever calls of Get happen at once, each that succeeds gives content (never nil), and, unless someone writes to a slice, one
   that the source delivered completely; no call panics. *)
Theorem C97_delivered : forall k h i, fetches k -> let s := run (new_source k) h in
  gives s i <> Panicked /\ gives s i <> Empty /\ (existsb is_write h = false -> forall b, gives s i = Gave b -> delivered h b) /\
  (forall r, nth_error (calls s) i = Some (Finished (Ok r)) -> exists b, gives s i = Gave b).
Proof.
  intros k h i Hk s. destruct (inv_run k h Hk) as [_ Ip Ih _ _]. fold s in Ip, Ih. unfold gives. destruct (nth_error (calls s) i) as [p|] eqn:E; [|repeat split; try discriminate; intros; discriminate].
  apply nth_error_In in E. specialize (Ip p E). destruct p as [|r| |[|o|]]; try contradiction; try (repeat split; try discriminate; intros; discriminate).
  destruct Ip as (x & -> & Hx). destruct (nth_error (heap s) x) as [b|] eqn:Eb; [|apply nth_error_None in Eb; lia].
  split; [discriminate|]. split; [discriminate|]. split; [intros W b' H; injection H as <-; apply Ih; [exact W|eapply nth_error_In, Eb]|]. intros r _. eauto.
Qed.
Print Assumptions C97_delivered.
(* Of a source that always delivers the same content every call gives that content, in any schedule. *)
Theorem C97_same : forall k h i b, fetches k -> existsb is_write h = false -> (forall j status c, In (Ask j (Answered status c true)) h -> c = b) -> forall c, gives (run (new_source k) h) i = Gave c -> c = b.
Proof. intros k h i b Hk W H c Hc. destruct (C97_delivered k h i Hk) as (_ & _ & D & _). destruct (D W c Hc) as (j & st & Hin). exact (H j st c Hin). Qed.
Print Assumptions C97_same.
(* Once content is stored there is content at any time, a call gives it at once and does not ask the source. *)
Theorem C97_kept : forall h s, cache s <> None -> cache (run s h) <> None.
Proof.
  induction h as [|e h IH]; intros s Hc; [exact Hc|]. change (run s (e :: h)) with (run (step s e) h). apply IH. destruct e as [|i a|i|r i v]; cbn [step]; auto; destruct (nth_error (calls s) i) as [[| | |]|]; auto.
  - unfold ask. destruct (knd s) as [|[]|], a as [|st b []]; auto.
  - discriminate.
Qed.
Print Assumptions C97_kept.
Theorem C97_at_once : forall s r a, cache s = Some r -> let s' := run s [Call; Ask (length (calls s)) a] in
  nth_error (calls s') (length (calls s)) = Some (Finished (Ok (Some r))) /\ opened s' = opened s /\ heap s' = heap s /\ cache s' = cache s.
Proof.
  intros s r a Hc s'. assert (E: nth_error (calls s ++ [Finished (Ok (Some r))]) (length (calls s)) = Some (Finished (Ok (Some r)))) by (rewrite nth_error_app2, Nat.sub_diag; [reflexivity|lia]).
  assert (s' = mkst (knd s) (heap s) (cache s) (calls s ++ [Finished (Ok (Some r))]) (opened s) (closed s)) as ->; [|cbn; auto]. subst s'. unfold run. cbn [fold_left step]. cbn [calls cache]. rewrite Hc. rewrite E. reflexivity.
Qed.
Print Assumptions C97_at_once.
Lemma gets_known : forall l s r b, cache s = Some r -> nth_error (heap s) r = Some b ->
  let s' := run s (gets (length (calls s)) l) in calls s' = calls s ++ repeat (Finished (Ok (Some r))) (length l) /\ heap s' = heap s /\ opened s' = opened s /\ cache s' = Some r /\ closed s' = closed s.
Proof.
  induction l as [|a l IH]; intros s r b Hc Hb; cbn [gets length repeat]; [cbn; rewrite app_nil_r; auto|]. cbv zeta. rewrite run_app.
  assert (E: nth_error (calls s ++ [Finished (Ok (Some r))]) (length (calls s)) = Some (Finished (Ok (Some r)))) by (rewrite nth_error_app2, Nat.sub_diag; [reflexivity|lia]).
  assert (run s (get_events (length (calls s)) a) = mkst (knd s) (heap s) (cache s) (calls s ++ [Finished (Ok (Some r))]) (opened s) (closed s)) as ->.
  { unfold run, get_events. cbn [fold_left step]. cbn [calls cache]. rewrite Hc. repeat (cbn [calls]; rewrite E). reflexivity. }
  specialize (IH (mkst (knd s) (heap s) (cache s) (calls s ++ [Finished (Ok (Some r))]) (opened s) (closed s)) r b Hc Hb). cbn [calls heap opened cache closed] in IH. rewrite app_length, Nat.add_1_r in IH. cbv zeta in IH.
  destruct IH as (H1 & H2 & H3 & H4 & H5). rewrite H1, <- app_assoc. auto.
Qed.
Lemma set_last : forall l p q, set_call (length l) q (l ++ [p]) = l ++ [q].
Proof. induction l as [|x l IH]; intros p q; [reflexivity|]. unfold set_call. cbn [length firstn skipn app]. f_equal. apply IH. Qed.
Lemma nth_last {X} : forall (l : list X) p, nth_error (l ++ [p]) (length l) = Some p.
Proof. intros. rewrite nth_error_app2, Nat.sub_diag; [reflexivity|lia]. Qed.
Lemma get_unknown : forall s a, fetches (knd s) -> cache s = None -> run s (get_events (length (calls s)) a) =
  match a with
  | Refused => mkst (knd s) (heap s) None (calls s ++ [Finished Error]) (opened s) (closed s)
  | Answered _ b false => mkst (knd s) (heap s) None (calls s ++ [Finished Error]) (S (opened s)) (match knd s with Url => S (closed s) | _ => closed s end)
  | Answered _ b true => mkst (knd s) (heap s ++ [b]) (Some (length (heap s))) (calls s ++ [Finished (Ok (Some (length (heap s))))]) (S (opened s)) (match knd s with Url => S (closed s) | _ => closed s end)
  end.
Proof.
  intros s a Hk Hc. unfold run, get_events. cbn [fold_left step]. cbn [calls cache]. rewrite Hc, nth_last. unfold ask. cbn [knd].
  destruct Hk as [-> | ->]; destruct a as [|st b []]; unfold at_call; cbn [calls knd heap cache opened closed]; rewrite set_last, ?nth_last; repeat (cbn [calls knd heap cache opened closed]; rewrite ?set_last, ?nth_last); reflexivity.
Qed.
Lemma gets_unknown : forall l s, fetches (knd s) -> cache s = None -> let s' := run s (gets (length (calls s)) l) in
  map (gives s') (seq (length (calls s)) (length l)) = expected None l /\ length (calls s') = length (calls s) + length l /\ (forall i, i < length (calls s) -> nth_error (calls s') i = nth_error (calls s) i) /\
  (exists x, heap s' = heap s ++ x) /\ opened s' = opened s + opens l.
Proof.
  induction l as [|a l IH]; intros s Hk Hc; cbn [gets length seq map expected opens]; cbv zeta.
  { cbn. split; [reflexivity|]. split; [lia|]. split; [auto|]. split; [exists []; now rewrite app_nil_r|lia]. }
  rewrite run_app, get_unknown by assumption. set (n := length (calls s)).
  assert (Err: forall o c, let s1 := mkst (knd s) (heap s) None (calls s ++ [Finished Error]) o c in let s' := run s1 (gets (S n) l) in
    gives s' n :: map (gives s') (seq (S n) (length l)) = Failed :: expected None l /\ length (calls s') = n + S (length l) /\ (forall i, i < n -> nth_error (calls s') i = nth_error (calls s) i) /\ (exists x, heap s' = heap s ++ x) /\ opened s' = o + opens l).
  { intros o c s1. assert (L1: length (calls s1) = S n) by (subst s1; cbn [calls]; rewrite app_length; subst n; cbn; lia). destruct (IH s1 Hk eq_refl) as (H1 & H2 & H3 & H4 & H5). rewrite L1 in *. cbv zeta. rewrite H1.
    split; [f_equal; unfold gives; rewrite H3 by lia; subst s1 n; cbn [calls]; now rewrite nth_last|]. split; [lia|]. split; [intros i Hi; rewrite H3 by lia; subst s1; cbn [calls]; now rewrite nth_error_app1 by exact Hi|]. split; [exact H4|exact H5]. }
  destruct a as [|st b []].
  - destruct (Err (opened s) (closed s)) as (H1 & H2 & H3 & H4 & H5). auto.
  - set (s1 := mkst (knd s) (heap s ++ [b]) _ _ _ _). assert (L1: length (calls s1) = S n) by (subst s1; cbn [calls]; rewrite app_length; subst n; cbn; lia).
    destruct (gets_known l s1 (length (heap s)) b eq_refl (nth_last _ _)) as (H1 & H2 & H3 & _). rewrite L1 in *. set (s' := run s1 (gets (S n) l)) in *.
    assert (G: forall i, n <= i < n + S (length l) -> gives s' i = Gave b).
    { intros i Hi. unfold gives. rewrite H1, H2. subst s1. cbn [calls heap]. rewrite <- app_assoc. cbn [app]. change (Finished (Ok (Some (length (heap s)))) :: repeat (Finished (Ok (Some (length (heap s))))) (length l)) with (repeat (Finished (Ok (Some (length (heap s))))) (S (length l))).
      rewrite nth_error_app2 by (fold n; lia). fold n. rewrite nth_error_repeat by lia. now rewrite nth_last. }
    split.
    + change (gives s' n :: map (gives s') (seq (S n) (length l))) with (map (gives s') (seq n (S (length l)))). assert (E: expected (Some b) l = repeat (Gave b) (length l)) by (clear; induction l; cbn; congruence).
      rewrite E. change (Gave b :: repeat (Gave b) (length l)) with (repeat (Gave b) (S (length l))). apply nth_ext with (d := Nothing) (d' := Nothing); [now rewrite map_length, seq_length, repeat_length|]. intros i Hi. rewrite map_length, seq_length in Hi.
      rewrite (nth_indep _ _ (gives s' 0)) by (now rewrite map_length, seq_length). rewrite map_nth, seq_nth by exact Hi. rewrite G by lia. rewrite (nth_indep _ _ (Gave b)) by (now rewrite repeat_length). now rewrite nth_repeat.
    + split; [rewrite H1, app_length, repeat_length; lia|]. split; [intros i Hi; rewrite H1; subst s1; cbn [calls]; rewrite <- app_assoc; now apply nth_error_app1|]. split; [exists [b]; exact H2|rewrite H3; subst s1; cbn [opened]; lia].
  - destruct (Err (S (opened s)) (match knd s with Url => S (closed s) | _ => closed s end)) as (H1 & H2 & H3 & H4 & H5). split; [exact H1|]. split; [exact H2|]. split; [exact H3|]. split; [exact H4|]. rewrite H5. lia.
Qed.
(* Calls one after the other give errors up to the first complete answer and its content from then on; the source is opened as
   often as it answers, up to that. *)
Theorem C97_sequence : forall k l, fetches k -> let s := run (new_source k) (gets 0 l) in map (gives s) (seq 0 (length l)) = expected None l /\ opened s = opens l.
Proof. intros k l Hk. destruct (gets_unknown l (new_source k) Hk eq_refl) as (H1 & _ & _ & _ & H2). auto. Qed.
Print Assumptions C97_sequence.
Example C97_sequence_ex : map (gives (run (new_source Url) (gets 0 [Refused; Answered 200 [1] false; Answered 200 [1; 2] true; Refused]%Z))) [0; 1; 2; 3] = [Failed; Failed; Gave [1; 2]; Gave [1; 2]]%Z.
Proof. vm_compute. reflexivity. Qed.
(* The status of an HTTP response does not matter: the text of an error page is the content, for ever. *)
Theorem C97_status_refuted : forall status b l, let s := run (new_source Url) (gets 0 (Answered status b true :: l)) in map (gives s) (seq 0 (S (length l))) = repeat (Gave b) (S (length l)).
Proof.
  intros status b l. destruct (C97_sequence Url (Answered status b true :: l) (or_introl eq_refl)) as (H & _). cbn [length] in H. cbv zeta. rewrite H. cbn [expected repeat]. f_equal. clear. induction l; cbn; congruence.
Qed.
Print Assumptions C97_status_refuted.
(* Bodies of responses are closed; files never. *)
Theorem C97_bodies_closed : forall h, let s := run (new_source Url) h in closed s = opened s.
Proof. intros h s. pose proof (i_closed _ _ (inv_run Url h (or_introl eq_refl))) as H. subst s. rewrite run_kind in H. exact H. Qed.
Print Assumptions C97_bodies_closed.
Theorem C97_files_closed_refuted : forall l, let s := run (new_source (File true)) (gets 0 l) in closed s = 0 /\ opened s = opens l.
Proof.
  intros l s. pose proof (i_closed _ _ (inv_run (File true) (gets 0 l) (or_intror eq_refl))) as H. subst s. rewrite run_kind in H. split; [exact H|]. now apply C97_sequence; right.
Qed.
Print Assumptions C97_files_closed_refuted.
(* Two calls at once: the first can give what the second was delivered; and they can give different contents. *)
Theorem C97_race_refuted : forall x y b c, let asks := [Call; Call; Ask 0 (Answered x b true); Ask 1 (Answered y c true)] in
  let s := run (new_source Url) (asks ++ [Go 0; Go 1; Go 0; Go 1]) in let t := run (new_source Url) (asks ++ [Go 0; Go 0; Go 1; Go 1]) in
  gives s 0 = Gave c /\ gives s 1 = Gave c /\ gives t 0 = Gave b /\ gives t 1 = Gave c.
Proof. intros. cbn. auto. Qed.
Print Assumptions C97_race_refuted.
(* Get hands out the slice that it keeps: what one caller writes the next one reads. *)
Theorem C97_shared_refuted : forall status b i v, i < length b -> exists c, gives (run (new_source Url) (gets 0 [Answered status b true] ++ [Write 0 i v; Call])) 1 = Gave c /\ nth_error c i = Some v.
Proof.
  intros status b i v Hi. exists (put i v b). split; [reflexivity|]. clear status. revert i Hi. induction b as [|x b IH]; intros [|i] Hi; cbn in Hi; try lia; [reflexivity|]. cbn. apply IH. lia.
Qed.
Print Assumptions C97_shared_refuted.
(* A source of bytes gives them, if they are not nil: else it panics.  A file source without a name gives nil without an error if
   the empty name can be opened, opens it each time, and never keeps anything. *)
Theorem C97_bytes : forall b h, existsb is_write h = false -> (forall i, gives (run (new_bytes (Some b)) h) i = Nothing \/ gives (run (new_bytes (Some b)) h) i = Gave b) /\ gives (run (new_bytes (Some b)) [Call]) 0 = Gave b.
Proof.
  intros b h W. split; [|reflexivity].
  assert (G: let s := run (new_bytes (Some b)) h in heap s = [b] /\ cache s = Some 0 /\ forall p, In p (calls s) -> p = Finished (Ok (Some 0))).
  { induction h as [|e h IH] using rev_ind; [cbn; repeat split; intros ? []|]. rewrite existsb_app in W. apply orb_false_elim in W. destruct W as [W1 W2]. destruct (IH W1) as (H1 & H2 & H3). rewrite run_snoc. set (s := run _ h) in *. cbv zeta.
    assert (F: forall i p, nth_error (calls s) i = Some p -> p = Finished (Ok (Some 0))) by (intros i p Hp; apply H3; eapply nth_error_In, Hp).
    destruct e as [|i a|i|r i v]; cbn [step]; [| | |discriminate].
    - cbn [heap cache calls]. rewrite H2. repeat split; auto. intros p Hp. apply in_app_or in Hp. destruct Hp as [Hp|[<-|[]]]; auto.
    - destruct (nth_error (calls s) i) as [p|] eqn:E; [|auto]. rewrite (F i p E). auto.
    - destruct (nth_error (calls s) i) as [p|] eqn:E; [|auto]. rewrite (F i p E). auto. }
  destruct G as (H1 & _ & H3). intros i. unfold gives. destruct (nth_error _ i) as [p|] eqn:E; [|auto]. apply nth_error_In in E. rewrite (H3 p E), H1. now right.
Qed.
Print Assumptions C97_bytes.
Theorem C97_nil_bytes_refuted : forall a, gives (run (new_bytes None) [Call; Ask 0 a]) 0 = Panicked.
Proof. reflexivity. Qed.
Print Assumptions C97_nil_bytes_refuted.
Theorem C97_unnamed_refuted : forall status b ok n, let s := run (new_source (File false)) (gets 0 (repeat (Answered status b ok) n)) in
  map (gives s) (seq 0 n) = repeat Empty n /\ opened s = n /\ cache s = None.
Proof.
  intros status b ok n. set (a := Answered status b ok).
  assert (A: forall m s, knd s = File false -> cache s = None -> let s' := run s (gets (length (calls s)) (repeat a m)) in calls s' = calls s ++ repeat (Finished (Ok None)) m /\ opened s' = opened s + m /\ cache s' = None).
  { induction m as [|m IH]; intros s Hk Hc; cbn [repeat gets]; cbv zeta; [cbn; rewrite app_nil_r; auto|]. rewrite run_app.
    assert (run s (get_events (length (calls s)) a) = mkst (File false) (heap s) None (calls s ++ [Finished (Ok None)]) (S (opened s)) (closed s)) as ->.
    { unfold run, get_events. cbn [fold_left step]. cbn [calls cache]. rewrite Hc, nth_last. unfold ask. cbn [knd]. rewrite Hk. subst a. cbn [calls knd heap cache opened closed]. rewrite set_last, nth_last. unfold at_call. cbn [calls knd heap cache opened closed]. rewrite set_last, nth_last. reflexivity. }
    specialize (IH (mkst (File false) (heap s) None (calls s ++ [Finished (Ok None)]) (S (opened s)) (closed s)) eq_refl eq_refl). cbn [calls opened] in IH. rewrite app_length, Nat.add_1_r in IH. cbv zeta in IH. destruct IH as (H1 & H2 & H3). rewrite H1, <- app_assoc. cbn [app]. split; [reflexivity|]. split; [rewrite H2; lia|exact H3]. }
  destruct (A n (new_source (File false)) eq_refl eq_refl) as (H1 & H2 & H3). cbn [new_source calls length opened app] in *. cbv zeta. split; [|auto].
  apply nth_ext with (d := Nothing) (d' := Nothing); [now rewrite map_length, seq_length, repeat_length|]. intros i Hi. rewrite map_length, seq_length in Hi.
  set (s := run _ _) in *. rewrite (nth_indep _ _ (gives s 0)) by (now rewrite map_length, seq_length). rewrite map_nth, seq_nth by exact Hi. unfold gives. cbn [Nat.add]. rewrite H1, nth_error_repeat by exact Hi. rewrite (nth_indep _ _ Empty) by (now rewrite repeat_length). now rewrite nth_repeat.
Qed.
Print Assumptions C97_unnamed_refuted.
