(* C92: what the Bifrost client exposes. *)
From Coq Require Import String List Ascii Bool Arith ZArith Lia.
From Verif Require Import M_GoStr L_GoStr M_Regex S_Regex L_Regex M_BifrostClient.
From Verif Require M_EnvoyProps.
Import ListNotations.
Open Scope list_scope.

(* ---- the specification of an address: [port:]host:port ---- *)
Definition is_digit (c : ascii) : Prop := 48 <= nat_of_ascii c <= 57.
Definition number (s : gstr) : Prop := s <> [] /\ Forall is_digit s.
Definition line (s : gstr) : Prop := ~ In (ascii_of_nat 10) s.
Inductive address (s : gstr) : gstr -> gstr -> gstr -> Prop :=
| A_requested r h p : s = r ++ lit ":" ++ h ++ lit ":" ++ p -> number r -> line h -> number p -> address s r h p
| A_plain h p : s = h ++ lit ":" ++ p -> line h -> number p -> (forall r h' p', number r -> line h' -> number p' -> s <> r ++ lit ":" ++ h' ++ lit ":" ++ p') -> address s [] h p.

Lemma digit_iff c : digit c = true <-> is_digit c.
Proof. unfold digit, between, is_digit. rewrite andb_true_iff, !Nat.leb_le. lia. Qed.
Lemma digit_not_colon c : digit c = true -> c <> colon.
Proof. intros H ->. vm_compute in H. discriminate. Qed.
Definition nonempty (s : gstr) : bool := match s with [] => false | _ => true end.
Lemma number_iff s : nonempty s && forallb digit s = true <-> number s.
Proof.
  unfold number. rewrite andb_true_iff, forallb_forall, Forall_forall. split; intros [A B].
  - split; [destruct s; discriminate|]. intros x I. apply digit_iff. apply B. exact I.
  - split; [destruct s; [congruence|reflexivity]|]. intros x I. apply digit_iff. apply B. exact I.
Qed.
Lemma dot_iff c : dot c = true <-> c <> ascii_of_nat 10.
Proof.
  unfold dot. rewrite negb_true_iff, Nat.eqb_neq. split; intros H E; apply H; [rewrite E; reflexivity|]. rewrite <- (ascii_nat_embedding c), E. reflexivity.
Qed.
Lemma line_iff s : forallb dot s = true <-> line s.
Proof.
  unfold line. rewrite forallb_forall. split; intro H.
  - intro I. specialize (H _ I). apply dot_iff in H. congruence.
  - intros x I. apply dot_iff. intros ->. exact (H I).
Qed.

(* ---- the engine on this expression ---- *)
Fixpoint eat (s : gstr) : gstr * gstr := match s with a :: t => if digit a then let '(u, v) := eat t in (a :: u, v) else ([], s) | [] => ([], []) end.
Lemma taken_app (u pre : gstr) : taken pre (rev u ++ pre) = u.
Proof. unfold taken. rewrite app_length, Nat.add_sub, firstn_app, Nat.sub_diag, firstn_all, firstn_O, app_nil_r. apply rev_involutive. Qed.

(* \d*$ *)
Lemma digits_end {X} pre0 : forall post pre cs (k : gstr -> gstr -> caps -> option X), (forall p q c, q <> [] -> k p q c = None) ->
  rm (Star true digit) pre post cs (fun p q c => k p q ((4, taken pre0 p) :: c)) = if forallb digit post then k (rev post ++ pre) [] ((4, taken pre0 (rev post ++ pre)) :: cs) else None.
Proof.
  induction post as [|a t IH]; intros pre cs k Hk; [reflexivity|].
  specialize (IH (a :: pre) cs k Hk). cbn [rm] in IH |- *. cbn [forallb rev]. rewrite <- app_assoc. cbn [app].
  destruct (digit a); cbn [andb].
  - rewrite IH. destruct (forallb digit t); [|apply Hk; discriminate]. destruct (k _ _ _); [reflexivity|]. apply Hk. discriminate.
  - apply Hk. discriminate.
Qed.
Definition tail (s : gstr) : option gstr := match s with a :: p => if Ascii.eqb colon a && (nonempty p && forallb digit p) then Some p else None | [] => None end.
Lemma tail_rm pre post cs :
  rm (Seq (one colon) (Seq (Grp 4 (plus true digit)) Eol)) pre post cs final = match tail post with Some p => Some (rev (colon :: p) ++ pre, [], (4, p) :: cs) | None => None end.
Proof.
  destruct post as [|a post]; [reflexivity|]. cbn [rm one tail]. destruct (Ascii.eqb colon a) eqn:E; [|reflexivity]. apply Ascii.eqb_eq in E. subst a. cbn [andb].
  change (rm (plus true digit) (colon :: pre) post cs (fun p q c => rm Eol p q ((4, taken (colon :: pre) p) :: c) final) =
          match (if nonempty post && forallb digit post then Some post else None) with Some p => Some (rev (colon :: p) ++ pre, [], (4, p) :: cs) | None => None end).
  unfold plus. destruct post as [|d post]; [reflexivity|]. cbn [nonempty andb forallb].
  change (rm (Seq (Cls digit) (Star true digit)) (colon :: pre) (d :: post) cs (fun p q c => rm Eol p q ((4, taken (colon :: pre) p) :: c) final))
    with (if digit d then rm (Star true digit) (d :: colon :: pre) post cs (fun p q c => rm Eol p q ((4, taken (colon :: pre) p) :: c) final) else None).
  destruct (digit d); [|reflexivity]. cbn [andb].
  rewrite (digits_end (colon :: pre) post (d :: colon :: pre) cs (fun p q c => rm Eol p q c final)) by (intros p [|x q] c N; [congruence|reflexivity]).
  destruct (forallb digit post); [|reflexivity]. cbn [rm]. unfold final. f_equal. f_equal.
  - f_equal. cbn [rev]. rewrite <- !app_assoc. reflexivity.
  - f_equal. f_equal. replace (rev post ++ d :: colon :: pre) with (rev (d :: post) ++ colon :: pre) by (cbn [rev]; rewrite <- app_assoc; reflexivity). apply taken_app.
Qed.
Fixpoint host_port (s : gstr) : option (gstr * gstr) :=
  match s with
  | [] => None
  | a :: t => match (if dot a then host_port t else None) with Some (h, p) => Some (a :: h, p) | None => match tail s with Some p => Some ([], p) | None => None end end
  end.
Lemma host_rm pre0 : forall post pre cs,
  rm (Star true dot) pre post cs (fun p q c => rm (Seq (one colon) (Seq (Grp 4 (plus true digit)) Eol)) p q ((3, taken pre0 p) :: c) final) =
  match host_port post with Some (h, p) => Some (rev (h ++ colon :: p) ++ pre, [], (4, p) :: (3, taken pre0 (rev h ++ pre)) :: cs) | None => None end.
Proof.
  induction post as [|a t IH]; intros pre cs; [reflexivity|].
  change (rm (Star true dot) pre (a :: t) cs (fun p q c => rm (Seq (one colon) (Seq (Grp 4 (plus true digit)) Eol)) p q ((3, taken pre0 p) :: c) final)) with
    (match (if dot a then rm (Star true dot) (a :: pre) t cs (fun p q c => rm (Seq (one colon) (Seq (Grp 4 (plus true digit)) Eol)) p q ((3, taken pre0 p) :: c) final) else None) with
     | Some x => Some x | None => rm (Seq (one colon) (Seq (Grp 4 (plus true digit)) Eol)) pre (a :: t) ((3, taken pre0 pre) :: cs) final end).
  rewrite IH, tail_rm. cbn [host_port]. destruct (dot a).
  - destruct (host_port t) as [[h p]|].
    + f_equal. f_equal; [f_equal; cbn [app rev]; rewrite <- app_assoc; reflexivity|]. cbn [rev]. rewrite <- app_assoc. reflexivity.
    + destruct (tail (a :: t)); reflexivity.
  - destruct (tail (a :: t)); reflexivity.
Qed.
(* (\d+): *)
Definition prefix_of (s : gstr) : option (gstr * gstr) := match eat s with (d :: u, c :: v) => if Ascii.eqb colon c then Some (d :: u, v) else None | _ => None end.
Lemma eat_split s : let '(u, v) := eat s in s = u ++ v /\ forallb digit u = true /\ match v with c :: _ => digit c = false | [] => True end.
Proof.
  induction s as [|a t IH]; [repeat split|]. cbn [eat]. destruct (digit a) eqn:E; [|repeat split; exact E]. destruct (eat t) as [u v]. destruct IH as [-> [B C]]. cbn [app forallb]. rewrite E, B.
  repeat split. exact C.
Qed.
Lemma digits_colon {X} pre0 (k : gstr -> gstr -> caps -> option X) : forall post pre cs,
  rm (Star true digit) pre post cs (fun p q c => rm (one colon) p q ((2, taken pre0 p) :: c) k) =
  match eat post with (u, c :: v) => if Ascii.eqb colon c then k (rev (u ++ [colon]) ++ pre) v ((2, taken pre0 (rev u ++ pre)) :: cs) else None | _ => None end.
Proof.
  induction post as [|a t IH]; intros pre cs; [reflexivity|].
  change (rm (Star true digit) pre (a :: t) cs (fun p q c => rm (one colon) p q ((2, taken pre0 p) :: c) k)) with
    (match (if digit a then rm (Star true digit) (a :: pre) t cs (fun p q c => rm (one colon) p q ((2, taken pre0 p) :: c) k) else None) with
     | Some x => Some x | None => rm (one colon) pre (a :: t) ((2, taken pre0 pre) :: cs) k end).
  rewrite IH. cbn [eat]. destruct (digit a) eqn:E.
  - assert (N : rm (one colon) pre (a :: t) ((2, taken pre0 pre) :: cs) k = None).
    { cbn [rm one]. destruct (Ascii.eqb colon a) eqn:C; [apply Ascii.eqb_eq in C; subst a; discriminate|reflexivity]. }
    rewrite N. destruct (eat t) as [u [|c v]]; [reflexivity|]. destruct (Ascii.eqb colon c); [|reflexivity]. cbn [app rev]. rewrite <- !app_assoc. cbn [app]. destruct (k _ _ _); reflexivity.
  - cbn [rm one]. destruct (Ascii.eqb colon a) eqn:C; [|reflexivity]. apply Ascii.eqb_eq in C. subst a. reflexivity.
Qed.
Definition parse (s : gstr) : option (gstr * gstr * gstr) :=
  match (match prefix_of s with Some (r, rest) => match host_port rest with Some (h, p) => Some (r, h, p) | None => None end | None => None end) with
  | Some x => Some x
  | None => match host_port s with Some (h, p) => Some ([], h, p) | None => None end
  end.
Definition rest_rx : rx := Seq (Grp 3 (Star true dot)) (Seq (one colon) (Seq (Grp 4 (plus true digit)) Eol)).
Lemma rest_rm pre post cs : rm rest_rx pre post cs final = match host_port post with Some (h, p) => Some (rev (h ++ colon :: p) ++ pre, [], (4, p) :: (3, h) :: cs) | None => None end.
Proof.
  change (rm rest_rx pre post cs final) with (rm (Star true dot) pre post cs (fun p q c => rm (Seq (one colon) (Seq (Grp 4 (plus true digit)) Eol)) p q ((3, taken pre p) :: c) final)).
  rewrite host_rm. destruct (host_port post) as [[h p]|]; [|reflexivity]. rewrite taken_app. reflexivity.
Qed.
Lemma prefix_rm {X} (k : gstr -> gstr -> caps -> option X) s :
  rm (Grp 1 (Seq (Grp 2 (plus true digit)) (one colon))) [] s [] k =
  match prefix_of s with Some (r, rest) => k (rev (r ++ [colon])) rest [(1, r ++ [colon]); (2, r)] | None => None end.
Proof.
  destruct s as [|a t]; [reflexivity|]. unfold prefix_of.
  change (rm (Grp 1 (Seq (Grp 2 (plus true digit)) (one colon))) [] (a :: t) [] k) with
    (if digit a then rm (Star true digit) [a] t [] (fun p q c => rm (one colon) p q ((2, taken [] p) :: c) (fun p q c => k p q ((1, taken [] p) :: c))) else None).
  cbn [eat]. destruct (digit a); [|reflexivity]. rewrite (digits_colon [] (fun p q c => k p q ((1, taken [] p) :: c))). destruct (eat t) as [u [|c v]]; [reflexivity|].
  destruct (Ascii.eqb colon c); [|reflexivity].
  assert (T : forall w : gstr, taken [] (rev w ++ [a]) = a :: w).
  { intro w. replace (rev w ++ [a]) with (rev (a :: w) ++ []) by (rewrite app_nil_r; reflexivity). apply taken_app. }
  rewrite !T. reflexivity.
Qed.
Lemma rfind_bol r : forall post pre, pre <> [] -> rfind (Seq Bol r) pre post = None.
Proof. induction post as [|a t IH]; intros [|x pre] N; try congruence; [reflexivity|]. cbn [rfind rm]. apply IH. discriminate. Qed.
Lemma parse_addr_eq s : parse_addr s = parse s.
Proof.
  unfold parse_addr, addr_rx. rewrite rfind_eq.
  change (Seq Bol (Seq (opt (Grp 1 (Seq (Grp 2 (plus true digit)) (one colon)))) (Seq (Grp 3 (Star true dot)) (Seq (one colon) (Seq (Grp 4 (plus true digit)) Eol))))) with
    (Seq Bol (Seq (opt (Grp 1 (Seq (Grp 2 (plus true digit)) (one colon)))) rest_rx)).
  change (rm (Seq Bol (Seq (opt (Grp 1 (Seq (Grp 2 (plus true digit)) (one colon)))) rest_rx)) [] s [] final) with
    (match rm (Grp 1 (Seq (Grp 2 (plus true digit)) (one colon))) [] s [] (fun p q c => rm rest_rx p q c final) with Some x => Some x | None => rm rest_rx [] s [] final end).
  rewrite prefix_rm. unfold parse.
  assert (Z : (match (match prefix_of s with Some (r, rest) => rm rest_rx (rev (r ++ [colon])) rest [(1, r ++ [colon]); (2, r)] final | None => None end) with
    Some x => Some x | None => rm rest_rx [] s [] final end) =
    match (match prefix_of s with Some (r, rest) => match host_port rest with Some (h, p) => Some (r, h, p) | None => None end | None => None end) with
    | Some (r, h, p) => Some (rev (h ++ colon :: p) ++ rev (r ++ [colon]), [], [(4, p); (3, h); (1, r ++ [colon]); (2, r)])
    | None => match host_port s with Some (h, p) => Some (rev (h ++ colon :: p) ++ [], [], [(4, p); (3, h)]) | None => None end end).
  { rewrite (rest_rm [] s []). destruct (prefix_of s) as [[r rest]|]; [|destruct (host_port s) as [[h p]|]; reflexivity]. rewrite rest_rm. destruct (host_port rest) as [[h p]|]; [reflexivity|].
    destruct (host_port s) as [[h p]|]; reflexivity. }
  rewrite Z. clear Z.
  destruct (match prefix_of s with Some (r, rest) => match host_port rest with Some (h, p) => Some (r, h, p) | None => None end | None => None end) as [[[r h] p]|]; [reflexivity|].
  destruct (host_port s) as [[h p]|]; [reflexivity|]. destruct s as [|a t]; [reflexivity|]. rewrite rfind_bol by discriminate. reflexivity.
Qed.

(* ---- the engine finds what the specification says ---- *)
Lemma tail_iff s p : tail s = Some p <-> s = colon :: p /\ number p.
Proof.
  destruct s as [|a t]; cbn [tail]; [split; [discriminate|intros [E _]; discriminate]|]. destruct (Ascii.eqb colon a) eqn:E; cbn [andb].
  - apply Ascii.eqb_eq in E. subst a. destruct (nonempty t && forallb digit t) eqn:N.
    + apply number_iff in N. split; [intro H; injection H as <-; split; [reflexivity|exact N]|intros [H _]; injection H as <-; reflexivity].
    + split; [discriminate|]. intros [H K]. injection H as ->. apply number_iff in K. congruence.
  - apply Ascii.eqb_neq in E. split; [discriminate|]. intros [H _]. injection H as -> _. congruence.
Qed.
Lemma number_no_colon p : number p -> ~ In colon p.
Proof. intros [_ F] I. rewrite Forall_forall in F. specialize (F _ I). vm_compute in F. lia. Qed.
Lemma host_port_sound : forall s h p, host_port s = Some (h, p) -> s = h ++ colon :: p /\ line h /\ number p.
Proof.
  induction s as [|a t IH]; intros h p H; [discriminate|]. cbn [host_port] in H. destruct (dot a) eqn:D.
  - destruct (host_port t) as [[h' p']|] eqn:E.
    + injection H as <- <-. destruct (IH _ _ eq_refl) as [-> [L N]]. split; [reflexivity|]. split; [|exact N]. intros [I|I]; [|exact (L I)]. apply dot_iff in D. congruence.
    + destruct (tail (a :: t)) as [q|] eqn:T; [|discriminate]. injection H as <- <-. apply tail_iff in T. destruct T as [T N]. split; [exact T|]. split; [intros []|exact N].
  - destruct (tail (a :: t)) as [q|] eqn:T; [|discriminate]. injection H as <- <-. apply tail_iff in T. destruct T as [T N]. split; [exact T|]. split; [intros []|exact N].
Qed.
Lemma host_port_complete : forall h p, line h -> number p -> host_port (h ++ colon :: p) = Some (h, p).
Proof.
  intros h p L N. induction h as [|a h IH].
  - cbn [app host_port]. change (dot colon) with true. cbn iota.
    destruct (host_port p) as [[h' p']|] eqn:E.
    + apply host_port_sound in E. destruct E as [E _]. destruct (number_no_colon p N). rewrite E. apply in_or_app. right. left. reflexivity.
    + assert (T : tail (colon :: p) = Some p) by (apply tail_iff; split; [reflexivity|exact N]). rewrite T. reflexivity.
  - cbn [app host_port]. assert (D : dot a = true) by (apply dot_iff; intros ->; apply L; left; reflexivity). rewrite D, IH; [reflexivity|]. intro I. apply L. right. exact I.
Qed.
Lemma prefix_sound s r rest : prefix_of s = Some (r, rest) -> s = r ++ colon :: rest /\ number r.
Proof.
  unfold prefix_of. pose proof (eat_split s) as E. destruct (eat s) as [[|d u] [|c v]]; try discriminate. destruct (Ascii.eqb colon c) eqn:C; [|discriminate].
  apply Ascii.eqb_eq in C. subst c. intro H. injection H as <- <-. destruct E as [-> [F _]]. split; [reflexivity|]. apply number_iff. cbn [nonempty andb]. exact F.
Qed.
Lemma prefix_complete r rest : number r -> prefix_of (r ++ colon :: rest) = Some (r, rest).
Proof.
  intros N. unfold prefix_of. assert (E : eat (r ++ colon :: rest) = (r, colon :: rest)).
  { destruct N as [_ F]. induction r as [|a r IH]; [reflexivity|]. inversion F; subst. cbn [app eat]. assert (D : digit a = true) by (apply digit_iff; assumption). rewrite D, IH by assumption. reflexivity. }
  rewrite E. destruct r as [|d u]; [destruct N; congruence|]. reflexivity.
Qed.

(* The client reads an address exactly as the specification says; what is no address is skipped. *)
Theorem C92_parse : forall s r h p, parse_addr s = Some (r, h, p) <-> address s r h p.
Proof.
  intros s r h p. rewrite parse_addr_eq. unfold parse. split.
  - destruct (prefix_of s) as [[r' rest]|] eqn:P.
    + apply prefix_sound in P. destruct P as [Es Nr]. destruct (host_port rest) as [[h' p']|] eqn:Q.
      * apply host_port_sound in Q. destruct Q as [E [L N]]. intro X. injection X as <- <- <-. apply A_requested; try assumption. subst. reflexivity.
      * destruct (host_port s) as [[h' p']|] eqn:Q2; [|discriminate]. apply host_port_sound in Q2. destruct Q2 as [E [L N]]. intro X. injection X as <- <- <-.
        apply A_plain; try assumption. intros r2 h2 p2 N2 L2 N2' E2. change (lit ":") with [colon] in E2. cbn [app] in E2.
        pose proof (prefix_complete r2 (h2 ++ colon :: p2) N2) as A. pose proof (prefix_complete r' rest Nr) as B. rewrite <- E2, <- Es in *. assert (Z : rest = h2 ++ colon :: p2) by congruence.
        rewrite Z, host_port_complete in Q by assumption. discriminate.
    + destruct (host_port s) as [[h' p']|] eqn:Q2; [|discriminate]. apply host_port_sound in Q2. destruct Q2 as [E [L N]]. intro X. injection X as <- <- <-.
      apply A_plain; try assumption. intros r2 h2 p2 N2 L2 N2' E2. change (lit ":") with [colon] in E2. cbn [app] in E2. rewrite E2, prefix_complete in P by assumption. discriminate.
  - intro A. destruct A as [r h p E Nr L N|h p E L N X]; change (lit ":") with [colon] in E; cbn [app] in E.
    + rewrite E, prefix_complete by assumption. rewrite host_port_complete by assumption. reflexivity.
    + destruct (prefix_of s) as [[r rest]|] eqn:P.
      * apply prefix_sound in P. destruct P as [Es Nr]. destruct (host_port rest) as [[h' p']|] eqn:Q.
        -- apply host_port_sound in Q. destruct Q as [E' [L' N']]. destruct (X r h' p' Nr L' N'). subst rest. exact Es.
        -- rewrite E, host_port_complete by assumption. reflexivity.
      * rewrite E, host_port_complete by assumption. reflexivity.
Qed.
Print Assumptions C92_parse.
Theorem C92_one_reading : forall s r h p r' h' p', address s r h p -> address s r' h' p' -> r = r' /\ h = h' /\ p = p'.
Proof. intros s r h p r' h' p' A B. apply C92_parse in A. apply C92_parse in B. rewrite A in B. injection B as -> -> ->. repeat split. Qed.
Print Assumptions C92_one_reading.
(* An address with a requested port is read as meant, whatever the host. *)
Theorem C92_requested : forall r h p, number r -> line h -> number p -> parse_addr (r ++ lit ":" ++ h ++ lit ":" ++ p) = Some (r, h, p).
Proof. intros r h p R L N. apply C92_parse. apply A_requested; [reflexivity|assumption|assumption|assumption]. Qed.
Print Assumptions C92_requested.
(* One without is read as meant, unless its host begins with a number and a colon. *)
Theorem C92_plain : forall h p, line h -> number p -> (forall r x, number r -> h <> r ++ lit ":" ++ x) -> parse_addr (h ++ lit ":" ++ p) = Some ([], h, p).
Proof.
  intros h p L N X. apply C92_parse. apply A_plain; [reflexivity|assumption|assumption|]. intros r h' p' R L' N' E. change (lit ":") with [colon] in *. cbn [app] in *.
  apply (X r h' R). cbn [app]. assert (Z : h ++ colon :: p = (r ++ colon :: h') ++ colon :: p') by (rewrite <- app_assoc; exact E).
  pose proof (host_port_complete h p L N) as A. rewrite Z in A.
  assert (L2 : line (r ++ colon :: h')). { intro I. apply in_app_or in I. destruct I as [I|[I|I]]; [destruct R as [_ F]; rewrite Forall_forall in F; specialize (F _ I); vm_compute in F; lia|vm_compute in I; discriminate|exact (L' I)]. }
  rewrite host_port_complete in A by assumption. congruence.
Qed.
Print Assumptions C92_plain.
(* Refuted: every address of a host is read as meant.  An IPv6 address without brackets is taken apart: here 2001:db8::1, port 80. *)
Theorem C92_ipv6_refuted : parse_addr (lit "2001:db8::1:80") = Some (lit "2001", lit "db8::1", lit "80").
Proof. vm_compute. reflexivity. Qed.
Print Assumptions C92_ipv6_refuted.

(* ---- ports ---- *)
Definition value_of (s : gstr) (n : Z) : Prop := n = fold_left (fun acc c => acc * 10 + (Z.of_nat (nat_of_ascii c) - 48))%Z s 0%Z.
Lemma digits_number s : Forall is_digit s -> forall acc, M_EnvoyProps.digits s acc = Some (fold_left (fun acc c => acc * 10 + (Z.of_nat (nat_of_ascii c) - 48))%Z s acc).
Proof.
  intro F. induction F as [|c r D F IH]; intro acc; [reflexivity|]. cbn [M_EnvoyProps.digits fold_left]. unfold is_digit in D.
  destruct ((48 <=? Z.of_nat (nat_of_ascii c))%Z && (Z.of_nat (nat_of_ascii c) <=? 57)%Z) eqn:T; [apply IH|].
  apply andb_false_iff in T. destruct T as [T|T]; apply Z.leb_gt in T; lia.
Qed.
(* The port asked for is the number given, or, if that is no int, any port. *)
Theorem C92_port : forall s n, number s -> value_of s n -> port_of s = if (n <=? 2 ^ 63 - 1)%Z then n else 0%Z.
Proof.
  intros s n [NE F] V. unfold value_of in V. unfold port_of, M_EnvoyProps.atoi. destruct s as [|c r]; [congruence|]. inversion F as [|x l D F']; subst.
  assert (C1 : Ascii.eqb c "-" = false) by (destruct (Ascii.eqb c "-") eqn:T; [apply Ascii.eqb_eq in T; subst c; vm_compute in D; lia|reflexivity]).
  assert (C2 : Ascii.eqb c "+" = false) by (destruct (Ascii.eqb c "+") eqn:T; [apply Ascii.eqb_eq in T; subst c; vm_compute in D; lia|reflexivity]).
  rewrite C1, C2. rewrite (digits_number (c :: r) F 0%Z). fold M_EnvoyProps.max_int. destruct (_ <=? M_EnvoyProps.max_int)%Z; reflexivity.
Qed.
Print Assumptions C92_port.
Theorem C92_no_port : port_of [] = 0%Z.
Proof. reflexivity. Qed.
Print Assumptions C92_no_port.
(* Refuted: a port that cannot be had is an error. *)
Theorem C92_port_error_refuted : exists resolves listens addrs l, command resolves listens addrs = (l, true) /\ addrs = [lit "99999999999999999999:localhost:80"] /\
  l = [mkpx 0 80 1 (lit "localhost:80")].
Proof. exists (fun _ => true), (fun _ => true), [lit "99999999999999999999:localhost:80"]. eexists. split; [vm_compute; reflexivity|]. split; reflexivity. Qed.
Print Assumptions C92_port_error_refuted.

(* ---- all addresses ---- *)
(* The proxies that are started are those of the addresses, in their order, up to the first that cannot be resolved or listened for; what is no address
   is left out.  number k is the place of the address in the list. *)
Inductive exposes (resolves : gstr -> bool) (listens : nat -> bool) : nat -> list gstr -> list proxy -> bool -> Prop :=
| E_end k : exposes resolves listens k [] [] true
| E_skip k a r l ok : (forall x h p, ~ address a x h p) -> exposes resolves listens (S k) r l ok -> exposes resolves listens k (a :: r) l ok
| E_fail k a r x h p : address a x h p -> (resolves (h ++ lit ":" ++ p) = false \/ listens k = false) -> exposes resolves listens k (a :: r) [] false
| E_one k a r x h p l ok : address a x h p -> resolves (h ++ lit ":" ++ p) = true -> listens k = true -> exposes resolves listens (S k) r l ok ->
    exposes resolves listens k (a :: r) (mkpx (port_of x) (port_of p) k (h ++ lit ":" ++ p) :: l) ok.
Ltac same A := match type of A with address ?a ?x ?h ?p =>
  first [ match goal with N : forall x h p, ~ address a x h p |- _ => destruct (N _ _ _ A) end
        | match goal with B : address a ?u ?v ?w |- _ => assert_fails (constr_eq A B); let E := fresh in pose proof (C92_one_reading _ _ _ _ _ _ _ A B) as E; destruct E as [? [? ?]]; clear B; subst u v w end ] end.
Theorem C92_exposes : forall resolves listens addrs l ok,
  command resolves listens addrs = (l, ok) <-> (addrs = [] /\ l = [] /\ ok = false) \/ (addrs <> [] /\ exposes resolves listens 1 addrs l ok).
Proof.
  intros resolves listens addrs l ok.
  assert (X : forall addrs k l ok, run_from resolves listens k addrs = (l, ok) <-> exposes resolves listens k addrs l ok).
  { clear. induction addrs as [|a r IH]; intros k l ok; cbn [run_from].
    - split; [intro H; injection H as <- <-; constructor|intro H; inversion H; subst; reflexivity].
    - destruct (parse_addr a) as [[[x h] p]|] eqn:P.
      + pose proof (proj1 (C92_parse a x h p) P) as A. change (h ++ colon :: p) with (h ++ lit ":" ++ p). destruct (resolves (h ++ lit ":" ++ p)) eqn:R; [destruct (listens k) eqn:Li|].
        * destruct (run_from resolves listens (S k) r) as [l' ok'] eqn:Q. apply IH in Q. split.
          -- intro H. injection H as <- <-. eapply E_one; eassumption.
          -- intro H. inversion H; subst; same A; try congruence.
             ++ match goal with D : _ \/ _ |- _ => destruct D; congruence end.
             ++ match goal with E : exposes _ _ (S k) r _ _ |- _ => apply IH in E; apply IH in Q; congruence end.
        * split; [intro H; injection H as <- <-; eapply E_fail; [exact A|right; exact Li]|]. intro H. inversion H; subst; same A; congruence.
        * split; [intro H; injection H as <- <-; eapply E_fail; [exact A|left; exact R]|]. intro H. inversion H; subst; same A; congruence.
      + assert (NA : forall x h p, ~ address a x h p) by (intros x h p A; apply C92_parse in A; congruence). rewrite IH. split; [intro H; apply E_skip; assumption|].
        intro H. inversion H; subst; [assumption| |]; match goal with N : address a _ _ _ |- _ => destruct (NA _ _ _ N) end. }
  destruct addrs as [|a r]; cbn [command].
  - split; [intro H; injection H as <- <-; left; split; [reflexivity|split; reflexivity]|]. intros [[_ [-> ->]]|[N _]]; [reflexivity|congruence].
  - unfold run_proxies. rewrite X. split; [intro H; right; split; [discriminate|exact H]|]. intros [[N _]|[_ H]]; [discriminate|exact H].
Qed.
Print Assumptions C92_exposes.
(* Refuted: the command fails if nothing is exposed.  It ends at once and reports success if no address can be read. *)
Theorem C92_nothing_refuted : forall resolves listens addrs, addrs <> [] -> (forall a, In a addrs -> forall x h p, ~ address a x h p) -> command resolves listens addrs = ([], true).
Proof.
  intros resolves listens addrs NE H. apply C92_exposes. right. split; [exact NE|]. clear NE. generalize 1. induction addrs as [|a r IH]; intro k; [constructor|].
  apply E_skip; [apply H; left; reflexivity|]. apply IH. intros b I. apply H. right. exact I.
Qed.
Print Assumptions C92_nothing_refuted.

(* ---- the loop of a proxy ---- *)
(* Every connection that is accepted is proxied or closed, in order, and the loop ends exactly when the listener is stopped. *)
Theorem C92_loop : forall l, snd (loop l) = existsb (fun a => match a with AErr true => true | _ => false end) l /\
  (snd (loop l) = false -> fst (loop l) = concat (map (fun a => match a with AConn c true => [Proxied c] | AConn c false => [Closed c] | AErr _ => [] end) l)).
Proof.
  induction l as [|[c d|[]] r [A B]]; cbn [loop existsb map concat].
  - split; reflexivity.
  - destruct (loop r) as [e b]. cbn [fst snd] in *. split; [exact A|]. intro H. rewrite (B H). destruct d; reflexivity.
  - split; [reflexivity|discriminate].
  - split; [exact A|exact B].
Qed.
Print Assumptions C92_loop.
Theorem C92_after_stop : forall l r, loop (l ++ AErr true :: r) = loop (l ++ [AErr true]).
Proof. induction l as [|[c d|[]] l IH]; intro r; cbn [app loop]; [reflexivity|rewrite IH; reflexivity|reflexivity|apply IH]. Qed.
Print Assumptions C92_after_stop.

Theorem C92_example :
  command (fun _ => true) (fun _ => true) [lit "8080:127.0.0.1:80"; lit "nonsense"; lit "[::1]:443"] =
    ([mkpx 8080 80 1 (lit "127.0.0.1:80"); mkpx 0 443 3 (lit "[::1]:443")], true) /\
  command (fun _ => true) (fun k => Nat.eqb k 1) [lit "8080:127.0.0.1:80"; lit "localhost:81"; lit "localhost:82"] = ([mkpx 8080 80 1 (lit "127.0.0.1:80")], false) /\
  loop [AConn 1 true; AErr false; AConn 2 false; AErr true; AConn 3 true] = ([Proxied 1; Closed 2], true).
Proof. split; [vm_compute; reflexivity|]. split; [vm_compute; reflexivity|reflexivity]. Qed.
Print Assumptions C92_example.
