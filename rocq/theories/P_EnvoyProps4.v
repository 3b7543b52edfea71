(* C80, continued: attributes that filters set; addresses and numbers. *)
From Coq Require Import String List Ascii Bool Arith NArith ZArith Lia.
From Verif Require Import M_GoStr L_GoStr M_Dotn P_Dotn M_WasmMap P_WasmMap M_EnvoyProps P_EnvoyProps P_EnvoyProps2 P_EnvoyProps3.
Import ListNotations.
Open Scope list_scope.

Lemma set_text : forall m p v, set_any m p (VStr v) = set_scalar m p (VStr v). Proof. reflexivity. Qed.
(* an attribute with a name of one part that a filter sets is what filters read *)
Theorem C80_set_one : forall pi s k v, name k ->
  reads pi (set_property s k v) [k] v /\ forall k', name k' -> k' <> k -> get_property pi (set_property s k v) k' = get_property pi s k'.
Proof.
  intros pi s k v Hk. assert (E: s_own (set_property s k v) = dput (s_own s) k (VStr v)).
  { unfold set_property, sset, with_own, dotn_set. cbn [s_own]. rewrite gsplit_nosep by (intros Hd; destruct Hk as [_ Hx]; now apply Hx in Hd). cbn [set_any set_scalar]. now rewrite name_plain. }
  assert (N: forall x, name x -> forall n, In n [x] -> name n) by (intros x Hx n [<-|[]]; exact Hx). split.
  - unfold reads. rewrite get_property_path; [|discriminate|apply N; exact Hk]. rewrite E. cbn [get_loop]. rewrite name_plain, dget_put_same by exact Hk. reflexivity.
  - intros k' Hk' Hne. change k' with (gjoin NUL [k']). rewrite !get_property_path; try discriminate; try (apply N; exact Hk'). rewrite E. cbn [get_loop]. rewrite name_plain, dget_put_other by assumption. reflexivity.
Qed.
Print Assumptions C80_set_one.
(* a path of several parts, written as filters write it, goes somewhere else: what is read under it does not change *)
Theorem C80_set_path_refuted : forall pi s a b v, name a -> name b ->
  get_property pi (set_property s (gjoin NUL [a; b]) v) (gjoin NUL [a; b]) = get_property pi s (gjoin NUL [a; b]).
Proof.
  intros pi s a b v Ha Hb. assert (N: forall n, In n [a; b] -> name n) by (intros n [<-|[<-|[]]]; assumption).
  rewrite !get_property_path; try discriminate; try exact N.
  assert (E: s_own (set_property s (gjoin NUL [a; b]) v) = dput (s_own s) (a ++ DOT :: b) (VStr v)).
  { unfold set_property, sset, with_own, dotn_set. cbn [s_own]. rewrite gsplit_nosep.
    - cbn [set_any set_scalar]. f_equal. change (restore (gjoin NUL [a; b])) with (nul_to_dot (gjoin NUL [a; b])). rewrite nul_to_dot_join by exact N. reflexivity.
    - cbn [gjoin]. intros Hi. apply in_app_or in Hi. destruct Hi as [Hi|[Hi|Hi]]; [destruct Ha as [_ H]; now apply H in Hi|discriminate|destruct Hb as [_ H]; now apply H in Hi]. }
  rewrite E. cbn [get_loop]. rewrite name_plain by exact Ha. rewrite dget_put_other; [reflexivity|]. intros X. assert (Hd: In DOT a) by (rewrite X; apply in_or_app; right; now left). destruct Ha as [_ H]. now apply H in Hd.
Qed.
Print Assumptions C80_set_path_refuted.
(* written with dots it is found *)
Theorem C80_set_dotted : forall pi s a b v, name a -> name b -> group s a -> reads pi (set_property s (a ++ DOT :: b) v) [a; b] v.
Proof.
  intros pi s a b v Ha Hb Hg. apply (reads_eq pi _ _ _ (VStr v)); [exact Ha|exact Hb| |reflexivity]. unfold set_property. rewrite sset2; [|exact Ha|exact Hb|sc]. destruct (set2 (s_own s) a b (VStr v) Ha Hb ltac:(sc) Hg) as (V & _). unfold do_asg. cbn [fst snd]. rewrite V, !geqb_refl. reflexivity.
Qed.
Print Assumptions C80_set_dotted.
(* a filter that puts a text where a group belongs keeps the attributes of the group from being found *)
Theorem C80_group_overwritten_refuted : exists s c, forall pi, let s' := set_connection c (set_property s (lit "upstream") (lit "x")) in
  s_outbound s = true /\ get_property pi s' (gjoin NUL (at_ "upstream" "mtls")) = NotFound /\ reads pi s' [lit "mtls"] ["000"%char].
Proof. exists (new_stream true 2 (fun _ => GNone)), (mkconn [] [] None None None 0). intros pi. vm_compute. auto. Qed.
Print Assumptions C80_group_overwritten_refuted.

(* ---------- addresses ---------- *)
Lemma cut_last_app : forall c a b, ~ In c b -> cut_last c (a ++ c :: b) = Some (a, b).
Proof.
  intros c a b Hb. assert (N: cut_last c b = None).
  { induction b as [|x b IH]; [reflexivity|]. cbn. rewrite IH by (intros H; apply Hb; now right). destruct (Ascii.eqb_spec c x) as [->|]; [destruct Hb; now left|reflexivity]. }
  induction a as [|x a IH]; cbn; [rewrite N, Ascii.eqb_refl; reflexivity|]. now rewrite IH.
Qed.
Lemma cut_first_app : forall c a b, ~ In c a -> cut_first c (a ++ c :: b) = Some (a, b).
Proof.
  intros c a b. induction a as [|x a IH]; intros Ha; cbn; [now rewrite Ascii.eqb_refl|]. destruct (Ascii.eqb_spec c x) as [->|]; [destruct Ha; now left|]. rewrite IH by (intros H; apply Ha; now right). reflexivity.
Qed.
Lemma has_in : forall c s, has c s = false <-> ~ In c s.
Proof.
  intros c s. unfold has. split.
  - intros H Hi. assert (E: existsb (Ascii.eqb c) s = true) by (apply existsb_exists; exists c; split; [exact Hi|apply Ascii.eqb_refl]). rewrite E in H. discriminate.
  - intros H. destruct (existsb (Ascii.eqb c) s) eqn:E; [|reflexivity]. apply existsb_exists in E. destruct E as (x & Hx & Ex). apply Ascii.eqb_eq in Ex. subst. contradiction.
Qed.
(* the texts of addresses: host:port and [host]:port *)
Definition no_sign (s : gstr) : Prop := ~ In ":"%char s /\ ~ In "["%char s /\ ~ In "]"%char s.
Theorem C80_addresses : forall h p, no_sign p ->
  (no_sign h -> split_host_port (h ++ lit ":" ++ p) = Some (h, p)) /\
  (~ In "["%char h -> ~ In "]"%char h -> split_host_port (lit "[" ++ h ++ lit "]:" ++ p) = Some (h, p)).
Proof.
  intros h p (P1 & P2 & P3). split.
  - intros (H1 & H2 & H3). unfold split_host_port. change (lit ":" ++ p) with (":"%char :: p). rewrite cut_last_app by exact P1.
    assert (B: forall c, c <> ":"%char -> ~ In c h -> ~ In c p -> has c (h ++ ":"%char :: p) = false) by (intros c Hc Hh Hp; apply has_in; intros Hi; apply in_app_or in Hi; destruct Hi as [Hi|[Hi|Hi]]; [contradiction|symmetry in Hi; contradiction|contradiction]).
    rewrite (B "["%char), (B "]"%char) by (try discriminate; assumption). rewrite (proj2 (has_in ":"%char h)) by exact H1.
    destruct h as [|x h]; cbn [app]; [reflexivity|]. destruct (Ascii.eqb_spec x "["%char) as [->|]; [destruct H2; now left|reflexivity].
  - intros H2 H3. unfold split_host_port. change (lit "[" ++ h ++ lit "]:" ++ p) with ("["%char :: h ++ "]"%char :: ":"%char :: p).
    replace ("["%char :: h ++ "]"%char :: ":"%char :: p) with (("["%char :: h ++ ["]"%char]) ++ ":"%char :: p) at 1 by (cbn [app]; now rewrite <- app_assoc). rewrite cut_last_app by exact P1.
    rewrite Ascii.eqb_refl. rewrite cut_first_app by exact H3. rewrite Ascii.eqb_refl, geqb_refl. cbn [andb].
    rewrite (proj2 (has_in "["%char (h ++ "]"%char :: ":"%char :: p))); [|intros Hi; apply in_app_or in Hi; destruct Hi as [Hi|[Hi|[Hi|Hi]]]; [contradiction|discriminate|discriminate|contradiction]].
    rewrite (proj2 (has_in "]"%char (":"%char :: p))); [reflexivity|]. intros [Hi|Hi]; [discriminate|contradiction].
Qed.
Print Assumptions C80_addresses.
Lemma cut_last_spec : forall c s, match cut_last c s with Some (u, v) => s = u ++ c :: v /\ ~ In c v | None => ~ In c s end.
Proof.
  intros c s. induction s as [|x s IH]; cbn [cut_last]; [intros []|]. destruct (cut_last c s) as [[u v]|].
  - destruct IH as [-> H]. split; [reflexivity|exact H].
  - destruct (Ascii.eqb_spec c x) as [->|H]; [split; [reflexivity|exact IH]|]. intros [E|E]; [symmetry in E; contradiction|contradiction].
Qed.
(* a text without a port, or with bare colons in the host, is not an address: then no address attribute is set *)
Theorem C80_no_address : forall s, ~ In ":"%char s \/ (exists a b c, s = a ++ lit ":" ++ b ++ lit ":" ++ c /\ ~ In "["%char s) -> split_host_port s = None.
Proof.
  intros s H. unfold split_host_port. pose proof (cut_last_spec ":"%char s) as C. destruct (cut_last ":"%char s) as [[u v]|]; [|reflexivity]. destruct C as [Es Hv]. destruct H as [H|(a & b & c & E & Hb)].
  - destruct H. rewrite Es. apply in_or_app. right. now left.
  - assert (Hu: In ":"%char u).
    { apply (count_occ_In ascii_dec). pose proof (f_equal (fun l => count_occ ascii_dec l ":"%char) Es) as K. cbv beta in K. rewrite E in K. change (lit ":" ++ b ++ lit ":" ++ c) with (":"%char :: b ++ ":"%char :: c) in K. rewrite !count_occ_app in K. rewrite !(count_occ_cons_eq ascii_dec _ (eq_refl ":"%char)) in K. rewrite count_occ_app, !(count_occ_cons_eq ascii_dec _ (eq_refl ":"%char)) in K.
      apply (count_occ_not_In ascii_dec) in Hv. rewrite Hv in K. lia. }
    assert (Hh: has ":"%char u = true) by (destruct (has ":"%char u) eqn:X; [reflexivity|]; apply has_in in X; contradiction). rewrite Hh.
    destruct s as [|x s]; [reflexivity|]. destruct (Ascii.eqb_spec x "["%char) as [->|]; [destruct Hb; now left|reflexivity].
Qed.
Print Assumptions C80_no_address.
(* numbers: decimal digits are the number they denote, up to the largest int *)
Definition digit_of (d : nat) : ascii := ascii_of_nat (48 + d).
Definition value_of (ds : list nat) : Z := fold_left (fun n d => (n * 10 + Z.of_nat d)%Z) ds 0%Z.
Theorem C80_ports : forall ds, ds <> [] -> (forall d, In d ds -> d < 10) -> (value_of ds <= max_int)%Z -> atoi (map digit_of ds) = (value_of ds, false).
Proof.
  intros ds Hn Hd Hm. assert (D: forall ds acc, (forall d, In d ds -> d < 10) -> digits (map digit_of ds) acc = Some (fold_left (fun n d => (n * 10 + Z.of_nat d)%Z) ds acc)).
  { clear. induction ds as [|d ds IH]; intros acc H; [reflexivity|]. cbn [map digits fold_left]. assert (Hd: d < 10) by (apply H; now left). unfold digit_of. rewrite nat_ascii_embedding by lia. rewrite (proj2 (Z.leb_le 48 _)) by lia. rewrite (proj2 (Z.leb_le _ 57)) by lia. cbn [andb]. replace (acc * 10 + (Z.of_nat (48 + d) - 48))%Z with (acc * 10 + Z.of_nat d)%Z by lia. apply IH. intros x Hx. apply H. now right. }
  unfold atoi. destruct ds as [|d ds]; [congruence|]. assert (Hd0: d < 10) by (apply Hd; now left).
  assert (S: forall c, nat_of_ascii c < 48 -> Ascii.eqb (digit_of d) c = false).
  { intros c Hc. apply Ascii.eqb_neq. intros E. apply (f_equal nat_of_ascii) in E. unfold digit_of in E. rewrite nat_ascii_embedding in E by lia. lia. }
  cbn [map]. rewrite (S "-"%char), (S "+"%char) by (vm_compute; lia). change (digit_of d :: map digit_of ds) with (map digit_of (d :: ds)). rewrite (D (d :: ds) 0%Z Hd). fold (value_of (d :: ds)). rewrite (proj2 (Z.leb_le _ _) Hm). reflexivity.
Qed.
Print Assumptions C80_ports.

(* an inbound mutual TLS request *)
Definition ex_conn : conn := mkconn (lit "10.0.0.7:4711") (lit "[::1]:8080") (Some (mkcert (lit "CN=a") [lit "spiffe://td/ns/n/sa/a"] [] (lit "ab12"))) (Some (mkcert [] [lit "spiffe://td/ns/n/sa/b"] [] [])) (Some (lit "outbound_.80_._.b", 772%Z, lit "h2")) 5.
Definition ex_req : req := mkreq (lit "/p?x=1") (lit "/p") (lit "x=1") [] (lit "b") (lit "GET") (lit "HTTP/1.1") [(lit "Content-Length", [lit "12"]); (lit "X-Request-Id", [lit "r"])] [] (Some ex_conn).
Example C80_case : let r := before_request noint (fun a b c d => a ++ lit ";" ++ b ++ lit ";" ++ c ++ lit ";" ++ gjoin ";"%char d) 9 ex_req (new_stream false 1 (fun _ => GNone)) in
  reads noint (snd r) (at_ "source" "address") (lit "10.0.0.7") /\ reads noint (snd r) (at_ "source" "port") (le64 4711) /\ reads noint (snd r) (at_ "destination" "address") (lit "::1") /\
  reads noint (snd r) (at_ "connection" "mtls") ["001"%char] /\ reads noint (snd r) (at_ "request" "size") (le64 0) /\
  values (q_hdr (fst r)) (lit "X-Forwarded-Client-Cert") = [lit "spiffe://td/ns/n/sa/b;ab12;spiffe://td/ns/n/sa/a;"].
Proof. vm_compute. repeat split. Qed.
