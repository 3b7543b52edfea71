(* C77: when each tag is taken from a name, and the name of a cluster. *)
From Coq Require Import String List Ascii Bool Arith Lia.
From Verif Require Import M_GoStr L_GoStr M_Regex S_Regex L_Regex L_Lang M_StatTags P_StatTags.
Import ListNotations.
Open Scope list_scope.

(* --- specification: names from which a tag is taken --- *)
Definition line (u : gstr) : Prop := ~ In nl u.
Definition has_label (k : gstr) (s : gstr) : Prop := exists a v b, s = a ++ k ++ lit "=.=" ++ v ++ lit ";.;" ++ b /\ line v.
Definition is_cluster (s : gstr) : Prop := exists n b, s = lit "cluster." ++ n ++ lit "." ++ b /\ n <> [] /\ line n.
Definition is_word (u : gstr) : Prop := u <> [] /\ Forall (fun a => word a = true) u.
Definition is_prefixed (p : string) (s : gstr) : Prop := exists n w, s = lit p ++ n ++ lit "." ++ w /\ line n /\ is_word w.
Definition has_code (s : gstr) : Prop :=
  (exists a v b, s = a ++ lit "response_code=.=" ++ v ++ lit ";.;" ++ b /\ v <> [] /\ line v) \/ (exists a, s = a ++ lit "_rq_.ddd").
Definition has_class (s : gstr) : Prop := exists a c, s = a ++ lit "_rq_" ++ [c] ++ lit "xx" /\ digit c = true.
Definition is_listener (s : gstr) : Prop := exists n b, s = lit "listener." ++ n ++ lit "." ++ b /\
  ((forall c, In c n -> digit c = true \/ In c (lit "_.")) \/ (forall c, In c n -> digit c = true \/ In c (lit "_[]aAbBcCdDeEfF"))).
Definition is_mongo (s : gstr) : Prop := exists n k b, s = lit "mongo." ++ n ++ lit "." ++ k ++ b /\ n <> [] /\ line n /\ line b /\
  In k (map lit ["collection"; "cmd"; "cx_"; "op_"; "delays_"; "decoding_"]%string).
Definition has_named (p e : string) (s : gstr) : Prop := exists a v b, s = a ++ lit p ++ v ++ lit e ++ b /\ v <> [] /\ line v.
Definition has_one (before : string) (l : list string) (after : string) (s : gstr) : Prop := exists a v b, s = a ++ lit before ++ v ++ lit after ++ b /\ In v (map lit l).
Definition tag_specs : list (gstr * (gstr -> Prop)) :=
  [(lit "reporter", has_label (lit "reporter")); (lit "cluster_name", is_cluster); (lit "tcp_prefix", is_prefixed "tcp."); (lit "response_code", has_code);
   (lit "response_code_class", has_class); (lit "listener_address", is_listener); (lit "mongo_prefix", is_mongo); (lit "mysql_cluster", is_prefixed "mysql.");
   (lit "postgres_cluster", is_prefixed "postgres.")] ++
  map (fun s => (lit s, has_label (lit s)))
   ["source_namespace"; "source_workload"; "source_workload_namespace"; "source_principal"; "source_app"; "source_version"; "source_cluster";
    "destination_namespace"; "destination_workload"; "destination_workload_namespace"; "destination_principal"; "destination_app";
    "destination_version"; "destination_service"; "destination_service_name"; "destination_service_namespace"; "destination_port";
    "destination_cluster"; "request_protocol"; "request_operation"; "request_host"; "response_flags"; "grpc_response_status";
    "connection_security_policy"; "source_canonical_service"; "destination_canonical_service"; "source_canonical_revision";
    "destination_canonical_revision"]%string ++
  [(lit "cache", has_named "cache." "."); (lit "component", has_named "component." "."); (lit "tag", has_named "tag." ";."); (lit "wasm_filter", has_named "wasm_filter." ".");
   (lit "authz_enforce_result", has_one "rbac." ["allowed"; "denied"]%string ""); (lit "authz_dry_run_action", has_one ".istio_dry_run_" ["allow"; "deny"]%string "_");
   (lit "authz_dry_run_result", has_one ".shadow_" ["allowed"; "denied"]%string "")].

(* --- proofs --- *)
Definition found_in (r : rx) (s : gstr) : Prop := exists w u v, s = w ++ u ++ v /\ matches r (rev w) u v.
Lemma rfind_iff : forall r s, rfind r [] s <> None <-> found_in r s.
Proof.
  intros r s. split.
  - intros H. destruct (rfind r [] s) as [m|] eqn:E; [|congruence]. apply rfind_some in E. destruct E as (w & u & v & c & Hs & _ & M & _). rewrite app_nil_r in M. exists w, u, v. auto.
  - intros (w & u & v & Hs & M) E. apply (rfind_none r s [] E w u v Hs). now rewrite app_nil_r.
Qed.
Lemma found_plain : forall r s, plain_rx r = true -> (found_in r s <-> exists w u v, s = w ++ u ++ v /\ lang r u).
Proof. intros r s H. unfold found_in. split; intros (w & u & v & Hs & M); exists w, u, v; (split; [exact Hs|]); now apply (matches_lang r (rev w) u v H). Qed.
Lemma matches_seq2 : forall a b pre w post, matches (Seq a b) pre w post <-> exists u v, w = u ++ v /\ matches a pre u (v ++ post) /\ matches b (rev u ++ pre) v post.
Proof. intros. split; [intros M; inversion M; subst; eauto|intros (u & v & -> & A & B); now constructor]. Qed.
Lemma found_bol : forall r s, found_in (Seq Bol r) s <-> exists u v, s = u ++ v /\ matches r [] u v.
Proof.
  intros r s. unfold found_in. split.
  - intros (w & u & v & -> & M). apply matches_seq2 in M. destruct M as (x & y & -> & A & B). inversion A as [| | | | | | |post E1 E2 E3| |]; subst.
    assert (w = []) by (destruct w as [|c w]; [reflexivity|]; cbn in *; destruct (rev w); discriminate). subst w. exists y, v. auto.
  - intros (u & v & -> & M). exists [], u, v. split; [reflexivity|]. apply matches_seq2. exists [], u. split; [reflexivity|]. split; [constructor|exact M].
Qed.
Fixpoint and_eol (l : list rx) : list rx := match l with [] => [Eol] | r :: t => r :: and_eol t end.
Lemma matches_eol : forall l pre u post, forallb plain_rx l = true -> (matches (seqs (and_eol l)) pre u post <-> post = [] /\ lang (seqs l) u).
Proof.
  induction l as [|r l IH]; intros pre u post H.
  - cbn [and_eol seqs lang]. split; [intros M; inversion M; subst; auto|intros [-> ->]; constructor].
  - cbn [forallb] in H. apply andb_true_iff in H as [Hr Hl]. rewrite lang_seqs_cons. cbn [and_eol]. replace (seqs (r :: and_eol l)) with (Seq r (seqs (and_eol l))) by (destruct l; reflexivity). rewrite matches_seq2. split.
    + intros (x & y & -> & A & B). apply IH in B; [|exact Hl]. destruct B as [-> B]. split; [reflexivity|]. exists x, y. split; [reflexivity|]. split; [eapply matches_lang; eassumption|exact B].
    + intros (-> & x & y & -> & A & B). exists x, y. split; [reflexivity|]. split; [apply matches_lang; assumption|]. apply IH; auto.
Qed.
Lemma dot_line : forall u, over dot u <-> line u.
Proof.
  intros u. unfold over, line. rewrite Forall_forall. split.
  - intros H Hi. apply H in Hi. discriminate Hi.
  - intros H x Hx. apply dot_nl. intros ->. contradiction.
Qed.
Lemma lang_t : forall s u, lang (t s) u <-> u = lit s. Proof. intros. apply lang_str. Qed.
Lemma lang_alt_all : forall l s u, lang (alt_all (s :: l)) u <-> In u (map lit (s :: l)).
Proof.
  induction l as [|b l IH]; intros s u; [cbn [alt_all map In]; rewrite lang_t; intuition congruence|]. change (alt_all (s :: b :: l)) with (Alt (t s) (alt_all (b :: l))). cbn [lang]. rewrite lang_t, IH. cbn [map In]. intuition congruence.
Qed.
Ltac in1 H := let x := fresh "x" in let y := fresh "y" in let A := fresh "A" in apply lang_seqs_cons in H; destruct H as (x & y & -> & A & H).
Lemma when_label : forall k s, rfind (kv k) [] s <> None <-> has_label k s.
Proof.
  intros k s. rewrite rfind_iff, found_plain by (unfold kv; cbn [plain_rx seqs]; rewrite andb_true_r; now induction k). unfold kv, has_label. cbn [lang]. split.
  - intros (w & u & v & -> & H). in1 H. in1 H. in1 H. cbn [seqs] in H. apply lang_t in H. apply lang_str in A. apply lang_t in A0. cbn [lang] in A1. apply dot_line in A1. subst. exists w, x1, v. rewrite <- !app_assoc. auto.
  - intros (a & v & b & -> & H). exists a, (k ++ lit "=.=" ++ v ++ lit ";.;"), b. rewrite <- !app_assoc. split; [reflexivity|].
    apply lang_seqs_cons. do 2 eexists. split; [reflexivity|]. split; [now apply lang_str|]. apply lang_seqs_cons. do 2 eexists. split; [reflexivity|]. split; [now apply lang_t|]. apply lang_seqs_cons. do 2 eexists. split; [reflexivity|]. split; [cbn [lang]; now apply dot_line|now apply lang_t].
Qed.
Lemma lang_svc : forall x, lang (opt (Grp 3 (seqs [t "."; plus false dot; t ".svc.cluster.local"]))) x -> line x.
Proof.
  intros x H. apply lang_opt in H. destruct H as [->|H]; [intros []|]. cbn [lang] in H. in1 H. in1 H. cbn [seqs] in H. apply lang_t in A. apply lang_t in H. apply lang_plus in A0. destruct A0 as [_ A0]. apply dot_line in A0. subst.
  unfold line. rewrite !in_app_iff. intros [K|[K|K]]; [|contradiction|]; unfold lit in K; cbn [list_ascii_of_string In] in K; repeat (destruct K as [K|K]; [discriminate K|]); exact K.
Qed.
Lemma when_cluster : forall s, rfind cluster_name [] s <> None <-> is_cluster s.
Proof.
  intros s. rewrite rfind_iff. unfold cluster_name. cbn [seqs]. rewrite found_bol. unfold is_cluster. split.
  - intros (u & v & -> & M). apply matches_lang in M; [|reflexivity]. destruct M as (x & y & -> & A & B). apply lang_t in A. subst x. cbn [lang] in B. destruct B as (n & e & -> & (n1 & n2 & -> & N1 & N2) & E). apply (lang_t ".") in E. subst e.
    apply lang_plus in N1. destruct N1 as [N0 N1]. apply dot_line in N1. apply lang_svc in N2. exists (n1 ++ n2), v. rewrite <- !app_assoc. split; [reflexivity|]. split; [destruct n1; [congruence|discriminate]|]. unfold line in *. rewrite in_app_iff. tauto.
  - intros (n & b & -> & Hn & Hl). exists (lit "cluster." ++ n ++ lit "."), b. rewrite <- !app_assoc. split; [reflexivity|]. apply matches_lang; [reflexivity|]. do 2 eexists. split; [reflexivity|]. split; [now apply lang_t|]. cbn [lang]. exists n, (lit "."). split; [reflexivity|].
    split; [|now apply (lang_t ".")]. exists n, []. split; [now rewrite app_nil_r|]. split; [apply lang_plus; split; [exact Hn|now apply dot_line]|right; reflexivity].
Qed.
Lemma when_prefixed : forall p s, rfind (prefixed p) [] s <> None <-> is_prefixed p s.
Proof.
  intros p s. rewrite rfind_iff. unfold prefixed. change (seqs [Bol; t p; Grp 1 (Seq (Grp 2 (Star false dot)) (t ".")); plus false word; Eol]) with (Seq Bol (seqs (and_eol [t p; Grp 1 (Seq (Grp 2 (Star false dot)) (t ".")); plus false word]))).
  assert (Hp: forallb plain_rx [t p; Grp 1 (Seq (Grp 2 (Star false dot)) (t ".")); plus false word] = true) by (cbn [forallb]; rewrite andb_true_r; unfold t; now induction (lit p)).
  rewrite found_bol. unfold is_prefixed, is_word. split.
  - intros (u & v & -> & M). apply matches_eol in M; [|exact Hp]. destruct M as [-> H]. in1 H. in1 H. cbn [seqs] in H. apply lang_t in A. subst x. cbn [lang] in A0. destruct A0 as (n & e & -> & N & E). apply (lang_t ".") in E. subst e. apply dot_line in N. apply lang_plus in H.
    exists n, y0. rewrite app_nil_r, <- !app_assoc. auto.
  - intros (n & w & -> & Hn & Hw). exists (lit p ++ n ++ lit "." ++ w), []. rewrite app_nil_r. split; [reflexivity|]. apply matches_eol; [exact Hp|]. split; [reflexivity|]. apply lang_seqs_cons. do 2 eexists. split; [reflexivity|]. split; [now apply lang_t|]. apply lang_seqs_cons.
    exists (n ++ lit "."), w. split; [now rewrite <- app_assoc|]. split; [|now apply lang_plus]. cbn [lang]. do 2 eexists. split; [reflexivity|]. split; [now apply dot_line|now apply (lang_t ".")].
Qed.
Lemma found_alt : forall a b s, found_in (Alt a b) s <-> found_in a s \/ found_in b s.
Proof.
  intros a b s. unfold found_in. split.
  - intros (w & u & v & Hs & M). inversion M; subst; [left|right]; eauto 6.
  - intros [(w & u & v & Hs & M)|(w & u & v & Hs & M)]; exists w, u, v; (split; [exact Hs|]); [now apply M_altl|now apply M_altr].
Qed.
Lemma found_eol : forall l s, forallb plain_rx l = true -> (found_in (seqs (and_eol l)) s <-> exists w u, s = w ++ u /\ lang (seqs l) u).
Proof.
  intros l s H. unfold found_in. split.
  - intros (w & u & v & -> & M). apply matches_eol in M; [|exact H]. destruct M as [-> M]. exists w, u. rewrite app_nil_r. auto.
  - intros (w & u & -> & M). exists w, u, []. rewrite app_nil_r. split; [reflexivity|]. apply matches_eol; auto.
Qed.
Lemma when_code : forall s, rfind response_code [] s <> None <-> has_code s.
Proof.
  intros s. rewrite rfind_iff. unfold response_code. rewrite found_alt, found_plain by reflexivity. change (seqs [t "_rq"; Grp 3 (Seq (t "_") (Grp 4 (t ".ddd"))); Eol]) with (seqs (and_eol [t "_rq"; Grp 3 (Seq (t "_") (Grp 4 (t ".ddd")))])). rewrite found_eol by reflexivity.
  unfold has_code. split; (intros [H|H]; [left|right]).
  - destruct H as (w & u & v & -> & H). cbn [lang] in H. in1 H. in1 H. in1 H. cbn [seqs] in H. apply lang_t in H. apply lang_t in A. apply lang_t in A0. cbn [lang] in A1. apply lang_plus in A1. destruct A1 as [A1 A2]. apply dot_line in A2. subst. exists w, x1, v. rewrite <- !app_assoc. auto.
  - destruct H as (w & u & -> & H). in1 H. cbn [seqs lang] in H. destruct H as (y1 & z & -> & B & C). apply lang_t in A. apply (lang_t "_") in B. apply (lang_t ".ddd") in C. subst. exists w. reflexivity.
  - destruct H as (a & v & b & -> & Hn & Hv). exists a, (lit "response_code=.=" ++ v ++ lit ";.;"), b. rewrite <- !app_assoc. split; [reflexivity|]. cbn [lang]. apply lang_seqs_cons. exists (lit "response_code"), (lit "=.=" ++ v ++ lit ";.;"). split; [reflexivity|]. split; [now apply lang_t|].
    apply lang_seqs_cons. do 2 eexists. split; [reflexivity|]. split; [now apply lang_t|]. apply lang_seqs_cons. do 2 eexists. split; [reflexivity|]. split; [apply lang_plus; split; [exact Hn|now apply dot_line]|now apply lang_t].
  - destruct H as (a & ->). exists a, (lit "_rq_.ddd"). split; [reflexivity|]. apply lang_seqs_cons. exists (lit "_rq"), (lit "_.ddd"). split; [reflexivity|]. split; [now apply lang_t|]. cbn [seqs lang]. exists (lit "_"), (lit ".ddd"). split; [reflexivity|]. split; [now apply (lang_t "_")|now apply (lang_t ".ddd")].
Qed.
Lemma when_class : forall s, rfind response_code_class [] s <> None <-> has_class s.
Proof.
  intros s. rewrite rfind_iff. unfold response_code_class. change (seqs [t "_rq"; Grp 1 (Seq (t "_") (Grp 2 (Seq (Cls digit) (t "xx")))); Eol]) with (seqs (and_eol [t "_rq"; Grp 1 (Seq (t "_") (Grp 2 (Seq (Cls digit) (t "xx"))))])). rewrite found_eol by reflexivity.
  unfold has_class. split.
  - intros (w & u & -> & H). in1 H. cbn [seqs lang] in H. destruct H as (y1 & z & -> & B & (c1 & z1 & -> & (c & -> & Hc) & C)). apply lang_t in A. apply (lang_t "_") in B. apply (lang_t "xx") in C. subst. exists w, c. auto.
  - intros (a & c & -> & Hc). exists a, (lit "_rq_" ++ [c] ++ lit "xx"). split; [reflexivity|]. apply lang_seqs_cons. exists (lit "_rq"), (lit "_" ++ [c] ++ lit "xx"). split; [reflexivity|]. split; [now apply lang_t|]. cbn [seqs lang].
    exists (lit "_"), ([c] ++ lit "xx"). split; [reflexivity|]. split; [now apply (lang_t "_")|]. do 2 eexists. split; [reflexivity|]. split; [eauto|now apply (lang_t "xx")].
Qed.
Lemma over_or : forall (l : gstr) u, over (fun a => existsb (Ascii.eqb a) l || digit a) u <-> forall c, In c u -> digit c = true \/ In c l.
Proof.
  intros l u. unfold over. rewrite Forall_forall. assert (K: forall c, existsb (Ascii.eqb c) l || digit c = true <-> digit c = true \/ In c l).
  { intros c. rewrite orb_true_iff, existsb_exists. split; [intros [(x & Hx & E)|H]; [right; apply Ascii.eqb_eq in E; now subst|now left]|intros [H|H]; [now right|left; exists c; split; [exact H|apply Ascii.eqb_refl]]]. }
  split; intros H c Hc; now apply K, H.
Qed.
Lemma when_listener : forall s, rfind listener_address [] s <> None <-> is_listener s.
Proof.
  intros s. rewrite rfind_iff. unfold listener_address. cbn [seqs]. rewrite found_bol. unfold is_listener. split.
  - intros (u & v & -> & M). apply matches_lang in M; [|reflexivity]. destruct M as (x & y & -> & A & B). apply lang_t in A. subst x. cbn [lang] in B. destruct B as (n & e & -> & N & E). apply (lang_t ".") in E. subst e.
    exists n, v. rewrite <- !app_assoc. split; [reflexivity|]. destruct N as [N|N]; [left; exact (proj1 (over_or (lit "_.") n) N)|right; exact (proj1 (over_or (lit "_[]aAbBcCdDeEfF") n) N)].
  - intros (n & b & -> & N). exists (lit "listener." ++ n ++ lit "."), b. rewrite <- !app_assoc. split; [reflexivity|]. apply matches_lang; [reflexivity|]. do 2 eexists. split; [reflexivity|]. split; [now apply lang_t|]. cbn [lang]. exists n, (lit "."). split; [reflexivity|].
    split; [|now apply (lang_t ".")]. destruct N as [N|N]; [left; exact (proj2 (over_or (lit "_.") n) N)|right; exact (proj2 (over_or (lit "_[]aAbBcCdDeEfF") n) N)].
Qed.
Lemma when_mongo : forall s, rfind mongo_prefix [] s <> None <-> is_mongo s.
Proof.
  intros s. rewrite rfind_iff. unfold mongo_prefix.
  set (l := [t "mongo."; Grp 1 (plus false dot); t "."; Grp 2 (alt_all ["collection"; "cmd"; "cx_"; "op_"; "delays_"; "decoding_"]%string); Grp 3 (Star false dot)]).
  match goal with |- found_in ?r _ <-> _ => change r with (Seq Bol (seqs (and_eol l))) end. rewrite found_bol. unfold is_mongo. split.
  - intros (u & v & -> & M). apply matches_eol in M; [|reflexivity]. destruct M as [-> H]. unfold l in H. in1 H. in1 H. in1 H. in1 H. cbn [seqs lang] in H. apply lang_t in A. apply lang_t in A1. change (lang (plus false dot) x0) in A0. apply lang_plus in A0. destruct A0 as [A0 A3]. apply dot_line in A3. apply dot_line in H.
    change (lang (alt_all ["collection"; "cmd"; "cx_"; "op_"; "delays_"; "decoding_"]%string) x2) in A2. apply lang_alt_all in A2. subst. rewrite app_nil_r. do 3 eexists. split; [reflexivity|]. auto.
  - intros (n & k & b & -> & Hn & Hl & Hb & Hk). exists (lit "mongo." ++ n ++ lit "." ++ k ++ b), []. rewrite app_nil_r. split; [reflexivity|]. apply matches_eol; [reflexivity|]. split; [reflexivity|]. unfold l.
    apply lang_seqs_cons. do 2 eexists. split; [reflexivity|]. split; [now apply lang_t|]. apply lang_seqs_cons. do 2 eexists. split; [reflexivity|]. split; [apply lang_plus; split; [exact Hn|now apply dot_line]|]. apply lang_seqs_cons. do 2 eexists. split; [reflexivity|]. split; [now apply lang_t|].
    apply lang_seqs_cons. do 2 eexists. split; [reflexivity|]. split; [now apply lang_alt_all|]. cbn [seqs lang]. now apply dot_line.
Qed.
Lemma plain_t : forall s, plain_rx (t s) = true. Proof. intros s. unfold t. now induction (lit s). Qed.
Lemma when_named : forall p e s, rfind (named p e) [] s <> None <-> has_named p e s.
Proof.
  intros p e s. rewrite rfind_iff, found_plain by (unfold named; cbn [plain_rx seqs plus]; now rewrite !plain_t). unfold named, has_named. cbn [lang]. split.
  - intros (w & u & v & -> & H). in1 H. in1 H. cbn [seqs] in H. apply lang_t in H. apply lang_t in A. cbn [lang] in A0. change (lang (plus false dot) x0) in A0. apply lang_plus in A0. destruct A0 as [A0 A1]. apply dot_line in A1. subst. exists w, x0, v. rewrite <- !app_assoc. auto.
  - intros (a & v & b & -> & Hn & Hv). exists a, (lit p ++ v ++ lit e), b. rewrite <- !app_assoc. split; [reflexivity|]. apply lang_seqs_cons. do 2 eexists. split; [reflexivity|]. split; [now apply lang_t|]. apply lang_seqs_cons. do 2 eexists. split; [reflexivity|]. split; [apply lang_plus; split; [exact Hn|now apply dot_line]|now apply lang_t].
Qed.
Lemma when_rbac : forall s, rfind (seqs [t "rbac"; Grp 1 (Seq (t ".") (Grp 2 (alt_all ["allowed"; "denied"]%string)))]) [] s <> None <-> has_one "rbac." ["allowed"; "denied"]%string "" s.
Proof.
  intros s. rewrite rfind_iff, found_plain by reflexivity. unfold has_one. split.
  - intros (w & u & v & -> & H). in1 H. cbn [seqs] in H. destruct H as (y0 & z & -> & B & C). apply lang_t in A. apply lang_t in B. change (lang (alt_all ["allowed"; "denied"]%string) z) in C. apply lang_alt_all in C. subst. exists w, z, v. rewrite <- !app_assoc. auto.
  - intros (a & v & b & -> & H). exists a, (lit "rbac." ++ v), b. rewrite <- !app_assoc. split; [reflexivity|]. apply lang_seqs_cons. exists (lit "rbac"), (lit "." ++ v). split; [reflexivity|]. split; [now apply lang_t|]. exists (lit "."), v. split; [reflexivity|]. split; [now apply lang_t|now apply lang_alt_all].
Qed.
Lemma when_action : forall s, rfind (Grp 1 (seqs [t ".istio_dry_run_"; Grp 2 (alt_all ["allow"; "deny"]%string); t "_"])) [] s <> None <-> has_one ".istio_dry_run_" ["allow"; "deny"]%string "_" s.
Proof.
  intros s. rewrite rfind_iff, found_plain by reflexivity. unfold has_one. split.
  - intros (w & u & v & -> & H). change (lang (seqs [t ".istio_dry_run_"; Grp 2 (alt_all ["allow"; "deny"]%string); t "_"]) u) in H. in1 H. in1 H. cbn [seqs] in H. apply lang_t in A. apply lang_t in H. change (lang (alt_all ["allow"; "deny"]%string) x0) in A0. apply lang_alt_all in A0. subst. exists w, x0, v. rewrite <- !app_assoc. auto.
  - intros (a & v & b & -> & H). exists a, (lit ".istio_dry_run_" ++ v ++ lit "_"), b. rewrite <- !app_assoc. split; [reflexivity|]. change (lang (seqs [t ".istio_dry_run_"; Grp 2 (alt_all ["allow"; "deny"]%string); t "_"]) (lit ".istio_dry_run_" ++ v ++ lit "_")).
    apply lang_seqs_cons. do 2 eexists. split; [reflexivity|]. split; [now apply lang_t|]. apply lang_seqs_cons. do 2 eexists. split; [reflexivity|]. split; [now apply lang_alt_all|now apply lang_t].
Qed.
Lemma when_shadow : forall s, rfind (Grp 1 (Seq (t ".shadow_") (Grp 2 (alt_all ["allowed"; "denied"]%string)))) [] s <> None <-> has_one ".shadow_" ["allowed"; "denied"]%string "" s.
Proof.
  intros s. rewrite rfind_iff, found_plain by reflexivity. unfold has_one. split.
  - intros (w & u & v & -> & (y0 & z & -> & B & C)). apply lang_t in B. change (lang (alt_all ["allowed"; "denied"]%string) z) in C. apply lang_alt_all in C. subst. exists w, z, v. rewrite <- !app_assoc. auto.
  - intros (a & v & b & -> & H). exists a, (lit ".shadow_" ++ v), b. rewrite <- !app_assoc. split; [reflexivity|]. exists (lit ".shadow_"), v. split; [reflexivity|]. split; [now apply lang_t|now apply lang_alt_all].
Qed.

(* Each tag, in the order in which they are tried: it is recorded from what the earlier ones left of the name exactly if that has the form
   above. *)
Theorem C77_when : Forall2 (fun e spec => fst e = fst spec /\ forall s vals, (snd (tag_step (s, vals) e) <> vals <-> snd spec s)) stat_tags tag_specs.
Proof.
  assert (K: forall n r P, (forall s, rfind r [] s <> None <-> P s) -> fst (n, r) = fst (n, P) /\ forall s vals, (snd (tag_step (s, vals) (n, r)) <> vals <-> snd (n, P) s)).
  { intros n r P H. split; [reflexivity|]. intros s vals. cbn [snd]. rewrite <- H. unfold tag_step. cbn [fst snd]. destruct (rfind r [] s) as [m|]; cbn [snd]; [|intuition congruence]. split; [discriminate|]. intros _ E. apply (f_equal (@length _)) in E. rewrite app_length in E. cbn in E. lia. }
  unfold stat_tags, table1, table2, tag_specs. cbn [map app].
  repeat (apply Forall2_cons; [apply K; first [apply when_label|apply when_cluster|apply when_prefixed|apply when_code|apply when_class|apply when_listener|apply when_mongo|apply when_named|apply when_rbac|apply when_action|apply when_shadow]|]). apply Forall2_nil.
Qed.
Print Assumptions C77_when.

(* The name of a cluster: up to the first dot, or, for a Kubernetes service, up to the first ".svc.cluster.local". *)
Definition svc : gstr := lit ".svc.cluster.local.".
Definition after_name (k : gstr -> gstr -> caps -> option (gstr * gstr * caps)) : gstr -> gstr -> caps -> option (gstr * gstr * caps) :=
  fun p q c => rm (opt (Grp 3 (seqs [t "."; plus false dot; t ".svc.cluster.local"]))) p q c k.
Lemma opt_needs_dot : forall k p c q cs, c <> "."%char -> (forall p' q' cs', k p' (c :: q') cs' = None) -> after_name k p (c :: q) cs = None.
Proof.
  intros k p c q cs Hc Hk. unfold after_name, opt. cbn [rm]. replace (rm (seqs [t "."; plus false dot; t ".svc.cluster.local"]) p (c :: q) cs (fun p0 q0 c0 => k p0 q0 ((3, taken p p0) :: c0))) with (@None (gstr * gstr * caps)); [apply Hk|].
  symmetry. cbn [seqs]. change (Seq (t ".") ?x) with (Seq (t ".") x). cbn [rm]. apply rm_str_fail. intros r E. injection E as E _. now apply Hc.
Qed.
Lemma cluster_match : forall n rest v1 v2 last, n <> [] -> line n -> ~ In "."%char n -> v1 = v2 ++ lit "." -> last = lit "cluster." ++ n ++ lit "." ++ rest ->
  (exists p' q' c', after_name (fun p0 q0 c0 => rm (t ".") p0 q0 ((2, taken (rev (lit "cluster.")) p0) :: c0) (fun p1 q1 c1 => final p1 q1 ((1, taken (rev (lit "cluster.")) p1) :: c1))) (rev n ++ rev (lit "cluster.")) (lit "." ++ rest) [] = Some (p', q', c') /\ cap c' 1 = v1 /\ cap c' 2 = v2) ->
  exists m, rfind cluster_name [] last = Some m /\ cap (mt_caps m) 1 = v1 /\ cap (mt_caps m) 2 = v2.
Proof.
  intros n rest v1 v2 last Hn Hl Hd Hv -> H. destruct H as (p' & q' & c' & E & C1 & C2). rewrite rfind_eq.
  assert (R: rm cluster_name [] (lit "cluster." ++ n ++ lit "." ++ rest) [] final = Some (p', q', c')).
  { unfold cluster_name. cbn [seqs]. change (rm (Seq Bol (Seq (t "cluster.") ?r)) [] ?s [] final) with (rm (Seq (t "cluster.") r) [] s [] final). cbn [rm]. unfold t at 1. rewrite rm_str. rewrite app_nil_r. cbn [rm].
    apply (rm_val (plus false dot) n); [right; split; [reflexivity|exact Hn]|intros c Hc; apply dot_nl; intros ->; contradiction| |exact E].
    intros a b p Hab Hb. destruct b as [|c b]; [congruence|]. apply opt_needs_dot; [intros ->; apply Hd; rewrite Hab; apply in_or_app; right; now left|]. intros p2 q2 c2. apply rm_str_fail. intros r Er. injection Er as Er _. subst c. apply Hd. rewrite Hab. apply in_or_app. right. now left. }
  rewrite R. eexists. split; [reflexivity|]. cbn [mt_caps]. auto.
Qed.
Lemma taken_cons : forall u v pre, taken pre (rev v ++ rev u ++ pre) = u ++ v.
Proof. intros u v pre. rewrite app_assoc, <- rev_app_distr. apply taken_app. Qed.
Lemma cluster_plain : forall n rest, n <> [] -> line n -> ~ In "."%char n -> ~ (exists x y, rest = x ++ svc ++ y /\ x <> [] /\ line x) ->
  exists m, rfind cluster_name [] (lit "cluster." ++ n ++ lit "." ++ rest) = Some m /\ cap (mt_caps m) 1 = n ++ lit "." /\ cap (mt_caps m) 2 = n.
Proof.
  intros n rest Hn Hl Hd Hx. eapply cluster_match; [exact Hn|exact Hl|exact Hd|reflexivity|reflexivity|]. unfold after_name, opt. cbn [rm].
  match goal with |- context [match ?r with Some _ => _ | None => _ end] => destruct r as [z|] eqn:E end.
  - exfalso. apply rm_sound in E. destruct E as (u & v & c & Es & M & Ek). apply matches_lang in M; [|reflexivity]. in1 M. in1 M. cbn [seqs] in M. apply lang_t in A. apply lang_t in M. apply lang_plus in A0. destruct A0 as [A0 A1]. apply dot_line in A1. subst.
    apply rm_sound in Ek. destruct Ek as (u & w & c2 & Ev & M2 & _). apply (proj1 (matches_str _ _ _ _)) in M2. subst u v. rewrite <- !app_assoc in Es. apply app_inv_head in Es. apply Hx. exists x0, w. split; [|auto]. rewrite Es. reflexivity.
  - do 3 eexists. split; [unfold t; rewrite rm_str; reflexivity|]. cbn [cap Nat.eqb]. split; [apply taken_cons|apply taken_app].
Qed.
Lemma cluster_fqdn : forall n x y, n <> [] -> line n -> ~ In "."%char n -> x <> [] -> line x -> ~ (exists z y', x ++ svc ++ y = z ++ svc ++ y' /\ length z < length x) ->
  exists m, rfind cluster_name [] (lit "cluster." ++ n ++ lit "." ++ x ++ svc ++ y) = Some m /\ cap (mt_caps m) 1 = n ++ lit "." ++ x ++ svc /\ cap (mt_caps m) 2 = n ++ lit "." ++ x ++ lit ".svc.cluster.local".
Proof.
  intros n x y Hn Hl Hd Hxn Hxl Hmin. eapply cluster_match; [exact Hn|exact Hl|exact Hd| |reflexivity|]; [unfold svc; rewrite <- !app_assoc; reflexivity|]. unfold after_name, opt. cbn [rm seqs].
  change svc with (lit ".svc.cluster.local" ++ lit "."). rewrite <- app_assoc.
  match goal with |- context [match rm (t ".") ?p ?q ?c ?k with Some _ => _ | None => _ end] => assert (R: exists z, rm (t ".") p q c k = Some z /\ cap (snd z) 1 = n ++ lit "." ++ x ++ lit ".svc.cluster.local" ++ lit "." /\ cap (snd z) 2 = n ++ lit "." ++ x ++ lit ".svc.cluster.local") end.
  { unfold t at 1. rewrite rm_str. eexists. split.
    - apply (rm_val (plus false dot) x); [right; split; [reflexivity|exact Hxn]|intros c Hc; apply dot_nl; intros ->; contradiction| |].
      + intros a b p Hab Hb. match goal with |- ?g = None => destruct g as [z|] eqn:E; [exfalso|reflexivity] end. apply rm_sound in E. destruct E as (u & v & c & Es & M & Ek). apply (proj1 (matches_str _ _ _ _)) in M. subst u.
        apply rm_sound in Ek. destruct Ek as (u & w & c2 & Ev & M2 & _). apply (proj1 (matches_str _ _ _ _)) in M2. subst u v. apply Hmin. exists a, w. split; [|rewrite Hab, app_length; destruct b; [congruence|cbn; lia]].
        change svc with (lit ".svc.cluster.local" ++ lit "."). rewrite Hab, <- !app_assoc. f_equal. exact Es.
      + unfold t. rewrite rm_str, rm_str. reflexivity.
    - cbn [snd cap Nat.eqb]. split.
      + replace (rev (lit ".") ++ rev (lit ".svc.cluster.local") ++ rev x ++ rev (lit ".") ++ rev n ++ rev (lit "cluster.")) with (rev (n ++ lit "." ++ x ++ lit ".svc.cluster.local" ++ lit ".") ++ rev (lit "cluster.")); [apply taken_app|]. rewrite !rev_app_distr, <- !app_assoc. reflexivity.
      + replace (rev (lit ".svc.cluster.local") ++ rev x ++ rev (lit ".") ++ rev n ++ rev (lit "cluster.")) with (rev (n ++ lit "." ++ x ++ lit ".svc.cluster.local") ++ rev (lit "cluster.")); [apply taken_app|]. rewrite !rev_app_distr, <- !app_assoc. reflexivity. }
  destruct R as ([[p q] c] & -> & C1 & C2). cbn [snd] in C1, C2. exists p, q, c. rewrite <- ?app_assoc. auto.
Qed.
Lemma remove_first_at : forall old w0 r0, old <> [] -> exists w r, w0 ++ old ++ r0 = w ++ old ++ r /\ remove_first old (w0 ++ old ++ r0) = w ++ r /\ length w <= length w0.
Proof.
  intros old w0 r0 Hne. induction w0 as [|c w0 IH].
  - exists [], r0. split; [reflexivity|]. split; [exact (remove_here old r0)|reflexivity].
  - cbn [app]. destruct (ghas_prefix (c :: w0 ++ old ++ r0) old) eqn:E.
    + pose proof E as E'. apply ghas_prefix_spec in E'. destruct E' as [r E']. exists [], r. split; [exact E'|]. split; [cbn [remove_first]; rewrite E, E'; cbn [app]; now rewrite skipn_app, skipn_all, Nat.sub_diag|cbn; lia].
    + destruct IH as (w & r & E1 & E2 & E3). exists (c :: w), r. cbn [app remove_first length]. rewrite E, E1. rewrite E1 in E2. rewrite E2. split; [reflexivity|]. split; [reflexivity|lia].
Qed.
(* text without dots up to a dot *)
Lemma upto_dot : forall (a b : gstr) x y, ~ In "."%char a -> ~ In "."%char b -> a ++ lit "." ++ x = b ++ lit "." ++ y -> a = b /\ x = y.
Proof.
  induction a as [|c a IH]; intros [|e b] x y Ha Hb E; cbn in E.
  - injection E as ->. auto.
  - injection E as <- _. destruct Hb. now left.
  - injection E as -> _. destruct Ha. now left.
  - injection E as -> E. destruct (IH b x y) as [-> ->]; [firstorder|firstorder|exact E|auto].
Qed.
Lemma remove_cluster : forall n tail rest, n <> [] -> ~ In "."%char n -> (tail = [] \/ ~ exists z, lit "cluster" = z ++ n) ->
  remove_first (n ++ lit "." ++ tail) (lit "cluster." ++ (n ++ lit "." ++ tail) ++ rest) = lit "cluster." ++ rest.
Proof.
  intros n tail rest Hn Hd Ht. destruct (remove_first_at (n ++ lit "." ++ tail) (lit "cluster.") rest) as (w & r & E1 & E2 & E3); [destruct n; [congruence|discriminate]|]. rewrite E2. clear E2.
  destruct (Nat.eq_dec (length w) 8) as [L|L].
  - assert (Hw: w = lit "cluster.").
    { apply (f_equal (firstn 8)) in E1. change (lit "cluster." = firstn 8 (w ++ (n ++ lit "." ++ tail) ++ r)) in E1. rewrite E1, <- L, firstn_app, firstn_all, Nat.sub_diag, firstn_O. symmetry. apply app_nil_r. }
    subst w. apply app_inv_head, app_inv_head in E1. now subst.
  - assert (Hw: exists a, lit "cluster" = w ++ a).
    { assert (Hlt: length w <= 7) by (change (length (lit "cluster.")) with 8 in E3; lia). exists (skipn (length w) (lit "cluster")). rewrite <- (firstn_skipn (length w) (lit "cluster")) at 1. f_equal. apply (f_equal (firstn (length w))) in E1. rewrite (firstn_app (length w) w), firstn_all, Nat.sub_diag, firstn_O, app_nil_r in E1. refine (eq_trans _ E1).
      change (lit "cluster.") with (lit "cluster" ++ lit "."). rewrite <- app_assoc, firstn_app. replace (length w - length (lit "cluster")) with 0 by (symmetry; apply Nat.sub_0_le; exact Hlt).
      rewrite firstn_O, app_nil_r. reflexivity. }
    destruct Hw as [a Hw]. change (lit "cluster.") with (lit "cluster" ++ lit ".") in E1 |- *. rewrite Hw in E1 |- *. rewrite <- !app_assoc in E1. apply app_inv_head in E1.
    assert (Hda: ~ In "."%char a).
    { intros Hi. assert (Hc: In "."%char (lit "cluster")) by (rewrite Hw; apply in_or_app; now right). cbn in Hc. repeat (destruct Hc as [Hc|Hc]; [discriminate Hc|]). exact Hc. }
    destruct (upto_dot a n _ _ Hda Hd E1) as [-> E4]. destruct Ht as [->|Ht]; [|destruct Ht; exists w; exact Hw]. cbn [app] in E4. rewrite <- E4. rewrite <- !app_assoc. reflexivity.
Qed.
Theorem C77_cluster : forall n rest vals, n <> [] -> line n -> ~ In "."%char n -> ~ (exists x y, rest = x ++ svc ++ y /\ x <> [] /\ line x) ->
  tag_step (lit "cluster." ++ n ++ lit "." ++ rest, vals) (lit "cluster_name", cluster_name) = (lit "cluster." ++ rest, vals ++ [(lit "cluster_name", n)]).
Proof.
  intros n rest vals Hn Hl Hd Hx. destruct (cluster_plain n rest Hn Hl Hd Hx) as (m & E & C1 & C2). unfold tag_step. cbn [fst snd]. rewrite E, C1, C2. f_equal.
  pose proof (remove_cluster n [] rest Hn Hd (or_introl eq_refl)) as R. rewrite app_nil_r in R. rewrite <- !app_assoc in R. exact R.
Qed.
Print Assumptions C77_cluster.
Theorem C77_cluster_service : forall n x y vals, n <> [] -> line n -> ~ In "."%char n -> x <> [] -> line x -> ~ (exists z y', x ++ svc ++ y = z ++ svc ++ y' /\ length z < length x) ->
  snd (tag_step (lit "cluster." ++ n ++ lit "." ++ x ++ svc ++ y, vals) (lit "cluster_name", cluster_name)) = vals ++ [(lit "cluster_name", n ++ lit "." ++ x ++ lit ".svc.cluster.local")] /\
  (~ (exists z, lit "cluster" = z ++ n) -> fst (tag_step (lit "cluster." ++ n ++ lit "." ++ x ++ svc ++ y, vals) (lit "cluster_name", cluster_name)) = lit "cluster." ++ y).
Proof.
  intros n x y vals Hn Hl Hd Hxn Hxl Hm. destruct (cluster_fqdn n x y Hn Hl Hd Hxn Hxl Hm) as (m & E & C1 & C2). unfold tag_step. cbn [fst snd]. rewrite E, C1, C2. cbn [fst snd]. split; [reflexivity|]. intros Hz.
  pose proof (remove_cluster n (x ++ svc) y Hn Hd (or_intror Hz)) as R. rewrite <- !app_assoc in R. exact R.
Qed.
Print Assumptions C77_cluster_service.
Example C77_cluster_case : parse_stat (lit "cluster.outbound|80||web.default.svc.cluster.local.upstream_rq") = (lit "cluster.upstream_rq", [(lit "cluster_name", lit "outbound|80||web.default.svc.cluster.local")]) /\
  parse_stat (lit "cluster.agent.upstream_rq") = (lit "cluster.upstream_rq", [(lit "cluster_name", lit "agent")]).
Proof. vm_compute. auto. Qed.
