(* C54, C56, C57, C63: webhook certificates, the workload certificate cache, the self-signed CA. *)
From Coq Require Import String List Ascii Bool Arith ZArith Lia Permutation.
From Verif Require Import M_GoStr L_GoStr M_Ca.
Import ListNotations.
Open Scope list_scope.
(* ================= C54 ================= *)
(* A certificate set is good at time t for the DNS names: key pair matches, CA and certificate parse, the CA signed it, it
   covers every name, and t is within its validity. *)
Definition good_at (L : clib) (c : certificate) (dns : list gstr) (t : Z) : Prop :=
  keypair_ok L (c_srv c) (c_srvkey c) = true /\ pool_ok L (c_ca c) = true /\ parse_ok L (c_srv c) = true /\ signed_by L (c_srv c) (c_ca c) = true /\
  (forall d, In d dns -> d <> [] -> covers L (c_srv c) d = true) /\ (not_before L (c_srv c) <= t <= not_after L (c_srv c))%Z.
Definition on_disk (f : files) (c : certificate) : Prop := f_ca f = Some (c_ca c) /\ f_cakey f = Some (c_cakey c) /\ f_srv f = Some (c_srv c) /\ f_srvkey f = Some (c_srvkey c).
Lemma from_dir : forall f c, from_directory f = Some c <-> on_disk f c.
Proof.
  intros [a b d e] [a' b' d' e']. unfold from_directory, on_disk. cbn. split.
  - destruct a, b, d, e; intros H; try discriminate. injection H as <- <- <- <-. auto.
  - intros (-> & -> & -> & ->). reflexivity.
Qed.
Lemma verify_all : forall L c dns t, forallb (fun d => cert_verify L c d t) (names_checked dns) = true <-> good_at L c dns t.
Proof.
  intros L c dns t. rewrite forallb_forall. unfold good_at, cert_verify. split.
  - intros H. assert (X: exists d, In d (names_checked dns)) by (destruct dns as [|d r]; [exists []|exists d]; now left). destruct X as (d0 & Hd0). pose proof (H d0 Hd0) as G. rewrite !andb_true_iff in G. destruct G as (((G1 & G2) & G3) & (((G4 & G5) & G6) & G7)). apply Z.leb_le in G6, G7. split; [assumption|]. split; [assumption|]. split; [assumption|]. split; [assumption|]. split; [|lia].
    intros d Hd Hne. assert (Hin: In d (names_checked dns)) by (destruct dns; [destruct Hd|exact Hd]). specialize (H d Hin). rewrite !andb_true_iff in H. destruct H as (_ & (((H & _) & _) & _)). destruct d; [congruence|exact H].
  - intros (G1 & G2 & G3 & G4 & G5 & G6) d Hd. rewrite G1, G2, G3, G4. rewrite (proj2 (Z.leb_le _ _)) by lia. rewrite (proj2 (Z.leb_le _ _)) by lia. rewrite !andb_true_r. destruct d as [|x d]; [reflexivity|]. cbn [andb]. apply G5; [|discriminate]. destruct dns as [|y dns]; [destruct Hd as [Hd|[]]; discriminate|exact Hd].
Qed.
(* The certificate is renewed exactly when no complete set that is good six months from now is on disk. *)
Theorem C54_renewed_iff : forall L dns r f now f' c renewed, check_certificate L dns r f now = (f', c, renewed) -> (renewed = false <-> exists c0, on_disk f c0 /\ good_at L c0 dns (plus_half L now)).
Proof.
  intros L dns r f now f' c renewed H. unfold check_certificate, verify_certificate in H. destruct (from_directory f) as [c0|] eqn:E.
  - destruct (forallb _ (names_checked dns)) eqn:Ev.
    + injection H as <- <- <-. split; [|reflexivity]. intros _. exists c0. split; [now apply from_dir|now apply verify_all].
    + destruct (renew r f) as [f1 c1]. injection H as <- <- <-. split; [discriminate|]. intros (c2 & H1 & H2). apply from_dir in H1. rewrite E in H1. injection H1 as ->. apply verify_all in H2. congruence.
  - destruct (renew r f) as [f1 c1]. injection H as <- <- <-. split; [discriminate|]. intros (c2 & H1 & H2). apply from_dir in H1. congruence.
Qed.
Print Assumptions C54_renewed_iff.
(* The libraries' contract on a newly made certificate, and on dates. *)
Definition fresh (L : clib) (c : certificate) (dns : list gstr) (now : Z) : Prop := forall t, (now <= t <= plus_year L now)%Z -> good_at L c dns t.
Definition calendar (L : clib) : Prop := forall t, (t <= plus_half L t <= plus_year L t)%Z.
Lemma write_all : forall c order f, (forall n, In n order) -> on_disk (write_files c order f) c.
Proof.
  intros c order f H. assert (G: forall order f, (In FCa order \/ f_ca f = Some (c_ca c)) -> (In FCaKey order \/ f_cakey f = Some (c_cakey c)) -> (In FSrv order \/ f_srv f = Some (c_srv c)) -> (In FSrvKey order \/ f_srvkey f = Some (c_srvkey c)) -> on_disk (write_files c order f) c).
  { clear. induction order as [|n order IH]; intros f H1 H2 H3 H4; cbn; [split; [|split; [|split]]; [destruct H1 as [[]|H1]; exact H1|destruct H2 as [[]|H2]; exact H2|destruct H3 as [[]|H3]; exact H3|destruct H4 as [[]|H4]; exact H4]|].
    apply IH.
    - destruct n; [right; reflexivity| | |]; (destruct H1 as [[H1|H1]|H1]; [discriminate|now left|right; exact H1]).
    - destruct n; [|right; reflexivity| |]; (destruct H2 as [[H2|H2]|H2]; [discriminate|now left|right; exact H2]).
    - destruct n; [| |right; reflexivity|]; (destruct H3 as [[H3|H3]|H3]; [discriminate|now left|right; exact H3]).
    - destruct n; [| | |right; reflexivity]; (destruct H4 as [[H4|H4]|H4]; [discriminate|now left|right; exact H4]). }
  apply G; left; apply H.
Qed.
(* From any state of the directory, including what a crash in the middle of an earlier write left behind: a check whose
   renewal, if one is needed, works leaves a certificate on disk that is good in six months, and hands exactly that one on. *)
Theorem C54_valid_after_check : forall L dns f now c order f' co renewed, calendar L -> fresh L c dns now -> (forall n, In n order) ->
  check_certificate L dns (RWorks c order) f now = (f', co, renewed) -> exists c', co = Some c' /\ on_disk f' c' /\ good_at L c' dns (plus_half L now).
Proof.
  intros L dns f now c order f' co renewed HL HF Ho H. unfold check_certificate, verify_certificate in H. destruct (from_directory f) as [c0|] eqn:E.
  - destruct (forallb _ (names_checked dns)) eqn:Ev.
    + injection H as <- <- <-. exists c0. split; [reflexivity|]. split; [now apply from_dir|now apply verify_all].
    + cbn [renew] in H. injection H as <- <- <-. exists c. split; [reflexivity|]. split; [now apply write_all|]. apply HF. apply HL.
  - cbn [renew] in H. injection H as <- <- <-. exists c. split; [reflexivity|]. split; [now apply write_all|]. apply HF. apply HL.
Qed.
Print Assumptions C54_valid_after_check.
(* No churn: after a successful renewal no later check renews until six months before the end of the new certificate. *)
Theorem C54_no_churn : forall L dns f now c order f' co later r, calendar L -> fresh L c dns now -> (forall n, In n order) ->
  check_certificate L dns (RWorks c order) f now = (f', co, true) -> (now <= later)%Z -> (plus_half L later <= plus_year L now)%Z -> check_certificate L dns r f' later = (f', Some c, false).
Proof.
  intros L dns f now c order f' co later r HL HF Ho H Hl Hy. assert (D: f' = write_files c order f).
  { unfold check_certificate in H. destruct (verify_certificate L dns f now) as [[|] c0]; [discriminate|]. cbn [renew] in H. now injection H as <- _. }
  subst f'. pose proof (write_all c order f Ho) as W. unfold check_certificate, verify_certificate. rewrite (proj2 (from_dir _ _) W). rewrite (proj2 (verify_all L c dns (plus_half L later))); [reflexivity|]. apply HF. pose proof (HL later). lia.
Qed.
Print Assumptions C54_no_churn.
Definition toy : clib := mkclib (fun a b => Nat.eqb b (a + 1)) (fun _ => true) (fun _ => true) (fun _ _ => true) (fun s c => Nat.eqb c (s + 2)) (fun n => Z.of_nat n) (fun n => Z.of_nat n + 12)%Z (fun t => t + 6)%Z (fun t => t + 12)%Z.
Example C54_ex : let c := mkcert 12 99 10 11 in fresh toy c [lit "hook.ns.svc"] 10 /\ calendar toy /\
  check_certificate toy [lit "hook.ns.svc"] (RWorks c [FSrv; FCa; FSrvKey; FCaKey]) (mkfiles None (Some 3%nat) None None) 10 = (mkfiles (Some 12) (Some 99) (Some 10) (Some 11), Some c, true) /\
  check_certificate toy [lit "hook.ns.svc"] RGenFails (mkfiles (Some 12) (Some 99) (Some 10) (Some 11)) 15 = (mkfiles (Some 12) (Some 99) (Some 10) (Some 11), Some c, false).
Proof. cbv zeta. split; [intros t Ht; cbn in Ht; unfold good_at; cbn; repeat split; lia|]. split; [intros t; cbn; lia|]. split; reflexivity. Qed.
(* Only the time six months ahead is checked, so a set that is not valid yet counts as valid today. *)
Theorem C54_not_yet_valid_refuted : exists L dns f now c, check_certificate L dns RGenFails f now = (f, Some c, false) /\ ~ good_at L c dns now.
Proof. exists toy, [lit "hook.ns.svc"], (mkfiles (Some 12) (Some 99) (Some 10) (Some 11))%nat, 8%Z, (mkcert 12 99 10 11). split; [reflexivity|]. intros (_ & _ & _ & _ & _ & H). cbn in H. lia. Qed.
Print Assumptions C54_not_yet_valid_refuted.
(* A failed renewal is not reported (the check's result is nil in any case) and hands a nil certificate to the after-check
   function, which then crashes the process if there is any webhook. *)
Theorem C54_failed_renewal_panics_refuted : forall L dns f now webhooks f' c renewed, from_directory f = None -> check_certificate L dns RGenFails f now = (f', c, renewed) -> after_check (S webhooks) c = APanic.
Proof. intros L dns f now webhooks f' c renewed Hf H. unfold check_certificate, verify_certificate in H. rewrite Hf in H. cbn in H. injection H as <- <- <-. reflexivity. Qed.
Print Assumptions C54_failed_renewal_panics_refuted.
(* ================= C56 ================= *)
(* a request at a time, with the CA's answer should one be needed; the clock does not go back *)
Record creq := mkr { r_host : gstr; r_time : Z; r_issue : option wcert }.
Fixpoint crun (rs : list creq) (c : cache) : list (option wcert * bool) * cache :=
  match rs with [] => ([], c) | r :: rest => let '(w, asked, c1) := get_certificate (r_issue r) (r_host r) (r_time r) c in let '(out, c2) := crun rest c1 in ((w, asked) :: out, c2) end.
Definition cache0 : cache := fun _ => None.
(* The last certificate issued for a host in a history (what is cached). *)
Fixpoint last_issued (h : gstr) (rs : list creq) (out : list (option wcert * bool)) (acc : option wcert) : option wcert :=
  match rs, out with r :: rs', (Some w, true) :: out' => last_issued h rs' out' (if gstr_eq_dec h (r_host r) then Some w else acc) | _ :: rs', _ :: out' => last_issued h rs' out' acc | _, _ => acc end.
Lemma crun_last : forall rs c out c', crun rs c = (out, c') -> forall h, c' h = last_issued h rs out (c h).
Proof.
  induction rs as [|r rs IH]; intros c out c' H h; cbn in H; [injection H as <- <-; reflexivity|]. destruct (get_certificate (r_issue r) (r_host r) (r_time r) c) as [[w asked] c1] eqn:E. destruct (crun rs c1) as [o c2] eqn:E2. injection H as <- <-. rewrite (IH _ _ _ E2 h). unfold get_certificate in E. cbn [last_issued].
  destruct (c (r_host r)) as [w0|] eqn:E0; [destruct (r_time r <? w_not_after w0)%Z|]; [injection E as <- <- <-; reflexivity| |]; (destruct (r_issue r) as [wi|]; injection E as <- <- <-; [|reflexivity]); destruct (gstr_eq_dec h (r_host r)) as [->|]; reflexivity.
Qed.
(* Every answer of every history: it comes without a request to the CA exactly when an unexpired certificate for the host was
   issued before, and then it is the last one issued; otherwise it is the CA's answer to a new request. *)
Theorem C56_cache : forall pre r out1 c1, crun pre cache0 = (out1, c1) ->
  let '(w, asked, _) := get_certificate (r_issue r) (r_host r) (r_time r) c1 in
  match last_issued (r_host r) pre out1 None with
  | Some w0 => ((r_time r < w_not_after w0)%Z -> w = Some w0 /\ asked = false) /\ ((w_not_after w0 <= r_time r)%Z -> w = r_issue r /\ asked = true)
  | None => w = r_issue r /\ asked = true
  end.
Proof.
  intros pre r out1 c1 H. pose proof (crun_last _ _ _ _ H (r_host r)) as Hl. change (cache0 (r_host r)) with (@None wcert) in Hl. rewrite <- Hl. destruct (get_certificate (r_issue r) (r_host r) (r_time r) c1) as [[w asked] c2] eqn:E. unfold get_certificate in E. destruct (c1 (r_host r)) as [w0|].
  - split; intros Ht; [rewrite (proj2 (Z.ltb_lt _ _)) in E by lia; injection E as <- <- <-; auto|]. rewrite (proj2 (Z.ltb_ge _ _)) in E by lia. destruct (r_issue r); injection E as <- <- <-; auto.
  - destruct (r_issue r); injection E as <- <- <-; auto.
Qed.
Print Assumptions C56_cache.
(* An answer that was not asked for is never expired when given. *)
Theorem C56_not_expired : forall issue h now c w c', get_certificate issue h now c = (Some w, false, c') -> (now < w_not_after w)%Z /\ c h = Some w /\ c' = c.
Proof. intros issue h now c w c' H. unfold get_certificate in H. destruct (c h) as [w0|]; [destruct (Z.ltb_spec now (w_not_after w0))|]; [injection H as <- <-; auto| |]; destruct issue; discriminate. Qed.
Print Assumptions C56_not_expired.
(* Once issued, the same certificate is returned by every later request for the host until it expires, without a request,
   whatever else is requested in between. *)
Theorem C56_same_until_expiry : forall rs c h w out c', c h = Some w -> (forall r, In r rs -> (r_time r < w_not_after w)%Z) -> crun rs c = (out, c') -> c' h = Some w /\ forall i r, nth_error rs i = Some r -> r_host r = h -> nth_error out i = Some (Some w, false).
Proof.
  induction rs as [|r rs IH]; intros c h w out c' Hc Ht H; cbn in H; [injection H as <- <-; split; [assumption|intros [|i] r Hr; discriminate]|]. destruct (get_certificate (r_issue r) (r_host r) (r_time r) c) as [[w1 asked] c1] eqn:E. destruct (crun rs c1) as [o c2] eqn:E2. injection H as <- <-.
  assert (K: c1 h = Some w /\ (r_host r = h -> w1 = Some w /\ asked = false)).
  { unfold get_certificate in E. destruct (gstr_eq_dec (r_host r) h) as [Eh|Nh].
    - subst h. rewrite Hc in E. rewrite (proj2 (Z.ltb_lt _ _)) in E by (apply Ht; now left). injection E as <- <- <-. auto.
    - split; [|contradiction]. destruct (c (r_host r)) as [w0|]; [destruct (r_time r <? w_not_after w0)%Z|]; [injection E as <- <- <-; assumption| |]; (destruct (r_issue r); injection E as <- <- <-; [|assumption]); (destruct (gstr_eq_dec h (r_host r)); [congruence|assumption]). }
  destruct K as (K1 & K2). destruct (IH _ _ _ _ _ K1 (fun x Hx => Ht x (or_intror Hx)) E2) as (I1 & I2). split; [assumption|]. intros [|i] r0 Hr Hh; cbn in *; [injection Hr as <-; destruct (K2 Hh) as (-> & ->); reflexivity|]. now apply (I2 i r0).
Qed.
Print Assumptions C56_same_until_expiry.
Example C56_ex : fst (crun [mkr (lit "a") 0 (Some (mkw 1 10)); mkr (lit "b") 1 (Some (mkw 2 5)); mkr (lit "a") 9 None; mkr (lit "b") 5 None; mkr (lit "a") 10 (Some (mkw 3 20))] cache0) = [(Some (mkw 1 10), true); (Some (mkw 2 5), true); (Some (mkw 1 10), false); (None, true); (Some (mkw 3 20), true)].
Proof. reflexivity. Qed.
(* The CA endpoint's server name is never derived from the endpoint: the test is on the wrong outcome of SplitHostPort. *)
Theorem C56_endpoint_san_refuted : forall split endpoint, endpoint_san split [] endpoint = [].
Proof. intros split endpoint. unfold endpoint_san. destruct (split endpoint); reflexivity. Qed.
Print Assumptions C56_endpoint_san_refuted.
(* ================= C57 ================= *)
Definition adds (s : list sev) : Z := Z.of_nat (length (List.filter (fun e => match e with SAdd _ => true | _ => false end) s)).
Lemma serials_low : forall s n k z, In (k, z) (serials s n) -> (n <= z)%Z /\ In (SLoad k) s.
Proof. induction s as [|[c|c] s IH]; intros n k z H; cbn in H; [destruct H| |]; [apply IH in H; destruct H; split; [lia|now right]|]. destruct H as [H|H]; [injection H as <- <-; split; [lia|now left]|apply IH in H; destruct H; split; [lia|now right]]. Qed.
Lemma serials_high : forall s n k z, In (k, z) (serials s n) -> (z <= n + adds s)%Z.
Proof. unfold adds. induction s as [|[c|c] s IH]; intros n k z H; cbn in H; [destruct H| |]; cbn [List.filter length]; [apply IH in H; lia|]. destruct H as [H|H]; [injection H as <- <-; lia|now apply IH in H]. Qed.
Lemma serials_app : forall s1 s2 n, serials (s1 ++ s2) n = serials s1 n ++ serials s2 (n + adds s1).
Proof. unfold adds. induction s1 as [|[c|c] s1 IH]; intros s2 n; cbn [app serials List.filter length]; [f_equal; cbn; lia| |]; rewrite IH; cbn; [do 2 f_equal; lia|reflexivity]. Qed.
(* In every interleaving of any number of calls (no step happens twice), a call that is over before another one starts gets
   the smaller serial: a's load comes before b's add, b's load after it. *)
Theorem C57_nonoverlapping : forall s1 s2 n a b za zb, NoDup (s1 ++ SAdd b :: s2) -> In (SLoad a) s1 -> ~ In (SLoad b) s1 ->
  In (a, za) (serials (s1 ++ SAdd b :: s2) n) -> In (b, zb) (serials (s1 ++ SAdd b :: s2) n) -> (za < zb)%Z.
Proof.
  intros s1 s2 n a b za zb Hnd Ha Hb Hza Hzb. rewrite serials_app in Hza, Hzb. cbn [serials] in Hza, Hzb. apply in_app_iff in Hza, Hzb.
  destruct Hzb as [Hzb|Hzb]; [apply serials_low in Hzb; tauto|]. apply serials_low in Hzb. destruct Hza as [Hza|Hza]; [apply serials_high in Hza; lia|]. exfalso. apply serials_low in Hza. destruct Hza as (_ & Hza). apply (NoDup_remove_1 s1 s2) in Hnd.
  destruct (in_split _ _ Ha) as (x & y & ->). rewrite <- app_assoc in Hnd. cbn [app] in Hnd. apply NoDup_remove_2 in Hnd. apply Hnd. rewrite !in_app_iff. auto.
Qed.
Print Assumptions C57_nonoverlapping.
(* One call after the other: the serials are 1, 2, 3, ... *)
Theorem C57_sequential : forall n k, serials (flat_map (fun c => [SAdd c; SLoad c]) (seq k n)) (Z.of_nat k) = map (fun c => (c, Z.of_nat (S c))) (seq k n).
Proof. induction n as [|n IH]; intros k; [reflexivity|]. cbn [seq flat_map app serials map]. replace (Z.of_nat k + 1)%Z with (Z.of_nat (S k)) by lia. now rewrite IH. Qed.
Print Assumptions C57_sequential.
Example C57_ex : serials [SAdd 0; SLoad 0; SAdd 1; SAdd 2; SLoad 2; SAdd 3; SLoad 1; SLoad 3] 0 = [(0%nat, 1%Z); (2%nat, 3%Z); (1%nat, 4%Z); (3%nat, 4%Z)].
Proof. reflexivity. Qed.
(* Two concurrent calls can get the same serial. *)
Theorem C57_duplicate_serial_refuted : serials [SAdd 0; SAdd 1; SLoad 0; SLoad 1] 0 = [(0%nat, 2%Z); (1%nat, 2%Z)].
Proof. reflexivity. Qed.
Print Assumptions C57_duplicate_serial_refuted.
(* ================= C63 ================= *)
Definition of_type (ip_ok : gstr -> bool) (ty : ssan) (sans : list gstr) : list gstr := List.filter (fun s => match ss_type ip_ok s, ty with SsUri, SsUri | SsEmail, SsEmail | SsIp, SsIp | SsDns, SsDns => true | _, _ => false end) sans.
Lemma fill_spec : forall ip_ok url_ok sans t t', fill_sans ip_ok url_ok sans t = Some t' ->
  t_emails t' = t_emails t ++ of_type ip_ok SsEmail sans /\ t_ips t' = t_ips t ++ of_type ip_ok SsIp sans /\ t_dns t' = t_dns t ++ of_type ip_ok SsDns sans /\
  t_uris t' = match rev (of_type ip_ok SsUri sans) with [] => t_uris t | u :: _ => [u] end.
Proof.
  induction sans as [|s sans IH]; intros t t' H; cbn in H; [injection H as <-; cbn; rewrite !app_nil_r; auto|]. unfold of_type in *. cbn [List.filter].
  destruct (ss_type ip_ok s) eqn:E; [destruct (url_ok s); [|discriminate]| | |]; apply IH in H; cbn [t_emails t_ips t_dns t_uris] in H; destruct H as (H1 & H2 & H3 & H4); cbn [rev]; rewrite H1, H2, H3, H4, <- ?app_assoc; repeat split; try reflexivity.
  destruct (rev (List.filter _ sans)) as [|u r]; reflexivity.
Qed.
(* An issued certificate carries every requested e-mail, IP and DNS name, nothing else of these kinds, and the last URI. *)
Theorem C63_sans : forall ip_ok url_ok sans t, fill_sans ip_ok url_ok sans template0 = Some t ->
  t_emails t = of_type ip_ok SsEmail sans /\ t_ips t = of_type ip_ok SsIp sans /\ t_dns t = of_type ip_ok SsDns sans /\ ((length (of_type ip_ok SsUri sans) <= 1)%nat -> t_uris t = of_type ip_ok SsUri sans).
Proof.
  intros ip_ok url_ok sans t H. apply fill_spec in H. cbn [t_emails t_ips t_dns t_uris template0 app] in H. destruct H as (-> & -> & -> & ->). repeat split. intros Hl. destruct (of_type ip_ok SsUri sans) as [|u [|v r]]; [reflexivity|reflexivity|cbn in Hl; lia].
Qed.
Print Assumptions C63_sans.
(* With more than one URI only the last is in the certificate. *)
Theorem C63_uri_dropped_refuted : forall ip_ok url_ok sans t u v, fill_sans ip_ok url_ok sans template0 = Some t -> of_type ip_ok SsUri sans = [u; v] -> t_uris t = [v].
Proof. intros ip_ok url_ok sans t u v H Hu. apply fill_spec in H. destruct H as (_ & _ & _ & H). rewrite Hu in H. exact H. Qed.
Print Assumptions C63_uri_dropped_refuted.
Example C63_ex : fill_sans (fun _ => false) (fun _ => true) [lit "a.example"; lit "spiffe://td/x"; lit "me@a.example"; lit "b.example"] template0 = Some (mktpl [lit "spiffe://td/x"] [lit "me@a.example"] [] [lit "a.example"; lit "b.example"]) /\
  fill_sans (fun _ => false) (fun _ => true) [lit "spiffe://td/x"; lit "spiffe://td/y"] template0 = Some (mktpl [lit "spiffe://td/y"] [] [] []).
Proof. split; reflexivity. Qed.
(* ================= added after seeded-bug tests ================= *)
(* After a check that works, every webhook gets the CA certificate that is on disk. *)
Theorem C54_webhooks_get_ca : forall L dns f now c order f' co renewed webhooks, (forall n, In n order) -> check_certificate L dns (RWorks c order) f now = (f', co, renewed) ->
  exists ca, f_ca f' = Some ca /\ after_check (S webhooks) co = ASet ca.
Proof.
  intros L dns f now c order f' co renewed w Ho H. unfold check_certificate, verify_certificate in H. destruct (from_directory f) as [c0|] eqn:E.
  - destruct (forallb _ _) in H; cbn [renew] in H; injection H as <- <- <-.
    + apply from_dir in E. destruct E as (E & _). exists (c_ca c0). auto.
    + destruct (write_all c order f Ho) as (A & _). exists (c_ca c). auto.
  - cbn [renew] in H. injection H as <- <- <-. destruct (write_all c order f Ho) as (A & _). exists (c_ca c). auto.
Qed.
Print Assumptions C54_webhooks_get_ca.
(* The files are not replaced together: if writing fails (or the process dies) after the server certificate, the directory holds
   the new certificate with the old key. *)
Theorem C54_torn_write_refuted : forall L dns now c old, ~ good_at L old dns (plus_half L now) ->
  let f := mkfiles (Some (c_ca old)) (Some (c_cakey old)) (Some (c_srv old)) (Some (c_srvkey old)) in
  check_certificate L dns (RWriteFails c [FSrv]) f now = (mkfiles (Some (c_ca old)) (Some (c_cakey old)) (Some (c_srv c)) (Some (c_srvkey old)), None, true).
Proof.
  intros L dns now c old Hb f. pose proof (C54_renewed_iff L dns (RWriteFails c [FSrv]) f now) as R. destruct (check_certificate L dns (RWriteFails c [FSrv]) f now) as [[f' co] rn] eqn:E. specialize (R f' co rn eq_refl).
  destruct rn.
  - unfold check_certificate in E. destruct (verify_certificate L dns f now) as [v c']. destruct v; [discriminate|]. cbn in E. injection E as <- <-. reflexivity.
  - exfalso. destruct (proj1 R eq_refl) as (c0 & (A & B & C & D) & G). cbn in A, B, C, D. apply Hb. destruct old, c0. cbn in *. congruence.
Qed.
Print Assumptions C54_torn_write_refuted.
Example C54_torn_ex : let old := mkcert 12 99 10 11 in ~ good_at toy old [] (plus_half toy 100) /\ keypair_ok toy (c_srv (mkcert 102 0 100 101)) (c_srvkey old) = false.
Proof. split; [intros (_ & _ & _ & _ & _ & C); cbn in C; lia|reflexivity]. Qed.
(* The type of a requested name, by its text. *)
Theorem C63_type : forall ip_ok s, let uri := exists a b, s = a ++ lit "://" ++ b in let at_ := exists a b, s = a ++ lit "@" ++ b in
  (ss_type ip_ok s = SsUri <-> uri) /\ (ss_type ip_ok s = SsEmail <-> ~ uri /\ at_) /\ (ss_type ip_ok s = SsIp <-> ~ uri /\ ~ at_ /\ ip_ok s = true) /\ (ss_type ip_ok s = SsDns <-> ~ uri /\ ~ at_ /\ ip_ok s = false).
Proof.
  intros ip_ok s uri at_. unfold ss_type. assert (U: gcontains s (lit "://") = true <-> uri) by apply gcontains_spec. assert (A: gcontains s (lit "@") = true <-> at_) by apply gcontains_spec.
  destruct (gcontains s (lit "://")); destruct (gcontains s (lit "@")); destruct (ip_ok s); intuition (discriminate || auto).
Qed.
Print Assumptions C63_type.
(* Every requested name is in the template, in the field of its type, unless it is a URI followed by another URI. *)
Theorem C63_every_name : forall ip_ok url_ok sans t s, fill_sans ip_ok url_ok sans template0 = Some t -> In s sans ->
  match ss_type ip_ok s with SsEmail => In s (t_emails t) | SsIp => In s (t_ips t) | SsDns => In s (t_dns t) | SsUri => (forall pre post, sans = pre ++ s :: post -> (forall x, In x post -> ss_type ip_ok x <> SsUri) -> t_uris t = [s]) end.
Proof.
  intros ip_ok url_ok sans t s H Hs. apply fill_spec in H. cbn [t_emails t_ips t_dns t_uris template0 app] in H. destruct H as (-> & -> & -> & ->).
  destruct (ss_type ip_ok s) eqn:E; try (unfold of_type; apply filter_In; split; [assumption|]; rewrite E; reflexivity).
  intros pre post -> Hp. assert (F: of_type ip_ok SsUri (pre ++ s :: post) = of_type ip_ok SsUri pre ++ [s]).
  { unfold of_type. rewrite filter_app. cbn [List.filter]. rewrite E. f_equal. f_equal. clear Hs. induction post as [|x post IH]; [reflexivity|]. cbn [List.filter]. pose proof (Hp x (or_introl eq_refl)) as Hx. destruct (ss_type ip_ok x); [congruence| | |]; apply IH; intros y Hy; apply Hp; now right. }
  rewrite F, rev_app_distr. reflexivity.
Qed.
Print Assumptions C63_every_name.
