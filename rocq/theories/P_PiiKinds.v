(* C76: what the expressions of the PII filter match. *)
From Coq Require Import String List Ascii Bool Arith Lia.
From Verif Require Import M_GoStr L_GoStr M_Regex S_Regex L_Regex L_Lang M_Pii S_PiiKinds P_Pii.
Import ListNotations.
Open Scope list_scope.

Lemma range_iff : forall lo hi a, between lo hi a = true <-> in_range lo hi a.
Proof. intros. unfold between, in_range. rewrite andb_true_iff, !Nat.leb_le. tauto. Qed.
Lemma digit_iff : forall a, digit a = true <-> Digit a. Proof. intros. apply range_iff. Qed.
Lemma alpha_iff : forall a, alpha a = true <-> Upper a \/ Lower a. Proof. intros. unfold alpha. rewrite orb_true_iff, !range_iff. reflexivity. Qed.
Lemma alnum_iff : forall a, alnum a = true <-> Alnum a. Proof. intros. unfold alnum, Alnum. rewrite orb_true_iff, digit_iff, alpha_iff. reflexivity. Qed.
Lemma word_iff : forall a, word a = true <-> Word a. Proof. intros. unfold word, Word, Alnum. rewrite !orb_true_iff, digit_iff, !range_iff, Ascii.eqb_eq. unfold Upper, Lower. tauto. Qed.
Lemma hex_iff : forall a, hexd a = true <-> Hex a. Proof. intros. unfold hexd, Hex. rewrite !orb_true_iff, digit_iff, !range_iff. tauto. Qed.
Lemma lhex_iff : forall a, lhex a = true <-> Digit a \/ in_range 97 102 a. Proof. intros. unfold lhex. rewrite !orb_true_iff, digit_iff, !range_iff. tauto. Qed.
Lemma isin_iff : forall s a, isin s a = true <-> among s a.
Proof. intros. unfold isin, among, lit. rewrite existsb_exists. split; [intros (x & Hx & E); apply Ascii.eqb_eq in E; now subst|intros H; exists a; split; [exact H|apply Ascii.eqb_refl]]. Qed.
Lemma blank_iff : forall a, space a = true <-> Blank a.
Proof. intros. unfold space, Blank. rewrite !orb_true_iff, !Nat.eqb_eq. cbn [In]. intuition congruence. Qed.
Lemma up_alnum_iff : forall a, up_alnum a = true <-> Digit a \/ Upper a. Proof. intros. unfold up_alnum. rewrite orb_true_iff, digit_iff, range_iff. reflexivity. Qed.
Lemma mac_iff : forall a, mac_b a = true <-> mac_byte a. Proof. intros. unfold mac_b, mac_byte. rewrite orb_true_iff, digit_iff, range_iff. reflexivity. Qed.
Lemma or_iff : forall (f g : ascii -> bool) (F H : ascii -> Prop), (forall a, f a = true <-> F a) -> (forall a, g a = true <-> H a) -> forall a, f a || g a = true <-> F a \/ H a.
Proof. intros f g F H A B a. now rewrite orb_true_iff, A, B. Qed.
Lemma over_iff : forall f K, (forall a, f a = true <-> K a) -> forall u, over f u <-> Forall K u.
Proof. intros f K H u. unfold over. split; apply Forall_impl; intros a; apply H. Qed.

Lemma lang_s : forall s u, lang (s' s) u <-> u = lit s. Proof. intros. apply lang_str. Qed.
Section Cls.
Variables (f : ascii -> bool) (K : ascii -> Prop).
Hypothesis FK : forall a, f a = true <-> K a.
Lemma k_exactly : forall n u, lang (rep n (Cls f)) u <-> exactly n K u.
Proof. intros. rewrite lang_rep_cls. unfold exactly. now rewrite (over_iff f K FK). Qed.
Lemma k_plus : forall g u, lang (plus g f) u <-> min 1 K u.
Proof. intros. rewrite lang_plus. unfold min. rewrite (over_iff f K FK). destruct u; cbn; intuition (try congruence; lia). Qed.
Lemma k_one_to : forall n u, 1 <= n -> (lang (one_to n f) u <-> range 1 n K u).
Proof.
  intros n u Hn. unfold one_to, range. cbn [lang]. rewrite <- (over_iff f K FK). split.
  - intros (x & y & -> & (a & -> & Ha) & Hy). apply lang_upto_cls in Hy. destruct Hy as [Hl Hy]. cbn [app length]. split; [lia|]. now constructor.
  - intros [Hl Ho]. destruct u as [|a u]; [cbn in Hl; lia|]. pose proof (Forall_inv Ho). pose proof (Forall_inv_tail Ho). exists [a], u. split; [reflexivity|]. split; [exists a; auto|]. apply lang_upto_cls. cbn in Hl. split; [lia|assumption].
Qed.
Lemma k_atleast : forall n u, lang (atleast n f) u <-> min n K u.
Proof.
  intros n u. unfold atleast, min. cbn [lang]. rewrite <- (over_iff f K FK). split.
  - intros (x & y & -> & Hx & Hy). apply lang_rep_cls in Hx. destruct Hx as [<- Hx]. rewrite app_length. split; [lia|]. now apply Forall_app.
  - intros [Hl Ho]. exists (firstn n u), (skipn n u). split; [symmetry; apply firstn_skipn|]. rewrite <- (firstn_skipn n u) in Ho. apply Forall_app in Ho. destruct Ho as [H1 H2]. split; [|exact H2]. apply lang_rep_cls. split; [apply firstn_length_le, Hl|exact H1].
Qed.
Lemma k_cls : forall u, lang (Cls f) u <-> exists a, u = [a] /\ K a.
Proof. intros. cbn [lang]. split; intros (a & -> & H); exists a; (split; [reflexivity|]); now apply FK. Qed.
End Cls.

(* --- word boundaries --- *)
Lemma hd_word_at : forall s i, i <= length s -> (hd_word (rev (firstn i s)) = true <-> word_at s i).
Proof.
  intros s i Hi. destruct i as [|k]; [cbn; split; [discriminate|tauto]|]. cbn [word_at]. destruct (nth_error s k) as [a|] eqn:E; [|apply nth_error_None in E; lia].
  assert (Hf: firstn (S k) s = firstn k s ++ [a]). { clear Hi. revert k E. induction s as [|b s IH]; intros [|k] E; try discriminate; [now injection E as ->|]. cbn. f_equal. now apply IH. }
  rewrite Hf, rev_app_distr. cbn [rev app hd_word]. rewrite word_iff. split; [eauto|intros (b & Hb & Hw); now injection Hb as <-].
Qed.
Lemma hd_word_next : forall s i, hd_word (skipn i s) = true <-> word_at s (S i).
Proof.
  intros s i. cbn [word_at]. assert (H: nth_error s i = nth_error (skipn i s) 0). { revert i. induction s as [|b s IH]; intros [|i]; try reflexivity. apply IH. }
  rewrite H. destruct (skipn i s) as [|a r]; cbn [hd_word nth_error]; [split; [discriminate|intros (b & Hb & _); discriminate]|]. rewrite word_iff. split; [eauto|intros (b & Hb & Hw); now injection Hb as <-].
Qed.
Lemma edge_iff : forall s i, i <= length s -> (boundary (rev (firstn i s)) (skipn i s) <-> edge s i).
Proof.
  intros s i Hi. unfold boundary, edge. rewrite <- hd_word_at by exact Hi. rewrite <- hd_word_next. destruct (hd_word (rev (firstn i s))), (hd_word (skipn i s)); intuition congruence.
Qed.
Lemma matches_word : forall pre u post, matches WordB pre u post <-> u = [] /\ boundary pre post.
Proof. intros. split; [intros M; inversion M; subst; auto|intros [-> H]; now constructor]. Qed.
Lemma matches_seq : forall a b pre w post, matches (Seq a b) pre w post <-> exists u v, w = u ++ v /\ matches a pre u (v ++ post) /\ matches b (rev u ++ pre) v post.
Proof. intros. split; [intros M; inversion M; subst; eauto|intros (u & v & -> & A & B); now constructor]. Qed.
Lemma matches_bounded : forall r pre u post, matches (bounded r) pre u post <-> boundary pre (u ++ post) /\ matches r pre u post /\ boundary (rev u ++ pre) post.
Proof.
  intros r pre u post. unfold bounded. cbn [seqs]. rewrite matches_seq. split.
  - intros (x & y & -> & A & B). apply matches_word in A. destruct A as [-> A]. cbn [app rev] in *. rewrite matches_seq in B. destruct B as (x & z & -> & B & C). apply matches_word in C. destruct C as [-> C]. rewrite app_nil_r in *. cbn [app] in *. auto.
  - intros (A & B & C). exists [], u. split; [reflexivity|]. split; [now apply matches_word|]. cbn [app rev]. rewrite matches_seq. exists u, []. split; [now rewrite app_nil_r|]. split; [exact B|]. now apply matches_word.
Qed.
Lemma skip_skip : forall (s : gstr) a b, skipn a (skipn b s) = skipn (a + b) s.
Proof. induction s as [|c s IH]; intros a b; [now rewrite !skipn_nil|]. destruct b as [|b]; [now rewrite Nat.add_0_r|]. cbn [skipn]. rewrite IH. replace (a + S b) with (S (a + b)) by lia. reflexivity. Qed.
Lemma slice_rest : forall (s : gstr) i j, i <= j <= length s -> firstn (j - i) (skipn i s) ++ skipn j s = skipn i s.
Proof. intros s i j H. replace (skipn j s) with (skipn (j - i) (skipn i s)); [apply firstn_skipn|]. rewrite skip_skip. f_equal. lia. Qed.
Lemma slice_before : forall (s : gstr) i j, i <= j <= length s -> rev (firstn (j - i) (skipn i s)) ++ rev (firstn i s) = rev (firstn j s).
Proof.
  intros s i j H. rewrite <- rev_app_distr. f_equal. rewrite <- (firstn_skipn i s) at 3. rewrite firstn_app, firstn_firstn, firstn_length. replace (Nat.min j i) with i by lia. replace (Nat.min i (length s)) with i by lia. reflexivity.
Qed.
Lemma bounded_kind : forall r K, (forall pre u post, boundary pre (u ++ post) -> boundary (rev u ++ pre) post -> (matches r pre u post <-> K u)) ->
  forall s i j, matches_at (bounded r) s i j <-> is_kind (K, true) s i j.
Proof.
  intros r K H s i j. unfold matches_at, is_kind. cbn [fst snd]. split.
  - intros [Hij M]. apply matches_bounded in M. destruct M as (A & B & C). split; [exact Hij|]. split; [eapply H; eassumption|]. intros _. rewrite slice_rest in A by exact Hij. rewrite slice_before in C by exact Hij. split; apply edge_iff; [lia|exact A|lia|exact C].
  - intros (Hij & Hk & He). destruct (He eq_refl) as [A C]. apply edge_iff in A; [|lia]. apply edge_iff in C; [|lia]. split; [exact Hij|]. apply matches_bounded. rewrite slice_rest, slice_before by exact Hij. split; [exact A|]. split; [|exact C]. apply H; rewrite ?slice_rest, ?slice_before by exact Hij; assumption.
Qed.
Lemma plain_bounded : forall r K, plain_rx r = true -> (forall u, lang r u <-> K u) -> forall s i j, matches_at (bounded r) s i j <-> is_kind (K, true) s i j.
Proof. intros r K Hp H. apply bounded_kind. intros. rewrite matches_lang by exact Hp. apply H. Qed.
Lemma plain_free : forall r K, plain_rx r = true -> (forall u, lang r u <-> K u) -> forall s i j, matches_at r s i j <-> is_kind (K, false) s i j.
Proof. intros r K Hp H s i j. unfold matches_at, is_kind. rewrite matches_lang by exact Hp. rewrite H. cbn [fst snd]. intuition congruence. Qed.

(* --- the kinds --- *)
Ltac atom_in H :=
  first [ apply lang_s in H | apply (k_exactly _ _ digit_iff) in H | apply (k_exactly _ _ hex_iff) in H | apply (k_exactly _ _ word_iff) in H | apply (k_exactly _ _ alnum_iff) in H
        | apply (k_exactly _ _ mac_iff) in H | apply (k_plus _ _ digit_iff) in H | apply (k_plus _ _ word_iff) in H | apply (k_plus _ _ lhex_iff) in H ].
Ltac atom :=
  first [ apply lang_s; reflexivity | apply (k_exactly _ _ digit_iff); assumption | apply (k_exactly _ _ hex_iff); assumption | apply (k_exactly _ _ word_iff); assumption | apply (k_exactly _ _ alnum_iff); assumption
        | apply (k_exactly _ _ mac_iff); assumption | apply (k_plus _ _ digit_iff); assumption | apply (k_plus _ _ word_iff); assumption | apply (k_plus _ _ lhex_iff); assumption ].
Ltac one_in H := let x := fresh "x" in let y := fresh "y" in let A := fresh "A" in apply lang_seqs_cons in H; destruct H as (x & y & -> & A & H); try atom_in A; try subst x.
Ltac build := repeat (apply lang_seqs_cons; do 2 eexists; split; [reflexivity|]; split; [try atom|]); try atom.

Ltac fin := repeat match goal with |- _ /\ _ => split end; [ .. | reflexivity ]; assumption.
Lemma ssn_kind : forall u, lang (seqs [d 3; s' "-"; d 2; s' "-"; d 4]) u <-> ssn_text u.
Proof.
  intros u. split.
  - intros H. do 4 one_in H. cbn [seqs] in H. atom_in H. unfold ssn_text. do 3 eexists. fin.
  - intros (a & b & c & A & B & C & ->). build.
Qed.
Lemma card_kind : forall u, lang (seqs [d 4; s' "-"; d 4; s' "-"; d 4; s' "-"; d 4]) u <-> card_text u.
Proof.
  intros u. split.
  - intros H. do 6 one_in H. cbn [seqs] in H. atom_in H. unfold card_text. do 4 eexists. fin.
  - intros (a & b & c & e & A & B & C & E & ->). build.
Qed.
Lemma uuid_kind : forall u, lang (seqs [hexes 8; s' "-"; hexes 4; s' "-"; hexes 4; s' "-"; hexes 4; s' "-"; hexes 12]) u <-> uuid_text u.
Proof.
  intros u. split.
  - intros H. do 8 one_in H. cbn [seqs] in H. atom_in H. unfold uuid_text. do 5 eexists. fin.
  - intros (a & b & c & e & f & A & B & C & E & F & ->). build.
Qed.
Lemma email_kind : forall u, lang email u <-> email_text u.
Proof.
  assert (L: forall a, alnum a || isin "._%+-" a = true <-> Alnum a \/ among "._%+-" a) by (apply or_iff; [apply alnum_iff|apply isin_iff]).
  assert (H2: forall a, alnum a || isin ".-" a = true <-> Alnum a \/ among ".-" a) by (apply or_iff; [apply alnum_iff|apply isin_iff]).
  intros u. split.
  - unfold email. intros H. do 4 one_in H. cbn [seqs] in H. apply (k_plus _ _ L) in A. apply (k_plus _ _ H2) in A0. apply (k_atleast _ _ alpha_iff) in H. unfold email_text. do 3 eexists. fin.
  - intros (a & b & c & A & B & C & ->). unfold email. build; [apply (k_plus _ _ L)|apply (k_plus _ _ H2)|apply (k_atleast _ _ alpha_iff)]; assumption.
Qed.
Lemma sep_kind : forall u, lang sep u <-> exists a, u = [a] /\ (Blank a \/ among ".-" a).
Proof. intros u. unfold sep. apply k_cls. apply or_iff; [apply blank_iff|apply isin_iff]. Qed.
Lemma phone_kind : forall u, lang (seqs [opt (seqs [s' "+"; one_to 2 digit; Cls space]); opt (s' "("); d 3; opt (s' ")"); sep; d 3; sep; d 4]) u <-> phone_text u.
Proof.
  intros u. split.
  - intros H. do 7 one_in H. cbn [seqs] in H. atom_in H. apply sep_kind in A3. destruct A3 as (s1 & -> & S1). apply sep_kind in A5. destruct A5 as (s2 & -> & S2). apply lang_opt in A0. apply lang_opt in A2.
    apply lang_opt in A. unfold phone_text. do 8 eexists. split; [|split; [|split; [exact A1|split; [|split; [exact S1|split; [exact A4|split; [exact S2|split; [exact H|reflexivity]]]]]]]].
    + destruct A as [A|A]; [now left|right]. do 2 one_in A. cbn [seqs] in A. apply (k_one_to _ _ digit_iff) in A3; [|lia]. apply (k_cls _ _ blank_iff) in A. destruct A as (b & -> & Hb). do 2 eexists. fin.
    + destruct A0 as [A0|A0]; [now left|right]. now apply lang_s.
    + destruct A2 as [A2|A2]; [now left|right]. now apply lang_s.
  - intros (cc & l & a & r & s1 & b & s2 & c & C & L & A & R & S1 & B & S2 & E & ->). build.
    + apply lang_opt. destruct C as [C|(n & b' & N & Bl & ->)]; [now left|right]. build; [apply (k_one_to _ _ digit_iff); [lia|exact N]|apply (k_cls _ _ blank_iff); eauto].
    + apply lang_opt. destruct L as [L|L]; [now left|right; now apply lang_s].
    + apply lang_opt. destruct R as [R|R]; [now left|right; now apply lang_s].
    + apply sep_kind. eauto.
    + apply sep_kind. eauto.
Qed.
Lemma lang_alts : forall l r u, lang (alts (r :: l)) u <-> exists x, In x (r :: l) /\ lang x u.
Proof.
  unfold alts. induction l as [|b l IH]; intros r u; cbn [fold_left].
  - split; [intros H; exists r; split; [now left|exact H]|intros (x & [<-|[]] & H); exact H].
  - rewrite IH. cbn [In]. split.
    + intros (x & [<-|Hx] & H); [destruct H as [H|H]; eauto|eauto].
    + intros (x & [<-|[<-|Hx]] & H); [exists (Alt r b); split; [now left|now left]|exists (Alt r b); split; [now left|now right]|exists x; auto].
Qed.
Lemma lang_words : forall l w u, lang (alts (map s' (w :: l))) u <-> In u (map lit (w :: l)).
Proof.
  intros l w u. cbn [map]. rewrite lang_alts. change (s' w :: map s' l) with (map s' (w :: l)). change (lit w :: map lit l) with (map lit (w :: l)). split.
  - intros (x & Hx & H). apply in_map_iff in Hx. destruct Hx as (s & <- & Hs). apply lang_s in H. subst u. now apply in_map.
  - intros H. apply in_map_iff in H. destruct H as (s & <- & Hs). exists (s' s). split; [now apply in_map|now apply lang_s].
Qed.
Lemma aws_id_kind : forall u, lang (Seq (alts (map s' ["AKIA"; "A3T"; "AGPA"; "AIDA"; "AROA"; "AIPA"; "ANPA"; "ANVA"; "ASIA"]%string)) (atleast 12 up_alnum)) u <-> aws_id_text u.
Proof.
  intros u. split.
  - intros (p & r & -> & A & B). apply lang_words in A. apply (k_atleast _ _ up_alnum_iff) in B. exists p, r. auto.
  - intros (p & r & A & B & ->). exists p, r. split; [reflexivity|]. split; [now apply lang_words|now apply (k_atleast _ _ up_alnum_iff)].
Qed.
Lemma github_kind : forall u, lang (seqs [alts (map s' ["ghp"; "gho"; "ghu"; "ghs"]%string); s' "_"; rep 36 (Cls word)]) u <-> github_text u.
Proof.
  intros u. split.
  - intros H. do 2 one_in H. cbn [seqs] in H. atom_in H. apply lang_words in A. exists x, y0. auto.
  - intros (p & r & A & B & ->). build. now apply lang_words.
Qed.
Lemma google_key_kind : forall u, lang (Seq (s' "AIza") (rep 35 (Cls (fun a => alnum a || isin "-_" a)))) u <-> google_key_text u.
Proof.
  assert (L: forall a, alnum a || isin "-_" a = true <-> Alnum a \/ among "-_" a) by (apply or_iff; [apply alnum_iff|apply isin_iff]).
  intros u. split.
  - intros (x & k & -> & A & B). apply lang_s in A. subst x. apply (k_exactly _ _ L) in B. exists k. auto.
  - intros (k & B & ->). do 2 eexists. split; [reflexivity|]. split; [atom|now apply (k_exactly _ _ L)].
Qed.
Lemma google_id_kind : forall u, lang (seqs [plus true digit; s' "-"; rep 32 (Cls word); s' ".apps.googleusercontent.com"]) u <-> google_id_text u.
Proof.
  intros u. split.
  - intros H. do 3 one_in H. cbn [seqs] in H. apply lang_s in H. subst. unfold google_id_text. do 2 eexists. fin.
  - intros (n & k & A & B & ->). build.
Qed.
Lemma stripe_kind : forall u, lang (seqs [Alt (s' "r") (s' "s"); s' "k_"; Alt (s' "test") (s' "live"); s' "_"; rep 24 (Cls alnum)]) u <-> stripe_text u.
Proof.
  intros u. split.
  - intros H. do 4 one_in H. cbn [seqs] in H. atom_in H. cbn [lang] in A, A0. rewrite !lang_s in A, A0. unfold stripe_text. do 3 eexists. split; [exact A|]. split; [exact A0|]. split; [exact H|reflexivity].
  - intros (p & m & k & A & B & C & ->). build; cbn [lang]; rewrite !lang_s; assumption.
Qed.
Lemma firebase_kind : forall u, lang (Seq (one_to 30 (fun a => digit a || between 97 122 a || isin "-" a)) (s' ".firebaseapp.com")) u <-> firebase_text u.
Proof.
  assert (L: forall a, digit a || between 97 122 a || isin "-" a = true <-> Digit a \/ Lower a \/ a = "-"%char).
  { intros a. rewrite !orb_true_iff, digit_iff, range_iff, isin_iff. unfold among. cbn [list_ascii_of_string In]. unfold Lower. intuition congruence. }
  intros u. split.
  - intros (k & x & -> & A & B). apply lang_s in B. subst x. apply (k_one_to _ _ L) in A; [|lia]. exists k. auto.
  - intros (k & A & ->). do 2 eexists. split; [reflexivity|]. split; [apply (k_one_to _ _ L); [lia|exact A]|atom].
Qed.
Lemma slack_kind : forall u, lang (seqs [s' "xapp-"; plus true digit; s' "-"; plus true word; s' "-"; plus true digit; s' "-"; plus true lhex]) u <-> slack_text u.
Proof.
  intros u. split.
  - intros H. do 7 one_in H. cbn [seqs] in H. atom_in H. unfold slack_text. do 4 eexists. fin.
  - intros (a & b & c & e & A & B & C & E & ->). build.
Qed.
Lemma github_pat_kind : forall u, lang (Seq (s' "github_pat_") (rep 82 (Cls word))) u <-> github_pat_text u.
Proof.
  intros u. split.
  - intros (x & k & -> & A & B). apply lang_s in A. subst x. atom_in B. exists k. auto.
  - intros (k & B & ->). do 2 eexists. split; [reflexivity|]. split; atom.
Qed.
Lemma secret_kind : forall u, lang env_val u <-> secret u.
Proof. intros u. unfold env_val, secret. apply k_plus. apply or_iff; [apply alnum_iff|apply isin_iff]. Qed.
Lemma env_kind : forall name full, lit full = lit name ++ lit "=" -> forall u, lang (Seq (s' full) env_val) u <-> env_text name u.
Proof.
  intros name full E u. split.
  - intros (x & v & -> & A & B). apply lang_s in A. subst x. apply secret_kind in B. exists v. split; [exact B|]. rewrite E. now rewrite <- app_assoc.
  - intros (v & B & ->). exists (lit full), v. split; [rewrite E; now rewrite <- app_assoc|]. split; [now apply lang_s|now apply secret_kind].
Qed.
Lemma database_kind : forall u, lang db_env u <-> database_text u.
Proof.
  intros u. unfold db_env. split.
  - intros H. do 7 one_in H. cbn [seqs] in H. atom_in H. cbn [lang] in A. rewrite !lang_s in A. unfold database_text. do 4 eexists. split; [exact A|]. fin.
  - intros (p & a & b & c & P & A & B & C & ->). build. cbn [lang]. rewrite !lang_s. exact P.
Qed.
(* IPv6 *)
Lemma grp_kind : forall u, lang hexgrp u <-> exists x, range 1 4 Hex x /\ u = x ++ lit ":".
Proof.
  intros u. unfold hexgrp. split.
  - intros (x & y & -> & A & B). apply lang_s in B. subst y. apply (k_one_to _ _ hex_iff) in A; [|lia]. eauto.
  - intros (x & A & ->). do 2 eexists. split; [reflexivity|]. split; [apply (k_one_to _ _ hex_iff); [lia|exact A]|atom].
Qed.
Lemma grps : forall ws, Forall (lang hexgrp) ws <-> exists gs, Forall (range 1 4 Hex) gs /\ ws = map (fun x => x ++ lit ":") gs.
Proof.
  intros ws. split.
  - intros H. induction H as [|w ws Hw _ (gs & Hg & ->)]; [exists []; split; [constructor|reflexivity]|]. apply grp_kind in Hw. destruct Hw as (x & Hx & ->). exists (x :: gs). split; [now constructor|reflexivity].
  - intros (gs & H & ->). induction H as [|x gs Hx _ IH]; [constructor|]. constructor; [apply grp_kind; eauto|exact IH].
Qed.
Lemma ipv6_kind : forall u, lang (Seq (Alt (Seq (Seq hexgrp (upto 5 hexgrp)) (s' ":")) (rep 7 hexgrp)) (one_to 4 hexd)) u <-> ipv6_text u.
Proof.
  intros u. split.
  - intros (x & g & -> & A & B). apply (k_one_to _ _ hex_iff) in B; [|lia]. destruct A as [(y & z & -> & (a & b & -> & A1 & A2) & A3)|A].
    + apply lang_s in A3. subst z. apply lang_upto in A2. destruct A2 as (ws & Hl & Hf & ->). apply grps in Hf. destruct Hf as (gs & Hg & ->). apply grp_kind in A1. destruct A1 as (x & Hx & ->). rewrite map_length in Hl.
      exists (x :: gs), g. split; [now constructor|]. split; [exact B|]. left. cbn [length]. split; [unfold gstr in *; lia|]. cbn [map concat]. rewrite <- !app_assoc. reflexivity.
    + apply lang_rep in A. destruct A as (ws & Hl & Hf & ->). apply grps in Hf. destruct Hf as (gs & Hg & ->). rewrite map_length in Hl. exists gs, g. auto.
  - intros (gs & g & Hg & B & [[Hl ->]|[Hl ->]]).
    + destruct gs as [|x gs]; [cbn in Hl; lia|]. pose proof (Forall_inv Hg) as Hx. pose proof (Forall_inv_tail Hg) as Hgs. exists (concat (map (fun x => x ++ lit ":") (x :: gs)) ++ lit ":"), g. split; [now rewrite <- app_assoc|].
      split; [|apply (k_one_to _ _ hex_iff); [lia|exact B]]. left. do 2 eexists. split; [reflexivity|]. split; [|atom]. cbn [map concat]. do 2 eexists. split; [reflexivity|]. split; [apply grp_kind; eauto|].
      apply lang_upto. exists (map (fun x => x ++ lit ":") gs). split; [rewrite map_length; exact (le_S_n _ _ (proj2 Hl))|]. split; [|reflexivity]. apply grps. eauto.
    + do 2 eexists. split; [reflexivity|]. split; [|apply (k_one_to _ _ hex_iff); [lia|exact B]]. right. apply lang_rep. exists (map (fun x => x ++ lit ":") gs). split; [now rewrite map_length|]. split; [|reflexivity]. apply grps. eauto.
Qed.
(* MAC *)
Lemma pair_kind : forall s u, lang (mac_pair (isin s)) u <-> exists p, exactly 2 mac_byte (fst p) /\ among s (snd p) /\ u = fst p ++ [snd p].
Proof.
  intros s u. unfold mac_pair. split.
  - intros (x & y & -> & A & B). atom_in A. apply (k_cls _ _ (isin_iff s)) in B. destruct B as (a & -> & Ha). exists (x, a). auto.
  - intros ([x a] & A & B & ->). cbn [fst snd] in *. do 2 eexists. split; [reflexivity|]. split; [atom|]. apply (k_cls _ _ (isin_iff s)). eauto.
Qed.
Lemma pairs : forall s ws, Forall (lang (mac_pair (isin s))) ws <-> exists ps, Forall (fun p => exactly 2 mac_byte (fst p) /\ among s (snd p)) ps /\ ws = map (fun p => fst p ++ [snd p]) ps.
Proof.
  intros s ws. split.
  - intros H. induction H as [|w ws Hw _ (ps & Hp & ->)]; [exists []; split; [constructor|reflexivity]|]. apply pair_kind in Hw. destruct Hw as (p & H1 & H2 & ->). exists (p :: ps). split; [now constructor|reflexivity].
  - intros (ps & H & ->). induction H as [|p ps [H1 H2] _ IH]; [constructor|]. constructor; [apply pair_kind; eauto|exact IH].
Qed.
Lemma mac_kind : forall u, lang (Alt (Seq (rep 5 (mac_pair (isin "-:"))) (rep 2 (Cls mac_b))) (Seq (rep 5 (mac_pair (isin ":"))) (rep 2 (Cls mac_b)))) u <-> mac_text u.
Proof.
  assert (G: forall s u, (forall a, among s a -> among "-:" a) -> lang (Seq (rep 5 (mac_pair (isin s))) (rep 2 (Cls mac_b))) u -> mac_text u).
  { intros s u Hs (x & y & -> & A & B). atom_in B. apply lang_rep in A. destruct A as (ws & Hl & Hf & ->). apply pairs in Hf. destruct Hf as (ps & Hp & ->). rewrite map_length in Hl. exists ps, y. split; [exact Hl|]. split; [|auto]. eapply Forall_impl; [|exact Hp]. cbn beta. intros p [H1 H2]. auto. }
  intros u. split.
  - intros [H|H]; [eapply (G "-:"%string); [|exact H]; auto|eapply (G ":"%string); [|exact H]]. unfold among. cbn [list_ascii_of_string In]. tauto.
  - intros (ps & last & Hl & Hp & H & ->). left. do 2 eexists. split; [reflexivity|]. split; [|atom]. apply lang_rep. exists (map (fun p => fst p ++ [snd p]) ps). split; [now rewrite map_length|]. split; [|reflexivity]. apply pairs. eauto.
Qed.

(* IPv4 *)
Definition oct_rx : rx := Alt (Seq (s' "25") (Cls (between 48 53))) (Seq (alts [Seq (s' "2") (Cls (between 48 52)); Seq (s' "1") (Cls digit); opt (Cls (between 49 57))]) (Cls digit)).
Definition oct_check (u : gstr) : bool := existsb (fun n => geqb u (decimal 3 n)) (seq 0 256).
Lemma oct_check_ok : forall u, oct_check u = true -> octet u.
Proof. intros u H. unfold oct_check in H. apply existsb_exists in H. destruct H as (n & Hn & E). apply in_seq in Hn. exists n. split; [lia|]. now apply geqb_eq. Qed.
Lemma oct_one : forall (p : ascii -> gstr) (f : ascii -> bool), forallb (fun n => if f (ascii_of_nat n) then oct_check (p (ascii_of_nat n)) else true) (seq 0 256) = true -> forall a, f a = true -> octet (p a).
Proof. intros p f H a Ha. pose proof (all_bytes (fun a => if f a then oct_check (p a) else true) H a) as K. cbn beta in K. rewrite Ha in K. now apply oct_check_ok. Qed.
Lemma oct_two : forall (p : ascii -> ascii -> gstr) (f g : ascii -> bool),
  forallb (fun n => if f (ascii_of_nat n) then forallb (fun m => if g (ascii_of_nat m) then oct_check (p (ascii_of_nat n) (ascii_of_nat m)) else true) (seq 0 256) else true) (seq 0 256) = true ->
  forall a b, f a = true -> g b = true -> octet (p a b).
Proof.
  intros p f g H a b Ha Hb. pose proof (all_bytes (fun a => if f a then forallb (fun m => if g (ascii_of_nat m) then oct_check (p a (ascii_of_nat m)) else true) (seq 0 256) else true) H a) as K. cbn beta in K. rewrite Ha in K.
  eapply oct_one; eassumption.
Qed.
Lemma oct_kind : forall u, lang oct_rx u <-> octet u.
Proof.
  intros u. split.
  - intros [(x & y & -> & A & (c & -> & C))|(x & y & -> & A & (c & -> & C))].
    + apply lang_s in A. subst x. exact (oct_one (fun c => lit "25" ++ [c]) (between 48 53) ltac:(vm_compute; reflexivity) c C).
    + apply lang_alts in A. destruct A as (r & Hr & A). cbn [In] in Hr. destruct Hr as [<-|[<-|[<-|[]]]].
      * destruct A as (v & w & -> & V & (e & -> & E)). apply lang_s in V. subst v. exact (oct_two (fun e c => (lit "2" ++ [e]) ++ [c]) (between 48 52) digit ltac:(vm_compute; reflexivity) e c E C).
      * destruct A as (v & w & -> & V & (e & -> & E)). apply lang_s in V. subst v. exact (oct_two (fun e c => (lit "1" ++ [e]) ++ [c]) digit digit ltac:(vm_compute; reflexivity) e c E C).
      * apply lang_opt in A. destruct A as [->|(e & -> & E)]; [exact (oct_one (fun c => [] ++ [c]) digit ltac:(vm_compute; reflexivity) c C)|exact (oct_two (fun e c => [e] ++ [c]) (between 49 57) digit ltac:(vm_compute; reflexivity) e c E C)].
  - intros (n & Hn & ->). assert (K: forallb (fun n => match rm oct_rx [] (decimal 3 n) [] (fun _ q _ => match q with [] => Some tt | _ => None end) with Some _ => true | None => false end) (seq 0 256) = true) by (vm_compute; reflexivity).
    rewrite forallb_forall in K. specialize (K n (proj2 (in_seq _ _ _) (conj (Nat.le_0_l n) (le_n_S _ _ Hn)))). destruct (rm oct_rx [] (decimal 3 n) [] _) as [t|] eqn:E; [|discriminate].
    apply rm_sound in E. destruct E as (v & q & c & E1 & M & E2). destruct q; [|discriminate]. rewrite app_nil_r in E1. subst v. apply matches_lang in M; [exact M|reflexivity].
Qed.
Lemma octet_word : forall u, octet u -> forall x, hd_word (u ++ x) = true /\ hd_word (rev u ++ x) = true.
Proof.
  intros u (n & Hn & ->) x. assert (K: forallb (fun n => match decimal 3 n, rev (decimal 3 n) with a :: _, b :: _ => word a && word b | _, _ => false end) (seq 0 256) = true) by (vm_compute; reflexivity).
  rewrite forallb_forall in K. specialize (K n (proj2 (in_seq _ _ _) (conj (Nat.le_0_l n) (le_n_S _ _ Hn)))). destruct (decimal 3 n) as [|a u]; [discriminate|]. destruct (rev (a :: u)) as [|b v]; [discriminate|]. apply andb_true_iff in K. exact K.
Qed.
Definition quad : rx := seqs [oct_rx; opt (s' "."); WordB].
Lemma quad_kind : forall pre u post, matches quad pre u post <-> exists o dot, octet o /\ (dot = [] \/ dot = lit ".") /\ u = o ++ dot /\ boundary (rev u ++ pre) post.
Proof.
  intros pre u post. unfold quad. cbn [seqs]. rewrite matches_seq. split.
  - intros (o & v & -> & A & B). apply matches_lang in A; [|reflexivity]. apply oct_kind in A. apply matches_seq in B. destruct B as (e & w & -> & C & D). apply matches_word in D. destruct D as [-> D]. apply matches_lang in C; [|reflexivity]. apply lang_opt in C. rewrite lang_s in C.
    exists o, e. rewrite app_nil_r. split; [exact A|]. split; [exact C|]. split; [reflexivity|]. rewrite rev_app_distr, <- app_assoc. exact D.
  - intros (o & e & A & C & -> & D). exists o, e. split; [reflexivity|]. split; [apply matches_lang; [reflexivity|now apply oct_kind]|]. apply matches_seq. exists e, []. split; [now rewrite app_nil_r|]. split; [apply matches_lang; [reflexivity|]; apply lang_opt; now rewrite lang_s|].
    apply matches_word. split; [reflexivity|]. rewrite rev_app_distr, <- app_assoc in D. exact D.
Qed.
Lemma quad_dot : forall o e pre o' rest, octet o -> octet o' -> (e = [] \/ e = lit ".") -> (boundary (rev (o ++ e) ++ pre) (o' ++ rest) <-> e = lit ".").
Proof.
  intros o e pre o' rest O O' [->| ->]; unfold boundary; rewrite (proj1 (octet_word o' O' rest)).
  - rewrite app_nil_r, (proj2 (octet_word o O pre)). split; [congruence|discriminate].
  - rewrite rev_app_distr. cbn. split; [reflexivity|discriminate].
Qed.
Lemma ipv4_kind : forall pre u post, boundary (rev u ++ pre) post -> (matches (rep 4 quad) pre u post <-> ipv4_text u).
Proof.
  intros pre u post Hb. cbn [rep]. split.
  - intros M. apply matches_seq in M. destruct M as (u1 & v1 & -> & M1 & M). apply matches_seq in M. destruct M as (u2 & v2 & -> & M2 & M). apply matches_seq in M. destruct M as (u3 & u4 & -> & M3 & M4).
    apply quad_kind in M1. destruct M1 as (a & d1 & A & D1 & -> & B1). apply quad_kind in M2. destruct M2 as (b & d2 & B & D2 & -> & B2). apply quad_kind in M3. destruct M3 as (c & d3 & C & D3 & -> & B3). apply quad_kind in M4. destruct M4 as (e & d4 & E & D4 & -> & B4).
    assert (d1 = lit "." /\ d2 = lit "." /\ d3 = lit ".") as (-> & -> & ->).
    { split; [|split].
      - apply (quad_dot a d1 pre b (d2 ++ (c ++ d3) ++ (e ++ d4) ++ post) A B D1). refine (eq_ind _ (fun z => boundary _ z) B1 _ _). now rewrite <- !app_assoc.
      - apply (quad_dot b d2 (rev (a ++ d1) ++ pre) c (d3 ++ (e ++ d4) ++ post) B C D2). refine (eq_ind _ (fun z => boundary _ z) B2 _ _). now rewrite <- !app_assoc.
      - apply (quad_dot c d3 (rev (b ++ d2) ++ rev (a ++ d1) ++ pre) e (d4 ++ post) C E D3). refine (eq_ind _ (fun z => boundary _ z) B3 _ _). now rewrite <- !app_assoc. }
    exists a, b, c, e, d4. repeat (split; [assumption|]). rewrite <- !app_assoc. reflexivity.
  - intros (a & b & c & e & d4 & A & B & C & E & D4 & ->). apply matches_seq. exists (a ++ lit "."), (b ++ lit "." ++ c ++ lit "." ++ e ++ d4). split; [now rewrite <- app_assoc|].
    split; [apply quad_kind; exists a, (lit "."); repeat (split; [auto; fail|]); rewrite <- !app_assoc; apply quad_dot; auto|]. apply matches_seq. exists (b ++ lit "."), (c ++ lit "." ++ e ++ d4). split; [now rewrite <- app_assoc|].
    split; [apply quad_kind; exists b, (lit "."); repeat (split; [auto; fail|]); rewrite <- !app_assoc; apply quad_dot; auto|]. apply matches_seq. exists (c ++ lit "."), (e ++ d4). split; [now rewrite <- app_assoc|].
    split; [apply quad_kind; exists c, (lit "."); repeat (split; [auto; fail|]); rewrite <- !app_assoc; apply quad_dot; auto|]. apply quad_kind. exists e, d4. repeat (split; [auto; fail|]).
    refine (eq_ind _ (fun z => boundary z _) Hb _ _). rewrite !rev_app_distr, <- !app_assoc. reflexivity.
Qed.

(* The filter's expressions, kind by kind: what each matches is exactly the personal data of that kind. *)
Theorem C76_kinds : Forall2 (fun r k => forall s i j, matches_at r s i j <-> is_kind k s i j) patterns kinds.
Proof.
  unfold patterns, kinds.
  constructor; [apply bounded_kind; intros pre u post _ H; apply ipv4_kind, H|].
  constructor; [apply plain_bounded; [reflexivity|apply ipv6_kind]|].
  constructor; [apply plain_free; [reflexivity|apply email_kind]|].
  constructor; [apply plain_bounded; [reflexivity|apply ssn_kind]|].
  constructor; [apply plain_bounded; [reflexivity|apply card_kind]|].
  constructor; [apply plain_bounded; [reflexivity|apply phone_kind]|].
  constructor; [apply plain_bounded; [reflexivity|apply aws_id_kind]|].
  constructor; [apply plain_bounded; [reflexivity|apply mac_kind]|].
  constructor; [apply plain_bounded; [reflexivity|apply google_key_kind]|].
  constructor; [apply plain_bounded; [reflexivity|apply google_id_kind]|].
  constructor; [apply plain_bounded; [reflexivity|apply github_kind]|].
  constructor; [apply plain_bounded; [reflexivity|apply uuid_kind]|].
  constructor; [apply plain_bounded; [reflexivity|apply stripe_kind]|].
  constructor; [apply plain_bounded; [reflexivity|apply firebase_kind]|].
  constructor; [apply plain_bounded; [reflexivity|apply slack_kind]|].
  constructor; [apply plain_bounded; [reflexivity|apply github_pat_kind]|].
  constructor; [apply plain_free; [reflexivity|apply env_kind; reflexivity]|].
  constructor; [apply plain_free; [reflexivity|apply env_kind; reflexivity]|].
  constructor; [apply plain_free; [reflexivity|apply env_kind; reflexivity]|].
  constructor; [apply plain_free; [reflexivity|apply database_kind]|].
  constructor.
Qed.
Print Assumptions C76_kinds.

(* DetectPII says true exactly if the text has personal data of one of the kinds. *)
Theorem C76_detects_kinds : forall order text obfuscate, Permutation.Permutation patterns order ->
  (fst (detect_pii order text obfuscate) = true <-> exists k i j, In k kinds /\ is_kind k text i j).
Proof.
  intros order text ob Hp. rewrite (C76_detected_iff _ _ _ Hp). pose proof C76_kinds as H. clear Hp. revert H. generalize patterns kinds. intros l k H. induction H as [|r k l ks Hr _ IH].
  - split; intros (r & i & j & [] & _).
  - split.
    + intros (r' & i & j & [<-|Hi] & M); [exists k, i, j; split; [now left|now apply Hr]|]. destruct (proj1 IH) as (k' & i' & j' & Hk & M'); [exists r', i, j; auto|]. exists k', i', j'. split; [now right|exact M'].
    + intros (k' & i & j & [<-|Hi] & M); [exists r, i, j; split; [now left|now apply Hr]|]. destruct (proj2 IH) as (r' & i' & j' & Hk & M'); [exists k', i, j; auto|]. exists r', i', j'. split; [now right|exact M'].
Qed.
Print Assumptions C76_detects_kinds.
Example C76_kinds_case : is_kind (ipv4_text, true) (lit "at 10.0.0.255!") 3 13 /\ fst (detect_pii patterns (lit "at 10.0.0.255!") true) = true.
Proof.
  split; [|vm_compute; reflexivity]. refine (proj1 ((_ : forall s i j, matches_at ipv4 s i j <-> is_kind (ipv4_text, true) s i j) _ _ _) _); [apply bounded_kind; intros pre u post _ H; apply ipv4_kind, H|].
  assert (K: In (3, 13) (find_all ipv4 (lit "at 10.0.0.255!"))) by (vm_compute; auto). exact (proj2 (proj1 (find_all_spec ipv4 (lit "at 10.0.0.255!") eq_refl) _ _ K)).
Qed.
