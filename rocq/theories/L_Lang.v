(* Lemmas: the texts of an expression without assertions do not depend on what surrounds them. *)
From Coq Require Import String List Ascii Bool Arith Lia.
From Verif Require Import M_GoStr M_Regex S_Regex L_Regex.
Import ListNotations.
Open Scope list_scope.

Fixpoint lang (r : rx) (u : gstr) : Prop :=
  match r with
  | Eps => u = []
  | Cls f => exists a, u = [a] /\ f a = true
  | Seq a b => exists x y, u = x ++ y /\ lang a x /\ lang b y
  | Alt a b => lang a u \/ lang b u
  | Star _ f => Forall (fun a => f a = true) u
  | Grp _ r => lang r u
  | Bol | Eol | WordB => False
  end.
Fixpoint plain_rx (r : rx) : bool :=
  match r with Eps | Cls _ | Star _ _ => true | Seq a b | Alt a b => plain_rx a && plain_rx b | Grp _ r => plain_rx r | Bol | Eol | WordB => false end.
Lemma matches_lang : forall r pre u post, plain_rx r = true -> (matches r pre u post <-> lang r u).
Proof.
  induction r as [|f|a IHa b IHb|a IHa b IHb|g f|n r IH| | |]; intros pre u post H; cbn [lang]; cbn [plain_rx] in H; try discriminate.
  - split; [intros M; now inversion M|intros ->; constructor].
  - split; [intros M; inversion M; subst; eauto|intros (c & -> & Hf); now constructor].
  - apply andb_true_iff in H as [Ha Hb]. split.
    + intros M. inversion M; subst. exists u0, v. split; [reflexivity|]. split; [eapply IHa; eauto|eapply IHb; eauto].
    + intros (x & y & -> & Hx & Hy). constructor; [apply IHa; assumption|apply IHb; assumption].
  - apply andb_true_iff in H as [Ha Hb]. split.
    + intros M. inversion M; subst; [left; eapply IHa; eauto|right; eapply IHb; eauto].
    + intros [Hx|Hx]; [apply M_altl, IHa; assumption|apply M_altr, IHb; assumption].
  - split; [intros M; now inversion M|intros; now constructor].
  - split; [intros M; inversion M; subst; eapply IH; eauto|intros; constructor; apply IH; assumption].
Qed.
Lemma lang_str : forall s u, lang (str s) u <-> u = s.
Proof.
  induction s as [|c s IH]; intros u; cbn [str lang one]; [tauto|]. split.
  - intros (x & y & -> & (a & -> & Ha) & Hy). apply IH in Hy. apply Ascii.eqb_eq in Ha. now subst.
  - intros ->. exists [c], s. split; [reflexivity|]. split; [exists c; split; [reflexivity|apply Ascii.eqb_refl]|now apply IH].
Qed.
Lemma lang_seqs_cons : forall r l u, lang (seqs (r :: l)) u <-> exists x y, u = x ++ y /\ lang r x /\ lang (seqs l) y.
Proof.
  intros r l u. destruct l as [|b l]; [|reflexivity]. cbn [seqs lang]. split; [intros H; exists u, []; split; [now rewrite app_nil_r|auto]|intros (x & y & -> & H & ->); now rewrite app_nil_r].
Qed.
Lemma rep_S : forall n r u, lang (rep (S n) r) u <-> exists x y, u = x ++ y /\ lang r x /\ lang (rep n r) y.
Proof.
  intros [|n] r u; [|reflexivity]. cbn [rep lang]. split; [intros H; exists u, []; split; [now rewrite app_nil_r|auto]|intros (x & y & -> & H & ->); now rewrite app_nil_r].
Qed.
Lemma lang_rep : forall n r u, lang (rep n r) u <-> exists ws, length ws = n /\ Forall (lang r) ws /\ u = concat ws.
Proof.
  induction n as [|n IH]; intros r u.
  - cbn [rep lang]. split; [intros ->; exists []; repeat split; constructor|intros ([|w ws] & H & _ & ->); [reflexivity|discriminate]].
  - rewrite rep_S. split.
    + intros (x & y & -> & Hx & Hy). apply IH in Hy. destruct Hy as (ws & <- & Hf & ->). exists (x :: ws). repeat split. now constructor.
    + intros ([|w ws] & H & Hf & ->); [discriminate|]. pose proof (Forall_inv Hf). pose proof (Forall_inv_tail Hf). exists w, (concat ws). split; [reflexivity|]. split; [assumption|]. apply IH. exists ws. split; [now injection H|auto].
Qed.
Lemma lang_upto : forall n r u, lang (upto n r) u <-> exists ws, length ws <= n /\ Forall (lang r) ws /\ u = concat ws.
Proof.
  induction n as [|n IH]; intros r u; cbn [upto opt lang].
  - split; [intros ->; exists []; repeat split; constructor|intros ([|w ws] & H & _ & ->); [reflexivity|cbn in H; lia]].
  - split.
    + intros [(x & y & -> & Hx & Hy)| ->]; [|exists []; cbn; repeat split; [lia|constructor]]. apply IH in Hy. destruct Hy as (ws & Hl & Hf & ->). exists (x :: ws). cbn. repeat split; [lia|now constructor].
    + intros ([|w ws] & H & Hf & ->); [now right|left]. pose proof (Forall_inv Hf). pose proof (Forall_inv_tail Hf). exists w, (concat ws). split; [reflexivity|]. split; [assumption|]. apply IH. exists ws. cbn in H. split; [lia|auto].
Qed.
Lemma chars : forall f (ws : list gstr), Forall (lang (Cls f)) ws -> length (concat ws) = length ws /\ Forall (fun a => f a = true) (concat ws).
Proof.
  intros f ws H. induction H as [|w ws (a & -> & Ha) _ [IH1 IH2]]; [split; [reflexivity|constructor]|]. cbn [concat app length]. split; [now rewrite IH1|now constructor].
Qed.
Lemma chars_back : forall f u, Forall (fun a => f a = true) u -> Forall (lang (Cls f)) (map (fun a => [a]) u) /\ concat (map (fun a => [a]) u) = u /\ length (map (fun a => [a]) u) = length u.
Proof.
  intros f u H. induction H as [|a u Ha _ (IH1 & IH2 & IH3)]; [repeat split; constructor|]. cbn [map concat app length]. rewrite IH2, IH3. repeat split; try reflexivity. constructor; [exists a; auto|exact IH1].
Qed.
(* texts over a class of bytes *)
Definition over (f : ascii -> bool) (u : gstr) : Prop := Forall (fun a => f a = true) u.
Lemma lang_rep_cls : forall n f u, lang (rep n (Cls f)) u <-> length u = n /\ over f u.
Proof.
  intros n f u. rewrite lang_rep. split.
  - intros (ws & <- & Hf & ->). apply chars in Hf. exact Hf.
  - intros [<- H]. apply chars_back in H. destruct H as (H1 & H2 & H3). eexists. split; [exact H3|]. split; [exact H1|now symmetry].
Qed.
Lemma lang_upto_cls : forall n f u, lang (upto n (Cls f)) u <-> length u <= n /\ over f u.
Proof.
  intros n f u. rewrite lang_upto. split.
  - intros (ws & Hl & Hf & ->). apply chars in Hf. destruct Hf as [H1 H2]. split; [lia|exact H2].
  - intros [Hl H]. apply chars_back in H. destruct H as (H1 & H2 & H3). exists (map (fun a => [a]) u). split; [exact (Nat.le_trans _ _ _ (Nat.eq_le_incl _ _ H3) Hl)|]. split; [exact H1|now symmetry].
Qed.
Lemma lang_plus : forall g f u, lang (plus g f) u <-> u <> [] /\ over f u.
Proof.
  intros g f u. unfold plus. cbn [lang]. split.
  - intros (x & y & -> & (a & -> & Ha) & Hy). split; [discriminate|]. now constructor.
  - intros [Hn H]. destruct u as [|a u]; [congruence|]. pose proof (Forall_inv H). pose proof (Forall_inv_tail H). exists [a], u. split; [reflexivity|]. split; [exists a; auto|assumption].
Qed.
Lemma lang_opt : forall r u, lang (opt r) u <-> u = [] \/ lang r u.
Proof. intros r u. unfold opt. cbn [lang]. tauto. Qed.
