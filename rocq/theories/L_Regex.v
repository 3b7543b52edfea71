(* The engine finds exactly what the specification says. *)
From Coq Require Import List Ascii Bool Arith Lia.
From Verif Require Import M_GoStr M_Regex S_Regex.
Import ListNotations.
Open Scope list_scope.

Lemma rm_sound {X} : forall r pre post cs (k : gstr -> gstr -> caps -> option X) x, rm r pre post cs k = Some x ->
  exists u v c, post = u ++ v /\ matches r pre u v /\ k (rev u ++ pre) v c = Some x.
Proof.
  induction r as [|f|a IHa b IHb|a IHa b IHb|g f|n r IH| | |]; intros pre post cs k x H; cbn [rm] in H.
  - exists [], post, cs. repeat split; auto. constructor.
  - destruct post as [|a t]; [discriminate|]. destruct (f a) eqn:E; [|discriminate]. exists [a], t, cs. repeat split; auto. now constructor.
  - apply IHa in H. destruct H as (u & v & c & -> & Hu & H). apply IHb in H. destruct H as (u' & v' & c' & -> & Hv & H).
    exists (u ++ u'), v', c'. rewrite app_assoc. repeat split; auto. now constructor. now rewrite rev_app_distr, <- app_assoc.
  - destruct (rm a pre post cs k) eqn:E.
    + inversion H; subst. apply IHa in E. destruct E as (u & v & c & -> & Hu & E). exists u, v, c. repeat split; auto. now apply M_altl.
    + apply IHb in H. destruct H as (u & v & c & -> & Hu & H). exists u, v, c. repeat split; auto. now apply M_altr.
  - revert pre H. induction post as [|a t IH]; intros pre H.
    + exists [], [], cs. split; [reflexivity|]. split; [apply M_star; constructor|]. cbn. destruct g; [exact H|]. destruct (k pre [] cs); congruence.
    + assert (Hm : (if f a then (fix go (pre0 post : gstr) {struct post} : option X :=
         if g then match (match post with a :: t => if f a then go (a :: pre0) t else None | [] => None end) with
                   | Some x => Some x | None => k pre0 post cs end
         else match k pre0 post cs with Some x => Some x
              | None => match post with a :: t => if f a then go (a :: pre0) t else None | [] => None end end) (a :: pre) t else None) = Some x
           \/ k pre (a :: t) cs = Some x).
      { destruct g.
        - destruct (f a) eqn:Ef; [|now right]. match type of H with match ?y with _ => _ end = _ => destruct y eqn:E end; [left; congruence|now right].
        - destruct (k pre (a :: t) cs) eqn:E; [right; congruence|now left]. }
      destruct Hm as [Hm|Hm].
      * destruct (f a) eqn:Ef; [|discriminate]. apply IH in Hm. destruct Hm as (u & v & c & -> & Hu & Hk). inversion Hu; subst.
        exists (a :: u), v, c. split; [reflexivity|]. split; [apply M_star; now constructor|]. cbn. now rewrite <- app_assoc.
      * exists [], (a :: t), cs. split; [reflexivity|]. split; [apply M_star; constructor|exact Hm].
  - apply IH in H. destruct H as (u & v & c & -> & Hu & H). eexists u, v, _. repeat split; eauto. now constructor.
  - destruct pre; [|discriminate]. exists [], post, cs. repeat split; auto. constructor.
  - destruct post; [|discriminate]. exists [], [], cs. repeat split; auto. constructor.
  - destruct (xorb (hd_word pre) (hd_word post)) eqn:E; [|discriminate]. exists [], post, cs. repeat split; auto. constructor.
    unfold boundary. intro A. rewrite A, xorb_nilpotent in E. discriminate.
Qed.
Lemma rm_complete {X} : forall r pre post cs (k : gstr -> gstr -> caps -> option X), rm r pre post cs k = None ->
  forall u v, post = u ++ v -> matches r pre u v -> exists c, k (rev u ++ pre) v c = None.
Proof.
  induction r as [|f|a IHa b IHb|a IHa b IHb|g f|n r IH| | |]; intros pre post cs k H u v Hp M; cbn [rm] in H.
  - inversion M; subst. eauto.
  - inversion M; subst. cbn in H. match goal with E : f _ = true |- _ => rewrite E in H end. eauto.
  - inversion M; subst. edestruct (IHa _ _ _ _ H u0 (v0 ++ v)) as [c Hc]; [now rewrite app_assoc|eassumption|].
    edestruct (IHb _ _ _ _ Hc v0 v) as [c' Hc']; [reflexivity|eassumption|]. exists c'. now rewrite rev_app_distr, <- app_assoc.
  - destruct (rm a pre post cs k) eqn:E; [discriminate|]. inversion M; subst; eauto.
  - inversion M as [| | | | |? ? ? ? ? F| | | |]; subst. clear M. revert pre H. induction F as [|a u Ha F IH]; intros pre H.
    + exists cs. cbn [app rev] in *. destruct g, v as [|b v]; cbn in *; try exact H.
      * destruct (f b); [|exact H]. match type of H with match ?y with _ => _ end = _ => destruct y; [discriminate|exact H] end.
      * now destruct (k pre [] cs).
      * now destruct (k pre (b :: v) cs).
    + cbn [app] in H. rewrite Ha in H. destruct (IH (a :: pre)) as [c Hc].
      * destruct g; [match type of H with match ?y with _ => _ end = _ => destruct y eqn:E end; [discriminate|first [exact E | reflexivity]]|].
        destruct (k pre (a :: u ++ v) cs); [discriminate|exact H].
      * exists c. cbn. now rewrite <- app_assoc.
  - inversion M; subst. edestruct IH as [c Hc]; [exact H|reflexivity|eassumption|]. cbn in Hc. eauto.
  - inversion M; subst. eauto.
  - inversion M; subst. cbn in *. eauto.
  - inversion M; subst. unfold boundary in *. cbn [app rev] in *. destruct (xorb (hd_word pre) (hd_word v)) eqn:E; [eauto|]. exfalso.
    apply xorb_eq in E. contradiction.
Qed.
Definition final (p q : gstr) (c : caps) : option (gstr * gstr * caps) := Some (p, q, c).
Lemma rfind_eq : forall r pre post, rfind r pre post = match rm r pre post [] final with
  | Some (p, q, c) => Some (mkmt pre p q c) | None => match post with [] => None | a :: t => rfind r (a :: pre) t end end.
Proof. intros. destruct post; reflexivity. Qed.
(* no match: the expression matches nowhere *)
Lemma rfind_none : forall r post pre, rfind r pre post = None ->
  forall w u v, post = w ++ u ++ v -> ~ matches r (rev w ++ pre) u v.
Proof.
  intros r. induction post as [|a t IH]; intros pre H w u v Hp M; rewrite rfind_eq in H.
  - destruct w; [|discriminate]. destruct u; [|discriminate]. destruct v; [|discriminate].
    destruct (rm r pre [] [] final) as [[[]]|] eqn:E; [discriminate|]. apply rm_complete with (u := []) (v := []) in E; [|reflexivity|exact M]. destruct E. discriminate.
  - destruct (rm r pre (a :: t) [] final) as [[[]]|] eqn:E; [discriminate|]. destruct w as [|b w].
    + apply rm_complete with (u := u) (v := v) in E; [|exact Hp|exact M]. destruct E. discriminate.
    + cbn in Hp. inversion Hp; subst. eapply (IH _ H w u v); [reflexivity|]. cbn in M. now rewrite <- app_assoc in M.
Qed.
(* a match: it is one, and no match starts before it *)
Lemma rfind_some : forall r post pre m, rfind r pre post = Some m ->
  exists w u v c, post = w ++ u ++ v /\ m = mkmt (rev w ++ pre) (rev u ++ rev w ++ pre) v c /\ matches r (rev w ++ pre) u v
    /\ (forall w' u' v', post = w' ++ u' ++ v' -> length w' < length w -> ~ matches r (rev w' ++ pre) u' v').
Proof.
  intros r. induction post as [|a t IH]; intros pre m H; rewrite rfind_eq in H.
  - destruct (rm r pre [] [] final) as [[[p q] c]|] eqn:E; [|discriminate]. inversion H; subst. apply rm_sound in E. destruct E as (u & v & c' & Hp & M & E).
    inversion E; subst. exists [], u, q, c. repeat split; auto. intros; cbn in *; lia.
  - destruct (rm r pre (a :: t) [] final) as [[[p q] c]|] eqn:E.
    + inversion H; subst. apply rm_sound in E. destruct E as (u & v & c' & Hp & M & E).
      inversion E; subst. exists [], u, q, c. repeat split; auto. intros; cbn in *; lia.
    + apply IH in H. destruct H as (w & u & v & c & -> & -> & M & L). exists (a :: w), u, v, c. cbn [rev app]. rewrite <- !app_assoc. cbn.
      repeat split; auto. intros w' u' v' Hp Hl. destruct w' as [|b w'].
      * cbn in *. intro M'. apply rm_complete with (u := u') (v := v') in E; [|exact Hp|exact M']. destruct E. discriminate.
      * cbn in Hp, Hl. inversion Hp; subst. cbn. rewrite <- app_assoc. apply L; [assumption|lia].
Qed.
(* every text the expression matches contains a byte for which f holds *)
Fixpoint needs (f : ascii -> bool) (r : rx) : bool :=
  match r with
  | Cls g => forallb (fun n => implb (g (ascii_of_nat n)) (f (ascii_of_nat n))) (seq 0 256)
  | Seq a b => needs f a || needs f b
  | Alt a b => needs f a && needs f b
  | Grp _ r => needs f r
  | _ => false
  end.
Lemma all_bytes : forall p : ascii -> bool, forallb (fun n => p (ascii_of_nat n)) (seq 0 256) = true -> forall a, p a = true.
Proof.
  intros p H a. rewrite forallb_forall in H. specialize (H (nat_of_ascii a)). rewrite ascii_nat_embedding in H. apply H. apply in_seq.
  assert (nat_of_ascii a < 256) by apply nat_ascii_bounded. lia.
Qed.
Lemma needs_sound : forall f r pre u post, needs f r = true -> matches r pre u post -> exists a, In a u /\ f a = true.
Proof.
  intros f r. induction r as [|g|a IHa b IHb|a IHa b IHb|g h|n r IH| | |]; intros pre u post N M; cbn [needs] in N; try discriminate; inversion M; subst.
  - apply all_bytes with (p := fun a => implb (g a) (f a)) (a := a) in N. match goal with E : g _ = true |- _ => rewrite E in N end. exists a. split; [now left|exact N].
  - apply orb_true_iff in N. destruct N as [N|N].
    + match goal with E : matches a _ _ _ |- _ => rename E into Ma end. destruct (IHa _ _ _ N Ma) as (x & Hx & Hf). exists x. split; [apply in_or_app; now left|exact Hf].
    + match goal with E : matches b _ _ _ |- _ => rename E into Mb end. destruct (IHb _ _ _ N Mb) as (x & Hx & Hf). exists x. split; [apply in_or_app; now right|exact Hf].
  - apply andb_true_iff in N. eapply IHa; [apply N|eassumption].
  - apply andb_true_iff in N. eapply IHb; [apply N|eassumption].
  - eauto.
Qed.
Lemma matches_str : forall s pre u post, matches (str s) pre u post <-> u = s.
Proof.
  induction s as [|c s IH]; intros pre u post; cbn [str]; split.
  - intro M. now inversion M.
  - intros ->. constructor.
  - intro M. inversion M as [| |? ? ? ? ? ? Ma Mb| | | | | | |]; subst. inversion Ma as [|? ? ? ? E| | | | | | | |]; subst. apply Ascii.eqb_eq in E. apply IH in Mb. now subst.
  - intros ->. change (c :: s) with ([c] ++ s). apply M_seq; [apply M_cls; apply Ascii.eqb_refl|now apply IH].
Qed.
