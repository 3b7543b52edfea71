(* C86: gzip-compressed records read on demand: exact when every field is smaller than the buffer, and silently wrong when one is larger. *)
From Coq Require Import List ZArith Bool Lia Arith.
From Verif Require Import M_KBase S_KBase L_KBase L_KBase2 M_KFields L_KFields M_KRecords S_KRecords L_KRecords M_KGzip.
Import ListNotations.
Open Scope Z_scope.

Lemma src_read_spec : forall n g l e g', (0 < n)%nat -> src_read n g = (l, e, g') ->
  g_rest g = l ++ g_rest g' /\ g_buf g' = g_buf g /\ g_fin g' = g_fin g /\ (length l <= n)%nat /\
  (g_rest g = [] -> e = Some (g_fin g)) /\ (g_rest g <> [] -> l <> []) /\ (forall f, e = Some f -> f = g_fin g /\ g_rest g' = []).
Proof.
  intros n g l e g' Hn H. unfold src_read in H. destruct (g_rest g) as [|b r] eqn:Er.
  - injection H as <- <- <-. rewrite Er. cbn. repeat split; auto; try lia; try congruence.
  - destruct (hd (n, false) (g_plan g)) as [k0 tog]. set (k := Nat.min n (Nat.min (S k0) (length (b :: r)))) in *. assert (Hk: (0 < k <= n)%nat /\ (k <= length (b :: r))%nat) by (unfold k; cbn [length]; lia).
    injection H as <- <- <-. cbn [g_rest g_buf g_fin]. split; [symmetry; apply firstn_skipn|]. split; [reflexivity|]. split; [reflexivity|]. split; [rewrite firstn_length; lia|]. split; [discriminate|]. split.
    + intros _ X. apply (f_equal (@length Z)) in X. rewrite firstn_length in X. cbn [length] in *. lia.
    + intros f X. match type of X with (if ?c then _ else _) = _ => destruct c eqn:E; [|discriminate X] end. injection X as <-. split; [reflexivity|]. apply andb_true_iff in E. destruct E as [_ E]. apply Nat.eqb_eq in E. apply skipn_all2. rewrite E. cbn [length]. lia.
Qed.
Lemma fill_spec : forall fuel bs g ok g', fill fuel bs g = (ok, g') -> data g' = data g /\ g_fin g' = g_fin g /\ (exists t, g_buf g' = g_buf g ++ t) /\ (g_fin g = true -> ok = true) /\
  (g_fin g = true -> (bs < fuel + length (g_buf g))%nat -> (length (g_buf g) <= bs)%nat -> g_buf g' = g_buf g ++ firstn (bs - length (g_buf g)) (g_rest g)) /\
  (ok = false -> g_rest g' = []).
Proof.
  induction fuel as [|f IH]; intros bs g ok g' H; cbn [fill] in H.
  - injection H as <- <-. split; [reflexivity|]. split; [reflexivity|]. split; [exists []; now rewrite app_nil_r|]. split; [reflexivity|]. split; [intros; lia|discriminate].
  - destruct (Nat.leb_spec bs (length (g_buf g))) as [Hle|Hlt].
    + injection H as <- <-. split; [reflexivity|]. split; [reflexivity|]. split; [exists []; now rewrite app_nil_r|]. split; [reflexivity|]. split; [|discriminate]. intros. replace (bs - length (g_buf g))%nat with 0%nat by lia. cbn. now rewrite app_nil_r.
    + destruct (src_read (bs - length (g_buf g)) g) as [[b e] g1] eqn:E. destruct (src_read_spec (bs - length (g_buf g))%nat _ _ _ _ ltac:(lia) E) as (S1 & S2 & S3 & S4 & S5 & S6 & S7).
      assert (D: data (with_buf g1 (g_buf g ++ b)) = data g). { unfold data. cbn. rewrite S1, <- app_assoc. reflexivity. }
      destruct e as [[|]|].
      * injection H as <- <-. destruct (S7 true eq_refl) as [F1 F2]. split; [exact D|]. split; [exact S3|]. split; [eexists; reflexivity|]. split; [reflexivity|]. split; [|discriminate].
        intros _ _ _. cbn [with_buf g_buf]. rewrite S1, F2, app_nil_r. rewrite firstn_all2 by lia. reflexivity.
      * injection H as <- <-. destruct (S7 false eq_refl) as [F1 F2]. split; [exact D|]. split; [exact S3|]. split; [eexists; reflexivity|]. split; [congruence|]. split; [congruence|]. intros _. exact F2.
      * destruct (IH _ _ _ _ H) as (I1 & I2 & [t I3] & I4 & I5 & I6). cbn [g_fin with_buf g_buf g_rest] in *. split; [congruence|]. split; [congruence|]. split; [exists (b ++ t); now rewrite I3, app_assoc|]. split; [rewrite S3 in I4; exact I4|]. split; [|exact I6].
        intros Hf Hfu Hl. rewrite S3 in I5. assert (B: (0 < length b)%nat). { destruct (g_rest g) as [|x r] eqn:Er; [specialize (S5 eq_refl); discriminate|]. destruct b; [exfalso; apply (S6 ltac:(discriminate) eq_refl)|cbn; lia]. }
        rewrite (I5 Hf); [|rewrite app_length; lia|rewrite app_length; lia]. rewrite app_length, S1, <- app_assoc. f_equal. rewrite firstn_app. rewrite (firstn_all2 b) by lia. f_equal. f_equal. lia.
Qed.
(* what a Read or a ReadByte gives is taken from the front of the data; the kind of the end does not change *)
Lemma gz_read_spec : forall bs n g l e g', (0 < bs)%nat -> gz_read bs n g = (l, e, g') -> g_fin g' = g_fin g /\ (e <> Some false -> data g = l ++ data g') /\ (length l <= n)%nat.
Proof.
  intros bs n g l e g' Hb H. unfold gz_read in H. destruct (Nat.eqb_spec n 0) as [->|Hn]; [injection H as <- <- <-; repeat split; auto|].
  assert (D: data g = firstn n (g_buf g) ++ data (with_buf g (skipn n (g_buf g)))). { unfold data. cbn. rewrite app_assoc, firstn_skipn. reflexivity. }
  assert (L: (length (firstn n (g_buf g)) <= n)%nat) by (rewrite firstn_length; lia).
  set (first := firstn n (g_buf g)) in *. set (g1 := with_buf g (skipn n (g_buf g))) in *.
  destruct (Nat.eqb_spec (length first) n) as [E|E]; [injection H as <- <- <-; repeat split; auto|].
  assert (G1: g_buf g1 = []). { unfold g1. cbn. apply skipn_all2. unfold first in E. rewrite firstn_length in E. lia. }
  destruct (Nat.leb_spec bs (n - length first)).
  - destruct (src_read (n - length first) g1) as [[b e1] g2] eqn:Es. destruct (src_read_spec (n - length first)%nat _ _ _ _ ltac:(lia) Es) as (S1 & S2 & S3 & S4 & S5 & S6 & S7). injection H as <- <- <-. split; [exact S3|]. split.
    + intros _. rewrite D, <- app_assoc. f_equal. unfold data. rewrite S2, G1, S1. reflexivity.
    + rewrite app_length. lia.
  - destruct (fill (S bs) bs g1) as [ok g2] eqn:Ef. destruct (fill_spec _ _ _ _ _ Ef) as (I1 & I2 & [t I3] & I4 & I5 & I6). rewrite G1 in *. cbn [app] in *. destruct ok.
    + destruct (g_buf g2) as [|b r] eqn:Eb.
      * injection H as <- <- <-. split; [exact I2|]. split; [|exact L]. intros _. rewrite D, <- I1. reflexivity.
      * injection H as <- <- <-. split; [exact I2|]. split.
        -- intros _. rewrite D, <- app_assoc, <- I1. f_equal. unfold data. cbn [g_buf with_buf g_rest]. rewrite Eb, app_assoc, firstn_skipn. reflexivity.
        -- rewrite app_length, firstn_length. lia.
    + injection H as <- <- <-. split; [exact I2|]. split; [congruence|]. cbn. lia.
Qed.
Inductive call := CRead (n : nat) | CByte.
Definition gz_call (bs : nat) (c : call) (g : gz) : list Z * option bool * gz :=
  match c with
  | CRead n => gz_read bs n g
  | CByte => match gz_read_byte bs g with (inl b, g') => ([b], None, g') | (inr e, g') => ([], Some e, g') end
  end.
Lemma gz_byte_spec : forall bs g x g', gz_read_byte bs g = (x, g') -> g_fin g' = g_fin g /\ match x with inl b => data g = b :: data g' | inr true => data g = data g' | inr false => True end.
Proof.
  intros bs g x g' H. unfold gz_read_byte in H. destruct (g_buf g) as [|b r] eqn:Eb.
  - destruct (fill (S bs) bs g) as [ok g2] eqn:Ef. destruct (fill_spec _ _ _ _ _ Ef) as (I1 & I2 & _). destruct ok; [|injection H as <- <-; auto].
    destruct (g_buf g2) as [|b r] eqn:E2; injection H as <- <-; [auto|]. split; [exact I2|]. rewrite <- I1. unfold data. rewrite E2. reflexivity.
  - injection H as <- <-. split; [reflexivity|]. unfold data. rewrite Eb. reflexivity.
Qed.
Fixpoint calls (bs : nat) (cs : list call) (g : gz) : option (list Z) * gz :=
  match cs with
  | [] => (Some [], g)
  | c :: r => let '(l, e, g') := gz_call bs c g in match e with
      | Some _ => (None, g')
      | None => let '(o, g2) := calls bs r g' in (option_map (app l) o, g2)
      end
  end.
(* whatever is called and however the decompressor splits its output: the bytes returned, put together, are the beginning of the data *)
Theorem C86_in_order : forall bs cs g out g', (0 < bs)%nat -> calls bs cs g = (Some out, g') -> data g = out ++ data g'.
Proof.
  intros bs cs. induction cs as [|c cs IH]; intros g out g' Hb H; cbn [calls] in H; [injection H as <- <-; reflexivity|].
  destruct (gz_call bs c g) as [[l e] g1] eqn:Ec. destruct e; [discriminate|]. destruct (calls bs cs g1) as [o g2] eqn:Er. destruct o as [out'|]; [|discriminate]. injection H as <- <-.
  rewrite <- app_assoc, <- (IH _ _ _ Hb Er). destruct c as [n|]; cbn [gz_call] in Ec.
  - destruct (gz_read_spec _ _ _ _ _ _ Hb Ec) as (_ & D & _). apply D. discriminate.
  - destruct (gz_read_byte bs g) as [[b|e] gx] eqn:Eb; [|discriminate]. injection Ec as <- <-. destruct (gz_byte_spec _ _ _ _ Eb) as [_ D]. exact D.
Qed.
Print Assumptions C86_in_order.
(* io.EOF only when everything was returned, and an undamaged stream has no other error *)
Theorem C86_end : forall bs c g l e g', (0 < bs)%nat -> gz_call bs c g = (l, Some e, g') -> g_fin g = true -> e = true /\ data g = l /\ data g' = [].
Proof.
  intros bs c g l e g' Hb H Hf. destruct c as [n|]; cbn [gz_call] in H.
  - pose proof (gz_read_spec _ _ _ _ _ _ Hb H) as (_ & D & _). unfold gz_read in H. destruct (Nat.eqb_spec n 0) as [->|Hn]; [discriminate|].
    set (first := firstn n (g_buf g)) in *. set (g1 := with_buf g (skipn n (g_buf g))) in *. assert (F1: g_fin g1 = true) by exact Hf.
    destruct (Nat.eqb_spec (length first) n) as [E|E]; [discriminate|]. assert (G1: g_buf g1 = []). { unfold g1. cbn. apply skipn_all2. unfold first in E. rewrite firstn_length in E. lia. }
    assert (X: e = true /\ data g' = []).
    { destruct (Nat.leb_spec bs (n - length first)).
      - destruct (src_read (n - length first) g1) as [[b e1] g2] eqn:Es. destruct (src_read_spec (n - length first)%nat _ _ _ _ ltac:(lia) Es) as (S1 & S2 & S3 & S4 & S5 & S6 & S7). injection H as <- -> <-. destruct (S7 _ eq_refl) as [-> R]. split; [exact Hf|]. unfold data. now rewrite S2, G1, R.
      - destruct (fill (S bs) bs g1) as [ok g2] eqn:Ef. destruct (fill_spec _ _ _ _ _ Ef) as (I1 & I2 & _ & I4 & I5 & _). rewrite (I4 F1) in H. specialize (I5 F1). rewrite G1 in I5. cbn [length app] in I5. specialize (I5 ltac:(lia) ltac:(lia)).
        destruct (g_buf g2) as [|b r] eqn:Eb; [|discriminate]. injection H as <- <- <-. split; [reflexivity|]. rewrite I1. unfold data. rewrite G1. change (g_rest g1) with (g_rest g) in *. cbn [app]. destruct (g_rest g); [reflexivity|]. exfalso. destruct bs; [lia|]. discriminate I5. }
    destruct X as [-> X]. split; [reflexivity|]. split; [|exact X]. rewrite (D ltac:(discriminate)), X, app_nil_r. reflexivity.
  - destruct (gz_read_byte bs g) as [[b|e1] gx] eqn:Eb; [discriminate|]. injection H as <- <- <-. unfold gz_read_byte in Eb. destruct (g_buf g) as [|b r] eqn:E0; [|discriminate].
    destruct (fill (S bs) bs g) as [ok g2] eqn:Ef. destruct (fill_spec _ _ _ _ _ Ef) as (I1 & I2 & _ & I4 & I5 & _). rewrite (I4 Hf) in Eb. specialize (I5 Hf). rewrite E0 in I5. cbn [length app] in I5. specialize (I5 ltac:(lia) ltac:(lia)).
    destruct (g_buf g2) as [|b r] eqn:Eb2; [|discriminate]. injection Eb as <- <-. split; [reflexivity|]. rewrite I1. assert (X: data g = []); [|now rewrite X]. unfold data. rewrite E0. cbn. destruct (g_rest g); [reflexivity|]. destruct bs; [lia|]. discriminate I5.
Qed.
Print Assumptions C86_end.
(* and damaged data is never told to be at its end *)
Lemma fill_damaged : forall bs f g g2, fill f bs g = (true, g2) -> g_fin g = false -> (bs < f + length (g_buf g))%nat -> (bs <= length (g_buf g2))%nat.
Proof.
  intros bs. induction f as [|f IH]; intros g g2 H F L; cbn [fill] in H; [injection H as <-; lia|].
  destruct (Nat.leb_spec bs (length (g_buf g))) as [Q|Q]; [injection H as <-; exact Q|].
  destruct (src_read (bs - length (g_buf g)) g) as [[b e] g1] eqn:Es. unfold src_read in Es. destruct (g_rest g) as [|x r] eqn:Er.
  - injection Es as <- <- <-. rewrite F in H. discriminate.
  - destruct (hd (bs - length (g_buf g), false)%nat (g_plan g)) as [k0 tg]. cbv zeta in Es.
    set (k := Nat.min (bs - length (g_buf g)) (Nat.min (S k0) (length (x :: r)))) in *. assert (K : (1 <= k)%nat) by (unfold k; cbn [length]; lia).
    assert (LB : length (firstn k (x :: r)) = k) by (rewrite firstn_length; unfold k; lia).
    destruct (tg && Nat.eqb k (length (x :: r))); rewrite ?F in Es; injection Es as <- <- <-; [discriminate H|].
    eapply IH; [exact H|reflexivity|]. cbn [with_buf g_buf]. rewrite app_length, LB. lia.
Qed.
Theorem C86_damage : forall bs c g l e g', (0 < bs)%nat -> gz_call bs c g = (l, Some e, g') -> g_fin g = false -> e = false.
Proof.
  intros bs c g l e g' Hb H Hf. destruct c as [n|]; cbn [gz_call] in H.
  - unfold gz_read in H. destruct (Nat.eqb_spec n 0) as [->|Hn]; [discriminate|].
    set (first := firstn n (g_buf g)) in *. set (g1 := with_buf g (skipn n (g_buf g))) in *. assert (F1: g_fin g1 = false) by exact Hf.
    destruct (Nat.eqb_spec (length first) n) as [E|E]; [discriminate|]. destruct (Nat.leb_spec bs (n - length first)).
    + destruct (src_read (n - length first) g1) as [[b e1] g2] eqn:Es. injection H as <- -> <-. unfold src_read in Es. destruct (g_rest g1) as [|x r]; [injection Es; congruence|].
      destruct (hd _ (g_plan g1)) as [k0 tg]. cbv zeta in Es. destruct (tg && _); [injection Es; congruence|discriminate].
    + destruct (fill (S bs) bs g1) as [ok g2] eqn:Ef. destruct ok; [|injection H; congruence].
      pose proof (fill_damaged _ _ _ _ Ef F1 ltac:(lia)) as L. destruct (g_buf g2); [cbn in L; lia|discriminate].
  - unfold gz_read_byte in H. destruct (g_buf g) as [|b r] eqn:E0; [|discriminate]. destruct (fill (S bs) bs g) as [ok g2] eqn:Ef. destruct ok; [|injection H; congruence].
    pose proof (fill_damaged _ _ _ _ Ef Hf ltac:(lia)) as L. destruct (g_buf g2); [cbn in L; lia|discriminate].
Qed.
Print Assumptions C86_damage.
(* when nothing is left, the damage is told *)
Theorem C86_damage_told : forall bs c g, (0 < bs)%nat -> data g = [] -> g_fin g = false -> c <> CRead 0 -> exists g', gz_call bs c g = ([], Some false, g').
Proof.
  intros bs c g Hb D F N. unfold data in D. apply app_eq_nil in D. destruct D as [D1 D2].
  assert (FI : forall g1, g_buf g1 = [] -> g_rest g1 = [] -> g_fin g1 = false -> exists g2, fill (S bs) bs g1 = (false, g2)).
  { intros g1 B R G. cbn [fill]. rewrite B. cbn [length]. destruct (Nat.leb_spec bs 0); [lia|]. unfold src_read. rewrite R, G. eexists. reflexivity. }
  destruct c as [n|]; cbn [gz_call].
  - unfold gz_read. destruct (Nat.eqb_spec n 0) as [->|Hn]; [congruence|]. rewrite D1, firstn_nil. cbn [length]. destruct (Nat.eqb_spec 0 n); [lia|].
    rewrite Nat.sub_0_r, skipn_nil. destruct (Nat.leb bs n).
    + unfold src_read. cbn [with_buf g_rest]. rewrite D2. cbn [with_buf g_fin]. rewrite F. eexists. reflexivity.
    + destruct (FI (with_buf g []) eq_refl D2 F) as [g2 E]. rewrite E. eexists. reflexivity.
  - unfold gz_read_byte. rewrite D1. destruct (FI g D1 D2 F) as [g2 E]. rewrite E. eexists. reflexivity.
Qed.
Print Assumptions C86_damage_told.
(* a Read for less than the buffer beyond what is buffered gets all that it asks for, if there is so much *)
Theorem C86_full : forall bs n g, (0 < bs)%nat -> g_fin g = true -> (n < length (g_buf g) + bs)%nat -> (n <= length (data g))%nat ->
  exists g', gz_read bs n g = (firstn n (data g), None, g') /\ data g' = skipn n (data g) /\ g_fin g' = true.
Proof.
  intros bs n g Hb Hf Hn Hd. unfold gz_read. destruct (Nat.eqb_spec n 0) as [->|Hz]; [exists g; auto|].
  set (first := firstn n (g_buf g)). set (g1 := with_buf g (skipn n (g_buf g))).
  destruct (Nat.eqb_spec (length first) n) as [E|E].
  - exists g1. unfold first in *. rewrite firstn_length in E. unfold data. rewrite firstn_app, skipn_app. replace (n - length (g_buf g))%nat with 0%nat by lia. cbn [firstn skipn]. rewrite app_nil_r. auto.
  - assert (F: first = g_buf g). { unfold first in *. rewrite firstn_length in E. apply firstn_all2. lia. }
    assert (G1: g_buf g1 = []). { unfold g1. cbn. apply skipn_all2. rewrite <- F. unfold first in *. rewrite firstn_length in *. lia. }
    assert (L: (length first < n)%nat). { unfold first in *. rewrite firstn_length in *. lia. }
    destruct (Nat.leb_spec bs (n - length first)); [rewrite F in *; lia|].
    destruct (fill (S bs) bs g1) as [ok g2] eqn:Ef. destruct (fill_spec _ _ _ _ _ Ef) as (I1 & I2 & _ & I4 & I5 & _). rewrite (I4 Hf). specialize (I5 Hf). rewrite G1 in I5. cbn [length app] in I5. specialize (I5 ltac:(lia) ltac:(lia)). rewrite Nat.sub_0_r in I5.
    unfold data in Hd. rewrite app_length in Hd. change (g_rest g1) with (g_rest g) in I5.
    assert (LB: (n - length first <= length (g_buf g2))%nat). { rewrite I5, firstn_length, F. lia. }
    assert (X: first ++ firstn (n - length first) (g_buf g2) = firstn n (data g)).
    { rewrite I5, firstn_firstn, F. unfold data. rewrite firstn_app. rewrite (firstn_all2 (g_buf g)) by (rewrite F in L; lia). f_equal. f_equal. rewrite F in *. lia. }
    destruct (g_buf g2) as [|b r] eqn:Eb; [cbn in LB; lia|]. rewrite <- Eb in *. rewrite X. eexists. split; [reflexivity|]. split.
    + unfold data at 1. cbn [g_buf with_buf g_rest]. unfold data. rewrite skipn_app. rewrite (skipn_all2 (g_buf g)) by (rewrite F in L; lia). cbn [app].
      unfold data in I1. rewrite G1 in I1. cbn [app] in I1. change (g_rest g1) with (g_rest g) in I1. rewrite <- I1, skipn_app, <- F. replace (n - length first - length (g_buf g2))%nat with 0%nat by lia. reflexivity.
    + cbn [with_buf g_fin]. rewrite I2. exact Hf.
Qed.
Print Assumptions C86_full.
(* from the size of the buffer on, it can be fewer, without an error *)
Theorem C86_short_refuted : forall bs n r, (0 < bs)%nat -> (bs <= n)%nat -> (1 < n)%nat -> length r = n -> exists plan b r' g', r = b :: r' /\ gz_read bs n (mkgz [] r true plan) = ([b], None, g').
Proof.
  intros bs n r Hb Hn H1 Hl. destruct r as [|b r]; [cbn in Hl; lia|]. exists [(0%nat, false)], b, r. eexists. split; [reflexivity|]. unfold gz_read. destruct (Nat.eqb_spec n 0); [lia|]. cbn [g_buf]. rewrite firstn_nil. cbn [length].
  destruct (Nat.eqb_spec 0 n); [lia|]. rewrite Nat.sub_0_r. destruct (Nat.leb_spec bs n); [|lia]. unfold src_read. cbn [g_rest with_buf hd g_plan length]. replace (Nat.min n (Nat.min 1 (S (length r)))) with 1%nat by lia. cbn. reflexivity.
Qed.
Print Assumptions C86_short_refuted.

(* ---- records ---- *)
Definition agree {A} (bs : nat) (x : gres A) (a : A) (s : list Z) : Prop := exists g', x = GOk a g' /\ data g' = s /\ g_fin g' = true.
Lemma agree_bind {A B} : forall bs (x : gres A) a s (f : A -> gz -> gres B) b s', agree bs x a s -> (forall g, data g = s -> g_fin g = true -> agree bs (f a g) b s') -> agree bs (gbind x f) b s'.
Proof. intros bs x a s f b s' (g & -> & D & F) H. cbn [gbind]. auto. Qed.
Section S.
Variable bs : nat.
Variable Hbs : (1 < bs)%nat.
Lemma byte_ok : forall g b s, data g = b :: s -> g_fin g = true -> exists g', gz_read_byte bs g = (inl b, g') /\ data g' = s /\ g_fin g' = true.
Proof.
  intros g b s D F. destruct (gz_read_byte bs g) as [x g'] eqn:E. destruct (gz_byte_spec _ _ _ _ E) as [F' X].
  assert (Y: exists c, x = inl c). { destruct x as [c|e]; [eauto|]. exfalso. assert (gz_call bs CByte g = ([], Some e, g')) by (cbn; now rewrite E). destruct (C86_end bs CByte g [] e g' ltac:(lia) H F) as (_ & Z & _). congruence. }
  destruct Y as [c ->]. assert (X2: b = c /\ s = data g') by (split; congruence). destruct X2 as [-> ->]. exists g'. split; [reflexivity|]. split; [reflexivity|congruence].
Qed.
Lemma uvarint_ok : forall fuel i x g v s, rd_uvarint_go fuel i x (data g) = ROk v s -> g_fin g = true -> agree bs (gz_uvarint_go bs fuel i x g) v s.
Proof.
  induction fuel as [|f IH]; intros i x g v s H F; cbn [rd_uvarint_go] in H; [discriminate|]. destruct (data g) as [|b s'] eqn:D; [discriminate|]. destruct (byte_ok g b s' D F) as (g' & E & D' & F'). cbn [gz_uvarint_go]. rewrite E.
  destruct (b <? 128).
  - destruct ((i =? 9) && (1 <? b)); [discriminate|]. injection H as <- <-. exists g'. auto.
  - rewrite <- D' in H. exact (IH _ _ _ _ _ H F').
Qed.
Lemma varint32_ok : forall g v s, rd_varint32 (data g) = ROk v s -> g_fin g = true -> agree bs (gz_varint32 bs g) v s.
Proof.
  intros g v s H F. unfold rd_varint32, rd_uvarint32, rd_uvarint in H. destruct (rd_uvarint_go 10 0 0 (data g)) as [u r| |] eqn:E; cbn [rbind] in H; try discriminate. destruct (2 ^ 32 <=? u) eqn:E2; cbn [rbind] in H; [discriminate|]. injection H as <- <-.
  unfold gz_varint32, gz_uvarint. eapply agree_bind; [exact (uvarint_ok _ _ _ _ _ _ E F)|]. intros g' D' F'. rewrite E2. exists g'. auto.
Qed.
Lemma varint64_ok : forall g v s, rd_varint64 (data g) = ROk v s -> g_fin g = true -> agree bs (gz_varint64 bs g) v s.
Proof.
  intros g v s H F. unfold rd_varint64, rd_uvarint in H. destruct (rd_uvarint_go 10 0 0 (data g)) as [u r| |] eqn:E; cbn [rbind] in H; try discriminate. injection H as <- <-.
  unfold gz_varint64, gz_uvarint. eapply agree_bind; [exact (uvarint_ok _ _ _ _ _ _ E F)|]. intros g' D' F'. exists g'. auto.
Qed.
Lemma part_ok : forall g l s, data g = l ++ s -> g_fin g = true -> (length l < bs)%nat -> agree bs (gz_part bs (length l) g) (Some l) s.
Proof.
  intros g l s D F L. destruct (C86_full bs (length l) g ltac:(lia) F ltac:(lia)) as (g' & E & D' & F'); [rewrite D, app_length; lia|].
  unfold gz_part. rewrite E. rewrite D in *. rewrite firstn_app, Nat.sub_diag, firstn_all in *. cbn [firstn]. rewrite app_nil_r, Nat.eqb_refl. exists g'. split; [reflexivity|]. split; [|exact F']. rewrite D', skipn_app, Nat.sub_diag, skipn_all. reflexivity.
Qed.
Lemma int8_ok : forall g v s, rd_int 1 (data g) = ROk v s -> g_fin g = true -> agree bs (gz_int8 bs g) v s.
Proof.
  intros g v s H F. destruct (data g) as [|b r] eqn:D; [discriminate|]. destruct (C86_full bs 1 g ltac:(lia) F ltac:(lia)) as (g' & E & D' & F'); [rewrite D; cbn; lia|]. unfold gz_int8. rewrite E. rewrite D in *. cbn [firstn length Nat.eqb].
  cbn in H. injection H as <- <-. exists g'. split; [reflexivity|]. split; [exact D'|exact F'].
Qed.
Definition small (o : option (list Z)) : Prop := match o with Some l => (length l < bs)%nat | None => True end.
Lemma nbytes_ok : forall o h g s, nb_ok o -> small o -> wr_nbytes o = Some h -> data g = h ++ s -> g_fin g = true -> agree bs (gz_nbytes bs g) (Some o) s.
Proof.
  intros o h g s Ho Hs E D F. unfold wr_nbytes in E. unfold gz_nbytes. destruct o as [b|].
  - apply obind_some in E as (x & Eh & [= <-]). destruct (i32len_ok b Ho) as [E1 E2]. rewrite E1 in Eh. rewrite <- app_assoc in D. eapply agree_bind.
    + apply varint32_ok; [rewrite D; exact (rt_varint32' _ x _ E2 Eh)|exact F].
    + intros g' D' F'. cbv beta. pose proof (zlen_nonneg b). destruct (zlen b <? 0) eqn:Eb; [lia|]. destruct (zlen b =? 0) eqn:Ez.
      * assert (b = []) by (apply zlen_nil; lia). subst b. exists g'. auto.
      * replace (Z.to_nat (zlen b)) with (length b) by (unfold zlen; lia). eapply agree_bind; [exact (part_ok _ _ _ D' F' Hs)|]. intros g2 D2 F2. exists g2. auto.
  - eapply agree_bind.
    + apply varint32_ok; [rewrite D; apply (rt_varint32' (-1) h s); [apply int_range32; lia|exact E]|exact F].
    + intros g' D' F'. exists g'. auto.
Qed.
Definition hdr_small (h : hdr) : Prop := (length (h_key h) < bs)%nat /\ small (h_val h).
Lemma hdr_agree : forall h l g s, hdr_ok h -> hdr_small h -> wr_hdr h = Some l -> data g = l ++ s -> g_fin g = true -> agree bs (gz_hdr bs g) h s.
Proof.
  intros h l g s [Hk Hv] [Sk Sv] E D F. apply wr_hdr_inv in E as (a & b & Ea & Eb & ->). destruct (i32len_ok _ Hk) as [E1 E2]. rewrite E1 in Ea. rewrite <- !app_assoc in D. unfold gz_hdr. eapply agree_bind.
  - apply varint32_ok; [rewrite D; exact (rt_varint32' _ a _ E2 Ea)|exact F].
  - intros g1 D1 F1. cbv beta. pose proof (zlen_nonneg (h_key h)). eapply (agree_bind bs _ (Some (h_key h)) (b ++ s)).
    + destruct (zlen (h_key h) >? 0) eqn:Ez.
      * replace (Z.to_nat (zlen (h_key h))) with (length (h_key h)) by (unfold zlen; lia). exact (part_ok _ _ _ D1 F1 Sk).
      * assert (Z0: h_key h = []) by (apply zlen_nil; lia). rewrite Z0 in *. exists g1. auto.
    + intros g2 D2 F2. cbv beta iota. eapply agree_bind; [exact (nbytes_ok _ _ _ _ Hv Sv Eb D2 F2)|]. intros g3 D3 F3. exists g3. split; [now destruct h|auto].
Qed.
Lemma items_agree {A} (wr : A -> option (list Z)) (rd : gz -> gres A) (P : A -> Prop) :
  (forall a l g s, P a -> wr a = Some l -> data g = l ++ s -> g_fin g = true -> agree bs (rd g) a s) ->
  forall xs l g s, Forall P xs -> wr_items wr xs = Some l -> data g = l ++ s -> g_fin g = true -> agree bs (gz_items rd (length xs) g) xs s.
Proof.
  intros H. induction xs as [|x xs IH]; intros l g s HP E D F; cbn [wr_items] in E.
  - injection E as <-. exists g. auto.
  - apply obind_some in E as (a & Ea & E). apply obind_some in E as (b & Eb & [= <-]). inversion HP; subst. rewrite <- app_assoc in D. cbn [length gz_items].
    eapply agree_bind; [exact (H _ _ _ _ H2 Ea D F)|]. intros g1 D1 F1. cbv beta. eapply agree_bind; [exact (IH _ _ _ H3 Eb D1 F1)|]. intros g2 D2 F2. exists g2. auto.
Qed.
Definition rec_small (r : record) : Prop := small (r_key r) /\ small (r_val r) /\ Forall hdr_small (hdr_list r).
Lemma record_agree : forall r l g s, rec_ok r -> rec_small r -> wr_record r = Some l -> data g = l ++ s -> g_fin g = true -> agree bs (gz_record bs g) r s.
Proof.
  intros r l g s Hok (Sk & Sv & Sh) E D F. pose proof (rec_len_ok r Hok) as [L1 L2]. destruct Hok as (Ra & Rt & Ro & Rk & Rv & (hs0 & Eh0 & Hl & Hh) & _).
  apply wr_record_inv in E as (a & b & c & d & e & f & h & hs & Ea & Eb & Ec & Ed & Ee & Eh & Ef & Eg & ->). rewrite Eh in Eh0. injection Eh0 as <-. rewrite L1 in Ea. unfold hdr_list in Sh. rewrite Eh in Sh.
  rewrite <- !app_assoc in D. unfold gz_record. eapply agree_bind; [apply varint32_ok; [rewrite D; exact (rt_varint32' _ a _ L2 Ea)|exact F]|]. intros g1 D1 F1. cbv beta.
  eapply agree_bind; [apply int8_ok; [rewrite D1; exact (rd_int1 _ _ Ra)|exact F1]|]. intros g2 D2 F2. cbv beta.
  eapply agree_bind; [apply varint64_ok; [rewrite D2; exact (rt_varint64' _ b _ Rt Eb)|exact F2]|]. intros g3 D3 F3. cbv beta.
  eapply agree_bind; [apply varint32_ok; [rewrite D3; exact (rt_varint32' _ c _ Ro Ec)|exact F3]|]. intros g4 D4 F4. cbv beta.
  eapply agree_bind; [exact (nbytes_ok _ _ _ _ Rk Sk Ed D4 F4)|]. intros g5 D5 F5. cbv beta iota.
  eapply agree_bind; [exact (nbytes_ok _ _ _ _ Rv Sv Ee D5 F5)|]. intros g6 D6 F6. cbv beta iota.
  destruct (i32len_ok _ Hl) as [I1 I2]. rewrite I1 in Ef.
  eapply agree_bind; [apply varint32_ok; [rewrite D6; exact (rt_varint32' _ f _ I2 Ef)|exact F6]|]. intros g7 D7 F7. cbv beta.
  pose proof (zlen_nonneg hs). destruct (zlen hs <? 0) eqn:El; [lia|]. replace (Z.to_nat (zlen hs)) with (length hs) by (unfold zlen; lia).
  eapply agree_bind.
  - apply (items_agree wr_hdr (gz_hdr bs) (fun x => hdr_ok x /\ hdr_small x)) with (l := h); [intros x lx gx sx [X1 X2] Ex Dx Fx; exact (hdr_agree _ _ _ _ X1 X2 Ex Dx Fx)|apply Forall_and; assumption|exact Eg|exact D7|exact F7].
  - intros g8 D8 F8. cbv beta zeta. assert (R: mkrec (r_attr r) (r_ts r) (r_off r) (r_key r) (r_val r) (Some hs) = r) by (rewrite <- Eh; now destruct r). rewrite R, Z.eqb_refl. exists g8. auto.
Qed.
End S.
(* records whose keys, values and header fields are all smaller than the buffer are read from a gzip stream as they were written, however the decompressor splits
   its output *)
Theorem C86_records : forall recs l tail plan, Forall rec_ok recs -> Forall (rec_small BUFSIZE) recs -> wr_items wr_record recs = Some l ->
  exists g', gz_records BUFSIZE (length recs) (mkgz [] (l ++ tail) true plan) = GOk recs g' /\ data g' = tail.
Proof.
  intros recs l tail plan H1 H2 E. assert (Hb: (1 < BUFSIZE)%nat) by (unfold BUFSIZE; lia).
  destruct (items_agree BUFSIZE wr_record (gz_record BUFSIZE) (fun r => rec_ok r /\ rec_small BUFSIZE r)
    (fun r lr g s P Er D F => record_agree BUFSIZE Hb r lr g s (proj1 P) (proj2 P) Er D F) recs l (mkgz [] (l ++ tail) true plan) tail) as (g' & X & D & _); [apply Forall_and; assumption|exact E|reflexivity|reflexivity|].
  exists g'. auto.
Qed.
Print Assumptions C86_records.
(* what the encoder writes with one value of 40000 bytes is read as a record without key and value, without an error, when the decompressor delivers 32768 bytes at a
   time, as compress/flate does *)
Definition large : record := mkrec 0 0 0 None (Some (repeat 7 (Z.to_nat 40000))) (Some []).
Definition windows : list (nat * bool) := [(Z.to_nat 16383, false); (Z.to_nat 16383, false)].
Definition check (l : list Z) : bool :=
  match gz_records BUFSIZE 1 (mkgz [] l true windows) with GOk [mkrec 0 0 0 None None None] g => negb (Nat.eqb (length (data g)) 0) | _ => false end.
Lemma check_ok : forall l, check l = true -> exists g', gz_records BUFSIZE 1 (mkgz [] l true windows) = GOk [zero_rec] g' /\ length (data g') <> 0%nat.
Proof.
  intros l. unfold check. generalize (gz_records BUFSIZE 1 (mkgz [] l true windows)). intros [rs g| |] X; try discriminate. exists g.
  destruct rs as [|[at_ ts of k v hs] rs]; [discriminate|]. destruct at_; try discriminate. destruct ts; try discriminate. destruct of; try discriminate. destruct k; try discriminate. destruct v; try discriminate. destruct hs; try discriminate. destruct rs; try discriminate.
  split; [reflexivity|]. apply negb_true_iff in X. apply Nat.eqb_neq in X. exact X.
Qed.
Lemma large_checked : match wr_items wr_record [large] with Some l => check l | None => false end = true.
Proof. vm_compute. reflexivity. Qed.
Theorem C86_large_refuted : rec_ok large /\ exists l plan g', wr_items wr_record [large] = Some l /\
  gz_records BUFSIZE 1 (mkgz [] l true plan) = GOk [zero_rec] g' /\ r_val zero_rec = None /\ length (data g') <> 0%nat.
Proof.
  split.
  - unfold rec_ok, large. cbn [r_attr r_ts r_off r_key r_val r_hdrs]. split; [unfold int_range; cbn; lia|]. split; [unfold int_range; cbn; lia|]. split; [unfold int_range; cbn; lia|]. split; [exact I|]. split; [unfold nb_ok, zlen; rewrite repeat_length; lia|]. split; [exists []; split; [reflexivity|split; [cbn; lia|constructor]]|]. vm_compute. reflexivity.
  - pose proof large_checked as X. revert X. generalize (wr_items wr_record [large]). intros [l|] X; [|discriminate X]. destruct (check_ok l X) as (g' & G1 & G2). exists l, windows, g'. repeat split; assumption.
Qed.
Print Assumptions C86_large_refuted.
Example C86_records_example : let r := mkrec 0 5 1 (Some [1; 2]) (Some (repeat 9 20)) (Some [mkhdr [3] (Some [4; 5])]) in rec_ok r /\ rec_small BUFSIZE r /\
  exists l g', wr_items wr_record [r; r] = Some l /\ gz_records BUFSIZE 2 (mkgz [] l true [(3%nat, false); (0%nat, true); (10%nat, true)]) = GOk [r; r] g'.
Proof.
  cbv zeta. split; [|split].
  - unfold rec_ok. cbn [r_attr r_ts r_off r_key r_val r_hdrs]. split; [unfold int_range; cbn; lia|]. split; [unfold int_range; cbn; lia|]. split; [unfold int_range; cbn; lia|]. split; [cbn; lia|]. split; [cbn; lia|]. split; [eexists; split; [reflexivity|split; [cbn; lia|repeat constructor; cbn; lia]]|]. vm_compute. reflexivity.
  - unfold rec_small, small, hdr_small, hdr_list. cbn [r_key r_val r_hdrs]. assert (B: (100 < BUFSIZE)%nat) by (unfold BUFSIZE; lia). revert B. generalize BUFSIZE. intros bsz B. repeat split; cbn; try lia. repeat constructor; cbn; lia.
  - set (r := mkrec 0 5 1 (Some [1; 2]) (Some (repeat 9 20)) (Some [mkhdr [3] (Some [4; 5])])).
    assert (X: match wr_items wr_record [r; r] with Some l => match gz_records BUFSIZE 2 (mkgz [] l true [(3%nat, false); (0%nat, true); (10%nat, true)]) with GOk [a; b] _ => a = r /\ b = r | _ => False end | None => False end) by (vm_compute; split; reflexivity).
    revert X. generalize (wr_items wr_record [r; r]). intros [l|] X; [|contradiction]. destruct (gz_records BUFSIZE 2 (mkgz [] l true [(3%nat, false); (0%nat, true); (10%nat, true)])) as [[|a [|b [|c rs]]] g| |] eqn:G; try contradiction. destruct X as [-> ->]. exists l, g. split; [reflexivity|exact G].
Qed.
(* the snappy writer: what was written, put together, is encoded and written once, by Close *)
Theorem C86_snappy : forall enc ps, sn_close enc (fold_left (fun w p => snd (sn_write w p)) ps (mksn [] [])) = mksn [] [enc (concat ps)].
Proof.
  intros enc ps. assert (H: forall ps w, fold_left (fun w p => snd (sn_write w p)) ps w = mksn (sn_buf w ++ concat ps) (sn_out w)).
  { clear ps. induction ps as [|p ps IH]; intros [b o]; cbn [fold_left concat]; [now rewrite app_nil_r|]. rewrite IH. cbn. now rewrite app_assoc. }
  rewrite H. reflexivity.
Qed.
Print Assumptions C86_snappy.
