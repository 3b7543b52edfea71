(* Lemmas about M_KIo *)
From Coq Require Import List ZArith Bool Lia ZifyBool ZifyNat.
From Verif Require Import M_KIo S_KIo.
Import ListNotations.
Open Scope Z_scope.

Ltac dif := match goal with |- context [if ?c then _ else _] => destruct c eqn:? end.

(* ---------- SliceWriter ---------- *)
Definition sw_wf (w : swriter) : Prop := (sw_len w <= sw_cap w)%nat.

Lemma mem_put_length mem off p : (off + length p <= length mem)%nat ->
  length (mem_put mem off p) = length mem.
Proof. intros H. unfold mem_put. rewrite !app_length, firstn_length, skipn_length. lia. Qed.

Lemma mem_put_bytes mem off p n : (off + length p <= length mem)%nat -> n = (off + length p)%nat ->
  firstn n (mem_put mem off p) = firstn off mem ++ p.
Proof.
  intros H ->. unfold mem_put. rewrite app_assoc, firstn_app.
  rewrite app_length, firstn_length.
  replace (off + length p - (Nat.min off (length mem) + length p))%nat with 0%nat by lia.
  cbn [firstn]. rewrite app_nil_r. apply firstn_all2. rewrite app_length, firstn_length. lia.
Qed.

Lemma sw_write_spec w p : sw_wf w ->
  let '(w', r) := sw_write w p in
  sw_cap w' = sw_cap w /\ sw_wf w' /\
  if (length p <=? sw_cap w - sw_len w)%nat
  then r = WOk (Z.of_nat (length p)) /\ sw_bytes w' = sw_bytes w ++ p
  else r = WErr /\ w' = w.
Proof.
  unfold sw_wf, sw_write, sw_cap, sw_bytes. intros H.
  destruct (Nat.ltb_spec (length (sw_mem w) - sw_len w) (length p)) as [Hlt|Hge];
  destruct (Nat.leb_spec (length p) (length (sw_mem w) - sw_len w)) as [Hle|Hgt]; try lia; cbn [sw_mem sw_len].
  - repeat split; assumption.
  - rewrite mem_put_length by lia. repeat split; [lia|]. apply mem_put_bytes; lia.
Qed.

Lemma skipn_firstn_mid {A} (l : list A) a n : skipn a (firstn (a + n) l) = firstn n (skipn a l).
Proof. rewrite firstn_skipn_comm. reflexivity. Qed.

Lemma sw_insert_spec w p off : sw_wf w -> 0 <= off <= Z.of_nat (sw_len w) ->
  let '(w', r) := sw_insert_at w p off in
  sw_cap w' = sw_cap w /\ sw_wf w' /\
  if (length p <=? sw_cap w - sw_len w)%nat
  then r = WOk (Z.of_nat (length p)) /\
       sw_bytes w' = firstn (Z.to_nat off) (sw_bytes w) ++ p ++ skipn (Z.to_nat off) (sw_bytes w)
  else r = WErr /\ w' = w.
Proof.
  unfold sw_wf, sw_insert_at, sw_cap, sw_bytes. intros H Hoff.
  destruct (Nat.eqb_spec (length p) 0) as [H0|H0].
  { destruct p; [|discriminate]. cbn [length Nat.leb app]. rewrite firstn_skipn. now repeat split. }
  destruct (Nat.ltb_spec (length (sw_mem w) - sw_len w) (length p)) as [Hlt|Hge];
  destruct (Nat.leb_spec (length p) (length (sw_mem w) - sw_len w)) as [Hle|Hgt]; try lia; cbn [sw_mem sw_len].
  { now repeat split. }
  cbv zeta.
  destruct ((off <? 0) || (Z.of_nat (sw_len w + length p) <? off) ||
            (off + Z.of_nat (length p) <? 0) || (Z.of_nat (sw_len w + length p) <? off + Z.of_nat (length p))) eqn:E; [lia|].
  cbn [sw_mem sw_len]. clear E.
  set (o := Z.to_nat off). assert (o <= sw_len w)%nat as Ho by lia.
  set (len1 := (sw_len w + length p)%nat).
  replace (Nat.min (len1 - (o + length p)) (len1 - o)) with (sw_len w - o)%nat by lia.
  replace (Nat.min (len1 - o) (length p)) with (length p) by lia.
  rewrite (firstn_all p).
  set (mem1 := mem_put (sw_mem w) (sw_len w) (repeat 0 (length p))).
  assert (length mem1 = length (sw_mem w)) as L1.
  { unfold mem1. apply mem_put_length. rewrite repeat_length. lia. }
  assert (firstn (sw_len w) mem1 = firstn (sw_len w) (sw_mem w)) as F1.
  { unfold mem1, mem_put. rewrite firstn_app, firstn_length.
    replace (sw_len w - Nat.min (sw_len w) (length (sw_mem w)))%nat with 0%nat by lia.
    cbn [firstn]. rewrite app_nil_r. rewrite firstn_firstn. f_equal. lia. }
  set (tail := firstn (sw_len w - o) (skipn o (firstn len1 mem1))).
  assert (tail = skipn o (firstn (sw_len w) (sw_mem w))) as Ht.
  { unfold tail. rewrite <- F1. rewrite <- skipn_firstn_mid.
    replace (o + (sw_len w - o))%nat with (sw_len w) by lia. rewrite firstn_firstn.
    f_equal. f_equal. lia. }
  assert (length tail = (sw_len w - o)%nat) as Lt.
  { rewrite Ht, skipn_length, firstn_length. lia. }
  assert (length (mem_put mem1 (o + length p) tail) = length (sw_mem w)) as L2.
  { rewrite mem_put_length; [assumption|]. rewrite Lt. lia. }
  split; [|split; [|split]].
  - rewrite mem_put_length; [assumption|]. lia.
  - rewrite mem_put_length; lia.
  - reflexivity.
  - unfold mem_put at 1.
    assert (firstn o (mem_put mem1 (o + length p) tail) = firstn o (sw_mem w)) as G1.
    { unfold mem_put. rewrite firstn_app, firstn_length.
      replace (o - Nat.min (o + length p) (length mem1))%nat with 0%nat by lia.
      cbn [firstn]. rewrite app_nil_r, firstn_firstn. replace (Nat.min o (o + length p)) with o by lia.
      replace (firstn o mem1) with (firstn o (firstn (sw_len w) mem1)) by (rewrite firstn_firstn; f_equal; lia).
      rewrite F1, firstn_firstn. f_equal. lia. }
    rewrite G1.
    assert (skipn (o + length p) (mem_put mem1 (o + length p) tail) = tail ++ skipn (o + length p + length tail) mem1) as G2.
    { unfold mem_put. rewrite skipn_app, firstn_length.
      replace (o + length p - Nat.min (o + length p) (length mem1))%nat with 0%nat by lia.
      rewrite skipn_all2 by (rewrite firstn_length; lia). reflexivity. }
    rewrite G2.
    rewrite app_assoc, app_assoc, firstn_app.
    assert (length ((firstn o (sw_mem w) ++ p) ++ tail) = len1) as L3.
    { rewrite !app_length, firstn_length, Lt. lia. }
    rewrite L3, Nat.sub_diag. cbn [firstn]. rewrite app_nil_r, firstn_all2 by lia.
    rewrite Ht, <- app_assoc. f_equal. rewrite firstn_firstn. f_equal. lia.
Qed.

Lemma sw_write_at_wf w p off : sw_wf w ->
  sw_cap (fst (sw_write_at w p off)) = sw_cap w /\ sw_wf (fst (sw_write_at w p off)).
Proof.
  unfold sw_wf, sw_cap, sw_write_at. intros H.
  repeat (dif; cbn [fst sw_mem sw_len]; try (split; [reflexivity|assumption])).
  cbn zeta. cbn [fst sw_mem sw_len].
  assert (length (mem_put (sw_mem w) (Z.to_nat off) (firstn (Nat.min (sw_len w - Z.to_nat off) (length p)) p))
          = length (sw_mem w)) as ->; [|split; [reflexivity|assumption]].
  apply mem_put_length. rewrite firstn_length. unfold sw_cap in *. lia.
Qed.

(* WriteAt never changes the length, and only the bytes [off, off+n) *)
Lemma sw_write_at_spec w p off : sw_wf w -> 0 <= off -> off + Z.of_nat (length p) <= Z.of_nat (sw_len w) ->
  let '(w', r) := sw_write_at w p off in
  r = WOk (Z.of_nat (length p)) /\
  sw_bytes w' = firstn (Z.to_nat off) (sw_bytes w) ++ p ++ skipn (Z.to_nat off + length p) (sw_bytes w).
Proof.
  unfold sw_wf, sw_cap, sw_write_at, sw_bytes. intros H Ho Hp.
  destruct (Nat.eqb_spec (length p) 0) as [H0|H0].
  { destruct p; [|discriminate]. cbn [length app]. split; [reflexivity|]. rewrite Nat.add_0_r, firstn_skipn. reflexivity. }
  destruct (Z.of_nat (sw_cap w) - off <? Z.of_nat (length p)) eqn:E1; [unfold sw_cap in *; lia|].
  destruct ((off <? 0) || (Z.of_nat (sw_len w) <? off)) eqn:E2; [lia|].
  cbn zeta. cbn [sw_mem sw_len].
  replace (Nat.min (sw_len w - Z.to_nat off) (length p)) with (length p) by lia.
  split; [reflexivity|]. rewrite firstn_all. unfold mem_put.
  set (o := Z.to_nat off).
  rewrite firstn_app, firstn_length, firstn_firstn.
  replace (Nat.min (sw_len w) o) with o by lia. rewrite firstn_firstn.
  replace (Nat.min o (sw_len w)) with o by lia. f_equal.
  rewrite firstn_app. replace (sw_len w - Nat.min o (length (sw_mem w)))%nat with (sw_len w - o)%nat by lia.
  rewrite firstn_all2 by lia. f_equal. rewrite <- skipn_firstn_mid. f_equal. f_equal. lia.
Qed.

Lemma sw_insert_wf w p off : sw_wf w ->
  sw_cap (fst (sw_insert_at w p off)) = sw_cap w /\ sw_wf (fst (sw_insert_at w p off)).
Proof.
  intros H. destruct (Z_le_dec 0 off) as [H1|H1]; [destruct (Z_le_dec off (Z.of_nat (sw_len w))) as [H2|H2]|].
  - pose proof (sw_insert_spec w p off H (conj H1 H2)) as S.
    destruct (sw_insert_at w p off) as [w' r]. cbn [fst]. split; apply S.
  - unfold sw_insert_at, sw_wf, sw_cap in *.
    destruct (Nat.eqb_spec (length p) 0); [split; [reflexivity|assumption]|].
    destruct (Nat.ltb_spec (length (sw_mem w) - sw_len w) (length p)); [split; [reflexivity|assumption]|].
    cbv zeta. destruct ((off <? 0) || _ || _ || _) eqn:E; [|lia].
    cbn [fst sw_mem sw_len]. rewrite mem_put_length by (rewrite repeat_length; lia). lia.
  - unfold sw_insert_at, sw_wf, sw_cap in *.
    destruct (Nat.eqb_spec (length p) 0); [split; [reflexivity|assumption]|].
    destruct (Nat.ltb_spec (length (sw_mem w) - sw_len w) (length p)); [split; [reflexivity|assumption]|].
    cbv zeta. destruct ((off <? 0) || _ || _ || _) eqn:E; [|lia].
    cbn [fst sw_mem sw_len]. rewrite mem_put_length by (rewrite repeat_length; lia). lia.
Qed.

Lemma sw_seek_wf w o wh : sw_wf w ->
  sw_cap (fst (sw_seek w o wh)) = sw_cap w /\ sw_wf (fst (sw_seek w o wh)).
Proof.
  unfold sw_wf, sw_seek, sw_cap. intros H. repeat dif; cbn [fst sw_mem sw_len]; split; try reflexivity; try assumption; unfold sw_cap in *; lia.
Qed.

Lemma sw_step_wf w o : sw_wf w ->
  sw_cap (fst (sw_step w o)) = sw_cap w /\ sw_wf (fst (sw_step w o)).
Proof.
  intros H. destruct o; cbn [sw_step].
  - pose proof (sw_write_spec w p H) as S. destruct (sw_write w p). cbn [fst]. split; apply S.
  - now apply sw_write_at_wf.
  - now apply sw_insert_wf.
  - now apply sw_seek_wf.
Qed.

Lemma sw_run_wf os w : sw_wf w ->
  let w' := fold_left (fun a o => fst (sw_step a o)) os w in
  sw_cap w' = sw_cap w /\ (length (sw_bytes w') <= sw_cap w)%nat.
Proof.
  revert w; induction os as [|o os IH]; intros w H; cbn [fold_left].
  - split; [reflexivity|]. unfold sw_bytes, sw_cap. rewrite firstn_length. lia.
  - destruct (sw_step_wf w o H) as [H1 H2]. specialize (IH _ H2). rewrite H1 in IH. exact IH.
Qed.

(* a sequence of plain writes that fits is the concatenation; otherwise some write reports an error *)
Lemma sw_writes ps w : sw_wf w -> (length (concat ps) <= sw_cap w - sw_len w)%nat ->
  sw_bytes (fold_left (fun a p => fst (sw_write a p)) ps w) = sw_bytes w ++ concat ps.
Proof.
  revert w; induction ps as [|p ps IH]; intros w H Hl; cbn [fold_left concat].
  - now rewrite app_nil_r.
  - cbn [concat] in Hl. rewrite app_length in Hl.
    pose proof (sw_write_spec w p H) as S.
    assert (sw_len (fst (sw_write w p)) = (sw_len w + length p)%nat) as Hlen.
    { unfold sw_write. destruct (Nat.ltb_spec (sw_cap w - sw_len w) (length p)); [lia|reflexivity]. }
    destruct (sw_write w p) as [w' r]. cbn [fst] in *. destruct S as (S1 & S2 & S3).
    destruct (Nat.leb_spec (length p) (sw_cap w - sw_len w)) as [Hle|Hgt]; [|lia].
    rewrite IH; [|assumption|lia]. destruct S3 as [_ ->]. now rewrite app_assoc.
Qed.

(* ---------- ChunkReader ---------- *)
Fixpoint c_abs (c : creader) : Z := match c with CBase b _ => b | CSub b _ p => b + c_abs p end.
Fixpoint c_wf (d : list Z) (c : creader) : Prop :=
  match c with
  | CBase b s => 0 <= b /\ 0 <= s /\ b + s <= Z.of_nat (length d)
  | CSub b s p => 0 <= b /\ 0 <= s /\ b + s <= c_size p /\ c_wf d p
  end.

Lemma c_wf_bound d c : c_wf d c -> 0 <= c_abs c /\ 0 <= c_size c /\ c_abs c + c_size c <= Z.of_nat (length d).
Proof.
  induction c as [b s|b s p IH]; cbn [c_wf c_abs c_size]; intros H; [lia|].
  destruct H as (H1 & H2 & H3 & H4). specialize (IH H4). lia.
Qed.

Lemma c_len_abs d c pos : 0 <= pos <= Z.of_nat (length d) -> c_len c d pos = c_abs c + c_size c - pos.
Proof.
  intros Hp. induction c as [b s|b s p IH]; cbn [c_len c_abs c_size].
  - unfold br_size, br_len. dif; lia.
  - rewrite IH. lia.
Qed.

Lemma slice_length d a n : 0 <= a -> 0 <= n -> a + n <= Z.of_nat (length d) -> Z.of_nat (length (slice d a n)) = n.
Proof. intros. unfold slice. rewrite firstn_length, skipn_length. lia. Qed.

Lemma skipn_skipn_add {A} (a b : nat) (l : list A) : skipn b (skipn a l) = skipn (a + b) l.
Proof.
  revert l; induction a as [|a IH]; intros l; [reflexivity|].
  destruct l; [now rewrite !skipn_nil|apply IH].
Qed.

Lemma slice_slice d a n b m : 0 <= a -> 0 <= b -> 0 <= m -> 0 <= n ->
  slice (slice d a n) b m = slice d (a + b) (Z.min m (n - b)).
Proof.
  intros. unfold slice. rewrite skipn_firstn_comm, firstn_firstn, skipn_skipn_add.
  f_equal; [lia|]. f_equal. lia.
Qed.

Lemma c_read_spec d c pos n : c_wf d c -> c_abs c <= pos <= c_abs c + c_size c -> 0 <= n ->
  c_read c d pos n =
  if pos =? c_abs c + c_size c then (pos, REof)
  else let m := Z.min n (c_abs c + c_size c - pos) in (pos + m, RBytes (slice d pos m)).
Proof.
  revert n. induction c as [b s|b s p IH]; intros n Hwf Hpos Hn; pose proof (c_wf_bound _ _ Hwf) as Hb;
    cbn [c_read]; rewrite c_len_abs by lia; cbn [c_abs c_size c_wf] in *.
  - destruct (Z.eqb_spec pos (b + s)) as [E|E]; destruct (b + s - pos <=? 0) eqn:E1; try lia; [reflexivity|].
    unfold br_read, br_size. destruct (Z.of_nat (length d) <=? pos) eqn:E2; [lia|]. cbv zeta.
    assert ((if b + s - pos <? n then b + s - pos else n) = Z.min n (b + s - pos)) as -> by (dif; lia).
    rewrite slice_length by lia. reflexivity.
  - destruct (Z.eqb_spec pos (b + c_abs p + s)) as [E|E]; destruct (b + c_abs p + s - pos <=? 0) eqn:E1; try lia; [reflexivity|].
    assert ((if b + c_abs p + s - pos <? n then b + c_abs p + s - pos else n) = Z.min n (b + c_abs p + s - pos)) as -> by (dif; lia).
    rewrite IH by (try apply Hwf; lia).
    destruct (Z.eqb_spec pos (c_abs p + c_size p)) as [E3|E3]; [lia|]. cbv zeta.
    replace (Z.min (Z.min n (b + c_abs p + s - pos)) (c_abs p + c_size p - pos)) with (Z.min n (b + c_abs p + s - pos)) by lia.
    reflexivity.
Qed.

Lemma c_read_byte_spec d c pos : c_wf d c -> c_abs c <= pos <= c_abs c + c_size c ->
  c_read_byte c d pos =
  if pos =? c_abs c + c_size c then (pos, REof) else (pos + 1, RBytes (slice d pos 1)).
Proof.
  induction c as [b s|b s p IH]; intros Hwf Hpos; pose proof (c_wf_bound _ _ Hwf) as Hb;
    cbn [c_read_byte]; rewrite c_len_abs by lia; cbn [c_abs c_size c_wf] in *.
  - destruct (Z.eqb_spec pos (b + s)); destruct (b + s - pos <=? 0) eqn:E1; try lia; [reflexivity|].
    unfold br_read_byte, br_size. destruct (Z.of_nat (length d) <=? pos) eqn:E2; [lia|reflexivity].
  - destruct (Z.eqb_spec pos (b + c_abs p + s)); destruct (b + c_abs p + s - pos <=? 0) eqn:E1; try lia; [reflexivity|].
    rewrite IH by (try apply Hwf; lia). destruct (Z.eqb_spec pos (c_abs p + c_size p)); [lia|reflexivity].
Qed.

Lemma c_read_at_spec d c n off : c_wf d c -> 0 <= n ->
  c_read_at c d n off =
  if off <? 0 then RError
  else if (c_size c <=? off) || (c_size c <? off + n) then REof
  else RBytes (slice d (c_abs c + off) n).
Proof.
  revert off. induction c as [b s|b s p IH]; intros off Hwf Hn; pose proof (c_wf_bound _ _ Hwf) as Hb;
    cbn [c_read_at c_size c_abs c_wf] in *; destruct (off <? 0) eqn:E0; try reflexivity;
    destruct (s <=? off) eqn:E1; cbn [orb]; try reflexivity;
    destruct (s - off <? n) eqn:E2; destruct (s <? off + n) eqn:E3; try lia; try reflexivity.
  - unfold br_read_at, br_size. destruct (b + off <? 0) eqn:E4; [lia|].
    destruct (Z.of_nat (length d) <=? b + off) eqn:E5; [lia|]. cbv zeta.
    destruct (Z.of_nat (length (slice d (b + off) n)) <? n) eqn:E6; [|reflexivity].
    rewrite slice_length in E6 by lia. lia.
  - rewrite IH by (try apply Hwf; lia).
    destruct (b + off <? 0) eqn:E4; [lia|]. destruct (c_size p <=? b + off) eqn:E5; [lia|].
    destruct (c_size p <? b + off + n) eqn:E6; [lia|]. cbn [orb]. do 2 f_equal. lia.
Qed.

Lemma c_unread_spec d c pos : c_wf d c -> c_abs c <= pos <= c_abs c + c_size c ->
  c_unread c d pos = if pos =? c_abs c then (pos, RError) else (pos - 1, RNil).
Proof.
  induction c as [b s|b s p IH]; intros Hwf Hpos; pose proof (c_wf_bound _ _ Hwf) as Hb;
    cbn [c_unread c_abs c_size c_wf] in *.
  - assert (br_size d - br_len d pos = pos) as -> by (unfold br_size, br_len; dif; lia).
    destruct (Z.eqb_spec pos b); destruct (pos <=? b) eqn:E; try lia; [reflexivity|].
    unfold br_unread. destruct (pos <=? 0) eqn:E2; [lia|reflexivity].
  - rewrite c_len_abs by lia.
    replace (c_size p - (c_abs p + c_size p - pos)) with (pos - c_abs p) by lia.
    destruct (Z.eqb_spec pos (b + c_abs p)); destruct (pos - c_abs p <=? b) eqn:E; try lia; [reflexivity|].
    rewrite IH by (try apply Hwf; lia). destruct (Z.eqb_spec pos (c_abs p)); [lia|reflexivity].
Qed.

Definition win_seek (size q off wh : Z) : Z * rdout :=
  let go a := if (a <? 0) || (size <? a) then (q, RError) else (a, RPos a) in
  if wh =? 0 then go off else if wh =? 1 then go (q + off) else if wh =? 2 then go (size + off)
  else (q, RError).

Lemma c_seek_spec d c pos off wh : c_wf d c -> c_abs c <= pos <= c_abs c + c_size c ->
  c_seek c d pos off wh =
  (c_abs c + fst (win_seek (c_size c) (pos - c_abs c) off wh),
   snd (win_seek (c_size c) (pos - c_abs c) off wh)).
Proof.
  revert off. induction c as [b s|b s p IH]; intros off Hwf Hpos; pose proof (c_wf_bound _ _ Hwf) as Hb.
  - cbn [c_seek]. rewrite c_len_abs by lia. cbn [c_abs c_size c_base c_wf] in *.
    unfold win_seek, br_seek.
    destruct (Z.eqb_spec wh 0) as [->|N0]; [|destruct (Z.eqb_spec wh 1) as [->|N1]; [|destruct (Z.eqb_spec wh 2) as [->|N2]]];
      cbn [Z.eqb Pos.eqb].
    + destruct ((off <? 0) || (s <? off)) eqn:E; cbn [fst snd]; [f_equal; lia|].
      destruct (b + off <? 0) eqn:E1; [lia|]. reflexivity.
    + replace (s - (b + s - pos) + off) with (pos - b + off) by lia.
      destruct ((pos - b + off <? 0) || (s <? pos - b + off)) eqn:E; cbn [fst snd]; [f_equal; lia|].
      destruct (pos + off <? 0) eqn:E1; [lia|]. f_equal. lia.
    + destruct ((s + off <? 0) || (s <? s + off)) eqn:E; cbn [fst snd]; [f_equal; lia|].
      unfold br_size. destruct (Z.of_nat (length d) + (b + s - Z.of_nat (length d) + off) <? 0) eqn:E1; [lia|].
      f_equal. lia.
    + cbn [fst snd]. f_equal. lia.
  - cbn [c_seek]. rewrite c_len_abs by lia. cbn [c_abs c_size c_base] in *.
    destruct Hwf as (W1 & W2 & W3 & W4).
    assert (forall o, c_seek p d pos o wh = (c_abs p + fst (win_seek (c_size p) (pos - c_abs p) o wh), snd (win_seek (c_size p) (pos - c_abs p) o wh))) as IH'.
    { intros o. apply IH; [assumption|]. lia. }
    rewrite !IH'. clear IH IH'.
    unfold win_seek.
    destruct (Z.eqb_spec wh 0) as [->|N0]; [|destruct (Z.eqb_spec wh 1) as [->|N1]; [|destruct (Z.eqb_spec wh 2) as [->|N2]]];
      cbn [Z.eqb Pos.eqb].
    + destruct ((off <? 0) || (s <? off)) eqn:E; cbn [fst snd]; [f_equal; lia|].
      destruct ((b + off <? 0) || (c_size p <? b + off)) eqn:E1; [lia|]. cbn [fst snd]. f_equal. lia.
    + replace (s - (b + c_abs p + s - pos) + off) with (pos - (b + c_abs p) + off) by lia.
      destruct ((pos - (b + c_abs p) + off <? 0) || (s <? pos - (b + c_abs p) + off)) eqn:E; cbn [fst snd]; [f_equal; lia|].
      destruct ((pos - c_abs p + off <? 0) || (c_size p <? pos - c_abs p + off)) eqn:E1; [lia|]. cbn [fst snd]. f_equal. lia.
    + destruct ((s + off <? 0) || (s <? s + off)) eqn:E; cbn [fst snd]; [f_equal; lia|].
      destruct ((c_size p + (b + s - c_size p + off) <? 0) || (c_size p <? c_size p + (b + s - c_size p + off))) eqn:E1; [lia|].
      cbn [fst snd]. f_equal. lia.
    + cbn [fst snd]. f_equal. lia.
Qed.

Lemma chunk_on_wf d c a w : chunk_on d c a w ->
  c_wf d c /\ c_abs c = a /\ c_size c = Z.of_nat (length w) /\ w = slice d a (Z.of_nat (length w)).
Proof.
  induction 1 as [pos n Hp Hn|r a w pos n Hr (IH1 & IH2 & IH3 & IH4) Hp Hn].
  - assert (br_len d pos = Z.of_nat (length d) - pos) as Hbl by (unfold br_len; dif; lia).
    unfold new_chunk, br_size. rewrite Hbl. cbn [c_wf c_abs c_size]. rewrite firstn_length, skipn_length.
    replace (Z.of_nat (length d) - (Z.of_nat (length d) - pos)) with pos by lia.
    split; [|split; [|split]].
    + repeat dif; lia.
    + reflexivity.
    + repeat dif; lia.
    + unfold slice. rewrite Nat2Z.id. rewrite <- (firstn_all2 (n := Nat.min (Z.to_nat n) (length d - Z.to_nat pos)) (firstn (Z.to_nat n) (skipn (Z.to_nat pos) d))) at 1.
      * rewrite firstn_firstn. f_equal. lia.
      * rewrite firstn_length, skipn_length. lia.
  - unfold new_sub_chunk. pose proof (c_wf_bound _ _ IH1) as Hb. rewrite c_len_abs by lia.
    rewrite IH2, IH3 in *. cbn [c_wf c_abs c_size]. rewrite firstn_length, skipn_length.
    replace (Z.of_nat (length w) - (a + Z.of_nat (length w) - pos)) with (pos - a) by lia.
    split; [|split; [|split]].
    + rewrite IH3. split; [lia|]. split; [dif; lia|]. split; [dif; lia|assumption].
    + rewrite IH2. lia.
    + dif; lia.
    + rewrite IH4 at 1. fold (slice (slice d a (Z.of_nat (length w))) (pos - a) n).
      rewrite slice_slice by lia. f_equal; lia.
Qed.

Lemma slice_nil_end d a n : n <= 0 -> slice d a n = [].
Proof. intros. unfold slice. replace (Z.to_nat n) with 0%nat by lia. reflexivity. Qed.

Lemma c_step_spec d c a w q o : chunk_on d c a w -> 0 <= q <= Z.of_nat (length w) -> crop_ok o ->
  c_step c d (a + q) o = (a + fst (win_step w q o), snd (win_step w q o)) /\
  0 <= fst (win_step w q o) <= Z.of_nat (length w).
Proof.
  intros Hc Hq Ho. destruct (chunk_on_wf _ _ _ _ Hc) as (Hwf & Ha & Hs & Hw).
  pose proof (c_wf_bound _ _ Hwf) as Hb. rewrite Ha, Hs in Hb.
  assert (forall x k, 0 <= x -> 0 <= k -> firstn (Z.to_nat k) (skipn (Z.to_nat x) w) = slice d (a + x) (Z.min k (Z.of_nat (length w) - x))) as Hsl.
  { intros x k Hx Hk. rewrite Hw at 1. fold (slice (slice d a (Z.of_nat (length w))) x k). apply slice_slice; lia. }
  destruct o as [k|k off| | |off wh]; cbn [c_step win_step crop_ok] in *.
  - rewrite c_read_spec by (assumption || lia). rewrite Ha, Hs.
    destruct (Z.eqb_spec q (Z.of_nat (length w))); destruct (Z.eqb_spec (a + q) (a + Z.of_nat (length w))); try lia; cbn [fst snd].
    + split; [reflexivity|lia].
    + cbv zeta. cbn [fst snd]. rewrite Hsl by lia.
      replace (a + Z.of_nat (length w) - (a + q)) with (Z.of_nat (length w) - q) by lia.
      rewrite slice_length by lia. split; [f_equal; lia|lia].
  - rewrite c_read_at_spec by assumption. rewrite Ha, Hs. cbn [fst snd]. split; [|lia].
    destruct (off <? 0) eqn:E0; [reflexivity|].
    destruct ((Z.of_nat (length w) <=? off) || (Z.of_nat (length w) <? off + k)) eqn:E1; [reflexivity|].
    rewrite Hsl by lia. do 3 f_equal. lia.
  - rewrite c_read_byte_spec by (assumption || lia). rewrite Ha, Hs.
    destruct (Z.eqb_spec q (Z.of_nat (length w))); destruct (Z.eqb_spec (a + q) (a + Z.of_nat (length w))); try lia; cbn [fst snd].
    + split; [reflexivity|lia].
    + change 1%nat with (Z.to_nat 1) at 1. rewrite Hsl by lia. replace (Z.min 1 (Z.of_nat (length w) - q)) with 1 by lia.
      split; [f_equal; lia|lia].
  - rewrite c_unread_spec by (assumption || lia). rewrite Ha.
    destruct (Z.eqb_spec q 0); destruct (Z.eqb_spec (a + q) a); try lia; cbn [fst snd]; (split; [f_equal; lia|lia]).
  - rewrite c_seek_spec by (assumption || lia). rewrite Ha, Hs.
    replace (a + q - a) with q by lia. split; [reflexivity|].
    repeat dif; cbn [fst]; lia.
Qed.

Lemma c_run_spec d c a w q os : chunk_on d c a w -> 0 <= q <= Z.of_nat (length w) -> Forall crop_ok os ->
  snd (c_run c d (a + q) os) = win_run w q os /\ a <= fst (c_run c d (a + q) os) <= a + Z.of_nat (length w).
Proof.
  intros Hc. revert q. induction os as [|o os IH]; intros q Hq Hos; cbn [c_run win_run].
  - cbn. split; [reflexivity|lia].
  - inversion Hos as [|? ? Ho Hr]; subst.
    destruct (c_step_spec d c a w q o Hc Hq Ho) as [E Hq'].
    rewrite E. destruct (win_step w q o) as [q1 out]. cbn [fst snd] in *.
    specialize (IH q1 Hq' Hr). destruct (c_run c d (a + q1) os) as [p2 outs]. cbn [fst snd] in *.
    destruct IH as [-> IH2]. split; [|exact IH2]. f_equal. f_equal.
    destruct (chunk_on_wf _ _ _ _ Hc) as (Hwf & Ha & Hs & _). pose proof (c_wf_bound _ _ Hwf).
    rewrite c_len_abs by lia. lia.
Qed.

(* ---------- pool ---------- *)
Lemma bucket_cap c : bucket_index c <= 2 -> c <= 2 ^ bucket_index c * 4 * 1024.
Proof.
  unfold bucket_index. repeat dif; intros; try lia.
  all: match goal with |- context [2 ^ ?k] => let v := eval vm_compute in (2 ^ k) in change (2 ^ k) with v end; lia.
Qed.

Lemma get_slice_sound length capacity st st' r : 0 <= length <= capacity ->
  get_slice length capacity st st' r ->
  exists s, r = GOk s /\ ps_len s = length /\ capacity <= ps_cap s.
Proof.
  intros Hl H. induction H as [st c|st l1 s l2 E Hc|st l1 s l2 st' r E Hc Hg IH].
  - assert (capacity <= c).
    { unfold c. destruct (bucket_index capacity <=? 2) eqn:E; [apply bucket_cap; lia|lia]. }
    destruct ((0 <=? length) && (length <=? c)) eqn:E; [|lia]. eexists; repeat split; cbn; lia.
  - destruct ((0 <=? length) && (length <=? ps_cap s)) eqn:E2; [|lia]. eexists; repeat split; cbn; lia.
  - exact IH.
Qed.

(* without schedule interference the loop ends: progress of getSlice *)
Lemma get_slice_total length capacity st : exists st' r, get_slice length capacity st st' r.
Proof. eexists _, _. apply get_nil. Qed.

(* exclusivity *)
Definition pool_ids (x : poolst * list pslice) : list nat :=
  map (fun i => ps_id (snd i)) (pool_items (fst x)) ++ map ps_id (snd x).
Definition pool_inv (x : poolst * list pslice) : Prop :=
  NoDup (pool_ids x) /\ Forall (fun i => (i < pool_next (fst x))%nat) (pool_ids x).

Lemma nodup_mid_remove {A} (l1 l2 : list A) x : NoDup (l1 ++ x :: l2) -> NoDup (l1 ++ l2).
Proof. apply NoDup_remove_1. Qed.

Lemma get_slice_inv length capacity st st' r held :
  get_slice length capacity st st' r -> pool_inv (st, held) ->
  match r with GOk s => pool_inv (st', s :: held) | GPanic => True end.
Proof.
  unfold pool_inv, pool_ids. intros H. revert held.
  induction H as [st c|st l1 s l2 E Hc|st l1 s l2 st' r E Hc Hg IH]; intros held [Hnd Hlt]; cbn [fst snd] in *.
  - destruct ((0 <=? length) && (length <=? c)); [|exact I]. cbn [fst snd pool_items pool_next map ps_id].
    split.
    + apply NoDup_Add with (a := pool_next st) (l := map (fun i => ps_id (snd i)) (pool_items st) ++ map ps_id held).
      * apply Add_app.
      * split; [assumption|]. intros Hin. rewrite Forall_forall in Hlt. specialize (Hlt _ Hin). lia.
    + apply Forall_app in Hlt as [Hl1 Hl2]. apply Forall_app; split.
      * eapply Forall_impl; [|exact Hl1]. cbn. lia.
      * constructor; [lia|]. eapply Forall_impl; [|exact Hl2]. cbn; lia.
  - rewrite E, map_app in Hnd, Hlt. cbn [map snd ps_id] in Hnd, Hlt.
    destruct ((0 <=? length) && (length <=? ps_cap s)); [|exact I]. cbn [fst snd pool_items pool_next map ps_id].
    rewrite map_app. split.
    + apply NoDup_Add with (a := ps_id s) (l := (map (fun i => ps_id (snd i)) l1 ++ map (fun i => ps_id (snd i)) l2) ++ map ps_id held).
      * apply Add_app.
      * rewrite <- app_assoc in Hnd. cbn [app] in Hnd. split.
        { rewrite <- app_assoc. eapply NoDup_remove_1. exact Hnd. }
        { rewrite <- app_assoc. eapply NoDup_remove_2. exact Hnd. }
    + rewrite <- app_assoc in Hlt. cbn [app] in Hlt.
      apply Forall_app in Hlt as [H1 H2]. inversion H2 as [|? ? H3 H4]; subst. apply Forall_app in H4 as [H4 H5].
      apply Forall_app; split; [apply Forall_app; split; assumption|constructor; assumption].
  - apply IH. rewrite E, map_app in Hnd, Hlt. cbn [map snd] in Hnd, Hlt.
    cbn [fst snd pool_items pool_next]. rewrite map_app. rewrite <- app_assoc in Hnd, Hlt. cbn [app] in Hnd, Hlt.
    rewrite <- app_assoc. split; [eapply NoDup_remove_1; exact Hnd|].
    apply Forall_app in Hlt as [H1 H2]. inversion H2; subst. apply Forall_app; split; assumption.
Qed.

Lemma pool_step_inv x y : pool_step x y -> pool_inv x -> pool_inv y.
Proof.
  intros H. destruct H as [st st' held l c s Hg|st h1 s h2|st held l1 x l2 E]; intros Hinv.
  - exact (get_slice_inv _ _ _ _ _ _ Hg Hinv).
  - unfold pool_inv, pool_ids, release_slice in *. cbn [fst snd pool_items pool_next map ps_id] in *.
    rewrite map_app in *. cbn [map] in *. destruct Hinv as [Hnd Hlt].
    rewrite app_assoc in Hnd, Hlt. cbn [app]. rewrite app_assoc. split.
    + constructor; [eapply NoDup_remove_2; exact Hnd|eapply NoDup_remove_1; exact Hnd].
    + apply Forall_app in Hlt as [H1 H2]. inversion H2; subst. constructor; [assumption|].
      apply Forall_app; split; assumption.
  - unfold pool_inv, pool_ids in *. cbn [fst snd pool_items pool_next] in *. rewrite E, map_app in Hinv.
    cbn [map] in Hinv. rewrite map_app. destruct Hinv as [Hnd Hlt].
    rewrite <- app_assoc in *. cbn [app] in Hnd, Hlt. split.
    + eapply NoDup_remove_1; exact Hnd.
    + apply Forall_app in Hlt as [H1 H2]. inversion H2; subst. apply Forall_app; split; assumption.
Qed.

Inductive pool_reach : poolst * list pslice -> Prop :=
| pr_init : pool_reach (pool_init, [])
| pr_step x y : pool_reach x -> pool_step x y -> pool_reach y.

Lemma pool_reach_inv x : pool_reach x -> pool_inv x.
Proof.
  induction 1 as [|x y _ IH H]; [|exact (pool_step_inv _ _ H IH)].
  split; cbn; constructor.
Qed.

Lemma nodup_app_r {A} (l1 l2 : list A) : NoDup (l1 ++ l2) -> NoDup l2.
Proof. induction l1; cbn; [easy|]. intros H. inversion H; subst. auto. Qed.

Lemma pool_exclusive st held : pool_reach (st, held) -> NoDup (map ps_id held) /\
  forall s i, In s held -> In i (pool_items st) -> ps_id s <> ps_id (snd i).
Proof.
  intros H. apply pool_reach_inv in H as [Hnd _]. unfold pool_ids in Hnd. cbn [fst snd] in Hnd.
  split.
  - exact (nodup_app_r _ _ Hnd).
  - intros s i Hs Hi Heq.
    apply in_split in Hi as (l1 & l2 & Hi). rewrite Hi, map_app in Hnd. cbn [map] in Hnd.
    rewrite <- app_assoc in Hnd. cbn [app] in Hnd. apply NoDup_remove_2 in Hnd. apply Hnd.
    rewrite !in_app_iff. right; right. rewrite <- Heq. now apply in_map.
Qed.
