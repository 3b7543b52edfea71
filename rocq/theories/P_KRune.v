(* C06: runes, and WriteTo, through a window *)
From Coq Require Import List ZArith Bool Lia ZifyBool ZifyNat.
From Verif Require Import M_KIo S_KIo L_KIo M_KRune.
Import ListNotations.
Open Scope Z_scope.

(* ---- specification: a reader over the bytes w of the window; behind it the data go on with the bytes beyond.
   q bytes are consumed; ur: where UnreadRune goes to, if it works. ---- *)
Definition wst := (Z * option Z)%type.
Definition xwin_step (w beyond : list Z) (s : wst) (o : xop) : wst * xout :=
  let '(q, ur) := s in
  let n := Z.of_nat (length w) in
  match o with
  | XOp o =>
      let '(q', out) := win_step w q o in
      ((q', match o with
            | ORead _ | OReadByte => if q =? n then ur else None
            | OReadAt _ _ => ur
            | OUnread => if q =? 0 then ur else None
            | OSeek _ _ => match out with RPos _ => None | _ => ur end
            end), XOld out)
  | XReadRune =>
      if q =? n then (s, XOld REof)
      else let '(r, k) := decode_rune (skipn (Z.to_nat q) w ++ beyond) in
           if q + k <=? n then ((q + k, Some q), XRune r k) else ((q, None), XOld REof)
  | XUnreadRune =>
      if q =? 0 then (s, XOld RError) else match ur with Some p => ((p, None), XOld RNil) | None => (s, XOld RError) end
  | XWriteTo _ m failed =>
      if q =? n then (s, XWrote [] 0 false) else ((n, None), XWrote (skipn (Z.to_nat q) w) m (failed || negb (m =? n - q)))
  end.
Fixpoint xwin_run (w beyond : list Z) (s : wst) (os : list xop) : list (Z * xout) :=
  match os with
  | [] => []
  | o :: r => let '(s1, out) := xwin_step w beyond s o in (Z.of_nat (length w) - fst s1, out) :: xwin_run w beyond s1 r
  end.
Definition xop_ok (o : xop) : Prop := match o with XOp o => crop_ok o | _ => True end.

(* ---- the methods of M_KIo, with prevRune ---- *)
Lemma x_read_spec : forall d c pos pv n, c_wf d c -> c_abs c <= pos <= c_abs c + c_size c -> 0 <= n ->
  x_read c d (pos, pv) n = let '(p, o) := c_read c d pos n in ((p, if pos =? c_abs c + c_size c then pv else -1), o).
Proof.
  intros d c. induction c as [b s|b s p IH]; intros pos pv n Hwf Hpos Hn; pose proof (c_wf_bound _ _ Hwf) as Hb; cbn [x_read c_read fst]; rewrite !c_len_abs by lia; cbn [c_abs c_size c_wf] in *.
  - destruct (Z.eqb_spec pos (b + s)); destruct (b + s - pos <=? 0) eqn:E; try lia; [reflexivity|]. unfold r_read, br_size. cbn [fst]. destruct (Z.of_nat (length d) <=? pos) eqn:E2; [lia|]. reflexivity.
  - destruct (Z.eqb_spec pos (b + c_abs p + s)); destruct (b + c_abs p + s - pos <=? 0) eqn:E; try lia; [reflexivity|].
    rewrite IH by (try apply Hwf; try lia; dif; lia). destruct (Z.eqb_spec pos (c_abs p + c_size p)); [lia|]. reflexivity.
Qed.
Lemma x_read_byte_spec : forall d c pos pv, c_wf d c -> c_abs c <= pos <= c_abs c + c_size c ->
  x_read_byte c d (pos, pv) = let '(p, o) := c_read_byte c d pos in ((p, if pos =? c_abs c + c_size c then pv else -1), o).
Proof.
  intros d c. induction c as [b s|b s p IH]; intros pos pv Hwf Hpos; pose proof (c_wf_bound _ _ Hwf) as Hb; cbn [x_read_byte c_read_byte fst]; rewrite !c_len_abs by lia; cbn [c_abs c_size c_wf] in *.
  - destruct (Z.eqb_spec pos (b + s)); destruct (b + s - pos <=? 0) eqn:E; try lia; [reflexivity|]. unfold r_read_byte. cbn [fst]. reflexivity.
  - destruct (Z.eqb_spec pos (b + c_abs p + s)); destruct (b + c_abs p + s - pos <=? 0) eqn:E; try lia; [reflexivity|].
    rewrite IH by (try apply Hwf; lia). destruct (Z.eqb_spec pos (c_abs p + c_size p)); [lia|]. reflexivity.
Qed.
Lemma br_pos : forall d pos, 0 <= pos <= Z.of_nat (length d) -> br_size d - br_len d pos = pos.
Proof. intros. unfold br_size, br_len. dif; lia. Qed.
Lemma x_unread_spec : forall d c pos pv, c_wf d c -> c_abs c <= pos <= c_abs c + c_size c ->
  x_unread c d (pos, pv) = let '(p, o) := c_unread c d pos in ((p, if pos =? c_abs c then pv else -1), o).
Proof.
  intros d c. induction c as [b s|b s p IH]; intros pos pv Hwf Hpos; pose proof (c_wf_bound _ _ Hwf) as Hb; cbn [x_unread c_unread fst c_abs c_size c_wf] in *.
  - rewrite br_pos by lia. destruct (Z.eqb_spec pos b); destruct (pos <=? b) eqn:E; try lia; [reflexivity|]. unfold r_unread, br_unread. cbn [fst]. destruct (pos <=? 0) eqn:E2; [lia|reflexivity].
  - rewrite !c_len_abs by lia. replace (c_size p - (c_abs p + c_size p - pos)) with (pos - c_abs p) by lia.
    destruct (Z.eqb_spec pos (b + c_abs p)); destruct (pos - c_abs p <=? b) eqn:E; try lia; [reflexivity|]. rewrite IH by (try apply Hwf; lia). destruct (Z.eqb_spec pos (c_abs p)); [lia|reflexivity].
Qed.
Lemma x_seek_spec : forall d c pos pv off wh, c_wf d c -> c_abs c <= pos <= c_abs c + c_size c ->
  x_seek c d (pos, pv) off wh = let '(p, o) := c_seek c d pos off wh in ((p, match o with RPos _ => -1 | _ => pv end), o).
Proof.
  intros d c. induction c as [b s|b s p IH]; intros pos pv off wh Hwf Hpos; pose proof (c_wf_bound _ _ Hwf) as Hb; cbn [x_seek c_seek fst]; rewrite !c_len_abs by lia; cbn [c_abs c_size c_wf c_base] in *.
  - unfold r_seek, br_seek. cbn [fst].
    destruct (Z.eqb_spec wh 0) as [->|N0]; [|destruct (Z.eqb_spec wh 1) as [->|N1]; [|destruct (Z.eqb_spec wh 2) as [->|N2]]]; cbn [Z.eqb Pos.eqb]; unfold br_size.
    + destruct ((off <? 0) || (s <? off)) eqn:E; [reflexivity|]. destruct (b + off <? 0) eqn:E2; [lia|reflexivity].
    + destruct ((s - (b + s - pos) + off <? 0) || (s <? s - (b + s - pos) + off)) eqn:E; [reflexivity|]. destruct (pos + off <? 0) eqn:E2; [lia|reflexivity].
    + destruct ((s + off <? 0) || (s <? s + off)) eqn:E; [reflexivity|]. destruct (Z.of_nat (length d) + (b + s - Z.of_nat (length d) + off) <? 0) eqn:E2; [lia|reflexivity].
    + reflexivity.
  - destruct Hwf as (W1 & W2 & W3 & W4).
    assert (IH' : forall o, x_seek p d (pos, pv) o wh = let '(p1, o1) := c_seek p d pos o wh in ((p1, match o1 with RPos _ => -1 | _ => pv end), o1)) by (intros; apply IH; [exact W4|lia]). clear IH.
    assert (G : forall abs r, (if (abs <? 0) || (s <? abs) then ((pos, pv), RError) else match x_seek p d (pos, pv) r wh with (s', RPos _) => (s', RPos abs) | (s', o) => (s', o) end)
       = let '(p1, o1) := (if (abs <? 0) || (s <? abs) then (pos, RError) else match c_seek p d pos r wh with (p', RPos _) => (p', RPos abs) | (p', o) => (p', o) end) in ((p1, match o1 with RPos _ => -1 | _ => pv end), o1)).
    { intros abs r. destruct ((abs <? 0) || (s <? abs)); [reflexivity|]. rewrite IH'. destruct (c_seek p d pos r wh) as [p1 o1]. destruct o1; reflexivity. }
    destruct (wh =? 0); [apply G|]. destruct (wh =? 1); [apply G|]. destruct (wh =? 2); [apply G|reflexivity].
Qed.
Lemma x_unread_rune_spec : forall d c pos pv, c_wf d c -> c_abs c <= pos <= c_abs c + c_size c ->
  x_unread_rune c d (pos, pv) = if (pos =? c_abs c) || (pv <? 0) then ((pos, pv), RError) else ((pv, -1), RNil).
Proof.
  intros d c. induction c as [b s|b s p IH]; intros pos pv Hwf Hpos; pose proof (c_wf_bound _ _ Hwf) as Hb; cbn [x_unread_rune fst c_abs c_size c_wf] in *.
  - rewrite br_pos by lia. destruct (Z.eqb_spec pos b); destruct (pos <=? b) eqn:E; try lia; [reflexivity|]. unfold r_unread_rune. cbn [fst snd orb]. destruct (pos <=? 0) eqn:E2; [lia|reflexivity].
  - rewrite !c_len_abs by lia. replace (c_size p - (c_abs p + c_size p - pos)) with (pos - c_abs p) by lia.
    destruct (Z.eqb_spec pos (b + c_abs p)); destruct (pos - c_abs p <=? b) eqn:E; try lia; [reflexivity|]. rewrite IH by (try apply Hwf; lia). destruct (Z.eqb_spec pos (c_abs p)); [lia|reflexivity].
Qed.
(* a rune is one byte at least, and no more than there are *)
Lemma decode_width : forall s, s <> [] -> 1 <= snd (decode_rune s) <= Z.of_nat (length s).
Proof.
  intros [|b0 s] H; [congruence|]. cbn [decode_rune].
  destruct (b0 <? 128); [cbn; lia|].
  destruct (between 194 b0 223); [destruct s as [|b1 s]; [cbn; lia|destruct (cont b1); cbn; lia]|].
  destruct (between 224 b0 239); [destruct s as [|b1 [|b2 s]]; try (cbn; lia); cbv zeta; destruct (_ && _); cbn; lia|].
  destruct (between 240 b0 244); [destruct s as [|b1 [|b2 [|b3 s]]]; try (cbn; lia); cbv zeta; destruct (_ && _); cbn; lia|].
  cbn; lia.
Qed.
Lemma x_read_rune_spec : forall d c pos pv, c_wf d c -> c_abs c <= pos <= c_abs c + c_size c ->
  x_read_rune c d (pos, pv) =
    if pos =? c_abs c + c_size c then ((pos, pv), XOld REof)
    else let '(r, k) := decode_rune (skipn (Z.to_nat pos) d) in if pos + k <=? c_abs c + c_size c then ((pos + k, pos), XRune r k) else ((pos, -1), XOld REof).
Proof.
  intros d c. induction c as [b s|b s p IH]; intros pos pv Hwf Hpos; pose proof (c_wf_bound _ _ Hwf) as Hb; cbn [x_read_rune fst]; rewrite c_len_abs by lia; cbn [c_abs c_size c_wf] in *.
  - destruct (Z.eqb_spec pos (b + s)); destruct (b + s - pos <=? 0) eqn:E; try lia; [reflexivity|].
    unfold r_read_rune, br_size. cbn [fst]. destruct (Z.of_nat (length d) <=? pos) eqn:E2; [lia|].
    assert (NE : skipn (Z.to_nat pos) d <> []) by (intros X; apply (f_equal (@length Z)) in X; rewrite skipn_length in X; cbn in X; lia).
    pose proof (decode_width _ NE) as W. rewrite skipn_length in W. destruct (decode_rune (skipn (Z.to_nat pos) d)) as [r k]. cbn [snd] in W. cbn [fst].
    rewrite c_len_abs by lia. cbn [c_abs c_size]. destruct (Z.leb_spec (pos + k) (b + s)); destruct (b + s - (pos + k) <? 0) eqn:E3; try lia; [reflexivity|].
    unfold r_unread_rune. cbn [fst snd]. destruct (pos + k <=? 0) eqn:E4; [lia|]. destruct (pos <? 0) eqn:E5; [lia|]. reflexivity.
  - destruct (Z.eqb_spec pos (b + c_abs p + s)); destruct (b + c_abs p + s - pos <=? 0) eqn:E; try lia; [reflexivity|].
    rewrite IH by (try apply Hwf; lia). destruct (Z.eqb_spec pos (c_abs p + c_size p)); [lia|].
    assert (NE : skipn (Z.to_nat pos) d <> []) by (intros X; apply (f_equal (@length Z)) in X; rewrite skipn_length in X; cbn in X; lia).
    pose proof (decode_width _ NE) as W. rewrite skipn_length in W. destruct (decode_rune (skipn (Z.to_nat pos) d)) as [r k]. cbn [snd] in W.
    destruct (Z.leb_spec (pos + k) (c_abs p + c_size p)).
    + cbn [fst]. rewrite c_len_abs by lia. cbn [c_abs c_size]. destruct (Z.leb_spec (pos + k) (b + c_abs p + s)); destruct (b + c_abs p + s - (pos + k) <? 0) eqn:E3; try lia; [reflexivity|].
      rewrite x_unread_rune_spec by (try apply Hwf; lia). destruct (Z.eqb_spec (pos + k) (c_abs p)); [lia|]. destruct (pos <? 0) eqn:E5; [lia|]. reflexivity.
    + destruct (Z.leb_spec (pos + k) (b + c_abs p + s)); [lia|]. reflexivity.
Qed.

(* ---- the window ---- *)
Definition agrees (a : Z) (s : rst) (t : wst) : Prop :=
  fst s = a + fst t /\ match snd t with Some p => snd s = a + p /\ 0 <= p < fst t | None => snd s < 0 \/ fst t = 0 end.
Lemma win_split : forall d c a w q, chunk_on d c a w -> 0 <= q <= Z.of_nat (length w) -> skipn (Z.to_nat (a + q)) d = skipn (Z.to_nat q) w ++ skipn (Z.to_nat (a + Z.of_nat (length w))) d.
Proof.
  intros d c a w q Hc Hq. destruct (chunk_on_wf _ _ _ _ Hc) as (Hwf & Ha & Hs & Hw). pose proof (c_wf_bound _ _ Hwf) as Hb. rewrite Ha, Hs in Hb.
  assert (E : skipn (Z.to_nat a) d = w ++ skipn (Z.to_nat (a + Z.of_nat (length w))) d).
  { rewrite Hw at 1. unfold slice. rewrite Nat2Z.id. replace (Z.to_nat (a + Z.of_nat (length w))) with (Z.to_nat a + length w)%nat by lia. rewrite <- skipn_skipn_add. symmetry. apply firstn_skipn. }
  replace (Z.to_nat (a + q)) with (Z.to_nat a + Z.to_nat q)%nat by lia. rewrite <- skipn_skipn_add, E, skipn_app. f_equal.
  replace (Z.to_nat q - length w)%nat with 0%nat by lia. reflexivity.
Qed.
Lemma x_step_spec : forall d c a w s t o, chunk_on d c a w -> 0 <= fst t <= Z.of_nat (length w) -> agrees a s t -> xop_ok o ->
  let beyond := skipn (Z.to_nat (a + Z.of_nat (length w))) d in
  snd (x_step c d s o) = snd (xwin_step w beyond t o) /\ agrees a (fst (x_step c d s o)) (fst (xwin_step w beyond t o)) /\ 0 <= fst (fst (xwin_step w beyond t o)) <= Z.of_nat (length w).
Proof.
  intros d c a w [pos pv] [q ur] o Hc Hq (A1 & A2) Ho beyond. cbn [fst snd] in *. subst pos.
  destruct (chunk_on_wf _ _ _ _ Hc) as (Hwf & Ha & Hs & Hw). pose proof (c_wf_bound _ _ Hwf) as Hb. rewrite Ha, Hs in Hb.
  assert (R : c_abs c <= a + q <= c_abs c + c_size c) by lia.
  assert (EQE : (a + q =? c_abs c + c_size c) = (q =? Z.of_nat (length w))) by lia.
  assert (EQ0 : (a + q =? c_abs c) = (q =? 0)) by lia.
  destruct o as [o| | |old m failed].
  - cbn [xop_ok] in Ho. destruct (c_step_spec d c a w q o Hc Hq Ho) as (E & B). unfold xwin_step.
    destruct (win_step w q o) as [q' out] eqn:EW. cbn [fst snd] in *.
    destruct o as [k|k off| | |off wh]; cbn [c_step crop_ok] in *; cbn [x_step].
    + rewrite x_read_spec by (auto; lia). rewrite E, EQE. cbn [old_out fst snd]. split; [reflexivity|]. split; [|exact B]. split; [reflexivity|]. cbn [fst snd].
      destruct (Z.eqb_spec q (Z.of_nat (length w))) as [Q|Q]; [|left; lia]. unfold win_step in EW. rewrite (proj2 (Z.eqb_eq _ _) Q) in EW. inversion EW; subst q'. exact A2.
    + injection E as E1 E2. cbn [fst snd]. split; [congruence|]. unfold win_step in EW. inversion EW; subst q'. split; [split; [reflexivity|exact A2]|exact B].
    + rewrite x_read_byte_spec by auto. rewrite E, EQE. cbn [old_out fst snd]. split; [reflexivity|]. split; [|exact B]. split; [reflexivity|]. cbn [fst snd].
      destruct (Z.eqb_spec q (Z.of_nat (length w))) as [Q|Q]; [|left; lia]. unfold win_step in EW. rewrite (proj2 (Z.eqb_eq _ _) Q) in EW. inversion EW; subst q'. exact A2.
    + rewrite x_unread_spec by auto. rewrite E, EQ0. cbn [old_out fst snd]. split; [reflexivity|]. split; [|exact B]. split; [reflexivity|]. cbn [fst snd].
      destruct (Z.eqb_spec q 0) as [Q|Q]; [|left; lia]. unfold win_step in EW. rewrite (proj2 (Z.eqb_eq _ _) Q) in EW. inversion EW; subst q'. exact A2.
    + rewrite x_seek_spec by auto. rewrite E. cbn [old_out fst snd]. split; [reflexivity|]. split; [|exact B]. split; [reflexivity|]. cbn [fst snd].
      destruct out; try (left; lia).
      all: assert (QQ : q' = q) by (clear -EW; unfold win_step in EW; cbv zeta in EW; repeat match type of EW with context [if ?b then _ else _] => destruct b end; inversion EW; reflexivity); rewrite QQ; exact A2.
  - cbn [x_step xwin_step]. rewrite x_read_rune_spec by auto. rewrite EQE. destruct (Z.eqb_spec q (Z.of_nat (length w))) as [Q|Q]; cbn [fst snd]; [split; [reflexivity|split; [split; [reflexivity|exact A2]|lia]]|].
    rewrite (win_split d c a w q Hc Hq). fold beyond.
    assert (NE : skipn (Z.to_nat q) w ++ beyond <> []) by (intros X; apply app_eq_nil in X; destruct X as (X & _); apply (f_equal (@length Z)) in X; rewrite skipn_length in X; cbn in X; lia).
    pose proof (decode_width _ NE) as W. destruct (decode_rune (skipn (Z.to_nat q) w ++ beyond)) as [r k]. cbn [snd] in W.
    destruct (Z.leb_spec (q + k) (Z.of_nat (length w))), (Z.leb_spec (a + q + k) (c_abs c + c_size c)); try lia; cbn [fst snd].
    + split; [reflexivity|]. split; [|lia]. split; cbn [fst snd]; lia.
    + split; [reflexivity|]. split; [|lia]. split; [reflexivity|]. cbn [fst snd]. left. lia.
  - cbn [x_step xwin_step]. rewrite x_unread_rune_spec by auto. rewrite EQ0. destruct (Z.eqb_spec q 0) as [Q|Q]; cbn [orb].
    + cbn [old_out fst snd]. split; [reflexivity|]. split; [split; [reflexivity|exact A2]|lia].
    + destruct ur as [p|].
      * destruct A2 as (-> & P). destruct (a + p <? 0) eqn:E; [lia|]. cbn [old_out fst snd]. split; [reflexivity|]. split; [split; cbn [fst snd]; [reflexivity|left; lia]|lia].
      * destruct A2 as [A2|A2]; [|congruence]. destruct (pv <? 0) eqn:E; [|lia]. cbn [old_out fst snd]. split; [reflexivity|]. split; [split; [reflexivity|left; exact A2]|lia].
  - cbn [x_step xwin_step]. unfold x_write_to. cbn [fst]. rewrite c_len_abs by lia. rewrite Ha, Hs.
    destruct (Z.eqb_spec q (Z.of_nat (length w))) as [Q|Q].
    + destruct (a + Z.of_nat (length w) - (a + q) <=? 0) eqn:E; [|lia]. cbn [fst snd]. split; [reflexivity|]. split; [split; [reflexivity|exact A2]|lia].
    + destruct (a + Z.of_nat (length w) - (a + q) <=? 0) eqn:E; [lia|]. replace (a + Z.of_nat (length w) - (a + q)) with (Z.of_nat (length w) - q) by lia. set (l := Z.of_nat (length w) - q) in *.
      assert (SL : slice d (a + q) l = skipn (Z.to_nat q) w).
      { unfold slice. rewrite (win_split d c a w q Hc Hq). rewrite firstn_app. rewrite skipn_length. replace (Z.to_nat l - (length w - Z.to_nat q))%nat with 0%nat by lia. cbn [firstn]. rewrite app_nil_r. apply firstn_all2. rewrite skipn_length. lia. }
      assert (READ : match c with CBase _ _ => r_read d (a + q, pv) l | CSub _ _ p => x_read p d (a + q, pv) l end = ((a + Z.of_nat (length w), -1), RBytes (skipn (Z.to_nat q) w))).
      { destruct c as [b s|b s p]; cbn [c_abs c_size c_wf] in *.
        - unfold r_read, br_size, br_read, br_size. cbn [fst]. destruct (Z.of_nat (length d) <=? a + q) eqn:E2; [lia|]. rewrite slice_length by lia. rewrite SL. f_equal. f_equal. lia.
        - destruct Hwf as (W1 & W2 & W3 & W4). rewrite x_read_spec by (auto; lia). rewrite c_read_spec by (auto; lia). destruct (Z.eqb_spec (a + q) (c_abs p + c_size p)); [lia|]. cbv zeta.
          replace (Z.min l (c_abs p + c_size p - (a + q))) with l by lia. rewrite SL. f_equal. f_equal. lia. }
      rewrite READ. cbn [fst snd]. rewrite skipn_length. rewrite (skipn_all2 (n := (length w - Z.to_nat q)%nat)) by (rewrite firstn_length; lia). rewrite app_nil_r, skipn_length.
      split; [do 2 f_equal; f_equal; lia|]. split; [split; cbn [fst snd]; [reflexivity|left; lia]|lia].
Qed.

(* a (nested) chunk reader answers every sequence of Read, ReadByte, ReadAt, UnreadByte, Seek, ReadRune, UnreadRune and WriteTo like the reader specified above,
   and the underlying reader never leaves the window *)
Theorem C06_runes : forall os d c a w s t, chunk_on d c a w -> 0 <= fst t <= Z.of_nat (length w) -> agrees a s t -> Forall xop_ok os ->
  snd (x_run c d s os) = xwin_run w (skipn (Z.to_nat (a + Z.of_nat (length w))) d) t os
  /\ a <= fst (fst (x_run c d s os)) <= a + Z.of_nat (length w).
Proof.
  induction os as [|o os IH]; intros d c a w s t Hc Hq A Hos.
  - cbn. destruct A as (A1 & _). split; [reflexivity|lia].
  - inversion Hos as [|? ? Ho Hr]; subst. cbn [x_run xwin_run].
    pose proof (x_step_spec d c a w s t o Hc Hq A Ho) as (E1 & E2 & E3). set (beyond := skipn (Z.to_nat (a + Z.of_nat (length w))) d) in *.
    destruct (x_step c d s o) as [s1 out]. destruct (xwin_step w beyond t o) as [t1 out']. cbn [fst snd] in *. subst out'.
    specialize (IH d c a w s1 t1 Hc E3 E2 Hr). fold beyond in IH. destruct (x_run c d s1 os) as [s2 outs]. cbn [fst snd] in *. destruct IH as (-> & B). split; [|exact B]. f_equal. f_equal.
    destruct (chunk_on_wf _ _ _ _ Hc) as (Hwf & Ha & Hs & _). pose proof (c_wf_bound _ _ Hwf). destruct E2 as (E2 & _). rewrite c_len_abs by lia. lia.
Qed.
Print Assumptions C06_runes.

(* ---- UTF-8 ---- *)
Definition encode (r : Z) : list Z :=
  if r <? 128 then [r]
  else if r <? 2048 then [192 + r / 64; 128 + r mod 64]
  else if r <? 65536 then [224 + r / 4096; 128 + (r / 64) mod 64; 128 + r mod 64]
  else [240 + r / 262144; 128 + (r / 4096) mod 64; 128 + (r / 64) mod 64; 128 + r mod 64].
(* Unicode scalar values *)
Definition scalar (r : Z) : Prop := 0 <= r <= 1114111 /\ ~ (55296 <= r <= 57343).
Theorem C06_utf8 : forall r rest, scalar r -> decode_rune (encode r ++ rest) = (r, Z.of_nat (length (encode r))).
Proof.
  intros r rest ((L & U) & S). unfold encode.
  assert (M0 : 0 <= r mod 64 < 64) by (apply Z.mod_pos_bound; lia). assert (M1 : 0 <= (r / 64) mod 64 < 64) by (apply Z.mod_pos_bound; lia). assert (M2 : 0 <= (r / 4096) mod 64 < 64) by (apply Z.mod_pos_bound; lia).
  pose proof (Z.div_mod r 64 ltac:(lia)) as D0. pose proof (Z.div_mod (r / 64) 64 ltac:(lia)) as D1. pose proof (Z.div_mod (r / 4096) 64 ltac:(lia)) as D2.
  rewrite Z.div_div in D1 by lia. rewrite Z.div_div in D2 by lia. change (64 * 64) with 4096 in D1. change (4096 * 64) with 262144 in D2.
  set (a := r mod 64) in *. set (b := (r / 64) mod 64) in *. set (c := (r / 4096) mod 64) in *. set (q1 := r / 64) in *. set (q2 := r / 4096) in *. set (q3 := r / 262144) in *. clearbody a b c q1 q2 q3.
  destruct (Z.ltb_spec r 128); [cbn [app decode_rune]; destruct (Z.ltb_spec r 128); [reflexivity|lia]|].
  destruct (Z.ltb_spec r 2048).
  { cbn [app decode_rune]. unfold between, cont, between. destruct (Z.ltb_spec (192 + q1) 128); [lia|]. destruct (Z.leb_spec 194 (192 + q1)); [|lia]. destruct (Z.leb_spec (192 + q1) 223); [|lia]. cbn [andb].
    destruct (Z.leb_spec 128 (128 + a)); [|lia]. destruct (Z.leb_spec (128 + a) 191); [|lia]. cbn [andb length]. f_equal; lia. }
  destruct (Z.ltb_spec r 65536).
  { cbn [app decode_rune]. unfold cont, between. cbv zeta. destruct (Z.ltb_spec (224 + q2) 128); [lia|]. destruct (Z.leb_spec 194 (224 + q2)); [|lia]. destruct (Z.leb_spec (224 + q2) 223); [lia|]. cbn [andb].
    destruct (Z.leb_spec 224 (224 + q2)); [|lia]. destruct (Z.leb_spec (224 + q2) 239); [|lia]. cbn [andb].
    destruct (Z.leb_spec 128 (128 + a)); [|lia]. destruct (Z.leb_spec (128 + a) 191); [|lia]. cbn [andb].
    assert (G : ((if 224 + q2 =? 224 then 160 else 128) <=? 128 + b) && (128 + b <=? (if 224 + q2 =? 237 then 159 else 191)) = true).
    { destruct (Z.eqb_spec (224 + q2) 224), (Z.eqb_spec (224 + q2) 237); lia. }
    rewrite G. cbn [andb length]. f_equal; lia. }
  cbn [app decode_rune]. unfold cont, between. cbv zeta. destruct (Z.ltb_spec (240 + q3) 128); [lia|]. destruct (Z.leb_spec 194 (240 + q3)); [|lia]. destruct (Z.leb_spec (240 + q3) 223); [lia|]. cbn [andb].
  destruct (Z.leb_spec 224 (240 + q3)); [|lia]. destruct (Z.leb_spec (240 + q3) 239); [lia|]. cbn [andb]. destruct (Z.leb_spec 240 (240 + q3)); [|lia]. destruct (Z.leb_spec (240 + q3) 244); [|lia]. cbn [andb].
  destruct (Z.leb_spec 128 (128 + a)); [|lia]. destruct (Z.leb_spec (128 + a) 191); [|lia]. destruct (Z.leb_spec 128 (128 + b)); [|lia]. destruct (Z.leb_spec (128 + b) 191); [|lia]. cbn [andb].
  assert (G : ((if 240 + q3 =? 240 then 144 else 128) <=? 128 + c) && (128 + c <=? (if 240 + q3 =? 244 then 143 else 191)) = true).
  { destruct (Z.eqb_spec (240 + q3) 240), (Z.eqb_spec (240 + q3) 244); lia. }
  rewrite G. cbn [andb length]. f_equal; lia.
Qed.
Print Assumptions C06_utf8.

(* a window of whole characters is read character by character, and then it is at its end *)
Theorem C06_text : forall d c a w pv rs, chunk_on d c a w -> w = concat (map encode rs) -> Forall scalar rs ->
  map snd (snd (x_run c d (a, pv) (repeat XReadRune (S (length rs))))) = map (fun r => XRune r (Z.of_nat (length (encode r)))) rs ++ [XOld REof].
Proof.
  intros d c a w pv rs Hc Hw Hrs.
  assert (G : forall rs pre ur beyond, Forall scalar rs -> map snd (xwin_run (pre ++ concat (map encode rs)) beyond (Z.of_nat (length pre), ur) (repeat XReadRune (S (length rs)))) = map (fun r => XRune r (Z.of_nat (length (encode r)))) rs ++ [XOld REof]).
  { clear. induction rs as [|r rs IH]; intros pre ur beyond H.
    - cbn [map concat length repeat]. rewrite app_nil_r. cbn [xwin_run xwin_step]. rewrite Z.eqb_refl. reflexivity.
    - inversion H as [|? ? Hr Hrs]; subst. cbn [map concat length]. change (repeat XReadRune (S (S (length rs)))) with (XReadRune :: repeat XReadRune (S (length rs))). set (os := repeat XReadRune (S (length rs))) in *. cbn [xwin_run xwin_step].
      assert (LE : 1 <= Z.of_nat (length (encode r))) by (unfold encode; repeat (match goal with |- context [if ?b then _ else _] => destruct b end); cbn; lia).
      rewrite !app_length. destruct (Z.eqb_spec (Z.of_nat (length pre)) (Z.of_nat (length pre + (length (encode r) + length (concat (map encode rs)))))); [lia|].
      rewrite Nat2Z.id. rewrite skipn_app, skipn_all2, Nat.sub_diag by lia. cbn [app skipn]. rewrite <- app_assoc. rewrite C06_utf8 by exact Hr.
      destruct (Z.leb_spec (Z.of_nat (length pre) + Z.of_nat (length (encode r))) (Z.of_nat (length pre + (length (encode r) + length (concat (map encode rs)))))); [|lia].
      cbn [map snd app]. f_equal. specialize (IH (pre ++ encode r) (Some (Z.of_nat (length pre))) beyond Hrs). rewrite app_length, Nat2Z.inj_add, <- app_assoc in IH. exact IH. }
  assert (A : agrees a (a, pv) (0, None)) by (split; cbn [fst snd]; [lia|right; reflexivity]).
  assert (OK : Forall xop_ok (repeat XReadRune (S (length rs)))) by (apply Forall_forall; intros x X; apply repeat_spec in X; subst x; exact I).
  destruct (C06_runes (repeat XReadRune (S (length rs))) d c a w (a, pv) (0, None) Hc ltac:(cbn; lia) A OK) as (-> & _).
  subst w. exact (G rs [] None _ Hrs).
Qed.
Print Assumptions C06_text.

(* WriteTo hands over exactly the unread bytes of the window, and leaves none, whatever the writer does *)
Theorem C06_write_to : forall d c a w q pv old m failed, chunk_on d c a w -> 0 <= q < Z.of_nat (length w) -> pv < 0 \/ q = 0 ->
  exists s, x_step c d (a + q, pv) (XWriteTo old m failed) = (s, XWrote (skipn (Z.to_nat q) w) m (failed || negb (m =? Z.of_nat (length w) - q))) /\ c_len c d (fst s) = 0.
Proof.
  intros d c a w q pv old m failed Hc Hq Hpv.
  pose proof (x_step_spec d c a w (a + q, pv) (q, None) (XWriteTo old m failed) Hc ltac:(cbn; lia) (conj eq_refl Hpv) I) as (E1 & (E2 & _) & _).
  destruct (x_step c d (a + q, pv) (XWriteTo old m failed)) as [s out]. exists s. cbn [fst snd xwin_step] in *. destruct (Z.eqb_spec q (Z.of_nat (length w))); [lia|]. cbn [fst snd] in *. subst out. split; [reflexivity|].
  destruct (chunk_on_wf _ _ _ _ Hc) as (Hwf & Ha & Hs & _). pose proof (c_wf_bound _ _ Hwf). rewrite c_len_abs by lia. lia.
Qed.
Print Assumptions C06_write_to.

(* not like a plain reader over the bytes of the window: a character that is cut off at the end of the window is the end, for ReadRune, though there are bytes
   left (a bytes.Reader gives the replacement character for each); it depends on bytes outside the window; at the end, UnreadRune still works; and a writer
   that takes only one of three bytes, without or with an error, loses the others *)
Theorem C06_runes_plain_refuted :
  let d := [104; 195; 169; 33] in let c := new_chunk d 0 2 in
  chunk_on d c 0 [104; 195]
  /\ snd (x_run c d (0, -1) [XReadRune; XReadRune; XReadRune]) = [(1, XRune 104 1); (1, XOld REof); (1, XOld REof)]
  /\ snd (r_read_rune [104; 195] (1, -1)) = XRune 65533 1
  /\ snd (x_run (new_chunk [104; 195; 0] 0 2) [104; 195; 0] (0, -1) [XReadRune; XReadRune]) = [(1, XRune 104 1); (0, XRune 65533 1)].
Proof.
  split; [|repeat split; vm_compute; reflexivity].
  exact (on_base [104; 195; 169; 33] 0 2 ltac:(cbn; lia) ltac:(lia)).
Qed.
Print Assumptions C06_runes_plain_refuted.
Theorem C06_unread_rune_plain_refuted :
  let d := [104] in let c := new_chunk d 0 1 in
  chunk_on d c 0 [104]
  /\ snd (x_run c d (0, -1) [XReadRune; XReadRune; XUnreadRune]) = [(0, XRune 104 1); (0, XOld REof); (1, XOld RNil)]
  /\ snd (r_unread_rune (fst (r_read_rune d (fst (r_read_rune d (0, -1)))))) = RError.
Proof.
  split; [exact (on_base [104] 0 1 ltac:(cbn; lia) ltac:(lia))|split; vm_compute; reflexivity].
Qed.
Print Assumptions C06_unread_rune_plain_refuted.
Theorem C06_write_to_keeps_refuted :
  let d := [1; 2; 3; 4] in let c := new_chunk d 0 3 in
  chunk_on d c 0 [1; 2; 3] /\ snd (x_run c d (0, -1) [XWriteTo [9; 9; 9] 1 false; XOp OReadByte]) = [(0, XWrote [1; 2; 3] 1 true); (0, XOld REof)].
Proof.
  split; [exact (on_base [1; 2; 3; 4] 0 3 ltac:(cbn; lia) ltac:(lia))|vm_compute; reflexivity].
Qed.
Print Assumptions C06_write_to_keeps_refuted.
Example C06_text_ex : let d := [0; 104; 195; 169; 226; 130; 172; 240; 159; 152; 128; 7] in
  let c := new_chunk d 1 10 in let s := new_sub_chunk c d 1 99 in
  chunk_on d s 1 (concat (map encode [104; 233; 8364; 128512])) /\ Forall scalar [104; 233; 8364; 128512]
  /\ map snd (snd (x_run s d (1, -1) (repeat XReadRune 5))) = [XRune 104 1; XRune 233 2; XRune 8364 3; XRune 128512 4; XOld REof].
Proof.
  split; [|split; [repeat constructor; lia|vm_compute; reflexivity]].
  exact (on_sub _ _ 1 [104; 195; 169; 226; 130; 172; 240; 159; 152; 128] 1 99 (on_base [0; 104; 195; 169; 226; 130; 172; 240; 159; 152; 128; 7] 1 10 ltac:(cbn; lia) ltac:(lia)) ltac:(cbn; lia) ltac:(lia)).
Qed.
