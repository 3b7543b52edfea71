(* Property theorems C05, C06, C19 *)
From Coq Require Import List ZArith Bool Lia ZifyBool ZifyNat.
From Verif Require Import M_KIo S_KIo L_KIo.
Import ListNotations.
Open Scope Z_scope.

(* C05: whatever the operation sequence, the capacity is fixed and never exceeded *)
Theorem C05_capacity_never_exceeded : forall os w, (sw_len w <= sw_cap w)%nat ->
  let w' := fold_left (fun a o => fst (sw_step a o)) os w in
  sw_cap w' = sw_cap w /\ (length (sw_bytes w') <= sw_cap w)%nat.
Proof. exact sw_run_wf. Qed.
Print Assumptions C05_capacity_never_exceeded.
(* a write appends all bytes or fails leaving the writer unchanged *)
Theorem C05_write_all_or_nothing : forall w p, (sw_len w <= sw_cap w)%nat ->
  let '(w', r) := sw_write w p in
  sw_cap w' = sw_cap w /\ (sw_len w' <= sw_cap w')%nat /\
  if (length p <=? sw_cap w - sw_len w)%nat
  then r = WOk (Z.of_nat (length p)) /\ sw_bytes w' = sw_bytes w ++ p
  else r = WErr /\ w' = w.
Proof. exact sw_write_spec. Qed.
Print Assumptions C05_write_all_or_nothing.
(* InsertAt at an offset inside the written bytes splices, or fails leaving the writer unchanged *)
Theorem C05_insert_splices : forall w p off,
  (sw_len w <= sw_cap w)%nat -> 0 <= off <= Z.of_nat (sw_len w) ->
  let '(w', r) := sw_insert_at w p off in
  sw_cap w' = sw_cap w /\ (sw_len w' <= sw_cap w')%nat /\
  if (length p <=? sw_cap w - sw_len w)%nat
  then r = WOk (Z.of_nat (length p)) /\
       sw_bytes w' = firstn (Z.to_nat off) (sw_bytes w) ++ p ++ skipn (Z.to_nat off) (sw_bytes w)
  else r = WErr /\ w' = w.
Proof. exact sw_insert_spec. Qed.
Print Assumptions C05_insert_splices.
(* WriteAt inside the written bytes overwrites exactly those bytes *)
Theorem C05_write_at_overwrites : forall w p off, (sw_len w <= sw_cap w)%nat ->
  0 <= off -> off + Z.of_nat (length p) <= Z.of_nat (sw_len w) ->
  let '(w', r) := sw_write_at w p off in
  r = WOk (Z.of_nat (length p)) /\
  sw_bytes w' = firstn (Z.to_nat off) (sw_bytes w) ++ p ++ skipn (Z.to_nat off + length p) (sw_bytes w).
Proof. exact sw_write_at_spec. Qed.
Print Assumptions C05_write_at_overwrites.
(* WriteAt reaching past the written bytes (but not past the capacity) reports success for fewer bytes
   than given: the all-or-nothing reading does not extend to WriteAt *)
Theorem C05_write_at_all_or_nothing_refuted : exists w p off w' n,
  (sw_len w <= sw_cap w)%nat /\ sw_write_at w p off = (w', WOk n) /\ n <> Z.of_nat (length p).
Proof.
  exists {| sw_mem := [1;2;3;4]; sw_len := 2 |}, [7;8;9], 1, {| sw_mem := [1;7;3;4]; sw_len := 2 |}, 1.
  repeat split; vm_compute; try congruence; lia.
Qed.
Print Assumptions C05_write_at_all_or_nothing_refuted.
Theorem C05_writes_concatenate : forall ps w, (sw_len w <= sw_cap w)%nat ->
  (length (concat ps) <= sw_cap w - sw_len w)%nat ->
  sw_bytes (fold_left (fun a p => fst (sw_write a p)) ps w) = sw_bytes w ++ concat ps.
Proof. exact sw_writes. Qed.
Print Assumptions C05_writes_concatenate.
Example C05_ex : let w := {| sw_mem := [0;0;0;0;0]; sw_len := 0 |} in
  let w1 := fst (sw_write w [1;2;3]) in
  (sw_len w1 <= sw_cap w1)%nat /\ sw_bytes (fst (sw_insert_at w1 [8;9] 1)) = [1;8;9;2;3]
  /\ snd (sw_insert_at w1 [7;8;9] 1) = WErr.
Proof. repeat split; vm_compute; try reflexivity; lia. Qed.

(* C06: a (nested) chunk reader answers every sequence of Read/ReadByte/ReadAt/UnreadByte/Seek like a
   plain reader over the bytes of its window, reports the right Len after every step, and the
   underlying reader never leaves the window *)
Theorem C06_chunk_reader_is_window : forall d c a w q os,
  chunk_on d c a w -> 0 <= q <= Z.of_nat (length w) -> Forall crop_ok os ->
  snd (c_run c d (a + q) os) = win_run w q os /\
  a <= fst (c_run c d (a + q) os) <= a + Z.of_nat (length w).
Proof. exact c_run_spec. Qed.
Print Assumptions C06_chunk_reader_is_window.
Example C06_ex : let d := [1;2;3;4;5;6;7;8;9] in
  let c := new_chunk d 2 5 in let s := new_sub_chunk c d 3 3 in
  chunk_on d s 3 [4;5;6] /\
  snd (c_run s d 3 [ORead 2; ORead 2; ORead 2; OUnread; OReadByte; OSeek 0 0; ORead 9]) =
    [(1, RBytes [4;5]); (0, RBytes [6]); (0, REof); (1, RNil); (0, RBytes [6]); (3, RPos 0); (0, RBytes [4;5;6])].
Proof.
  split; [|vm_compute; reflexivity].
  exact (on_sub [1;2;3;4;5;6;7;8;9] _ 2 [3;4;5;6;7] 3 3 (on_base [1;2;3;4;5;6;7;8;9] 2 5 ltac:(cbn; lia) ltac:(lia)) ltac:(cbn; lia) ltac:(lia)).
Qed.

(* C19 *)
Theorem C19_slice_meets_request : forall length capacity st st' r, 0 <= length <= capacity ->
  get_slice length capacity st st' r ->
  exists s, r = GOk s /\ ps_len s = length /\ capacity <= ps_cap s.
Proof. exact get_slice_sound. Qed.
Print Assumptions C19_slice_meets_request.
(* two users never hold the same backing array, and a held one is not in the pool *)
Theorem C19_exclusive : forall st held, pool_reach (st, held) -> NoDup (map ps_id held) /\
  forall s i, In s held -> In i (pool_items st) -> ps_id s <> ps_id (snd i).
Proof. exact pool_exclusive. Qed.
Print Assumptions C19_exclusive.
Example C19_ex : exists st held, pool_reach (st, held) /\ length held = 2%nat /\ pool_items st <> [].
Proof.
  eexists _, _. split; [|split].
  - eapply pr_step; [eapply pr_step; [eapply pr_step; [eapply pr_step; [apply pr_init|]|]|]|].
    + eapply ps_get. apply (get_nil 10 100).
    + eapply ps_get. apply (get_nil 0 9000).
    + eapply ps_get. apply (get_nil 0 200000).
    + eapply (ps_release _ []).
  - reflexivity.
  - discriminate.
Qed.
