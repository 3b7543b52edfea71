(* Property theorems C07-C10: strings, bytes, arrays, raw tagged fields *)
From Coq Require Import List ZArith Bool Lia ZifyBool ZifyNat.
From Verif Require Import M_KBase S_KBase L_KBase L_KBase2 M_KFields S_KFields L_KFields.
Import ListNotations.
Open Scope Z_scope.

Definition ctx_ex flo fhi nlo nhi := mkctx 0 32767 flo fhi nlo nhi (-1) (-1) None false.

(* ---- C07 strings ----
   A string value is a flag (null) and its bytes; the API builds null and every text except "null"
   (C07_api_values_admissible). *)
Theorem C07_string_round_trip : forall c ver d l rest prev, supported c ver = true ->
  bytes_ok (ns_val d) -> (if ns_nil d then ns_val d = [] else ns_val d <> null_text) ->
  wr_str c ver d = Some l -> rd_str c ver prev (l ++ rest) = ROk d rest.
Proof. intros c ver d l rest prev Hs Hb Hd. apply rt_str; [exact Hs|split; assumption]. Qed.
Print Assumptions C07_string_round_trip.
Theorem C07_string_encodable_iff : forall c ver d, supported c ver = true ->
  (exists l, wr_str c ver d = Some l) <->
  (if ns_nil d then nullable c ver = true else Z.of_nat (length (ns_val d)) <= 32767).
Proof. exact str_encodable. Qed.
Print Assumptions C07_string_encodable_iff.
Theorem C07_string_wire_layout : forall c ver d l, supported c ver = true -> wr_str c ver d = Some l ->
  blob_layout (flexible c ver) 2 (if ns_nil d then None else Some (ns_val d)) l.
Proof. exact str_layout. Qed.
Print Assumptions C07_string_wire_layout.
Theorem C07_string_size_exact : forall c ver d,
  sz_str c ver d = option_map (fun l => Z.of_nat (length l)) (wr_str c ver d).
Proof. exact str_size. Qed.
Print Assumptions C07_string_size_exact.
(* decoding: never more than 32767 bytes; null is only produced for a nullable field (or for the text
   "null", see below) *)
Theorem C07_string_decode_sound : forall c ver prev s d r, supported c ver = true ->
  rd_str c ver prev s = ROk d r ->
  Z.of_nat (length (ns_val d)) <= 32767 /\
  (nullable c ver = false -> ns_nil d = true -> ns_val d = null_text) /\
  exists u, s = u ++ r.
Proof. exact rd_str_sound. Qed.
Print Assumptions C07_string_decode_sound.
Theorem C07_api_values_admissible : forall x, bytes_ok x ->
  let d := set_value x in
  bytes_ok (ns_val d) /\ (if ns_nil d then ns_val d = [] else ns_val d <> null_text) /\
  (x <> null_text -> ns_nil d = false /\ ns_val d = x).
Proof.
  intros x H. destruct (set_value_ok x H) as [H1 H2]. split; [exact H1|]. split; [exact H2|].
  intros Hx. unfold set_value. apply list_eqb_false in Hx. now rewrite Hx.
Qed.
Print Assumptions C07_api_values_admissible.
(* the text "null" on the wire of a non-nullable field is decoded as a null that can then not be
   encoded any more: the round-trip claim is false for that one text *)
Theorem C07_text_null_refuted : exists c ver l d, nullable c ver = false /\ supported c ver = true /\
  blob_layout (flexible c ver) 2 (Some null_text) l /\
  rd_str c ver (mkstr false []) l = ROk d [] /\ ns_nil d = true /\ wr_str c ver d = None.
Proof.
  exists (ctx_ex 32767 32767 1 1), 0, ([0;4] ++ null_text), (mkstr true null_text).
  repeat split; try reflexivity. exists [0;4]. split; [reflexivity|]. cbn. split; [reflexivity|].
  intros [|[|i]] Hi; cbn; try reflexivity; lia.
Qed.
Print Assumptions C07_text_null_refuted.
Example C07_ex : let c := ctx_ex 2 32767 0 32767 in
  supported c 3 = true /\ wr_str c 3 (mkstr false [104;105]) = Some [3;104;105]
  /\ wr_str c 1 (mkstr false [104;105]) = Some [0;2;104;105] /\ wr_str c 1 (mkstr true []) = Some [255;255].
Proof. repeat split. Qed.

(* ---- C08 bytes ---- (None = nil slice) *)
Theorem C08_bytes_round_trip : forall c ver d l rest, supported c ver = true ->
  wr_bytes c ver d = Some l -> rd_bytesf c ver None (l ++ rest) = ROk d rest.
Proof. exact rt_bytes. Qed.
Print Assumptions C08_bytes_round_trip.
Theorem C08_bytes_encodable_iff : forall c ver d, supported c ver = true ->
  (exists l, wr_bytes c ver d = Some l) <->
  match d with None => nullable c ver = true | Some x => Z.of_nat (length x) <= 2147483647 end.
Proof. exact bytes_encodable. Qed.
Print Assumptions C08_bytes_encodable_iff.
Theorem C08_bytes_wire_layout : forall c ver d l, supported c ver = true -> wr_bytes c ver d = Some l ->
  blob_layout (flexible c ver) 4 d l.
Proof. exact bytes_layout. Qed.
Print Assumptions C08_bytes_wire_layout.
Theorem C08_bytes_size_exact : forall c ver d n, sz_bytes c ver d = Some n ->
  exists l, wr_bytes c ver d = Some l /\ Z.of_nat (length l) = n.
Proof. exact bytes_size_le. Qed.
Print Assumptions C08_bytes_size_exact.
(* the target must be nil beforehand: a null on the wire leaves the previous value in place *)
Theorem C08_null_into_reused_target_refuted : exists c ver l prev, supported c ver = true /\
  wr_bytes c ver None = Some l /\ rd_bytesf c ver prev l <> ROk None [].
Proof. exists (ctx_ex 2 32767 0 32767), 3, [0], (Some [1]). repeat split. vm_compute. congruence. Qed.
Print Assumptions C08_null_into_reused_target_refuted.
Example C08_ex : let c := ctx_ex 2 32767 0 32767 in
  wr_bytes c 3 (Some [7;8]) = Some [3;7;8] /\ wr_bytes c 1 (Some []) = Some [0;0;0;0]
  /\ rd_bytesf c 1 None [255;255;255;255;9] = ROk None [9].
Proof. repeat split. Qed.

(* ---- C09 arrays ---- for every item codec that round-trips, in particular (C12) every struct *)
Theorem C09_array_round_trip : forall A c ver (wr : A -> option (list Z)) (rd : list Z -> rres A)
  (P : A -> Prop) (d : option (list A)) l rest,
  (forall a, P a -> forall l rest, wr a = Some l -> rd (l ++ rest) = ROk a rest) ->
  supported c ver = true ->
  (forall xs, d = Some xs -> Forall P xs /\
     (if flexible c ver then Z.of_nat (length xs) + 1 < 2 ^ 32 else Z.of_nat (length xs) < 2 ^ 31)) ->
  wr_arr c ver wr d = Some l ->
  rd_arr c ver rd (l ++ rest) = ROk d rest.
Proof.
  intros A c ver wr rd P d l rest H Hs Hd E.
  rewrite (rt_arr c ver wr rd (fun a => a) P d l rest H Hs Hd E).
  destruct d as [xs|]; cbn; [now rewrite map_id|reflexivity].
Qed.
Print Assumptions C09_array_round_trip.
Theorem C09_array_wire_layout : forall A c ver (wr : A -> option (list Z)) (d : option (list A)) l,
  supported c ver = true ->
  (forall xs, d = Some xs ->
     if flexible c ver then Z.of_nat (length xs) + 1 < 2 ^ 32 else Z.of_nat (length xs) < 2 ^ 31) ->
  wr_arr c ver wr d = Some l ->
  array_layout (fun a e => wr a = Some e) (flexible c ver) d l.
Proof. exact @arr_layout. Qed.
Print Assumptions C09_array_wire_layout.
Theorem C09_array_size_exact : forall A c ver (wr : A -> option (list Z)) (sz : A -> option Z) d n,
  (forall xs a k, d = Some xs -> In a xs -> sz a = Some k -> exists l, wr a = Some l /\ Z.of_nat (length l) = k) ->
  sz_arr c ver sz d = Some n -> exists l, wr_arr c ver wr d = Some l /\ Z.of_nat (length l) = n.
Proof. exact @arr_size. Qed.
Print Assumptions C09_array_size_exact.
Theorem C09_null_needs_nullable : forall A c ver (wr : A -> option (list Z)) (rd : list Z -> rres A) s r,
  supported c ver = true -> nullable c ver = false ->
  wr_arr c ver wr None = None /\ rd_arr c ver rd s <> ROk None r.
Proof.
  intros A c ver wr rd s r Hs Hn. unfold wr_arr, rd_arr. rewrite Hs, Hn. cbn [negb]. split; [reflexivity|].
  rewrite rbind_ok. intros (len & r' & _ & H). destruct (len <? 0); [discriminate|].
  rewrite rbind_ok in H. destruct H as (x & r2 & _ & [=]).
Qed.
Print Assumptions C09_null_needs_nullable.
(* arrays of int32 and of strings meet the hypothesis on items *)
Theorem C09_int_array_round_trip : forall c ver n (d : option (list Z)) l rest, (0 < n)%nat ->
  supported c ver = true ->
  (forall xs, d = Some xs -> Forall (int_range (8 * Z.of_nat n)) xs /\ Z.of_nat (length xs) < 2 ^ 31) ->
  wr_arr c ver (fun v => Some (wr_int n v)) d = Some l ->
  rd_arr c ver (rd_int n) (l ++ rest) = ROk d rest.
Proof.
  intros c ver n d l rest Hn Hs Hd. eapply C09_array_round_trip with (P := int_range (8 * Z.of_nat n)); [|exact Hs|].
  - intros a Ha l0 r [= <-]. now apply rd_int_wr.
  - intros xs E. destruct (Hd xs E) as [H1 H2]. split; [exact H1|]. destruct (flexible c ver); lia.
Qed.
Print Assumptions C09_int_array_round_trip.
Example C09_ex : let c := ctx_ex 2 32767 0 32767 in
  wr_arr c 3 (fun v => Some (wr_int 2 v)) (Some [1; -1]) = Some [3;0;1;255;255]
  /\ rd_arr c 3 (rd_int 2) [3;0;1;255;255;42] = ROk (Some [1; -1]) [42].
Proof. repeat split. Qed.

(* ---- C10 raw tagged fields ---- *)
Theorem C10_tags_written_sorted_no_duplicates : forall l out,
  Forall (fun t => uint_range 32 (fst t)) l -> wr_tags l = Some out ->
  exists s, ascending s /\ (forall x, In x s <-> In x l) /\ length s = length l /\ tags_layout s out.
Proof. exact tags_layout_ok. Qed.
Print Assumptions C10_tags_written_sorted_no_duplicates.
Theorem C10_tags_accepted_iff_distinct : forall l, (exists out, wr_tags l = Some out) <->
  NoDup (map fst l) /\ Z.of_nat (length l) < 2 ^ 32 /\ Forall (fun t => Z.of_nat (length (snd t)) < 2 ^ 32) l.
Proof. exact tags_encodable. Qed.
Print Assumptions C10_tags_accepted_iff_distinct.
(* read back: the same fields in ascending order, provided something follows or the last value is not
   empty (nothing follows only at the end of a message) *)
Theorem C10_tags_round_trip : forall l out rest,
  Forall (fun t => uint_range 32 (fst t)) l -> wr_tags l = Some out ->
  (rest <> [] \/ Forall (fun t => snd t <> []) l) ->
  exists s, rd_tags (out ++ rest) = ROk s rest /\ ascending s /\ (forall x, In x s <-> In x l)
    /\ length s = length l.
Proof.
  intros l out rest HP E Hne. exists (tag_sort l). destruct (wr_tags_inv _ _ E) as (_ & Hasc & _).
  split; [|split; [exact Hasc|split; [apply tag_sort_in|apply tag_sort_len]]].
  apply rt_tags; try assumption. destruct Hne as [H|H]; [now left|right].
  assert (Forall (fun t => snd t <> []) (tag_sort l)) as H'.
  { apply Forall_forall. intros x Hx. rewrite Forall_forall in H. apply H. now apply tag_sort_in. }
  clear - H'. induction H' as [|t s Ht HF IH]; [cbn; discriminate|]. destruct s; [exact Ht|exact IH].
Qed.
Print Assumptions C10_tags_round_trip.
(* the excluded case really fails: a final tagged field with an empty value at the end of input *)
Theorem C10_empty_last_value_refuted : exists l out, NoDup (map fst l) /\ wr_tags l = Some out /\
  rd_tags out = RErr true.
Proof.
  exists [(5, [])], [1;5;0]. split; [repeat constructor; intros []|]. split; reflexivity.
Qed.
Print Assumptions C10_empty_last_value_refuted.
Example C10_ex : wr_tags [(9,[1;2]);(4,[7])] = Some [2;4;1;7;9;2;1;2]
  /\ rd_tags [2;4;1;7;9;2;1;2] = ROk [(4,[7]);(9,[1;2])] [] /\ wr_tags [(9,[1]);(4,[7]);(9,[])] = None.
Proof. repeat split. Qed.
