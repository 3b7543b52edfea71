(* Property theorems C11-C14, C58, C60: generated messages, requests and responses.  [known s] is one of
   the 328 message definitions of the library. *)
From Coq Require Import List ZArith Bool Lia ZifyBool ZifyNat.
From Verif Require Import M_KBase S_KBase L_KBase L_KBase2 M_KFields S_KFields L_KFields L_KLoc M_KRecords S_KRecords L_KIo L_KRecords L_KBatch
  M_KSchema S_KSchema L_KSchema L_KSize L_KSchLoc L_KDone M_KSchemas M_KMsg S_KMsg L_KMsg.
Import ListNotations.
Open Scope Z_scope.

Definition no_codec := mkcodec (fun _ _ => None) (fun _ _ => None).
(* sample request: Metadata v9 for one topic with client id "me" and an unknown tagged field *)
Definition topic_ex : den_s s_metadata_request_MetadataRequestTopic := mksval false (repeat 0 16, (mkstr false [116], tt)) [(5, [1])].
Definition metadata_ex : den_s s_metadata_Request := mksval false (Some [topic_ex], (true, (false, (false, tt)))) [].
Definition hdr_ex (key ver : Z) : den_s s_request_Header := mksval false (key, (ver, (77, (mkstr false [109;101], tt)))) [].
Definition req_ex : request := mkmsg (hdr_ex 3 9) 3 s_metadata_Request metadata_ex.
Ltac okk := repeat match goal with
  | |- _ /\ _ => split | |- Forall _ _ => constructor | |- NoDup _ => constructor | |- True => exact I
  | |- int_range _ _ => unfold int_range; cbn; lia | |- uint_range _ _ => unfold uint_range; cbn; lia | |- bytes_ok _ => constructor
  | |- _ <> _ => discriminate | |- _ = _ => reflexivity | |- if ns_nil _ then _ else _ => cbn; try reflexivity; try discriminate | |- _ < _ => vm_compute; reflexivity | |- ~ In _ _ => cbn; intuition lia | |- byte_ok _ => unfold byte_ok; lia end.
Lemma req_ex_ok : msg_ok req_ex.
Proof. unfold msg_ok, admissible, distinct_tags, req_ex. cbn. okk; try (unfold int_range; cbn; lia). Qed.

(* ---- C11 ---- *)
(* The size computed for a message is exactly the length of its serialisation, which succeeds. *)
Theorem C11_message_size : forall cz s ver (v : den_s s) n, known s -> 0 <= ver <= 32767 ->
  admissible s v -> gapless s v -> sz_s ver s v = Some n ->
  exists l, serialize cz ver s v = Some l /\ Z.of_nat (length l) = n.
Proof.
  intros cz s ver v n Hk Hv Ha Hg E. destruct (struct_sized cz ver s v n Hk Ha E) as (l & El & H1 & H2). exists l. split; [|now apply H2].
  unfold serialize. rewrite E, El. cbn [obind]. destruct (zlen l <=? n) eqn:X; [reflexivity|lia].
Qed.
Print Assumptions C11_message_size.
Theorem C11_request_size : forall cz ver (m : request) n, known (m_sch m) -> 0 <= ver <= 32767 ->
  msg_ok m -> msg_gapless m -> req_size ver m = Some n ->
  exists l, req_serialize cz ver m = Some l /\ Z.of_nat (length l) = n.
Proof. intros cz ver m n Hk Hv Ha Hg E. destruct (req_sized cz ver m n Hk Ha E) as (l & El & H1 & H2). exists l. split; [exact El|now apply H2]. Qed.
Print Assumptions C11_request_size.
Theorem C11_response_size : forall cz ver (m : response) n, known (m_sch m) -> 0 <= ver <= 32767 ->
  msg_ok m -> msg_gapless m -> resp_size ver m = Some n ->
  exists l, resp_serialize cz ver m = Some l /\ Z.of_nat (length l) = n.
Proof. intros cz ver m n Hk Hv Ha Hg E. destruct (resp_sized cz ver m n Hk Ha E) as (l & El & H1 & H2). exists l. split; [exact El|now apply H2]. Qed.
Print Assumptions C11_response_size.
(* without the hypothesis on timestamp deltas the size is an upper bound, so serialising never lacks capacity *)
Theorem C11_never_short_of_room : forall cz ver (m : request) n, known (m_sch m) -> msg_ok m -> req_size ver m = Some n ->
  exists l, req_serialize cz ver m = Some l /\ Z.of_nat (length l) <= n.
Proof. intros cz ver m n Hk Ha E. destruct (req_sized cz ver m n Hk Ha E) as (l & El & H1 & H2). eauto. Qed.
Print Assumptions C11_never_short_of_room.
(* missing from the equalities: (1) timestamp deltas of C02, where the size is too large; *)
Definition rec_gap := mkrec 0 (2 ^ 49) 0 None None (Some []).
Definition batch_gap := mkbatch 0 0 0 2 0 0 0 0 0 (-1) (-1) (-1) [rec_gap].
Definition part_ex (b : batch) : den_s s_produce_request_topicproducedata_PartitionProduceData := mksval false (0, (mkbatches false [b], tt)) [].
Theorem C11_size_refuted : exists (v : den_s s_produce_request_topicproducedata_PartitionProduceData) n l,
  admissible _ v /\ sz_s 9 _ v = Some n /\ serialize no_codec 9 _ v = Some l /\ Z.of_nat (length l) < n.
Proof.
  exists (part_ex batch_gap). do 2 eexists. split; [|split; [vm_compute; reflexivity|split; [vm_compute; reflexivity|vm_compute; reflexivity]]].
  split; [|cbn; okk]. cbn. okk; try (unfold int_range; cbn; lia). 
  unfold batch_ok, rec_ok; cbn; okk; try (unfold int_range; cbn; lia). exists []. okk.
  unfold rec_bytes. cbn. okk.
Qed.
Print Assumptions C11_size_refuted.
(* (2) compressed batches: the size is that of the uncompressed records, so a codec that expands its input
   (gzip on short inputs) makes serialisation fail; *)
Definition grow := mkcodec (fun _ x => Some (x ++ repeat 0 20)) (fun _ y => Some (firstn (length y - 20) y, [])).
Theorem C11_compressed_refuted : lossless grow 1 /\ exists (v : den_s s_produce_request_topicproducedata_PartitionProduceData) n,
  sz_s 9 _ v = Some n /\ serialize grow 9 _ v = None.
Proof.
  split.
  - intros x y E. apply some_inj in E. subst y. cbn [cz_dec grow]. rewrite app_length, repeat_length. replace (length x + 20 - 20)%nat with (length x) by lia.
    now rewrite firstn_app, firstn_all, Nat.sub_diag, app_nil_r.
  - exists (part_ex (mkbatch 0 0 0 2 0 1 0 0 0 (-1) (-1) (-1) [mkrec 0 0 0 None (Some [1]) (Some [])])). eexists. split; vm_compute; reflexivity.
Qed.
Print Assumptions C11_compressed_refuted.
(* (3) two unknown tagged fields with the same tag: sized, but rejected by the writer *)
Theorem C11_duplicate_tags_refuted : exists (v : den_s s_metadata_Request) n, ok_s _ v /\ sz_s 9 _ v = Some n /\ serialize no_codec 9 _ v = None.
Proof.
  exists (mksval false (Some [], (true, (false, (false, tt)))) [(5, [1]); (5, [2])]). eexists. split; [|split; vm_compute; reflexivity]. cbn. okk.
Qed.
Print Assumptions C11_duplicate_tags_refuted.
Example C11_ex : known (m_sch req_ex) /\ msg_ok req_ex /\ msg_gapless req_ex /\ req_size 9 req_ex = Some 24.
Proof.
  split; [right; left; exists 3; reflexivity|]. split; [exact req_ex_ok|]. split; [|vm_compute; reflexivity]. unfold msg_gapless, gapless. cbn. okk.
Qed.

(* ---- C12 ---- *)
Theorem C12_message_round_trip : forall cz s ver (v : den_s s) l rest, known s -> ok_s s v -> wr_s cz ver s v = Some l ->
  rd_s cz ver s (l ++ rest) = ROk (back_s ver s v) rest.
Proof. intros. now apply struct_rt. Qed.
Print Assumptions C12_message_round_trip.
Theorem C12_request_round_trip : forall cz ver (m : request) l rest, msg_ok m -> int_range 16 ver ->
  h_ver (m_hdr m) = ver -> h_key (m_hdr m) = m_key m -> req_sch (m_key m) = Some (m_sch m) ->
  req_serialize cz ver m = Some l ->
  req_parse cz (l ++ rest) = ROk (msg_back (req_header_version (m_key m) ver) ver m) rest.
Proof. exact req_rt. Qed.
Print Assumptions C12_request_round_trip.
Theorem C12_response_round_trip : forall cz ver (m : response) l rest, msg_ok m -> resp_sch (m_key m) = Some (m_sch m) ->
  resp_serialize cz ver m = Some l ->
  resp_parse cz (l ++ rest) (m_key m) ver (rh_corr (m_hdr m)) = ROk (msg_back (resp_header_version (m_key m) ver) ver m) rest.
Proof. exact resp_rt. Qed.
Print Assumptions C12_response_round_trip.
(* Serialize takes the api version as an argument and does not compare it with the version in the header:
   with another version the bytes do not decode to the message *)
Theorem C12_version_argument_refuted : exists (m : request) ver l, msg_ok m /\ req_sch (m_key m) = Some (m_sch m) /\ h_key (m_hdr m) = m_key m /\
  req_serialize no_codec ver m = Some l /\ forall m' r, req_parse no_codec l <> ROk m' r.
Proof. exists (mkmsg (hdr_ex 3 0) 3 s_metadata_Request metadata_ex), 9. eexists. split; [|split; [reflexivity|split; [reflexivity|split; [vm_compute; reflexivity|]]]].
  - unfold msg_ok, admissible, distinct_tags. cbn. okk; try (unfold int_range; cbn; lia).
  - intros m' r H. vm_compute in H. discriminate.
Qed.
Print Assumptions C12_version_argument_refuted.
Definition bytes_ex : list Z := [0;3; 0;9; 0;0;0;77; 0;2;109;101; 0;
  2; 2;116; 1;5;1;1; 1;0;0; 0].
Example C12_ex : msg_ok req_ex /\ req_serialize no_codec 9 req_ex = Some bytes_ex /\ req_parse no_codec bytes_ex = ROk req_ex [].
Proof. split; [exact req_ex_ok|]. split; vm_compute; reflexivity. Qed.

(* ---- C13 ---- *)
(* A decode of a message without records that leaves something unread depends on the consumed bytes only,
   whatever follows; if it ended with the input, the same holds after completing the missing (empty) tagged
   sections with their zero bytes, and none are missing in a version without flexible structs. *)
Theorem C13_locality : forall cz s ver inp v rest, norec_s s = true -> rd_s cz ver s inp = ROk v rest ->
  exists used k, inp = used ++ rest /\ (k <> 0%nat -> rest = [] /\ flex_s ver s = true) /\
    forall rest', (rest' = [] -> rest = []) -> rd_s cz ver s (used ++ repeat 0 k ++ rest') = ROk v rest'.
Proof. intros cz s ver inp v rest Hn E. exact (proj1 (proj2 (cloc_schema cz ver)) s Hn inp v rest E). Qed.
Print Assumptions C13_locality.
(* every message, records included *)
Theorem C13_append : forall cz s ver inp v rest more, cz_shrinks cz -> rd_s cz ver s inp = ROk v rest -> rest <> [] ->
  rd_s cz ver s (inp ++ more) = ROk v (rest ++ more).
Proof. intros cz s ver inp v rest more Hc E Hr. destruct (proj1 (proj2 (ast_schema cz ver Hc)) s inp v rest E) as [_ H]. now apply H. Qed.
Print Assumptions C13_append.
(* the exception at the end of the input is real: the tagged section may be missing *)
Theorem C13_end_of_input_refuted : exists inp more v v' r, rd_s no_codec 4 s_heartbeat_Request inp = ROk v [] /\
  rd_s no_codec 4 s_heartbeat_Request (inp ++ more) = ROk v' r /\ v <> v'.
Proof.
  exists [2;65; 0;0;0;1; 2;66; 2;67], [1;9;1;7]. do 3 eexists. split; [vm_compute; reflexivity|]. split; [vm_compute; reflexivity|]. discriminate.
Qed.
Print Assumptions C13_end_of_input_refuted.
Example C13_ex : norec_s s_heartbeat_Request = true /\ exists v, rd_s no_codec 4 s_heartbeat_Request [2;65; 0;0;0;1; 2;66; 2;67; 0; 8; 8] = ROk v [8; 8].
Proof. split; [reflexivity|]. eexists. vm_compute. reflexivity. Qed.

(* ---- C14 ---- *)
(* the header version of a request is 2 exactly for the flexible versions of its message definition, else 1,
   or 0 for ControlledShutdown v0 *)
Theorem C14_request_header_version : forall key s ver, req_sch key = Some s -> 0 <= ver < 32767 ->
  (flexible_s s ver -> req_header_version key ver = 2) /\
  (~ flexible_s s ver -> req_header_version key ver = if (key =? 7) && (ver =? 0) then 0 else 1).
Proof. exact req_hv_spec. Qed.
Print Assumptions C14_request_header_version.
Theorem C14_response_header_version : forall key s ver, resp_sch key = Some s -> 0 <= ver < 32767 ->
  (flexible_s s ver -> resp_header_version key ver = if key =? 18 then 0 else 1) /\
  (~ flexible_s s ver -> resp_header_version key ver = 0).
Proof. exact resp_hv_spec. Qed.
Print Assumptions C14_response_header_version.
Theorem C14_unknown_key_rejected : forall key, req_sch key = None ->
  (forall cz ver (m : request), h_key (m_hdr m) = key -> req_serialize cz ver m = None) /\
  (forall cz b rest, int_range 16 key -> exists e, req_parse cz (wr_int 2 key ++ b ++ rest) = RErr e).
Proof.
  intros key H. pose proof (req_hv_none key H) as Hh. split.
  - intros cz ver m <-. unfold req_serialize. now rewrite Hh.
  - intros cz b rest Hk. unfold req_parse. destruct (_ <? 4)%nat; [eauto|]. rewrite rd_int_wr by (try lia; exact Hk). cbn [rbind].
    pose proof (np_int 2 (b ++ rest)). destruct (rd_int 2 (b ++ rest)); cbn [rbind]; [|eauto|congruence]. rewrite Hh. cbn [Z.eqb]. eexists. reflexivity.
Qed.
Print Assumptions C14_unknown_key_rejected.
Theorem C14_unknown_response_key_rejected : forall key, resp_sch key = None -> forall cz msg ver corr, resp_parse cz msg key ver corr = RErr false.
Proof. intros key H cz msg ver corr. unfold resp_parse. now rewrite (resp_hv_none key H). Qed.
Print Assumptions C14_unknown_response_key_rejected.
Theorem C14_same_keys : forall key, (req_sch key = None <-> resp_sch key = None) /\ (req_sch key = None <-> ~ 0 <= key <= 67).
Proof.
  intros key. assert (forall k, 0 <= k <= 67 -> req_sch k <> None /\ resp_sch k <> None) as H.
  { intros k Hk. assert (In k keys) as Hi by (apply in_keys; lia).
    assert (forallb (fun k => match req_sch k, resp_sch k with Some _, Some _ => true | _, _ => false end) keys = true) as F by (vm_compute; reflexivity).
    rewrite forallb_forall in F. specialize (F k Hi). cbv beta in F. destruct (req_sch k), (resp_sch k); try discriminate. split; discriminate. }
  assert (forall k, ~ 0 <= k <= 67 -> req_sch k = None /\ resp_sch k = None) as H2.
  { intros k Hk. split; [destruct (req_sch k) eqn:E; [apply req_sch_key in E; lia|reflexivity]|destruct (resp_sch k) eqn:E; [apply resp_sch_key in E; lia|reflexivity]]. }
  destruct (Z_le_dec 0 key) as [A|A]; [destruct (Z_le_dec key 67) as [B|B]|].
  - destruct (H key (conj A B)) as [X Y]. split; split; intros Z; exfalso; [exact (X Z)|exact (Y Z)|exact (X Z)|exact (Z (conj A B))].
  - destruct (H2 key ltac:(lia)) as [X Y]. split; split; intros Z; [exact Y|exact X|lia|exact X].
  - destruct (H2 key ltac:(lia)) as [X Y]. split; split; intros Z; [exact Y|exact X|lia|exact X].
Qed.
Print Assumptions C14_same_keys.
(* a response with another correlation id is rejected, whatever else it holds *)
Theorem C14_correlation_id : forall cz msg key ver corr m r, resp_parse cz msg key ver corr = ROk m r -> rh_corr (m_hdr m) = corr.
Proof.
  intros cz msg key ver corr m r E. unfold resp_parse in E. cbv zeta in E. destruct (_ =? -1); [discriminate|].
  apply rbind_ok in E as (h & r1 & _ & E). destruct (rh_corr h =? corr) eqn:Ec; [|discriminate]. cbn [negb] in E. apply Z.eqb_eq in Ec.
  destruct (resp_sch key) as [s|]; [|discriminate]. destruct (rd_s cz ver s r1); [|destruct (_ && _)|discriminate].
  - injection E as <- <-. exact Ec.
  - apply rbind_ok in E as (d & r2 & _ & E). injection E as <- <-. exact Ec.
  - discriminate.
Qed.
Print Assumptions C14_correlation_id.
Definition av_key_ex : den_s s_apiversions_response_ApiVersion := mksval false (18, (0, (3, tt))) [].
Definition av_ex : response := mkmsg (mksval false (5, tt) [] : den_s s_response_Header) 18 s_apiversions_Response
  (mksval false (35, (Some [av_key_ex], (0, (None, (-1, (None, (false, tt))))))) []).
(* response.go documents a fallback: an ApiVersions response that cannot be parsed at the requested version
   is parsed as version 0.  It never happens for a supported version, because the test compares the VERSION with 18. *)
Theorem C14_apiversions_fallback_refuted : exists msg (m : response), m_key m = 18 /\ msg_ok m /\ rh_corr (m_hdr m) = 5 /\
  resp_serialize no_codec 0 m = Some msg /\ forall m' r, resp_parse no_codec msg 18 3 5 <> ROk m' r.
Proof.
  eexists. exists av_ex.
  split; [reflexivity|]. split; [unfold msg_ok, admissible, distinct_tags; cbn; okk; try (unfold int_range; cbn; lia)|]. split; [reflexivity|]. split; [vm_compute; reflexivity|].
  intros m' r H. vm_compute in H. discriminate.
Qed.
Print Assumptions C14_apiversions_fallback_refuted.
Example C14_ex : req_sch 3 = Some s_metadata_Request /\ flexible_s s_metadata_Request 9 /\ ~ flexible_s s_metadata_Request 8 /\ req_sch 68 = None.
Proof. cbn. repeat split; lia. Qed.

(* ---- C58 (message level) ---- *)
Theorem C58_messages_without_records_never_panic : forall cz s ver inp, norec_s s = true -> rd_s cz ver s inp <> RPanic.
Proof. intros cz s ver inp H. exact (proj1 (proj2 (np_schema cz ver)) s H inp). Qed.
Print Assumptions C58_messages_without_records_never_panic.
Theorem C58_requests_never_panic : forall cz msg,
  (forall key r, rd_int 2 msg = ROk key r -> key <> 0) -> req_parse cz msg <> RPanic.
Proof.
  intros cz msg Hk. unfold req_parse. destruct (_ <? 4)%nat; [discriminate|]. pose proof (np_int 2 msg) as N1. destruct (rd_int 2 msg) as [key r| |]; cbn [rbind]; try discriminate; try congruence.
  specialize (Hk key r eq_refl). pose proof (np_int 2 r) as N2. destruct (rd_int 2 r) as [ver r0| |]; cbn [rbind]; try discriminate; try congruence.
  cbv zeta. destruct (_ =? -1); [discriminate|]. destruct (negb _); [discriminate|].
  pose proof (C58_messages_without_records_never_panic cz s_request_Header (req_header_version key ver) msg eq_refl) as N3.
  destruct (rd_s cz (req_header_version key ver) s_request_Header msg) as [h r1| |]; cbn [rbind]; try discriminate; try congruence.
  destruct (req_sch key) as [s|] eqn:Es; [|discriminate].
  assert (norec_s s = true) as Hs.
  { pose proof (req_sch_key _ _ Es) as Hr. assert (In key keys) as Hi by now apply in_keys.
    assert (forallb (fun k => (k =? 0) || match req_sch k with Some s => norec_s s | None => true end) keys = true) as F by (vm_compute; reflexivity).
    rewrite forallb_forall in F. specialize (F key Hi). rewrite Es in F. destruct (key =? 0) eqn:X; [lia|exact F]. }
  pose proof (C58_messages_without_records_never_panic cz s ver r1 Hs). destruct (rd_s cz ver s r1); cbn [rbind]; congruence.
Qed.
Print Assumptions C58_requests_never_panic.
(* missing: Produce (api key 0), whose records can panic (C58_batch_decode_refuted in P_KRecords) *)
Example C58_ex : norec_s s_metadata_Request = true /\ exists r, rd_int 2 bytes_ex = ROk 3 r. Proof. split; [reflexivity|]. eexists. reflexivity. Qed.

(* ---- C60: a null for a field that is not nullable ---- *)
(* at every version in which the definition allows no null, decoding never yields a null string *)
Theorem C60_null_rejected : forall c ver prev inp v rest, supported c ver = true -> nullable c ver = false ->
  rd_str c ver prev inp = ROk v rest -> ns_nil v = true -> ns_val v = null_text.
Proof.
  intros c ver prev inp v rest Hs Hn E Hv. unfold rd_str in E. rewrite Hs in E. cbn [negb] in E. apply rbind_ok in E as (len & r & _ & E).
  unfold rd_str_value in E. rewrite Hn in E. destruct (len <? 0); [discriminate|]. destruct (len >? 0x7fff); [discriminate|].
  destruct (len =? 0); [injection E as <- <-; discriminate|]. apply rbind_ok in E as (l & r' & _ & E). injection E as <- <-. cbn in *.
  revert Hv. generalize null_text. induction l as [|x l IH]; intros [|y w]; cbn; try discriminate; [reflexivity|].
  intros H. apply andb_true_iff in H as [H1 H2]. apply Z.eqb_eq in H1. rewrite H1, (IH _ H2). reflexivity.
Qed.
Print Assumptions C60_null_rejected.
(* a definition without nullable versions still has the range 0..0 in its context, so version 0 accepts null:
   SaslHandshake's mechanism is not nullable in any version of the protocol *)
Theorem C60_null_at_version_0_refuted : exists v, rd_s no_codec 0 s_saslhandshake_Request [255;255] = ROk v [] /\ ns_nil (fst (sv_fld v)) = true /\
  rd_s no_codec 1 s_saslhandshake_Request [255;255] = RErr false.
Proof. eexists. split; [vm_compute; reflexivity|]. split; reflexivity. Qed.
Print Assumptions C60_null_at_version_0_refuted.
