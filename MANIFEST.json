{
 "claims": [
  {
   "property": "C01",
   "status": "proved",
   "theorems": [
    "C01_uvarint32_round_trip",
    "C01_varint32_round_trip",
    "C01_varint64_round_trip"
   ],
   "note": ""
  },
  {
   "property": "C02",
   "status": "proved",
   "theorems": [
    "C02_uint32_size_exact",
    "C02_int32_size_exact",
    "C02_int64_size_discrepancy",
    "C02_int64_size_refuted"
   ],
   "note": "exact for 32-bit sizes; the exception is a defect of the size table (C02_int64_size_refuted)"
  },
  {
   "property": "C03",
   "status": "proved",
   "theorems": [
    "C03_uvarint32_reader",
    "C03_varint32_reader",
    "C03_varint64_reader",
    "C03_no_panic"
   ],
   "note": "iff-characterisation of accepted byte strings"
  },
  {
   "property": "C04",
   "status": "proved",
   "theorems": [
    "C04_int_round_trip",
    "C04_uint_round_trip",
    "C04_bool_round_trip",
    "C04_uuid_round_trip",
    "C04_short_input_is_error",
    "C04_short_bool_uuid_is_error",
    "C04_bool_reader"
   ],
   "note": "floats as IEEE bit patterns"
  },
  {
   "property": "C05",
   "status": "proved",
   "theorems": [
    "C05_capacity_never_exceeded",
    "C05_write_all_or_nothing",
    "C05_insert_splices",
    "C05_write_at_overwrites",
    "C05_write_at_all_or_nothing_refuted",
    "C05_writes_concatenate",
    "C05_seek",
    "C05_seek_other_whence",
    "C05_slice",
    "C05_slice_out_of_range"
   ],
   "note": "Write/InsertAt/Seek as stated; WriteAt additionally shown to truncate silently (C05_write_at_refuted-style theorem)"
  },
  {
   "property": "C06",
   "status": "proved",
   "theorems": [
    "C06_chunk_reader_is_window",
    "C06_runes",
    "C06_utf8",
    "C06_text",
    "C06_write_to",
    "C06_runes_plain_refuted",
    "C06_unread_rune_plain_refuted",
    "C06_write_to_keeps_refuted"
   ],
   "note": "the refuted comparisons with bytes.Reader are stated as C06_runes_plain_refuted, C06_unread_rune_plain_refuted and C06_write_to_keeps_refuted"
  },
  {
   "property": "C07",
   "status": "proved",
   "theorems": [
    "C07_string_round_trip",
    "C07_string_encodable_iff",
    "C07_string_wire_layout",
    "C07_string_size_exact",
    "C07_string_decode_sound",
    "C07_api_values_admissible",
    "C07_text_null_refuted"
   ],
   "note": "the text \"null\" received on the wire is decoded as null even for fields that are not nullable (C07_text_null_refuted)"
  },
  {
   "property": "C08",
   "status": "proved",
   "theorems": [
    "C08_bytes_round_trip",
    "C08_bytes_encodable_iff",
    "C08_bytes_wire_layout",
    "C08_bytes_size_exact",
    "C08_null_into_reused_target_refuted"
   ],
   "note": "decoding into a nil target as every generated Read does; reuse of a non-nil target shown to differ"
  },
  {
   "property": "C09",
   "status": "proved",
   "theorems": [
    "C09_array_round_trip",
    "C09_array_wire_layout",
    "C09_array_size_exact",
    "C09_null_needs_nullable",
    "C09_int_array_round_trip"
   ],
   "note": "generic in the item codec; struct items instantiated in C12"
  },
  {
   "property": "C10",
   "status": "proved",
   "theorems": [
    "C10_tags_written_sorted_no_duplicates",
    "C10_tags_accepted_iff_distinct",
    "C10_tags_round_trip",
    "C10_empty_last_value_refuted"
   ],
   "note": "the exception is a defect (C10_empty_last_value_refuted)"
  },
  {
   "property": "C11",
   "status": "proved",
   "theorems": [
    "C11_message_size",
    "C11_request_size",
    "C11_response_size",
    "C11_never_short_of_room",
    "C11_size_refuted",
    "C11_compressed_refuted",
    "C11_duplicate_tags_refuted",
    "C11_response_never_short_of_room"
   ],
   "note": "without the hypotheses it fails: compressed batches (C11_compressed_refuted), duplicate unknown tags (C11_duplicate_tags_refuted), timestamp gap (C11_size_refuted)"
  },
  {
   "property": "C12",
   "status": "proved",
   "theorems": [
    "C12_message_round_trip",
    "C12_request_round_trip",
    "C12_response_round_trip",
    "C12_version_argument_refuted"
   ],
   "note": "structs, requests and responses; Serialize at a version other than the header's is shown not to round trip"
  },
  {
   "property": "C13",
   "status": "proved",
   "theorems": [
    "C13_locality",
    "C13_append",
    "C13_end_of_input_refuted",
    "C13_end_of_input"
   ],
   "note": "all messages including those with records, given that a decompressor does not return more unread bytes than it was given; a decode that stops at the end of the input inside an optional trailing section reads differently when bytes other than zeros follow (C13_end_of_input_refuted)"
  },
  {
   "property": "C14",
   "status": "proved",
   "theorems": [
    "C14_request_header_version",
    "C14_response_header_version",
    "C14_unknown_key_rejected",
    "C14_unknown_response_key_rejected",
    "C14_same_keys",
    "C14_correlation_id",
    "C14_apiversions_fallback_refuted"
   ],
   "note": "0 <= version < 32767; the documented ApiVersions fallback is refuted"
  },
  {
   "property": "C15",
   "status": "proved",
   "theorems": [
    "C15_record_round_trip",
    "C15_record_encodable",
    "C15_length_prefix",
    "C15_length_prefix_refuted",
    "C15_foreign_record_refuted",
    "C15_length_prefix_exact"
   ],
   "note": "the exception is the defect of C02; because of it records of other producers with such a delta are rejected (C15_foreign_record_refuted)"
  },
  {
   "property": "C16",
   "status": "proved",
   "theorems": [
    "C16_batch_round_trip",
    "C16_batch_wire_fields",
    "C16_batch_size",
    "C16_api_batch_refuted",
    "C16_attribute_bits",
    "C16_checksum_is_crc32c"
   ],
   "note": "for every admissible uncompressed batch below 2 GB with magic 2; size agreement partial (C02 gap); API-built batches have magic 0 and cannot be written (C16_api_batch_refuted)"
  },
  {
   "property": "C17",
   "status": "proved",
   "theorems": [
    "C17_records_field",
    "C17_partial_batch_refuted",
    "C17_leftover"
   ],
   "note": "leftover bytes are read as the next field, a defect (C17_partial_batch_refuted)"
  },
  {
   "property": "C18",
   "status": "proved",
   "theorems": [
    "C18_truncated_record",
    "C18_truncated_header",
    "C18_truncated_record_refuted"
   ],
   "note": "the all-zero record instead of an error is a defect (C18_truncated_record_refuted)"
  },
  {
   "property": "C19",
   "status": "proved",
   "theorems": [
    "C19_slice_meets_request",
    "C19_exclusive"
   ],
   "note": ""
  },
  {
   "property": "C20",
   "status": "proved",
   "theorems": [
    "C20_one_per_name",
    "C20_only_subscribed_are_stored",
    "C20_subscribed",
    "C20_subscribed_refuted",
    "C20_subscribed_reconnect_refuted",
    "C20_sotw_stream",
    "C20_add",
    "C20_add_name_table",
    "C20_add_rejected",
    "C20_add_name_table_rejected",
    "C20_add_rejected_why",
    "C20_remove"
   ],
   "note": "the last two exceptions are refutations of 'every cached resource is subscribed' (C20_subscribed_refuted, C20_subscribed_reconnect_refuted)"
  },
  {
   "property": "C21",
   "status": "proved",
   "theorems": [
    "C21_replaced_exactly",
    "C21_endpoints_routes",
    "C21_stale_endpoints_refuted",
    "C21_initialized_iff"
   ],
   "note": "keeping unmentioned endpoints and routes means deleted ones stay (C21_stale_endpoints_refuted)"
  },
  {
   "property": "C22",
   "status": "proved",
   "theorems": [
    "C22_ack",
    "C22_nack_delta",
    "C22_nack_sotw",
    "C22_nack_sotw_nonce_refuted",
    "C22_answered"
   ],
   "note": "the empty nonce of a state-of-the-world NACK is a defect (C22_nack_sotw_nonce_refuted)"
  },
  {
   "property": "C23",
   "status": "proved",
   "theorems": [
    "C23_rejected_clusters_refuted",
    "C23_rejected_name_table_refuted",
    "C23_incremental",
    "C23_name_table_sotw",
    "C23_endpoints_routes_sotw"
   ],
   "note": "the last sentence is a defect (C23_rejected_clusters_refuted, C23_rejected_name_table_refuted)"
  },
  {
   "property": "C24",
   "status": "proved",
   "theorems": [
    "C24_endpoint_subscription",
    "C24_route_subscription",
    "C24_request_iff_changed",
    "C24_last_reference_refuted",
    "C24_repeated_request_refuted",
    "C24_connect_requests",
    "C24_route_name_exact",
    "C24_resubscribe_request",
    "C24_route_request_iff_changed"
   ],
   "note": "the last clause is a defect (C24_last_reference_refuted, C24_repeated_request_refuted)"
  },
  {
   "property": "C25",
   "status": "proved",
   "theorems": [
    "C25_ip_literal",
    "C25_resolved_iff",
    "C25_not_found_iff",
    "C25_addresses"
   ],
   "note": "addresses that do not parse are dropped (C25_addresses)"
  },
  {
   "property": "C26",
   "status": "proved",
   "theorems": [
    "C26_route_match_exact",
    "C26_selected_iff",
    "C26_absent_or_ambiguous",
    "C26_order_independent"
   ],
   "note": "several addresses of one host are tried in their order"
  },
  {
   "property": "C27",
   "status": "proved",
   "theorems": [
    "C27_cancel_deadlock_refuted",
    "C27_get_deadlock_refuted",
    "C27_drain_deadlock_refuted",
    "C27_stale_watch_refuted",
    "C27_engine_waits_only_for_full_channel",
    "C27_watch_unblocks",
    "C27_latest_value",
    "C27_watch_ends_with_reason",
    "C27_refresh_stores_current",
    "C27_blocked_iff"
   ],
   "note": "defects, each reachable and permanent: cancel vs refresh deadlock, get vs refresh deadlock, drain race in sendLatest, stale first watch after a second registration on the same input (refuted theorems); C27_blocked_iff says exactly when the refresher is blocked for good"
  },
  {
   "property": "C28",
   "status": "proved",
   "theorems": [
    "C28_random_member",
    "C28_least_request",
    "C28_choice_count_refuted",
    "C28_choice_zero_refuted",
    "C28_round_robin_member",
    "C28_rational_least",
    "C28_rational_each_once",
    "C28_rational_cycles",
    "C28_rational_total",
    "C28_rational_dries_up",
    "C28_round_robin_none_refuted",
    "C28_client_eligible",
    "C28_client_always",
    "C28_no_healthy_refuted",
    "C28_cluster_member",
    "C28_rational_cluster_selected",
    "C28_least_request_first_draw",
    "C28_least_request_every_endpoint",
    "C28_plain_least_request_iff",
    "C28_round_robin_least",
    "C28_round_robin_total",
    "C28_round_robin_dries_up_refuted",
    "C28_round_robin_each_once",
    "C28_round_robin_cycles",
    "C28_equal_loads",
    "C28_equal_endpoints_cycle",
    "C28_equal_endpoints_fail_refuted",
    "C28_equal_endpoints_numbers",
    "C28_cluster_selected"
   ],
   "note": "round robin and cluster choice are proved in IEEE binary64 (go_float); these theorems use the standard library's axioms of Reals (see DESIGN.md). The C28_rational_ theorems are the same facts in exact arithmetic, closed. Defects: rounded percentages below 100 dry up (3 equal endpoints), choice count above the list length, no healthy endpoint"
  },
  {
   "property": "C29",
   "status": "proved",
   "theorems": [
    "C29_balanced",
    "C29_all_closed",
    "C29_endpoint_readded_refuted",
    "C29_unknown_when_opened_refuted",
    "C29_shared_wrapper_refuted"
   ],
   "note": "the drift is a defect (C29_endpoint_readded_refuted, C29_unknown_when_opened_refuted, C29_shared_wrapper_refuted)"
  },
  {
   "property": "C30",
   "status": "proved",
   "theorems": [
    "C30_capacity",
    "C30_exclusive",
    "C30_double_close_refuted",
    "C30_timer_spares_held",
    "C30_timer_race_refuted",
    "C30_closed_handed_out_refuted",
    "C30_no_leak",
    "C30_idle_is_open"
   ],
   "note": "the last sentence lists defects with witness schedules (C30_double_close_refuted, C30_timer_race_refuted, C30_closed_handed_out_refuted)"
  },
  {
   "property": "C31",
   "status": "proved",
   "theorems": [
    "C31_purge_deadlock_refuted",
    "C31_holder_progress"
   ],
   "note": "the last clause is a deadlock (C31_purge_deadlock_refuted)"
  },
  {
   "property": "C32",
   "status": "proved",
   "theorems": [
    "C32_count",
    "C32_never_replaced",
    "C32_add",
    "C32_removed",
    "C32_absent_until_added",
    "C32_close",
    "C32_close_error_refuted",
    "C32_cleanup_never_starts_refuted",
    "C32_cleanup_removes_live_refuted"
   ],
   "note": "the last sentence lists defects (C32_close_error_refuted, C32_cleanup_never_starts_refuted, C32_cleanup_removes_live_refuted)"
  },
  {
   "property": "C33",
   "status": "proved",
   "theorems": [
    "C33_no_double_hand_out",
    "C33_availability",
    "C33_last_port_refuted",
    "C33_port_zero_refuted",
    "C33_double_close_two_owners_refuted"
   ],
   "note": "the exceptions are defects (C33_last_port_refuted, C33_port_zero_refuted, C33_double_close_two_owners_refuted)"
  },
  {
   "property": "C34",
   "status": "proved",
   "theorems": [
    "C34_close_returns_ports",
    "C34_same_name_refuted",
    "C34_failed_listener_keeps_port",
    "C34_close_race_refuted"
   ],
   "note": "the last clause is a defect (C34_same_name_refuted, C34_close_race_refuted, C34_failed_listener_keeps_port)"
  },
  {
   "property": "C35",
   "status": "proved",
   "theorems": [
    "C35_authenticated",
    "C35_k8s_authenticated",
    "C35_rejection_without_error_refuted",
    "C35_two_control_streams_refuted",
    "C35_single",
    "C35_refusal_closes_session"
   ],
   "note": "an authenticator that rejects without error is ignored (C35_rejection_without_error_refuted), overlapping requests establish two (C35_two_control_streams_refuted)"
  },
  {
   "property": "C36",
   "status": "proved",
   "theorems": [
    "C36_hand_over",
    "C36_stream_once",
    "C36_rejected",
    "C36_accepted_not_delivered_refuted"
   ],
   "note": "for all schedules, identifiers assumed fresh; additionally an accepted stream may never be delivered (C36_accepted_not_delivered_refuted)"
  },
  {
   "property": "C37",
   "status": "proved",
   "theorems": [
    "C37_open_answer",
    "C37_tcp_rejection_lost_refuted",
    "C37_control_rejection",
    "C37_empty_error_refuted"
   ],
   "note": "the last clause and empty error texts are defects (C37_tcp_rejection_lost_refuted, C37_empty_error_refuted)"
  },
  {
   "property": "C38",
   "status": "proved",
   "theorems": [
    "C38_mode_decision",
    "C38_bytes_preserved",
    "C38_short_stream_refuted"
   ],
   "note": "waiting for three bytes blocks protocols in which the server speaks first (C38_short_stream_refuted)"
  },
  {
   "property": "C39",
   "status": "proved",
   "theorems": [
    "C39_delivered_once",
    "C39_duplicate_rejected",
    "C39_closed_for_good",
    "C39_close_panic_refuted",
    "C39_double_close_panic_refuted",
    "C39_custom_id_survives_close_refuted",
    "C39_buffered_connection_lost_refuted"
   ],
   "note": "the last sentence lists defects (C39_close_panic_refuted, C39_double_close_panic_refuted, C39_custom_id_survives_close_refuted, C39_buffered_connection_lost_refuted)"
  },
  {
   "property": "C40",
   "status": "proved",
   "theorems": [
    "C40_first_operation",
    "C40_reset",
    "C40_not_first_byte_refuted",
    "C40_close_order",
    "C40_close_errors",
    "C40_wrapper_twice_refuted"
   ],
   "note": "'first non-empty read' and 'hooks run once' are refuted (C40_not_first_byte_refuted, C40_wrapper_twice_refuted)"
  },
  {
   "property": "C41",
   "status": "proved",
   "theorems": [
    "C41_match_iff_relation",
    "C41_new_total",
    "C41_xds_same",
    "C41_regex_whole",
    "C41_parse",
    "C41_string_roundtrip_refuted",
    "C41_regex_ignore_case_refuted"
   ],
   "note": "regular expressions are relative to the library's contract; the last sentence lists defects (C41_string_roundtrip_refuted, C41_regex_ignore_case_refuted)"
  },
  {
   "property": "C42",
   "status": "proved",
   "theorems": [
    "C42_accepted_iff",
    "C42_reported_leaf",
    "C42_monotone",
    "C42_empty_chain_panics_refuted",
    "C42_no_roots_rejects",
    "C42_peer",
    "C42_context_peer",
    "C42_context_sans",
    "C42_context_sans_partly_valid",
    "C42_invalid_san_dropped_refuted",
    "C42_reconversion",
    "C42_message_grows_refuted",
    "C42_fail_open_refuted"
   ],
   "note": "relative to x509's contract; the last sentence lists defects (C42_empty_chain_panics_refuted, C42_invalid_san_dropped_refuted, C42_fail_open_refuted, C42_message_grows_refuted)"
  },
  {
   "property": "C43",
   "status": "proved",
   "theorems": [
    "C43_get_set",
    "C43_get_set_slice",
    "C43_frame",
    "C43_get_set_map",
    "C43_get_escaped",
    "C43_scalar_prefix_refuted",
    "C43_escape_refuted",
    "C43_slice_over_scalar_refuted",
    "C43_negative_index_panics_refuted"
   ],
   "note": "the last sentence lists defects (C43_scalar_prefix_refuted, C43_escape_refuted, C43_slice_over_scalar_refuted, C43_negative_index_panics_refuted)"
  },
  {
   "property": "C44",
   "status": "proved",
   "theorems": [
    "C44_read_prefix",
    "C44_eof_then_all_delivered",
    "C44_paused_not_released",
    "C44_eof_with_data_left_refuted",
    "C44_eof_overrides_pause_refuted",
    "C44_data_with_error_lost_refuted",
    "C44_write_prefix",
    "C44_write_flushes",
    "C44_write_paused",
    "C44_write_success",
    "C44_write_errors",
    "C44_write_error_hole_refuted",
    "C44_close_drops_paused_refuted"
   ],
   "note": "the last sentence lists defects (C44_eof_with_data_left_refuted, C44_eof_overrides_pause_refuted, C44_data_with_error_lost_refuted, C44_write_error_hole_refuted, C44_close_drops_paused_refuted)"
  },
  {
   "property": "C45",
   "status": "proved",
   "theorems": [
    "C45_decodes",
    "C45_injective",
    "C45_deterministic"
   ],
   "note": "round trip through an independent reader of the ABI layout, injectivity and order independence for every map whose sizes fit 32 bits"
  },
  {
   "property": "C46",
   "status": "proved",
   "theorems": [
    "C46_borrowed_count",
    "C46_borrowed_count_exact",
    "C46_round_robin",
    "C46_ensure",
    "C46_add_positive",
    "C46_default_no_instance_refuted",
    "C46_release_breaks_round_robin_refuted",
    "C46_spurious_release_refuted",
    "C46_concurrent_grow_refuted",
    "C46_concurrent_shrink_panic_refuted",
    "C46_finds_alive",
    "C46_borrowed_per_instance"
   ],
   "note": "the last clauses are defects (C46_default_no_instance_refuted, C46_release_breaks_round_robin_refuted, C46_spurious_release_refuted, C46_concurrent_*_refuted)"
  },
  {
   "property": "C47",
   "status": "proved",
   "theorems": [
    "C47_ids_distinct",
    "C47_value_is_total",
    "C47_same_id",
    "C47_redefine_refuted",
    "C47_record_gauge_refuted",
    "C47_remove_then_define_refuted",
    "C47_kind_confusion_refuted",
    "C47_label_names_panic_refuted",
    "C47_unknown_type_refuted",
    "C47_first_definition",
    "C47_refused",
    "C47_unknown_id",
    "C47_removed_id"
   ],
   "note": "the exceptions are defects (C47_redefine_refuted, C47_record_gauge_refuted, C47_remove_then_define_refuted, C47_kind_confusion_refuted, C47_label_names_panic_refuted, C47_unknown_type_refuted)"
  },
  {
   "property": "C48",
   "status": "proved",
   "theorems": [
    "C48_others_terminate",
    "C48_delete_deadlocks_refuted"
   ],
   "note": "the second half is a defect (C48_delete_deadlocks_refuted)"
  },
  {
   "property": "C49",
   "status": "proved",
   "theorems": [
    "C49_refcount",
    "C49_users",
    "C49_acquire_twice",
    "C49_last_release",
    "C49_close",
    "C49_vm_never_dropped_refuted",
    "C49_failed_add_leaks_refuted",
    "C49_store"
   ],
   "note": "the last sentence lists defects (C49_vm_never_dropped_refuted, C49_failed_add_leaks_refuted)"
  },
  {
   "property": "C50",
   "status": "proved",
   "theorems": [
    "C50_data_order",
    "C50_later_not_called",
    "C50_body_complete",
    "C50_stream_balanced",
    "C50_new_stream_error_leaks_refuted",
    "C50_close_stops_early_refuted",
    "C50_body",
    "C50_leak_exact"
   ],
   "note": "the last sentence lists defects (C50_new_stream_error_leaks_refuted, C50_close_stops_early_refuted)"
  },
  {
   "property": "C51",
   "status": "proved",
   "theorems": [
    "C51_precedence",
    "C51_deterministic",
    "C51_nonempty",
    "C51_empty_label_refuted"
   ],
   "note": "a present but empty label wins over a later non-empty one (C51_empty_label_refuted)"
  },
  {
   "property": "C52",
   "status": "proved",
   "theorems": [
    "C52_roundtrip",
    "C52_injective",
    "C52_authenticated_for_group",
    "C52_service_account",
    "C52_no_audience_refuted"
   ],
   "note": "round trip, injectivity, and AuthenticateToken only returns a group for whose audience the API accepted the token; a token without NASP audience authenticates without a group (C52_no_audience_refuted, a limit of the claim's premise, not of the round trip)"
  },
  {
   "property": "C53",
   "status": "proved",
   "theorems": [
    "C53_roundtrip",
    "C53_parse_total",
    "C53_injective",
    "C53_parse_panics_refuted"
   ],
   "note": "round trip iff the service name has no dot (any namespace); the parser panics on strings without a dot"
  },
  {
   "property": "C54",
   "status": "proved",
   "theorems": [
    "C54_renewed_iff",
    "C54_valid_after_check",
    "C54_no_churn",
    "C54_not_yet_valid_refuted",
    "C54_failed_renewal_panics_refuted",
    "C54_webhooks_get_ca",
    "C54_torn_write_refuted"
   ],
   "note": "relative to a crypto contract; the last sentence lists defects (C54_not_yet_valid_refuted, C54_failed_renewal_panics_refuted, C54_torn_write_refuted)"
  },
  {
   "property": "C55",
   "status": "proved",
   "theorems": [
    "C55_node_id_injective",
    "C55_node_id_parts",
    "C55_dotted_namespace_refuted",
    "C55_format"
   ],
   "note": "with dotted namespaces two workloads can share an id (C55_dotted_namespace_refuted)"
  },
  {
   "property": "C56",
   "status": "proved",
   "theorems": [
    "C56_cache",
    "C56_not_expired",
    "C56_same_until_expiry",
    "C56_endpoint_san_refuted"
   ],
   "note": "for every history of requests, hosts, times and CA answers; the endpoint SAN derivation bug is shown separately (C56_endpoint_san_refuted)"
  },
  {
   "property": "C57",
   "status": "proved",
   "theorems": [
    "C57_nonoverlapping",
    "C57_sequential",
    "C57_duplicate_serial_refuted"
   ],
   "note": "the last clause is a defect (C57_duplicate_serial_refuted)"
  },
  {
   "property": "C58",
   "status": "proved",
   "theorems": [
    "C58_record_panic_refuted",
    "C58_batch_panic_refuted",
    "C58_messages_without_records_never_panic",
    "C58_requests_never_panic"
   ],
   "note": "the panics of records are defects (C58_record_panic_refuted, C58_batch_panic_refuted)"
  },
  {
   "property": "C59",
   "status": "proved",
   "theorems": [
    "C59_compressed_batch",
    "C59_lz4_zstd_refuted"
   ],
   "note": "the second half is a defect (C59_lz4_zstd_refuted); the decoder is run over the window at once; C86_records removes this for gzip when all fields are smaller than 16 KiB, C86_large_refuted shows the rest false"
  },
  {
   "property": "C60",
   "status": "proved",
   "theorems": [
    "C60_null_rejected",
    "C60_null_at_version_0_refuted",
    "C60_whole_messages"
   ],
   "note": "the last clause is a defect of the generated contexts (C60_null_at_version_0_refuted)"
  },
  {
   "property": "C61",
   "status": "proved",
   "theorems": [
    "C61_forgotten_listener",
    "C61_known_listener",
    "C61_open_listener_ok",
    "C61_closed_listener_panics_refuted"
   ],
   "note": "the second half is a defect (C61_closed_listener_panics_refuted)"
  },
  {
   "property": "C62",
   "status": "proved",
   "theorems": [
    "C62_spiffe_injective",
    "C62_cluster_name_injective",
    "C62_trust_domain_ignored_refuted",
    "C62_format"
   ],
   "note": "the last sentence is a defect (C62_trust_domain_ignored_refuted)"
  },
  {
   "property": "C63",
   "status": "proved",
   "theorems": [
    "C63_sans",
    "C63_uri_dropped_refuted",
    "C63_type",
    "C63_every_name"
   ],
   "note": "dropping all URIs but the last is a defect (C63_uri_dropped_refuted)"
  },
  {
   "property": "C64",
   "status": "proved",
   "theorems": [
    "C64_listener_iff",
    "C64_target_sound",
    "C64_target_iff",
    "C64_weighted",
    "C64_first_chain_refuted",
    "C64_statistics_refuted",
    "C64_order_independent",
    "C64_counts_unknown"
   ],
   "note": "Envoy's 'first chain' is refuted (C64_first_chain_refuted), as is 'only the chosen cluster's statistics change' (C64_statistics_refuted)"
  },
  {
   "property": "C65",
   "status": "proved",
   "theorems": [
    "C65_chain_selected_iff",
    "C65_properties",
    "C65_found_iff",
    "C65_order_independent",
    "C65_strict",
    "C65_longest_prefix_refuted",
    "C65_require_fail_open_refuted",
    "C65_bad_range_refuted"
   ],
   "note": "the last sentence deviates from Envoy (C65_longest_prefix_refuted, C65_require_fail_open_refuted), and one bad range disables all listeners (C65_bad_range_refuted)"
  },
  {
   "property": "C66",
   "status": "proved",
   "theorems": [
    "C66_sockets_sound",
    "C66_sockets_exact",
    "C66_istio",
    "C66_extra_metadata_refuted",
    "C66_crash_refuted",
    "C66_map_order_refuted",
    "C66_bad_metadata_refuted",
    "C66_no_validation_refuted",
    "C66_verifier",
    "C66_properties"
   ],
   "note": "the last sentence lists defects (C66_extra_metadata_refuted, C66_crash_refuted, C66_map_order_refuted, C66_bad_metadata_refuted, C66_no_validation_refuted)"
  },
  {
   "property": "C67",
   "status": "proved",
   "theorems": [
    "C67_endpoint",
    "C67_settings",
    "C67_settings_origin",
    "C67_discovery_error_refuted",
    "C67_stale_settings_refuted",
    "C67_first_context_refuted",
    "C67_closed_pool_refuted"
   ],
   "note": "refuted beyond that: changed settings are ignored (C67_stale_settings_refuted), a discovery error means plain text (C67_discovery_error_refuted), the first dial's cancelled context fails all later ones (C67_first_context_refuted), a closed pool fails the dial (C67_closed_pool_refuted)"
  },
  {
   "property": "C68",
   "status": "proved",
   "theorems": [
    "C68_endpoint",
    "C68_always_verified",
    "C68_serial",
    "C68_concurrent_refuted",
    "C68_dialer_replaced_refuted",
    "C68_plain_wrapped_refuted",
    "C68_stale_settings_refuted",
    "C68_discovery_error_refuted"
   ],
   "note": "refuted beyond that: overlapping requests swap identity, lose or gain mesh TLS (C68_concurrent_refuted, C68_dialer_replaced_refuted, C68_plain_wrapped_refuted), kept connections have old settings (C68_stale_settings_refuted), a discovery error means plain text (C68_discovery_error_refuted)"
  },
  {
   "property": "C69",
   "status": "proved",
   "theorems": [
    "C69_enforced",
    "C69_strict_no_plaintext",
    "C69_reported",
    "C69_second_server_refuted",
    "C69_lost_update_refuted",
    "C69_dead_entry_refuted",
    "C69_dead_entry_reached",
    "C69_open_start_refuted"
   ],
   "note": "refuted beyond that: a second server on the address never enforces anything (C69_second_server_refuted), responses before the listener exists are lost (C69_lost_update_refuted), a failed or ended watch is never renewed (C69_dead_entry_refuted), the start is open (C69_open_start_refuted)"
  },
  {
   "property": "C71",
   "status": "proved",
   "theorems": [
    "C71_subset_complete",
    "C71_subset_exact",
    "C71_collect",
    "C71_reconcile_exact",
    "C71_endpoints",
    "C71_api_error_deletes_refuted",
    "C71_mixed_sessions_refuted",
    "C71_second_service_port_refuted",
    "C71_unnamed_port_refuted",
    "C71_order_refuted"
   ],
   "note": "the last sentence lists defects (C71_api_error_deletes_refuted, C71_mixed_sessions_refuted, C71_second_service_port_refuted, C71_unnamed_port_refuted, C71_order_refuted)"
  },
  {
   "property": "C70",
   "status": "proved",
   "theorems": [
    "C70_filtered_streams",
    "C70_transparent",
    "C70_in_flight_queue",
    "C70_failed_passes_all",
    "C70_unspecified_passes_all",
    "C70_short_tail_disables",
    "C70_unredacted_refuted",
    "C70_bytes_lost_refuted",
    "C70_error_drops_earlier_refuted",
    "C70_end_of_stream_drops_refuted",
    "C70_response_swallowed_refuted",
    "C70_unanswered_request_refuted",
    "C70_bad_size_panics_refuted",
    "C70_never_returns_refuted",
    "C70_hang_exact",
    "C70_requests_return",
    "C70_new_connection",
    "C70_failure_forgets_requests",
    "C70_answer_lost_after_failure_refuted"
   ],
   "note": "the last sentence is a defect (C70_short_tail_disables, C70_unredacted_refuted); also refuted: held bytes lost, error drops earlier messages, end of stream drops, unsolicited response swallowed, unanswered request shifts pairing, negative size panics or hangs"
  },
  {
   "property": "C72",
   "status": "proved",
   "theorems": [
    "C72_secret_name",
    "C72_secret_injective",
    "C72_others_untouched",
    "C72_failure_changes_nothing",
    "C72_success",
    "C72_audience_is_group",
    "C72_success_lifetime",
    "C72_never_expires",
    "C72_no_churn",
    "C72_first_token",
    "C72_label_removed",
    "C72_trigger_exact",
    "C72_garbage_never_repaired_refuted",
    "C72_no_expiry_panics_refuted",
    "C72_new_service_account_ignored_refuted",
    "C72_short_lifetime_churns_refuted",
    "C72_foreign_secret_refuted",
    "C72_deleted_group_fails_refuted"
   ],
   "note": "defects outside the statement: unparseable token never repaired, token without exp panics, changed service account ignored until renewal, a 10-minute lifetime is replaced at every reconciliation, a foreign secret of the same name is overwritten and deleted, a deleted group errors for ever (the C72_*_refuted theorems)"
  },
  {
   "property": "C73",
   "status": "proved",
   "theorems": [
    "C73_ok_iff",
    "C73_only_for_token_audience",
    "C73_ca_token_for_caller",
    "C73_environment",
    "C73_missing_or_malformed_header",
    "C73_rejected_token",
    "C73_client_header",
    "C73_end_to_end",
    "C73_start",
    "C73_start_total",
    "C73_registry_cluster_id_lost_refuted",
    "C73_registry_first_local",
    "C73_scheme_not_checked_refuted",
    "C73_membership_not_checked_refuted",
    "C73_non_service_account_default_refuted"
   ],
   "note": "proved as an equivalence; defects: cluster ID from the registry is dropped, the scheme is not checked, the caller's service account is not compared with the group's, a non-service-account user gets 'default' (the C73_*_refuted theorems)"
  },
  {
   "property": "C74",
   "status": "proved",
   "theorems": [
    "C74_owner_deployment",
    "C74_owner_cronjob",
    "C74_owner_other",
    "C74_owner_none",
    "C74_total",
    "C74_user_parts_kept",
    "C74_labels_kept",
    "C74_labels_set",
    "C74_annotations",
    "C74_environment_read_back",
    "C74_injected_env_wins",
    "C74_override",
    "C74_override_trust_domain_refuted",
    "C74_not_idempotent_refuted",
    "C74_deploymentconfig_refuted",
    "C74_hash_suffix_refuted",
    "C74_revision_label_overwritten_refuted"
   ],
   "note": "defects: not idempotent (duplicate ports, mounts, volumes on reinvocation), deploymentconfig label deleted and owner misreported, ReplicaSet name that only ends in the hash, revision and network labels overwritten, Override forgets trust domain, TTL and enabled (the C74_*_refuted theorems)"
  },
  {
   "property": "C75",
   "status": "proved",
   "theorems": [
    "C75_wrapped_is_native",
    "C75_wrapped_client_is_native",
    "C75_server_static",
    "C75_server_callback",
    "C75_server_both",
    "C75_client_same",
    "C75_client_override",
    "C75_idempotent",
    "C75_records_presented",
    "C75_client_records_presented",
    "C75_recording_transparent",
    "C75_server_panics_iff",
    "C75_client_panics_iff",
    "C75_client_crash_refuted",
    "C75_server_crash_refuted",
    "C75_override_refuted",
    "C75_wildcard",
    "C75_no_tickets"
   ],
   "note": "the exceptions in the statement are defects with theorems: C75_client_crash_refuted (a server that asks for a client certificate the client's does not satisfy crashes the client), C75_server_crash_refuted, C75_override_refuted"
  },
  {
   "property": "C76",
   "status": "proved",
   "theorems": [
    "C76_detected_iff",
    "C76_untouched",
    "C76_only_matches_change",
    "C76_matches_masked",
    "C76_order_refuted",
    "C76_kinds",
    "C76_detects_kinds"
   ],
   "note": "The regular expression engine is modelled at byte level for the constructs the patterns use."
  },
  {
   "property": "C77",
   "status": "proved",
   "theorems": [
    "C77_round_trip",
    "C77_injection_refuted",
    "C77_empty_code_refuted",
    "C77_newline_refuted",
    "C77_envoy_names_refuted",
    "C77_when",
    "C77_cluster",
    "C77_cluster_service"
   ],
   "note": ""
  },
  {
   "property": "C78",
   "status": "proved",
   "theorems": [
    "C78_passthrough",
    "C78_passthrough_transparent",
    "C78_defaults",
    "C78_defaults_idempotent",
    "C78_created",
    "C78_errors",
    "C78_products",
    "C78_client_filters_ignored_refuted",
    "C78_without_tls_panics_refuted",
    "C78_auto",
    "C78_heimdall",
    "C78_metadata",
    "C78_labels",
    "C78_handler_node",
    "C78_path_label",
    "C78_job_name",
    "C78_job_name_injective",
    "C78_job_name_collides_refuted",
    "C78_discovery_client_exists",
    "C78_discovery_client_shared",
    "C78_discovery_client_sequential",
    "C78_discovery_client_race_refuted",
    "C78_secret_ttl",
    "C78_discovery_kept",
    "C78_products_keep_client",
    "C78_path_label_safe",
    "C78_path_label_values",
    "C78_default_filters"
   ],
   "note": ""
  },
  {
   "property": "C79",
   "status": "proved",
   "theorems": [
    "C79_called_iff",
    "C79_local_reply",
    "C79_order",
    "C79_failure_answers_200_refuted",
    "C79_no_stream_answers_200_refuted",
    "C79_pause_skips_filters_refuted",
    "C79_sent_iff",
    "C79_response_iff",
    "C79_context_and_length_refuted",
    "C79_left_open_refuted",
    "C79_transparent",
    "C79_first_status_wins_refuted",
    "C79_transport_transparent",
    "C79_length_refuted",
    "C79_outbound_reply_refuted",
    "C79_add",
    "C79_headers",
    "C79_headers_outbound"
   ],
   "note": ""
  },
  {
   "property": "C80",
   "status": "proved",
   "theorems": [
    "C80_numbers",
    "C80_request",
    "C80_request_id_refuted",
    "C80_request_size_refuted",
    "C80_header_case_refuted",
    "C80_connection",
    "C80_new_stream",
    "C80_inbound",
    "C80_upstream_inbound_refuted",
    "C80_no_connection",
    "C80_outbound",
    "C80_forwarded",
    "C80_spoofed_refuted",
    "C80_response",
    "C80_flags_and_status_refuted",
    "C80_set_one",
    "C80_set_path_refuted",
    "C80_set_dotted",
    "C80_group_overwritten_refuted",
    "C80_addresses",
    "C80_no_address",
    "C80_ports",
    "C80_outbound_connection",
    "C80_no_response_connection",
    "C80_size",
    "C80_header",
    "C80_first_name"
   ],
   "note": ""
  },
  {
   "property": "C81",
   "status": "proved",
   "theorems": [
    "C81_in_order",
    "C81_complete",
    "C81_closed_once",
    "C81_nothing_after_close",
    "C81_independent",
    "C81_returns",
    "C81_returns_only",
    "C81_never_closed_refuted",
    "C81_buffer_refuted",
    "C81_not_told_refuted",
    "C81_cut_refuted"
   ],
   "note": ""
  },
  {
   "property": "C82",
   "status": "proved",
   "theorems": [
    "C82_outermost_state",
    "C82_no_state",
    "C82_which_tls",
    "C82_one_tls",
    "C82_inner_tls_refuted",
    "C82_wrap",
    "C82_readers_safe",
    "C82_final",
    "C82_nothing_else",
    "C82_ends",
    "C82_stuck",
    "C82_progress",
    "C82_deadlock_refuted",
    "C82_stale_refuted",
    "C82_race_refuted"
   ],
   "note": ""
  },
  {
   "property": "C83",
   "status": "proved",
   "theorems": [
    "C83_metadata",
    "C83_initial",
    "C83_sent",
    "C83_filters",
    "C83_outcome",
    "C83_response_seen",
    "C83_url_refuted",
    "C83_panic_refuted",
    "C83_deny_refuted",
    "C83_balanced",
    "C83_status",
    "C83_dial",
    "C83_active",
    "C83_one_connection",
    "C83_state_refuted"
   ],
   "note": ""
  },
  {
   "property": "C84",
   "status": "proved",
   "theorems": [
    "C84_key",
    "C84_collect",
    "C84_select",
    "C84_ready_reported",
    "C84_starved_refuted",
    "C84_wakeup",
    "C84_reads",
    "C84_read_result",
    "C84_eof_final",
    "C84_eof_loss_refuted",
    "C84_end_silent_refuted",
    "C84_writes",
    "C84_accepts",
    "C84_close_final",
    "C84_close_loss_refuted",
    "C84_twice_refuted",
    "C84_spin_refuted",
    "C84_no_panic",
    "C84_panic_refuted",
    "C84_accept",
    "C84_dial",
    "C84_dial_refuted",
    "C84_checks"
   ],
   "note": "all parts proved, the exceptions as counterexamples (_refuted)"
  },
  {
   "property": "C85",
   "status": "proved",
   "theorems": [
    "C85_messages",
    "C85_handled",
    "C85_registry",
    "C85_stale_refuted",
    "C85_silent_closed",
    "C85_closes_once",
    "C85_alive_kept",
    "C85_alive_kept_run",
    "C85_short_refuted",
    "C85_off",
    "C85_negative",
    "C85_checks",
    "C85_close_stops"
   ],
   "note": ""
  },
  {
   "property": "C86",
   "status": "proved",
   "theorems": [
    "C86_in_order",
    "C86_end",
    "C86_damage",
    "C86_damage_told",
    "C86_full",
    "C86_short_refuted",
    "C86_records",
    "C86_large_refuted",
    "C86_snappy"
   ],
   "note": "the second half is a defect, shown by C86_short_refuted and C86_large_refuted"
  },
  {
   "property": "C87",
   "status": "proved",
   "theorems": [
    "C87_counts_handles",
    "C87_shared",
    "C87_failed",
    "C87_last_close",
    "C87_close_other",
    "C87_context_cancelled",
    "C87_id_concat",
    "C87_other_pair_refuted",
    "C87_concurrent_first_refuted",
    "C87_concurrent_last_refuted",
    "C87_delivered",
    "C87_body_cut",
    "C87_body_whole",
    "C87_status_kept",
    "C87_body_refuted",
    "C87_headers_refuted",
    "C87_no_double_free",
    "C87_no_leak",
    "C87_blocks"
   ],
   "note": "the context, the shared id and the two races are defects, shown by C87_context_cancelled and the _refuted theorems"
  },
  {
   "property": "C88",
   "status": "proved",
   "theorems": [
    "C88_config",
    "C88_panic",
    "C88_ips",
    "C88_order",
    "C88_is_ipv4",
    "C88_ipv4",
    "C88_ipv6",
    "C88_root_revision_refuted",
    "C88_root_found_refuted",
    "C88_no_panic_refuted",
    "C88_endpoint_refuted",
    "C88_local",
    "C88_local_value"
   ],
   "note": "the panic, the root certificate of another revision or none, and IPv6 endpoints are defects, shown by C88_panic and the _refuted theorems"
  },
  {
   "property": "C89",
   "status": "proved",
   "theorems": [
    "C89_handshake",
    "C89_server_name",
    "C89_new",
    "C89_chain",
    "C89_panic",
    "C89_one_connection",
    "C89_never_reconnects",
    "C89_mtls_stays",
    "C89_mtls_set",
    "C89_reconnects",
    "C89_closed_for_good",
    "C89_recovers_refuted",
    "C89_token_only",
    "C89_get",
    "C89_never_closed",
    "C89_closed_refuted"
   ],
   "note": "the connection closed for good and the leak are defects, shown by C89_recovers_refuted and C89_closed_refuted"
  },
  {
   "property": "C90",
   "status": "proved",
   "theorems": [
    "C90_peer",
    "C90_label_value",
    "C90_peer_none",
    "C90_self",
    "C90_self_none",
    "C90_short_panics",
    "C90_wild_panics",
    "C90_any_description_refuted",
    "C90_unlabelled",
    "C90_sample",
    "C90_example"
   ],
   "note": "that an unreadable description panics is a defect, shown by C90_short_panics, C90_wild_panics and C90_any_description_refuted"
  },
  {
   "property": "C91",
   "status": "proved",
   "theorems": [
    "C91_exclusive",
    "C91_stopped",
    "C91_done_returns_now",
    "C91_done_stuck",
    "C91_done_in_own_tick",
    "C91_done_while_firing",
    "C91_second_done",
    "C91_replaced",
    "C91_crash",
    "C91_bad_period",
    "C91_good_period",
    "C91_result",
    "C91_example",
    "C91_done_stops_refuted",
    "C91_two_periods_refuted",
    "C91_close_returns_refuted",
    "C91_zero_period_refuted"
   ],
   "note": "the deadlocks, the tickers that go on and the end of the process are defects, shown by C91_done_stuck, C91_second_done, C91_replaced, C91_bad_period and the _refuted theorems"
  },
  {
   "property": "C92",
   "status": "proved",
   "theorems": [
    "C92_parse",
    "C92_one_reading",
    "C92_requested",
    "C92_plain",
    "C92_ipv6_refuted",
    "C92_port",
    "C92_no_port",
    "C92_port_error_refuted",
    "C92_exposes",
    "C92_nothing_refuted",
    "C92_loop",
    "C92_after_stop",
    "C92_example"
   ],
   "note": "the three refuted claims are defects, shown by C92_ipv6_refuted, C92_port_error_refuted and C92_nothing_refuted"
  },
  {
   "property": "C93",
   "status": "proved",
   "theorems": [
    "C93_load",
    "C93_names",
    "C93_url_webhook_refuted",
    "C93_writes",
    "C93_certified",
    "C93_not_retried_refuted",
    "C93_deleted",
    "C93_recreated_refuted",
    "C93_reverts_refuted",
    "C93_quiet",
    "C93_crash_iff",
    "C93_stop_refuted"
   ],
   "note": "the five refuted claims are defects, shown by C93_url_webhook_refuted, C93_not_retried_refuted, C93_reverts_refuted, C93_recreated_refuted and C93_stop_refuted; whether a certificate is renewed is C54"
  },
  {
   "property": "C94",
   "status": "proved",
   "theorems": [
    "C94_named",
    "C94_same",
    "C94_mixed_up_refuted",
    "C94_numbers",
    "C94_distinct",
    "C94_wraps_refuted",
    "C94_number_shared_refuted",
    "C94_sees",
    "C94_set",
    "C94_own_config",
    "C94_config_refuted",
    "C94_race_refuted",
    "C94_half_made_refuted",
    "C94_config_size",
    "C94_alone"
   ],
   "note": "the refuted claims are defects, shown by C94_mixed_up_refuted, C94_wraps_refuted, C94_number_shared_refuted, C94_config_refuted, C94_race_refuted and C94_half_made_refuted"
  },
  {
   "property": "C95",
   "status": "proved",
   "theorems": [
    "C95_int16",
    "C95_range",
    "C95_range_example",
    "C95_range_checked_refuted",
    "C95_generated",
    "C95_generated_versions",
    "C95_fields",
    "C95_nullable_version_0",
    "C95_nullable_as_written_refuted",
    "C95_fields_all",
    "C95_default_bool",
    "C95_default_int",
    "C95_default_text",
    "C95_no_default",
    "C95_default_range"
   ],
   "note": "the refuted claims are defects, shown by C95_range_checked_refuted and C95_nullable_as_written_refuted"
  },
  {
   "property": "C96",
   "status": "proved",
   "theorems": [
    "C96_clusters_update",
    "C96_shares",
    "C96_update_resets",
    "C96_reset_refuted",
    "C96_other_route_refuted",
    "C96_concurrent_refuted",
    "C96_unknown_refuted",
    "C96_last_entry_refuted"
   ],
   "note": "the refuted claims are defects, shown by C96_reset_refuted, C96_other_route_refuted, C96_concurrent_refuted, C96_unknown_refuted and C96_last_entry_refuted"
  },
  {
   "property": "C97",
   "status": "proved",
   "theorems": [
    "C97_delivered",
    "C97_same",
    "C97_kept",
    "C97_at_once",
    "C97_sequence",
    "C97_status_refuted",
    "C97_bodies_closed",
    "C97_files_closed_refuted",
    "C97_race_refuted",
    "C97_shared_refuted",
    "C97_bytes",
    "C97_nil_bytes_refuted",
    "C97_unnamed_refuted"
   ],
   "note": "the refuted claims are defects, shown by C97_status_refuted, C97_files_closed_refuted, C97_race_refuted, C97_shared_refuted, C97_nil_bytes_refuted and C97_unnamed_refuted"
  },
  {
   "property": "C98",
   "status": "proved",
   "theorems": [
    "C98_own_metrics",
    "C98_isolated",
    "C98_replaces",
    "C98_no_push_after",
    "C98_deleted",
    "C98_calm_stop",
    "C98_late_push_refuted",
    "C98_gone_refuted",
    "C98_shared_key_refuted",
    "C98_keys",
    "C98_same_node_refuted",
    "C98_interval",
    "C98_independent",
    "C98_cancelled_only",
    "C98_independent_ex"
   ],
   "note": "the refuted claims are defects, shown by C98_late_push_refuted, C98_gone_refuted, C98_shared_key_refuted and C98_same_node_refuted"
  },
  {
   "property": "C99",
   "status": "proved",
   "theorems": [
    "C99_stops_only",
    "C99_next_attempt",
    "C99_canceled_final",
    "C99_stopped_final",
    "C99_queue",
    "C99_deadlock_refuted",
    "C99_deadlock_refuted_reached",
    "C99_deaf_refuted",
    "C99_deaf_refuted_reached",
    "C99_canceled_status_refuted",
    "C99_ends",
    "C99_ends_ex",
    "C99_answered",
    "C99_first_requests",
    "C99_done_stops",
    "C99_healthy",
    "C99_healthy_rests",
    "C99_healthy_ex"
   ],
   "note": "the refuted claims are defects, shown by C99_deadlock_refuted, C99_deaf_refuted (with their _reached theorems) and C99_canceled_status_refuted"
  },
  {
   "property": "C100",
   "status": "proved",
   "theorems": [
    "C100_run_result",
    "C100_failed_run_refuted",
    "C100_failed_run_refuted_ex",
    "C100_run_starts",
    "C100_one_way",
    "C100_port_owner",
    "C100_available",
    "C100_released_refuted",
    "C100_stopped_refuted",
    "C100_second_refuted",
    "C100_second_refuted_ex",
    "C100_late_refuted",
    "C100_hangs_refuted",
    "C100_virtual",
    "C100_labels_changed_refuted",
    "C100_tunnel_labels",
    "C100_labels_stable",
    "C100_metrics_listeners",
    "C100_metrics_listeners_ex",
    "C100_cancel"
   ],
   "note": "the refuted claims are defects, shown by the C100 theorems with the suffix _refuted"
  },
  {
   "property": "C101",
   "status": "proved",
   "theorems": [
    "C101_config_map",
    "C101_genuine",
    "C101_entry",
    "C101_published",
    "C101_published_ex",
    "C101_stale_refuted",
    "C101_stale_refuted_stays",
    "C101_missing_refuted",
    "C101_broken_refuted",
    "C101_topic_order",
    "C101_publish_only",
    "C101_exclusive",
    "C101_release_once",
    "C101_drains"
   ],
   "note": "the refuted claims are defects, shown by C101_stale_refuted, C101_stale_refuted_stays, C101_missing_refuted and C101_broken_refuted"
  },
  {
   "property": "C102",
   "status": "proved",
   "theorems": [
    "C102_same_as_without_a_lock",
    "C102_one_answer_each",
    "C102_blocked_only_after_a_panic",
    "C102_nil_map_reads",
    "C102_nil_map_write_locks_for_ever_refuted",
    "C102_reset_to_nil_then_write_refuted",
    "C102_panicking_get_stops_all_writes_refuted",
    "C102_panicking_get_is_reachable_refuted",
    "C102_concrete"
   ],
   "note": "the refuted claims are defects, shown by the theorems ending in _refuted; Clone, which reads without the lock, is not modelled"
  }
 ]
}