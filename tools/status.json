{
 "C01": [
  "proved",
  ""
 ],
 "C02": [
  "proved",
  "exact for 32-bit sizes; the exception is a defect of the size table (C02_int64_size_refuted)"
 ],
 "C03": [
  "proved",
  "iff-characterisation of accepted byte strings"
 ],
 "C04": [
  "proved",
  "floats as IEEE bit patterns"
 ],
 "C05": [
  "proved",
  "Write/InsertAt/Seek as stated; WriteAt additionally shown to truncate silently (C05_write_at_refuted-style theorem)"
 ],
 "C06": [
  "proved",
  "the refuted comparisons with bytes.Reader are stated as C06_runes_plain_refuted, C06_unread_rune_plain_refuted and C06_write_to_keeps_refuted"
 ],
 "C07": [
  "proved",
  "the text \"null\" received on the wire is decoded as null even for fields that are not nullable (C07_text_null_refuted)"
 ],
 "C08": [
  "proved",
  "decoding into a nil target as every generated Read does; reuse of a non-nil target shown to differ"
 ],
 "C09": [
  "proved",
  "generic in the item codec; struct items instantiated in C12"
 ],
 "C10": [
  "proved",
  "the exception is a defect (C10_empty_last_value_refuted)"
 ],
 "C19": [
  "proved",
  ""
 ],
 "C15": [
  "proved",
  "the exception is the defect of C02; because of it records of other producers with such a delta are rejected (C15_foreign_record_refuted)"
 ],
 "C16": [
  "proved",
  "for every admissible uncompressed batch below 2 GB with magic 2; size agreement partial (C02 gap); API-built batches have magic 0 and cannot be written (C16_api_batch_refuted)"
 ],
 "C17": [
  "proved",
  "leftover bytes are read as the next field, a defect (C17_partial_batch_refuted)"
 ],
 "C18": [
  "proved",
  "the all-zero record instead of an error is a defect (C18_truncated_record_refuted)"
 ],
 "C58": [
  "proved",
  "the panics of records are defects (C58_record_panic_refuted, C58_batch_panic_refuted)"
 ],
 "C59": [
  "proved",
  "the second half is a defect (C59_lz4_zstd_refuted); the decoder is run over the window at once; C86_records removes this for gzip when all fields are smaller than 16 KiB, C86_large_refuted shows the rest false"
 ],
 "C11": [
  "proved",
  "without the hypotheses it fails: compressed batches (C11_compressed_refuted), duplicate unknown tags (C11_duplicate_tags_refuted), timestamp gap (C11_size_refuted)"
 ],
 "C12": [
  "proved",
  "structs, requests and responses; Serialize at a version other than the header's is shown not to round trip"
 ],
 "C13": [
  "proved",
  "all messages including those with records, given that a decompressor does not return more unread bytes than it was given; a decode that stops at the end of the input inside an optional trailing section reads differently when bytes other than zeros follow (C13_end_of_input_refuted)"
 ],
 "C14": [
  "proved",
  "0 <= version < 32767; the documented ApiVersions fallback is refuted"
 ],
 "C60": [
  "proved",
  "the last clause is a defect of the generated contexts (C60_null_at_version_0_refuted)"
 ],
 "C20": [
  "proved",
  "the last two exceptions are refutations of 'every cached resource is subscribed' (C20_subscribed_refuted, C20_subscribed_reconnect_refuted)"
 ],
 "C21": [
  "proved",
  "keeping unmentioned endpoints and routes means deleted ones stay (C21_stale_endpoints_refuted)"
 ],
 "C22": [
  "proved",
  "the empty nonce of a state-of-the-world NACK is a defect (C22_nack_sotw_nonce_refuted)"
 ],
 "C23": [
  "proved",
  "the last sentence is a defect (C23_rejected_clusters_refuted, C23_rejected_name_table_refuted)"
 ],
 "C24": [
  "proved",
  "the last clause is a defect (C24_last_reference_refuted, C24_repeated_request_refuted)"
 ],
 "C25": [
  "proved",
  "addresses that do not parse are dropped (C25_addresses)"
 ],
 "C26": [
  "proved",
  "several addresses of one host are tried in their order"
 ],
 "C27": [
  "proved",
  "defects, each reachable and permanent: cancel vs refresh deadlock, get vs refresh deadlock, drain race in sendLatest, stale first watch after a second registration on the same input (refuted theorems); C27_blocked_iff says exactly when the refresher is blocked for good"
 ],
 "C28": [
  "proved",
  "round robin and cluster choice are proved in IEEE binary64 (go_float); these theorems use the standard library's axioms of Reals (see DESIGN.md). The C28_rational_ theorems are the same facts in exact arithmetic, closed. Defects: rounded percentages below 100 dry up (3 equal endpoints), choice count above the list length, no healthy endpoint"
 ],
 "C29": [
  "proved",
  "the drift is a defect (C29_endpoint_readded_refuted, C29_unknown_when_opened_refuted, C29_shared_wrapper_refuted)"
 ],
 "C30": [
  "proved",
  "the last sentence lists defects with witness schedules (C30_double_close_refuted, C30_timer_race_refuted, C30_closed_handed_out_refuted)"
 ],
 "C31": [
  "proved",
  "the last clause is a deadlock (C31_purge_deadlock_refuted)"
 ],
 "C32": [
  "proved",
  "the last sentence lists defects (C32_close_error_refuted, C32_cleanup_never_starts_refuted, C32_cleanup_removes_live_refuted)"
 ],
 "C33": [
  "proved",
  "the exceptions are defects (C33_last_port_refuted, C33_port_zero_refuted, C33_double_close_two_owners_refuted)"
 ],
 "C34": [
  "proved",
  "the last clause is a defect (C34_same_name_refuted, C34_close_race_refuted, C34_failed_listener_keeps_port)"
 ],
 "C35": [
  "proved",
  "an authenticator that rejects without error is ignored (C35_rejection_without_error_refuted), overlapping requests establish two (C35_two_control_streams_refuted)"
 ],
 "C36": [
  "proved",
  "for all schedules, identifiers assumed fresh; additionally an accepted stream may never be delivered (C36_accepted_not_delivered_refuted)"
 ],
 "C37": [
  "proved",
  "the last clause and empty error texts are defects (C37_tcp_rejection_lost_refuted, C37_empty_error_refuted)"
 ],
 "C61": [
  "proved",
  "the second half is a defect (C61_closed_listener_panics_refuted)"
 ],
 "C38": [
  "proved",
  "waiting for three bytes blocks protocols in which the server speaks first (C38_short_stream_refuted)"
 ],
 "C39": [
  "proved",
  "the last sentence lists defects (C39_close_panic_refuted, C39_double_close_panic_refuted, C39_custom_id_survives_close_refuted, C39_buffered_connection_lost_refuted)"
 ],
 "C40": [
  "proved",
  "'first non-empty read' and 'hooks run once' are refuted (C40_not_first_byte_refuted, C40_wrapper_twice_refuted)"
 ],
 "C41": [
  "proved",
  "regular expressions are relative to the library's contract; the last sentence lists defects (C41_string_roundtrip_refuted, C41_regex_ignore_case_refuted)"
 ],
 "C42": [
  "proved",
  "relative to x509's contract; the last sentence lists defects (C42_empty_chain_panics_refuted, C42_invalid_san_dropped_refuted, C42_fail_open_refuted, C42_message_grows_refuted)"
 ],
 "C43": [
  "proved",
  "the last sentence lists defects (C43_scalar_prefix_refuted, C43_escape_refuted, C43_slice_over_scalar_refuted, C43_negative_index_panics_refuted)"
 ],
 "C44": [
  "proved",
  "the last sentence lists defects (C44_eof_with_data_left_refuted, C44_eof_overrides_pause_refuted, C44_data_with_error_lost_refuted, C44_write_error_hole_refuted, C44_close_drops_paused_refuted)"
 ],
 "C45": [
  "proved",
  "round trip through an independent reader of the ABI layout, injectivity and order independence for every map whose sizes fit 32 bits"
 ],
 "C46": [
  "proved",
  "the last clauses are defects (C46_default_no_instance_refuted, C46_release_breaks_round_robin_refuted, C46_spurious_release_refuted, C46_concurrent_*_refuted)"
 ],
 "C47": [
  "proved",
  "the exceptions are defects (C47_redefine_refuted, C47_record_gauge_refuted, C47_remove_then_define_refuted, C47_kind_confusion_refuted, C47_label_names_panic_refuted, C47_unknown_type_refuted)"
 ],
 "C48": [
  "proved",
  "the second half is a defect (C48_delete_deadlocks_refuted)"
 ],
 "C49": [
  "proved",
  "the last sentence lists defects (C49_vm_never_dropped_refuted, C49_failed_add_leaks_refuted)"
 ],
 "C50": [
  "proved",
  "the last sentence lists defects (C50_new_stream_error_leaks_refuted, C50_close_stops_early_refuted)"
 ],
 "C51": [
  "proved",
  "a present but empty label wins over a later non-empty one (C51_empty_label_refuted)"
 ],
 "C52": [
  "proved",
  "round trip, injectivity, and AuthenticateToken only returns a group for whose audience the API accepted the token; a token without NASP audience authenticates without a group (C52_no_audience_refuted, a limit of the claim's premise, not of the round trip)"
 ],
 "C53": [
  "proved",
  "round trip iff the service name has no dot (any namespace); the parser panics on strings without a dot"
 ],
 "C54": [
  "proved",
  "relative to a crypto contract; the last sentence lists defects (C54_not_yet_valid_refuted, C54_failed_renewal_panics_refuted, C54_torn_write_refuted)"
 ],
 "C55": [
  "proved",
  "with dotted namespaces two workloads can share an id (C55_dotted_namespace_refuted)"
 ],
 "C56": [
  "proved",
  "for every history of requests, hosts, times and CA answers; the endpoint SAN derivation bug is shown separately (C56_endpoint_san_refuted)"
 ],
 "C57": [
  "proved",
  "the last clause is a defect (C57_duplicate_serial_refuted)"
 ],
 "C62": [
  "proved",
  "the last sentence is a defect (C62_trust_domain_ignored_refuted)"
 ],
 "C63": [
  "proved",
  "dropping all URIs but the last is a defect (C63_uri_dropped_refuted)"
 ],
 "C64": [
  "proved",
  "Envoy's 'first chain' is refuted (C64_first_chain_refuted), as is 'only the chosen cluster's statistics change' (C64_statistics_refuted)"
 ],
 "C65": [
  "proved",
  "the last sentence deviates from Envoy (C65_longest_prefix_refuted, C65_require_fail_open_refuted), and one bad range disables all listeners (C65_bad_range_refuted)"
 ],
 "C66": [
  "proved",
  "the last sentence lists defects (C66_extra_metadata_refuted, C66_crash_refuted, C66_map_order_refuted, C66_bad_metadata_refuted, C66_no_validation_refuted)"
 ],
 "C67": [
  "proved",
  "refuted beyond that: changed settings are ignored (C67_stale_settings_refuted), a discovery error means plain text (C67_discovery_error_refuted), the first dial's cancelled context fails all later ones (C67_first_context_refuted), a closed pool fails the dial (C67_closed_pool_refuted)"
 ],
 "C68": [
  "proved",
  "refuted beyond that: overlapping requests swap identity, lose or gain mesh TLS (C68_concurrent_refuted, C68_dialer_replaced_refuted, C68_plain_wrapped_refuted), kept connections have old settings (C68_stale_settings_refuted), a discovery error means plain text (C68_discovery_error_refuted)"
 ],
 "C69": [
  "proved",
  "refuted beyond that: a second server on the address never enforces anything (C69_second_server_refuted), responses before the listener exists are lost (C69_lost_update_refuted), a failed or ended watch is never renewed (C69_dead_entry_refuted), the start is open (C69_open_start_refuted)"
 ],
 "C71": [
  "proved",
  "the last sentence lists defects (C71_api_error_deletes_refuted, C71_mixed_sessions_refuted, C71_second_service_port_refuted, C71_unnamed_port_refuted, C71_order_refuted)"
 ],
 "C70": [
  "proved",
  "the last sentence is a defect (C70_short_tail_disables, C70_unredacted_refuted); also refuted: held bytes lost, error drops earlier messages, end of stream drops, unsolicited response swallowed, unanswered request shifts pairing, negative size panics or hangs"
 ],
 "C72": [
  "proved",
  "defects outside the statement: unparseable token never repaired, token without exp panics, changed service account ignored until renewal, a 10-minute lifetime is replaced at every reconciliation, a foreign secret of the same name is overwritten and deleted, a deleted group errors for ever (the C72_*_refuted theorems)"
 ],
 "C73": [
  "proved",
  "proved as an equivalence; defects: cluster ID from the registry is dropped, the scheme is not checked, the caller's service account is not compared with the group's, a non-service-account user gets 'default' (the C73_*_refuted theorems)"
 ],
 "C74": [
  "proved",
  "defects: not idempotent (duplicate ports, mounts, volumes on reinvocation), deploymentconfig label deleted and owner misreported, ReplicaSet name that only ends in the hash, revision and network labels overwritten, Override forgets trust domain, TTL and enabled (the C74_*_refuted theorems)"
 ],
 "C75": [
  "proved",
  "the exceptions in the statement are defects with theorems: C75_client_crash_refuted (a server that asks for a client certificate the client's does not satisfy crashes the client), C75_server_crash_refuted, C75_override_refuted"
 ],
 "C76": [
  "proved",
  "The regular expression engine is modelled at byte level for the constructs the patterns use."
 ],
 "C77": [
  "proved",
  ""
 ],
 "C78": [
  "proved",
  ""
 ],
 "C79": [
  "proved",
  ""
 ],
 "C80": [
  "proved",
  ""
 ],
 "C81": [
  "proved",
  ""
 ],
 "C82": [
  "proved",
  ""
 ],
 "C83": [
  "proved",
  ""
 ],
 "C84": [
  "proved",
  "all parts proved, the exceptions as counterexamples (_refuted)"
 ],
 "C85": [
  "proved",
  ""
 ],
 "C86": [
  "proved",
  "the second half is a defect, shown by C86_short_refuted and C86_large_refuted"
 ],
 "C87": [
  "proved",
  "the context, the shared id and the two races are defects, shown by C87_context_cancelled and the _refuted theorems"
 ],
 "C88": [
  "proved",
  "the panic, the root certificate of another revision or none, and IPv6 endpoints are defects, shown by C88_panic and the _refuted theorems"
 ],
 "C89": [
  "proved",
  "the connection closed for good and the leak are defects, shown by C89_recovers_refuted and C89_closed_refuted"
 ],
 "C90": [
  "proved",
  "that an unreadable description panics is a defect, shown by C90_short_panics, C90_wild_panics and C90_any_description_refuted"
 ],
 "C91": [
  "proved",
  "the deadlocks, the tickers that go on and the end of the process are defects, shown by C91_done_stuck, C91_second_done, C91_replaced, C91_bad_period and the _refuted theorems"
 ],
 "C92": [
  "proved",
  "the three refuted claims are defects, shown by C92_ipv6_refuted, C92_port_error_refuted and C92_nothing_refuted"
 ],
 "C93": [
  "proved",
  "the five refuted claims are defects, shown by C93_url_webhook_refuted, C93_not_retried_refuted, C93_reverts_refuted, C93_recreated_refuted and C93_stop_refuted; whether a certificate is renewed is C54"
 ],
 "C94": [
  "proved",
  "the refuted claims are defects, shown by C94_mixed_up_refuted, C94_wraps_refuted, C94_number_shared_refuted, C94_config_refuted, C94_race_refuted and C94_half_made_refuted"
 ],
 "C95": [
  "proved",
  "the refuted claims are defects, shown by C95_range_checked_refuted and C95_nullable_as_written_refuted"
 ],
 "C96": [
  "proved",
  "the refuted claims are defects, shown by C96_reset_refuted, C96_other_route_refuted, C96_concurrent_refuted, C96_unknown_refuted and C96_last_entry_refuted"
 ],
 "C97": [
  "proved",
  "the refuted claims are defects, shown by C97_status_refuted, C97_files_closed_refuted, C97_race_refuted, C97_shared_refuted, C97_nil_bytes_refuted and C97_unnamed_refuted"
 ],
 "C98": [
  "proved",
  "the refuted claims are defects, shown by C98_late_push_refuted, C98_gone_refuted, C98_shared_key_refuted and C98_same_node_refuted"
 ],
 "C99": [
  "proved",
  "the refuted claims are defects, shown by C99_deadlock_refuted, C99_deaf_refuted (with their _reached theorems) and C99_canceled_status_refuted"
 ],
 "C100": [
  "proved",
  "the refuted claims are defects, shown by the C100 theorems with the suffix _refuted"
 ],
 "C101": [
  "proved",
  "the refuted claims are defects, shown by C101_stale_refuted, C101_stale_refuted_stays, C101_missing_refuted and C101_broken_refuted"
 ],
 "C102": [
  "proved",
  "the refuted claims are defects, shown by the theorems ending in _refuted; Clone, which reads without the lock, is not modelled"
 ]
}