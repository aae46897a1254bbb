{
 "claims": [
  {
   "property": "C01",
   "status": "partial",
   "theorems": [
    "C01_string_roundtrip",
    "C01_nullable_string_roundtrip",
    "C01_compact_string_roundtrip",
    "C01_compact_nullable_string_partial",
    "C01_written_compact_nullable_string_roundtrip",
    "C01_compact_bytes_roundtrip",
    "C01_array_length_roundtrip",
    "C01_compact_nullable_string_long_refuted"
   ],
   "note": "REFUTED: the compact nullable string encoder cuts off strings of 2^21-1 bytes and more. Below that, and for all other kinds, the round trip is proved."
  },
  {
   "property": "C02",
   "status": "partial",
   "theorems": [
    "C02_nullable_bytes_refuted",
    "C02_nullable_bytes_null",
    "C02_compact_nullable_bytes_null_refuted",
    "C02_compact_nullable_bytes_empty_refuted",
    "C02_compact_nullable_bytes_partial",
    "C02_nullable_bytes_read_partial"
   ],
   "note": "REFUTED: encodeNullableBytes and encodeCompactNullableBytes lose data; the reading side and the non-empty compact case are proved."
  },
  {
   "property": "C03",
   "status": "proved",
   "theorems": [
    "C03_varint_roundtrip",
    "C03_uvarint_roundtrip",
    "C03_uvarint_size"
   ],
   "note": ""
  },
  {
   "property": "C04",
   "status": "proved",
   "theorems": [
    "C04_tagged_fields_roundtrip",
    "C04_no_tags_one_byte"
   ],
   "note": ""
  },
  {
   "property": "C27",
   "status": "proved",
   "theorems": [
    "C27_range_assignment",
    "C27_unique_owner"
   ],
   "note": "For every iteration order of the Go maps."
  },
  {
   "property": "C28",
   "status": "proved",
   "theorems": [
    "C28_order_independent"
   ],
   "note": ""
  },
  {
   "property": "C29",
   "status": "partial",
   "theorems": [
    "C29_orphan_topic_panics",
    "C29_leader_survives_refuted",
    "C29_bad_subscription_refuted"
   ],
   "note": "REFUTED: a topic without subscribers or an undecodable subscription panics the leader; C27_range_assignment shows assignment succeeds otherwise."
  },
  {
   "property": "C30",
   "status": "proved",
   "theorems": [
    "C30_assignment_bytes",
    "C30_any_leader",
    "C30_subscription_bytes",
    "C30_any_subscription"
   ],
   "note": ""
  },
  {
   "property": "C31",
   "status": "partial",
   "theorems": [
    "C31_user_data_refuted",
    "C31_user_data_crash_refuted"
   ],
   "note": "REFUTED: user data is written without its length prefix; without user data the round trip holds (C30_assignment_bytes)."
  },
  {
   "property": "C05",
   "status": "partial",
   "theorems": [
    "C05_produced_delivered_partial",
    "C05_records_delivered_partial",
    "C05_absent_value_sent_as_empty_refuted",
    "C05_absent_vs_empty_refuted"
   ],
   "note": "REFUTED in one respect: an absent value is sent as an empty one and an absent key or value is delivered like an empty one. Everything else (keys, values, headers, timestamps, order, all codecs whose decompressor undoes the compressor) is proved."
  },
  {
   "property": "C06",
   "status": "proved",
   "theorems": [
    "C06_batch_layout",
    "C06_last_offset_delta",
    "C06_batch_format",
    "C06_compressor_error_panics_refuted"
   ],
   "note": "A compressor error is a panic (C06_compressor_error_panics_refuted)."
  },
  {
   "property": "C07",
   "status": "partial",
   "theorems": [
    "C07_offset_deltas_refuted",
    "C07_same_offset_refuted",
    "C07_single_record_partial"
   ],
   "note": "REFUTED: all records of a produced batch carry offset delta 0; proved for batches of one record."
  },
  {
   "property": "C08",
   "status": "partial",
   "theorems": [
    "C08_record_format_partial",
    "C08_record_roundtrip_partial",
    "C08_absent_key_refuted",
    "C08_absent_key_decode_refuted"
   ],
   "note": "REFUTED: without a key and with an offset delta of two or more varint bytes the record is malformed; proved otherwise."
  },
  {
   "property": "C09",
   "status": "partial",
   "theorems": [
    "C09_fetch_cut_prefix_partial",
    "C09_fetch_decode_partial",
    "C09_fetch_first_read_partial",
    "C09_zstd_refuted",
    "C09_control_batch_refuted",
    "C09_zstd_frame_refuted",
    "C09_many_partial",
    "C09_many_one_read_partial",
    "C09_many_cut_refuted"
   ],
   "note": "REFUTED: batches compressed with zstd are taken for uncompressed ones (the consumer stalls, hands out garbage or crashes), and control batches are delivered. Proved for codecs none, gzip, snappy, lz4, provided no fixed-size field of the partition header is split between reads (see C12). Proved for any number of topics and partitions if only the last record set is cut; REFUTED otherwise (C09_many_cut_refuted: the decoder runs into the next partition; the consumers of the package ask for one partition at a time)."
  },
  {
   "property": "C10",
   "status": "partial",
   "theorems": [
    "C10_old_messages_partial",
    "C10_old_messages_one_read_partial",
    "C10_cut_message_refuted",
    "C10_split_body_refuted"
   ],
   "note": "REFUTED: later messages missing up to five bytes are delivered with zeros; bodies split between reads are lost. Proved outside these cases."
  },
  {
   "property": "C11",
   "status": "partial",
   "theorems": [
    "C11_loop_grows_partial",
    "C11_growth_delivers_partial",
    "C11_too_small_reported_partial",
    "C11_compressed_stuck_refuted",
    "C11_overflow_refuted"
   ],
   "note": "REFUTED: a cut compressed batch never makes the size grow, and a batch without wanted records makes it overflow. Proved for uncompressed logs with a wanted first record."
  },
  {
   "property": "C12",
   "status": "partial",
   "theorems": [
    "C12_responses_any_chunking_partial",
    "C12_incomplete_response_partial",
    "C12_fetch_length_refuted",
    "C12_fetch_leaves_rest_partial",
    "C12_split_fetch_header_refuted"
   ],
   "note": "REFUTED for fetch responses: a length prefix or header field split between reads loses the response. Proved for all other responses under every chunking."
  },
  {
   "property": "C13",
   "status": "partial",
   "theorems": [
    "C13_own_answer_partial",
    "C13_own_fetch_partial",
    "C13_error_answer_partial",
    "C13_late_answer_refuted",
    "C13_behind_refuted"
   ],
   "note": "REFUTED: after a timed-out read the connection stays open and the late answer is taken for the answer to the next request, and all later requests stay as many answers behind. Proved for histories whose answers arrive whole or whose errors close the connection."
  },
  {
   "property": "C14",
   "status": "proved",
   "theorems": [
    "C14_correlation_ids",
    "C14_correlation_ids_distinct"
   ],
   "note": ""
  },
  {
   "property": "C15",
   "status": "partial",
   "theorems": [
    "C15_highest_common_partial",
    "C15_fallback",
    "C15_not_announced_refuted",
    "C15_not_implemented_refuted"
   ],
   "note": "REFUTED when client and broker share no listed version, and for the APIs without a list: version 0 is sent. Proved that otherwise the highest shared version is used."
  },
  {
   "property": "C16",
   "status": "partial",
   "theorems": [
    "C16_authenticated_partial",
    "C16_after_reopen_refuted",
    "C16_after_failed_sasl_refuted"
   ],
   "note": "REFUTED: a failed reopening leaves a half-opened connection in the handle. Proved for histories in which failed openings leave none."
  },
  {
   "property": "C17",
   "status": "partial",
   "theorems": [
    "C17_reopens_partial",
    "C17_no_deadlock_without_sasl_partial",
    "C17_fetch_no_deadlock_partial",
    "C17_sasl_reopen_refuted"
   ],
   "note": "REFUTED with SASL: reopening from RequestAndGet locks its own mutex. Proved without SASL, and for fetches."
  },
  {
   "property": "C59",
   "status": "partial",
   "theorems": [
    "C59_serial_close_partial",
    "C59_concurrent_close_refuted"
   ],
   "note": "REFUTED: Close takes another lock than requests. Proved when requests and closes do not overlap."
  },
  {
   "property": "C18",
   "status": "partial",
   "theorems": [
    "C18_framed_partial",
    "C18_flexible_versions_partial",
    "C18_no_overrun_partial",
    "C18_fetch_partitions_refuted"
   ],
   "note": "REFUTED for a fetch request with several partitions of one topic (the client itself builds one partition per request): the buffer overruns. Framing and header proved for every request and version; no overrun proved within the stated limits."
  },
  {
   "property": "C19",
   "status": "partial",
   "theorems": [
    "C19_broker_reads_partial",
    "C19_produce_9_partial",
    "C19_produce_0_refuted",
    "C19_describe_acls_refuted",
    "C19_create_acls_refuted",
    "C19_create_partitions_refuted"
   ],
   "note": "REFUTED: Produce version 0, DescribeAcls 0/1, CreateAcls 0/1 and CreatePartitions 0 without assignment do not follow the schema. Proved for all other requests and versions, read back by a schema decoder."
  },
  {
   "property": "C20",
   "status": "partial",
   "theorems": [
    "C20_same_kind_partial",
    "C20_first_kind",
    "C20_other_kind_refuted"
   ],
   "note": "REFUTED: the header kind stays that of the version first sent. Proved for versions of one header kind."
  },
  {
   "property": "C21",
   "status": "partial",
   "theorems": [
    "C21_responses_partial",
    "C21_produce_0_refuted",
    "C21_alter_configs_success_refuted",
    "C21_offset_fetch_null_metadata_refuted",
    "C21_describe_acls_1_refuted",
    "C21_describe_rebalancing_group_refuted",
    "C21_member_metadata_refuted",
    "C21_logdirs_corr_refuted"
   ],
   "note": "REFUTED for Produce 0, DescribeAcls 1, CreateAcls, null offset metadata, successful AlterConfigs, groups with unassigned members. Proved for all other responses of all APIs and versions the client requests (table response_spec)."
  },
  {
   "property": "C22",
   "status": "partial",
   "theorems": [
    "C22_cluster_id_refuted",
    "C22_cluster_id_read_early",
    "C22_null_cluster_id_refuted"
   ],
   "note": "REFUTED: the cluster id is read two bytes early; a null cluster id crashes the client."
  },
  {
   "property": "C23",
   "status": "proved",
   "theorems": [
    "C23_metadata_1",
    "C23_metadata_7"
   ],
   "note": "Topics or partitions named twice: sort.Slice is modelled by insertion sort; the statement holds for every sort."
  },
  {
   "property": "C24",
   "status": "partial",
   "theorems": [
    "C24_fetch_partition_error_partial",
    "C24_fetch_top_error_refuted",
    "C24_errors_partial",
    "C24_sasl_handshake_refuted",
    "C24_list_groups_refuted",
    "C24_create_acls_0_refuted",
    "C24_create_acls_2_refuted",
    "C24_list_reassignments_refuted",
    "C24_create_partitions_crash_refuted",
    "C24_alter_reassignments_crash_refuted",
    "C24_delete_acls_crash_refuted"
   ],
   "note": "REFUTED for SASL handshake, ListGroups, CreateAcls, ListPartitionReassignments, top-level fetch errors; three error reports crash without a message. Proved for all other APIs, codes and positions."
  },
  {
   "property": "C25",
   "status": "partial",
   "theorems": [
    "C25_fetch_null_header_refuted",
    "C25_empty_response_refuted",
    "C25_wrong_length_partial",
    "C25_unknown_api_partial"
   ],
   "note": "REFUTED: an empty response crashes the client for every API. Wrong lengths and unknown APIs are rejected with an error."
  },
  {
   "property": "C26",
   "status": "partial",
   "theorems": [
    "C26_incremental_copies_refuted",
    "C26_incremental_lost_refuted",
    "C26_produce_partitions_refuted",
    "C26_create_partitions_refuted",
    "C26_single_produce_partial",
    "C26_single_incremental_partial"
   ],
   "note": "REFUTED: results after the first are copies of the first (Produce, AlterConfigs, IncrementalAlterConfigs) or misread (CreatePartitions 0/1, DeleteAcls 0/1). Proved for one result, and for every number in the other APIs (C21_responses_partial)."
  },
  {
   "property": "C32",
   "status": "proved",
   "theorems": [
    "C32_once_in_order",
    "C32_before_close",
    "C32_batch_on_the_wire"
   ],
   "note": "Every interleaving of operations under the lock; network success assumed as the property says; after Close only calls that send nothing (see C34). Keys: unless the caller changes their buffers (C37). Wire form for the version used with record batches (9)."
  },
  {
   "property": "C33",
   "status": "partial",
   "theorems": [
    "C33_lost_on_add_refuted",
    "C33_lost_on_tick_refuted",
    "C33_lost_on_close_refuted",
    "C33_flush_reports_partial"
   ],
   "note": "REFUTED: the error of a flush done by AddMessage, the timer or Close is dropped together with the messages. An explicit Flush reports its error."
  },
  {
   "property": "C34",
   "status": "partial",
   "theorems": [
    "C34_sent_twice_refuted",
    "C34_nothing_after_close_partial",
    "C34_timer_ends_partial"
   ],
   "note": "REFUTED: Close keeps the queue, so a late tick or Flush sends the batch a second time. Proved when the queue is empty at Close, or neither happens."
  },
  {
   "property": "C35",
   "status": "partial",
   "theorems": [
    "C35_dropped_after_close_refuted",
    "C35_dropped_by_refresh_refuted",
    "C35_keyed_not_dropped_partial",
    "C35_unkeyed_not_dropped_partial"
   ],
   "note": "REFUTED: after Close, or with three refreshes at the wrong moments, AddMessage returns nil for a dropped message. Without Close: proved for keyed messages, and for unkeyed ones with fewer than three interfering refreshes."
  },
  {
   "property": "C36",
   "status": "proved",
   "theorems": [
    "C36_key_partition",
    "C36_murmur"
   ],
   "note": "For every history with a constant number of partitions. The hash library is written after the published algorithm."
  },
  {
   "property": "C37",
   "status": "partial",
   "theorems": [
    "C37_key_changed_refuted",
    "C37_values_kept_partial"
   ],
   "note": "REFUTED for keys, which are not copied. Proved for values."
  },
  {
   "property": "C60",
   "status": "partial",
   "theorems": [
    "C60_leaderless_refuted",
    "C60_leaderless_panics",
    "C60_leader_or_error_partial"
   ],
   "note": "REFUTED: leader -1 without error code gives a producer that panics on its first send. Every other lookup result is a usable handle or an error."
  },
  {
   "property": "C61",
   "status": "partial",
   "theorems": [
    "C61_revived_refuted"
   ],
   "note": "REFUTED: the refresh goroutine is never stopped and installs an open producer after Close."
  },
  {
   "property": "C62",
   "status": "partial",
   "theorems": [
    "C62_stale_leader_refuted",
    "C62_first_message_partial"
   ],
   "note": "REFUTED: keyed producers are cached with the handle of the first leader."
  },
  {
   "property": "C38",
   "status": "partial",
   "theorems": [
    "C38_in_order_partial",
    "C38_split_size_refuted"
   ],
   "note": "REFUTED when the size of the record set is split between two reads: a message that is not in the log is handed out. Proved for every log, cut, error, broken connection and reset when the small header fields are not split."
  },
  {
   "property": "C39",
   "status": "partial",
   "theorems": [
    "C39_commit_is_position_partial",
    "C39_committed_was_delivered_partial",
    "C39_commits_ordered_partial",
    "C39_first_commit",
    "C39_commits_go_back_refuted"
   ],
   "note": "REFUTED for overlapping commit calls (the smaller offset is sent last). Proved: every commit is a position reached before and covers only delivered messages; non-decreasing when commit calls do not overlap."
  },
  {
   "property": "C40",
   "status": "partial",
   "theorems": [
    "C40_group_commits_nonnegative_partial",
    "C40_commits_nonnegative_partial",
    "C40_negative_commit_refuted"
   ],
   "note": "REFUTED for consumers outside a group consumer: a failed lookup after out-of-range sets the position to -1, which is committed. Proved for group consumers, and otherwise when lookups give no negative offset."
  },
  {
   "property": "C41",
   "status": "partial",
   "theorems": [
    "C41_reset_position_partial",
    "C41_reset_like_start_partial",
    "C41_committed_start_refuted",
    "C41_split_header_refuted"
   ],
   "note": "REFUTED: started from the beginning with a committed offset, a reset goes to the end; a header split can look like an out-of-range error. Proved for positions that came from the log."
  },
  {
   "property": "C42",
   "status": "proved",
   "theorems": [
    "C42_explicit",
    "C42_committed",
    "C42_from_log",
    "C42_stopped"
   ],
   "note": "Any number of failed attempts before the answers."
  },
  {
   "property": "C63",
   "status": "partial",
   "theorems": [
    "C63_no_error_drained_partial",
    "C63_error_before_drain_refuted",
    "C63_header_timeout_refuted"
   ],
   "note": "REFUTED: the error event precedes the drain; a timeout in the response header leaves the connection in use. Proved for responses without an error event."
  },
  {
   "property": "C64",
   "status": "partial",
   "theorems": [
    "C64_leader_retry_partial",
    "C64_unknown_leader_refuted"
   ],
   "note": "REFUTED: a leader without cached handle whose connection fails crashes the consumer."
  },
  {
   "property": "C43",
   "status": "partial",
   "theorems": [
    "C43_identity_partial",
    "C43_joins_partial",
    "C43_rejected_join_partial",
    "C43_rejected_commit_partial",
    "C43_rejected_commit_refuted",
    "C43_torn_commit_refuted",
    "C43_leave_refuted"
   ],
   "note": "REFUTED: off calm schedules. A commit call that checked the member id before a rejoin sends an empty member id after the rejection, or the new generation with the old member id; closing during the first join can send a leave request without member id. Proved: every join request carries the latest member id on every schedule; on calm schedules (no restart beside a running start, no commit call overlapping a change of identity) every sync, heartbeat, commit and leave carries the latest identity and nothing is committed after a rejection before a new join."
  },
  {
   "property": "C44",
   "status": "partial",
   "theorems": [
    "C44_loop_ends_partial",
    "C44_installed_partial",
    "C44_returned_partial",
    "C44_given_up_partial",
    "C44_installed_wire_partial",
    "C44_lookup_partial",
    "C44_lookup_refuted"
   ],
   "note": "REFUTED in one point: with two joining loops (restart by the metadata goroutine during the first start) a loop joins again without a new lookup after a coordinator-moved error. Proved on all schedules: success only after join and sync in sequence with the assignment installed, or closed; the lookup proved with one joining loop at a time."
  },
  {
   "property": "C45",
   "status": "partial",
   "theorems": [
    "C45_no_panic_partial",
    "C45_window_refuted",
    "C45_leave_refuted",
    "C45_no_coordinator_refuted"
   ],
   "note": "REFUTED: Close between the sync answer and the start of the partition consumers panics (negative WaitGroup counter); a failing leave request panics; closing before a coordinator was found can panic. Proved: no panic on orderly schedules (Close outside of that window, leave answered)."
  },
  {
   "property": "C46",
   "status": "proved",
   "theorems": [
    "C46_same",
    "C46_presented",
    "C46_nil",
    "C46_equivalence",
    "C46_same_assignment"
   ],
   "note": "for lists in order, which decoded metadata is (C46_presented, C23)"
  },
  {
   "property": "C65",
   "status": "partial",
   "theorems": [
    "C65_closed_starts_nothing_partial",
    "C65_started_after_close_refuted"
   ],
   "note": "REFUTED: closing while the sync request is unanswered starts the partition consumers afterwards. Proved on orderly schedules."
  },
  {
   "property": "C52",
   "status": "proved",
   "theorems": [
    "C52_commit_one_entry",
    "C52_fetch_one_entry"
   ],
   "note": ""
  },
  {
   "property": "C53",
   "status": "partial",
   "theorems": [
    "C53_duplicate_topic_partial",
    "C53_assignments_partial",
    "C53_overwrite_refuted"
   ],
   "note": "REFUTED: a second assignment for a partition is refused, it does not overwrite. Proved: adding a topic twice is refused, assignments stay ordered by partition, one above all earlier ones is kept as given."
  },
  {
   "property": "C54",
   "status": "partial",
   "theorems": [
    "C54_consumer_partial",
    "C54_producer_partial",
    "C54_producer_create_partial",
    "C54_nil_refuted",
    "C54_magic_refuted",
    "C54_producer_other_partial",
    "C54_producer_default_partial"
   ],
   "note": "REFUTED: a nil producer configuration has no bootstrap servers and is accepted; magic bytes above 2 are kept. Proved for the checks themselves and configurations given by value or map."
  },
  {
   "property": "C55",
   "status": "partial",
   "theorems": [
    "C55_sharing_refuted",
    "C55_copy_refuted",
    "C55_own_slice_partial"
   ],
   "note": "REFUTED: configurations share the slice of timeouts. Proved for consumers whose slice is their own."
  },
  {
   "property": "C56",
   "status": "partial",
   "theorems": [
    "C56_resource_partial",
    "C56_pattern_partial",
    "C56_operation_partial",
    "C56_permission_partial",
    "C56_operation_distinct_partial",
    "C56_permission_distinct_partial",
    "C56_others_partial",
    "C56_operation_refuted",
    "C56_permission_refuted",
    "C56_resource_texts_partial",
    "C56_pattern_texts_partial",
    "C56_operation_texts_partial",
    "C56_permission_texts_partial"
   ],
   "note": "REFUTED for the unknown operation and permission, which are read back as ANY. Proved for all other values."
  },
  {
   "property": "C57",
   "status": "partial",
   "theorems": [
    "C57_zero_partial",
    "C57_injective_partial",
    "C57_entries_partial",
    "C57_retriable_partial",
    "C57_unknown_partial",
    "C57_118_refuted",
    "C57_119_refuted",
    "C57_zero_text_partial"
   ],
   "note": "REFUTED for codes 118 and 119 (table entry carries the wrong code). Proved for all other codes."
  },
  {
   "property": "C58",
   "status": "partial",
   "theorems": [
    "C58_simple_producer_partial",
    "C58_producer_partial",
    "C58_first_close_partial",
    "C58_no_leader_partial",
    "C58_brokers_refuted",
    "C58_consumer_refuted",
    "C58_group_consumer_refuted",
    "C58_brokers_first_partial",
    "C58_consumer_first_partial",
    "C58_group_first_partial",
    "C58_simple_consumer_partial",
    "C58_crew_stops_partial",
    "C58_simple_consumer_refuted"
   ],
   "note": "REFUTED: second close of broker lists and consumers panics, of group consumers blocks for ever. Proved for both producers."
  },
  {
   "property": "C66",
   "status": "proved",
   "theorems": [
    "C66_logdirs_one_entry",
    "C66_reassignments_one_entry"
   ],
   "note": ""
  },
  {
   "property": "C67",
   "status": "proved",
   "theorems": [
    "C67_alter_configs",
    "C67_incremental"
   ],
   "note": ""
  },
  {
   "property": "C68",
   "status": "proved",
   "theorems": [
    "C68_elect_leaders",
    "C68_reassignments",
    "C68_create_partitions"
   ],
   "note": ""
  },
  {
   "property": "C69",
   "status": "partial",
   "theorems": [
    "C69_timeouts_partial",
    "C69_perapi_refuted",
    "C69_short_refuted",
    "C69_lookup_partial"
   ],
   "note": "REFUTED: timeouts configured per api are overwritten, and fewer than twelve of them make the creation panic. Proved for configurations without per-api timeouts (hypothesis sane: no overflow)."
  },
  {
   "property": "C47",
   "status": "proved",
   "theorems": [
    "C47_metadata",
    "C47_coordinator",
    "C47_request"
   ],
   "note": ""
  },
  {
   "property": "C48",
   "status": "proved",
   "theorems": [
    "C48_all",
    "C48_all_error",
    "C48_one"
   ],
   "note": "The crash on metadata without topics is C70."
  },
  {
   "property": "C49",
   "status": "partial",
   "theorems": [
    "C49_refuted",
    "C49_first_lookup_partial",
    "C49_stable_partial"
   ],
   "note": "REFUTED: a cached handle is never replaced after an address change. Proved for the first lookup of a node, and for clusters whose addresses never change."
  },
  {
   "property": "C50",
   "status": "partial",
   "theorems": [
    "C50_refuted",
    "C50_proper_partial",
    "C50_foreign_partial",
    "C50_once_partial"
   ],
   "note": "REFUTED: the groups of the bootstrap broker are listed under -1. Proved when the cached handles carry their node ids, which holds in every history if no bootstrap address is advertised."
  },
  {
   "property": "C51",
   "status": "partial",
   "theorems": [
    "C51_delete_topics_refuted",
    "C51_leave_refuted",
    "C51_delete_topics_partial",
    "C51_delete_topics_result_partial",
    "C51_leave_partial",
    "C51_controller_partial"
   ],
   "note": "REFUTED: deleting topics and leaving a group crash when the request fails. Proved: exactly then; all other calls to the controller report the error."
  },
  {
   "property": "C70",
   "status": "partial",
   "theorems": [
    "C70_refuted",
    "C70_empty_refuted",
    "C70_leader_partial",
    "C70_safe_partial"
   ],
   "note": "REFUTED: a reconnect refused by the broker, or an answer without topics, crashes. Proved when neither happens; the leader found is the one in the metadata."
  },
  {
   "property": "C71",
   "status": "proved",
   "theorems": [
    "C71_same_handle"
   ],
   "note": ""
  },
  {
   "property": "C72",
   "status": "partial",
   "theorems": [
    "C72_refuted",
    "C72_constant",
    "C72_first_controller_partial"
   ],
   "note": "REFUTED: the controller is never updated. Proved: the one named by the first metadata is asked."
  },
  {
   "property": "C73",
   "status": "partial",
   "theorems": [
    "C73_refuted",
    "C73_bootstrap_refuted",
    "C73_every_refresh",
    "C73_cached_partial",
    "C73_lookup_partial"
   ],
   "note": "REFUTED: every refresh that works loses at least one connection for good. Proved: cached handles are closed, lookups of known nodes lose nothing."
  },
  {
   "property": "C74",
   "status": "partial",
   "theorems": [
    "C74_missing_refuted",
    "C74_all_topics_refuted",
    "C74_log_dirs_partial"
   ],
   "note": "REFUTED: brokers that fail are left out without an error; naming no topic hides all topics. Proved: who is asked about what, and that the result is what was answered."
  },
  {
   "property": "C75",
   "status": "partial",
   "theorems": [
    "C75_refuted",
    "C75_success_partial"
   ],
   "note": "REFUTED: results of groups already deleted are dropped when a later one fails. Proved for calls that succeed."
  },
  {
   "property": "C76",
   "status": "partial",
   "theorems": [
    "C76_refuted",
    "C76_configs_partial"
   ],
   "note": "REFUTED for numbers beyond 32 bits, which wrap around. Proved for all others."
  },
  {
   "property": "C77",
   "status": "partial",
   "theorems": [
    "C77_partitions_partial",
    "C77_no_topic_refuted",
    "C77_empty_list_refuted"
   ],
   "note": "REFUTED: a consumer without a topic, or with an empty list of partitions for a topic, consumes everything. Proved for all other assignments, orders of calls and failures."
  },
  {
   "property": "C78",
   "status": "partial",
   "theorems": [
    "C78_close_after_partial",
    "C78_open_partial",
    "C78_early_close_partial",
    "C78_close_in_setup_refuted",
    "C78_close_twice_refuted",
    "C78_start_after_close_refuted"
   ],
   "note": "REFUTED: a close while coordinators are looked up, and a second close, crash; a close during the first lookup does not keep partitions from being started. Proved for one close before or after."
  },
  {
   "property": "C79",
   "status": "partial",
   "theorems": [
    "C79_lag_partial",
    "C79_never_committed_refuted",
    "C79_several_offsets_refuted"
   ],
   "note": "REFUTED: a group that never committed is shown one more than there are messages; several old style offsets crash. Proved for committed groups."
  },
  {
   "property": "C80",
   "status": "proved",
   "theorems": [
    "C80_total"
   ],
   "note": ""
  },
  {
   "property": "C81",
   "status": "partial",
   "theorems": [
    "C81_pattern_partial",
    "C81_name_partial",
    "C81_parenthesis_refuted"
   ],
   "note": "REFUTED: a parenthesis crashes. Proved for patterns without characters special to regular expressions."
  },
  {
   "property": "C82",
   "status": "partial",
   "theorems": [
    "C82_reset_partial",
    "C82_no_message_refuted",
    "C82_unknown_partition_refuted"
   ],
   "note": "REFUTED: -1 is committed when there is no message after the time; partitions that do not exist are skipped. Proved: what is committed is what was reported, for every order."
  },
  {
   "property": "C83",
   "status": "partial",
   "theorems": [
    "C83_names",
    "C83_storage_refuted",
    "C83_kafka_partial"
   ],
   "note": "REFUTED: the flag is read under another name than declared. Proved: version 2 always."
  },
  {
   "property": "C84",
   "status": "partial",
   "theorems": [
    "C84_ascending_partial",
    "C84_any_order_partial",
    "C84_order_refuted",
    "C84_wrap_refuted"
   ],
   "note": "REFUTED: assignments are dropped unless the map happens to be traversed in ascending order. Proved: which remain, for every order."
  },
  {
   "property": "C85",
   "status": "partial",
   "theorems": [
    "C85_assignments_partial",
    "C85_blank_refuted",
    "C85_wrap_refuted"
   ],
   "note": "REFUTED: a blank entry crashes; numbers beyond 32 bits wrap. Proved for lists as described."
  },
  {
   "property": "C86",
   "status": "partial",
   "theorems": [
    "C86_resource_partial",
    "C86_any_refuted",
    "C86_other_refuted"
   ],
   "note": "REFUTED: a quote makes the filter match any resource, a backslash another one. Proved for plain names."
  },
  {
   "property": "C87",
   "status": "partial",
   "theorems": [
    "C87_timeout_partial",
    "C87_ignored_refuted"
   ],
   "note": "REFUTED for all but three. Proved for these."
  },
  {
   "property": "C88",
   "status": "proved",
   "theorems": [
    "C88_admits",
    "C88_only_one",
    "C88_form",
    "C88_exempt",
    "C88_flag",
    "C88_off",
    "C88_line_ends"
   ],
   "note": ""
  },
  {
   "property": "C89",
   "status": "partial",
   "theorems": [
    "C89_answer_partial",
    "C89_codes_partial",
    "C89_well_partial",
    "C89_goes_on_refuted",
    "C89_twice_refuted",
    "C89_pending_refuted"
   ],
   "note": "REFUTED for six handlers. Proved for the eleven others."
  },
  {
   "property": "C90",
   "status": "partial",
   "theorems": [
    "C90_closed_partial",
    "C90_leak_refuted"
   ],
   "note": "REFUTED for three handlers. Proved for the fourteen others."
  },
  {
   "property": "C91",
   "status": "proved",
   "theorems": [
    "C91_header",
    "C91_header_tags"
   ],
   "note": ""
  },
  {
   "property": "C92",
   "status": "partial",
   "theorems": [
    "C92_list_groups_partial",
    "C92_alter_reassignments_partial",
    "C92_create_acls_partial",
    "C92_describe_acls_partial",
    "C92_delete_acls_partial",
    "C92_incremental_partial",
    "C92_metadata_partial",
    "C92_produce_partial",
    "C92_delete_acls_refuted",
    "C92_metadata_all_refuted",
    "C92_compressed_refuted"
   ],
   "note": "REFUTED: DeleteAcls below version 2 with two filters panics, Metadata of all topics panics, compressed batches are read as one wrong record. Proved for everything else."
  },
  {
   "property": "C93",
   "status": "partial",
   "theorems": [
    "C93_alter_reassignments",
    "C93_delete_acls",
    "C93_describe_acls",
    "C93_list_groups",
    "C93_create_acls_partial",
    "C93_create_acls_panics_refuted",
    "C93_create_acls_refuted"
   ],
   "note": "REFUTED for CreateAcls: before version 2 the encoder panics on every response without messages, and the tags of results are replaced by those of the response; C93_create_acls_partial says when it works. Proved for the other four responses."
  },
  {
   "property": "C94",
   "status": "partial",
   "theorems": [
    "C94_message_set_partial",
    "C94_message_format",
    "C94_absent_value_refuted"
   ],
   "note": "REFUTED: a message without a value comes back with an empty one. Everything else is proved."
  },
  {
   "property": "C95",
   "status": "partial",
   "theorems": [
    "C95_many_partial",
    "C95_fetch_response_partial",
    "C95_version_0_refuted"
   ],
   "note": "REFUTED for version 0, whose layout the encoder does not know. Proved for any number of topics and partitions in versions 7 and 10."
  },
  {
   "property": "C96",
   "status": "partial",
   "theorems": [
    "C96_numbering_broker_partial",
    "C96_one_by_one_partial",
    "C96_message_lost_refuted"
   ],
   "note": "REFUTED: a message is lost when a fetch ends within an uncompressed batch of several messages (offset deltas are all 0). Proved when every batch has one message, and for brokers that number the records, there also with failing requests."
  },
  {
   "property": "C97",
   "status": "partial",
   "theorems": [
    "C97_at_least_once_partial",
    "C97_committed_undelivered_refuted"
   ],
   "note": "REFUTED by the finding of C38: when the size of the record set arrives in two reads, an offset beyond undelivered messages is committed. Proved for all histories in which the small fields of fetch responses are not split between reads."
  },
  {
   "property": "C98",
   "status": "proved",
   "theorems": [
    "C98_codecs",
    "C98_accepted",
    "C98_case",
    "C98_parsed",
    "C98_unknown"
   ],
   "note": "The libraries themselves are parameters of the model; zstd, which the client does not name, is in C09."
  },
  {
   "property": "C99",
   "status": "partial",
   "theorems": [
    "C99_plain_partial",
    "C99_token_unique",
    "C99_mechanism_refuted",
    "C99_handshake_0_refuted"
   ],
   "note": "REFUTED: a mechanism other than PLAIN crashes the client, and with version 0 of the handshake the token is not sent as the broker expects it. Proved for PLAIN with version 1, for users and passwords without zero bytes."
  },
  {
   "property": "C100",
   "status": "proved",
   "theorems": [
    "C100_round"
   ],
   "note": "Composition of the request encoders, a coordinator that reads them, the response decoders, the assignment and the member state machine. Failures other than of the metadata requests are the matter of C44."
  },
  {
   "property": "C101",
   "status": "partial",
   "theorems": [
    "C101_waits",
    "C101_unknown_refuted"
   ],
   "note": "REFUTED: the leader repeats its metadata request until the answer has no error, and an unknown topic is an error of the whole answer; no member of the group gets partitions."
  },
  {
   "property": "C102",
   "status": "proved",
   "theorems": [
    "C102_stop",
    "C102_ends",
    "C102_goes_on"
   ],
   "note": "A fetch whose test of the stop flag came before Stop counts as sent before it. That Stop may return early, because the goroutine registers itself in the wait group, is not modelled."
  },
  {
   "property": "C103",
   "status": "partial",
   "theorems": [
    "C103_start_partial",
    "C103_crash_refuted"
   ],
   "note": "REFUTED: an offsets answer without the topic, or with several offsets for the partition, crashes the consumer. Proved for all answers with errors or with the topic and at most one offset."
  },
  {
   "property": "C104",
   "status": "partial",
   "theorems": [
    "C104_flags_partial",
    "C104_refuted"
   ],
   "note": "REFUTED: operations written as in the help (clusteraction, ...) and names that mean nothing are sent as 0 without an error. Proved for all texts that name a value."
  },
  {
   "property": "C105",
   "status": "partial",
   "theorems": [
    "C105_owners_partial",
    "C105_groups",
    "C105_topic",
    "C105_refuted"
   ],
   "note": "REFUTED: one assignment that cannot be decoded hides the whole group, without an error. Proved for groups whose assignments are in the layout of the protocol."
  },
  {
   "property": "C106",
   "status": "partial",
   "theorems": [
    "C106_groups_partial",
    "C106_refuted"
   ],
   "note": "REFUTED: when one broker fails the helper returns nothing and get-pending ends quietly. Proved: what is returned otherwise, and that it never crashes."
  },
  {
   "property": "C107",
   "status": "partial",
   "theorems": [
    "C107_lines",
    "C107_total",
    "C107_errors",
    "C107_refuted"
   ],
   "note": "REFUTED: an answer in the old style with several offsets crashes the command. Proved for all other answers."
  },
  {
   "property": "C108",
   "status": "partial",
   "theorems": [
    "C108_status_partial",
    "C108_refuted",
    "C108_pending_refuted"
   ],
   "note": "REFUTED for ten commands and get-pending, which drop errors. Proved for the other sixteen."
  },
  {
   "property": "C109",
   "status": "partial",
   "theorems": [
    "C109_simple",
    "C109_group",
    "C109_console_partial",
    "C109_shown",
    "C109_refuted"
   ],
   "note": "REFUTED for console-consumer, which ignores printoffset. Proved for the others and for console-consumer with offsets. The JSON form of a message and the signals are not modelled."
  },
  {
   "property": "C110",
   "status": "partial",
   "theorems": [
    "C110_settings_partial",
    "C110_base",
    "C110_refuted"
   ],
   "note": "REFUTED: the text in the help of the flag is not JSON and is ignored without an error. Proved for objects of plain texts without white space."
  },
  {
   "property": "C111",
   "status": "partial",
   "theorems": [
    "C111_types",
    "C111_broker_partial",
    "C111_refuted"
   ],
   "note": "REFUTED: broker_logger, and alter-configs for a broker, go to the controller; unknown names are sent as 0. Proved: the numbers of the types, and the broker asked by describe-configs."
  },
  {
   "property": "C112",
   "status": "partial",
   "theorems": [
    "C112_lines_partial",
    "C112_long",
    "C112_refuted"
   ],
   "note": "REFUTED: a carriage return before the line feed is dropped. Proved for all lines without, and for lines that are too long."
  },
  {
   "property": "C113",
   "status": "partial",
   "theorems": [
    "C113_asked_partial",
    "C113_refused",
    "C113_client_id_refuted",
    "C113_no_assignment_refuted",
    "C113_timeout_refuted"
   ],
   "note": "REFUTED: elections and reassignments are sent without a client id; new partitions without assignments are sent with an empty list instead of null; timeouts from 2^31 on are read as negative. Proved for all other calls and values."
  },
  {
   "property": "C114",
   "status": "partial",
   "theorems": [
    "C114_follows_partial",
    "C114_runs_partial",
    "C114_first_partial",
    "C114_named",
    "C114_looks",
    "C114_gone_refuted",
    "C114_other_refuted",
    "C114_empty_refuted"
   ],
   "note": "REFUTED: a leader that is gone is asked for ever; an error of another partition of the topic keeps the old epoch for ever; metadata without a topic crashes the consumer. Proved: the broker asked is the one the metadata names; at most three requests bring nothing while all brokers answer and no partition has an error."
  },
  {
   "property": "C115",
   "status": "partial",
   "theorems": [
    "C115_stays_partial",
    "C115_moved_refuted"
   ],
   "note": "REFUTED: the coordinator is looked up once; once it moved no commit is accepted and a look-up never ends. Proved while it stays."
  },
  {
   "property": "C116",
   "status": "partial",
   "theorems": [
    "C116_last_partial",
    "C116_early_refuted"
   ],
   "note": "REFUTED: the automatic commit is made when the context ends, before the loop handed out the rest. Proved: a commit made in any state commits the offset behind the last message handed out."
  },
  {
   "property": "C117",
   "status": "partial",
   "theorems": [
    "C117_tags",
    "C117_wraps",
    "C117_present_partial",
    "C117_key_refuted"
   ],
   "note": "REFUTED: the transactional id of a produce request and the append time of a produce response ask for the version of a name that is no field, so they are present in every version. Proved for the tags of all structs and for all other fields."
  },
  {
   "property": "C118",
   "status": "partial",
   "theorems": [
    "C118_plain_partial",
    "C118_tls_partial",
    "C118_login",
    "C118_refresh",
    "C118_client",
    "C118_ca_refuted"
   ],
   "note": "REFUTED: a file without a certificate in it is not reported. Proved: times, certificates, name and check are those of the settings; missing settings and unreadable files are errors, never a connection without TLS."
  },
  {
   "property": "C119",
   "status": "partial",
   "theorems": [
    "C119_names_partial",
    "C119_distinct",
    "C119_others",
    "C119_list",
    "C119_quorum_refuted"
   ],
   "note": "REFUTED: the APIs of the quorum have no name. Proved for all others, that names tell APIs apart, and the list of versions."
  },
  {
   "property": "C120",
   "status": "partial",
   "theorems": [
    "C120_intervals_partial",
    "C120_accepted_partial",
    "C120_defaults",
    "C120_zero_refuted",
    "C120_long_refuted"
   ],
   "note": "REFUTED: intervals of 0 and below are accepted for metadata, sessions and commits, and intervals over 292 years for flushes; the program crashes. Proved for all others."
  },
  {
   "property": "C121",
   "status": "partial",
   "theorems": [
    "C121_ends_partial",
    "C121_steady_partial",
    "C121_prompt_partial",
    "C121_silent",
    "C121_free",
    "C121_timeout",
    "C121_default",
    "C121_drip_refuted",
    "C121_left_refuted",
    "C121_stream_partial",
    "C121_stream_read_partial",
    "C121_slow_refuted"
   ],
   "note": "REFUTED: the deadline starts again with every piece; a timeout of 0 leaves the deadline of the request before; a stream whose reader is busy for longer is lost. Proved: a bound from the number of pieces, and that what arrives in time is read."
  },
  {
   "property": "C122",
   "status": "partial",
   "theorems": [
    "C122_asks_partial",
    "C122_redirect_partial",
    "C122_crash_partial",
    "C122_value_refuted",
    "C122_offsets_refuted",
    "C122_listing_refuted",
    "C122_null",
    "C122_refuses",
    "C122_incomplete_refuted",
    "C122_empty",
    "C122_broker_refuted",
    "C122_null_refuted",
    "C122_timeout_refuted",
    "C122_count_refuted"
   ],
   "note": "REFUTED: values with a slash or empty values cannot be set; offsets without a time are refused; listing without a body has status 400; a null filter crashes; timeouts wrap; the number of partitions is the total; an ACL without a permission is sent as an invalid one. Proved for all operations otherwise."
  },
  {
   "property": "C123",
   "status": "partial",
   "theorems": [
    "C123_reads_partial",
    "C123_metadata_refuted"
   ],
   "note": "REFUTED: looking at the metadata of a topic allows its creation. Proved: GET, HEAD and OPTIONS lead to no other request that changes anything."
  },
  {
   "property": "C124",
   "status": "partial",
   "theorems": [
    "C124_lag_partial",
    "C124_offsets",
    "C124_offsets_error_refuted",
    "C124_never_committed_refuted",
    "C124_several_offsets_refuted"
   ],
   "note": "REFUTED: a failed request for offsets shows the negated commit; groups that never committed; several offsets for a partition. Proved otherwise; offsets in order."
  },
  {
   "property": "C125",
   "status": "partial",
   "theorems": [
    "C125_flags_partial",
    "C125_missing",
    "C125_unknown",
    "C125_too_big",
    "C125_unknown_command",
    "C125_bool_refuted",
    "C125_octal_refuted",
    "C125_empty_refuted",
    "C125_before_refuted",
    "C125_hex"
   ],
   "note": "REFUTED: a bool takes no value from the next argument; numbers with a leading zero are octal; an empty value after a letter; the shared flags are refused in front of the command. Proved for all other ways of writing, all commands and all orders."
  },
  {
   "property": "C126",
   "status": "partial",
   "theorems": [
    "C126_distinct",
    "C126_reads_partial",
    "C126_storage_refuted",
    "C126_unread_refuted",
    "C126_all_read_partial"
   ],
   "note": "REFUTED: reset-offset reads a flag that does not exist; seven flags are read by nothing. Proved for all others and every command line."
  },
  {
   "property": "C127",
   "status": "partial",
   "theorems": [
    "C127_cat_partial",
    "C127_failure_refuted",
    "C127_format_refuted"
   ],
   "note": "REFUTED: a failed request looks like an empty cluster, an unknown format prints nothing, both with status 0. Proved for the format cat."
  },
  {
   "property": "C128",
   "status": "partial",
   "theorems": [
    "C128_compressed_again",
    "C128_packed_refuted",
    "C128_magic0_partial",
    "C128_relative_refuted"
   ],
   "note": "REFUTED: the value is compressed once more instead of decompressed; relative offsets are not added up. Proved: what comes out for every codec function, and that magic 0 would be right with a decompressor."
  },
  {
   "property": "C129",
   "status": "partial",
   "theorems": [
    "C129_returns",
    "C129_in_time_partial",
    "C129_not_limited",
    "C129_idle_refuted",
    "C129_refuted",
    "C129_group_refuted"
   ],
   "note": "REFUTED: the partition consumers are stopped one after the other before the timer starts, and each waits for its fetch; 61 idle partitions or one silent broker exceed any timeout. Proved: a bound from the number of partitions and the read deadline, and the timeout holds if no fetch is out."
  },
  {
   "property": "C130",
   "status": "partial",
   "theorems": [
    "C130_rejoins",
    "C130_in_session_partial",
    "C130_refuted"
   ],
   "note": "REFUTED: with the default settings 61 idle partitions may take longer than the session. Proved: a bound, and that it is kept with few partitions."
  },
  {
   "property": "C131",
   "status": "partial",
   "theorems": [
    "C131_exclusive_partial",
    "C131_current_partial",
    "C131_no_panic_partial",
    "C131_round",
    "C131_expired_refuted",
    "C131_restart_refuted"
   ],
   "note": "REFUTED when a session times out while the member still consumes, and when a restart begins before the first start is through. Proved otherwise, for any number of members and rounds. The coordinator is modelled after the protocol; its answers are taken to be valid when they are received."
  },
  {
   "property": "C132",
   "status": "partial",
   "theorems": [
    "C132_owner_partial",
    "C132_late_refuted",
    "C132_taken"
   ],
   "note": "REFUTED: a commit under way while the member rejoins carries the new generation and is accepted for a partition of another member. Proved if no commit is under way when the partition consumers are stopped."
  },
  {
   "property": "C133",
   "status": "partial",
   "theorems": [
    "C133_no_deadlock_partial",
    "C133_all_finish_partial",
    "C133_refuted",
    "C133_for_ever"
   ],
   "note": "REFUTED: a request that finds its connection closed where a login is needed waits for the lock it holds itself, and everybody who uses the handle with it. Proved otherwise, for any goroutines: no deadlock, and all can finish."
  },
  {
   "property": "C134",
   "status": "proved",
   "theorems": [
    "C134_close_proceeds",
    "C134_close_ends"
   ],
   "note": ""
  },
  {
   "property": "C135",
   "status": "partial",
   "theorems": [
    "C135_refuted",
    "C135_own_handle_partial"
   ],
   "note": "REFUTED: GetBroker holds the lock of the Brokers while it connects and asks for metadata. Proved: RequestAndGet over a handle nobody else uses waits for its broker only."
  },
  {
   "property": "C136",
   "status": "partial",
   "theorems": [
    "C136_handles_partial",
    "C136_close_refuted",
    "C136_log_refuted",
    "C136_keyed_refuted"
   ],
   "note": "REFUTED: Brokers.Close, a log line of getLeaderBroker and keyed AddMessage use maps without a lock. Proved for the handles of a Brokers otherwise."
  },
  {
   "property": "C137",
   "status": "partial",
   "theorems": [
    "C137_simple_refuted",
    "C137_producer_refuted",
    "C137_consumer_refuted",
    "C137_lookup_refuted",
    "C137_leader_partial",
    "C137_shared_partial",
    "C137_failed_refuted"
   ],
   "note": "REFUTED for every cluster: producers never close the connections of their broker lists, nor does a partition consumer with its own; connections made for a look-up, and those that fail after they were made, stay open. Proved: the connection to the leader is closed, and all others of consumers that share a broker list."
  },
  {
   "property": "C138",
   "status": "partial",
   "theorems": [
    "C138_producer_refuted",
    "C138_consumer_refuted",
    "C138_bound_partial"
   ],
   "note": "REFUTED: every look-up of a producer, and every look-up of an unknown node, leaves one more. Proved: a bound from the nodes, partition consumers and look-ups."
  },
  {
   "property": "C139",
   "status": "partial",
   "theorems": [
    "C139_producer_refuted",
    "C139_restarted_refuted",
    "C139_connections_refuted",
    "C139_producer_partial",
    "C139_bound_partial",
    "C139_not_before",
    "C139_count_refuted",
    "C139_await_refuted",
    "C139_await_partial",
    "C139_awaited",
    "C139_group_refuted",
    "C139_again_refuted",
    "C139_group_partial",
    "C139_until_tick"
   ],
   "note": "REFUTED: the goroutine of a producer that looks up its topic runs for ever and starts others; AwaitClose leaves one when its timer comes first; partition consumers made by a late sync keep theirs; a group consumer used again soon after closing has two of each. Proved: flushing goroutines end, AwaitClose in time leaves none, a settled group consumer leaves none."
  },
  {
   "property": "C140",
   "status": "partial",
   "theorems": [
    "C140_quiet",
    "C140_returns_refuted",
    "C140_returns_partial",
    "C140_returns_flag",
    "C140_closed_refuted",
    "C140_reopened_refuted",
    "C140_closed_partial",
    "C140_commit_refuted",
    "C140_commit_oldest_refuted",
    "C140_commit_forgotten_refuted",
    "C140_commit_partial",
    "C140_last_commit",
    "C140_first_commit",
    "C140_only_stop",
    "C140_not_again",
    "C140_cancelled"
   ],
   "note": "REFUTED: the question for the committed offset is repeated for ever after Stop; the leader connection stays open when Stop comes during the look-up or the question for the offset; -1 and -2 are committed. Proved: nothing is fetched after Stop; Consume returns if that question is answered; the rest if Stop comes after Consume returned."
  },
  {
   "property": "C141",
   "status": "partial",
   "theorems": [
    "C141_asked_partial",
    "C141_nil_refuted",
    "C141_twice_refuted"
   ],
   "note": "REFUTED: a filter of groups set to nil is sent as a null array, which no value of the protocol is; a topic named twice to NewDescribeLogDirsRequest is in the request twice. Proved for all other recipes within the limits of the fields."
  },
  {
   "property": "C142",
   "status": "partial",
   "theorems": [
    "C142_late_partial",
    "C142_start_partial",
    "C142_lost_refuted"
   ],
   "note": "REFUTED: a member that takes over before the first commit starts at the end again, and what was written in between is delivered to nobody. Proved: from the first offset that is committed or resumed on nothing is lost."
  },
  {
   "property": "C143",
   "status": "partial",
   "theorems": [
    "C143_started_partial",
    "C143_completed_partial",
    "C143_reused_refuted",
    "C143_twice_refuted"
   ],
   "note": "REFUTED: a token left in closeChan by AwaitClose ends the next Consume with nothing started; a restart during the first sync starts a partition twice. Proved without those: all are started, once each, and the call comes to its end."
  },
  {
   "property": "C144",
   "status": "partial",
   "theorems": [
    "C144_decided_partial",
    "C144_cut_refuted",
    "C144_reassignment_refuted",
    "C144_groups_refuted",
    "C144_sasl_refuted"
   ],
   "note": "REFUTED: cut anywhere, the answers of the older formats make the client panic; where counts are varints a missing count is zero, so that a refused reassignment is a success and a list of groups is empty; missing bytes of SaslAuthenticate are zeros. Proved for all decoders with fixed-width counts: no beginning is taken for another answer and nothing behind an answer matters."
  },
  {
   "property": "C145",
   "status": "partial",
   "theorems": [
    "C145_only_consumed",
    "C145_known_stored",
    "C145_no_member",
    "C145_returns",
    "C145_requests",
    "C145_commits_partial",
    "C145_ticks",
    "C145_zero_refuted",
    "C145_overlap_refuted"
   ],
   "note": "REFUTED: the position 0 of a new consumer is never committed, because 0 is taken for committed from the start; two calls that overlap can leave the coordinator with the older offset while the newer one is taken for committed. Proved: only positions are sent, only stored offsets are taken for committed, and a call that nothing comes between commits all that moved."
  },
  {
   "property": "C146",
   "status": "partial",
   "theorems": [
    "C146_numbering_broker_partial",
    "C146_one_by_one_partial",
    "C146_committed_unseen_refuted"
   ],
   "note": "REFUTED: with a broker that keeps uncompressed batches as they are sent, a message that was accepted can be handed out by nobody although the whole log is committed (the offset deltas of C07). Proved for brokers that number the records, and for producers that send the messages one by one."
  },
  {
   "property": "C147",
   "status": "partial",
   "theorems": [
    "C147_bounded_partial",
    "C147_plain_partial",
    "C147_asked_partial",
    "C147_read_partial",
    "C147_padding_refuted",
    "C147_user_data_refuted",
    "C147_copies_refuted",
    "C147_tags_refuted",
    "C147_asked_refuted",
    "C147_read_refuted"
   ],
   "note": "REFUTED: sixteen bytes of SaslAuthenticate become 4 GB of zeros, a member can do the same with the user data of its assignment; one resource of AlterConfigs is decoded 2^32-1 times; a tag section that ends early is read on up to 2^64-1 times; every decoder followed asks for 2^31-1 elements on behalf of 22 bytes or fewer, and Read for 4 GB after four bytes. Proved: where none of that occurs a decoded response holds at most two elements or bytes per byte, and when decoding succeeds what was asked for first was there."
  },
  {
   "property": "C148",
   "status": "partial",
   "theorems": [
    "C148_any_checksum_refuted",
    "C148_old_checksum_refuted",
    "C148_damaged_refuted",
    "C148_damaged_old_refuted",
    "C148_rejected_partial",
    "C148_unread_partial"
   ],
   "note": "REFUTED: no checksum is ever compared. Proved: whatever checksums batches carry, they are delivered; a value with a changed byte is delivered. What does hold: nothing is delivered of a last batch that the decompressor rejects, and damage to fields nobody reads changes nothing."
  },
  {
   "property": "C149",
   "status": "partial",
   "theorems": [
    "C149_format_partial",
    "C149_front_partial",
    "C149_beyond_refuted",
    "C149_before_refuted",
    "C149_negative_refuted",
    "C149_headers_refuted"
   ],
   "note": "REFUTED: the key of a record may be made of the next record; the end of a record may be delivered as a record in place of the next one; a negative length is accepted; sixteen bytes become any number of headers. Proved for records in the format, and for any bytes: what is taken is taken from the front, and keys, values and header bytes are among it."
  },
  {
   "property": "C150",
   "status": "partial",
   "theorems": [
    "C150_same_text_partial",
    "C150_event_partial",
    "C150_errors_refuted",
    "C150_nodes_partial",
    "C150_printed_partial",
    "C150_message_partial",
    "C150_text_partial",
    "C150_bytes_refuted",
    "C150_unknown_refuted",
    "C150_hidden_refuted"
   ],
   "note": "REFUTED: names that are no UTF-8 are printed alike; operations and permissions the client does not know are printed alike, an unknown permission like 0; errors of a consumer that are not codes of the protocol are printed alike by group-consumer and console-consumer; the tagged fields of the header of ACL responses and the raw assignments are hidden. Proved for all 16 printed responses and for messages: if strings are texts and the numbers of ACLs are known, what is printed determines everything else; and every string printed is a text."
  },
  {
   "property": "C151",
   "status": "proved",
   "theorems": [
    "C151_response",
    "C151_message",
    "C151_event",
    "C151_one_line",
    "C151_message_text",
    "C151_nodes"
   ],
   "note": "For all 16 printed responses, the maps from brokers, messages and events, in the forms of Marshal and MarshalIndent; the reader is part of the specification. Errors of package net are not modelled. Two messages with the same text: if the keys of their headers are texts."
  },
  {
   "property": "C152",
   "status": "partial",
   "theorems": [
    "C152_kept_refuted",
    "C152_given_up_partial",
    "C152_again_partial",
    "C152_fetch_partial"
   ],
   "note": "REFUTED: after a timeout, or any error but the end of the stream and a broken pipe, the connection is kept, for any number of failing requests. Proved: the end of the stream and a broken pipe end it, and without SASL the next request is answered on a new one; a fetch ends it whatever the error is."
  },
  {
   "property": "C153",
   "status": "partial",
   "theorems": [
    "C153_new_session_refuted",
    "C153_slots_refuted",
    "C153_not_kept"
   ],
   "note": "REFUTED: every fetch of version 7 or 10 asks for a new session and names none; each takes a slot until none is left. Proved: the session a response names is not kept. The sessions of the broker are a specification, without eviction."
  },
  {
   "property": "C154",
   "status": "partial",
   "theorems": [
    "C154_isolation_refuted",
    "C154_uncommitted_refuted",
    "C154_plain_partial"
   ],
   "note": "REFUTED: fetches ask for isolation level 0, and every record of every batch is delivered, whatever its transaction and whatever aborted transactions the response names. Proved for logs without transactions."
  },
  {
   "property": "C155",
   "status": "partial",
   "theorems": [
    "C155_error_refuted",
    "C155_flush_refuted",
    "C155_lost_or_not_refuted",
    "C155_waits_refuted",
    "C155_only_written_partial"
   ],
   "note": "REFUTED: every flush with acks 0 waits for an answer that does not come and ends with the error of the deadline, whether the broker got the messages or not. Proved: the number of acknowledgements is written into the request and changes nothing else. The first part is about all sequences of operations, the waiting about one request on an open connection."
  },
  {
   "property": "C156",
   "status": "partial",
   "theorems": [
    "C156_any_size_refuted",
    "C156_sum_refuted",
    "C156_count_only"
   ],
   "note": "REFUTED: the setting is read by nothing; messages are counted, their bytes are not. For every size there is a run that puts two messages of that size into one request. Proved: the decision depends on the number of messages only (see C32 for the bound on their number). The lower bound of the size is for requests of version 9 without compression."
  },
  {
   "property": "C157",
   "status": "partial",
   "theorems": [
    "C157_metadata_refuted",
    "C157_producer_refuted",
    "C157_offsets_refuted",
    "C157_clean_partial",
    "C157_leader_partial"
   ],
   "note": "REFUTED: the error of one partition is that of the whole response; as long as it lasts NewProducer does not return, a producer is not renewed, and RequestOffsets fails for every partition of the topic. Proved: responses without errors are not refused; findLeader, used by partition consumers and simple producers, finds the leaders of the other partitions."
  },
  {
   "property": "C158",
   "status": "partial",
   "theorems": [
    "C158_elsewhere_refuted",
    "C158_one_partial"
   ],
   "note": "REFUTED: the hash is MurmurHash2 with seed 0, that of Kafka has seed 0x9747b28c and drops the sign bit; for every number of partitions from 2 to 1000 there is a key that goes elsewhere. The hash of Kafka is a specification, checked with its test vectors. With one partition there is no choice."
  },
  {
   "property": "C159",
   "status": "partial",
   "theorems": [
    "C159_append_time_refuted",
    "C159_create_time_partial"
   ],
   "note": "REFUTED: bit 3 of the attributes and the latest timestamp are not read; a message of such a batch is handed out with the right time only if the producer wrote the same. Proved for batches without the bit. Record batches (magic 2) only; codecs none, gzip, snappy, lz4, fields not split between reads (C09, C12)."
  }
 ]
}