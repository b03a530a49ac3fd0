{
 "claims": [
  {
   "property": "C01",
   "status": "proved",
   "theorems": [
    "C01_space_accounting"
   ],
   "note": ""
  },
  {
   "property": "C02",
   "status": "proved",
   "theorems": [
    "C02_byte_deque",
    "C02_failure_keeps_contents"
   ],
   "note": ""
  },
  {
   "property": "C03",
   "status": "proved",
   "theorems": [
    "C03_tail_round_trip",
    "C03_head_round_trip",
    "C03_byte_order"
   ],
   "note": ""
  },
  {
   "property": "C04",
   "status": "proved",
   "theorems": [
    "C04_fixed_width_fails_cleanly",
    "C04_fixed_width_succeeds"
   ],
   "note": ""
  },
  {
   "property": "C05",
   "status": "proved",
   "theorems": [
    "C05_head_bytes_prepend",
    "C05_head_byte_prepend",
    "C04_fixed_width_succeeds",
    "C09_cow_families_independent"
   ],
   "note": "the last theorem gives the same for handles with unshared copy-on-write storage"
  },
  {
   "property": "C06",
   "status": "proved",
   "theorems": [
    "C06_write_counts",
    "C06_read_counts",
    "C06_peek_counts"
   ],
   "note": ""
  },
  {
   "property": "C07",
   "status": "proved",
   "theorems": [
    "C07_writeto_accounts",
    "C07_readfrom_accounts"
   ],
   "note": ""
  },
  {
   "property": "C08",
   "status": "proved",
   "theorems": [
    "C08_direct_copies_independent"
   ],
   "note": "for every history, including ones with Reference snapshots and wrapped slices"
  },
  {
   "property": "C09",
   "status": "proved",
   "theorems": [
    "C09_cow_families_independent",
    "C09_writes_not_observed"
   ],
   "note": "for histories of fewer than 2^31 operations (the reference count is an int32)"
  },
  {
   "property": "C10",
   "status": "partial",
   "theorems": [
    "C10_head_write_on_shared_refuted",
    "C09_cow_families_independent"
   ],
   "note": "refuted: every effective non-empty head write on a sharing buffer panics; holds for buffers that do not share"
  },
  {
   "property": "C11",
   "status": "partial",
   "theorems": [
    "C11_reference_snapshots_partial",
    "C11_reference_beside_cow_refuted"
   ],
   "note": "refuted when the buffer also has a copy-on-write snapshot"
  },
  {
   "property": "C12",
   "status": "partial",
   "theorems": [
    "C12_cow_beside_reference_refuted",
    "C12_cow_of_reference_refuted",
    "C12_mixed_partial"
   ],
   "note": "refuted by a write through a Reference snapshot, and without one as soon as a copy-on-write snapshot is made of a Reference snapshot (the count is one too low); holds for every history that does neither"
  },
  {
   "property": "C13",
   "status": "partial",
   "theorems": [
    "C13_nil_exactly",
    "C13_uses_callers_storage",
    "C13_full_slice_partial",
    "C13_spare_capacity_panics_refuted",
    "C13_spare_capacity_short_write_refuted"
   ],
   "note": "holds for slices with len = cap; refuted for slices with spare capacity"
  },
  {
   "property": "C14",
   "status": "partial",
   "theorems": [
    "C14_readfull_partial",
    "C14_readfull_empty_refuted"
   ],
   "note": "holds for a non-empty buffer; on an empty one io.ReadFull never returns"
  },
  {
   "property": "C15",
   "status": "proved",
   "theorems": [
    "C15_copies_only_when_shared"
   ],
   "note": "for histories of fewer than 2^31 operations"
  },
  {
   "property": "C16",
   "status": "proved",
   "theorems": [
    "C16_coalesced_frames_split",
    "C16_sender_makes_frames"
   ],
   "note": "for chunks below 2^32 bytes"
  },
  {
   "property": "C17",
   "status": "partial",
   "theorems": [
    "C17_split_frames_lost_refuted",
    "C17_whole_frames_partial"
   ],
   "note": "refuted for every frame really cut into chunks shorter than the cache; holds when chunks are whole frames"
  },
  {
   "property": "C18",
   "status": "partial",
   "theorems": [
    "C18_zero_length_crashes_refuted",
    "C18_no_other_crash_partial"
   ],
   "note": "refuted: a zero length field panics; otherwise terminates, no crash without four consecutive zero bytes, hands up only received bytes"
  },
  {
   "property": "C19",
   "status": "partial",
   "theorems": [
    "C19_truncated_handed_up_refuted",
    "C19_exact_output_partial",
    "C19_cuts_total",
    "C19_cuts_unique"
   ],
   "note": "refuted: a frame lacking exactly its last four bytes is handed up; the exact output is characterised"
  },
  {
   "property": "C20",
   "status": "partial",
   "theorems": [
    "C20_one_connection_silences_others_refuted",
    "C20_isolated_partial"
   ],
   "note": "refuted for caches no larger than a chunk; holds for larger ones (the default)"
  },
  {
   "property": "C21",
   "status": "partial",
   "theorems": [
    "C21_terminates_partial",
    "C21_wedged_ignores_all_refuted",
    "C21_one_chunk_wedges_refuted",
    "C21_recovers_partial"
   ],
   "note": "termination holds for every state; getting stuck is refuted for small caches, recovery holds for caches larger than the chunks"
  },
  {
   "property": "C22",
   "status": "proved",
   "theorems": [
    "C22_links_form_a_chain",
    "C22_sent_visits_in_order",
    "C22_received_visits_in_reverse"
   ],
   "note": "the chain for every list of distinct processors and any links left from before; the visits for a message a codec sends or receives"
  },
  {
   "property": "C23",
   "status": "proved",
   "theorems": [
    "C23_headers_fit_below_codec",
    "C23_headers_fit_below_self_message",
    "C23_overhead_is_sum"
   ],
   "note": "MTU below 2^32 (the frame header has 32 bits)"
  },
  {
   "property": "C24",
   "status": "proved",
   "theorems": [
    "C24_end_to_end",
    "C24_end_to_end_coalesced",
    "C24_caches_idle_after_run"
   ],
   "note": "every codec, including user codecs that encode and decode as assumed; MTU below 2^32"
  },
  {
   "property": "C25",
   "status": "proved",
   "theorems": [
    "C25_fitting_message_sent_whole",
    "C25_oversize_sends_nothing",
    "C25_no_room_crashes_sending_nothing"
   ],
   "note": "with an MTU below the overhead a send panics, but nothing is sent"
  },
  {
   "property": "C26",
   "status": "partial",
   "theorems": [
    "C26_session_in_range_partial",
    "C26_session_lost_refuted"
   ],
   "note": "refuted for sessions outside 0..2^32-1 and for stacks without SessionResolver"
  },
  {
   "property": "C27",
   "status": "partial",
   "theorems": [
    "C27_disabled_transparent_partial",
    "C27_disabled_tag_refuted",
    "C27_disabled_tag_receive_refuted",
    "C27_disabled_loopback_refuted"
   ],
   "note": "refuted for Heartbeat, LoadBalancer, StatCounter and Loopback"
  },
  {
   "property": "C28",
   "status": "proved",
   "theorems": [
    "C28_discarder_forwards_and_keeps",
    "C28_discarder_hands_up_nothing",
    "C28_flow_controller_transparent",
    "C28_loopback_returns",
    "C28_loopback_below_headers"
   ],
   "note": ""
  },
  {
   "property": "C29",
   "status": "partial",
   "theorems": [
    "C29_echo_returns_partial",
    "C29_echo_over_frame_refuted"
   ],
   "note": "refuted over a FrameDecoder"
  },
  {
   "property": "C30",
   "status": "partial",
   "theorems": [
    "C30_new_filter_crashes_refuted",
    "C30_filter_functions_partial",
    "C30_forwarder_functions_partial"
   ],
   "note": "refuted: the constructors leave a nil function; holds for the function lists without it"
  },
  {
   "property": "C31",
   "status": "partial",
   "theorems": [
    "C31_balancers_lose_everything_refuted",
    "C24_end_to_end"
   ],
   "note": "refuted for every message; the end-to-end theorem covers disabled LoadBalancers"
  },
  {
   "property": "C32",
   "status": "partial",
   "theorems": [
    "C32_references_bypass_partial",
    "C32_frame_decoder_never_returns_refuted",
    "C32_frame_decoder_on_top_refuted"
   ],
   "note": "refuted with a FrameDecoder anywhere"
  },
  {
   "property": "C33",
   "status": "partial",
   "theorems": [
    "C33_self_message_closes_reference_refuted",
    "C33_self_message_on_bytes_partial"
   ],
   "note": "refuted for every stack; holds on byte connections"
  },
  {
   "property": "C34",
   "status": "partial",
   "theorems": [
    "C34_no_connection_quiet_partial",
    "C34_no_connection_crashes_refuted",
    "C34_no_connection_crashes_above_codec_refuted"
   ],
   "note": "refuted for header processors that ask the connection"
  },
  {
   "property": "C35",
   "status": "partial",
   "theorems": [
    "C35_counters_count_partial",
    "C35_response_carries_counters_partial",
    "C35_concurrent_lost_refuted",
    "C35_concurrent_goes_back_refuted",
    "C35_never_more_partial",
    "C35_undisturbed_partial"
   ],
   "note": "proved for every sequential history; refuted for concurrent messages, where the counter is only an upper-bounded count"
  },
  {
   "property": "C36",
   "status": "proved",
   "theorems": [
    "C36_unsendable_ignored",
    "C36_codec_ignores_empty_buffer"
   ],
   "note": "the second theorem for stacks without FrameDecoder below the codec (a frame of nothing is C18)"
  },
  {
   "property": "C37",
   "status": "partial",
   "theorems": [
    "C37_ordered_sets_partial",
    "C37_no_effect",
    "C37_nested_add_duplicates_refuted",
    "C37_nested_delete_removes_another_refuted",
    "C37_nested_delete_crashes_refuted",
    "C37_endless_delete_refuted"
   ],
   "note": "proved for event handlers that do not call the stack; refuted for handlers that add or delete the endpoint in question"
  },
  {
   "property": "C38",
   "status": "partial",
   "theorems": [
    "C38_publish_delivers_partial",
    "C38_everybody_told_partial",
    "C38_effective_calls_publish_once_partial",
    "C37_nested_delete_removes_another_refuted"
   ],
   "note": "proved for event handlers that do not call the stack; with nested deletion an endpoint vanishes without an event"
  },
  {
   "property": "C39",
   "status": "partial",
   "theorems": [
    "C39_returned_list_changes_refuted",
    "C39_returned_list_overwritten_refuted",
    "C39_returned_list_stable_partial",
    "C39_self_deletion_misses_refuted",
    "C39_self_deletion_harmless_partial"
   ],
   "note": "refuted; holds while nothing is deleted, and for the last two endpoints"
  },
  {
   "property": "C40",
   "status": "partial",
   "theorems": [
    "C40_overhead_multiplied_refuted",
    "C40_overhead_wrong_refuted",
    "C40_overhead_after_one_run_partial"
   ],
   "note": "refuted: k Runs give k times the sum"
  },
  {
   "property": "C41",
   "status": "proved",
   "theorems": [
    "C41_last_set_wins",
    "C41_typed_reads",
    "C41_mtu_in_force"
   ],
   "note": ""
  },
  {
   "property": "C42",
   "status": "partial",
   "theorems": [
    "C42_one_per_session_partial",
    "C42_first_serves_partial",
    "C42_starvation_refuted",
    "C42_two_serve_refuted",
    "C42_serial_one_partial",
    "C42_delivered_partial"
   ],
   "note": "refuted: deleting the serving endpoint silences the others of its session, and concurrent additions can both succeed; holds for lonely deletions and non-overlapping additions"
  },
  {
   "property": "C43",
   "status": "partial",
   "theorems": [
    "C43_one_listener_in_order_partial",
    "C43_non_nil_exactly_once_partial",
    "C43_replaced_in_order_partial",
    "C43_reordered_refuted",
    "C43_nil_call_refuted",
    "C43_dropped_refuted"
   ],
   "note": "proved for every interleaving when SetDataListener is called once, exactly-once for non-nil listeners; refuted when the listener is set again (order) or set to nil"
  },
  {
   "property": "C44",
   "status": "partial",
   "theorems": [
    "C44_non_nil_keeps_receiving_partial",
    "C44_outside_window_keeps_receiving_partial",
    "C44_lost_wakeup_refuted"
   ],
   "note": "refuted by a lost wake-up; holds when nil is never set or the window is avoided"
  },
  {
   "property": "C45",
   "status": "partial",
   "theorems": [
    "C45_deleted_goes_on_refuted",
    "C45_busy_goes_on_refuted",
    "C45_idle_stops_partial",
    "C45_turn_partial",
    "C45_delete_never_blocks"
   ],
   "note": "refuted when the goroutine is busy at the deletion; holds when it waits"
  },
  {
   "property": "C46",
   "status": "proved",
   "theorems": [
    "C46_hand_over",
    "C42_delivered_partial"
   ],
   "note": "for every interleaving and every channel capacity"
  },
  {
   "property": "C47",
   "status": "partial",
   "theorems": [
    "C47_without_stop_partial",
    "C47_never_closes_twice_partial",
    "C47_unix_no_nil_connection_partial",
    "C47_crash_ends_partial",
    "C47_send_crashes_refuted",
    "C47_accept_crashes_refuted",
    "C47_nil_connection_crashes_refuted",
    "C47_stop_after_run_crashes_refuted"
   ],
   "note": "refuted: Stop races with the accept and connect goroutines; holds without user Stops, and Stop itself never closes a closed channel"
  },
  {
   "property": "C48",
   "status": "partial",
   "theorems": [
    "C48_left_open_refuted",
    "C48_settled_closes_partial",
    "C48_backlog_partial",
    "C48_stop_ends_partial",
    "C48_only_close_closes_refuted"
   ],
   "note": "refuted for connections that wait in the channel at Stop; holds for one Run stopped when no connection is on its way. Stop of a reference transport closes nothing"
  },
  {
   "property": "C49",
   "status": "proved",
   "theorems": [
    "C49_fifo",
    "C49_in_call_order",
    "C49_send_enabled",
    "C49_receive_enabled"
   ],
   "note": "any number of transports and addresses, every schedule, every MaxQueueSize including 0"
  },
  {
   "property": "C50",
   "status": "partial",
   "theorems": [
    "C50_stop_nothing_refuted",
    "C50_channel_kept_refuted",
    "C50_run_again_connects_refuted",
    "C50_stale_refuted",
    "C50_second_run_sticks_refuted",
    "C50_stuck_forever_refuted",
    "C50_not_stuck_partial",
    "C50_mutex_holder_partial",
    "C50_first_run_partial",
    "C50_panics_refuted",
    "C50_panics_only_partial",
    "C50_must_panic_refuted",
    "C50_own_lock_partial",
    "C50_next_partial"
   ],
   "note": "refuted: Stop never does anything, Run is not idempotent and can block forever, and panics exactly for a negative MaxQueueSize on an address not yet used; Run does not block if NextConnection keeps up"
  },
  {
   "property": "C51",
   "status": "proved",
   "theorems": [
    "C51_outcome",
    "C51_gives_up",
    "C51_dials_at_most",
    "C51_handed_at_most",
    "C51_handed_once"
   ],
   "note": "per Run; TCP and Unix"
  },
  {
   "property": "C52",
   "status": "partial",
   "theorems": [
    "C52_new_before_data",
    "C52_announced_at_most_once",
    "C52_closing_events_partial",
    "C52_end_closes",
    "C52_closed_by",
    "C52_closed_is_last_partial",
    "C52_exactly_once_refuted",
    "C52_data_after_closed_refuted"
   ],
   "note": "refuted: a failed write publishes the closing event as well, even before data that is still handed up; without failing writes exactly one closing event, the last event of the connection"
  },
  {
   "property": "C53",
   "status": "partial",
   "theorems": [
    "C53_lost_only_after_timeout",
    "C53_check_reports_all",
    "C53_once_per_silence",
    "C53_closed_if_set",
    "C53_not_closed_if_unset",
    "C53_registered_in_time_partial",
    "C53_check_ends",
    "C53_check_bounded",
    "C53_waiting_beat_registered",
    "C53_late_is_reported",
    "C53_in_time_lost_refuted"
   ],
   "note": "all proved for heartbeats as registered; refuted for heartbeats as they arrive: a check that reports another connection keeps them from being registered"
  },
  {
   "property": "C54",
   "status": "partial",
   "theorems": [
    "C54_ended_lost_refuted",
    "C54_nothing_in_flight_partial",
    "C54_at_most_once_partial"
   ],
   "note": "refuted when a heartbeat is in flight as the goroutine ends; otherwise holds, and at most one report in any case"
  },
  {
   "property": "C55",
   "status": "proved",
   "theorems": [
    "C55_heartbeat_only_refreshes",
    "C55_user_messages_pass"
   ],
   "note": ""
  },
  {
   "property": "C56",
   "status": "partial",
   "theorems": [
    "C56_setters_return_the_object_partial",
    "C56_base_setters_return_another_refuted"
   ],
   "note": "refuted for bare bases and features"
  },
  {
   "property": "C57",
   "status": "partial",
   "theorems": [
    "C57_sent_exactly_once_partial",
    "C57_sent_in_order_partial",
    "C57_overtaking_refuted",
    "C57_put_enabled",
    "C57_steps_partial",
    "C57_ends_partial"
   ],
   "note": "exactly-once holds for every schedule; the order is refuted when an endpoint is deleted while busy and registered again"
  },
  {
   "property": "C58",
   "status": "partial",
   "theorems": [
    "C58_restart_stops_refuted",
    "C58_restart_runs_partial"
   ],
   "note": "refuted: the old accept goroutine stops the new run; holds once the goroutines of former runs have ended"
  },
  {
   "property": "C59",
   "status": "partial",
   "theorems": [
    "C59_closed_delivers_refuted",
    "C59_peer_waits_refuted",
    "C59_peer_sends_refuted",
    "C59_closed_refuses_partial",
    "C59_refuses_only_partial",
    "C59_never_nil_partial",
    "C59_one_call_partial",
    "C59_in_a_call_partial"
   ],
   "note": "refuted; the closed connection, and no other, refuses later calls; GetReference never returns nil without error"
  },
  {
   "property": "C60",
   "status": "partial",
   "theorems": [
    "C60_stalled_refuted",
    "C53_check_ends"
   ],
   "note": "refuted in every state in which check runs; check itself never waits"
  },
  {
   "property": "C61",
   "status": "partial",
   "theorems": [
    "C61_overlap_refuted",
    "C61_alone_partial",
    "C61_callers_apart_partial",
    "C61_order_partial"
   ],
   "note": "refuted from every state that can be reached, for the next write of every caller; proved: the callers among themselves are apart, and nothing overlaps before the first endpoint is accepted"
  },
  {
   "property": "C62",
   "status": "partial",
   "theorems": [
    "C62_isolation_refuted",
    "C62_isolated_partial",
    "C62_one_writer_partial",
    "C62_writes_finish_partial",
    "C62_write_steps_partial",
    "C62_write_ends_partial",
    "C62_calls_partial",
    "C62_alloc_partial"
   ],
   "note": "refuted: the count is decremented before the bytes are copied, so a second writer can take the storage for its own and overwrite what is still being copied; holds for all interleavings in which no count is loaded during a copy, in particular with one writing goroutine"
  },
  {
   "property": "C63",
   "status": "proved",
   "theorems": [
    "C63_sent_as_set"
   ],
   "note": "for every interleaving in which no message is changed on its way"
  },
  {
   "property": "C64",
   "status": "partial",
   "theorems": [
    "C64_other_session_refuted",
    "C64_shared_session_refuted",
    "C64_same_session_partial",
    "C64_own_session_partial",
    "C64_admission_partial"
   ],
   "note": "refuted as soon as an accepted endpoint is given another session; holds while none is"
  },
  {
   "property": "C65",
   "status": "partial",
   "theorems": [
    "C65_reused_message_refuted",
    "C63_sent_as_set"
   ],
   "note": "refuted for every setter; holds for messages left alone until they have been passed down"
  },
  {
   "property": "C66",
   "status": "partial",
   "theorems": [
    "C66_still_sends_refuted",
    "C66_still_receives_refuted",
    "C66_never_seen_refuted",
    "C66_out_of_order_refuted",
    "C66_goroutines_refuted",
    "C66_stopped_partial",
    "C66_in_order_partial",
    "C66_receives_registered_partial",
    "C66_lost_nobody_partial",
    "C66_registers_partial",
    "C66_calls_partial",
    "C66_given_or_lost_partial"
   ],
   "note": "refuted from every state by one more Run: the goroutines of the former Run go on and get no events; holds for stacks that are run once"
  },
  {
   "property": "C67",
   "status": "partial",
   "theorems": [
    "C67_held_up_refuted",
    "C67_others_go_on_partial",
    "C67_let_go_partial"
   ],
   "note": "refuted: a message for a full channel blocks the receiving goroutine of its connection, and everything behind it; other connections go on, and the connection too once the listener takes a message"
  },
  {
   "property": "C68",
   "status": "partial",
   "theorems": [
    "C68_dropped_refuted",
    "C68_lost_silently_refuted",
    "C68_reported_partial",
    "C68_report_comes_partial",
    "C68_all_sent_partial",
    "C68_goes_on_partial",
    "C68_steps_partial",
    "C68_ends_partial"
   ],
   "note": "refuted: Write on a closed connection returns no error, so every message sent after a close is dropped without an event; calls whose Write fails do publish the event"
  },
  {
   "property": "C69",
   "status": "proved",
   "theorems": [
    "C69_whole_in_order",
    "C69_after_the_end",
    "C69_handed_up"
   ],
   "note": "for every schedule, under the stated assumptions on net.Conn; frames that the peer reads in pieces are C17"
  },
  {
   "property": "C70",
   "status": "partial",
   "theorems": [
    "C70_mixed_refuted",
    "C70_crash_refuted",
    "C70_isolated_partial",
    "C70_whole_frames_partial",
    "C70_crash_partial",
    "C70_finishes_partial",
    "C70_steps_partial",
    "C70_ends_partial",
    "C70_alone_partial",
    "C70_alone_finishes_partial"
   ],
   "note": "refuted when chunks can be as long as the cache (option CacheCapacity at most the MTU); holds, each chunk decoded alone as in C17, for every interleaving when chunks are shorter than the cache (the default)"
  },
  {
   "property": "C71",
   "status": "partial",
   "theorems": [
    "C71_in_order_partial",
    "C71_finishes_partial",
    "C71_ends_partial",
    "C71_bounded_partial",
    "C71_truncated_refuted"
   ],
   "note": "holds, and every schedule ends with everything heard, when Reads end where Writes ended (several Writes per Read with a frame decoder lowest); refuted otherwise: a Read that returns all of a frame but its last four bytes makes the listener see a truncated message, for every such stack and message"
  },
  {
   "property": "C72",
   "status": "partial",
   "theorems": [
    "C72_leads_partial",
    "C72_file_removed_refuted",
    "C72_listener_replaced_refuted"
   ],
   "note": "holds when every Run comes after the end of the earlier accept goroutines, for any number of restarts; refuted otherwise for Unix: from every state with a waiting goroutine the old goroutine can remove the new socket file, and from every state between Listen and the assignment the listener can be replaced by the old one"
  },
  {
   "property": "C73",
   "status": "partial",
   "theorems": [
    "C73_never_in_use_partial",
    "C73_free_partial",
    "C73_in_use_ends_partial",
    "C73_unix_never_in_use_partial",
    "C73_tcp_in_use_refuted",
    "C73_unix_in_use_refuted"
   ],
   "note": "holds when Run waits for the end of the earlier goroutines and Stop for the listener (Unix: the first is enough for not ending the program); refuted otherwise: Stop and Run between Listen and the assignment of the listener (TCP) or before Listen (Unix) end the program, from every such state"
  },
  {
   "property": "C74",
   "status": "partial",
   "theorems": [
    "C74_own_answers_partial",
    "C74_clients_only_partial",
    "C74_same_answers_partial",
    "C74_comes_to_rest_partial",
    "C74_all_served_partial",
    "C74_bounded_partial",
    "C74_truncated_refuted"
   ],
   "note": "holds when a Read of a connection returns all the bytes that are there (no frame decoder is needed then, since a client has one message under way at most); refuted otherwise, for every such setup with a frame decoder: a Read that misses the last four bytes of a request makes the listener answer, and the client read the answer to, a message nobody sent"
  },
  {
   "property": "C75",
   "status": "partial",
   "theorems": [
    "C75_zero_field_refuted",
    "C75_returns_partial",
    "C75_no_decoder_partial",
    "C75_no_zero_field_partial"
   ],
   "note": "refuted for every stack with a frame decoder at the bottom: a chunk that starts with four zero bytes ends the program.  Otherwise: every reception ends; without an enabled frame decoder every sequence of inputs ends normally; with frame decoders of default capacity too, as long as no chunk contains four zero bytes in a row.  Stacks with Loopback are covered for receptions only (with Echo above it a send never returns)"
  },
  {
   "property": "C76",
   "status": "partial",
   "theorems": [
    "C76_live_partial",
    "C76_dead_partial",
    "C76_dead_again_partial",
    "C76_noticed_partial",
    "C76_interval_refuted",
    "C76_every_gap_refuted",
    "C76_time_goes_on",
    "C76_pace_partial"
   ],
   "note": "refuted for intervals that exceed the timeout by the delays and the second between two checks, which nothing forbids and which the example of the repository uses: there every live peer is reported in every execution.  Otherwise: if the timeout exceeds the interval by the delays no live peer is reported, and a dead one is reported within g_net + timeout + 1 s + g_wake + 2 g_check.  Bounded delays (PulseSpec: timely) are assumed; C76_time_goes_on shows that they can always be met"
  },
  {
   "property": "C77",
   "status": "partial",
   "theorems": [
    "C77_collected_partial",
    "C77_small_room_refuted",
    "C77_switched_off_refuted",
    "C77_no_answer_partial"
   ],
   "note": "holds for enabled StatCounters if the answering stack has room for 16 bytes beside its headers; of the name 128 bytes are shown, filled up with zero bytes, and less if they do not fit.  Refuted otherwise: with less room the received messages are shown as 0, and a StatCounter that is switched off asks all the same and lets the answer go to an endpoint as a message.  The timer of the requests is left out: a request can come at any time (C77_collected_partial has them one after the other)"
  },
  {
   "property": "C78",
   "status": "partial",
   "theorems": [
    "C78_ahead_partial",
    "C78_too_far_ahead_refuted",
    "C78_own_goroutine_partial"
   ],
   "note": "exact for a user in one goroutine: with at most 2053 questions and the places of the connection ahead, every execution ends with the program finished; further ahead, no execution does.  Holds without a limit if the answers are taken in another goroutine.  The places of the connection are counted in messages"
  },
  {
   "property": "C79",
   "status": "partial",
   "theorems": [
    "C79_few_questions_partial",
    "C79_all_blocked_refuted"
   ],
   "note": "exact: all questions are answered in every execution if one side asks nothing or both together ask fewer than 2054 questions plus the places of the connection; in all other cases there is an execution that ends with both sides blocked for good"
  },
  {
   "property": "C80",
   "status": "partial",
   "theorems": [
    "C80_one_at_a_time_partial",
    "C80_served_partial",
    "C80_steps_partial",
    "C80_ends_partial",
    "C80_lost_addition_refuted",
    "C80_listed_twice_refuted",
    "C80_wrong_deletion_refuted",
    "C80_panic_ends_partial"
   ],
   "note": "proved for calls made one at a time, with any publications in between; in every interleaving an endpoint added and never deleted is served.  Refuted for overlapping calls, from every state: an addition is lost, an endpoint is listed twice, a deletion removes another endpoint or panics"
  },
  {
   "property": "C81",
   "status": "partial",
   "theorems": [
    "C81_in_front_partial",
    "C81_no_deletion_partial",
    "C81_goes_on_partial",
    "C81_number_partial",
    "C81_passed_over_refuted",
    "C81_told_twice_refuted"
   ],
   "note": "proved for the endpoints in front of everything deleted during the publication, so for all if nothing is deleted meanwhile (and the publication does not begin in the middle of a deletion); refuted, for every list, for an endpoint behind the deleted one"
  },
  {
   "property": "C82",
   "status": "partial",
   "theorems": [
    "C82_deletion_returns_partial",
    "C82_deletion_ends_partial",
    "C82_crash_ends_partial",
    "C82_left_behind_refuted"
   ],
   "note": "proved, with a bound on the number of steps, for a deletion when no connection is on its way from the socket to its announcement, no dial is going on and none comes in during Stop, any number of additions and deletions one after the other; refuted from every state in which a connection waits in the channel: it is announced after the deletion, stays open, and its data is handed up"
  },
  {
   "property": "C83",
   "status": "partial",
   "theorems": [
    "C83_kept_once_partial",
    "C83_never_dropped_refuted",
    "C83_kept_refuted"
   ],
   "note": "each connection is kept once; refuted from every state of a waiting server: nothing is taken from the list until the transport is stopped and run again, so it grows with every connection"
  },
  {
   "property": "C84",
   "status": "partial",
   "theorems": [
    "C84_in_order_partial",
    "C84_finishes_partial",
    "C84_ends_partial",
    "C84_bounded_partial",
    "C84_session_refuted",
    "C84_anyone_refuted"
   ],
   "note": "proved: every object reaches exactly one stack of the other side, in the order of its sender, is heard by its endpoint with session 0, and every schedule ends with everything heard; refuted: no other session ever hears anything, whatever the destination, and with several stacks on one side any of them can get what was meant for another"
  },
  {
   "property": "C85",
   "status": "partial",
   "theorems": [
    "C85_one_at_a_time_partial",
    "C85_counts_partial",
    "C85_ends_partial",
    "C85_failed_write_refuted",
    "C85_counted_once_refuted",
    "C85_overlap_refuted"
   ],
   "note": "proved if events are published one after the other: the count is the number of living connections less the number of failed writes; refuted from every state with a write under way, and from every state with two connections about to be announced"
  },
  {
   "property": "C86",
   "status": "partial",
   "theorems": [
    "C86_found_partial",
    "C86_port_refuted",
    "C86_name_refuted",
    "C86_ends_refuted"
   ],
   "note": "proved for names and addresses without colons, names that do not end in reg, and histories of harmless requests; refuted for all addresses with a colon and all names that end in reg, and the requests that end the center are characterised exactly"
  },
  {
   "property": "C87",
   "status": "partial",
   "theorems": [
    "C87_last_partial",
    "C87_answered_partial",
    "C87_in_order_partial",
    "C87_first_two_partial",
    "C87_only_two_refuted",
    "C87_third_blocks_refuted",
    "C87_misdirected_refuted"
   ],
   "note": "proved: a write goes to the connection announced or read from last, and the first two connections can be served; refuted: no session ever serves a third, and from every state in which a request waits its answer can go to a new connection"
  },
  {
   "property": "C88",
   "status": "partial",
   "theorems": [
    "C88_in_order_partial",
    "C88_own_partial",
    "C88_finishes_partial",
    "C88_ends_partial",
    "C88_bounded_partial",
    "C88_truncated_refuted"
   ],
   "note": "holds for every interleaving of both sides and of the processors' own goroutines, each of which ends with everything heard, when Reads end where Writes ended; refuted otherwise: a Read that returns all of a frame but its last four bytes makes the listener see a truncated message, for every such pair of stacks and message"
  },
  {
   "property": "C89",
   "status": "partial",
   "theorems": [
    "C89_message_crash_refuted",
    "C89_zeros_written_refuted",
    "C89_crash_refuted",
    "C89_message_silences_refuted",
    "C89_no_crash_partial",
    "C89_recovers_partial"
   ],
   "note": "refuted: one message for session 0 through a SessionResolver (or any message with four zero bytes) ends the program if a Read begins at these bytes, and with CacheCapacity at most the MTU a message of ordinary letters can silence the receiver for good; proved: no four zero bytes written and default capacity, then every Read ends normally, and after any survived history a new connection loses nothing while Reads end where Writes ended"
  },
  {
   "property": "C90",
   "status": "partial",
   "theorems": [
    "C90_lost_refuted",
    "C90_back_refuted",
    "C90_bounds_partial",
    "C90_alone_partial"
   ],
   "note": "refuted: the counters are incremented without synchronisation; two goroutines can pass on any numbers of messages while the counter grows by two, and reports can go back; proved: never more than was counted, never none, and exact if only one goroutine passes messages"
  },
  {
   "property": "C91",
   "status": "partial",
   "theorems": [
    "C91_forever_refuted",
    "C91_one_mute_partial",
    "C91_mute_partial",
    "C91_mirror_partial",
    "C91_honest_partial"
   ],
   "note": "refuted: two stacks with an Echo lowest send the same bytes to and fro for ever, whatever was sent; proved: a bound on the Reads if neither side answers, if one side echoes and the other is mute, and for honest traffic with heartbeats and statistics between stacks without Echo"
  },
  {
   "property": "C92",
   "status": "partial",
   "theorems": [
    "C92_lost_refuted",
    "C92_plain_codecs_refuted",
    "C92_fitting_partial"
   ],
   "note": "refuted: what does not fit the MTU of the receiver with its headers is written and never heard, in any execution; proved: what fits both sides can always arrive"
  },
  {
   "property": "C93",
   "status": "proved",
   "theorems": [
    "C93_heard_was_written",
    "C93_heard_in_order",
    "C93_both_ways"
   ],
   "note": "any frame-decoder cache capacities; user decoders are arbitrary functions"
  },
  {
   "property": "C94",
   "status": "partial",
   "theorems": [
    "C94_listed_partial",
    "C94_found_partial",
    "C94_renamed_partial",
    "C94_started_partial",
    "C94_others_told_partial",
    "C94_told_exactly_partial",
    "C94_stack_given_partial",
    "C94_twice_refuted",
    "C94_told_refuted",
    "C94_stackless_refuted",
    "C94_hidden_refuted",
    "C94_chained_refuted"
   ],
   "note": "refuted: no event reaches a feature, Run does not give it the stack, one added twice is run twice, a second one of the same name is not found, and the object that SetName of a FeatBase returns is another one; proved: lookup is by first current name, Run runs all in order before the decks and processors"
  },
  {
   "property": "C95",
   "status": "partial",
   "theorems": [
    "C95_stream",
    "C95_pieces",
    "C95_in_order_partial",
    "C95_own_partial",
    "C95_finishes_partial",
    "C95_ends_partial",
    "C95_joined_refuted"
   ],
   "note": "refuted: without frames, as in examples/echo, two messages that come back in one Read are heard as one; proved: the server writes what it reads for any Reads, and with Reads that end where Writes ended all comes back in order and can always still do so; the client counts its own heartbeats as those of the peer"
  },
  {
   "property": "C96",
   "status": "partial",
   "theorems": [
    "C96_glued_refuted",
    "C96_dropped_refuted",
    "C96_groups_partial",
    "C96_apart_partial",
    "C96_stream_partial"
   ],
   "note": "refuted: two messages in one Read are heard as at most one, at the first one's session, or not at all; proved: for every run what is heard is exactly what the codec makes of the bytes of each Read, and with one Write per Read all messages stay apart and in order; Bytes and String codecs without headers below them carry the bytes as a stream for any Reads; for other codecs Reads that end inside a Write are not covered (C93 bounds what can be heard)"
  },
  {
   "property": "C97",
   "status": "partial",
   "theorems": [
    "C97_in_order_partial",
    "C97_finishes_partial",
    "C97_ends_partial",
    "C97_never_stuck_partial",
    "C97_bounded_partial",
    "C97_all_kept_partial",
    "C97_stuck_refuted"
   ],
   "note": "refuted: if a listener sends from the endpoint its messages come from, two messages more than both channels hold make its first call wait for ever; proved: order, exactly once and no Write for all listeners; if the listeners send nothing every schedule ends, within six steps per message, with everything heard; no standstill up to one message less if they send at most one message each; processors between codec and Loopback may be any that carry messages, except frame decoders (which keep bytes)"
  },
  {
   "property": "C98",
   "status": "partial",
   "theorems": [
    "C98_shared_partial",
    "C98_last_partial",
    "C98_unknown_partial",
    "C98_run_partial",
    "C98_waits_partial",
    "C98_early_refuted",
    "C98_twice_panics_refuted",
    "C98_twice_nil_refuted",
    "C98_closed_channel_partial"
   ],
   "note": "about arbitrary states: no execution reaches the code behind the test (C50_stop_nothing_refuted); proved: exactly what one Stop does; refuted: Stop does not clear isRunning, so a second Stop takes the share of the peer, whose SetReference panics and whose GetReference returns nil without error; Stop before NextConnection panics"
  },
  {
   "property": "C99",
   "status": "partial",
   "theorems": [
    "C99_counters_partial",
    "C99_in_order_partial",
    "C99_under_way_partial",
    "C99_never_stuck_partial",
    "C99_keeps_going_partial",
    "C99_sizes_partial",
    "C99_silent_refuted",
    "C99_unanswered_refuted"
   ],
   "note": "refuted: with an empty package or one larger than MTU - overhead TxCount grows for ever although nothing is sent; proved for the other sizes: at most 2054 + k1 + k2 messages are unanswered, no standstill, and in every schedule answers keep coming; one client and one server"
  },
  {
   "property": "C100",
   "status": "partial",
   "theorems": [
    "C100_switch_partial",
    "C100_unseen_partial",
    "C100_unseen_finishes_partial",
    "C100_unseen_ends_partial",
    "C100_careful_partial",
    "C100_finishes_partial",
    "C100_receiver_refuted",
    "C100_sender_refuted",
    "C100_codec_refuted",
    "C100_discarder_refuted"
   ],
   "note": "refuted: a session resolver or frame decoder switched off while a message is under way makes its header part of the message, one switched off at the sender lets the message choose its session, a codec switched off and a discarder switched on drop messages silently; proved: statistics counters, heartbeats and flow controllers may be switched at any moment, and any processor while nothing is under way, if messages are sent only while the two stacks agree, and every schedule ends; a message meets the switches of one moment (C101: of several)"
  },
  {
   "property": "C101",
   "status": "partial",
   "theorems": [
    "C101_alone_partial",
    "C101_as_one_partial",
    "C101_in_order_partial",
    "C101_stops_partial",
    "C101_ends_partial",
    "C101_exact_partial",
    "C101_gets_out_partial",
    "C101_any_between_refuted",
    "C101_between_refuted"
   ],
   "note": "refuted: a session resolver switched off and on again while a message is before it lets the message choose its session, though the stacks agree whenever a message is taken, written or read, and in every stack every processor below the codec can so leave out its header; proved: under any switching below the codec a message is never lost at the sender and is written exactly as the switches it met make it; every interleaving of the single calls, with statistics counters, heartbeats and flow controllers switched meanwhile, shows what a run shows in which each message passes at once, every message is heard in order, and every schedule ends; what one processor does to one message is one step"
  },
  {
   "property": "C102",
   "status": "partial",
   "theorems": [
    "C102_last_place_partial",
    "C102_deaf_refuted",
    "C102_endless_refuted",
    "C102_skipped_refuted"
   ],
   "note": "refuted for every stack in which an instance is appended twice: nothing received ever reaches an endpoint (whatever the processors do), transparent processors recurse without end, and a message sent skips what is between the two places; proved: which neighbours every instance has; without repetition see C22"
  },
  {
   "property": "C103",
   "status": "partial",
   "theorems": [
    "C103_own_partial",
    "C103_taken_over_refuted",
    "C103_one_stack_partial"
   ],
   "note": "refuted for every two stacks with one common instance: the stack that ran first sends through the other stack to its transports and what it receives goes to the other stack's endpoints; proved: a stack whose instances no later Run uses has its own chain, for any number of stacks"
  },
  {
   "property": "C104",
   "status": "partial",
   "theorems": [
    "C104_one_more_partial",
    "C104_all_return_partial",
    "C104_served_partial",
    "C104_room_partial",
    "C104_in_order_partial",
    "C104_returned_partial",
    "C104_sends_partial",
    "C104_deleted_refuted",
    "C104_left_behind_refuted",
    "C104_untested_refuted",
    "C104_untested_sends_refuted"
   ],
   "note": "refuted: from every state in which the endpoint waits for messages, its deletion can leave a goroutine whose connection is open at the full channel for ever, also when the connection is closed later; without the test (dynamic_transport) none ever returns; proved: at most one message after the close, every schedule ends with all returned while the endpoint is served, or when the deletion comes after the closings and the channel has room"
  },
  {
   "property": "C105",
   "status": "partial",
   "theorems": [
    "C105_same_as_alone_partial",
    "C105_no_difference_partial",
    "C105_inside_partial",
    "C105_messages_partial",
    "C105_sends_partial",
    "C105_objects_partial",
    "C105_all_shown_partial",
    "C105_crash_partial",
    "C105_goes_on_partial",
    "C105_ends_partial",
    "C105_finish_partial",
    "C105_all_start_partial",
    "C105_needs_partial",
    "C105_frame_refuted",
    "C105_counter_refuted"
   ],
   "note": "refuted: a frame decoder whose cache is full of the beginning of one connection's message loses the messages of the others, and a StatCounter answers one connection with a count that the others changed; proved for all stacks of processors that keep nothing (no frame decoder, no StatCounter switched on) and connections that answer writes alike: every chunk or object read, every message sent and every message of a processor itself shows what it shows alone, in every schedule, a crash is one of that job alone, no goroutine waits for another, and each job takes at most 2n+4 steps of its goroutine without a Loopback"
  }
 ]
}