{
 "claims": [
  {
   "property": "C01",
   "status": "proved",
   "theorems": [
    "c01_ring_accounting",
    "c01_alloc_accounting",
    "c01_free_accounting"
   ],
   "note": ""
  },
  {
   "property": "C02",
   "status": "proved",
   "theorems": [
    "c02_ring_is_fifo"
   ],
   "note": ""
  },
  {
   "property": "C03",
   "status": "partial",
   "theorems": [
    "c03_trim_refuted",
    "c03_trim_exact"
   ],
   "note": "False as stated: trim can leave the wrong bytes. c03_trim_refuted gives the witness, c03_trim_exact the exact condition under which it is right and what it does otherwise."
  },
  {
   "property": "C04",
   "status": "partial",
   "theorems": [
    "c04_read_offset_refuted",
    "c04_read_offset_correct_when",
    "c04_read_offset_small"
   ],
   "note": "False as stated; the exact safe condition is proved."
  },
  {
   "property": "C05",
   "status": "proved",
   "theorems": [
    "c05_read_segment_exact"
   ],
   "note": ""
  },
  {
   "property": "C06",
   "status": "partial",
   "theorems": [
    "c06_alloc_memory_safe",
    "c06_first_segment_refuted",
    "c06_first_segment_exact"
   ],
   "note": "Segments are in bounds; the first-segment-non-empty part is false and refuted, with the exact condition."
  },
  {
   "property": "C07",
   "status": "proved",
   "theorems": [
    "c07_lists_refine_sequences",
    "c07_delete",
    "c07_unlink_then_link"
   ],
   "note": ""
  },
  {
   "property": "C08",
   "status": "proved",
   "theorems": [
    "c08_insert_sorted",
    "c08_insert_sorted_rev"
   ],
   "note": ""
  },
  {
   "property": "C09",
   "status": "proved",
   "theorems": [
    "c09_find_node",
    "c09_find_node_rev",
    "c09_for_each",
    "c09_for_each_rev"
   ],
   "note": "Exact up to the documented -1 = stop convention of the comparison callback."
  },
  {
   "property": "C10",
   "status": "proved",
   "theorems": [
    "c10_header_round_trip",
    "c10_header_onto",
    "c10_ack_round_trip",
    "c10_ctrl_round_trip",
    "c10_streams_decode_uniquely",
    "c10_little_endian"
   ],
   "note": "Decode after encode is the identity for all in-range fields, with the following bytes untouched; every 20-byte string is the image of exactly one header; command streams decode uniquely. Little-endian host fixed."
  },
  {
   "property": "C11",
   "status": "proved",
   "theorems": [
    "c11_too_long_refused",
    "c11_refused_only_when_too_long",
    "c11_multicast_never_refused",
    "c11_empty_ring_takes_any_packet"
   ],
   "note": "Over every reachable publisher context. Nothing queued on EMSGSIZE: the context is returned unchanged."
  },
  {
   "property": "C12",
   "status": "proved",
   "theorems": [
    "c12_ids_consecutive",
    "c12_id_counter_wraps",
    "c12_c18_pub_refines_spec"
   ],
   "note": "Fewer than 2^64-1 data packets; the wrap itself is c12_id_counter_wraps."
  },
  {
   "property": "C13",
   "status": "proved",
   "theorems": [
    "c13_sent_in_order",
    "c12_c18_pub_refines_spec"
   ],
   "note": ""
  },
  {
   "property": "C14",
   "status": "proved",
   "theorems": [
    "c14_refcount_is_number_of_holders"
   ],
   "note": ""
  },
  {
   "property": "C15",
   "status": "proved",
   "theorems": [
    "c15_c16_release_exactly_when_all_gave_up",
    "c15_not_before_sent",
    "c15_at_most_once"
   ],
   "note": ""
  },
  {
   "property": "C16",
   "status": "partial",
   "theorems": [
    "c15_c16_release_exactly_when_all_gave_up",
    "c16_no_subscriber_never_released_refuted"
   ],
   "note": "Holds for packets sent while at least one subscriber was registered; refuted otherwise (such a payload is never released)."
  },
  {
   "property": "C17",
   "status": "proved",
   "theorems": [
    "c17_unknown_ack_harmless",
    "c17_ack_effect"
   ],
   "note": ""
  },
  {
   "property": "C18",
   "status": "proved",
   "theorems": [
    "c18_reset_releases_exactly_its_claims"
   ],
   "note": ""
  },
  {
   "property": "C19",
   "status": "proved",
   "theorems": [
    "c19_timed_out_subscribers_exact"
   ],
   "note": ""
  },
  {
   "property": "C20",
   "status": "partial",
   "theorems": [
    "c20_timed_out_packets_refuted",
    "c20_timed_out_packets_exact",
    "c20_all_or_nothing"
   ],
   "note": "Property is false of the code (walk starts at the newest packet); refuted, with an exact characterisation."
  },
  {
   "property": "C21",
   "status": "proved",
   "theorems": [
    "c21_oldest_unacked"
   ],
   "note": ""
  },
  {
   "property": "C22",
   "status": "partial",
   "theorems": [
    "c22_announce_never_released_refuted"
   ],
   "note": "Property is false of the code: announces are unlinked and never released."
  },
  {
   "property": "C23",
   "status": "proved",
   "theorems": [
    "c23_dispatch_consecutive_once"
   ],
   "note": ""
  },
  {
   "property": "C24",
   "status": "proved",
   "theorems": [
    "c24_duplicate_exact",
    "c24_max_received"
   ],
   "note": ""
  },
  {
   "property": "C25",
   "status": "proved",
   "theorems": [
    "c25_gap_closure"
   ],
   "note": ""
  },
  {
   "property": "C26",
   "status": "partial",
   "theorems": [
    "c26_below_baseline_lost_refuted",
    "c25_gap_closure"
   ],
   "note": "Refuted: packets below the first processed id are dropped; c25 gives what holds from the baseline on."
  },
  {
   "property": "C27",
   "status": "proved",
   "theorems": [
    "c27_add_one",
    "c27_intervals_exact",
    "c27_unprocessed_duplicate_refuted"
   ],
   "note": ""
  },
  {
   "property": "C28",
   "status": "proved",
   "theorems": [
    "c28_interval_timestamps"
   ],
   "note": ""
  },
  {
   "property": "C29",
   "status": "partial",
   "theorems": [
    "c29_oldest_exact",
    "c29_oldest_when_in_order",
    "c29_oldest_refuted"
   ],
   "note": "False in general (witness); exact value proved, and the property when packets arrive in id order."
  },
  {
   "property": "C30",
   "status": "proved",
   "theorems": [
    "c30_reset_releases_held"
   ],
   "note": ""
  },
  {
   "property": "C31",
   "status": "proved",
   "theorems": [
    "c31_accept",
    "c31_connect"
   ],
   "note": "All tables of at most 32767 slots, all results of the system calls."
  },
  {
   "property": "C32",
   "status": "proved",
   "theorems": [
    "c32_bookkeeping",
    "c32_close",
    "c32_close_refused"
   ],
   "note": "Every history of accept/connect/complete/close/IO with arbitrary system call results; the kernel is assumed to hand out unused non-negative descriptors."
  },
  {
   "property": "C33",
   "status": "partial",
   "theorems": [
    "c33_by_index",
    "c33_by_key_partial",
    "c33_by_key_general",
    "c33_refuted"
   ],
   "note": "By index: proved. By address and node id: proved for histories in which setsockopt() after accept() never fails; false otherwise (c33_refuted), c33_by_key_general says what is found then."
  },
  {
   "property": "C34",
   "status": "partial",
   "theorems": [
    "c34_accept_fails_partial",
    "c34_leak",
    "c34_refuted",
    "c34_exhausted"
   ],
   "note": "Proved when accept() itself fails or no slot is free. False when setsockopt() fails (c34_refuted: an unrelated connection is closed); c34_leak: the slot and the descriptor are then lost in every continuation."
  },
  {
   "property": "C35",
   "status": "partial",
   "theorems": [
    "c35_balanced_partial",
    "c35_lenient",
    "c35_descriptors_partial",
    "c35_refuted",
    "c35_complete"
   ],
   "note": "Proved for histories without a late connect failure; in every history up to a duplicate removal (c35_lenient). False in general: a refused connection is removed twice (c35_refuted)."
  },
  {
   "property": "C36",
   "status": "partial",
   "theorems": [
    "c36_segmentation_refuted",
    "c36_invented_ack_refuted",
    "c36_bad_reads_exact",
    "c36_every_stream_parses",
    "c36_pub_benign_reads_parse_the_stream",
    "c36_sub_benign_reads_parse_the_stream",
    "c36_benign_segmentations_agree_partial",
    "c36_unstraddled_reads_are_benign"
   ],
   "note": "The property is false of the code: circ_buf_trim destroys the read ring on some reads, refuted with concrete streams on the 65400-byte ring. Proved: the exact condition under which a read destroys the ring, and for every segmentation that avoids it (any number of reads, any size) the commands processed are exactly those of the stream."
  },
  {
   "property": "C37",
   "status": "proved",
   "theorems": [
    "c37_stream_preserved",
    "c37_single_write"
   ],
   "note": "For every history of command writers and socket writes (errors and partial writes included)."
  },
  {
   "property": "C38",
   "status": "partial",
   "theorems": [
    "c38_interval_exact",
    "c38_read_exact",
    "c38_termination_refuted",
    "c38_remote_hang_refuted"
   ],
   "note": "The effect is exact for every interval whose end is not 2^64-1. Termination is false: an ack interval ending in 2^64-1 loops forever in the code (pid <= last never fails), and a remote subscriber can send one; both refutations are proved."
  },
  {
   "property": "C39",
   "status": "partial",
   "theorems": [
    "c39_sender_exact",
    "c39_sender_refuses",
    "c39_receiver_exact",
    "c39_delivered_verbatim_partial",
    "c39_sender_refuted",
    "c39_receiver_refuted"
   ],
   "note": "False of the code for some ring positions: the sender copies from &payload when the payload wraps, the receiver reads the wrapped tail from a wrong offset, both refuted with reachable states of the 65400-byte ring. Proved: the exact positions on both sides, and delivery verbatim outside them."
  },
  {
   "property": "C40",
   "status": "partial",
   "theorems": [
    "c40_resend_exact",
    "c40_resend_refuted"
   ],
   "note": "False in one situation: when the ring's stop index equals its size the command byte is stored out of bounds (reachable, refuted). Proved: in all other states the resend appends exactly the encoded command or returns EAGAIN and appends nothing."
  },
  {
   "property": "C41",
   "status": "proved",
   "theorems": [
    "c41_ebusy_iff_suspended",
    "c41_suspended_by_queueing",
    "c41_resumed_by_ack",
    "c41_only_queueing_and_acks"
   ],
   "note": "Fewer than 2^32 packets in flight (the count is a uint32_t)."
  },
  {
   "property": "C42",
   "status": "partial",
   "theorems": [
    "c42_no_disconnect_partial",
    "c42_refuted"
   ],
   "note": "True as long as no subscriber disconnected; false otherwise: closing the last connection releases what is in flight without resuming traffic (witness history)."
  },
  {
   "property": "C43",
   "status": "partial",
   "theorems": [
    "c43_next_timeout_exact",
    "c43_processing_exact_partial",
    "c43_progress_refuted"
   ],
   "note": "The reported time is exact. Processing resends exactly the packets with everything newer also timed out; a timed-out packet behind a newer one that is not yet due is not resent, so the progress half of the claim is false (witness)."
  },
  {
   "property": "C44",
   "status": "proved",
   "theorems": [
    "c44_announce_due",
    "c44_not_due",
    "c44_set_interval",
    "c44_restart",
    "c44_timer_kept"
   ],
   "note": ""
  },
  {
   "property": "C45",
   "status": "proved",
   "theorems": [
    "c45_pending_exact"
   ],
   "note": ""
  },
  {
   "property": "C46",
   "status": "partial",
   "theorems": [
    "c46_data_valid",
    "c46_all_valid_partial",
    "c46_refuted"
   ],
   "note": "True of every data packet. False of announces: an announce queued by rmc_pub_timeout_process with a payload points to a local array of that function (witness: the next multicast write reads it after return). True of announces too in histories without such payloads."
  },
  {
   "property": "C47",
   "status": "proved",
   "theorems": [
    "c47_dropped_only_after_resend"
   ],
   "note": "Also: the packets a call resends to a connection are written newest first, each once."
  },
  {
   "property": "C48",
   "status": "partial",
   "theorems": [
    "c48_all_or_nothing",
    "c48_not_early",
    "c48_all_due_partial",
    "c48_get_next_partial",
    "c48_get_next_single",
    "c48_blocked_refuted",
    "c48_served_exactly",
    "c48_waits_exactly",
    "c48_put_first"
   ],
   "note": "False as stated with several publishers: the list is newest-first (c48_put_first), so a publisher that is not due blocks all others (c48_blocked_refuted for every such state). Proved: never early, all or nothing per publisher, exactly who is served (those with nobody ahead of them who is not due: c48_served_exactly, c48_waits_exactly), everything acknowledged if all pending is due (the property for one publisher), exact value of get_next."
  },
  {
   "property": "C49",
   "status": "partial",
   "theorems": [
    "c49_acks_only_in_timeout",
    "c49_lost_exactly_on_enomem",
    "c49_full_ring_refuted",
    "c49_lost_for_good_refuted"
   ],
   "note": "False as stated: with a full ring the interval is lost for good. Proved: loss exactly when the timeout returns ENOMEM, one interval per such call; conservation otherwise is C73."
  },
  {
   "property": "C50",
   "status": "partial",
   "theorems": [
    "c50_left_allocated",
    "c50_released_if_none_ready_partial",
    "c50_ready_leaked_refuted",
    "c50_waiting_released"
   ],
   "note": "False as stated: payloads of packets that are ready when the context is deactivated are never freed (refuted for every such state); exact set of buffers left is proved, and the property holds when no packet is ready."
  },
  {
   "property": "C51",
   "status": "partial",
   "theorems": [
    "c51_single_if_careful_partial",
    "c51_only_datagrams_connect",
    "c51_announce_while_connected",
    "c51_second_connection_refuted"
   ],
   "note": "False as stated: an announce received while the connection is being set up opens a second one. Proved: true if the application accepts no announce of a publisher it is connecting to; only announces connect; once established no announce connects."
  },
  {
   "property": "C52",
   "status": "proved",
   "theorems": [
    "c52_malformed_refused",
    "c52_refused_only_if_malformed",
    "c52_wellformed_accepted"
   ],
   "note": ""
  },
  {
   "property": "C53",
   "status": "proved",
   "theorems": [
    "c53_delivered_only_if_subscribed",
    "c53_connects_only_if_accepted",
    "c53_unsubscribed_data_ignored",
    "c53_refused_announce",
    "c53_accepted_announce"
   ],
   "note": ""
  },
  {
   "property": "C54",
   "status": "proved",
   "theorems": [
    "c54_dispatched",
    "c54_kept",
    "c54_not_ready",
    "c54_only_once",
    "c54_kept_not_released"
   ],
   "note": ""
  },
  {
   "property": "C55",
   "status": "proved",
   "theorems": [
    "c55_accepted_genuine",
    "c55_slice"
   ],
   "note": "For the closed system of SpecSys.v: one publisher, any number of subscribers, lossy/duplicating/reordering datagrams, prefix-delivering TCP, foreign publishers and subscribers.  good_ids only concerns foreign publishers."
  },
  {
   "property": "C56",
   "status": "partial",
   "theorems": [
    "c56_once_per_connection_partial",
    "c56_once_per_subscriber_refuted"
   ],
   "note": "At most once per connection is proved; at most once per subscriber context is false: the code opens a second connection when an announce is received twice while connecting, and both connections deliver."
  },
  {
   "property": "C57",
   "status": "partial",
   "theorems": [
    "c57_all_arrived_partial",
    "c57_delivered_partial",
    "c57_consecutive",
    "c57_from_registration_partial",
    "c57_older_never",
    "c57_first_packet_refuted",
    "c57_gap_refuted"
   ],
   "note": "Proved: once nothing is owed and TCP has delivered, every packet cast since registration has been received unless older than the first one delivered, and everything from the first delivered packet on is delivered if that one was cast after registration.  The unrestricted statement is false of the code (two refutations with concrete schedules)."
  },
  {
   "property": "C58",
   "status": "proved",
   "theorems": [
    "c58_acks_sound",
    "c58_not_owed",
    "c58_release"
   ],
   "note": ""
  },
  {
   "property": "C59",
   "status": "proved",
   "theorems": [
    "c59_fresh_rings",
    "c59_new_connection"
   ],
   "note": "Every history."
  },
  {
   "property": "C60",
   "status": "proved",
   "theorems": [
    "c60_total",
    "c60_lookup_total"
   ],
   "note": "Every history; tables of at most 32765 slots (larger ones collide with the reserved indices)."
  },
  {
   "property": "C61",
   "status": "partial",
   "theorems": [
    "c61_connect_code",
    "c61_refuted"
   ],
   "note": "False: the code is the stale errno when connect() succeeds at once (c61_refuted); exact result in c61_connect_code."
  },
  {
   "property": "C62",
   "status": "proved",
   "theorems": [
    "c62_multicast_in_order",
    "c62_multicast_content"
   ],
   "note": ""
  },
  {
   "property": "C63",
   "status": "proved",
   "theorems": [
    "c63_loans_exact"
   ],
   "note": ""
  },
  {
   "property": "C64",
   "status": "proved",
   "theorems": [
    "c64_nothing_forgotten"
   ],
   "note": ""
  },
  {
   "property": "C65",
   "status": "partial",
   "theorems": [
    "c65_control_messages_partial",
    "c65_refuted"
   ],
   "note": "True once rmc_pub_set_control_message_callback was called (with or without a callback), for reads within the trim-good range of C33/C34; false before: rmc_pub_init_context leaves the pointer uninitialised and a control message reads it (witness)."
  },
  {
   "property": "C66",
   "status": "proved",
   "theorems": [
    "c66_deactivate"
   ],
   "note": ""
  },
  {
   "property": "C67",
   "status": "proved",
   "theorems": [
    "c67_multicast_write_exact"
   ],
   "note": "Multicast socket open; sendmsg failures have a non-zero errno."
  },
  {
   "property": "C68",
   "status": "partial",
   "theorems": [
    "c68_pub_connection",
    "c68_pub_listen",
    "c68_pub_mcast_polled",
    "c68_pub_mcast_partial",
    "c68_pub_mcast_read_refuted",
    "c68_pub_mcast_early_refuted",
    "c68_sub_connection",
    "c68_sub_output_partial",
    "c68_sub_mcast_inactive",
    "c68_sub_mcast_partial",
    "c68_sub_output_refuted",
    "c68_sub_bind_refuted"
   ],
   "note": "Proved for every history: connection slots on both sides, the listening socket, and that input is always polled. The 'output exactly when something waits' half is false in the code when a read happens while output waits (rmc_pub_read/rmc_sub_read rearm POLLREAD only), when a packet is queued before activation, and after a failed bind(): refuted with concrete histories, and proved exactly for every history without these steps."
  },
  {
   "property": "C69",
   "status": "proved",
   "theorems": [
    "c69_accounting",
    "c69_frees",
    "c69_contents",
    "c69_taken"
   ],
   "note": ""
  },
  {
   "property": "C70",
   "status": "proved",
   "theorems": [
    "c70_no_use_after_free"
   ],
   "note": ""
  },
  {
   "property": "C71",
   "status": "partial",
   "theorems": [
    "c71_deactivated",
    "c71_deactivation_succeeds",
    "c71_pending_connect_refuted"
   ],
   "note": "False as stated: with a first connection still being set up it reads an uninitialised publisher entry. Otherwise it succeeds and closes everything."
  },
  {
   "property": "C72",
   "status": "proved",
   "theorems": [
    "c72_in_order",
    "c72_once",
    "c72_first",
    "c72_exact",
    "c72_contents",
    "c72_waiting"
   ],
   "note": "Ids 0 and 2^64-1 excluded (good_ids)."
  },
  {
   "property": "C73",
   "status": "proved",
   "theorems": [
    "c73_exact",
    "c73_wire",
    "c73_sound"
   ],
   "note": "Ids 0 and 2^64-1 excluded (good_ids)."
  },
  {
   "property": "C74",
   "status": "proved",
   "theorems": [
    "c74_accepted_from_stream",
    "c74_every_packet_accounted",
    "c74_rest_kept",
    "c74_ring_intact"
   ],
   "note": "for every history whose accepted packet ids are in range; reads within the conditions of c36 (read_good)"
  },
  {
   "property": "C75",
   "status": "proved",
   "theorems": [
    "c75_acks_from_stream",
    "c75_stream_splits",
    "c75_ring_intact",
    "c75_read"
   ],
   "note": "for every history whose reads are within the conditions of c36/c39 (pread_good)"
  },
  {
   "property": "C76",
   "status": "partial",
   "theorems": [
    "c76_sub_descriptors",
    "c76_sub_distinct",
    "c76_sub_deactivated",
    "c76_pub_descriptors_partial",
    "c76_pub_distinct_partial",
    "c76_pub_deactivated_partial",
    "c76_pub_twice_refuted"
   ],
   "note": "Subscriber: in full. Publisher: proved for histories that do not activate an active context; a second activation loses both sockets (c76_pub_twice_refuted)."
  },
  {
   "property": "C77",
   "status": "partial",
   "theorems": [
    "c77_pub_timeout",
    "c77_pub_multicast",
    "c77_pub_read",
    "c77_pub_other",
    "c77_pub_returns_partial",
    "c77_timeout_refuted",
    "c77_sub_multicast",
    "c77_sub_read",
    "c77_sub_timeout",
    "c77_sub_close",
    "c77_sub_deactivate",
    "c77_sub_control",
    "c77_sub_control_by",
    "c77_sub_other",
    "c77_sub_returns_partial",
    "c77_sub_refuted"
   ],
   "note": "The property fails in the listed cases. Proved: every other call on every reachable context returns (c77_pub_returns_partial, c77_sub_returns_partial), and the cases fail (iff theorems for reads, close, deactivate and control messages; histories c77_timeout_refuted and c77_sub_refuted for the ring ends). Reads of the control channel are assumed to be ones circ_buf_trim handles (c36)."
  },
  {
   "property": "C78",
   "status": "proved",
   "theorems": [
    "c78_pub_write",
    "c78_pub_read_refused",
    "c78_pub_accept",
    "c78_pub_close",
    "c78_pub_queue",
    "c78_pub_throttle",
    "c78_pub_mcast_inactive",
    "c78_pub_has_pending_send",
    "c78_pub_activate",
    "c78_sub_write",
    "c78_sub_complete",
    "c78_sub_read_refused",
    "c78_sub_ctrl",
    "c78_sub_ctrl_by_address",
    "c78_sub_ctrl_by_node",
    "c78_sub_activate",
    "c78_pub_mcast_read",
    "c78_operations",
    "c78_sub_mcast_read",
    "c78_sub_mcast_quiet"
   ],
   "note": ""
  },
  {
   "property": "C79",
   "status": "partial",
   "theorems": [
    "c79_pub_subscribers",
    "c79_pub_sockets_partial",
    "c79_pub_maximum",
    "c79_pub_twice_refuted",
    "c79_sub_publishers",
    "c79_sub_sockets",
    "c79_sub_maximum",
    "c79_sub_ready"
   ],
   "note": "the publisher's socket count is exact only if an active context is not activated again (c79_pub_twice_refuted); everything else as stated"
  },
  {
   "property": "C80",
   "status": "proved",
   "theorems": [
    "c80_sub_full",
    "c80_sub_disconnect",
    "c80_sub_data",
    "c80_pub_full",
    "c80_pub_disconnect",
    "c80_pub_data",
    "c80_pub_garbage_stays"
   ],
   "note": "Data reads are conditioned on the read keeping the ring intact (read_good/pread_good, the exact condition of C36/C39) and, for *_data, on the call returning: C77 says exactly when it does."
  },
  {
   "property": "C81",
   "status": "partial",
   "theorems": [
    "c81_attendance",
    "c81_all_left",
    "c81_join_exact",
    "c81_leave_exact",
    "c81_port_refuted",
    "c81_address_refuted",
    "c81_unannounced_refuted"
   ],
   "note": "The list kept from the callbacks is proved to be the list of open connections for every history with the connect callback set. The claim about which address and port are reported is false of the code: proved that the port (and a control message's node id) is always 0 and that the address is that of d.c.b.a; without a connect callback a disconnect is reported that was never announced. A disconnect callback is taken to be set."
  },
  {
   "property": "C82",
   "status": "partial",
   "theorems": [
    "c82_flushed_never_crashes",
    "c82_round",
    "c82_drains",
    "c82_can_always_drain",
    "c82_starved",
    "c82_retry_refuted",
    "c82_call_again"
   ],
   "note": "Progress is proved for publishers that write their send buffers out before processing timeouts and whose calls find no announcement due. The unconditional claim is false of the code: a due announcement makes the call return before the resends, so calls an announce interval apart never resend (c82_starved, c82_retry_refuted)."
  },
  {
   "property": "C83",
   "status": "proved",
   "theorems": [
    "c83_recovers",
    "c83_always_recoverable",
    "c83_memory"
   ],
   "note": "Hypotheses: the clock does not run backwards at the publisher, memory can be allocated (kept by every step, c83_memory), and the subscriber's receive buffer does not hold an incomplete packet (one that was read in part near the end of the ring cannot be completed safely, C36). Without the condition on announcements see C82."
  },
  {
   "property": "C84",
   "status": "proved",
   "theorems": [
    "c84_prints",
    "c84_null_crash",
    "c84_levels",
    "c84_buffer",
    "c84_labels",
    "c84_environment",
    "c84_clock",
    "c84_elapsed",
    "c84_colours",
    "c84_level_colours"
   ],
   "note": "For application texts without escape characters. The crash on NULL is part of the statement. isatty's answer for a file is taken not to change."
  },
  {
   "property": "C85",
   "status": "partial",
   "theorems": [
    "c85_multicast",
    "c85_publisher",
    "c85_pub_stream",
    "c85_sub_stream",
    "c85_total",
    "c85_cut_ack_refuted",
    "c85_column_address_refuted",
    "c85_unknown_byte",
    "c85_cut_control_refuted"
   ],
   "note": "False of the code in two points, both characterised exactly: a subscriber's segment that ends inside an acknowledgement shows the previous acknowledgement (or 0-0) in its place and never asks for the rest; the info column (not the tree) shows the listen address with its bytes reversed. Everything else is proved, for a model of Wireshark's own functions by their documentation. A control message cut by the end of a segment is shown with length 0."
  },
  {
   "property": "C86",
   "status": "partial",
   "theorems": [
    "c86_pub_created",
    "c86_pub_refused",
    "c86_pub_arguments",
    "c86_pub_begins",
    "c86_pub_delete",
    "c86_sub_created",
    "c86_sub_refused",
    "c86_sub_arguments",
    "c86_sub_begins",
    "c86_sub_delete",
    "c86_capacity_refuted",
    "c86_pub_leak_refuted",
    "c86_pub_refused_delete_refuted",
    "c86_user_data_refuted",
    "c86_sub_leak_refuted",
    "c86_sub_refused_delete_refuted",
    "c86_pub_control"
   ],
   "note": "Which creations succeed, and the value of every member afterwards, is proved, as is that a created context is the beginning of the histories of the other properties. False of the code, each shown in general: the publisher's control message callback has no value (the None of pub_new); a refused creation has stored a context without descriptors, which cannot be deleted without reading uninitialised memory; deletion never gives back the array of subscribers resp. publishers; with room for 32766 peers or more a connection gets the index of the listen socket; changed user data does not reach the poll callbacks of control connections."
  },
  {
   "property": "C87",
   "status": "partial",
   "theorems": [
    "c87_pub_activate",
    "c87_pub_code",
    "c87_pub_port",
    "c87_sub_activate",
    "c87_sub_code",
    "c87_ttl",
    "c87_pub_same",
    "c87_sub_same",
    "c87_pub_again_refuted",
    "c87_port_refuted",
    "c87_sub_bind_refuted"
   ],
   "note": "The behaviour for every combination of answers is characterised exactly. False of the code: a subscriber whose bind() fails keeps the socket and cannot be activated any more; a publisher can be activated twice and loses its sockets; a port of 65536 is announced as such while the system picks one."
  },
  {
   "property": "C88",
   "status": "partial",
   "theorems": [
    "c88_mask",
    "c88_pub_partial",
    "c88_pub_early_refuted",
    "c88_pub_restart_refuted",
    "c88_sub",
    "c88_sub_mcast_partial",
    "c88_sub_bind_refuted"
   ],
   "note": "The subscriber's part is proved for every history (its multicast socket unless bind() failed: c88_sub_bind_refuted). For the publisher it is proved for histories that queue only while active and activate only with an empty queue. Without that it is false of the code: the first packet queued on an inactive context makes poll_modify end the process (c88_pub_early_refuted, for every such state), and packets queued across a deactivation are never watched for (c88_pub_restart_refuted). The kernel's side of epoll is modelled by its manual page."
  },
  {
   "property": "C89",
   "status": "partial",
   "theorems": [
    "c89_verdict_partial",
    "c89_overflow_refuted",
    "c89_cut_refuted",
    "c89_payloads",
    "c89_end_to_end",
    "c89_system",
    "c89_options_refuted"
   ],
   "note": "Proved for all streams whose highest number is below INT_MAX and whose payloads hold whole signals, for every set of expected nodes. Outside that it is false of the code: a highest number of INT_MAX or more overflows the int of the summing loop (c89_overflow_refuted, for every such stream), a payload ending in less than twelve bytes of a signal is read beyond its end (c89_cut_refuted), and -E also adds an expected node because its case has no break (c89_options_refuted). The statistics line, time stamps and the event loop of the test programs are not modelled here (the poll callbacks are, C88)."
  },
  {
   "property": "C90",
   "status": "partial",
   "theorems": [
    "c90_pub_records",
    "c90_pub_refuted",
    "c90_sub_records",
    "c90_sub_refuted"
   ],
   "note": "False of the code; the exact number of records is proved instead. Publisher: queued + in flight + one for every announce multicast so far (pub_packet_sent drops an announce without freeing it). Subscriber: waiting + one for every packet ever made ready (neither rmc_sub_packet_dispatched nor _keep_payload frees the sub_packet_t). The publisher's records are the heap of the model; the subscriber's are counted from the log, with the free of a record placed where sub_reset_publisher makes it. List nodes (recycled by the lists) and connection buffers are not counted."
  },
  {
   "property": "C91",
   "status": "partial",
   "theorems": [
    "c91_wait",
    "c91_wait_far_refuted",
    "c91_pub_calls",
    "c91_sub_calls",
    "c91_pub_events",
    "c91_sub_events",
    "c91_sub_busy_refuted",
    "c91_pub_announce",
    "c91_pub_starved_refuted",
    "c91_sub_catchup"
   ],
   "note": "Proved for every array: which calls are made, that each is about the socket that owns the reported descriptor at that moment, that states stay within the library's specification, when the loop closes a connection, the length of the sleep, and that catching up on acknowledgements ends. False of the code: the publisher handles deadlines only in rounds in which nothing is ready (c91_pub_starved_refuted), the subscriber also closes a connection whose socket is merely full (c91_sub_busy_refuted), and a deadline 2^31-1 ms away makes the sleep unbounded (c91_wait_far_refuted)."
  },
  {
   "property": "C92",
   "status": "proved",
   "theorems": [
    "c92_ready",
    "c92_complete",
    "c92_announce_only",
    "c92_announce",
    "c92_pub_ctrl"
   ],
   "note": "that a set control message callback gets every message is C65. The publisher's control callback pointer is uninitialised until it is set (C65). c92_announce's negative half for connected publishers needs one connection per publisher (single_conns), which repeated announces during connecting can break (the refutation in PropSubConn)."
  },
  {
   "property": "C93",
   "status": "partial",
   "theorems": [
    "c93_stream",
    "c93_heard",
    "c93_in_order_partial",
    "c93_prefix_partial",
    "c93_all_partial",
    "c93_refuted"
   ],
   "note": "partial because the code falsifies the unconditional claim: a message that crosses the end of the send or receive ring at certain positions is corrupted or crashes (c93_refuted; also C36, C39, C77), and with the callback pointer never set the publisher reads an uninitialised pointer (C65). The theorems hold for all histories of the whole system in which reads and writes avoid those positions (read_good, pread_good, write_good) and the callback is set when control connections are read (listening)."
  },
  {
   "property": "C94",
   "status": "proved",
   "theorems": [
    "c94_owes_no_history",
    "c94_stream",
    "c94_no_history",
    "c94_tcp_once"
   ],
   "note": "PropOnce.v; the carried_once predicate says that no two packet commands have the same id. The system theorems assume, as C55, that reads avoid the ring positions of C77 (part of sys_reached)."
  },
  {
   "property": "C95",
   "status": "proved",
   "theorems": [
    "c95_publisher",
    "c95_subscriber"
   ],
   "note": "PropIso.v. The subscriber theorem speaks of any open connection (also one still connecting); own_part leaves out the list of datagrams, which belongs to the whole context. The timeout calls and multicasting serve all connections and are not calls for one connection."
  },
  {
   "property": "C96",
   "status": "partial",
   "theorems": [
    "c96_audience",
    "c96_start",
    "c96_payloads",
    "c96_failure",
    "c96_pace",
    "c96_end",
    "c96_silence",
    "c96_unsent_refuted",
    "c96_interval",
    "c96_announces"
   ],
   "note": "PropProgram.v, model Program.v. Premises on the outside world (world_ok): malloc succeeds with free memory off the stack, fewer than 2^32 packets queued, system calls behave as in SpecPubCtx. c96_payloads holds for every drop decision: the drop_rate argument changes a log line only. Partial because the last sentence is false of the code: the program can exit 0 with packets never multicast (c96_unsent_refuted)."
  },
  {
   "property": "C97",
   "status": "partial",
   "theorems": [
    "c97_checked",
    "c97_state",
    "c97_decides",
    "c97_end",
    "c97_agrees",
    "c97_acks_due",
    "c97_flush_refuted",
    "c97_unacked_refuted"
   ],
   "note": "PropSubProgram.v, model SubProgram.v. The verdicts are those of C89 (made_of: payloads made up of whole signals whose highest number is below INT_MAX; for others the C program has no defined behaviour or reads outside the payload, c89_overflow_refuted, c89_cut_refuted). Partial because the last sentence is false of the code: after the packet with which the test passes no acknowledgement is ever sent and that packet is never given back (c97_flush_refuted, for every continuation; c97_unacked_refuted, a whole run). A failing epoll_wait (exit 255) is left out. The last loop passes 100 as an absolute time, so it waits 1 ms at a time, not 100 ms."
  },
  {
   "property": "C98",
   "status": "partial",
   "theorems": [
    "c98_subscriber_refuted",
    "c98_publisher_refuted",
    "c98_init_refuted",
    "c98_ack_refuted",
    "c98_packet_refuted"
   ],
   "note": "PropDoc.v; the document is transcribed in SpecDoc.v. The claim is false of the code, in both directions: no stream either side sends begins a documented one (for the publisher: unless byte 1 of its node id is 2), and the documented INIT, ACK and PACKET are refused or left unread. What the code does speak is specified in SpecProto.v and proved in C34, C38, C64, C73, C80."
  },
  {
   "property": "C99",
   "status": "partial",
   "theorems": [
    "c99_usage",
    "c99_subscriber_partial",
    "c99_publisher",
    "c99_overflow_refuted",
    "c99_subscribers_refuted",
    "c99_node_refuted"
   ],
   "note": "PropOptions.v, model Options.v (all of main except the unit tests it runs first); getopt, atoi, atoll and atof are the C library's. Partial because the code falsifies three sentences: a string of 80 bytes or more overflows its array, -E also names a node (and is refused above 1023), and node ids are not checked. The option 'n:' is in the option string without a case, so it gives the usage text."
  }
 ]
}