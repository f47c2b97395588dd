{"id": "C01", "title": "Ring accounting", "statement": "At every moment in_use + available = size - 1, and alloc(len) changes in_use by exactly +len (or fails with an error and changes nothing when len > available), free(n) removes exactly min(n, in_use) bytes.", "quantifier": "every ring size >= 1 and every sequence of alloc/write/free calls with any lengths", "why_tests_cant": "indices wrap at arbitrary positions; unit tests only exercise a handful of sizes and offsets", "anchors": ["circular_buffer.c:circ_buf_alloc", "circular_buffer.c:circ_buf_free", "circular_buffer.c:circ_buf_in_use", "circular_buffer.c:circ_buf_available"]}
{"id": "C02", "title": "Ring is a FIFO byte queue", "statement": "Bytes written through the segments returned by alloc are appended, in order, behind the bytes already queued; read returns the oldest bytes unchanged and in order; free drops the oldest ones and nothing else.", "quantifier": "every ring size, every sequence of operations, every byte content", "why_tests_cant": "for-all over contents and wrap positions", "anchors": ["circular_buffer.c:circ_buf_alloc", "circular_buffer.c:circ_buf_read", "circular_buffer.c:circ_buf_free"]}
{"id": "C03", "title": "Ring trim shortens to the target", "statement": "trim(n) with n <= in_use leaves exactly the n oldest bytes in the ring; it changes nothing when n >= in_use.", "quantifier": "every well-formed ring state and every n", "why_tests_cant": "needs all relative positions of start, stop and n", "anchors": ["circular_buffer.c:circ_buf_trim"]}
{"id": "C04", "title": "Ring read at an offset returns the right bytes", "statement": "read_offset(o, n) returns the bytes at queue positions o .. o+n-1 for o+n <= in_use, and does not modify the ring.", "quantifier": "every well-formed ring state, offset and length", "why_tests_cant": "the wrong branch only fires for particular wrap positions", "anchors": ["circular_buffer.c:circ_buf_read_offset"]}
{"id": "C05", "title": "Ring segments expose exactly the queued bytes", "statement": "read_segment yields two in-bounds segments whose concatenation is exactly the queued bytes in order.", "quantifier": "every well-formed ring state", "why_tests_cant": "all positions of start/stop", "anchors": ["circular_buffer.c:circ_buf_read_segment"]}
{"id": "C06", "title": "Allocated segments are memory-safe and start at the first one", "statement": "A successful alloc(len) yields segments that lie inside the buffer, do not overlap queued bytes, and have lengths adding up to len; for len > 0 the first segment is non-empty, so storing one byte through it is a legal write of the first allocated byte.", "quantifier": "every well-formed ring state and len", "why_tests_cant": "the failing state needs stop to land exactly on the end of the array", "anchors": ["circular_buffer.c:circ_buf_alloc", "rmc_pub_write.c:rmc_pub_resend_packet", "rmc_sub_write.c:rmc_sub_write_interval_acknowledgement"]}
{"id": "C07", "title": "The list container refines a sequence", "statement": "Every list operation (push head/tail, insert before/after, delete, pop, unlink, re-link, empty) acts on the addressed list as the textbook operation on finite sequences, keeps the reported element count right, and does not disturb any other list that shares no node with it; no operation on a valid node dereferences a dangling or null pointer.", "quantifier": "every heap with any number of lists and every operation on valid handles", "why_tests_cant": "pointer aliasing over all heaps", "anchors": ["rmc_list_template.h"]}
{"id": "C08", "title": "Sorted insertion keeps lists sorted", "statement": "insert_sorted / insert_sorted_rev return a list that contains exactly the old elements and the new one and is sorted whenever the old one was; ties are placed as documented (after/before equals).", "quantifier": "every sorted list, every element, every comparison function consistent with an order", "why_tests_cant": "unbounded lists", "anchors": ["rmc_list_template.h:LISTTYPE##_insert_sorted", "rmc_list_template.h:LISTTYPE##_insert_sorted_rev"]}
{"id": "C09", "title": "List search and iteration are exact", "statement": "find_node / find_node_rev return the first / last matching node, or nothing iff no element matches; for_each visits elements in order and stops exactly at the first element its callback rejects.", "quantifier": "every list and predicate", "why_tests_cant": "unbounded lists", "anchors": ["rmc_list_template.h:LISTTYPE##_find_node", "rmc_list_template.h:LISTTYPE##_for_each"]}
{"id": "C10", "title": "Wire format round trips", "statement": "Decoding an encoded packet header, ack-interval command or control message gives back every field, for all field values in range, and leaves the following bytes untouched.", "quantifier": "all field values and all following bytes", "why_tests_cant": "2^160 field values", "anchors": ["rmc_protocol.h", "rmc_protocol.h:packet_header_t", "rmc_protocol.h:cmd_ack_interval_t"]}
{"id": "C11", "title": "Size limits are consistent", "statement": "Every payload that rmc_pub_queue_packet accepts fits a multicast datagram and an empty per-subscriber TCP ring; larger payloads are refused with EMSGSIZE and nothing is queued.", "quantifier": "every payload length 0..65535 and every context state", "why_tests_cant": "boundary interplay of three constants over every state", "anchors": ["rmc_pub_packet.c:rmc_pub_queue_packet", "rmc_pub_write.c:send_single_multicast_packet", "rmc_internal.h:RMC_MAX_TCP_PENDING_WRITE"]}
{"id": "C12", "title": "Packet ids are assigned consecutively", "statement": "The k-th non-announce packet queued on a publisher gets id k (mod 2^64), and announce packets get id 0 without consuming an id.", "quantifier": "every history of queue/send/ack/announce calls", "why_tests_cant": "all interleavings", "anchors": ["pub.c:_next_pid", "pub.c:pub_queue_packet"]}
{"id": "C13", "title": "Packets leave in queueing order", "statement": "next_queued always yields pending announces before data packets, and data packets in queueing order; every queued packet is handed out exactly once.", "quantifier": "every history", "why_tests_cant": "all interleavings", "anchors": ["pub.c:pub_queue_packet", "pub.c:pub_next_queued_packet", "pub.c:pub_packet_sent"]}
{"id": "C14", "title": "Reference count equals outstanding acks", "statement": "The reference count of every in-flight packet equals the number of subscribers still holding it in flight; it never underflows.", "quantifier": "every reachable publisher state, any number of subscribers", "why_tests_cant": "global invariant over all histories", "anchors": ["pub.c:pub_packet_sent", "pub.c:pub_packet_ack"]}
{"id": "C15", "title": "Payload is released exactly once and never early", "statement": "The payload-free callback is invoked at most once per queued packet, never before the packet was sent and every subscriber present at send time has acknowledged it or left.", "quantifier": "every history of queue/send/ack/subscribe/unsubscribe", "why_tests_cant": "all interleavings", "anchors": ["pub.c:pub_packet_ack", "pub.c:pub_reset_subscriber"]}
{"id": "C16", "title": "Payload is eventually released", "statement": "Once a data packet was sent and every subscriber present at send time has acknowledged it or left, its payload has been released.", "quantifier": "every history", "why_tests_cant": "needs the send-with-no-subscriber state", "anchors": ["pub.c:pub_packet_sent", "pub.c:pub_packet_ack"]}
{"id": "C17", "title": "Acks for unknown packets are harmless", "statement": "Acknowledging an id that is not in flight for that subscriber changes nothing and releases nothing.", "quantifier": "every state, subscriber and id", "why_tests_cant": "all states", "anchors": ["pub.c:pub_packet_ack"]}
{"id": "C18", "title": "Removing a subscriber releases exactly its claims", "statement": "After a subscriber is reset no packet is in flight for it, it is unregistered, other subscribers' in-flight sets are unchanged, and exactly the packets only it was holding are released.", "quantifier": "every reachable state", "why_tests_cant": "all states", "anchors": ["pub.c:pub_reset_subscriber"]}
{"id": "C19", "title": "Timed-out subscribers are exact", "statement": "get_timed_out_subscribers returns exactly the subscribers that hold a packet sent at or before now - timeout, provided the clock passed to the publisher never went backwards.", "quantifier": "every reachable state with a monotone clock, any now and timeout", "why_tests_cant": "all states", "anchors": ["pub.c:pub_get_timed_out_subscribers"]}
{"id": "C20", "title": "Timed-out packets are exact and oldest first", "statement": "get_timed_out_packets returns every in-flight packet of the subscriber whose timeout expired, and no other, oldest first.", "quantifier": "every reachable state", "why_tests_cant": "needs a fresh packet behind an expired one", "anchors": ["pub.c:pub_get_timed_out_packets"]}
{"id": "C21", "title": "Oldest unacknowledged packet", "statement": "get_oldest_unacknowledged_packet reports the earliest send time among all in-flight packets of all subscribers, and -1 iff there is none.", "quantifier": "every reachable state with a monotone clock", "why_tests_cant": "all states", "anchors": ["pub.c:pub_get_oldest_unackowledged_packet"]}
{"id": "C22", "title": "Announce packets are released after sending", "statement": "Announce packets (id 0) are released after they were multicast.", "quantifier": "every history", "why_tests_cant": "needs leak reasoning over histories", "anchors": ["pub.c:pub_packet_sent", "rmc_pub_write.c:process_multicast_write"]}
{"id": "C23", "title": "Dispatch is consecutive, in order and once", "statement": "Packets handed to the application from one publisher have consecutive ids, in increasing order, and no id is handed out twice.", "quantifier": "every arrival sequence of ids, with any losses, duplicates, reordering and any interleaving of processing", "why_tests_cant": "all arrival orders", "anchors": ["sub.c:sub_packet_received", "sub.c:sub_process_received_packets", "sub.c:sub_packet_is_duplicate"]}
{"id": "C24", "title": "Duplicate test is exact", "statement": "After the first processing, sub_packet_is_duplicate(id) is true iff id has already been made ready for dispatch, lies below the first processed id, or is held waiting for a gap.", "quantifier": "every reachable subscriber state and id", "why_tests_cant": "all states", "anchors": ["sub.c:sub_packet_is_duplicate"]}
{"id": "C25", "title": "Gap closure completes delivery", "statement": "If the packets received (in any order, first arrival processed first) cover a contiguous range that starts at the first processed id, then all of them are dispatched.", "quantifier": "every permutation with duplicates", "why_tests_cant": "factorially many arrival orders", "anchors": ["sub.c:sub_process_received_packets"]}
{"id": "C26", "title": "No packet is lost to the baseline", "statement": "Every packet received from a publisher to which the application subscribed is eventually dispatched once the gaps are filled, whichever packet arrives first.", "quantifier": "every arrival order", "why_tests_cant": "needs the order in which the first arrival is not the lowest id", "anchors": ["sub.c:sub_process_received_packets", "sub.c:sub_packet_is_duplicate"]}
{"id": "C27", "title": "Ack intervals describe exactly the received ids", "statement": "The interval list is sorted, pairwise disjoint and non-adjacent, and the union of the intervals is exactly the set of received and not yet acknowledged ids.", "quantifier": "every sequence of non-duplicate ids below 2^64-1", "why_tests_cant": "all insertion orders", "anchors": ["sub.c:sub_packet_add_to_received_interval"]}
{"id": "C28", "title": "Ack interval timestamps", "statement": "Every interval carries the earliest receive time of the packets merged into it.", "quantifier": "every sequence of non-duplicate ids with timestamps", "why_tests_cant": "all merge orders", "anchors": ["sub.c:sub_packet_add_to_received_interval"]}
{"id": "C29", "title": "Oldest unacknowledged receive time", "statement": "sub_oldest_unacknowledged_packet reports the earliest receive time among all unacknowledged packets.", "quantifier": "every reachable state", "why_tests_cant": "needs reordered arrival", "anchors": ["sub.c:sub_oldest_unacknowledged_packet"]}
{"id": "C30", "title": "Resetting a publisher releases held packets once", "statement": "sub_reset_publisher calls the payload-free callback exactly once for every packet held in the gap list, and leaves the gap list and the interval list empty; packets already in dispatch-ready are untouched.", "quantifier": "every reachable state", "why_tests_cant": "all states", "anchors": ["sub.c:sub_reset_publisher"]}
{"id": "C31", "title": "Connection slots are unique", "statement": "A new connection gets a slot that was free, the lowest such slot, and every other slot is unchanged; when no slot is free ENOMEM is returned.", "quantifier": "every connection table and every result of the system calls", "why_tests_cant": "all tables and syscall results", "anchors": ["rmc_connection.c:_get_free_slot", "rmc_connection.c:rmc_conn_process_accept", "rmc_connection.c:rmc_conn_connect_tcp_by_address"]}
{"id": "C32", "title": "Connection bookkeeping", "statement": "The active-connection count equals the number of open slots, and every open slot has an index not above the maximal index in use, after any sequence of accept/connect/close.", "quantifier": "every history with any syscall results", "why_tests_cant": "all histories", "anchors": ["rmc_connection.c:rmc_conn_close_connection", "rmc_connection.c:rmc_conn_process_accept"]}
{"id": "C33", "title": "Connection lookup is exact", "statement": "find_by_address / find_by_node_id / find_by_index return an open connection with that key, and nothing iff there is none.", "quantifier": "every reachable table and key", "why_tests_cant": "all tables", "anchors": ["rmc_connection.c:rmc_conn_find_by_address", "rmc_connection.c:rmc_conn_find_by_node_id", "rmc_connection.c:rmc_conn_find_by_index"]}
{"id": "C34", "title": "A failed accept leaves no trace", "statement": "If accepting a connection fails at any step, no slot stays occupied and no other connection is closed.", "quantifier": "every table and every failing step", "why_tests_cant": "syscall failure injection in every state", "anchors": ["rmc_connection.c:rmc_conn_process_accept"]}
{"id": "C35", "title": "Poll registrations are balanced", "statement": "Every descriptor is registered with the poll callbacks exactly once while it is open and removed exactly once when it closes.", "quantifier": "every history with any syscall results", "why_tests_cant": "fault injection over all histories", "anchors": ["rmc_connection.c:rmc_conn_complete_connection", "rmc_connection.c:rmc_conn_close_connection"]}
{"id": "C36", "title": "Command parsing does not depend on TCP segmentation", "statement": "However the byte stream of a peer is cut into reads, the same sequence of commands is processed and the same bytes are left over.", "quantifier": "every byte stream and every way to cut it", "why_tests_cant": "exponentially many cuts", "anchors": ["rmc_protocol.c:rmc_conn_process_tcp_read", "rmc_protocol.c:rmc_conn_tcp_read"]}
{"id": "C37", "title": "TCP writes preserve the stream", "statement": "The bytes accepted by the socket over any series of partial writes, followed by the bytes still queued, are exactly the bytes queued so far.", "quantifier": "every queue state and every series of short writes and errors", "why_tests_cant": "all short-write patterns", "anchors": ["rmc_protocol.c:rmc_conn_process_tcp_write"]}
{"id": "C38", "title": "An ack interval acknowledges exactly its range", "statement": "Processing an ack interval [a,b] acknowledges, for the sending subscriber only, exactly the in-flight packets with a <= id <= b, and terminates.", "quantifier": "every state and every a,b in 64 bits", "why_tests_cant": "range includes 2^64-1", "anchors": ["rmc_pub_read.c:process_cmd_ack_interval"]}
{"id": "C39", "title": "Control messages arrive verbatim", "statement": "A control message queued by a subscriber is delivered to the publisher's callback with exactly the same bytes, for every ring position on both sides.", "quantifier": "every payload, every ring position", "why_tests_cant": "all ring wrap positions", "anchors": ["rmc_sub_write.c:rmc_sub_write_control_message_by_address", "rmc_pub_read.c:process_control_message"]}
{"id": "C40", "title": "A resend puts the exact packet on the stream", "statement": "A resend either appends exactly the encoded packet command to the subscriber's stream or fails with EAGAIN and appends nothing.", "quantifier": "every ring state and packet", "why_tests_cant": "all ring positions", "anchors": ["rmc_pub_write.c:rmc_pub_resend_packet"]}
{"id": "C41", "title": "Throttling", "statement": "rmc_pub_queue_packet returns EBUSY iff traffic is suspended; traffic becomes suspended exactly when, after queueing, the in-flight count has reached the suspend threshold, and is resumed by an ack that brings the count to the resume threshold or below.", "quantifier": "every state and thresholds", "why_tests_cant": "all states", "anchors": ["rmc_pub_packet.c:rmc_pub_queue_packet", "rmc_pub_packet.c:rmc_pub_packet_ack", "rmc_pub_context.c:rmc_pub_throttling"]}
{"id": "C42", "title": "Suspension ends", "statement": "Whenever no packet is in flight the publisher accepts new packets.", "quantifier": "every reachable state", "why_tests_cant": "needs the departure of the last subscriber while suspended", "anchors": ["rmc_pub_packet.c:rmc_pub_packet_ack", "rmc_pub_read.c:rmc_pub_close_connection"]}
{"id": "C43", "title": "The publisher's next timeout is sound and processing makes progress", "statement": "rmc_pub_timeout_get_next reports the earliest of the ack deadlines and the announce deadline, -1 iff there is none, and processing at or after that time handles what was due.", "quantifier": "every reachable state", "why_tests_cant": "all states", "anchors": ["rmc_pub_timeout.c:rmc_pub_timeout_get_next", "rmc_pub_timeout.c:rmc_pub_timeout_process"]}
{"id": "C44", "title": "Announce schedule", "statement": "With an announce interval set, timeout_process queues an announce iff the announce time has been reached and then schedules the next one exactly one interval later; with interval 0 none is ever sent.", "quantifier": "every state, clock value and interval", "why_tests_cant": "all states", "anchors": ["rmc_pub_context.c:rmc_pub_set_announce_interval", "rmc_pub_timeout.c:rmc_pub_timeout_process"]}
{"id": "C45", "title": "Pending report", "statement": "rmc_pub_context_get_pending reports EBUSY iff a packet is queued, some connected subscriber has an in-flight packet or some connection has unsent bytes, and 0 otherwise.", "quantifier": "every state", "why_tests_cant": "all states", "anchors": ["rmc_pub_write.c:rmc_pub_context_get_pending"]}
{"id": "C46", "title": "Payload memory is valid when it is sent", "statement": "Every payload the library reads when it multicasts or resends a packet is still valid memory.", "quantifier": "every history including announces", "why_tests_cant": "lifetime over all histories", "anchors": ["rmc_pub_timeout.c:rmc_pub_timeout_process", "rmc_pub_write.c:send_single_multicast_packet"]}
{"id": "C47", "title": "Timeout processing drops a packet only after it was put on TCP", "statement": "For a connected subscriber timeout processing clears a packet's in-flight claim only if its resend was queued on that subscriber's TCP stream.", "quantifier": "every state and ring fill level", "why_tests_cant": "all states", "anchors": ["rmc_pub_timeout.c:process_sent_packet_timeout"]}
{"id": "C48", "title": "Subscriber acks are sent when due", "statement": "Every publisher whose oldest unacknowledged packet is due gets its ack in rmc_sub_timeout_process, and rmc_sub_timeout_get_next is the earliest due time.", "quantifier": "every reachable state with several publishers", "why_tests_cant": "all interleavings of several publishers", "anchors": ["rmc_sub_timeout.c:rmc_sub_timeout_process", "rmc_sub_packet.c:rmc_sub_packet_received"]}
{"id": "C49", "title": "No ack is lost", "statement": "Every received packet is acknowledged, even if the TCP ring was full at the time of the first attempt.", "quantifier": "every state and ring fill level", "why_tests_cant": "needs a full ring at ack time", "anchors": ["rmc_sub_timeout.c:rmc_sub_timeout_process", "rmc_sub_write.c:rmc_sub_write_interval_acknowledgement"]}
{"id": "C50", "title": "Deactivation releases all payloads", "statement": "After rmc_sub_deactivate_context every payload received and not taken by the application has been released exactly once.", "quantifier": "every reachable state", "why_tests_cant": "all states", "anchors": ["rmc_sub_context.c:rmc_sub_deactivate_context", "rmc_sub_packet.c:rmc_sub_packet_dispatched"]}
{"id": "C51", "title": "One connection per publisher", "statement": "A subscriber never opens a second control connection to a publisher it is already connecting or connected to.", "quantifier": "every history of datagrams and callbacks", "why_tests_cant": "needs repeated announces during connection set-up", "anchors": ["rmc_sub_read.c:process_multicast_read", "rmc_sub_read.c:decode_unsubscribed_multicast"]}
{"id": "C52", "title": "Malformed datagrams have no effect", "statement": "A datagram shorter than its header or than its declared payload is refused with EPROTO and changes no publisher state.", "quantifier": "every byte string", "why_tests_cant": "all byte strings", "anchors": ["rmc_sub_read.c:process_multicast_read"]}
{"id": "C53", "title": "Datagrams from unsubscribed publishers", "statement": "Data packets from a publisher the application is not subscribed to are never delivered; announces lead to a connection only if the announce callback accepts.", "quantifier": "every datagram, state and callback answer", "why_tests_cant": "all states", "anchors": ["rmc_sub_read.c:decode_unsubscribed_multicast"]}
{"id": "C54", "title": "Dispatching a packet frees it once", "statement": "rmc_sub_packet_dispatched removes the packet from the ready list and releases its payload exactly once; the keep-payload variant never releases it; both fail with ENOENT and do nothing for a packet that is not ready.", "quantifier": "every state and packet", "why_tests_cant": "all states", "anchors": ["rmc_sub_packet.c:rmc_sub_packet_dispatched", "rmc_sub_packet.c:rmc_sub_packet_dispatched_keep_payload"]}
{"id": "C55", "title": "End-to-end integrity and order", "statement": "Whatever the network loses, duplicates or reorders, the sequence of payloads a subscriber's connection delivers is a contiguous slice of the sequence of payloads the publisher queued, in order and byte for byte.", "quantifier": "every schedule of publisher, network and subscriber steps, any number of subscribers", "why_tests_cant": "all schedules", "anchors": ["pub.c", "sub.c", "rmc_sub_read.c"]}
{"id": "C56", "title": "At-most-once delivery per subscriber", "statement": "Each packet is delivered at most once to a subscriber context.", "quantifier": "every schedule", "why_tests_cant": "needs the double-connection schedule", "anchors": ["rmc_sub_read.c", "sub.c"]}
{"id": "C57", "title": "Reliability after subscription", "statement": "Every packet multicast after a subscriber was registered is eventually delivered to it if timeouts keep being processed and the TCP connection stays up.", "quantifier": "every fair schedule", "why_tests_cant": "liveness over all schedules", "anchors": ["rmc_pub_timeout.c", "rmc_sub_read.c", "sub.c"]}
{"id": "C58", "title": "Ack soundness", "statement": "A subscriber only acknowledges packets it has received, so a publisher never releases a payload that a registered, connected subscriber has neither received nor been sent over TCP.", "quantifier": "every schedule", "why_tests_cant": "all schedules", "anchors": ["rmc_sub_timeout.c", "rmc_pub_read.c", "pub.c"]}
{"id": "C59", "title": "A new connection starts empty", "statement": "The connection an accept or connect opens has an empty read ring and an empty write ring, whatever the slot was used for before: no bytes of an earlier connection are delivered or sent on it.", "quantifier": "every history of accept/connect/complete/close/read/write with any syscall results", "why_tests_cant": "needs every reuse history of a slot, including failed attempts", "anchors": ["rmc_connection.c: rmc_conn_reset_connection, rmc_conn_process_accept, rmc_conn_connect_tcp_by_address, rmc_conn_close_connection"]}
{"id": "C60", "title": "The connection table never reads out of bounds", "statement": "Every accept, connect, completion, close and lookup on a connection table is memory safe and terminates in every reachable state.", "quantifier": "every history with any syscall results, every index and key", "why_tests_cant": "depends on the maximal index never exceeding the table after any history", "anchors": ["rmc_connection.c: rmc_conn_find_by_address, rmc_conn_find_by_node_id, rmc_conn_find_by_index, rmc_conn_close_connection"]}
{"id": "C61", "title": "A successful connect reports success", "statement": "When a TCP connection was started or established, rmc_conn_connect_tcp_by_address returns 0.", "quantifier": "every table, every result of connect() and every prior value of errno", "why_tests_cant": "depends on the value errno happens to hold", "anchors": ["rmc_connection.c: rmc_conn_connect_tcp_by_address"]}
{"id": "C62", "title": "Multicast order and content", "statement": "Data packets are handed to the multicast socket once each, in the order they were queued, under consecutive ids from 1, and every datagram carries the publisher's node id, its control address and exactly the bytes queued under that id; packets not yet multicast are the newest ones and stay queued.", "quantifier": "every history of publisher calls and system call results", "why_tests_cant": "Order and completeness are statements about all prefixes of unbounded histories with errors interleaved.", "anchors": ["rmc_pub_write.c:send_single_multicast_packet", "rmc_pub_write.c:process_multicast_write", "pub.c:pub_next_queued_packet"]}
{"id": "C63", "title": "Payload loans", "statement": "A payload handed over with rmc_pub_queue_packet stays with the library exactly as long as its packet is queued or in flight: payload_free is called on it once, when that ends, and never on anything else.", "quantifier": "every history of publisher calls, acks, disconnects and timeouts", "why_tests_cant": "Double frees and leaks depend on the interleaving of acks, resends and disconnects of all subscribers.", "anchors": ["rmc_pub_packet.c:rmc_pub_packet_ack", "rmc_pub_read.c:rmc_pub_close_connection", "rmc_pub_timeout.c:rmc_pub_timeout_process"]}
{"id": "C64", "title": "Nothing multicast is forgotten", "statement": "For every open subscriber connection, the TCP stream is a sequence of whole packet commands carrying packets of this publisher unchanged, and every data packet multicast since the connection was opened is still to be acknowledged by that subscriber, has been put on its TCP stream, or was acknowledged by it.", "quantifier": "every reachable state and every open connection", "why_tests_cant": "An invariant of unbounded histories.", "anchors": ["rmc_pub_timeout.c", "rmc_pub_write.c:rmc_pub_resend_packet", "rmc_pub_read.c", "pub.c"]}
{"id": "C65", "title": "Control messages reach the publisher's callback", "statement": "Every control message a subscriber sends is handed to the publisher's control message callback once and in order with that subscriber's address and the bytes sent, and is dropped if no callback is set.", "quantifier": "every reachable state, every byte stream", "why_tests_cant": "Every split of the stream and every ring position.", "anchors": ["rmc_pub_read.c:process_control_message", "rmc_pub_context.c:rmc_pub_init_context"]}
{"id": "C66", "title": "Deactivation", "statement": "rmc_pub_deactivate_context closes every subscriber connection once, reports each subscriber as disconnected, closes both sockets and gives back every payload some subscriber still had to acknowledge, once.", "quantifier": "every reachable state", "why_tests_cant": "Every set of open slots and packets in flight.", "anchors": ["rmc_pub_context.c:rmc_pub_deactivate_context"]}
{"id": "C67", "title": "Multicast write", "statement": "A write on the multicast socket sends queued packets in order until the queue is empty or the first sendmsg error, which it returns; every subscriber connected at that moment, and no other, then has to acknowledge exactly the data packets sent, with their send time; nothing else changes.", "quantifier": "every reachable state and every sequence of sendmsg results", "why_tests_cant": "All queue contents and error positions.", "anchors": ["rmc_pub_write.c:rmc_pub_write", "rmc_pub_write.c:process_multicast_write", "pub.c:pub_packet_sent"]}
{"id": "C68", "title": "The library asks to be polled for exactly what it waits for", "statement": "Reading only the poll_add, poll_modify and poll_remove calls a context has made: a closed connection index is not polled; a connecting one is polled for output; a connected one is polled for input, and also for output exactly when bytes wait to be sent on it; the publisher's listening socket and either side's multicast socket are polled for input while active; the publisher's multicast socket is also polled for output exactly when packets wait to be multicast. (False in the code after a read while output waits, after queueing before activation, and after a failed bind: characterised.)", "quantifier": "every history of calls on a publisher or subscriber context", "why_tests_cant": "a lost wakeup appears only after particular interleavings of reads, writes and queueing", "anchors": ["rmc_pub_read.c:rmc_pub_read", "rmc_pub_write.c:rmc_pub_write", "rmc_pub_packet.c:rmc_pub_queue_packet", "rmc_sub_read.c:rmc_sub_read", "rmc_sub_write.c:rmc_sub_write", "rmc_connection.c"]}
{"id": "C69", "title": "Subscriber payload accounting", "statement": "At every moment the payload buffers the subscriber library allocated and nobody freed are exactly those of the packets it holds, those the application kept, and those dropped by a deactivation, each one only once; the library frees no buffer twice and none it did not allocate; the buffer of a held packet contains the payload received for that packet.", "quantifier": "every history of API calls, system call results and callback behaviour", "why_tests_cant": "all histories, including resets and reconnects", "anchors": ["rmc_sub_read.c:process_cmd_packet", "rmc_sub_read.c:decode_subscribed_multicast", "rmc_sub_packet.c:rmc_sub_packet_dispatched", "sub.c:sub_reset_publisher"]}
{"id": "C70", "title": "No use after free in the subscriber", "statement": "No call of the subscriber API frees or reads a payload buffer that is not allocated at that moment.", "quantifier": "every reachable state and every allowed call", "why_tests_cant": "all histories", "anchors": ["rmc_sub_packet.c:rmc_sub_packet_dispatched", "sub.c:sub_reset_publisher", "rmc_sub_context.c:rmc_sub_deactivate_context"]}
{"id": "C71", "title": "Subscriber deactivation closes everything", "statement": "rmc_sub_deactivate_context returns 0 and closes the multicast socket and every control connection, releasing what they hold; it does so from every state.", "quantifier": "every reachable state", "why_tests_cant": "all states, including connections still being set up", "anchors": ["rmc_sub_context.c:rmc_sub_deactivate_context", "rmc_sub_read.c:rmc_sub_close_connection"]}
{"id": "C72", "title": "Order and exactness of delivery on a connection", "statement": "Since a control connection was opened, the packets handed out have consecutive ids starting with the first one accepted, each once and with the payload that was received, and a packet is handed out as soon as every packet between the first one and it has been accepted; all others wait in id order.", "quantifier": "every history, any arrival order, loss and duplication, packets by multicast and by TCP", "why_tests_cant": "all arrival orders", "anchors": ["rmc_sub_read.c", "sub.c:sub_process_received_packets", "sub.c:sub_packet_is_duplicate"]}
{"id": "C73", "title": "Exactness of acknowledgement on a connection", "statement": "Since a control connection was opened, each packet accepted by multicast is in exactly one ack interval that was sent, waits, or was lost, and no other packet is; the bytes put on the socket and still in the ring are whole commands whose acks are exactly the intervals sent.", "quantifier": "every history", "why_tests_cant": "all interleavings of arrivals, timeouts and partial writes", "anchors": ["rmc_sub_timeout.c:rmc_sub_timeout_process", "rmc_sub_write.c:rmc_sub_write_interval_acknowledgement", "sub.c:sub_packet_add_to_received_interval"]}
{"id": "C74", "title": "A subscriber reads every control channel as the byte stream it is", "statement": "Since a control connection was opened, let the bytes received on it split into complete commands and an incomplete rest. Every packet accepted by TCP is one of these commands, byte for byte; every packet that arrived completely was accepted (by either way) unless it is older than the first packet handed out; exactly the incomplete rest is kept for the next read, and the receive buffer is in order.", "quantifier": "every history, every way the byte stream is cut into reads", "why_tests_cant": "all cuts of the stream at all ring positions, interleaved with multicast arrivals", "anchors": ["rmc_protocol.c:rmc_conn_tcp_read", "rmc_sub_read.c:rmc_sub_read", "rmc_sub_read.c:process_cmd_packet"]}
{"id": "C75", "title": "A publisher reads every control channel as the byte stream it is", "statement": "Since a subscriber's connection was accepted, let the bytes received on it split into complete commands and a rest. The ack intervals the publisher acts on are exactly those among the commands, in order; exactly the rest is kept for the next read; the receive buffer is in order; and one more read makes exactly the packets in the newly completed ack intervals stop being owed by that subscriber.", "quantifier": "every history, every way the byte stream is cut into reads", "why_tests_cant": "all cuts of the stream at all ring positions, interleaved with other calls", "anchors": ["rmc_protocol.c:rmc_conn_tcp_read", "rmc_pub_read.c:rmc_pub_read", "rmc_pub_read.c:process_cmd_ack_interval"]}
{"id": "C76", "title": "No descriptor is lost or closed twice", "statement": "Provided the kernel never hands out a descriptor that is still open, after any sequence of calls the descriptors the context has opened and not closed are exactly those of its sockets and of its open connections, all different; close() is only ever called on an open descriptor or on -1; and deactivating the context leaves none open. (For the publisher this is false if an active context is activated again: the first two sockets are then lost.)", "quantifier": "every history of calls and socket outcomes on either side", "why_tests_cant": "a leak or a double close needs a particular order of accepts, failures, closes and re-activations; all orders must be ruled out", "anchors": ["rmc_pub_context.c:rmc_pub_activate_context", "rmc_pub_context.c:rmc_pub_deactivate_context", "rmc_sub_context.c:rmc_sub_activate_context", "rmc_sub_context.c:rmc_sub_deactivate_context", "rmc_connection.c:rmc_conn_close_connection"]}
{"id": "C78", "title": "Every call reports its outcome exactly", "statement": "The return code (and, where the call has one, the operation reported through its out-parameter) of each API call is the documented one: writing to an index that is out of range, not open, or has nothing to send reports EINVAL, ENOTCONN or ENODATA and changes nothing, otherwise it reports the outcome of writev() and puts exactly the accepted bytes on the wire; reads of unconnected indices, accepts into a full table, failed accept(), close of an unconnected index, queueing with no payload, too long a payload or while suspended, inverted thresholds, sending control messages without a message, connection or room, and repeated subscriber activation are each refused with their own code and have no effect; every other call of these reports success.", "quantifier": "every reachable context on either side, every argument, every outcome of the system calls", "why_tests_cant": "the code depends on the whole table of connections and on buffer fill levels reached through arbitrary histories; a test sees a few of them", "anchors": ["rmc_pub_context.c:rmc_pub_activate_context", "rmc_pub_write.c:rmc_pub_write", "rmc_pub_read.c:rmc_pub_read", "rmc_pub_read.c:rmc_pub_close_connection", "rmc_sub_write.c:rmc_sub_write", "rmc_sub_read.c:rmc_sub_read", "rmc_pub_packet.c:rmc_pub_queue_packet", "rmc_pub_context.c:rmc_pub_throttling", "rmc_sub_write.c:rmc_sub_write_control_message_by_address"]}
{"id": "C79", "title": "The counts a context reports are exact", "statement": "After any history the reported number of subscribers (publishers) is the number of indices with an open connection, never above the maximum; the maximum is the number of connections whose storage was handed over at initialisation, and never changes; the reported number of sockets is the number of descriptors the context has opened and not closed; the dispatch-ready count is the number of packets put up for dispatch and not yet taken. (The publisher's socket count is wrong if an active context is activated again.)", "quantifier": "every history of calls and socket outcomes on either side, every table size up to 32765", "why_tests_cant": "the counters are kept incrementally and drift only after particular orders of failures, closes and re-activations", "anchors": ["rmc_pub_context.c:rmc_pub_get_subscriber_count", "rmc_pub_context.c:rmc_pub_get_socket_count", "rmc_pub_context.c:rmc_pub_get_max_subscriber_count", "rmc_sub_context.c:rmc_sub_get_publisher_count", "rmc_sub_context.c:rmc_sub_get_socket_count", "rmc_sub_packet.c:rmc_sub_get_dispatch_ready_count"]}
{"id": "C77", "title": "Every call returns", "statement": "No call of the publisher's or subscriber's API crashes, aborts or loops forever on a context in any state a history of calls and socket outcomes can reach, whatever the peer sends. Known exceptions, which are the only ones. Publisher: a read that completes an ack interval up to the largest id, a control message with no callback ever set, a resend into a send ring filled exactly to the end of its memory, and an announce payload freed or shortened behind the library's back. Subscriber: malloc() failing for a received packet ends the process; acknowledgements or control messages that meet the end of the memory of the send ring; closing an index on which no connection was ever established, or deactivating with such a connect pending; a control message to an index outside the table.", "quantifier": "every reachable context, every call with every argument its contract allows, every socket outcome and every byte received", "why_tests_cant": "a crash needs a particular ring position, table content or received command; no finite set of runs covers all of them", "anchors": ["rmc_pub_timeout.c:rmc_pub_timeout_process", "rmc_pub_read.c:rmc_pub_read", "rmc_pub_write.c:rmc_pub_write", "rmc_pub_packet.c:rmc_pub_queue_packet", "rmc_pub_context.c:rmc_pub_deactivate_context", "rmc_sub_read.c:rmc_sub_read", "rmc_sub_timeout.c:rmc_sub_timeout_process", "rmc_sub_context.c:rmc_sub_deactivate_context", "rmc_sub_read.c:rmc_sub_close_connection", "rmc_sub_write.c:rmc_sub_write_control_message"]}
{"id": "C80", "title": "The result of reading a control connection tells what happened to its stream", "statement": "When rmc_pub_read or rmc_sub_read reads a connected control connection: with no room left for input it returns ENOMEM (and an error operation), takes nothing and changes nothing but the events polled for; if the peer has closed or the read fails it closes the connection and returns 0 with the disconnect operation; otherwise the input is split into complete commands, and the result is 0 if nothing is left over, EAGAIN if the beginning of a command is left over - both with the TCP-read operation - and EPROTO with the error operation if what is left over starts with no command code. In the first two cases what is left over is kept, unaltered, for the next read and the connection polls for input (on the publisher also for output if there is any waiting). On EPROTO the subscriber closes the connection; the publisher keeps it, and the garbage: every later read of it returns EPROTO and its input piles up until the ring is full, so no ack sent after it is ever heard.", "quantifier": "every history of calls and socket outcomes, every connected index, every split of the stream into reads", "why_tests_cant": "tests feed a handful of whole commands; the result depends on how the stream is cut and on all input before", "anchors": ["rmc_pub_read.c:rmc_pub_read", "rmc_sub_read.c:rmc_sub_read", "rmc_protocol.c:rmc_conn_tcp_read", "rmc_protocol.c:rmc_conn_process_tcp_read"]}
{"id": "C81", "title": "The connect and disconnect callbacks keep an exact list of the subscribers", "statement": "With a connect callback set, the publisher reports every accepted connection once, with the peer's address and port, and every connection that goes - closed by the application, by the peer, refused by the callback, or by deactivation - once as disconnected with the same address and port: a list kept from these callbacks alone is at all times the list of open connections, nobody is reported gone who was not reported there, and after deactivation it is empty. As written the address and port are wrong: the port is always 0 (also in control messages, whose node id is always 0 too), and the address is the network-order word, on a little-endian host that of d.c.b.a instead of a.b.c.d. Without a connect callback connections are accepted unannounced but their end is still reported.", "quantifier": "every history of calls and socket outcomes, every peer address, every answer of the connect callback", "why_tests_cant": "connections end in many places of the code and tests on localhost (one address) see neither a missed nor a doubled report nor which peer was meant", "anchors": ["rmc_pub_read.c:rmc_pub_read", "rmc_pub_read.c:rmc_pub_close_connection", "rmc_connection.c:rmc_conn_process_accept", "rmc_pub_context.c:rmc_pub_deactivate_context", "rmc_pub_context.c:rmc_pub_set_subscriber_connect_callback", "rmc_pub_context.c:rmc_pub_set_subscriber_disconnect_callback"]}
{"id": "C82", "title": "What is owed can always be settled, but may be starved", "statement": "A publisher whose send buffers have been written out before it processes timeouts never crashes there. If every packet owed is due and no announcement is, each such processing call either settles everything (every debt is acknowledged or its packet is written to the subscriber's connection, newest first) or returns EAGAIN having settled at least one debt, and creates none: after at most as many calls as there are debts nothing is owed, and from every reachable state such a run exists. A publisher that announces itself and whose timeout calls are at least an announce interval apart does nothing but announce: then what is due is never resent, however long it goes on; a second call at the same time looks at the resends.", "quantifier": "every reachable publisher state, every set of debts, every sequence and outcome of socket writes, every timing of calls", "why_tests_cant": "progress over an unbounded number of calls for every set of debts and ring fill; starvation depends on the spacing of calls for ever", "anchors": ["rmc_pub_timeout.c:rmc_pub_timeout_process", "rmc_pub_timeout.c:process_subscriber_timeout", "rmc_pub_timeout.c:process_sent_packet_timeout", "rmc_pub_write.c:rmc_pub_resend_packet", "circular_buffer.c:circ_buf_free"]}
{"id": "C83", "title": "Losses can always be made good", "statement": "Whatever datagrams were lost, duplicated or reordered and whatever is still owed: in every reachable state of a publisher and its subscribers in which no announcement falls due by the time all resend timers have run out (in particular whenever the publisher does not announce periodically), there is a continuation that consists only of the publisher writing to its subscribers' sockets and processing timeouts and of subscribers reading their connections, after which nobody owes an acknowledgement and each subscriber that had not read part of a packet has received every packet multicast since its connection was accepted, except those older than the first packet handed to it; from its first such packet on it has been handed all of them, byte for byte, and keeps what it had.", "quantifier": "every reachable state of one publisher and any number of subscribers, every loss pattern, every fill of the send buffers, every number of debts", "why_tests_cant": "an existence claim about every reachable state of a distributed system: a test can only show that one run recovers", "anchors": ["rmc_pub_timeout.c:rmc_pub_timeout_process", "rmc_pub_write.c:rmc_pub_write", "rmc_pub_write.c:rmc_pub_resend_packet", "rmc_sub_read.c:rmc_sub_read", "rmc_sub_read.c:process_cmd_packet", "rmc_protocol.c:rmc_conn_tcp_read"]}
{"id": "C84", "title": "The log shows exactly what was asked for, where and in the colours asked for", "statement": "For every sequence of calls of the logging interface, whatever files are terminals: exactly the messages whose level was at most the level in force are printed (plus one complaint per illegal level, whatever the level in force), in order, in full, each to the file set last (standard output at first); a line is coloured exactly if colour was switched on, or, under automatic colouring, if the file it goes to is a terminal, also after files were switched; taking the colours away gives the same text; a level is accepted exactly if between 0 and 6; nothing ever crashes or overruns a buffer, except that passing NULL to rmc_log_set_file after automatic colouring has been resolved crashes; the times shown do not decrease.", "quantifier": "every sequence of logging calls, every message, index, level and colour value, every assignment of terminals", "why_tests_cant": "depends on the whole history of calls (level, file, colour, first line printed) and on every index and text", "anchors": ["rmc_log.c:rmc_log", "rmc_log.c:rmc_set_log_level", "rmc_log.c:rmc_log_set_file", "rmc_log.c:rmc_log_use_color", "rmc_log.h:RMC_LOG_INDEX_DEBUG", "time.c:rmc_usec_monotonic_timestamp"]}
{"id": "C85", "title": "The Wireshark plugin shows what is on the wire", "statement": "Every datagram a publisher multicasts is shown with its packet id, node id, length, listen address, port and payload, and an announcement makes its port a control port; a TCP segment from a publisher is shown as exactly the packets it contains, and a packet it contains only the beginning of is put together with the following segments; a TCP segment from a subscriber is shown as exactly the acknowledgements and control messages it contains; no captured bytes make the dissection loop or fail.", "quantifier": "every packet, every sequence of commands, every cut of the publisher's stream into segments, every captured byte string", "why_tests_cant": "ranges over all captures; what is shown depends on where TCP cut the stream", "anchors": ["rmc_wireshark_plugin.c:dissect_rmc_tcp", "rmc_wireshark_plugin.c:dissect_packet_offset", "rmc_wireshark_plugin.c:dissect_rmc_ack_interval", "rmc_wireshark_plugin.c:dissect_rmc_ctl_msg", "rmc_wireshark_plugin.c:get_rmc_packet_len"]}
{"id": "C86", "title": "Creating and deleting a context", "statement": "Creating a context succeeds exactly if a group and usable addresses are given, leaves every member the later calls read with its documented initial value and room for the number of peers asked for; a refused creation leaves nothing behind; deleting a context gives back everything it owned; changing the user data changes what every callback gets.", "quantifier": "all arguments, all answers of the C library, all contents of fresh memory, all histories between creation and deletion", "why_tests_cant": "fresh memory often happens to be zero, so a member that is never assigned is invisible in a test; capacities near the reserved indices need tens of thousands of connections", "anchors": ["rmc_pub_context.c:rmc_pub_init_context", "rmc_pub_context.c:rmc_pub_delete_context", "rmc_sub_context.c:rmc_sub_init_context", "rmc_sub_context.c:rmc_sub_delete_context", "rmc_connection.c:rmc_conn_init_connection_vector"]}
{"id": "C87", "title": "Activation is all or nothing", "statement": "Activating a context makes a fixed sequence of system calls, with the addresses and ports given at its creation in network order, up to the first that fails; if none fails the code is 0 and the sockets are kept and polled; if one fails the code is not 0, every socket opened is closed again and the context is as before; an active context is not activated again.", "quantifier": "all contexts, all answers to every single system call", "why_tests_cant": "ranges over every failure of every system call; most of them cannot be provoked", "anchors": ["rmc_pub_context.c:rmc_pub_activate_context", "rmc_pub_context.c:rmc_pub_set_multicast_ttl", "rmc_sub_context.c:rmc_sub_activate_context"]}
{"id": "C88", "title": "The bundled epoll callbacks watch the right things", "statement": "An application that passes the bundled poll_add, poll_modify and poll_remove to a context never ends because of one of their calls, and at any time the kernel watches exactly the context's sockets and open connections, each under its connection index: an established connection for input and, exactly while bytes wait in its output buffer, for output; a connection being set up for output; the listening socket for input; the publisher's multicast socket for output exactly while packets are queued, the subscriber's for input.", "quantifier": "all histories of calls on a context, all answers of the system, all descriptor numbers the kernel may hand out (with reuse)", "why_tests_cant": "a descriptor watched under a stale index or for stale events shows only after a particular sequence of closes and reuses; a missed EPOLLOUT shows as silence", "anchors": ["rmc_proto_test_common.c:poll_add", "rmc_proto_test_common.c:poll_modify", "rmc_proto_test_common.c:poll_remove", "rmc_pub_write.c:process_multicast_write", "rmc_sub_read.c:rmc_sub_read", "rmc_connection.c:rmc_conn_close_connection"]}
{"id": "C89", "title": "The bundled test peers give the right verdict", "statement": "The test publisher (rmc_test without -S) hands the library payloads that carry the signals 1..count in order, as many whole signals as fit each, and the test subscriber (rmc_test -S) ends successfully if and only if from every node named by -e it was handed exactly the signals 1..max in order; it ends with 255 at the first signal that is from another node, out of sequence, repeated, or changes the announced maximum, and otherwise keeps waiting. Over the library and any network the test therefore passes exactly when the library has handed out every queued packet starting with the first.", "quantifier": "every count, node id and set of expected nodes, every stream of signals in any packets and interleaving, every system execution", "why_tests_cant": "The test programs are themselves the tests; that they accept exactly the right executions ranges over all streams.", "anchors": ["rmc_proto_test_sub.c: process_incoming_signal, process_incoming_packet, check_exit_condition, test_rmc_proto_sub", "rmc_proto_test_pub.c: test_rmc_proto_pub, queue_test_data", "rmc_test.c: main"]}
{"id": "C90", "title": "The library's own packet records do not accumulate", "statement": "Beside the payload buffers (C63, C69) the library allocates a record for every packet queued in a publisher and for every packet accepted by a subscriber. The records allocated at any moment are those of the packets the context still holds: queued or in flight in a publisher, waiting or ready in a subscriber; none is left when the context holds no packet.", "quantifier": "every history of a publisher or subscriber context, every moment", "why_tests_cant": "A leak is a statement about all histories; a test sees that one run ends.", "anchors": ["pub.c: pub_queue_packet_with_pid, pub_packet_sent, pub_packet_ack", "sub.c: sub_packet_received, sub_reset_publisher", "rmc_sub_packet.c: rmc_sub_packet_dispatched, rmc_sub_packet_dispatched_keep_payload"]}
{"id": "C91", "title": "The bundled event loops serve every ready descriptor, and only for the connection it belongs to", "statement": "The programs that come with the library drive it with an epoll loop. For whatever set of ready descriptors the kernel reports, in whatever order: each one that has input gets one read and each one that has room gets one write, with the index of the connection (or socket) that owns the reported descriptor at the time of the call, even if other connections were closed or accepted, and descriptors reused, earlier in the same round; a connection is closed by the loop only because its own write failed. The loop sleeps until the library's next deadline, not longer than a millisecond beyond it, and what is due is then done: announcements and resends in the publisher, acknowledgements in the subscriber, where catching up always ends.", "quantifier": "every reachable context, every array of ready descriptors and events, every result of the system calls, every deadline", "why_tests_cant": "Stale events in one epoll round, descriptor reuse and starvation depend on the kernel's order and timing.", "anchors": ["rmc_proto_test_pub.c: process_events, test_rmc_proto_pub", "rmc_proto_test_sub.c: process_events, test_rmc_proto_sub", "rmc_proto_test_common.c: poll_add, poll_modify, poll_remove"]}
{"id": "C92", "title": "Callbacks are called exactly when something happened that they report", "statement": "A subscriber that set a packet ready callback is told, by a call after the fact and before the library call returns, about every packet that becomes ready, and the callback is never called unless a packet has become ready since its previous call; the subscription complete callback is called once for each control connection that is completed successfully, with that publisher's address, port and node id, and never otherwise; the announce callback is called exactly once, with the origin, node id and payload of the datagram, for each well-formed announce of a publisher without an established connection, and never for anything else. A callback that is not set (or was removed) is not called. A publisher hands control messages only to a callback that is set at the time, and only while it reads a control connection.", "quantifier": "every history of calls with callbacks set, replaced and removed at any point, every datagram, every result of the system calls", "why_tests_cant": "Missed or spurious notifications depend on the order of packets, holes being filled, connections racing with announces and callbacks being changed in between.", "anchors": ["rmc_sub_read.c", "rmc_sub_write.c: rmc_sub_write", "rmc_sub_context.c: rmc_sub_set_announce_callback, rmc_sub_set_subscription_complete_callback, rmc_sub_set_packet_ready_callback", "rmc_pub_read.c: process_control_message", "rmc_pub_context.c: rmc_pub_set_control_message_callback"]}
{"id": "C93", "title": "Control messages reach the publisher's callback once, in order, unchanged", "statement": "Every control message a subscriber hands to the library for a control connection (by index, by address or by node id) and for which the call reports success is passed to the publisher's control message callback byte for byte, at most once and in the order of the calls, however the bytes of the connection are cut up by either side's sockets and however acknowledgements are mixed in between; no message is passed that was not handed over; what the publisher has passed on at any moment is an initial part of what was handed over on that connection since it was opened, and it is all of it once the subscriber's buffer is empty and its bytes have arrived. The acknowledgements processed are those sent before, in the same order.", "quantifier": "every history of a publisher and any number of subscribers, every interleaving, every cutting of the byte streams, losses, duplicates and reorderings of datagrams, connections breaking at any time", "why_tests_cant": "Partial reads and writes, interleaved acknowledgements and reconnections are schedules; a test sees a few of them.", "anchors": ["rmc_sub_write.c: rmc_sub_write_control_message, rmc_sub_write_control_message_by_address, rmc_sub_write_control_message_by_node_id", "rmc_sub_timeout.c: send of acknowledgements", "rmc_connection.c: rmc_conn_process_tcp_write, rmc_conn_process_tcp_read", "rmc_pub_read.c: process_control_message, process_cmd_ack_interval"]}
{"id": "C94", "title": "A late joiner gets no history, and no packet is resent to a subscriber twice", "statement": "What the publisher sends to a subscriber over its TCP connection is packets multicast after the publisher accepted that connection, never older ones, and each of them at most once, however often timeouts and acknowledgements come and however the bytes are cut; a packet that has been put on the connection is no longer waited for. A subscriber is waited for only on packets multicast since its connection was accepted. Hence whatever a subscriber accepts from a publisher either came in a multicast datagram received since it opened the connection or was multicast after the publisher accepted the connection.", "quantifier": "every history of the publisher's calls with every result of its sockets; for the last sentence every interleaving of a publisher and any number of subscribers, with datagrams lost, duplicated, reordered and forged in other names, TCP cut at any place and connections breaking at any time", "why_tests_cant": "It depends on the order of accepts, multicasts, acknowledgements and timeouts over the whole history and on slot reuse; a test fixes one order.", "anchors": ["rmc_pub_write.c: rmc_pub_resend_packet, process_multicast_write", "rmc_pub_timeout.c: process_sent_packet_timeout, rmc_pub_timeout_process", "pub.c: pub_packet_sent, pub_packet_ack, pub_reset_subscriber", "rmc_pub_read.c: rmc_pub_read", "rmc_sub_read.c: process_cmd_packet"]}
{"id": "C95", "title": "Connections do not disturb each other", "statement": "At a publisher, reading from, writing to or closing one subscriber's connection (or accepting a new one, or reading the multicast socket) leaves every other established connection as it was: its buffered bytes in both directions, the packets that subscriber still has to acknowledge and since when, what was sent to it and acknowledged by it, and its polling registration; and it leaves the packets waiting to be multicast. At a subscriber, reading from, writing to, sending a control message on or closing one connection, reading datagrams that do not come from the publisher of another connection, and taking packets leave that other connection as it was: its buffered bytes, its packets out of sequence, its acknowledgements to send and their times, its packets ready (except those the application takes) and its polling registration.", "quantifier": "every history of calls, every slot, every bytes read, every result of the sockets, malformed input and closing included", "why_tests_cant": "A test checks the connection it drives; that all others are untouched, in every reachable state and for every input on that connection, is a frame property.", "anchors": ["rmc_pub_read.c: rmc_pub_read, process_cmd_ack_interval", "rmc_pub_write.c: rmc_pub_write", "rmc_pub_context.c: rmc_pub_close_connection, rmc_pub_packet_ack", "rmc_sub_read.c: rmc_sub_read, process_multicast_read, process_cmd_packet", "rmc_sub_write.c: rmc_sub_write, rmc_sub_write_control_message", "rmc_sub_context.c: rmc_sub_close_connection, rmc_sub_packet_dispatched", "rmc_connection.c: rmc_conn_close_connection, rmc_conn_connect_tcp_by_address, rmc_conn_process_accept"]}
{"id": "C96", "title": "The bundled test publisher as a whole program", "statement": "The test publisher counts its subscribers correctly: its counter is always the number of open connections. It queues nothing until the expected number is connected, begins as soon as it is, and announces no more from then on; while it waits it announces every 0.3 s, in every round without events in which the time has come. It hands the library the signals 1 to count in order, in packets, exactly once each, and all of them before it leaves its sending loop, whatever drop rate is asked for. When it queues a packet other than the first, at most 100 are waiting. It exits with 255 only if the context could not be activated. It ends, deactivating the context, only when everything is queued and every subscriber has gone, and then it does. The claim that everything has then been multicast is false: with nobody connected at the end of its loop it exits with 0 although packets are still queued.", "quantifier": "every argument list, every result of epoll_wait and of the sockets, every time read, every address returned by malloc, every number of rounds", "why_tests_cant": "This is the test program itself: running it against a subscriber exercises one schedule of joins, departures, acknowledgements and timeouts.", "anchors": ["rmc_proto_test_pub.c: test_rmc_proto_pub, process_events, queue_test_data, _subscriber_connect_callback, _subscriber_disconnect_callback", "rmc_pub_timeout.c: rmc_pub_timeout_process, rmc_pub_timeout_get_next", "rmc_pub_context.c: rmc_pub_queue_packet, rmc_pub_set_announce_interval, rmc_pub_queue_length"]}
{"id": "C97", "title": "The bundled test subscriber as a whole program", "statement": "The test subscriber agrees to every announcement. It goes through the packets in the order in which they become ready, skipping none and none twice, and never waits for events while a ready packet has not been checked. It keeps running exactly as long as the signals it has been through leave the test undecided; it exits with 255 at the packet with which the test fails (or if the context cannot be activated, before any packet), and with 0 only after the packet with which the test passes, once nothing arrives any more, after deactivating the context. While the test goes on, the acknowledgements due are sent before it waits. Before it ends it acknowledges everything it has received. The last sentence is false: once the test has passed no acknowledgement is sent any more, so a test may pass without a single one, and the packet with which it passes is never given back to the library, whose deactivation then leaks its payload.", "quantifier": "every set of expected nodes, every result of epoll_wait and of the sockets, every time read, every datagram and TCP stream content, every number of rounds", "why_tests_cant": "This is the test program itself: running it against a publisher exercises one schedule of announcements, connections, packets and timeouts.", "anchors": ["rmc_proto_test_sub.c: test_rmc_proto_sub, process_events, process_incoming_packet, announce_cb", "rmc_sub_packet.c: rmc_sub_get_next_dispatch_ready, rmc_sub_packet_dispatched", "rmc_sub_timeout.c: rmc_sub_timeout_process, rmc_sub_timeout_get_next", "rmc_sub_context.c: rmc_sub_deactivate_context"]}
{"id": "C98", "title": "The control channel is the one documented", "statement": "What subscribers and publishers send each other over the control channel is what PROTOCOL.md describes: a subscriber sends INIT and then ACKs, a publisher answers INIT and then sends PACKETs, with the documented command codes, layouts and byte order; and each side understands the documented commands of the other. This is false of the code in every respect: no subscriber stream and (but for some node ids) no publisher stream is the beginning of a documented one; a publisher that reads a documented INIT reports EPROTO and keeps the bytes before it, one that reads a documented ACK of a packet waits for more, and a subscriber that reads a documented PACKET reports EPROTO and closes the connection.", "quantifier": "every reachable publisher and subscriber state, every protocol version, packet id, payload and continuation of the stream", "why_tests_cant": "The bundled tests only run the code against itself; a peer written from the document is not among them, and the claim is about every stream.", "anchors": ["PROTOCOL.md", "rmc_protocol.h: RMC_CMD_PACKET, RMC_CMD_ACK_INTERVAL, RMC_CMD_CONTROL_MESSAGE", "rmc_pub_read.c: rmc_pub_read", "rmc_sub_read.c: rmc_sub_read", "rmc_sub_write.c: rmc_sub_write_interval_acknowledgement, rmc_sub_write_control_message", "rmc_pub_write.c: rmc_pub_resend_packet"]}
{"id": "C99", "title": "The command line of rmc_test means what the usage text says", "statement": "rmc_test starts a subscriber if and only if -S is given, else a publisher; every argument it starts with is what the last option for it says, wherever it stands among the others, or the documented default; a subscriber expects packets of exactly the nodes named by -e, or of node 1 if none is named, and a publisher waits for the number of subscribers given with -E; the usage text is printed exactly for an unknown option, an illegal node id or an illegal log level (the last one given). Three parts are false of the code: an address of 80 bytes or more is copied past the end of its array; the number given with -E is also taken for a node to expect, so it replaces node 1 and is refused when it is not a legal node id; and -i accepts any number, 0 and multiples of 2^32 leading to a random id.", "quantifier": "every sequence of options and option values", "why_tests_cant": "The test scripts use a handful of command lines; the claim is about all orders, repetitions and values.", "anchors": ["rmc_test.c: main, usage", "README.md: Test program usage", "rmc_log.c: rmc_set_log_level"]}
