# Formal model of PDXostc/reliable_multicast in Rocq (Coq 8.16.1)

Build: `cd rocq && coq_makefile -f _CoqProject -o Makefile && make -j4` (about 90 s on 4 cores).

## 1. Layers (rocq/theories)

**Model** (transcription of the C code; every definition cites file and lines)

| file | models |
|---|---|
| Base.v | fixed-width wrap-around (`u8/u16/u32/u64`), errno values, the outcome type `res` (`Ok`, `UB`, `Abort`, `Hang`) |
| CircBuf.v | circular_buffer.c: indices and a byte array, loads and stores bounds-checked |
| ListHeap.v | rmc_list_template.h at pointer level: heap of nodes and list headers |
| SeqList.v | the same operations on sequences (justified by C07: ListRefine.v, PropList.v) |
| Wire.v | rmc_protocol.h: packed structs as bytes |
| Pub.v | pub.c (lists as sequences) |
| Sub.v | sub.c (lists as sequences) |
| Conn.v | rmc_connection.c |
| Proto.v | rmc_protocol.c, and the parts of rmc_{pub,sub}_{read,write}.c that touch the rings |
| PubCtx.v | rmc_pub_{context,packet,read,write,timeout}.c |
| SubCtx.v | rmc_sub_{context,packet,read,write,timeout}.c |
| Setup.v | creation, activation and deletion of contexts, statement by statement |
| Log.v | rmc_log.c, time.c |
| Dissect.v | the dissectors of rmc_wireshark_plugin.c |
| Epoll.v | the poll callbacks of rmc_proto_test_common.c over an epoll set |
| Loop.v | process_events of rmc_proto_test_{pub,sub}.c, the publisher's waiting loop, the subscriber's catching-up loop; epoll_wait() is an arbitrary array of reports for watched descriptors |
| TestPeers.v | the checker and the payloads of rmc_proto_test_{pub,sub}.c, option parsing of rmc_test.c |
| Options.v | main of rmc_test.c: the whole command line |
| Program.v | test_rmc_proto_pub() as a whole: its loops, its callbacks and its calls of the library, one round per step (epoll_create, the TTL option and the log lines left out) |
| SubProgram.v | test_rmc_proto_sub() as a whole: its loops, announce_cb and its calls of the library, one round per step (epoll_create and the log lines left out) |

**Specifications** (what the statements are made of; no proofs)

SpecRing (byte queue), SpecList, SpecPub (specification machine of a publisher), SpecSub
(arrival histories), SpecConn (histories of the connection table, open descriptors, poll sets),
SpecProto (commands and byte streams), SpecDoc (PROTOCOL.md transcribed), SpecPubCtx / SpecPubRecv (histories of publisher calls),
SpecSubCtx (histories of subscriber calls), SpecPoll (poll requests), SpecDesc (descriptors),
SpecSys (one publisher, any number of subscribers, the network), SpecCtrl (what subscribers were
given to send and what the callback got).

A *history* is any sequence of API calls with any results of the system calls and callbacks. The
side conditions on a step (`xok`, `yok`, `cop_ok`, ...) say only what the API requires of its
caller (e.g. a queued payload is memory the application owns; the descriptor `accept()` returns is
not negative). The statements range over all histories, of any length, from a freshly
initialised context with a connection table of any size below the reserved indices.

**Proofs**: `*Proofs`, `*Steps`, `*Inv`, `*Trace`, `*Refine`, `Safe`, `PollPub`, `PollMcast`, `PollSub`,
`Desc*`, `PubRecv`, `SubRecv`, `SubMem`, `SubDecomp`, `ProtoRead`, `PubCtxOwed`.

**Theorems**: `Prop*.v`. Names start with the property's id (`c23_...`). `_partial`: the property
with an extra hypothesis; the note says what is missing. `_refuted`: the property, read literally,
is false of the code; the theorem exhibits (or characterises) the states where it fails. Beside each
theorem an `Example ..._witness` runs the model on a concrete history that meets the hypotheses.

## 2. Modelling conventions

* C unsigned integers are `Z` with an explicit `mod 2^k` at each operation that can wrap.
  Timestamps (`int64_t` microseconds) are unbounded `Z`: a signed overflow of a microsecond
  clock takes 292 000 years.
* Undefined behaviour (`UB` out of bounds, use after free, NULL, uninitialised read), a failing
  `assert()` / `exit(255)` (`Abort`) and non-termination (`Hang`) are outcomes, never a default value.
* System calls (socket, accept, connect, getsockopt, setsockopt, readv, writev, sendmsg, recvfrom,
  clock, getsockname) and application callbacks are oracle arguments, universally quantified.
  Effects on the outside (poll callbacks, open/close, datagrams, bytes written, payload
  allocation and release, callbacks) are output events.
* malloc does not fail for list nodes and packet structs (the code asserts it); it may fail for
  payloads (`Abort`, the code calls exit(255)).
* Little-endian host (the structs are sent as their memory image). IPv4 addresses and ports are numbers.
* Callbacks do not call back into the library, except the packet-ready callback, which may
  dispatch any packets.
* `*seg1 = x` with a segment of length 0 at the end of the ring is out of bounds (`UB`).

## 3. Trusted base

* Coq 8.16.1's kernel (checked again with coqchk by vcheck).
* `Print Assumptions` of every property theorem prints **"Closed under the global context"**: no
  axiom is used, neither ours nor the standard library's. (vcheck lists seven constants
  `Coq.ssr.ssrunder.Under_rel.*`: they belong to the library module type in ssrunder, which coqchk lists
  whenever ssreflect's files are loaded; no theorem depends on them.)
* That the model says what the C code does. The code was read, not run. Differences that are
  deliberate are in the comments of the definitions and in sections 2 and 4.

## 4. What is modelled and what is not

Modelled: all of circular_buffer.c, rmc_list_template.h, pub.c, sub.c, rmc_connection.c, rmc_protocol.c, rmc_log.c, time.c, the dissectors of rmc_wireshark_plugin.c, the poll callbacks of rmc_proto_test_common.c and the
`rmc_pub_*.c` and `rmc_sub_*.c` files, except:

* NULL tests on pointer arguments of API functions (`assert`/`EINVAL`);
* accessors that return or store one field (`node_id`, `rmc_sub_packet_index/payload/payload_len`);
* the C library and the system (`inet_aton`, `rand_r`, `malloc`, socket calls), which answer as they like;
  Setup.v has creation, activation and deletion statement by statement, the rest of the model
  starts from a created context and takes an activation in one step (C86 and C87 connect them);
* the calls of the log macros inside the library (they print, and change nothing else), vfprintf of the message itself; the registration tables and the hex dump of the Wireshark plugin, Wireshark itself (tcp_dissect_pdus and the tvb accessors are modelled by their documentation); the rest of the test programs (time stamps and printed statistics; the unit tests main runs first); epoll itself (modelled by its manual page, Epoll.v).

## 5. Properties

| id | title | model | method | status | remarks |
|---|---|---|---|---|---|
| C01 | Ring accounting | CircBuf | representation invariant of the ring and abstraction to a byte list | proved | as stated |
| C02 | Ring is a FIFO byte queue | CircBuf | representation invariant of the ring and abstraction to a byte list | proved | as stated |
| C03 | Ring trim shortens to the target | CircBuf | representation invariant of the ring and abstraction to a byte list | partial | False as stated: trim can leave the wrong bytes. c03_trim_refuted gives the witness, c03_trim_exact the exact condition under which it is right and what it does otherwise. |
| C04 | Ring read at an offset returns the right bytes | CircBuf | representation invariant of the ring and abstraction to a byte list | partial | False as stated; the exact safe condition is proved. |
| C05 | Ring segments expose exactly the queued bytes | CircBuf | representation invariant of the ring and abstraction to a byte list | proved | as stated |
| C06 | Allocated segments are memory-safe and start at the first one | CircBuf | representation invariant of the ring and abstraction to a byte list | partial | Segments are in bounds; the first-segment-non-empty part is false and refuted, with the exact condition. |
| C07 | The list container refines a sequence | ListHeap, SeqList | refinement of the pointer heap to sequences, with framing of all other lists | proved | as stated |
| C08 | Sorted insertion keeps lists sorted | ListHeap, SeqList | refinement of the pointer heap to sequences, with framing of all other lists | proved | as stated |
| C09 | List search and iteration are exact | ListHeap, SeqList | refinement of the pointer heap to sequences, with framing of all other lists | proved | Exact up to the documented -1 = stop convention of the comparison callback. |
| C10 | Wire format round trips | Wire | round trips on byte images, unique decoding | proved | Decode after encode is the identity for all in-range fields, with the following bytes untouched; every 20-byte string is the image of exactly one header; command streams decode uniquely. Little-endian host fixed. |
| C11 | Size limits are consistent | PubCtx, Proto | case analysis over every reachable context | proved | Over every reachable publisher context. Nothing queued on EMSGSIZE: the context is returned unchanged. |
| C12 | Packet ids are assigned consecutively | Pub | refinement of pub.c to a specification machine, for every history | proved | Fewer than 2^64-1 data packets; the wrap itself is c12_id_counter_wraps. |
| C13 | Packets leave in queueing order | Pub | refinement of pub.c to a specification machine, for every history | proved | as stated |
| C14 | Reference count equals outstanding acks | Pub | refinement of pub.c to a specification machine, for every history | proved | as stated |
| C15 | Payload is released exactly once and never early | Pub | refinement of pub.c to a specification machine, for every history | proved | as stated |
| C16 | Payload is eventually released | Pub | refinement of pub.c to a specification machine, for every history | partial | Holds for packets sent while at least one subscriber was registered; refuted otherwise (such a payload is never released). |
| C17 | Acks for unknown packets are harmless | Pub | refinement of pub.c to a specification machine, for every history | proved | as stated |
| C18 | Removing a subscriber releases exactly its claims | Pub | refinement of pub.c to a specification machine, for every history | proved | as stated |
| C19 | Timed-out subscribers are exact | Pub | computed against the owed packets of every reachable state | proved | as stated |
| C20 | Timed-out packets are exact and oldest first | Pub | computed against the owed packets of every reachable state | partial | Property is false of the code (walk starts at the newest packet); refuted, with an exact characterisation. |
| C21 | Oldest unacknowledged packet | Pub | computed against the owed packets of every reachable state | proved | as stated |
| C22 | Announce packets are released after sending | Pub | refutation | partial | Property is false of the code: announces are unlinked and never released. |
| C23 | Dispatch is consecutive, in order and once | Sub | trace invariants over every arrival history | proved | as stated |
| C24 | Duplicate test is exact | Sub | trace invariants over every arrival history | proved | as stated |
| C25 | Gap closure completes delivery | Sub | trace invariants over every arrival history | proved | as stated |
| C26 | No packet is lost to the baseline | Sub | trace invariants over every arrival history | partial | Refuted: packets below the first processed id are dropped; c25 gives what holds from the baseline on. |
| C27 | Ack intervals describe exactly the received ids | Sub | trace invariants over every arrival history | proved | as stated |
| C28 | Ack interval timestamps | Sub | trace invariants over every arrival history | proved | as stated |
| C29 | Oldest unacknowledged receive time | Sub | trace invariants over every arrival history | partial | False in general (witness); exact value proved, and the property when packets arrive in id order. |
| C30 | Resetting a publisher releases held packets once | Sub | trace invariants over every arrival history | proved | as stated |
| C31 | Connection slots are unique | Conn | invariant over every history of the connection table | proved | All tables of at most 32767 slots, all results of the system calls. |
| C32 | Connection bookkeeping | Conn | invariant over every history of the connection table | proved | Every history of accept/connect/complete/close/IO with arbitrary system call results; the kernel is assumed to hand out unused non-negative descriptors. |
| C33 | Connection lookup is exact | Conn | invariant over every history of the connection table | partial | By index: proved. By address and node id: proved for histories in which setsockopt() after accept() never fails; false otherwise (c33_refuted), c33_by_key_general says what is found then. |
| C34 | A failed accept leaves no trace | Conn | invariant over every history of the connection table | partial | Proved when accept() itself fails or no slot is free. False when setsockopt() fails (c34_refuted: an unrelated connection is closed); c34_leak: the slot and the descriptor are then lost in every continuation. |
| C35 | Poll registrations are balanced | Conn | invariant over every history of the connection table | partial | Proved for histories without a late connect failure; in every history up to a duplicate removal (c35_lenient). False in general: a refused connection is removed twice (c35_refuted). |
| C36 | Command parsing does not depend on TCP segmentation | Proto | every segmentation of the byte stream; induction on the reads | partial | The property is false of the code: circ_buf_trim destroys the read ring on some reads, refuted with concrete streams on the 65400-byte ring. Proved: the exact condition under which a read destroys the ring, and for every segmentation that avoids it (any number of reads, any size) the commands processed are exactly those of the stream. |
| C37 | TCP writes preserve the stream | Proto | induction on the history of writers and socket writes | proved | For every history of command writers and socket writes (errors and partial writes included). |
| C38 | An ack interval acknowledges exactly its range | PubCtx, Proto | loop characterised for every interval | partial | The effect is exact for every interval whose end is not 2^64-1. Termination is false: an ack interval ending in 2^64-1 loops forever in the code (pid <= last never fails), and a remote subscriber can send one; both refutations are proved. |
| C39 | Control messages arrive verbatim | Proto, PubCtx, SubCtx | exact ring arithmetic at every ring position | partial | False of the code for some ring positions: the sender copies from &payload when the payload wraps, the receiver reads the wrapped tail from a wrong offset, both refuted with reachable states of the 65400-byte ring. Proved: the exact positions on both sides, and delivery verbatim outside them. |
| C40 | A resend puts the exact packet on the stream | Proto, PubCtx, SubCtx | exact ring arithmetic at every ring position | partial | False in one situation: when the ring's stop index equals its size the command byte is stored out of bounds (reachable, refuted). Proved: in all other states the resend appends exactly the encoded command or returns EAGAIN and appends nothing. |
| C41 | Throttling | PubCtx | invariant over every history of publisher calls | proved | Fewer than 2^32 packets in flight (the count is a uint32_t). |
| C42 | Suspension ends | PubCtx | invariant over every history of publisher calls | partial | True as long as no subscriber disconnected; false otherwise: closing the last connection releases what is in flight without resuming traffic (witness history). |
| C43 | The publisher's next timeout is sound and processing makes progress | PubCtx | invariant over every history of publisher calls | partial | The reported time is exact. Processing resends exactly the packets with everything newer also timed out; a timed-out packet behind a newer one that is not yet due is not resent, so the progress half of the claim is false (witness). |
| C44 | Announce schedule | PubCtx | invariant over every history of publisher calls | proved | as stated |
| C45 | Pending report | PubCtx | invariant over every history of publisher calls | proved | as stated |
| C46 | Payload memory is valid when it is sent | PubCtx | invariant over every history of publisher calls | partial | True of every data packet. False of announces: an announce queued by rmc_pub_timeout_process with a payload points to a local array of that function (witness: the next multicast write reads it after return). True of announces too in histories without such payloads. |
| C47 | Timeout processing drops a packet only after it was put on TCP | PubCtx | invariant over every history of publisher calls | proved | Also: the packets a call resends to a connection are written newest first, each once. |
| C48 | Subscriber acks are sent when due | SubCtx | invariant over every history of subscriber calls | partial | False as stated with several publishers: the list is newest-first (c48_put_first), so a publisher that is not due blocks all others (c48_blocked_refuted for every such state). Proved: never early, all or nothing per publisher, exactly who is served (those with nobody ahead of them who is not due: c48_served_exactly, c48_waits_exactly), everything acknowledged if all pending is due (the property for one publisher), exact value of get_next. |
| C49 | No ack is lost | SubCtx | invariant over every history of subscriber calls | partial | False as stated: with a full ring the interval is lost for good. Proved: loss exactly when the timeout returns ENOMEM, one interval per such call; conservation otherwise is C73. |
| C50 | Deactivation releases all payloads | SubCtx | invariant over every history of subscriber calls | partial | False as stated: payloads of packets that are ready when the context is deactivated are never freed (refuted for every such state); exact set of buffers left is proved, and the property holds when no packet is ready. |
| C51 | One connection per publisher | SubCtx | invariant over every history of subscriber calls | partial | False as stated: an announce received while the connection is being set up opens a second one. Proved: true if the application accepts no announce of a publisher it is connecting to; only announces connect; once established no announce connects. |
| C52 | Malformed datagrams have no effect | SubCtx | invariant over every history of subscriber calls | proved | as stated |
| C53 | Datagrams from unsubscribed publishers | SubCtx | invariant over every history of subscriber calls | proved | as stated |
| C54 | Dispatching a packet frees it once | SubCtx | invariant over every history of subscriber calls | proved | as stated |
| C55 | End-to-end integrity and order | SpecSys (PubCtx + SubCtx + network) | global invariant over every schedule of the closed system | proved | For the closed system of SpecSys.v: one publisher, any number of subscribers, lossy/duplicating/reordering datagrams, prefix-delivering TCP, foreign publishers and subscribers.  good_ids only concerns foreign publishers. |
| C56 | At-most-once delivery per subscriber | SpecSys (PubCtx + SubCtx + network) | global invariant over every schedule of the closed system | partial | At most once per connection is proved; at most once per subscriber context is false: the code opens a second connection when an announce is received twice while connecting, and both connections deliver. |
| C57 | Reliability after subscription | SpecSys (PubCtx + SubCtx + network) | global invariant over every schedule of the closed system | partial | Proved: once nothing is owed and TCP has delivered, every packet cast since registration has been received unless older than the first one delivered, and everything from the first delivered packet on is delivered if that one was cast after registration.  The unrestricted statement is false of the code (two refutations with concrete schedules). |
| C58 | Ack soundness | SpecSys (PubCtx + SubCtx + network) | global invariant over every schedule of the closed system | proved | as stated |
| C59 | A new connection starts empty | Conn | invariant over every history of the connection table | proved | Every history. |
| C60 | The connection table never reads out of bounds | Conn | invariant over every history of the connection table | proved | Every history; tables of at most 32765 slots (larger ones collide with the reserved indices). |
| C61 | A successful connect reports success | Conn | invariant over every history of the connection table | partial | False: the code is the stale errno when connect() succeeds at once (c61_refuted); exact result in c61_connect_code. |
| C62 | Multicast order and content | PubCtx | invariant over every history of publisher calls | proved | as stated |
| C63 | Payload loans | PubCtx | invariant over every history of publisher calls | proved | as stated |
| C64 | Nothing multicast is forgotten | PubCtx | invariant over every history of publisher calls | proved | as stated |
| C65 | Control messages reach the publisher's callback | PubCtx | invariant over every history of publisher calls | partial | True once rmc_pub_set_control_message_callback was called (with or without a callback), for reads within the trim-good range of C33/C34; false before: rmc_pub_init_context leaves the pointer uninitialised and a control message reads it (witness). |
| C66 | Deactivation | PubCtx | invariant over every history of publisher calls | proved | as stated |
| C67 | Multicast write | PubCtx | invariant over every history of publisher calls | proved | Multicast socket open; sendmsg failures have a non-zero errno. |
| C68 | The library asks to be polled for exactly what it waits for | PubCtx, SubCtx | invariant relating the last poll request of every descriptor to the state | partial | Proved for every history: connection slots on both sides, the listening socket, and that input is always polled. The 'output exactly when something waits' half is false in the code when a read happens while output waits (rmc_pub_read/rmc_sub_read rearm POLLREAD only), when a packet is queued before activation, and after a failed bind(): refuted with concrete histories, and proved exactly for every history without these steps. |
| C69 | Subscriber payload accounting | SubCtx | invariant over every history of subscriber calls | proved | as stated |
| C70 | No use after free in the subscriber | SubCtx | invariant over every history of subscriber calls | proved | as stated |
| C71 | Subscriber deactivation closes everything | SubCtx | invariant over every history of subscriber calls | partial | False as stated: with a first connection still being set up it reads an uninitialised publisher entry. Otherwise it succeeds and closes everything. |
| C72 | Order and exactness of delivery on a connection | SubCtx | invariant over every history of subscriber calls | proved | Ids 0 and 2^64-1 excluded (good_ids). |
| C73 | Exactness of acknowledgement on a connection | SubCtx | invariant over every history of subscriber calls | proved | Ids 0 and 2^64-1 excluded (good_ids). |
| C74 | A subscriber reads every control channel as the byte stream it is | SubCtx | invariant over every history of subscriber calls | proved | for every history whose accepted packet ids are in range; reads within the conditions of c36 (read_good) |
| C75 | A publisher reads every control channel as the byte stream it is | PubCtx, Proto | byte-stream invariant over every history | proved | for every history whose reads are within the conditions of c36/c39 (pread_good) |
| C76 | No descriptor is lost or closed twice | PubCtx, SubCtx | invariant relating the open descriptors to the state | partial | Subscriber: in full. Publisher: proved for histories that do not activate an active context; a second activation loses both sockets (c76_pub_twice_refuted). |
| C78 | Every call reports its outcome exactly | PubCtx, SubCtx | case analysis of each call over every reachable context | proved | as stated |
| C79 | The counts a context reports are exact | PubCtx, SubCtx | counts related to the open slots and to the descriptor log by invariants | partial | the publisher's socket count is exact only if an active context is not activated again (c79_pub_twice_refuted); everything else as stated |
| C77 | Every call returns | PubCtx, SubCtx | every call evaluated symbolically over a reachable context; the ring arithmetic of the resend, ack and control writers and the parse of the receive rings give exactly the failing cases | partial | The property fails in the listed cases. Proved: every other call on every reachable context returns (c77_pub_returns_partial, c77_sub_returns_partial), and the cases fail (iff theorems for reads, close, deactivate and control messages; histories c77_timeout_refuted and c77_sub_refuted for the ring ends). Reads of the control channel are assumed to be ones circ_buf_trim handles (c36). |
| C80 | The result of reading a control connection tells what happened to its stream | PubCtx, SubCtx, Proto | the exact parse of the receive ring (ProtoRead) composed with the state invariants of both contexts | proved | Data reads are conditioned on the read keeping the ring intact (read_good/pread_good, the exact condition of C36/C39) and, for *_data, on the call returning: C77 says exactly when it does. |
| C81 | The connect and disconnect callbacks keep an exact list of the subscribers | PubCtx, Conn | a list replayed from the callbacks related to the open slots by an invariant over every call; ports and node ids by a second invariant | partial | The list kept from the callbacks is proved to be the list of open connections for every history with the connect callback set. The claim about which address and port are reported is false of the code: proved that the port (and a control message's node id) is always 0 and that the address is that of d.c.b.a; without a connect callback a disconnect is reported that was never announced. A disconnect callback is taken to be set. |
| C82 | What is owed can always be settled, but may be starved | PubCtx, CircBuf | an invariant on the send rings (empty ones start at 0) over every call removes the ring-end case; each processing call strictly shrinks the finite list of debts; the starved run by induction on its calls | partial | Progress is proved for publishers that write their send buffers out before processing timeouts and whose calls find no announcement due. The unconditional claim is false of the code: a due announcement makes the call return before the resends, so calls an announce interval apart never resend (c82_starved, c82_retry_refuted). |
| C83 | Losses can always be made good | PubCtx, SubCtx, System | the drain run of C82 lifted to system steps, then one read per unread command (an emptied receive ring starts at 0, so the read is always benign), by induction over the unread commands and the connections; C57 gives the delivery | proved | Hypotheses: the clock does not run backwards at the publisher, memory can be allocated (kept by every step, c83_memory), and the subscriber's receive buffer does not hold an incomplete packet (one that was read in part near the end of the ring cannot be completed safely, C36). Without the condition on announcements see C82. |
| C84 | The log shows exactly what was asked for, where and in the colours asked for | Log (rmc_log.c, rmc_log.h, time.c) | an invariant between the file-scope variables and a specification read off the history of calls, by induction over the history; escape sequences removed by a small scanner; labels checked for each of the 65536 indices by the kernel | proved | For application texts without escape characters. The crash on NULL is part of the statement. isatty's answer for a file is taken not to change. |
| C85 | The Wireshark plugin shows what is on the wire | Dissect (rmc_wireshark_plugin.c:77-331), Wire, PubCtx | induction over the commands of a segment against the wire format of SpecProto; termination by the offset; C62 connects it to what a publisher multicasts | partial | False of the code in two points, both characterised exactly: a subscriber's segment that ends inside an acknowledgement shows the previous acknowledgement (or 0-0) in its place and never asks for the rest; the info column (not the tree) shows the listen address with its bytes reversed. Everything else is proved, for a model of Wireshark's own functions by their documentation. A control message cut by the end of a segment is shown with length 0. |
| C86 | Creating and deleting a context | Setup (rmc_pub_context.c:26-152, 308-318, rmc_sub_context.c:26-129, 262-272), PubCtx, SubCtx | contexts with members that may have no value; case analysis over the arguments and the answers of the C library; C77 for the deactivation inside deletion | partial | Which creations succeed, and the value of every member afterwards, is proved, as is that a created context is the beginning of the histories of the other properties. False of the code, each shown in general: the publisher's control message callback has no value (the None of pub_new); a refused creation has stored a context without descriptors, which cannot be deleted without reading uninitialised memory; deletion never gives back the array of subscribers resp. publishers; with room for 32766 peers or more a connection gets the index of the listen socket; changed user data does not reach the poll callbacks of control connections. |
| C87 | Activation is all or nothing | Setup (rmc_pub_context.c:155-263, 341-353, rmc_sub_context.c:132-220), PubCtx, SubCtx | case analysis over the answer of every system call against a script followed up to the first failure; c87_*_same connect it to the activation of the other properties | partial | The behaviour for every combination of answers is characterised exactly. False of the code: a subscriber whose bind() fails keeps the socket and cannot be activated any more; a publisher can be activated twice and loses its sockets; a port of 65536 is announced as such while the system picks one. |
| C88 | The bundled epoll callbacks watch the right things | Epoll (rmc_proto_test_common.c:23-100), PubCtx, SubCtx, Conn | a table index -> (descriptor, action) read off the context, kept equal to the epoll set by every call: one lemma per callback, composed along the same functions as C76 | partial | The subscriber's part is proved for every history (its multicast socket unless bind() failed: c88_sub_bind_refuted). For the publisher it is proved for histories that queue only while active and activate only with an empty queue. Without that it is false of the code: the first packet queued on an inactive context makes poll_modify end the process (c88_pub_early_refuted, for every such state), and packets queued across a deactivation are never watched for (c88_pub_restart_refuted). The kernel's side of epoll is modelled by its manual page. |
| C89 | The bundled test peers give the right verdict | TestPeers (rmc_proto_test_pub.c:260-331, rmc_proto_test_sub.c:18-270, 350-416, rmc_test.c:157-180) | an invariant of the checker's table over the stream so far; the three verdicts exclude each other; composed with C55 for the system | partial | Proved for all streams whose highest number is below INT_MAX and whose payloads hold whole signals, for every set of expected nodes. Outside that it is false of the code: a highest number of INT_MAX or more overflows the int of the summing loop (c89_overflow_refuted, for every such stream), a payload ending in less than twelve bytes of a signal is read beyond its end (c89_cut_refuted), and -E also adds an expected node because its case has no break (c89_options_refuted). The statistics line, time stamps and the event loop of the test programs are not modelled here (the poll callbacks are, C88). |
| C90 | The library's own packet records do not accumulate | Pub, PubCtx (pub.c:20-34, 110-140, 187-292), Sub, SubCtx (sub.c:91-118, 167-186) | count of live heap cells along pub_run against the same count along the specification; an invariant over the small steps of the subscriber | partial | False of the code; the exact number of records is proved instead. Publisher: queued + in flight + one for every announce multicast so far (pub_packet_sent drops an announce without freeing it). Subscriber: waiting + one for every packet ever made ready (neither rmc_sub_packet_dispatched nor _keep_payload frees the sub_packet_t). The publisher's records are the heap of the model; the subscriber's are counted from the log, with the free of a record placed where sub_reset_publisher makes it. List nodes (recycled by the lists) and connection buffers are not counted. |
| C91 | The bundled event loops serve every ready descriptor, and only for the connection it belongs to | Loop (rmc_proto_test_pub.c:58-112, 245-251, rmc_proto_test_sub.c:272-327, 391-396), Epoll | what epoll watches (C88) gives the owner of each descriptor before the round; a frame lemma per call shows that only a call for the connection itself changes it; induction over the array; a measure on the acknowledgements for the catching-up loop | partial | Proved for every array: which calls are made, that each is about the socket that owns the reported descriptor at that moment, that states stay within the library's specification, when the loop closes a connection, the length of the sleep, and that catching up on acknowledgements ends. False of the code: the publisher handles deadlines only in rounds in which nothing is ready (c91_pub_starved_refuted), the subscriber also closes a connection whose socket is merely full (c91_sub_busy_refuted), and a deadline 2^31-1 ms away makes the sleep unbounded (c91_wait_far_refuted). |
| C92 | Callbacks are called exactly when something happened that they report | SubCtx (rmc_sub_read.c, rmc_sub_write.c, rmc_sub_context.c), PubCtx (rmc_pub_read.c, rmc_pub_context.c) | a relation between state, events and state preserved by every call (which events may appear, in which order), with the invariant that no packet stays received but not ready without a hole before it; induction over the history for the settings | proved | that a set control message callback gets every message is C65. The publisher's control callback pointer is uninitialised until it is set (C65). c92_announce's negative half for connected publishers needs one connection per publisher (single_conns), which repeated announces during connecting can break (the refutation in PropSubConn). |
| C93 | Control messages reach the publisher's callback once, in order, unchanged | SubCtx (rmc_sub_write.c, rmc_sub_timeout.c), PubCtx (rmc_pub_read.c), Conn, Proto; SpecCtrl adds to the system of SpecSys what each subscriber was given to send and what the callback got | invariant over the small steps of the subscriber: bytes on the socket plus bytes in the ring are the encodings of what was queued; invariant over the publisher's calls: messages passed on are those parsed from the bytes received; unique parsing joins the two across the link | partial | partial because the code falsifies the unconditional claim: a message that crosses the end of the send or receive ring at certain positions is corrupted or crashes (c93_refuted; also C36, C39, C77), and with the callback pointer never set the publisher reads an uninitialised pointer (C65). The theorems hold for all histories of the whole system in which reads and writes avoid those positions (read_good, pread_good, write_good) and the callback is set when control connections are read (listening). |
| C94 | A late joiner gets no history, and no packet is resent to a subscriber twice | PubCtx (rmc_pub_timeout.c, rmc_pub_write.c, rmc_pub_read.c, rmc_pub_context.c), Pub (pub.c), the system of SpecSys | the invariant of PubCtxProofs extended per connection: claims and packet commands on the stream are among the ids multicast since it was opened, the commands carry distinct ids and a packet on the stream is no longer claimed (between resend_packet and its packet_ack one exception is tracked); unique parsing carries it over the link to the subscriber | proved | PropOnce.v; the carried_once predicate says that no two packet commands have the same id. The system theorems assume, as C55, that reads avoid the ring positions of C77 (part of sys_reached). |
| C95 | Connections do not disturb each other | PubCtx, SubCtx, Conn, Pub, Sub: all calls for one connection, accepting, and reading multicast | frame lemmas for each call (slot, claims, waiting packets, ready list, events), composed per call from the invariants of reachable states | proved | PropIso.v. The subscriber theorem speaks of any open connection (also one still connecting); own_part leaves out the list of datagrams, which belongs to the whole context. The timeout calls and multicasting serve all connections and are not calls for one connection. |
| C96 | The bundled test publisher as a whole program | Program (rmc_proto_test_pub.c: the whole of test_rmc_proto_pub and its callbacks) on top of PubCtx, Loop, TestPeers | an invariant per program location: the calls form a history of the context, the queued payloads are a prefix of the generated ones, the announce interval is 0 once sending, at most 100 queued; the counter equals the attendance of C81; the false sentence is refuted by a run | partial | PropProgram.v, model Program.v. Premises on the outside world (world_ok): malloc succeeds with free memory off the stack, fewer than 2^32 packets queued, system calls behave as in SpecPubCtx. c96_payloads holds for every drop decision: the drop_rate argument changes a log line only. Partial because the last sentence is false of the code: the program can exit 0 with packets never multicast (c96_unsent_refuted). |
| C97 | The bundled test subscriber as a whole program | SubProgram (rmc_proto_test_sub.c: the whole of test_rmc_proto_sub and its callback) on top of SubCtx, Loop, TestPeers | an invariant per program location: the calls form a history of the context, the packets handed out are those taken followed by those ready, the checker's state is the verdict over the payloads taken (C89); the false sentence is refuted in general (nothing is acknowledged after the last loop is entered) and by a run | partial | PropSubProgram.v, model SubProgram.v. The verdicts are those of C89 (made_of: payloads made up of whole signals whose highest number is below INT_MAX; for others the C program has no defined behaviour or reads outside the payload, c89_overflow_refuted, c89_cut_refuted). Partial because the last sentence is false of the code: after the packet with which the test passes no acknowledgement is ever sent and that packet is never given back (c97_flush_refuted, for every continuation; c97_unacked_refuted, a whole run). A failing epoll_wait (exit 255) is left out. The last loop passes 100 as an absolute time, so it waits 1 ms at a time, not 100 ms. |
| C98 | The control channel is the one documented | SpecDoc (PROTOCOL.md:12-109 transcribed) against PubCtx and SubCtx | the streams sent are those of C64 and C73, whose first bytes differ from any documented stream; what is read is decided by C80 applied to the documented bytes, of which no command of the code can be split off | partial | PropDoc.v; the document is transcribed in SpecDoc.v. The claim is false of the code, in both directions: no stream either side sends begins a documented one (for the publisher: unless byte 1 of its node id is 2), and the documented INIT, ACK and PACKET are refused or left unread. What the code does speak is specified in SpecProto.v and proved in C34, C38, C64, C73, C80. |
| C99 | The command line of rmc_test means what the usage text says | Options (rmc_test.c: main) | induction over the options: each setting is the value of the last option that selects it; the expected nodes by the lemma of C89; the outcomes of one step by cases | partial | PropOptions.v, model Options.v (all of main except the unit tests it runs first); getopt, atoi, atoll and atof are the C library's. Partial because the code falsifies three sentences: a string of 80 bytes or more overflows its array, -E also names a node (and is refused above 1023), and node ids are not checked. The option 'n:' is in the option string without a case, so it gives the usage text. |


## 6. Tests against wrong programs

`seeded/LOG.jsonl`: one line per edit of the model in a scratch copy: what was edited, which claim it breaks, which
lemmas or theorems no longer compile (first failure in each file), and which theorem was added or
tightened when none failed.
