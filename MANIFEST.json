{
 "claims": [
  {
   "property": "C01",
   "status": "proved",
   "theorems": [
    "C01_parser_accepts_exactly_the_grammar"
   ],
   "note": "Both directions against an independent grammar (SpecWire.is_utp)."
  },
  {
   "property": "C02",
   "status": "proved",
   "theorems": [
    "C02_accessors_invert_encoding",
    "C02_accepted_is_an_encoding"
   ],
   "note": "Values returned for every encoding; every accepted datagram is an encoding."
  },
  {
   "property": "C03",
   "status": "proved",
   "theorems": [
    "C03_rejection_names_first_defect",
    "C03_parser_total"
   ],
   "note": "Error iff first defect; parser never panics."
  },
  {
   "property": "C04",
   "status": "proved",
   "theorems": [
    "C04_set_connection_id",
    "C04_set_timestamp",
    "C04_set_timestamp_difference",
    "C04_set_wnd_size",
    "C04_set_seq_nr",
    "C04_set_ack_nr",
    "C04_set_type"
   ],
   "note": "All seven setters: patched bytes, all getters, and body."
  },
  {
   "property": "C05",
   "status": "proved",
   "theorems": [
    "C05_data_packet_roundtrip"
   ],
   "note": ""
  },
  {
   "property": "C06",
   "status": "proved",
   "theorems": [
    "C06_set_sack_preserves_packet",
    "C06_set_sack_rejects_bad_lengths"
   ],
   "note": ""
  },
  {
   "property": "C07",
   "status": "partial",
   "theorems": [
    "C07_valid_refuted",
    "C07_valid_partial",
    "C07_near_partial"
   ],
   "note": "REFUTED: set_sack stores the bitmap length in one byte (packet.rs set_sack), so a packet buffered 2040 past the acknowledged one makes the next reply malformed. Proved: this is the only way to send an invalid packet, and it needs a buffered packet at least 2018 past the acknowledged one."
  },
  {
   "property": "C08",
   "status": "proved",
   "theorems": [
    "C08_bits_lsb_first_and_complete",
    "C08_bit_string_meaning"
   ],
   "note": ""
  },
  {
   "property": "C09",
   "status": "partial",
   "theorems": [
    "C09_exact_size_refuted",
    "C09_initial_size_partial"
   ],
   "note": "REFUTED: size_hint stays constant while bits are consumed (bit_iterator.rs:43-45). Proved: it is right for a fresh iterator."
  },
  {
   "property": "C10",
   "status": "proved",
   "theorems": [
    "C10_header_roundtrip",
    "C10_header_acceptance"
   ],
   "note": "Little-endian host."
  },
  {
   "property": "C11",
   "status": "proved",
   "theorems": [
    "C11_total",
    "C11_ids_consecutive"
   ],
   "note": ""
  },
  {
   "property": "C12",
   "status": "proved",
   "theorems": [
    "C12_wire_clock",
    "C12_reply_stamps",
    "C12_difference_symmetric"
   ],
   "note": ""
  },
  {
   "property": "C13",
   "status": "partial",
   "theorems": [
    "C13_delay_refuted",
    "C13_delay_partial",
    "C13_sample_partial"
   ],
   "note": "REFUTED across the 2^32 microsecond wrap: Timestamp subtraction takes the absolute difference (util.rs). Proved when the stamps do not wrap."
  },
  {
   "property": "C14",
   "status": "proved",
   "theorems": [
    "C14_error_kinds"
   ],
   "note": ""
  },
  {
   "property": "C15",
   "status": "proved",
   "theorems": [
    "C15_reorder_buffer"
   ],
   "note": ""
  },
  {
   "property": "C16",
   "status": "proved",
   "theorems": [
    "C16_insert"
   ],
   "note": ""
  },
  {
   "property": "C17",
   "status": "proved",
   "theorems": [
    "C17_slicing",
    "C17_drain"
   ],
   "note": "available stops at a packet with empty payload, where recv_from goes to the network; no_wrap_panic excludes the overflow panic of debug builds (C55)."
  },
  {
   "property": "C18",
   "status": "partial",
   "theorems": [
    "C18_prefix_partial",
    "C18_wrap_refuted",
    "C18_client_refuted",
    "C18_send_failure_refuted",
    "C18_zero_read_refuted"
   ],
   "note": "REFUTED in four ways, all with reachable sockets: across the 16-bit wrap (release); on the connecting side when the peer's first packet is late; when an acknowledgement cannot be sent; after a read into an empty buffer. Proved for accepted sockets, any network, any read sizes > 0, sends succeeding, and SYN number + packets < 65534 (no wrap)."
  },
  {
   "property": "C19",
   "status": "partial",
   "theorems": [
    "C19_nothing_withheld_partial",
    "C19_client_refuted",
    "C19_wrap_refuted"
   ],
   "note": "REFUTED on the connecting side and across the wrap. Proved for accepted sockets without wrap, sends succeeding, reads of size > 0."
  },
  {
   "property": "C20",
   "status": "partial",
   "theorems": [
    "C20_in_order_partial",
    "C20_client_zero_refuted"
   ],
   "note": "REFUTED for a connecting socket whose peer starts at number 0 (equal to the initial last_dropped): the first packet is thrown away. Proved for all other cases: any length, any number of wraps, both profiles, both sides."
  },
  {
   "property": "C21",
   "status": "partial",
   "theorems": [
    "C21_duplicate_refuted",
    "C21_last_delivered_partial",
    "C21_stalled_refuted",
    "C21_every_refuted"
   ],
   "note": "REFUTED: only a copy of the packet delivered last is recognised (socket.rs:447); an older copy is buffered in front and stalls the stream for good. For every reader that has handed out everything and every older copy, nothing is ever returned again, whatever arrives (no packet numbered 0) and whatever is called (C21_every_refuted, C21_stalled_refuted). Proved: copies of the packet delivered last are harmless."
  },
  {
   "property": "C22",
   "status": "partial",
   "theorems": [
    "C22_provenance_partial",
    "C22_foreign_data_refuted",
    "C22_every_refuted"
   ],
   "note": "REFUTED: a data packet with a foreign connection id is answered with Reset but still buffered and delivered (recv inserts it after handle_packet); for every caught-up reader, any such packet with the next number is delivered, from any address (C22_every_refuted). Proved: whatever is called, every block delivered is a piece of the payload of one data packet that arrived (its id is not constrained). Packets of other types: C29."
  },
  {
   "property": "C23",
   "status": "partial",
   "theorems": [
    "C23_not_delivered_partial",
    "C23_not_acknowledged_partial",
    "C23_lost_packet_refuted"
   ],
   "note": "REFUTED with a real handshake: the client takes the number of the SYN reply, which is also the number of the first data packet, as already acknowledged; a lost first packet is skipped. Proved: on an accepted connection that only reads, nothing from a lost packet on is delivered (numbers not wrapping, replies sent); and for any calls in both directions, any arrivals and any wrap, no acknowledgement reaches a number that never arrived (from a state with nothing buffered or queued, reads of at least 1500 bytes)."
  },
  {
   "property": "C24",
   "status": "partial",
   "theorems": [
    "C24_every_flush_refuted",
    "C24_ahead_partial",
    "C24_data_during_flush_refuted"
   ],
   "note": "REFUTED: flush, send_to and close read into a scratch buffer that is discarded; for flush and close proved in every state with an unacknowledged packet and empty buffers. Proved: packets ahead of the next one are kept in the reorder buffer."
  },
  {
   "property": "C25",
   "status": "proved",
   "theorems": [
    "C25_end_of_stream",
    "C25_drain",
    "C25_fin_processed"
   ],
   "note": "For sockets without buffered packets of empty payload (this implementation never sends one) and outside the overflow panic of debug builds."
  },
  {
   "property": "C26",
   "status": "partial",
   "theorems": [
    "C26_every_refuted",
    "C26_complete_partial",
    "C26_early_end_refuted"
   ],
   "note": "REFUTED for every connected reader with nothing in store: a FIN of any number, whatever is missing before it, is reported as the end of the stream (C26_every_refuted). Proved: when the end is reported, everything in front of the first packet that did not arrive was delivered (accepted connection, no wrap, replies sent, no duplicates)."
  },
  {
   "property": "C27",
   "status": "proved",
   "theorems": [
    "C27_reset",
    "C27_reset_any_call",
    "C27_after_reset"
   ],
   "note": "Reads after a reset: buffered packets have non-empty payload."
  },
  {
   "property": "C28",
   "status": "proved",
   "theorems": [
    "C28_undecodable",
    "C28_read",
    "C28_flush"
   ],
   "note": "recv is the function all calls wait in; for recv_from and flush: the call behaves as if the datagram had not come."
  },
  {
   "property": "C29",
   "status": "partial",
   "theorems": [
    "C29_foreign_refuted",
    "C29_foreign_partial"
   ],
   "note": "REFUTED: ack_nr is advanced before the connection id is checked. Proved for packets that are not data and not numbered ack_nr+1."
  },
  {
   "property": "C30",
   "status": "proved",
   "theorems": [
    "C30_splits",
    "C30_reports_length"
   ],
   "note": ""
  },
  {
   "property": "C31",
   "status": "proved",
   "theorems": [
    "C31_closed"
   ],
   "note": ""
  },
  {
   "property": "C32",
   "status": "proved",
   "theorems": [
    "C32_in_flight",
    "C32_no_underflow",
    "C32_debug_exact"
   ],
   "note": "The no-underflow part is for less than 4 GiB in flight; beyond that the counter wraps consistently in release builds and send() panics at line 641 in debug builds."
  },
  {
   "property": "C33",
   "status": "proved",
   "theorems": [
    "C33_acknowledge",
    "C33_only_acknowledged"
   ],
   "note": "Functional statement for State packets that trigger no retransmission; over whole calls the window only loses prefixes ended by a packet whose number is acknowledged by a State packet of the event script."
  },
  {
   "property": "C34",
   "status": "proved",
   "theorems": [
    "C34_flush",
    "C34_close",
    "C34_nothing"
   ],
   "note": "Acknowledgements are cumulative: each packet or a later one was acknowledged by a State packet received during the call."
  },
  {
   "property": "C35",
   "status": "proved",
   "theorems": [
    "C35_resends_oldest",
    "C35_resends_fin",
    "C35_acknowledges",
    "C35_unconnected",
    "C35_changes",
    "C35_while_waiting"
   ],
   "note": "Sends succeed and the timer is below 2^63 ms."
  },
  {
   "property": "C36",
   "status": "proved",
   "theorems": [
    "C36_close_gives_up",
    "C36_close_unacknowledged",
    "C36_gives_up",
    "C36_read_gives_up",
    "C36_flush_gives_up",
    "C36_goes_on"
   ],
   "note": "Sends succeed and doubling the timer does not overflow (debug builds). Stated for recv, recv_from and flush."
  },
  {
   "property": "C37",
   "status": "partial",
   "theorems": [
    "C37_every_refuted",
    "C37_closed_gate_refuted",
    "C37_third_partial",
    "C37_absent",
    "C37_not_third"
   ],
   "note": "REFUTED, for every state with a full window: the retransmission goes through the flow-control gate of send_packet; nothing is retransmitted and the window is not halved until room is made or 500 ms pass (C37_every_refuted). Proved when the gate is open; and only the third duplicate retransmits."
  },
  {
   "property": "C38",
   "status": "proved",
   "theorems": [
    "C38_window_floor",
    "C38_window_after_ack"
   ],
   "note": ""
  },
  {
   "property": "C39",
   "status": "proved",
   "theorems": [
    "C39_estimates",
    "C39_update",
    "C39_after_ack"
   ],
   "note": ""
  },
  {
   "property": "C40",
   "status": "partial",
   "theorems": [
    "C40_timeout_bound_refuted",
    "C40_timeout_partial",
    "C40_every_refuted"
   ],
   "note": "REFUTED, for every state and any number of timeouts in a row below the retry limit: handle_receive_timeout doubles the timeout without clamping (socket.rs:459; C40_every_refuted). Proved: it is only kept, doubled, or set within 500..60000."
  },
  {
   "property": "C41",
   "status": "proved",
   "theorems": [
    "C41_bounded",
    "C41_sample"
   ],
   "note": ""
  },
  {
   "property": "C42",
   "status": "proved",
   "theorems": [
    "C42_gate",
    "C42_waits"
   ],
   "note": "The gate of send_packet (new data and fast retransmissions); the retransmission on timeout does not pass it."
  },
  {
   "property": "C43",
   "status": "partial",
   "theorems": [
    "C43_skipped_refuted",
    "C43_sent_partial"
   ],
   "note": "REFUTED: an accepted socket starts with last_acked = 0, so packets numbered above 32768 count as acknowledged and are never transmitted although send_to succeeds. Proved: this comparison is the only reason for a packet not being transmitted."
  },
  {
   "property": "C44",
   "status": "partial",
   "theorems": [
    "C44_lost_refuted",
    "C44_cancelled_refuted",
    "C44_one_lost_partial"
   ],
   "note": "REFUTED for I/O errors and for cancellation: send() removes the packet from the queue before transmitting it. Proved: at most that one packet is lost."
  },
  {
   "property": "C45",
   "status": "partial",
   "theorems": [
    "C45_steady_not_below_partial",
    "C45_steady_not_above_partial",
    "C45_not_below_partial",
    "C45_not_above_partial",
    "C45_formula",
    "C45_floor_refuted",
    "C45_large_delay_refuted"
   ],
   "note": "REFUTED as stated in two corners (C45_floor_refuted: after a timeout the one-segment window is raised to the two-segment floor whatever the delay; C45_large_delay_refuted: a queuing delay of 2^32 microseconds, measured after the clock wrapped, is truncated to 0 and grows the window). Proved for every reachable state, acknowledged size and delay, with the delay taken modulo 2^32: at most the target never goes below min(old window, cap); above it never exceeds max(old window, floor). C45_formula is the floating-point computation alone for all values."
  },
  {
   "property": "C46",
   "status": "proved",
   "theorems": [
    "C46_accept",
    "C46_bound"
   ],
   "note": "The reply can be sent and, in debug builds, the connection id is below 65535 (see C55). Stated for accept and for reading from a bound socket with nothing buffered."
  },
  {
   "property": "C47",
   "status": "proved",
   "theorems": [
    "C47_rejects",
    "C47_io_error"
   ],
   "note": "Also for receive errors; cancellation is outside the statement."
  },
  {
   "property": "C48",
   "status": "partial",
   "theorems": [
    "C48_syn_refuted",
    "C48_reply_partial"
   ],
   "note": "REFUTED: a SYN answered by a SYN makes connect return a socket still in SynSent. Proved: these are the only two cases."
  },
  {
   "property": "C49",
   "status": "partial",
   "theorems": [
    "C49_attempts",
    "C49_timeout_refuted"
   ],
   "note": "REFUTED: five timeouts are reported as Other because an empty buffer is parsed (proved for all of them). The number and shape of the SYNs is proved for every outcome."
  },
  {
   "property": "C50",
   "status": "proved",
   "theorems": [
    "C50_life_cycle",
    "C50_never_back"
   ],
   "note": ""
  },
  {
   "property": "C51",
   "status": "proved",
   "theorems": [
    "C51_noop",
    "C51_close"
   ],
   "note": ""
  },
  {
   "property": "C52",
   "status": "partial",
   "theorems": [
    "C52_close_refuted",
    "C52_every_close_refuted"
   ],
   "note": "REFUTED, and proved for every state after a reset with an idle network: close only exempts New, SynSent and Closed; it waits for acknowledgements that will not come, or sends a FIN and waits."
  },
  {
   "property": "C53",
   "status": "proved",
   "theorems": [
    "C53_peer_addr"
   ],
   "note": ""
  },
  {
   "property": "C54",
   "status": "proved",
   "theorems": [
    "C54_calls",
    "C54_histories",
    "C54_opening",
    "C54_drop"
   ],
   "note": "Every call on every reachable socket (any history, any script of datagrams, timeouts, errors, cancellations), whole histories, and opening and dropping sockets."
  },
  {
   "property": "C55",
   "status": "partial",
   "theorems": [
    "C55_accept_refuted",
    "C55_datagrams_refuted",
    "C55_silence_refuted",
    "C55_only_overflow_partial",
    "C55_connect_partial"
   ],
   "note": "REFUTED: datagrams panic a debug build at six places (lines 888, 1084, 1093, 1116, 574, 769), all from reachable states. A silent peer does so too (line 459) once max_retries is raised. What holds: panics can only come from eleven listed checked arithmetic operations (none in the delay and round-trip arithmetic, by a bound on the float average), and connect never panics."
  },
  {
   "property": "C56",
   "status": "proved",
   "theorems": [
    "C56_selective_ack"
   ],
   "note": "Bitmaps of 252 bytes or less; longer ones are the refutation of C07."
  },
  {
   "property": "C57",
   "status": "proved",
   "theorems": [
    "C57_terminates",
    "C57_recv_consumes",
    "C57_depth_irrelevant",
    "C57_connect_terminates"
   ],
   "note": "For every state, reachable or not. A call may also be cancelled (dropped) by the event script."
  },
  {
   "property": "C58",
   "status": "proved",
   "theorems": [
    "C58_batching",
    "C58_connect",
    "C58_sent_before",
    "C58_connect_sent_before"
   ],
   "note": "Also for calls that were cancelled before the end of the script."
  },
  {
   "property": "C59",
   "status": "partial",
   "theorems": [
    "C59_prefix_partial",
    "C59_idle_sender_refuted",
    "C59_server_sends_refuted"
   ],
   "note": "REFUTED: (1) the State packets an idle sender emits on timeouts carry the number of its next data packet and make the receiver skip it; (2) from the accepting to the connecting side the loss of the first packet is enough. Proved for the connecting side sending, for every sender history and network, when the sender's State/Reset packets do not arrive and no send_to follows a close."
  },
  {
   "property": "C60",
   "status": "partial",
   "theorems": [
    "C60_original_data_partial",
    "C60_same_number_partial",
    "C60_unconnected_refuted"
   ],
   "note": "REFUTED for sockets that send before being connected: the number of the queued data is used again. Proved for every history of a connection once opened."
  },
  {
   "property": "C61",
   "status": "partial",
   "theorems": [
    "C61_read_partial",
    "C61_write_partial",
    "C61_flush",
    "C61_schedules",
    "C61_exclusive",
    "C61_error_refuted"
   ],
   "note": "REFUTED for reads and writes that end in an error: the stream is then not ready for the next operation (see C62). Proved for every other result, for flush in all cases, for every schedule of polls of all operations on all clones; and any schedule amounts to calling the socket sequentially."
  },
  {
   "property": "C62",
   "status": "partial",
   "theorems": [
    "C62_refuted",
    "C62_flush_partial",
    "C62_read_partial",
    "C62_write_partial",
    "C62_release_partial"
   ],
   "note": "REFUTED: after every error of poll_read or poll_write the next poll panics (the completed future stays stored). Proved: flush is not affected; the only other panics are those of the socket itself (none in release builds) and a read polled with a buffer of another length."
  },
  {
   "property": "C63",
   "status": "partial",
   "theorems": [
    "C63_refuted",
    "C63_inherent_partial"
   ],
   "note": "REFUTED: poll_close panics in every state (it unwraps a future that is never created). Proved: the inherent close runs the socket close once and returns its result."
  },
  {
   "property": "C64",
   "status": "partial",
   "theorems": [
    "C64_exactly_partial",
    "C64_refuted"
   ],
   "note": "REFUTED: they panic exactly while an operation is suspended (proved in both directions)."
  },
  {
   "property": "C65",
   "status": "proved",
   "theorems": [
    "C65_incoming",
    "C65_progress",
    "C65_release"
   ],
   "note": "For schedules without a panic of accept (debug builds, connection id 65535); release builds have none, also proved."
  },
  {
   "property": "C66",
   "status": "proved",
   "theorems": [
    "C66_active_open",
    "C66_syns"
   ],
   "note": "connect runs to completion whenever the sends succeed and a State packet comes within five attempts."
  },
  {
   "property": "C67",
   "status": "partial",
   "theorems": [
    "C67_echo",
    "C67_noted",
    "C67_noted_state",
    "C67_range",
    "C67_fin_refuted"
   ],
   "note": "REFUTED: a FIN carries a timestamp difference of 0. Proved: every packet that goes through send_packet carries the current time and the noted delay; the delay noted is the distance between clock and the packet's stamp, for all packets of the connection except State packets that report losses (their handling may receive further packets). Replies: C12."
  },
  {
   "property": "C68",
   "status": "partial",
   "theorems": [
    "C68_selective_partial",
    "C68_wrap_refuted"
   ],
   "note": "REFUTED when the numbers in flight wrap (release build: comparison of raw numbers; a debug build panics, C55). Proved for every bitmap and window without wrap, when the flow-control gate is open and sends succeed."
  },
  {
   "property": "C69",
   "status": "partial",
   "theorems": [
    "C69_replies_partial",
    "C69_recorded",
    "C69_recorded_state",
    "C69_window_refuted"
   ],
   "note": "REFUTED: data packets, FINs and the listener's SYN reply advertise 0 (only recv sets the window of its replies), which limits a peer of this implementation to two segments. Proved: the replies of recv advertise 1 MiB, and the peer's window is recorded."
  },
  {
   "property": "C70",
   "status": "partial",
   "theorems": [
    "C70_empty_read_refuted",
    "C70_empty_read_waits_refuted",
    "C70_closed_partial"
   ],
   "note": "REFUTED in general: no open socket (release build) answers an empty read before something arrives. Proved for closed sockets."
  },
  {
   "property": "C71",
   "status": "partial",
   "theorems": [
    "C71_stranger_refuted",
    "C71_types_partial"
   ],
   "note": "REFUTED: any State packet from anywhere with any connection id opens the connection, to its source. Proved: a Data, Fin or Reset packet does not."
  },
  {
   "property": "C72",
   "status": "proved",
   "theorems": [
    "C72_drop_closes",
    "C72_drop_idle"
   ],
   "note": "Panics and suspension of close carry over to drop; in release builds there is no panic (C54_drop)."
  },
  {
   "property": "C73",
   "status": "partial",
   "theorems": [
    "C73_lingers_refuted",
    "C73_rejects_partial",
    "C73_success_partial"
   ],
   "note": "REFUTED: if sending the SYN reply fails, the new socket is dropped: a FIN is sent, repeatedly, and the accepting thread blocks until the peer answers or the retries are used up. Proved: all other rejections are immediate, and success does not involve the destructor."
  },
  {
   "property": "C74",
   "status": "partial",
   "theorems": [
    "C74_backwards_refuted",
    "C74_forward_partial"
   ],
   "note": "REFUTED: with part of a packet pending, an old packet that arrives during a flush is put in front of it, and finishing the read sets the number back. Proved for readers whose buffers hold 1500 bytes, from a state with nothing buffered."
  },
  {
   "property": "C75",
   "status": "proved",
   "theorems": [
    "C75_answered",
    "C75_no_reply"
   ],
   "note": "If sending works and no overflow check panics (C55). Own ids; other ids: C22. Which bitmap the reply carries: C56."
  },
  {
   "property": "C76",
   "status": "partial",
   "theorems": [
    "C76_reset_answered_refuted",
    "C76_loop_refuted",
    "C76_own_reset_partial"
   ],
   "note": "REFUTED: a Reset with an unknown id is answered by a Reset; two connections that exchanged one go on forever. Proved: resets of the connection itself are not answered."
  },
  {
   "property": "C77",
   "status": "partial",
   "theorems": [
    "C77_swallowed_refuted",
    "C77_any_call_partial",
    "C77_read_partial",
    "C77_flush_partial"
   ],
   "note": "REFUTED: the error is dropped if it occurs while a packet found lost waits to be sent again. Proved for every receive, reads and flushes."
  },
  {
   "property": "C78",
   "status": "partial",
   "theorems": [
    "C78_bound_refuted",
    "C78_ids_partial"
   ],
   "note": "REFUTED for a bound socket that sends before a SYN arrives: packets in flight keep the old id. Proved for sockets once open with nothing sent before."
  },
  {
   "property": "C79",
   "status": "proved",
   "theorems": [
    "C79_failed_connect"
   ],
   "note": "Panics aside (C54: none in release builds)."
  },
  {
   "property": "C80",
   "status": "partial",
   "theorems": [
    "C80_dropped_refuted",
    "C80_tenth_partial",
    "C80_every_refuted"
   ],
   "note": "REFUTED, for every state: the limit is rtt*100 \u00b5s with rtt in ms, a tenth of the round-trip time (C80_every_refuted); e.g. a sample of age 50 ms is dropped with a round trip of 100 ms. Proved with that limit."
  },
  {
   "property": "C81",
   "status": "proved",
   "theorems": [
    "C81_runs",
    "C81_packet",
    "C81_sample"
   ],
   "note": "For process_ack (the Some branch of handle_state_packet). Delays are differences of 32-bit clock values; the round-trip sample is taken modulo 2^32 microseconds."
  },
  {
   "property": "C82",
   "status": "proved",
   "theorems": [
    "C82_within_a_byte",
    "C82_formula"
   ],
   "note": "Delays and sizes modulo 2^32 as in the code; bytes in flight below 2^32 - 1400. Rounding analysed from the definition of binary64 operations."
  },
  {
   "property": "C83",
   "status": "partial",
   "theorems": [
    "C83_first_zero_refuted",
    "C83_handshake",
    "C83_conversation_partial",
    "C83_continues",
    "C83_server_mute_refuted"
   ],
   "note": "REFUTED, for every server whose random first number is above 32768: its first data packet is taken for acknowledged long ago (last_acked starts at 0) and not sent, though send_to succeeds; and for every server whose first number is 0: its first message is acknowledged and not handed to the client (last_dropped starts at 0). Proved: handshake; any conversation if the number is between 1 and 32768 or only the client speaks."
  },
  {
   "property": "C84",
   "status": "proved",
   "theorems": [
    "C84_close_answered",
    "C84_unanswered"
   ],
   "note": "For any state other than New, SynSent and Closed, where close does nothing (C51). The source address is not examined by the code."
  },
  {
   "property": "C85",
   "status": "proved",
   "theorems": [
    "C85_orderly_end",
    "C85_whole_connection",
    "C85_server_closes"
   ],
   "note": "Over a network that delivers everything in order. After any conversation of C83 closed by the client; by the server right after the handshake; and from any two ends that fit together."
  },
  {
   "property": "C86",
   "status": "proved",
   "theorems": [
    "C86_delivery",
    "C86_any_length",
    "C86_conversation",
    "C86_read_at_once",
    "C86_connection"
   ],
   "note": "Over a network that delivers everything in order. C86_delivery and C86_connection: any clocks, messages that leave the sender at most 32768 numbers ahead (45 MB for a client). C86_any_length and C86_conversation: messages of any length, if no two successive readings of the sender's clock are 500 ms apart, no packet carries fewer than 13 bytes and the other end offers at most 1 MiB. Otherwise long ones can fail: a wait for room that ends after 500 ms lets the sender run ahead of last_acked, and socket.rs:674-679 then takes new packets for old ones."
  },
  {
   "property": "C87",
   "status": "proved",
   "theorems": [
    "C87_lossy",
    "C87_connection"
   ],
   "note": "One direction only: data that arrives during a flush is lost (C24), so with losses both sides cannot speak. At most 48 failed transmissions per message and 54 expiries of a fresh reader's timer in all, because nothing but an acknowledgement resets the doubled timer (C35, C39)."
  },
  {
   "property": "C88",
   "status": "partial",
   "theorems": [
    "C88_lost_packet_refuted",
    "C88_answers_refuted",
    "C88_connection_refuted",
    "C88_tail_partial",
    "C88_tail_connection_partial"
   ],
   "note": "REFUTED: a second copy of a packet that is not the last one read is filed at the head of the reader's buffer (socket.rs:1138-1163 only compares with buffered packets) and blocks it. After two lost answers, proved for every state and all messages up to the end of the sequence numbers: every later message is acknowledged and never read. Witness for one lost packet. Proved: losses at the end of a burst are recovered, for any number of bursts that fit the least window."
  },
  {
   "property": "C89",
   "status": "partial",
   "theorems": [
    "C89_opening",
    "C89_parting_partial",
    "C89_connection_partial",
    "C89_answer_refuted",
    "C89_connection_refuted"
   ],
   "note": "REFUTED for any two ends at ease: the peer of a close answers one FIN, is Closed and never sends again, so when that answer is lost the close fails with TimedOut. Proved: lost SYNs and answers to them (up to four), lost FINs, and a whole connection with losses throughout but for the answer to the FIN."
  },
  {
   "property": "C90",
   "status": "partial",
   "theorems": [
    "C90_refuted"
   ],
   "note": "REFUTED for every client and pattern of timeouts: each SYN that reaches the listener opens another connection with the same id (UtpListener keeps no record), and the FIN of the needless one ends the stream of the client whatever its numbers (socket.rs:912-935)."
  },
  {
   "property": "C91",
   "status": "partial",
   "theorems": [
    "C91_idle_partial",
    "C91_sender_refuted"
   ],
   "note": "REFUTED: a State packet can carry many selective acks, and each makes the sender send the gaps again (socket.rs:1078-1105): 245 retransmissions of one packet for a datagram of 1490 bytes, with three packets in flight. Proved for every socket with nothing in flight, in any state: at most one datagram per datagram, three per timeout, one per close."
  },
  {
   "property": "C92",
   "status": "partial",
   "theorems": [
    "C92_silent_partial",
    "C92_flush_refuted"
   ],
   "note": "REFUTED for every closed socket with something unacknowledged: flush does not look at the state (socket.rs:627-635), waits and sends again, max_retries times. Proved: every other call on a closed socket, and flush with nothing unacknowledged, leaves the network alone and does not wait."
  },
  {
   "property": "C93",
   "status": "partial",
   "theorems": [
    "C93_bound_partial",
    "C93_refuted"
   ],
   "note": "REFUTED: 720 packets after a gap are kept (1.07 MB) while every reply advertises 1 MiB (no check in recv or insert_into_buffer). Proved for every reachable state: each stored packet has at most 1500 bytes of data and all together at most 65536 * 1500, 98 MB (C93_bound_partial). A peer that respects the advertised window does not cause this."
  },
  {
   "property": "C94",
   "status": "partial",
   "theorems": [
    "C94_waiting_partial",
    "C94_again_partial",
    "C94_refuted"
   ],
   "note": "REFUTED for every reader with nothing buffered: a packet whose acknowledgement is being sent when the read is dropped is lost if the next one arrives instead of a copy; the later one is handed out in its place and both are acknowledged. Proved: dropping a read that waits for a datagram leaves the socket as it was; a copy of the packet that arrives next is delivered."
  },
  {
   "property": "C95",
   "status": "partial",
   "theorems": [
    "C95_blocked_refuted",
    "C95_starved_refuted",
    "C95_after_partial"
   ],
   "note": "REFUTED for every stream: a read holds the lock of the socket until it is done, and every write poll meanwhile is Pending; on an idle connection both end in errors (TimedOut and NotConnected). Proved: once the read is done a write runs at once."
  },
  {
   "property": "C96",
   "status": "partial",
   "theorems": [
    "C96_refuted"
   ],
   "note": "REFUTED for every state and every packet other than data: timestamp_difference of an arriving packet is not read anywhere. The samples are those of C81_sample (time from sending to acknowledgement)."
  },
  {
   "property": "C97",
   "status": "partial",
   "theorems": [
    "C97_refuted"
   ],
   "note": "REFUTED for every packet sent again on a timeout: its acknowledgement gives a sample counted from the retransmission."
  },
  {
   "property": "C98",
   "status": "partial",
   "theorems": [
    "C98_refuted"
   ],
   "note": "REFUTED for every state and every selective ack that reports a loss: a second copy halves the window again (down to 2800)."
  },
  {
   "property": "C99",
   "status": "partial",
   "theorems": [
    "C99_zero_refuted",
    "C99_patience_refuted"
   ],
   "note": "REFUTED: a packet goes out whenever less than 2800 bytes are in flight, also when the peer advertises 0 (socket.rs:650), and after 500 ms of waiting regardless. What is respected is C42."
  },
  {
   "property": "C100",
   "status": "partial",
   "theorems": [
    "C100_both_partial",
    "C100_refuted"
   ],
   "note": "REFUTED for any two ends with a one-packet message of one of them under way: after the FIN of its peer a socket no longer looks at acknowledgements, so its own close fails with TimedOut although everything arrived; the message is acknowledged and handed to nobody. Proved: with nothing under way both closes succeed."
  },
  {
   "property": "C101",
   "status": "proved",
   "theorems": [
    "C101_piped"
   ],
   "note": "Network that delivers, messages that leave the sender at most 32768 numbers ahead, one message at a time, a read buffer of 1380 bytes or more; the conditions of C86."
  },
  {
   "property": "C102",
   "status": "proved",
   "theorems": [
    "C102_utpcat",
    "C102_any_length"
   ],
   "note": "Network that delivers; a read buffer of 1380 bytes or more. Any clocks if the pieces together take up to 32768 packets; any amount of data if no two successive readings of the client's clock are 500 ms apart and no packet carries fewer than 13 bytes. Standard input, printing and program arguments are not modelled: the pieces read are a parameter."
  },
  {
   "property": "C103",
   "status": "partial",
   "theorems": [
    "C103_echo_partial",
    "C103_held_refuted",
    "C103_lost_refuted"
   ],
   "note": "REFUTED when the server's first sequence number is above 32768 (C103_held_refuted, for all such worlds: the answer is not sent until a timer expires, both sides wait) or 0 (C103_lost_refuted, witness: the answer is sent, acknowledged and never handed to the client, which sees a clean end of the stream). Proved for all first numbers from 1 to 32768 (C103_echo_partial). Printing, logging and the spawning of tasks are not modelled."
  },
  {
   "property": "C104",
   "status": "proved",
   "theorems": [
    "C104_table",
    "C104_packet",
    "C104_ack"
   ],
   "note": "If sending works and no overflow check panics (C55). The bitmap in the answer: C56; which data becomes ready: C19. Acknowledgements that make packets be sent again are not in the table (C34, C47, C65, C81)."
  },
  {
   "property": "C105",
   "status": "proved",
   "theorems": [
    "C105_quicktest"
   ],
   "note": "The theorem is about quicktest; the deterministic tests are Examples suite_* (vm_compute) on two sockets that get each other's packets in order, with timer expirations where the comment says so. Left out: test_stream_large_data (C102), tests of binding and of the local address (the operating system)."
  },
  {
   "property": "C106",
   "status": "partial",
   "theorems": [
    "C106_handle_packet_partial",
    "C106_keepalive_partial",
    "C106_unordered_partial",
    "C106_wrong_id_partial",
    "C106_refuted"
   ],
   "note": "REFUTED (C106_refuted, for all states of the world): 0 and 1 make test_response_to_wrong_connection_id fail, because twice the id is then an id of the connection; 65535 overflows in builds with overflow checks, in all four tests. Proved for every other draw."
  },
  {
   "property": "C107",
   "status": "partial",
   "theorems": [
    "C107_never_sent_refuted",
    "C107_never_read_refuted",
    "C107_closed_partial"
   ],
   "note": "REFUTED for every such connection, message, later history and network: the number of the packet is used up and never sent (C107_never_sent_refuted), and a peer that has everything sent before reads nothing more from data packets (C107_never_read_refuted). Proved: a write refused on a closed connection uses nothing up. See C44 for what is lost at most."
  },
  {
   "property": "C108",
   "status": "partial",
   "theorems": [
    "C108_refuted",
    "C108_close_refuted",
    "C108_state_partial"
   ],
   "note": "REFUTED for every reachable state with packets in flight and every history: as long as no State packet arrives nothing in flight is forgotten and no flush succeeds, whatever the acknowledgement numbers of data and FIN packets say (C108_refuted); nor does close (C108_close_refuted). Proved: on State packets the number counts (also C33)."
  },
  {
   "property": "C109",
   "status": "partial",
   "theorems": [
    "C109_timeout_refuted",
    "C109_fast_refuted",
    "C109_built_partial"
   ],
   "note": "REFUTED for every reachable state: a retransmission, after a timeout or three duplicate acknowledgements, carries the number that was current when send_to built the packet, whatever was received since (C109_timeout_refuted, C109_fast_refuted). Proved: packets without data (FIN, resend requests; replies: C75) are built when they are sent."
  },
  {
   "property": "C110",
   "status": "proved",
   "theorems": [
    "C110_range",
    "C110_reachable"
   ],
   "note": "Exact as integers, no rounding slack. For reachable states under the condition that the clock readings made so far, reduced to 32 bits, do not run backwards; negative delays (clock set back) are not covered."
  },
  {
   "property": "C111",
   "status": "proved",
   "theorems": [
    "C111_queuing",
    "C111_base",
    "C111_rtt"
   ],
   "note": "The condition on the clock is needed: after one wrap the difference exceeds 2^32 (C111_wrapped). C45_steady_* use it: the window follows the delay itself."
  },
  {
   "property": "C112",
   "status": "partial",
   "theorems": [
    "C112_bounded_partial",
    "C112_refuted",
    "C112_burst_refuted"
   ],
   "note": "REFUTED: when acknowledgements of packets sent at different times arrive together, the averaged queuing delay can exceed the delay of the later packet; the negative round-trip sample becomes about 2^32 microseconds, the estimate 537 s and the timeout 60 s (C112_refuted, C112_burst_refuted; steady clock, delays of 0.8 and 0.1 s). Proved when the queuing delay is at most the measured delay (C112_bounded_partial)."
  },
  {
   "property": "C113",
   "status": "partial",
   "theorems": [
    "C113_reader_refuted",
    "C113_hour_refuted",
    "C113_sender_partial"
   ],
   "note": "REFUTED for every reader: while nothing is in flight the timer is only ever doubled, once per timeout, whatever arrives in between (C113_reader_refuted, exact for every script); twelve successful reads with one pause each leave it at 68 minutes, so the next lost packet is asked for again after that time (C113_hour_refuted). Proved: the acknowledgement of an own packet brings it back to 0.5..60 s (C113_sender_partial)."
  },
  {
   "property": "C114",
   "status": "partial",
   "theorems": [
    "C114_idle_refuted",
    "C114_every_refuted",
    "C114_request_refuted"
   ],
   "note": "REFUTED for every state: acknowledgements that arrive with nothing in flight are counted (C114_idle_refuted), and with the count at three or more no number of further duplicates retransmits a packet or halves the window (C114_every_refuted, exact). The three requests a waiting peer of this library sends on one timeout suffice: 40 duplicates after a loss change nothing but the counter (C114_request_refuted). With a fresh counter the third duplicate retransmits (C37_third_partial)."
  },
  {
   "property": "C115",
   "status": "partial",
   "theorems": [
    "C115_every_refuted",
    "C115_flush_refuted"
   ],
   "note": "REFUTED for every state: once the FIN has closed the socket with packets in flight, no network script makes flush succeed and no packet leaves the window (C115_every_refuted); the acknowledgement that completes everything makes flush and close of a connected socket fail with Other, and the FIN is never sent (C115_flush_refuted). Acknowledged before the FIN arrives, both succeed (example)."
  },
  {
   "property": "C116",
   "status": "partial",
   "theorems": [
    "C116_every_refuted",
    "C116_stranger_refuted"
   ],
   "note": "REFUTED for every state and packet: outside New and SynSent the effect of a packet does not depend on where it comes from (C116_every_refuted), so whoever knows the 16-bit id can deliver data (acknowledged to them, the peer's packet of that number then being dropped as old), end the stream or reset the connection (C116_stranger_refuted)."
  },
  {
   "property": "C117",
   "status": "partial",
   "theorems": [
    "C117_every_refuted",
    "C117_refuted"
   ],
   "note": "REFUTED for every number of datagrams: with a full window, each State packet with a selective acknowledgement of three or more that asks for a packet in flight makes the receive wait for the window inside itself; k of them make it nest exactly k + 1 deep (C117_every_refuted), from a reachable state for every k below 2^32 (C117_refuted). Hypotheses: successive clock readings less than 500 ms apart, duplicate counter not overflowing."
  },
  {
   "property": "C118",
   "status": "partial",
   "theorems": [
    "C118_every_refuted",
    "C118_bound_refuted",
    "C118_refuted"
   ],
   "note": "REFUTED for every idle socket that is reset, new or connecting (C118_every_refuted): send_to checks for Closed only, so up to 1380 bytes go out to the stored address and success is reported. A socket that was only bound sends them to its own address (C118_bound_refuted, every bind and every data of 1 to 1380 bytes). C118_refuted: after a reset, a read fails, the write succeeds and the flush waits. Hypotheses of the general theorems: the UDP sends succeed, and the next number is not behind the last acknowledged one. The closed case is C31."
  },
  {
   "property": "C119",
   "status": "partial",
   "theorems": [
    "C119_every_refuted",
    "C119_refuted"
   ],
   "note": "REFUTED: the timeout is that of a single wait for a datagram and the retries are counted within one receive, so any datagram restarts both. However many junk datagrams arrive, each within the timeout, nothing is retransmitted and nothing is counted, whatever the clock says (C119_every_refuted); forty timeouts with a junk datagram after every four do not end a flush that five in a row end (C119_refuted). That each wait has its own timeout (socket.rs:393-401) is how the model treats timeouts, as events of one receive; the model does not tie them to its clock."
  }
 ]
}