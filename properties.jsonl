{"id": "C01", "title": "Datagram parser accepts exactly the uTP wire grammar", "statement": "A received byte string is accepted as a packet if and only if it is a 20-byte version-1 header with a type in 0..4, followed by a correctly linked chain of extensions (each non-empty, a multiple of four bytes long, terminated by a zero next-type), followed by an arbitrary payload; acceptance never alters the bytes.", "quantifier": "every byte string of every length", "why_tests_cant": "The input space is all byte strings; tests and quickcheck sample it.", "anchors": ["src/packet.rs: Packet::try_from, PacketHeader::try_from, check_extensions"]}
{"id": "C02", "title": "Accessors of an accepted packet are total and invert the wire encoding", "statement": "For every accepted datagram, reading its type, version, connection id, timestamps, window, sequence and acknowledgement numbers, extension list and payload never goes out of bounds and returns exactly the values that were encoded.", "quantifier": "every accepted byte string, every accessor", "why_tests_cant": "Bounds safety and inversion must hold for every extension chain and payload.", "anchors": ["src/packet.rs: Packet::payload, Packet::extensions, ExtensionIterator::next, make_getter"]}
{"id": "C03", "title": "Malformed datagrams are rejected with the documented error and never panic", "statement": "Every rejected byte string is rejected with an error that states its first defect: too short, unsupported version, unknown type (carrying that type), or a broken extension chain; parsing never panics.", "quantifier": "every byte string that is not a packet", "why_tests_cant": "The set of malformed inputs is infinite.", "anchors": ["src/packet.rs: Packet::try_from, check_extensions", "src/error.rs: ParseError"]}
{"id": "C04", "title": "Header field setters obey get/set and frame laws", "statement": "Setting a header field makes the matching getter return the value (truncated to the field width) stored big-endian at its fixed offset, and changes no other field, no extension, no payload byte and not the length.", "quantifier": "every packet, every field value", "why_tests_cant": "Quantifies over all packets and all 16/32-bit values.", "anchors": ["src/packet.rs: make_setter, set_timestamp, set_timestamp_difference, set_type"]}
{"id": "C05", "title": "Data packets round-trip any payload", "statement": "A data packet built from any payload parses back to a version-1 data packet with no extensions and exactly that payload.", "quantifier": "every payload", "why_tests_cant": "All payloads of all sizes.", "anchors": ["src/packet.rs: Packet::with_payload, Packet::new"]}
{"id": "C06", "title": "Attaching a selective ack preserves the packet", "statement": "Attaching a bitmap whose length is a multiple of four between 4 and 252 bytes to any valid packet yields a valid packet whose extension list is the old one followed by the new selective-ack extension, with the same payload and header fields; other small lengths are rejected by panic.", "quantifier": "every valid packet (any existing chain, any payload), every such bitmap", "why_tests_cant": "Unbounded chains and payloads.", "anchors": ["src/packet.rs: Packet::set_sack"]}
{"id": "C07", "title": "Every packet the socket emits is a valid uTP packet", "statement": "Every datagram a socket sends parses as a valid uTP packet, whatever was received before.", "quantifier": "every history of received datagrams and API calls", "why_tests_cant": "The violation needs a stash of packets far ahead of the acknowledged one (gap of 2017 or more packets); no unit test builds it.", "anchors": ["src/socket.rs: build_selective_ack, handle_data_packet", "src/packet.rs: set_sack (bv.len() as u8)"]}
{"id": "C08", "title": "Selective-ack bitmaps are read least-significant bit first and completely", "statement": "Iterating over the bits of an extension yields exactly 8 booleans per byte, least significant first, and the reported number of ones equals the number of true booleans.", "quantifier": "every byte string", "why_tests_cant": "All bitmaps.", "anchors": ["src/bit_iterator.rs: BitIterator::next, count_ones"]}
{"id": "C09", "title": "Bit iterator reports its exact remaining length", "statement": "At every point of an iteration, the declared exact size equals the number of bits still to come.", "quantifier": "every bitmap and every iteration point", "why_tests_cant": "Must hold at every intermediate iterator state.", "anchors": ["src/bit_iterator.rs: size_hint, ExactSizeIterator"]}
{"id": "C10", "title": "Header decoding and header encoding are inverse", "statement": "Decoding the 20 header bytes of an acceptable datagram into the header structure and viewing that structure as bytes again gives the same 20 bytes.", "quantifier": "every 20-byte prefix with version 1 and a known type", "why_tests_cant": "2^152 headers.", "anchors": ["src/packet.rs: PacketHeader::try_from, PacketHeader::as_ref, u8_to_unsigned_be"]}
{"id": "C11", "title": "Connection identifiers are consecutive and never overflow", "statement": "Whatever random value is drawn, a new socket gets a receive id and a send id that are both 16-bit values and differ by exactly one, without arithmetic overflow.", "quantifier": "every 16-bit random draw", "why_tests_cant": "The failing draw would be one in 65536.", "anchors": ["src/util.rs: generate_sequential_identifiers"]}
{"id": "C12", "title": "Wire timestamps are wall-clock microseconds modulo 2^32", "statement": "The 32-bit timestamp equals the true number of microseconds since the epoch modulo 2^32 for every instant, and the timestamp difference written in replies is the absolute difference of the two stamps, symmetric, and representable without truncation.", "quantifier": "every clock reading before the year 500000, every pair of stamps", "why_tests_cant": "All clock readings including wrap-around instants.", "anchors": ["src/time.rs: now_microseconds, Timestamp::sub", "src/util.rs: abs_diff", "src/socket.rs: prepare_reply"]}
{"id": "C13", "title": "Measured delay equals elapsed time across clock wrap-around", "statement": "The delay computed between sending a packet and receiving its acknowledgement equals the real elapsed time whenever that is under an hour.", "quantifier": "every pair of instants", "why_tests_cant": "Only pairs straddling the 71-minute wrap expose it.", "anchors": ["src/time.rs: Timestamp::sub", "src/socket.rs: handle_state_packet (our_delay), update_base_delay"]}
{"id": "C14", "title": "Errors are reported with stable kinds", "statement": "Every socket error maps to a fixed I/O error kind: closed or unconnected to NotConnected, reset to ConnectionReset, retry exhaustion to TimedOut, bad reply to ConnectionRefused, bad address to InvalidInput; every parse error maps to Other.", "quantifier": "every error value", "why_tests_cant": "Finite table, listed for completeness; used by all other properties.", "anchors": ["src/error.rs: From<SocketError> for io::Error, From<ParseError> for io::Error"]}
{"id": "C15", "title": "The reorder buffer is strictly ordered, duplicate-free and bounded", "statement": "In every reachable state the out-of-order buffer holds valid data packets with strictly increasing sequence numbers, hence no duplicates and at most 65536 packets.", "quantifier": "every sequence of API calls, datagrams, timeouts, I/O errors and cancellations", "why_tests_cant": "Unbounded histories.", "anchors": ["src/socket.rs: insert_into_buffer, recv, advance_incoming_buffer"]}
{"id": "C16", "title": "Buffer insertion: first copy wins, nothing else changes", "statement": "Receiving a data packet whose sequence number is not buffered adds exactly that packet; receiving one whose number is already buffered leaves the buffer unchanged.", "quantifier": "every ordered buffer and packet", "why_tests_cant": "All buffers and packets.", "anchors": ["src/socket.rs: insert_into_buffer"]}
{"id": "C17", "title": "Reads with any buffer sizes concatenate to the same bytes", "statement": "However a reader slices its reads (any non-zero buffer sizes), the concatenation of what recv_from returns from already received packets is the same byte stream; no byte is lost, duplicated or reordered by partial reads.", "quantifier": "every payload and every sequence of buffer sizes", "why_tests_cant": "All splits of all payloads.", "anchors": ["src/socket.rs: flush_incoming_buffer, recv_from"]}
{"id": "C18", "title": "Delivered bytes are a prefix of the sent stream on any network (receiver)", "statement": "For a socket that only reads, while the peer only sends data (and possibly a final FIN), under arbitrary loss, duplication, reordering, corruption into unparsable datagrams, timeouts and cancellations, the bytes handed to the application are at every moment a prefix of the peer's byte stream, as long as fewer than 65535 packets are used.", "quantifier": "every arrival schedule, every read sizes, every stream", "why_tests_cant": "Exponentially many schedules.", "anchors": ["src/socket.rs: recv, recv_from, handle_packet, handle_data_packet, insert_into_buffer, flush_incoming_buffer"]}
{"id": "C19", "title": "No received data is withheld from a blocked reader", "statement": "If packets arrive in any order, each at most once, then whenever recv_from blocks, everything up to the first missing packet has been delivered.", "quantifier": "every permutation with losses of the packets of every stream, every read sizes", "why_tests_cant": "All permutations.", "anchors": ["src/socket.rs: recv_from, recv, flush_incoming_buffer"]}
{"id": "C20", "title": "In-order streams of any length survive sequence wrap-around", "statement": "When data packets arrive in order, the reader receives exactly the sent bytes for streams of unlimited length, across any number of 16-bit sequence number wrap-arounds, without panicking in any build profile.", "quantifier": "every stream length, every start sequence number, every read sizes", "why_tests_cant": "Unbounded length.", "anchors": ["src/socket.rs: recv, handle_packet, insert_into_buffer, flush_incoming_buffer"]}
{"id": "C21", "title": "Duplicate packets do not disturb the stream", "statement": "A duplicated or retransmitted copy of an already delivered packet has no effect on the bytes delivered later.", "quantifier": "every duplicate of any age", "why_tests_cant": "Unit test only duplicates the most recent packet.", "anchors": ["src/socket.rs: recv (last_dropped check), insert_into_buffer"]}
{"id": "C22", "title": "Only packets of this connection contribute data", "statement": "Bytes from a data packet that carries a foreign connection id are never delivered to the application.", "quantifier": "every datagram with a foreign connection id", "why_tests_cant": "The unit test only looks at the Reset reply.", "anchors": ["src/socket.rs: recv, handle_packet"]}
{"id": "C23", "title": "A lost packet is never skipped", "statement": "If a data packet is lost, no later byte is delivered and the packet is not acknowledged until it is retransmitted, also when both sides exchange data.", "quantifier": "every two-way exchange with loss", "why_tests_cant": "Needs a State packet between two data packets and a loss.", "anchors": ["src/socket.rs: handle_packet (ack_nr update)"]}
{"id": "C24", "title": "Data arriving while sending, flushing or closing is kept for the reader", "statement": "Payload of in-order packets that arrive while the application is inside send_to, flush or close is returned by a later recv_from.", "quantifier": "every interleaving of inbound data with outbound waiting", "why_tests_cant": "Tests are one-directional.", "anchors": ["src/socket.rs: send_packet, flush, close (scratch buffers passed to recv)"]}
{"id": "C25", "title": "End of stream", "statement": "After the peer's FIN has been processed, recv_from first returns buffered bytes in order and then returns 0 bytes; from then on every recv_from returns 0 without touching the network or the socket.", "quantifier": "every state after a FIN, every sequence of reads", "why_tests_cant": "All buffered contents and read sizes.", "anchors": ["src/socket.rs: recv_from, handle_packet (Fin)"]}
{"id": "C26", "title": "End of stream is only signalled after all data", "statement": "recv_from reports end of stream only after every byte sent before the FIN was delivered.", "quantifier": "every loss and reordering pattern around the FIN", "why_tests_cant": "Needs FIN overtaking data.", "anchors": ["src/socket.rs: handle_packet (Connected, Fin)"]}
{"id": "C27", "title": "Reset handling", "statement": "A Reset packet of this connection makes the current call fail with ConnectionReset; buffered in-order bytes can still be read, after which recv_from fails with ConnectionReset every time without touching the network.", "quantifier": "every connected state and every Reset packet", "why_tests_cant": "All states.", "anchors": ["src/socket.rs: handle_packet (Reset), recv_from"]}
{"id": "C28", "title": "Undecodable datagrams are ignored", "statement": "A datagram that does not parse changes no socket state, triggers no reply and delivers no data.", "quantifier": "every unparsable byte string, every state", "why_tests_cant": "Infinite inputs.", "anchors": ["src/socket.rs: recv"]}
{"id": "C29", "title": "Packets for another connection only provoke a Reset", "statement": "A non-SYN packet with a foreign connection id is answered with exactly one Reset packet and changes nothing else, in particular not what is acknowledged.", "quantifier": "every foreign packet, every state", "why_tests_cant": "The unit test uses one packet and does not look at the acknowledgement number.", "anchors": ["src/socket.rs: handle_packet"]}
{"id": "C30", "title": "send_to splits data losslessly", "statement": "send_to queues its data as consecutive packets with consecutive (wrapping) sequence numbers, payloads of at most 1380 bytes and at least one byte, whose concatenation is exactly the data, and on success reports the full length.", "quantifier": "every data length and every starting sequence number", "why_tests_cant": "All lengths, including chunk boundaries and wrap-around.", "anchors": ["src/socket.rs: send_to, send"]}
{"id": "C31", "title": "Sending on a closed socket is refused", "statement": "send_to on a closed socket fails with NotConnected and has no effect at all.", "quantifier": "every closed state, every data", "why_tests_cant": "All states.", "anchors": ["src/socket.rs: send_to"]}
{"id": "C32", "title": "Bytes in flight are accounted exactly", "statement": "In every reachable state the in-flight byte counter equals the total size of the sent-but-unacknowledged packets (modulo 2^32), so acknowledging never underflows the counter.", "quantifier": "every history of API calls, datagrams, timeouts, errors and cancellations", "why_tests_cant": "Unbounded histories including nested receive inside send.", "anchors": ["src/socket.rs: send, advance_send_window, curr_window"]}
{"id": "C33", "title": "Cumulative acknowledgement removes exactly the acknowledged prefix", "statement": "Processing an acknowledgement number that matches an in-flight packet forgets exactly the packets up to and including it; any other acknowledgement number forgets nothing.", "quantifier": "every window and acknowledgement number", "why_tests_cant": "All windows.", "anchors": ["src/socket.rs: advance_send_window, handle_state_packet"]}
{"id": "C34", "title": "flush returns only when everything was acknowledged", "statement": "If flush (or close) succeeds, every in-flight packet has been acknowledged by the peer; flush with nothing in flight is a no-op.", "quantifier": "every schedule", "why_tests_cant": "All schedules.", "anchors": ["src/socket.rs: flush, close"]}
{"id": "C35", "title": "Timeout retransmits the oldest unacknowledged packet", "statement": "When a receive wait times out, the socket retransmits exactly the oldest unacknowledged packet, unchanged except for its timestamp; with nothing in flight it resends the FIN if closing, otherwise (if connected) sends exactly three acknowledgements of the last in-order packet.", "quantifier": "every state", "why_tests_cant": "All states.", "anchors": ["src/socket.rs: handle_receive_timeout, send_fast_resend_request"]}
{"id": "C36", "title": "Unresponsive peers are given up after the configured number of retries", "statement": "After exactly max_retransmission_retries consecutive timeouts a waiting call fails with TimedOut and the socket is closed; fewer timeouts never do that.", "quantifier": "every retry limit, every state", "why_tests_cant": "All limits.", "anchors": ["src/socket.rs: recv"]}
{"id": "C37", "title": "Three duplicate acknowledgements trigger one fast retransmission", "statement": "The third consecutive acknowledgement of the same number (and only the third), without selective-ack extension, retransmits exactly the packet following the acknowledged one if it is in flight, and halves the congestion window.", "quantifier": "every window and counter state", "why_tests_cant": "All states.", "anchors": ["src/socket.rs: handle_state_packet, resend_lost_packet"]}
{"id": "C38", "title": "Congestion window stays within its bounds", "statement": "In every reachable state the congestion window is at least one segment, and after every acknowledgement it is between two segments and bytes-in-flight plus one segment (or two segments if that is larger).", "quantifier": "every history", "why_tests_cant": "Floating point updates over unbounded histories.", "anchors": ["src/socket.rs: update_congestion_window, handle_receive_timeout"]}
{"id": "C39", "title": "Retransmission timer estimation never overflows and stays in range", "statement": "For every history of delay samples, round-trip estimates stay within 0..4294967 ms without integer overflow, and after each sample the timeout is between 500 ms and 60 s.", "quantifier": "every sample history", "why_tests_cant": "Unbounded histories and extreme samples.", "anchors": ["src/socket.rs: update_congestion_timeout"]}
{"id": "C40", "title": "The retransmission timeout never exceeds its maximum", "statement": "In every reachable state the timeout is at most 60 seconds.", "quantifier": "every history", "why_tests_cant": "Needs repeated timeouts after a large round-trip time.", "anchors": ["src/socket.rs: handle_receive_timeout (congestion_timeout *= 2)"]}
{"id": "C41", "title": "Base delay history is bounded and minimal", "statement": "The base delay history never exceeds ten entries, is never empty after a sample, and within a minute keeps the smallest sample.", "quantifier": "every sample history", "why_tests_cant": "Unbounded histories.", "anchors": ["src/socket.rs: update_base_delay, min_base_delay"]}
{"id": "C42", "title": "Flow control gate", "statement": "A packet is only put on the wire when bytes in flight are below max(2 segments, min(congestion window, peer window)) or when the 500 ms patience has elapsed; otherwise the call waits for the peer.", "quantifier": "every state and clock behaviour", "why_tests_cant": "All schedules.", "anchors": ["src/socket.rs: send_packet"]}
{"id": "C43", "title": "send_to transmits what it accepts", "statement": "Every packet accepted by a successful send_to on a fresh connection has been put on the wire at least once.", "quantifier": "every initial sequence number", "why_tests_cant": "Depends on the random initial sequence number of an accepted connection.", "anchors": ["src/socket.rs: send_packet (distance check), handle_packet (New, Syn)"]}
{"id": "C44", "title": "A failed send_to loses no accepted packet", "statement": "If send_to fails or is cancelled, each of its packets is still either queued or in flight.", "quantifier": "every failure point", "why_tests_cant": "Every failing or cancelled await point.", "anchors": ["src/socket.rs: send (pop_front before send_packet)"]}
{"id": "C45", "title": "Window adaptation follows the delay target", "statement": "An acknowledgement measured with queuing delay at most the 100 ms target never shrinks the congestion window below the cap, and one with a larger queuing delay never grows it.", "quantifier": "every window, queuing delay and acknowledged size", "why_tests_cant": "Floating-point computation over all values.", "anchors": ["src/socket.rs: update_congestion_window, handle_state_packet (off_target)"]}
{"id": "C46", "title": "Passive open", "statement": "A fresh bound socket or a listener that receives a SYN becomes connected to its sender, with mirrored connection ids, acknowledging the SYN's sequence number, and replies with exactly one State packet saying so.", "quantifier": "every SYN packet, every random draw", "why_tests_cant": "All SYN packets.", "anchors": ["src/socket.rs: handle_packet (New, Syn), UtpListener::accept, recv"]}
{"id": "C47", "title": "Listener rejects anything but a SYN", "statement": "accept fails with an error, creates no connection and sends nothing when the datagram is not a valid SYN packet.", "quantifier": "every datagram", "why_tests_cant": "All datagrams.", "anchors": ["src/socket.rs: UtpListener::accept"]}
{"id": "C48", "title": "A successful connect yields a connected socket", "statement": "If connect returns a socket, that socket is connected.", "quantifier": "every reply", "why_tests_cant": "The unit test tries one unexpected reply type only.", "anchors": ["src/socket.rs: connect, handle_packet (_, Syn)"]}
{"id": "C49", "title": "Connect attempts are bounded and time out", "statement": "connect sends between one and five identical-but-timestamp SYN packets, and if nothing answers it fails with TimedOut.", "quantifier": "every reply schedule", "why_tests_cant": "All schedules.", "anchors": ["src/socket.rs: connect"]}
{"id": "C50", "title": "Connection life cycle", "statement": "Whatever the peer does and whatever calls are made, a socket's life-cycle state only moves along the documented transitions; in particular a closed socket never becomes connected again.", "quantifier": "every history", "why_tests_cant": "Unbounded histories.", "anchors": ["src/socket.rs: handle_packet, close, recv"]}
{"id": "C51", "title": "close", "statement": "close on an unconnected or closed socket does nothing; if close succeeds otherwise, all data was acknowledged before a FIN with the next sequence number was sent, and the socket is closed, so closing again does nothing.", "quantifier": "every state and schedule", "why_tests_cant": "All schedules.", "anchors": ["src/socket.rs: close"]}
{"id": "C52", "title": "close after a reset returns without network traffic", "statement": "Closing a socket whose connection was reset by the peer completes immediately and sends nothing.", "quantifier": "every reset state", "why_tests_cant": "Not tested.", "anchors": ["src/socket.rs: close"]}
{"id": "C53", "title": "peer_addr", "statement": "peer_addr succeeds exactly while the connection is open (established or closing) and then returns the peer's address, otherwise it fails with NotConnected.", "quantifier": "every state", "why_tests_cant": "All states.", "anchors": ["src/socket.rs: peer_addr"]}
{"id": "C54", "title": "No datagram can panic a release build", "statement": "In a build without overflow checks, no sequence of datagrams, timeouts, I/O errors, cancellations and API calls makes any socket operation panic.", "quantifier": "every history", "why_tests_cant": "Adversarial inputs.", "anchors": ["src/socket.rs: all", "src/packet.rs: all"]}
{"id": "C55", "title": "No datagram can panic a debug build", "statement": "In a build with overflow checks, no received datagram makes a socket operation panic.", "quantifier": "every datagram", "why_tests_cant": "Needs boundary values such as connection id or ack number 65535.", "anchors": ["src/socket.rs: handle_packet (connection_id + 1), handle_state_packet (ack_nr + 1), flush_incoming_buffer (ack_nr + 1), build_selective_ack"]}
{"id": "C56", "title": "Selective-ack content", "statement": "The bitmap attached to an out-of-order reply has bit i set exactly when packet ack_nr+2+i is in the reorder buffer, provided sequence numbers do not wrap within the window.", "quantifier": "every buffer and acknowledgement number", "why_tests_cant": "All buffers.", "anchors": ["src/socket.rs: build_selective_ack, handle_data_packet"]}
{"id": "C57", "title": "Every call terminates once the network answers", "statement": "Each socket call performs finitely many steps per network event: for every finite event script the call returns, or is waiting for the next event; nested retransmissions cannot loop forever.", "quantifier": "every state and every event script", "why_tests_cant": "Termination over all schedules.", "anchors": ["src/socket.rs: recv, send_packet, handle_state_packet (mutual recursion), flush, close"]}
{"id": "C58", "title": "Results do not depend on event batching", "statement": "If a call completes on a script of network events, it completes identically, leaving later events untouched, when more events follow; what a call still waiting has sent is not affected by what arrives later.", "quantifier": "every state, script and continuation", "why_tests_cant": "All scripts.", "anchors": ["src/socket.rs: recv, recv_from, send_to, flush, close"]}
{"id": "C59", "title": "End-to-end prefix delivery over an arbitrary network", "statement": "For a one-directional transfer, whatever the network does with the sender's datagrams (loss, duplication, reordering) and whatever the sender receives, the bytes delivered at the receiver are always a prefix of the bytes passed to send_to, for fewer than 65535 packets.", "quantifier": "every sender history, every network behaviour, every receiver read sizes", "why_tests_cant": "All schedules of two endpoints.", "anchors": ["src/socket.rs: send_to, send_packet, resend_lost_packet, handle_receive_timeout, recv, recv_from"]}
{"id": "C60", "title": "Retransmissions carry the original data", "statement": "Every data datagram a socket ever puts on the wire, including every retransmission, with a given stream position carries exactly the bytes of that position.", "quantifier": "every history", "why_tests_cant": "All schedules.", "anchors": ["src/socket.rs: send_packet, resend_lost_packet, handle_receive_timeout"]}
{"id": "C61", "title": "Stream reads and writes return the socket's results", "statement": "A stream read or write polled until ready, with the same buffer, starts exactly one underlying socket operation, returns its result once, and leaves the stream ready for the next operation.", "quantifier": "every number of polls before readiness", "why_tests_cant": "All poll schedules.", "anchors": ["src/stream.rs: poll_read, poll_write, poll_flush"]}
{"id": "C62", "title": "A stream can be used after an I/O error", "statement": "After a stream read or write returned an error, polling it again does not panic.", "quantifier": "every error", "why_tests_cant": "Tests stop at the first error.", "anchors": ["src/stream.rs: poll_read, poll_write (`?` before resetting the stored future)"]}
{"id": "C63", "title": "AsyncWrite::poll_close closes the stream", "statement": "Closing a stream through the AsyncWrite trait completes without panicking.", "quantifier": "every stream state", "why_tests_cant": "Tests call the inherent close method, never the trait method.", "anchors": ["src/stream.rs: poll_close"]}
{"id": "C64", "title": "Address queries never panic", "statement": "local_addr and peer_addr on a stream never panic, also while a read or write is pending.", "quantifier": "every interleaving with a pending operation", "why_tests_cant": "Needs a concurrent clone.", "anchors": ["src/stream.rs: local_addr, peer_addr (try_read().unwrap())"]}
{"id": "C65", "title": "The incoming-connections stream never ends", "statement": "The listener's incoming stream yields the result of exactly one accept per item, never yields end-of-stream, and a pending accept is continued, not restarted.", "quantifier": "every poll schedule", "why_tests_cant": "All poll schedules.", "anchors": ["src/socket.rs: Incoming::poll_next"]}
{"id": "C66", "title": "Active open", "statement": "When one of the first five SYNs is answered by a State packet, connect returns a connected socket: it talks to the source of the reply, acknowledges the reply's sequence number, takes the reply's acknowledgement and window, uses consecutive connection ids of which the SYN carried the first, continues with sequence number 2, and sent exactly one SYN per attempt.", "quantifier": "every address, reply, random draw, number of preceding timeouts below five", "why_tests_cant": "All replies and all random identifiers.", "anchors": ["src/socket.rs: connect, from_raw_parts, handle_packet (SynSent, State)"]}
{"id": "C67", "title": "Delay echo", "statement": "Every packet sent on an established connection carries the send time and, as timestamp difference, the one-way delay measured from the last packet received on the connection.", "quantifier": "every packet, clock and history", "why_tests_cant": "All clock values and interleavings of sending and receiving.", "anchors": ["src/socket.rs: send_packet, handle_packet, close"]}
{"id": "C68", "title": "Selective acknowledgements trigger exactly the retransmissions they call for", "statement": "On a State packet with a selective ack, the sender retransmits, in order and unchanged but for the time stamps, the packet after the acknowledged one if at least three later ones arrived, and every packet in flight the bitmap reports missing before the last one in flight; it halves the congestion window exactly when it found a loss.", "quantifier": "every bitmap, every set of packets in flight", "why_tests_cant": "All bitmaps times all window contents.", "anchors": ["src/socket.rs: handle_state_packet, resend_lost_packet"]}
{"id": "C69", "title": "Receive window advertisement", "statement": "Every packet sent on a connection advertises the receive window of 1 MiB, and the sender takes the peer's window from the packets it receives.", "quantifier": "every packet", "why_tests_cant": "All kinds of packets in all states.", "anchors": ["src/socket.rs: recv, send_packet, handle_packet, UtpListener::accept"]}
{"id": "C70", "title": "Reading into an empty buffer returns immediately", "statement": "recv_from with a zero-length buffer returns Ok with 0 bytes without waiting.", "quantifier": "every socket state", "why_tests_cant": "All states.", "anchors": ["src/socket.rs: recv_from, flush_incoming_buffer"]}
{"id": "C71", "title": "connect accepts only the answer to its own SYN", "statement": "connect succeeds only if the reply came from the address connected to and carries the connection id of the SYN.", "quantifier": "every reply from any source", "why_tests_cant": "The space of stray packets.", "anchors": ["src/socket.rs: connect, handle_packet (SynSent)"]}
{"id": "C72", "title": "Dropping a socket closes it", "statement": "Dropping a socket has exactly the effect of close, hides its errors, and does nothing on a socket that is not open.", "quantifier": "every socket state, every network behaviour", "why_tests_cant": "All states and all network behaviours during the drop.", "anchors": ["src/socket.rs: Drop for UtpSocket"]}
{"id": "C73", "title": "A failed accept returns immediately", "statement": "When accept fails it returns the error without sending anything to the peer or waiting for it.", "quantifier": "every datagram, every send result", "why_tests_cant": "Failure injection at the reply's send.", "anchors": ["src/socket.rs: UtpListener::accept, Drop for UtpSocket"]}
{"id": "C74", "title": "The acknowledgement number never moves backwards", "statement": "The sequence number a connection acknowledges only moves forward (modulo 2^16), by a bounded amount per call and per datagram received.", "quantifier": "every history of calls and datagrams", "why_tests_cant": "Needs old packets arriving at particular moments of partial reads.", "anchors": ["src/socket.rs: handle_packet, advance_incoming_buffer, flush_incoming_buffer"]}
{"id": "C75", "title": "Every data and FIN packet is acknowledged", "statement": "Each Data and FIN packet of the connection, and each SYN on a connection that is already open, is answered at once by exactly one packet to its sender, of the type due in that state, with the connection's id, sequence number, window and the updated acknowledgement number; State and Reset packets of the connection get no reply.", "quantifier": "every state, packet and history", "why_tests_cant": "All states times all packets.", "anchors": ["src/socket.rs: recv, handle_packet, prepare_reply, handle_data_packet"]}
{"id": "C76", "title": "Resets are never answered", "statement": "No Reset packet is answered by a packet, so two endpoints cannot exchange resets forever.", "quantifier": "every packet", "why_tests_cant": "Needs two confused endpoints.", "anchors": ["src/socket.rs: handle_packet (unknown connection id)"]}
{"id": "C77", "title": "Receive errors are reported", "statement": "An error of the UDP socket other than a timeout ends the running call with exactly this error and leaves the socket as it was.", "quantifier": "every error, every call", "why_tests_cant": "Failure injection at every receive.", "anchors": ["src/socket.rs: recv, resend_lost_packet"]}
{"id": "C78", "title": "Connection id and destination of everything sent", "statement": "Everything sent on a connection carries the sender's connection id, which never changes; data is sent only to the peer.", "quantifier": "every history", "why_tests_cant": "All histories.", "anchors": ["src/socket.rs: send_to, send_packet, prepare_reply, close, handle_packet"]}
{"id": "C79", "title": "A failed connect cleans up immediately", "statement": "When connect fails, the half-open socket is dropped without sending anything or waiting.", "quantifier": "every failure", "why_tests_cant": "All failures.", "anchors": ["src/socket.rs: connect, Drop for UtpSocket, close"]}
{"id": "C80", "title": "The current delay window spans one round trip", "statement": "When an acknowledgement adds a delay sample, the samples removed from the current delay window are those at its front that are older than one round-trip time.", "quantifier": "every sample history and clock", "why_tests_cant": "The window depends on arrival times; a unit error removes samples early without any visible failure.", "anchors": ["src/socket.rs: update_current_delay"]}
{"id": "C81", "title": "An acknowledgement contributes one delay sample and one round-trip sample", "statement": "The acknowledgement of an in-flight packet records now minus the packet's timestamp in the base and current delay histories, and the round-trip estimate, its variance and the timeout are updated with this delay minus the queuing delay.", "quantifier": "every reachable state, packet and clock", "why_tests_cant": "Unbounded histories and clock values.", "anchors": ["src/socket.rs: handle_state_packet, update_base_delay, update_current_delay, update_congestion_timeout"]}
{"id": "C82", "title": "The congestion window moves by the delay-based amount to within a byte", "statement": "After an acknowledgement of B bytes measured with queuing delay q, the congestion window is cwnd + (100 ms - q)/100 ms * B * 1400 / cwnd to within one byte, capped by the bytes in flight plus one segment and never below two segments.", "quantifier": "every window, delay, acknowledged size and reachable state", "why_tests_cant": "Six rounded floating-point operations over a space of 2^96 inputs.", "anchors": ["src/socket.rs: update_congestion_window, handle_state_packet (off_target)"]}
{"id": "C83", "title": "A connection over a faithful network carries any stop-and-wait conversation", "statement": "After a handshake over a network that delivers everything, each message of one packet that one side sends is returned whole by the other side's next read, and the sender's flush succeeds, for any number of messages in any directions.", "quantifier": "every clock, random numbers, list of messages, buffer sizes", "why_tests_cant": "Unbounded conversations over all initial sequence numbers, of which half make the server mute.", "anchors": ["src/socket.rs: connect, accept, handle_packet, send_to, send_packet, recv_from, flush, handle_state_packet"]}
{"id": "C84", "title": "A close that succeeds was answered", "statement": "When close on an open connection reports success, a packet of this connection arrived after the flush that is a FIN or acknowledges the socket's own FIN; acknowledgements of other numbers, packets of other connections and timeouts never make it succeed.", "quantifier": "every state of an open connection and every sequence of arrivals", "why_tests_cant": "Needs every unlucky arrival sequence during close, including foreign and stale packets.", "anchors": ["src/socket.rs: close, flush, recv, handle_packet, handle_receive_timeout"]}
{"id": "C85", "title": "An orderly end closes both sides", "statement": "When nothing is under way and one side closes while the other reads once more, the reader is told that the stream has ended, the close succeeds, both sides are closed, and the reader's own close has nothing to do.", "quantifier": "every pair of connected endpoints at ease, every clock, random numbers, preceding conversation", "why_tests_cant": "Unbounded conversations and all sequence numbers before the close.", "anchors": ["src/socket.rs: close, send_fin, recv_from, recv, handle_packet"]}
{"id": "C86", "title": "Messages of many packets arrive whole over a faithful network", "statement": "Between two connected endpoints with nothing under way, a message that leaves the sender at most 32768 numbers ahead of what was acknowledged is put on the wire completely while the answers come in, waiting for room in the window as needed; the reader's reads return its pieces in order, the sender's flush succeeds and both ends are at ease again; for any number of messages in any directions, from the handshake to the close. If the sender's clock never jumps by 500 ms from one reading to the next, the other end offers at most 1 MiB and no packet carries fewer than 13 bytes, messages of any length do. No packet waits for the answer to itself or a later one.", "quantifier": "every message, clock, random numbers, list of messages, buffers of at least 1380 bytes", "why_tests_cant": "Unbounded conversations, windows and interleavings with every clock behaviour, all sequence numbers including the wrap.", "anchors": ["src/socket.rs: send_to, send, send_packet, recv_from, recv, handle_packet, handle_state_packet, advance_send_window, flush"]}
{"id": "C87", "title": "Stop-and-wait survives loss", "statement": "Between two connected endpoints with nothing under way, of which one speaks and the other reads, every message of one packet is returned whole, once and in order, by one read, and the speaker's flush succeeds, whichever transmissions of it but the last and whichever answers but the last are lost, as long as the losses per message stay below the speaker's max_retries; the reader's own timer may expire meanwhile.", "quantifier": "every clock, random numbers, list of messages, pattern of losses, kinds of timeouts, timeouts at the reader (within its max_retries per packet)", "why_tests_cant": "All loss patterns over unbounded conversations and all sequence numbers, with both ends' timers.", "anchors": ["src/socket.rs: send_to, flush, recv_from, recv, handle_receive_timeout, handle_packet, handle_data_packet, handle_state_packet, advance_send_window"]}
{"id": "C88", "title": "A burst survives the loss of packets or acknowledgements", "statement": "When several messages of one packet are sent without waiting, and some of the packets or acknowledgements are lost, the messages are read whole, once and in order after retransmission, and messages sent afterwards are read too.", "quantifier": "every pair of connected endpoints at ease, clock, random numbers, list of bursts, pattern of losses, kinds of timeouts", "why_tests_cant": "All loss patterns over unbounded conversations and all sequence numbers; the damage appears only after the flush has succeeded.", "anchors": ["src/socket.rs: send_to, flush, recv_from, recv, handle_receive_timeout, handle_data_packet, insert_into_buffer, advance_incoming_buffer, handle_state_packet, advance_send_window"]}
{"id": "C89", "title": "The opening and the end of a connection survive loss", "statement": "A connect succeeds and a close succeeds, both ends being connected resp. closed and the reader being told of the end, whichever SYNs, FINs and answers to them are lost, as long as the losses stay below the number of attempts the sender is ready to make and the last attempt and its answer get through.", "quantifier": "every client and listener, clock, random numbers, pattern of losses, kinds of timeouts, preceding conversation with losses", "why_tests_cant": "All loss patterns on unbounded conversations; on a loopback network nothing is lost.", "anchors": ["src/socket.rs: connect, close, send_fin, recv, handle_receive_timeout, handle_packet, UtpListener::accept"]}
{"id": "C90", "title": "A client has one connection at the server", "statement": "A connect that succeeds, however many SYNs it took, is accepted as one connection, and closing any other connection at the server does not end it.", "quantifier": "every client and listener, clock, random numbers, pattern of timeouts", "why_tests_cant": "Needs repeated SYNs that arrive after all; on a loopback network nothing is delayed.", "anchors": ["src/socket.rs: connect, UtpListener::accept, handle_packet"]}
{"id": "C91", "title": "One datagram does not provoke many", "statement": "Each datagram that arrives provokes at most one datagram in reply and at most one retransmission of each packet in flight; each timeout at most three datagrams.", "quantifier": "every state, every arrival (also hostile), every sequence of calls", "why_tests_cant": "Hostile packets with many extensions; all states and call sequences.", "anchors": ["src/socket.rs: recv, handle_packet, handle_state_packet, resend_lost_packet, handle_receive_timeout, send_fast_resend_request, close"]}
{"id": "C92", "title": "A closed socket is silent", "statement": "On a closed socket no call sends anything, waits for anything or changes the state from Closed.", "quantifier": "every closed state, every call, every network", "why_tests_cant": "States after giving up on a peer with data unacknowledged are not visited.", "anchors": ["src/socket.rs: recv_from, send_to, flush, close, peer_addr"]}
{"id": "C93", "title": "A reader buffers no more than it advertises", "statement": "The data in the reorder buffer never exceeds the receive window that the replies advertise.", "quantifier": "every reachable state, every arrival (also hostile)", "why_tests_cant": "Needs a peer that disregards the window.", "anchors": ["src/socket.rs: recv, insert_into_buffer, WINDOW_SIZE"]}
{"id": "C94", "title": "Cancelling a read loses nothing", "statement": "A read whose future is dropped at one of its waits loses no data: what it took off the network is delivered by a later read.", "quantifier": "every state at ease with its buffers, every packet, cancellation while waiting for a datagram and while sending an acknowledgement", "why_tests_cant": "Needs the future to be dropped at a chosen await point.", "anchors": ["src/socket.rs: recv_from, recv, flush_incoming_buffer"]}
{"id": "C95", "title": "A stream can be read and written at the same time", "statement": "While a read on a stream waits for data, a write on the same stream makes progress.", "quantifier": "every stream state with a read in progress, every sequence of write polls and arrivals", "why_tests_cant": "Depends on the order of polls and on idle time-outs.", "anchors": ["src/stream.rs: UtpStream, poll_read, poll_write"]}
{"id": "C96", "title": "Delay samples come from the peer's report", "statement": "The one-way delay that the peer reports in timestamp_difference influences the congestion control (BEP 29, RFC 6817).", "quantifier": "every state, every non-data packet, every reported delay", "why_tests_cant": "A test sees the window change, not what caused it.", "anchors": ["src/socket.rs: handle_state_packet, update_base_delay, update_current_delay"]}
{"id": "C97", "title": "Round-trip samples come from packets sent once", "statement": "The acknowledgement of a packet that was sent again gives no round-trip sample (BEP 29: each time a packet is ACKed that was only sent once).", "quantifier": "every reachable state, every retransmission on a time-out", "why_tests_cant": "Needs exact control of the clock across a retransmission.", "anchors": ["src/socket.rs: handle_receive_timeout, handle_state_packet, update_congestion_timeout"]}
{"id": "C98", "title": "The window is halved at most once per round trip", "statement": "Repeated reports of one loss halve the congestion window once (RFC 6817, section 2.4.1).", "quantifier": "every state with a loss reported twice by selective acks", "why_tests_cant": "Needs duplicated acknowledgements with a grown window.", "anchors": ["src/socket.rs: handle_state_packet"]}
{"id": "C99", "title": "The peer's receive window is respected", "statement": "No data packet is sent that takes the bytes in flight past the window the peer advertises.", "quantifier": "every state, every advertised window", "why_tests_cant": "Needs a peer that advertises a small window or a slow clock.", "anchors": ["src/socket.rs: send_packet"]}
{"id": "C100", "title": "Both ends can close at the same time", "statement": "When both ends of a connection call close at the same time and the network delivers every datagram, both closes succeed and what was sent before is delivered.", "quantifier": "any two ends of a connection, with nothing under way or with a message under way", "why_tests_cant": "Needs both FINs in flight at once together with unacknowledged data.", "anchors": ["src/socket.rs: close", "src/socket.rs: handle_packet"]}
{"id": "C101", "title": "Bytes written to a UtpStream come out of the peer's UtpStream", "statement": "Over a network that delivers, whatever the pattern of polls and arrivals at both ends: poll_write returns the length of the message, poll_read returns its bytes in order, each piece as soon as its packet is there, and poll_flush succeeds.", "quantifier": "any two ends of a connection with nothing under way, any message up to 32768 packets ahead, any schedule of polls and arrivals", "why_tests_cant": "Tests run one schedule of polls.", "anchors": ["src/stream.rs: poll_read", "src/stream.rs: poll_write", "src/stream.rs: poll_flush", "src/socket.rs: recv_from", "src/socket.rs: send_to"]}
{"id": "C102", "title": "The example program utpcat copies its input", "statement": "Over a network that delivers, utpcat run as a client writes its input piece after piece without waiting and closes; utpcat run as a server, on a bound socket, prints exactly these bytes in order and ends. Both programs end without an error, every packet gets one answer, and neither side waits for something the other sends only later.", "quantifier": "any input in any pieces (up to 32768 packets with any clocks; any length with clocks that do not jump 500 ms between two readings and pieces without a packet of fewer than 13 bytes), any random numbers, both build profiles, any read buffer of at least 1380 bytes", "why_tests_cant": "A test runs one input with one pattern of arrivals; whether back-to-back writes can overtake unread acknowledgements depends on sizes and clocks.", "anchors": ["examples/utpcat.rs: main", "src/socket.rs: bind", "src/socket.rs: connect", "src/socket.rs: send_to", "src/socket.rs: recv_from", "src/socket.rs: close"]}
{"id": "C103", "title": "The example program echo-server sends the message back", "statement": "Over a network that delivers, a client that connects to echo-server, sends a message that fits in one packet and reads to the end of the stream gets exactly this message and then the end of the stream; the server's handler ends and both connections are closed. Eight packets are sent, and neither side waits for something the other sends only later.", "quantifier": "any message of 1 to 1380 bytes, any random numbers, any clocks, both build profiles, any read buffer of the client of at least 1380 bytes", "why_tests_cant": "The first sequence number of the server is random; half of its values delay the answer until a timer expires, and one of 65536 loses it.", "anchors": ["examples/echo-server.rs: handle_client", "src/socket.rs: accept", "src/socket.rs: connect", "src/socket.rs: send_to", "src/socket.rs: recv_from", "src/socket.rs: drop"]}
{"id": "C104", "title": "The complete effect of one packet", "statement": "What a received packet does is fixed by a table over the life-cycle state and the packet type: which error or which single answer it yields, with all header fields of the answer, and the value of every field of the socket afterwards. Apart from the delivery of data that has become ready nothing else changes, and packets of another connection change nothing but possibly the acknowledgement number. An acknowledgement on an open connection that calls for no retransmission changes only the sending side and sends nothing.", "quantifier": "every state, packet, sender address, clock and random number", "why_tests_cant": "All states times all packets, and a test looks at few of the 25 fields.", "anchors": ["src/socket.rs: handle_packet", "src/socket.rs: recv", "src/socket.rs: prepare_reply", "src/socket.rs: handle_state_packet"]}
{"id": "C105", "title": "The property that quickcheck samples holds of every byte string; the crate's tests pass on the model", "statement": "For every byte string: if neither the header nor the extension chain is rejected, parsing succeeds and encodes to the same bytes again; if one of them is rejected, parsing fails. The crate's other tests without a random draw, transcribed as programs over the model (unit tests of packet, bit iterator, util and socket, and tests/stream.rs), pass when run on it.", "quantifier": "every byte string of any length", "why_tests_cant": "quickcheck draws a hundred short random strings.", "anchors": ["src/packet.rs: test quicktest", "src/socket.rs: mod test", "tests/stream.rs"]}
{"id": "C106", "title": "The tests that draw a connection id at random pass whatever is drawn", "statement": "test_handle_packet, test_response_to_keepalive_ack, test_response_to_wrong_connection_id and test_unordered_packets succeed for every value rand::random() can return, every clock and all other random numbers.", "quantifier": "all 65536 draws, any clock, both build profiles, any state of the generator", "why_tests_cant": "Each run makes one draw.", "anchors": ["src/socket.rs: test_handle_packet", "src/socket.rs: test_response_to_keepalive_ack", "src/socket.rs: test_response_to_wrong_connection_id", "src/socket.rs: test_unordered_packets"]}
{"id": "C107", "title": "A connection recovers from a write that failed or was given up", "statement": "After a send_to that failed with an I/O error or whose future was dropped, a later successful send_to (of the same or other bytes) reaches the peer.", "quantifier": "every open connection with nothing queued or in flight, every message of one packet, every later history of calls and events, every behaviour of the network", "why_tests_cant": "No test makes a UDP send fail or drops a write; the effect shows only at the peer, later.", "anchors": ["src/socket.rs: send_to", "src/socket.rs: send", "src/socket.rs: send_packet"]}
{"id": "C108", "title": "An acknowledgement counts whichever packet carries it", "statement": "Every uTP packet carries an acknowledgement number (BEP 29). A packet in flight whose number is acknowledged by any packet of the connection, data packets included, is forgotten and not sent again, and flush and close complete.", "quantifier": "every state with packets in flight, every history of calls and events", "why_tests_cant": "The crate's own peer acknowledges with State packets only; other implementations piggyback acknowledgements on data.", "anchors": ["src/socket.rs: handle_packet", "src/socket.rs: handle_data_packet", "src/socket.rs: handle_state_packet", "src/socket.rs: flush"]}
{"id": "C109", "title": "Every packet acknowledges what was received by then", "statement": "The acknowledgement number of every packet that is sent, first transmission or retransmission, is the number of the last packet received in order at the moment of sending (BEP 29: ack_nr is the last packet the sender of this packet received).", "quantifier": "every reachable state with packets in flight", "why_tests_cant": "Needs traffic in both directions, a loss, and a look at the header of the retransmission; a peer with spare acknowledgements from State packets does not notice.", "anchors": ["src/socket.rs: send_to (ack_nr set when the packet is queued)", "src/socket.rs: send_packet", "src/socket.rs: handle_receive_timeout", "src/socket.rs: resend_lost_packet"]}
{"id": "C110", "title": "The filtered delay lies between the samples", "statement": "The moving average of the delay samples (filtered_current_delay: binary64 arithmetic, then truncation) is never below the smallest and never above the largest sample.", "quantifier": "every non-empty list of delays from 0 to 2^32-1 microseconds; every reachable state whose 32-bit clock has not run backwards", "why_tests_cant": "Rounding errors of a long chain of float operations depend on all samples; a test sees a few lists.", "anchors": ["src/util.rs: ewma", "src/socket.rs: filtered_current_delay", "src/socket.rs: update_current_delay"]}
{"id": "C111", "title": "The queuing delay is never negative", "statement": "As long as the 32-bit clock has not run backwards, the filtered current delay is at least the smallest base delay, their difference fits 32 bits (so `as u32` in the window computation is exact), every sample kept is at least some base delay, and the smoothed round-trip time stays between 0 and 2^32/1000 ms.", "quantifier": "every reachable state whose clock readings so far, reduced to 32 bits, do not run backwards", "why_tests_cant": "Base delays roll over after a minute and are dropped after ten, samples are dropped after a multiple of the round-trip time, and the average is rounded; the three windows must fit in every history.", "anchors": ["src/socket.rs: update_base_delay", "src/socket.rs: update_current_delay", "src/socket.rs: queuing_delay", "src/socket.rs: handle_state_packet", "src/util.rs: ewma"]}
{"id": "C112", "title": "One acknowledgement does not raise the round-trip estimate beyond the delay it measured", "statement": "After an acknowledgement the smoothed round-trip time is at most the larger of its old value and the time since the acknowledged packet was sent.", "quantifier": "every reachable state whose 32-bit clock has not run backwards, every packet in flight", "why_tests_cant": "Needs two acknowledgements within a tenth of the round-trip time whose packets were sent at different times; on the loopback interface delays are equal.", "anchors": ["src/socket.rs: handle_state_packet (our_delay - queuing_delay as u32)", "src/socket.rs: update_congestion_timeout", "src/time.rs: From<Delay> for u32", "src/socket.rs: filtered_current_delay"]}
{"id": "C113", "title": "The timer recovers once the peer is heard again", "statement": "Doubling the timeout is undone when packets of the peer arrive again: after a read that returned data the timeout is at most 60 seconds.", "quantifier": "every reachable state with nothing in flight, every read and network script", "why_tests_cant": "The effect is a wait that is too long, after many pauses of the peer; every call succeeds.", "anchors": ["src/socket.rs: handle_receive_timeout (congestion_timeout *= 2)", "src/socket.rs: update_congestion_timeout", "src/socket.rs: recv"]}
{"id": "C114", "title": "Acknowledgements heard while idle do not disable fast retransmission", "statement": "A loss reported by three duplicate acknowledgements that arrive after the packet was sent is answered by a retransmission, whatever acknowledgements arrived while nothing was in flight.", "quantifier": "every state, every list of plain acknowledgements", "why_tests_cant": "It takes an idle connection whose peer asks for data (three equal acknowledgements per timeout) before a packet is lost; the transfer still finishes, after a full timeout.", "anchors": ["src/socket.rs: handle_state_packet (duplicate_ack_count == 3)", "src/socket.rs: send_fast_resend_request"]}
{"id": "C115", "title": "The peer's FIN does not end what the socket itself has sent", "statement": "A FIN ends only the peer's half of the connection: packets in flight when it arrives can still be acknowledged, and the flush or close that waits for them succeeds when they are.", "quantifier": "every closed state with packets in flight, every network script", "why_tests_cant": "It needs the peer's FIN between a packet and its acknowledgement; on loopback the acknowledgement is always first.", "anchors": ["src/socket.rs: handle_packet, (Connected, Fin) and (state, _)", "src/socket.rs: flush", "src/socket.rs: close"]}
{"id": "C116", "title": "Only datagrams from the peer's address count", "statement": "A datagram that comes from another address than the peer's does not deliver data, close the connection or reset it.", "quantifier": "every state of an open connection, every packet, every two source addresses", "why_tests_cant": "Tests use two sockets that only hear each other; a third address is never tried.", "anchors": ["src/socket.rs: handle_packet", "src/socket.rs: recv"]}
{"id": "C117", "title": "The nesting of receives is bounded", "statement": "However many datagrams are waiting, one receive nests only to a bounded depth: the stack (heap, for boxed futures) it needs does not grow with the number of packets the peer sends.", "quantifier": "every state with a full window, every number of datagrams waiting, every content of them", "why_tests_cant": "The recursion is entered only with a full window and selective acknowledgements arriving together; loopback tests produce at most a few of these and never measure the depth.", "anchors": ["src/socket.rs: recv", "src/socket.rs: handle_state_packet", "src/socket.rs: resend_lost_packet", "src/socket.rs: send_packet"]}
{"id": "C118", "title": "Writing without an open connection is refused", "statement": "send_to on a socket that is not connected - only bound, still connecting, or reset by the peer - fails and sends nothing.", "quantifier": "every state without an open connection, every data", "why_tests_cant": "Tests write only to connected or closed sockets; a write that reports success is not noticed to be lost.", "anchors": ["src/socket.rs: send_to", "src/socket.rs: bind"]}
{"id": "C119", "title": "Unrelated datagrams do not hold up retransmission or giving up", "statement": "While data is unacknowledged, datagrams that are no packets neither delay the retransmission of the oldest packet nor keep a flush from giving up a peer that is gone.", "quantifier": "every state with data in flight, every number of such datagrams, every clock", "why_tests_cant": "No test sends junk to a socket that waits for acknowledgements, least of all steadily.", "anchors": ["src/socket.rs: recv", "src/socket.rs: flush", "src/socket.rs: handle_receive_timeout"]}
