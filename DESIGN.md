# Formal model of async-std-utp in Rocq (Coq 8.16.1)

## 1. Shape of the model

All code is modelled as total, computable Gallina functions.  Nothing in the model is an axiom;
the environment (UDP socket, clock, random numbers, scheduler) is an explicit *oracle* carried in the
state, and every theorem quantifies over all oracles.

* **Bytes and integers.** A byte is Coq's 256-element type `Byte.byte`, so every `list byte` is a possible
  datagram and no well-formedness hypothesis on bytes is needed.  Fixed-width integers are `Z`, with the wrap
  (`mod 2^n`) or the overflow panic written explicitly.  A boolean in the world, `w_chk`, says whether the build has
  overflow checks (debug) or not (release); theorems quantify over it unless they say otherwise.
* **Packets** (`packet.rs`): a `Packet` is a `Vec<u8>`; the model's packet is a `list byte`, and every
  accessor, setter, the parser, the extension walker and `set_sack` are modelled at byte level.  Out-of-bounds
  indexing and `assert!` are explicit error values.
* **Floating point**: `Coq.Floats.SpecFloat` (the axiom-free Gallina specification of IEEE-754 binary64).
* **Socket** (`socket.rs`): one record per `UtpSocket`; every `async fn` is a function in the monad
  `M A = st -> outcome A * st`, where `st` = socket fields + world, and an outcome is `Ret a` (Ok), `Throw e`
  (Err), `Panic site`, `Pend` (the future is suspended at an await and is dropped there, or the script of
  network events is exhausted) or `NoFuel`.
* **World**: `w_in`, the finite script of results of `UdpSocket::recv_from` (a datagram with its source, an I/O
  error including timeouts, or "the caller drops the future here"); `w_clock`, `w_rand`, `w_send`: the n-th clock
  reading, random number, and UDP send result (ok / error / dropped while pending); `w_sent`, the log of every
  datagram put on the wire.  Clock readings are arbitrary (the code reads the non-monotonic system clock).
* **Concurrency**: a socket is only used through `&mut self`, so between two await points nothing else touches it;
  the interleavings are exactly the event scripts.  Cancellation is the `Pend` outcome at any await; the state after
  it is the state the next call sees.
* **Recursion**: `recv` → `handle_packet` → `handle_state_packet` → `resend_lost_packet` → `send_packet` → `recv`
  is modelled by open recursion and a fuel argument; each `recv` consumes an event, and it is *proved* that fuel
  greater than the script length is never exhausted (C57), so theorems are about the un-fuelled behaviour.
* **Stream adapter** (`stream.rs`) and **Incoming**: state machines over the stored futures and the socket's lock,
  running the model's socket operations.  A suspended operation holds the write lock, so nobody sees the socket's
  intermediate state: it is kept as its start state plus all events since, and each poll replays it (C58 says that
  batching of events does not matter).  Polls are atomic; schedules of polls of all slots are arbitrary.

## 2. Files (rocq/theories, in build order)

* Model: `Base` bytes/ints; `Packet` packet.rs + bit_iterator.rs; `Util` util.rs, time.rs, error.rs; `Float` binary64;
  `State` record, world, monad; `Socket` socket.rs; `Stream` stream.rs and `Incoming`; `Listener` accept with its destructors.
* Specifications used in statements: `SpecWire` (the wire grammar); `SpecStream` (a peer's stream on the wire and what a
  network may make of it); `SpecTransfer` (handshake and conversation of two endpoints), `SpecLossy` (the same with losses), `SpecBurst` (several messages under way, with losses), `SpecTraffic`, `SpecCancel`, `SpecCross` (simultaneous close), `SpecPipe` (streams at both ends), `SpecCat` (the example program utpcat), `SpecEcho` (the example program echo-server), `SpecTable` (one packet as a table); `Steps`, `Ops` (what one step of a socket may do,
  which states are `reachable`); the small definitions at the head of each `*Proofs.v` file.
* Proofs: `BaseProofs`, `PacketProofs`, `PacketProofs2`, `PacketProofs3`, `Hoare` (weakest preconditions), `StepProofs`,
  `Frame`, `Inv` (invariants), `UtilProofs`, `SackProofs`, `BufferProofs`, `CongProofs`, `FloatProofs` (rounding of binary64), `Accuracy` (distance of binary64 results from
  exact rationals), `CwndProofs`, `GrowthProofs` (size of the window step), `RecvProofs`, `SendProofs`,
  `ConnProofs`, `TermProofs`, `PrefixProofs`, `NoPanicProofs`, `StreamRxProofs` (reordering receiver), `StreamOrderProofs` (in-order receiver), `SenderProofs` (what a history puts on the
  wire), `EndProofs` (two endpoints), `AdapterProofs` (stream adapter, incoming),
  `OpenProofs` (active open, noted delay and window), `SelectiveProofs` (selective acks at the sender), `ListenerProofs`,
  `MonoProofs` (acknowledgement number moves forward), `ReplyProofs` (replies, receive errors, ids, failed connects),
  `LostProofs`, `ProvProofs`, `LossProofs` (lost packets, provenance of bytes, data lost in flushes), `EwmaProofs` (bound on the delay average),
  `TransferProofs` (symbolic runs of a handshake and of one message, both endpoints), `CloseProofs`, `BulkProofs` (a message of many packets),
  `LossyProofs` (stop-and-wait with losses), `BurstProofs` (bursts with losses), `PartingProofs` (opening and end with losses), `AckedProofs` (whole acknowledgements; giving up a close), `TrafficProofs` (what is sent per event; closed sockets), `CancelProofs` (reads that are dropped), `DuplexProofs` (reads and writes interleaved), `BepProofs` (rules of BEP 29), `CrossProofs` (simultaneous close), `PipeProofs` (streams at both ends), `FixedProofs` (calls never change the oracles), `CatProofs` (utpcat), `EchoProofs` (echo-server), `TableProofs` (one packet as a table).
* `Samples`: concrete sockets, worlds and datagrams for examples.
* Property theorems, `Print Assumptions` and examples: `PropPacket` (C01–C09), `PropUtil` (C10–C14), `PropBuffer`
  (C15–C17, C07, C56), `PropCong`, `PropWindow` (C45), `PropRecv`, `PropSend`, `PropConn`, `PropTerm`, `PropPanic`, `PropStream`
  (C18–C20), `PropEnd` (C59, C60), `PropAdapter` (C61–C65), `PropMore` (C66–C73), `PropReply` (C74–C79), `PropDelay` (C80–C82), `PropLost` (more on C22–C24, C26, C52), `PropEarly` (more on C26), `PropHoard` (more on C93),
  `PropTransfer` (C83), `PropClose` (C84, C85), `PropBulk` (C86), `PropLossy` (C87), `PropBurst` (C88), `PropParting` (C89, C90), `PropAcked` (more of C11, C36, C81), `PropTraffic` (C91–C93), `PropCancel` (C94), `PropDuplex` (C95), `PropBep` (C96–C99), `PropCross` (C100), `PropPipe` (C101), `PropCat` (C102), `PropEcho` (C103), `PropTable` (C104), `PropSuite` (C105, C106), `PropHole` (C107), `PropPiggy` (C108), `PropStall` (more of C21, C22), `PropGate` (C109), `PropSteady` (C110, C111, and C45 for steady clocks), `PropBackoff` (C112), `PropTimer` (C113), `PropIdle` (C114), `PropHalf` (C115), `PropSource` (C116), `PropNest` (C117), `PropWrite` (C118), `PropNoise` (C119).

## 3. Plan per property

| id | modelled / proved by |
|----|----|
| C01–C03 | parser at byte level vs. an independent grammar (`wire`): both directions by induction on the chain; error classification by cases |
| C04–C06 | setter/getter laws at byte offsets; `set_sack` splice lemma, chain induction |
| C07 | refutation: concrete history whose reply does not parse (bitmap of 256 bytes, length byte truncated); partial: replies with gap below 2017 parse |
| C08–C10 | list induction; C09 refuted by a concrete iterator state |
| C11–C14 | arithmetic; C13 refuted with two instants straddling the wrap |
| C15–C17 | invariant over every API history; insertion and partial read lemmas |
| C18–C20 | invariants over receive scripts (ghost: stream as function from position to chunk) |
| C21–C24, C26 | refuted by concrete scripts through the full model; C21, C22, C24 and C26 also for every state of a kind (`PropStall.v`, `PropRecv.v`, `PropEarly.v`). What holds instead: C18–C20 and `PropLost.v` (provenance of delivered bytes, no acknowledgement of a number that never arrived, end of stream relative to what arrived) |
| C25, C27–C29 | case analysis and induction over reads |
| C30–C37, C42 | functional specifications of the send path, Hoare-style |
| C38–C41 | invariants; C40 refuted |
| C43, C44 | refuted by concrete runs |
| C45 | SpecFloat: bounds on rounding proved here from the definitions; refuted at the floor and for delays of 2^32 µs |
| C46–C53 | functional specification of connection management; C48, C49 (TimedOut), C52 refuted |
| C54, C55 | no-panic invariant through the whole model; C55 refuted |
| C56 | bitmap specification by induction over the buffer |
| C57, C58 | induction on scripts |
| C59, C60 | sender invariant (every data datagram in the log carries its chunk) composed with C18 |
| C61–C65 | stream adapter state machine; C62, C63, C64 refuted, C61 in the error case |
| C66 | symbolic run of connect through the SYN loop |
| C67, C69 | functional specification of send_packet and of the receive step; both refuted for some packets |
| C68 | specification by filters over the packets in flight; induction over bitmap bits |
| C70, C71, C73, C74, C76–C78, C80 | refuted; the cases where they hold are proved |
| C81 | symbolic run of the acknowledgement branch |
| C82 | relative error of each of the six float operations, over Q, from the SpecFloat definitions; floor at the end |
| C83 | invariant `joined` between two endpoints, kept by each exchange; the server half refuted for every first number above 32768 |
| C84 | what can move a socket from `FinSent` to `Closed`: every step of the close loop keeps state, ids and number, or reads a packet that ends the connection |
| C86 | invariant `midway` of a sender with packets in flight whose acknowledgements are under way; one acknowledgement, the wait for room, one packet sent, induction over the queue; the reader per packet as in C83; for any length: a wait for room that does not expire at once takes an acknowledgement, so the number in flight never exceeds a window of smallest packets |
| C87 | invariant `engaged`: speaker at ease, reader idle with copies of the last packet before it; runs of timeouts at both ends by induction; that the flush with the answer sends what the waiting flush had sent is C58 |
| C88 | refuted: invariant `stuck`: an old packet (at most the acknowledged number) at the head of the reader's buffer, the acknowledged number following it in the window, so that each later packet is acknowledged and filed behind it; a lost packet by a witness run; tail losses recovered: invariants `flight` and `gets` |
| C89, C90 | the waiting connect and close with any number of timeouts by induction; composed with `lossy_talk`; refuted by a reader that is closed (`gone`: nothing is sent any more) after the lost answer, and by accepting the other SYNs of the same connect |
| C91–C93 | `thrifty k`: with nothing in flight, sends plus the toll of the events left grow by at most `k`, function by function; closed sockets by cases; witnesses |
| C94 | one read up to the event that cancels it, the next one symbolically; refuted for every reader that is caught up |
| C95 | polls by cases on the lock; the idle read by the run of timeouts |
| C96–C99 | refuted universally: equality of two runs that differ in the report; `C81_sample` after a timeout; `selective_run` twice; the gate of C42 |
| C100 | symbolic runs of `close` meeting a FIN; with a message under way refuted universally |
| C101 | schedules by induction: the socket is the one of C86 plus what has arrived; C58 for events that come later |
| C102 | induction over the pieces with packets of earlier ones in flight; a program after which another runs is ahead of the answers if both are; a SYN only delays a read |
| C103 | one message read and acknowledged (`hand_over`), used once each way; then C85; refuted for first numbers above 32768 and for 0 |
| C104 | `dispatch` evaluated in every case of state and type; frame lemmas for the delivery and for acknowledgements |
| C105, C106 | the crate's tests as programs (`SpecSuite`); the random ones evaluated step by step with the id as a variable, refuted for 0, 1 and (checked builds) 65535; the others run by `vm_compute` |
| C107 | refuted: the failed send evaluated, then C60 (what is sent later carries later numbers) and C23 (a number that does not arrive is not skipped) |
| C108 | refuted: without State packets the window only grows (`window_change` over a history), while flush empties it (C34) |
| C109 | refuted for every packet in flight: retransmission only changes the timestamps (C35, C37) |
| C110 | rounding analysis of the modelled binary64 operations (NearestProofs), time-indexed invariant (DelayProofs) |
| C111 | invariant JK (DelayProofs): each sample is covered by a base delay young enough to outlive it |
| C112 | refuted by a burst of two acknowledgements; bounded when the queuing delay is at most the sample |
| C113 | refuted: exact law for sockets with nothing in flight (TimerProofs) |
| C114 | refuted for every state |
| C115 | refuted for every closed state and every script (HalfProofs) |
| C116 | refuted for every open state and every packet |
| C117 | refuted for every number of datagrams |
| C118 | refuted for every idle socket that is not connected and not closed |
| C119 | refuted for every state with data in flight and every number of junk datagrams |
| C85 | the close and the final read computed symbolically from `joined`; composed with C83 |
| C75, C79 | `reply_due` by cases on state and type; `connect_outcome` |
| C72 | case analysis |

## 4. Trusted base

**Logic.** The Coq 8.16.1 kernel, including its `vm_compute` reduction machine (used by examples and refutations).
`Print Assumptions` after each property theorem reports "Closed under the global context": no axiom, neither of this
development nor of the standard library, is used.

**The reading of the Rust source.** The model is a hand translation; each definition cites the lines it renders and
states its simplifications.  Nothing checks the translation mechanically; as a cross-check the crate's own tests,
translated in the same way, pass on it (C105).

Modelled: all of `packet.rs`, `bit_iterator.rs`, `util.rs` (except its test helpers), `time.rs`, the error enum and its
conversion of `error.rs`; in `socket.rs` every function of `UtpSocket`, `UtpListener::accept` and `Incoming::poll_next`, both build profiles
(overflow checks on and off); in `stream.rs` all methods of `UtpStream`, with atomic polls;
of `examples/utpcat.rs` the use of the stream (`SpecCat`); of `examples/echo-server.rs` the handler of a connection (`SpecEcho`).

Not modelled:
* `UtpListener::bind`, `local_addr` of listener and socket, `From<UtpSocket>`, `Debug`, logging, the `#[cfg(test)]` code;
* address resolution (`ToSocketAddrs`): its result is an argument;
* the operating system's UDP socket: an oracle; a datagram longer than the receive buffer is cut at its size;
* in `stream.rs`: two threads polling the same slot at the same instant (`try_read().unwrap()` on the slot would panic);
  wakers; which of several waiting futures gets the lock (any choice is allowed); dropping a stream with stored futures;
* where Rust inserts drops: `drop_socket` models the destructor's effect when called, `accept_drop` (`Listener`) the
  drop of the new socket on `accept`'s failing ways out; drops by the application and of a socket that `connect`
  gives up on (not open, so without effect: C72) are not placed;
* allocation failure, stack overflow, and the time a computation takes; `async_std` timers (a timeout is an event of the
  script, which may come at any point, so no theorem depends on durations);
* dropping a future is possible at every `await` of a UDP operation (`RxCancel`, `SendDrop`); the code has no other
  suspension points.

**Simplifications that matter.** Sizes (`usize`) are unbounded naturals; the clock and random oracles are arbitrary
functions, so results hold for clocks that jump.
