(** Specification of C83: two connected endpoints that take turns sending messages. *)
From Verif Require Export Ops.
Local Open Scope Z_scope.

(** The network hands the datagrams [ps], sent from address [from], to a socket. *)
Definition arrive (from : addr) (ps : list packet) (s : st) : st := mkSt (sk s) (sw_in (w_in (wd s) ++ map (fun p => RxDgram p from) ps) (wd s)).
(** The datagrams sent between two states, all to address [a]. *)
Definition sent_to (a : addr) (ps : list packet) (s s' : st) : Prop := w_sent (wd s') = w_sent (wd s) ++ map (pair a) ps.

(** One message from [x], at address [ax], to [y], at address [ay].  [x] sends it; what [x] put on the wire reaches [y]; [y] reads once, with a buffer of [n]
    bytes, and gets the message and the address of its sender; what [y] put on the wire reaches [x]; [x] flushes, which succeeds. *)
Definition exchange (ax ay : addr) (d : list byte) (n : nat) (x y x' y' : st) : Prop := exists x1 ps qs,
  run_op (OSendTo d) x = (Ret (VLen (Z.of_nat (length d))), x1) /\ sent_to ay ps x x1 /\
  run_op (ORecvFrom n) (arrive ax ps y) = (Ret (VData d ax), y') /\ sent_to ax qs y y' /\
  run_op OFlush (arrive ay qs x1) = (Ret VUnit, x') /\ s_send_window (sk x') = [].
(** A conversation: each entry tells whether it is [x] that speaks, what it says and the size of the listener's buffer. *)
Inductive talk (ax ay : addr) : list (bool * list byte * nat) -> st -> st -> st -> st -> Prop :=
| talk_nil x y : talk ax ay [] x y x y
| talk_there d n rest x y x1 y1 x2 y2 : exchange ax ay d n x y x1 y1 -> talk ax ay rest x1 y1 x2 y2 -> talk ax ay ((true, d, n) :: rest) x y x2 y2
| talk_back d n rest x y x1 y1 x2 y2 : exchange ay ax d n y x y1 x1 -> talk ax ay rest x1 y1 x2 y2 -> talk ax ay ((false, d, n) :: rest) x y x2 y2.
(** Messages that fit in one packet and in the listener's buffer. *)
Definition one_packet (m : bool * list byte * nat) : Prop := (0 < length (snd (fst m)) <= 1380)%nat /\ (length (snd (fst m)) <= snd m)%nat.

(** Nothing in flight, queued, buffered or on its way; the network takes what is sent. *)
Definition at_ease (s : st) : Prop :=
  reachable s /\ s_state (sk s) = Connected /\ s_pending_data (sk s) = [] /\ s_incoming_buffer (sk s) = [] /\ s_send_window (sk s) = [] /\ s_unsent_queue (sk s) = [] /\
  0 < s_max_retries (sk s) /\ w_in (wd s) = [] /\ forall i, w_send (wd s) i = SendOk.
(** [y] is ready for the next number of [x]: it acknowledged everything before it (or, because an acknowledgement carries the number of the next data packet,
    that number itself) and did not deliver it; [x] knows of an acknowledgement of one of the 32768 numbers before. *)
Definition listens (x y : st) : Prop :=
  (s_ack_nr (sk y) = (s_seq_nr (sk x) - 1) mod 65536 \/ s_ack_nr (sk y) = s_seq_nr (sk x)) /\ s_last_dropped (sk y) <> s_seq_nr (sk x) /\
  1 <= (s_seq_nr (sk x) - s_last_acked (sk x)) mod 65536 <= 32768.
(** [x] and [y] are the two ends of one connection, both at ease. *)
Definition joined (ax ay : addr) (x y : st) : Prop := at_ease x /\ at_ease y /\ s_connected_to (sk x) = ay /\ s_connected_to (sk y) = ax /\
  s_sender_connection_id (sk x) = s_receiver_connection_id (sk y) /\ s_sender_connection_id (sk y) = s_receiver_connection_id (sk x).

(** What happens next at a socket: datagrams from the network and expiries of its timer. *)
Definition script (evs : list rx) (s : st) : st := mkSt (sk s) (sw_in (w_in (wd s) ++ evs) (wd s)).
(** An opening: the client [c0], at address [ac], connects to a listener at [al]; its timer expires as [ks] tells, each time it sends a SYN again.  The last SYN reaches the
    listener, whose new connection starts from [s0] and has an address [asv] of its own; the one datagram this sends is what the client receives.  (What the client
    sent, it sent without that answer.) *)
Definition opening (ac al asv : addr) (ks : list kind) (c0 s0 c s : st) : Prop := exists syns r l la c1,
  connect (Ok (al :: l)) (Ok tt) (script (map RxErr ks) c0) = (Fail Pend, c1) /\ sent_to al syns c0 c1 /\ length syns = S (length ks) /\
  accept (RxDgram (last syns []) ac) (Ok la) (Ok tt) s0 = (Ret ac, s) /\ sent_to ac [r] s0 s /\
  connect (Ok (al :: l)) (Ok tt) (script (map RxErr ks ++ [RxDgram r asv]) c0) = (Ret tt, c) /\ sent_to al syns c0 c.
(** A handshake: an opening with one SYN. *)
Definition handshake (ac al asv : addr) (c0 s0 c s : st) : Prop := opening ac al asv [] c0 s0 c s.
(** Worlds in which nothing happened yet and the network takes what is sent. *)
Definition untouched (s : st) : Prop := w_sent (wd s) = [] /\ w_in (wd s) = [] /\ forall i, w_send (wd s) i = SendOk.

(** An orderly end: [x] closes and waits; what it sent reaches [y], which reads once more and is told that the stream has ended; what [y] sends is what [x] waits for. Both
    are then closed, and [y] has nothing left to do. *)
Definition farewell (ax ay : addr) (n : nat) (x y x' y' : st) : Prop := exists p q x1,
  run_op OClose x = (Fail Pend, x1) /\ sent_to ay [p] x x1 /\
  run_op (ORecvFrom n) (arrive ax [p] y) = (Ret (VData [] ax), y') /\ sent_to ax [q] y y' /\
  run_op OClose (arrive ay [q] x) = (Ret VUnit, x') /\ sent_to ay [p] x x' /\
  s_state (sk x') = Closed /\ s_state (sk y') = Closed /\ run_op OClose y' = (Ret VUnit, y').

(** ** Messages of any length *)
(** The datagrams [ps] reach [y] one by one from address [a]; for each [y] reads once, with a buffer of [n] bytes: the read waits, with nothing changed, until the datagram arrives and then gets the next piece
    of [cs]; each read puts one answer, of [qs], on the wire. *)
Inductive read_each (a : addr) (n : nat) : list packet -> list (list byte) -> list packet -> st -> st -> Prop :=
| each_nil y : read_each a n [] [] [] y y
| each_cons p ps c cs q qs y y1 y2 : run_op (ORecvFrom n) y = (Fail Pend, y) -> run_op (ORecvFrom n) (arrive a [p] y) = (Ret (VData c a), y1) -> sent_to a [q] y y1 -> read_each a n ps cs qs y1 y2 ->
    read_each a n (p :: ps) (c :: cs) (q :: qs) y y2.
(** A message of any number of packets.  [x] sends it while the answers of [y] come in: of [x]'s packets, [y] reads one after the other, the pieces make up the message,
    and the answers are what [x] receives while it sends and flushes.  No packet depends on the answer to a later one: with only the first [i] answers [x] already sends more
    than [i] packets, the first ones of the same packets. *)
Definition delivery (ax ay : addr) (d : list byte) (n : nat) (x y x' y' : st) : Prop := exists x1 ps cs qs,
  run_op (OSendTo d) (arrive ay qs x) = (Ret (VLen (Z.of_nat (length d))), x1) /\ sent_to ay ps x x1 /\
  read_each ax n ps cs qs y y' /\ concat cs = d /\
  (forall i, (i < length ps)%nat -> exists k, (i < k)%nat /\ sent_to ay (firstn k ps) x (snd (run_op (OSendTo d) (arrive ay (firstn i qs) x)))) /\
  run_op OFlush x1 = (Ret VUnit, x') /\ s_send_window (sk x') = [] /\ sent_to ay [] x1 x'.
(** How many numbers [x] is ahead of the last acknowledgement it knows of; how many packets a message takes. *)
Definition lead (x : st) : Z := (s_seq_nr (sk x) - s_last_acked (sk x)) mod 65536.
Definition packets (d : list byte) : Z := (Z.of_nat (length d) + 1379) / 1380.
(** A conversation of such messages. *)
Inductive chat (ax ay : addr) : list (bool * list byte * nat) -> st -> st -> st -> st -> Prop :=
| chat_nil x y : chat ax ay [] x y x y
| chat_there d n rest x y x1 y1 x2 y2 : delivery ax ay d n x y x1 y1 -> chat ax ay rest x1 y1 x2 y2 -> chat ax ay ((true, d, n) :: rest) x y x2 y2
| chat_back d n rest x y x1 y1 x2 y2 : delivery ay ax d n y x y1 x1 -> chat ax ay rest x1 y1 x2 y2 -> chat ax ay ((false, d, n) :: rest) x y x2 y2.
(** Messages for which a speaker that is [l] numbers ahead has room; the listener's buffer holds any packet. *)
Definition has_room (lx ly : Z) (m : bool * list byte * nat) : Prop := let '(b, d, n) := m in (1380 <= n)%nat /\ (if b then lx else ly) + packets d <= 32769.

(** Clocks that advance less than the 500 ms of PRE_SEND_TIMEOUT (socket.rs:41, 656) between one reading and the next: a wait for room in the window takes at least one packet. *)
Definition prompt_clock (w : world) : Prop := forall i : nat, ts_sub (micros_of_clock (w_clock w (S i))) (micros_of_clock (w_clock w i)) < 500000.
(** Such a clock, and the other end never offered a larger window than this implementation does (socket.rs:38). *)
Definition modest (x : st) : Prop := s_remote_wnd_size (sk x) <= 1048576 /\ prompt_clock (wd x).
(** Messages whose last packet is not very short: the window then holds fewer packets than half of the sequence numbers. *)
Definition whole_packets (d : list byte) : Prop := (length d mod 1380 = 0 \/ 13 <= length d mod 1380)%nat.
