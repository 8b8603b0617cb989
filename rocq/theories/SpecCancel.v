(** Specification vocabulary for reads that are given up (C94). *)
From Verif Require Export SpecTransfer.
Local Open Scope Z_scope.

(** [p] is the data packet with number [sq] and payload [d] on the connection that the peer addresses as [cid], whatever its timestamps and acknowledgement number. *)
Definition piece_no (cid sq : Z) (d : list byte) (p : packet) : Prop := exists ts tsd ak, p = wire (mkHdr PData cid ts tsd 0 sq ak) [] d.
(** [p] acknowledges everything up to [sq]. *)
Definition acknowledges (sq : Z) (p : packet) : Prop := exists cid ts tsd wnd n, p = wire (mkHdr PState cid ts tsd wnd n sq) [] [].

(** A reader that has handed out everything it was sent, up to number [a], and has nothing of its own under way. *)
Definition caught_up (a : Z) (k : socket) : Prop :=
  s_state k = Connected /\ s_pending_data k = [] /\ s_incoming_buffer k = [] /\ s_send_window k = [] /\ s_unsent_queue k = [] /\ 0 < s_max_retries k /\
  s_ack_nr k = a /\ s_last_dropped k = a /\ 0 <= a < 65536 /\ 0 <= s_receiver_connection_id k < 65536.
(** The first packet in store, if there is one, is not the next one to hand out. *)
Definition nothing_ready (k : socket) : Prop :=
  s_pending_data k = [] /\ match s_incoming_buffer k with [] => True | p :: _ => 0 <= s_ack_nr k < 65535 /\ seq_nr p <> s_ack_nr k /\ seq_nr p <> s_ack_nr k + 1 end.
