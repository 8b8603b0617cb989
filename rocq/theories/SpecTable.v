(** The complete effect of one received packet, written as a table (C104).  Nothing here refers to the functions of the model
    that process packets. *)
From Verif Require Export State Packet.
Require Export ZArith.
Local Open Scope Z_scope.

(** How a packet is disposed of: no answer, an answer of the given type, or an error returned to the caller. *)
Inductive verdict := Quiet | Answer (t : ptype) | Refuse (k : kind).

(** Packets are told apart by their connection id, but for a SYN, and while the answer to one's own SYN is awaited. *)
Definition foreign (k : socket) (ty : ptype) (p : packet) : bool :=
  match ty, s_state k with
  | PSyn, _ | _, SynSent => false
  | _, _ => negb ((connection_id p =? s_sender_connection_id k) || (connection_id p =? s_receiver_connection_id k))
  end.

(** [t0], [t1]: the clock when the packet is looked at, and at the next reading of it; [rnd]: a random number; [src]: where the packet came from. *)
Definition table (src : addr) (p : packet) (ty : ptype) (t0 t1 rnd : Z) (k : socket) : verdict * socket :=
  let acked := ss_ack_nr (if (seq_nr p - s_ack_nr k) mod 65536 =? 1 then seq_nr p else s_ack_nr k) k in
  let seen := ss_remote_wnd_size (wnd_size p) (ss_their_delay (Z.abs (t0 - timestamp p)) acked) in
  if foreign k ty p then (Answer PReset, acked)
  else match s_state k, ty with
  | New, PSyn =>
    (Answer PState,
     ss_connected_to src (ss_sender_connection_id (connection_id p) (ss_receiver_connection_id ((connection_id p + 1) mod 65536)
       (ss_seq_nr (rnd mod 65536) (ss_ack_nr (seq_nr p) (ss_last_dropped (seq_nr p) (ss_state Connected seen)))))))
  | SynSent, PState =>
    (Quiet,
     ss_connected_to src (ss_seq_nr ((s_seq_nr k + 1) mod 65536) (ss_ack_nr (seq_nr p)
       (ss_last_acked (ack_nr p) (ss_last_acked_timestamp t1 (ss_state Connected seen))))))
  | _, PSyn => (Answer PReset, seen)
  | SynSent, _ => (Refuse KConnectionRefused, seen)
  | _, PReset => (Refuse KConnectionReset, ss_state ResetReceived seen)
  | Connected, PData => (Answer PState, seen)
  | FinSent, PData => (Answer PFin, seen)
  | (Connected | FinSent), PFin => (Answer PState, ss_state Closed seen)
  | Closed, PFin => (Answer PState, seen)
  | FinSent, PState => (Quiet, if ack_nr p =? s_seq_nr k then ss_state Closed seen else seen)
  | Connected, PState => (Quiet, seen) (* the acknowledgement is processed too: C33-C47, C65, C81 *)
  | _, _ => (Refuse KOther, seen)
  end.

(** The header of an answer. *)
Definition answers (t : ptype) (p : packet) (now : Z) (k : socket) (r : packet) : Prop :=
  get_type r = Some t /\ connection_id r = s_sender_connection_id k /\ timestamp r = now /\ timestamp_difference r = Z.abs (now - timestamp p) /\
  seq_nr r = s_seq_nr k /\ ack_nr r = s_ack_nr k.

(** Only what concerns the delivery of data differs. *)
Definition delivers_only (k k' : socket) : Prop := exists buf pend a d, k' = ss_incoming_buffer buf (ss_pending_data pend (ss_ack_nr a (ss_last_dropped d k))).
(** What of the socket does not concern the sending of data. *)
Definition others (k : socket) := (s_connected_to k, s_sender_connection_id k, s_receiver_connection_id k, s_seq_nr k, s_ack_nr k, s_state k, s_incoming_buffer k, s_unsent_queue k,
  s_last_dropped k, s_pending_data k, s_remote_wnd_size k, s_their_delay k, s_max_retries k).
(** An acknowledgement without selective acknowledgements, not the third one with the same number. *)
Definition simple_ack (p : packet) (k : socket) : Prop :=
  (forall exts, extensions p = Some exts -> existsb (fun e => is_sack (ext_ty e)) exts = false) /\
  (s_send_window k = [] \/ (if ack_nr p =? s_last_acked k then s_duplicate_ack_count k + 1 else 1) <> 3).
