(** What a peer's byte stream looks like on the wire, and what a network may make of it.  Independent of the
    receiving socket's code: only packets (Packet.v), events and call results (State.v, Socket.v) are used. *)
From Verif Require Export Socket.
Local Open Scope Z_scope.

Section Stream.
  (** [a] is the sequence number before the first data packet; [chunks] are the payloads in order. *)
  Variables (a : Z) (chunks : list (list byte)).

  (** [p] is the data packet at position [j] (counted from 0) of the stream. *)
  Definition carries (p : packet) (j : nat) : Prop :=
    get_type p = Some PData /\ seq_nr p = (a + 1 + Z.of_nat j) mod 65536 /\
    exists c, nth_error chunks j = Some c /\ payload p = Some c.
  (** [p] is the FIN after the last data packet. *)
  Definition ends (p : packet) : Prop :=
    get_type p = Some PFin /\ seq_nr p = (a + 1 + Z.of_nat (length chunks)) mod 65536.
  (** [p] is a repetition of the SYN that opened the connection. *)
  Definition opens (p : packet) : Prop := get_type p = Some PSyn /\ seq_nr p = a mod 65536.
  (** Connection id [i1] or [i2]. *)
  Definition addressed (i1 i2 : Z) (p : packet) : Prop := connection_id p = i1 \/ connection_id p = i2.

  (** The packet a receive event delivers: the buffer of [recv] has 1520 bytes. *)
  Definition delivers (e : rx) (p : packet) : Prop :=
    exists d src, e = RxDgram d src /\ packet_try_from (firstn 1520 d) = Some (Ok p).
  (** A network that may lose, duplicate, delay and reorder the packets of the stream and turn them into
      undecodable datagrams, with any receive errors, timeouts and cancellations in between. *)
  Definition from_stream (i1 i2 : Z) (e : rx) : Prop :=
    forall p, delivers e p -> addressed i1 i2 p /\ ((exists j, carries p j) \/ ends p \/ opens p).
  Definition brings (e : rx) (j : nat) : Prop := exists p, delivers e p /\ carries p j.
  Definition arrived (es : list rx) (j : nat) : Prop := exists e, In e es /\ brings e j.
  (** Some position occurs in two different events. *)
  Definition duplicated (es : list rx) : Prop :=
    exists l1 e1 l2 e2 l3 j, es = l1 ++ e1 :: l2 ++ e2 :: l3 /\ brings e1 j /\ brings e2 j.
End Stream.

(** All bytes the calls of a history returned. *)
Definition bytes_of (o : outcome value) : list byte := match o with Ret (VData d _) => d | _ => [] end.
Definition bytes_read (rs : list (outcome value)) : list byte := concat (map bytes_of rs).
Definition all_sends_succeed (s : st) : Prop := forall i, w_send (wd s) i = SendOk.
(** A connection as [accept] leaves it, before any data: the SYN carried number [a]. *)
Definition reader_at (a : Z) (s : st) : Prop :=
  s_state (sk s) = Connected /\ s_ack_nr (sk s) = a /\ s_last_dropped (sk s) = a /\
  s_incoming_buffer (sk s) = [] /\ s_pending_data (sk s) = [] /\ s_send_window (sk s) = [].
(** A connection as [connect] leaves it: the State reply carried number [r], and the peer's first data packet
    carries [r] again. *)
Definition client_at (r : Z) (s : st) : Prop :=
  s_state (sk s) = Connected /\ s_ack_nr (sk s) = r /\ s_last_dropped (sk s) = 0 /\
  s_incoming_buffer (sk s) = [] /\ s_pending_data (sk s) = [] /\ s_send_window (sk s) = [].
(** The stream reaches the application in order: what has been read is a prefix. *)
Definition prefix_of (l m : list byte) : Prop := exists rest, m = l ++ rest.

(** Decision procedure for concrete events, used by examples only. *)
Definition bytes_eqb (l m : list byte) : bool := if list_eq_dec Byte.byte_eq_dec l m then true else false.
Definition eventb (a : Z) (chunks : list (list byte)) (i1 i2 : Z) (e : rx) : bool :=
  match e with
  | RxDgram d _ =>
    match packet_try_from (firstn 1520 d) with
    | Some (Ok p) =>
      ((connection_id p =? i1) || (connection_id p =? i2)) &&
      match get_type p with
      | Some PData =>
        let j := Z.to_nat ((seq_nr p - a - 1) mod 65536) in
        (seq_nr p =? (a + 1 + Z.of_nat j) mod 65536) &&
        match nth_error chunks j, payload p with Some c, Some pl => bytes_eqb c pl | _, _ => false end
      | Some PFin => seq_nr p =? (a + 1 + Z.of_nat (length chunks)) mod 65536
      | Some PSyn => seq_nr p =? a mod 65536
      | _ => false
      end
    | _ => true
    end
  | _ => true
  end.
Definition bringsb (a : Z) (chunks : list (list byte)) (e : rx) : option nat :=
  match e with
  | RxDgram d _ =>
    match packet_try_from (firstn 1520 d) with
    | Some (Ok p) => match get_type p with Some PData => Some (Z.to_nat ((seq_nr p - a - 1) mod 65536)) | _ => None end
    | _ => None
    end
  | _ => None
  end.
