(** C84: a close that succeeds was answered.  C85: an orderly end leaves both sides closed. *)
From Verif Require Import CloseProofs SpecTransfer TransferProofs Samples PropTransfer.
Require Import Lia.
Local Open Scope Z_scope.

(** When [close] of an open connection reports success, its flush had succeeded, and afterwards the last datagram read was a packet of this connection that is either
    a FIN or a State acknowledging the number of the socket's FIN.  ([t] is the state after the flush, whose [s_seq_nr] numbers the FIN: C51.) *)
Theorem C84_close_answered : forall s s', s_state (sk s) <> New -> s_state (sk s) <> SynSent -> s_state (sk s) <> Closed -> close s = (Ret tt, s') ->
  exists t read d src p, flush s = (Ret tt, t) /\ w_in (wd t) = read ++ RxDgram d src :: w_in (wd s') /\ packet_try_from (firstn 1520 d) = Some (Ok p) /\
    (connection_id p = s_sender_connection_id (sk t) \/ connection_id p = s_receiver_connection_id (sk t)) /\
    (get_type p = Some PFin \/ (get_type p = Some PState /\ ack_nr p = s_seq_nr (sk t))).
Proof.
  intros s s' H1 H2 H3 H4. destruct (close_ends s s' H1 H2 H3 H4) as (t & pre & d & src & p & A & B & C & D & E). exists t, pre, d, src, p. repeat split; try assumption.
Qed.
Print Assumptions C84_close_answered.

(** Acknowledgements of anything else, packets of other connections and timeouts do not end it: with only those the close does not succeed. *)
Theorem C84_unanswered : forall s t, s_state (sk s) <> New -> s_state (sk s) <> SynSent -> s_state (sk s) <> Closed -> flush s = (Ret tt, t) ->
  (forall d src p, In (RxDgram d src) (w_in (wd t)) -> packet_try_from (firstn 1520 d) = Some (Ok p) ->
     (connection_id p = s_sender_connection_id (sk t) \/ connection_id p = s_receiver_connection_id (sk t)) ->
     get_type p <> Some PFin /\ (get_type p = Some PState -> ack_nr p <> s_seq_nr (sk t))) ->
  fst (close s) <> Ret tt.
Proof.
  intros s t H1 H2 H3 HF HN HC. destruct (close s) as [o s'] eqn:E. cbn [fst] in HC. subst o.
  destruct (close_ends s s' H1 H2 H3 E) as (t' & pre & d & src & p & A & B & C & D & F). rewrite HF in A. injection A as <-.
  destruct (HN d src p) as [N1 N2]; [rewrite B; apply in_elt|exact C|exact D|]. destruct F as [F|[F1 F2]]; [exact (N1 F)|exact (N2 F1 F2)].
Qed.
Print Assumptions C84_unanswered.

(** Two sides of a connection with nothing under way ([joined], reached by the handshake and kept by every conversation: C83): when one closes and the other reads once
    more, the reader is told that the stream has ended, the close succeeds, and both are closed; the reader's own close does nothing. *)
Theorem C85_orderly_end : forall ax ay n x y, joined ax ay x y -> s_ack_nr (sk y) = (s_seq_nr (sk x) - 1) mod 65536 \/ s_ack_nr (sk y) = s_seq_nr (sk x) ->
  exists x' y', farewell ax ay n x y x' y'.
Proof. exact farewell_runs. Qed.
Print Assumptions C85_orderly_end.

(** From nothing to the end: handshake, messages, close by the client. *)
Theorem C85_whole_connection : forall ac al asv c0 s0 ms n, untouched c0 -> untouched s0 -> Forall one_packet ms ->
  (0 < server_number s0 <= 32768 \/ Forall (fun m => fst (fst m) = true) ms) ->
  exists c1 s1 c2 s2 c3 s3, handshake ac al asv c0 s0 c1 s1 /\ talk ac asv ms c1 s1 c2 s2 /\ farewell ac asv n c2 s2 c3 s3.
Proof.
  intros ac al asv c0 s0 ms n HC HS HM HB. destruct (C83_handshake ac al asv c0 s0 HC HS) as (c & s & H1 & H2 & H3 & _ & H5).
  destruct (C83_continues ac asv c s ms H2 H3 HM) as (c' & s' & T & J & L); [destruct HB as [HB|HB]; [left; exact (H5 HB)|right; exact HB]|].
  destruct (C85_orderly_end ac asv n c' s' J (proj1 L)) as (c2 & s2 & F). exists c, s, c', s', c2, s2. auto.
Qed.
Print Assumptions C85_whole_connection.
(** Or by the server right after the handshake, whatever its first number. *)
Theorem C85_server_closes : forall ac al asv c0 s0 n, untouched c0 -> untouched s0 ->
  exists c1 s1 c2 s2, handshake ac al asv c0 s0 c1 s1 /\ farewell asv ac n s1 c1 s2 c2.
Proof. exact server_farewell. Qed.
Print Assumptions C85_server_closes.

(** ** Examples *)
Notation c84_start := (snd (run_ops [OSendTo [x41]] (accepted true 500 10 [rx_pkt (dgram PState 101 11 500 []); rx_pkt (dgram PState 101 11 500 []); timeout; rx_pkt (dgram PState 77 11 501 []); rx_pkt (dgram PState 101 11 501 [])]))).
Example C84_example : s_state (sk c84_start) = Connected /\ fst (close c84_start) = Ret tt /\ s_seq_nr (sk c84_start) = 501 /\ w_in (wd (snd (close c84_start))) = [].
Proof. repeat split; vm_compute; reflexivity. Qed.
(** Another number, another id: not an end. *)
Notation c84_never := (snd (run_ops [OSendTo [x41]] (accepted true 500 10 [rx_pkt (dgram PState 101 11 500 []); rx_pkt (dgram PState 101 11 500 []); timeout; rx_pkt (dgram PState 77 11 501 []); rx_pkt (dgram PFin 77 11 501 [])]))).
Example C84_unanswered_example : s_state (sk c84_never) = Connected /\ fst (flush c84_never) = Ret tt /\ length (w_in (wd (snd (flush c84_never)))) = 4%nat /\ fst (close c84_never) = Fail Pend.
Proof. repeat split; vm_compute; reflexivity. Qed.
Example C85_example :
  let (c, s) := meet 500 in let (o, cs) := step local peer [x41; x42] 10 c s in let (c1, s1) := cs in
  let s2 := snd (run_op (ORecvFrom 10) (arrive local [fin_of c1] s1)) in
  let c2 := snd (run_op OClose (arrive peer (carried s1 s2) c1)) in
  (fst (run_op (ORecvFrom 10) (arrive local [fin_of c1] s1)), fst (run_op OClose (arrive peer (carried s1 s2) c1)), s_state (sk c2), s_state (sk s2), length (carried c1 c2)) =
    (Ret (VData [] local), Ret VUnit, Closed, Closed, 1%nat).
Proof. vm_compute. reflexivity. Qed.
