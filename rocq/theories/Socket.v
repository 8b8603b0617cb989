(** Model of src/socket.rs, function by function.
    [debug!] lines are not modelled (their arguments have no effect on the socket; with logging enabled
    a few of them read the clock).  [Instant]/[elapsed] (381, 420-422) feed only [debug!].
    Timeout durations (267, 291, 393-398) are not modelled: a timeout is an event that may come whenever a
    receive is awaited. *)
From Verif Require Export State.
Local Open Scope Z_scope.

(** socket.rs:25-44 constants *)
Definition BUF_SIZE : nat := 1500.
Definition TARGET : Z := 100000.
Definition MSS : Z := 1400.
Definition MIN_CWND : Z := 2.
Definition INIT_CWND : Z := 2.
Definition ALLOWED_INCREASE : Z := 1.
Definition INITIAL_CONGESTION_TIMEOUT : Z := 1000.
Definition MIN_CONGESTION_TIMEOUT : Z := 500.
Definition MAX_CONGESTION_TIMEOUT : Z := 60000.
Definition BASE_HISTORY : nat := 10.
Definition MAX_SYN_RETRIES : nat := 5.
Definition MAX_RETRANSMISSION_RETRIES : Z := 5.
Definition WINDOW_SIZE : Z := 1048576.
Definition PRE_SEND_TIMEOUT : Z := 500000.
Definition MAX_BASE_DELAY_AGE : Z := 60000000.

Definition is_nil {A} (l : list A) : bool := match l with [] => true | _ => false end.

(** [Packet::get_type], which panics on an invalid type nibble (packet.rs:145-147) *)
Definition m_get_type (p : packet) : M ptype := unwrap 146 (get_type p).

(** ** Construction *)

(** socket.rs:185-216 [from_raw_parts]; [ids] are the two generated identifiers *)
Definition fresh_socket (ids : Z * Z) (src : addr) : socket :=
  {| s_connected_to := src;
     s_receiver_connection_id := fst ids;
     s_sender_connection_id := snd ids;
     s_seq_nr := 1; s_ack_nr := 0; s_state := New;
     s_incoming_buffer := []; s_send_window := []; s_unsent_queue := [];
     s_duplicate_ack_count := 0; s_last_acked := 0; s_last_acked_timestamp := 0; s_last_dropped := 0;
     s_rtt := 0; s_rtt_variance := 0; s_pending_data := []; s_curr_window := 0; s_remote_wnd_size := 0;
     s_base_delays := []; s_current_delays := []; s_their_delay := 0; s_last_rollover := 0;
     s_congestion_timeout := INITIAL_CONGESTION_TIMEOUT; s_cwnd := INIT_CWND * MSS;
     s_max_retries := MAX_RETRANSMISSION_RETRIES |}.
Definition from_raw_parts (src : addr) : M unit :=
  id <- random_u16 ;;
  upd_sk (fun _ => fresh_socket (sequential_identifiers id) src).

(** socket.rs:63-67 [take_address], given the result of resolving the argument *)
Definition take_address (resolved : result (list addr) kind) : M addr :=
  match resolved with
  | Err k => throw k
  | Ok [] => throw_se InvalidAddress
  | Ok (a :: _) => ret a
  end.

(** socket.rs:224-228 [bind]; [bound] is the result of [UdpSocket::bind].  The socket that results is
    the state's socket. *)
Definition bind_socket (resolved : result (list addr) kind) (bound : result unit kind) : M unit :=
  a <- take_address resolved ;;
  try_ bound ;;;
  from_raw_parts a.

(** socket.rs:236-242 [peer_addr] *)
Definition peer_addr : M addr :=
  s <- get_sk ;;
  if sstate_eqb (s_state s) Connected || sstate_eqb (s_state s) FinSent
  then ret (s_connected_to s) else throw_se NotConnected.

(** ** Replies *)

(** socket.rs:515-528 [prepare_reply] *)
Definition prepare_reply (original : packet) (t : ptype) : M packet :=
  s <- get_sk ;;
  self_t <- now_microseconds ;;
  ret (set_ack_nr (s_ack_nr s)
      (set_seq_nr (s_seq_nr s)
      (set_connection_id (s_sender_connection_id s)
      (set_timestamp_difference (abs_diff self_t (timestamp original))
      (set_timestamp self_t
      (set_type t packet_new)))))).

(** socket.rs:765-785 [build_selective_ack] *)
(** 777-779: push zeros while [byte >= sack.len() || sack.len() % 4 != 0] *)
Fixpoint sack_pad (fuel i : nat) (sack : list byte) : option (list byte) :=
  match fuel with
  | O => None
  | S f =>
    if (length sack <=? i)%nat || negb (length sack mod 4 =? 0)%nat
    then sack_pad f i (sack ++ [x00]) else Some sack
  end.
(** 774-782: one stashed packet, [diff] sequence numbers past the first missing one *)
Definition sack_mark (sack : list byte) (diff : Z) : option (list byte) :=
  let i := Z.to_nat (diff / 8) in
  let bit := diff mod 8 in
  match sack_pad (i + 5) i sack with
  | None => None
  | Some sack' =>
    match nth_error sack' i with
    | None => None
    | Some b => Some (list_set i (z2b (Z.lor (b2z b) (Z.shiftl 1 bit))) sack')
    end
  end.
Fixpoint sack_build (ack : Z) (sack : list byte) (buf : list packet) : option (list byte) :=
  match buf with
  | [] => Some sack
  | p :: rest =>
    if u16 (ack + 1) <? seq_nr p (* 769 *)
    then match sack_mark sack (u16 (seq_nr p - ack - 2)) (* 770-771 *) with
         | Some sack' => sack_build ack sack' rest
         | None => None
         end
    else sack_build ack sack rest
  end.
(** 769: [self.ack_nr + 1] is evaluated for every buffered packet and overflows at 65535 *)
Definition build_selective_ack : M (list byte) :=
  s <- get_sk ;;
  (if is_nil (s_incoming_buffer s) then ret 0 else ck_u16 769 (s_ack_nr s + 1)) ;;;
  unwrap 781 (sack_build (s_ack_nr s) [] (s_incoming_buffer s)).

(** Attaching the selective ack (socket.rs:917-930 and 968-981) *)
Definition attach_sack (original reply : packet) : M packet :=
  s <- get_sk ;;
  if 1 <? u16 (seq_nr original - s_ack_nr s) then
    sack <- build_selective_ack ;;
    if is_nil sack then ret reply else unwrap 979 (set_sack sack reply)
  else ret reply.

(** socket.rs:959-984 [handle_data_packet] *)
Definition handle_data_packet (p : packet) : M (option packet) :=
  s <- get_sk ;;
  let packet_type := if sstate_eqb (s_state s) FinSent then PFin else PState in
  reply <- prepare_reply p packet_type ;;
  reply' <- attach_sack p reply ;;
  ret (Some reply').

(** ** Incoming buffer *)

(** socket.rs:1138-1163 [insert_into_buffer] *)
Definition last_opt {A} (l : list A) : option A := nth_error l (length l - 1).
Definition insert_packet (p : packet) (buf : list packet) : list packet :=
  if match last_opt buf with Some q => seq_nr q <? seq_nr p | None => false end
  then buf ++ [p]
  else
    let i := length (filter (fun q => seq_nr q <? seq_nr p) buf) in
    if match nth_error buf i with Some q => negb (seq_nr q =? seq_nr p) | None => true end
    then firstn i buf ++ p :: skipn i buf else buf.
Definition insert_into_buffer (p : packet) : M unit :=
  upd_sk (fun s => ss_incoming_buffer (insert_packet p (s_incoming_buffer s)) s).

(** socket.rs:531-541 [advance_incoming_buffer]; the removed packet it returns is never used *)
Definition advance_socket (s : socket) : socket :=
  match s_incoming_buffer s with
  | [] => s
  | p :: rest => ss_last_dropped (seq_nr p) (ss_ack_nr (seq_nr p) (ss_incoming_buffer rest s))
  end.
Definition advance_incoming_buffer : M unit := upd_sk advance_socket.

(** socket.rs:548-588 [flush_incoming_buffer] into a buffer of [n] bytes; returns the bytes written *)
Definition flush_incoming_buffer (n : nat) : M (list byte) :=
  s <- get_sk ;;
  if negb (is_nil (s_pending_data s)) then
    let flushed := firstn n (s_pending_data s) in
    (if (length flushed =? length (s_pending_data s))%nat
     then upd_sk (ss_pending_data []) ;;; advance_incoming_buffer
     else upd_sk (ss_pending_data (skipn (length flushed) (s_pending_data s)))) ;;;
    ret flushed
  else
    match s_incoming_buffer s with
    | [] => ret []
    | p :: _ =>
      ready <- (if s_ack_nr s =? seq_nr p then ret true
                else next <- ck_u16 574 (s_ack_nr s + 1) ;; ret (next =? seq_nr p)) ;;
      if (ready : bool) then
        pl <- unwrap 576 (payload p) ;;
        let flushed := firstn n pl in
        (if (length flushed =? length pl)%nat
         then advance_incoming_buffer
         else upd_sk (ss_pending_data (skipn (length flushed) pl))) ;;;
        ret flushed
      else ret []
    end.

(** ** Congestion control *)

(** socket.rs:695-714 [update_base_delay] *)
Definition base_delay_socket (base_delay now : Z) (s : socket) : socket :=
    if is_nil (s_base_delays s) || (MAX_BASE_DELAY_AGE <? ts_sub now (s_last_rollover s)) then
      let kept := if (length (s_base_delays s) =? BASE_HISTORY)%nat then skipn 1 (s_base_delays s) else s_base_delays s in
      ss_base_delays (kept ++ [base_delay]) (ss_last_rollover now s)
    else
      let last_idx := (length (s_base_delays s) - 1)%nat in
      if base_delay <? nth last_idx (s_base_delays s) 0
      then ss_base_delays (list_set last_idx base_delay (s_base_delays s)) s else s.
Definition update_base_delay (base_delay now : Z) : M unit := upd_sk (base_delay_socket base_delay now).

(** socket.rs:718-730 [update_current_delay] *)
Fixpoint drop_old (now rtt : Z) (l : list (Z * Z)) : list (Z * Z) :=
  match l with
  | [] => []
  | (t, d) :: rest => if rtt <? ts_sub now t then drop_old now rtt rest else l
  end.
Definition current_delay_socket (v now : Z) (s : socket) : socket :=
  ss_current_delays (drop_old now (s_rtt s * 100) (s_current_delays s) ++ [(now, v)]) s.
Definition update_current_delay (v now : Z) : M unit := upd_sk (current_delay_socket v now).

(** socket.rs:732-747 [update_congestion_timeout]; i32 arithmetic, division truncates *)
Definition update_congestion_timeout (current_delay : Z) : M unit :=
  s <- get_sk ;;
  delta <- ck_i32 733 (s_rtt s - current_delay) ;;
  a <- ck_i32 734 (Z.abs delta) ;;
  b <- ck_i32 734 (a - s_rtt_variance s) ;;
  var <- ck_i32 734 (s_rtt_variance s + Z.quot b 4) ;;
  upd_sk (ss_rtt_variance var) ;;;
  c <- ck_i32 735 (current_delay - s_rtt s) ;;
  rtt <- ck_i32 735 (s_rtt s + Z.quot c 8) ;;
  upd_sk (ss_rtt rtt) ;;;
  v4 <- ck_i32 737 (var * 4) ;;
  t <- ck_i32 737 (rtt + v4) ;;
  upd_sk (ss_congestion_timeout (Z.min (Z.max (u64 t) MIN_CONGESTION_TIMEOUT) MAX_CONGESTION_TIMEOUT)).

(** socket.rs:754-757 [filtered_current_delay] *)
Definition filtered_current_delay (s : socket) : Z := f_to_i64 (ewma (map snd (s_current_delays s)) f_0_333).

(** socket.rs:760-762 [min_base_delay] *)
Definition min_base_delay (s : socket) : Z :=
  match s_base_delays s with [] => 0 | d :: rest => fold_left Z.min rest d end.

(** socket.rs:986-996 [queuing_delay]; the subtraction of delays is time.rs:76 *)
Definition queuing_delay : M Z :=
  s <- get_sk ;;
  ck_i64 76 (filtered_current_delay s - min_base_delay s).

(** socket.rs:1065: [(TARGET - delay as f64) / TARGET] *)
Definition off_target_of (q : Z) : f64 := f_div (f_sub (f_of_Z TARGET) (f_of_Z (u32 q))) (f_of_Z TARGET).

(** socket.rs:1020-1024: the window before clamping *)
Definition grown_cwnd (off_target : f64) (bytes cwnd : Z) : Z :=
  let inc := f_mul (f_mul (f_mul (f_of_Z 1) off_target) (f_of_Z bytes)) (f_of_Z MSS) in
  let inc := f_div inc (f_of_Z cwnd) in
  f_to_u32 (f_add (f_of_Z cwnd) inc).

(** socket.rs:1017-1031 [update_congestion_window] *)
Definition update_congestion_window (off_target : f64) (bytes_newly_acked : Z) : M unit :=
  s <- get_sk ;;
  let c := grown_cwnd off_target bytes_newly_acked (s_cwnd s) in
  upd_sk (ss_cwnd c) ;;;
  max_allowed <- ck_u32 1025 (s_curr_window s + ALLOWED_INCREASE * MSS) ;;
  upd_sk (ss_cwnd (Z.max (Z.min c max_allowed) (MIN_CWND * MSS))).

(** socket.rs:1049-1072: the [Some(index)] branch of [handle_state_packet] *)
Definition sum_len (l : list packet) : Z := fold_left (fun acc p => acc + packet_len p) l 0.
Definition process_ack (index : nat) : M unit :=
  s <- get_sk ;;
  let bytes := sum_len (firstn (index + 1) (s_send_window s)) in
  now <- now_microseconds ;;
  p <- unwrap 1060 (nth_error (s_send_window s) index) ;;
  let our_delay := ts_sub now (timestamp p) in
  update_base_delay our_delay now ;;;
  update_current_delay our_delay now ;;;
  q <- queuing_delay ;;
  update_congestion_window (off_target_of q) (u32 bytes) ;;;
  q' <- queuing_delay ;;
  d <- ck_i64 76 (our_delay - q') ;;
  update_congestion_timeout (i32 (u32 d / 1000)).

(** socket.rs:831-852 [advance_send_window] *)
Fixpoint drop_acked (n : nat) : M unit :=
  match n with
  | O => ret tt
  | S n' =>
    s <- get_sk ;;
    match s_send_window s with
    | [] => fail (Panic 847)
    | p :: rest =>
      upd_sk (ss_send_window rest) ;;;
      c <- ck_u32 848 (s_curr_window s - u32 (packet_len p)) ;;
      upd_sk (ss_curr_window c) ;;;
      drop_acked n'
    end
  end.
Definition advance_send_window : M unit :=
  s <- get_sk ;;
  match position (fun p => seq_nr p =? s_last_acked s) (s_send_window s) with
  | Some pos => drop_acked (pos + 1)
  | None => ret tt
  end.

(** ** Mutually recursive part: [recv] is a parameter [rec] here and tied below. *)
Section Open.
  Variable rec : nat -> M (list byte * addr).

  (** socket.rs:648-689 [send_packet].  Returns the packet as modified in place. *)
  Definition send_packet (p : packet) : M packet :=
    s <- get_sk ;;
    let max_inflight := Z.max (MIN_CWND * MSS) (Z.min (s_cwnd s) (s_remote_wnd_size s)) in
    now <- now_microseconds ;;
    fuel <- event_fuel ;;
    loop fuel (fun _ : unit =>
      s <- get_sk ;;
      if max_inflight <=? s_curr_window s then
        now' <- now_microseconds ;;
        if ts_sub now' now <? PRE_SEND_TIMEOUT
        then rec BUF_SIZE ;;; ret (inl tt)
        else ret (inr tt)
      else ret (inr tt)) tt ;;;
    s <- get_sk ;;
    let distance_a := u16 (seq_nr p - s_last_acked s) in
    let distance_b := u16 (s_last_acked s - seq_nr p) in
    if distance_b <? distance_a then ret p
    else
      t <- now_microseconds ;;
      let p' := set_timestamp_difference (s_their_delay s) (set_timestamp t p) in
      r <- udp_send (s_connected_to s) p' ;;
      try_ r ;;;
      ret p'.

  (** Running a call and ignoring its [Result] ([let _ = ..await]); panics and suspension still propagate. *)
  Definition ignore_result {A} (m : M A) : M unit := fun s =>
    match m s with
    | (Ret _, s') => (Ret tt, s')
    | (Fail (Throw _), s') => (Ret tt, s')
    | (Fail f, s') => (Fail f, s')
    end.

  (** socket.rs:808-828 [resend_lost_packet]: works on a clone *)
  Definition resend_lost_packet (lost : Z) : M unit :=
    s <- get_sk ;;
    match position (fun p => seq_nr p =? lost) (s_send_window s) with
    | None => ret tt
    | Some pos =>
      p <- unwrap 819 (nth_error (s_send_window s) pos) ;;
      ignore_result (send_packet p)
    end.

  (** socket.rs:1089-1100: the lost packets announced by one selective ack.  [bits] are the bits from
      index [idx] on; evaluation is lazy, stops at the first number not below [last_seq]. *)
  Fixpoint resend_gaps (ack : Z) (idx : nat) (bits : list bool) (last_seq : Z) (loss : bool) : M bool :=
    match bits with
    | [] => ret loss
    | true :: rest => resend_gaps ack (S idx) rest last_seq loss
    | false :: rest =>
      a <- ck_u16 1093 (ack + 2) ;;
      sq <- ck_u16 1093 (a + u16 (Z.of_nat idx)) ;;
      if sq <? last_seq
      then resend_lost_packet sq ;;; resend_gaps ack (S idx) rest last_seq true
      else ret loss
    end.

  (** socket.rs:1078-1105: the loop over the extensions; returns [packet_loss_detected] *)
  Fixpoint process_extensions (ack : Z) (exts : list extension) (loss : bool) : M bool :=
    match exts with
    | [] => ret loss
    | e :: rest =>
      if is_sack (ext_ty e) then
        loss1 <- (if 3 <=? count_ones (ext_data e)
                  then n <- ck_u16 1084 (ack + 1) ;; resend_lost_packet n ;;; ret true
                  else ret loss) ;;
        s <- get_sk ;;
        loss2 <- (match last_opt (s_send_window s) with
                  | None => ret loss1
                  | Some lp =>
                    bits <- unwrap 1090 (bits_of (ext_data e)) ;;
                    resend_gaps ack 0 bits (seq_nr lp) loss1
                  end) ;;
        process_extensions ack rest loss2
      else process_extensions ack rest loss
    end.

  (** socket.rs:1035-1041 *)
  Definition note_ack (ack : Z) : M unit :=
    s <- get_sk ;;
    if ack =? s_last_acked s then
      d <- ck_u32 1036 (s_duplicate_ack_count s + 1) ;;
      upd_sk (ss_duplicate_ack_count d)
    else
      upd_sk (ss_last_acked ack) ;;;
      t <- now_microseconds ;;
      upd_sk (fun s => ss_duplicate_ack_count 1 (ss_last_acked_timestamp t s)).

  (** socket.rs:1107-1128: fast retransmission, window halving, advancing the window *)
  Definition finish_state_packet (ack : Z) (exts : list extension) (loss : bool) : M unit :=
    s <- get_sk ;;
    (if negb (is_nil (s_send_window s)) && (s_duplicate_ack_count s =? 3)
        && negb (existsb (fun e => is_sack (ext_ty e)) exts)
     then n <- ck_u16 1116 (ack + 1) ;; resend_lost_packet n
     else ret tt) ;;;
    (if loss then upd_sk (fun s => ss_cwnd (Z.max (s_cwnd s / 2) (MIN_CWND * MSS)) s) else ret tt) ;;;
    advance_send_window.

  (** socket.rs:1034-1128 [handle_state_packet] *)
  Definition handle_state_packet (p : packet) : M unit :=
    note_ack (ack_nr p) ;;;
    s <- get_sk ;;
    (match position (fun q => ack_nr p =? seq_nr q) (s_send_window s) with
     | Some index => process_ack index
     | None => ret tt
     end) ;;;
    s <- get_sk ;;
    let loss := negb (is_nil (s_send_window s)) && (s_duplicate_ack_count s =? 3) in
    exts <- unwrap 1079 (extensions p) ;;
    loss' <- process_extensions (ack_nr p) exts loss ;;
    finish_state_packet (ack_nr p) exts loss'.

  (** socket.rs:861-863 *)
  Definition ack_in_order (p : packet) : M unit :=
    upd_sk (fun s => if u16 (seq_nr p - s_ack_nr s) =? 1 then ss_ack_nr (seq_nr p) s else s).

  (** socket.rs:883-956: the dispatch on (state, type) *)
  Definition dispatch (p : packet) (ty : ptype) (src : addr) : M (option packet) :=
    s <- get_sk ;;
    match s_state s, ty with
    | New, PSyn =>
      upd_sk (fun s => ss_ack_nr (seq_nr p) (ss_connected_to src s)) ;;;
      sq <- random_u16 ;;
      upd_sk (ss_seq_nr sq) ;;;
      rid <- ck_u16 888 (connection_id p + 1) ;;
      upd_sk (fun s => ss_last_dropped (s_ack_nr s) (ss_state Connected
        (ss_sender_connection_id (connection_id p) (ss_receiver_connection_id rid s)))) ;;;
      r <- prepare_reply p PState ;; ret (Some r)
    | _, PSyn => r <- prepare_reply p PReset ;; ret (Some r)
    | SynSent, PState =>
      upd_sk (fun s => ss_ack_nr (seq_nr p) (ss_connected_to src s)) ;;;
      sq <- ck_u16 899 (s_seq_nr s + 1) ;;
      upd_sk (fun s => ss_last_acked (ack_nr p) (ss_state Connected (ss_seq_nr sq s))) ;;;
      t <- now_microseconds ;;
      upd_sk (ss_last_acked_timestamp t) ;;;
      ret None
    | SynSent, _ => throw_se InvalidReply
    | Connected, PData | FinSent, PData => handle_data_packet p
    | Connected, PState => handle_state_packet p ;;; ret None
    | Connected, PFin | FinSent, PFin =>
      reply <- prepare_reply p PState ;;
      reply' <- attach_sack p reply ;;
      upd_sk (ss_state Closed) ;;;
      ret (Some reply')
    | Closed, PFin => r <- prepare_reply p PState ;; ret (Some r)
    | FinSent, PState =>
      (* 943: the future returned by [handle_state_packet] is dropped without being awaited *)
      (if ack_nr p =? s_seq_nr s then upd_sk (ss_state Closed) else ret tt) ;;;
      ret None
    | _, PReset => upd_sk (ss_state ResetReceived) ;;; throw_se ConnectionReset
    | _, _ => throw_se Other
    end.

  (** socket.rs:857-957 [handle_packet] *)
  Definition handle_packet (p : packet) (src : addr) : M (option packet) :=
    ack_in_order p ;;;
    ty <- m_get_type p ;;
    s <- get_sk ;;
    if negb (ptype_eqb ty PSyn) && negb (sstate_eqb (s_state s) SynSent)
       && negb ((connection_id p =? s_sender_connection_id s) || (connection_id p =? s_receiver_connection_id s))
    then r <- prepare_reply p PReset ;; ret (Some r)
    else
      upd_sk (ss_remote_wnd_size (wnd_size p)) ;;;
      now <- now_microseconds ;;
      upd_sk (ss_their_delay (abs_diff now (timestamp p))) ;;;
      dispatch p ty src.

  (** socket.rs:791-806 [send_fast_resend_request]: one of its three packets; send errors are ignored *)
  Definition fast_resend_packet : M unit :=
    t <- now_microseconds ;;
    s <- get_sk ;;
    r <- udp_send (s_connected_to s)
      (set_ack_nr (s_ack_nr s)
      (set_seq_nr (s_seq_nr s)
      (set_connection_id (s_sender_connection_id s)
      (set_timestamp_difference (s_their_delay s)
      (set_timestamp t
      (set_type PState packet_new)))))) ;;
    ret tt.
  Definition send_fast_resend_request : M unit :=
    fast_resend_packet ;;; fast_resend_packet ;;; fast_resend_packet.

  (** socket.rs:324-334 and 483-493: building and sending a FIN *)
  Definition send_fin : M unit :=
    s <- get_sk ;;
    t <- now_microseconds ;;
    r <- udp_send (s_connected_to s)
      (set_type PFin
      (set_timestamp t
      (set_ack_nr (s_ack_nr s)
      (set_seq_nr (s_seq_nr s)
      (set_connection_id (s_sender_connection_id s) packet_new))))) ;;
    try_ r.

  (** socket.rs:458-513 [handle_receive_timeout] *)
  Definition handle_receive_timeout : M unit :=
    s <- get_sk ;;
    c <- ck_u64 459 (s_congestion_timeout s * 2) ;;
    upd_sk (fun s => ss_cwnd MSS (ss_congestion_timeout c s)) ;;;
    s <- get_sk ;;
    match s_send_window s with
    | [] =>
      if sstate_eqb (s_state s) FinSent then send_fin
      else if negb (sstate_eqb (s_state s) New) then send_fast_resend_request
      else ret tt
    | p :: rest =>
      t <- now_microseconds ;;
      let p' := set_timestamp t p in
      upd_sk (ss_send_window (p' :: rest)) ;;;
      r <- udp_send (s_connected_to s) p' ;;
      try_ r
    end.

  (** socket.rs:385-424: waiting for a datagram.  The loop variable is [retries]. *)
  Definition is_timeout (k : kind) : bool := match k with KWouldBlock | KTimedOut => true | _ => false end.
  Definition wait_datagram : M (list byte * addr) :=
    fuel <- event_fuel ;;
    loop fuel (fun retries : Z =>
      s <- get_sk ;;
      if s_max_retries s <=? retries then
        upd_sk (ss_state Closed) ;;; throw_se ConnectionTimedOut
      else
        r <- udp_recv (BUF_SIZE + HEADER_SIZE) ;;
        match r with
        | Ok x => ret (inr x)
        | Err k => if is_timeout k then handle_receive_timeout ;;; ret (inl (retries + 1)) else throw k
        end) 0.

  (** socket.rs:426-455: processing the datagram; [n] is the length of the caller's buffer.
      Returns the bytes written to that buffer and the source. *)
  Definition process_datagram (n : nat) (b : list byte) (src : addr) : M (list byte * addr) :=
    parsed <- unwrap 427 (packet_try_from b) ;;
    match parsed with
    | Err _ => s <- get_sk ;; ret ([], s_connected_to s)
    | Ok p =>
      reply <- handle_packet p src ;;
      (match reply with
       | Some pkt => r <- udp_send src (set_wnd_size WINDOW_SIZE pkt) ;; try_ r
       | None => ret tt
       end) ;;;
      ty <- m_get_type p ;;
      s <- get_sk ;;
      (if ptype_eqb ty PData && (0 <? u16 (seq_nr p - s_last_dropped s)) then insert_into_buffer p else ret tt) ;;;
      data <- flush_incoming_buffer n ;;
      ret (data, src)
    end.

  (** socket.rs:379-456 [recv] *)
  Definition recv_body (n : nat) : M (list byte * addr) :=
    bs <- wait_datagram ;;
    process_datagram n (fst bs) (snd bs).
End Open.

(** Tying the knot: [recv] can re-enter itself through [handle_state_packet], but only after consuming an
    event. *)
Fixpoint recv_fuel (fuel : nat) (n : nat) : M (list byte * addr) :=
  match fuel with
  | O => fail NoFuel
  | S f => recv_body (recv_fuel f) n
  end.
Definition recv (n : nat) : M (list byte * addr) :=
  fuel <- event_fuel ;; recv_fuel fuel n.

(** ** Public operations *)

(** socket.rs:352-377 [recv_from] with a buffer of [n] bytes *)
Definition recv_from (n : nat) : M (list byte * addr) :=
  data <- flush_incoming_buffer n ;;
  s <- get_sk ;;
  if negb (is_nil data) then ret (data, s_connected_to s)
  else if sstate_eqb (s_state s) ResetReceived then throw_se ConnectionReset
  else
    fuel <- event_fuel ;;
    loop fuel (fun _ : unit =>
      s <- get_sk ;;
      if sstate_eqb (s_state s) Closed then ret (inr ([], s_connected_to s))
      else
        x <- recv n ;;
        if is_nil (fst x) then ret (inl tt) else ret (inr x)) tt.

(** socket.rs:638-645 [send] *)
Definition send : M unit :=
  s <- get_sk ;;
  loop (S (length (s_unsent_queue s))) (fun _ : unit =>
    s <- get_sk ;;
    match s_unsent_queue s with
    | [] => ret (inr tt)
    | p :: rest =>
      upd_sk (ss_unsent_queue rest) ;;;
      p' <- send_packet recv p ;;
      s <- get_sk ;;
      c <- ck_u32 641 (s_curr_window s + u32 (packet_len p')) ;;
      upd_sk (fun s => ss_send_window (s_send_window s ++ [p']) (ss_curr_window c s)) ;;;
      ret (inl tt)
    end) tt.

(** socket.rs:608-618: queueing the chunks *)
Definition chunk_packet (s : socket) (chunk : list byte) : packet :=
  set_connection_id (s_sender_connection_id s) (set_ack_nr (s_ack_nr s) (set_seq_nr (s_seq_nr s) (with_payload chunk))).
Definition queue_chunk (chunk : list byte) (s : socket) : socket :=
  ss_seq_nr (u16 (s_seq_nr s + 1)) (ss_unsent_queue (s_unsent_queue s ++ [chunk_packet s chunk]) s).
Definition CHUNK : nat := 1380. (* MSS as usize - HEADER_SIZE, line 608 *)

(** socket.rs:601-624 [send_to]; returns the number of bytes accepted *)
Definition send_to (buf : list byte) : M Z :=
  s <- get_sk ;;
  if sstate_eqb (s_state s) Closed then throw_se ConnectionClosed
  else
    upd_sk (fun s => fold_left (fun s c => queue_chunk c s) (chunks CHUNK buf) s) ;;;
    send ;;;
    ret (zlen buf).

(** socket.rs:627-635 [flush] *)
Definition flush : M unit :=
  fuel <- event_fuel ;;
  loop fuel (fun _ : unit =>
    s <- get_sk ;;
    if is_nil (s_send_window s) then ret (inr tt)
    else recv BUF_SIZE ;;; ret (inl tt)) tt.

(** socket.rs:312-345 [close] *)
Definition close : M unit :=
  s <- get_sk ;;
  match s_state s with
  | Closed | New | SynSent => ret tt
  | _ =>
    flush ;;;
    send_fin ;;;
    upd_sk (ss_state FinSent) ;;;
    fuel <- event_fuel ;;
    loop fuel (fun _ : unit =>
      s <- get_sk ;;
      if sstate_eqb (s_state s) Closed then ret (inr tt)
      else recv BUF_SIZE ;;; ret (inl tt)) tt
  end.

(** socket.rs:1169-1173 [Drop]: [close], its result discarded *)
Definition drop_socket : M unit := ignore_result close.

(** socket.rs:250-306 [connect].  [other] is the resolved argument, [bound] the result of binding the local
    UDP socket.  The resulting socket is the state's socket. *)
Definition wildcard (a : addr) : addr := match a with V4 _ => V4 0 | V6 _ => V6 0 end.
Definition syn_packet (s : socket) : packet :=
  set_seq_nr (s_seq_nr s) (set_connection_id (s_receiver_connection_id s) (set_type PSyn packet_new)).
(** 268-296: the retry loop; [packet] is modified in place; returns the reply's bytes ([] after 5 timeouts) *)
Fixpoint syn_loop (tries : nat) (p : packet) : M (list byte) :=
  match tries with
  | O => ret []
  | S k =>
    t <- now_microseconds ;;
    let p' := set_timestamp t p in
    s <- get_sk ;;
    r <- udp_send (s_connected_to s) p' ;;
    try_ r ;;;
    upd_sk (ss_state SynSent) ;;;
    x <- udp_recv BUF_SIZE ;;
    match x with
    | Ok (b, src) => upd_sk (ss_connected_to src) ;;; ret b
    | Err e => if is_timeout e then syn_loop k p' else throw e
    end
  end.
Definition connect (other : result (list addr) kind) (bound : result unit kind) : M unit :=
  a <- take_address other ;;
  bind_socket (Ok [wildcard a]) bound ;;;
  upd_sk (ss_connected_to a) ;;;
  s <- get_sk ;;
  b <- syn_loop MAX_SYN_RETRIES (syn_packet s) ;;
  s <- get_sk ;;
  parsed <- unwrap 299 (packet_try_from b) ;;
  match parsed with
  | Err e => throw (kind_of_parse_error e)
  | Ok p => handle_packet recv p (s_connected_to s) ;;; ret tt
  end.

(** socket.rs:1229-1261 [accept].  [ev]: what the listener's UDP socket yields; [local]: the listener's
    local address; [bound]: result of binding the new UDP socket.  The state's world is that of the new
    UDP socket, the state's socket the connection created. *)
Definition accept (ev : rx) (local : result addr kind) (bound : result unit kind) : M addr :=
  match ev with
  | RxCancel => fail Pend
  | RxErr k => throw k
  | RxDgram data src =>
    parsed <- unwrap 1233 (packet_try_from (firstn BUF_SIZE data)) ;;
    match parsed with
    | Err e => throw (kind_of_parse_error e)
    | Ok p =>
      ty <- m_get_type p ;;
      if negb (ptype_eqb ty PSyn) then throw_se Other
      else
        try_ local ;;;
        try_ bound ;;;
        from_raw_parts src ;;;
        fun s =>
          match handle_packet recv p src s with
          | (Ret (Some reply), s1) => (r <- udp_send src reply ;; try_ r ;;; ret src) s1
          | (Ret None, s1) => throw_se Other s1
          | (Fail (Throw _), s1) => throw_se Other s1
          | (Fail f, s1) => (Fail f, s1)
          end
    end
  end.

(** ** Histories of calls on one socket *)
Inductive op :=
| ORecvFrom (n : nat) | OSendTo (data : list byte) | OFlush | OClose | OSetRetries (n : Z) | OPeerAddr.

(** What a call returns. *)
Inductive value := VData (d : list byte) (src : addr) | VLen (n : Z) | VUnit | VAddr (a : addr).

Definition run_op (o : op) : M value :=
  match o with
  | ORecvFrom n => x <- recv_from n ;; ret (VData (fst x) (snd x))
  | OSendTo d => n <- send_to d ;; ret (VLen n)
  | OFlush => flush ;;; ret VUnit
  | OClose => close ;;; ret VUnit
  | OSetRetries n => upd_sk (ss_max_retries (u32 n)) ;;; ret VUnit (* the public field of line 178 *)
  | OPeerAddr => a <- peer_addr ;; ret (VAddr a)
  end.

(** A history: each call runs whatever the outcome of the previous one was; a panic ends it. *)
Fixpoint run_ops (ops : list op) (s : st) : list (outcome value) * st :=
  match ops with
  | [] => ([], s)
  | o :: rest =>
    match run_op o s with
    | (Fail (Panic l), s') => ([Fail (Panic l)], s')
    | (r, s') => let (rs, s'') := run_ops rest s' in (r :: rs, s'')
    end
  end.
